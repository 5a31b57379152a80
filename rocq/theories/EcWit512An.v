(** Witnesses for checking the table of ecp_id_tc26_gost_3410_2012_512_paramSetA.c (EcTableCheck.v): slopes, quotients and intermediate points. *)
From Coq Require Import List Uint63.
From Verif Require Import IntPoly EcTableCheck.
Import ListNotations.
Local Open Scope uint63_scope.
Local Notation V := unp2.
Definition wit_512A_32_0 : colwit ipt wit := mk_colwit (V [0x2afd9d2ea137c;0x8de1fdb21fb98;0xa04f2e4375bf4;0x2a9516151d2a6;0xf4434bbcd405d;0xf6b0470a132b2;0x954f43a58a5e5;0xbff15cf51db00;0x996ab97a5869d;0x3b89dcfc622] [0xd307591afc051;0xe01f91f18bb3f;0x7fddf64d854d7;0x5b1c7534ed3b3;0x2ca209dc631d8;0x6fb784809a3e9;0xe98e183e670ee;0x3da7a6f14686;0xa8a391774c79;0xc813c4e2e2e])
 [[0xdb155b014a17d;0x68ded999fd995;0x15e85fc73f244;0x96921ef2c13a5;0x576d9545ede25;0x13e54c9cd9169;0x3147c6697f6c2;0xfc0790fe154b4;0x274ad3def9c5b;0x52277ec15a3];[0x9;0x0;0x0;0x0;0x0;0x0;0x0;0x0;0x0;0x0];[0x0];[0x0;0x2e5ce9cf0236f;0x94d021769dc43;0x8d96a210c65b0;0x69dd87d4814b6;0xf70190dc88944;0xd99d61e4dde55;0x4fda45930e6d2;0xea9caa7670ae6;0xea7fd004a5133;0x4b1a8c3aca2];[0x0;0x534bd792b6c41;0xb3e40c031a090;0x586d912b709cc;0xad9df325564ef;0x45a22e1e7434e;0x8f242e7d80d36;0x663b2a8d4aab8;0x6b1612e214ddf;0x4b4f1532c5957;0x1a5d534bbb7];[0x0;0x4f7c6d45dd4d7;0xaf3dc2f461661;0x6a910ba2edee3;0x1b889be2b9f99;0xfc2371f830fca;0xbf2af4c4d91b9;0xcbcab93530b04;0x64881e840d561;0x4d4fb22cfbb25;0x52668ae7d7381]]
 [[[0x80b3dacf656a1;0xfab394b9d01e4;0x4eac356c63068;0x2e418bf4a3656;0xbb7875251cde9;0x27717c9ef3048;0xa0250025f8c9a;0xde621906c1bd1;0xd8242eb1cb5b6;0x35cfdbf3533];[0x0;0x96e4d9b2f13d4;0x412c90a80e891;0x6182aa673cf8d;0x6290206e2aa99;0x7e8ea56b6533e;0xe6fcfdfb76848;0x5db15d6199cb8;0x2008a4642359a;0xa6d5632be5dc7;0x36122fb1a8086];[0x0;0x598e497c8a609;0x3c2b87d8067d3;0x6cf59755bcd7b;0x53322ebc89f4a;0x5da7d75af30ee;0x51feab56522f2;0xad8f47b446a17;0xc7d8cc71b2d56;0x24d1abc46d637;0xb4fb9d830f];[0x0;0x7cacf24d9acab;0x57fbcf0a7833a;0x19656c41c3a48;0xacf95df4fe602;0x491c7da03532f;0x635de8e3b0d9b;0xaea3866e77d0;0x307db169ad2ce;0xeea111697a279;0x35e39e7649d35]];
 [[0xced4c700e2d3;0x3228c6e162be0;0xee851db439cca;0x35313e0eb175;0xeb145016970bb;0x53126789c8bc3;0x37bf50d880700;0x340d11bb464ef;0xf20b75ade53b7;0x12d43f40313];[0x0;0x957ad00cd08d2;0xc698730e2645a;0xa1d8f3f82f38;0xed7f8e92e8320;0x18356d72e5d66;0xbb69d30501f6f;0x2ff8c8e85d375;0x7007f988d4995;0x87187502f62ae;0x12df8a4eb2fd5];[0x0;0x47581369c395d;0x93b4967d030b8;0x4198eeb102237;0x5ece509507f05;0xd8be8f7702b6a;0xee1e63813d6b0;0x758ef014b8360;0x965442e01e75c;0xf197db399987e;0x16288ddd8d];[0x0;0x1995fed1ee683;0xa3bcdfa7d5f61;0x4723976eafba4;0xbdd8962afcb9b;0x653acf65fee17;0x5d1b9c301ddc5;0x6d6ec35cb9752;0x7941525d5ceca;0xc4a2416f35021;0x12eca041647f1]];
 [[0x272252e0b0d50;0x379961bdb116;0x41c866950c975;0x4a94f8d154e4;0xa8d27810e22ea;0x1a9331a173ece;0xbaad8253fbbe0;0x87db2136926d;0xca6037d7ebf69;0xdbd5293f13d];[0x0;0xf3e00546bd6a2;0xce3981a63746;0xa888366316d1;0xc385d3d097ce9;0x7238fd10492b6;0x501d35fec93cb;0x7523243293b18;0xf10ebfc4048f4;0xa0428f5f12fba;0xdc99ce5f6e018];[0x0;0xc52758c9d5193;0x4a6660cf59f4d;0xb93a41637b6f1;0x661b577756f7f;0xb53c668fa0637;0x3c468f631201e;0xd5bc14119f75d;0xdd4a13511da04;0x7d51dafd70324;0xbcc6660f959];[0x0;0xf56ecd71ff840;0xa2365d4c8c5d9;0x3b158bc1d1d65;0x7e615dcb99f97;0xf50338df7019;0x79ee7060702e2;0x703126f73325e;0xa8f87a1b5f0f;0x660b0cf8da8d9;0xdc93e0a34a98f]];
 [[0xb5d5b0726a5a9;0x5a51589b10cdc;0x1153949a98159;0x9c3fce0896d54;0x396d33cb4f90c;0x76cb543d87c7f;0xe5ba62c406f80;0xef479dc16acec;0xe0531b2e0d7f;0xcba702d8d73];[0x0;0x1cb60c2acbc7b;0xd1301a39b1890;0x737ae037264a6;0x90b4527fe319c;0x4174f2593a3f;0x3542fe4f98c17;0x5899438ac8e38;0xaf11d1deb5d2d;0x7900b5c0010a7;0xcc4235944afea];[0x0;0x8e73aa815dad5;0x68aaf4f50256b;0xd51fb6e30c246;0x417c1a7eff589;0x9994a2e7379d7;0x604be0aa3ffb0;0x9d06aee2eee8e;0x93b5a1bea751f;0x8609114677a49;0xa2024b789c3];[0x0;0xbc7bde1fd0e73;0x5a1b0eb04bdaf;0x57ca762b89607;0xe99f5f8c8d249;0x372c82e83cdfc;0xe37dc8bbea163;0x2d580ca7ba49f;0xc3fe9f5cf9beb;0xbf3dd5b5f352a;0xcc67d56694418]];
 [[0xa6b8e3d5278c1;0xa76c40b0a74a6;0xea264fab1f436;0xd46fe14d269cd;0x20117038dcfa2;0x464ab3d142f61;0xd5f40523f6e24;0xe73f57f3e7e89;0x5b69750e175d6;0x28313467f22];[0x0;0xda8efff333f71;0xb991ec5cbf3d4;0x3699907423205;0x227a0834ea4d2;0x78a2cdc0760ce;0xe7e43a8436f1d;0x2da3f786541ed;0x889c10c7d5eae;0xef4fd3b25ad89;0x284db260804dd];[0x0;0xdbe07ca7d58b8;0x4523f9acf8c77;0x99923c78e3ab5;0x79cce0007d66c;0x2513775874258;0xa3388d05f3481;0x3d736f3426e27;0x50b7970328f23;0xe01340c52485;0x64f69d5963];[0x0;0x8398537c0a641;0x21c5a5888d493;0x4583f015c8bb7;0xcded4ea0be0ed;0x975f6a5e793ca;0x2bc481d571710;0x6b3a100574366;0x996de464ee03d;0x116d45a2e3403;0x285eee583fbc8]];
 [[0x61cf4a38f3d74;0xf382f23e02127;0x79fa1ecadbd1a;0x9a92ddd4a768d;0x42e256215d859;0x28b87764b9039;0x7380105b3a3ad;0x6e38a62f0f040;0x1985f7f7cdc5a;0x75461b3d136];[0x0;0x3d28676b14077;0x706e9b30e468;0x1e4e5e6ed07d;0xd26f2aa484212;0x1ab894f89ff30;0x5f17d012c2bb6;0x9f9efaa54ea0b;0x893077995e3ef;0x34b0b8d54635f;0x75a9638ebcb7c];[0x0;0x2699f99ba6224;0x9c4a7909226c7;0x5cc73e53989d;0x8e658d8fbb18a;0xcc914ba415dc0;0xf48a7cb0d952e;0x18712eac241fb;0x422cd592ec3b0;0x3bf4f72e03ded;0x35b92818bc0];[0x0;0x9adf274b5005f;0x4dde989b9e77;0x46d1aaf8c511;0x4a4e78b108cab;0x8a0872d29eea9;0xa75e2211b217a;0xc6fd6f2e4dabd;0x200810ad470f1;0xbe2c93f27134c;0x75bad0084124e]];
 [[0x9457ce6001d00;0x97049296c5f37;0x67e681e85c517;0xfd9760bde4ce8;0xb09715141f5b5;0x1193cdb664d4;0xd0f3e7247e487;0xb409eb6a2a384;0x3cfcb10bf5cc9;0x2168ae6b13f];[0x0;0xf5d2cf90219d6;0x9a2f2054a9367;0xb54fe63d2f0b8;0xc5ce9f8acb3eb;0xc11e7839a2060;0xd5d58ab9c4f61;0x6b563b31e5691;0x32589a72c9cb2;0xa5527510d5360;0x2184cd9bd88b2];[0x0;0x23c5e8829736e;0x604e79c6b965f;0x46d5a7d98f906;0x802ba72ab3fc9;0x4b39bce5b0a39;0xf512e2264c2af;0x5376bac608b56;0xcf0ed153c1bd0;0xacd944d24c8f7;0x45c27c5c8f];[0x0;0x33ab8d1efa834;0x9a82be19a991d;0x59b4da349656a;0x1cb707116a675;0x54661ad49b1eb;0x476431a95746c;0x7b1d104c3d92a;0xbab7c1a03df3b;0xfbcab643ea394;0x2190da172de45]];
 [[0xb52c269d8f13c;0x73d9c59fefe42;0x20bf59ecdd704;0x38671e1a23195;0x48c9956b5bc38;0x575386c780396;0x77b4df28e8fec;0x432de93cf21af;0xf5d0d79a47f8a;0x4069ffcd551];[0x0;0xbc38af8cc62de;0x36c2f26fe1b72;0xe872c36f4788d;0x9dbaf22738748;0x446ee568d0bc3;0x4dd0160331d18;0xf17391cb4a9b0;0xe83bc5e2178ae;0x1c6765ed96c34;0x40ad41a3f8ea3];[0x0;0xb89c0d43b764f;0xa7efbf18a867e;0x2339a7f3b2b41;0xfdee515169c80;0xfec2dcae8796d;0x61f00bcb87de2;0xe9a231ae9f76;0xe669432ca8802;0xa3686fdc9c042;0x10352bca809];[0x0;0x895ebd8ae2907;0x917d437200b0;0xe489936372a6f;0xcd6095ad9e832;0xa6f1edc65c;0x7d1e05bfe6cf1;0x4c8bb06813b8e;0xd8d35938acd1b;0x2c9531432f15c;0x409303f70945d]];
 [[0xa995d46c0d874;0x8d8c5e0d9d9f2;0xfcbe1b8f02d0b;0xa18bdf8c89a65;0x668d43390e210;0x8092d01b3e05a;0x8e104448f8f04;0x16d86e3894cf2;0x498273ed0859d;0x9d18edb33de];[0x0;0x3773585eb2097;0xe1d81bfd194bd;0xe3894def003c9;0x6d0937f3295db;0x6cf9e07e0c7d3;0x1a42f0460938a;0x983715c841f35;0x266479fc7781c;0xff777c308750;0x9d83e5503064d];[0x0;0x2d8b27fb75b1d;0xcbf71e7eabbf6;0x6db7fd80f31ec;0xa3e6afd96e2d5;0xf00b89a4d9f1d;0x961b10d5222a4;0x73e156bd12b12;0xbebf59776e31a;0xb5b9588c3b8cd;0x606795fb483];[0x0;0x9608404d29403;0x7e05a5848eb4e;0x9114e1ae141ca;0xcf8fdc659d80d;0x2a2ea09b8d2e2;0x5f849867d843b;0x29de4fea8556f;0x7f1b3f93a8d2e;0x6824ffe978bb2;0x9ddcce333bd42]];
 [[0x268b7c645aae5;0x7a9bd1892e940;0xb0711f5c23763;0xb006dfe9b4237;0xe2df05f6ab4f4;0x9249da5cdf455;0x6a78dad5ef35c;0xf30c041d02a7d;0xfbd1cecb20e41;0xc857bcd9f76];[0x0;0xd2c60847c10ea;0xa57769bb0694d;0xe3a0b72cb20b9;0xcc964f424a8d9;0x9dbab6066cce9;0x18f23ecdfad71;0x579ec7757e815;0x3f908744505fe;0x8c00cd8991ee0;0xc9119af5ac6d5];[0x0;0xd812025358366;0x9f5d0196e4546;0xeb828508ac417;0x8aa092445f948;0x40ec75193835f;0x53e558b890636;0xc5898ac863d56;0xe2eb940efb52d;0x5a27143d8fdae;0x9cc935267a1];[0x0;0xc4c71053302fc;0x14f06c1cca854;0x52930dd4cb5ec;0x9219162281672;0xa3e3fe53f3b1e;0xd5988ea709e7;0xd4a226508fc32;0x469b8471cfcfd;0x99fa7df738929;0xc8b0fcbe14a0a]];
 [[0xfe9bd8212d851;0x4396e06bbcc2;0x6199571d783a5;0x41c685f8867ed;0x86f7fe7004f41;0xdcfff5f1ee3e7;0x40f6c39b97cf;0x2955dc747b174;0xe8177a0b58099;0xa5458825292];[0x0;0xc58cd61f1aa1d;0x70be21b150e41;0xf9e167b5b54d;0x50351fa81cfaf;0x30f1f2b20d5e6;0xbadcdfcaed3dd;0xc7c9cc59d8f68;0xd01f2213dd897;0x365201c3d76ae;0xa5833772545b7];[0x0;0x96760f036d657;0xceed86cbcc095;0x729a7820ad871;0xdb92861d39c16;0xa4df9d27ac185;0xbd7bf8e712c93;0x6c4b63e183622;0x28e48af12a077;0x5a71c57470edd;0x6ab2b462938];[0x0;0xed2ae1be3b73e;0xad189780eadff;0xf4bd0037e3ec8;0xecdadeba264f;0x674e440e9f0cd;0xf9841f9a9f3f1;0x61040b6eaa41f;0x256ee3d4f5c32;0x42ef5191be6d6;0xa6481e6b227fc]];
 [[0xa555887f555;0x93a9acae85823;0x828f5b46776b4;0xcd55b8920d1fb;0x41a439308fa68;0x6f54c36412995;0x605dd9077357d;0xa5297777b27d6;0xd6ae0b5d82e73;0x3379372fffa];[0x0;0xd61c3e211765c;0xaeb0670ddf471;0xeb9d499912803;0x9bac41e1636d0;0x3c090eb472207;0xb9eccfc1f6c5e;0x671f9a236e3da;0x82f9d761bdd0e;0xc00a70221e11a;0x33a97d7449359];[0x0;0xa72e69774b5c7;0xf6d74d5747309;0x730a90153e62e;0x257d80228f1a3;0x2beca2f94f9f2;0x33b352984e971;0xb4773b359f0c7;0xf110b4ca041e4;0x47360f5d4c5e8;0xa598562572];[0x0;0x6b74f7cab1f26;0x25794684940ac;0xa428c1797234;0xa1ec28d14c37d;0xe4b76951b6bce;0x1cb953d0aca7;0xd12430da4c36b;0x385d8c012bcdd;0xade329006f590;0x33a489a05b587]];
 [[0xcbf8022cbd6b6;0xf7a68282e6d3d;0x5cfc17db2a30e;0x6eb809c19e9f4;0x19bd925c0123b;0xce712fb89ba60;0xa117943f8c654;0x88a6c23022b5b;0x905d2fb9f35a2;0x3a22c3842db];[0x0;0x72a2bacde6d82;0xa470d5b711022;0xb5eb3cd8ab7cd;0xea793436c97b2;0x6c5ac2ab2de8c;0xcd8df48fa1be3;0xd2bb72ab0cc52;0xf5e13b3bb1e1c;0x935e091969c34;0x3a5014763ae58];[0x0;0x3e39cb8f93f6b;0x831a6273259d4;0xd1b1d4fdda8d5;0x1dc9c4c9da6b;0x1c98432762921;0xc2a7ceaa7fc58;0x692aa817da58f;0x848458c105e33;0x69db033e6f945;0xd33c550692];[0x0;0xadc71676b2595;0x2489792bcba36;0xf43cd86824b5;0x498481a598cc5;0xfdea6dc9c5855;0xfb562ae8d5721;0xc870b2ccd2829;0x1f47484e4df86;0x3b2fe4fb40102;0x3a5e666ccb666]];
 [[0x68b24a6eac6d2;0xdcfc86e09e102;0x80a2de4a5a195;0x4e29481688afe;0x62525404b92ee;0xa3ec7a00ee828;0x3d46dddae9873;0x78f9fc9d9cc5a;0x427abfed01743;0xa5af10964a0];[0x0;0x2ff856d04d94f;0xdb0b78fc01ba4;0x1c286c767d132;0x335abb6084f32;0x728e1399918bf;0xfedf35525133b;0x3830a7e244441;0x2f93ac27ebd43;0x544ed0a8eb22e;0xa6347d70e68b5];[0x0;0xd790e5673b9ba;0x3b68740008aec;0x1470f937de528;0xb65c4a1b9c7cc;0xad651b615a131;0xd71110fb96798;0xfdcbe750511ff;0x19cb76c11ade5;0x5ae4d4ad902e6;0x6b3b231969f];[0x0;0x4b867a032da4a;0x7d7f132e9fa97;0x9d462319ea114;0x34b9b67813c03;0x455789d1cd293;0xf1eb482f15832;0x331c1f1ca85d4;0x3e1e747f1913e;0xb13ab0d2a56fc;0xa69934ca6cb1f]];
 [[0xa2a43c1cb055a;0xce20a517e5d5;0x159654ba09ce5;0xe929de1cfe3d4;0xc34241cd4b0ac;0x7d558efea8b37;0x698ef9d46272b;0x1e3ae32178375;0x690ccb48d8b8e;0x2201f153fac];[0x0;0xdf2d21feb2cf9;0x3dc0b53b2b421;0x50e525de5716;0xc01b148978e8d;0x1e4abf0bbcb0b;0xd21f58a3108cc;0xe1b5de2db9b8b;0x677ab5c09fd8f;0x76d2c019f1245;0x222b615ccac26];[0x0;0xbbc19c71eafe6;0x1c374f8ae3fd0;0xb2cc91510b365;0x89d09b0556d98;0xd837250d7732d;0x952fca23f2883;0xd3576db2f7fb7;0x8ae0a23214d55;0x3edb9f09abfb0;0x484841e14c];[0x0;0x91e6b3f78cb81;0x76f5d2dce1a93;0x9b9f1bdc55a1;0x1736b615f0e7;0x534e18827b047;0x9239255216e52;0x97c800a38ecbe;0xb5b08a5ef4257;0x28583dffa4004;0x22072660bcd64]]]
 (V [0xa19195776782e;0xc20466f5a9da8;0x7f330cb3d3f9d;0xc53aed8d29a98;0x7142837b42c47;0x6abf9a8b8f589;0xf8e2b4e7109f8;0xafdf2cb142885;0x89e3e0efa9fc;0xe79f88dc77a] [0x71c6616aa7db3;0x457dbf36ecbec;0x836e05cebe17c;0x2aa98d5a7bb2b;0xfbb2f18d34800;0xd3bb40e52ad17;0x37c4f51778d98;0xcf8e3ba92220d;0x25d8d69401610;0xfb962470e99]) [[0xab9d0082abbc4;0x3b20d61998e77;0xc650dea30591c;0xbc102b3592582;0x7bbb66fc952e8;0xe570331b0488b;0x78616075bc8c7;0x31acc05bca7b6;0xcb277d6b3dbf3;0x6f67e4b3258];[0x0;0x2f3b82afcefa7;0xaebc28af6d75c;0xaac8978b71398;0x5d230d5f55712;0xaa9e21b644aa3;0xa2b89e7b00dbb;0xa96df2c14cf11;0x9b5529b600f27;0x8265128fd78fa;0x6f7761cbd8a37];[0x0;0xe6703af142690;0x7e12425ea0fb6;0x86428a0d8818a;0xc12c99bdd8d3a;0x72b4efe7b9c96;0x20932a4434de;0x7edcf1f9d471a;0xd5a23f5ddd2c9;0x7d23baec7c068;0x307b427d2f0];[0x0;0x3b15a96219f3b;0x792fe52ec1310;0x4a82e7c5b91e8;0x41ac0a03c6cfb;0x8a9ac5345c092;0x3eb1ffafe2fac;0xcd041b65f19e2;0x5c603a94a14d1;0x908b7f26bba28;0x6fd26b3764ec0]]
 [((V [0xed4740474608f;0xa73705e03646;0xfb324444555c5;0x33b00e0b85c71;0xcb9843180e146;0xe6ac4507256ce;0x57f883afced30;0x1842af5641bad;0x64ce12770c661;0x37aea442d87] [0xc536bda141eb8;0x392ce291b279a;0x8b41a78a8bfd2;0x6de4f4b7846d2;0xf401e5287d89f;0x34e39cdd694ea;0xa424160329757;0x4e0f7688675a7;0x8cb004c3a37ff;0x84f6d0a40f6]),[[0xd40afae43e27c;0xff925adfa089a;0xa40e07bea1035;0xa9c5f80e39f0d;0xfb45d518dba6e;0xf1a104ff115a6;0x67bbe2d74af4b;0xb40f0229bdf73;0x7c984b4e53d4d;0x592347ed084];[0x1dacfcb1cc2d9;0x39915d843637b;0xa6b50b4a77a91;0xd43805d925920;0x8947716be94ce;0x642cb38bebd92;0x5486dca55c908;0x8e5967812a32c;0x9a41fbfa2bfdf;0xa1a904b2cc0];[0x0;0x2c6b57535ab3d;0xc6f767b68fbcf;0x8056273792ba5;0x906c4d2579086;0xcfe7ffd6875f7;0x56956e1fe0382;0xfeefc301f38ca;0xf00d8c436b4d6;0xb4f3cef57b202;0xd1914c692ae];[0x0;0x24dc1511bb01f;0x5428d45b43ef5;0x8ff1ded8c02c3;0xdf05ca8b52857;0xf1278c421ceeb;0xaa63384f90907;0xe1037b3edb5bb;0xd8bcd26782d3e;0x4395771964daf;0xaf33bdc3a5c];[0x0;0xb214e64b14fb3;0x4b082d9536a88;0xa7c4d55e27a3f;0x6a57590b469a5;0x3ab4c05a0a42d;0x2ab1f0db100a5;0x6f6dcd31756b9;0x94729b3337563;0x783cf87082816;0x1f098cdf8ec];[0x0;0xd4fd5b28c2b1b;0x67c3c15b5b95f;0x3a13e38f50741;0x31b701e85c7b9;0x6b65805dd54c5;0xab6e7448652d9;0xcd77afe47391;0x70e35079ea82c;0x2db06809f229b;0x59b9ae33ccb08]]);
 ((V [0xc0dd0767caad7;0xd4e8feb2c24e2;0x2d1cba952ff06;0xa5fc91eb5abaf;0x52da653b28e93;0x4376480d6a86c;0xb3ea521db382e;0xaf3da2a0540a5;0x3c83900a268a7;0x5a02ed4c840] [0x488daf07cdf23;0xe648104cc5674;0x5b791cbf00cdc;0x61f1db4ba3a32;0xd4eb7bb51cf92;0x2ea6b616b0565;0x789c90f39b772;0x2b1bbf3b3a20e;0x7fbcb0c1082d;0x785754d2ca6]),[[0xddf553ddfbc0c;0x9dd32e6fa353e;0xc7153a66aebab;0xb53cc8584bd17;0x853a34044252f;0x81daa7d5bbe2f;0x1ccf7ae18aaae;0x9030737f5ebf9;0x4923ac0826dcc;0xf31cb949da1];[0x73687a110a46f;0x7916449f50951;0x16d0ea33dac22;0x1c283559fc1b5;0x6f30707022fb4;0x2eaef23b3ecf0;0x422e0de5a9768;0x7023509969c8d;0x2387493f9bfcc;0xf2a92f675b2];[0x0;0xce5e9f5e1e0fe;0xc901a438cb9c9;0xd9cddb19bea2a;0x398b0fdeacdd5;0xb5dd12ae2c8a6;0x1f5ca00f710b1;0xef77f9f347650;0x21f1734f67155;0x6cca5278c0993;0xc1c81b86d4];[0x0;0xe7564e9d02459;0x4a5eb0fd5f999;0x4c07d225b7d8d;0x66f3853c2b038;0x8b6fcca261a8f;0xeb40607518391;0x9db32a84a0595;0xf3a1d1298b6b1;0xe25f3c99dab19;0xfc8a668e89f];[0x0;0x1f6cc1487228d;0x4ff94a974e57d;0x1b4632ae15766;0xf82ab6feb07c1;0x451fff1d3fcf9;0xcd2db77d15577;0x6de0b1fba8558;0xe823155f72f06;0x6949b5b2d136b;0xe6df8afb424];[0x0;0x698f6a0926f1f;0xef76b0cdb7e8b;0xafc6060213027;0x7f09cafc9af8d;0xe9d7c2f06445c;0x8b6afb9f8360b;0x8767b33db6a97;0x88cb34eef22d4;0x1644e55470d78;0xf3ef3c27bef3b]]);
 ((V [0xb1bb9db3ed820;0x65ac6af9cbe9;0xa24bb81455abb;0xb733beb2f496f;0x6ae789dde17b1;0xd7917be4eb0ae;0xf6f1bc3c36a6e;0x66327fec08071;0xf2011b75ce5c7;0x2a7fb455fe8] [0xc0d49c4617e40;0xb6d4565aa6445;0x577208064eda3;0x53e6ef4896be1;0x155c0e12e73b1;0x5bba8ec151f28;0x53b01d0a4e889;0x6e385267b2821;0x3727f719db4b3;0xdc5d8ab551c]),[[0x73327853e4546;0x8ae489efa9492;0x6651266625074;0x8a9a541182f33;0x31e5ed558b695;0x478235fed8613;0xa50614faa599c;0x76d0aae1dc3b2;0x1a5730244bfe1;0x159a17ad316];[0x60b11bd7967ec;0x18f778b579b0f;0xd7a8f2708ca6b;0xd86f4d7a4b2a7;0x80f61d2733fe1;0x6439b2b998eb6;0xd7442cd1b082a;0xbf90817581a15;0x2b2763002c389;0xdb4c73cddc1];[0x0;0x9187cd8ac6633;0x54b1f51136d49;0xb0970cb5deec5;0x3f9b5df67856;0xed75f874aa15f;0xc5c5c40bcd441;0x1caa92a98e403;0xb6a14ec1ddccb;0xb7c24dc6287ad;0x1fa60ee25df];[0x0;0x9bd01b9c98384;0xda821fecb493f;0x8b8b8de2a9d60;0x306edd31a0c79;0x9fade7bdabe85;0x615f6b21be535;0xc449356b9783a;0xb8bac6e132eae;0x312852e8b1cc6;0x144f333f288];[0x0;0x4de76482ccbfa;0xb87a5e7e70f1e;0x3db1a6a3bcf59;0xd9a2dec1f51da;0x2b73cf406d931;0xf653309932997;0xfb218ea972835;0x171a87501c144;0xa02ab3ff8d0a0;0x1d2a4a2e8a];[0x0;0xf74c7aa89c667;0x70bd217158855;0xb73aff82bd46;0x7c6b20e8a5587;0x5dcb2e0851a2;0x256a602feafe3;0xd39b493b8a084;0x593b7dcfa21f1;0xbd45803a3bc16;0x15b3b421dfff3]]);
 ((V [0xae31875b9c563;0x29ee341224a8e;0x1c1d7c827b712;0x994a492437c63;0xe871a38ecae5f;0x739eeeb64aa68;0x6944a7fc7f254;0x7af6e24eb2eb3;0x24bc46e1ee81d;0x19f689b0a15] [0x40946b032a2c0;0xb21654eef83cc;0x289c3825a92a2;0x3794721e1f4a;0x9affa0749c7b8;0xa240a9b9f393c;0x23031d78b33f5;0xec0ff8efd640d;0x3fab2e09b63f3;0x2eefe3c5bd5]),[[0x60ee03771f2e6;0x6a33abd048e49;0xc28b443cc7922;0xd5ccf04239594;0xd13f830e92611;0x37e528fb3b950;0xa48501e555a41;0x22be24d103a34;0x6b74386f2b02d;0x84e23d4abad];[0x4b9b55b6699a5;0xd3f58b37a7142;0x9411a09b6dd6d;0x592e858e5d0d4;0x5298d465df1ca;0x67d3163b9fa12;0xfe91741491dfb;0xc6670401c13db;0x8b002dca71e5c;0xa74aa0f01d8];[0x0;0x8f369d80d3ecd;0xd2e626e69b05d;0x7068f1e2ec1fb;0x986c7dcf00069;0x2c23e59620641;0x18f9a0dedf964;0xded84440034c6;0xcfdc9706baedd;0x29363ef02f2d7;0x70e26e0a3e];[0x0;0x458eb4b19914b;0xab0c18217759d;0xa413d26f6f8ba;0xab11c0207426a;0x1cd0cdf3996c1;0xffba768b80a6a;0x6343634c92b85;0x29c164b45cf71;0xe1a695f4c72f0;0xe4c5f5b9204];[0x0;0xe069eccb6faf7;0x63751fa170a2f;0x937d98e9461;0xdc7b38434135;0x716c287c0d675;0xfaa9628130035;0xeadc3f270e046;0x4ff8acd64441c;0xc02f4163961ec;0x44fa1725574];[0x0;0x1079d7d1c5ba8;0xd0edeb56a829d;0xa34f8eb053337;0x3e5271b965962;0x17b125dfcb728;0x72ff480f22a3a;0x97278d38a11eb;0xf8d9eb3fde619;0xeea7667e14105;0x856fb4df0ffe7]]);
 ((V [0xd597d0faf0188;0xd51e8663226d2;0x79fab0579dc8d;0x75091e5b78227;0x445bb02d0bcdb;0x8cef72c304821;0x725293c5c32ed;0xb8e3f913c33a4;0xee6880aa41ac6;0x13ddae78415] [0x1d0f2a853cd0b;0x5b192f36b649e;0x263433cd488aa;0x95b3bf08b0304;0x72d315d06a08b;0xd781967daf1b3;0x46a5627a4be;0x4fbc80cece5c6;0xac4682e72a187;0x8102f9a1d53]),[[0xddcee0b77618b;0x53273e2955e1b;0x91ca0ee9b2e85;0xa6aa0b46f727d;0xb8ed2606277cd;0x79230de11900c;0x84ea044ded873;0x56502b090be82;0xa49f167b3cd11;0x605c4bce5c6];[0xd133875925523;0xb8e604c1e01b7;0xd6d1e744a5900;0xf3507b7e9d885;0xc77ce8a32e086;0xea236730bd9c6;0xa3f326329c7f1;0x9737acbe3293b;0xcdf53e5876c63;0xd28a5ddf86a];[0x0;0x953c1a7680faa;0xcb9753bb9086c;0x87e72792d79f;0x9b1c850d2fd3e;0x4513eb791e86;0x2a52dd9a96267;0x9a11887738f52;0xc615bd45221c;0x6a37e46eeb672;0x2a21451690];[0x0;0xbfaf724612215;0x5a9aec160e13;0xc7de085d2c18;0x3f317cd09fc2d;0xcb7e365f1adc2;0xcc48945d7318a;0x898e592fb51fc;0xcdb03e0f7f9e;0xae50a5680001c;0x2355c30c3f8];[0x0;0xee0ac64df7d7d;0x387e7b9feb731;0xbe30e752cf118;0x9211898e4646;0x4e861f5ffc667;0xe5e7659c7f16f;0x11ddf76ae47f0;0x78870772d78e8;0x4b45957086795;0x24455a21581];[0x0;0xa8dd18aae087d;0xd3c896f768b1;0xc9266193da17d;0xe09fed9ab0548;0x6766364e66955;0x270a2de8df09a;0xbd8a0f809af29;0xa47284cda5d0a;0xf5f17853bc256;0x60bef39f1ce55]]);
 ((V [0xf206ab47962a3;0x172ffd87f1e2b;0x5c8b6ef1514be;0x285590a0a30e9;0x672cda3c8e60c;0xc1ac3353c45e;0xee2e1a13db529;0xab7632469ecbc;0xdb6fa6500816;0x5aa2d3d9484] [0x9d6cd4d9e34d0;0x898566ac67a2a;0xc03fe764e0402;0xb582491e5ae1b;0x1998f86699d84;0x30900f73bf590;0xa68600b0ad0e9;0xd86f7b84bfc66;0xb7144a09477a6;0x1d16193c223]),[[0x5aaf09154cd68;0x188dad222f212;0xb60170d199cd2;0x756f36dced852;0xe8bd6ca9adf21;0x64c0ba80d7dde;0x3b96ab647619d;0xd7b3567db7a2a;0x94091509313aa;0x29f8e7df859];[0x98f45ba987f3e;0x3bc89d832f33f;0xb4af333c02b98;0xc452dd03faab4;0xc7a7209b4158e;0x99e20b6a16278;0x2ffd5bfaf4610;0x1a2fcf45cb266;0x7ddb54a2ae6b9;0x9b3dc4af53c];[0x0;0xce624484cc6ee;0x4207f6fc7b611;0xfb18d86dbbfb4;0xaf44a7a45af20;0x9febcb61998de;0x7287c88e03f52;0x7a77aec28e23a;0xf9b42fbefa286;0xca56c93811d8f;0x18aa7dc8c3];[0x0;0xae8f8e17d90fe;0x65d3143ce1350;0x5e28c567c326b;0x4707a49fb5c81;0xace4e3300d2f6;0x5341864e05672;0xfaf3c531779c9;0x84069db0beedb;0x2798bf1f6a4b0;0x2a4dd36e283];[0x0;0x28c1905a82b0b;0xafd5ec09727d9;0xd6991e0d35b82;0xfc6bea5e419e4;0x99121957b833e;0x75acbf23c9c25;0x4647240f071da;0xdd880f1839119;0x315e03e988eab;0x6e1ac47abe];[0x0;0xac1f25d6a8bd3;0x1e035b24a8024;0xeebceb6f36a31;0x83e563c41d2db;0x5e89246a65ec8;0x9afb3c9c7fd49;0x89de4f3a98a47;0x5f24d85913440;0xc0ff073aee072;0x2a17466552af5]]);
 ((V [0x6adaf11b1fc59;0x5ce37522ac1f3;0xe8ff2288fb87f;0xd3be666f5e471;0xc5cc5e6223cec;0x2ad369c72946d;0xc8c5a6ad34dce;0x9f1b3d9f96ba;0x4fd9ed1a46b5a;0xc8da3497ab4] [0x4406491893de1;0xecd2804b1b7e8;0x3eed0b8d53055;0xc89f07ea70d59;0xd6b243ff670e8;0x45ee7fc5397bc;0x211f6b046a4d8;0xf55768284fa52;0xa919697637365;0xf53f8c187b3]),[[0xaa13856dd8657;0x3456d415b12;0x9e3d594ae8c98;0x5e05dcec5fa4f;0xe55dc97203065;0xb8042ab3c1099;0xd51bd162b8c68;0x4b5aa69d5c1c1;0x5bc8c7433d5a0;0x396b5288a49];[0x36be838c33454;0x1c6663ff8ae1d;0x335f6ef06f95e;0xcba1b65651669;0xeafb6efc536fb;0xccaaed18c1f8f;0xb0ea5901e70c9;0xda5873e1b796f;0xca9eaa238ed3a;0x3e49b3d743a];[0x0;0xfd4d6745a48e3;0xc5495314332f0;0x2c94249555be1;0x1011c81fc2662;0xea102a812d2be;0xa88a8743b1e83;0x4cec64a030992;0x4fbb95d42d5bd;0xcf1e6b6515e47;0x2016e485951];[0x0;0x1a540ea902060;0xf2b049ede4070;0x8520eb619ea9a;0x86bbe94f7ffa6;0x391f5395a6f16;0x5f8ec5ada303;0x4188c7c6fd2a1;0x52fb15d0ec5c1;0xec2da7e1865c4;0xd0c3a77148];[0x0;0x44b331102387e;0x6d520566b9714;0x75811f7e25aa0;0x269596224540e;0xa8034364b9f01;0x9ce22712ab535;0x1d9feaa5c790d;0x9cbb4c56f9f55;0x15815edab94b;0xce0f7bef22];[0x0;0x887e1c784b13a;0x9ee939ecf2962;0xfcf5cc550558c;0x77fc230a76cf8;0x4303f98a4c427;0x867a83f29290;0x23f9a3cc38ce5;0x2e439fe43134c;0xea86b86ece1a1;0x398c0551f4d56]]);
 ((V [0xc339e0f713c33;0xe7fa8c284ca4c;0xaed43a484b75a;0xbdd9511eda12c;0xb8f9387853a2d;0x9912b2942be32;0x9c5137043a17d;0x8b13354519860;0x4c7d47aa5533a;0xd459f4170a8] [0x5f066225b888c;0x6f07d051fa6bd;0x1d2ba7fb4d5de;0x1136246c203ca;0x95da9ac2ee825;0x8e926a7571b0b;0x8da3506d866d9;0x176a7b0c40695;0x766b6b02df3d7;0x83f7137ef73]),[[0x6ef559fcdd11f;0x9b0e56a82f4ec;0x18087c9c183e8;0x37e944f4168af;0x3fa6145a9f699;0xdb011e65641ff;0x108dc0c36c110;0xa1fcd9cb4248a;0x37a81e4f3feb4;0x58987c22913];[0xdfbd0baab54cd;0xf7ff58c0cd7a0;0xd6ad18fb74c71;0xe981ffa254d9e;0x98f10dbf45df7;0xb4a11418f8892;0x3f2ee14081312;0x20aa8d13b4210;0xe0141d37e1a5b;0xd8db10c5955];[0x0;0xd29a582eb3cbc;0xf45852b3add4a;0xd5e6805a80bcd;0xd427ac6f74b8;0xc3e463389cf24;0xb041ffbbc12d;0xbd0a6e67580c5;0x842a249691184;0x975379f0ee7b3;0x9d95ac2a98b];[0x0;0x9e3d2ba60e715;0x25115174f30df;0x6c4283936b06;0xa89b1f52df53c;0xe2ac61524d4a;0xbfb7b7b18055d;0x205b293dae412;0x10f458aa02cf1;0x82644e3195cae;0xa9bfd99efc9];[0x0;0xbd661b402dc44;0x137d6ce1902a9;0xe34333bfad1a;0xc31734d0bea87;0x53c1bb27d78a3;0xd33dc6cade977;0x34fda75d3ebba;0x52a86c78dfec;0x152af8a5d5c49;0x1ea9302b691];[0x0;0x1be897c82ee8a;0xf863db6f2751c;0x89e0088c8292b;0xb997521321f7a;0xe65ff4a9b2784;0x17e37b21aad5d;0x1bee9a42af26f;0xbbf45188867c6;0xb48bc8552808;0x58ed19db72da1]]);
 ((V [0xb5985d36c7697;0x11f5e509fe311;0x70178595beaf2;0x678123ac7856a;0xbc5a0d968a456;0xd1ab4ad21088f;0xfd917846f48b9;0x9def07c03e825;0x36046832741c0;0x8323f13b676] [0x9731a20ff978a;0xb3123c01b800e;0x56e1f33f8b88f;0x5dbe74434d082;0xc2e7d4f068e59;0x36e8afebf7870;0xb9f99e3ad38a5;0xc3fe19cb110d2;0xc46b958f45f5d;0xb70b6f0c354]),[[0xdba812d82d205;0x122adfbdcf95a;0xddecda6569e33;0x4aa84e4217e75;0x80bc5d079db46;0x64057849c988c;0x2fc47fd2912b6;0x6ca45032261b4;0x8ba673a4c88bb;0x9198ec3cfdb];[0x98eeadb7f856;0x7befadf57e902;0xb30bcd8e4907f;0xbe52e691386b6;0x887f7eb20b05a;0xe5e9e74914f4b;0x49c5d1a91e1e1;0x9fae314599399;0x1d4810c7ce01c;0xb789db18f1d];[0x0;0x7c63011529395;0xe033c9e601bde;0x4656a05c46330;0x1d2bcf0442fb9;0xa0f2925eecc1f;0x8bb4c520db5c2;0x1b206e5eec26b;0x4e187d3de286d;0xd296ade16af41;0xb0251be1ca2];[0x0;0xd76a5bccb13be;0x7736ac99d0560;0xc128e2568c30;0x89a09017174da;0xf8686d1fe0961;0x97fb43c7b8b5f;0x387dc68d28df;0x90d6a82988b48;0xa5f5964462bd3;0x961b8d0b682];[0x0;0x7d2d1393c4204;0xb0ed64dae9e8f;0x83d24670edd06;0x3b21c67a1232e;0x49827eaf7714f;0xdc7e2a6324f87;0x842731f840285;0xa4f60cc01b504;0x910dacc5c4763;0x52ce96f679d];[0x0;0xd77137af97b5f;0x1f8cf1c91e23e;0xdfc5a3b739d51;0xb23637b5c6a5b;0xaf106d4993c53;0x2bf440c25ba7d;0x1f935affe6ffb;0x203c4458c9d9e;0xa09c28efc46a4;0x9258b543dbf40]]);
 ((V [0xbc44ee055d45e;0xb794674c39339;0xbd159fd0d30ec;0x3ec8ab949b681;0x257ea62044ed0;0xd16d53dc953b4;0x892386e2067f9;0x187ba7c99b2c;0xbd5cd797b06b1;0x17ff9cf73d4] [0xc868d1f9f39e6;0xed32be706162c;0x7bc32c85f2e84;0xff494841ee057;0x1c662516a05d7;0xa4418072925f6;0xacf9733bd7c81;0x37e540dc9f114;0xf21e4765833b;0xa98e6917ff4]),[[0x380c56e1403ff;0xea715f30f49e;0x572d23b0556b1;0xabcc3a0d270c4;0x5b81e89cc7fcc;0x322b754a72534;0xf2c945dddbb6e;0xb4f44db47a11d;0xb8b9550bccff;0x4d78ef489c6];[0xa8385ec2917a;0x9903c23a66add;0x697389a801f8;0x6c9c5c34cda8e;0x3657b9719969b;0x29c46fa3e9fbe;0x266aac9869d;0xfe15793d01444;0x967d94510d58b;0x586674d0a87];[0x0;0x92bda273953b1;0x63fa06ccebe5;0x1cba665d34c9a;0x6568186ed1605;0x5b66fde486d4e;0x1c64fb3c93747;0xc433cb8b4519d;0xd27ac67eff5a2;0xee0266a564b83;0x432dcdeea55];[0x0;0x49f473609e376;0x5ebc871e89bbd;0x596432f5188c3;0xa0b3acd93034a;0xfdf306d16fce9;0xd0f0ef08fe345;0xbddf5b7a86d07;0x4ba3e18f6a89e;0x95c83d61fb65d;0x6ec9d1b4a2e];[0x0;0x27c398a7759e3;0xb214f119d1d7;0x700291217de7e;0x94469d211c3a;0xdba7a572284f3;0xbdc0f38650574;0xcc21907b99d0e;0xd1ee7a9bbf740;0xd726199c0cf1a;0x1771f912e1c];[0x0;0x2b2ebda223bf0;0xd9ded8962cc87;0x9594e62bd7615;0x73caee83a0a3f;0xe1893189d64d3;0x46e3a9494c0ab;0x39e8d12e48c34;0xccfee513833c5;0xc367e53041a55;0x4de6d4c26a4c0]]);
 ((V [0x912ffa0c0e72f;0x1b1492331c5ca;0xb4335d59221c4;0x5e6b2621d45c8;0x5e70f94091e0f;0x7966c0d6a0f2;0x2c270ef66672d;0xd15fc668bc889;0x1ef36cab05851;0xd6dbed2af5c] [0xab24ea88e0b61;0x5879dabce991d;0x39116a71d33a1;0xd24867e342ffd;0x84453fe7426b9;0x7abb640884b0d;0xd05468c059228;0x863adc03d1f12;0x81740fa6059b;0xfcec3863376]),[[0x6ee56d2fd5458;0x884ed35acfdc2;0xd9e53244a3b14;0x6dde77aea65d0;0x5f362febc4a17;0x576ed8acf762c;0xda8135f47bb25;0x7b43b3c729e3c;0x4a43e00902e61;0xb769c505282];[0xb6d21e178dca2;0x5e6e6412ec1c5;0xf9dc2e9a40eed;0x656d2daa6560a;0xadd46152a267a;0xa517c9d64a386;0xc109b11525c3d;0x89f2c74ae20a9;0x4e5b92a380f41;0x5f290c7843f];[0x0;0x3dbe68cac430e;0xfa2bc25d1d8ee;0x155ac58bbf969;0xfde125580617e;0x27d378b82e405;0x296c596b4bdf1;0x9da0c8d46fbb0;0x634f73af0f4c6;0xdfefa9ec25734;0x23fed6e81c];[0x0;0xfe8ff459179da;0xe676a07e6d9b9;0xf15428c9dbf17;0xdb832aecb6297;0x5412987e8f51a;0x5f38223930c13;0xdfd7a1d2574f1;0x48e5b57de89b1;0xa51ad7afa7c34;0xf2f5b60e871];[0x0;0x1011bd0c0303;0x356974fc5d463;0xddd3a9178adb0;0x9c4d318a2129c;0x4071fd21dc60b;0x83b758cdc8ba7;0xab8b34be7278d;0x523276ddbdcd1;0x40c25c2be871;0x83686360954];[0x0;0x26853e97ba6f;0xfd5f23cce8b20;0x5f5f75fb2c639;0xb99ffed240fe2;0xe48fb6cef9bcb;0xbe6db23c50f98;0xd6eeaf8fbf7d4;0xf4504d89d5f5b;0x2b1b7a662274f;0xb7987071980cc]]);
 ((V [0x8f74f0da71746;0xce3004fba0007;0x9f140a6c2e6e9;0x15b6c7a9877a3;0xe2a144ab6288b;0x2c633e13a5809;0x7d1e9bf7d65ba;0xbb4e27aa89d01;0xf15fa48cf76c;0x43c04b4262d] [0x17fc4f40e6f8a;0x5d1f2f1f03838;0xfd0515a7f0e49;0xc54510ffc24e9;0x32f166f2b7766;0xf402201841ce;0x1fb3f50a5590f;0x558cfa1c97f1a;0x5222bad11c1d7;0xa1d74785190]),[[0xf28d38f5ff1ca;0x88b5d6ecbd8ab;0x8733bb0d1c0d3;0x38f7405f9d77e;0xb97cb72e9caa7;0xb8d23b1c1da3b;0x40af3e93531ba;0x9c06901d79f90;0x5323496889746;0x1eb921ff5c4];[0x37b946647c3cb;0x38c91b78f9c8;0x651f367284486;0x7e28ba6b4cce2;0x562d93c0d4d47;0xb9721c4168536;0xa04d36989ab57;0x87eb44b71d226;0x5e9a01d418d79;0xc48288d15f7];[0x0;0x54b698dbfaa7a;0xe719f1b02d3e7;0x203926ccb08d9;0xd66571ac0ca31;0xdef0a33ffb915;0xc1b2a91884b4f;0xef86315fba822;0x5b875339c919b;0x947fd8718556e;0xb4546d73761];[0x0;0x2630665344e99;0x2cede35892be4;0xd99a7c6d29369;0x1ed9954689fb4;0x7d815460ef8c4;0x7a1d15f8a7e6c;0xb215c8a0a55ad;0x4c556e40b9e9c;0x514d365c4f180;0x3cb52dce3bd];[0x0;0xe29e183818440;0x6cb2170955f9e;0xa7405272ab2e;0xbbec3f00735d4;0x7f80b8d628de9;0xda006a888a212;0x1ee3fe6b2628e;0x3220861ee0b99;0x76849ad56f73c;0x3afe9da013];[0x0;0xd991c13bb7c63;0xc59ea015ce6f;0x37a31240dcc30;0xbf422e394465d;0xde873f452c1d5;0x2f5d1f31d18d7;0x94ea7ba763590;0xde0ca5a00dbc9;0xcc7c90b135ca0;0x1ee982c0d6312]]);
 ((V [0x187bcf75671ec;0x2cff67c36e935;0x7ef44cf5a9e87;0xe13d8412d3381;0x1f822b9de06f4;0x16736d8d015f1;0xd9cb56d0c5881;0xbb0f6c96b275b;0x76f1006422c0c;0xc7b492d9822] [0x53efe1ca18fac;0xa59f83458296b;0xe1d11ef6f6cdb;0xad9968e2aebf7;0xcf25b1d169287;0x1f16d40b935dc;0x539946fc1a404;0xc5a9d7668f34d;0x82b266ffa528f;0x826cf68b172]),[[0xc2a7a5ac9799a;0xef7cd45fc935b;0xf10453aaed6c9;0x11fe4efafb3c;0xafec57586c496;0x5e2b527897110;0x4123b3fc984b9;0x797d4c553773b;0xb863babeb03d2;0x8e7b399d2];[0x67178f1ac39e9;0xcca2386983d40;0x25038d6b5d039;0x5b90a33ee43dc;0x7c15a71981769;0xfacbda2184bee;0xaa87da8de0b65;0x5526aad02e5bf;0x593dd1e43d7cb;0x42622baec4c];[0x0;0x2b43cab2ca4ed;0x776d6575409ca;0xa1bee5fd661a1;0x1ff0bb8ebfc59;0x98242af9152f9;0x3f4ae7388854b;0xa8a7d9ee6eda;0xd7c9b1dd67d38;0xd8edfa6e7c007;0x11ee37d5b96];[0x0;0xc3463092a852f;0x86440b3c1f01f;0x4e7af69a4dad6;0xdc0abebf9b294;0x62045f27741e8;0x68f542f86b79b;0x169222121ccb5;0x6a6ab9ea1f030;0x896c61472f041;0xb426a10ef];[0x0;0x13df97b1a1e74;0x49efa059af28b;0x923cb0c4ca6e2;0x3f7aac40ecac6;0x5267c3d49276a;0x7a72508272045;0xe5e2ddf6ccb3f;0x311f44ff5b2fc;0xac6481b10408a;0x4f4cef3];[0x0;0x3202bf8a5513c;0x4d7b84c4c2ee4;0xa546323122b5a;0x1da21fd03ffc0;0x5d8f9b6f4434e;0xb83ccf274e91d;0x5734ccf902019;0x29a1422f8dd53;0x194190275b0b1;0x8ec043d3021]]);
 ((V [0x16731f81aa650;0x41c4c03bc18b6;0x5729645e3437;0x1bef22c08fc5b;0x10dc08febe3fe;0x7cb9f62ec30f5;0x9ec7a4123d0be;0xaa02ce2ce045c;0xdf11a69d86494;0x94cddb2cc0] [0x3142477b9e1d8;0x6f8c0047d7d9b;0x452121277fea5;0x30156895d72e;0x44e10fdd5401;0x882ff77ebe9d4;0x7b17a3182dccc;0x8f8acd294a57e;0x54b528a081b13;0x4241dc7a350]),[[0x22a610b9e0aa5;0xd809c93d5280;0xc004255d23204;0x31d057c9aca22;0x7342ef8b1f45c;0x4f2ae462a3349;0x727b1f6bc157b;0x12799926c1f8f;0xddf310d358be0;0x96e2f13bdba];[0x9d44fe17b71b5;0xaf96f5cba5cc6;0xacf82e5db652c;0x32154b0f024c7;0xc233fbc79bb93;0xe0c82df1cddf4;0x2643ba61bf0a1;0x2b71f731b78d6;0xc394610d309fd;0x96c4ccfbab4];[0x0;0xbe30f25393d4d;0x1032156b67751;0xca9169af31426;0xc01f1680d45e2;0x3693c85437e0b;0xc8ffa25d5e375;0xd5b5a7ca12cae;0x20923eca39dc5;0x52761fbf850b7;0x9bca3bacfe7];[0x0;0x83a70ef58ec83;0x6972816deb580;0x883f71e5924c9;0x2b1ff8150c6bb;0x9824cb5eae08b;0xa7832c06814ff;0xc2960f3612166;0xf797496a36caf;0xb13b68b27abaa;0x99beef1c72f];[0x0;0xa3f91d6de8e47;0x3143e9184b6de;0xa36eee45d45d2;0xca9c3d6c7f313;0x90f27a1c6f37b;0x831c95fa5ad40;0xa0b437365a58a;0xcccd70570f793;0x16227eaf83fe5;0x58eebbe0f67];[0x0;0x4e07e93545d5d;0xa7328f60bddc8;0xa3418b5d59677;0x6a2cfbfcf0063;0xf0cea0847cf55;0xac69c56523e75;0x527d9bf619a3;0x5ab6b40fddcd9;0xfdf5b21a16c8;0x97ea0dbc364b4]]);
 ((V [0x90f5f71881a99;0xb8b3f4bb9ea36;0xfd4bfc0606a0a;0x1e0cf1109fdd8;0x656c4621cdd23;0xb4ea3fb28c53;0x22d63763e45df;0x2d17fcc459e01;0xf7e90e0e54097;0x74dbb62a1b5] [0x991f4f5acf9ca;0xd132450b8d048;0x8a60d42e70cf;0x3b3ba7fc1b777;0x62abb2432e78;0x8feafc0e90190;0x7d29d8e006dee;0xf08dba57c630e;0x7e8ca520f4d21;0xd13740f238d]),[[0x55258175a64f;0x9e78d53fe8a67;0x9671bf2d2e96a;0x6577240316cef;0xb2c570734d598;0x28d5b4cb103cc;0xa0ddb9e1b9c1c;0x5ecd04dd3b1fe;0x4cad0c21a6a95;0xcc9ccd589b6];[0x6cab99a562d9e;0x2a698f6f0e671;0x9807bfc25ae64;0x45c8f95eeb46;0xe364e530b79b6;0xc0cc7a59516b8;0x77e9044de7bc5;0x1a9bc8cf435a8;0x3b736ac35bc63;0x2bbdfcfbf3d];[0x0;0x3f4ccc0bde18e;0xb80be4ed5e22b;0xc2e5ba4261f0b;0xec2e83b8789fa;0x4b31abd678b3c;0xe77695cfd5f86;0xfdb014a506cb5;0x73400eb9156f8;0x546b7b712c0d;0x567eaaf48];[0x0;0x2774c3c2a45be;0xb297ed77b1f5f;0xa74b408283b7a;0x8c73e2ace5fb8;0x30514bf7a148;0xb0b02d8f7bcd1;0xf4a8210f0e808;0x3a278bdeb2317;0x448da81f99529;0x69ea21f2d24];[0x0;0xb7286a303d198;0x39dda342a1e73;0x28ac719e597e0;0x9ac439e550273;0xd8e69f62de50d;0x641851695878f;0x15e9b5ca5cc4c;0x94d08865de63e;0xd0d9e8437a5bb;0xa38a4750205];[0x0;0xdcc6a3f01d6c0;0x8e5499486e994;0x69bde19857204;0xf8865a3998373;0x7a85972b66dcd;0xb5bc1daee6d2;0x6a0bf2f9dc911;0xcb29f11e7d591;0xa7f8b7718fb60;0xcd13727022668]]);
 ((V [0xc13c5642cb868;0x52e9d01d0e514;0x42879b68177a0;0x2c644c8da6fbc;0x799fcc318ee86;0xec77582d21d74;0x5ffa9aacb4c14;0xcebb8fabeb75c;0xa1d109cfb6b5d;0xa0b1c481015] [0x25f72742056e3;0x697c19aeea36d;0x27a45421bf6b0;0x2265d31379073;0xf38c561f3cc86;0x96e0fbca668d;0x53002ea4e2c4c;0xffec02ff886a;0x6683793fca99e;0x4ef85d0b946]),[[0x9b327844a8ae0;0x6cefc22db33d9;0x3cc53a434e268;0x96a03a0a4e853;0xcc8a8350c86f8;0x1a981373061a1;0xa422df14ddccf;0x9706f226c4f73;0xcba7294ad28b5;0x2c813de57d4];[0x7fddfdf93bf3d;0xa84b33d5af858;0x1352fc599b70c;0xc568f23bf71f9;0xc3be36fb2e98e;0xab9c9948e8a4c;0x2d22daea60c55;0x4c717a40a115a;0x2c30ef108ab81;0x6a4041ba7c9];[0x0;0x19804b6e75e2c;0x28cfa1eb9f020;0xc1108ae7877b;0xb157f26e1cd09;0xa4dbcb8b4e66d;0xda40ea1a117a8;0x5fadd5409a36c;0x41f3efa9770f;0x945ee9de95a67;0x3557d9a7567];[0x0;0xc3224697e65d3;0x2e9d23b24dc47;0xbb64af24697f3;0x4499598878480;0x8b2f27b148e8e;0x941d08c9dbcf;0x162e0c93bb928;0x983eda5b2da95;0x281096d40312d;0x48be3d2e264];[0x0;0x473ee9bfbae6a;0x326a23c4eb26b;0x52f1668b5e857;0x5a6014fba2cdc;0x37dbaf0d7d6e6;0x472b8f9832e15;0x265ea84ce0ea6;0x17220afcc1a27;0x1d2db44098d6d;0x7bcae86535];[0x0;0x6eeb68f502115;0x11cadcf1550c8;0x79e1452335741;0x426a50336ea31;0x4ffacaa9b1bb9;0xf48f7f0a79b2e;0xd8376d2de4601;0xfe6d6abb7d8be;0xc057d28e57d31;0x2ca6203775535]]);
 ((V [0xadeb7080ae276;0x471801c86c135;0xe1f36d0cd1e1;0x94e6480f9d7b0;0x88822520557d3;0xf74b856454b2d;0x9650a257b5fad;0xf8b461393df57;0x4baad052fc282;0xd280cb0b018] [0x9542792300273;0x66941e80a628d;0xbfb94a0be5a24;0xc9b5adc8f897e;0x2796a013dbb35;0xe02fbd484ad70;0x66e2a61e1a42a;0x5bd241793adee;0x5029f1a393770;0xc578e52bc85]),[[0x593792129dc33;0x8daed89da5e7c;0x454e5aaae7630;0xc8fd430560107;0xdce5acf524037;0x20dda41d015a3;0x5daf5b0945a21;0x752634d9984d9;0x888f1b30669fd;0x48d946455f8];[0x931b2dc442fea;0xc192778804874;0x5ee87a1e17538;0x6c44cb06e1885;0x4faabacaf7bb1;0x3629828fced80;0xdd6ace1599151;0x324980fd8f61f;0x937b8d262ccee;0x5ac6d42c811];[0x0;0xd5cabc1c72afa;0xc5ae80144d87f;0xa8ea55fc0f599;0xbf5d31a2fa718;0xf6a993b7baa97;0xdef599246ab4c;0xd81c1260f09fa;0x802148504eabb;0xa4e054e87e8f1;0x64deb11292e];[0x0;0x5de04bfd4bf90;0xffa4704a90fa;0x1e23f505cb12d;0xdec970e6a6a90;0x6281857cbb8dd;0x6a92c2ab0cb54;0x716db56124bda;0x45ee7cb6a4a90;0x3f10670a076d;0x2cf1c0bee0d];[0x0;0xbca39c8634605;0x7a12734f0b0e8;0x9c77b63455027;0x45c6454cdd2ab;0x9e4131c48f609;0xb5585b26c15a9;0xc4c25174b1b01;0x71f083162430f;0x2c58b6c99bb25;0x14baefef3aa];[0x0;0xf95a446226253;0x9c8f760fbbeb9;0x5c7316cc15d14;0xbf2bdf4b16cfc;0x8bde14c7f81ae;0x5802f93b9c462;0x2144b4b2fde5c;0x7213aeb30d580;0xe76e5be64babe;0x4913f30ba571d]]);
 ((V [0x1d80d5b5f71f6;0x4684104bea09c;0xf7662abd318db;0xd1582318677bb;0x94be34feb1bdf;0xf62aba4fd645d;0x3295ad9cd46f8;0xf7c9d23de3ff9;0x572885d27874e;0x2eb3ecd8a67] [0xaadc0ccce1539;0xcfcd0dcf3783d;0x2502205b03226;0x7efd7d00b4ed6;0x9beb2e83dbf1d;0x299123526c0cb;0x6f74ca82bf8b;0x6e1d31642c920;0x7b7e85c5da089;0x523a3bd5b74]),[[0x4d015ede17225;0x3fb34e967cf24;0x32f3bba31b044;0x5ab5b92c9e817;0xcf9530b7b7c3b;0x18d1ae4d83339;0x2aef1dfcc9c1d;0x4b25295cc25d;0x8fa007276f04d;0xc59cc317e12];[0x3c55a248ad1b9;0xf6a05c2ed194f;0x17611cede6130;0x7b831e057ea0a;0x1b956b314b031;0xd409bedae7627;0xc08e5e52966c0;0x889796cdcc5a6;0x23534708b1d9c;0x968594d064f];[0x0;0x7f10076e899fd;0xb8c1a65c7581c;0x85add27495d5e;0xb248667d2bc3c;0x7be258679af4b;0x980a0ef3f3b2;0x384df7dd823f2;0xf82eaad19ae5d;0x9bbe02b004a3f;0xad178de9ba8];[0x0;0x2e29ac656b39;0xd36ad14eb218;0xe3fde41e59785;0xa5cb58e0f5d9e;0xe680fdec77f6;0xa5db8ae484f99;0xbbb87af548853;0xa86162fe66651;0x69902f58d9652;0x130dde907b3e];[0x0;0xb616b5103d5d1;0xa3a18fe5c2520;0xdcce361385b15;0x32337728053d4;0x3703d13b5fd16;0x6b6b8bb4ffaed;0xf9ebcf21a6300;0x80a6690af758;0xddf408f93745;0x988aa4411a5];[0x0;0x7b386cebd25b1;0x2cda12b59e058;0x27f788620cd2b;0x7ad69ddb5455e;0x3ea215aa531f6;0x38a0dc9dc1ab7;0x66251f81d99de;0xc6cf4d9349859;0xed36d3b808a08;0xc6e0d0cfa1859]]);
 ((V [0x4a9af5a0adad5;0x669219dc2694b;0xc935022f9cbf3;0x2e25b2cfc0897;0x8d27e921e34e3;0x5155d253eec1d;0x72fabf9b64b72;0xb0ea73d0d5faf;0x702db2c0d8675;0xab3597f691e] [0xcc687805f5734;0xd454fcf720cd0;0xe6313f100243b;0xadc098acbe21c;0x2f3c2a028b48d;0xa5ea7d7000556;0xe76d4d03283a6;0x9fddb2deb9190;0xcff134cb9709d;0xef784d72266]),[[0x1abe14beec6de;0x34e8a17ab724;0x8931a0117d106;0x46c93fb97458;0xc2fc41693ce10;0x4b8e91a1a39c7;0x2f2537914c2f3;0x3bc05dd110803;0x3aa97b0b24e3;0x5b55b07af49];[0x2537ca270664c;0x949759834cb0f;0x9486ec815dbd0;0xe5c449f41defd;0xea8bffeb682fe;0xed3980b68108b;0x410b44e59b101;0x7ba505db51f8e;0xf801cfedc2ec6;0xa9bd7b85853];[0x0;0x31487d3e49d28;0x6a7af3263f551;0xde3b6574cd074;0x384747943cbf4;0x5d53f599e3d0c;0xe345582c86cc;0x73df6a4c6df4a;0x6a5b1f1ee8a1a;0xb27a909c5b230;0x8852792ede];[0x0;0x9b3aec4a2742c;0x78e407f2e16ab;0xe7a6e8d9fb662;0xb41e27ab96b39;0x5e4be0db5e8da;0x8c6def5b16cdd;0x7a531c256f2ad;0x43ffa7893cabf;0xb3f56980c8b74;0x3aac7294bb1];[0x0;0xc992915df6425;0x54d80a3919561;0x8735c3e4787d;0xc53491211d461;0x51c56b1ed0277;0xc4ee9bd458b57;0x794c9e97ef1a3;0xc360f1fdc9044;0xe3ccfc5c9d56d;0x20960826152];[0x0;0x10d7a92faf25;0x9a5e28c774d0;0xbcb4680becac0;0x36e1f84e25ff2;0x7a54b39a1b7a6;0x9b8ec25a30e3f;0xb4bdbf71b850b;0x878339926ac2;0x87e71505aba17;0x5b849a66b91ec]]);
 ((V [0xc05c6f2564e;0x9c447809bc0ab;0x318f228298093;0x3c519a2c9a93b;0xe59e6ad004b51;0xf09f4c2172386;0x9d2f43701b1f1;0xb61f595a7de12;0x48f03e6180a9;0xfc146f97af6] [0xa5b09a7e8b73b;0xc101915f03d26;0x6ae869f20b2e5;0x5cfe42cd4bbf6;0x325128fa7ed0a;0x3da796d1419e;0x47496aa0cea83;0x22d22fcdf182d;0x7a66f904ba9b5;0xb02d06b9378]),[[0x2aad402b29979;0x5ba0087b0c64f;0x39caeda08a391;0xec3b543de357e;0x679b52af34b16;0x4055103ce2c14;0xba94d75b3a40b;0x4161ad5054f9;0x142abf625a82b;0x6dca7bffe4c];[0xaac2821ab84f9;0x5a23a8914ef6c;0x39dd8f552e57;0x5a0f025881f4a;0xaa686a2607da2;0x7aac2de38f248;0xd726feeb1a6e1;0x5b14898f496dc;0xdb174a20d30d0;0x91001ce8f96];[0x0;0x6cf3deaa58dc0;0x138462c6913a3;0x8dc82fc7936be;0xad2d081fee552;0xd4a1ba92e031a;0x99f2eba90d00d;0xb4cab07f7f1ad;0xf52ab3c0212e3;0x7d5133c19dc1d;0x7280a43bad3];[0x0;0xc8cc48cd2b5bf;0x5dac27bef433a;0x29aeabe6ae664;0x76df3e38e5657;0x336577c8cbf39;0xb6a3d5c271eb3;0x78303cf102d17;0xa7fd272eca00c;0xb49a21dc3c3f7;0xcd6743c9c4e];[0x0;0x315afe8f7caff;0xaf3560b5db175;0x7b9abd643a832;0x79888e04a5a8a;0x55d25ff319bc2;0xed969b7714d77;0x91a6018e99d91;0x7b14f81d7e591;0x1795ee2796666;0x2f160dbfd4b];[0x0;0x2d0738ef42b19;0xb4bcbdf1520fe;0x614d82b06ff1c;0x782ca39459fdc;0xec94e06a66b13;0x4c7db132d3557;0x4b90bbc47a2f2;0x8cf104d74210c;0xf525860fbd6fd;0x6e1597a312ff7]]);
 ((V [0x80d652cd053cc;0x80a11b29f5ff0;0xa14f27724cb49;0x640a56fe407f3;0xb8f8d8df2a450;0x33b5339b3aed3;0x262bd42c4c2ad;0x7306015481180;0x2aa937650af75;0xe87fe86fc67] [0x892f176fcc982;0x8b3fa0abbc88d;0x96adaae129ad3;0x1fef3af4821c1;0x47dd5ec91ed9c;0x43d6fc19d8b01;0x314afd241035d;0xd6b4a3b6927c3;0x901aa63ca3dc8;0xffa04f8e89b]),[[0xb55027797e1cb;0xd35906aed401e;0x7861745d4cdc;0xd6ef143964148;0xf9356cc830973;0x948009a1febfe;0xc33093269339e;0x869b9f07c4424;0x1481b87471b8b;0xdbf153dba07];[0x24f86c948cc96;0xa4d20e6cf50c8;0x7053b3a443844;0x3df14cbcca0c3;0x4e28a289908b5;0xa2aec44bf44a1;0xc785681713ed3;0xae00494a1b6f4;0x25f821953105e;0xe3b6893300];[0x0;0x305c9d1970b62;0xb064e40d1dfd6;0x4e6094801b3de;0xc07ea49f097aa;0x36f80644b740b;0x26cc8eeb6c508;0xf386a26c4c5b6;0x9beb3c888b1a5;0xdda9a3b54ddfb;0xf8383d54419];[0x0;0xb073eada93594;0x7a3b36749a38b;0xc228c061b3616;0xe8228bd35583d;0x6bb374a8866ed;0xbbd3711e7c964;0xe70826d0fe942;0x661a63bb08470;0x67277e357c958;0x12eb931b309f];[0x0;0xb0083506c8e7;0xd30e68271000;0x4b06eb2739983;0xf09c354f66469;0x77ad04ee6cce3;0xfe6fd027bc852;0xddf0b749a7d40;0x4a3d1b5c7733c;0xe0d1e38696217;0xbcf6c8f8c37];[0x0;0x862b483258faa;0xb2ce4a5bc7d75;0xbc410459a9775;0x5f56a07e4a74b;0x2db1029bf5fae;0xc496e22e31875;0x298690f79a851;0x8bbd2e236b57d;0x600040bb88243;0xdcde17b45866b]]);
 ((V [0xd41ecaf6b8a6b;0x8d99b471da68c;0x4fbbcb3ce340c;0xc4d4d8abd7bd5;0xddfc0124cdf57;0xe652bad71511e;0xbab17c110d376;0x23e102acb15ac;0x485742f174102;0xc9e60262587] [0x4876e47bf3965;0xf3f7822b5d482;0x764cd8d88085c;0xa07c4a0082122;0x30ee71e633ace;0x863668a72d3cf;0x3f30f3bdcb5d2;0xc63b0796c5e73;0x5cd394c709fd3;0x59af7cba9b7]),[[0xd3bd1afa84457;0x2cd1a5534cf53;0x19cb67689866d;0x20614b7e311e2;0xb862320ca51c2;0x3973ccc643267;0x299eef42e6ad3;0x5556890475639;0x44f6cecee55f2;0xe0a3ef8b13f];[0x6ddc0b17d6b6e;0x5558836b71a47;0x26f0a41618519;0x2b2cdee51c580;0xd5b5be09d0a49;0x658f035c0c95a;0xdabb7f535899;0x2f7caf97cc24d;0x41ee46c9f1811;0x2ab79a7646e];[0x0;0xd83b66a4f6fce;0x32dba23b943c7;0xa03c4edcc370;0x3524f68292127;0x416b0d66482d;0xdebb58fa7aaad;0xfa52d76eb3b81;0x4702680d50599;0x1836e0b32679e;0xd328153309a];[0x0;0x69b8b315adf42;0x50b5db1fea584;0x8671d661435f1;0x32f901c1ff9a9;0x3b24378dce94a;0xd4da0880b39fd;0xd10e037ae6a91;0x2285f7c21db14;0x362789751999c;0x1c09fefc1d50];[0x0;0x939396bac9802;0xbcc9bc40a3f32;0xe068e7dd7864a;0x3045300b5129;0xb090c4a52387a;0xae49fee6af07e;0x22b745830e430;0x82af5c2434f4c;0xbeeec9c809d89;0xc51f4c2e4e2];[0x0;0x27ee2217021c7;0x1af4e1500b75e;0x1c330651280c;0xbd6364117d265;0xd81d6dfa06d9;0x175303390d900;0xc911496b1edfe;0xa9152a448664;0x838e2a15b80ff;0xe19f6dbc8a90c]]);
 ((V [0xfdecfec9b005c;0x487ed87a18bd7;0xa003a40450543;0xc3003879e9697;0xe103f77a55cca;0x1249383894da4;0x7e9cf0bb25fd0;0xcc6ae91de60f1;0xcf3129b4bc67a;0x13d01d4befe] [0xf875eaf1b235e;0xc1df0d16dacd2;0x463a0f380dc2a;0xc571a44153fd4;0xa029157f0b391;0x8b05b4cf176e0;0x3400250cc39de;0xdba202448051f;0x1c077c288b52e;0x21dc5091baa]),[[0x56197265855be;0xba0d6ed889ee9;0x5c55dd4cdaac3;0xa0981490d5298;0x625f5bb0f0a6d;0x5a7d6e1facbad;0xf121088d8c1d5;0x77d48128f96a5;0x53e8c87ec6e85;0x4c97b6a01de];[0x8ca7d91b3108;0x5dfb8a5a8e222;0x92036d1c85ed;0x67a84d66eca7d;0x33a693fc426d2;0x6797fea2652ba;0x4408fe4d2925c;0x955afdb090cd8;0x125f7404852ee;0x2548887e495];[0x0;0xd52b1b1f75ec7;0x9217bed442756;0x58c7d78110a88;0x82e5c18c577b5;0x1599ac93f8e93;0x1c5e2aab55db6;0x6ead6a0a17182;0xae3e34243b03e;0x39a19e8937057;0x9f3afe66b7a];[0x0;0x679f20a2cf470;0x88d714cd2bae9;0x1fbd778d131e8;0xf6129eae6fc6d;0x9ad65fc42d40d;0xaca87e7ea4e4f;0xb56cac494f425;0x51272c5d7e442;0x8f72ad6b36b44;0x35aa7f09a61];[0x0;0x67f48b2fce59e;0xf1a03479fab1;0xed05ca43e7ccd;0xb4b56bd39d2e6;0x80e04942b384;0x8e025df7d7e57;0x2efa40c04a3f;0x82c8939c13f06;0xb703a917878ec;0x16ea6e5804e];[0x0;0x168470d811f67;0x796d5f6e691b7;0x21119ac3f27e2;0x4325a0720c372;0xd953d754cf6cb;0x9dae8684b4bab;0xfc19718f180;0x1fdbe26ccae8e;0x457d9339bae79;0x4d1ac8bf903e3]]);
 ((V [0xc9773f9dd0b91;0xefd9bec41b512;0x110746694942b;0xdeb05a8b6068d;0xd86bd62d3ab30;0xf30ebd096dd1b;0xc9ff1e95b3b13;0xffaa03cef93ab;0x194bbc2a5e696;0xf8da1b5decd] [0x265a690471261;0xc878bca885bc4;0xccfe1f97662de;0xac423dcd5cfc0;0xe57e62852cd97;0xe99337f871d28;0x100ace04671b4;0xd0fcc1fd6341d;0xed069a9581d46;0x1da11422653]),[[0xe6472f05e6d2f;0xc8bcccb53197b;0xc308da23cd0bb;0x630c3a5a31f83;0xc0068df1dfa0d;0x3b1731d6c0f7b;0x3e8063bad15db;0x7b9e5a9bf4059;0xc4698f99ec161;0x85e4bf50faa];[0xe0a5a39deaac4;0x271527534ced0;0xd10673357249d;0x8a1cf0bbb8d91;0x92a0b2ee90724;0x4eed1caec9c2e;0x62fd89764657a;0x82592ca5d106f;0xf47ac6bb362cd;0xccef0fbedbb];[0x0;0x37b9c98984754;0x2971d0b7dd209;0xa94c44f325648;0x60345afbe813f;0x2f94b3df3d08b;0xe1f2c7c74a63d;0xa39ba967cdf5a;0xba544f148bf3d;0xd5801e60e87dc;0x1888d88e45];[0x0;0xd45742c9031ec;0x97da92d66539c;0x31831de6f97ef;0xcd3024fc327ce;0xba31290205193;0x508a13da34975;0x9ce9db864d781;0x89c69962839b7;0xc31c31fce3720;0x236b6ec31bb];[0x0;0x4f37c7a13cae8;0x33d65776e654d;0xa3081d534e499;0xb60e9e078d30f;0xbae3eef1e56cb;0x499516b35fb67;0xcfa0a9c3ab99d;0x6070928d71a25;0xf73e36654e9a0;0x46077b2f7ba];[0x0;0xd6a20c8fe5579;0x9215566f3ee0b;0x560967e3fd3e0;0x2752336d83e94;0x560897c7bfce1;0xbaa57d4e05784;0xdbec27ffc99f2;0xc811003600871;0x626aa426dd412;0x85f2d9373b1e9]]);
 ((V [0xa44acf46ba89a;0x6ae95337ff0e4;0x41e43b76cbc71;0x491e9da5216a7;0x9f86682da3878;0x27bbda73650a0;0xdbee524b9b6c3;0xc4b5f965a514b;0x439b54a2ba9c3;0xad0430232d9] [0x56b508d491616;0xa8628f481656d;0xe8c21c5abee3a;0x8a8ad7a20115e;0xee1ae65d74c2;0x95c28aa363109;0x5d7acb9f55e2f;0x9634e49054a28;0x1b3d463a92d96;0x69280462a6c]),[[0x2ec7197a245ac;0xebd6559f6ca2;0x66258a6149495;0xd5d5d4af7e383;0xccc640665c3ee;0xeea4cf2cabee5;0x7fa3c1a3be5ce;0x57064ce675b06;0xd9385427b2038;0x7ad07b32599];[0xcb678aec31f71;0xd2c6325c8cd49;0xb47315a0bca64;0x497a1139ccf6b;0x44b2f35191f9;0x9c044722803be;0x25af9ee4adc85;0x68e7a13cb715b;0x121d3a75e30c8;0xe8863db22b];[0x0;0x7449ebe99d1d0;0xc01429ad0788;0xbc428abf46e19;0xc8ce77f7ad34b;0x3bfcabd255eb4;0x1a34bccfa0365;0x24871a9f50e71;0x13918f61cca2f;0xa578739a1b29a;0xf1e74ed899b];[0x0;0x2167479d11b7;0x2311bcf849672;0xb08bc0d803b87;0x2c81bd4b0c4f3;0x7ce8001f0d5ed;0xcee70100e58a;0xdd2148cfb6c55;0xb9b0e809a05af;0x7c929bc61f3b0;0x1c6dc975f16];[0x0;0x68444b20d458c;0x2c0db86f3ed07;0x2f38aaa74f908;0x34f5a61a40a70;0xe059d9aedf0c2;0x9bec282326390;0x664352c565ff3;0x463d9c4ee8d7e;0x53caf4898024b;0x3aeb5f346a8];[0x0;0x5d364d72fa947;0x6fc10189876b3;0x653ed7091e106;0x7fb202422e0c1;0x3584db7bef90b;0xb61435e00dbe8;0x69f9430a0d067;0xf7a63a474124a;0x8f00a9c6a8e97;0x7b6fad61f3c86]]);
 ((V [0xd064b12695144;0x47f4eb48debe7;0x6eedfe0cddae2;0xc52cb97ea1bdf;0x6627661baed81;0x4550cdad76dcc;0x50a5b4742d4c0;0xcb42b8f2ed393;0x789e404ac643d;0xd44bc64c4e6] [0x44b15437b2fb6;0xbd40ccafbbce1;0xa47f0373221b7;0x1db095e8267fd;0xcef89459d30e2;0x4fe75546093ea;0xaa1661013353e;0x4ec74db520ace;0xd4aaeb6741f04;0x1e359ac18f8]),[[0xe7fa25bfa6eb4;0x83a5e45930157;0xd9bc31c08fbbd;0xb2bd8d61addf3;0xacdd895342d18;0x6b724af2422f2;0x6782277ade13d;0x381b2efb970ac;0x79792ec03a2c6;0x95eb5a023ba];[0xe794a93458178;0xceb7505e368d4;0x6f96bb90016df;0x992bd6890fa5c;0xfa9eb13aa6785;0x3772eb87740ac;0xe901536b27c89;0x27e9f66f059cc;0x2b787df8bbb2c;0x5cf4ef7fdce];[0x0;0xd67955521b74;0x36da49826ce55;0xa8bc68f67952d;0x1116aa3795fea;0xd288a7d96d477;0x830abdfadc777;0xee7cc81b4f47f;0x104945a3b9eb6;0xf88de8328a4f;0x74eea92115c];[0x0;0xbe3063fa4b51c;0x54a0f3029e27d;0x1f2390d6fd301;0x3ad4a558d62d1;0xafb4ad464ef15;0xd1798f977089a;0x4389cbcf89c54;0x377423696358e;0x332814bb30caa;0x7b29ee84dbf];[0x0;0xf4286235df328;0x39f5d66366552;0xfe67c8621a0ff;0x6a952098b07ce;0x730f183595730;0x6390f5357279a;0xa842c497cafa2;0xa7f4d1a9316b6;0x2e182191e3fa;0x57cbcf24f93];[0x0;0x86a923a1546a8;0xadd52fbb16be;0x4e78710ecc90a;0x5f16cad09fb2e;0x7da54088afd80;0x7724cf735e9f3;0x75c5e896581b6;0x94e1116e89a6f;0x2326c625ba9f7;0x966a44955198e]]);
 ((V [0x38491c17b66c2;0x82de96daf13ef;0xcefad9000a530;0xba551cccca9df;0xb8baa95c36a68;0x6d00d1dd2f37b;0xf1c55e353ecef;0x4afe16af1b5a7;0xcb0ce6c285afd;0x9dc7f859734] [0x16446e566687c;0x7175b67c28c4d;0x8ab601bde1236;0xdb84a53003e65;0xf5ce1141c91dd;0x9e2d9d9ace2db;0xc2838ec935c78;0x4809256b52e5d;0x4105186ed8805;0x66c52c7389d]),[[0x631fdeff117c0;0xa469a3c7a35f2;0x6cfb5d7df064f;0x83112015dcb4d;0x351f39287c061;0xcd3ddccab7917;0xb4e740d45384;0xe18501e681a5a;0x1abba29f3cf93;0xd276e8517c7];[0xb7259e14c6e70;0xcb725d882f675;0x6404bfaef1543;0xc30e9bd1237aa;0x9c0d434bf148d;0x8a58305837a11;0xe4b05f95d7ce1;0x6b20912e43b5a;0x5a79de6ae1f8c;0x54b517f920c];[0x0;0x531c9e6277760;0xba1026891b91;0x297c375cb9a77;0x5eebdbc6a29f1;0x2d0f69f52b405;0xf20cbc295bc0c;0x7ccb0bdc5e978;0xb8e15e6dc4fc1;0xb8d1342221b8d;0xb00d96dc2c2];[0x0;0x6d43293914b4;0xea8b8a23d3d26;0xcc3ce19a9582a;0xf5db87c132afb;0x80bab1fa1ed7c;0x8407452ff83b4;0x705992707a3a8;0x837eafb2aa98d;0xda93a19a86ba5;0x31ac02249db];[0x0;0x85a7eec1bb9a;0x4e72de98a9b94;0xf4973aa00f3cb;0x979b0ad26b948;0xfb4a767ca001a;0x7641bc3f67ecd;0x352aa75f70ab3;0xd506f7d2ee4f6;0xd0205c02115ff;0xad074c60ae1];[0x0;0xaee999df9fe02;0xb9caaf4916518;0x8318fb557e178;0x4321bf0fd34c7;0x163da9181e960;0x2e64d31be06e8;0xde035484bfbfe;0x5a6937e4c9a05;0x2b740c6a5dc10;0xd37630aaf8e0a]]);
 ((V [0x960f4978464e0;0x583f54f5334a6;0xa262ab423a302;0x56e2f51be443e;0xaea6af0e2f5a0;0x98c3f31d9eddf;0x99ec1a09a85f3;0xa3d81cac46097;0xdeecb35da03e;0x4e828b73a9c] [0xce6612dad286c;0x2328cef283b98;0xef961f43f821c;0xb034a1642ec54;0x9025673bf2a5a;0xb1d0ca4f0a79f;0x8ee010431e5f4;0xfcdda3140d75e;0xf4ab2212af59a;0x82360fd2b8d]),[[0xd2070eec4cac8;0xb4798a71e0733;0xef8b8809b1233;0x89d187e3b4feb;0xdc78ef37204e7;0xc861b159f3fa4;0xf7e615d2641f7;0xfa72625b86523;0xb6a6414e4f970;0x78512d61658];[0xaf4fc4d3c2e96;0x8bf7c1f5cdf;0x99333b0a201ff;0xc6233e8b35502;0xb4560622c9110;0x5061dd1c5bc90;0x9cd115e0d579e;0x1a9bdfeb66185;0x1f3b126acd560;0x8aaa9f00c12];[0x0;0x939acacb67822;0x9d2a965bda44b;0x3edcedf1f747e;0x98fd50f1f583d;0x2865a1f3d73c3;0xcdb5b70dce40;0xa7ddc075db773;0x71f93923cfee2;0xac0be07668540;0x613ee2d1c36];[0x0;0x34dec76031df6;0xdc5ae5f6999d4;0x470a016f997f3;0xd5493bcfd3782;0x1c7f0d134894c;0x6cd7cb8072da0;0x7f9237495b8e1;0xa24e8bccba43e;0x7da1ed661290d;0x609a06e1f6e];[0x0;0x5c86d39a15744;0xe3b2f7ea807f1;0xb675e64953bfa;0x22fd171c90224;0x4c8a5f230c6ae;0x702937fdd39b3;0xf6bb385d7246b;0xc6e2de2a06920;0x58b84640ffcf;0x388c34490ee];[0x0;0xfdcc8fd4599e0;0xea1415842f3d1;0x3b31d70b9448e;0x959db13381679;0x8864bae8f7138;0xca0b5e987f963;0x431fce5ac1eee;0x9f61425c93aaa;0x85531a8beb9a0;0x78eec03cd7790]]);
 ((V [0xd31a491fded20;0x77379914507a;0x557b294a164f7;0x821a5d56da3d8;0xbdbfea7080ffc;0x9fb591b532bea;0x9063ee562a100;0x7a0b06f0d3f6e;0x2b3c2a189a75f;0xfb2a4caf76b] [0x71da470766e48;0x2d878991b7f95;0x82c0957d384a5;0xa7b4e759fbfa5;0xf0eb64bffb451;0xdf1d897e87295;0x38a699265c244;0x52e0928e3de18;0xda9766f125be0;0xb28da3bd600]),[[0xde48d73d5c8ad;0xf4e84451345ca;0x3520b22c385f8;0x5a2ba487816cc;0xad234ba5cd0ed;0xd9959bb48b4b3;0xb35c0a7ede13a;0x7392647346325;0x1464c4dea723e;0x7c711cbad01];[0x22baa28849a5c;0x19e0a41ac0816;0xd5fc1fe19b07e;0x908b98055223a;0x76c2a63c01c04;0x4f2434780f09d;0x15e46dc8ce2a8;0x9eb4c840b8588;0xf35adcf0b51f1;0xa3891bd93e1];[0x0;0x83b948ef2d93c;0x7a3a4b1188e2a;0xb5b25bb086ae1;0x489da60dc5864;0xc46a9cb22a753;0x4323cc05844a5;0x9643d3075031;0x6796231ea3730;0xbe540ba0c3d1;0x1813cf8c68e];[0x0;0xac1d44aa241e0;0xdb6233719daf6;0x8a044a76caede;0x95f3e70e165bd;0xe72e0e4f98c52;0x3a29768bb4890;0x8ca04b099be09;0x3135d8d1fade3;0xe0889b49d75c7;0x7e977047f8c];[0x0;0xe495267d3d5af;0x5626453e898c1;0xdc8dfd2297b1e;0x902d4408d856c;0x1a01959cf635;0x667e8e125c6f6;0x811931feae71b;0x44d0a8b789f60;0x5d130c46ed2f8;0x3c7dc5cf59b];[0x0;0x7c018530adf41;0xb0964d0d8bc8;0xb81d91f4ed56c;0x6330f8c58d118;0xece288c798287;0xd3ffe81678473;0xdfe935d923daf;0xc04f001a33cf3;0x415588ae7ce08;0x7c99a04c85475]]);
 ((V [0x2ba3b810a6f1f;0x9dd5b2c036e00;0x4d36d5ccb5a88;0x649d6ee1fe227;0x58605a16142e;0x934521e423132;0x89064590bb713;0x85fa81fb35684;0xb59bf7cb9207f;0xb0be5dabc4e] [0x77e8236f56ce9;0x383156fd51392;0x5cc8034124c28;0xbc53358d94dfc;0xc599b8cc73490;0xb80326b5a600f;0x6b0f33507f85f;0x93b3dcc1d25de;0x4b203fc9aa78d;0x56273ce6436]),[[0xeaa6908766063;0x8fbfbe11aeaac;0xa0450e73e6648;0x8c15dc0911075;0xe0c9a3d9b45b8;0x771c613f85ff8;0xabf22e6c4a2d4;0x4a8f5b4bee8e3;0x881b227697edc;0xd2e6e5a261e];[0xf75e81e6acc4e;0x97ca3f14f5c18;0x37b489e95555f;0xd7fa81a364a2;0x4b51f37f008d9;0x53268bb9ea73b;0x74e7091c4b6fa;0xd5f9aec396c0d;0x4a34ac2ba4567;0xd64717a8672];[0x0;0x9729e8ec3f2be;0x4c62b5f886e97;0xc9cb6ffd53f93;0x502f041eb4d63;0xa3deafd87caea;0xc7f80687551dc;0x6b9d32aa18728;0xa0067bd26dc5b;0xe05e03eb77dd8;0xf66bf95d534];[0x0;0xd23f946cf36ee;0x84c21d063363c;0xb1c40867fba7a;0x7cd5e5a78868b;0x56673588bee8c;0x180d45a790552;0xb4d468f2d4f8c;0x8685e0d3859d7;0x6b7d25e8162b5;0x126327778d4a];[0x0;0x914cbaeb83c6;0x7cd57da4c2f46;0x63560389c56b4;0xb2b7f4c81e3cb;0xbf8f9bc41d7af;0xd9b600eab8a9c;0x97921e1b44f49;0x531e409f7cfee;0x54cbb5c86cb22;0xadbfa0ffd66];[0x0;0x8329b260fb2a1;0x14737df5e3ee6;0x1cebb6d8685a1;0xec8c981fb539f;0x339353d7efb2b;0xb4b401fcedb20;0x5ad435b69edf9;0x29611813bb361;0x3803e0742128b;0xd3f71c31cfd12]]);
 ((V [0x9322830b5254e;0xf7b08e040bc62;0xd9c9734a2637f;0x58308de867c9c;0xa9dea5ffa4435;0xa76f2857294fb;0xceae31cc71794;0xf5e865a0e937a;0x4abd59ffed237;0xb168e04e0e7] [0xb0ad745c5d5cf;0x899696587e7a5;0x354c91fe6a306;0xf9fb06ac20962;0xac82644e3f7ac;0x490fcc49bb1b7;0x69ff35ed8e990;0xe0f9db76a6fbe;0x2977e3bd8537a;0x982f663101c]),[[0x301ebf740af49;0x602e055067c3;0x43d2da9608bfe;0x67b5115c9fde7;0x6bcd3a82074df;0x949e7fc40c547;0x2e04758730cb8;0xaf1535a92df0d;0x2609fc1e06026;0xee0bcc9779c];[0x902906c29a58;0x75ba4b54d66b0;0x3e6694d1421dc;0xe4cbc69d31396;0x1dd1ec6d7cd6f;0xbc0b7fdf78929;0x48d9552f26154;0xf43fb2f181c90;0x1b0008c5563ba;0x48eae1b814e];[0x0;0xbde283f662d4f;0xd24b905d33a55;0x2ae5ed7e82e8d;0x691829b09cd96;0xc4b8f06730c34;0xefb6ecd5b9443;0xcba4bbe0da674;0xd2728de05a4f6;0x229142cd3efb5;0x7a064e5b5c0];[0x0;0xf563b94f9a93a;0x96b6470390a20;0x1b8e0399b5c3c;0x7ab371d622a29;0xfeec51789f3b5;0x4b883a3bd9604;0x786503970823d;0x29740ee3cceba;0x5c4c5a0237cce;0xa038e64fde6];[0x0;0x9dc2de51aaa93;0x27d8a9b631824;0x3baba0f6384d4;0x8974c3e3c715f;0x961e76d86353a;0x4a6ec9c2e4639;0xb76885909f154;0x1cadb856824c9;0xba60c016dc872;0xdd59f0f4dee];[0x0;0x556140bec3c60;0x1da1f6b457433;0xd48e88dfc706c;0x21b8694261291;0x85daa5bc33a30;0xe2ff522f7e3a0;0xdf01321caefd1;0xc8dd68117ab5c;0xeb3a1a9f66648;0xeef939d6c279c]]);
 ((V [0x62aac3854cc09;0x74fe34368528d;0xaee705c04b7eb;0x8cc44a7fe71e4;0x1859d62611480;0x4e3eb11aef640;0xbb17312baf986;0xb69d5604424;0xafff3760181ca;0xa7ea8610f63] [0x800dec9325bca;0xf848ff27cf9a3;0xa341a1df1ec8f;0x3d81caf94eb4e;0xb3862eb335965;0x81fb748bc71a1;0x6953b16a5a286;0x7b275d27eb020;0xd11732d225493;0xad9ab609330]),[[0x684074f096509;0xbf31d6d115094;0x21362ae043735;0xec77891fb38f6;0xfdf7f29520094;0x141beb77a0733;0xdf1ee20fe17de;0xcad76b988ab30;0x7886f1e512f3c;0x7659859eabc];[0xf53f9a56cacd4;0x2cd0e17f67d53;0xc37cf59fdeb7b;0x43ac6667b418b;0x412d118495d8e;0x78c7a98615eb2;0x53089d1dc6d3f;0x14e21c17085cf;0x60a2810e76b62;0x6bf43db6231];[0x0;0xc2d5693da1190;0xec4cf65becf0c;0x34c057c3422a0;0x6b66f35c33917;0x8e54bc0388236;0xd7aaede393d5a;0xad9064c90c67;0x291d25ba512f6;0x1c582016fe3df;0x7af23122f3f];[0x0;0x75111ca85ab42;0xe2104084403c5;0x6e3b14aac8fab;0x37d4ddfb457c7;0xf68c3b96a233a;0xe149425951b73;0x133b1758eedd8;0x40da9176b13d5;0x3bb4e4d238c4;0x8cb6220822a];[0x0;0xd62f58ef9cef4;0xc80a38bcc2e46;0x6f66ba29939f4;0x66b15594c45aa;0xb58c37b538d9b;0xa7af92e88042d;0x579018f085af4;0x8286f28bdf50a;0xda3591e89f672;0x36b6a67c746];[0x0;0xb2e6162b9fc95;0x1e1710345ef38;0xa44199d175213;0xe9cb332ba786f;0xcbb1afd7f6672;0x2a67878e20484;0xedc03cbfd6200;0xc9aef97df4cad;0x434ad8de61ee0;0x76d442b3c482f]]);
 ((V [0xe27a7750bbfa6;0xffa737de92beb;0x105e77fbb031c;0xc7e11f12af368;0x978a94ef77a13;0x65f9033dd879b;0x8d162f042046d;0xa92f10d2edfcf;0xcf095d42fd0fa;0x224d73cd891] [0x1e86e3e6eb28d;0xb4f8f731b3171;0xedd80d5605ede;0xf748ea5a675d3;0x3168dab2e5882;0xe48ec1c36b906;0xb39f4d33b8154;0x48529af3a31f6;0xff7bdf1805f9;0xb3dfdc2ce05]),[[0xb31f0e05758fe;0x2ec06cd81eeda;0x9557b9fc3c603;0x1e1ea35db57fd;0x14923aebf05b8;0xfc15d46e57f3d;0x2a84c5153ea42;0x64c923b026f74;0x1e3ad930b7126;0xa78f4959748];[0x961445fd56462;0xf069319993d13;0xb90ce6bad9b1f;0xdbb75aa482a56;0xc79f9f6c4720a;0xd26c2cf4af8cd;0x258e877808aaa;0x3314d7fc53932;0x18b9c5521281b;0x991aaf990d2];[0x0;0x622a9fc5b7899;0xd2737a7e35d4;0x3efe43397a63e;0x5ffdbcbc189d6;0x230b3d0c5a121;0xa332e3aef3c9;0xedc1562fcb68b;0x74a8bdc65117;0x8e0b105320190;0x6e23d1c37e7];[0x0;0x5e00ccdfaea2;0x1820481b67dbb;0xe0f80c97b50a9;0x141ae9190327b;0xd82182df3140;0xab94edbc497f8;0x45677c11fc122;0xdde187c7bb090;0xa46904b7fde4a;0xe3422fd2ee4];[0x0;0x9a2f6750954;0x258cbdbfca0d1;0xfccbe48e629f6;0x7d309cceab0b1;0xa8048ad0e0ca4;0x7a066dacf1812;0xc0bb29240acb5;0xd18d6ffbac766;0x5c3dd1cf27931;0x6dac41e5bcf];[0x0;0x7e96c6c799003;0x824d8a636eaee;0x9415327e4fcce;0xead43dd22f212;0x5b987e74a95a1;0x6056e4bf6ccdd;0x52a1a1d285ce4;0xb124772e865f3;0xdabe16ab0b76f;0xa88e4ce2bda0d]]);
 ((V [0xf493e66b78fca;0xb849e5e493c4;0x9abbb3d910f0a;0x575bc9ae5a5fc;0x97bc8c96852f3;0x6f3a5288a0a5b;0xee3f0eabb2c1c;0x646e18558d28e;0xf3f45f8680769;0x9d93a131369] [0x48ed4474bf0c9;0xad79ae5c876df;0x7293b7dcbb816;0xf216426ecf3e6;0x8c2ea8e2b4a48;0x5595dd61f66ff;0xdc66f28e2f932;0xa66f835903cef;0x28793caaa72a7;0x764bceba4e3]),[[0xb44387844b975;0xe0121ea3a72ef;0x24018cb25dc1f;0x24a7634055f26;0x50850dd410335;0x1c9c04803846c;0x37783b247d55a;0x25f3acc8c0716;0x74f84404c65ea;0xefc1fcb57a3];[0x3de3adc18442c;0x715b984a77039;0x2d4460a3bdcd2;0x7bfcaba96f2f3;0xace469bd4cc7d;0x2f99832326816;0xc08d7f61ad1ad;0xdb9ebe7981b8d;0x7fb7931788a35;0x80feaf51fe8];[0x0;0x45b8f7e04a8c8;0x2f082400f85a4;0x17df70db721d4;0x17fe246c8f0bc;0x8806dcfe4bc87;0x38cde40cdf90a;0xe43eafa3537fb;0xf60b09e7bbe0a;0x27985686e41a4;0x498aa31767];[0x0;0x1cbbd528c6e96;0x66ec93537f7a1;0xfc0dd1b69ad5;0x315f8c57b1758;0x7b659a2669b1a;0x9200574dd2ab8;0x6b6b4ee0ab251;0x3cd3ee8603313;0x64008910a0303;0x150ec97c5864];[0x0;0x806358fc85885;0xf0c3dcc1b792f;0x1cd26c4d78e52;0xcf9f9a5b69677;0x2623f3beef052;0x8554f30f819aa;0x7795a7537b9a1;0x8366a3d34161e;0xb5721c6932cd3;0xe08bc8d9dd4];[0x0;0xcddbf1f352c8f;0x958f56c787fb3;0x8e74247577a59;0xd05dba8ca2ae3;0xe44d6e4af949d;0x98631308e4fe6;0xf0cd506d2bf7c;0x62221413f2cdf;0xe12cb3d3da0fb;0xf03e4ac436f23]]);
 ((V [0x8059d884d9da2;0x717f891a7843b;0x8cfeae8b77b23;0xf3cab8c92e478;0x5b4f2df2780f;0x36531f41a0d5f;0x9548901fad7fc;0x683b0072ff661;0x1a2c51a7c3749;0x9534954d775] [0x7bf09f47ec303;0xd4bbe4af549fb;0xb1479ba157702;0xb7148a49799fa;0x4dbeb3f4d3ff1;0x95ffb4d2de07d;0xdf2533007bb48;0xd3734e25da7ef;0xe9cee1d31ebbb;0xcb4c38f120e]),[[0xe5fda18fe5203;0xbffab1e6752e4;0xaca252aa920;0xced74e0408240;0x16312f2b88e2e;0x38c55699e7503;0xa057ae523f25c;0x434f208175d71;0xd576e08762cb6;0x20d5cd083e0];[0xbfe3a5f2e56a3;0xf788db175cc9a;0x1b282ac09a24c;0x9aa9263831eab;0x304af06b37915;0x9c3b91d6e0fcd;0x817706b04f8cd;0x6b9765feb17b3;0x29bbfefaa2665;0x3b5ef65a487];[0x0;0x78fae329f1937;0x4e35745a46f09;0x8ec190a56b8d1;0x273263c1209dc;0x5a34134d6a962;0x4c50490a7d5a2;0x83a53006e24c5;0xe6b7beb086320;0x2fea8bf3ead8c;0x60fe68d8e10];[0x0;0x8e54cdfbdb4af;0xcf348ab83c05e;0xa88391951d48f;0x4b6bb60462cac;0x4af20eef46f1e;0xab325cb7d74dd;0x99c57254f8390;0xfb50a6eb2cbb0;0xf1b7ed32bb04d;0x1e588b519cb];[0x0;0x8039ba755b695;0x61674298a38a4;0x99234aad5b5c2;0xe8e20c3a780a3;0x22cb2875204d5;0xf6ed8dca0de40;0xec6cf526f22de;0xe408fb1cf3c4;0xcbb44d1dc74d;0x43625d0e37];[0x0;0xdb1c522ddbcf7;0xb649f948a52dd;0xd47b9ab79f14e;0xf3a4b218f44c3;0x1225b9f55b92a;0x7fc7b70bc985a;0xd6383b48d9591;0x22340f8dffa36;0x1d8799b66f24b;0x20f7b5b48c095]]);
 ((V [0xadce37a063860;0xa0fedb02e50e;0xa773df577ebf2;0xf3e2ec6be10fa;0xdef39a29a72f1;0x167fd26679f36;0xd58b375c2a70;0xe0d8f3e2c22c;0xa5b1f1d895a47;0x87fa4a21be8] [0xd8645b22613a0;0x650ffed75fe00;0x9948667a4f4e3;0x9c62ccbacf2b1;0x6a0196b647877;0xf4854c3a4752d;0xcc1e716163c81;0xd1e17935b3099;0x95c34e182b97e;0xc38065d5155]),[[0x7cb2d6997548c;0x4b06eee0b2656;0xb53104f8ac8a5;0x97794d57909e3;0x9c3ce96478703;0x9893cbd4104fa;0x52c99e1558d6b;0x391c91d764ad;0x79b2fdf11a1b8;0xc45fe9f7199];[0xc067f50112953;0xe2126ffe17aab;0x69c1a86977e61;0x337a37d4634dd;0xa79dce78c9b60;0x896f54b25bcbd;0x860c62c0c8ea4;0xa37437f078e54;0xfcd901989a0b5;0x8aead756dc2];[0x0;0x779d5287bf947;0xf34e202581fd;0x1c16913444123;0xb868c342350f1;0xaacb968a13609;0x2659a7e590941;0x397fc8bf69cb8;0x17140743a5470;0xc4f99719b594;0x56f640992b7];[0x0;0x3e731c161a61d;0x5587b8c12e65a;0x9ef8877c89f4;0x1c4689487c04b;0xb5379896e6010;0xbd7bd68079e6e;0xdfce07c27f353;0x3d23028da175c;0x64e2995a98762;0x137e50d5cb2c];[0x0;0x459d4d93d6fb4;0x3a227e80a05cb;0xf5efe75509ed4;0x57e27cd338b51;0x2d970d5b10608;0x24d1c36782941;0x84150eceae5f3;0x228e833460deb;0x8df3ed8b41f3e;0x96a30231da6];[0x0;0x877105062676f;0x851b610f45d23;0x8bf4f917383b;0x6d8bcf969626a;0xdf6843bdeb43b;0x2958d8010e465;0x7f4913ea23458;0xcc8bb67d8546b;0xc8f8a605c798;0xc52e6f7756e2e]]);
 ((V [0x739b25ca88455;0x77c1c084c4f67;0x1f3902f4385a4;0xd67a1f35f7d1b;0xc6ceee380b4ab;0x3f8fe4fa19b04;0xf0f4a76c5eed4;0x276a3720904bd;0xcd530e1ffaa1a;0xa0236d569c9] [0xcc9b625bbeaed;0xe64184530fa52;0x9bb59e9b0b1a3;0x2f2c5a6d889b9;0x9c102bcff72f6;0x4f7abe1729e47;0xa6beb8f0718dc;0x5f381f76329e2;0x6c2cc657139c8;0x7e715fbb81c]),[[0xda3322d704d3a;0x24eda11c61288;0x96e579597efbd;0x325f6ca0e8eb5;0x1e8367b402d1;0x7cc189dda6c2a;0x724134a1a34c1;0x889506a3f0bfb;0x25be0ae0b5eed;0x32fb842d8f2];[0xf324cdbf9c9b6;0x801baea00491b;0x43b24c637e309;0xe8829f7bd26e;0x7a348987b8906;0x471a93c5a154;0xaa2534d7d3136;0xb6e66eb46b6ca;0x7c3bf824cff9e;0xd25c73029d8];[0x0;0xd5f0fd268db66;0x834ad6d17ee5f;0x951bd171807d1;0x8c153375b5194;0xf29968a6792ec;0x99807940098dd;0xb64ef15ad94ac;0xd706f6df6c9bc;0x598ef7417b29c;0x4839eee4765];[0x0;0x95b64f9f03196;0x24c65f7ce4465;0x32ed63401aae4;0x326480aaaf43;0x4a3847b510ea;0xc0b6853894c1f;0xb8cb378cbbae9;0x564cea5fd14ae;0x43c60ada95539;0x4dde4f70eaf];[0x0;0xbe604ae3baf79;0x50d5082a8fcf3;0x1e1157cdc7c83;0xf52ce9d4bccee;0xbe3063403e1ed;0xfa7db6a274284;0xab9a3d8483ccb;0x6420cf2e78279;0xf1cfaff6d231b;0xa2736be417];[0x0;0x482a00ece08c1;0xd6acd313f8565;0x7fb6a5a80ce05;0xc41eae986760d;0xa8b3b4967d3ff;0x319e8cd9da110;0x75d8ff10eebda;0x17f27d8d71449;0x438fff86d7ff3;0x3329afec0d566]]);
 ((V [0xd89731510b33a;0x115125d8af09;0x630e13a599095;0xd853f29037e7f;0xae5caff31d031;0xee8b4917e3675;0x818c6b5eda25d;0xe30a0b3a7a956;0x45e33c2fdbb0a;0xfc448915654] [0xb29ea73c034bf;0xe88e23439bbb4;0x613096e74ebb4;0x4b6d96594d45f;0xb4029ea200c7c;0x95af09f15b4fa;0xc7efa4bc134d;0xc2cc8801c96e4;0x92c9087323dd1;0x8cf28a47ca7]),[[0x7b0ff80c0956b;0xf434d1fac5dd3;0x4b015049584a1;0x937724c11dd4a;0x1244ef526a73;0xef072f607edca;0x23ef792c9a965;0x1dad31169456f;0x90d4269a77976;0xe97962c125a];[0x2c7cf10126857;0x9dbcffc6b7305;0x7463ac75d6a74;0xa4d30955d8a61;0xd715389bf2539;0x7b88ed612873;0xc8ba63b2adf9d;0x8b0c09286f9cd;0x3f0d57c30acb1;0x83dd6e784fa];[0x0;0x2f9dbcf6aad0e;0x990fb727653ee;0xe31c67e7aa04a;0xb9ceb37ec9091;0xcd500a3eaf046;0x5f44751ff6534;0x4b25bb6e1c0d9;0xdb998366ddf14;0x5bc0a8c97c1bc;0x642c4d93582];[0x0;0xef3878d804c03;0x93df55f17909d;0x17592cc9b2599;0xa47aa8bf7be3f;0xc0cb234e1eaaf;0x744b00543a703;0x42e6f9b807161;0xf497374e61ad7;0xe2907c857db1a;0xe6a248fd6ae];[0x0;0xb9ed6c7e9ce83;0x855a83e6f1e2e;0x23fbed68e85b0;0x19cbcac97c83;0x86e9bed3b17af;0x31fdb2ab92386;0xabeabcef4a5b0;0x101a9c1504ea7;0xbc680a9b1dfe9;0xd4ee2f52173];[0x0;0xc901b908379e6;0x33cf9982bb222;0x343fe8f807c7b;0x1906a36f75a66;0x32d820bdaca7a;0xa2a1a2637e90;0xe81b75835001e;0x2fe8d3f9805db;0x6697fce51964e;0xea0ed65275ddc]]);
 ((V [0xed7d28626dd5f;0xdf0e9f4a796cc;0x636649aa6a86b;0x69d1be0490340;0x53a8b3b531def;0x8d54677c20384;0x1af2c794031df;0x6a277cc44f16;0x2f713429df500;0xeb03426a38b] [0xc559fbb4f1123;0xdf1deb2bc9f6a;0x35c582e6bc68e;0x715f44c7af97a;0xb7dfae157a9ee;0x9c730470292bf;0x6f0779e75cea6;0x160de6a4a61b3;0xc6856fd9b6563;0x5d4a232101]),[[0x313a58638de1c;0x440c1c141ec0a;0xe54312a3e7dc2;0x908d3014c7f93;0x68d806b983421;0x250ef6673b920;0x2eedb0c3340a3;0xfc27f0781d27;0x52b0d3c4a205e;0xbb95dbec8ac];[0x82cd4cc5afabe;0x86564f3e52d43;0x5f6a1b25f6e5a;0xf6dbf9a722e43;0x26e2a4ea695df;0xfdc87fd4f5bc7;0x1efaa28ce5ab2;0x4cde552c55908;0xa55ba180a83d;0x13bfa4e147e];[0x0;0x8711372e7166a;0x29845372e24bc;0xa9b3f1330f850;0x83b5fbb2b9219;0x33bfe7505d466;0x3af51f81ccf85;0xd57c8a0a718a9;0x629c9446a7fa4;0x44df4e57cfed1;0xf897003b3c2];[0x0;0x3ab9c88529e6;0x88ed81bef8e9f;0x94f23710cf51;0xef03b81a98190;0xfb0e849e1b3fb;0x63de972418685;0xa91352d2a0586;0x1f17b2db55e50;0x31ab7edabf51d;0xce8f5a8549f];[0x0;0x5e5d82bd81adb;0xab3f25c8d491a;0x3065773a9c95c;0xc882d67641317;0xab406221a9293;0x4891588712acd;0xa9f86856eea48;0xa32d424bf8b34;0x42666f1e5a966;0x89744705510];[0x0;0x5f5f284c3597a;0x13b76b3d4e7f4;0xf02a292d57501;0xb4a650a325e90;0x883ca84731966;0x4280fa1d0d5b;0x42fb29fd07776;0xe8feae8abc30a;0xb6e67465e5be4;0xbc5e1690e7441]]);
 ((V [0x7e7bc001297f2;0x839dca1e0dfe9;0x79750966b83e9;0x90e1bb481c4a1;0x19fadb52ab656;0x916d02dbd9188;0xee79061cdc3e1;0xbf9a6b4fb5122;0x54dbf4bb6be67;0xf6c6a73482f] [0x40b5c5b1d1125;0x99d31cbd587f8;0xbaee266389db;0x3d9221b3cda5c;0xd5fabf68b2059;0x538ea59965637;0x4236f1357b637;0x153071cd095c4;0xe3ac3259f1148;0xfd4f4a83814]),[[0x148ad1430cd63;0x6e817dc3b7a3b;0x82bab2327a34c;0xbd13716215d57;0xbe2f024edcdc;0x3ac3d0c919145;0xacdf3ee793d85;0x130480be1788f;0xde8371158417b;0xd3c8c0cf7fa];[0xc9098694688d7;0x7760778884c3f;0xe58ceb80e6a71;0xc0854f04d45f0;0x45aa229d04ff0;0x4dbae114d356a;0x11ac8a5cf5ed1;0xfc5be2eb6a305;0x9b724cebfb68f;0x61cefcc3ead];[0x0;0xe9976d0fae446;0x833a817a8a16c;0x85260fdea1dcc;0xb34d68d130dd;0x11e0e63421dc8;0x110a7d367e462;0xca6597544362a;0x59b54209942bd;0xd71e6eeae303;0xd7befbf9a3d];[0x0;0x8d80ce0e1e6ef;0xa6b5c0b0b3e45;0x371fa70abbbc5;0xbd967cad4c282;0x24e9e54f3e69c;0x50f97f4aa5d97;0xca96df49dd605;0x7733512b447c8;0x24a67e4364c5e;0x9a5a8645bc];[0x0;0xdf74b374d259f;0x2cfdd5b6604eb;0x2cd9fc0eb323c;0xd610950d41316;0xe9a3c2bff43a8;0x5087623320f9;0x27b4913c2c614;0xf0e0825b0f342;0x8143a33e0bb73;0xaf348b43e1e];[0x0;0x9dbbfedebfd8c;0x62afd83cc60d9;0xcfe95222821da;0xeaa4f627c822e;0xa1556f6737dd6;0x7585c72c5e6e1;0x95968ffb1d439;0xf88d52e3c7ca6;0x34a0a0864fccd;0xd492ce4ab99fe]]);
 ((V [0xcfe9976d40e64;0x38206f8daf5bd;0x99081eae6322a;0x66de17a6bf313;0xf52d8612d3a5e;0x7f1f3e71232cf;0xe3f690ec43116;0xc01ac940cd0be;0xbc7ca78e25c38;0xa61bec074e] [0x8b4d13303825c;0xce810bc66c88a;0x30325275721;0x17d5c0f33d5fa;0x82c54e11f4c1b;0xc8b3ffd47cef1;0xce38f75ab6a29;0xc99fa40bd92fd;0x4315b8f43ca4a;0xad8a5332292]),[[0x5593c06ac0ec3;0xb2f0f1465f4e8;0x537f32cd62d28;0x670da77845e58;0x90abae535661b;0xa919f2de8be36;0xa43599d9717fc;0xffcafdb5136b7;0xd44df383aa736;0x8a3f659e2e0];[0x798f4b4c4b4f;0xef51c039a682e;0xdbd999cb086cf;0xbc393edf656d3;0xe6f9031e2a248;0x61724b1b7f152;0xd6a7a8467390f;0xf430a04cf0c47;0xbd45148427f04;0xfccb8a6df36];[0x0;0xe0773f98282e3;0x3cda568f3983;0xe389f399ade0b;0xe264fc24f604b;0xc5844c3dbe413;0x4f1e6fdb2c6e4;0x18a1b1cb06558;0x4c0b06e44ed55;0xf92816b818d21;0xede2637ffe1];[0x0;0x5408aefdc03eb;0x4f245744e369b;0x34657a34b4b54;0x8d7bf2e1039c0;0x120da2e01d107;0xe4364ac683302;0x26a682925590a;0xb23167906b5e0;0x7b575a5e37cc;0x11196f2760df];[0x0;0xe7ec70277b7b7;0x814ef2c064242;0xf0e087f1ca0cd;0x37ff5c6171b0b;0xe975f7f991444;0xf9bfbd1f339a6;0x9a624c26378ad;0x9298afb8edb2a;0x72adbe77ed47d;0x4aa86941b5d];[0x0;0x3a574915df0d2;0xcf152cbe52df0;0xbca6c56172c0f;0x4a9b2d8450fa5;0x25a3e3b437084;0x26ce001e3683;0x12111037a86c4;0x6b951198fd479;0x65e4d657e7b2f;0x8b494df3c5dff]]);
 ((V [0x54939a03b502f;0xbfcb11042c97b;0x610ccdad3c8df;0x3c1a98f6354e1;0x33198798d5914;0x7fc6a1b33b39a;0xd9a8c1c3dfef0;0x34044e6467b81;0x9bf5d3536b2d7;0x1962fcd6fc8] [0x7e884f19e2d5e;0x541246effb985;0x1af08da8cc90a;0x6842f80adf35b;0x63f383a649e1b;0x75cff3228a371;0xd02c67a8f19d7;0xae62d237a60c0;0x6cdaf132741a2;0x951d7576199]),[[0x96bca7933253d;0x540ca4fbcbc38;0x20b5343183c8f;0xfc7805e7bc75c;0xf6dda9a966f98;0xce392254da06c;0x1dd03e1808653;0x188b24a5600d6;0x91894ea110c19;0x2fd9b74d638];[0xec47e0e5764d9;0xac5e77c5dc8bb;0x42af811a8bf95;0xcf839862bf97a;0xaa10cf18b0140;0x5c949b3b6a545;0x9b8476f055f5a;0x2889472f68cb7;0x4337250b27457;0xc39d1697b89];[0x0;0x8c57d8b096811;0x7c997cdc7b90b;0xaadd384a5540f;0x521cf9388ded;0xb75e676cbdff5;0x5afef183e7fd5;0xd9df7470310fa;0x8da5b98926021;0xd4486cc840c1b;0x6bc839251];[0x0;0xf54c202ab6c2f;0x12b5d945cb6f7;0x7c2257d8df8bd;0xaf0b568c91851;0xaebe58830b6a9;0x55f24634f3c40;0x9f55db4c537e0;0x40b0380ef0967;0xfa833768dfa99;0x40dff792253];[0x0;0xc900787e347de;0x5b0d8b6ea5830;0x414930953980e;0xf895c7b09013b;0x2b51bc86eb960;0xce96bdd19ab13;0xb920fe6c3773d;0x65e3d3a5938ff;0xed12562b815ff;0x8f1aa76aef];[0x0;0xbd69867f4231e;0x5e2111f4ffe2;0x2dc17ecea8eaa;0x4096978a2db42;0xe10834c7746ba;0x98ae5db808707;0x96fba24e1eb20;0x7efc4401eaea3;0xb6c4dafe7db7a;0x3006c3077ebc0]]);
 ((V [0xe271c13c8cb99;0xbf21ae1959440;0xd8f17887da9b3;0x6a70e1d234ac5;0x5e52c33da8224;0x20d00996e0390;0xf8d59cb032c60;0x899802a066291;0xa93b87667e4c1;0xc7f1ec72fa8] [0x84dd1b27b3529;0x3586f2536cb1d;0x6e97c635de985;0x419bae557ca7f;0xb4ded118b6207;0x5530779764be8;0x4e4eef9934a24;0x239b3644f99b3;0xc17bd27687da;0x3f474983bd]),[[0xf68590f46b3d6;0xcb36545200acd;0xbd7586582aa58;0xc3f3056661757;0xbb9d43321e0c9;0xb778e7c1fe3ba;0xce69805a54924;0x16897d161291b;0x4cc65c57b418d;0x27d0c6ca77a];[0x5dbff3332e85;0x68db9140521d1;0x13845410f3bf2;0x7888c9dd92d61;0x8b31c7a0394ee;0xc45590dc86c5f;0xfc8f3c8528150;0x2c23ea4de63fa;0x1be03f5e8c2eb;0xa16b34f1663];[0x0;0x808d856e5a504;0x67c6781d9586d;0x6323fda6e0a7d;0xada465ad7055e;0xa08b94bfedc4e;0xc160b593c87a1;0x37792d2848a32;0x7e0a34c97f130;0x4369117ec5845;0x2847ba88ba];[0x0;0x94dc4930fe183;0x7f5b70eab52ac;0xf1b12cf19a39c;0x63f8261ae99d4;0x71b78ba79407d;0x65bfbf679a84e;0xfe2cd7fa35594;0xf71e5b1c02c8b;0x6f4bf0a195191;0x2e62313e4b4];[0x0;0xd322410d4c1ab;0xc230cfd6210e2;0x50da48ae45407;0xbdffa2fa1bfd7;0xb84b323ccd9bf;0x3734335bf80e5;0x5dcdbaaefcaac;0xf53c2d1b3fc85;0x473471bb71476;0x63146d553d];[0x0;0xbd933c9a8f211;0xe6ae952e630a2;0x21ca8ff93d48c;0x73d476829e62b;0xd1b21495a6a12;0x678722195f2f7;0x998bd1a3d6505;0xe2827d53a020a;0x29476fc537ad;0x27dd716f120e5]]);
 ((V [0xfc178f5cbed1d;0xec42019d086e8;0xacd443b895830;0x1e823313e35ba;0xcf7b2a6e9aef9;0x61d905acb534b;0xfa8a57357e1e;0x45cbb8a6aaa8e;0x3ca1bea0a0bcd;0x90cd8155e67] [0xf2a7f0bcc658b;0xb39f9b144913e;0xc54f01f0c7ee3;0x5aa768002225a;0x2983f2b3b3bac;0x8913894874186;0x7cf7dd75fd4cb;0x57b9bebba9946;0xabd5e99677897;0x51076578a8b]),[[0xb64ac10b93514;0x97a90e0bc1dda;0x831d913c25188;0x111b4d886bb71;0x75f30ffd9cc3;0x6249c7274ec03;0xf285df492962d;0xa67c8a047cbb9;0x94d324d479321;0x43371089ebf];[0xcc56293ff154;0x39e7259f1d1a5;0xb93ec97293b79;0xb9483f61e04c9;0x9b2036242990a;0x50ab23c2b3e0;0x414e127e556b6;0xbc21ee25440f6;0x6c7c67f880680;0x5d16c1f4002];[0x0;0x9273e27e7d2fb;0xf73d69d4b4a3c;0xb0659c890724b;0xbd5b9aacc90c8;0xcee0a52706771;0xdd7e6ed10ddf7;0x3fcbd86029eeb;0x79fbe60b7f46a;0x35c26825f1362;0x9c2a0239cc6];[0x0;0x380cd5fcf418;0xab5e40648e98b;0xfe460b28d2a8a;0x34658cfd79e50;0xf2c4f12a4f949;0x4057bf60e380c;0x81b3d65e48e02;0x53ead66a4280e;0xb4d60faf70ded;0x213a8949a3];[0x0;0xde68d5bb7c4b7;0x17dd1be82f98a;0x6ec3266c2e6e6;0x66933ab3e5382;0xf926ae3ed8386;0xd7663d8455eff;0x3cc56046e78aa;0x1b9d7250beae7;0x96b55140f3bc6;0x11a5de804dd];[0x0;0xd94b9d2b66e38;0xc63759bfd9010;0xddac1afe8c479;0xd74579645dd11;0xf378e7146374a;0xc08c6b878a696;0x76a7734a4748a;0xdb6979046e121;0xb0c5ab5b8993e;0x4388c1fee180c]]);
 ((V [0x9697efb5343b1;0xb0f79cee2f4d7;0xfe2b91ce15fff;0x9785df98c195c;0xfb15d956316bc;0xcc2d8b42da873;0x5e7cec60f40d7;0x28e6834b189ba;0x994efe27c9da8;0x423785f0557] [0xf42f918beccb0;0x50bccfb9278c6;0xe90fa115f011d;0x91f8819c237f;0x9c07f1d5f411d;0x21c8fa49e8e7a;0xf8ed2f247fa8f;0x6a795ec87e20;0x4784f8fce8385;0xb1ea0505383]),[[0x30ba392a569fd;0xd3857483bc54d;0xa1d939ad31318;0x7c9986f795eef;0x1da97cbe24075;0x3e9e31a95b837;0x8c64c4f55c181;0x9dc50489d0bdc;0x5dc70a539f120;0x326e5f3953b];[0xdee4fc74636d6;0x384a0fa4079d4;0xc611fe85f966f;0xbd8827ed1b423;0xda854660414;0x20c75771305f1;0x23aa27635862a;0x89364eed5ff89;0x7a5527e33e4bc;0x61816b26b07];[0x0;0xe821aaae69f5;0x74ea19f268c3b;0x8c1ca5b25f3dc;0xf4b6817d7b9f3;0xa8d1d7a74e078;0x82c499df95827;0x87b7cb77c2f9e;0xbd06114766d77;0xd07e4a208bd4e;0x51e7d679082];[0x0;0x783d03bcb83c8;0xdabe04c453ae4;0x19ed027ab2641;0x56139d20e9cb8;0xeaa62699f7154;0x2d3cdf41b6126;0x8102fdceacb1c;0xe008796a8f7a7;0x29b372c6cdb2e;0x1fecc2461d3];[0x0;0x89edf601180f2;0xd254bc4b7f03a;0x6b6fed8e34d8b;0x42c7e89b8ad41;0x2b4bd9e993b66;0x44a626cebc069;0x7019330e153ec;0xaab248ae9477;0x2935ccd4fd2e9;0x9ef4cc85d6];[0x0;0xc021443744574;0xdfe5ac9fa0de6;0xedec33dea50b5;0x46e62bcc742fb;0xb3fdfa26daafb;0x7f946b4f7b47f;0x6cc3a894a4683;0x176260dae5b7c;0x9959d98337740;0x32b048c55426e]]);
 ((V [0xf87ce1f81b360;0x5af880ade828a;0x2138e1f2b5ff3;0xf6acc77db4230;0x2bf1cee220da5;0xdf363bc833052;0x7e8bf6da35965;0x3421b53f20e1d;0x14111cb4e1c72;0x6e9a5038d16] [0xa861753409dc5;0xcfc90296708cd;0xa78aa18878e24;0x5396913273cd4;0xc1eb03e59bc79;0xe71d35b9fa3c5;0xd9d9d591724bc;0x144c81197237d;0x3e0f2cbc6d033;0xfeca5154ede]),[[0xfd0a14c01e338;0x957daf840b53f;0xc1d3faf098f24;0x522abb8c06dd5;0x8dbf977cdc3c9;0xdfb682771c68e;0x93d0eb99a697e;0xdffffc5bd0ace;0xefd6648932cfc;0x9e0a354e783];[0xb0986405ab742;0x220e24f979f5c;0x61dbdf273ae47;0xa3dfd7727c941;0xcf14d72a392cf;0x2c87814123431;0x61967d9bf1222;0x24fa07c455590;0xe21fee3f275cc;0xa829566564c];[0x0;0xe485b8b1d19e9;0x7ebafd6e32588;0x8e7196afefa9f;0x48a3e824ac49e;0x8c8092a85b8cc;0x8eb55795e96d7;0x8319435d23065;0x6a1ddb2cf0fd;0xb057a651e0c9a;0x1120ad1abf6];[0x0;0xcf627483122da;0xd30cb5e9469d4;0x34d420b5bc2e3;0xe7b8633dc2a7b;0xa18c4c25202f7;0x167be29b84226;0x8ae72902cba18;0x9d4a423361266;0xb5355a2055813;0xdbab0e92cd9];[0x0;0xcf23fa2176a92;0xd94560bfb6c42;0x25b6228783d31;0xccab339a690c5;0x2e8dd11b94e06;0x9ccbe6ae7fb4b;0x86121a912b9b;0x6efa10213880d;0x8bb8da15d3878;0x61909a3511a];[0x0;0x66fa70d836add;0xe0e063a5adf5d;0x2c8ae9b36872a;0x91034720dd806;0x916d38b1773d4;0xff0047bbe21e5;0xc4e83f1f000ea;0xa3fde6eb10747;0xab1fa28042a58;0x9e8cd8c5d4051]]);
 ((V [0x4ab3a86306767;0x7bef55f13e1ba;0x86936f0cf91c6;0xaf0fbe8f0d53f;0x9865f2d592948;0x95142f8ea647b;0x52de689b58246;0xb400d12d08a39;0x23819de7d7fce;0x7789b2a91c5] [0xb90ec97d0c60f;0x8e9cba6bae855;0x2d173e5a903eb;0x2e7330bf550f6;0xc7e9540a508b5;0x2e49431d132e3;0xa59b1a46b1524;0xecd4e822f4c97;0xe8def65bb1eb3;0x2826b9d8f62]),[[0xbb66a36ba5cd2;0xdc77140b71682;0x3427afa652de2;0xb1d37486f8187;0x910849c623841;0xf9f310ebc281b;0x6f5c590731fd6;0x48c67e85d6526;0x6ce35e690c341;0x56543bbfca4];[0xdcb98403ceeb9;0xf45338669ce12;0x3fd368d7241c8;0xc574b3eb9b731;0xe5fc8847e9299;0xda4a455ea64e2;0xb95d82017dcc3;0x3659a33effdf8;0x83d8bbe62aad4;0x536bd45650d];[0x0;0x4c1199e3fcc81;0x2d8c741431821;0x3dad6abcd6368;0xa01e01ee2be35;0xdacd4f9c71d03;0xa5d564d0ded96;0xf8241c2acdcbe;0x902328fa842da;0xf0c66a2974277;0x2fc8f9f5716];[0x0;0x9c671141b493;0x2bc7c73bb82a4;0x794b92efa4fc;0xcedcb1372c5d6;0x55368bba22d22;0x9c25bf3632107;0x510c038c6f33b;0x5d0cb8f6a2464;0x7f4882b74a8a2;0xabd79a59759];[0x0;0xc127fd2a224fb;0x148f65a28ef6a;0x8430b1968a2f1;0x6dbf10b0328cb;0x3f72029b85572;0xdd39976c953fa;0x6d606cfb8011b;0x4131e7f31ab9e;0x647efa2d0efe7;0x1d1cb3dc1fb];[0x0;0x9c87b7082c8f4;0x53e2abac211a5;0x7a4c3cc2dd5c0;0xf0c832607ae94;0xdb5d6f49ccca0;0x82d52b6531e74;0xd59e18c81d336;0xede3f27bfd982;0x5caad36dc23e3;0x56a78c9fd62db]]);
 ((V [0x19fce3b06acff;0x5f8a8b522f98c;0x1f21b9c751a3d;0x7dce20d5b0b25;0xe0ec2a431888b;0x6872e44969160;0xc6cc1123adb9d;0x5ef315ae0ac92;0x635cbbe7beaa1;0xee274ced09a] [0xeff208c755f40;0xb1f650e172287;0x710ba4aed98fd;0x922597ebe133f;0x7ac0a540b7939;0x3095530d8a6df;0x1c885037d2d9a;0x6ea1a256de2c;0x77ff354866f85;0x5230917425b]),[[0x606aaef029793;0x71ff4d3512f50;0x7279486707ac3;0xded849ea283e9;0xc045cd1e861d9;0xeda46d80e1d52;0xc014dd1b9c86;0xabf407804f95;0x3b4c4e7d7ffa9;0xc09b5b3eedc];[0x9c572854a0acf;0x11459ab740bcf;0x75d98aead7164;0xed04a81573116;0x646f39651d9cf;0x5001b76657267;0xc03b0e067a190;0x85b829d303158;0x8a0183b97a3d0;0xa87394669c1];[0x0;0x8650daa67e24e;0x357737010ba57;0xe7fb966cf4938;0xe32df496f8e95;0x3b5540bb35245;0xb89bebdea287c;0xbd72929626b82;0xe38cece1c1c8e;0x45b40d63cf160;0x37d14e29ee0];[0x0;0x1be3c87cb02af;0x1d60f2b9004a8;0x164dcbbefe3a9;0x8a6082f5fb315;0x6e74eaea852a5;0xc84e2b4f0bc07;0xb29a2c5b06798;0x2efe84ddf3b0f;0x74d3261ab61b5;0x3c6ad249c37];[0x0;0x2a6e1d9585884;0x26c11a8ac0c01;0x2788c0aabb289;0x7500b9b66b4c5;0x8e72c00a527ec;0x3576609baac14;0x105e648b1c37f;0x7c1887bb52edc;0xf46a56c583d92;0x90e96726035];[0x0;0x9c0291176dee2;0x59f8ac3c50c5c;0x56e9bd39ef564;0x2c59521cff499;0x4fcd3e63bdabe;0x82f6cf24a4600;0xcb592969ef4bb;0x9537ec14ca8fb;0xcb21cf69ddb19;0xc102b86ac62a2]]);
 ((V [0x4ee69238372ee;0x6fb0990331cdf;0xad72c1a250a29;0x9500fdae460fa;0x9a15288242cd8;0x4aa871e936d16;0xc50b259124e23;0x95ade2c01495;0xd9495659ae38d;0x3d7694700e] [0x3906c1ad0c20e;0x3694eb126f086;0x632b05b74cd26;0xf24a013cfa7c;0xeb98c528f91f9;0xf8be086c9feed;0xeee2ebc10d476;0xc26f8e70d6613;0x84187d6de771c;0xf0810284c3a]),[[0x957d76c2471e2;0x9372fdcc29403;0xf4ff441417f9d;0x4f2e71cd2597;0x750c71ce809ee;0x9904465af8fdf;0xdaba1da7f62b5;0x3437fe3710337;0x82a86a060e452;0x3c7d45f4afe];[0x3794d819f0d6d;0xde557efff1d8e;0xf295ce06c1533;0x1bc8252bee2cb;0xb5a15e03573fa;0xf7b8ce3d750d2;0x6a575b16f60fa;0x8f85f0e85b4e0;0xe7bd192631a42;0xa91e61a86ab];[0x0;0x353096e6b2cc;0xaf0f0192d5de3;0x5160690f1148c;0x25785fc829986;0x3b685397c8234;0x368a5fe6574f9;0x6d399019a9262;0xf164e7c4f1682;0x795e0c850220f;0xdd8d1911454];[0x0;0x41e3c17728563;0xdb8baa153efe0;0x14fb1ddd8734b;0x8733aac0d21d;0xdae0761d85e7a;0x2ff207bb48d67;0xed5f49f0ed1f;0xb634fd219f105;0xc351ca3a72f50;0x26d73487c90];[0x0;0xb33f869966ca8;0x694db61069d4a;0x7e322aa0ac00f;0x4df3107066d9d;0xf845acc727860;0x1951d343a1a7f;0x133b1ec34c9ff;0x9ee065e4185ab;0x66d5b9502e96c;0xe4af618168];[0x0;0xf232b955f2b8e;0xdaf349f980929;0x9e47d67688dc8;0xdcbace0e486d2;0x1ca89cc94c1b7;0x4fc479934d7e3;0x8d8f7ad5e6ac3;0xa58983e4294c8;0x20fa1ab73c8e5;0x3cf1209d0927b]])]
 [[0xec06950288e11;0x8f96887d7d74b;0x20d2462f946f0;0x57e71234d281e;0x947f178572d0;0xfe0b4cd976c64;0x9d66a58dd5fb;0x7af48b8f7b1c2;0x7ad57dc9358d2;0x823e02931c0];[0x9e2508d28dd71;0x3e55bacac03b2;0xd4641ad9128e7;0x6970f5ad784d6;0x838baddc96d25;0x66bc18aa0badd;0x555099c1d2a04;0x61c105ce096e3;0xbdd3611f28edb;0x7752a69f0e3];[0x0;0xb2c7b58eca595;0x7cd40c1ab211b;0xd9705bde4f47;0xfdaca2cdd09da;0x235086e9db153;0x73fe733c1af62;0x35b039d52924c;0x628cf731c9781;0x472ff7afe2033;0xec1b9aa9];[0x0;0xc9b7233ca0e13;0x96e0169c2a856;0xc2217a1b7569e;0xcce03a8e2bf99;0xb6284e9acdf29;0x5b559d757ccd2;0xe4304a92ad0b0;0x17490478992df;0x344e3a9e0a5b0;0xf4b789e27be];[0x0;0x1da4a5254a595;0xa6f2c2525b5a;0x2d0ccfc19a9e7;0x1f5ff4b0bf54f;0x3af39d5f51724;0xc45f075fc1e07;0xe117aca577f5e;0x91dd619a10375;0xbe852c9e14;0x424309a2a7c];[0x0;0xfde7766d29a1c;0xb30b0a6cf2774;0xff93dcb0c45fa;0x124f35809d9c5;0x4f85a5c8915df;0xe81132f63a2b4;0x77885fdf3740f;0x4d7ab8ce7768f;0xecdc7fa7aa985;0x8249a845ef647]].
Definition wit_512A_32_1 : colwit ipt wit := mk_colwit (V [0x33c74386b4137;0x3b71a3c2933f;0x7fe4fa23d31d2;0xf2cab385ba4c9;0x7b467737087c4;0x3cecc70a8e24c;0x20856ad9bfe9a;0xf8796e7e005c0;0xe3ca45d15dd4d;0xfe83fb90207] [0x42479a3fe1c98;0x7efff77745fd;0xdcd5256b636d6;0x3039d56e1fc59;0xb60185525aec1;0x33fd2e1abc87a;0x5452253269bea;0x18bfd289c662c;0x5988359b255f1;0xe2c204c8656])
 [[0x3e14f04dd585f;0x967991503a82b;0x73a9ba9c6e010;0xf8348863771b2;0xc9538f4ed1da3;0x69ab3edadad9;0xa03808740bd3c;0xf0e5d54dd8636;0x580229ee2cdb;0x66d8823986d];[0x871b41e802654;0x4568f6662e0bb;0xafe531ccf6f5d;0xaaa7581fefecc;0xfe5913ef70031;0x1d46a1082de88;0xbdbb174c4f03f;0x56b90dd9bc61f;0xdeb4b2d2b95cd;0x3df949caf5c];[0x0;0x4f1dc42dd5410;0x7f1fd38697f71;0xc4e1ade47f388;0xb989acc573647;0x2e60eb2a662bf;0x3c14b0f5baa91;0x47922a286278c;0x145a7ba3dd27a;0x3f2b582c6d302;0xdb50568270b];[0x0;0xe8712a06c4352;0x4f9f99d31eb1b;0xdf1e56623d1cd;0xf03555a6e2759;0x99da85b0a0835;0xad91b9982b6fd;0x2d685d0cb31d4;0x17ba9a01f3f8d;0x6e62cb31aea32;0x57c66235544];[0x0;0x7967f3560ebaa;0xaa3b88579c194;0x384d99a2e0b35;0x503865c1351b1;0x4259a4dda1377;0x1fbc4c16ffbca;0xe78cb83dfe0e9;0xee67fb4441ce8;0xfff8f2638b6e8;0x29513ee1dab];[0x0;0x806c003b7db53;0x3776e525f001f;0x3902756aefe0f;0x262a3d55b0dbd;0xe90836785a2d2;0x959e86e2d4ae7;0x74dcbbffa90d1;0xfbda5dc80df31;0x6f91f05ea329c;0x67384bfb3bfd6]]
 [[[0x1e95f8031a7a0;0xbea11fd24db88;0x4eeffecacc2c;0xd485b0bbe398d;0x13d9a524beb18;0x22da84c878321;0x4a233b80cf088;0xd7b5af935c84b;0xa78cd3096322d;0xde8c3bf27c7];[0x0;0xc2dc82277b2e;0xb4daf3eed4f7f;0x9b73c739c51d5;0x536cc7d884836;0x1b62442b9b9a5;0x91bbd1956353a;0xc17eb30e960b3;0x262fe3ecdfe04;0xfcff7fa535c98;0xdf7a0dcf7039a];[0x0;0x1ccc1d368a565;0x4b1cf2184cc53;0x927e0808a4034;0xebbcb3f0e0d04;0x6d32fda4f802c;0x4fc9e59c76d5a;0x786e960ffb15b;0x9effdd1d158ad;0x63a8808737b41;0xc17784ca2f2];[0x0;0x165b6b73cd1ac;0x712e214b2ad6;0x440a485eacf7f;0x726c1190327b4;0x5d27425ce8b54;0xb51c24971b9e4;0x85435115373ee;0x79cbb5ac939bc;0x6088f5ea64cba;0xdfd247e115d00]];
 [[0x51422fc0f8cbc;0xe1ae39a4c4a03;0xf67004f7bce3d;0x7e90a94ff62ea;0x343063e2d56f8;0x88646b267de43;0xa8f9cca5f87ae;0xa3bd970dd300b;0xf3ea4fd342b7b;0xe11e2f94886];[0x0;0x2b6dae9a89f9c;0x79232258caa2f;0x9c4e9dfc31dd8;0xf66257287eb46;0x5db3f23c9e0df;0x2ad3d6b8a7db2;0x215d82bfe6248;0x5ca413ca58317;0xb928327a4949c;0xe277723ba2e0d];[0x0;0xa8d1553bfe0c6;0xde30dd66b2d29;0xf9f12cd908969;0x6b9bae48963a3;0xae6d6b8aa99ba;0x6e746055e12c0;0x8c7ca20f00eb2;0x2286a776625ba;0xb66779618734e;0xc5f61332477];[0x0;0xdbce52a5023a7;0xa22abc23e6ed;0xfa5ccb0fc1ca7;0x8e87a2f436fc8;0x1de98bcfaa941;0xb96a2b30f64c0;0x8dec92fea791a;0xa48781febe448;0x2496103b2698a;0xe1b807360194f]];
 [[0xecfd128f78709;0xe9ffa59e3af38;0xe7e178acae1f8;0x82bbb99efe6d8;0xe69499950b22c;0x16de143c114e5;0x504ff75300396;0x6396b94453372;0xdd9709af0cca9;0xa7d156594d2];[0x0;0x62ac44bdc6c00;0xfa108977ed446;0x72e878a53b428;0xf2f704c2d339b;0x4f045c4f8867c;0x585b420e2539;0x637ce95419765;0x47dd35018011d;0x95b5952250f95;0xa89d956607304];[0x0;0x944a373a7f0e9;0xb292acfa6d94d;0x21834bab30021;0x1c476f6959c11;0x487cbbf942a5d;0x19aac1a10a172;0x1faf3c1f1ec31;0x98eeca7c2e4f1;0x1f58f83409d9c;0x6e02c9d69da];[0x0;0xe4fb2c9784b71;0x8908b3d6cf133;0x3d37d6a188c23;0x74cc4833ed220;0xb026b35cef3eb;0x7a77ec5ffb615;0x55e3f7c92899e;0x509dfba5fe0a1;0xa657935ee6aa;0xa86a633b146c1]];
 [[0xf0317767ebc1a;0xcd20c3bb1d038;0x62078c35e02af;0x2fd036a46f372;0x25345aa22a7cf;0x415d19ffa42ac;0x76447ca938bd9;0x9e6776555859d;0xbb8f8a93c33d5;0x12f56e5a01];[0x0;0x998ebbdce715c;0x1008914a6215a;0x894109a42087a;0x346b5ed8efa37;0xa681e6e8e47b5;0xf22801f399a81;0xd0d396b9c2b6a;0x3bc683476c534;0xb32fc093b566;0x130ad63de69a];[0x0;0x46f41ea46667c;0x5dcae24742f35;0xa79016bb6b522;0xcc216e1685bce;0xf9c43a6d17abc;0x2ce127303de59;0xaa5f59b39d547;0x49da93d1dabaf;0x172a52a3454d;0x1676ed11];[0x0;0x21a27bce13709;0xfae0ffc9d2df7;0x2190f302d06ab;0xced379720507f;0x540c84f65497;0x8805b2ef58e72;0x1b69ccee1facf;0x4e4bab698059c;0x3c3d545104f66;0x1309aa3cc7cd]];
 [[0x5e9f2288c11ab;0x1159d08c112c;0xd391abcc7fa9a;0x484ee4e4d5221;0xa12225ad5ce96;0x46da07ee137ba;0x5f62ec1e1cbdf;0x60dbd08d514a9;0xf4e04ec7529d4;0x690319d6eef];[0x0;0xaec5301c72d32;0x2248bb988ef31;0x85fb1d0a3acaa;0x5529f72e24ca4;0x526cda4941a2d;0x79e6ddfddd0e8;0xff992d41be78c;0x1d2530d442170;0xe5f108c77409d;0x6980bb1ec56c1];[0x0;0xc0a954cbf0dfa;0x9664faadbb3f3;0xdd6ecbee7f795;0xd5d987e127ea9;0x46487ac137a0f;0xd9212b3aefe11;0xefffc4bbc8537;0x15bbeb978afbf;0x2b71e2d48c127;0x2b138b3bedb];[0x0;0x44b0a66311732;0x6f07849a15572;0x12f6bd5932b4;0x77f54ebde3c92;0x8a67f980017f7;0xde183fcf7a609;0xdff9f2d7f9444;0x5e59aed6fd82d;0xd3464cd3e76c0;0x69be677d2b731]];
 [[0xe6819b69c550d;0xfcc05a031c8c9;0x2ea60de8b711;0x6fec807a7e938;0x8e7fb120f10b4;0x97a9288232f06;0x2668902309c92;0x8f582dc1e0ce6;0x2d7b96a9305bf;0x888f56d4c53];[0x0;0xbbdadad885b4d;0xfebcd30405722;0xe33576f9189c;0xffb85b0f98557;0x2677f8939e18f;0x1928b505d9bc8;0x10358b6355ce1;0xdc2579617bbe8;0x2a3439db7520d;0x899db965fb10a];[0x0;0xffc97c47264a5;0x624c693144de5;0xae4efa09b6420;0x605efdd3c4727;0x6763ddb3a51aa;0xe8870fe5abbfd;0x6f9aaeb2ff4a3;0x97eaee4b00345;0xdf9575f6e6f2b;0x48d89c8430a];[0x0;0xadf2eb9b9b70e;0xcc9b479279298;0x9d2cbfc3f8b6d;0x10340a815b4a6;0x9f1c6b5be82;0xc95f579da6228;0x458b26466067a;0xb3c758b471132;0x1d20a09573fab;0x88922ffd98196]];
 [[0x98b34457ae2e2;0x2f69894823559;0xa68899b016e71;0xf3d2867d6a7b1;0x1de4d2ac58def;0xaf8556ce0bb60;0xe69f4da94f439;0x8f97a0e608aeb;0xf74b16c3338c6;0xe8e6f61b937];[0x0;0x4cb6baff5a262;0x9899e20e07510;0x99a47ce0827d1;0xe4e48d6ff6202;0x5fdfd8de82b00;0x37f3a3f47ff56;0x2abe9962559c9;0x2b0fe93211767;0x560c297a9abfd;0xe9d00e9c6022c];[0x0;0x44f79720df5e7;0x8c2a4720d2eb2;0x14c05eb318f3c;0x76a9b2a962487;0xc0ef79a968fc6;0xc50d48b7273cb;0xe68dd8ed4b1fe;0xec75e0fb5638a;0xd0ef8a90e7bc9;0xd3e36e71217];[0x0;0x3f4809f08793f;0xdb04a7f429ce8;0xfae11d8b1ba31;0x5052c1d4b84e9;0xbb0d95579394c;0x4afd11d06d589;0x881f0acd84d22;0x4a68844b53e45;0x9a7e9e123f4fb;0xea663d43607da]];
 [[0x304161e1f4c75;0x9104ecc4ad24a;0xdcd83b285045e;0xdd6c6816aa36d;0xcdc67b08078b1;0x268d5b0b8a758;0x5c7233880d27e;0xa7c5adb64fb30;0x6db22a0c44d27;0x867f332f9ae];[0x0;0xe745cf389f4fd;0xf3c67f3903195;0x4fa76084abac8;0x82636a8cb3eba;0x411c160200394;0xe528bc7fe48c2;0xadb0e44183066;0x74c8010a86f5c;0xc8b422ed3a097;0x875ca5dce9636];[0x0;0xe72118b01a3a1;0x5b0dbc16c8088;0xbaa388b7a500f;0x2eb8c8bc600a8;0x5b011a9a3ba5f;0x1821966bbc419;0x51edd611a6668;0x7706dab2e2568;0x15f07e677d623;0x46a968c9a9a];[0x0;0xd702623cd2a69;0xf8596c10e1b7e;0xb43f0e08b928b;0xe97502558b964;0xfb33ec81e9229;0xfd10e8e23c022;0xd47c1bb039286;0x5898e71a74564;0x3536088436569;0x86d437e0ea315]];
 [[0xe1b8cd7c9274f;0x9903bad098dbd;0x474b208ed6b7e;0xb2743720133e3;0x673db81e3bcf2;0x62b095d76b816;0x29fecdf4cc591;0x281fd8be0bf5c;0x73216ffcacf65;0x519f7fba5df];[0x0;0xc310a049cd751;0x161d9ecc69130;0xfcf8886cf3e34;0x27c9d085f2182;0x8d8edb176555b;0xb4410d29b09ad;0xde53a8a1872f7;0xcec075367c373;0xc538c580953e6;0x5207dcfa777c4];[0x0;0x5d8c5e4b781d7;0xcd86110e30273;0xac3b2657e8655;0xdc4ae66c547d0;0x8cb1c4872e100;0xb8b0ef3485569;0x84d51edad44ce;0xf78fad8d4ac74;0x197aab7d53978;0x1a065233d8b];[0x0;0x21b338253490e;0x64e5e5cd2d435;0x2eddd24011210;0x8277889f06718;0xed14a605f063c;0xe77664c106798;0x4ed94d867f788;0x57e50bc6c183e;0x14b8af668f6e;0x51f4a2258ad15]];
 [[0xed01116487510;0x9d4887d85a3fb;0xd28220e6be651;0xe64d4ca5ebcfe;0x93d3d1afc18fa;0xbc21781c31019;0xfa4622dfad625;0xd1b990c1ea375;0xc032a8efac2ff;0x1f4e1b14b3a];[0x0;0x36e1c0be8799e;0x8a0cf979b2478;0xeeb6c18284ff9;0x97d38cd07ebb;0xdc8628652a8fd;0x5ae477f508b8e;0x2acb12a58aca7;0x679caacf6516f;0x550abe759af41;0x1f777ac88b81c];[0x0;0xbf90a070e5d5d;0xd145554bc6e8c;0xb7566715afa74;0xe50825c94353d;0x940b4fc567075;0xcc1365bfc6d6a;0xb367802fef6e3;0xca2c006df82c1;0xe8529163554d9;0x3d4026386f];[0x0;0xfdd15fd4c60e5;0x20353daaaabbe;0xc86b9e4263fd0;0x3a6cf55f1f3fd;0xd2891af19121c;0x4eea0cb893c99;0xd9b4bc7b82547;0x62338417c645e;0x65d0c29f4c5ab;0x1f7c532e4cfd1]];
 [[0x1e2ef8db65a8;0x3745d292a4b4a;0xcdcb97d9c067f;0xea33d5269a4b3;0x765947414987a;0x6151dad3612c4;0xa6e8dd4afaa89;0xe2b3ce765ba25;0xedc9e1ed9557a;0x3b4d6486e90];[0x0;0xd2a6682d0b82b;0xac917b4d8c4c0;0xdfcdf56d17727;0xbc58337b8527;0x768bdc5efae95;0xb618906b74717;0xfb2d34d2fb472;0xc1520f52644b3;0x9b0c0fb29e22d;0x3bb8054e032ba];[0x0;0x50479ff6404aa;0xb16e6ddd7b731;0xe3617f388ea8a;0x255c5f94217d6;0xa1553086fdb4;0x47b051f35e1f9;0xc35dd0d8a2c3b;0xda4be3253bfd0;0xeb9ce056d483a;0xdbcc3bbd00];[0x0;0xe22e3360c75b3;0x68a399d1f87a5;0xf1a5d90c9dc8a;0xcbdd4ce8eb585;0x1547ea982b922;0x2f506965e108b;0x25b2c68b87b37;0x4f2aa507ac4a9;0x66facbf5f845b;0x3b5c0c1714e5e]];
 [[0xb429b7c94a08e;0x6812b02cdf944;0xcfc627f8be86a;0x3a1f9c60525a3;0x890d100c484b;0xb2a4e7e949928;0x320c2181022dd;0xbc4dcc73b3200;0xc7ca93471ae0b;0xd74f699d9be];[0x0;0x780d3f1a31e36;0xcb305e618b56a;0xaa91fce601369;0xf32c71fd05d68;0x21e19af094193;0x7ecb2f9e4cb21;0xb030f5c46393c;0xee49095accefe;0x54c64fcbe8106;0xd8307216f2e56];[0x0;0x61bc684c7acdd;0xe923ca0d8af1a;0x8c40fc2d3cba5;0x3997337f5b0e7;0x2b25d3ebc54d2;0x6a7ff6e045874;0x1fbda43c4b441;0xafecb54ad486f;0x2049c3d13e7b;0xb5167c0916c];[0x0;0x25d9b359a2428;0xaf78e1ebd73a4;0x5b33618106396;0xbd684b01b84d5;0x6c5611f5946df;0x6dab31ebffc59;0xd88d87ad7b2ab;0xa3cf76f6297f4;0x4362cefda2be5;0xd8d45e111b64a]];
 [[0x16eef11822560;0xb001f39e07a0d;0x808982e6dfb3d;0xadb192a3d7a10;0x2657fe69a468;0x7fc28bde0109a;0x914a267f07ed4;0x31b3c205ec3ce;0x8616f9ab4188c;0xd4d694400ee];[0x0;0xdafd6fc08f57c;0x562526b79f1ce;0xf1ce2dbb0e0a1;0x587e4195d9676;0xf85eed2fc648f;0xd906dfcd7a08c;0x863c5b53ad207;0x329a99b69d0bb;0xfea5fdcc330a3;0xd660adfb11360];[0x0;0x6ff086456b939;0x5bed3ed5ff400;0x38de9c2d513be;0xea18ac7eed613;0x9b46208409c56;0xd861f1d45e914;0x67d3e3a688f55;0xc76d0e72b7322;0x3ef27e488ee07;0xb0f4196649a];[0x0;0xf144db1d5715e;0x3dd31ada63b03;0x49b639a83c1da;0xba54fe443a02b;0xb1db25a9e32;0x3315dcfd60f01;0xd60bd63877f53;0xe15cfdddf0c22;0x3f48e9bb0a76e;0xd505ecd26e8a2]];
 [[0xc09e8644c28a;0xdb8787efe666f;0x12b65543f64b2;0x677822d26f22f;0x6db7f53f8bab3;0x7a68b0dc247a2;0x37e7dc67cc995;0x930490b76e654;0xe361ae4214fbd;0xb0471df65c3];[0x0;0xbb61932524cc6;0x6f6f1614319dd;0xb350e7a915f86;0x7fe86deb89e4c;0xe7fa8d1a83c26;0x6ac0dcbd46b95;0xa8b38b0e7b988;0xf086e6fabb2be;0x71cb250a9470e;0xb10474bda611a];[0x0;0xa23b505fb644d;0xcd445fe80240e;0x7f4c243753a10;0x333f841c310be;0xc251a3a9e50d8;0x395b5099f6a4a;0xda588c6aebf1e;0x75d1d3ae244c2;0xe72e27da7317e;0x7961dcf460f];[0x0;0xa883593d114be;0xbb8d6064d9f39;0x1958341a0e9ce;0xa9632435ff2dc;0x45e437f3b4e49;0xd1f62e9cc0d54;0x7b4e0f7ea22b9;0x61611d5d708f4;0x614022b439064;0xb180204837de0]];
 [[0x85d874be08cdf;0xcd1937bd68b49;0xbfceffdad9be7;0xc1bdaa102afcc;0x30f364dfab10c;0xbb1454d285345;0x736c10513be24;0xb71c1bb421ddf;0xb72437b583794;0x3e572faaf9d];[0x0;0x988a81a3cf31d;0xb954d1b8bcfb5;0x8568918a03ca2;0x1ffaa366cae4;0xc99ceedf57222;0xc14e66b8b6fd6;0xfe4bc3c45a875;0xb9e375b73b8f1;0x25b6ac76a89ad;0x3eca8034e7aa8];[0x0;0xe12343b0a65e1;0xeeb662115b419;0x8b7213d1a772e;0x7fa8f93d8f75a;0xe69b557326508;0x4f1e5e5163664;0xf00e402e4c116;0xfdbf4ff85a18d;0xc586fb8e1ba2f;0xf2e58c8401];[0x0;0x7b97885e11e53;0x7c22a63fa3e0d;0x32217e7a7898d;0x812ef4c2ef753;0x4205829e47492;0x803447f183c5c;0x822cdaaed782f;0xab5bacfd3e518;0xfde70b3435db5;0x3e88c83013d13]]]
 (V [0x1a8d4a81d954;0x15ff2f7512913;0x821f7c3e084cd;0xe5d33143e96f3;0x3ae7714069842;0x7f518d3fe5ad5;0xe4988d5c64d1;0xf8f166614cb7d;0x5b6c9994a1bf2;0xdc74c8f5986] [0x600026d9470de;0x5f3b7367816f2;0x3ce6c9c3a5a00;0x21a058285b31c;0xbda8b6609a431;0x878c2509f2e63;0x8b7020a3001f1;0xb1e4111d3eac1;0x760aefd81426d;0xee922753473]) [[0x592d0feba6a8e;0xf65cef7bcad41;0xbfa13617f16e9;0x256efee06307b;0x8de01cb47b4f9;0x40e475b934084;0xf06f152539e28;0xee282325a362f;0xf9507ba1e680f;0x1972cfe50c3];[0x0;0x14421cde1efea;0x5b5e023790a18;0xa6a7cdfaceb2e;0x7e207ec891b9f;0xb5f8f8616be08;0xc51f195a30c60;0x2cca0e6685870;0x6c8db77279bbc;0x63b6b9269174;0x199aefbcd69c4];[0x0;0xcc8937f8ad35e;0x93baf33830c55;0xd8671c220840c;0xb947d1108bdde;0x93831a7c65be2;0x9deab6dd86f3f;0x3852be90431e6;0x5b6655dd745c0;0x78a79fa94d7fb;0x287a0188d3];[0x0;0x5c92b706f7e4;0xbb58a02eab5d;0xa66ab97d956c5;0x972c7121e0fdf;0x3769220cfa995;0xd418d11dc4e0d;0x8c096251a9c21;0x4238facf8dcf6;0x3a1365185b755;0x197f395dd9a8e]]
 [((V [0x40edd350a6e8e;0xbd07b9ab1662e;0xb1dbc27088fb8;0xc31fa94df4725;0xaf449e5b3d44;0x8ef14e552b57a;0xe0d0f07e5d4f3;0x6a3a58ec67449;0x47c1c90220bfa;0xca11d49efcd] [0x6226d660b1b45;0x1715e45acbf73;0xe09934acf57ba;0x33292a85a4a55;0x6c8067f3fe47e;0x10d7056daf069;0x4d0be88f1c0c1;0x533b6b9768115;0x691e58dbda04f;0x72828e8503b]),[[0xf1440c95b61ae;0x306f4aeaa076a;0x2381fef9ee105;0xdcb27bc75a0d7;0x5fdbc10e4c617;0x20b85033afecd;0x851f988ecd3a3;0xa02a5ef7cb6ec;0x5dea8e1778fc8;0x7aee0d8a9a9];[0xdf6d238c7553c;0x3f91a95250527;0xed05b150fafd7;0x68052ea3b4575;0xebb060d9a33c3;0xd0d4bcc545bfe;0x29faca5c9f8f2;0x3ab2a7ab5d8a0;0x1c65ae78627da;0xc0c734e38ee];[0x0;0xd80959f16f0c;0xe2303ee1d4224;0x8461f32bb1525;0x11ecd0ff90c6f;0x83f87d4b10b7d;0x9b1f180d82fd3;0x4275933c8da05;0x4733e127b94d9;0x19814212e1a0f;0xbdd8eeacda4];[0x0;0x86a2426db3130;0xe1fe1396f35b7;0x7d51b5bcf2628;0x56f780e3e1eb5;0x3b87286a9d084;0x576e33f3601d0;0xf43d4df0ff0c;0x441d9badab944;0x93a952f67e6a9;0xe51efe79ac6];[0x0;0xd2e2ab9591e82;0x156d8c53fbe6c;0x80350932a27e7;0xa952bd1fcaada;0xea10146471b97;0x9fb53ea609318;0x20136626c8fcf;0xecb73a7c8f14e;0x5a5a138730bf3;0x3b07c24549c];[0x0;0xec6d487fa13b5;0x240e39300bd51;0xb597294b6a4f;0xb16d8a184aa0c;0x6b27458900c2b;0x79e6c3e68f65a;0x29b0e97e85705;0xb8bb976b9c38f;0x6c5add98a49a6;0x7b71cfd98e99f]]);
 ((V [0x92f54576097a1;0xc40e47758b9dc;0x7088fce1d4e22;0x924e0cbf3c736;0x446a09f369d55;0x127e4ae925feb;0xc2e0bfa9e13b5;0x9e7fe3f36761e;0x42bc98da3dccc;0x5687bc8d6b2] [0xaabc0f9032c5f;0x26b410b868c8e;0x6fd34088dd7ef;0x6c2e2b8ee500c;0x16574e2a7ec9c;0x165b9ea05b01a;0xe9862402043f9;0x6921b51a9b46e;0xa83d5fa25a087;0x7c5d12d68fd]),[[0x791d7c360a876;0xc76afec5437f2;0xc9c99cda58ceb;0x612d272906c52;0x7ee63b6561945;0x6ed66e919aac8;0x9837f69a1307;0x1a5819cbac10a;0xf69dca5848e2;0x57a0fedeb00];[0xdab5e7076c46a;0x679db8cd28df7;0x5120068a5e0a8;0x5b8e367aa99a2;0x8243db6ce17c8;0x9bccf1c29f71f;0x327b6d638a23;0x489dc6ea6ff41;0x5e7017d34f3a5;0x9128eb0986d];[0x0;0x623f6ffeb22d6;0x5a10b923da785;0x1da8417f0803e;0x38f5839d2efcd;0x297f5a5c7cf44;0xcfc9a5b0262e;0x6c814451cf301;0x1c0127ea51c1a;0x49d928ccc661d;0x9f8024c8d4b];[0x0;0x83535566d9a96;0x19b1293fca059;0x1926583756c8f;0xe8158cb461ad7;0x2d0a2448f9177;0xf6ec24618d40e;0x455fbf0379d4f;0x198133078e9f1;0xe3e08179b1e29;0x4e64c412d97];[0x0;0xb29f6e026bd21;0xce11a76161b68;0x748d9bfcd8735;0x7d4c34cb86e93;0x81321067fa183;0x9adefbabf64e6;0xd844fd333257a;0xce14ea6f920bc;0xb4fcb28d31a30;0x1dfed27aefb];[0x0;0xc34d69c70880c;0x6b579cdd63b6;0x4c24121fbd7d4;0xb0fc8906c44c2;0x49b4607f5336c;0x2b9e8f85ddc8d;0x1d46a9c715519;0xb922e7602fe89;0x73b89d1414bb1;0x58202c7513398]]);
 ((V [0x6bb21cd70029;0x8ea3ad8c540cd;0x8b64e55f7a0c4;0x66d3891389e3;0x57ba9105ce05d;0xaa7e78cb305a7;0x2dab7002e36b8;0xaede257b5b75d;0x12116c5322c9b;0xf09592c1c2b] [0x6293519ddd303;0x454856a50ceeb;0xd5e32cfd145b3;0x48f19914a83a9;0x4c37abb01bd43;0xa31a1ba96def;0x3e2adee7064a3;0x62bd7037dfa26;0xb3559349e492c;0x707a8c2b3f6]),[[0x91828a6df7ca2;0x52e17da83c9a7;0x732306a18e0b0;0xea847e85cf4f8;0xdcbecad3c2eeb;0xa1c722cc708dd;0xd9e7894c23589;0x9a939f31c1b50;0xe897b16ae9236;0xa0b60598676];[0x477204a542ef2;0x5c89c1c716ab0;0x4888e2f43a48b;0xa9acc6a809960;0x871a800410266;0x8f4c16ff97a6;0xd5443aba60f25;0xb2a6cad898028;0xcfb5568b66e64;0x727a91645a2];[0x0;0xd12ead6834539;0xb46ff491db6e4;0xc7014ca9fa520;0xb037383e1beb2;0xc319e8f81816f;0x5af8b90effb36;0xb1f7f4284b49e;0xe1aeff2a4fc24;0x3510decbd00f1;0x1d3f7aa76c0];[0x0;0x164fc78a3154e;0xd1515a90a5ccd;0xde6a9bab3f417;0x13522880d01a2;0x68f64783e06a8;0xe60d929ed8dc;0x15ea939934fd;0x547fb09c271e8;0x6baa0575a71df;0x9c253152b2a];[0x0;0xdc1677a13341f;0x5c7b432241ec3;0x6cccad7f67125;0xe3b3eaa1c5aec;0xd5b0fb4cd2477;0x4cf46987beb74;0x62a68c3fadc20;0x63bd04e91df7c;0xc8bcaa5caaa65;0x64e4086a761];[0x0;0xe632669d927a4;0x3c00cf30ca36a;0x81c774e576fcc;0xdc676117e1239;0xa80ce6fcd4892;0xb3d65d2f90aab;0xc3d27a0d531e2;0x72f7b62aa4cc4;0x56264cd80aec3;0xa0f6056eeada6]]);
 ((V [0x1625250a4098;0xaf890d932a950;0x56b5cc0302f54;0x4506482a83443;0xa003e4f3392f4;0xe96470589bece;0xdc3276fa3109f;0x1475402f199e5;0x6ee25f65cd44b;0x1fbfc6f1e86] [0x5a843ae554e9;0xdb37b05e59ac3;0x6e7f742231d70;0x2af5fbcc0aea2;0xf354975e66903;0xe22007ff584c3;0x35fd9f734c78f;0x697c77db49dd6;0x7223be8b26719;0xe768b37eddd]),[[0xb83978b5147f4;0x60b26c495aada;0x9dba12e216492;0xf959af7a3a51c;0xffbdae9f7a3fe;0xb2a338915c0be;0xfa0eea57c7373;0xa4eb436f17471;0x966f5f19d4c98;0x54b2847f000];[0x2cab53a6af160;0x480b9eba2f632;0xd68a135409626;0xdb76e9e79987a;0x94ecffab15712;0xfcad21ff6e328;0xb6475a507c999;0x4c6ca00044eaf;0x3400ace8a0797;0x1599a3b59ae];[0x0;0xbca4313cab547;0xf2691fb749457;0x7fa24b9afe7a9;0xf8e1a4c52c397;0xca403e1ce8e2;0xa248e3ea6d701;0xb2704a625e9c5;0xae4686ed0b212;0xa54f463226e03;0xe218ca8f76b];[0x0;0xab2aabd354b8c;0xf36a987c3901b;0x2705a5f3b7024;0xe9b6038082177;0x617743f7ffb72;0x9fdac5a3341c5;0x6529d8510d9ad;0x25246b8aeac44;0xe7b7fd796254b;0x4a6d4ad547e];[0x0;0x4143a602fbb2a;0xcf2202ade42a4;0x2314cecc319f7;0xd638fe8e74e86;0x2e00b37cb8e11;0x69005f6729c73;0x6e45c1b463b8b;0x8430ad2039de;0x56faf5015028b;0x1c05a36fdd3];[0x0;0x255ac39bd0c6c;0xa7b709de70c8d;0x205e0a3994e0b;0x68cc385609107;0xad9fb724e9b78;0xaf23223aa4f07;0x5b1c54d8db91b;0xf4ff262ff8bfb;0x57163868448a5;0x554c4ecb1ccac]]);
 ((V [0xa68b6718f412b;0xc5d03cb02fd8d;0xb64b61a0d0cee;0xc2648f5eebed6;0x195530c5cdeaa;0x22a032fad9bb;0xa79e02f8eae4a;0xf73b55c31a579;0x732e7522cc124;0x24399257b0] [0x66264d86aad9d;0xe448425ffee0e;0xd2854f4c2b440;0x8b1e51a36c66c;0x3555e5cbaae42;0xacae8fe26e2b8;0x4440b72f9f8fa;0x75ced7908d15b;0x68e9feec0009b;0x6e401660635]),[[0x3a60ae4ec8ed5;0xeb4409df6fe1;0xd12a8c9e8fae7;0x18935913489a2;0xd2dda061df8bc;0xc2ce6e219cf5e;0xb67ed5ce95ce4;0x271dceb031b06;0x18ce23532685c;0xd83654fd922];[0xfb3f0dfd5a291;0xc447f96be7a50;0xbac8a8039fa8e;0x86fb63222bcd0;0x2b997ec59d22d;0x8fc0c0ed9044f;0x270e20ef74889;0x59e652b8ca73;0xca455f09b3dde;0x1853f5dc021];[0x0;0x23a031d2a96d9;0x9fd771cf1b083;0x4ebdab924ce21;0x3134581afcd1;0xd088b049044ab;0xce894b17c02ef;0xc8064805d706e;0xdc7bf3fa12189;0xccf5b2b79ef87;0x3f001d90dd];[0x0;0x6ae853fb727a5;0x52fcf5f2df2d2;0x34706f53114ab;0xb5fa1d21092be;0x78c56fcf4a788;0xfa6b528c53c1;0xe0b6c773d1d22;0xdc6411d321aa6;0xebf4da8bef367;0x186e2e8b8f2c];[0x0;0x28e9b60950632;0xd8d9d167464e2;0x5cefde62f8fe1;0xc1a2983b8bf60;0x53fe0e5577c79;0x40365bfac0094;0x9bb11dbbcc51;0x6788f546854fe;0x9a6f55762b47d;0xb69bbaf3ddc];[0x0;0x66584ca44dd52;0xf9ad11f7c166a;0x8d307c671a204;0xd75cb3c4ebc70;0x61104b30da4b4;0x7c149d182d1d;0x851bcc4ddb348;0x9b5a23921265d;0xb4d8bb6ee01c2;0xd927725b2fcca]]);
 ((V [0x1cbecb3433422;0xd9597d317aaf1;0x1ff6c66afef89;0x558ee6c5caf8a;0x42570dde9ecd9;0xa30c98308fec1;0xc4e54cf56ddf3;0xcd6a2cf3be183;0x867ef03e2451e;0x11ad2d9cfa2] [0xd7491dd755a0e;0x9cbf13a206d98;0x12b32ee3870cb;0x1c3164a182b6f;0xbcc290fd8484a;0xf11b25ef25dff;0xde984609536bf;0x28fcb2567ac91;0x9592ef867bcd5;0x86ef7cf042a]),[[0x3a71bab7eae7b;0x10647dfdf5071;0x63801da51a65e;0x5c5b84923046b;0x15bfe50b01fcc;0x3122fad8539cd;0xee0004b59159a;0xd20e1164b1dc3;0x5a59f23077c09;0x159456b09fc];[0x51bcb7b6c66cc;0x7b04eab7522ef;0x15cbf1c5a0732;0xc4b03ccc7aba2;0x4e80d4931e175;0x79a9e71834662;0xe9536a83015d2;0xadf43496ee1e0;0x6811ed9d0524b;0xd3b5cab9dcd];[0x0;0xe7ddaa39c7a2b;0x2c935dbf1c068;0x8b091f2d50b70;0xa2a517bf8967b;0xe7f40446241bc;0xebb8c6460865d;0x6a742a4c966c7;0x8c107c54c636;0x8551ba86ad8a7;0x5203e1b2];[0x0;0x72772d3d4739a;0xde619d53d7562;0x6f882e68b3799;0x700a2c42d8404;0xc63fce5b9fa50;0x80b014b9b8a90;0xdb69ee47eff86;0xc32007923c739;0x46fd7bf4d8b0c;0x12964870e08];[0x0;0x775cf3d35b657;0x855c470df14e3;0x8c225fe8a9351;0xcee0483d1d4ec;0x27651dde9b659;0xd20f09ba88b25;0x74b9a033cc1ff;0x3908116e30a9e;0xa4ee87a817dae;0x1d1ac2d53c];[0x0;0x5c3fba0202293;0xcde2de3c30c7b;0x399c3fda05504;0xed58a1a7b4ae3;0xbed39c998d8ec;0x4fa35fb1054ec;0xee7b7774213e2;0xd9f82c1fccfbc;0x35beb388d47cd;0x15a89e6fe0a8d]]);
 ((V [0x1aa6fac93b948;0x1e88c74d5dd47;0x9620c2b64d60b;0x5614c504ddb65;0x81db2acdf1447;0x9a49ea5165a96;0x6e30f9055991f;0x8c81a672c1547;0x1f79eff383780;0x59a1048dee3] [0x5c2eee939f9e3;0x90c0fc8c8af2c;0xdda87477b3edc;0x2fdd6ff42d7fe;0xdee9729cef5be;0x268028691e5b9;0xbcd83f354fee5;0xd57d52e8a829a;0xf2d56bcdb8268;0xd89f20c696d]),[[0x263d190682d7d;0xa70c27bc59291;0xc493c142b4cb1;0xac942891ce5a4;0xde5bf7e4748ab;0xa3f68a48afc24;0xbcd9ab5a9be86;0x6ded05cf32454;0x9ac0f36789c73;0x76af1d2e9c4];[0x2391b385849c3;0x7ab91fefab71;0x82356ab8de7f1;0x998df459b0da;0x7fbaa11dde1f2;0xdf1954cf4243e;0xb29d3308d066a;0xd427e192bb687;0xb724b13d7bc25;0xc204e790ca6];[0x0;0xca7e072e1d337;0xd15186400c3ed;0xfdfbb936e3d40;0x8740634d0fe9d;0x9373259140a6f;0x3b4afee436e2b;0xe0e099acd7286;0x43742738e4e11;0x4089e41caf109;0x1387535878];[0x0;0x6d6ef207db469;0xb4c3dae854340;0x1612b55b0134f;0xf10cba3c46a27;0x54a5ca93f63a0;0xba9c224f1e87b;0xf49b64d55d4d2;0xfb2d9fd0ee888;0x216d79ec063a;0x7d1d615db31];[0x0;0x8781978c86a9b;0x98ccacaa884cf;0x3f9abebb11b93;0xad591cb3f4434;0x70a4782011da4;0xd3ffa6f43a108;0xcbe704f834f6;0x54a5ad5b8fdfc;0x12f3c7de2cfd5;0x3705e6afe12];[0x0;0x178cecf408ff4;0x115a0afd1bf79;0x6c33ba4dd55b3;0xba84df7ed21b3;0x2d158274b5af7;0xb689618b5783d;0x6ee18bb5c17c6;0x29ded1b9363ae;0xb49b12e81a555;0x770470aed42da]]);
 ((V [0x17faad0167635;0xf05b398ad5ac2;0x5eac138b4f375;0x5621be5adb6c0;0x465d722960a3a;0x72ee0828e80f1;0xc9644eed4f0de;0x7328326a8a24;0xf0feee2746169;0x92ee6b4bfda] [0xd0d191a84b26f;0x976aa2756dd1a;0x92b1eadd1d269;0xa36c02eeda6c1;0xf9f6b31ad9427;0x3d1f555950cf4;0x99c2b97ddfa7e;0x1e145a7d11db6;0xa833800abb2d6;0xaf5a2cbfe99]),[[0x5234f4819a186;0xe27e8bdac7063;0xccfc1df6b5312;0xacffd40513eb1;0xfd5cc27ff9fa4;0x5c68376d73d9c;0x51dfe24dca0ee;0xf142d587a64d5;0x478d7ed98ee96;0x81856f0bb53];[0x1739e97c1845d;0x1344ce098fb45;0xcbb3825d5b10f;0x493c3d214935c;0x974b15048fd85;0x55e0f461a996d;0x85f8aa9e67939;0x92342f4bcf79;0xcc1602f03c1a2;0xdc19480654];[0x0;0x8e5084f6fd05;0x17d4a0410c2b0;0x3b4c7cff7489b;0x3c180b3589690;0xf935a00da5f3c;0x6c032f6988fb8;0xf342800330513;0x73fa76c4c22f4;0x91727d3daca98;0x1f615a716a3];[0x0;0x847add96618ef;0x78226eba0c796;0xba6514b3ff914;0x4df543bd8ba0;0xf75ea0879f1ca;0x66d767358e991;0x4d04d4fbaec50;0x68999b9944204;0x888fdc51621f5;0xdb32304e012];[0x0;0x69acd588f97a9;0x4812167787b1;0x8836c07758f6e;0xdf1037be3c61b;0xb918c97ac528b;0xe9ce46e3a464f;0x5f228c88b7aae;0xb8c55d37f7040;0x451fbc161e197;0x4187bf765ef];[0x0;0x6687ecc542fe6;0xe49049b86bd7;0x53a4d31d17ac3;0x8e90033d0964c;0x91d95966136a8;0x84e752363df2f;0x871ad6834fd5d;0xa9539b69ce5db;0x1f03bdeb29b3c;0x81e9f69be994b]]);
 ((V [0xab6989577ab4d;0x8c71a1a5205d5;0x43df866628040;0xbea194613aab6;0xe1bdb82082ad1;0x8c3537fb00688;0x5711e9b81e3f7;0x8581e02bfba85;0x56072844b2ef8;0xa5b5298a94c] [0xe60bab1fc64c0;0xfe3ac61e7cc8e;0xeaa6b0e006868;0xe5aeffa5ecc68;0x29ac1786085fc;0x9f827a052c487;0x1722e0b4715d;0xd98d8ddcd83a2;0xaa5ca6fdc51a6;0xffbc1e89b6]),[[0xddfaf66ef93a7;0x5ddc303594a18;0xf45dacc1c622c;0x80df19f059b73;0x1984be0188c4d;0x9678a27acd215;0xc6b50ef9918d5;0x40fc78373af91;0x433c7fe1f2c5;0x4fb4351e168];[0x6782a4c797788;0xf4ced231b19ce;0x1858e798dabee;0x15a7bd3a046f9;0xec5d541519948;0x424ae14106371;0xa1ca286eff908;0x812b4c978a6fc;0xe4a042773b8f2;0x6d23062e2ee];[0x0;0x6d9ede0588907;0x574a5fdd9fe9c;0x4fd74a4d17d6b;0x92204e65c627f;0x470b873b256fd;0xcb38255ac2b32;0x4112b91496f4f;0xda4f602ca768a;0xffc4d11c253fb;0x5454d06e5b9];[0x0;0x2a51240ea01da;0xcdbe88d6f93cf;0xf2e759ad14d55;0xe537a6baf0455;0xd0dbe9b3b8e21;0xe981b0a56ebfa;0x11174898280e1;0xe6bb098fe1a2d;0xb07f3a2a97405;0x6d308731ee8];[0x0;0xa414938492ef6;0x78277a73a8f83;0xfdc9da5b28475;0x323b7d87a8787;0x53aab5a404cec;0x1c7a93b03c2bb;0xd1fd91818c439;0x5f1d39480c4f1;0x846b847e26486;0x18d0b7a34f3];[0x0;0x4e7b81ef39f36;0x99943e6ca71ba;0x21efdbc448265;0xcbb5d74ff3e99;0xa1ca333087b5f;0xcb0d9084de3b2;0x1abcd4f801e77;0x915141231a919;0xda3eedf055a79;0x4ffe10c6dc27c]]);
 ((V [0x26c008a27f3ad;0xdd75c12a489cb;0xf36bb91b5b22c;0x290931c6b0531;0x23ac57add1020;0xa727e737316d5;0xe59274f3cdd54;0x4d5e6058f85e;0xbaf23feefb00b;0xa1327ad01f1] [0x9cd0ba883963b;0x2a11e97792946;0x38a5d488903d7;0xd38c1c078be5c;0xaec6f1da29a10;0xffb9d04197e9e;0x9672bbabcb582;0x38bd77f92e231;0x6939e11c8f36;0x1dd61b89533]),[[0xf35221860b84e;0xe068b60717ae6;0xc31d7aa578a12;0x8885c2d0fc9cc;0x719403b84501c;0x3a4d3f350fbb8;0xa1a663cd54c28;0x181b00f61b48d;0xc98d232a72e1a;0xcb93788a08];[0x46f76793f7a97;0xef7d708d3869d;0xac6aab4a0709c;0xaaae4a0b53351;0xa3113ab90f9cd;0x775f25a3d5f0b;0x63ded307f09e5;0x4e97821f99382;0xa3c6845fe581a;0x83a47ed316b];[0x0;0x18447646458de;0xadd181e74eb06;0x63a5551f63a01;0xbb9fb3118f7;0xf2a0e98f306b4;0x551660cabc8fb;0xd46e6a7196559;0x7b2d13cb59d61;0xa7c19f49d7665;0x6b4307c0687];[0x0;0x346259a94f8d1;0xe7f11149008f4;0xcb75a96fe2e87;0xeea19e609861e;0x51def920274fa;0x940c28109e04f;0x7d8eff88f1e98;0xc3d4473b4230a;0xeda6f9bf05544;0x196bafb4d9];[0x0;0xa76051e4b8a9b;0x5f04d9456dfdb;0x68f6e67fac2fd;0xfe37554f84a87;0x7a381d999e7f0;0x2bc4a7c4bbeef;0x24fab5aab4f03;0xfbdc3a6c63158;0x1376ff8499f4a;0xa1e3361e9];[0x0;0xddb06b712d461;0x6d414b6444ce;0x8087cfe984fe;0xb80c4d81f728a;0xe70cc34732e5;0xe1b7cb81bd6f5;0xe986f55c37f35;0x3820877087eb1;0x370a9046aec41;0xcc62a23c4ab3]]);
 ((V [0x36b4cf909cf2a;0x42fcf86c4a55a;0xe7ef57622b9ef;0xce6b1fdbcab1d;0x83e6e66259aef;0x2ef16d2fae570;0x9c3c3c1c26413;0xdaec1f93d82fc;0xd048a76180758;0xcd36dbcffbd] [0xb5fdbc397b116;0xf4393203032b7;0xc759ba8d1fc27;0x91bb71c303b67;0x3086724eba806;0xd67eb9b8023bf;0x74e9c5f8ee7af;0x102991c93e089;0xf2c5e81ddeb76;0x6cf764720b]),[[0x74e7b09649614;0xb56580c925c82;0x4a33a5e329031;0x97c70b8b8ca69;0xb71b369ff2f10;0x6bbe1118e69e9;0x8d1a8fb44b511;0x418f3cdb8a5fe;0xcf5526e670b89;0x927b0fbd528];[0x182192b13a012;0xc5acbfd66f546;0x680909fe48d25;0xe1f60e8b55591;0xb5ecbd67fada5;0x7da048f603cca;0xb95965c826d8e;0x8f8f3399732d6;0x80ca3f8176a87;0x39cbbb5684];[0x0;0xf22d79358d271;0x6846607876e0;0x2758c7b6d34d4;0x90a376601bea9;0x93245a1d7198f;0x76463003993f1;0x425cb372887d8;0x7ad39031c71e2;0x7fff4a46bb1f2;0x6580886dfb5];[0x0;0x8c148db4fded2;0x3142966502157;0xf7fb318f58bdc;0x5454c73d9e59d;0x3d65ed333f752;0xa48b28600bfc3;0xb26d1d656cd77;0xe485177163ff2;0x5ee10c34b8ed7;0x2224e6d2517];[0x0;0xbe30a5a74dc94;0x9dcbde7c81289;0x7f70ce8cd5282;0xba71fbc34c5b3;0xea73a066c13ff;0x7a5f7f3c785a4;0xe9009703f89e0;0xc827255d2d423;0xdd6f546a41f9a;0x53d0991c130];[0x0;0x50eab80ace9d1;0x6fb97971a38b9;0x7cb5e34320f8d;0x3320a4470536a;0x176ed956c916d;0xd946a103c3700;0x11307399821e2;0x1ff580918c46e;0xb5adb0ab1441;0x92f45b24ee899]]);
 ((V [0xb48ad41e5d7a4;0x94b2faee0f107;0x55c978d51188b;0x7665013853485;0x4d2f746d11a64;0x1a501d6f663c1;0x537f70f7f6308;0x2c4939adab3e7;0x2fbff074c8501;0xdc65e45257f] [0xa02172d29d5bf;0x39d6e185a118e;0x52b2a24c3f0d7;0x85aa15e143b6a;0xa3a117c18ce8e;0xf61510025ecfd;0xd4f5455400fa1;0xcecea18b5372f;0x42f488db54774;0x6865d0b4c7b]),[[0x5f94d4c2e5959;0x9970f0435ea60;0xa20eb4ce0198c;0xfd4a02c82c016;0xb25df82b76333;0x9aaa7a6f2ba94;0x308fa5ede190c;0xee5076bee0b0d;0x2ce79c28b9735;0x79e6eb09bbf];[0x2a7f2df53b43f;0xcb9d5d9c724b1;0x6a736c775ec68;0x3099845b31298;0x3cc2b01815f00;0xfffe43005de7b;0xf7c0ffc5937ff;0x8107aff28b52b;0x4a7b2a43e2e2;0x8b51c273f2d];[0x0;0x48814884cd033;0x335365bfcedc4;0x125ed0273b9ee;0x95996a0637e03;0xd456c9c5cc893;0xddd4069c84525;0xf8b280879178c;0xda4010eb57cf9;0xbbc691889b197;0xa480e7cc91d];[0x0;0x3611a9cc4d2dd;0xead800e5b4101;0x96cdddd639f5a;0x60629afdfa0e9;0x201219285b3a8;0x37e4cb0da589d;0x5203670617737;0xb2d5a7394f9ff;0x78983e9f1d37;0x67c67192c8];[0x0;0x9bff8ef69313f;0xfc32004a3fea4;0xe4f1e4b414696;0x9fdb0fc7f225c;0x7da2551f3e3dc;0xf8694885653bb;0x6959012e13b55;0x8c91dbfd1a556;0x41ee8a4d43771;0x3a0c1a7a60f];[0x0;0xbe2053bc56390;0xa1ed5b10bbc02;0xda42b309b5eb9;0x27784c61cc314;0x8379e8bd0a005;0xe41228f40321a;0x21d65bdb173a2;0xe1ae024668821;0xf718025bbe400;0x7a5997078dab7]]);
 ((V [0x198d9b8525b5d;0x62150e35c0a2e;0x74eaf09f80353;0x9015d8a1b9e7d;0xfd5203c3563b0;0x94a3d1f966471;0x9d78183c26d54;0xd9b4666cd9dfd;0x160f483451a08;0x1404535d364] [0x25b11e1235a2f;0xbc94ed8116ff8;0x1a3ba3dae2704;0x74cffe0aedffd;0xc52d16c4f22ea;0x687e88f66a1a3;0x3270faf7de0e9;0x31155b514a973;0x95b7175599080;0xe08501a80a9]),[[0xd2bf419764e90;0x1786755705bf2;0x6b95f8b6b4322;0xce82768e80859;0xcb459522899a3;0xf63b4cf66ca91;0x41f21a8d929e1;0x8eeeca2180364;0x14dd0611dcc3c;0x97693c4ced8];[0xdf2baeb34e0b6;0xeee9ecc0c799a;0x20aad7b8b17a1;0x7be8bffbb7e1b;0x43afb07e91934;0x92762b84eb5f8;0x73e13b4e56f8d;0x7bfdc39006994;0xa5236e201deb3;0xd544ddcd741];[0x0;0xe9e3ea20744d6;0x518a2174c94c3;0xd00ff9151a7b3;0x3e44b7950819b;0x7c42ab47ce1f4;0x91c5bd239915e;0x1d98a8d4b17;0xae27fdfea8cad;0x5cdfe72860944;0xbdbf48fb7bc];[0x0;0x59ecb71dfb536;0x4c09e20cf9d82;0x28e0fe0f85ae0;0xfb11b5955eb1f;0x2fd9e663ed94c;0xadcf261ba97fc;0x61e91a409a55f;0x5ee2fbe53cdc6;0x1050bae006d5a;0x7b7df0e8efe];[0x0;0xdf5124e19c2cd;0x87d276c889b9c;0xbea174b36491e;0xee0fb2659fe1b;0xa60a29fd51315;0x767ac2f021f40;0x699f280ebf08;0xf332a983f9110;0xd845025195e03;0x598d5065457];[0x0;0x6c75634ab1c7e;0xeccc967a7ae21;0x127fe0486e768;0x7fb0cd209f69d;0x3b2badf926bc7;0x17f57aa70294d;0x9eb03b9c52705;0xe1d184e03554a;0x1b86e5ac6422c;0x98772974f28f1]]);
 ((V [0x7fa56d3f7189b;0x3e1173abcf66d;0x731c36a59901e;0xacd5638f4d6b4;0x3cc15e692a77a;0x9be036f6df92f;0x89af57118d3f3;0x974604c2ad4f2;0xf12d8beec1c90;0xf68245cfa27] [0x960b8d46666f2;0xffb3fbbae02ad;0xd3b6ffe61ed25;0x296106cbb3c29;0x800dbd890a3f9;0x42d42382d921b;0x1fe3430819d5d;0x5306fe21a2e41;0x745bc9a6959ce;0x3518d587546]),[[0x24b122e51f8b7;0xdc3fc7e316aff;0x9cc98548929ad;0xfaa31689ad944;0x437b7cdf96784;0xc768535ecc2bd;0x3f6462d955c29;0x36eb36efdfc55;0xaaaeb44c409a2;0xbaf2e984ad4];[0xa9284bdc3503c;0xef033e0b71bff;0x421a9d9516ac3;0x618d382568e72;0xbcf1885fd56d;0xd189dd08d561f;0xe8e7dfb947d0;0x6da6efc366bed;0xe36f01768043;0x1b93433eb26];[0x0;0x6849d07d3b80b;0x45188f462e90b;0x4fbc73da344a4;0x8804128097803;0x16485f3c9f6ba;0x7ca8d8225218d;0x1aa44fe662309;0xe9a5c14ea3d58;0x97c5018058a99;0x190ad19468];[0x0;0xbb6e122983176;0x41d64ad919b;0x5d71fbc7f96e2;0x685439a49737a;0xcc6fe0827a419;0x67fa18e416bf9;0x51ab97c30e0a8;0x9203f7f0c244a;0xf38573e1efc36;0x147eb5b7a273];[0x0;0x8bcb27833d0a4;0x77dac8bcbd261;0x2e6880c54b649;0x783e3757f7cba;0xbc43c7e32ef03;0x63e8a65758f3d;0x2afc52c179a;0xef42ddafba6ea;0xae9be1a296736;0x8885e1d31fa];[0x0;0xaa162ea81afc2;0x46c463d7e5bee;0xb179cc26f9728;0x4a413d771b05f;0x1d652134d6839;0xf443ad35eca8;0x73c15d873d49c;0x6771f56a3a5d5;0xa1ca2e35010d7;0xbb08760261a13]]);
 ((V [0x73b6b50def3b0;0x69a31eeb9459c;0x5f88a3778d71f;0x7adaf8859fe37;0x2d4b6fd86db40;0xea74703b998d9;0x4e425b9c4e428;0xae26091ce35fe;0xbe1b7ec4e9f68;0x306c16aebea] [0x179c27e5340ba;0xfda9295af093c;0xf4d39b5943a41;0xed8c96f540326;0x1cadc98a6f02;0xafff4babfe242;0xc4040e98ea52;0x62edfd8db0ac2;0xa94e259ca0942;0xee11965777c]),[[0x60169b287d52f;0xd4333c58ed2a8;0x9f472911594fe;0x662d3c4cd373e;0x170f04a079f2a;0xabd500c9d5e7f;0xe1f562d944bbd;0xa34d248a04a84;0x9319a03ef53c0;0xba71dc90dfc];[0xcf9a72b32c0c0;0x176657a29fd4f;0x1557932f88ec2;0xda2ae1280b98f;0xaed96bae716a3;0xecdccf49f0c3c;0xea715a6ef1708;0x53bda6cabd1d5;0x61e4d0d58e973;0xcdfaff2daf8];[0x0;0x4f241e3bb7e1f;0x513038438bdc9;0x4e84242458004;0x1280d658c0a3e;0xc76155fea1628;0xcd06ddbf2823d;0xd9f88a42d3a0c;0xf4e3cc6aa45b5;0x6d74863de1310;0xed5ea076063];[0x0;0x3f5b0cd299868;0xaef8ee3e1bf67;0xa4fddfd6c9867;0x7451716c726f4;0xfd2c93b5518d7;0xbba156e78e85;0xb21feb237a5c2;0xefe8ea6476615;0x41f668dbb0bfc;0x4d5751b3efe];[0x0;0x936c91dba946d;0x4bc25de3ff8bb;0x4692cd8e82f24;0x9b642eb70fa0f;0xee8355174b94d;0xc724f55834563;0x428db12971469;0xe2df087c9943d;0xf3e4feae7e58c;0x87c9a726fb1];[0x0;0x8295d2fb33dee;0x15b961f052402;0x61a08908fa5ca;0xf0766fb6a5465;0x186a82f87e569;0x192b42491b8f5;0x2bac3ead9720b;0x44ebe84453cad;0xa94ac337b4060;0xbbbc92a624862]]);
 ((V [0xc23ede59e7d76;0xd6ef35e478e73;0xad206fdccafc4;0xb578984b9dd4f;0x73e1362da337b;0x1b3aa70ca27c0;0x2cdcde173def4;0xbbee90e554203;0xed093aed072dc;0xf217437007e] [0xfb3795009d22;0xdd59f717f9e58;0x15f449de91d28;0xfe2df8af6f1d3;0x5ec9978b70230;0xba6414c2068c9;0x7e412f9a07f8c;0xdd5a16631a637;0x314cbc7fc57bf;0x313233e8b96]),[[0xaa5da4d61ef8b;0xc041ea45cf54c;0x4f256d6377699;0x3279041b7eeed;0x8e9d8984d7fe9;0x4068caa66c143;0xd3c1a4b108029;0xbd92e4729fec2;0xd6fd290d628a1;0xc360706cd82];[0xb4c483b98ff0b;0x9bb722f1681ad;0x6be42d0cbeec0;0xd974492f47af7;0x2cff21c806a7d;0x507c8785ddae0;0x9a8c21940feb5;0xb1353164f7619;0xaebfc4249bb38;0x50843629f3b];[0x0;0x3009ce05cda63;0x27ec05538822d;0x83a3c2e8d3456;0x5a2d28c74e91c;0x41f06bd19e0c3;0xfa1e0267d074f;0xd45acfb3728ff;0xd5671aec0a013;0x3d5b8b642e734;0x928b624acf];[0x0;0x70c764ecab831;0x269a9b7123d;0xc9b97e1032b3c;0xe61317df2ee2a;0xde46b9f7eee45;0xb6e1702514f3e;0x7db6f22d89f4b;0x365581cc3a2fc;0xe093c2b436323;0x16b622953d68];[0x0;0xea8e4c3f0a645;0x6c31a6826d68e;0x58d795dd57e28;0xc4d78116c3f9b;0xb5ae6661d8115;0x7d5539bb2363;0xe752362f146c9;0x4da45b3152bbd;0x6c5dd854e2fae;0x951c0f9a545];[0x0;0x10677097d1bd9;0xf6a5b078f7807;0x2896aa473c9bb;0x96b5138042e5;0x20c277df93d2;0x840e6836c7841;0x5440733c2aff2;0xfe19bece40e8d;0xd8e4dc680df2e;0xc3900284efc6f]]);
 ((V [0xfb65fdc4a69cb;0x5e8235217044b;0xa8472017372f8;0xaf39d53a4b1d7;0x49171e1c6a999;0xeecbcd05424bf;0x4413bb383aa6e;0xbf3a5e66b3f5b;0x396e420706a55;0x31818395cde] [0x823b4fd1996e6;0xf1011fac2a0f4;0xda7599b7fbccf;0xb1a73e2ac96;0x7a97581d67ad8;0xe63d2c91f0a5b;0x1e1525be562d3;0xda3742f60a563;0xa0bc5259b67bd;0x92d8a7104b1]),[[0x5f062470e1347;0x8fb8989ba22a9;0xf1c6a790952f;0xa54c9a0d0548c;0x2f532bd3e212;0x6c9a3e87ba165;0x65ad93639f334;0xb5761b4a71542;0x5f83caf47e9fb;0x845b6603cf6];[0xe1c50d8d87a97;0xcfc723dbd9437;0x2471ac1425b18;0xfea88a6cc9702;0xc7eb55dd6e524;0xf629c408ab30;0x71dd886e6fe88;0x2c33fa8527f06;0xab27f9e91ab49;0x568e19cf3b];[0x0;0xea23ea6c06dcb;0x67515034daf37;0xcf705712eeb81;0xc8eff1c3d547a;0x7da5078c17573;0x5818f03c0e02;0xccd0f21b07c5f;0x99959d7586f7e;0x4c46ea36e3f88;0xe4effd9cfee];[0x0;0x36d58f7575a15;0x880bebea88d9a;0xd431715c925b0;0x7879dbebfb174;0xccdef6c3c5178;0x3a2b4502d729;0xb49ca93cd5c1f;0xf2afc76b721a7;0x3060a24eb4edd;0x32dee66e5ee];[0x0;0xac3d8973dc736;0x5603d2e236600;0x2037f8732d2d2;0xb1643d49f9af6;0xa6ec0e25fc5ed;0x44ac27283eabd;0x26e3cf2750ee5;0x4a471bbe31724;0xda3d0d6210395;0x446e61d59d3];[0x0;0xb7997084de1ba;0x71479e46f2ff3;0x954b537e3a28;0xa8341b3b699c1;0x55a8a7cd3dd22;0x1b549cc32d770;0xd3d9b17255aa6;0xf76da97d57989;0x69f4c03f97729;0x85435362b9761]]);
 ((V [0xb5c7dc94b0843;0x8e754447a115d;0xa8fb33a69bf03;0x6bc30c85e9921;0xb4aecfa8954f6;0xb6b46e65b2427;0xac212bc84adad;0xbe692dcdf1a31;0x42d94210e1631;0x9b75d00f128] [0x469f126521588;0x65bbad35bd8ea;0x5222500946670;0x6c6c538d063ed;0xb62e4842ceaf9;0x7c89e110503;0xb77b53924560e;0x9a15fdff85feb;0x771c28ab90913;0xd8f6ebd6a50]),[[0xcbd5ec6ccfb37;0x9b88f68c74e4a;0x95bb4468ae9d5;0x64f115f889479;0x1a350dd4daec5;0x63b2f21fc7ae0;0x5ac57e78a9c80;0xcf5dca4d8926a;0xb7e897b7a3140;0xff9ab1b5b38];[0x93afed3317c98;0xdce296470469b;0x72991bde12e8b;0xcf00a05486bc2;0xed7e616c69bb;0x6bac5ed9a9cf2;0xadd14df29b134;0x89ee44d7db8fd;0x5c6a13eef4f48;0x9c1199eda98];[0x0;0xf9edbf2c43697;0xceb08b8a6e3de;0xa9c13c2d68452;0x33d4c118479ba;0x2d7b101cd065e;0xc89773bf7bc7d;0x9d7290bae5ef2;0x1ac44d743c3f3;0xd4781a34522bf;0x992d5e5396];[0x0;0x72e5d7d31fe78;0xeaede5d8d8361;0xcc5f6492fb528;0x8a976dd5461ca;0x94a6f77e60a6d;0xf4dbd92e229;0x532bfa2f19f0e;0xca5f08abdd50e;0x405be53ef4e13;0x1253d155b809];[0x0;0xcb2c7d0cd0648;0x50d0c6d07ae06;0x8ec00ed06f1c;0xe7b274359e6b5;0x11b77434154ae;0xb13c63584ad74;0xbbfb2411b345b;0xdc8031369414c;0x8ad28678d6740;0xff358b8245a];[0x0;0xfabfc717a9c1d;0xebcf3e559b9fc;0xb6fbfb36b0db0;0xee2579497b039;0x5dee273cc741f;0xfe4675aad9d3e;0x1cbf6051e07b7;0x42ebf123419e5;0x151a2fc23ad60;0x308208b955d;0x1]]);
 ((V [0x9e7cf31b6805;0x47ad0e6e6e521;0x642d5d7fd9c9d;0x8893bf2fc5479;0x97a8fc419abdb;0x8c363c01bea20;0x593f47dbc6fc8;0x7e70e1d917f2b;0x5de4ce5056c6f;0x831ce6cfa31] [0x3423ee783af6c;0xa9d90cad24827;0xb8936f4daee7e;0x5e36d40245044;0xee05403e9902e;0x8c9255d96564a;0x420ecfe54ef43;0xcd631fc10b2cc;0xd81b5fadc236b;0x77cc048ae22]),[[0x4ac8a816604b7;0xca718f6e16257;0xa009388c32ba7;0x239a87fb0a7eb;0xa573460771632;0xe69024e550110;0x4db9841d6cb78;0xdb8346c481e0c;0xbcaae117cf109;0xf436dd72065];[0x283ca79e0df4c;0xdd0411b7d5eb7;0xa2800545b7cb;0x455279fedd53d;0x724b88e259bed;0x7f5e598ff1bb6;0x66ae428321744;0xc01ed9e8efa6e;0xc9e887bdc8c0b;0x189cdb39e87];[0x0;0xeaf2fde726fdb;0xf04da34199203;0x280ce621fc697;0x92865169ccd3d;0xb75a880ead7d4;0x28827ed9bb49c;0x8256d35eeea60;0x274853d58e0b5;0xb7afd00522d7b;0x5e67e02a174];[0x0;0xff9651514ccf8;0x304d8fda1df0;0x9ac0285d9a208;0xc3283c0490f98;0xe7b0f21c6c7df;0x6f314b553b8c9;0x716186aefec68;0xe4425e9bcd389;0x59e3f1f600814;0x19df3b118430];[0x0;0x2f5d2743a638a;0xf0732fe897ea;0x5a14e6a489aa2;0xf87d8afd90083;0xecc64dc1b2338;0x951c4ff000623;0x4cc32890b0e45;0xa7160025624ed;0x7bad9789f07d3;0xe8f8a1e387c];[0x0;0x3f8b75d581969;0xb733ba84d3ef8;0xc5afb86847e0c;0x12b04fd007cf4;0x33d98360c432a;0xf6bb56872efa4;0x574e68fedcc7f;0xff1ce235ac4d1;0xb8f5f228a45a9;0xf5424e4599a54]]);
 ((V [0xd46657355f212;0xc4d0ee4284639;0x1f45a48fcf644;0x6f6ac517f0e6;0x33d63d8ad312f;0xe24ae3331b17e;0x27b5daaa066e2;0x7fd340b2c4230;0x93260fdfb6518;0x4b40da9636] [0xcac8f2588f830;0x22a6efa88ac2c;0xe61385af2bdba;0xa581ed3aa389d;0x1d8bbc32d8df8;0xec6b925396735;0x8a0343ae82fc;0xedf3a906c8f0f;0x37b1214cbb2fb;0x900df13e233]),[[0xdfeee9bb15563;0x37cbf02177d47;0x19e8d8c1bc51b;0x107f749d22b25;0xf9ad09ca58600;0x9c332e11377a6;0x46b340ec3d129;0xb38ab75db25a1;0x23fc4214c732a;0xb90a95ac600];[0xa56d1f944b81a;0xe5f1743fcb8f8;0xd13d80c2997bf;0xa869bd7f2c4b7;0xbdd85f7a66b;0xe67fbb77d162;0xdb19e243da56f;0xabc1f8f0a4112;0x54f8b3e94234e;0x4dab163a5f3];[0x0;0x32ae70f773409;0x7302be14c2869;0xf4dfcbc8a8987;0xfd65efa1a705a;0xa4e8bdf7a871a;0x831caf7df639e;0xac53cb47223aa;0x16b4d29edbd9e;0xdcfbfc3ea2cfe;0x4326977bce6];[0x0;0xac985f453bcda;0xae3e40f007a5c;0x108374fb11f43;0x411cd0bd9e25f;0x1c1dabf63668c;0xd2980d22b2a9;0xf6fc9109590d0;0xeea908e04582e;0xa553642890704;0xad2ec695e70];[0x0;0x2509158c2706b;0xf83297f9bfd69;0x3c3cea759a271;0x66557ea86b0d2;0x8da8460b5df24;0xc247ddae2998f;0xa08fbc4a2ddf6;0x9b8af474f0589;0xcdc2a38b4c694;0x85c04cc32bb];[0x0;0x837826666551e;0x915013e6ff847;0x3f1a21a814b55;0xc7caf7ccb5e71;0x4ffa0028e59db;0x23b0fa6a9b114;0xeaaa4c7a6e605;0x18a087d25fbe4;0x1df609755e24b;0xba1eff40f9a60]]);
 ((V [0x2349fa42f6d0d;0xae77f81e18856;0x43f7673af595a;0x9fcb29fd8e497;0xbc3c5408fd246;0xa485176517094;0x92eb5577301a6;0x6dd9cbe13a270;0x595bc62fe8aab;0x4e5e67002ad] [0x421779f1f03d4;0xce9259e169054;0x426d5698653ff;0xcdfcc69bdd50c;0xba566055d5cf4;0x175546e77b233;0x2371fc6b4722c;0x31ec3e2fd44fd;0x5c081d81e7bb5;0x1dd2753279e]),[[0x770a84002a402;0x9e9e6cabde43e;0xcd7ccc56623e3;0x9d35da5551a17;0x4faaa9bdcba3c;0x9567c96f92562;0x45cb11c1e39fe;0xd62622fd30c08;0x9618cf9cf7f01;0x3433980d759];[0x77f80f396d0dc;0x8696ffb626cdd;0x136690c0f9f7e;0x24534914c46a4;0x7b3ee1e4bbfad;0xbd83c933ac0d7;0x988e5e688c997;0x8b7499fee1eba;0xa6d4f6ff653f9;0xf84b552adf3];[0x0;0xcd73345cc2458;0xd17e7829f08d9;0xdd760af329f;0xba37a73a1709c;0xa11cdc3fb3de5;0xed7ef33332f51;0xd97698fbc0520;0x2e8d22cc57fcf;0x9b9aef6f1eabb;0x161f10820];[0x0;0x42033b784ac58;0x8e4bb10bf62b8;0x3ea863ebb670b;0xd9e00cb7bc6b3;0xacddbdb4b1354;0x7154b246f68ee;0x8934367043433;0xb9e95772a8e18;0xc979578afbbd9;0x3abfbaaf114];[0x0;0x3547e0c32695;0x712c99c08bae1;0x626beb1d932b6;0xcebe9369b618f;0x81661db5c7df8;0x491a16186a389;0xb328d9d386b77;0xbba64cf4c1044;0x327196f18b44d;0xaa5002b677];[0x0;0xfb352dc9a8bcc;0xe49bc1b702e55;0x6a9c4746e9ad;0xac1b7379b81d5;0xc33d7426b95d0;0x8fc2e72d6784b;0x8d7ec776b47e5;0xb1bd00eab1d09;0x62239c72e9192;0x3458c632ac9da]]);
 ((V [0xdb108ded1acb0;0x659bcd63f8dea;0xb91415b5943e9;0x2550de0c36d55;0xd5d362ec1b272;0xf6ca29c9874f8;0x1b829bbf1886e;0x84290f1a3c389;0x601cf95651368;0x9428b1470ac] [0xacc6bf263732;0x9023351879c02;0x12fca9f3caced;0xd9058a495d427;0x843f8317c9cac;0x6e643c503e04e;0xd4c6e4ec7a7d9;0xdb3ce03a1e894;0x5bfdeb8039524;0x95e80931b45]),[[0x9b151cef3a6a1;0xd2782040be669;0x8fcda6eb99fd3;0x37d1fd57a7c42;0x8f4dbad027e3b;0x3371627be467;0x52bb143885d09;0x727ddd845cf15;0x6ef583d6f072;0xa88be4ef13b];[0x8c5aa8f44b65;0x529e2c610d154;0x1237f6902c0fe;0xde637152e9cd5;0xe4168f0f37b1;0x618b91a796a96;0xe27085b995f8e;0x582c081765693;0x5490917bd4e8c;0x45b0068e503];[0x0;0xc0d0ce967ce9c;0x539a66b602a0;0x89f871806640d;0x61931b975b762;0x57ec351643553;0xebf1f544eb73a;0x74d60af42350d;0x73f86d8515c51;0xabe90a8542e6b;0x17fda993e7a];[0x0;0xceb3b68735da3;0x9d04d019c55f;0x5bfe05e97bfd4;0x35c6ec041c265;0xaa6c876f59df2;0x4692546732657;0xf73a2848890a;0x98607c1ce26d7;0xd022b0650508d;0x2744d1b4191];[0x0;0xbbddc282badd1;0x9406700569350;0x3558c3ece514;0x7348c360802f3;0x3e833c10737ff;0x6cdc9870dfcde;0x80cddc605256;0x8d6d710c2f9d7;0x1ad92c63f7253;0x6ef7e8ec323];[0x0;0x65682f24d7a72;0x74a2fb2aa5940;0x8d326dab83c31;0x4e2b04f414c88;0xde19461a2fa57;0xadeb9cfa198c;0x76cc422dd20b5;0xad4d1aa1ce3de;0xd718eb3c448a6;0xa9067df004954]]);
 ((V [0x738211330dcaf;0x21305e0cc3e5e;0x87cb061ecc959;0x3aa65695cf716;0xf003f1c1ed62f;0x51b9e29b81099;0xf40fce53f531c;0xe8b9130859616;0xd80d8ee72ac51;0xca6869e7f78] [0x8f3ab959451df;0x78140a18848b7;0xc32ee1ea9ecb6;0x89b412224c73f;0x82a9c114f75c0;0xb61e22df7e3a6;0x41f48e6f91aeb;0x939be15eb6333;0x5a1f73252b083;0x3663f6d2900]),[[0xc483a776e7d8f;0xa350a7f9830ef;0xb0a688134683d;0x276792fc923b8;0x8661f39b6e18d;0xded35208aecd5;0x1b01b1efa5af5;0xae59d87023f0f;0x5a45ef41a3d84;0xd9074c747a5];[0x81fdfea415065;0xe8ceae10effd9;0xf0e9289ec574f;0x881157a9c1be9;0x86dd0307b6c;0x2def7a2016b90;0xbf7e024cf3ad1;0x6340b49e887d4;0xe0bd690a06991;0x177238c9843];[0x0;0xe833560640e8d;0x4033c844f6d4a;0xb7b2bfd6bea11;0x48839f9a22832;0x94a3938c030c0;0x92e66b20f31a9;0xb3d8c46cdec18;0x912a56610e478;0xba0955e65ad0c;0x55bf1372056];[0x0;0x8846c06bacdcf;0xb47ffa742263d;0x615830dca7721;0x70961b3fe4905;0x8d20496b92d47;0x6f93c9ff40406;0xac0efd4cfc777;0x1b4e0494bca23;0x4897064b93a38;0xfe2bebd0f37];[0x0;0x2647e6af4e99e;0x9272e53da2ac0;0x2c07bd8899edb;0xf2cf994296e2a;0xdcee7651e3b02;0xc2424fa3d2c44;0xa9ea592eb4721;0x2a6549a46821c;0x93ef9e8b0ea08;0xb7fd5fd2bc9];[0x0;0x82d5333db5c21;0xb3ff0a8dc432a;0x8469f9cea00fa;0xf55c95072fd72;0x6d43c1729393f;0x753a1ae31934e;0x46e7dfd4ce7b;0xd0041c94dfbe1;0x27bff34d0967f;0xd9b256317cc14]]);
 ((V [0xaf64e3d2efd7;0x2e3ee2d5a0962;0xe510fc78190be;0xc70d1cabf3689;0xe9f89bfc28118;0x74339e9413d51;0x6d235004e07fe;0x322a03031b463;0x16d05f8ddd05;0x707a9572b09] [0x705c684d9b367;0xf2f9e0314a8f3;0x993d00c226b17;0xd9fd90c8786c8;0x30680d1e13888;0xce9d88da533cb;0x3834809252a65;0x20fae74ca03ff;0x1b2bfd3a7bf0f;0x24b4a42fb05]),[[0xa33d8979af009;0xf8655bfb87652;0x2f691d525e243;0x3a49fb26ee740;0xbc1eec568e965;0xcacfda99359cc;0x17daf179b7cee;0x994e2b8407c4b;0xc52857fd05db9;0x320de0574f];[0xfaecb1fc7ff6b;0xfc36cc0571dca;0xc96e417b645f2;0xe549cf770a14b;0xb2f4fe6d6a407;0x16f2cfc99aa2a;0x3af0c17869246;0xada1aba84bd96;0xc2f1b8be3abdc;0xc24a3358263];[0x0;0xc46284f06b61a;0xf2db316939ab0;0xb6e30f83532d2;0x45cabdcbc79ca;0x890c9a0a1ec1a;0xa2195fe9f74b;0x27147afd9918d;0x7610ee4040b13;0x48d91cd018d0f;0xa008f1b84af];[0x0;0x4319a8ce7c10f;0xf6be0cef7dd6;0xc5f46c854bb44;0xd34b85b95a319;0x2906b9df5a4bf;0x29e2bd5453f6a;0x806568675b513;0x3da05e832fefb;0x6c8c533794dd4;0x1544f1e55b];[0x0;0xcf400afcdc004;0x755cc506cc27d;0x6693a459bffd7;0x2006e67c6b989;0x1a03d1cef3f12;0x4962d82f81960;0x6f20b23a48870;0xb5f1fa5bcc689;0x8a00728cf3ca9;0x9c96c62a];[0x0;0x467c2f7d46027;0xcb078b23720ec;0xe6ea67fa8b07c;0xfde0b0ab26caa;0xdb5d1b0d414c;0xc1bd475440da5;0x4afaf6bc2d103;0xa2a50f94c0be3;0x7f12a2af2f62a;0x3251838b088c]]);
 ((V [0xfefe30c64edf1;0xce4c75e5e03b0;0x592706a461aae;0xaf7f2373069a8;0x1a60b027aa445;0xcd9680d45d063;0x8543aba5cb796;0xbd49b5e30ea81;0x1a29b91664efb;0xae7b900c142] [0xcff1cbb66a301;0xf9b48a3617bc2;0x3f0fecd2742a;0x6a720922a95f6;0x779252599df22;0x2a24ef8bd9e09;0x8ad6e771ae0c2;0x55d0035efe581;0x5c1b3c6d17449;0x6805146dd77]),[[0xb9ae5acbaf1bc;0x3b3f40c8be1ac;0xfb087c39f9e9;0x8d9eb948fd4bf;0xcff413109c14b;0x25bfe3011b1fd;0x1d8c21ba50de3;0x57d4fe2f72543;0x35f9483f7a81e;0x2901f1d0ce0];[0x110a4fdc84df;0x5386e9a6f1282;0xa94f1e8f4cb1;0x5d4aa100922a8;0x827caf1b3aa48;0xce559d6616937;0xf4b45fc45d812;0x960c2c73318d5;0x47196fe4f05b0;0x74817c8f946];[0x0;0x2f9b1ae6978be;0x30d25e8cc02ed;0xb44501a2df390;0x5907af9d4a9e4;0x45a260a16c4e7;0x9656e3b310688;0x487aca35ed12e;0xa250813ac2c09;0xd123586e085e3;0x316b7d77230];[0x0;0x57e30772583e1;0xf9135797154f5;0x9a9927c80edb0;0xa60fee6f8f73;0x7e63380ea256d;0x71e4c3695fdf;0xc18a0f6cac9b7;0xf4c057e49e9dd;0x9d33e700dc526;0xbc26b588c9];[0x0;0xb2b25c9211c07;0x5c9d1e21451c8;0x369cdebd45b10;0x128c04c24f0f8;0xf06ee7496ff07;0x9cdf9d21e0f48;0x4f8fb6c18b938;0x2ae6763c5ee96;0x97ed616a8bb76;0x6919f78aa0];[0x0;0xfa2290733753c;0xb230ee2235e3e;0xbd502c9164153;0x129637ece71f0;0x12d85c99a65c0;0xc7ba576bced4f;0x5e608ffade87f;0xfd21648a4e873;0xba2f5c68b799e;0x29210521e9c73]]);
 ((V [0xa14d950b5a248;0xc851c0211db34;0x5b488d5604fc0;0x2fd3391ca41a9;0x46768a4d62729;0x9bc22bddfb3e5;0xb28d34ef1ebbc;0xfa11b0b3b53b;0x22ea1f0441f12;0xb6cdd898a28] [0x4e3e4ed50b9e6;0x10e8e83d3bc49;0x9364e927af5f0;0xdc633a9f348af;0x12852f0407fc6;0xa1a672c9ed22a;0x8ac2f019540a6;0x6490a5bca2fcd;0xb20e05212bcbf;0x9dbce605716]),[[0x24b8a76fd2436;0xb1fd35d7b2dfe;0xf2ddbb8764c4a;0x57898c5da059e;0x4e102aa15253e;0x37aa16fba004e;0x64d7b939db0c2;0x2a5cf6e4ac2d6;0x68afa05c37d43;0x8a5409a4706];[0xdda8125314e5a;0x6bec143132a4;0xcfd516a76a10f;0xc309fdaf5038d;0x3faaad8c8cc20;0x6a3925f69e3c8;0xe3c631570d2b5;0xe90ca51377876;0x1c23fc08f9255;0x4f55f2563e1];[0x0;0x68d64c891a941;0x44d0c9d77d0a;0x15e95a34477c5;0xdc47e300c4eec;0x3441e07fef490;0x4efd59397190e;0x49171972f678d;0x77c76fe8ae8eb;0x6a89576d053aa;0x76ec3374280];[0x0;0x4ba7d49840796;0x249adba670d5b;0x575c929d41b16;0x92e7fadf60121;0xa80eb19db4096;0xbf7754c1abbfc;0x4adaa53a1fa45;0x3c069822619e3;0xa06dc53833ba1;0x7069c531d1a];[0x0;0xae979583320f6;0x66b3e2ef0d8d6;0x9c346bff5cf1;0x2af17c038d6b9;0x1f0650eab7b86;0x522dfabe4364e;0xc52f557470e5c;0x8ec16601fbbfb;0x54aa82ccc12c3;0x4abeb5fb9d7];[0x0;0xba9cb2b21637f;0x8a11ec2f892b;0x964fea7bc0675;0xb87fe045c32a1;0x67d9fa84fe4aa;0x25742fc4d6d6d;0x8e8755fdf332c;0x9d36244e77413;0x801beeb4e9426;0x8ad9de97a9072]]);
 ((V [0x59e514247c9a9;0x8ff64a5ea26f1;0x124cff3314e9b;0x9703f316fc0a5;0x36dabbab86ea7;0x147ac69c0dfef;0x174375b4bf8e4;0xb8228c655d58;0x4352c013b1d38;0x16155b0dd1] [0x4ecf45adfc8cf;0xdf7427e4df23d;0x5587ba7053def;0x909d8c0a93e73;0xd19ff1e65319e;0x4438c2cfc606;0xd0f0fc21a48d2;0xa058e925ebd53;0xb083f342927d;0x2d8cb4fe7f6]),[[0xe850a2ac6614f;0x53d9d48aa3c22;0x59afef856d172;0x2b518c742153e;0x5947c6b3441e1;0x6ec4b7fc00a46;0x25421a843bef4;0x773d44749a6db;0xd0eeeb87ef4f2;0x68f1f0ad569];[0x646a35eb2c9ff;0x6996b47c45cb7;0x4e33cc08ab7b1;0x4f21cc4bec840;0x5d31cbae30625;0xac4cd5f8aedc1;0x7467062391d3d;0x29ad0a06a899b;0xef37dabad4e5a;0x1f1e09b2e80];[0x0;0x2453bf6c5f7b7;0x9f53ebfc51669;0xf50fae130f5c7;0x9f7c8209e28b9;0x4b80b12bd99af;0x8e8b5151cf58a;0x83d2a9fda31e6;0xf864f96b1c44;0x74c0a016d5440;0x8289557da2c];[0x0;0x94674806bce35;0xb2f3453b93e79;0x8ba5416d29af5;0x5c7f6f73ac85b;0xd843272adea43;0x41bcaaae403a7;0xecd94b23da963;0xb951c78d67655;0xc2512f41a2a2d;0x8153a1254db];[0x0;0xea13f854ef698;0x845e547d0b890;0x18fc4ebb226d5;0x840f8f47ceb12;0xcbcc59d9c7b7c;0x7e5c45f66b333;0xcabd1048e6588;0x4de68b5677812;0x2279cbcf23505;0x2b057833df0];[0x0;0x8f5154e8c2013;0x6734e380d9ae8;0xadb526fa10100;0x4103ba5957daa;0xbd526519f73ec;0x4120caeff6074;0x3c17bdb28c7f6;0x709589965fc8a;0x10959bf071a0b;0x69a54228e9ea8]]);
 ((V [0xda3f013025dea;0xabe6666a15adb;0xe9cbbb8327cf6;0x3289d7c8c9099;0xfbe61be88e03d;0x2ea0ea1e96378;0xbe774574a174e;0x6dd4299590c93;0x7c1812c4306a8;0xd7448f4ef9f] [0x1a51ec5559c73;0x4d6938cbcc998;0x7eb13b77e44a;0x1a0fafb98a51e;0xc9ec1a0e24e5f;0x8b1d94cbe1818;0x1c5c2e86eabf0;0x783a8128014b3;0xe857883a7215c;0xfa0d8d1a8a7]),[[0x298a77f783146;0x160caf49ffd1b;0x492ca4769ba52;0x4e16e4de8180;0x23b464a2dda65;0x9580518722146;0x92d356dfb41c0;0xfd370ed7e7063;0x137cde7d15a87;0x18ce9906d1c];[0x4debc8546555c;0x9f949cc889fc2;0x3ad3a6e7f628b;0x91192add36ab;0x179224cc3cc0f;0x9297a40111bd9;0x5c2a4b00f597a;0xf70b44575002;0x27d1e794cb125;0x830b26f7aef];[0x0;0xc0532b21ee623;0x40d6f4693dcfb;0x919ea9f5c0b9d;0xface16d94eb20;0xe42cadb87904;0xe617cb36fc8b0;0x72a641c161deb;0xdb4aa36af011c;0x9ebac95f9fbf;0x1e7ad6e7];[0x0;0x5656e890613c4;0x598e4b1b50f7c;0xdc0f3b3824159;0x24d967ce18a4a;0x585f0a260d04b;0x6d03d2fba86e7;0x3da7cd50d2ba5;0x9684abae06ed7;0xc52708cd3927f;0x8d3e6d79f0];[0x0;0x14d6198edc2d8;0x17a863b81d65e;0x65a99ce4eb760;0x23c55d7fd032f;0x2a31def3be046;0xc74411abe8305;0x9713bc316dafd;0xb3822125a5b85;0x6f453e0782199;0x267636be9c];[0x0;0x8420c5c49378e;0xfac748c772eeb;0x64a5e7c9af2b7;0x54a673ce2618e;0x4d501c557ff0e;0xe43767409c192;0x3e9bb1dfa19bf;0x856b703287db8;0x5a781c497b77a;0x18d2adb5bee30]]);
 ((V [0x2e492535da06b;0x8f7aabc62512b;0x61d3475de9009;0xa1df3445c9497;0xfb27422b8d2a1;0xfcbcfd8b8df68;0x6adbace5bc6fb;0xd3990c9863a3b;0x9d56fd5214b4a;0xc4399282eeb] [0x5dece283cfbbe;0x96bf949bc57da;0x3199c985c31ef;0x4b226d3c38422;0xadc82007bff27;0x7d59ee27b577f;0xaf2e4e277dd98;0x3a9296cd0a8bb;0x4b872e1502e2e;0xddc7416b99]),[[0xc993b41b28d36;0x41c37220caf31;0x76ac7d9a9e0ab;0x3fe9572a4fafc;0x33b547dfac214;0x9b580e9a8efa7;0xa9cfcf11f1e14;0x34498a3c76af8;0xa985432b78137;0xd7c6289f284];[0x42e8676bca2c4;0x99ff7e6c9dc12;0x935e9bfe89b3e;0xf8304290b698e;0x1d04bdcdb9eb6;0x2d1631387426d;0x646f227667a0e;0xc0cdb2ef84e7a;0x5a5a2ff935105;0xbb2f8cde99b];[0x0;0x67e50e6698fe0;0x64db67cbf9e7c;0x16ef050dcb3f8;0x52b40ec18dd15;0xeaf83602f795f;0x579e1e4a865ac;0xbe7cece890b91;0x8ddec21a764dc;0xc4645d6343928;0xb5043b131a0];[0x0;0xf5dd1143083ec;0xa1a278c4550a9;0xa61e1c9abcb59;0x46a925b00c9cb;0xca9597e6e008f;0x5e175db5c2ab6;0xb9fb85014e59a;0x3f9399748fc19;0x247a8e8955510;0x1a585df54015];[0x0;0x6973519a7fb3;0x3eac1e18c23b8;0x5cb894d6333fc;0xf765093f59fd8;0xef8188ad13851;0x646084b36b9fb;0x9c681bac76a0;0xaeb6ed40839ad;0x1becb72099cad;0xb5de719e325];[0x0;0x444e6fbca66d5;0x747e41971d7eb;0x272450cdb9e7d;0x3b1cd53e0cb4f;0x1146493ab9;0x1ad0fbe99e100;0xfe4400ddd23dd;0x3c7e217577e7;0x6c82c765e9781;0xd8adfbbf9be47]]);
 ((V [0xf801d502c7c06;0x7a1d9ddb14d2d;0x2df1f370b6396;0xa8eb2270508e2;0x66179cb9734de;0x60e4c3eed2eb6;0x74c2114ec24c9;0x307fac4c4c23e;0x434f438c50362;0x82a6ec2320] [0xc73367a14d5e4;0xd4a36608d3a46;0xbd36df2d65b35;0x669b94528df75;0x7b09ead29412a;0xd2a784be4d7cd;0xaee7d386fc069;0xaccad11229987;0xd4c5df0836d6d;0x109da85dfb]),[[0x284e37a94b627;0x32763ddd66f05;0xcd7364a70b68a;0x2e646ab5de841;0x68a395844e6e3;0x4aa23a2536741;0x80730862ec3d3;0xe1b71ea8ff85b;0x80d8cef33b4c2;0x33515dab4dc];[0xedb9e2e8ced3b;0xc4b07a52d07a6;0x73e4d530b41a7;0x82ee088e9a560;0x6fa8b956dadec;0x47a18ef8095d7;0xd2e317240f9fb;0xc9c0f9cf7d84d;0x764c5d487a59c;0xdea351fdd71];[0x0;0xdd00efc559c92;0x39f80243a75d4;0x312a0db53d3a5;0xa5df8900a5997;0x76de0fc32cab2;0xfaf0cf9d0416b;0xc4c0ccbf47614;0xa8e5a26c4d6e4;0x478d794f6488e;0x9668354b0fb];[0x0;0x1704339c54219;0x212bd2b4556d1;0x327630e40b642;0x4d6fe8712fc8;0xabc001156ec7c;0xbb164c2a6f108;0x2573a430f2eff;0x19155464b7666;0xa928f2f205986;0x58ea5e73d9];[0x0;0xf9cff97791e43;0x66fb071e391cd;0x81d0290af4334;0x1b4ed10c09517;0xed2b5f42e7cd7;0xd3c2d1e1299d4;0x5f848241ed104;0x1e7d59dac05ea;0xad723153a6d4d;0xa49852ea9a];[0x0;0x3169452cbcb5e;0x8cdf6cc4c3c28;0x8686b48b9b5df;0xaefa522b890da;0x83a75369c6888;0xedf2ab8c8854;0x6e99af6a5391c;0x82c68a4d9f678;0x6e8c1c6f0f1df;0x33aa61d2b222a]]);
 ((V [0x415457294f9dc;0x344bcb2b04608;0xc7dd53983b955;0x5aa3f7eb51389;0x9c4f804686b1e;0x289f4d805380d;0x99e91401ea47a;0x8801609950b59;0x6d097a6a753e7;0x30277ea4d53] [0x636fa99cd996c;0x15c5b2493ef3f;0xa019d005326cb;0x690f7e89d0cef;0xe45a361866eba;0xc8d2884ae297c;0x396060b736026;0x75b47e980b39c;0xe67677e2fa70b;0xe1d86e2631b]),[[0xf0c94f170a4e4;0xcda40af82b457;0x539bc5d5952ef;0x8bcfbe4e21117;0x8ee6ca6438479;0x6fa85c3c7db1;0x2c5de38972e3c;0x327b9119c4f5d;0xf68e425d0558b;0xfcd2bea530e];[0x8c74118dc669a;0x3b3a709913b21;0x5a6f309cd9920;0xe56614986e917;0x39aeeb44ac96d;0x14f9acd0f92bb;0x6f69f318087c6;0x1835c316498d5;0x88bad58169918;0x3932a4a4b73];[0x0;0x430124a005226;0x7960fc7f4f782;0xaf249c8255935;0x82d40cd40b11;0xeb9b1841f523a;0xb96b4c8b10726;0x293941deff550;0xb18442af4ae67;0x422fc1956b88b;0x42adf4aac];[0x0;0x22ff348c08702;0xcbe3e34d2f94c;0x195bedea91208;0x304154014574a;0x9a27852853463;0xb1f948307fcee;0xfa42911857a30;0x353eb70cc9a21;0x7cccbb8488762;0x20d1bee0b9];[0x0;0xea01107b15d98;0x38d008b47c772;0x831c60334e65;0xf5fc40a4e1ba2;0x65e6acbe6909;0x9c64392edef6c;0xa3669383b52fc;0xf471e1e3dbbc5;0x53e84be6ab7aa;0xf9af94d28d5];[0x0;0x90be4cf0ad20c;0xc0329abc4445b;0xb7565c984937;0x1f8f4e53ced79;0xcaffdac00a94d;0xdaa2f93bf4978;0x80e28f9b2cc0e;0x4b1fcc4e9d750;0xe517fe5db2a17;0xfda8135cd4603]]);
 ((V [0x2abaa835ef2a6;0xece55e32ef2fe;0x242427306d981;0xb9331411d54b1;0xf4e29dd0d66e2;0xd5e8b1125728e;0xabd6cd04078dd;0xec4132f697f6b;0x8fbc87c49d156;0xcc0cdceb5f9] [0x1e1447364990a;0x3ac0b956b0b42;0xa59805855fef8;0xc84e6db34c3b0;0x82c0aafc05506;0x819be7d22caef;0x61765b02d5564;0xd2c652c431c14;0xbfa6ffcd6613e;0x7a7b09fd0d2]),[[0x3bbce59c64fe;0xc71a1345c7550;0xa6308751f5ac8;0xad36954df17f;0x2eb1d10ad1ad5;0x70da7182a323e;0xe7ad866c33a5;0xe24bee310808e;0xef1ecd0232dcf;0x2dd66bdaf94];[0xec66dfa82ccf8;0xd54d2dd9a83cc;0xdbb12a3e75778;0xa65650bf367a8;0x1b3d43561975c;0xdfdae575324f2;0xc539afb319828;0xb5ab47775c622;0xe72271711fcfd;0x659961c4b26];[0x0;0x9db8b4c1eb728;0x90e2122863eef;0xde4620ecd3e88;0x19fdf702cc769;0x246f743bc5faa;0xc8840e8cb302e;0x279d837bc19b4;0xa5cae809260fb;0x430f041d853a5;0x90ed595a4d];[0x0;0x341b56363753c;0xa1839ddaf4df6;0x313246d1a9922;0x185aca9d8c541;0x5a76e2333363;0x179d684a1c8d2;0x15d3a419e3425;0xaaea197da95f7;0x9f255e7d3d267;0x50e06adedde];[0x0;0x82b4e3fc6052a;0x2768e3517e551;0x7bb6587b8b825;0x3a8fef43293d9;0x4e4e5c0f674d7;0x7f0d18beac693;0x66aa37bd0d79;0x8f25d5695077e;0xf58bf44930132;0x83515837b2];[0x0;0x4d66ba42804f0;0x9861f5743d68;0x29b212280fda4;0xb66ff0c595521;0x628cacb6dca41;0xda7ddfbc4c886;0xb0750586c867;0x23eec221914f6;0x9ff43e93fe6db;0x2de85861d6db6]]);
 ((V [0x8fbbcf93cecc3;0x66ceb0a702602;0xd28126d62bc44;0xc7e26cbb7a8bf;0x992cd5951847c;0xa6956ebdad362;0x24dabc04aad3b;0x5cca240bb3ff9;0x759eea3b4dc58;0x97be5da256a] [0xb4f1834d6a6a1;0x39257f72faa14;0x61def0efee7b8;0xd528b37b59fd4;0x91577e4e45cd5;0xf1f4f9aed80da;0x33210fdbbeec1;0x3cc1aa7a80d0e;0xbdcd0f380fa12;0xbb8efb7ab88]),[[0x3325c00a64a58;0xe5da1d9c4c4a4;0xccfebbf091d77;0x6c0a39cdaf2ce;0x8f156d4ae2fd3;0xbcde0133acb25;0x95f8ed180763c;0x58ac6bf7a97dc;0xbc08285ae2bd4;0x90657ecc429];[0x3650e0eb4af3a;0xfc0837e59c6a9;0xa548f01cdd12;0x22515147ef180;0x398395d352d9b;0xd9e8da6d80491;0x8199a3e2deaf0;0x7c9a2a665b0bc;0xae07071d1fce7;0x9e694e0bf8a];[0x0;0x6be55f2fc5046;0xf33ead96b04b5;0x7b4dec82b9e11;0x1a45513fe322d;0x266f94a8cd786;0x55ac96282a034;0x318442c39c7fc;0xf9f6ecbde35af;0x22c56b8330a8b;0xa2a480bc951];[0x0;0xee58a01e4c922;0xf02e586eb4d50;0x7b53accbc2a97;0x330f8af2d8ae7;0x5a7f7e2dc440e;0x758590e9c5603;0x5549388e3523f;0xca0e07004da8a;0x75d0fe880e8a6;0x8a2b89a7222];[0x0;0xcf5b1a064e647;0xd2b7ac2f4ad08;0x3b18b26fedcf4;0xd5205a8b61314;0x3ef43d5df655a;0x7a77f09bb9795;0xe87bb6f5b212e;0xf5ca8dceba7ad;0x97c044871665f;0x517256e316e];[0x0;0x2ef8e34727f13;0xb1ce46444e543;0xaa0ca14f62b79;0x51c2e9dc005a7;0xfee467f1391e1;0xb7e3458456ce3;0x95e28fb9423a6;0xba2118baf87da;0x425af1700ed35;0x9113652f888a0]]);
 ((V [0x198cf607e1ffb;0x78f667d8c568f;0x44765d9e09fd0;0x866bed8b82bf5;0xab85d769562bf;0x729d842a0a678;0x8e6b92cf21dfe;0xc5103618f0960;0x49020a51a822d;0x6057482f45c] [0xc2ce99b50bbd0;0x17abfa4babe1a;0x564d4438aac2d;0x127a62abbca31;0x4d16b014fede3;0x8e87a3ed68c93;0xc04ca490a5781;0xb823d169ba34b;0xca743e829ff8a;0x320f4492793]),[[0xf80a54ca6f99f;0x7fda5a84dcc9e;0x3509b7b2a0925;0xb0d5d7f01bab2;0x4b21859e4bc11;0xd0b055d4a3683;0xbe4579e541315;0x51269dbf76d15;0xd7b2b605cdc7;0x48db7080df3];[0x61639f4eb2cbe;0x565a9c7174681;0x905a1c6918281;0x5317bd26d4a43;0xb7f38909dbb90;0x21a47e5d0206b;0xfa9506faa784e;0x924ffd04276e6;0x242d33f616b44;0x5027f5d1940];[0x0;0x6760ceece4ddd;0xa5db360949236;0x95a0dc50f5f35;0x6362f072b70e8;0x934d7c7a88da2;0x823aed5200c0;0x2af64dcfd6ab1;0xb48e2c1f058ca;0x1666863d46f32;0x59f22004a17];[0x0;0x8c02e54200600;0x69a197f2d5e63;0xd94c77b25a4a4;0x425022f70d8ff;0xc716b3cbcd6d2;0x46fc8434edcd2;0x5952717f09f0a;0x3e4fa2ca7f98a;0x7f382670b57d4;0x6ac1f8f13dd];[0x0;0xbc18f9d208ec0;0x3eded70571fdf;0x470d400df212a;0x3683430e45018;0x7600675eda675;0x692f6b9f652b0;0xed531c7d49569;0x3c66c84e54533;0xa5b104250e4c4;0x14bc2b622b7];[0x0;0x6feebda8580a0;0x5f8c94ac92d01;0x2d23232083f5c;0x697a03fa165c6;0x9263e691311d;0x12954b68bebc;0xaff0e17808cda;0xce3409815d355;0x233ca79b4a32e;0x4934106cf0c37]]);
 ((V [0x844164c871308;0x270c28529fc15;0x15a26479a4c12;0xd622b01fa5e89;0x8bd49e27d222a;0x57fa840908b54;0x1faa8ad622ef7;0x9000119e9fcd3;0x6b59ec3fbcf1b;0xb6371309aec] [0xf7a28a524d148;0x395bc494a4c17;0x292df704e442f;0xb881dadddb80a;0x8add64d57f9e5;0x99ebea8d150d2;0x9812b915a32ed;0xe567bb9a6e62f;0xd1ae66ea0f977;0xf98fb016108]),[[0xa3b326434d545;0xea4330cd32cac;0x1178f4492fe56;0xa797a993b282e;0xadff264c3701;0x2d786edf8b439;0x5515c8aceaa20;0x2bc5d2da4d09d;0x31997364fdf9e;0xbab1628a28a];[0xec9bc7d01c65c;0x74180d1456b49;0xa04c63a33242c;0x1ab1456b45c03;0xd5cf62b8d6cab;0x1a13de2f30a02;0xd2be4e9f69443;0x495c5802c5e50;0x10f46f76539b4;0x614da436055];[0x0;0xf56e8eb301c5b;0xfa9d0c1d58a2a;0x4a787f4f2e9ff;0x4b260c1a189f9;0xecb2380bdd2a3;0x16d2df3af0c3d;0x6d1501cebcdc0;0xf3ff7dea79a5a;0xf77abb446ef20;0x244193e598c];[0x0;0xadd5c410e2878;0xf450db28f2021;0x3c912920ea60;0xd8abe01ce2498;0xb542e119bc516;0x9ad29c5ce3b07;0x308671e827cb0;0x108e7c2e624df;0x26a8c55c6ea29;0x49038f4b639];[0x0;0xabc86a0fbdd8d;0x997e7b11bc22d;0x6b20c2fbbd1a3;0x4f553c8c70bcc;0x9b2a33ad0dc2;0xeebcc782c1e9d;0x41f4cf1eb9dd9;0x9fbd2f82590d5;0x74465d3e7e7e9;0x88263e1a2c0];[0x0;0x953d2d4526ba6;0x5128612a24cd;0x43efa48f54061;0x8444bb1c838f2;0xc34d67119b139;0xd221fe2f9e85;0x271e8b5000b91;0xb0b9093469556;0x1e35eac88c724;0xbb2d73d286d68]]);
 ((V [0xf612ea27d573f;0x5c7721f161902;0xae874e7ada8ee;0xe13a1ca8d4c6d;0xd5000c4bd3ffa;0xfc7b7c63e7ea;0x6fe250afed718;0x1e42d9ea3d5f8;0x20f2888decf19;0xcea6f1ca648] [0x194c2c3bde1a3;0x182daf4a4d568;0x4d8a22ff40755;0x19bda1301f303;0x467d739ca3228;0x3143d05f52411;0x19aa0b7490aaa;0x112e6ae00892;0xde03d51748c00;0xfc74f7c5811]),[[0x663ec267824d9;0x7decbe3df283f;0xcec3c03763afc;0xdbc85edd374d9;0x7ce6cb96118a0;0xceb14e4d1e44e;0xb1890820df48d;0x55f5d68999a90;0xe210d01c296d9;0xe1430caa6d8];[0xe26260fa2ec35;0xf2fbf0919a43;0xb4bf65546831e;0xf5591852841b;0x79b701e5cfb90;0xfc8cff37970a4;0x3028b8f28635;0xc88a486011b7a;0xd89ca5c8a067e;0x854dcb24c16];[0x0;0x522b5db36579d;0x5158cf281a8c2;0x1777f3903528f;0x2864597dda860;0x6eafdf98da883;0xa449d8d049657;0x30413f7fab609;0x9be5fb0baa1c4;0x613ef09235010;0x81b25aeaf41];[0x0;0xab6f1042d0ceb;0xfb2673573a6b;0x6a1f2a90923f4;0x1c589b33c2d22;0x825147f214eda;0xf8d960c184140;0xf47af48ac17a8;0xa96a3adfd71d1;0x619cae300ce68;0x1b7314d6eb59];[0x0;0xea2fb05f5904e;0x4fc0f888d3878;0xf0840b805e91b;0xa1f0e2b46c09e;0x5162207dbb94;0x73e20d6db289e;0x1e2e12a96dee2;0x55a3ddf327b89;0x99a392ca66d83;0xc636edd3366];[0x0;0x1c99d993c43b3;0x6662200f2ecda;0x33fe5547fa047;0x3e26d9710d037;0xac388d59778d9;0x1cf52fe3c2591;0x13891cefbebef;0x810e9a9f88fc9;0x5ccc982cdbdc3;0xe20ecefdd3cc5]]);
 ((V [0x1bea19bfe1f3d;0xe0bc5925fb6ae;0x1d877aa1a0cc9;0xaf0ef7d6b547e;0x51869d96720c;0x6f6f250880556;0x5a3b47cb5e77f;0xa5d459fa76141;0x553c96e156796;0x5b652157dd4] [0xf5f710a8ba81f;0x657aaa8c619c7;0x7594f4eccfdfa;0xca8d3744d88ca;0x6c365c40260fd;0x24ec4591c947e;0xad7f7cb1a76aa;0xeb722fee921ca;0xc1641884f30fc;0xe22a973c3db]),[[0x6afb20f4f2f30;0x86bcf7f0da4a0;0x77e580c0c7bc0;0x234f321368bc3;0xb4ebb5a7451db;0xc9669811dde2f;0x186819b181595;0x4f43084af5c1c;0x7440148ba62a5;0xa6c25f9eac4];[0x25c0663deeed6;0x64ea66875f130;0x68b5ba38afac4;0xac606db4962dc;0x7bdf8326c3e2a;0x9498756daab6a;0xb3e130586d5ad;0xb707043880250;0x22f0f8b4e1535;0x67526f7f57a];[0x0;0x42b5dd975b3fd;0xaaa802bd4cdad;0xdced50aa3b213;0x2218cf56ed0f3;0x6d556e236082;0x14fb4ccca2c0f;0xfdaefa8eef7b6;0x93d1ce9056925;0xa5a508a1831d7;0xa6d11a00309];[0x0;0x3f0722803456;0xb9fb16b198c17;0x84db6e3f9e564;0x602e5b17dd45;0xa8f71c13acf03;0x80da6ea40e60;0x3be6939de161b;0xa26e82a33fb13;0xa99aa70eaf047;0x148e70f336ed];[0x0;0x3779fd1b3ce93;0x2e2141a12dfdc;0x36f894646e26c;0xbff4cc007cea3;0x87633768513a6;0xd7da467920baa;0x7af24cb6b155;0x8520ffd0e3f3a;0xae6abca4af34;0x6ca0a796d7a];[0x0;0x7048a50eb7da2;0xf3eda7d339623;0xcd43ce422df3a;0x9116e492544c9;0xfc062e4b043e2;0x32bf9427d8bfd;0x809a30e7884a9;0xb1814ec074e75;0x979a7f90d64c;0xa7b4362e620a9]]);
 ((V [0xb9e91e9e8fe2a;0x2381c13837144;0xe4cf044566624;0xb1a1cbad4c919;0xcf56f800d8019;0x5b9172181c8f;0x32c06acd3c741;0x5be89497fc9e6;0x7b0b49ffc5512;0x544f88e41d6] [0xdfdc0a209a672;0x1e3cd1eb06d30;0x2f96cd82ffd28;0x6b9f3793f7167;0xc7b9f2ee47744;0x216c6ff64e285;0xa94bec825bf2e;0xcf503f62a5847;0xa5426ff726012;0xaa6cc76ba47]),[[0x15ecd801bab83;0x6f0e2db210609;0x1229cf863a94f;0xcc9189f28ae10;0x1afc71fc2885b;0xd069bee3eb5c3;0xa970f41a6f608;0x388ad9870b8b3;0x7fd7f9f4e3d74;0x26e8bee4dae];[0x14140f6fe5dc2;0x26daa7c76bcc0;0x323d2a295ab66;0xc15f2ca821e6a;0xf5b33895254e8;0x443dc26528325;0x4cca5352d9081;0xe5d7dd7138ea9;0x8b651be808021;0x225c2b55a6c];[0x0;0x967cc024abf01;0xb9514db0cb355;0x9bcf484af2660;0xeb9d6b1446a03;0xd3f72066a9a6d;0x9ae31831d7539;0x6a38e8c49d753;0x3c1798f064bff;0xba779552dbb43;0x20a10da7caf];[0x0;0x551f58a9a47d0;0xdfa3b3c84c7f3;0xeadd8083806bb;0xb0b1cee5d4bac;0xa8c67844b1bff;0x3ffeeb4518813;0x97c43a441d056;0xa916ceb44b25b;0x8fcce29d582ad;0x44bfe36396a];[0x0;0x58df6c9c9b873;0x2caf1ba5547c7;0x364f5840db05d;0xb6dbb7f920e6e;0xcc6f738b9e892;0x7f0755209d062;0xdcf4233f8abb6;0x9cadef8e1eafa;0x225445f50e1d2;0x5e9ec467e2];[0x0;0xe6b970c01861b;0xaeb951db9ce91;0x166ec733532e;0x9da6921a4ba97;0x26c13c542beb3;0x7a55d5f8d706d;0x1917ef8d8f824;0x24d62b9d32841;0x6c300310b5883;0x2710bb493b76b]]);
 ((V [0xb122975f2923b;0x87db281fd39e9;0xafc7389026b80;0xd66e6bd4b8607;0xa66842900da98;0x82ff245e73a7f;0x630c204c75868;0x24c83854b4ebc;0xe36ec35b1022a;0x93a26a7458d] [0x4a9fb47640315;0xd781962d3c3fb;0xb18bdf8dcb0b2;0xd3c2f1eafb2b8;0x96eb5003c47e8;0x64c6e333f073c;0xbf857ffcbba52;0xe3d796c1294a3;0xf040d7157d01a;0xe88c375f571]),[[0x353116b94bc71;0x72f65019be608;0x3a8a6a9f1314f;0xa0e3bf1154d59;0x2cee31b63540;0xf3f0078135613;0x3eb475661370;0x15ea14d18c4a4;0xad598c825d6ac;0x256f50fc2b2];[0xcff5940555e39;0xf1925c55d2f3d;0x6a423f630ba06;0xc64cfbf2025fc;0x4c4c384501ace;0x62a35c283cd45;0x599b8bbca6815;0xd72b0d2f64411;0x9c3cf23f0af0;0x28342097626];[0x0;0x93704869635fd;0xec234e7d75446;0xb0b9d0d7c2b91;0xde67913e53ff5;0xd72002ddeafff;0xf2703c40d718c;0x75fd08d1efca1;0x391129293924f;0x95c78284ba952;0x1bc44a8b794];[0x0;0x616c38346ba23;0x66aa43fa0a287;0x10d13f8425278;0x786c3255eb40c;0x571baca4cef26;0x780eee9a5facf;0x10412e1874122;0x903d137c51508;0x974348d2bfa2f;0x31d7a7cdc92];[0x0;0xc9aebe9af321e;0x360bab53bd96;0x86bfa68dcc8a9;0x289b88be28c66;0x1a47bbe38c00b;0xb7fcca7aca20c;0x4d3db60be4b55;0xb3d0d64592995;0x664432d73edab;0x5795dd038c];[0x0;0xe9c66f71416b9;0xfd7f54aa43314;0x34c22a3448669;0xcd129de218726;0x538b3d65f6426;0x719407366338b;0xa7c758f967ff7;0x456dcc41294c8;0xde3b52496497f;0x258b7dc995691]]);
 ((V [0x247f93f2bdd27;0xfc93034c92904;0x53ed6b9725a05;0xa53897a0aaef4;0xbc1c9e854d88e;0x3dc708d6d66cc;0x7b6db87a4b634;0x9de2c091b48f5;0xcd36b51c19924;0xd505c65f38b] [0x2a35edd030037;0xa19f0d4ae2250;0xdd3a28098d333;0x3851cb8b172b4;0xe17becb7cf5f0;0xe7f887a21c419;0x4c8915425e3c2;0x7e314cd1b2ce7;0xcf13f590f1a09;0x82811dc7efd]),[[0xafd9689da061c;0xb0be19db45a8f;0x6fb38c82a1255;0x20b3256cfa5f1;0xe5f1828d67716;0xb57c0f6fd98c5;0x8e04fe308ad5f;0x9a03b78e2155;0xc1eb8dd8e51e2;0x745c5aa5290];[0xe31ec2455e42;0x49f4460577340;0xccc5ec3dbe9c5;0x70ae09f36b55f;0x827639b351d1e;0xf0a23def15440;0x15d941de88fd1;0x8400bc9e55e76;0x359f3ba96e409;0x843b10999dd];[0x0;0x439a5700b55f1;0xc652c3ec762d1;0x3ac4d66219e95;0xdf69ed26859bd;0xac8000ed9a6c4;0x82e3b7527419a;0xf17b410f53a19;0x1428abd627fee;0x43ac9765425b0;0x5523ed4c859];[0x0;0x6b4d76ba3c782;0x1ab9608c113e7;0x5500f20cd35c4;0x92af238a38103;0x1f6f63366b713;0x68d0e5cc05882;0x74df4666bf3b0;0x6ab74d4da79f4;0xc12d1a91c6c54;0xd366dba4d9b];[0x0;0x27e5a8d2dfef5;0xf6fde794f22ef;0x9063722584030;0x8906aeaeb7e51;0x360f47514e309;0x9ab9000077103;0x26e813975b53b;0x7a34d23409ef7;0x107f81376b0ff;0x34e3d376f40];[0x0;0x833f03b331818;0xd00adc105d684;0x5bce7c6413cbf;0xea1f4e3a9cb0;0xaa47f7a9fe2b;0xfb6a008fa1b78;0xb09b228f578da;0x619a352e95f9c;0xab15c3e572ed3;0x74b2fe634ba17]]);
 ((V [0x44b060ecc1378;0xef5b7f0fe2ad0;0x3b07ae179e74b;0xb4fdc2e00509b;0xa2bf5a9cba506;0x57104aacc8870;0xff2b722515cb7;0x7334cb9598d69;0x35e229d98cc7;0xe2f9efa669d] [0xeaff1b0d74290;0x21b2d56e90a6;0x9996ea6b1d5c8;0x4f868e12237ac;0x23e84b2568a25;0x4967761742d75;0xf1f78ee570ea9;0xfad219f83ec19;0xe0086fa1d201a;0xc9d5b1b388a]),[[0xa6c507b4345ed;0xb2f723fdb25e9;0x9d1401dd88bc8;0x5c347dfa855b4;0xea44455ee4988;0xf5163b81dee2d;0x58235c10680d;0xe358c68975ea0;0x60f480e38b411;0xe6ed145926a];[0x19acfe8ed1781;0x35740d439585c;0x53767ce207396;0x4a4212e0a9aca;0x9a3ded234c187;0xf2670c7407b12;0xf7604a52a06;0x320684171ccbd;0x6f10850f0609a;0xd7ba86e1938];[0x0;0x6ea77f01b5810;0xe2a32610fbc3;0xef2373fbf0fc1;0x2cd8530fd0dc4;0x5e6d54bed5baf;0xd4a92cf255fd9;0x47d3f3faac2d5;0x38bca9d173937;0x9de6017ff6e4b;0xb1429c3bcdd];[0x0;0xbb8f2ba3b87f9;0x64907ced94c80;0xf03bd0238531;0xd6c2b4b834fa5;0x9393b44c801f8;0x5666020c7552f;0x371b5f83bf93;0xbe92a5eee48a8;0x8b6f263c274c6;0xeb71b953790];[0x0;0x54918bbac4f45;0x11e256481aee4;0xd6b050532e5cd;0xaf58ab41ec0f3;0x2f8f8fb3dab72;0xb505a053ce81d;0x6eb5d516af966;0x83c74406099f2;0x200039ca7d321;0xd04edc1ee02];[0x0;0x59dc7e8ddc9d1;0xb8af215917ceb;0xe7d8234ff15da;0x1c2723bc43ac9;0x651d13c56bedb;0x5bbbda9fd828c;0x7c9719d37ef92;0x631c6be0323b0;0xe490f3402c220;0xe7c76b2443b07]]);
 ((V [0xb0e140939a66a;0xaebcdb383391d;0x331fdc00145a0;0x663b3b81ff0c6;0x842564d8ba34;0xd22935c702899;0xc8c6c3e6a2bd3;0x2e8aae9200b42;0x9e2471123d25a;0xca8be23cbbd] [0x794d21fb15110;0x8e91e2a49f0bf;0xb65be6cbe2785;0x7b393834678e;0xfe7347321f3e9;0x41766907d4746;0xcf4691557eb1f;0x4ca067f2dffa8;0xbc05fbb511ec4;0x3b399c4cb35]),[[0xa421a19677376;0xff17f354e1e52;0x9f118a7f0dbb3;0xadf60e892d649;0x87ddc90682610;0x29f2938a03956;0x4b421c31f75bb;0xdf2b6fc02adbd;0x5f230603c239b;0xcb0971244fb];[0x327cf51773109;0xc8bd1ee8b02b4;0xc1cba1b74d7ba;0xe746af770f295;0x60ac6f491bb90;0x82e99dfc508d4;0xc03edaa44143f;0x822382dd5af1;0x6c96475253a34;0x8f3bdca4c69];[0x0;0x963de6c801b11;0xc37c60db64eb5;0xb82f1118158a0;0xda15d5effa449;0x9394cde5d3f67;0x7a2036b5c13d0;0xfed50ee44a269;0x9f9634108752a;0x59bec4e3826c1;0xc93e3f25e4e];[0x0;0x2f85b0147a917;0x45e2e3783946c;0xe683509e2c475;0xf43842a516ded;0xfc29bcfd9983;0x51f31a264293a;0x6bd2e07522b91;0x8ba05dc9d5f00;0xed3f889a2eb6f;0x14027cb41220];[0x0;0xfe7b1a02a32a6;0x8fc4a360c27cc;0x523db825a2283;0xb6b1dcc55887e;0x5492d184e75da;0xd27fc5c3f961d;0x248cef75b68b5;0x162ae53e388e5;0x93c68e3d2c40e;0xa107f9c8bcf];[0x0;0x3b2b000bb2802;0xe8c95b31d6e2f;0x146defe31e9c7;0x7f0199dac6981;0xda68292acec65;0x5aed972c3e81b;0x22a0391710da6;0x130382b9b8dba;0x2703b79dd5fdd;0xcbe7dac0c1565]]);
 ((V [0x8cf8be7ec0e8c;0xcbddd38628624;0x403754f0280a4;0x3bd2ed09ec991;0x168f475d0fa;0x5c993d730950c;0x1f9a60fdba39f;0xda3f204034a7e;0xdf2dbec9323e7;0xd96a2f6fb80] [0xed5819b0108b;0xaf8177a659605;0xf4c56ccc3e4f3;0xb1d0e21a0b908;0x546c4cba4d004;0x92fc5ae5fa952;0xd8f7fa025f333;0xbecc6bb038d99;0x9f0a6571b14dd;0x8dab2caaaa]),[[0xb85dd43b72aef;0x1445b1c63cd53;0x4073281dbec4f;0x2264695b75ec4;0x9c1f5e8a06385;0xade5e930c9ff4;0xeda53834fa521;0xa418797f3c591;0xde4ef7ae2a425;0x78ab92ab481];[0xea58323006b66;0x546ba5ec5810d;0x20691a5165a1c;0xe583d92e321af;0x43927da7dbff8;0x5873611f689b7;0xb6c293650eaf1;0x4f3ce3e6450b4;0x5c1213509de80;0xc7948aa11f2];[0x0;0xb83ccd46d9b92;0xe0672cfea13d6;0xabd69b3708c93;0x47687d7d62d55;0x5c95ac6240fc6;0xc6b4964ed2b13;0x8ef87cf1e43fd;0x3f1a2c92c831e;0x721c92bb8ba75;0xa0410d774e5];[0x0;0x70e2166084cc6;0x7edffe1834619;0x3b01d32755f29;0x24ece1f04d3bd;0xeca6575fc3317;0xd622f1a153253;0x7cb7c56e3864e;0xf7cc4416c0bc0;0xa28defe9af919;0x37d5655bad3];[0x0;0x7240615ce4637;0x2749bba8ed20b;0x9ea3fe2241698;0x78d18aafcc50c;0xec556c6d60691;0x5910b6187243c;0x65d5f37866dc6;0xa23f2aa77b38e;0x62f6be0847907;0x38e14c7dd87];[0x0;0x2ec75e6851e10;0xb41b5e6262fc;0x4ac737f80dda6;0x6d14853a672eb;0x1299ad032e729;0xe8742006ef1f6;0x85a2cfc14a68c;0x2c50163f8dbb0;0x70ec85fdc4345;0x791d3c12c1340]]);
 ((V [0xb3609cd0ac68;0xd2fcb1f70aec8;0xaa84c64414169;0xc4f132cc6fee6;0x1f00840481bf4;0xf5062e43cc0e4;0xf8dc584fb0171;0x10f265f86bc59;0x397c0b3ac647b;0xee497cfab2f] [0x8c9c1d4f4288;0x15cf959116af0;0x1a61235981f29;0xf8912d47c3ed9;0x233a3f6d08ce7;0xfe5b50c1ed9b5;0xc13711618c215;0xa9c729930b1dc;0x44222803f7fe5;0x53995664c60]),[[0x2babbccc536ff;0x6345ecbfe92ed;0xa4eb43b2918be;0x59c6ca3779254;0x5c7791133e7be;0x4b53dc7e387f6;0xa3510e07b8230;0xca3bdfcf1ffed;0xef6fd439fbadb;0x1dde8cd42f9];[0x90756c76e783f;0x5b2b79f71a3c5;0x27c96a545883d;0x5897bada29d50;0xb0cd0aa4f5c69;0x8ea643197f3be;0x8871240454e1d;0xdbed8b6597629;0x6c58cd0bcbd60;0xbad21b2304c];[0x0;0xabd65dacaad27;0x57b6d3161927c;0xce3fb511dec12;0x1e387143346db;0x1e040b3e293e0;0x3b1f85df8eecf;0x1fdbbb787deb2;0xaf9618e9bc8e1;0x6479c34cac62c;0xb8a53076b75];[0x0;0x1b4c5a0920e4f;0x2f544cb301529;0x22e4600cd398b;0x5d2ba4e673c68;0xbfae354287b21;0x327041176e739;0xd5377e2d479a6;0x8e41c26c37127;0xb96488a4d335b;0x210f18de33];[0x0;0x3e9bd925ea777;0x20d1dc8f21fbb;0xed3071c6ffe94;0xa0987967032c3;0xb4b26c8161bc4;0xe1eaba8681bbf;0x22605c9c35c1f;0x63b20a129ab2d;0x55f9e86dd5033;0x37c2d60a04];[0x0;0xb8380350a4cee;0xfdd7d604b236e;0x60721e992beb7;0x9c6691b6439e5;0xb8d37eaf26e74;0xf0c59dcb74d56;0xc26aeb81c8275;0x8f064f04d32d4;0xe2fef0380be6b;0x1df9fbf01a666]]);
 ((V [0xe7f9610b300b7;0x38f293b40db65;0xc01afba465abb;0x8cbe134931bbb;0x95940d78ae6d6;0xf80788c4ab40a;0xf13a46a5095f9;0x9052a424ee7f;0x3f42c05a2753a;0x2d10cfd5c1d] [0xa5c6cac26f032;0xbfbbe8614c722;0x76f3dfd2cf7f8;0xe5386a4db56f9;0xaa433bec9fe42;0xd6494369d1373;0xbd7a77e19c2e5;0x11393d3cc2419;0x93b3acdf48fe2;0xde6e4b93595]),[[0xd911465b8c712;0x81d175d93a7a9;0x18a2a2d68d0ff;0x84f10c3635120;0x1f12508c68a87;0x10ca3ce19ebbb;0x965aa08d7ebb;0xb1116380c34ae;0xfa5ecf1cdfff5;0x7a37ee1baea];[0xf70c7449b17e8;0x2d6952d0b568c;0xcfb8f11cacb4b;0xade904d261c01;0x83c087f5a8926;0x54d5cacf1b3eb;0xde25fb9ad0253;0x49bf09964ab6e;0x732eb7ffa8d34;0xa0390c4037];[0x0;0x527e9c1de7ae8;0x8fe59929ae53;0x5e8258e430e7b;0x757e0810421a6;0x8314a3fb67c11;0x53277dc8d4253;0xe283c8c705860;0x7b6392a540b66;0xacff4d5d9bc65;0xddccb97aa8b];[0x0;0xd47dab7579d3c;0xbc9a0063c52f2;0x3eb114887ec36;0xcb899d8825a39;0x3ded64a0245ed;0xe2b28c436120;0xf077df8e1c6d7;0xebcb8677695b5;0xbe7c281e4af1e;0x4fd2adbe5d1];[0x0;0x3c432e033225b;0xe7a14c158ef52;0x3876f62008b77;0xcc194a7bf6c40;0x2db978fd46007;0xefb37d8ec2165;0xe7cb702d8a419;0x8fe965f75ce98;0xbf56c0b0d0e22;0x3a595b2a8fd];[0x0;0xd322e86b70c9a;0xbd94eb8cd604e;0xc400f15c6a35a;0x9bd3f79ce33d8;0x250c3c16ccde5;0x73955c187602f;0x56f8c2af46783;0xa02562030ac7d;0xa285a6e992a24;0x7b0e654332c1f]]);
 ((V [0x311259f53cbd9;0x12ffc1481d817;0xbf3b872d91fb2;0xd390a9b9de02a;0xce9c12c89c001;0x592836ca42eb6;0x24afea7b0b944;0x421a3672d68f2;0x66ab427cee311;0x6a4c563382d] [0x4aaf09a960d05;0x5359be690378e;0x25426d36d3dca;0x8b759287e36a6;0x1debac430cbdf;0x7076b160230ee;0x4f7f6c9b7d4b7;0xe9e530ad09225;0x441605cc11480;0xb60ba2ca525]),[[0x84a62fbc073b0;0x214684b23a715;0x8e649f395b12a;0xa1d8c334ed4a2;0xab60652331b47;0x3149e34f4a3f;0x4e42f488b7c2a;0x77fa5c38860f5;0xfc739fd10d26a;0xa83ce47dbf6];[0x1ef8f01479f89;0x77142d12e7a5c;0x9d922c33c37cb;0x3b76536bfc7c5;0xaefb0f9911019;0x59196a6894429;0x1605dd4e3e957;0xc3d01776217b7;0x81f51246a4926;0xc0a5f957280];[0x0;0x4f1738f94a278;0x9f068a4113095;0xe332f29a9ebe8;0x2b97465418bcb;0x2fd16dbf7a967;0x6d973b0221230;0xfacb4eaae08ac;0xf24c0f8853aa4;0x82046e1d09989;0x7eeea2bc99];[0x0;0x9bf13bec13c97;0xd4ef32825cb43;0xf00eb2af07aaf;0x5896c8e4b4913;0x8912491aebaa5;0xd015ef4b905e8;0xa434db154f6df;0x32ad329762a84;0x6173ccc00b8df;0x1245a93f3cd5];[0x0;0xf7fae21b1ea7f;0x7afb838f25707;0xa0885877feb13;0x34846edb81f4c;0x7c61a01649e08;0xc9cfce8120c3c;0x43e8878264f6;0x5f8fbb38b35ad;0x4aca51c84898c;0x6e8ffa60f22];[0x0;0xd3f80e30236ff;0x9e9ed9c10c3bb;0x2dc767b1772cc;0xf63f94428e237;0xb132337cba52f;0x3139ff425d495;0x588defb902cc1;0x1874cb3517e0;0xde57625e5c73a;0xa8bce3c175130]]);
 ((V [0x28ea18aa2c470;0x6675aee1507f7;0x58d6b3c447a6;0x687d394bf86ab;0xaecc98cc9a0f7;0x1f6a670e23448;0x4168d898bbbbf;0x31eddc757c9a4;0x1fc178189ba13;0x1d283fbb507] [0x1a216d5f33ab0;0x16630ceddf1d8;0x750a4cbc0ed7d;0xf0947c30c91e0;0x92ccdf40956d7;0x7e84ee8529f6b;0xc04a673f7c0b5;0xb5bfa07052c00;0x7ad40c46b9dd0;0x5b99d7c0c24]),[[0x422acf735ff8d;0x4668b82997b9b;0xcb4d24ecfb842;0x7a10d9143b961;0x720210c4933cb;0x1e694d27e9539;0xb713fdfd1b26;0x922048ea184b6;0x5809199675960;0xe10b64cdfe7];[0x1072732e90532;0x584f5053df887;0x41acef9ddbed0;0xf6555ab644bda;0x86281b88bf971;0xbc2c3a1c2dd72;0x193d952d06873;0x6eb1c82197f49;0x4308228f93226;0xfda7ff17607];[0x0;0xcaa1ae560ad49;0x89c6e5e19d99e;0xa8d843be21c2c;0xc19ca64fbdbdb;0xa3dc4f7e3cc1e;0x27077dad8b9f8;0x5cfeea9db5d31;0x84156231de0c3;0x5e5f1ffecfd5d;0x2c234e25f3f];[0x0;0x346380180de98;0x479deea693b61;0xc7c1d70b3eae6;0xde58b31b16af3;0xd2e2228f405c8;0xf7b54d2277d53;0x3efa14c0b3cc0;0x8763cac3c827f;0x22b09adcb6ec2;0x14010a885b1d];[0x0;0xfa562f35a5841;0xcbd8c96f74412;0x3e75cbd0d36c3;0xbff2a20836a95;0x388e72bb45600;0xb62cbdf70ba46;0x6a966690d0960;0x8e931fced41c6;0xffea64db9e415;0xc5d507b3eaa];[0x0;0x10a81add2876d;0x1b87e9ad85b;0x2b3c5514b1c21;0x76c2a9b981ff8;0x47548499f57fb;0x3a137be4996ec;0x98cfd4637d051;0x2d8c5a52c3070;0x4aa2a7715a325;0xe2304059793ac]]);
 ((V [0x44c2c7d32cfb4;0x75dd56af99f08;0xcc428bd38f3e1;0xcbbe8a00e9857;0x205c955c41c4f;0x5b02cf53c2674;0xdca6d9e00a34c;0xc2c6921d21c47;0x54bfc0a40b3a6;0x990db4cac19] [0xe0a49fb750ba;0xd6a79e8de8ee1;0xcaba84fbbfcd7;0x859f778f6423d;0x733f4ab064a80;0x4b792c38d3018;0x3c3d070b27908;0x24b73012351e;0x71251341eab61;0x92f690f1bb6]),[[0xb764a3ff867aa;0xf5233898dc1b6;0x22248ae3e4a8;0x47ac041bfd2d8;0xc8bbaa7f0a156;0x371a5a83fe7f4;0xe2a0f1c366151;0xe8625f5eaf5fc;0x9c68fff0988b9;0xfb5f078f20a];[0x281f64da4befd;0xdaf973f67874b;0xac75251555452;0x57241667a52b9;0x4bbad14dcaa25;0x89241f3f60951;0x68d0b5bc11f05;0x63039fc0a4ac4;0x33782eb4abe27;0xca2b832bb6d];[0x0;0xe61c2ba6b99e5;0x3458b73d851d4;0x6e35dcfb3bbe9;0x2b8b302200e00;0x612ea04221a02;0x8e25616264912;0x9bfb27a5b2d70;0xbe0f81f779bbd;0xb162d492fb9a;0x35224c46aa];[0x0;0x61e58dbdf74d3;0xeb20691d8bd08;0xa2784e501c94d;0xcdde73205cec2;0x64d29d1098809;0x18eb6a5cee823;0x726c04f6db9c2;0x4356b1f9f9b2e;0x44810a1fcdabe;0xb3e3aeaaf51];[0x0;0xfa4782b973930;0x3121dc08fea86;0xfd2d658c4c3c1;0xc1195eb819b80;0x94f3869757d91;0xb8e03dc5e8f5e;0xc614a7c0b5001;0x3db076b41d117;0x4d2e87ae923d;0xf6d37c19468];[0x0;0xc2ca911bee0cc;0x5ddea52d27f8e;0x1fd6fa3dcaacb;0x5fdafb64cda51;0xcc27418df0e0e;0xa18c7844c26cb;0x23f7b53ebcf49;0x6ec20d95990e8;0x91231c854a35d;0xfbe0be9f1aaa9]]);
 ((V [0x927122003fab8;0x9f9afccb9bf01;0x4961cacf5dceb;0x85137b8897287;0x3ef242fe43682;0xf60b1549bd4ae;0xd12548bf9658b;0x9c03f42b130c7;0xbbbfb7a1e24db;0xf8510e89205] [0x805306938636;0x8fcee3502a6c;0x51f83300c245d;0xc9454fdaf5981;0xb14aa64f3ed4a;0xd1703a0b9fb6e;0x8a5a7a576f2f6;0x16e6e62f6d5de;0x804c94ff2be0f;0xb486cd4b0fa]),[[0xc47cf913263b0;0xdc5e00e46e61e;0x5a73855dd2202;0xcd3a537effc6b;0x6cf0db60d28b5;0x84c63fe095ffa;0xbb11d44046e20;0x63dae098bc1d3;0x18275dba3a289;0x336f8d3724d];[0x4543019ce1644;0xf9f0ac6863e3;0x943e0b49382a2;0x89505bcd6f111;0xee0b08c0a697c;0x247e5fe5087fe;0x407afb6b62710;0x4e3762abe5326;0x691c88b9c1b42;0x7ce1bdd2ae4];[0x0;0x87db4243aed54;0x96d38212b5853;0xef246cbd49724;0xaba1be7699fe0;0xadf37d6566df8;0xd14fe1b99091d;0x20f849d03a9e6;0x4fe64c3cf3068;0x9decd00b32d1e;0x5b8162d637a];[0x0;0xf287e587c4b50;0x13a49145d8871;0xe6c322be863aa;0x797e1d7a0e05a;0x910943266ced1;0xe243ec6f8cd44;0xadc5e226d17ed;0x2587935026750;0xe0a22b1d37484;0x3b0e51b4ee2];[0x0;0x1602faacd8a20;0x593ad61ebc2ff;0xedcbc5d94842f;0xde65e470283d3;0xb575e889afa4c;0x27f4f47110bc1;0xe381108d76283;0xbefb8c8e5c5d9;0x33219b8bf2567;0xa55a2dfbc6];[0x0;0xa5d0af270f6e0;0x6e783e20ebb16;0xef4588f6f8c52;0x742aaf6155d33;0x59124a58cce18;0xf59f0f501c619;0x423a8535f1596;0x727e2945b5f6c;0xdc6b64b1452d6;0x338fd8d6ba824]])]
 [[0x3ff2019fd4305;0x8c5f4659438ae;0x9cd4263a3de89;0x58eabdf954453;0x21fdd9c34dc0c;0x1f1fa58346383;0xc774192a9802d;0xca2c3609d84a;0xd947e43f62b9b;0xca71748e267];[0x7b51913e4ce5f;0x25bd18ba7a39e;0xf55c86cada599;0x83ef80b833ef8;0x408605be3925c;0xe359afbb8a446;0xa09468e0803e3;0xf9542cf6f6089;0x9263d38589599;0x8bf97fd271a];[0x0;0xc2e847da26f17;0x6a05de32df0b7;0xeba65ec96d569;0x45cd149da18b0;0x77ef013a4d28d;0xad8352f77234f;0xf8475c9cd032a;0xdee591c739720;0xb7f41e09372de;0xf0dd25d3e24];[0x0;0x4285c5e7398ed;0xf823ce9ff61f6;0x270e0cbd34f38;0xd08fd5b9ba54;0xb128115c0af7f;0xe024c5d84e728;0x6e0e8b3047871;0x32bac9a8a1c10;0x9e15c447d338a;0x11d84bf5e56d];[0x0;0xcdfef105a6a95;0xd731ff18a69a7;0x4b6a6cae51379;0x7f32d5b912be3;0xbf24a81f740;0x1b463b37affef;0xf68b82edece8;0x810c97aeb1746;0xd4b04e2652b7d;0xa0173e386f4];[0x0;0x187ccaeabc6a4;0x439d51c33fcf9;0xb0d741c3ca6ac;0x5fa69ee99bb40;0xdc1235957536a;0x8f67c5923c7c1;0xa705635e3f025;0x686df639c1827;0xeeb315c4ecec3;0xcb6f743f4993a]].
Definition wit_512A_32_2 : colwit ipt wit := mk_colwit (V [0xbc72a2a421b5a;0xed40f443f793c;0xc074f5e6b802e;0x9212f4b17c43e;0x70f96051ecd9b;0x1746f572204db;0xfa62b185ac8bd;0xa26d761cf28b5;0x4554e3010f6fb;0xb121a6964a6] [0xa87b8ad3638fa;0x4da352e025b95;0x5e72ea81da782;0x67e7901aff917;0xdfa616b66ecfe;0x3fe0e4cfe8fd0;0x738f2d33e5061;0x5e454265ad914;0xcbee83533498;0xf1dc24ec801])
 [[0xdc5d3d0d3dc5c;0xdb1b9f6a608a5;0xb6f2bb0ab9d20;0xb494846b616f4;0xf9fdbd7268fcc;0x48a3f563cdb67;0x99b308aa72959;0x4cd6eb7e6f038;0xab22533db5409;0x417f6e96306];[0xb365c3cb130e1;0x4e48923f19f86;0x7a02478755859;0x8e5f1970bbea0;0xc396768713977;0xe464e0116cad7;0xb2ac6442e29d3;0x8232e1be5642f;0x7ae80f19d887a;0x704a8745c7];[0x0;0x6440d0013ede5;0x39cf66b919eff;0x491cfafa2e6d3;0x68b5d2f5f87ee;0x93dc8fc676031;0xe3b0ee3a310b1;0xeca1e214b9b29;0x582619832c228;0xbbb05185fa393;0x82fd9d83c5e];[0x0;0xb106ede392cf7;0x9044640bf3ac7;0x41b8419315151;0x638b125f87ad2;0xc4e1c8018727b;0x4894d6b2d3eac;0xc28c1b6d2a97a;0x9cdd44f62d008;0xabb07fa8e258f;0x6379c71c0f8];[0x0;0x13a8d693bada6;0xf4bb595c8d8be;0x3f7f3fa74a338;0xf297c1037c549;0x74ba8bc44ec3b;0xdfdf4427c8645;0x42e95158dcce0;0x51b6cc6cb7572;0xfa20c1c87bfb9;0x10c1f5972d5];[0x0;0xe0a3582b00889;0xebd441bc324df;0x31b67a10d8bee;0x4f2d71d11192c;0x9434e71b58c38;0x54764bc4cb6c5;0xaaee35c4a960d;0x545a71f4b03f2;0x583f9a793dc17;0x41c27660958d4]]
 [[[0x5f87f4fa9da93;0x3b513dece65ac;0x3be40cbdd9487;0x5c6374d5bb717;0xbdd462e74fa74;0x8f5d7be11c558;0x2bcb43a8a78bf;0x89b11d63cf4a9;0x659e45bf7d67b;0xc0fd997f4da];[0x0;0x47219fbc063bd;0x944a66117a9d5;0xc67e5d7fe6155;0xd1912a667111e;0x708d54dcdc27d;0xadbc79dd7dc1f;0xe535be4338438;0x449b2961057d3;0xb272d6ef1fa23;0xc1ba1300f47ce];[0x0;0xdd65f2b31327a;0xb791bcbbf890a;0x50a2046be5ab6;0x3c66f391f5542;0xea2bea76e6cf9;0xfa1dbba569aed;0xde5e2c10777e8;0xd0093d68dfc13;0x26bc3315f2e44;0x917d6177b62];[0x0;0x6ce31d92367ca;0x7058c5a5622d4;0xe6ab480e6216d;0xde0e5ed67c822;0xd60a6c331bcdc;0xf57b3d6a92ceb;0xb676aa320114c;0x4bb41012b5abe;0xda072f6485e58;0xc1cb73b46f6c8]];
 [[0x502044bb33620;0x9cbdfb031339f;0x31f20f56d02e7;0x5259927087a35;0x74851a78591c4;0x58ed9fcbd4197;0xe2cfc283bafdb;0x6dc1bd7f03768;0xeefa8154ec662;0x40c867a0cb1];[0x0;0x935aba8bde0f4;0xe53b502f4022e;0xd203c9efecbc9;0x8401bb4c1a1bb;0x10ffec6ddcaf1;0xd9f60aef5dae1;0x8597d22585d00;0x2f17bf2fc6fca;0x375bb8d91e31a;0x410bfd371d724];[0x0;0xef72413a2474c;0x8980fcb14f51d;0xaaa672437c6c0;0x349818eb2a294;0xea3b7f8dda1da;0xc67e356384f4b;0xebbaa0fcf0f8e;0xd452c00e5992e;0xfa09bedf79558;0x1064d0b27ab];[0x0;0xca8c96d904529;0x3e957eeb196d9;0x70278bbe14636;0x43f7deeea9b1d;0xfc5758b23d63d;0xf75d0bbf85b80;0xc579b3cd8e728;0x6b501dd168177;0xa92869b96158d;0x41130dfcf76b3]];
 [[0xe31bc9b17cce0;0x921bb7c4add17;0xc62def6b22dad;0x13e14f911ba93;0x26eef46a3f758;0xc040aadb09ca3;0xb508117577951;0x8a3ca893104ba;0x31563a139d89b;0x8500e8fd7fd];[0x0;0xe07fefd071995;0x69533916bd161;0x10cb8f59d4c48;0x6175a86be8ae5;0x46e1c737e6af0;0x6bdc4d0a9dd85;0xbd8568eac6488;0x682aba63dbd45;0x73f7d8b9e7028;0x859fec4847f0e];[0x0;0x1fdf2a603e048;0x134239afbceec;0x88186cd1ce7f0;0x3cd757f660a1d;0xb5fcf05b96608;0x9a68c0cac374e;0xbf97dc9edf1e9;0x408fbea4f5bd4;0xdc6ee0356137c;0x4519f2183ad];[0x0;0xbec80cbc833a1;0xf8367c0ff2e14;0x955ff1a884586;0x1157c83b327f5;0x9fc80a1ae47d5;0x8f9e19f291555;0xeda9fc4ff0da;0x3dc7af8ba0bf3;0xf9caf931f4828;0x85a0699f004b9]];
 [[0xa1b5093db0bd1;0x805910094912e;0xb73f9529ca12b;0xdd1a73c88688a;0xf00170dafd624;0xbdcae8613e239;0x38a4d426bdd6b;0xe2afdbba49550;0x7f827e1174165;0xf634d0005d];[0x0;0xe56e44dfef02a;0xf498344a3b540;0x454e5f2063f84;0xe270d7260fb28;0x5197f7bacd617;0xabaf1148fb309;0xa532c01467cdd;0x5cb1e97dc1582;0x1bfc3d0c13268;0xf78c37d5f460];[0x0;0x74f1a01a1fd6e;0xeca82062e1e1;0xad42212f5bf78;0x35a0dc6fbc470;0x26df50b5603d0;0x4dbd7c3cd6d11;0x79224b5ddc4a2;0xd5098212ce8d9;0xcd7a286a2f4f2;0xecc98aa5d];[0x0;0x505bd82f72bd4;0xdae90fc34e59b;0x415b2ec744798;0xa0e2545c27404;0xf0678da286959;0xfe01f17f2b405;0x7e71cfe5ca88b;0x7ad53158a3898;0x1b403cd679182;0xf716c7bb6156]];
 [[0xb85eaad3c3a1b;0x9f52192dbc93;0x865e3503ce456;0x2a3d5b8707c91;0xc479d04b9f469;0xc537694667494;0xbf932a6b2089e;0xd18a68a5ce22e;0xa3079be198625;0x6229d5c3aac];[0x0;0xa285f1d621c61;0xa79434a0a7061;0x36872d0cc04b3;0xc1bab53b07c18;0xf963d9e7a9497;0x511d197ad7e4f;0xb1b0c24a46c4f;0x1e1d0ee058618;0x433892eed5a6a;0x62aaaed711d34];[0x0;0x79abf72a5c2bf;0x37d4305182c00;0x261e5b48949cb;0x11c232f59f0f5;0x61575ce5d51c1;0x27989103210f;0xee17ab6cd7f32;0x3a702a62c3817;0xeb1a2d32c06c2;0x25a40e7ff9e];[0x0;0x3b28e408f05e1;0x78a0c6184bb19;0x2e7aa32ee2241;0x20d7a4bc6137d;0x5df1494304a18;0x717545e2de52c;0xe71029feebd56;0x8a47712961a7;0x854fbeaa81ba1;0x6262887c487b6]];
 [[0x3fae94b34a6e8;0x1ca5d37345248;0x5e2ab19955f7d;0xbdbdad5eddd86;0x83228bfb66c17;0x8e04643b35607;0x6dad2207d1384;0x294860d8210b0;0x6c85ad2e94805;0x3600573353f];[0x0;0xe86326a64db30;0x4369db31aa76f;0x95cdb9fd88524;0x21d022cb8875;0x538056f201dce;0x203e93fdebcad;0x132a6b2146d5b;0xf8705cb41aef6;0x8e24ec8a5b426;0x36306949fb732];[0x0;0xbc6f2dfff3b43;0xa9baad7670c2c;0xe0ad7e3aef53c;0xedf0a9b34b079;0xd4ac5b57814c5;0xbc8147fe6dc23;0xc3c021869f7ca;0x556f63c80f9ca;0x9e29d05edbd;0xb6424c9c52];[0x0;0x143f33778d8e3;0x8c1aa41b07d62;0xe2b0789f42c65;0xb969dc51c2cf0;0xfe14eaad577fd;0x23875dbdea1f3;0xce8367ff91508;0x6d588835f84cf;0xcad3b354007d3;0x36491b266c3d9]];
 [[0xe370ea2e1946a;0x1e682ca6fabd;0xbb5af1ea4dc5f;0xde79028ad55e4;0x4c647dee02532;0x37a93551ed1ad;0xc06cc1e01c03f;0x8fb314276c69c;0xaa7334b1ec46a;0x232f733b52e];[0x0;0xb8f56a6650a47;0x4dec8b1d8b4fd;0x951c1ba02e718;0x77973ddd3b0e3;0xb2de9ef9497d7;0xcb35759628583;0x69842ca77262a;0x4a446e0faca7d;0x8020167ca8c77;0x235aff4dca0ed];[0x0;0xc37eeb6ac0884;0x98384c3dbe061;0x9febc1221928e;0x27b3226f1718c;0x3cfd78847c44f;0x6681e582e856f;0x339db6cb1762d;0x7a2b01d9ce333;0x2f61f909c5056;0x4d6024dbc5];[0x0;0xcba429f074ef8;0x5c7938f70cdd6;0x650234d1c0360;0xca044214cdada;0xf3f914643ad13;0x1c0708b73908e;0xa24c89115407b;0x22c66ffd530f2;0x87d7e613bae52;0x234df592e87b8]];
 [[0x88f81f5c3dba1;0x6c28c74dca438;0x25eb45dd4cd43;0x747ff6b01889c;0x40740914717c9;0x93e89b0f2501;0x6fc9d2b27705a;0xc749199cbac36;0xfbefc2e079fb3;0x60f611c5d3c];[0x0;0x77a276567f771;0xc10c540b36e43;0x43e6f20e4995f;0x9fd1331064231;0x3de44565134ec;0x8baa143fff53a;0x38c7120eb73e6;0x503d592f7906a;0x43eb941d98326;0x61612fe8a65c3];[0x0;0x9f5380ff20f04;0x14201da79a6aa;0xdf9e6f770a4e6;0xca2e516d83046;0x3da86fad6624;0x264c895345cf1;0x49c241faabd37;0xbc19cd2fc8c88;0xac1817387ba13;0x24b979da884];[0x0;0xc331df9bcb28e;0x37ba4d20c5b0f;0xcdcaba9d049e9;0x9e0a82291c265;0x690e87343649c;0x560c5bb5da1a1;0xf1e36110d2e47;0xcd533bfcdee14;0x169ab2fb2b677;0x618534f021014]];
 [[0xe6a802673c4d0;0xbe454042115cf;0x557cbe09799ae;0x3ab0e1cea7425;0x75aa6cc0ca06c;0xca5057cd52a9e;0x6ef2131f6a8d5;0xd698ecd89ebe8;0xf1a29a4862c7e;0xdcb8464d52a];[0x0;0x66770108a7c99;0xa5a2e18426af;0xc7c09f54ecb66;0x169531afda8a5;0xcb06ca9caa935;0x5bc404c8ad765;0x47ef2bf8920cf;0xbfa4185c151bd;0xa00ba19f5e76;0xde153a8365422];[0x0;0x37872d3e0666d;0xd4ba9fc13e5a5;0xa1791f43de899;0x6cb6b603966c8;0x3c901e277f00;0xbee2897f37ba8;0xb482ba0ee7f47;0xc538d4b4f6642;0x2313fc8fc44e7;0xbe4d3d7a089];[0x0;0xc6e7125a3e6ca;0x3780ea7b2f20;0x78355bc888035;0x19c7474669353;0x4492904dd7de4;0x786149c7ff56b;0x1410f7bdc1bb3;0x70f339117ea17;0xd661ebc8b8ae2;0xdcd3b91361363]];
 [[0xa5ace9e3eeb39;0x10d1ffea4660a;0x3c5977a0fcf0b;0x16e90dff90dd5;0xc26b741b3adef;0x718d219c771d3;0x6061ce4235e7f;0x7a497d05da3bc;0x46b0d1e647bb;0x992f4650330];[0x0;0x5a6b26d2dda9b;0xbda9b941818e5;0xc7340ef83d121;0x82f5332b1e01c;0x382e99eb1fca8;0x81035890946c;0xc1d7ed79a411e;0x9aad53e7362f;0xfded3da5c2dd7;0x999b5267a3891];[0x0;0x5c5a71fc912cd;0x4012b7fc3af3d;0xb58ee0be73fcb;0x73f8ccd8e4c4b;0x8480a4ebca79b;0xee980bcb0d3bd;0xc64db729746ce;0x155107f96fff2;0x9039d60d051c4;0x5ba98ac6c1b];[0x0;0xbe16c74ba3d09;0x633fe99ca53f6;0x8fea7b2db26be;0xc6ba99df0c5d0;0x2622de6d86a1;0x6e71fd3d07b3b;0xeb765fa98359e;0x3146edf0944d1;0x33123868ed1ca;0x9a25384ce0cd8]];
 [[0x3189173e8e42b;0x578a2a2b3ab41;0x6052ffcab7876;0xba8e13b3198db;0x8fc5897c83350;0xea2e28569aaf7;0x6d2648b420a07;0xdf311e318360c;0x385d303528314;0xa67dfde289e];[0x0;0x32ca18e61269f;0xc181da19d4175;0xff1c112bfa1a2;0x5a52b4c1c2fb6;0x4b0e0af656b9b;0xdfc5238dd1d67;0x9c835d70ee018;0xc03554af21cfb;0xcd50ad2009649;0xa7583e82c76a9];[0x0;0xe381790624cd9;0xf87e86be5ad33;0xaad7135459f23;0x1f435cfca7120;0x3fe5149ad09ae;0x4801b93bfefad;0xcdc7c31fab397;0x7c577f23df4c2;0x746c1cee0ed28;0x6c47a343b5d];[0x0;0xaf65041397fcc;0xe17445683e5fa;0x801790a184ccb;0xd76d9eafdc37e;0x9f15b6fe655df;0xfe2f5d8cabf34;0x3d7e97a1b9ada;0x516f2c6c1df02;0x2815a5c9fe749;0xa6d94252931a8]];
 [[0xf3bfa3e84a251;0x5de489aa3ef08;0xf1db6813da2ba;0xd9358ad386941;0x59fa032673236;0x246bf90f5ed49;0x17fa75dcfff38;0x2ebf47a033efb;0xc227d90a9113b;0xad67d731a31];[0x0;0x430c2aea16612;0xd1ef0e6747791;0xa6cba2af6f3bc;0xecd7601c2f9c3;0x31af1e28e89f2;0xb044e4b94d1ff;0xd52c356f82299;0xb67817018ff0c;0x1018504680ec1;0xadfcceae6f5af];[0x0;0x5c3c138cb26a7;0x4dd2219f146bd;0x4ae12cd7055b4;0x56f4559948453;0x9be0fc62206fd;0xf9db504f52f7d;0x1a653b8c25484;0xacccaed7fa8b4;0x9b0da912fdd66;0x757582f7f54];[0x0;0x61c3f39ba1729;0x96355da841630;0xa6d6faa124619;0xd54a1838eec87;0x7ffd1dd52c9a8;0x117167f45fb03;0xa598de33d1a8;0x775a9460dfd38;0xf80843b05e53;0xae9c701a540da]];
 [[0xc7fb336c5e01d;0x99c31c64d2e99;0x35903d3e6dca0;0xf634fae78abe4;0xe8b7683052416;0xca8d24655850f;0xf05c5111f889c;0x2afbdb6315c3e;0x5f31e0f4b142d;0x3ef649f5573];[0x0;0x7c60c7557cee0;0xa28b1f7fc34f4;0x18c1bbb6a4403;0xbc12de1aeeed4;0x2af391cde806b;0xae4e46855ea3c;0x31923f6d49f37;0x5fff28c89a0c3;0x5dd3907c7bdc;0x3f5d76debdc02];[0x0;0x73baed8748a5e;0x88c00ec6c3283;0x3e4ae8b982c42;0x98ff65f19c26a;0xfe10e5d01dadc;0xeddb5c9065daa;0x260165353b759;0xbe906ca2b6e48;0xf944e9ccdf4ef;0xf7c38c50f1];[0x0;0x8b8d2abd33e3e;0x3828e5e6e9634;0x4d172d5f258f1;0xd124f18f796ce;0x76ae8d9a1acb1;0x887a8f960ffa8;0xe3dfa2ffcb2a0;0x711fb02b4a669;0x22895a970a285;0x3f3477ed64e98]];
 [[0x49b067ce390f1;0xf4adcfc74d5b8;0xb0ac6b1feffb2;0xbb5d1de986701;0xc1bf6afa2c7e3;0x57c3c106f1750;0x229954c392dde;0x868466c7976d3;0x587a43e771ce3;0xfd6b9224d39];[0x0;0x2e79c2466b723;0xee842ccc375e7;0x3b56514a62c43;0x9a78300833155;0x481894b6891b6;0x7cc6e311573e;0x2be0f49b61d51;0xbfb2ac9cdeecc;0xcad5c4809ce69;0xff07b2f1c56de];[0x0;0xe2e56605d431f;0x1d90564f8d00f;0x7bc101f594372;0xf68e8d9504383;0x4845fbd8f38ac;0xadc97ff82553e;0x7a3fdb9387a8a;0x388f7ec9af8ab;0xc73bcc668f90d;0xfaddcc10486];[0x0;0xcdb60001ed4bf;0x362874c974da8;0xb665c888e68f4;0x3d4dbe38d8f6c;0x86fc87699ac43;0xd33433c68033e;0x5a8f67a81b73e;0xf85689e489025;0xa2a4612d452b;0xfe509cf83152b]];
 [[0x21abf25fac2e1;0xb967e07a32f1b;0x5b739bc1233e3;0x190490cdc182e;0xdd97fde443e10;0xbccade41b2c52;0xabc20721799f3;0x313c84af5b20d;0xc982683d2009;0x4adbab6e075];[0x0;0x26a82d14c4eeb;0x6053d04b6b5be;0xc780500cc1d8b;0xad71821612c4b;0x4bea910fb5d98;0x566008813f0d3;0xba82edebce91e;0xd1648d1705da3;0xe6eb467baf025;0x4b4e35274c155];[0x0;0xf87c8b7b89c26;0xbdc6beee0348;0x5d0e235cc22d8;0xf800987646e8d;0xf64e8a81d7148;0x99b86bdadc92e;0x97683e094d82a;0xf579200193df;0x765c8603896f1;0x15e3bb9a5d4];[0x0;0xf9db597a640cf;0xb720f229bbfd7;0x64acfc9145644;0xab23b3a2ab9a0;0x7cc1b8f02f63;0xcaf0e84ac9320;0x65aee70038e95;0x720035759cc6f;0x32c712a5b411f;0x4b194d51e9d99]]]
 (V [0x93d40b348f6c9;0xcdbbd1f6ee891;0x475f1e8e06be8;0xc977530fcb91f;0x8e2929de801e8;0xd65c47dd6826e;0x306f1e34ac45a;0x76360a0c45001;0xa2c52e858b24c;0xe7d49bfbfac] [0x32d09ca5d2b18;0xf3ed06a4b099f;0x6157dc1609a5a;0xc1cff9539af39;0xc582dace1eb5a;0x5a4683e8ce773;0x18f06f8049c05;0x4fa667f22db03;0x65639fab59a8f;0x93b10764758]) [[0x4299190ebd614;0x696213657eb64;0xb2d3660b32d87;0xf9534d4730d4a;0xf90b6f60d7f86;0xc3c39562b611f;0x6fc62ad59b4f9;0xb51969e16f057;0xfe613d3a468e3;0x295a72f7b2d];[0x0;0xab8992e387d40;0x29d33ed535351;0xce892ab09a887;0x866993179e1e3;0x1e5bcba0bb052;0x35397d1219466;0xa5f3a3d3a4ea7;0xd7b3cb6a0042;0x6befbb631fdbc;0x2993624c9e090];[0x0;0x55b6fa15940c6;0x68f9e24a9c522;0x989960fbb5f26;0x93850a7ce9918;0x2898a80fec22a;0x41e4e23b5e715;0xb120800d64102;0xbc6daa9aabcee;0x7081a31af3bb9;0x6ae18c8611];[0x0;0xdeecbb192770e;0x903b9443f0cca;0x51c40e7dba0a1;0xd5294eed252e6;0x612943fddd3b9;0xed49cc0d7901c;0xb642a26a95345;0xe0d7e4179dde7;0xa53a7c0791eaf;0x296c5a451d331]]
 [((V [0xb3ef11b4746a4;0x98ef4bfb62c4e;0x1ac5aff076189;0x760b4d89c3369;0xa1d71eb778725;0x9f81178dca073;0xa476993b8c8a8;0x3217264389f7e;0xbc56c84ad710e;0xbbc72556358] [0x8e32b203f4085;0x26efa86785749;0xab3c426ac881a;0x1a77c250c03d2;0x6d1d412e0890;0x157fcf1711436;0xbab10c8fbd18a;0x1e62867786d63;0x65c3243889444;0x8b9168526d2]),[[0x84d4d7218f32e;0x4db71c1f3a203;0x97ef7b7828f61;0x4586abbc2f84b;0x17ce5912ce78c;0xad4a7c8e8d957;0x10aefdfb58e57;0xd2dd4c4d3b2cd;0x22ddf4bf09fa1;0x87f6b78df0e];[0xfe955d5b4858b;0x9d68f51153ca5;0x8bed7d8445cad;0xc69cfe5237ccc;0x23782ab771909;0x8d732a839055c;0x65d5dfb5a1978;0x5be076860d3d2;0x61c917d5fabcd;0x1ecd49eda25];[0x0;0xade151ccbb18a;0x81a0259f38dfd;0xf09d8786a719f;0x535df3c651767;0xedb6e3182706b;0x8463611e2b6d1;0x67f386ddd5c45;0x3a200ba6e7847;0xb548d986fb2d8;0xd1f1621376f];[0x0;0xd8b6acf80bed;0x47f2275841045;0xf8c92a603df41;0xb2347588226da;0x5b7c49a884251;0xf01628a56c87e;0xbe0e37f4b6320;0x47a2715937c25;0xa3929af7a31fc;0x9ce161d1088];[0x0;0x38e699f496f82;0x437937c158ea7;0xa69b406e32fc6;0xcb2b796b1a98b;0x2a51dfb08d148;0xfaba30dcac818;0x3d7c270e8b9b0;0xd78d5f2404a69;0x5bc2844a25f32;0x4836235cfc7];[0x0;0x4e299b38b4add;0xa52543d756b24;0xb27a3f09c98a4;0x1233bab77cc0a;0xef9c86b1d4a08;0x8a7fa77d20e60;0x6376c7d9820b;0x28cc5e611c8b5;0xde3b5cd5a2f0d;0x889613d3964e0]]);
 ((V [0xe4dacc3856c46;0x72c1a4dcdff31;0xe4736d689b73c;0x487169d4ef1a9;0x4e59b303dcc55;0xee10893c637c6;0x3e998b8e3ca0c;0x156684b953833;0x4451122bd931;0x619b4b21693] [0xb5878aee9a75b;0x931bf1fac2440;0xf7dad235e6653;0x78bb37d028b93;0xab2a13cddb00a;0xf39b89794b7a8;0x94a1574f90ae0;0x1d656aff9a68b;0xa1d019e0be547;0x62976f47e40]),[[0x932fc79dbbf35;0x6f52e44da8331;0x8337c74a7d269;0x5c7fe63f7ae29;0x793ea95b9421a;0xb84b90db0917f;0x45c2690fa9ebd;0x4744ef08c3288;0x48cc7a275011c;0x7a179a7e298];[0x91f4d11b44611;0x1ae55421737d1;0xd4e68873bc65f;0x6f3761209b8cd;0x5eed14f4bb197;0xfbb88a808f165;0x62b85ec6ecb35;0x95a3b2060eb;0xd2fcee8f260ef;0xfa67b631750];[0x0;0x4a31fd79ae109;0x4228dc90ac1f6;0x73ae7f1f7255b;0x89d3bc3792d4f;0x53ce032f2f988;0xa9bab536167b0;0x51af737d16d55;0xb37dd9444e707;0x37a3be4b8d822;0x89bc8b7703b];[0x0;0xb111a099bb60d;0xf3ab3801d7cdf;0xf0fbc09487cd8;0xe8a8a3689a3b;0xe9f2813551568;0x99b4034aa87d4;0x83db0c30d8d47;0xd7ca9435e4c70;0x32418c55a575c;0x85205403d0c];[0x0;0x7cdb1a44bd93d;0x7fe7ddf9441b7;0x5e6832ed69a0a;0x8b70b235f2f00;0x71ba70e857b7d;0x878c094c268ef;0xd4fc8a9568240;0x44d9982e8b3c0;0x9d41ff14d33c7;0x3a3a816d5f7];[0x0;0x98fde75e57fef;0xabb1e950112f3;0xe48c4a430fc70;0xaf531ae7f6621;0xab096193bb39e;0x482969fd11088;0xc389c79ffd0f4;0x44f774afd991;0xc2b3aaacbb3f9;0x7abcb34f0043a]]);
 ((V [0x7c94b0413c3e8;0x96020847ee908;0xaa488050aaf6b;0x6acba028e75d3;0x880f8b48797a7;0x6f67627701496;0x3208f08fb0dda;0xa018681dbf6b4;0x579a6ad055be;0x73d19eab780] [0x38803af7feef7;0x99ecb334aef31;0x77fe0b846567a;0x2e8506577fc58;0xda5d598446920;0xab56b729aed01;0x340fc2721b343;0x3e64842ef6909;0x44fe179101374;0xdddb74228dc]),[[0xe397bc03b5a25;0x932b671966911;0xbaa1cca6b2e5b;0xd602b7f594ad1;0x905a6eaa6f8a5;0x8aebf3b704b2a;0xb0fc0b288c3a6;0x265a830097a04;0x20518da6a8b53;0x50ab5eba118];[0x50a0000ffe247;0x19ac17a4aab29;0x3f44b0b767fbb;0x9734d0666eb17;0xec77802d8a4b7;0x9fa454d07d18f;0x4b8d060d7dfd1;0x86dc7acbf7ca2;0x251047884e259;0xc236c9b57d1];[0x0;0x5c30580a1c3b;0xc7f86d282126a;0xdd7cb144ef652;0xbff7a7beebd07;0x809685198f6d5;0x228c5c01c7bae;0x2bbae008c71f3;0xc5c24fda42493;0x88c36bba2fa60;0x25370d23623];[0x0;0x6dd77346ccea3;0xd0fd9a2058c9a;0x1196cacca1314;0xdaebf5cea0b1c;0x4200abd7542d3;0xd7e3feaf35c4b;0xbb99944c7246;0xf329ebef2bcc;0x3ba142f36825d;0x3e22a4d21fd];[0x0;0xe83782d282ff3;0x1cd7167b6af6d;0x573aeec19419d;0xf4a554ca2f58d;0x78952a5a3d174;0x56fe277beb648;0x54f505cd7eacf;0x348b4971f8998;0x1d2fb459690a4;0x196b8debfa9];[0x0;0xc5d96276c29c1;0x90a6dd1cdf069;0x9f42a54528ab0;0x9e8f483c1012e;0xfb3a057778f29;0x85dcd25ec7b2d;0x1cee732fbb752;0x963cc355c160f;0x9f3b0e1a69a1e;0x50f64ceda9724]]);
 ((V [0x11965b510d286;0xa44ebd5bf5e75;0x45f50c0a44849;0xfeac19e584422;0xb54582928ded;0x6108fc98387a2;0x8c4e1732469bb;0xb142f4f9416f0;0xbdf84d0c38eec;0x1ef3bcc1a1c] [0x1cfaabd041c81;0x303b2cd6b81dd;0xf492e2ae7b625;0x45f6b3b3f5e27;0x58c1f6f2db0d;0xbf961c7edebd;0xbc610f25f8a8c;0x971a40e1132c5;0x10243301f9f45;0x6314bf877d]),[[0x97e4fd2cddac7;0xbddaebfa3298d;0x4ca05416be643;0xb020970e015ca;0xa8324e9c33229;0xf02aa57dab0f1;0xfc7231da6dcfb;0x8cce08a15fa9f;0xa9d86d55fd8f1;0xc2da4b65ec9];[0xe61ed08f5db84;0xd7b2f149994c3;0x4d0660d36c7df;0xbea5a21d822a3;0xad248b5ca56fa;0x91bf41079698c;0x15e2f1bb5fbc4;0x17dccbd6b73a0;0xbf61a21ba938e;0x6c3383e2ff1];[0x0;0xb49a1abeb9364;0xfd80a9a2d4a0b;0xffdbed79c09fa;0xc43b04cdba1e2;0xe3d079fbb8795;0xe1425010b6515;0x7cb627a093e55;0x35ed1cdbb438;0x25a3dbaf18b7a;0x34660032842];[0x0;0xf67877dd8abe;0x7e6a626851145;0xb8b5b7884f2d8;0x8b394dcebfb2a;0x276b15ae06a45;0xbbb63d2cae6de;0x5d4ce513c2230;0xf95f8ba36b045;0x578eefa2d7b63;0x151baf875690];[0x0;0xfb988a3616ccd;0xce66341546249;0x925498920a276;0xa1d83956d9a04;0xf53676a05f36f;0x4ba0dce578f94;0xd940a09e4eca;0x9c1ae31f1bf74;0x62f4bca036948;0x944f946afa6];[0x0;0x92ed5ef4f3061;0x2a37f7cc8712;0x84738d51cc385;0x944be98e1948a;0x2594adb7f46f4;0xef3c90d7ee8ca;0xd60d938fb4594;0x692f10c9abc5c;0x5c103f6cda2f4;0xc3ddbe3476e7d]]);
 ((V [0x7c8ec4958e903;0x69ccfe3d1c0b5;0x6f72e86b9ee27;0x202a8edd5d994;0xaa01a887b76fa;0xd2381e1203891;0x548c528b8d375;0x5dff0a697a907;0x21ce9eef26436;0xb300cbbace4] [0xa5758881e87e1;0x234f06ae5e253;0x104f73c2e3cf7;0x7e625c858a013;0xdcc0ce4e8c764;0x949d4c8dce777;0x49b98b13c05bd;0x265698debe2f0;0xcafe6a6c76af2;0x9359ca4a1b6]),[[0xa107aa18dc9c5;0xbbc441d46e490;0x43a85f1c6a4d9;0x791ba96c2e25f;0xc0993ec665acf;0x9366787d3605c;0x97618bf0b5bca;0xd18e6367fdb64;0xabba58bf6e5f7;0xe9325e71085];[0x111b70ed5fe18;0x764132fecf3b8;0x5d507168ffe45;0xd6125d8861c46;0x2d4fb157ea4d2;0x57e5319a6d98a;0x787fae79cec3a;0x7ab1c81a59fe;0x2325bc1abd7e7;0xfd6983ec89c];[0x0;0x1f0b2b26d4f94;0xcec046b71d17;0xf350a45082c2d;0xb939366c07931;0x3b9dd5f54c28f;0x590d002a70437;0xda7b0c7fadb41;0x1e0f144c248d2;0x1e98643065324;0x3be084d44b];[0x0;0xa014322b65b92;0x87c1c39b44e2e;0x78b7c79a29bfe;0x9ec36b4e70644;0x476664bd0de16;0xaa4b96d016f1c;0x19911ca44525c;0x32eb295fe234d;0x45976d8569bc;0xb482c1da2e];[0x0;0x6f47b1c5b8826;0x2d855a4397e95;0xd73a5d49215cc;0xd0b080a0733b;0xa7314af9f69fa;0x2ad8687af589;0x4d5f439859cd4;0xa3cd2cbf4d43d;0x3a10fa79f21e0;0xd46cb9d2c83];[0x0;0x639de48fa06f0;0xb2d851eb9857b;0x693c742137800;0x2ad6638d666d6;0xb404f4dffbe47;0xbb97fca67c3b7;0x4323bc1b22554;0xb008e3c0a00f9;0xc18541d9e3f8e;0xe994b3cbad82d]]);
 ((V [0x817be06e7af3b;0x1338044985ef0;0x89c744d3931c4;0xa8e6925980f84;0xe5959076c43f9;0xd8866e2c82cba;0xb56a49e6ffea4;0x3b2ffb395f6a2;0xe631b2d405e46;0x6975fe7bb5b] [0x81d05934a2275;0x961590921c424;0x79580a29ad8a;0x9411fbe4c377;0x39d34d7f7a1f1;0xb9b268f15cd41;0xe4b93b897bff3;0x2378985bdb74d;0x9df717bccb70;0x3a0e1d9feb]),[[0x2e33c3396ca55;0x4a0d125304e9b;0x1f30d572e08e0;0x375ee1cbb65fb;0x9fdc92035a633;0x582758c15e936;0x5b68ba1d6b699;0xaf20cd83f6bc2;0xc1a3859a0b35b;0x60255b956f2];[0xacfb90a56f9b2;0x1eababf1604d5;0x918091907636c;0x2c972e295b6cd;0x2947f1c2babb1;0x32b5f3cd0ad56;0x68a603514d6d0;0xaa826bb2ad48f;0x9c8d9daba327b;0x597c9ccef70];[0x0;0x340a4dbb1ccf1;0xc0f25310a55f9;0x691815f3a901;0x2d6365e6855cc;0x1fee9577ab852;0xef1c0113a4ad;0x14bb098f179f0;0x130bd0ef98014;0x23fdc5c4274a3;0x7d2a1ce7de9];[0x0;0xdcf8dcd75b6f0;0x6edd2cb84c77a;0x77e6fa98b05a1;0x9414c15136881;0x9c9b9accd4eb0;0xa5b70014765ed;0xbf17fade87c26;0x802491b3036dd;0xe3d93f0232c2c;0x6eae5919ea4];[0x0;0x4f171f773a948;0xab6e3740e9b3a;0xbfdee97642351;0xc559703c87cce;0x1a61f1f9736f0;0xade01244849a9;0xa7796c72c7489;0x1434da3cb2fe5;0x6caadcbc44a9f;0x241c0a23ad5];[0x0;0xfd349ee5fc9b3;0x24f63af72a0c1;0xbfc1aff98eb6a;0x5aa889f0e0c43;0xec5dd1777a61b;0xc46b8673abfa4;0x2112a897cbe42;0xabbe7081110f3;0x5011b60fe8251;0x60a11fb95b334]]);
 ((V [0xe84d663b35276;0x46f5dd1f4410c;0xeb95941ecb2;0x8db4b1bcd18f;0xf57a9b15e057d;0xc1db1f2f7cca3;0x3f4c21f3407e8;0x70e0ddcd7414e;0xb69622f357ba7;0x61ace6576c7] [0x920f91c33ca72;0xbc1e216a56115;0x92205b268249e;0xd8e86a5f75a6d;0xe92c68172fd75;0xa89dda22674df;0x923913b01eb21;0x369d86cb77ac3;0x9a1666dd3492e;0x68f58eee220]),[[0x5c0607f223b5e;0xcebfc24129718;0x451069484b519;0x929bad0225bb3;0x51a020c7ef6cb;0xccf5f5bfd81c9;0xcc9da9d20670d;0x8e02251dd2687;0xbde0bd69225dd;0x610944911c];[0xebf2cb32ee686;0x276aae59b69b1;0xb21f91ebe32a8;0x57681ec3b544d;0x2ca207264f882;0xe209e6a9e23fc;0xfc8fad587e8ca;0xd280616c700a9;0xff3d18fd93941;0xc045de0a74e];[0x0;0xf0fe878ae0255;0x5dd08a35f1cd6;0xf67d6a7db7ec9;0x9539bd1399dcb;0x4aa566f5d600f;0x6d7bb5d9d8195;0xb74a769427060;0xb05fa39e65c72;0x405c0d49a19d0;0x2b720124152];[0x0;0xcd0e9036298ba;0xbba9c44582da9;0x36a69ccd4d4cc;0x375bcf084018d;0xf9efd5ca36027;0x62d541d6e194c;0x490cff105b8fd;0xec4be7b2d41c2;0x61fbb4c8b9938;0x2c02e68a9];[0x0;0xe5a122666eda8;0x7cd90a0294fcf;0x1e09e129cc980;0x821498047697;0xec93671f43687;0x2d21327b71da4;0x79c3ee3181e90;0xf359dc109a0a8;0xc59532fc8b4bb;0x24c8064bd];[0x0;0x45070b73fc777;0x873b493e5746a;0x4e1298340ffaf;0xd937d5f441a4f;0xe7528308550e5;0x1d0271f4628e9;0x585f4cf25271e;0x9f47f8b2e76f0;0xd7a714371e5d5;0x616d414ffb47]]);
 ((V [0x1a14448fead50;0xb7f49b664d403;0xb7bc04fd4fe68;0xa49d1efc48186;0x18811c86c092f;0x623b56f6271c7;0x54ca306f01d00;0xa30e381a837d3;0x153319f5cfc59;0x2a322bb72ef] [0x5a0b083f8dcfc;0x3df9bc24da47;0xc8f0f9a04ec09;0x2303d7e4a6472;0xa4dce453dd515;0x565cda0bc13af;0x27b68738f1346;0xa41d3cd125849;0xcbc546c9ac54e;0x74c806cd719]),[[0xab0ce3fb12dbe;0x10618c12f49dd;0xd9b97b749122d;0x3d127c7894772;0x98a9c3dee7d21;0x51b20cfebeb4b;0x19b02928b4d24;0x4831c57eb46f5;0xd8881f8429a02;0xa44755c25a7];[0xcb4a9dbf9177c;0xf013406a3424c;0xb6d204b562288;0x32965628600c4;0x134fcfcfd4b85;0xbfc17b58af22f;0x56006a2e976f0;0xa7fb17395b086;0x706f3072fa5f2;0x52188956f8d];[0x0;0xc1b6e39aab1d8;0xbb7bfe22cf12d;0x2a6460ec9087b;0xb5b0ee84bdd9b;0xc5b4a9eb1b71f;0xad8039f82b24d;0x7a585cc660153;0x84a52efeacaaa;0x807aaeec618c;0x25447b5494f];[0x0;0x9f0f2c3042700;0x4c57df7836c7b;0x72b0021ecf645;0x107e6a89d7bef;0x7958634a207f4;0xc1a6f354bc403;0x6665dbebc9b69;0x209ceacc44936;0xd93e53eb3ba03;0x86b51da8d2f];[0x0;0x8136623a962f8;0x8ab1b218280f6;0xe8a0e1b7aa34d;0x768855c68dea8;0x8a40d5a828bd5;0xaff1d4e96a5d6;0xc5b0e7e591889;0xd3405f23448c6;0x9ac2ce112bfa6;0x696b79c1b27];[0x0;0xcda0afa19c4c8;0x85700ba28fcb0;0x66439c512d215;0xabbf558e27926;0xce3a21829b51f;0xdab598b30dda0;0xec9dfe9628f69;0x772fb993a9a23;0x88df9ce293aed;0xa50f372d4b207]]);
 ((V [0x83235e8d0d0ff;0x6097a4b175ac8;0x5bd934941efc;0x9cab39ad1400a;0xe8045e2c92a6f;0x26570baef65cd;0xb7f920800e729;0x577495d43d11b;0x771c504c19a8c;0xa44435080] [0x512d4e43ea8d8;0x9c02bccd027b4;0xe81d0ea126b7a;0x4b3659ec1e408;0xc65699c6500a1;0xdd0f1f7f46c9d;0xc9adc3a16bc02;0x91769caf13ccb;0x6805890cdbc47;0xc11b417b1e7]),[[0x60fa0125d65f6;0x752fae5edfa20;0xebfda22bdffe5;0x15eac13166dfb;0x45bd2791ca1;0x8407970ad11a7;0x1040c0d91ccc0;0x7f38300e6115e;0xca764d63e5e28;0xeb4930a4648];[0xc5b01f030c739;0xea6b7e13c1f01;0x5cb445da69ce2;0x6eca70fb1409d;0xd049fbb0a118;0xe3f642761b056;0xff55d63fdfb8a;0xd01d05e81e9e0;0x81cc9b0e0104e;0x4b3ede4dce0];[0x0;0x525fa7287ec01;0xbd88495eda697;0x8bbc563a28c7;0xd738f33789d7a;0x909e329f16658;0xff4f94106ef49;0xab2831098742b;0xa3f7ef9c8a7b0;0xc9269ff3ffcfe;0x6f4802d366];[0x0;0xe083d87573417;0x63d9953b46843;0xaaa2c85850591;0xfa673335ce8d;0x5debcd5da4fc6;0xd92c8617d97e6;0xe604863b0907c;0xe6d2583bd65af;0x2e7cba90e6edd;0xd6aa02f20e5];[0x0;0x5a6e06e11c113;0x289d510df09f5;0x40d546fbf25f0;0xea8eb385cf041;0x612177f5e8664;0x249dffd904955;0x5a84bf68423d8;0x3b014ee1f3024;0x9a2d053532a08;0xd83f743a979];[0x0;0xfee19e8dc76e4;0x5986dcfb039ef;0x976517240adef;0xa021955eba1d;0x46027a98cb890;0xc1bafdda5baf2;0xc14a7e41cd44d;0x424e8bc2695b9;0xcd0bd3935bfab;0xec5aaaf9e9b9a]]);
 ((V [0xf7ae71d02e3f2;0x669ae4a280686;0x6068c5497eb50;0xa8de82e812ae1;0xc13b511d7bfdc;0x6f25d737bf26a;0x93ecf38d3e662;0x1cc915c522dd6;0x4b62938c76a80;0xfab4e694816] [0xf999cc1162250;0x304c8ddce90ae;0x58f7d117a0479;0x629eed70e6550;0xe87652d1c99a;0x3e89fa0559d4e;0x6c43624ba3c71;0x971624ba67939;0xe380b63ef69b8;0xe77e43f7795]),[[0xbd0558df4891f;0xf8306db88c170;0xc66506a144a1b;0x5b8b9c508ba3a;0xfe7fcedfefdba;0x8a743789169eb;0x8d1677d2ff0b4;0x66a71473c1827;0x71f09d7814e93;0x150f3b3f839];[0x8bfe1d28a74d7;0x3f1d4e0580f1f;0xd2f36ab7f7d1d;0x36ccd4dc2e612;0xf6c0040de06a4;0x647966e7f3794;0x5aa545a41287c;0x7727314e23b8a;0x34fc82e70a3ac;0x683c07218cd];[0x0;0x68ed3fb355586;0x52ac5fb6cce5a;0x695a476753737;0x6b403e25c724d;0x36496e221a9df;0x77e39674d9aaf;0xb3ab32b948854;0x91b67c04936f7;0xe80ca0c34557c;0x6967761];[0x0;0xa338e22ca73c1;0x158b4acff14b1;0x648d4eebebc4c;0x671c9010a1032;0x31c7087c28093;0x9c233ca2e90f;0x743c0fe4d39c5;0x93b5c62276145;0xbdf93e2ef3684;0x1fc57352418];[0x0;0xe45ce8eabe9a7;0x6aff67646c3eb;0xde9ad0a9d2a46;0x72a1dbf63b67;0x6396c0c08f93a;0x1f9a25130c957;0x5d60bd23009b4;0xc3e80254a7754;0xe8d36f0d64b32;0x1bb80a06ab];[0x0;0xe139b617f125c;0xdb674d95269f4;0xa0f88e4d489fb;0x5329dbcf66db7;0xc35d15c3ddc4;0x7a9843500e226;0x7b556c7231225;0x7f48d5ddfa300;0xb4e1e7fc8925c;0x150fb83c97e21]]);
 ((V [0x3270ab27a6d63;0xc0d4b7fe05f24;0xbcecf82530a9a;0xeac77f67d786b;0xa455719e57555;0x19efebdccac76;0xb16caa04f6398;0xbaf94d415565a;0x261b05dfb6317;0xdc983bc63b1] [0xaf4ca605eee3d;0xab79b33f4c325;0xca5af5252107c;0xa06b8be587661;0x31f1cb8751a3f;0x2c292c891dcaf;0xdcf881a4aff6e;0xb4a081d3ef6e5;0x4023873252da4;0x6f1dfc69686]),[[0xdab8e06c1dff2;0xbdf608a8dd6d2;0x89d41f4fb9eb3;0x400cfb3aa44bd;0x8dba6baa60219;0x8825e1b1023d2;0x83a6b044e894c;0x5dfa2f690893c;0x40ba90a8fe0a8;0xc49bac99263];[0x8640154dc4a3b;0x6b2ef864fd755;0xa7cf2492c1709;0xdc19ae3199b28;0x3f31c2b9e0aa4;0xf184ddd61c754;0x1769601d66700;0x553e5a524dceb;0xb49d49384137;0x6e3f8a665da];[0x0;0x7bf88240f592f;0x1e1e7a2a18bc8;0xb34bd469b7cfe;0xa9bdee332e22a;0x8f4ffa35455d2;0x435f2ba4a5fbc;0x47074c3ac9e97;0x535e89a559f02;0xdd80f8208ad54;0xf585d22f1d3];[0x0;0x2b99b01c042dd;0x873e5d30971cf;0xc39b3e0445fcb;0xeb6c1ccf3c1b5;0xc5591a3a86331;0x4d1d47867941b;0x56dd11fc5afc1;0xf355f9315065;0xea35ea2f84477;0x16392e31fe4d];[0x0;0xfd43af69e3c9b;0xcce2cefd0f13f;0x161141da1933e;0xb7b3fe8bac621;0x8a1462fac13d6;0xce8dc74d101da;0x520ae849c663b;0xbdfca4c353159;0x21bd59673ae86;0x96febef4f85];[0x0;0x8793c44b9d549;0x6bde6dfd8a64a;0x584b35191ec41;0x11a57055dbed9;0xa20b11845db7f;0xd91a73b2b81e8;0xb9bb9e9575a94;0x2771168a537b;0xe5e4d0cef1308;0xc57768882df95]]);
 ((V [0xf79853c9dbf1f;0xf74a16642b1d5;0xc523484067a0f;0xf6bf809be4af0;0x5969000dd48f2;0xdc92a3d628885;0xfe0a1173bcf3e;0xf2da29be147d1;0x36e027a9d712d;0xea83ab2577f] [0xecf2d5297137c;0x9ac6a91755ff1;0x9709362fe20f8;0x21262bf81d84b;0x4c552694a38b6;0x62b3787b5a749;0x7d8fe7509a03a;0x4bcd69fcaf93e;0xb2ae0faf9a6c5;0x273be099ba2]),[[0xe672c31e6eaf5;0x69f05fb18d937;0x1dc13c4a2cdad;0x818c6e8d3a78f;0xf07d672b204fe;0x6fdec111008a5;0x5707c6515ce38;0xfc80ad0b7a082;0x2d6d3e6414aa4;0x43812a7c6e6];[0xbae0ddf8b210f;0x5845e9e13a3c0;0xb24800546abaf;0xdf6c31fdfe9f5;0xd93729cb2385f;0x99d1883af4af3;0x157208327c167;0x3c42983e15e8e;0xeac98ab659a90;0x8816f7d8a9f];[0x0;0xe5a3408e3daf6;0x12e7bf7e78b0;0x3c3ef6cb914e4;0xe23702eefec0e;0x5bb376fbe21a2;0x95c5dd0bfef3e;0x30f00150efcb9;0xe37af578e861d;0x2b6750a0f8f52;0xbe160143bee];[0x0;0x22fb54237b1a7;0x4fc07678ac70c;0xd2f9dafd5f6af;0x987c68bb241ab;0x443881de90bad;0xf2d8feba7fc72;0x16f2dff0be393;0x98ec411e6f831;0x23cafa680ec2b;0x3a99d3396a9];[0x0;0x4e20e8f836cc;0xdeb25bcad896e;0x8e864980e0c91;0xc5eae86ec628b;0x1702c1878fa64;0x90a73133d704d;0x318aaff910516;0x5a93a16eb3b6d;0xc0cc2f9eaf67b;0x11ccdd68fa3];[0x0;0xf1ae9356f83c2;0xb3cec305875b3;0x46a3240e09745;0x4eabe292ea33d;0x10c0749206f4f;0xbc0ee4d6fbf52;0xe256c913d19f;0xf266934bac7c7;0xcfb51285c2b14;0x43c10002d260f]]);
 ((V [0x8ae6fdde7ac09;0xe1c384d3b2cd4;0x8b63068e8c52c;0x41b6d600af7c3;0x5f9c98cb84f1a;0xd03657c3cf7f1;0x837e99991e4ba;0x2d7c9d48eca63;0xccb599fec8171;0xce23ec44775] [0x5edbaa3da089;0xd49a30421c37a;0x2960f26b63102;0x5d644b3bfa951;0xe1b1d82ae1353;0xaf88c7069bf36;0xe667135133aa7;0x843461ca83f4;0xf2df163d0ae8f;0xa563ff67901]),[[0x46a5495588194;0xeb650e8232ade;0x3e96e6b8c6d56;0x28136d3cb5bb9;0x74076058c9a44;0xfda4590986fbf;0x45bf7bf49652b;0xb0a9c2b76358f;0xa0223283cc5fc;0xc7ca845d493];[0x1742061275903;0x16ee6c2ae44c8;0x15f522261711b;0x9425a84353c76;0x55919e5ea7624;0x3a72f2e4de7a6;0x9095dec3cc8fe;0x221c7f32188f1;0xa5c74b81abfe8;0x416f6f05030];[0x0;0x26ba2ec984552;0xd5e488fda878b;0x7113b1e0ac39b;0xf537d202342d8;0x4ce1719a03ae7;0xccbef87cf51e4;0x5bf6831470721;0xf1acc0d0e4474;0xcdbfa383aa44f;0xd6d4f8991a0];[0x0;0xaaa86713830d5;0x764d38128ef77;0xdd51e917e0fe;0x3c29d84ca2552;0x10a21bede82a9;0x7906d9447048;0x930c4917e8cc6;0xf812da83e011f;0xa8e5860dd7f6f;0x3d3d2a3fc99];[0x0;0x6de349a31666f;0x764c27e2b3e1a;0x9ebf63cf31b50;0xca1a069656ff4;0xaaebc5dbcebb;0xa6d8879c0ed6a;0xc1aaced596640;0x3aa89e509f4ba;0x14602355ed1e;0x9bec79fe2f8];[0x0;0xf027245303149;0xd18ae2874469b;0x8c05ff8960d75;0x3dae41b33fc8a;0xe6931575513f2;0x5f0221b3beb9d;0x27c1f9c7461af;0xc7b7465e957aa;0xdcbfff006a83d;0xc8a873c13fbd8]]);
 ((V [0x7ffc83fc60066;0xa444870667db2;0xb242b96acbcbf;0x98adbee2f3eb6;0x8394329a3f49f;0xbad1867b4c367;0xa4ced8118f001;0xe9441e539a8f9;0xfccfd4a617a3d;0xb2c4d3de22] [0x9628922305001;0x81c47b2126dd0;0xc0a8d757b16bb;0x2e4ee82f11291;0x8c53283d471be;0xd6bbcbf3a93b8;0x122ac2156c9b6;0xded27ca273437;0x9710c0451809f;0x9c78e9750da]),[[0x29588f4ee6198;0x4a94bf3fd88f3;0x563f7094698cf;0xa82c2014138a8;0x2bf5ffdee878e;0x26c2e8a91203e;0x8a51838e4c878;0x922dc5a40ed2c;0x8d793da4219bb;0x4db946837e1];[0xede053e48106d;0xbd6fd5e2e148b;0x2ee7b78182991;0x751fee396126e;0x913be5b2c3d4b;0x2551304b2dc8d;0xc74927fb8fa92;0x38bb41713e0c7;0x4b611e210b4f1;0x1d89b9eb234];[0x0;0xc2686c32a08fc;0x4516156c4aae1;0x83848f526b90a;0x303e5a94fa95f;0x38c8717ddefd9;0xe406d6a74fdd6;0x8e7265589f526;0xab1482883843e;0x49068fc30826;0xa5fdd548a4e];[0x0;0xf9676ca1b9133;0xd34149f0e8f5f;0x4132c755e7304;0x191e5d628ddf3;0x944402b760c14;0x40913dffc2d20;0x7efd4f2c9c164;0xb2ef9dc5bfc87;0x39e39011b8822;0x646d8d48075];[0x0;0x5bc440047dff8;0xc4ba445f97f76;0x802874f9b3ab7;0x46a66552f5b0a;0x1b69010249d6e;0x8b0e91c665df;0x55cccb2e9984;0x38dd64addb3df;0x35e16666b2a50;0x1798fa82175];[0x0;0x25027b6defc6a;0xa58da309808c1;0x6df1927e0c9ca;0xab4ddbf7b3e3;0xec985b97cc88d;0x402c167fde061;0x779b5f85962d3;0x8a511f5d565b2;0xbba470d660ee9;0x4e42315f7c57c]]);
 ((V [0x3dbca87138e6c;0xbd530f1a90d7b;0xe28c6bdf8c83c;0x898001da43099;0x2dc8e493b8d47;0xb410dbe4c5589;0x9693e09d19ed5;0x9bac3ba71cfa2;0x6795602f22e6a;0x9e980acffcf] [0xc160b144908d6;0xcfe571fb62e4a;0x1b095e2bf380a;0x8c9a917eb89a6;0x55e783009b31e;0xcce52e750d4af;0x6886e9e4d4480;0x5e514e80f36c3;0x98094fce1aa49;0x5ba3ed3c55d]),[[0x7ba173a953c02;0x39812299df536;0x5be744f8a30a;0x3a17f051d0f3b;0xe88efc2285982;0x578464f3f02f2;0xf51e0597810d7;0xcf9ce1f272971;0xf5965f490f4c7;0x4cd169d5425];[0x29c78486382d8;0xb490b92c63138;0x4fb874286bd1;0x756fcc1531af7;0x4be64c8ea5885;0x2dc9b75ae9ea8;0x3a30eabc3c1d5;0xf55702599dcd7;0x7a42a228344c2;0xc239f479248];[0x0;0x1356b6b499bd4;0xccb287ebe6a13;0x766664419bfdd;0x64fa030e8df5b;0xc55925755a5f7;0x27002b2474a8c;0xdedbad3414221;0x8dcb9ea1686ce;0x425128f667053;0x7cd64df60];[0x0;0x76e736f2aa088;0x3a2f7f42839f5;0x6ec1e71982b2e;0x2a612c1683de9;0x15881fcd2e35;0xc93cc0bf8cd74;0x506555dd04414;0x32748b0e73f69;0x6532dc780372e;0x5de7c96a931];[0x0;0xceda57b5f08d4;0xe9e01cc0cece4;0x1bf1b5b56da38;0xebef06d77e92b;0x24d923d60e8f8;0x60fdb70e2d46e;0x8733296addf92;0x3e87af936fe36;0xf9ede3ce519ea;0x170d0224995];[0x0;0xb6cf3676c65fd;0x7e05a37dbf01b;0xddfea65e383e2;0x2fb9d4acb2f69;0x65fded9541c88;0xbf48bb112e527;0x7cdaa38af0245;0x93ce2d600312;0xf911b86ef6716;0x4cf1feaae87dd]]);
 ((V [0xa2053a8bf1bbb;0xd0fceab61f692;0x7b57de394e203;0x814fe524dee82;0xee2a1cb85bd8f;0x7ee7cc6fa4ca5;0x45ff94c7b9716;0x6f3f14f0d4856;0x843b29a993eea;0x3a958485680] [0x464d3be10b0c3;0x70de7964da6a4;0xe22e2d43a4c7e;0x780bc9d6ed6c7;0x9bec16d61932f;0xf07dfbbd8dca4;0xd74d5510ec7e1;0x952f6ad9a516f;0xf38be2364ccd;0xed788958e07]),[[0x7033a517140ba;0xb2a47a0677d18;0x28b0b3b677586;0x6730485bd4129;0x9d8d69f4e7e99;0x957d5ba0ff9e8;0x80448bed7ba1e;0xab41bf8d60f7e;0xc9275025b66bd;0x8c9ce93d7e1];[0xe3165ddac2a21;0xb6df93aa0959;0x213531e849e9e;0x177078cabbb33;0x53e75429c49d8;0xfe0df138173b2;0x6b21994d43eb6;0x4befa11117db4;0x91291684f1026;0xd9f83e07aed];[0x0;0xe0b41cd639d19;0x58ae56311f981;0xb3164498707ba;0x33e828ed48b32;0xfe106a33c4bae;0x6b7ba4104fcb2;0x3c60014ba5563;0x26a5bb3c5567a;0x18b3493cf8e65;0x624007a593b];[0x0;0xfe96aebcc2a7;0x87f32cfe36eb7;0xfb41a05387742;0x382619b937d4d;0xe40fc1fef93c5;0xc9ae5bb2b6257;0x78dd94b63a141;0x730862ae6b450;0xf3afc89b60da2;0x64aba23f8ba];[0x0;0x15cd01d2830e7;0x4d7fc41e0c99a;0xe9a897c27b80d;0x2c9a82d82d6a7;0xf4d9d1979d162;0x85559b84f0eb;0x5aeb4fdd43006;0xb6c10311f935f;0x1f157d385c52d;0x4d3bff48596];[0x0;0x272ec9b58fbb1;0x5edf06c2bdeab;0xbb701af0b46d3;0x2dd7cb90490cb;0xf3aaf73897b2c;0x8f0813a1a7592;0x924d9ec4e4654;0x6938b8107bf70;0xc56de421a0b0d;0x8d6074d4d48ba]]);
 ((V [0x51f86b05981cc;0xaf2f54866a184;0xebf85610855aa;0xdf1c040981568;0x77ec2357d0224;0x2c8182d6db00e;0x9360c62b01778;0xfae45f8b1cc72;0xeedd35096f8eb;0xbc1222cd10e] [0x81835c76e7bde;0x882a05cc1ead7;0x814407ddb2259;0x842f8d14e24a0;0x1d61ad2576451;0x53f4cd1b7ba8b;0x9188be6fafdae;0x6062fb8c18bbc;0xec688eb5a031a;0x6ea670c6a9a]),[[0xe3c944d2aa4df;0xb5f23df6182b1;0x81edf46258f14;0x3e3d7dcb19b02;0x86b97fd59d372;0x74dbcbfa91736;0x82fed251a787;0x20487664bd2ce;0x25245bb903243;0x9b4f6947197];[0xf7945197977bb;0xc4337d0c3c48e;0xd66976fbcfbd9;0x66f5645058288;0xd518c1f6b78e7;0x8e1a31e3a91f7;0x73fd3461714c7;0xc4b8ba662017a;0x939d2417c649a;0xc25b97ba676];[0x0;0xa9fe0ef067e32;0xf1ba7d0e860ee;0x8b7123b8e68dd;0x9399a882c41b2;0x3c15b997a6043;0xf2ad38a3ea900;0x6c9bcbc3b0cbe;0x8e185d7620391;0x8b11984a2a52d;0xd68175ffb0];[0x0;0xb5a1b0be9e713;0x82eb284c57ce1;0x38601a5e091ef;0xd2cc818bf9f64;0xb7227d106bbcc;0xfb7e775efca2d;0xb270652caf316;0xecda679be0dda;0x6db20a1c109;0x120234a072d6];[0x0;0xa48acca2a8309;0x4f258f145534a;0xb17a1a60a06bd;0x14604329e5184;0x85a0f85dce66a;0x7ab4abb3561bb;0x3ce889c0663fd;0xa0ea93334e026;0xd8ace1f98bd85;0x5e39421e3df];[0x0;0x553a32ef88cf;0xb6cb5e7cbd713;0xf267f0df74d39;0x4a950ad7da5fb;0x7b252374b12cb;0x86757b56f8788;0x20cfb93faae68;0x7f822880ee6ed;0x98719de28c0dd;0x9b9c2a11d63d0]]);
 ((V [0x4aee545ae043d;0xaee93baa07a0d;0xb3a4c822a3014;0x6cb92d3e8d8f6;0xc525a0a6972a4;0xa3e12d55cc34f;0xde23cf469f769;0x2bfad631a3922;0xfc0b883b4783b;0x69433d70a1b] [0x96554c66bf006;0x67d1c7848593;0x95ed899ae4c81;0x56eded27bb306;0x36462b43ae41e;0x39f74b726ead0;0xf44f5be45aff6;0x4562fae86cdd2;0x579c42eb31074;0x2b98a270793]),[[0x57116313b1ad3;0x5333a3ef04c70;0xdd12e3440753a;0xad7763b07282;0x2619a0a9d7da;0xb33a5e45ff25;0xe701afb6c4904;0xc775bcfba122e;0x3f3b48cb2b8d0;0xaac8e6b27f9];[0x48e44c80e2061;0xd6736204d35;0x274031c9df92d;0x5387123261606;0x9a9533548229c;0x53d23efd1fead;0x915da7d09ff6d;0x75fc050fb7db2;0x92a97cc81684;0xd93beda7270];[0x0;0xb3192b172059;0xe48a756f64beb;0xd5ea95e29e087;0x2db168f79b3c4;0x41a8de3b38af2;0x93e02afb44280;0xdb3c6b75566d4;0x4185b6800e3b8;0x6bab6708d566;0x8a2aa4661a7];[0x0;0x2c3dd6c02f28b;0x6b42a4bfa0d75;0x92d920f062c5a;0x66c5fb1646bd0;0x7cd5d43d7a396;0x61d91a6c35748;0x9dafbe06ac23c;0x847003153b96;0x817a4c097f5d7;0x93a2b945702];[0x0;0x4f40465017d4c;0x8c405ad6d3d95;0xee68130eab4ad;0x393d333083649;0xa8a4f1ba094ff;0x86e9d094dc18e;0x89ce32334eb71;0xc8b35ac343ad3;0xd108c1834a9e9;0x71ef700e583];[0x0;0x6968d141cb312;0xe76f2ab59cc85;0xf2ba14912f6c;0x72a6c4d3bb8fd;0xea13790106006;0xa43a70ef7c27e;0x590238d53813e;0x9168c4cd1e590;0x4dea553acabc9;0xabaaedf9c444c]]);
 ((V [0xef225edd2a9e3;0xf592ddd2beb89;0xb5ba028723324;0x7693843033a1b;0xb126d592fde1f;0xed861e33d003;0x930152331d5eb;0x81bb08c1cc35b;0x492a34d24ef7;0xc498873d995] [0xfd07e759c0e95;0x617a2c0b28023;0x2700ecaf93df4;0x9ca5d4a6c4827;0xc5c9fddb8d737;0x2e8803e60298a;0xbcee65fcb78d0;0xefc7982fc02aa;0x70a661ba86d3;0xc99f84851cc]),[[0xd223f77c00b5f;0xa290a785d401f;0x55173b7e89204;0x8182d1a9e3939;0x8e0119ba2fd13;0x364acccdf3008;0x82d798b822403;0xe6b8d7efe3978;0x27010be1cda6b;0x96810fcd647];[0x8a86bc9f995cc;0xf3c14eeb39860;0xb36576ed786df;0x315ae645dc53d;0xc3f278327e3ba;0xf371bdddc4382;0x5b14233829e32;0xbd965bbcdf1e;0x9343a27d8640f;0xa34fbacf5b4];[0x0;0x3b7833f0d7d5b;0xb1956b680da43;0x6834bdb2128ec;0xa8b7d3d93f020;0x5500baa4ce5a6;0xef2c756136fc6;0x68dc690c34824;0xf25500cefcdd8;0x2d5198c724b57;0x2b483a0f9c6];[0x0;0x9c775afa3c54;0xd96417b69af59;0x18735f95eabce;0x4071373e8dce4;0x18ed108d06621;0xa77c119932df9;0x1a5b2f6cf1171;0x76feb997e971b;0x861f0cf2fc131;0x3342d3915b1];[0x0;0x57d3ec840ddfc;0x6cb608569ae0c;0x95daf965ba0cf;0x5228688031b5d;0x5a800b963b89f;0xd4034bfe44661;0x955c6dc2e0d08;0x836c1cf850135;0xf0d37ff7c74d7;0x587b7f959fa];[0x0;0x983dd2e9e893c;0x5b3388edf576c;0xa0e1592b3988e;0x19691d2fd67c4;0xa2551f8b83516;0x3f400da00f9f2;0x11d91e6b6780c;0x496edb8a05968;0x5d0998dbd093c;0x96e1ded856471]]);
 ((V [0x63e38370db0c2;0x772dfa2fce725;0x8ba30fe32306b;0x53af0922c89a0;0x6b8b07ec12c6f;0x4e50e3676f043;0x466fd2988f5d6;0x6e9a831e7824f;0xa5a00e84ff6fd;0x53d6cbf5f88] [0x92b63e93f3525;0x4c39de3e07ffb;0x2422869840ac6;0x38dbf43f97f77;0x93ef9b5464eb2;0x27bb41aef4d91;0xa28baaacec8fc;0xc68f2b573ec3d;0x4156d5e68278a;0x2a02e632f99]),[[0x7bc608af71cc5;0x9ce100fdabde5;0x633a2ccf7b28a;0x5b90fd49c505e;0x8d08bdf774d82;0x9bc9a9f4b1527;0x841540da79cdc;0x523b18c4a9ade;0xc3323e361e91b;0xbf748aca];[0xd0225d32ded24;0x23fe73c321276;0x141e379f666fe;0xaa515b75bf2cb;0xca6a696d8abb4;0x36f37185529d2;0xcbf6731869adf;0xe594c5acf357a;0x3930e5e9c97ee;0xac2df709283];[0x0;0x8eb4d3699e0b3;0x65a1e03841fd6;0xf471ccb7328df;0xf8f9a42a75c74;0x60283f24c20cf;0xc29379a3596b8;0x8841317c90f76;0x2809f34c1e72;0xb05e49c3f351e;0x96f9e9f7335];[0x0;0x7594e7f9282ce;0xa07fa532a0cc1;0x6b0fda3a51921;0x296dce6fd5798;0x5edc6f5ef4955;0xed2b9e201ef22;0xd7ea619ba7e29;0xe1fb16c8f6fa6;0x179e03c04731b;0x12d939aee];[0x0;0x5ce72d313f067;0x614f27cd2d53c;0xfc9240b1dcd64;0xed7a8e39b9865;0xc39c432167eb8;0x56e3cd1ce7725;0x4c580b69e9729;0xdb3b578f58c35;0xc28a2451967ed;0x8f2f1];[0x0;0x1691bc26c99c2;0xfe8b7394ac700;0xa437a1f0c22a;0xad10fd5944c08;0x79b7a599b758e;0x62eca8b574abc;0xc5e3f37ebb755;0x4b4813afa292e;0xa511895351a;0xc088533533]]);
 ((V [0xd40f916147d77;0x8dd6cd358eaed;0xefbdf4dd8d3a5;0x913f7dee81702;0xe59dfd9de7d00;0x582544fb436c1;0xa2ccf38c990f5;0x99b4c0420f165;0x2448c4d76f5f2;0x6dcf0eb7d48] [0xe6afcac8a4669;0xabbd0fff10318;0x445b7b9475787;0x455bb95326cb2;0x6dc1d6bd5a213;0x146f0e2a647a7;0x6420a9c991ede;0xb6f89cbb52905;0x4d1366ba643ea;0x2d350893771]),[[0x4cb3f7b110220;0xfff6296baf1d1;0x5e3dbc15d9569;0x1948203b289dd;0x9221c100d6f03;0x53162ad7c97b;0x73a3c5883894f;0x2dd57b323a360;0x314ae43fbc41c;0xbe12732fffa];[0xa9f9e93ab9b70;0x12b8632579219;0x12b58eb50f5a7;0x307ea01b38176;0x45dd7b32f4450;0x384fa78fc6fff;0x3d35292348bbf;0xc22dacd4e3582;0x794ac361023d3;0xf369185a755];[0x0;0x6dca765229bcc;0x28cc235f5fa91;0xf6671580c5ad2;0x738ba41c89032;0xc84fd999781fa;0xd0f0ce783f128;0x62ab7b03d32c1;0xaaebd1f2148bf;0x5422c25024f2b;0x1b74fc7b20e];[0x0;0xc93147fb17974;0x3b095b3665fd;0x1a3ac4cb560c8;0x23da76d5096e1;0x75bc9300af20d;0x5d4a3a0e6a41;0xb272195ac8d24;0x26c9fdc170187;0xc88a8637be26b;0x3e625bea656];[0x0;0x52db588fdb6d3;0x228d9ef5400d2;0x424be1f008267;0x7561f52b296cf;0x33d95ba96389c;0xbf9ffe06d3f2a;0x612e0f4b6439c;0x13a87cf634ad2;0xa2e4df727baa9;0x8d1f644fa60];[0x0;0xb8ebdf4f027be;0xa4c96c39ba7e1;0x1e060e5d8fbcb;0xb914bba934d6a;0x938736b68b421;0x55e725329a215;0x9123c75d4c021;0xd87f18855db2f;0x41e5ddd9a1a14;0xbebd3d827fab5]]);
 ((V [0xebaaa5200f9ad;0xc5940d7ed36c1;0x3b116f439614b;0xcde079c372e79;0x9bd8dfdb0e800;0xee84b6703fa8e;0x71bdf4be51bc;0x3c372bfd0c762;0x6a4cc8da8e155;0xfcf3f59aad6] [0x5bc3cd1603956;0x31a41e47435ec;0x696bc477277af;0x823c10db10c94;0x1708b018e1cd;0x59651b2782ab;0x7e1eead0691e9;0xbe64d92a64722;0x2f14f16905266;0x29a2b9a1350]),[[0xa40efd6e5493e;0x2842b1472d0f9;0xa5ec18a32dd44;0xb74a1806e9d18;0xdd933a5089477;0x9a9b5bd6eda32;0x36f5a3da9f704;0xaf51fa9a7382f;0xc0732f5f431ef;0x9bd910ab3e3];[0x8f2d4805096ae;0xd2b085df12160;0x1418208dbadad;0x28ef219e37da;0x21c48ff9f3657;0x650062333bfc7;0x4065786d0ed65;0x2398e95d1da7f;0xafd9aa02253ba;0x249389791bc];[0x0;0xa6203a8cf1045;0xdddeb193189f0;0xdb52044ec9e2c;0x1c3dca00fb24c;0x3bf0a7fd58a33;0xa5a5085287c33;0xb44690fb2ebf7;0x295931e64e4da;0x9384a1701f0b4;0x2f19fa01591];[0x0;0x8be5a3a49c482;0x8bc3478d5a5df;0x95ef0ac1e87ab;0x50bd5b2a05241;0x9427514208f3;0xfffa3f068a227;0x461202c0bfabd;0x9a93c88930ce1;0x9de149d6f34a1;0x370ae22e381];[0x0;0x7edb4e147aa4f;0x2936e12b71a08;0x253818cb5356f;0xf7766c6167f86;0xeb1855e40a36d;0xef6388b7017c4;0x11b79b773cf68;0x105690d034425;0x20ccf9e73cad8;0x5ee0923ca0c];[0x0;0xc04a5e73bfca9;0x372343c1bfe8d;0x2b83ecc6da5c5;0xc7bea5ad6a973;0x9ab6cee7c602a;0xf6d57606c7ecb;0xc6d2aeaef7f8c;0xc8ef7380cf6c8;0x6329fb782e1b9;0x9c1dc504845bc]]);
 ((V [0x11584f0f4a67f;0xa5a247c87c404;0x7f3cb84def2db;0xe3558f5e9d84;0xa9b11aecfb449;0xae481cb7f682d;0xd405755fb9401;0xc59c8843a93bc;0x3f8d103411969;0xd2f5c984c23] [0x1b9c4399d279d;0xc86348a3faf28;0xe51453af2a07;0x650ddc731c1ce;0xcc8c0014d40a7;0x6e0daee9e8a21;0xf45c509e95acb;0xaafa96e8e7a83;0x29d15b35b004;0x8b4cbc96f43]),[[0xf01f4fc4fb94f;0xf1cec1af6769b;0xeef4563ce8e39;0x50c87d49f99f3;0xb3e83bf67bf1;0x26134ade3d244;0x872d55e90f44c;0xddd0a52a7fb8e;0x4f8258c3d69c1;0x156026ce5b4];[0x7aea70d4b444b;0x889ffbaeb766;0xf880239ff0f57;0x4a4442cc9f67e;0x3dc12c64517fc;0x3a7d4f6ec5f7d;0x9ae50ff460c18;0x81a1e9abaecd6;0x694d2825e27bd;0xa3c49697c23];[0x0;0x891cd216a8872;0xe8a221da37bf;0x292a71380dd59;0x187a0242724b8;0xf8d7984d8f645;0xfb235c4dc621;0x878c173dc1887;0x79670b38f70fd;0x8b2ab1f9b1b5f;0xf9f13404b4a];[0x0;0xa901f509b0419;0x29032e3a575d3;0xe6bb570521326;0xd9c63915e642;0xb7936cd0dc293;0xe8782a374b3b;0xfc7770ace8fca;0x980f798490d4b;0x8f81cdd08a526;0x6f3f91f1a4];[0x0;0x6794f016b8f38;0x4617fdd85fe92;0x6eab03806ef52;0xe07c816e97523;0xaf79aeef7271c;0xb059d1057327a;0x59b901da4f31f;0x843548789bd22;0xfaddfc25fde78;0x1c8ea7afb9];[0x0;0xdcb46b1d28a18;0x9940d3d1fc48d;0x145b3c3d66ad0;0xea62f3a3198c1;0x91b1528833b3d;0xf1d1a4b9dcea1;0x8127c6fd719c0;0x778e9e04bdb14;0xbdd3e96837b87;0x157908947588c]]);
 ((V [0xddb8e513a347d;0x441ec27f1f828;0xcc8d47d64bcf8;0x7ce815d9e23ad;0xfbe504df8d303;0x96405c0752538;0x9c0afeb811d76;0x3e29d6e6cd59f;0xa72498d6b3cd0;0xa4f348ba7f2] [0x66f2e48ebb729;0x24d82d8b6cd0f;0x83f0cc908d630;0x8e887efb85ef4;0x999008381de33;0xd3a0803bdcc74;0x64e8dd2ed6ebe;0x317a0c231053a;0x6935480fc40a;0xb310da264ed]),[[0x905c0e05b29f3;0x26147100a380f;0x2eec15c4e88ba;0xbec4ca6ce9673;0x585804777c9db;0x9a9365560db9b;0x84406a651d3ef;0x2dc14a7f2ae01;0x2bee9d1ee82a6;0x9176b452906];[0x8bad06961626a;0x96696e1ccefa8;0xb85a469a8ef78;0x4bf3cd034b8d;0xe18a57f831d26;0xb0a585300def4;0xec0e2aea14c41;0xac10a56786e5;0x3e75b6b556eca;0xbc75f70014];[0x0;0xd7947793e16b1;0x8e8f9fbbe3fb3;0x2a6da3d65c8b3;0x3c0ce7d2e543f;0xafe0926cfe300;0xfc8a290a69ec8;0xe5a08566f13fc;0x9fbef1f84bc7c;0xab97f9f0aa69d;0xadd82a99255];[0x0;0x8b646993e4e94;0x4175a12418d2f;0x491cfa519ce6c;0xeb1b9cb263f29;0x4266e8a1e2878;0x32a15126f5bc7;0xfe59cfbd3d1b5;0xf0cbd5afff3b2;0x68e8c745b773c;0x9e4e1c9e9f4];[0x0;0xf8932f04c4362;0x9a3883d4c76f5;0x6dd33310aa99e;0x22fbb11658d8a;0xb15a4262b9a56;0xe6b62d1e5862c;0x996dc54ee554c;0x5b1d7e26b1583;0x12cf88c8811c0;0x52a7af5042b];[0x0;0xfd10ee42098d3;0x7297f76be485c;0xb11b33f0ff02f;0x405ee805c4d5;0x95e18ed69c5f3;0xab205732f7d53;0xf4a3c4fe9bd3f;0x78d0aee7662c3;0x393f59cff35b6;0x92224fc76579a]]);
 ((V [0xff8561c5a4799;0x83397daa8aad1;0xac597fdbbc7ae;0xc3f0bc042b04;0xee7e7de1e4d7a;0x1c0ce960bedb0;0x5939586e7f228;0xb779e68a53fa4;0x289000fcd1476;0x40df15d87a] [0xf8ce6c1d0975a;0xbe28d2e81a9a6;0x73c35a8ee8228;0xfba16393d9d01;0x9e1b5e15578ec;0x9d15f1dcef12e;0xfc9dbd082cb98;0x5fd9f7ae9fb65;0x651798d69e32c;0x2bf2bcd9dd2]),[[0x8503ca4746d0a;0xc29d1d66338d7;0x738e1ff41b5e6;0xfc46a3472394c;0xca7000d620760;0x95f793da8bd4a;0xbf1b458963957;0x2a3688d2c6d3f;0xe741ceb629231;0xa63c306f93];[0x8b568916d459b;0x3a19c9061f377;0x2a8421dead573;0x89691678b297c;0x209e1cd2cb0a7;0xd7c1282606041;0x9504c974aff7e;0x281e764b78474;0x1d60fc32d547a;0xc5de9b7b1c9];[0x0;0xeeec7e3f19d22;0x92833d00d9e7f;0xc8bdad8450f58;0x96413543d3d22;0x7ad320f1e1346;0x33bdbfd9333aa;0x8b18c2c1f8ded;0xc27d84f398669;0x53c681df6765c;0x6a489c6219a];[0x0;0xb3a3da3a90c69;0x111117523164c;0x8b7be688c1c1;0x69c3f33ceddba;0x2b43912b7194f;0xcf1d23fb40fd;0xf4d8289e8709a;0xe46d6488d962a;0x7fa3ea56ff121;0xe88e0e9259];[0x0;0xeac4abb9581a7;0x1ee016a25b0ee;0x121fedb08dc1b;0x6d068ebf4a441;0x1de1364be4616;0x1dd9bf6146b79;0xc5d7c389ff507;0xd13aa63377f70;0x14745d73dceb8;0x6bf21cf77];[0x0;0x3360b4260417d;0x646bb319d77c4;0x7fd5d9b49e942;0x6e79a04cf15c2;0x8883d76f9577c;0x8aee657d08459;0xb7aec365e72c1;0x3b1b1133f076;0x3c8ed660e4588;0xa74ae72adb5e]]);
 ((V [0x68581514cd4c1;0xacf33b69663a1;0x3b1dab6b064d2;0x24883ca8cbeab;0x281bd0f36d404;0x3bb2217d243c1;0x7ecdc13330271;0x515f2081db8fa;0xf958ef0830248;0x92fd8e5c5ba] [0x37becbf15c8bb;0x317e9dbcf23f3;0x7819fd07b20da;0xbf4146e0b3765;0x75a71dc9dd6b4;0x732a50a7ee25e;0x9c503cc424548;0x4139650a3b936;0x3c8fb3d1f4573;0x6ec9de3e508]),[[0xcc9b0b2a36a1a;0xa0d812985e0c1;0xbaddbeeea491f;0xd7915dc8014e5;0x893f82a893450;0xc2da08393c299;0x5a7de1949e40a;0xbc9f158f28373;0x88cf8fb0ef524;0x905f5ec09af];[0x97e3646dae043;0x711c37e4b091f;0x14e8b6194f0f9;0x3e70f9c8b4507;0x8eedce3c4cac;0x1ac79146824c;0x3953e39cb9944;0x6c4b470dbffc4;0x4ef265d50332b;0x241cb767420];[0x0;0xf9e67711a3562;0x45247f02ff313;0x1f5bd3874560d;0x6de77a2c383ba;0xac1eb66c1f1ab;0xd05f64aa5ea45;0xb3be2905b17c;0x236231572bf1d;0xe1655c4667ef3;0x10704d534];[0x0;0xf656df679966d;0x91c400f256ef5;0x82e793f49b993;0xbc661bd645abb;0x515eae7f01aff;0x78be301739a69;0xe8cdf8b739a;0xff6c7ad9d3c95;0xde53813db73a3;0x3191d325a67];[0x0;0x19329326f17c7;0x58b14a595afab;0xb4deb25372a94;0x2b03e3d4fd74e;0x9336882e67f60;0x2a94f1e44d3d4;0x2d6c4dda9a881;0xd603589db961c;0xca5c8156571a7;0x516b6e20245];[0x0;0xd94f77518f767;0x68d694d173248;0x99459fb2d90f5;0xaae5907dd5477;0x3b70f11cfebc;0xd6cd8eada3ca7;0x7e1dafc053f5a;0xed61b2c61000d;0xb41c8bd9c7cfd;0x909f22173973c]]);
 ((V [0x3c6b4d1ca8117;0xd84784c7e8fcd;0x4647e38bbe04;0xbd3ec21a0a637;0x83099b97f5994;0x9582efb80eca8;0x80ed7f907d315;0x883bd3a3bca12;0x5a0dd73145a1c;0x52e310c570] [0x6dc12dc0077eb;0x8459935680e07;0xff5a51075140d;0x43a3ae13b2b3c;0xd0b70f421be91;0xa459bbb1fe6f5;0xb57a5d4e48133;0xb3fae70f02b87;0x5e45c14fabe6d;0xe7f2672ea6d]),[[0x3517bd9d3eacb;0x55501e092ae73;0x4adcd0dca2a87;0x3152f60952680;0x4697a0d9b0df1;0x1f77667e0da01;0x49e0468263d0d;0xeed772d056ba2;0x25d9999a94bcd;0x5bc6d242dcb];[0xc144a0a6da516;0xf86c0cd5863a0;0x8e7caeb7f8f70;0x83e4bf2a73beb;0xf9730fab0cd99;0x76640925fcd6b;0x8c782b8c80433;0xc5a922bfc715e;0x42848da110d53;0xbaeb6b1d2b5];[0x0;0xbb98cdcdc043d;0xbc1b24bc51208;0xfa79ae9452d64;0xb0a2aafb43e9f;0xcc41ed3c1e6c7;0xf78848e7e6856;0x1d5f658bdf5f9;0xa43cdfdf2038c;0xc16ad77d12fdc;0x546631840a4];[0x0;0x312558f38ec14;0x1e0e548dcb6ff;0x85073a71061ef;0xe40e7539cb366;0x7e6a255c7a373;0xb26e35d7dfd96;0x9befb7fc7134f;0xed783984eec6c;0xc68af0295d30b;0x4f6f9a41255];[0x0;0x11ef294a95aa0;0x67c97acf9c329;0x2577adc91214d;0x560bc3797ae8a;0xfed5ab2a6d9b3;0x868807a02c546;0x8e2312f52225e;0xf1f13273bdf1f;0x5f5ff28a35e38;0x20e6f3e5750];[0x0;0x8e07c7e318163;0x7d4a248f9454b;0x8d5751191e775;0xc33df3c90cf74;0xb545d09df232e;0xd79ad43e72a29;0x14a322c261c0;0xf81da28fa9e22;0xeb14f4af5fb61;0x5c556fee2650d]]);
 ((V [0xdca64f1bcf713;0x492afe3c07b8e;0x765abcb9df0ad;0x67fcb103b52e1;0x8ce54c8c47fde;0xca95ff7c00702;0x5f4cbb231cbb5;0x348e7baa5e94;0x411f235203a52;0x58aca9c34bd] [0x414c6f9e18c77;0xac5f9596fabdd;0x1e367de7983f8;0x309e2aa442488;0xb91067b9f67ae;0xc1ec57ce8430e;0x9dd65363cd06c;0x6750d26959b46;0xc1707af553c73;0xdf3e4c366a3]),[[0x63e9c1ea45dd7;0x8923e7334d43;0x3d5e881600a33;0x8db23cc451bdf;0xa885a1e71d681;0xb56ba300ce6a8;0x5c0ee83187c46;0x7812d03aa82d7;0x503e8c6277433;0xdf659971851];[0xe8ee76af33d50;0xbe7998bd72545;0xaaaece74e8a92;0xa9c1b136d5dc4;0x2cbac3a7dc507;0x85ac47249440c;0x581a9ab63c816;0x3563e72c0afec;0x1b36cb702352e;0x70c1f57ca4a];[0x0;0xdc189f0a72b37;0xe7cbfa113abd8;0x21350d9b937f0;0x7aad5da49f2a0;0xc14f21ab81bbc;0x2fdc0102c6c5f;0x15bbf3ce057be;0x45ee8e0c600f2;0xb3836e3c4d51c;0x1ad640253];[0x0;0x95a97347c1aca;0xda5c8f99e3b14;0xd439b0d638915;0x241d6ade87d4d;0x45a24037d66d;0xfe01016d096f;0x45e2643235e08;0xb700d93f2c213;0x5174a74d940da;0x194d06b1625f];[0x0;0xfd4c35fc0c430;0x22fa17ca9f214;0xa163da552a4c1;0x555836534f4ed;0x9c83355da9541;0x6ea7842cbc603;0x735422b26970f;0xf5ac6a18359bf;0x682ce7f4d9fb6;0xc2f229a6356];[0x0;0xdfb0bc93edc0d;0x5420d6ded19fb;0xdcd36c42daba8;0x7328325f6b644;0x4ccf40e38d317;0x300231472eb96;0xa3798bbf7440d;0x6c2806daea169;0xa524c6fd3dea7;0xdffc22bcddfe4]]);
 ((V [0x660497f3f8a09;0x9a0d30e5bd170;0x2fc779fe7a0b8;0xe441ad68f5a2c;0x7cbe81e74bbac;0x2b8859f6f6996;0xf458f477b7a0a;0xa60a38fb4b2eb;0x37b00530e28b7;0x53bc5e8d8a3] [0x9becb72068ae6;0x7438c4bc12587;0x8f8ef60a5f5c4;0xde6ec4dada2bb;0xd07a2d60800cb;0x4d2ddaef1ed;0xf2fd8e9f0e139;0x2b51e668dcd6f;0xa9e27c5529381;0x438c1857e9f]),[[0x14be30c5c5b56;0x180b9477e4a22;0xf412faa94bfcb;0x157a2e805662e;0x61d01e58193b9;0xc835a1958610;0x17288a1ceb9a4;0x743d483b3d546;0xa3519e4ef7405;0x856e4096633];[0x8a21f1574715e;0x733dbc72e0852;0x555fc51af24fa;0x8f73c4e83624;0x281adf9455ec7;0xc27d0fc8e307a;0xd5e63ce77f431;0x2f9dcea24b7d6;0xef880d46ed95a;0x35dc258c122];[0x0;0x31546e7ecb19d;0x29cd5bfde779d;0x4d7c2792d7140;0x518fd8e6f352f;0xc9c51b5953451;0x28d21e9ff95df;0x32eb2d6a7c2de;0xe21a9a52615a7;0x320693d389eb9;0x1eb7292ad32];[0x0;0x7ceea45b08f3a;0xbac4e1a93e60f;0x9c47f69343a22;0x9da7922c1163e;0x32f2900d71188;0xb743ae2b5ae81;0x790f8846be097;0x281162d1402d7;0x1f43de48cb2d1;0xe8b7055f795];[0x0;0x6f1833abc35a3;0xad988294fe66;0xdddb5a1464862;0xa1527f0b24866;0x9b80bc88ff8be;0xdd7e1df555dbd;0x952fdf9d780e5;0x83e6ede0f07b0;0x34b28135acb73;0x458bbe97d4a];[0x0;0x11bf10769255f;0x5ba15e9f74046;0x70a63761dfef4;0xe9116c99ddad6;0xf8f71e656011;0xc252065544da;0xfee2bc5829974;0x6917c327c7e2e;0x47ee0081dfe48;0x85f641ce8bd5a]]);
 ((V [0x7f4c04856c0bb;0xd0bec305cb1da;0x7ff31f0da46df;0xa87c30000f4ec;0x68e6f94020e77;0xb286cf452d4e1;0x14e1792d1ad88;0x42b007f7032da;0x4e96494432eea;0xfcf82bba023] [0x7cc4ed1c1d2d1;0xadf0a8b0d872c;0x6b570861ca032;0xb2c6299494ea3;0x90df7a511ccf5;0x404c9dcbafd89;0x3d1ca5addb4b7;0xe48c682b22665;0x39ae7f4eb75a2;0xbe1cbb84246]),[[0x872b631699878;0x485a41fa317a4;0x143735d87a163;0x6c44faba074d8;0xaad33d8a3f9f1;0x1ba0d7742740a;0x9ef30555bf9d5;0x612333093bd53;0x4765b6c4ddc79;0xa33c642ace1];[0xba04a7b92f2be;0xb469e95076e47;0x65b80941700d8;0xa9d82d35481f8;0x2c595783edcaf;0x6406bf61c526e;0xcfbaed7891864;0x2626318946074;0x973f7934a5ef7;0x6d7fabc436d];[0x0;0xdbe55ad5c8dd5;0x19d23f8b62ea8;0x19d2eef929ea9;0x4298384af4ca6;0x2db81c3f7196b;0x9997c1c18bc7a;0x2f6333319b01f;0x5dabe38cfb33e;0xc9d1e33fa7183;0x1b63afeaca6];[0x0;0x3e9853fcb594e;0x2821b90cc8562;0x7a800da50f0cd;0x8d4c1e476b4a7;0x9a2fc74877d54;0x4a6b518954c1c;0x3a58df4dcfe1b;0xa7a3cfa7ad7b5;0x7c20c093428ce;0x5624458766e];[0x0;0x610d9350cdcf5;0x314f6a2f2ddd4;0x4e9899cf195bd;0x56bad3542a9b5;0x323732c285466;0x66c47078f697f;0xaaf178f8466de;0x1fb22ab0cda9c;0x207827d91dfc;0x6815f5cd9db];[0x0;0xbadf5e035ded7;0x96533109d50dd;0xb3c00235a210;0x792f3c573ad33;0x23f94aa57535a;0x621f5d0035fc2;0xc3f1744eb1b2;0xb51d207e9cda3;0x519f7f5535c33;0xa373b78f19d38]]);
 ((V [0xd83ad017138c8;0x9458f66904e63;0xe104022e78687;0x8871aeba25971;0x714e374629a9;0xa1bd121830dac;0xca0138aaf4714;0xf60d93886b606;0x6651cb6821160;0x1e6e8e3ad16] [0xf49f50367a65;0x7fe6911455643;0x9f2bcf21a84f6;0x89420bb7f1b25;0x463a973c5682;0xc84978925e4e8;0x49bd3221b0746;0xdc4b27302e3da;0xf9dd4106739bc;0xc5d37ac0df7]),[[0x725855264234;0xc5f49727a0f5d;0x495da3c05c4df;0x7bb425c31b333;0xc64635aa4f238;0x7611e58693084;0x6100b081132f5;0x19e34c9268405;0xec379a581d971;0x205eaa12359];[0xd8aa7d97a7822;0x6b02e41dca7e9;0xd7f6d65f0f48b;0x28ef55aecacbe;0x41fa0f7fcbfcc;0x6009170ef361;0xef98aa6d5e277;0x82602d19287f9;0x22b4956db79b4;0x700b46081f0];[0x0;0xdc5fd74cc97d1;0xa34371aa86189;0x733664ec8e02d;0xbd0b02c12bc87;0xf2b6f87416211;0x82587cb08d27e;0x7e84cf4b02ac9;0x548428faf5473;0x475e732135513;0xf9f986aaf43];[0x0;0x399d5f68f7f52;0xaed62520243c0;0xc4eb893eaa98c;0x408ded59b6913;0xbb301c4f19f00;0xd25afa9e6ccc1;0x92bfdbca249d2;0xafc94b11c44df;0xd3239c825354d;0x3013c893f2d];[0x0;0x6bbb0b3a8851e;0xfbe7736d17208;0x81007e17f8fa5;0x4573c4bd68b9e;0x7e8691667bc8e;0x189df0e6f01c0;0xc99dd584f0a2e;0xee873c9d48946;0x341f867e22e09;0x417cd85e3c];[0x0;0x3e86ef12586de;0x1aca0c60e7223;0xa8d9f4fbd78cb;0xf629ef578df40;0x878ea2bd843ea;0xb85313a7ffd17;0x592791514f68a;0x94fbdb8d9224;0x34e6351a879;0x209b2c3a56c61]]);
 ((V [0x98bf5c60d8975;0x43d7497f5ee90;0x28aae33f93517;0xb8bd32738dcb4;0x11c760d82a0e1;0xc5346c8ba4359;0x86be531de7870;0x962529aef38c;0x6b1f5e0c1507;0x435f0f2aa48] [0xfabba621b7e6c;0xf6b743c5ea3db;0x5c85e0313bb34;0x607a1e38fd71c;0x3187074d5be8;0x9b4f27d3ae2e6;0xe4bd87d46014a;0x3231483f43e5d;0x37dc5613b548f;0x1fa49756f4e]),[[0xfad2180ab768f;0x2ac882a30987f;0x334ba814a0895;0x26e7aa94cce40;0xbc48d918b19d3;0x989dfb250b9c7;0xb4a5cd23b7441;0x35bc08c486019;0xbed8d82f71dc2;0x42a36ba34b3];[0x5c93daf05ef02;0x3a0172effb1ad;0xdd6838cf927dd;0xb2011bb07b17a;0xa69bd5f44f210;0xf1fe2c38ce2c3;0xb415513ce01a8;0x285dccc7d0a16;0xdd4216b941048;0x7f724c8adbe];[0x0;0x6d561d0bc00d2;0x51993a1fb252b;0x5bb8d4de745f4;0x35565e5ac0caf;0x4701c57f90dab;0xfb06c4b594e30;0x120dd46403694;0x44078e668b86d;0x54182c54d5962;0x39e191452a];[0x0;0xbbb63b121f194;0xb80b891d1c528;0x8c378bbca67d9;0xf63f4d7f5aaae;0xe23cc5410d9bc;0x6c24abda0ed53;0x621af246989fd;0x68880c7343e47;0xc7ee17d773552;0x66fd9cf4ed0];[0x0;0x1c7ae95e74044;0x5b4f735c6a601;0xb07749a23aa31;0xe06a9d1cf85bd;0x457ae792fbdff;0xd544fbb8d5e46;0x6664faf0041f0;0xa8fc1c42b3742;0xe9dda76bd2aef;0x1158abd271f];[0x0;0xeb94de49478a3;0xddb5b520be710;0x63d8fc19b9c19;0x3842db7db0be7;0x81e8579b45f9a;0x42506c0bcf1db;0x40b016b0dddeb;0x75d665688a4f6;0x7ea87a0449355;0x42dc717906842]]);
 ((V [0x9295b5e12f706;0x94c87b351c4ef;0x5906e002a6510;0xee26a04cac6e7;0x35144ae2a7365;0x6ff32ea5a7af9;0x6848971731c84;0xbfcbff9728f9e;0xa1168fce4d293;0xe9cbed1ac95] [0x157591e38e045;0x9d41164bc38b;0x2994c32a5e6bc;0xa516405af7649;0x95fd8f31997e8;0x67748489d949e;0x9cc69deac45df;0x3b48f996e4d10;0xde32c3b509a8c;0x32404e51dbe]),[[0xb66a07b5bf81;0x1159a46a9bbad;0x7a525ba3d7d21;0xda3cb09f9cf55;0xed05bf53d3a1d;0x4f76f389f4e62;0xd687fc89356c1;0x32f00d0e085be;0x70777847f7d87;0x3d881da5461];[0x8386c3ed25973;0x385374214fbf5;0x25b94e1decbe1;0x225b9ec92051b;0x722b3b963c76c;0x3f2a436d8f291;0x6268673c616b2;0xf466c517b801a;0xf971e5a25a3a;0x3c201eb6765];[0x0;0x417000f4d71ca;0x4566223b42aca;0x96276ab01e061;0xd27150fa6a6d7;0x88e1c98db8e70;0x2bfaf87bff0dd;0xda519bf5a6871;0xd40eb1b1043b;0x755c35ce7bcf5;0x11bae53c94a];[0x0;0x2dbffe993bf6d;0x39e606f076e7d;0x79d4da6ec84a7;0xcff743d4966d2;0x9b9f428743ceb;0xc9cb23e97151b;0xdc35c141b4bd9;0x8183a5b49d710;0x1196835658c19;0xf36165462e];[0x0;0xb324ce8d49667;0x1af899b2932f8;0x228fe114be6cc;0x70f5174867e01;0x3559d6ba81ae1;0xf324b33239cc5;0x27d5d6b259f45;0x30dc3fb28568f;0x4e9b88b2d785;0xeca2680467];[0x0;0x201f1c4ebba53;0xc36109c669cef;0x13cf94de573d6;0xb1e2211b80874;0xa3715baed7932;0x2f6a269e00b1b;0x3b17b8f7fa083;0xd8cdf041cbfa9;0x311757271e542;0x3d9da554ed75e]]);
 ((V [0x8988679604516;0x2fc602385074c;0x2d4cf7df56b03;0xa65361d878a9c;0x8ea30cb4efed0;0xe60bee174eefb;0x4523b0cfdaa19;0xd1e896b313501;0xb6889cfddfad4;0x6a012c39e45] [0xd8fce25438e87;0x35297de0d1825;0x76ed19cf0c946;0xa327b8fb6112a;0x14f7dada7885;0x376e675cdcf93;0x71eab7d9433be;0xbd446746b9ff7;0x7f4e3f063840;0xee77934fc9f]),[[0xc414a06f505d6;0xd4b212a6322e6;0xc679dc6ad4e01;0xcc8dd5e0a5a26;0x5fcb03c1e9022;0xd9c554256ccf3;0xe51a70b9aea3b;0x635b023d81229;0xb06cf3699f4b9;0xf95d2a50f6];[0x21be26c8e4d5c;0x6c01456cf7204;0xdbb854a46f153;0xf02ada7956a;0xdedf4e0019f1d;0xf1e2e9c1c9eb9;0xe8c89c7d67b0d;0x35885beb03ed8;0x125bf75ae588c;0x7e8438ff848];[0x0;0x9db64b16c22f8;0xbff340ef54cd8;0x4e323df99f661;0xb395d5ed46f0c;0xf2f777dea81b1;0x643d6eb9eeaea;0x3ee8847af5484;0x11f41c2019c6e;0xbe42701c016d1;0xd584d80ca69];[0x0;0xa451b8a22145c;0xdafe708dad3d9;0x5a6705846bd9e;0x15980985a688f;0x36bcbb7cc3f68;0x40d388d436721;0xc3124e0d639bf;0x74cd48f16169a;0xb37cd719b06c;0x61e5abb108];[0x0;0x24cb27e6dae2e;0x6ab35fd31bf84;0x794cee4cce12b;0xafc24e047b632;0xcb17fc37068b0;0x64fdce1d2c6f1;0x8a1ca47715d62;0x8b33fdd8106da;0x5b51aadac0e20;0xf2e65e394];[0x0;0xa573c5c1ded62;0x31ddfddc7bacb;0x1d037b1a8d91d;0xa08679bd5f396;0x8ef0e19f835c1;0x34802705d472c;0x93726cd3ce28f;0x6f47dcd9e35f0;0xb2561a8e4b117;0xfad30232aa25]]);
 ((V [0x73dcfa4cc1f6e;0x58b4c7ed3a6b;0xa27e3dddda68e;0x9cea9b7533665;0x3c079cc5e0ed1;0xddf011f0b6ab;0x43e05089170d9;0x5ac3a6e614cdf;0xfc51ca1a6d641;0xa13bbb36edf] [0xef415076c2f66;0x91e95b1cd79be;0xf95b332b765bb;0x830c88c693e8d;0x70f165a6ad020;0x771892dbcb800;0x403a0d6076213;0x10cb97417ebab;0x32ee4a2d03cd7;0x11ae147dec3]),[[0x649d507f27b0e;0x495e719a077d8;0x2391751ed9a55;0x26b7724cf4750;0x55cd6dd46641d;0x6454ec146e36b;0x4bdb2590dd406;0xba9b2ef756702;0x71b831b63735e;0x50e911d32f5];[0xff18d41c81808;0xfb8ebe2634b0;0x6b19b7e5963e6;0xd9045c924fb4e;0xd429212f0a96f;0x3c2f0dab020ef;0x36311530bdf5b;0xbe929190ba9af;0xbc03dd85483df;0xd09af374d41];[0x0;0x1cd50fd1bbb44;0xb63d3a93abcad;0x68c7d30df4b7e;0xcd12b3320e308;0xaeae30f470603;0xb7a0374f63ed7;0x81559f69dc2a9;0x97e8d3ad024c;0x36edfd98e5320;0x2be4f8a1513];[0x0;0xd80fce905bdd8;0x20977f1614fb7;0xb26bc03e760f5;0xb017a8b192c55;0xeb27aa00b85b6;0xb36f5b71b58c8;0xcef6321c9138f;0xeb4c2c6c88c8e;0x386505e0884ca;0x96bcf2f1585];[0x0;0x6a40085996386;0xfab354d788b67;0xec420a73345bd;0x87ddead546e11;0x8207d5c7d3ccc;0x3deb8a8b2110f;0x44db1b78adbbf;0x6c737ba78441b;0x5842a9c5e0a3;0x19927f55714];[0x0;0x31206c5de51b3;0x77dbeb775c607;0x7745ba7e351af;0xa57c3ba6bb8fe;0xfa7fba4a9faba;0xd66eb7b4ddb2e;0xf2a1e9f67b642;0xcf8c877c03b2;0x847cefc511fce;0x512886502edc2]]);
 ((V [0x166e39ec8421f;0x72e7dacc48416;0xeb5d3a5320ec1;0xa9fa268c53140;0x8fa06c159b1be;0xf81b26c6a2591;0x8c9eb8e7f809;0x22f13e24e29bc;0xaf5c096696db0;0x4da4116ecc5] [0x6330cece03fc;0x48fc853e60340;0xec261cf987b36;0x7277de877d7d;0xc9c23f8f470f8;0x46d9c8c127099;0x999c0894430af;0x211b342c9e2e8;0xd60ce399c3d9f;0x506140d7178]),[[0x20f2299590933;0x7662150a9e397;0x5bf1aa88c5fb7;0xafa8429cae333;0xecbc0e447eaa0;0xd5ece748c47aa;0xf4b4cca35653b;0xc7605f7c359e4;0x48751eaeed3e0;0x289f94862a0];[0x9affec97615fc;0xe7e5fe063d22a;0x4feb879c493b;0xf241e091f3bf1;0xee0ace8442ca3;0x3ae19207363f0;0xefe91bb6ed5bf;0x5bf86ddb0ab1;0xe4bcb17b6f1bf;0x78f38eead92];[0x0;0x5ab89b532f878;0xbf69f17d1228a;0x89769eab8533;0x9aabf290d2811;0xdd90852614736;0x1418162146b3c;0xe9c7f6b4760ba;0x2fcdd35ad52af;0x6b54fcda8eb24;0x658c2f6aeb9];[0x0;0xf8b9d11f5a9b4;0x5ba3b6c73a17f;0x5090688ca6648;0x9953860991c7d;0x6dba25bddcf0c;0x6bd692667440d;0x8e40d227c938a;0x410f37d4d9b4d;0x832050659f37c;0x59c71289df];[0x0;0xedf1e98513f62;0x8f552b66a5fdc;0x14cc3bdacaeb6;0x2e4ee6a6eb983;0x73d7cc5048e52;0x8a67360b42f04;0x27853e8e7613b;0xe9b4b2605afc2;0x502cef14654c2;0x67241e3c1f];[0x0;0x1e20301633b00;0x6cd595135dce7;0x120321281a0f6;0x31b2a5066f13f;0xf557c635a2fb4;0xb4f650a4baf36;0xb64f1c4a8243f;0x40994ad59b9a6;0xd6d9e20b678d9;0x28d577e8e9645]]);
 ((V [0x32569774f7a45;0x251cb7da4ad38;0x17fb19922ce1f;0x46b78515e2f39;0x511192da031e;0xde895e61c38a3;0xa0432f7b9f752;0x9a975299674bc;0xd0306f0d0b33c;0xc71459ecb17] [0x6e76a54111d06;0x8eec5ae4c771e;0xedcc7209c64ea;0xacaea14366f7e;0xa6605e68e9b69;0x312c02923eb36;0xcc162bd17bb7d;0xec97b326f8318;0x85fbd5cd7cbbb;0x40ca0aa73bf]),[[0x2f16ac5c74453;0x63cdd9e1a91e4;0x5b646a4837cfc;0x759fdccc697f8;0x63600c6cb2f82;0x648795e909a32;0x57fc4cf0dfc20;0x70f05f324123d;0x50b5d519e9d9c;0xef848466013];[0x43e0f6dc1b6c7;0xb10e78f020e73;0x722b1dc4f411;0xd5413ef8a6241;0xc48224b971a67;0x581f24e96ae4f;0x24b071033c631;0x27a3767f97455;0x52322a353e90c;0x8366499a216];[0x0;0x38d08e9db3736;0x3d511eabee338;0x7b92ecdaa0d6b;0x9f5868aa7ef0;0xeaf3e59f527a8;0xbcd416dfdb19a;0x6e4f168f5809c;0x68e986357b26c;0x473790f2c0088;0x178c1ba2fe1];[0x0;0x66b2271b19e39;0x987a3ce3f073b;0x27325db20336c;0x92d70f4003b68;0x3d9ab9f2a00a3;0xba79be7e070a7;0xc77194a116727;0x563cb40d38cb9;0x9d226f1768d94;0x9668ce80d4e];[0x0;0x950e58adfe06a;0x706d0affc0d4d;0x7df418fc76608;0xb5acba080eb5e;0x392c60b1d93bf;0x876c381a5db0c;0x7a0db8fa1b55;0xb0ec66b467a42;0xba3cfa0a11579;0xe018b3cf43e];[0x0;0x26d4a73ea5f47;0x4326650cc806c;0x5606c23dd7f41;0xd97e182f39cad;0x71967b31db2f3;0x40ffef758607f;0xbdcff07f885f;0xbca7fe5e0552d;0xb1280f7908c8a;0xf0026a3a0603b]]);
 ((V [0x35748e95af7a5;0x4b2f5c492e8b3;0x848bef77ce0b;0xd378bddf7c3d4;0x177f28611cddb;0x3be32004c672d;0x75ae2e1ed546f;0x1a44748c6ae1d;0x6a6189733c187;0x329becb429] [0x1480da6b03a33;0x8a889198af81b;0x646e5983f92d2;0x72797a75f9482;0x2d35a4efbdd4e;0x6288350324cd5;0xad8a68dc60a9a;0xb9f1eb6f0c8cb;0x513064935d126;0x5e1f2e92463]),[[0x117fd86d1da8f;0x5da6ce5de50c9;0xd76de3a6adf4d;0x46f520351ad21;0x17fd21c20a64c;0xdf1ba40d89f33;0xb33b1379b4f7a;0x7cff41a91654;0xd943c98199fd2;0x16b8b459218];[0xb33d9aa5229da;0xc1cebb907e2f7;0xf523c222b358b;0x3209cb9884af5;0xc6c2272ff5c80;0xc6cd65b6931f1;0xcd4b40def61fc;0x7f065e843a1d8;0x6257fd5399e67;0xe5059c9d9dc];[0x0;0x5a34e3d8f3949;0x26edc5fa503b;0x3af777cac1147;0xecd2776972e8e;0xd7ca240ecadce;0x27478d30f6e53;0x13e359a6149cb;0xe50af2c78c76f;0x2847de9209abc;0x9ad0a56c288];[0x0;0x1c045ea85738e;0xb82b42566ba70;0xb99a834479afd;0x41ad1fd7f361d;0xe2bab97b80cf7;0x627743bafc73a;0x95015e651d77d;0xb78c04876b238;0x73a724730c278;0xb80378d4b2];[0x0;0xcec5586dbabe;0x86bf06e5f8166;0x62f3bafccbb17;0x8c94523e12654;0x1bd2981ae533b;0xfc81829cd8398;0xd50657fbfd423;0xe19fb98ccf97e;0x20736f28b22d7;0x204444310f];[0x0;0xed6114ba8f430;0x8da807c0f2aef;0xbeab1e7858136;0x2224ae323b97a;0xa024d046d5c75;0x8763d3d9452f6;0xeca5c16ccac48;0x34336aa5c1e17;0x25aa641f39c70;0x16e0d091743a0]]);
 ((V [0xb62a93bb22a9a;0xb8dafa4aa8eb6;0xc9169843c89ca;0xc7b5cc668e7f6;0x7807bfbf6730c;0xef027d01ee618;0x4384e30032676;0x70c9d0247ecfb;0x982b1e9113506;0xe89aa2bfcdf] [0x6e78508fbc0d4;0x238fa5b574b9c;0xa4f6d889580e;0x42fb2fd02bb9b;0x35889581a0e4b;0xe87f919fe12de;0x687054608858;0x1fe2e4704553b;0xf2d3a0f616802;0x709d065e85c]),[[0x609d9dd58cbc0;0xd3154753d31fb;0x2d8fc39ab1577;0x734257b79c61d;0xa948ae7a9304c;0xbeb9645fb6489;0x5a3bd3536dc7e;0xf42014b07574;0xa9b10c24f00cc;0xf8bd8228cf1];[0x9b3ddef567e69;0x3362aae445aa9;0x5098a9cfc4c7f;0x9a2afea3e8cef;0x1244c12d6f887;0x465d6c4271ecb;0xdc6c1a80d789b;0xcb1334cb76f40;0x56fef537df28;0xe5b1957f7f0];[0x0;0xb92039274de90;0x38685242b627;0x22aa025092ad0;0xd4f9c5d21771c;0xdc0ffe26df20f;0x90134ed12730;0x936990849295c;0x85c942ce2ae87;0xd3460123596d9;0xa01476ed];[0x0;0x726514585277;0x9d2db78b21bc9;0x76a6b3e3b7a14;0xdb5cf4a8ceca9;0xf886ddbccebe4;0x421fdfad9d483;0x42d864b095ad0;0xf5a20c1fc2ad6;0x799ea35751846;0xb6e7c3fbd95];[0x0;0xdd6ee117a0904;0xd67124dde7ae5;0x59609e739b6cb;0x4ed62c6ee7b1e;0x733bf96f61c20;0x82e5b7a6da862;0x9c3345c462bc3;0x77ee70f5c7656;0x2d291d4917e50;0xf1afb87883b];[0x0;0xa4fe9f03ae7bf;0x8347de103732b;0x84308d3c68f8d;0xd0cb13281153e;0xed19b8a213b26;0x4f998a4a60d38;0x6514506d3493d;0xf0f12b192b20a;0xf105f6e92bd8d;0xf8d7507522d01]]);
 ((V [0xd4944f5f154ad;0xd038b7cb6ef38;0x4b6042198bc9f;0x935cf2075a894;0x4a3974abd538d;0x30bc05f8db3ec;0x684541834ee69;0xcd2161007504;0xfc656ad7585ca;0xccb7abd81b1] [0x4f623c221c863;0x8dbdabdd96eaa;0x799bc5f5d839f;0xd07187a07a166;0x6d4e4e64cd009;0xa50c4eb9c05b2;0xfa9f8db7dff3e;0x11d3dab8e40e1;0xb9680371e0b7;0x8288d0d766b]),[[0xc4016b84e2daa;0x9d916f199e868;0xcab895f04f571;0x2c59fdeeb9576;0x6e6d2cd9d7341;0x5702f4e4cad04;0x399354f5f014c;0x8e43fb40cb479;0x6e6c079cda177;0x90533506a7d];[0xad09cb147f277;0x579a46f2df4d2;0x8a6010372bd0;0xf41a1782df636;0xc1e8ddea8659;0x847fd0243602c;0xb3f617546bac7;0x9e48259427ab8;0xc1bd1670acee0;0xbe432f44f58];[0x0;0x2be5639c9206b;0xa8187df20c9b1;0x715db91388384;0xbfd063582699d;0x7746f4db16554;0x8012c8f841a1b;0x93132f82f121;0x770ce12b5954a;0xf5d787def57c3;0xd358a463db8];[0x0;0x80d59f5d33c61;0x3e77a076214a8;0x193cb141eea65;0xa4fe14a89fcc6;0x41d3ca4a4076a;0xd6c4f0c5a2dd2;0xb86ed3c112e0f;0x7b159fc00ef5a;0xd36e82a247a6d;0x7ef9dba3577];[0x0;0x79ce71ea38e5;0xde5e0c981389f;0x49443220d2429;0xdd03b12f33700;0x176aacdbb3405;0x498e8bbd04532;0xbe86694797758;0xc6c62548fdf48;0xe5a9d717ee9e7;0x515db6b2ea1];[0x0;0xa7b33c62b6b27;0x2cf4ff48abbb0;0x27bd1e4c514f9;0x3fcc4b640931f;0xccd7815fa3063;0x7e5d44d1d3915;0xe94c3003bb5ed;0xf50525e0c3a78;0xf57295c51ddee;0x90f340f6ed972]]);
 ((V [0xf8bb893cefaf9;0x2c659747bb829;0x22f17f2d74d8c;0x493d72f0f1b33;0xa702abc57fe1;0x1141a984b5ef1;0x5d8d98c37bc75;0xbd7da20b37dc6;0x4c2c9dbd9de78;0x760d0a4b63f] [0x4f2b40eb161e2;0x11acbe1b94b8b;0xe7243581c626f;0xd19c1b3fa2bf4;0xb860b7ba2f41f;0x44c7f00a81ca6;0xd6c26a094a8b2;0xcdf39d6aeb464;0x93cefb4710310;0xe2f0f046f45]),[[0x5f34f763ad45b;0xb364a97f858b6;0xe3cdb61847f2c;0xa85cd05fbc46f;0xec89fef815ab2;0x682d1d03ba7c8;0xad72f2784f6d2;0x502a1f6163967;0x6e6640ca6efb4;0x8e6d4f6a6a7];[0xffb966c4cb38d;0xb6e4637d4c124;0x7b66a6e4f225a;0xb3c308b5837f4;0x348542fb027e1;0x36645ae5737a;0xa836cf52104ff;0xfc71d872fd0b5;0x53203b5dbe19e;0xa68fb2c9aec];[0x0;0xb6e666eb1bc4;0xdc10ccf272d06;0xf662a0ec899f2;0x1135b05caac0;0x61ddc44019f76;0x827441f81b3cd;0x1de438623a854;0xed99d7f533a6f;0xbd631efd58106;0xa3b53da78d8];[0x0;0xbebc15030a651;0x67c5442b67487;0x1cd71cdcd287d;0xb510614211ba1;0xf92893f2286cb;0xd57e1a6f3434f;0x1102a9c0c1da6;0xcdb29ad327c37;0xdf1f629d74b40;0x913f412dc41];[0x0;0xe1599c8f963ca;0x66bf752b21f1;0x6b2c221f31828;0x227c5c08ac3cb;0xd620663b6d341;0xad9a85a70bcd4;0x79937568e336e;0xb8b89fb74c09f;0xd6ac8e82b30c1;0x4f3d72c6c75];[0x0;0x8debe0aadccec;0xa8ec02b06c4c;0xe012ee6bfb5e5;0xf66c16eb3160f;0x2aa61310d9b1e;0x1ed42cb5316b3;0xf2d8d48491175;0x7a73ccb06d5d3;0xd5c0d57806f49;0x8f2bf460fa666]]);
 ((V [0x16a9ea774cfe1;0x95b810406cb2b;0xb5ae17c5aac9e;0x51588b6aeb0b4;0xa7026f692832e;0x959f09d7e5757;0x218e897136e13;0x347de5b41899a;0x8d7105c9757cd;0xff73a05180] [0x58edcc3a95703;0x83f92fb40c352;0x69a1afeedc7d2;0x2df5c77031ca2;0x68a425481fbbf;0xc925a9a6364c9;0x247861b35db28;0x640ee2a4908c0;0x7fdcb5e00ba73;0x9fb6a2f13f9]),[[0x92dc2a6d049fa;0x1ff371e85beff;0xf1b7fd203659e;0x294d69d84dbb4;0xd341b22a73e65;0x396a852db1200;0xddb5ee9fa7922;0x762950eb18e85;0x2fd9c1f17ec13;0xa608e38a799];[0x16ea92272352c;0x75666dc7b177f;0xe4bc273ea15d8;0xeeb2ad5c1b013;0x618cbd09a4aa7;0xaaf891492b5ba;0xd4d604ac442d3;0xbec6206494d99;0xd5318df5e40c2;0xd4cc4e71290];[0x0;0xf7b3b74a9ead3;0xa4f927c9a9c35;0x87adf61bd9c95;0xc0586eca20c4b;0x86244c4809893;0x56d4b78a5d0e1;0x4e13d6036b171;0xc30903744bbde;0x7c470b6d64d57;0x367006278c3];[0x0;0xffa88ddfb6ae0;0xa5b7bdbd45b17;0x3457a49163376;0x29b30f1529c1;0xf3e2acbbf408;0xe8c158c45345c;0x4c8083f19e02b;0x52cfff52d64f5;0x420a8ae18e5a;0x126603a17d6c];[0x0;0xbcbae00951f27;0xf6b54ddda7e70;0x77d79fb2bc06b;0x3d9c905853ae7;0x731e185de4bd2;0x353c3650efaf6;0x62e7f961a2c81;0xc7a0092d7a7de;0x118984c0d8b41;0x6baf8766989];[0x0;0x54cd3d9f52717;0xdf841266f81f9;0x865c7422367d8;0x19c4e0904a579;0x493fecaa2d3e1;0xd5f2482b7ed30;0x81cad1aaf143;0x47de37314488a;0x97c2fcf080bef;0xa6f1221e7cb3e]]);
 ((V [0x848e74e7bdf6c;0xc6be52f241ec;0xc5f726eb6c1a7;0x785e81ae6c640;0x58ff2159f769;0xd0ab63c93039a;0xb208eb78c7915;0xe0bf7c8f2c6c;0x8b964aed0d2a;0xd54756f93e8] [0x46e8c08a91345;0x92ea92e4c39e7;0x5f241d74c12c3;0x379f437f28e2f;0x7b77d564019b2;0x7b8625545e5e2;0x3e93343717ff0;0x5282194b12264;0xad074befd3efb;0xfaf84fbbf5c]),[[0x1c776b574785e;0xdfccd3f60e162;0x955cfa71c231a;0x2050e20acd65a;0xd699df0d0a957;0x4d560a61218f;0x9e347e11c308c;0x3dcb8bc1e54e3;0x646249ce38d61;0x4c0bddd663d];[0xc6a82faff46f0;0xe78ebc79810f3;0x1933e3c7a9403;0xd4a82eff1e252;0x9bb0662ef18f0;0xb87ca91ddd081;0x82206d4f66232;0xf32418ad15e11;0xb65f8f4f23980;0xe2f0a1b5c67];[0x0;0x571c5a0c9b0a7;0x1987f6c0ecad2;0x4eb54bd5370a5;0x4da42aca3f2bf;0xa1cdcc1825b3c;0xb80d8b890a6b5;0x8faa2213dc8f8;0xe2e31c2755f7b;0xbb940e079e18e;0xfee78d9bc];[0x0;0x47cf25f1c7f60;0xfdc0b2411db3d;0xf41d20fa8ff58;0x2b77c4f2c0014;0x82178c7d31e93;0x859b620f335ab;0x37c0e66e10df5;0x130ef8f931fa3;0xd47c7e05a1aff;0x5ee33f3e15b];[0x0;0x1f7f3887f99fa;0x52689b93b457f;0xff4feabe0dfb3;0x5ffd0968a7b72;0xf3f46247e80e3;0x4d6ab1c64128;0x34937fc2bfa32;0xbb5cc49068406;0xfa9faca948130;0x16970c441be];[0x0;0x37d693090b040;0x89d04a62906f2;0xca01047b8c7f6;0x707a18e7d30e9;0x51b6d044f4ef3;0x5feb0bf279ad9;0x89dee3a64a569;0x165d27f8fbb16;0x91e7cbdf23c02;0x4c1d4cc635194]]);
 ((V [0xd67366d9ac5b4;0xb7d815eb4706e;0xe1189bed61280;0x1ac4ee6ea66c9;0xc7272de8166cf;0x76a1a1ca5a528;0xce788ceb59160;0x7a5dd22f2d55;0x20e3fd8448932;0xd21075ad9f4] [0xb27c8c0d812e4;0x5998211cc3b8b;0xcf08a6927cae1;0x512882f012567;0x5f2759fa8e352;0xf6554617a069a;0x76d5a486fe623;0x9b4b609da4a42;0x6bb65223d980d;0x6631646f2dc]),[[0xb2b3f870b3f28;0xd6351307ac31d;0x6ee7c01733faa;0xaf68998343c75;0xe26c8d343f8ca;0x23c7c976838cd;0x50cef76710980;0x2c2f8c7aa5b84;0x17ab9ce084570;0xf00e390188c];[0x9840f3e0235cb;0xfa52b2dedf1bf;0xf203a468b912b;0x41671846b1d57;0x476dafd08cdf7;0xdf75a40162156;0x7f7727e93195;0xe36473eb0779c;0x11d20ed52144b;0xce49a46a4a];[0x0;0xa9299732a6613;0x8bd6dc787b05f;0x9bc9f584cfe5f;0x59a07b6d0f041;0x6e3fded8075d7;0x6c71a56ed19af;0x7f2f50d80d86e;0xfd61df3e0c195;0xefc3e89271042;0xb1afca9c1dc];[0x0;0x943a4d246fc3d;0x125e4ed7296a;0xd8ba9175dd8d6;0x37d271ac92547;0xf893c0f6fa035;0x15279b50fd378;0x6a1f374b051b3;0x91326b0ac8005;0xabb6d8b3acf6;0x1d6ad786ebb0];[0x0;0xdf6ba1aed0ac;0xbe647a3b26cf2;0x4ef7a570ab3a4;0x41887af808fd4;0x77f7d56a6166d;0xf795b090a2181;0x397692d1c1649;0xe8018ca20b1b1;0x76a2e51d9e2ec;0xe11aabad294];[0x0;0xe18fa3cdc37d9;0x28806226d3d39;0x1347c7cb16299;0x54d5f0f573078;0x6770161e42934;0xdd5dc62554556;0x6d0d0b2b652e;0x701bd1bb89301;0x1cccec8e61187;0xf1014adb78bec]]);
 ((V [0x1e21b1e2ab5f7;0xd31845163661d;0xd8bdacee915f8;0x700bf31971afb;0x4a78370ae02d6;0x6f63ea022151f;0x37eb8fbc9398a;0x8849f2b04ece;0xb47cba2ab7121;0x19f32c2eeb6] [0x56b08cf597457;0x73ee96f569a76;0x5e96457ef0d07;0x978d21b2b17;0x84e5164c32649;0x19a2e722f2d2b;0x99aa1cb7640ad;0xd9be43911fb9e;0x2ffc5218792cf;0xfa1a6f44687]),[[0xc060d6f500857;0x144619db9f2e2;0xa250b727e7c42;0x6803c575ffd65;0xb4447f18f7d36;0xaeaeb92a7d11;0x3d6242a703abb;0x1a795fdbf9f37;0x224283e5400ef;0xca2d3e19e45];[0x7b2e0aca531e5;0xfb1eac08d628a;0xe4ff8f989648;0xdf7846824f5b1;0x36eb9f4c062e2;0x2123121895d08;0xf95d7bffd2571;0x312f2aadcc4ea;0x3d8981736cbdc;0xfb2ebb81ed8];[0x0;0x2066d557441fd;0x48faad1f6eda1;0x98b449a5e700c;0x52ed0803fd9f7;0x43c2aa21a8d09;0x54aaf49cabd9a;0xdd5a52ee42264;0xd531ed7b77cfe;0x470f58a2c365e;0xac5f021fc51];[0x0;0xdb05d60b1e453;0x490018a1cb3f7;0xa604c4a5bae10;0x7e895889fcda6;0x267fe0c7acda6;0x68c7b535e8a2;0x970a1af183758;0x809f42ca8123e;0x8bee51561ca7c;0xa16a11715be];[0x0;0xa47a791037a3e;0x7b8ac83603b80;0x90016d09f40e9;0x952b7967087e3;0x305bd255bb42f;0x885c74cf088eb;0x71d7ccaac1de3;0x649bc0ce79f2d;0xc732665b373d1;0x9fab6dffc07];[0x0;0xca9afdd20d557;0x76c756cadf0b4;0x8d0a8588e1299;0x7d40b846bfba8;0xec4cebad5c857;0x8ba82b62ec97a;0x7ca7512493a96;0xa9dd8d4401ce5;0x167842d9461fa;0xcb88d2fdcbd28]]);
 ((V [0x5df9dabd6ade5;0x6659ebfd0d090;0x420833d76fe30;0xc6e2dbdaccbcb;0x73f06243d4464;0x80885af2229b5;0x22651a54a9b3a;0x5dcd3b1cbd37c;0x91eb5f6e1c4c7;0xa800b92b21f] [0xc3603ee5e01a5;0x4d3c25961811e;0x60745ae0d5120;0x1986ae7ea0276;0xd68551879be21;0xd5a5d8d710e1a;0x3011cc2ed34ae;0x2c0f8fd626c86;0xb8844b9ce60c;0x71fd6ff33bd]),[[0x5b94f6917a0da;0x1964b154d0f7b;0xc31307c1914cb;0xdc70e955c0cf3;0xc94fcabbc91e5;0x8a38093d8e70;0x53217a3c7f1cf;0xa8076b787ebe3;0xef99519bbebd4;0xe1e1ce49560];[0x83c1b502da9;0xbfae37d8e599c;0x5aa37e3c68568;0x314a55f653c57;0xb223e7cda84b8;0x49a7f912c75ca;0x90904fba62589;0xceeab95a7a655;0xbdb3c19ad0234;0x9c5fcacffdc];[0x0;0x77f19ce82e418;0x9fe5c421cb537;0xaf8415aeb781d;0xae5398f3ae557;0x12213a4e0b599;0xe9b3a3b30d79;0x17f1490677bae;0x91e368e2ec456;0xe0b3666163d6f;0x2a1659e12a];[0x0;0xb4c4edfa55b2b;0xb22fe8dfd1341;0x1b20e9830a4db;0x9932f2e34f6be;0xaded2aa00bbc0;0xc3f070ab8e2d1;0xdedd7eea8ed98;0x6bef88da6d6c5;0x6522ba5d60328;0x1b95bad1fac2];[0x0;0x14456e6b4d5a7;0xf165e6751d66;0x611d7224670df;0xfc2589d0ad1c1;0x9a26d742b2b60;0x1b920bafac0d4;0x9fe9e7a9c4f81;0xe4cf9b8fb20c2;0x9b48d1a77ede3;0xc74eb3c92c6];[0x0;0x48c7c5fc466c2;0xbc8d027de35a9;0xcf2e4ce7ea766;0xf691abc7ca11d;0x4256fa0218c4f;0xf382a7788fe4e;0xc531ac4f90559;0x5b90988628e;0x8edb6f1e2894b;0xe24658e255365]]);
 ((V [0x5082e39c11867;0x369053469006d;0xd8465f78c7ad4;0xd167dad56a346;0x27060e899856b;0x83f73fea65322;0xeef3bb9d8513a;0xb00c3fc839fda;0x1a2ae2ba1af45;0x3fd033e6cdc] [0xeeeabd0f78b1f;0x9e409753f68a5;0xe23a40ee0ed10;0x160fd62e92928;0x27bd05c90390a;0xaae722d9b77e3;0x2e516ccf634cb;0xca2d80eab9e9a;0xc5bbb32937d02;0xa619ee13c7e]),[[0x328a43f452afd;0x2bd354b042fb5;0x9e7270f0723e5;0x8696933cb0783;0xd4a86b61ea6d;0x56c6f255066ec;0x75085b26773e9;0xa7cb0ebfa2a2b;0x3f8267af04212;0x133c1760bc9];[0xe1a2ca1efd90a;0x72e6d8325448;0x6f7e8d7721cf3;0xb5e84adbfde2c;0xeb0db593b0203;0x34c2aa2f5bbc5;0x27050659773f3;0xcf1c7cb8fa1c2;0x2b12c964762f8;0x1c61ea879b0];[0x0;0x4dfdba7e67b9;0x79ea1a8146fdd;0x41aaa881ea643;0xdff407d53c4df;0x35aaa555bc948;0x3582cf37bb042;0xfa03d3b8990a0;0x94ad3d4200339;0x656ad509dce90;0x6e40f309228];[0x0;0x94bf424ce4ac0;0xc2ff04b1b4fd0;0x158f688c9fc00;0xa43ec358c57dc;0x7159f8d17f7d3;0x96c5eb974811f;0x84dfdbba451c6;0xf193ceeeee4f9;0x6b2df9dc02a0d;0x1121223c450];[0x0;0x52d39c5e40768;0x93bce11bcf5ea;0x221e70b78d50f;0x63b22398f4c28;0x2d9017850af8;0x2627c5e10e0cb;0x6647856522d66;0x8f045875332a7;0x8e2a298c3fb60;0x171f993537];[0x0;0xf3743202dcd2b;0x84134c0b678fe;0x1f922025fc66f;0xc8eb33de2d103;0x75a69b89554a9;0x7b60320325b95;0x3ba78ea43670d;0xe37bfa35e51b2;0xaf1c1007aec16;0x13572786e459b]]);
 ((V [0x9817aa448222b;0x5c37d5cae0dba;0x45ef97528f2b7;0x35f5917d76aa4;0xd453140e4bf17;0x7d0b660ff380a;0xd5c072994d570;0xb5f60e8c6a9a3;0xae70566c44b6a;0x9bffea22fe7] [0xebfac14ab4269;0x2ae390d191e8;0x960f5756cbebe;0xe8a93b926afdc;0x9be4a1f37a0da;0x8c15bf53f9d37;0xac126ec2249ee;0x4fb57464af2a1;0x3c2cd94b9acb1;0xffcb19c7978]),[[0xa8629dcb22e9e;0xd386dac3955bf;0x9151c0eff5595;0x5de096f7c5f2e;0x7eba9b7e4e2f9;0x9acef37a5d128;0x6aca3421fa4b0;0x110d2f9852551;0x9a106f6964d85;0xa2ba8ff2c3a];[0x6021bfe6fc936;0x38d4bbb9ea20c;0x986f686327888;0x91b08954ec02c;0x8d16eeebd7cbb;0xe6d4b05469865;0xbfc80f29d2c4a;0x3323ed47df1ac;0x6dab803d4de67;0x13b36ba0928];[0x0;0x5d8115b7a49ed;0x21ae04436d27f;0x8a695e5ccfb92;0xae7fd4df810d7;0x2d1961387f1a;0xc0843b78c43b5;0x8624ca3ece249;0x942072e1456ab;0x96ecb98a1e25b;0xfe822dffad];[0x0;0x7f2461546c32;0x714315b617ee3;0x674eccd16b2c8;0xea70962a100f6;0xbb6726c0f0ff;0x68e70acea017a;0xc546e13c9d84e;0xd4ce701bd93cc;0xd7e3260b9adb3;0xd32ae9cafca];[0x0;0x569f3e468311d;0xb35262f929691;0xb176f87b320a9;0x90140ac54e04d;0xacb18293f61bb;0x8eb896695349a;0xd231ce574d9f2;0xc9dafeeb85624;0x81f18d25aa0e1;0x6770a624bd5];[0x0;0x60a3b93b3d1e;0x82453e282a4ae;0x1d553be2670bb;0x1fa0f123ea465;0x4770e1434580a;0x66c3771b9f1e1;0x6f294a8a71fd5;0xe6e01a0ee12ac;0xeb2b97b683dbb;0xa322b122e3dc5]]);
 ((V [0x4de48c15d890a;0xd073330adf567;0xd35d7ab5c29e7;0xff764fd40a3d2;0x667f443e4f8f7;0x96da8a09ff50a;0xb08fe4c7fd66d;0x5922ae8d3ac3c;0x359534f1a6470;0xf3dcf62d3fa] [0x147ed832434a4;0x9e56273af08f6;0x25e2885d3f65c;0xd3d392cb9c9fb;0x12510c454d4d2;0x37f7540e52abf;0x7770d65695c15;0x66168ef3f3694;0x5ec4d85335407;0x993e02f754]),[[0x7c081a5babf14;0xd82196fe7c5a;0xfca15cd3bcfcc;0xcceaf773fba01;0x8b8ba671ab021;0x42326e37542f8;0x66f9bb7ab945e;0x6be996297e81e;0x3f164814c53c0;0x1adc74e9041];[0xf61afe0d258d6;0xb94aa020ae112;0x76367e27ac7a8;0x80707217c5020;0x72cbe211745a5;0xac205de775043;0x39dd50304542d;0xe767a49d53a7d;0x6f4914e21e788;0x692259d0f2c];[0x0;0x294e95307ae85;0x4cb0a142bbcc9;0xe4625571f3d09;0x824623a75c1c3;0x4fe2f8234c89e;0xd565a3f75016e;0x2503d0336b60a;0x567fcb203c97f;0x3ca9a0b27c91f;0x5f0fe55aa80];[0x0;0x1861a677b0ce;0xf5e815e4de742;0xa48f049aebb35;0x55766dadd00;0x1904e43dd5333;0x28db2bf32acdd;0xed51f2c46c5c1;0x4e8975a343658;0xb300319e60200;0x35adcff2910];[0x0;0x502b8b5c85250;0x708274a59a91f;0x246b17545b658;0x49a14cd032d54;0x484f1886b98e4;0x2488d2e13a725;0x24a307ba88a8a;0x6e0fb8e410dbd;0x70f19ce22db6c;0x2d185987ab];[0x0;0xd6c0743d1ac55;0xa57fb082c147e;0x1dfbb15331bcc;0x62f17a2385ee5;0xce274724422c6;0x40d903fb5e022;0x783e4dba7d2b1;0x19f56fdebf407;0xc543a62a1ece3;0x1aee19409d918]])]
 [[0x87886d476ca63;0xba3c6fcdc754c;0x908e6f3ca48dd;0x2fa92ebff9169;0x94a1f80a0c8bf;0xec87ed6a38bab;0x19a7232cabed4;0x2d47987023ea3;0x5f28e80453ccb;0x911dba56759];[0x13772c31e184e;0xe939d721ed96b;0xcdd3cf2b8f24e;0x37804d3ec8000;0x688ef0f18e538;0x6b219742dd568;0xbd429d983d0be;0xd1f48da6b8a1d;0x9c733e103f1b6;0x2cfb32a3c75];[0x0;0x7b84b24d0fb3a;0x3b424dfc10ed2;0x55bd4d29716be;0x926378778c7e1;0x9a0f94f9b815d;0xa229c8bedf628;0xe2c9723077c46;0x52d106f20e4a9;0x7aa30e47618c;0xe84d3a11f15];[0x0;0xa06f64c4a4686;0xfe60786cc3b26;0xbae088d2b2c56;0x75bbfa552e1;0x5db9ef9bbb5d8;0x33c7795de4161;0x3a3d6164a3e60;0x8e16d93c3221f;0x5c10856bfa6aa;0xadbbd67e78];[0x0;0xa8ef75e29beba;0x3684b26e7e47b;0x39b9de2c86a04;0xee9a8b7567d21;0xd0e4e87dea973;0x503906ecb573c;0x7fd30060aaae4;0x3b21c735f79fd;0xc40cf7ccff03b;0x5242b089b06];[0x0;0x5571a33f01256;0xb42e9b31dde93;0xc7dc80ea3cce0;0x54723e8e1c611;0x4d5f68972a6c0;0xeae36e8352542;0xbe13aa571c973;0xd8b867e3cca0c;0x79e371ed0de19;0x91fa0014319fe]].
Definition wit_512A_32_3 : colwit ipt wit := mk_colwit (V [0xf7074f6b25f6;0x9ee5fdb1ae60e;0xcdc694a592be2;0xad590f233facf;0x2a7ea231e2a19;0x74cc2a0d7e520;0xfa3162e6f80b7;0x4cde8a9109f8d;0x6511b75930ec5;0xe2113d129d1] [0x6d86d9d13c64e;0xb869e2513f2b9;0x15925a90f5c45;0x7e3fd42b77046;0x6cd9692eb2b44;0xedd3871bd2ca5;0x7a9424b9550d7;0xc5a3f0fae6492;0x5cfcecd91ff52;0x5de4b08dbd9])
 [[0x6026cc32cc8b2;0x9fa6316eaeaaf;0xe888821c54b5f;0x39607232a255d;0x11b7a71228495;0xa46290c0a7ac3;0x5e5284d7c8b43;0xa9324689e395f;0xe3a7d929d8a1a;0xc6b0500fb06];[0x499986e0439af;0x478bc69fb4029;0xb8f6c1cecadbf;0xfd5e351d9226c;0x6983d37c9cc4c;0x625a556f34bcb;0x5ad453bf83d48;0xcb9cfe5a9da4b;0x7aae4ce9cf3d4;0xa0c78117be5];[0x0;0xf4dbe623a9c5e;0xcdd182a91591a;0x9ee84cd514da3;0x4c2dbb11bbc0d;0x7ac39679fd213;0x9f90615bab2bb;0xe71189aa25812;0xd9892bf4be7d;0x3bc06947b3294;0x305f2444ec8];[0x0;0x6e3e995c9d9f9;0x37123783eb308;0x2be0dc5f45291;0x8c95c7899c870;0x806ccd8393ad9;0x5e68431792c3;0xedf11e4ab2731;0x6aae4ef56e51e;0xcc7beccae8758;0x13b9a786a8ab];[0x0;0x16b0dcdce4cf0;0xc698b3ce8bd2a;0x7403c96a647c8;0xa8f452e01f709;0xbb7cdc503e17b;0x10adc5ad1a98c;0x6564d6017513e;0xc209046cc592e;0x6e945b686607b;0x9a353546738];[0x0;0xac1d17694a876;0x562182c026a89;0x99518b4710a3b;0x7cbe145a04805;0x7601863c1da7d;0x7e2b7e4079a7e;0x9a296816b5b91;0xf80be8dd1b6c1;0xb35ba6e6e7e;0xc71de95694418]]
 [[[0x3c493e6da064e;0xa302e137f92e7;0xd30483fce10ac;0x8bee31bb38ed9;0xad66501114856;0xae777dce4ff99;0xeb48478a7c31;0xd6a4479aec205;0x3158341461a76;0x3598dfce5a7];[0x0;0xbd74dd8956ee1;0x3088cfa7c9ca1;0x6dc98e5af5d3;0x84abb6f8b2221;0x9568351acca55;0xf4307023c9318;0x2f9857f7ac939;0xddf066e3d86c;0x319e4a2207498;0x35e680fac0f4a];[0x0;0xf4d8e5fd2cc54;0xf4e7c60fe879;0x5d7790712b14a;0xecfcbdb0801c7;0x3098cbd5b24f5;0x993a1229211eb;0x8008c205111b5;0x708d4587874c8;0x8377c158af406;0xb38a7f5fa2];[0x0;0x821cc53e00636;0xd61eb21b8430b;0xbfe5347d834d6;0xca4fedbc8e67c;0xa48b5cdce9e2a;0xa86ee4877fb13;0x436261f1d50b0;0x16bde3f558b52;0x3754d2a25477d;0x35db28d6f68dd]];
 [[0x14a88a06aefe2;0x7214065e86e0b;0xc4fdc3fe607cd;0xd17d4b6a550e2;0x6dec70e6b489a;0xd64a98e4dc155;0xaf52c67147cfb;0x3c553e9f862;0x651ddc07d77c9;0x4097ac49646];[0x0;0xa76b0020f62d1;0x17b587a3556a8;0x3c5f1c5f5a571;0x5e6cbf0cda1fd;0x9d4ec0b317a20;0x6f185aeb5891e;0xf1ff73785a2e2;0xd3ec5ec52b00e;0x32b964bc26291;0x410484e559f12];[0x0;0xe4f2f79376916;0x5f299736c7970;0x15fe1038b7cd6;0x11bc112c93213;0xc1c7535967622;0x245a8e8ed610;0xddab01d5b53f;0xc5065834e01dd;0xa4d975b9493e2;0x104c300164b];[0x0;0x2f07863fb2949;0x65030225d2d9f;0xa80a33657f95d;0xe836d20d35430;0xc6c7a8c7c45fa;0x1bef2cf4ab740;0x8ae46837789ef;0xcdccabc1d9e59;0x4bfe37fb687af;0x40e03fa268756]];
 [[0x93a042a259e84;0x1a236992d9502;0x5a297685a8e0;0x2888de9508a4;0xcb61f520df723;0xb47736ae367ca;0x194ee431ed7ee;0xba7ab9d3153b0;0xc6e606e06db09;0xed5c0ebf462];[0x0;0x11d8d02045f7a;0xfeba348af506f;0x33ae931287977;0x508763c6e3d73;0x75b3ecfdc13e1;0xf6ec5a517b1e2;0xbf08439d72824;0x776dbb3032419;0x70e4cfb2f1171;0xef095f7a5822a];[0x0;0x82f62c4bfb64f;0x2f0ba242c93c2;0x955068af41f45;0x9b6487cb25e1;0x4206504bc0ce5;0x5b9f4ecf53ee0;0x26b06745e3834;0x3d5dc2354a78a;0x22ee486a35a7d;0xdc139468c24];[0x0;0xdfd6b69c756d4;0x1f5cb413db63;0x5afeae8dfcc3b;0x66da889c0ca6c;0xc59b1e58a8fd0;0x3b6cb2d3cae9a;0x6bd28f282c51;0x854258a6979fb;0x2f4c7a41ffcdb;0xedf10b23fb2b8]];
 [[0xd74a980503f37;0x7f32d27a8c236;0x5e009d8455ca0;0xfad611182ca13;0xcc8606ee9c8bc;0x6f42fbec04953;0x8c9080b047d60;0x82bdc29409606;0xc0abab67a69ed;0x89cb0853eb9];[0x0;0x4b6e04a765b89;0x1b6a0c20ca078;0x344652be77cf7;0x8552708892f93;0xad4368835186b;0xb200bdc01cd86;0x4192efe02ee48;0xca60d7d949104;0x181e9b5b19691;0x8a90f52328c0d];[0x0;0x51ce8e0c93fc0;0x29d41c9076e4e;0x85ef4552b6960;0x8a8117e4843c4;0x460c0c1599adb;0xb3c6d8f4333bb;0xaa2092eec001b;0xda23d7e0fbff;0xa07313c1ee6ce;0x4a2aeff0078];[0x0;0x1f2fde7646955;0x770c86ec91aa6;0xc20a73f1ba365;0xdbfe2029414f5;0xe9e250606ffc8;0x460e5137dea01;0x7f992570e6868;0x54c0db35901a8;0x531761c5c5cd4;0x8a197f16ffd84]];
 [[0x3b7aad9f6fbf;0x31d0158598c27;0xf7ba1696b5069;0xb21337fc1405f;0x9daf4e5f59429;0xa77cb92678402;0x91fb43b964678;0x2e4818f25139c;0x69f72a44a330c;0xf0c3179f1d7];[0x0;0x933ffa018e07;0x114e3720c770a;0x5896d9db8d302;0xb10e05e80628;0xea5ee8e589979;0x1bc015e01ea15;0xd903c55017bab;0xa2187040304ae;0x53e2f1fdfdae6;0xf1b541ca26558];[0x0;0xe57277d86a471;0x48809785851b8;0xd36f59f0d888f;0x141a646389a19;0xae4d6e08f7232;0x3136c6d56da4d;0xe1af5aa02865d;0x5ee5297184235;0x347deca1629c5;0xe26e60f755d];[0x0;0xa4dc812dd1ca4;0x2117993751574;0x5daa7711d2232;0xfdb2111051500;0x2e1200e230eff;0x35c4b5a952d72;0xbc8155970193a;0x424d33d5e0fc5;0x1c0ce2f94799;0xf214299cb2e88]];
 [[0xd2fe9dfe51c66;0x360c39b56d6e1;0x6d3a0ab30de48;0xee5cb50f524b8;0x4f9f30f7a080f;0x30ce9394f340b;0x9867d95d80642;0xcbcbff1b2b7b8;0x34cc491c35e4;0xd91d014653c];[0x0;0x8474317567ada;0xac1e511b856df;0xf02a09f7850f3;0x31bd5c2d29af7;0xb1600a33a8e0a;0xb55eddb4935e;0x42512f375ef9b;0x4e00e1c6b8f93;0x2d197724d2d32;0xda4e3b43a1718];[0x0;0x166d9a7155e43;0x3b2a7dd4111ab;0x7f55a6d99444f;0x799d34c059d03;0x9fd4e067339c0;0x2c1269c171a1c;0xd082d572523cd;0xffe8db662a80e;0xc7307b3270e97;0xb8222f7283e];[0x0;0xbb600bdb93ccf;0xc280acfc1f07f;0x6f818d101eb2e;0x486b9553e92d5;0x63598b65f288d;0xde3e56c901c32;0x18a7c8128ed6f;0xcc4e68550f0c3;0x9778a6bdaf362;0xd9f0455215a42]];
 [[0x39110c7932942;0x6fa717805bff3;0xc93cf4dfa7a43;0x1e9182262a9ce;0x5dca27d246257;0xfd15fe69fed60;0xb1e835066799b;0x67d64cd1f922f;0x33ea5bfc33af9;0x22a192af179];[0x0;0xc0b55a40d3bef;0xe22062d61300e;0xf416257abef46;0x2f4b3666a9136;0x402e58ecb9d95;0x90b38fc427a4;0x6781b10ee28c9;0xe3a1baa4cb51f;0x78f43f9f252fd;0x22d1537bcbad4];[0x0;0xae4833107b8be;0x7108eb7545d14;0xcfc2e5a0bfd8e;0xa783b5cf9997e;0x58da454c9836;0x4749f0513440;0xc8b255db79f06;0x139ca662a9daa;0xaf27e045b8e84;0x4af50f0568];[0x0;0xa8181eb8dce23;0x1c8d87b123130;0xccb797c327258;0x49b0d0b318c9d;0x6749b81d1dcf5;0x66a93090b4fa9;0x4bafcd3943ff9;0x2d8b75cc1a232;0xa7c22665694ec;0x22c7d0c4139ba]];
 [[0x3cbda83741f31;0x4d27846125989;0x590a07abf41d1;0x504265f2200ff;0x95ad8e878d784;0xa3312b55518fd;0xc3a71df0850b;0x3f861346d50a3;0xdca71bfcfe3ea;0x1a7db95440a];[0x0;0xb42143052555f;0x49b23a6f8a6a8;0xbccb7ca6f9757;0x6c0aa990a45ed;0xb9033e64e673d;0xe1630f3105764;0xa43543af3bc3f;0x11c43d032b6ae;0xfe883429fae96;0x1aa503e604060];[0x0;0x4bc4fe98c1626;0x2dc11efaf024e;0x6a2aa8dbd7b3b;0xd65811a9693e5;0x898048c453902;0x326ec18cb18d;0x90ef3bdf38193;0x9d3c4c90d194c;0x5580c7f082864;0x2bdc7639f9];[0x0;0xb29a34b4805f8;0xc63eedb5761c1;0xda3cf5baf17a5;0x535304779a4a8;0xefe2ddee96ffe;0xa06ddce20fb2e;0xaaddd56ce4cc8;0xd91b6f0f4c778;0x4f753a628e983;0x1a924a5aad050]];
 [[0xb06cfd5b468c5;0x6be87838427fb;0x82923849d5c72;0xaa6ef7931fa52;0x4c5ce6a636382;0x80971e55ddfa0;0x17d4567d5db2a;0xabb59cf513727;0x9f4bd62b57f66;0xb5d418afd4e];[0x0;0xf2d7469c62644;0x770a0899e0860;0x4c269016083fe;0x7da4c95c75ef4;0xa7d640b89a4f7;0xb6076f8967e6c;0x3ab7b5b5e8ccd;0xa17e22668b54f;0xe3d1ee765d423;0xb6b91dffdff43];[0x0;0xcb5327497f349;0x7464fd46e5e80;0x3502aa7520bad;0x2a833d60530de;0x7257281d1ab75;0x87e09a44faaac;0xc6e851b326c78;0x43167cf829553;0xce841ce14935a;0x81259aa188a];[0x0;0x65050ddd1e767;0x80ed4c278eb6e;0xb1069b25d67b3;0x5efa7877bc16;0xb3bdaef95d039;0x13dacd9074867;0xf9840ed30016e;0x36ded5854956f;0xcdff0980373c2;0xb6579d0f25298]];
 [[0xc9bc023c76e9d;0x63246919ea7a4;0xad34e270a0fe6;0x8fb77510983d9;0x26e6adf94c3f;0xd92a7363d776e;0xef1e53b193fe3;0x18c1badbd3f59;0xa62a163139f07;0x9b1a21fbf9f];[0x0;0x2f051e2a492f8;0xca30a3b69b67c;0x5316fe452f1b4;0x30917d28a94ec;0xa5e9a01720785;0xe64833b4ae928;0x337923b451230;0xa3aa1c3e7fd7e;0x12f31a58bf91d;0x9bb292faba8ea];[0x0;0xb2a4962119aa9;0x119328821223a;0xd7a5002e25e7e;0xd87eb7a4ec617;0x887c588d8030c;0xf8aa34327d107;0x56b4c0a1f5ab;0xf8d6ef33d8307;0x6e8c22945ef54;0x5df8a7d20c6];[0x0;0xf27dde7e06c00;0x29a8e17b98c64;0x1986e976efe32;0x13af173842fcf;0xd12c0f995a5df;0xd723d9ae7ca9b;0x6919a8060c710;0xe134db7214edb;0x5fb59f17bbfa7;0x9c007cc740293]];
 [[0x7ae54565d049d;0xe6c6d2ba31e89;0x80b01adf2b70b;0xc4849f8f335be;0x9eabcc4960d30;0x106aaaaaed2db;0xa52981258909c;0x68003560dccb0;0xd6c3f4c672a4;0x372133f416f];[0x0;0xb407f5809804f;0xb0ac21e933e94;0x3d56b38dd73f3;0x4b2cbe94c7e8e;0x44800d2bc916f;0x2102f9d2f56fc;0x55d0c459a8e57;0xca4d73fadffa2;0x50a9bcadd5695;0x377222828694a];[0x0;0x7620c9d89e621;0x861d89a4ecdaa;0xf1f1524bd4513;0xc41eb7ba1dd5;0xfe5f9620fd91c;0xf53f7a02bca97;0x5ac64d3ee485a;0xf0b434d985adf;0x4903f446c20fa;0xbdf48a1515];[0x0;0x92fe2d84a7eae;0xac1ff931844e5;0xfd32c44c908e3;0xa917013958f6b;0x3c5893e94bf2;0x7738e02fa34cf;0x3c734839cf017;0x91197f8b053cf;0x1e607cb0b6820;0x373a23f570c3a]];
 [[0x3c390f1fa3c86;0x6d96f3bdf4a58;0xc867853010966;0x68ebfe10e1d63;0x61cfd38fc27d2;0x947a1df5ea39;0x2721afe86d73;0x700d676ab4152;0xddd0f3320aa58;0x40f816f870d];[0x0;0x2def7ecab9db8;0xcf69d3dd398e0;0x3c887cb1b9b9a;0x1ddd2f25db83d;0x376cb447dee90;0x763ad313e1c31;0x722d2625a2018;0x9e6d2ef854ddb;0x755a013868d89;0x4133e2a2a0ca2];[0x0;0xb2ffbfc4d9c3c;0x69831f94d844;0xd78f64fe5006b;0xebf724b96b580;0x680d6a8b5803e;0x6a0f4775c40d3;0x32dd26ee9b49;0xa7cf26ea0d6a1;0x940e4e8a13067;0x107cfbe8bbd];[0x0;0x2dc7dbb3b53a1;0x4e80d19bdf46e;0xc2e435ac817ae;0x6d9a414465384;0x84017ffec3ff8;0xe932401f91233;0xe6c806b662800;0x7a3b175c84b55;0x7ab5fa645019c;0x4147b034856ff]];
 [[0x54be9de6eb4fb;0x36a3aae23089d;0x1f4634308728;0xb95f8abb9603e;0x8f8f94363fb4c;0x24eb19a2cb1f5;0x8fb926c813968;0x26265ca6abdb2;0x3b2ad38404514;0x20347f86be4];[0x0;0x68a16fc3a36d;0x24cbade69039f;0xee52a256e6c2c;0x6318d2a0d345c;0xb16028c5e94ce;0x4c4d1ef254aef;0xc3a76fafdc351;0x1eb9fb9f45958;0x4cfb26335db8;0x205963f8a243c];[0x0;0x2f5c75ac028c6;0x356354fee89fa;0x568323244f70c;0xadbe6cecd230;0x8f21e350ac238;0x8a42e5e23b45b;0x28723571eb39f;0xe46b954dd3397;0x52fdecbfe65a7;0x40d2aa5bdd];[0x0;0x3c64fe7440cfa;0xbe5427e09e4e9;0xb585eba065af3;0x12b76a4bcbc25;0xba2873e8e8002;0xad980efbba044;0xd6ee0faccf1ab;0x857f3fcab76fd;0xe3765f411ceac;0x204e2883a6eab]];
 [[0x1a0663fb7d204;0x65d259b9774b0;0x29fb6b4aa3b8d;0xea918909cda69;0xf04b930a48548;0xfdf91ee417fa2;0xf0bcac36d0da8;0xd9a7aaffdda18;0xefe52f7a1d5e4;0xdcf9b1426f4];[0x0;0x14710c9e8c31d;0x55ee80df3dc6;0x2a8f011af1b48;0x3bab2cc2dcb7c;0x291ab076376b7;0xee8c9be1ab3ea;0x3df8e448da9c2;0x5b05263605c9f;0xad2db502c3787;0xddc9ebde7db5e];[0x0;0x6743b40b9c8fe;0xc71250054e6d9;0x84c0a5b2d4adc;0xa0b5eee523f13;0xb7948a3e7f9b7;0xbf060ea9bcbae;0xe94cdf8c3eaa2;0xd07651700371a;0x93bf227d35694;0xbebe1c347d4];[0x0;0x5eaa8e10ede5f;0x492d00ed3736e;0xc01daf53a8875;0x401bd6513e284;0xb11c4f8b143f;0x838943431d5b5;0x1009b31ae6ad3;0xf85c58feb9c91;0xea96279816bb2;0xde6da89a2adce]];
 [[0xbdbf7d163113d;0x6eaa0044af652;0xac0a2b300681f;0x225702fe22b8a;0xb15ccd8718cc4;0x673dc0ef6e28e;0xe0f151f4abecf;0x4acdc19cd71cd;0x313459f935e82;0xf3339a7becb];[0x0;0xb9e5841bb5ef;0x2b272bfbaf96e;0x59ae2066280ce;0xbd4c722910b98;0x39d38e237c76;0x66109acefd5c9;0x4b8dedfd90fd0;0x9d90c20ef72e6;0xe5ca652bde384;0xf4bef45209650];[0x0;0x70f1e5dc5fa46;0x843f2dd874c71;0x8b4f26ce0641d;0x60aae186fbaf7;0x47ac8dcdff110;0xab85a8840dcd9;0x8dede0e7c96e4;0xfa4645b40097e;0x59ab49cce4bd3;0xe70b01ae2df];[0x0;0x6537beeb64964;0x5e2fc186e6d2f;0x424a84700054d;0x2070e0c6d7678;0xf1bef3b9c09be;0xa4d01e3ec7723;0x178ee30fedc2;0xa00f2eb39f4b3;0xfafe49d6345ca;0xf38302b18c272]]]
 (V [0x83b233e01b3c9;0xba779838c029b;0x4aeceb5a79ef9;0xca5f7f5efa113;0xf40e201be0fc3;0xc3ebef58c6638;0x4226028ef3209;0x68c759a53624b;0x5fcd2816e3d22;0x40e1c53e379] [0xa15f52482874a;0x107e195f56dd3;0xef5ad6d06244;0xbb9e9f6b03401;0xbbd6a48cc20c6;0xfd33afbf1dda8;0xbf39be6692ece;0xc67f7630a805b;0xe4db6d1be076e;0xcdca18657c3]) [[0x5b0f10d8e5aa;0xd32e592a1e0aa;0x5807e48c4ed;0x7a21b59973fea;0x8e9d292ae9d0b;0xc6127f8ee5a5c;0x4c8b496ee1399;0xc0237da2c1863;0x74f1e45caffc1;0x6ad8c29e269];[0x0;0x72827b03d234a;0x3f0136f1caac2;0x67ede44cb6124;0x7c2807f9ab9f4;0x3fa58da1363f9;0x5b604e53e27c3;0x5cc8925d850dc;0xe24aa28ad9f88;0x91a6127f5e281;0x6b0e94f4a467d];[0x0;0xd9c7335e8c7c3;0x4c19b0ebcd007;0xbf38f97bec733;0x24cd04fca63aa;0x3e14f9a952433;0x27e09d6741f0c;0x6618110807ad;0x4729465cb5334;0xa810b9162b26d;0x2c9838b3f6c];[0x0;0xde4d753832a3f;0xcc1c8a50265b4;0xdc3404c1ed1dd;0xe3fed4ea7ac62;0x2d47229b1f6fe;0x13defb3c519af;0x24b30f921e955;0xfe5cc3ff1f91f;0x37db5c5af61ef;0x6b8bff3cacf9d]]
 [((V [0xe901fe2d88c4d;0x999e0a7e7a4ea;0x9d25b4c9c3df5;0x56bc9473d1409;0x60accb04d97bb;0x7825a1a3ee5cc;0x84ca8dc597ba6;0x68f8fac8fdc20;0xb868732f71fac;0xcacd4bb2e1a] [0xd8676eed1c2b3;0x345b4a7eacd6a;0x78e5c9ebdc807;0xc385d89e5f23c;0x91e26dee29339;0x51afffeae6070;0xa0b6d52b680a9;0x4c8ffc301fb46;0x39ef777bbc441;0x667c09b25c3]),[[0xe8a021c5b1a33;0xd1c08a1561a9e;0xcdaf19ef20fec;0xa1837cd70d83;0x18142de24661b;0xb3cca8d90c8b7;0xe663b8b12e14f;0x3e2fd43eac2a4;0xd93b86e87154c;0xb2f457563c];[0x496043c265309;0xa746802582554;0x252bead13b06f;0x327de14ffe2bf;0x1f582a430f994;0xcc97522761c77;0x63d8a5208697e;0xdd0139887baa3;0xf9270b393fa49;0x56a6f35473d];[0x0;0xa072d6c6b38f8;0x12d9386d97dd3;0xc8574aca1a74d;0x1cd55321f2241;0x993903b1393b0;0x19609d01eeccb;0xc55886b283126;0xc0b391ad55bf2;0x184bb7a92de05;0x1071a9bb6b2];[0x0;0x844c04c28a67b;0x787916385f829;0xe2e8bbd98ae99;0x3a2cc8a20658c;0x8397a44cb9d2e;0x3313c4039b95d;0x86c5d38f7fcec;0x190d6961b682c;0x6cd5392da9367;0x11fb5df95a4];[0x0;0xda153e3040366;0x75aa5fe5a65bb;0xd1d9700ad25fc;0x7ef64fdf45e05;0x97985700ea56c;0xe5e864eec4aef;0x5b975406830ef;0xc86655a33a81c;0x6cdcf49ab48ee;0x7d18b2aa8];[0x0;0x3bcc618236fc4;0xfe8921224223b;0xb095bfdfc6828;0x275177c360729;0x5c1d28be5cc36;0x160d2f0ff95d8;0xb424f498b502d;0xae1618740024c;0x69eefb9d20c5;0xb346e2468c50]]);
 ((V [0x96968a6c2f690;0x28c3902cf3143;0x6ff7b04b9f5f1;0xb3377c8b7cc6b;0x9d3a1d37d11ff;0x65477e01ff37a;0x4441cbfeef1a9;0xd5de63dc5927;0xa103030ce2407;0xf5bd5046df5] [0xbe753b990d923;0x5785566adec1d;0x7849301771881;0x7d70773c2be50;0x8234b2b7d2792;0xe8e7c687e2222;0x965ef0b97ec7f;0xfa6b836dfe831;0x9da917308a745;0xcc2979d3a9c]),[[0xdfc311ac8a33;0x70fe3fece5d63;0xc422e6e9b9cad;0x36147bc8453f7;0x368f192e78c08;0x9bb1fc96440f6;0x2bf49e893a864;0xa5ca03d91bb04;0x3a01240258ffd;0xf24b369c8ee];[0xb0b6b9ac487e6;0xb7748e6c57fe9;0xaca767e66f38c;0xa29cf92c5f555;0xf04d1c74ffd4f;0xfc7af3c3ba7fc;0xec9bfbad2d5d6;0x4745c15f33497;0xd20168872961a;0xc266cb911d1];[0x0;0x7a78a115d1aa5;0x1e9af38b54fea;0x101b4cad74a34;0xac6ac976a24ef;0x292509f18f65f;0x7d69b706814a8;0x4280746a90ef5;0x22e6685d94566;0x26a3beb3edf0b;0xa0a8a0189f0];[0x0;0xbccc1007fe744;0x92dbeed0e1dc9;0x11fc213cb79a1;0x3d10387ed8a8;0x472469a2a0332;0x6a31dc3be1a62;0x7f239ed44902;0x2cb6ad8064833;0xe89f5e2de7b67;0xc1febabc927];[0x0;0xc506f45949d09;0xa812198abcba4;0x723da4d7de99c;0xe856671531e34;0xa3d4b4feb0445;0xa437b8720b9be;0xcb224f5ec6259;0x7635d28eca7bf;0x88008c8acb385;0xe5524959098];[0x0;0x2cb41e72bfda;0x6ccca16d1c228;0x4fa54f94bcb6b;0x43b20501d33be;0xdf4e704c9ead8;0xe504bd90993f2;0x3dd1f388396f5;0x6f8fcdb402949;0x81025b16883f0;0xf314de515d522]]);
 ((V [0x1e1b1bf5e3416;0xfcfb0d26ba2c2;0xbe963962a37ab;0xbe41b7f983d03;0xb7cf20c5ca5ca;0xf3328f7462c95;0xec7cf3b1d10c1;0xabf4a8748e84c;0x37a98195273df;0x558ad109a92] [0x9717e838841cb;0xc9877dd963437;0x5d4c190b32d12;0xa06e67627fe40;0xba589ff13eb06;0x7cf2ea503925a;0x8fb5089219b32;0xc6645a295ea3d;0x8395b37a112ee;0xb42ecd0a0a6]),[[0x1fb054359c0a6;0x363862f42c6f6;0xab7a8ac249a56;0x3908446a77c86;0xea7fb76a19160;0x7162369acf544;0x455a9dd1847fb;0xc1a3f6b2e9f1d;0xf29ad8d65adf7;0xe5e1648bbde];[0x32255bc66287f;0x4405b7722225f;0x166196bdf9693;0x6d8a83df1f8d4;0x939ef154ad3b1;0x574ef26aa11a5;0x9760443a6957c;0xebcd1e2eab4ea;0xf6331815a2f93;0xe72c51b850e];[0x0;0x2e18537808777;0xb13ffa0ca74b2;0x73641dccdd232;0x64ecfd722f0b6;0xcdceff60ca61e;0xe3ecdc81f5e78;0x704876cd0c7b6;0x912f166febfbe;0x48d2f56cfa215;0xebe3e7a7495];[0x0;0x28c4e6f91e8c5;0x1b703b1672f23;0xbd4ef2c7bfc2e;0x7e258fcae2742;0xc1e303deca727;0xc0d2dbcfb4a4d;0xcef8c63aab04;0x70f7fa4c2abc1;0xdf4289bf612ca;0x16ea9b53c1ef];[0x0;0x9770785e9ba22;0x59092cbff470c;0x356ee02b8c666;0x3e6203af62baf;0xeb9aabb03c2a8;0x3efba409bf22e;0xf5a2e207c41da;0x25e56795c19ad;0xf37a2693c51e1;0xce6d0453e6e];[0x0;0xec0d119c43d08;0x7b2a27f28f85b;0xc6c28dbff373;0x8ec842f7c123b;0xfa7ed738035db;0xe6314e59c4e69;0x6b5b855dd0588;0xea6365f5fef2a;0xe4198e8fcb514;0xe7572027686f5]]);
 ((V [0xc4f22ca44b4f4;0xd02ce876f799f;0xc189716d3c633;0xedb2a9f1146e7;0x42ddb1290d4b;0x7edd4d1db08d6;0x9c02310142d8f;0xdb57e7a6c0c80;0x5c35080b0263e;0xe0d6a62d767] [0x155e5d69541fa;0x2d9741f7ea40;0x5c73512025e1d;0xa7b677e87cbef;0x2f97ff8d0d87a;0xf43f087e6abea;0x18059f8e1e6a1;0x119f09944b06e;0x816d4f422afec;0xbf759c2295f]),[[0x3428aef37a945;0xdd09c3965303a;0xfc7e0a67a719c;0x695835084835b;0x4283c77e30c27;0xf02f8c099deb9;0xdaeca26dd0317;0xbc45afe8eb19b;0xc4ac4511a3d19;0xb93d9459179];[0xdd62f000787b3;0x93e154857a4d0;0xcb385134459f2;0xd11ec9bc25ff7;0x1a51146c11e16;0x8d6f184810e83;0xf5c81bd9ca65e;0x8e7c1fae7100c;0xd832b0d8d0562;0x8b084510fbe];[0x0;0x6b1e93915b847;0x615b7bcc1ac6a;0x8e26e97e6857c;0xd10b25fb9929b;0x997c2b3c29de4;0x1cea676139d7b;0xb67f475949541;0x7010542c419e0;0xcb0326f36e2a9;0x1c957a16736];[0x0;0x308e2f359c6e7;0x5b6fbd795ace5;0x81eaf07c6b077;0x98741cb761387;0xae1e5c0ab6b9e;0x8e9b5489b55e9;0x72d76ecd06dbb;0x10d7df7d3afd6;0xe30b6052265dc;0x104c25379c0a];[0x0;0x9064f2c3788bf;0x7c1ccc15b8f38;0x393d883829934;0xb63eaaab096ba;0x4a5820e31197;0xe7cbd108f2a2;0x659d429490967;0x86f0536e8108e;0xc46d9821301f1;0x860a0f38cc8];[0x0;0xa39f861192cb8;0x2b4db46e347c7;0x57962ec8c580;0x18adbfc9b9d32;0xdede4337e48fa;0xa43da37d971ee;0xb59555c8eaae8;0xb36c505ea861c;0x4bc09fdcaea;0xb992069e9fb99]]);
 ((V [0x62dff8fa3eb3c;0x4967f4156a28e;0xb7a82730556ec;0x70c16ba661a38;0x5bacea856d8fd;0x285a63ba09508;0x1e702b4b67bf9;0x8b2a94dd3a3e9;0x4173a751b4f33;0x293ab367697] [0x74bbfe09c8c4c;0x2d5231eeebd14;0xb79d0a811d7b3;0xfa9e2d974b3c3;0x970979cde118b;0xc20999de48d39;0xa143c5e0e8658;0x43573d93a570d;0x8c6139e3849a2;0x963e009bcab]),[[0xead3c5cac8db0;0xd3f16f4bd2384;0xdd1bcf6e27ae7;0x78adb281c35;0x5714f461daaa7;0x44a8510b116ef;0x20bc03d8622c0;0x4e1cbf908d8da;0xb2687dfb62ccb;0xbb67dc9db52];[0x2618a86e52ac9;0x723a1d3f7865b;0x5e126c2955bce;0x5fdd50323ceb6;0xc328de045357d;0x32e1a46f4d34e;0xcacb16b05e228;0x430510aa1e709;0x549978643aba8;0xb9abcb5528b];[0x0;0x40e0c05c62001;0xd39d93e6f0071;0xbbfb2e0963932;0x8bdaf9e52f893;0x905adb9eb4bf;0x4a1d9fa70a403;0x2efaf09080844;0xf3b3448c2a31e;0xf2063014f40d9;0xc57856c9cf2];[0x0;0xf13fb1257a957;0x8d5dc50880d51;0xfd6d1aa62e9b1;0xed0e858e8d452;0x7ca696e367eac;0xb78584905a18e;0xd46402aa6429a;0xeb4c0ba58ce91;0x6ed195844ac9a;0x118512cbc348];[0x0;0x94059d0488d44;0xdf3102763fe02;0x1908ee1655daa;0x527172c4f80e2;0x4839545c0ad9e;0x904d9d82556fd;0xf243775fc6db7;0xabf09bb0e1519;0x4438d638700f4;0x8930e671abb];[0x0;0xdea571e760ba6;0x48b44155e7840;0xef5495f02cad6;0x886985a1b9d57;0xa06b8eab56d53;0xf806b6c07d2b2;0x50a60d29ef194;0x8cecdfda2326a;0x76ee5bf512156;0xbca9ade2a35ab]]);
 ((V [0x357f8c71c9348;0xcee9c7b31bd87;0x1c9f94e2327d5;0xc1b2658ae6282;0xd4963c9662a79;0x61d4873071c5b;0xad7c35152225d;0xa6512ca1bc485;0x89c820b22d2a6;0xb36bc027699] [0x512a2864e7b15;0x4fc0167f7d0fd;0x8383e9e4881f;0xa11063104d6fc;0x70a9468beb314;0xff6320c4bec35;0xe2e2be24f9e3c;0x4275780ab2b22;0x2071b2f3d5b8d;0xc71991e3612]),[[0xa2a56b77ceb93;0x2ace006f4f1de;0x8f86e013f4131;0x58537516387f0;0x2a86bac212985;0x4468dc98a880f;0x701174e9aba96;0x888bad0558555;0x4f2185baf129f;0x924d19636b1];[0x45f7133871971;0x2a46a8f1f3b85;0x319f7597b90af;0x794b103024e58;0xda3e896eec772;0x6e14fced10943;0x5f25987fda91;0x1f4ce34518b94;0xf889cb322536b;0x3b75972dad6];[0x0;0x5637ae4e6ca69;0xd672cfabec783;0x6dd068ea02610;0xc33ab7793c1a8;0x70b4afcae432b;0x22f373c7a7683;0x4ee7cd2046f4b;0xd5d0992e1663c;0xcbf499f56b03f;0x6a3daece85];[0x0;0x4878874d42d47;0xe0f9edd6c9895;0x197e0cf89fb2e;0x41739b02bccec;0x64078033c30c6;0x29bc1b02d4830;0xacfe4784c7045;0x14bad10a09fb;0x605888e10c7eb;0xabb937cadeb];[0x0;0xb490be635a20f;0x5cf32d148e1f3;0x563b10b72c25a;0x19669ddd8f4b3;0x7636fb25666f1;0x9415f3e529770;0xb75a2c3add497;0x5c27c203a7bc7;0x6e04381815d65;0x539c082dae7];[0x0;0xcdcbdacfad700;0xbc102b2dc26f2;0xc27cbec2fccb8;0x1e0cfc9edf74;0x26f96167d2352;0xb5ec35f2ad84b;0xef755f270a540;0xbd497690f972e;0xdae58be51d6c8;0x92906ce513b52]]);
 ((V [0x1912617a1766d;0x9c2f8d01b1221;0xbc399f67db1ca;0xc9d14a809ebfc;0xd86cd02a38d15;0xc935c3bdb57b7;0xb232a61cf594c;0xa3c01659360f9;0xc197fffaddd02;0xe88cc6642b1] [0x11210abb39ac1;0x2187872419719;0xcc72e28f75eba;0x5e7bf0318b89d;0xd93687925d831;0xb7060e156b9f;0xca7ccdacaef52;0x2433cf001e9eb;0xcd8ab01bfb7cd;0xe9c346c9fa9]),[[0xc618dc44a4c82;0xc34232af780f3;0x8d4394d5b5a97;0x8b1b2a40517ae;0xf5f4690569f3e;0x930fbae71e188;0xf9e1307cc9f05;0x77ebf4134d168;0x4fc9b0b3973da;0x73967340662];[0xdf9cecb6ab6d8;0xa890e728dcd01;0xcf1d22f08eae5;0xc592c5b9b3d45;0x382f2c207968;0x9308f364e3e0f;0x81de5dc5eaef8;0x8fced7d74e415;0x1ed417bd7fdeb;0x9eef286ee15];[0x0;0x87a7c3d53a758;0x938897b97afe4;0x1326d926b2916;0xcb52c69f8000b;0x2ccb67ee1324d;0xa025f3b2bd3a2;0xd060b0eb07987;0xabb93e4e8717e;0x8d4e6f3194d61;0x7dbfdc114ed];[0x0;0x200889c9990b8;0x397d2eb422874;0xe38fc05b4dd7e;0xa28e7793ad00a;0x805bcddb9c09d;0x2f5652d831dc5;0x441758e5e5783;0x856c227edef6c;0x789959eb0c620;0xb3cafe4e647];[0x0;0x2f5798dd76ec1;0x8b5d9591fdbe2;0x72bdc899779;0x7455ea6d12d7c;0x6352c0a6443d0;0x550a08ff16589;0xbc7bc80b461b;0xd861473fb24c2;0xfda43c7f9dda8;0x343083f71f1];[0x0;0x349a6c8300e22;0xb07b560d26942;0x9e915bdb209d8;0x47ba42c14f0c1;0x83c954bf153ec;0xf3c44e6b818c6;0xece82c13a5ce8;0xdd42ae34c1221;0x873c8bbe3b39f;0x73f20ca494655]]);
 ((V [0xdd7fe080dbaf3;0x7b79500054a30;0x1e9439bfb2707;0x84a714336a9eb;0xfe60aed64bfb3;0x7f0d0e5a43544;0x72630e0806bbf;0xc4f0e7b5e3c56;0xee7eef257a11e;0x906d4ce3d48] [0x35461277e02d7;0xfd38f6b8045ad;0x5f154fdd5d1e5;0x3f60cc5d65dfc;0x7d34ecddc555;0xe76a18477014f;0x310f038fff8d4;0xaa6a4c455e7c0;0xad45cd0e934ee;0xba9ae23cfa]),[[0xb10cf9776a35c;0x210310d9d3e53;0x5a158bd3f4d37;0xdc19246253a5e;0x8023475d10ff9;0xc9ddc519e5d5c;0x46779a98bc43d;0x51454358adefd;0x43dfde2a503a1;0x4ef7c45006c];[0x30307f08037ef;0xbaf57f436244d;0x44c3bd62aa074;0x9c37076316b4e;0xcfbd5edb910d8;0x79822914298a1;0xcbbafdd1d6a57;0xa404ef60d224f;0x20b1f9bc10704;0xb17c2b3668a];[0x0;0x8dd578867c1b6;0xaa0805378ab76;0x22438bfc4b4b2;0xc4cf828db1dc6;0x903f663f93da1;0x526fc3fdd87ab;0xa145aab73540a;0xcbd2982e12d0d;0x12ed5101325e5;0xd33f74ff257];[0x0;0x79257607037a1;0x4a6a833abc0d3;0xa0081348ecb04;0xfa8dea1fec22d;0xfe8fe2acd922e;0x4c1cb4eaaeaf5;0xb286298bc1a2;0x4af3ac81a2ea4;0x6403bb382e5d7;0x90377c7ad94];[0x0;0x128ff778870a5;0x7aaa355fdea2d;0x8b8fb0ea32459;0x71b6d945eb97;0xe79e5bc64a47;0xa6d5c6a96b254;0xf924f627a6d77;0x85e8149c5ee72;0x747d70fc933b4;0x185beb6d2d1];[0x0;0x2a1aee830d1c;0x2e57364e44c78;0x445006b2bcc87;0x3aefaada78ea9;0x4876c580ef7ee;0x3ecb794656b47;0x14ff9ef7a1006;0x81ed27cc2299;0x547dda01c2775;0x4f61eaf54dc56]]);
 ((V [0x473015d586c3d;0x59e68cb07371c;0xc6a596d236a5f;0x3631f73a4a90d;0x6b9d416155504;0x62d509a8bf979;0x39e8024ce9ccf;0x3a89d9b7dc893;0xf60717cc72333;0x87e0a40bd1a] [0xa98a7a85c921e;0x901c3886cf816;0x964fe1e2c70aa;0x55358145c5676;0x60db65f0116a7;0x8e99796a5a1fd;0xd87a7585ca7db;0x16de900930c58;0x5a5cf7132fefe;0x96714ce41ef]),[[0x2c5aa8a4d6e4c;0x3c60284433f8d;0xb99d9d55b0f60;0xee0c7be20f90d;0x493c8c74c6af7;0x85857ad3986db;0xa353db5853abf;0x5513f78ddca96;0x63a36ff813256;0x4a3ccb27b48];[0xe4ae4b3984e6b;0xad3c01478d378;0x81c8f07ad31b4;0xf6fc7c68678f5;0xc8eb2fdfb2765;0x3abc8894fa553;0x1892eb925927c;0x440467d916ed8;0xeb68b9f0f7f7f;0x6593244b9e4];[0x0;0xf315446241d2;0x6f49731978954;0x474f453112cba;0xd025d64e86db1;0xc2f58d6ad8ce2;0xc562750ea55fe;0x838489f8cb923;0x816bcfc597615;0xbd795d1bf2571;0x517b252ae03];[0x0;0x508ffd6febc45;0x6d30db83a940;0x84b4f3e92ff9f;0x5fb8e0c14a6bc;0x4273ac2a9bdc1;0x602b1b6d2ab46;0x158d288729c6e;0x24395f186017f;0xaccedf66bc8b5;0x6c3a2b90d2];[0x0;0x97ab4a36fc2b;0x50e8f9f897011;0x8eefaaf8a59f4;0xf34bda2878a0a;0x252df86d82c55;0xef6cfc7cf0254;0xd79d47ffc642f;0x96f7cf571319e;0x23708760473e0;0x158733e2d03];[0x0;0x673cb0bac30a1;0x3a76d30efa5b4;0x80b1c40f13f43;0x709de645aaad1;0x66e1df08f3bfa;0xe9b377d9d4167;0xe371278a48ca;0x7c153b02abbab;0xe203e2e20a280;0x4a8982a36b1b8]]);
 ((V [0x4fd651b9c404a;0x24d8a806ba98a;0x4a67920b1467b;0x724b0052da74c;0xd0a87d02f6c78;0x452876d7f4766;0xea61ad401de5a;0xc642dc263b68a;0xa0c6590181a2d;0xc0ea2d2b72e] [0x8afe86ed6965b;0xa6bba6e09466;0x69ee34f9fd30e;0x3f1b48f2e49d6;0x855ad26d5b854;0xeb0f83c696b66;0x3434caaa29f19;0xa3f2be4e0c9e0;0xc67d8c424ed30;0x3af38df3caa]),[[0xb8d1525800264;0x61a9810b9da88;0x327896f3c469d;0x3c84be0a9bcef;0x2bc08fd3963a4;0xc9fccd10ee0;0x59ed030a186a5;0xe4fef9bad2ff9;0xf54509e6bde0b;0xa7adeda4f85];[0xfbb9d96dfdb63;0xf765f5be7174d;0xc06383eb83778;0xc68a7e8df84db;0x129c6868d0db9;0x5bd3f114f918a;0xb815a555ddd2c;0x711e0606ec179;0x9c662840f8446;0x45df5d7f2bf];[0x0;0xd7ebfa485b3aa;0xb2d65c2585fd8;0xcdf2c017579b0;0x183de359f2384;0x36d6fb25f9af8;0x23204df40332e;0xf008e19d332c4;0xccd58de517cb0;0x50fd4dc97e8db;0x481eb223f4f];[0x0;0xd8aa724e49065;0xb761eddb5e365;0x71bdc828898e3;0x8ad6ebab79052;0x2c5f4834cc07e;0x994b046c8b000;0x995f325cb4361;0x7d81e51619dde;0xacc1b6891620f;0xc5143ec33a2];[0x0;0x880439f0fdf54;0x4428eac6572e1;0x1b6e9cd70855a;0x936ffd3d2531c;0x6e4bc2d7d149;0x4f4ab04ba2b6a;0x708d0afdb5c30;0x36ba434cce8c6;0xeef08d0e0fcf8;0x6dd46238499];[0x0;0xe2fc6db6e1659;0x2b4280405d37a;0x18f4b7e3dc9bf;0xe882cac679310;0xcf243ffc1655a;0x5303d89f279a0;0xf7876855e4ad8;0x90e0c61cfacb9;0x1cf6c64c51ba3;0xa8303f99c575c]]);
 ((V [0x96c39290ccf96;0x686d07755a748;0xe41c698ba93ef;0x4433dccd8e5f9;0xbc8d1aaafd023;0xf69ef61b355a8;0x79671bc316410;0xb3944f612d924;0xc7ec75f07421d;0x973e4a677a0] [0x2b32a6f378f4b;0x515a8a70fa9ab;0xc311e39ad54f2;0x758537271be7e;0x5990bb2a3ba9e;0x8d54c84caf271;0x57235beb72400;0xb46c8681f56f0;0x7aa124ec2daea;0xc6274c84791]),[[0x1f341159bfab9;0x2d90d9b9dcc05;0xa330fabf2050d;0x1a7cd303cfa95;0xf3ce6c024d482;0x31b7efa4ebd4f;0x4f82579407c44;0x3db2ee4f143be;0xab4a3deac4072;0x9656992c014];[0x365a899039e50;0x16d811dd79859;0xee8700d85981;0x1aa95f2f2ea03;0x1abff9507dbca;0xe72f584214042;0xbe148b12496f6;0x2ead9010dfd37;0x9e19426f373a4;0x5cdfc692d4];[0x0;0x1b06e69ce04c;0xb9ed4cd054fcb;0x13d39875d496e;0x51e9ec7fe7bf1;0xdaf33c53b359d;0x125e008788c66;0x7ccd4f8faed92;0x84fa30b5d1b31;0x5743d1860bb20;0x916019f7c7c];[0x0;0x59af845f3de9e;0x4708592c4b71c;0xd925829bf16f9;0xae8df2028983;0xb8124ef963a72;0x440d75d609b1f;0x6ca48dff0f11c;0x28dd34341e3e8;0xcb8b37bbdb8d6;0x453d4c88754];[0x0;0x2222718801641;0xa1f201938a570;0xa944deb1feb52;0x5274056cdf499;0xd790f8265c807;0xeb8b43be69fed;0x7289083fe48ec;0xd33ec69f91653;0xa0afd24a71af5;0x584998cad6b];[0x0;0xb78ee273d53db;0x7b5ef3f2d4b6e;0x678deb03b584d;0xc8da482913735;0x1e9a7f8d6dde4;0x8321e8ffa18cd;0xcad2d0f1b2c40;0x1a5292dcc88c6;0xeb24fd74a0371;0x97056894b931e]]);
 ((V [0xc6a6f2bad93db;0xe1ca32ebc78e0;0x4b2900b535559;0x5243fc3aca76c;0xef1a47e103281;0xfa2e92df5f48a;0x9555c0a9dd101;0xb4bc3d561f420;0xb6152125d372a;0x6a16f763d6d] [0xce7745f7f0ed4;0x2e77764647290;0x219d4b6705281;0x101ca1c19f9ef;0x17725ab18c15a;0x38d6418fc921c;0xe488e9f8a0d29;0xfbfe2d5d81dc5;0x6f363f53bcd87;0xeb4bbddf1bd]),[[0xb0703404903b;0xf08a1c12b59ac;0xce85065802a9e;0xa7f06c9997a17;0xd6ae5fa144152;0x8fa516516cdf0;0x16aa6806b94ea;0xb836fe413f251;0xc49621440783d;0x171a1553385];[0x1e094c8cab336;0xc96b082e64242;0xa71dbdb7779c3;0xa8223cb388717;0x3a1497fc419b8;0xd36dc16e055ed;0x6eb146813201;0x22c927f8b1ce5;0x6e38e2b5ba7c1;0x200fba62bf5];[0x0;0x88ef7be9759e2;0xe64ce90753fe2;0xd53a89486bc4b;0xd1df0de69838f;0x4e51c60b5cc4c;0x820f74bbce514;0xda35d61ab305a;0xe25901b5dda74;0x9d7ff4435c853;0x595a8aee31b];[0x0;0x57c10de17f174;0xa949e8b2ae4ca;0xed7fa0aa91449;0xbf5b3ba610fa0;0xd3d44a12e0fcc;0xffbb1697a8d8d;0x1b70ec47859e7;0x7be3a6026c4a9;0x442757063c35b;0x23c370be9ff];[0x0;0xce017a82198de;0x71f4d29d4a3a2;0xc71ae7e9af709;0xea0fa2b8926e;0x47362590ff4c1;0xc076b8a8e09bd;0xb6d6839c8ec7e;0xf58f3d2b8c76e;0xeca3b43d9e0fe;0x215b27d4ac];[0x0;0xfc1f7f49c8d71;0x566deb2982e1c;0xa415bd67548ad;0x78be3038525b;0xb7c63234fbedc;0x9e4a7b5c243c4;0x1ab52453bf94c;0xc35f95c694d25;0xdbfe5f12a9914;0x1735428ac23e2]]);
 ((V [0xe9f512c2a829d;0xe7598928b7f57;0x8bbaa048f19e3;0xbe2116641447d;0x59ecf7e165b97;0x90de28ddbe8e8;0xdcf55ce18b5e0;0x5849f9a957d99;0x40d7c8a63675c;0xb8fff9932fb] [0xff58fa56a0879;0xf538996dd4e33;0xbd81e83c3edb0;0xc07e8a26ab34b;0xcec343ce1449b;0x894bb95ec3b2f;0xae8a14f883bde;0xa50619b672318;0x6bc2caf771d27;0x1dd4b184e5f]),[[0xb9c7f776bdd7;0x1a3fac051458b;0xfeb52eb0c7bcb;0x8c1bb5f87e04e;0x290c45a8c5f8f;0xe3c2b17e440a7;0x235d7a6e1ee18;0x6f099ce51cdd;0x81ceb18b4cfce;0xc81efe5966b];[0x76da694bc29ae;0x284f9762480ac;0xaeaf4c6014d55;0xe57cdfc5f5b63;0x836a1d66869b;0x63bbc2cd13c9e;0x744e623040940;0xe1acd7c610707;0x8828a402f80e8;0xb0652d4ace8];[0x0;0x7af0d37448afd;0x743caf499398c;0x960ab5b450247;0xb44d6996535ff;0x5254e81f64781;0x4d2d2310aeebf;0x2a464fe27c5fe;0xcbae96e316b69;0x869d7e91d8153;0x2bf706ee222];[0x0;0xbeca7e0f0e866;0xc30e3d2c17096;0xc8d32faa21b17;0xbf91125dfbd7c;0x74a2618f81f80;0x8c3863d3f9788;0xabe3bc40b6f88;0x8cb5879d2991f;0xdf06497f3ca0d;0x16fdf51fbc00];[0x0;0x2fd665d2a15d2;0xe611a93c06c42;0x52300caa4436d;0xa030960bda0cb;0x4d8c06cb50de6;0xc6f303cbf0dfa;0x15918ad1fc79d;0x861ec28d822bd;0x947640c522b05;0x9c70712c4a2];[0x0;0xd429e8f00a0ea;0xd6cdbabaac1db;0x30b0d99654034;0xec5b80363a22d;0x5cb30b6c75296;0x8e077cf0c2821;0xa4f976f369f49;0xdbe0a1c18890c;0x9043f3171c5ff;0xc8a96dc056210]]);
 ((V [0x98f6725d323d7;0x7ae9d7a493276;0xc2209c9dab535;0xc47459531cb16;0x157a608a4d71b;0xd51d5031e0ac4;0x5b8c79e59d393;0xf8045e771d009;0x506d4fd906974;0x6d15b7d5367] [0xf08acb1419e31;0x1336ff4051db8;0xeef347b1d9caf;0xe82b9aa561529;0xefddc572f882e;0xd1c2506a57896;0x85614c2e2edd7;0xc45747077884a;0x30cd113990c7a;0xdd1f83f9bc1]),[[0x63897e10c4f59;0x84ae4c2e2f2ce;0x380c5812f95c9;0x93d09979f7697;0xa1d4ad730e117;0x93c438823b93e;0x619e532b52f0d;0xd9b9b2421d10;0xa8e99a35b9ccc;0xfe40d84eb5d];[0x9b0e4ff5c77b;0xc07db544f1888;0x5a5d49751a07c;0xd5e53e2f10592;0x23101f34f6814;0xc545dce74070a;0x4e966b377941f;0xe2293fe235532;0x14e30d9cfcfec;0x9b5810e5ef5];[0x0;0xf3691a85e64c2;0x8e068817b5546;0x7fdd3632d63c8;0x2dab71dda2fae;0x8bcdd5dda0e09;0x74e073bd31eb;0x1eba10fc0d02c;0xa8c59071d0282;0xb8381f8f1f46f;0x85b0f6b6bb1];[0x0;0xfc9d3bcf576ab;0x75e32524393b7;0xca2b34c36ec20;0x1e5b23d6ed9e8;0x94043eb8a0cbc;0x19cd1642a6292;0x29a177f304c7c;0xaacf81bbaf443;0x6bc5349328ed5;0x3b412d05be5];[0x0;0x8a565ab327d20;0x8dcfa36ededfb;0x64cecdd710492;0x29bcee1b2e110;0xd2774e6865781;0x7c962410dadf1;0xf8ead547c3028;0xe38c0a260a41f;0xd8b544ffc6a79;0xfc84bda90ef];[0x0;0xcd88b415c00cd;0x58808f93c5745;0x70049cd76aa81;0x921db57a9c4c4;0x6423e9fb22c8f;0x2ba7c32528663;0xd93d023c7ac67;0x47b365eab9ef7;0x9c308d250282f;0xff8a7ecef47bf]]);
 ((V [0x5eb059f476d0a;0x446c70b7a4f3d;0x4c16f4c9893e8;0x6992ac3c431eb;0x5614d4bf1d9be;0x50556f643fa0a;0xd0ece714be6ef;0xe3a29d88556bb;0x169ec1f7760f0;0x6b66a7fe32d] [0x39070ca4323d2;0xfd2ca059c2a8f;0x35b6ec8006a07;0xdb9bc35c0dc3b;0x8668711e8102c;0x8854de80ae45c;0xe97047f4a6cf;0x8e777436d38f7;0xcc3ed4324a186;0x956b7abf3b8]),[[0xff1e00cce3fab;0x466142113f5e2;0xab80a2e2d2774;0xcaca42cf0cbd3;0x240af1a5ec9b;0x979f0f61603e9;0x9a0f769a0bd32;0xc6034c4d3fbcd;0xa56a340fb64f2;0x480fa661cdc];[0x6932ef02b2b87;0x3e65e79dee923;0xd9509eb875fb2;0x6c3be579560be;0x1c40566141b39;0xd192137d05dab;0x349aeec074945;0x86667aa4559e7;0xfe847ba8137b9;0x4374f2a83a1];[0x0;0xfa2ca50651ca6;0xac727fbb446c1;0x57529d0e41ea6;0xf711dcdbd428b;0xcb9ec17d646c2;0xb12cd37ef9388;0x260995c883758;0x6b507ff959643;0xd1c7378f608d2;0x2e7b80633d5];[0x0;0x9859b840d7fb;0x27db6c66893cc;0x3abde2229304e;0x6b2177d681323;0x56c187ad5e120;0xd27cb8f36f4d1;0x845247dd80bc6;0xe9b702544c6c1;0xaa95fc6f875f6;0x7c7cc35bc59];[0x0;0x307193bb9077;0xb1f4b4c43e100;0x23e68e7305e63;0xd07fba0304528;0x2ae2c53a2aea8;0x786a9ea16f46b;0xcb243b6b2f4d2;0xf649ac419311c;0xaeab1fcce14e9;0x1448ce8bef5];[0x0;0x4347972e8af5f;0x4ff9c9200c078;0x6f6694954e880;0x28cbccde48b3e;0x38fc376a15d7a;0xeda68c2d51ce2;0x233fe69bda2da;0xa6fa72623f1bf;0x525d3f50379fa;0x48582f5efe27b]]);
 ((V [0xc5ce2326cadbe;0x2ba926687328b;0xd27269f67da9b;0xebd20612433d;0x34c3f0a627534;0xa5389d7d51134;0xe9d8ba0a5ae81;0xd75b057ee517d;0xa910f92803d00;0x72f20842205] [0xc6eae6857b5f;0x8d9e219ff599;0xaa48ecf1910b4;0x858bf59ecb00f;0xe4e9345ef4ffd;0x3c6032f69f88a;0x39e77e69a3a26;0x3399f95598b1a;0x8c573b68588a6;0xe6e6320fc5f]),[[0x3deef97acbb09;0xbbebde3831ea8;0x32ee8ea913fdc;0xcb510a30423fc;0xe77d51b75db3c;0x57546b4563ddf;0x34da5e8e96c9b;0xb2478c3d909c7;0xe33af1de07772;0x7571542088c];[0xb6959cb2bf682;0x7287579c5dbe3;0xfd9b039ca4bb8;0x84ec808adaca7;0x76f45270531c0;0x6e308e09f680;0x25524f43a0efa;0xa7fe37fa61ee5;0xb5e1ac15d0d2a;0x6ef5f0d0458];[0x0;0x7d28dfc44eb0e;0x2bfe98d432012;0x74c6242032e27;0x1f996e23956f9;0xb73f390294424;0x60c18675b218c;0x8f449a41c6467;0x2b478aabb8024;0x93021e44d9875;0x2d0ef998cb4];[0x0;0xc22bc153cdcb6;0x690cd75a0a4f0;0x6ca1954efa3eb;0xa1964daf9d7fe;0x35674115e5d16;0x4b6800ee63c6;0xdc1a6e15a69d1;0x45f938f401626;0x53f9145d3c97;0x89188949ac6];[0x0;0xc0e7565a9b989;0xe9f7eb3b5610a;0x2b058263e5dc;0x3255ea9de1e29;0x92a15b1161113;0x1fe0adbcb8680;0x3ae30406778ef;0x58b9bce1006eb;0xa9f31807b21bc;0x35e0c9111d6];[0x0;0xc2f2bdcccadb6;0xf999fa432c19d;0xe05647862dcc3;0xe650969f06dd3;0x12ff777d6c16b;0xf2d1ad2dd7a;0xad57f8d845a21;0x237a40e8e8c12;0xbe91f57f2d130;0x75e34f6aaa1c6]]);
 ((V [0x44eb2b065cf66;0xead037ffff378;0x2ea982d2278b9;0x754c7c802d01c;0xa5f56a443e334;0xdef5abb92c43d;0x550d09798de1;0x653f1833965d8;0x95cc551b10f8f;0xfe2bfb6b4b7] [0x21d73ddf1dd65;0x35bc65e766771;0x6aa7c362afeca;0x4c1dae532428d;0x41d93c32d4202;0xb1b359ca6fee3;0x8efe50653116f;0x467a70bf1cc36;0x399cd9e39edb0;0xe6497aa76dc]),[[0x7208a618cac7f;0xea5584d78e6d0;0x97c950c90bb44;0x61455d853e0b7;0xf5cf035269adb;0xef122ae7e4ce4;0x33773bd24af34;0x3aea591728107;0x659ada91bff0d;0x1a65ac979c4];[0x4e9dab85bc7c7;0xc7518788e8437;0xa1cf4eee72e3c;0x34a08682321d5;0x14d83768ad544;0x6527639f41a98;0x3910fd6478d54;0xc308fe1a3cfef;0xcbcbf542f2e07;0xf82c3ae07d];[0x0;0xec497577bc8db;0x5f98890eb40be;0x64d2704ba90c5;0xe364ee7551c84;0x700cb3b42b4ed;0x3a4c72afc0d80;0x464c4d7b5fed1;0xd9197133019ff;0xa07867bc5ba45;0x339c742e821];[0x0;0xf0a348f963f8f;0xaad7ff0fcc63f;0xa195440345a96;0x957506a207b56;0x73a0e2f1c6d3b;0x10195f62da7cf;0x31c68eb6159fd;0xbc202fcf5b857;0x473b51012154b;0x2f9e2b25856];[0x0;0xcf1c8e5542ee9;0xeaf09968e1f5d;0x5622bd2ec672f;0x382f587e0d7e1;0xefac77e351681;0xc78260201461e;0x4ee5259d952ad;0xdea58f547a82e;0xbad824c4616a1;0x2b8cf706fb];[0x0;0xb5c5a2894bf7b;0x3edaf4ac17759;0x14a2c49a6cb6f;0x6977ded58e4b5;0x12da5f460ddde;0x8c1a7e8e25f58;0x29190a96975d1;0xfa81a0b746b14;0x53a73a5bfb742;0x1a71b715c7617]]);
 ((V [0xa43e986f73b3a;0x40bb23916d7c8;0xa8ae1d8723e79;0x285122cc6a4e4;0xcd06667ffe4f2;0x901e6235f6e02;0x66470466b92ce;0xd32e68920a70;0x36397264312d2;0x36ae3022222] [0xe9d879e83ca2c;0xb5b328f33ba30;0x7b0469acbd34f;0x1ed82b40d6300;0xcea8498fa26e4;0x42b0b2d1e7e2a;0xa2607b44ef0a;0x34159f1be0a09;0xab3d2b70bc7af;0x7b888fbad65]),[[0x9a064b8fdc104;0x4ddf76c78d3f5;0x856a2cf60b72c;0xe143a4e8aa2d2;0x1858e8d3210e0;0x5cd31e342f9a2;0x41af6ab8f5dc6;0xb61062976a015;0x4502cb44128ba;0x8db1c4a579c];[0xc1701db620520;0xa6371ac725e1;0x67b170af14955;0x955dc55008287;0x1fd20db02a0bc;0xc5dfd67df26a3;0xac9c85a9d67a5;0x2124922845dcc;0x1b71110b9c554;0xfa9a640f6e5];[0x0;0x5a3ef9427fc5c;0x61464c319ba1e;0xbf9bb42b4222c;0xaa3a0edb80968;0xb10e7efc229f1;0x31b0c8155e3a0;0x9a678ee8adb68;0xb79eccedae8ca;0xbc1d4e2039d63;0xfc5b4e7756b];[0x0;0x54f363a1c67dc;0x6ddf405ac99c1;0x9a33a45b41035;0x4d7bacff0bd13;0xfb4d361bd544a;0x88a8131b11952;0x2f982a834d915;0xffda63cbe6f81;0xa6282a0a21167;0xfeecc482440];[0x0;0x27dacdab169a6;0x4a0eb362261c9;0xf463c11c72ff1;0x6d94cae953b;0x712eab7dcddb0;0x6a308a1646f3d;0x81be2244382f2;0x410fcb78f505a;0x26f32e82000f1;0x4e6d4e0fcc0];[0x0;0x31de8028412ed;0xc5e2097dea40b;0xd8eca8ac9c79b;0xb36d691a18606;0x8a3eca8aee122;0x6cb4987bc9e9d;0xdedb2046c9737;0xca733447a09ef;0x9e53d819cc267;0x8eade13a4d5a0]]);
 ((V [0x7ac8c929e238a;0xda1b85de520cf;0x3db70e81faab6;0x92d529eb86d10;0x908d859ee10f1;0x22b6801da7ede;0xac602c146220;0xcc8c65c103169;0xbdf851abb04e9;0x58caa89b55] [0x7874242a0b3d6;0xc9fd675d5ba92;0xcea11edd0044f;0x93c7bffc54432;0x92289eb9b0a51;0x327dbd65862c2;0xf42aa15959970;0x3fa93a3077758;0x34bf8537b4247;0xf1ceb1d838f]),[[0x50e16ebf1f6e1;0x3e5e9beed08d0;0x99567682fb3d2;0x9511d56c93b52;0xb290de13d4da7;0x105af0e69a44;0x29a3c59e129e9;0x67cabe66437b8;0xdc5f1bf588037;0xb2d5e6fce09];[0x70678a41ec69b;0xe115dd15930d9;0x4e846c811fb53;0xff4e921835520;0x134393f749cd4;0x2636f2e44585f;0x6a66681909038;0xb8ad6c180feb1;0x6ae8194410aab;0x218136de11c];[0x0;0xb048b87af3d2f;0xa2a81aec976f6;0x75d6fc755eed;0xad4e2b7f134b6;0xee11188653348;0x1a3ec3fc8c504;0x8bbfc6f3d92b9;0xc37b75ece7f4;0xa277980e8dcf6;0xbadf2d3ddd];[0x0;0xb7f19e67e25;0x1fc191fe08006;0x1063e847842bd;0x86659bcc5daa0;0x21d57226c7883;0x2e692420f06b7;0xae5ed77e03fc2;0x9d2f905caa38f;0x4c612002aa4c5;0xac98580c6ee];[0x0;0x6478d9c05c625;0x2eb6c376d754;0x6e223bab560cc;0xc7994d2598fb8;0x4424ba498edbe;0x3fe35ab39076f;0xf97a1e5d0828a;0x97962b71f3de9;0x48b360dc00ef9;0x7cee27f1d99];[0x0;0x5617070df1ec3;0x9a755baab9e1d;0xf6018b56fe881;0xb7f8edd170afd;0xf30bb5d980f42;0x36db995db1c47;0xf95a3ed8bc963;0x9c3df5ebd0a6a;0xb03be5aae7a8b;0xb3ab0f3ffa47f]]);
 ((V [0xd49ba3d342826;0x688ec2c5f0463;0x34da16cf248f0;0x175bf8099aa42;0xa8427d12979c9;0x74a986a025206;0x947ff3f4a7149;0xacf4ea5e9c602;0xd695f13a2ab17;0x7985d944ad6] [0xdea2e4d97a9;0xb095c5563c11f;0x1e9308b70c9c0;0xa567204fef700;0x9020e502617f8;0xce5bf11a38f2;0x1b10aa9695871;0x2308b33a34560;0x47fec1eed04e1;0x8bc6bd6f1ae]),[[0x99b00a138cea6;0x187180d29ddb;0x92d9092a4ae03;0x76977421e1c17;0x8cce3dbed890d;0x7e04ffbfcecc1;0xda7372a78297;0x4e33f3019b863;0xc3b8d7489f39c;0x966efb765a3];[0x883e4abd344ec;0x3036d87f6a37;0x89e23fb7e1bb3;0x2b9432c18863d;0x39c22bbe94562;0xef43f6901ddc2;0x1b2b0ff1e5ec1;0x4d45e917e7025;0x98b01c5953df9;0x49840e8aba0];[0x0;0xf91f9217692c8;0xe65e1cb260aae;0xb767c357366c0;0xa0b220dee523;0x370c2f1307004;0xa86494d8c5f2b;0x9a2528a477af5;0x63fd9b1eefc66;0xf22294e4d99c0;0x1ecbf4594];[0x0;0xa6c75e1e98300;0x402d7952c213f;0x9ffe01c88cc55;0x7d6f41080b7a7;0x5231f65aa1eb8;0x94843c9b947e3;0xc1abfedcb3a55;0x2fdc8d3afa537;0xf1f8dc7b66eba;0x11c2fe1151e4];[0x0;0xb193f92024046;0x27583542680e5;0xa5a3536a7361e;0xa80fd89693e41;0xbda9fbf105f53;0xa98b96697257;0x993ebdb8d097f;0xe6f34cb1f19af;0x56d365e3e8101;0x58663ecbc27];[0x0;0xa02d3b0235e85;0x2ec8a97c9791d;0xacd19cd4dd44c;0x2f5686976f35a;0xbb7c690eaab4;0x5d0e1efe85364;0xe4e06e065557b;0xb01fa97871dac;0x92b7c4ee714e1;0x96c1442972063]]);
 ((V [0xbc86ccf256b40;0x9c75a929d667d;0x2819c4ea7630f;0x97f6d79fbef33;0x6e55bee49ef2a;0x5a12bea81a282;0x4f5c4bbf89dfe;0x728f965c17e57;0x5b64c4818a626;0x2d692a8f7b8] [0xc680384dc4ab3;0x8d2a1e4f273cd;0x74f69217874a4;0x29b01a5220d85;0x113f262ce846f;0xef93d40f92ecf;0xc7072d0084830;0x78975bde90ebf;0xb3b0a701fb2e3;0xe81cc0e0ccb]),[[0x10f890c5fc757;0x87620257abfbf;0xf3c8e247ced7;0xe077a330fe272;0xc81604222bbe1;0x1454213ec0e36;0x2e6e04cc8136d;0x425f47e40ee93;0x1a566f07e4976;0x9dff4768ab0];[0x701f0d73611ae;0x3bdc6ff4c9283;0x616f2e159a983;0x70abd83b9b580;0x29fd3ab03e99c;0x9f90c6340a8e8;0x44531c3d4b0f6;0xf8dea6bb58109;0x48bf4b49fc0d9;0x4b154c317e0];[0x0;0xe7f5e76f4845a;0xe193e96a12251;0x65d2b327acd85;0xa365fb44f48a6;0xed1f7745abdff;0x6b868050eca5b;0xbd847199d4b23;0xc371f902c4148;0x321bb719a65bb;0x39afcd5e65b];[0x0;0x2faeca4ac9f70;0xa5e60508f43a9;0x550da3804ed72;0x396766c8ecc8c;0x36820210d4fdb;0x623c3ce23bd02;0x607bbecd7a416;0x2a6ff025a4125;0xeb08d90eb6e1a;0xac888842339];[0x0;0x127008ee1bfd3;0x5c80534b7ff98;0x4e90e2c91c3ae;0x4de26c86b07a9;0xd047eff352389;0x419d414855d9e;0x933230404388b;0x1550d36d9ac47;0xfebce135eb1b5;0x61831c25b82];[0x0;0xf5f19171a0e19;0x8121a80a120d7;0x41dd67e201742;0xe1b080f6f4424;0xdfc1d4dc1d2b9;0x5aae68e423b2a;0xc0c96f44daf16;0x22b38bd85decf;0x1bb65acb2e4f2;0x9ecc402d05e5b]]);
 ((V [0x745716dbee237;0x9c0e800b47a81;0x8b45f4d05b595;0xddf32e3980eae;0xcf5fc1e3d6d73;0x3b7298d1f8c4;0x3c4626b974b29;0x8c763f88af;0x28b648661be7;0x1e0adaafc68] [0x95980ed3b35c3;0x26b424464c1f6;0x4a18adc7ba1e6;0x59e45b1bc1b6;0x634331c2f1901;0x56173f3d23b23;0x9c3c6a01ab9df;0xf59ca6b48f21;0x5ca09dbe6908;0x2b174d40921]),[[0x6a5870c88e685;0x43c5dd59f3402;0x5bb278aa189fb;0xefa54cd616c31;0xc6fbe5165d46;0xf6397fed3e435;0x77b53135dfef1;0x83b5b4891cb47;0x54f125e8b66e5;0x89be48e8e7c];[0xb3fd900ecdd37;0x4c46df5cf69e9;0xbb864b9914fde;0xe616f285360f2;0x8273e80f4201;0x594dc95a27838;0x765ce8cb0338c;0x3e9cb5000d3db;0x31363c53f9d86;0x1f894e0b98];[0x0;0xe042636960aef;0xfb54ef36d0a2b;0x628fb506bf92e;0x1d682e01965f0;0x413a37b61d064;0x29abea8afee1a;0xd4e72ae740985;0xac39d7b456eaa;0x3bab976b84286;0x80e242a623];[0x0;0xfb8042f3ab2c3;0x6088c7e32a6b0;0xe4dbf473985c9;0x9136d3dcc88ee;0x2a8b886cd5325;0x4a72022c7f104;0xb5c71de558fc9;0xc26eaadc993fe;0x60572ce0e00a5;0xf9c7d5556db];[0x0;0x1e01f221f1c8e;0x21758500c7620;0xea02c875d90e;0xb9a4d5edaae04;0xecea66f763212;0xeb9eea51cf27d;0x8ee4f68049c2c;0x1b8504f1b4198;0xd0dc6ec64de4e;0x4a1d3779968];[0x0;0xe369547601696;0x4332bd72fba7e;0x771e3ebb95b4a;0xb5b6ba024a068;0xbf4e30bd0af7b;0xd57bb67969ad4;0x87523e23e9c0e;0x56bfb66637bce;0x5f4606a6a1518;0x8a504c16ef2ed]]);
 ((V [0x6589e5e885818;0xa2b90c565931a;0xb93f8def1cf9a;0x3bd5ee1ae3867;0x529ea66507c4f;0x580b2dd44e3a4;0x9c8078425ef1;0x4154a3c54c278;0xc6369411877ac;0xfa0398f87d5] [0xa22af2825eef6;0x2fab21f2e1e50;0xa75ed3ab4773d;0x13003bab5374a;0x8bfb75af51f7d;0x45b41c392beaa;0x1e97fa6ba0bfc;0xe26961d0a8bbe;0x2d2d3ca97a529;0x272938efe4e]),[[0x606c6e903592;0x7f5e47b123363;0xbc38e197ccbd5;0xbbe93dcfe4203;0x6f304ef56a27d;0x8537fb4447d56;0xe7517a8ed3f6e;0xc6b299dc3fed4;0x6c071774a6115;0x61ae585ad97];[0x2837faa53b305;0xc445d420eb38;0x68d68a3457762;0x837601d6f4320;0xf2b0d0f6fd1e2;0xf90cc986cc6d4;0x5c6a6db568432;0x43451c66b3386;0xf0784a76cfda4;0x1185f0d7d9f];[0x0;0x2ec3a7a7e54d4;0x403d5649175ca;0x45e83114a94f1;0x1e3a57ae41be2;0x12d31ba558450;0xe66f35cd616;0xc1089ea636da4;0xe9ed72fc2b15e;0x1625129ae322b;0x3868bb7031];[0x0;0xc2b802a36cd9f;0x9f48b0bdb9cf7;0x78478384a56ea;0x9fc9a3ceac0fb;0x98fe16c1b5803;0x53f4862359f86;0x71a89d1a8463b;0x8ff0a83ce68cc;0xb257d6ad26e01;0x20e259f68d2];[0x0;0x601c5fb409752;0x336d6c65b7c52;0xb77ec2101d225;0xf510dd187e368;0xe5646630c3bf4;0xfd3437e609031;0x77c8be9b6d9d7;0xd2b925af1302e;0xa3102db2c61cf;0x254595b112c];[0x0;0x9629a760b9ff5;0x93ceca7ec5652;0x66ae87d59e0ac;0x6b732a7d60d7e;0x373dc1a7d1ab7;0xe0cb0342b40cc;0x20b7621d686d4;0x327010325b17d;0x9ae3fa7a8a82a;0x61bc17a41ddbc]]);
 ((V [0xf214c57297849;0x2f6f01521ecd9;0x5f68012218d;0xdbb435cf95a17;0xc1464dc24c5ea;0x5629691c13659;0xc46edf6d8ae15;0xcebf479111e07;0x17a876d5ec998;0x5ddb2c91186] [0x3a4b04ceca31a;0xc55a7d22fa7df;0xa41545c6616db;0xf818a3b4038a3;0x55ae05819538d;0x8add70dac9553;0xa4856519b6310;0xf543f38f110a3;0x16b9930ac63a9;0x4f61466b4c0]),[[0x37769c291b3bc;0x2e93b20753c20;0xcac5ced332bc9;0x6303738b3368c;0xdafff9a16118f;0x591bb2d7eebc1;0x82125ba1272e6;0xb235e55fbaea1;0xca7a3a6c8e577;0x5ae79be213c];[0xbfa2601c7e991;0x6464bcb29301c;0x4cae13ca3fee7;0xbd3d37c63bec0;0x782143cab3506;0x61001c0c49c67;0xab438f3859dbf;0xedde7d9c5998;0x625b1a9f1280;0xec6dfede122];[0x0;0xd2bc9a81dadd9;0xb162ba5ff392a;0xe02828e9c058b;0x8827e61934d27;0xd1e38efb8c45c;0x91333977a7858;0xa86b58a00a471;0xcefa853fe49ef;0x36864be0c43f6;0xf42b06d2461];[0x0;0x6c223c7f3a5f;0xb5b3a8e3e24ec;0xec8c5c908750c;0x1989b45f4ddeb;0x47145d6e70e2;0x5be62dfe7dbb0;0xe78145a70ccaf;0x2670f412c9aab;0x84fc0648fd270;0x1bcfd81e83a];[0x0;0xaaa44d3ed95b1;0xbe9688e67b80d;0x499ff272cee4c;0xdefd61c449544;0xff52a690beb86;0xb8f19aca661af;0x2ebf4ed01e6f8;0xed402a2494326;0x72cd6647c6d4d;0x2047ab25a6d];[0x0;0x1dd710bde4128;0x342a919d38ec1;0x971638eda7792;0x82c111bfc3a4f;0xb57853dce921c;0xd685096ee3ca9;0xa948e38030ad8;0x61542cb68a5f0;0x6c381497a553f;0x5b79f6fba26ca]]);
 ((V [0xc5d93b7110ad4;0x2bf5b4ba5655a;0xba74238834d30;0x35b96fe8f5c44;0xd73825dd3df05;0xbc79e129ce33a;0x8e7b381a28aa0;0xab88e8cda0853;0xac6ce787b9544;0xdec4ee94b4] [0xf695c7a4f2e9f;0xcf53e6a57d52c;0x5d41cedc56a74;0x4741ab2098c17;0xabdc83e7e753b;0xd8ef29183f44c;0xbb85f402cbb7;0x2be819e48efcd;0x26a892ad023bb;0xc41f07463c2]),[[0x5c2ab93caf503;0x3c86ecb8b944a;0xd25d584089da6;0x8af3030e764f0;0xff1f01407f258;0xec7369dc04062;0xf5dca23d2302a;0x7b1b1b0e5b89f;0x9ae25d65b4fae;0x1e89a8e7b21];[0x98567e096907;0x469382666dad3;0x94c9b6554e12f;0xba70f5cf7d52b;0x6b912f2abf077;0xd8f6ff3636d21;0xbd5f419b4ce9e;0x10cbb1404233a;0x364c408b63eb0;0x473691d9919];[0x0;0xbe66b50240de6;0x3d936edc7324c;0xd66111eae2c41;0x7bc7d2f0d2827;0xa62b77b3b307b;0x4d2e7ada939d8;0xa382d8b12aa8d;0xe61d9ef41be34;0x8bc6c2c09c5bf;0x2268fa06b3b];[0x0;0xd088e3ddad025;0x10edc095e2e64;0x54ba05b5e47a9;0x4349f2fe25d74;0x1dc644746ed15;0xa6a47fd394432;0xd24fcd96fb71d;0x3efc97ca718e4;0x4cb0ec29608c2;0x12f02b5de11];[0x0;0xa01d20e1dc445;0x9fd538a76a630;0x6137235cf9078;0x6214546f4fd63;0x3e16c9a31947d;0x930081c7eda84;0xc18c359d03bf8;0xf6eb39700eb8b;0xb8fc1dd8e7ec8;0x3a48d9c852];[0x0;0x391c35ebcc32d;0xb6cc021f05ba8;0x4db2f552e4a89;0xe74df9728dfe9;0xa97bd93a2d1bc;0x7c76e232e7124;0xca1ed2d5ce1e8;0x1c6f12efa600;0x97a057edf4f65;0x1eb1bb8a252e3]]);
 ((V [0xe33e87f8b770f;0x9c45a2825eee1;0x9f9c473ad275f;0x29e33d8b388ba;0x9d0cdd9917045;0xad8a9365d5ed5;0x85b49b16d9717;0x86482e26ab5f1;0x510f54476a479;0xe6be7d73da5] [0xbbf03133cbfcf;0xa8857f8037ce;0x51854e3bd310f;0xf27d0235f151;0x14b8c09034a15;0x741a454cc853c;0x5ae3e4746f051;0xcb83ba77061ff;0x9e70175fd2e1c;0xd8160af21e0]),[[0x88b1266bb9aed;0xf96a6df18246f;0x19c5b2e204eaf;0x2684bc8cc465c;0xbc5fb199e0b4e;0xa9967a1a11f3a;0xf692463fc651e;0x27813e14c34c3;0x224b920ee938e;0x8d009e8b104];[0x6651b988b6455;0xb753f724a4576;0x12642ba9bf93b;0xffe7828a4a4f;0x494b1fda3af1;0x8b875891ca152;0xdd90f30079fca;0x32c3f6ef53cc2;0xcdb1065ba5842;0x9a14a08ede5];[0x0;0x78079efd4c6ed;0x98ad07d2ef4b8;0xbca3b32eaf7f;0x843d2a026eae6;0x3a4081875211f;0x41f49ec9b8539;0x8be7d6b63007;0x544dd5679d368;0xb688b3a534c9b;0xc1da25481];[0x0;0x281801ce78b45;0x41327e9c73a6f;0x23e77972361e0;0xd9e06d41e8143;0x9a614ec6d8e29;0xa1b0106e4ba29;0xf9b3f867ab4e4;0xcb36ca4461625;0x3bb07cb1f2a3e;0xd80b20eebdd];[0x0;0xd6fe9dc9f1fbe;0xd32e9f17bd131;0x5fbd762e4e3a;0xeab608565938d;0xc4d25860929c0;0xe7bdd4ff96041;0x1aa4dc6e970c6;0xf193781edee75;0x8d0103c7789e8;0x4da9aea5921];[0x0;0x60a8de71cfb62;0x3a4edbbc36e28;0x8b6bfb6415a6;0x22475ed7ba4d9;0x246892d051f29;0x56189f92d9740;0x45ef56753608b;0xce7ba5222b7b5;0x414ba9d1aba5;0x8d1632dfb1810]]);
 ((V [0x30aca20aedee3;0x8fca4e702aa0e;0x170792d45996e;0xe03ea077c7c96;0xb30fc71ddbea;0x5ff614a7a5cfa;0xdfd0abfdc13e9;0x2a35d5e696234;0x20a9da6054d48;0x3b016e0a422] [0xe82baebf49c8c;0x3713136be6439;0x1d5e6a1e11420;0x3532099d13cc;0x57d1bca3c70c1;0xf91cfad1237f8;0x98972a58e160c;0xb0913a527759;0x4b2e8df2e590a;0x638ba88a9b7]),[[0x7122a48ed96c4;0xced6df75d37fb;0x6e1ebad22e96b;0x87e45e702e561;0x1cfc3f9dcf459;0xfa70aa72bc700;0xbadb828fd8a9e;0xab99d50369cd5;0x6c22c3826a295;0xb687f9c73cf];[0xa8e8700752f64;0x343b23c104219;0x53bcbfcb350e8;0x214ab0d06628f;0x442989f52f578;0x9051b3d76e56c;0xc2c1ea5f912af;0x1dafcbc47f2bb;0xf38e82c4be3b0;0x1582c795a81];[0x0;0x805001ad2049b;0x62ec7e441f7a8;0x986115075c511;0x6320f283006a2;0xf3d850b02715f;0xef7547e6dffe3;0x54e2ba83b22fa;0xdd7c92d6429bd;0x34862d8488e03;0xcffad72aa1c];[0x0;0xb86686520fab8;0xe1bc769337e90;0x28d2b8ba9f74f;0x44cb76483397b;0x1e3e44d876e4d;0x300b143ac4478;0xe70bb0083d8f5;0x40ec46b0a8414;0xcad0c44706043;0x13424e47b088];[0x0;0xa38a602de4a79;0x4c0f2596a1a84;0xfd09023786f24;0xd6769968784c2;0xd8478e87c609d;0xebf7885ea08b5;0x40ef354feca6d;0x38c6b6d615acf;0x657ff865aa6c5;0x82259f60ae8];[0x0;0x6179541b3c6c7;0xc6d69aa7cf78c;0x3ba306cf70349;0x201f177ba4b38;0xd7eee5ad59aa2;0xe9d25d65f275f;0xed171f4c6f6b4;0xa39e912a86e1a;0x7017a7173a9be;0xb7b8f5623cf37]]);
 ((V [0xa96cbf0d011f4;0x40f6431d6e75a;0x8bf03f13263a0;0xc35768fb6e0b8;0x2f20a87fe5eca;0x34d80bbfd69f6;0x8caa65fdacfea;0x4191ed6d5462e;0xb494da4150976;0xc941534560b] [0x4d15f043f1cb9;0x58c1c4bf402ae;0xe921e826b41d0;0xc4f25a33e8dbe;0xa9c5d82f211ba;0x590fdbf9b0346;0xeb2c7b7c560c3;0x7a02728b3be54;0xfd3d7d2ae62c2;0xdbb8fb522f8]),[[0xf938aef717719;0x37516998b409e;0x7bb3299c3355c;0xef25d30957447;0xccdb44f1f5852;0x9a9c61af1553c;0x4092e82eca10;0x71df8420ccc77;0x1999f26e06089;0xe2303f6c398];[0xb47ce6a868bc0;0x8cb2b3d81c0f6;0x822ebad098ee7;0x64e36a89740fa;0x5d07595f4039e;0xb85c5275a4c26;0x8fdda0edb0ba5;0xa408d512fb24a;0xf43e2ef1c005b;0x3bf390acf6d];[0x0;0x9f9879a48d62f;0x3c3b701e32ba2;0x33f8378d1aecc;0x3a403ce5f8d09;0xb1f59d0d60e23;0xa1f5fdde9e472;0x800b5027d5645;0x80c4ba3cba2c9;0xd06673c9f9ea7;0xd99a8bac5d];[0x0;0xbb37be345230c;0x26ef2fbc09994;0x895647bd253f5;0x1b041cb8c4679;0x29141ae240cd0;0xdcdcd8aeeefe7;0x6f39bfafeaf9c;0x943a8d893f892;0x7c06325febbb6;0xafe81b46d5f];[0x0;0xce947e020b591;0x9c859d0f413b0;0xd3881d041e734;0x1bff65b84db26;0xd1c64963f0be0;0x9ce43b28f3d64;0xfb753b1108cdf;0x2b532ba790ba6;0x4d5e4f833aa07;0xc7d93912edd];[0x0;0x92dc6329dbc77;0x622c6ef1c830d;0x961e068ea53c8;0x6ceefad1e0188;0x79f74e0a68e10;0x328bd2edbd6d4;0xa24fdc1ffdf4c;0x3c93d1f3a47db;0xfb3a0fcff385f;0xe294c0740eb2a]]);
 ((V [0xace85217b8b15;0xcfeb639efbf1e;0xd0ea19709218c;0x6b95261041345;0xaadda60794fec;0x5530c5bd59d90;0x998c6578be4d0;0xe1ba875ef9768;0x8e605d3177de0;0x590503b6859] [0x76a4f92bae53f;0x430a0af458c3c;0xa4d886c194ba3;0x2cd0e5fe1596b;0x810165ed242e6;0xb9dfee42cbd24;0xa005a2e04a21;0xe391f74ec071a;0x69830614aee61;0xa138d47f0c4]),[[0xc9f3ec2c6906c;0x1d2c348ab63e;0xbcf05a5df4cbd;0x91d490d6333d7;0x4bf79b3e1be2;0xe09073ba84ac4;0x6bb805fab3c00;0x136cc14b839a6;0xa3cbecfe288f3;0x52f7d980645];[0x7abe6c1a257cd;0x1fb990c37ca9a;0xa62cfe12dcdbc;0xa7d3b5b8282de;0x74fac84445e7;0xc41c95f63410b;0x20f632e05f4dd;0x131f373ab89ea;0x5e73297e895b9;0xa0e7db284e2];[0x0;0xeb10b7995d25;0xd893b070a9560;0x593a6d1b67ef6;0xb837a5db497b2;0xd7e7b8dad74dc;0x17d1f1f684eba;0x315aa67cdc682;0xfff91828d9d06;0x747bde02137c8;0x9e37a56e563];[0x0;0xe4d2ba2ce95ab;0x76ce2e99729e5;0x1e50b90717cbb;0x5d16fefd38052;0xe909c22e4098d;0x5613df6cfa886;0x6bbffdc709672;0x83f89e9934710;0xffcc19e9765d1;0x8e6bf5519e5];[0x0;0x9129792f168d5;0x13cd41cfed7b;0x53401afad311;0x7083e233d3b58;0x3fec64a3079b6;0x4279be858c74f;0x9b7a06e701ab7;0xc33357a4cbd62;0x65f90f1f12161;0x1ae3b74baed];[0x0;0xe69a09f81b770;0xf14ae3a84ac14;0xc96f40d970d0b;0x98173e35f186b;0x1d0def46c48f3;0xfc2c62aa69218;0xdd13e2e665077;0x731ac8f160aea;0x46ba0c55ff14c;0x536f3154ecad3]]);
 ((V [0x40f0fee5191d7;0x7ad757b218666;0x12db420aad790;0xea7d2d7121460;0x7fb06ee68e123;0x4a22940af54a7;0x8bbdf6cb1b373;0xbebce82f83700;0x14cbe1c666e0d;0x8cf9b87cec4] [0x99269e81caea9;0x60fad5b89dd61;0x2ec1004f0ace2;0xf50d5c220a8e2;0xfae85623e82ac;0x805532cc1a04c;0x17e7d67ca8201;0x498408c90f6aa;0xa4cec054f02a7;0x4fddbc8bac]),[[0x77580b93e8dec;0x51aa350f7bbb5;0x84b3b081c1b36;0x1834a94f8e6c5;0xa58f48cdd935b;0x34836f079662c;0xe5733424c4270;0xcdf81465a67e5;0x60cde2e6cffd7;0x8c50909130a];[0x45b16f6a152ee;0x670a20f528caa;0x3299151f93377;0xf388a085613b0;0x76a3ad77f72b0;0x41c198132cec9;0xfe2e32d156d0c;0x8bc99e7147526;0xd179c00ad676e;0x39c77ff0522];[0x0;0x1f5a2530e58dd;0x5a6855e5e2d1d;0x2c521bf0f577d;0xb53fd168d8017;0xe6af123b06d75;0xe352f55ef47ef;0x96712929eea5a;0xfd065095f0517;0x3512cd98401ff;0x1ef47cae0e1];[0x0;0x3a3097a194f96;0x50145812452b;0xdd3f532bd793e;0xac64d5c1edca7;0xd3d6492d06fd4;0x8aa90427e3fc7;0x9378a5b55d1a;0xf8e80e777cfe1;0xafde7c22a2881;0xb0bba206938];[0x0;0x38a6024ea15f9;0x2e3a889fc1ea;0x3a35e39e51161;0x3288c151ca83;0xbd6f0e85e7937;0x1dbeb75ed6fdb;0x1f296144f5c36;0x29a75605d62b3;0x7aeee01777467;0x4ce83779799];[0x0;0x61a5582d568ac;0xadef9c2e1d8ae;0xff5e656bc12d2;0xe2138d4d1d6e3;0x2b0b0ac13f9f6;0x21def98259e66;0xa9ae550fcd855;0xb7ba76d1bea87;0x52af1de949f0d;0x8cc066f515bb6]]);
 ((V [0xd77cd8a8828e7;0xe02632ef4b1b9;0x70c1fde817fdc;0x8609f5bd138c3;0x7eef6ce3079a5;0x8b49cedb43904;0xd73471194bddb;0x7f5a6fe514e66;0x1106c50d6f711;0x826c9888b07] [0x8b95db18cefa4;0x45767296cd550;0x21270c8811c6f;0x3453a05d96d2;0x25b88b92afb08;0x9265a5dd6beb4;0x42e893afed6f5;0x7997700b6ad09;0x7bf3ed4c83efe;0xbdcb1081b39]),[[0x402b570690655;0x779592ce9c503;0x17900be8796a3;0xc32933fa0e12a;0xf2f905b867453;0xb462fb819d403;0x2f81439671cf7;0x8a74a3cf9db5f;0xf444036f47470;0x7617cd6ee88];[0x8f76b4672ba0c;0xc221cb355333b;0xe9a528bb8138b;0xa9dad792d32ae;0x13d7650afc8eb;0x36343d986546a;0xa656fd68c4f4e;0x3914424d87b0d;0xcafb23a68dcbe;0xd693f1d4721];[0x0;0x350f1a178b753;0x9388e765997ce;0xdeb11ff7315bf;0x7e6d23984f9a;0x63a98feb8456f;0x3474fcc8fd212;0x3328ba75885c8;0x74b2bde83026b;0xed38ad07f5ec6;0x4da215610a5];[0x0;0x69f150496091e;0xe33a3c929b9c3;0x30ade9cdd1343;0x3ef062c71a74a;0x6e70bcac8bb96;0x8a86c3bd72436;0x37b272980a313;0x7b71fda44fabd;0xe1f8ca6fe682e;0x49af43d6f7];[0x0;0xc53575482273c;0x2ae5f7c9a2d48;0x921a35cd9297a;0x1dfeda0a068d1;0x76cbf74725ce8;0x9690c320de129;0xf4771c22a9a25;0x1df75be213d97;0xcad2b97e4b659;0x3679f398cd2];[0x0;0xa2b0e8a1e52da;0x18f5dff86e2e5;0xbff6e0b1460e2;0xe1fd6ff6adbe8;0x50241483eb96;0xc4d4c574f97d5;0x2191f588b1cee;0xf47aa66e69f57;0x6fb6c10088fd8;0x7692c344377f2]]);
 ((V [0x846df6319eb0;0x2fb00774f9ca6;0xb11cfd86332a3;0x3024d32a8c73c;0x330cba4e082ec;0x8ab79ff05e6bf;0xdc35a479eceaf;0x4bf6a03c56332;0xbd8cde7ff556c;0x5ec8f97e836] [0x33c8e350e9cc4;0x3632c246790ec;0xe47266832de28;0x84153039fa27b;0xb49a138ab2afd;0xd85491631d60;0xc958c0d03e144;0x759168a31a1d7;0xdc3c343816e4c;0xe19172c3db9]),[[0xcb62959cd26f2;0x52bf049779709;0xc0c3791f77eaa;0xa1730690ee616;0xb32c9bc0df853;0xf7b26e0b4661;0xeabd688b8d7dc;0xcc1d31b46a292;0xa552177addf5;0x2d2b1c62101];[0x13a1ad29617c6;0x23e6921b633ac;0xc8f89b89ea2e4;0xfb8286e2508e5;0x59c7f20fee5c0;0x6832f0335b03d;0x8f6e0e8f6e73d;0x66fd3696a5974;0x9d03e202ec269;0x100e61a9b7c];[0x0;0x4622066e0dfd;0x67a0ce69ee43c;0xa2ff62fd1fe6d;0x59e963f1566fc;0x47dcbd804c141;0x6a9a7c2f72d45;0x31abacf8cad35;0xd5bb413321d31;0xa4e9612bc43e7;0x427278fbe16];[0x0;0x17a6cb1c46336;0xa99a249aa179b;0x5f3b46501c33c;0x26a133cef420a;0xa8826865aad9f;0x92a09eb86257e;0x7077233dbf3aa;0xdd3e047d0601f;0xcc160cac5e729;0x42f9501af79];[0x0;0x54b677f0c098a;0x2ba7d7af942ad;0xf8e6cf9e347f8;0x930b5d7622424;0xbdfd4d4504814;0x4f2f882ca9210;0xce402e261fd13;0x2ce9c1d0b0612;0xcd8ca57bfb30b;0x7f82f3d05b];[0x0;0xbd008f3ad1eac;0xb0dde99e9f594;0xfa37370ff2fb1;0xb642a590a3c50;0x8a45b91ce6a93;0x254ae4f3453f9;0x1287a5d02fb2c;0x287c556b9622e;0x9fc11071967be;0x2d5e9141d62d9]]);
 ((V [0x624d28bfd47ab;0xe27dbfb8b4583;0x3f2627e0329d8;0x75132920a09fc;0x14ffb2f4416ec;0x2c03ac9f330f1;0x99b919139a624;0x8df6078484fa5;0x6d112cf307233;0xe617bd66d6f] [0xd5724765c4c59;0x2bcf2d501efe1;0x94ea44038b987;0x5df6bccf0beef;0xcf066704a5e74;0x76c65fc0ae8e7;0xf1e83655f283f;0xcfaed32a5e878;0x62983d8d37cc3;0x4b96208ead4]),[[0xa29d1d308f9b5;0x583cabb989a35;0x61e625282805b;0x9440a0fc98b26;0x5e0c87131b2c7;0xdb46f5e1fd4a6;0xbe139d9812c1;0xa22a4ea0f2993;0xcfdfa8800a25b;0xf2b5dd331bc];[0x3781e45cca0;0x2f7e0af4f9555;0x890494e1968f2;0x6bebd4d1524e7;0x4acd409dd0e8f;0xd8425b040f308;0x3a64b1f3decf2;0x545963f738f93;0xa334b62a82f3b;0xff44b2d6afb];[0x0;0xc4c79ecfc30a0;0x647149989f31d;0x14c08cdf7885b;0xbeedbc8f11cba;0xdfd7f879178ff;0xfc0e54e1bf362;0x345a6531eecc8;0xc3afef61b7a9a;0x7e5e7657b8701;0x231834ffb15];[0x0;0x726125496b25c;0x2cbca4f2c09d7;0x386c061ca9830;0x35b5c1dbfd996;0x5944e85ad4961;0x10cfd22bce7bf;0x33478be4f661b;0x82b00bfae533e;0x2a40317a98550;0x1abb77a75c54];[0x0;0x94afdd74d9ba2;0x8eb3f1c6e507f;0xe62f42822a4de;0xe52d1be01949d;0xd9142061133ac;0x15036d15732bb;0x9c8d20efdd60d;0xb8b03c3c63842;0x62840d29a2636;0xe61c576729f];[0x0;0x2341d04e050e9;0x9aa2ade3a2651;0x6d61f583a2833;0xcf47004116ab6;0xa320c258d9e1b;0xe974da34db59a;0x2e151618c404b;0xe72570f3ece3e;0xc497d5fffd57d;0xf3284a7b82c40]]);
 ((V [0x373c78c86d705;0xccf7bd3c1c39b;0xc55bdae9aac1a;0x36a641c3c5252;0x6171e707fdae1;0x8a28d5be2830d;0x5bc03f440cce6;0xd2838c6e000e0;0xa8971990d0504;0x8160c3fe0f4] [0xd4607dce95b71;0xfa44dd72bdff5;0x679189c3435ea;0x2fc93346f2636;0xcc522fd98339f;0x169cff322960;0x55ba373442ba6;0xba27cf3db4c8f;0xad190918afc75;0x66d28cef254]),[[0x9491819f35a5a;0x9c958c1f57600;0xa3dade94262f7;0x560ef171c991;0x55e24d5363ae2;0x50686f558bc56;0x93c2e73720c84;0x92acb984d683d;0xd57f0c9c30808;0x3f8292e1dc5];[0xcd826ffd3dd23;0x937298873649b;0x6c583ea5215;0xa425b16e32544;0x42e148cf87892;0xff0875a665b54;0x1c686f15819d;0x2f8daa0bd9797;0x6607581525392;0xe7545b0d07];[0x0;0x7376790ad903a;0x8e02d0b372c3d;0xf3a7cd84a43e;0xe2a2eb2713a7d;0x3015c7496b68a;0xc2b61e609a371;0x415910d88b39;0xb8dfa022714d3;0xf22bfcf923c55;0xceceaa885ed];[0x0;0x4b12f96f85361;0x460b32d9635ef;0x2546439b0fdd9;0x25a95156fc0a5;0xbb73a9f40a411;0x378bfa55e8dd9;0x82624c6f43dfa;0xe6e07582b4876;0x9a318c78d177a;0x2580ff3be75];[0x0;0xc844a7e29486f;0x2210de0677dbb;0xd851b256a4022;0x8e354c7140825;0x4b489c6b1f46a;0xf050258832394;0xe55f056541bf0;0x5cd33a3ab2348;0x26b565eeb49c;0xfc186e4ac2];[0x0;0x62934878f9938;0xb4fa93cbdbae4;0xc6d85f7c3eefd;0x51499944ff19a;0x50215f59ebdb9;0xf7ecea6c7c80f;0xf7fb98ffe3115;0x9f6a0123a2e35;0xf0236e895959f;0x3fdb11dad2dfc]]);
 ((V [0x22e49360c7b00;0x5c674133bf463;0x2fbc8ce4c54d0;0xb1b8dc15bda6a;0x34a21d9ebb79e;0xb55eeb61faeb0;0xe868e3ba0017f;0x58d7323383adc;0xb72e216813a2f;0xcae500cfd89] [0x2adf5233688e4;0x74d883d93e9f7;0x2696cd73d1686;0x714c2f13ac2b6;0x60a5db6cc2167;0x84be2606631ec;0x236857713a1ab;0x325f2b1054321;0xb9a323e185a97;0x1fc34829dc4]),[[0x26e7d371f9dbd;0x4807331a012b8;0xd9c80934e6484;0x18390a771f468;0x697f0b5112f12;0xd6f4ba9ee4c1a;0xeb473a4711af3;0x4ab036a5d11;0x4311ba44992c2;0x3981d099ee6];[0x7601fd573e2d7;0x4b3f8e65750f0;0xf23c9d2b1a6b;0xa1b877c804022;0x716dd589adbbf;0x36a723b9d7511;0xce5faad05a17b;0xcc6ca997b74e9;0xb1f520fae589d;0xf51a34107e9];[0x0;0x515c4cbccaae;0x18f0565549726;0xbc33f4f18c4d1;0xbd3806585130;0xfe5527aa796d3;0xba14fbef734d;0x1673fd0211799;0x3aa88ecc335bb;0x19dd977a78737;0x4162aa19a00];[0x0;0x926a5681a36e7;0xcd41394816679;0xfb57b79caa735;0x90b30e463cb91;0xc1b8f3ad0a24;0xa2cc1ec614795;0xb424844be26b2;0x7fc39949128a4;0xff32b4efe632e;0x2e320a8653c];[0x0;0x3383fb4327389;0x9b86731243d5b;0x7cc48584120c1;0x92456eda7b454;0x87624dbf8841b;0xc81d893dd434b;0x768d895e4e621;0x68ef8573fc65;0x55ec96e926608;0xceb10b8714];[0x0;0x4098bb0ad0b81;0xd4d936713eab1;0x1e99530164c63;0x995eef36e648f;0x648ec946ab7f6;0x3680a1531add2;0x1f1438a65cbd1;0x486ea54e68a19;0x353c026570d18;0x39aaceb173512]]);
 ((V [0xd423177b11a7a;0x6f928b4170515;0x87fa0d95e46a6;0x26492eea88cb3;0x90f8b94115ba;0x52084c64f8e31;0x3a927b2aa3511;0x117f0b51ee9db;0x75d63313184ea;0xca69b7931da] [0x34b09f57d5b24;0xeca6efdc8bce4;0x9b75d5fb20e2a;0xa595c5540a9a4;0xf461ac6bd618f;0xc778a53d6a376;0x6f65c41997f24;0x6854c0b779aa8;0x3ceb5ca596903;0xbbff384934d]),[[0x562b16ea6e1f7;0xcf6e8295dc048;0xa404cc53e4667;0x39f2a0e8daf21;0x7d930283b801d;0x98ed39b511e7e;0x696bf257c987b;0x776f9c30e90;0x3b168531b5e40;0x39464b4b0f8];[0xa8b9dd78958a1;0xa30f319a268bc;0xe01588539dfd0;0xae7b57d9f62b8;0xc1f361697c21;0xe28f258db5bba;0x32808bd40d464;0x1a5f1fdf24287;0xaab3a862031c5;0xcbd9cdb06f1];[0x0;0x6a9acd1b1e9a9;0xb3b12fb531c84;0xc327f1780bdc4;0x249a6045d32d3;0x10d1ccf4bcbef;0x8fcfd17a828fd;0x570d9bbd483c9;0xd341b2df9332;0xf802856aaace7;0xa0ce322275a];[0x0;0xe2449e7d0c927;0x398231db8a481;0x50a1ac5ee2b07;0xf253a7f4dc0a;0xa46c8bbc3634c;0x4b8b9511668a2;0x6748702b744b7;0x6a3eb772a0a78;0xc83f4c382d8f0;0xe36679d278];[0x0;0xe09170cf4c171;0x1081180d2826d;0xc041be0f1f1e3;0xaa4a2b3e86639;0x234361824c15b;0xde03f7a90d3ae;0xe8c836c0e0526;0xbebdb4847adb;0xa321ebc1d694c;0xcd060d4b01];[0x0;0x8336e1a0323a5;0xb3b78f9dd3b5f;0xd9e29530ed3d9;0xc5d359aceddeb;0x29770ecd34d78;0x8cc7a21b7a160;0x1ed1d1138c0e8;0xf150c15457381;0xb498950f246c8;0x397fad2b83620]]);
 ((V [0x4bb387f56e427;0x91915a1fe932;0xd1ddc3ddbca0d;0x66bf33e2a8a12;0x21783ae33f8f5;0x2389b4e9142e6;0xd712d97b5cad2;0x79241521617d;0xf1906ab960320;0x1d68def917b] [0x9e00a0367a768;0xb30cef0cf1e3e;0xb6c5c772e345c;0xcc7804b5b1587;0xfc9f2d40c46df;0x4d0e66a40cca;0x29c642b6ce43f;0x9253bd85aee3a;0x512e0416f284;0xc82154366b3]),[[0xe15ee3b19613d;0xa31652765e0f;0x43a8288320ee2;0x2365b3822529b;0x7ed84e6333303;0xabb30ecc8dac7;0x161712f795c75;0x315cb1cad59d4;0xc147c6c890309;0xf75e6b4e874];[0x202858f9e043d;0x828a25328b81b;0x58df9b7926d6b;0x59748dd72a2d0;0x7d1f69435474;0x208c21e24061c;0xa579cc0cca766;0x91be9a048e824;0xb15afb898844e;0xd3d81b8e7d5];[0x0;0xc53293fab7ee1;0xecc5bcb7566c4;0x1f7e62816131b;0xaa02e998e3fbf;0xac4b4d047288d;0x6c28fca41c0de;0x8a8c0219268f5;0x2924c0cdd1893;0xe1b9b7e28e933;0xa00b015c451];[0x0;0x78ada5db791eb;0x4534c47c7b0f5;0x62c215b4f15f7;0x84f82557ce66c;0x875a0caa93c80;0xe0390f807ff07;0x8dd0bbc00dbc0;0xf9a0e0988f926;0xdee311a785c4b;0x16b512ba548f];[0x0;0x8165fc357ad22;0xc4c3e0a940b49;0x7ca36f2b1ee38;0x27c444a5a8f42;0xc705ee8239adf;0xac02f6bf47fc7;0xe17948e7f56a;0xa054801c5039;0xae89777cdeb3e;0xef0755e483b];[0x0;0x567bb9f3ea62a;0xadeba21b65f15;0xf3609ad8d3e56;0xbf118c5bbb892;0x47bbd29dd5295;0xd1cd5d7285fe;0x674324b5fe77b;0x100ff893ef17c;0xb11dee34ac88b;0xf8fcf559a663d]]);
 ((V [0x100b5840bc732;0x21432351693dc;0x3107f7b9ee2bd;0x897dcb7a9672c;0xc26cd122a904c;0x96469a7729930;0xdd19a95c15d46;0x5ea2a745fc464;0x29107c23258c4;0x4ed3c0f3601] [0xa62349934ca11;0x8bbac48344af;0x4b7a1ab7ccd3e;0x8b36b1dabb5f4;0x9ec9e1d7c29dd;0x6bdba11acbfbb;0xaba33740be7ce;0x1b2e6d3df0d5f;0x3448fac31c675;0x3877b49467c]),[[0xdf6ca384591ed;0xb7d140b08ca60;0x8381cccb1922d;0x4a13849ddfe88;0x555f270816f34;0x126b55b8beb04;0x2a3565d7fb305;0xae4bc456ac295;0x31b9d58e50b11;0xcbf7262f055];[0x47476b09a29df;0xaca3fe14b234b;0x1ebd2b24ab75a;0xa8ccaefdf4d6;0xc3ef3631575dd;0x976626b4ccdc3;0x148a6bb9de1bd;0x874ff8d825b2d;0xdc9817fa663b5;0x7d447384f77];[0x0;0x31f31bb92b35e;0x2afd8aa35c632;0x2dd4fa58561fd;0xb4d157f48bad3;0x91af630af4315;0x4b544e9efd184;0x6998688dc1978;0x5036372a454e8;0x98e7e7ba58c4f;0x360ed7a5bf];[0x0;0xa788e0f916759;0x85f8abd73cd54;0x41541782e9702;0x2e45d8e8d02f9;0xdd8eef96c3bd9;0x16d87e8638e23;0x9fd5c90c20dad;0x3bed059dbdf8f;0x1c9dd1c3af1b3;0x13ee74792389];[0x0;0x2ce242aaadecf;0xbdd62ffa8e2a2;0x345ea642e88cc;0xcf22426c041ef;0x482d59aeb652e;0x2b878edc85de5;0x1856b1491f1a0;0x1a68f83d28cf2;0x1262756ffdc3;0xa281e52946e];[0x0;0xe1593403729d5;0x8b62170280bd6;0x7f238ceff4c10;0x77fb323879eb8;0xf32ff595884de;0x97414293ffe4e;0xe222e6be37797;0x6634766251837;0x6fb2f1fb81d7d;0xcc9bbdde83e76]]);
 ((V [0x369bc3afc8455;0xc919e75b1d33f;0xd64158646c8ee;0xe7fe10244da91;0x18e0a09623bb4;0x95f53759f2148;0xf42c512ec2c8c;0xd4100b23de0dd;0xfc61c96c50ab2;0xdff2957428a] [0x50795b2f693ef;0x33176d715b7ba;0x24cc5f5c8d8fe;0xf40a8ea4269d6;0x7c16a13b3c475;0x54dc027e3fdb8;0x1144475491d1;0x5f93a6ecedbf;0x5e2a9b8148818;0xd812ec6d115]),[[0x2ca84f086fa0;0x80b91fcb17d97;0xeda3ea1693597;0x9b35b3be34066;0x1529083eae57a;0x5c6c71582d22f;0x20742f83d6601;0xd74b0e90f89fa;0xa93a9490d71ff;0x458bc90d166];[0xc2a649c723bd2;0x9a37070213a1c;0x502b7d0fd7f94;0xa723fc74e0044;0x288cea3db597b;0x70f79a7ce2e4c;0x34bf9d4ff357;0xae963da216ed0;0x87d4be0ba1990;0x638dff6edf2];[0x0;0x991fd2414e7e;0xd12c31f2d6e8d;0x7202df353b7d9;0x87740381f9eb2;0x8eef82bbee56e;0x45e48f6a304a7;0xf4c4043ef198f;0xb7010caf04022;0x9a6772df9b33a;0x1845b8bbf12];[0x0;0x976bd131685ca;0xf1a55321f86c;0x59a262aec262d;0x3389145f6c9da;0x14c65762881bb;0x2bb941185561e;0x17783355f0f30;0x88c41cbace501;0x4ea5446baf20e;0x1eae3207d8b];[0x0;0x5bb7ad15d5081;0x2657e06ee063e;0xe063567ddf07e;0x7476fe885aa2c;0xb4f005db45f66;0x768f55e4a3e00;0xd41e8c7fb3a53;0xf42e3dfd0c575;0x159343fdfe5b5;0x12e4a6b5003];[0x0;0xf15c32745780;0x59bbce47b855a;0x228afe4b66468;0x2a8c04f259668;0x95176b6a32aad;0x48f9fde65a51d;0x6c976509f664a;0xa59d835bd74e2;0xff77e8ee1359d;0x45a9e84926c8d]]);
 ((V [0x5d5bf2201464e;0xd6356a6727904;0x1716458b57ffb;0xd0316beee3ed6;0x2300e8acbb3ab;0xe5f6f9f05ad68;0x668ecd0a7ee41;0x24b9f502d6bd9;0xf57db3289db15;0xb869421778b] [0xa7a2b97f6ba92;0x98a5876086e18;0x96a12dc2aa74b;0xe7c04fd40e1c0;0xf71d08a0c81e5;0x954e92c26a67;0x53fc7db8bcd43;0x64485f559aeaf;0x5a1dd09b2889c;0xbe58d427841]),[[0x5578a89a5046e;0xb98424e98e473;0xc5a6d4a1a4bf7;0x561b37acab2d1;0x49afff1379b58;0x3091814f3bb2a;0xb268acb093cef;0xb2dedcbd76c3f;0xff7f9a96dcf96;0x3b04d416994];[0x551bb017d5059;0x1564b4811a739;0xcfef8d90c9065;0x30729e64eb56a;0x29f0c435e564f;0x5542e4b3923a;0xa6e428ec8d040;0x6f5948d39d3ce;0x7d67524a7398a;0xaf2cc54973d];[0x0;0x342f67b236d20;0x5ca20d4588bf7;0xefeab79b0e7be;0x277b8378cebf7;0x471fa247a7f69;0xc14b8bbe321ce;0xef27d651874e8;0x2c16afcf0b633;0xf9389df188d2f;0xc3e8863f45b];[0x0;0x678ac5b56c4c3;0xc487a342b2e7f;0x2f8100ec7e3d5;0x18837b80a7618;0xea55c33971d59;0x24315e7d548c8;0x49c218e686a12;0x83eaf5f185c86;0x90580cb695faf;0x63a0df97270];[0x0;0xbed9766a59d54;0x4092de08fdc4b;0x659fe2ef8083e;0xc6ba929523e33;0x3431192b84e8f;0x334feff83405e;0xe10be0d1f3771;0x5aa9233345b75;0x516b7fc2ab808;0xd9b39d9bb1];[0x0;0x6bb33feee0de5;0xbfcbb2eec4b20;0x1dba61857044d;0xa530761661726;0x1008ba007ccba;0xb3bae0299ecd2;0x9154ed4000e8;0x7d8cd24db3bfc;0xa72f74940595e;0x3b48f64fccc9c]]);
 ((V [0x974710b66199f;0xc370552581a2c;0x4cc401a2c34cd;0x6e5b96adb6af2;0x5b8fa3293ba0b;0x24652d0a4a02b;0x590cbb4022542;0xc7530f18d593e;0xb70fdc42e9ac4;0xe0580061c18] [0xf3d46e4887a54;0xdfc9dc5b0ae2e;0x4841bfad0452c;0xa4b7e4df949c0;0xc0655cca81656;0x677b8a6adabf9;0x664af2969bff2;0x8050b90b54ebb;0x7f809d2f0a390;0x99f66e4e1fb]),[[0x32783a8942735;0xca6d430b00e42;0xf85da285df7c2;0xd44c5877d72c7;0x7b31e93750ac6;0xbca293ca03a8e;0x1b0359e106e5c;0x337d341c701f8;0x81499dba06298;0x4e6d84820b6];[0x7b2996a7adc1;0xd324f2a226328;0x7b165c6b7edbd;0x2d35e9b19b790;0x9d505b0f6faff;0x4972f97c45715;0xce238c1005433;0x8ac0568a0b7f;0x8dfe969cd0e3f;0xe732d2d1b34];[0x0;0x7852d31e79e5;0xadba65844dfa0;0xd6408a07b235c;0x4d02b818fc414;0x789f5774dd296;0x571543a7e5798;0x91a86d3c39205;0xfc7d149d7d7ea;0x437aabf1860d7;0x84d77a4905e];[0x0;0x9abb09e10432b;0x94de23b831ced;0xffd6c873d7778;0x92d5c1f038c23;0x5633dd21ddd97;0x4ee5b78c06de8;0xe913a9f76ee24;0x83eea54cfba14;0xa4a71706ad1c4;0x74a0fdf9bc1];[0x0;0x94fa9d6c8b752;0x622732b146d01;0x6242e72b15e45;0x8da47a47c8eeb;0x183b5123cf7e2;0xfcf526f718374;0x5b7df5368b2ff;0x2117dd9f9f10f;0x781023850757f;0x1806eb995a4];[0x0;0x3101074bdc938;0x4bd14e971da77;0xce4e6107a3aa2;0x39a6f6b141d61;0xf3eb6a062f755;0x5de48699c2e13;0xac5df19b88252;0xe349f3879f9c4;0xb1242e5320d21;0x4eafb63340688]]);
 ((V [0xb39806c5932e5;0xe8dfc4a9f47fa;0x81770d0180edd;0x23482a7ce96f9;0xa364cf2bb4409;0xf45f8601d3ef7;0xc4bff62745a57;0xb7137981244b1;0x698b5e4d1819f;0x9cba1412080] [0x5f5b43fcae84d;0xc8460c5f651a5;0xd0294116f03d1;0x9c11d5adff6f7;0x906aecfc0f397;0x1a9531920f7ec;0x5919b8f805f95;0xc2d8cf0d51d7b;0x7f1f9758f95b1;0x9ab52be65f7]),[[0x9f808c412b884;0x5709e5d91045b;0xa3f1a26c0cf41;0x963f90c153a2c;0x233d369f3995b;0xf4657b01d8876;0xfa345a1bc0f8c;0x85cf188a6f927;0x994f089f4b2a2;0x315b8fa358e];[0xc2723ffb53de8;0xeb5ea583a75cc;0x9bab51865c714;0x4edb820f147b9;0x2cd0cbf493fbb;0xcc23514fc4e08;0x73ed2989655dd;0x1f74272d5e538;0x23f84bba08330;0xfc8d50f3365];[0x0;0x997661027ca5f;0x2db271355377;0x1ebfcbb0447b3;0xf64bfd5ca68a4;0xe65ea3de2e92a;0xde518bc013ba5;0x606ddfdaffd6d;0xf6ac03d3cbe44;0x93aee03c79b83;0xc49a1eeb55e];[0x0;0xce648e764a7bc;0x2406883517749;0x34a26f5d12fd0;0xec1a94cd8bfbf;0x69f1d70bd7e9;0x18da97af2d7f5;0xd66cb3e49c394;0x92c47835e7cae;0xd1a3ac8aa611d;0x3b5e78321da];[0x0;0x6e2d6428d16ab;0xb7fdbbd02694d;0x7e00b93f59430;0xa47746a958c17;0x27305c89302c9;0xe6917de37f63a;0x5624f165fac1;0x174bd0d6ffcdf;0x286a3448b904e;0x9842dbbf6c];[0x0;0x6042185e9b905;0x27fc061a29341;0xbe34489519bdf;0x587bf33a988d4;0xc3d9f07128e7a;0x6e941a79b2764;0x3bad15a234637;0x80258b882d325;0x1dfcbc7cbb403;0x3199f49c4ae16]]);
 ((V [0x2a77331bb2cb4;0x3219b300bbff4;0x6737c6ecc0094;0xe9248072de97e;0x827dda5b9ba3a;0xfdd0801710011;0x48d767dec28c8;0x4ea62081590d1;0xc97d831c6e002;0x7ffb00963d7] [0xcd8c82b7e578d;0x806e9bcf41a1a;0x923c09f4a791d;0xab77c390253f1;0x8a93c51c4d56d;0xb8824b8a6511a;0x7b5c28141c215;0xdafb58d25512b;0x20091af1e38df;0x26af2a0626f]),[[0xf3efc5942f177;0x55933bde52efd;0x36541bb0b6b91;0x3d9ebabdee3f;0xd506a9484594c;0xcd93ee88c6e4b;0x49775896cdd19;0x22388035cd33f;0x23907f829a978;0xf6209e9f313];[0x652214be5ede6;0x5cba7c2fd3a05;0xa82935c1d7094;0xfd4b357823f81;0xb8604ea99ac06;0xad529d7753214;0x3a66db645d61;0xa89efb0473e43;0xfacc8c3a17cf8;0xcc23383cfab];[0x0;0x797a6841df175;0xfa6cfc3a18ba5;0x7b9ed4dae00a6;0xdc1e3515ac153;0x8c1db8e1cab9;0xeb7bd412e8bf7;0x791c1567cd80c;0xced94654f3402;0xe8639c03a2576;0x5ff34fb7258];[0x0;0xe30d5b15e04e0;0xb9ff0c356e678;0x78bdfcc7f1a7;0x2bfd1fe68dd20;0xb6f93d0886bb;0xb2590e9ba45d5;0x1baf6e947143f;0xcabeadff36c05;0x5578c37eb6b17;0x1297b9d61c3c];[0x0;0xdaddb45f1295;0x18c63d9850818;0x66f44eec11cb5;0x2825a01f7e1b7;0x12f681b185cfc;0x81b89d6cda715;0x54774ef911dab;0x518f61e7f49b5;0x1b5e1b72b0e06;0xeca2b501fca];[0x0;0x9d9017d0f3b22;0xf15b805db9c63;0xfa960efefab53;0xe5550a291694d;0x354a189e76f59;0x9d9a395dcbbe0;0x53923f3665ff3;0x1ef076d078d2a;0xee66d3034f28a;0xf73262843b95b]]);
 ((V [0xac04d5d21bd16;0xef0c71e75e3a1;0x5b1bb75deadb3;0x156c129ebab37;0xd2157422f99c4;0x441707bd56bc3;0x50c9fda34b26f;0x9e92dca08d22a;0x517700778f6db;0xd3c4744014f] [0x16ee5f5a54645;0x8e5fc1087e780;0xb814a7609c7eb;0xda0981dfa5e2c;0xea8a51482f781;0x8f4734bf05972;0x525d048d32edd;0x4de47555fdd1c;0xf35acca041059;0xe41bdc88486]),[[0x3b5f42d54f178;0xb90c74eb0d070;0x828ab3bc6d13f;0x96d94d2bbefb3;0xf58b512c5b991;0xf9c39646fec17;0x7a87b94e62b8d;0x7b0115e4c3dee;0x35115d0c005d1;0x4ea3d9e658a];[0x81961fb9af7c0;0x256a6a25c164f;0x609f4ef3f4ab5;0x1649ae2b3a330;0x64682b5f90655;0x71998620918a9;0x87949dfd7f8c0;0xba905d0e21f02;0xa5ff3a5c28797;0x82988f534e3];[0x0;0x54a315ac3a2b0;0xad93b7fb10a4;0x66fcc9681ffe7;0x2ec4f980ab9f7;0xee54601eeb0f3;0x9c5afd6c612b9;0x6f9026a9de34a;0x5ed7516effef8;0xe8926601b7c98;0x3ffb00af379];[0x0;0x28eae92cfd74;0xaf9ff57719e3c;0x5cdec0efa7343;0x4ec1c17331f7f;0xd97cf94b0eede;0x8028dac4d0f2c;0xa7a8db5397761;0x568cf7d9ce4de;0x8ca0eef12dad0;0x17c44285d65];[0x0;0xc5513f718c82e;0x1f26e9c849fd0;0xf3f23f16d4b92;0x5e05536b7972b;0x29819a7223992;0x978aed8a98ec7;0xe46ad5f2826dd;0xd998c270079e;0xb6ead09a371b;0x182841a792d];[0x0;0x773030661fd4a;0xf92271f4b61c3;0x2d78b5b5ccf33;0x17d9bbde6ee62;0x539d0f9463e3e;0x5e2b44e33f990;0x615cc181e5e4d;0x4c2d08dcf6a14;0xde87f6ceaceba;0x4ed8c0be6b701]]);
 ((V [0x8e63357dbd4c0;0xf0d45d892f93c;0x98cdc9486d80b;0x69ea0118fda9e;0x121819a8238bc;0x9ab4501df9f5d;0xef5e59ed22fb9;0x223b68f200a4e;0xc7da1dc76c6cf;0x702de06f0c4] [0xd1a6f9aec94fc;0x315f04f369ed9;0xcc49da0e68451;0x152e4491ebb8;0xd2dc301faffcd;0xf1ddaa4dcb254;0x6397c619c0738;0xd8a03622906c2;0x3cf2a5a75c15a;0xf13a7b9207e]),[[0x6e4d41bd42525;0x6ebedd5634909;0x3602ddcb5ddc1;0x2fc832f3728fd;0xabccd4f61ec5e;0x8a6df10fadf8b;0xbbb8bf912af35;0x9cbdce97ed51e;0x6102469cdc6e9;0x93a16d0188a];[0x5a060fdf08a8f;0xb6efee090c566;0x25300c567c25e;0x47b2504706103;0x4ba5e0ebc1e77;0x8bc59dd4b574d;0x6f1e45b0cc8be;0x35b9d9d09feee;0xa2d1df7f5d46;0x3597cf41878];[0x0;0xaeff5cb3b3603;0xb0f3d87662a85;0x49486b39f15e8;0x355c1db93b382;0x74d21e8e94c54;0x5d47f93ebdbf6;0xe3265d96708ac;0xc3a1e48ff76ec;0x63ef7295d4d40;0xaf2d6e63d97];[0x0;0x6a5461aa8eb77;0xb85665773e0f8;0xd65cc5caf0767;0x4ad9f65cd3cdb;0xed3dcb42e3ed0;0xadb0feaa56d9a;0xedb0454221f15;0xb5137f9cf433;0x4257c65930dea;0x10717ac925c2];[0x0;0x80cd701acf82b;0x6157095ddba3b;0xff67892190957;0x3ae66f48c53d;0x6b133beb08c64;0x39d13449aa288;0xc9479b27f9baf;0x2b800beb05061;0x6e5c9e34b6686;0x5522c8fa0d4];[0x0;0x185e12db68d90;0xf1ba3d2107bb1;0x59acc6289d0d5;0x2f09877373094;0x1f4d4181f5a9c;0x6010e96214236;0xc1db9b84e416d;0x4d6ac738b6952;0x4a3dba0cd392b;0x946e7cb185e2d]]);
 ((V [0xb8660e21d611b;0xc423a80b13b08;0x72f92bfbee918;0xbac72a8f84d8b;0x2e9ca4518ddd5;0x9f4ee40178c5f;0x71d53b5c37e20;0xdbd174c901c30;0x3b007da0cf1f5;0x727265c0792] [0x531a00379439a;0x61f2920b44aeb;0xf1ec22e41c2e9;0x729246dfbe5bf;0x1a5ad935ed703;0x64819191a6cff;0xbd673e63ce9f6;0xe113ded2708a6;0xc7d84f1b898ca;0xa3ecaa2fcc6]),[[0x8f2c47b0fdb8c;0xabb7db63f8fe5;0xa847505fde319;0x940c699141a52;0xa12abd9166ee8;0x8a10eb0353c00;0x49ef7b4878c49;0x7844b340f7fb3;0x4f5316f175379;0x8088fef7df9];[0x95e3d78084f4c;0x9381b05e9885f;0x9361268dc6101;0x40afe158c10e8;0xfbd55f9b171f5;0xb3b917dd5e77e;0x52af052b61bf9;0xf9a93f7dfc7be;0x51ec60f2520b6;0xd2995eac8c6];[0x0;0xa855ffec649ac;0x62c9865c1a251;0x67a1e66df4af7;0x1411af2bbd3db;0x370235bd6a6ec;0x464ead4b529c4;0x7f453b825de7e;0x301e690acc6ba;0xfc6835296e686;0x31282c99d68];[0x0;0x6ee883e57b048;0x4ace7e6a170cd;0x41edfb21323f7;0x2f73ac919a760;0xb06021ca5b5a3;0x639c1ca0902ae;0xa82ed1eb47965;0x9586a863c973d;0x909a825052e04;0xf23caa38847];[0x0;0x9273cf0f62a63;0xc8b3cb4822450;0xd7bb8bbeb79a0;0xc20bd2c1dbe43;0x4967086980360;0x93f3979f614fa;0x3ed51ab3cba18;0x5d8759e2562df;0x35322bee173f1;0x40894847c4e];[0x0;0x6c03714412db6;0xfc2d3eb2cc8ed;0xc41d2ce1578a0;0xe650f3987fdf;0x95c3f730e25dd;0x5849a8b57c4d3;0x3bc3d96930d12;0x726e623b416ef;0xe4da2353b6fd1;0x8108647d85bc7]]);
 ((V [0xbeb80e535f17b;0x63afcdd66ca77;0xd61b8d81689e6;0x50f7e152d78ea;0x75a44d985cffa;0x4df0c774202df;0x9bb0174e70321;0xb608660ab42c6;0xa66124d3755da;0xaf72b5458ad] [0x19e61a79f16cb;0x70da788c47211;0x919ae546ec604;0xc1b4849d81b09;0xd101a4926648f;0xc62185419749a;0x644d5823d3bce;0x92661b097298d;0xbed66b29ce15e;0xe86ef086c98]),[[0x190d92d0923af;0xe843336327f32;0xc6cf14c1e5691;0x13481522278e4;0x57ca5d61090ce;0x49090b0bf4893;0x6a58c449e6d27;0x265867735f57b;0x66adf3007fe13;0xd370df68503];[0xb9b66bfbcc04a;0xb1515dc50faea;0x9276730943c16;0x74c11cd22a274;0xc083be5e85aec;0xeb46b17f9fc0a;0x8e83346facebb;0xbac15f8253482;0x4ac35a5ff1e6c;0x19deaa07e99];[0x0;0x4b9a543e80ef9;0x434f9ff97cbcf;0x31a2fb0cdd0b6;0xf72640c36c616;0x1fc07eb1d3913;0x4779ee262a56b;0xf0b439c08097f;0xc865eb200f147;0x11cdbdcf2ba3c;0x332a15be33c];[0x0;0x7f1d29c51eec6;0x30c8dd32eb954;0xa9237e3f4a72f;0x5ede60b42602f;0x74145093533f5;0x597dc3b3bdc72;0x9597eff135c8;0x8c10de4a58b6e;0xdde5924e8375;0x10ec8adbb9c5];[0x0;0x7607465813290;0x98fb3abdb9ed8;0x8a5cb4cd96e76;0x517c0cd161dbf;0x4adfdfa1efa7;0xd1c9555a5b6e7;0x45d116bc5865;0x95e5ecc65d900;0x6ca098000ed33;0xaea3420a327];[0x0;0x22371b58adadc;0x5bf320c59325;0x1364ec4525498;0x9c8b11ebd4f84;0x71012574c778a;0xb8723aac5f36e;0x4374138572230;0xb5c8f0cacebfc;0xda935f07b85a3;0xd411ee20ceee4]]);
 ((V [0xd2ec308d8c60f;0xa5fa21dd7a3d9;0xe0fb399f4350f;0x5559611e318db;0xf903ec67c7836;0x401ebbe76b18a;0xc580a6cfd8290;0xd10ab8f2cf6d;0x6626353b2fea;0x614d59d5b25] [0xe7c6d0fc9465;0xc2308a19ad0a1;0x3a6986c28593b;0xd3a98d8c84d28;0x102b97400d80c;0xced296170b35;0xb3b06771ab36f;0x7795560da3e1;0x4e982d4091701;0x97a902c25b]),[[0x982ef2b4998dc;0x800ac5fa7ca8b;0xe9b921c9db797;0x951a01e7e13ae;0x7961882ace830;0x8e5387c9e1cc9;0x9f617a05496c9;0xcffb56abf6459;0x52cdc13f444a8;0x177ac49d12d];[0x7f34a4e8f3cd1;0x4f133185631b3;0xbf2437692549;0x2ae73f0a8b01e;0x9ef230aa12f5;0x36068b3ee0f1f;0x6e45b5cac75d4;0x7e44eff251b56;0xf40327f8e123;0xabec9425621];[0x0;0x75839fe5e6978;0xacf4dee37979b;0x47b75de62a85a;0x8981451228824;0x6d9f5245d34f0;0xe8eef8345225;0xa64f53e6a42ed;0x1602e9f094eb1;0x1ab4ce73f8415;0x783e073b062];[0x0;0x24d8a7afa5c7;0x751c4e5c88e86;0x357f688f70995;0x235d499934a8;0x55219a362a150;0x103bc7f5761d9;0x170b6196b95d5;0x17ffd2dfb89f1;0x35bdd2d5bb487;0x2aa2ddfc934];[0x0;0x89aeeab23c79d;0x8e0876b456bd8;0xc9fa40f66adfb;0xd9224fd74e332;0x74396b3f7dc6;0xc2bb0640ab20e;0x15de59491841e;0xe9e80cd9bc4e8;0x92674d4e59978;0x2274a34361];[0x0;0x3623b827f023c;0xf656bcfa5e304;0xd340678b74f28;0xe8d3ea866803b;0x2147426fc2c97;0x81415dd7edff4;0x6b8ae1e7dadbc;0x818bc95845dea;0xe094834a8bbb3;0x17996a36b9146]]);
 ((V [0x2120d39268e73;0xb011f7a8c4630;0x72860f7ee9955;0xfb7726e2299b;0x55f85cf6ecf12;0x9fbcb0ba113fd;0xfd3054c6a42c9;0x44ed557c8ed75;0xecdb9c7351e79;0x91dcc0ffe1d] [0x7b31d3094bf7b;0x1a4bb2ba3e160;0x5c2fce0c48ceb;0xf6656900dc453;0x697a4becfefda;0xbdf8f8af1ffda;0x8a7bb25ff22c7;0x6bd2e12810c0;0x8b7d6f95fdfe5;0x50762ec08e0]),[[0x52262e582ebdb;0x1d5dbeb9df665;0x9d5b2863bea1f;0x3eba1a66a44c0;0x4985de5063481;0xdfbba762a7136;0x197064e179958;0x10a0d68fda0e2;0x967e0a9026b15;0xc357731b630];[0xa63b4c00604bb;0xac4aeea1eb710;0x9d2b57349bae4;0x4c330ab922e1b;0xd9407b2bcf526;0xba673542f932c;0x85ba10371462a;0xfd61334e6e63f;0x66e4f704dfc35;0x777b9cc1f0e];[0x0;0x28cd2f8cc06aa;0x27e32845cb9f4;0xf2133a689fff8;0x54fbadaa2f14d;0xd6b724b76ed04;0xa38050c395269;0xd6942cbddf928;0xf2b02577880c;0x47a24845753cf;0x24fbb5731b3];[0x0;0x6be52c05d165f;0xc77600f3651a0;0xc99fc30fe53b4;0x4d468ca407cc7;0xe1ceaec05925;0x7c78eaefe3172;0x4f0909b4ed6f4;0xd2b2cc7c0dc4d;0xacdb60f2f2a71;0xe773177642];[0x0;0x7cdb30f5756f8;0x59819baae1035;0xaa7ad55538473;0x4ee69219657cd;0x88b4ae66a9647;0x872b92d701a77;0x7f02160c22abf;0xed0825b8f6fc5;0xf428d59cc96b2;0x950e573b293];[0x0;0x271261852cfa7;0xee8dbf615f4bc;0x6e8df07eae698;0x1c800ad4441e8;0x46d60abed906d;0x50b99a150144f;0x97a3e8abb845c;0xa70a194955809;0x93cad29e2fb5;0xc3f5bcbc579da]])]
 [[0xed6d088844f3f;0xa589a8b03c104;0xc3c63796f872a;0x48a92e176c56;0x952f615e85dd5;0x7703ffcf32507;0x8fd69c44f91e6;0x43740913f4914;0xef9ba68f09884;0xb4583ba5628];[0xe5705900655ea;0x19b1fed569e06;0xbde059e94f21c;0xfd1fa6d0b971c;0xa8326620af592;0x8e8e2722fd439;0xb3f96bc61d5fb;0xfcf3e40292949;0xba23281cac2eb;0xd138e863f36];[0x0;0x9d3f7b9d4c49;0x21ee697510911;0x1af3390407134;0xca0d215087479;0x31f7ab6269f21;0x7845685965400;0x1167b8ca39ae3;0x4dbfdf4bf7054;0xb6e9000b67a46;0x531bd0fe272];[0x0;0xe65a350e72eb8;0x283c2d9a9fb1f;0xb99a3034d82e5;0xb0171868124ee;0x5adc0dfd91122;0xf9d3cb4aa4d7b;0x7ec5454434b7b;0x21ab4eb265cd7;0x74a162d765ccf;0x715da87d5bf];[0x0;0xe604f172cc62d;0xc13039f18c10b;0xf8981e5f95146;0xdce081fbf9b90;0xc14493d947b5a;0xafe88224de9eb;0xe1ba73451785d;0xbcfbe5afe51a4;0x277bfed161999;0x7f0c3249a23];[0x0;0x52b4d9cb95dd8;0x3fdf181604c09;0x4cf3094457e47;0x2845ae1ddcbdc;0xdfc01f7121155;0x7f4e521979147;0x51a42582bc706;0xec7986092b69;0x22fa43afdecf8;0xb523544c31c09]].
Definition wit_512A_32_4 : colwit ipt wit := mk_colwit (V [0x43b70e94a3daa;0xe3794b345afe6;0x6687845b9097e;0xa7810a3e9d182;0xe4566f2ca0308;0xc440ff949a577;0xabb43fa0b705c;0x9fe7314c3e596;0x44aa001206503;0xfc20f9b38ac] [0x642d426cddaa;0xd7ecf28144249;0xf815c71145380;0x401a34341ab4c;0x9ae2ec45de8ea;0xbdc193f13fcf4;0x12a609466f46;0x8c9c2b2aee447;0x4b2a59e51fa;0xd4b8c422ad8])
 [[0xd152f9e83b1ac;0xfee9fea77dd50;0xb5a21e79176f8;0xb70444ba4bdb0;0xe1a447457b233;0x723a83ec19414;0xd9a2564bbd699;0x4cb9f2f8fcca8;0x9ea164c462c28;0xc45d66ca634];[0xb4aa0c1cef311;0x454ade4564c85;0x93cef1b390ebe;0x8b826ec5bfbc5;0xcc847fed34218;0xc2560f9e44726;0xe471cc66f1bad;0xe0374e6ffe4f;0x55422942046c3;0xb82fb9b79d8];[0x0;0x10c40c8a99399;0xb8fe4e590fbd8;0x3f2cd97705598;0xb8990242475c5;0x4a4349acf49fa;0xaf3b5911954dc;0x573fbbbe33a3c;0xff27c0b1dcdf5;0xdcffd8a7797ef;0x32614cb43a1];[0x0;0x612a265034467;0x71dd7c7f13880;0x5e5f7f9045fbc;0x492cf104211e8;0xda14171105968;0xa54946d9f7a36;0x48b11b6e85ed9;0x1e6060da5de6b;0xb07834d8203c2;0xc5654c9de02];[0x0;0xaff690f42c22a;0x3444d13a0113f;0xccaf7afb0cc8;0x962d65e05cbb8;0xeb69bddd1d0d5;0xf02e01e316f50;0x2fda49fbc84c8;0xaa74d372e4e64;0xb3945f6b04ef6;0x969f2779c05];[0x0;0x20d36efa538b9;0x91c0a8fd3dee;0xa83a29dc489b0;0x858769f113094;0xb6744ee3c088e;0x5c0f88eac2390;0xd9ca05848b54e;0x79b3736e34bc6;0x2afc4f1d05649;0xc4b77b61a44d8]]
 [[[0xcb83a29dc9c9e;0xf7343b6d8f84b;0xb6861a2672ec;0x8e346795dcf56;0x6784dd540c44d;0xa444986e0bd6;0x8f8477da8d2dc;0x482fb6e5df4db;0x2b43a9fef6b27;0x5f69cb49106];[0x0;0x9e3c22ac97d70;0x964fe3a0ac439;0xa6a659998ba54;0xf351f8a58435;0xd67b2e1027c73;0x205f5c15ae85d;0x503ab09022da8;0x8168a77a342d6;0x2994719c6d014;0x5ffcd9c836add];[0x0;0xea72db634a5cc;0xd5cc57d3032b1;0xb2752730031a7;0x28e6911ed95d7;0x5b6675f0f01be;0x6e780bd73e9e6;0xa013cffe2d230;0xc80ae8cdf9c40;0x5a7923df72397;0x238fb0989d8];[0x0;0xe9b8e93fc766e;0x5a223f2f49025;0x8466649d451ed;0x4929af3b37e70;0x244ec0e9ac3e5;0x17d9140186ab1;0x25ab8bcf4e321;0x5c40d65423fa;0x3e598a13758ac;0x5fc220f3daab3]];
 [[0x29d8afa8cbcd3;0x69b2039cc7a90;0x15dc2df53cb1a;0x1b1ccf6511c34;0x563178e2dbd4b;0x9a7b03d685c78;0x68d117cdcd923;0xee4b059690b5;0xf1cdc1f704d5e;0x5b3c507dc14];[0x0;0x4108abefa2b3f;0xb2e10eb195f08;0xcd42874494f29;0xbb0dd17fef191;0x81deb899167da;0x21c0b2beb8c72;0x2c76325136d41;0x805ac64c78728;0x3cce06fcaa995;0x5bc229dbcaff3];[0x0;0x7b232d864ee13;0xdd0d2e3039deb;0x288253643e46d;0x8c7e0b4d82ea9;0x356ec6d49cad8;0x7c57d506f78e6;0x9c8603860b6a1;0xc13787d9e4735;0xfb231d0ccb838;0x2083ef6f3ba];[0x0;0x1a8c973f80109;0x14963e3e3fa61;0x31526e7a67413;0x85d5d1697ee31;0x2c2c328d30b6b;0xf67fcffa147ea;0x9720fce2fde96;0x5ab2d0eaf282e;0x4143fba280d03;0x5b7eb8889dba5]];
 [[0xf59598e1bab00;0xa9d372ac69f4f;0x973fdbc7577da;0xed3ba02c46112;0x40d1177a7b73b;0x14731466edc39;0x2c28a9ce9cd38;0x941ecd37cdf4;0x869848ad3709e;0x9b359731e0e];[0x0;0x83155693f60de;0x8d75753ed442e;0x23e743d03c3d6;0x6b65aeb0c9a6e;0x2b5f457f22a09;0x5a427969cabd5;0x561720be9a785;0x22346f3d0ede7;0x889da39869885;0x9bef0df163639];[0x0;0xe6369f600a2c4;0xee4aefc377b5f;0xe4a931ddceed2;0x7c4a01cbeb2fd;0x6670c00d49f0f;0x217a60c7c78fc;0x61c98c435c45f;0xf31cd8510fc0c;0xc710c3c07d215;0x5e19f04e5a4];[0x0;0x71627a5d9ebe7;0x4a496b3bfd1c8;0x9b2cb5955d9dd;0x2e3c7f5132802;0x659a03c1066d9;0xa20675bc27087;0xe70dd3e55ef73;0x1e438dbf3af8b;0x7e1acc6c2d287;0x9c27cf571b6d9]];
 [[0x1d9ab9312cd19;0x7ce645eb7f81b;0x28f4f566f006f;0xefe33c02a9fbd;0xa2d9fae4b9f47;0xe80deb29a5db7;0xd2d1b4c7a0624;0x98df02769c5df;0xc8de0c3f0bf67;0x43f985ce39a];[0x0;0x83861db2be142;0x91555bd83ec31;0x379f17244f30d;0x7fbeba17838ec;0x5c51f9c23987b;0xfb2ab1c9993bb;0x4c81d95e8ff96;0x96c1aad33d4b0;0x8cb592fffe75a;0x4470da9c1e584];[0x0;0xd39889e935939;0x43194cc414397;0x1e74bd2fde7c2;0x38ee09c0591d2;0xec6fcf9745e54;0x4e70f30c10a6c;0xb2e029a8663ea;0x1bcbaa9aa3750;0xc71fdcfeb5b55;0x120c8f3f834];[0x0;0x535dfa49c2520;0x3fd18821571;0xd00c4cee39fac;0xf0c22435df27;0x9133855ce94fa;0xa3e84400d21db;0xa43ff96b4fba;0xcf3b0075b14a0;0xb6dbbbf25575e;0x444aa38c98ea7]];
 [[0xffd5e08784a9c;0xdfc0a6525aca5;0xfdd7a05fbfaec;0xd2a6075ef660b;0xda4769f9160cd;0xe1b997e9f4891;0xe72d1534d829d;0x44672e581439f;0xc417a02de3a30;0xaa1a062aa7];[0x0;0x80e86b5492266;0xcf54f95ff1b31;0x79bcf12be6cde;0x11a0b04d82fb5;0x41ecc60d589d7;0x23647a2067a02;0xffd9ae66383d;0x2c31c2aecf398;0x11fecc4066d84;0xab6587015737];[0x0;0xeb1a57b10909;0x61c49c969782;0x5ad92792b0d55;0xd45bd405c8b7f;0x373e73aba3945;0x11561cce9cf5e;0xd9c314fce840a;0x7bb01808944b0;0x7a08a2e34e056;0x710692d5e];[0x0;0xf395b8a5fdb2b;0x88ff81eba7628;0x682a5099fa67;0x2cd85201070f4;0xffbfe4b2557b5;0x55521777ae259;0xd26f6f6929187;0x5b1cd0a6b0def;0x4a11151dd3c91;0xaa6320c7543d]];
 [[0x3650b653d5dfd;0x56a9f93b6e237;0x306cdbaef966c;0xed9b61310ec1c;0xf8e8430c5c086;0xcaf4991a341df;0xdc0f0245cb665;0xc7e844abdca5c;0x4cdc52a43a4ce;0x256a8a68030];[0x0;0x44cefe3276321;0x6fbfd0791c0a8;0x5ce5cd50458c8;0xe59a05d398975;0xd279dc5a934da;0x61658b5937681;0x172c6945640b6;0xe0498efa9f1ff;0x51ab2c5dce3a3;0x259e1f93542be];[0x0;0x6dd4d462ca66c;0x5b74ccf0e77e5;0x87de6b935dd28;0x52b6cd59f0b17;0x2113b29a6f340;0x9882ab9cb6baf;0x3898faab9bc2c;0x3837cd3fcb0a8;0x630f907476c55;0x577f858f9d];[0x0;0x14b49b0875731;0x2f54f6d72818f;0xe939c79904c00;0x142cc20be0293;0x8d9c9ca8b6f7b;0xd670ef85bf28b;0x149d7d7e28623;0x60479ca884af2;0x91efd34eec843;0x2585ec26bb7cc]];
 [[0x83deff0f4363;0x10a275979ad07;0xbd5b24aa55b94;0x7aafc5c2cd551;0xa8859dbac4c29;0x2a10341540553;0x9ad2dbacd0242;0xdc93087a20c68;0x3ff3882b68e9c;0x135612588c7];[0x0;0x4b514c9d4967d;0xb1f470d495ab3;0x562b1c165caa9;0x59064122ab9cd;0x83b5b89e2b7ef;0x9db3e4581978;0xf62d2567ca1e6;0x4c8aa1434668a;0x5b29eeff88897;0x136b8b17b1d3a];[0x0;0x794bd72f05888;0xeb44d64ec7dc5;0x57582d8652274;0x6b53607930c23;0xc0f851a27f8ce;0xedb2cb5023538;0xad9ac4a6b9986;0xbde0ddc8fa1a4;0x828330a1168c3;0x175e3a979a];[0x0;0x95d22d50dc04e;0xc925fb54c3233;0x3a103522736f;0x310f4f5370ef8;0xaab98c1c3593c;0x4ac1cc6046101;0xdef64cd345aa8;0xbdf423183e0f9;0x4a3a242edf9a4;0x136a6ae9b81e0]];
 [[0xd8ef56572332;0x15f8fb96dff38;0xef5370496bd4;0xcb1011cff3a42;0x9024f3999fe23;0x7f4706a0e3209;0x2c5a2a03b1812;0xb4c0f9624cb4a;0xe75607ed6794e;0x1ad00d1958a];[0x0;0xbbb2877b4382a;0x1b23659ba6ea6;0x79188f32e104e;0x53b6e7b9319ec;0x41eece34505e0;0x49c42a4e62bac;0x25ecee08b225c;0x66e8fca382b63;0xec6c634274a6b;0x1aef39a532a28];[0x0;0xcfc3035a5407d;0x1c342ee445d2c;0x97ff36c8b7acb;0x856e321f0e454;0xf37cf03d75ecc;0xb6bdf40ddc2d2;0x8b5080badf981;0xc703d33a8c2d2;0xf20da7f48ce79;0x2ceebbe6fd];[0x0;0x5141de60c7928;0x541bda92b1d79;0x4e82fd6116d51;0x291c4147403c9;0xd819c620eca8c;0x31fc32e9d3ecc;0xb532e1f25100e;0x7758f62fac85d;0xb4157582f005f;0x1af723dab0bd6]];
 [[0x624be82838450;0x9f9fa700a3d57;0xfdba9aa33bd4b;0x30af90ef980c4;0xe3094ed3fe82;0xe0aca744fce60;0x32294eab68fb9;0xa6471bc4701e0;0x82d23b913c14a;0xaf1824bbedf];[0x0;0xe50766aa28bfc;0x3ef89404bb569;0xef18fd9c3a492;0x92c24fbb20744;0xb02843cd988b9;0x9e70820c2311f;0xf1c80dc0eb64f;0x368f4cb6b7474;0x5ac4c6034d30d;0xb033e29eec115];[0x0;0x3d069404b69ca;0xf478920d00eb7;0xceb68dd8329ea;0xdbd7cc31bd63;0xbe7a77057c57b;0x8bd8628f49fd9;0x9603d8dac436b;0xe06885567d7a5;0xb5122a0352861;0x77c2047fd7d];[0x0;0x6b6432334b53f;0xebd05dd4ed2e8;0xf58b06da7c3f7;0xf57037a826baf;0x37fefcc0f63eb;0xa3cce7269bab9;0xa366a7129e9fd;0x51cedaa66435b;0x7cbd70dbb323f;0xaf85fd0ca33c3]];
 [[0xbb151bd3105b9;0xa634dc9b87798;0xedc5bd8b35c44;0x6d80f5d460398;0x7c45a9b5cd4a;0x2e5804d64b688;0x5ef67f16139f4;0xe5f89dde2dc07;0x81fcb95c4c819;0x1a81f680bdf];[0x0;0xa807dda55b5d8;0x32d1fb220caa;0xb34f20ffa9fdc;0xc3f56da6df6e;0xb198ab24c6a2b;0x1efef4254da40;0x54b7b1c09faae;0xe555b7372c032;0xf36e5bb0452f6;0x1aa30a679acdc];[0x0;0xbe10778baf43e;0xf9cd7396ae511;0x2378b0f44962a;0x7c58fecb846cd;0xda122cbca08b;0xa5beaadc3ad98;0x3c925d2db1252;0x1bb3d16679230;0x1885cc7cc47d3;0x2bea80c81b];[0x0;0x8d647c99f7df;0x6a3490927be28;0x4edf9f0e810f;0xd17603b714307;0x70d3c7bb33ee;0xc59ad35b0f792;0xf179c019e4edb;0x709b3b8f93f11;0x7e0bf8628da5e;0x1a9beac786218]];
 [[0xced3659c1c848;0x9b88f957d1826;0x7a3abf2f6f93f;0x3d1c9758419ba;0xa815844466056;0xac8a0d715f20f;0xc1ca1c4117a76;0x51379ba724611;0xa1aa7f3c40c19;0x23ef4c8d5b5];[0x0;0xd2c5d04a9c6f6;0xf612029b81569;0xddeb7c7c153d4;0xdb6e646642e3a;0xd14d8fc7147f8;0xa430cf41137e3;0x1788dba3de901;0x427f535e8e52;0x7938c2160c182;0x241b63dfabdff];[0x0;0x3499d4ade7ca1;0xf4d0aade36e2f;0x51c2d19629d96;0xc4c30ec7926f1;0x9740375c041d9;0x3cba7a7bfe8cf;0x51e2c6f96f3df;0x98ca88a7179a8;0xf71d2f3ef07c6;0x50b4e9eadc];[0x0;0x4dea9023665ef;0x8132410dd0537;0x6edd83a72af5d;0x89784cfc1a3e1;0x59309c6b4e50a;0x55366c928e211;0x97a6e3d5ed513;0x6a79e327738db;0x76605db5464a3;0x24260edb139a9]];
 [[0xac6d886bbc334;0xe54cdc2caf226;0xad73cfbd07a;0x6ab30d11e4887;0x51c36d2d6d5d9;0x8c8113782ab;0x596ad50d2a4e8;0xc341db79971a6;0x60d8df5591fd6;0x8e417b8d45e];[0x0;0x34c16d6367a09;0xedbe0a41bc85d;0xe7ee62e87c57a;0x5b1de7f3b9129;0x2e61469c812f7;0x76501c8169bfa;0x3c83ed659e79c;0x81173f89719da;0xa50a6c11049ec;0x8f3a8c0bbe547];[0x0;0x4bfadd59476c;0x6685f60f1096;0x5b3018e52ea22;0x98c9875120151;0x51f5b7826ce00;0x167f15a3e9b6f;0x2447947c411b4;0x36804a12ee879;0x9c4fd81cca0c3;0x4f0cb5d0b2e];[0x0;0xcb664ade584a2;0xbe466118d45b9;0x4d9da112ca315;0x4e357d4b747fe;0xc08a7e2e26da9;0xd46c4ffda42f1;0x9d902c758d836;0xb1439fcf57bb6;0x1a6bb926fb54d;0x8e93aaac1db4d]];
 [[0x58f83c280f7f9;0x7f51c9fda8e54;0xd7e3545b7542d;0x5a1544e68731e;0x1a589d1ef7cee;0x3fc274f0c17b2;0x7ab09302a043c;0x7c6378fabe68e;0xe00d481afbf11;0xf79b4b6c949];[0x0;0xe140eeea8b414;0xa32b9625e5fe9;0xec85b87eea1be;0xb13caf480cade;0x17378a7fd2abf;0x19f00fc79fe7d;0x8b4df76a52a74;0x7f1ed6631d61f;0x92fff1dc6f3bf;0xf8e4401115323];[0x0;0x9c653640f1867;0xcc1fbbc7ec820;0x6ff32e4a74a1f;0x42861d16e8c2a;0xc0a65fb5fea46;0x772d1f0e1307;0xc0e6365de7a69;0x3fb603ceb6119;0xdaa1163aa774a;0xef7d09bff27];[0x0;0x4474385e91721;0xd8c01c6cc21cb;0x64eabc48a7d21;0x1437f6f88ff76;0x8991c85dcc6f3;0xceef025451c4a;0x7101a53d7bc4d;0xe5bcea1dd76a1;0xa092c0112e50f;0xf863d2b52759f]];
 [[0xc989487c61931;0xd470a31f04b44;0x22afdacb45816;0x74667d2343263;0xd9834a4d9fb83;0xb1d78919ade87;0x585450dae80c7;0x7e55bed471a24;0x29e363444d016;0xf635bb6e894];[0x0;0x7a3f06a71ab7c;0xd1863bdb56e4e;0x33c6968cbdad8;0x57d32c06385d9;0x28afeaf792994;0x11719521b26d0;0xa8014dbd03f37;0xe62c8e6cd8934;0xffb3ea42c75a2;0xf74e0502d7409];[0x0;0xc21bd1bd7022c;0x8715a5bb03885;0xeae19d2b3cca3;0x6971f87e3c58a;0x32d378ff74419;0xe97dc1b20c43d;0x64ee638dac4ca;0xd0ec58598c35c;0xb89e740e16a06;0xeccb4f7f94c];[0x0;0xdf60e07167fbc;0x3c83bf6c8dada;0xc49729943b640;0x52072af92f049;0xe0121032bb027;0x63b6a6cf1ff50;0x9c08ef1b8fbaf;0x7c15fa93dfedd;0xffe64bac4374b;0xf79da34c7a1f1]];
 [[0x7ebf0185d1763;0x85ef0fd21b152;0xec232f84a5314;0xa425dbfe5baa8;0xb53bad2bc96ae;0x1877061e30317;0x5688a778f3391;0x7fee72b997f97;0xe985d355f2278;0x420a9884eda];[0x0;0xe731132b7cd53;0x8293777b23d56;0x4a521a2902c8;0x24ae1c515e034;0x6f32ea05dfb97;0xef88f3d03c866;0x6cd76e9550cfe;0x464d88040114e;0x9f672c2b31832;0x427446545d62d];[0x0;0x7c53223069b4a;0x79657439fb0b8;0x6f6990bb10092;0xe302b8659facb;0x3d42b40030c20;0xf94cdeaf8d0de;0x78c3a73d267e1;0xe4a11a6e82db4;0xeb7794475c5e4;0x11097714cfc];[0x0;0x5f946b1c89242;0x6670a0a9af37b;0x5560d2338e8d2;0xf53b121bd83c8;0x4fd5108c207d5;0xb6a2622a035a;0x241371bbcf43e;0xd914e533f01e5;0x456ece63622b5;0x42293c91ac35a]]]
 (V [0xb2f2d0d31e43d;0x2b5018a8efb73;0x391c2e158a0ce;0x659a3521f4cd8;0xc4ee86736004b;0xc140555c4e4f4;0x38fe1b6b9b7c5;0x9bb0ba22c0b20;0x4a9410f9e412f;0x9cc5451bbac] [0x2be186cec0024;0x5d21c2781ea58;0x8d8be4a1e16a3;0x3b3a0986f3795;0x4f6579c15af90;0xb0b0f1b891e51;0xf4977ccf2dac8;0x2154ea60b4ad5;0x1b28348c10e87;0x170bfe8d7fc]) [[0x2c05e03d31896;0x91da286b765a7;0xda6d9123535ae;0x837d17b9ed8d9;0x2aa8abe84961b;0x4187462e3f739;0x7665ccb32e0f2;0xb4e9e3b70d9ba;0x2bb7c2f3386d0;0x883edd93b93];[0x0;0xecf36d593412;0x5ac63a4e4c7a4;0x64beae2166c38;0x40021de5be66e;0x42e05f2db7292;0x30b0e07e9947f;0xd135d8226c882;0x9ce40c1428270;0xe4b3ad33de64a;0x88861b9e62184];[0x0;0x2b9af84720397;0xb397daaa861b1;0x46406d3c94432;0x91671260ee5eb;0x2b904c8cfa0da;0x416ad243142dd;0x9d252f9429041;0x7b4ae175bb79b;0xbfec6903fb357;0x4882dadd081];[0x0;0x2146ae4df00e6;0x6dee818dbf159;0x27e0b722b6b74;0xa00873d9207b7;0xc2094609343f2;0x67a3771377969;0xb12e755e301ee;0xf5a089c1e1248;0x3d47df844b31b;0x88f11edeff0be]]
 [((V [0x18d7550b9b042;0x18401523d2693;0xb138072482306;0xa54813702337;0xdd7df896503ea;0xa474bfb32cbf;0x9f7b17a3a6126;0xa193ddc12a3c8;0xe84d6a31fc7b3;0x234d7d9488] [0xf3ea9c798d831;0xd4d28e5480348;0x79efe0d3599ca;0x39452a8a1b0e0;0xf2d90195995b9;0x3e2e10b732ec9;0xa06e33c7deddc;0x35a067d39fd71;0x1531ea13e5f3e;0xba0825f0025]),[[0xaff4c941a1f23;0x43d1da38f3a6;0x64ad634c28005;0xd5246f5a7a537;0x6c60e3256e87a;0xe0d9359fa0f3e;0x28fc9563ab112;0xb56482252dcb3;0x217c95ead29af;0xcbd9a73a703];[0x3d2dc80cd3d76;0x3c3eb9e5a4dff;0xaa30f87cc1456;0xe5ae3c8a9134d;0xaeb8aa787e2af;0x99f23668080ed;0x66d701fc60581;0xecc486084b425;0x2ed21192b4e3b;0x97224fdefcf];[0x0;0x7073c119c1a55;0x654ebdf91c31b;0xcb68fb4eaa2a2;0xd502404a32512;0x4dce279ed7b2f;0x7f3e1d31c51b5;0xdd17856a54b73;0x19c34305d0789;0x516a2ba260c2d;0x6001043d3af];[0x0;0x3e2a763d7bebe;0x2f8ccb8b01c0d;0x5512b6d87ac82;0x69888a7729f08;0x4a9fe0243291b;0x8da5f231d61ab;0x370db9ceb6f0c;0x3f3aa3c3aeca1;0xf3ffd1b4e3869;0x24b43626203];[0x0;0xc275d4b68ed8b;0xe2c4bfd6254bf;0x2410c430b25e;0x1597d2a2a2a40;0x5566a5710cf39;0xcbca4cd925e27;0x4a84a660d72f1;0xa81f5a99e0c6d;0xef25e1270810f;0xa252e8439c3];[0x0;0x411a229458a47;0xd70c070920c66;0xd7a2ef8827b34;0x72966a7c5f483;0xdaf147255c16;0xd86a848d702a1;0xc6f28935fc0d5;0x22d8d0de0d7e3;0xa27db776d1ca6;0xcd2094d1b26fe]]);
 ((V [0x4e9bde82f9cbd;0xba6d14a95841a;0x63845f29f5f6e;0xd42fd1d83ae73;0x9ca81283a4d3a;0x5d81b7aad5f30;0xaad50da524474;0xec1a335127ad4;0xe05067b9d1d6e;0xa3bd97d7fc5] [0x3aff0200f3d3e;0x91b130f2dc9f4;0xf40af29327f69;0xaad31bb11cbf5;0x5c36352955c10;0xa890d9e728dc2;0xad7d63073c101;0xfe72f93e94680;0xe084eb029beb6;0x9129a71177f]),[[0x94d3871a55981;0x76042cfb7023a;0xb3cfa024fdb64;0x53990f2faa4f0;0x2ec2c77583994;0x207846cb7f8bd;0x8482d3a58e524;0x89f487c4b5f2f;0x431c50580a83c;0xb3309ef740e];[0x59478d56b0466;0xd4d82b651e135;0xa13fdf09389dd;0xfe254b94b1837;0x994fc99d6030a;0x613c74ff18dc;0xd98eabac3c9b9;0x2e613de385b5d;0x88117acc89c4a;0xdbfd543a5f];[0x0;0x5c0a5400ce672;0x617d88dd96097;0x5c47a2d23882;0xf7eb6feeaf6e3;0x75b5e58a599e1;0x8891ef7de77fb;0x92538c5014fc7;0x3b9d1f3be3798;0x66444cb0cf7f8;0x4de47cb6];[0x0;0xb7a7d2b3fc434;0x8e3c9d077198e;0x7603cbd33a5a4;0xd993eee542a6c;0x818642b78d30e;0xfd0b89618038f;0x9183a2e8734a;0xea9f76c0fdbaa;0xbca8de83e418e;0x1046e0f25461];[0x0;0x581fad495c40;0xee788fe3d5f0d;0xbf7594fb9591f;0x34a4e04016ad5;0xabbc1a659cff4;0xebba7dadbbda9;0x12c37d19dd9cf;0x60ee35b2b7033;0xd961425ce1cca;0x7d6d0789c42];[0x0;0x834b64c0e683b;0x5582d203f7f08;0x7c9ac01889810;0x3d4595eb92a5a;0x51b805bd1e48;0x15cdf32cf22c8;0x149e870dd96a9;0x19828dbd7a57d;0x78a55503e1600;0xb372be4a06a33]]);
 ((V [0x99eab25652608;0x10ecb8aa68242;0xbfa162b5df014;0x43aa33a4ae86d;0xc087200a6574c;0x3e74418a2c5a0;0x4fc4fffe78bc;0x1e78f6f991465;0xe80c0806f7687;0xf7adff60f9c] [0xd38a44c70bf65;0x792e5a1651bec;0xb58bf6bde135a;0x24a788ef4cbbb;0x8a1e4b39719aa;0xbc199e89ffb33;0x1c9528282dece;0xd5d5ac4025550;0x5370e8f3ee07a;0x57c57aa30b3]),[[0xd724b5883d7c1;0x3b7b679c8e1e3;0xd61359fc0f854;0x7c267e20b665c;0xd7985f13b5ea5;0x7336602afa2b3;0x62286fe48ee02;0xddc09e227def1;0x650fdf70bdab2;0x4a45eb18392];[0x6ae70eb2583d8;0xcd6b352602d8b;0xca82f09d72ed2;0x197aefea921e0;0x7872ae59bc638;0x26859c21f81a4;0x14d35bc49efd8;0xe98b9d7a8fabc;0xa61a09a5bde4e;0xe548022c92e];[0x0;0xe802b624616c7;0xe098673090d92;0x5412e0751ff76;0x1d1980447161e;0x42af580aaf578;0x154b6e49b0bdc;0xb7f4d4e44434e;0x254ba132c3643;0xadf2a759fec9c;0x68bafbc69a5];[0x0;0x421c2888e3c50;0x584f24d449c71;0x365f07da46190;0xc5ef7ff691835;0xd93b5597af3f4;0x48953adfc5024;0x5a4cb79abce07;0x93d2cd4717a17;0x2f1ee48aed391;0x543b5fa81a2];[0x0;0xbb56b013cec09;0xb0e12dbfba12f;0xba2d2ef8c6b5;0x7937cd7a678ce;0x201bc5ace93a2;0x4e2eea448da8a;0x1a9221d299eb1;0x9f649f2c9e36a;0xe70b1985d8fce;0x158c7f0293f];[0x0;0x8681c9e86955f;0xf22c61a3bbf92;0xa31c02abacaa4;0x25b6e1951f3f8;0xf52b7576d3cb8;0x70b22efbfd78e;0xa4b179dc1caba;0xabd180ccc9358;0x6ef169b89747c;0x4a77d698823df]]);
 ((V [0xd5e6220c5593f;0x89f4d5de956c9;0x92b0b7a3afa2e;0x2b23e11a2a1e7;0xeed071e3ac42a;0x21c058c2f231b;0x5ccea9cfb5168;0x806f8b26944a;0xbe4ef8ffbeb22;0x5ad38cb924a] [0xba755be24ab0d;0xd59279403d3a6;0xb395a0313825b;0xb986439d8c745;0xcbf828ade4067;0x52b76ee41c123;0xaeab33d19afa5;0x1f5aca30005fb;0x4a23b60fa30df;0x261b0c9e835]),[[0xcd94950e49cfb;0xeace67fc95c95;0x64c85247b33d1;0x2475b9dc942ab;0xa666640333e47;0xd4f53ec3099b5;0x1cb643a8e51e7;0x9cf470cb38eb2;0xb92c612567a1;0x9220b2c8979];[0x9b221f0857935;0x2b617621b956c;0x1f456d77108c2;0xbb03678928ba1;0x472e43216d939;0x5fc336240e215;0xa9c272ff380de;0x266f73c7769b3;0xeefd6c2a515a9;0x55f479dbe2d];[0x0;0xc754174cb9c9d;0x9036649848af0;0xaae8a096337b5;0x8f41043436752;0x68d79d3382ed6;0x5b03758547519;0xdee43e43da1b7;0x418f494533475;0x73f32f281aa7;0xefa1391049e];[0x0;0x80871d41e47fd;0xf795aa225fcd4;0x493cddeda7076;0xb4bd7f1ba4d64;0x4b47c5cd2cf74;0xc512520fe5811;0x7b0e51f3d6ba;0x1a955b3b8c830;0x40e420b224bdc;0x6433abd8cc9];[0x0;0xfac42b92908e6;0xa9f145468b96a;0xf9cbf1574b562;0x5b141770e1e89;0xd3d55770dd02d;0x5f6bc0af8e90c;0x879d3fd752081;0x40754efc00fec;0x2875757460c41;0x53695019fbe];[0x0;0x22995ae0d1c52;0x1390fa1fd10cb;0xf0b745d22360a;0xcd49356655378;0xd66177765d122;0x31db715172d6c;0x7ff19c5c467ac;0x71a0dc49762ee;0x212054839fb5d;0x930c5c199d001]]);
 ((V [0xbf31e1bbee4f2;0xa4e1ba8b9d9a0;0xbe8713f66e3e2;0x6d961cbe2e892;0x142a08d796774;0x3d28e3fa6e6eb;0x9dcbeda5a6930;0xd68763b97f515;0x689622696908;0x4df3b01b006] [0x78af841b93442;0xfc314ac94f985;0xd6b4a21532d16;0x9cbac791ef348;0x99f3f8c29fb8c;0x9770bd1bd2ff4;0x74c35107fad28;0x33ab082f504c0;0xd438f86f1141b;0x2b5823d62ab]),[[0x79d8d54ad5d4d;0xfbd7fa5a33f9c;0x813f75a0a04c1;0x8d59fe8aa8683;0x6edccfe875ce3;0x6f77a7f5e3ce0;0x601dbfd53925b;0xb47f9809c776f;0xdb951f20f1340;0xf30e9b5c371];[0xeeb4cbd158da8;0xb141c13869db6;0x2ed28eab5c667;0x92fda2c2f4b8f;0x1ea00379b8eda;0x2296ce1c97f65;0x3346d5a8d58ca;0xed4b6e0609c91;0xee9153c3c304d;0x7ca4913f9d0];[0x0;0x353691bacc55f;0x18e131c26dcb7;0xbf9a90d6790bd;0xec9d9b042b080;0xbd2382998ecea;0x94fd97087aae0;0x6d64f2020234;0x3049ffa7381e2;0x65655dc3c2e22;0x20396dc3745];[0x0;0x844673e3e3a;0xcfcd7efe48e75;0xec1d000437f96;0x7d1f9185cf3b7;0xce2971ba2c2f9;0x12cc820264887;0x909b3bca15576;0xbe1852c399f6f;0xa86edcfa4ec05;0x485bb32a83c];[0x0;0x62ad90d51147f;0x681ebf2d2df9f;0xc2fb0fbe1a6b2;0xff99d5efc4e19;0x438d2de67f16e;0x8b66a5825c9a7;0x3f4bbefc2c68e;0xe69f05707604b;0x141077e234f4b;0xe6c4bbc66d0];[0x0;0xabe3294d736a3;0xe0a3c2b53d833;0xa4da0a3e7eef7;0x7c6d7e3963afd;0x4e31e68cbd6a0;0x33b21a3fd8a26;0x6a8c65fc0925f;0xf0498146f1cdb;0xd4e504d99041c;0xf40de3320bafb]]);
 ((V [0xec2af521f4fbe;0x3b68fa1a06584;0x2c1431e890ad3;0x97f1c1047994c;0xa79721b9f195;0x8486faab80348;0xda9019bc70934;0x208fa7ce59cd1;0xa9ab519a6ea7b;0xe5642ff70d7] [0x4f3c3f985155f;0xa9e91f219b46a;0x2fa40a9269d19;0xfc720f067412d;0x2f5ea58aa9832;0x337b91bd9a1ca;0x62a75fac08f90;0xb6405a1d010b0;0xfb6da770e6542;0x935adae0436]),[[0x5bf851c24c733;0x5c2e61fd4a4cc;0x79d250a3638c9;0x82bc3b68d6f52;0x11753145ccb96;0x242ff6e2f2ce9;0x53dce2fe2ae24;0x542a13d10d815;0x8bae98a90428c;0x144e50b570];[0x33bffdeebe777;0x1a626cf72d669;0x52b813e72e646;0xb5d93b1b5a977;0xc627ad69726b0;0x47fdae432584e;0x20d8940d32af0;0x1824e8a338eaf;0x7ff5a6b469da4;0x23443538166];[0x0;0x8871f551dac4b;0xc92639352577f;0x6b178f24e0edb;0x11e64e7ee9acd;0x9812fa8aae201;0x4f5b56abc176;0x231fabd6b945b;0x85d128ed168c1;0x1d94e81dd6097;0x17bc7fe80aa];[0x0;0x5eb91af2d10c5;0x56c3fdbd8e7cf;0x63b039faf168e;0x33efb2b514b01;0x6a8bb5276b122;0xadf38cb0edd25;0xc480e1deeecc8;0x9352dcfa1ae71;0x5491a424fca04;0x6e04aa3d4];[0x0;0xca5591d21dd41;0x85c8ead389fb4;0xb4ddddf72002c;0x1351717b81230;0xdb334e0c7b493;0x68a9586217817;0x862379b1e9c91;0x65e8b9cb5c82a;0x1984f55e38e77;0x19c5491a];[0x0;0x953bfeb24bca0;0x98b58871632e4;0x9fef5d65ffd4f;0xe643f4aebc305;0xe999dcdd7a9c3;0x346f92d020b98;0x1d673e64f18c4;0x69cab3ef36c23;0x1539601157e50;0x14569be82359]]);
 ((V [0x407a18f8014f8;0x23b9622bbe7a3;0xebcee69cf5d9d;0xb231a93fff299;0xf718e10feb648;0x827399de2e12a;0xda5f41700d515;0x5a8a167b878c9;0x71eb37d266b14;0x11c8a367ed5] [0xb6d52fbdca25c;0x670ea73239942;0xfac58ca1da733;0x8543f6c63dc25;0xc8893a82efa6f;0xe0a09a4438130;0x23e643ec0757d;0x5c1c3e213dfde;0x3c719411c98df;0x15559e8bb64]),[[0xcd5568f21a078;0x1468c8c82eea8;0xb29265e6070d1;0x8a47f7b8cd8a9;0x20c51fe7a8822;0x95aed8c3a5dd8;0x9ebb7fb4e3397;0x5dc3dc761c98a;0xd55c52d338561;0xd2b200cf6c9];[0xfb0ec55e70ec8;0x38fc2e721be5a;0x6833f28122b34;0xaff4a1cbac74e;0x6e93a80726ad4;0xb6196f4d28952;0x9ea3df78c2633;0x6cb6a1db20210;0x5b27cc8572f1e;0x1f014e3b281];[0x0;0xca972d6405be4;0x435ca3ccde99c;0x88a467d517698;0x3230bcfcaa03;0xeec6c207b0b52;0xeb74817d9c5b4;0x5ae540d4ae51;0x7959ebe1f4121;0xc85eee57b6138;0xcd8c6505801];[0x0;0x48b870822f96c;0xf61c09cb5ee6f;0xbd29728d92bd;0x3bf84fe6a1356;0xb7123f6e73569;0x5d7fd0d34f328;0x2b0e5cacca98e;0xee1df9a846301;0x8cee0c4fae763;0xf28dfa5f187];[0x0;0x116b445e7cdd4;0xf91d453da6818;0x4053b3602db02;0xeda28dd31303;0x6950924d3bca4;0xf55771b1cad8e;0xdb65a9f185eaf;0x146df248e4c1;0x5d39398e13869;0xad6885196ea];[0x0;0x699094aa49ebb;0x18bdaa2eb9d7c;0xb0bcb95a89fcc;0x237472136d7da;0x7c54e7b34a0db;0xf3f242ea9e58a;0x9cb0400bf02f5;0x448d68165e1a1;0x2e3aa1ffbb1bd;0xd432db8c5ca26]]);
 ((V [0x21347d23c038f;0x7024baef92fc2;0x57680a90351d3;0xf1db789babbc4;0xf6d72cb9918f9;0x69ef3dafe10ed;0x5d253f3bb0ef4;0xecb63c57f55f9;0x3013386e3dd3f;0xc81a3640f] [0xddb1f60a2c29c;0x725098b1d8b8e;0xaec404ca9337c;0x88aec663f2574;0x6429f1eae05eb;0xe285dce8b8250;0xf70c7b4e4acb2;0x9848ed12af83d;0xd6c1223629ed5;0x919584e58df]),[[0xcf5fcd155b052;0xc95cc6e68a7ad;0x7f824bc6dcf62;0x172032f220adb;0x8d5ddeec329b5;0x1b1ae387fd33b;0x7e2c706189fd1;0x310d07f7c2005;0x9822d54456df;0x4056fb9aba];[0x790c3c204dd8;0xb29270db4f80a;0x2c751c5bed258;0x820bfc76dea0f;0xfd63711da8c31;0x716dda7c1bdc9;0xc17ffa97c566;0xbe1f6aae9b752;0xad35b4524b772;0x88bd37a0196];[0x0;0x7e6e4605eaa58;0xedd7f025b506a;0xf7b80b1f49944;0x2b6bfb1070ede;0xc22a7c863c746;0x24871b06fc43e;0x42b543144ab43;0xdc80a5f9f63e2;0x5eca19850588b;0x13c42f3883];[0x0;0xaa8486774d73c;0x80f12446544bf;0x72f35db56d3bc;0x24e8f81305e2e;0xf14aa01c6a4fe;0xea17f4f1569d7;0x2bf3a58d5ae19;0xcfe03da6431f9;0xeb10b14555ce8;0xab94ebc0f];[0x0;0x7909af3c7113;0xdb753b665984b;0xc1db876394f40;0x2340cd818400;0x2c7ab7212afd7;0xa8bb713699fdf;0x65a5541651d6a;0xed38b15980fb9;0x4285cd207ea8;0x102b9b5b6];[0x0;0x77bb43db73658;0xc52005e096486;0xf535ad3791906;0xdae63c4b451f;0xb5c29f6337467;0x47aba75450623;0x45921a3970024;0x2d4393169cdc8;0x85e1c38fc2e1f;0x409b987f8512]]);
 ((V [0xf4cce801f3f9a;0x73a97554eee7b;0x4f4d1f2b248f6;0x7343b6caa4357;0xfcb7ffc12b0c1;0x19996d680615e;0xb2e2a32350f18;0x20deaa93447d4;0xfe15678be8f46;0x41568f6183f] [0x3537657647483;0xbe07a75459a92;0x4dc0aba822579;0xdc6dd445da420;0xf1fa89eaa5911;0xc83eae6b143cd;0x529b092c15b23;0x6431b8b14bc79;0x97aa1ae46413;0x74d699480e7]),[[0x2c0546c3fcdc9;0x7c43d01f4963;0x16b3c08393f9a;0x8c446520ce64a;0x80afa2a91b702;0x80017a97451ea;0xc5acd9f0c2d4f;0x3bd725e242aaf;0xb4d95670eb5da;0xa5edb5912b3];[0x8607cf2d94670;0x9d809f2a0a9bb;0x63cbd73fabe07;0x74728a456e517;0x15acff9f05888;0xefc944e432aa2;0x3f5ea496a962;0xae38237db0587;0x3585eeda2e07f;0xe38977162fe];[0x0;0xba650a6c4f507;0x3c6e8ec1a0006;0x68be4d2247bcf;0xf874e76e19597;0xc3dc068656e1e;0x55b8761d2749e;0x632588974f768;0xf039a46df5e13;0x48c62b3c02471;0x9c68f77];[0x0;0x3afff6eafb0fc;0xe57c5a0c8a2ce;0xd6db63e690cdb;0x7cc6f5c40fe71;0x9ad7050020856;0xa43bc1ef61707;0x88c6957c9b42c;0x825e1d105aced;0xa692aedd123cf;0xbcb91aaa848];[0x0;0xaf61af6614a1f;0xd1ed62562f135;0xbdd515db32e97;0x7358d42f5e7d2;0x7b8b131719f0d;0xeae320a4f7efb;0x1962ada638e7d;0x9e066616f0de6;0xb174419a9e86e;0x6b8c48c6d14];[0x0;0x921b68531af9b;0x487572523aff5;0x90ff5cd693555;0x3702500911ab2;0x5b10bdcc06ff0;0x67b4c6038b05a;0xdf5624c61be79;0xa8b6ba8e5df0a;0x5ad9d8f643155;0xa669cb838bb6d]]);
 ((V [0xe089403dcc21c;0xf0789b06694b3;0x48451c7fed092;0x55b5eadbe9ba7;0x2884f0487f58a;0xaee8deb0b545a;0x3b3f0ddc7e52b;0xd3acce6752fb8;0x8849bad335067;0x873a03cb49d] [0x5a53a107a934c;0xbd362301d4c5f;0x9fb7495a0cf80;0xf9f173dca0df6;0x43a34c970fa3f;0xd3e1567210252;0xa6fae6ca83bb7;0x2282a67f5ffea;0x661434fa4034c;0xb7159d6b282]),[[0x2b398fd5b0d0b;0x11216569e4c30;0x73384b202f98;0xe60c8a0fe2c3f;0x340cf08e7331b;0xe3de5504a9d4b;0x23056b332c3ad;0x1c6e5a9f246f0;0x686ddd145453b;0x3beb2273863];[0xe0bdf6d51a335;0x4915aad52ec69;0xb5778f413e1f7;0xb55d058db0d31;0x4919be33a865a;0x214ff52025abd;0x1b303992525fd;0x5228c38debfc1;0xeb6a53f5f54cc;0x2843f4f3a93];[0x0;0x5fd348de5b19;0x38075460a405;0x6d7497a3e79fd;0xefed8807ff9cf;0x1194cf1add0ca;0x8ebad2abaa4b5;0x9b49767810eac;0x7478c3ce93358;0xab6f679212397;0x10ad12142ad];[0x0;0xcafc8cbb91329;0xe79d504facb0;0x1d42a381ff5a7;0x7f1b1adf8746b;0xce8ea0bd25cdb;0x523a557e70fa2;0xf852c95b560fe;0x48911b6c94485;0x9b14cf7a9c45e;0x36b18c1714f];[0x0;0x61d1847890d8f;0xe34b475b16cae;0x1746b267b9e62;0x830f4f759fc28;0xc3b7c451da4e7;0x2735993fefdd2;0xc80e0b7a951d7;0x27f6bc032e08d;0x86e0e30e15ac4;0xe0639d9849];[0x0;0xf398007393c98;0xc3a97574981aa;0xbbd9d61f3ef99;0xd6598492ded74;0x7dbed74e56472;0x9fa8b0ef8626f;0x58303b678fef0;0x626a35dfd7d95;0x48faa13a04e52;0x3c16b1f8f1bfc]]);
 ((V [0x2f66d825d936f;0x775f75bb718ed;0x672a4dea861de;0x63b6f80807893;0x7b8599d1b7dfb;0x318ad6f1e4c11;0x245946ebcd2e2;0x7f65083f8d206;0x70918d25899d0;0x3ba12f5864c] [0x72dba1bf6eb49;0xa038c337a912f;0x99569b5b8bce3;0x52672e9d6667e;0xec47c8bd75dc4;0xa904e90e411b4;0x38510242dbec8;0x3630839fc81a6;0xeb5b51a5320df;0x67f07629043]),[[0x32db22c6650b4;0x21cc0d30de040;0x362d112950a13;0xf4e3b3163c080;0x3f63cd6eba1ec;0xdbe1f859ff90f;0x3e9bc8bf9f9bf;0x679bcc85e17c5;0x71a35b727c9ab;0x1ebf930d07a];[0x2d5e186e212e3;0x81748bf348c78;0xed381ff74f3e;0x4ec92218a77f7;0x22535b25284ec;0x648c2ad320306;0x15e9b868464bd;0x70ef133a93c39;0x7b176fe3dcef5;0xf1b52d0a323];[0x0;0x24f100300426b;0x2452ca23d1c6;0x66ca934f9bad0;0x49512684a6307;0xcae560a4c439;0x24a400267861a;0x8fc300f10ce1e;0xa7bc935943673;0xe37218d01c1c2;0x476e3d26200];[0x0;0xceeec83f50bf5;0x60ba2b70cf342;0x6680c8b7ff32;0xa370d317556c9;0xdae88f9807d66;0x9b724d8ea1fcd;0xa79149ac671d;0x7c489fe52d293;0xc275b879bb3d4;0x2bfb157b793];[0x0;0xf431f54b2b5cf;0x30e096d4e875;0xb8dbc66561f81;0x954f72531ffd5;0xb76496616e48b;0x209054f234635;0xeb8823ee51a49;0x8a7a8a39ef1a0;0x48cf162618af1;0x3b175d3cfb];[0x0;0x7527748f3152d;0x8f66cc5415b49;0x27f2df00607f4;0xf090a19f7b710;0x7f46170756337;0x354759129a84c;0xdf1dc8b818955;0x2364673468ff2;0x58e0f248c5881;0x1ee7671b6d425]]);
 ((V [0x87ebf8ca3bd78;0xae1bb9ff062b2;0xc1cea37852f76;0xa9e8a4ae333e2;0xc7c2c1158737d;0x44b91c163b0d1;0x1c95a2da82c0;0x6b0c1c741364d;0xb00f7144870bd;0x181b7661067] [0x9ba72e5286a95;0xb682a0f57a889;0x7a2b496b61eec;0xf8b689ed972b0;0xdb235f505de14;0xe9cb400c4e2a5;0x8aa651495fc56;0xb74387301a3bc;0x2c11969487529;0x23d71477027]),[[0x83c4edf80ed8d;0x3ff41b99752d6;0xeb743ac6dfbc2;0xafba4d43bf7b4;0x30086ae252f19;0x9dde690a2f130;0x40dca80259577;0x58373daf3dad4;0xe9f01c3e65cec;0x4bffde89920];[0xe3e1fd51d99ce;0x4a21ee69aa79a;0x7edc590439c83;0x659b5de3e9475;0xc934734410c70;0x5404c87b8705f;0xe702d244484e0;0x7e69b52c504a1;0x262a08ca70b04;0x76de9437dc1];[0x0;0x8c8bf8250c915;0x6dad6ea9f4d7a;0x2e2661f799405;0x444c571928dc8;0x482f8ac708c2b;0xc21d05a964c85;0xa203ba1ccb342;0x419c1c1cb7696;0x414116806e27f;0xde3b14f546];[0x0;0x5c49f63e638e4;0x36f9907b6b9f6;0x556e39110522d;0x5ff1a39d00fbf;0xaf57ea4c628b1;0x21330e9e5dcee;0xa455edc9d6342;0x8e897430d0eb5;0xaf4db418afd9e;0x3db6aafc311];[0x0;0x566e4f4fb0615;0x48913858fd9cb;0xf453a31eb0062;0x89bb2aa7a323f;0xcbbab76cb0ec3;0xbb9168a04ac;0x24546fb32ae9c;0x9aa8dab2cef81;0x86d8ad10f2d3a;0x168fec21b31];[0x0;0x46570a7bb7ef8;0xa5f92403283;0xf9fe3d7247425;0x85aacb92adb10;0x69893ee19f244;0x37e3bfc046401;0x1cfb30feca778;0x87570d3a86486;0xf9fe88a30a888;0x4c566a166064e]]);
 ((V [0x1a3a3f442ac51;0x1ab8ed1cbe468;0xa11146b012bca;0xf86ed01d42d64;0xab35699e92fbe;0x920285a3eaeac;0x7fac778b1ad31;0xc1ff4d579fa55;0xcb273355a1453;0x5280531a50d] [0xedcfd4227c47c;0x777f01cafe857;0xc180675ad6bb4;0xd949a7ecc8ec2;0xb2e36fad3b20d;0x44d28cc20efb1;0xca7202ceabd20;0xfdc52fbb28045;0xfb1018ade838b;0xc2e936aeace]),[[0x3eda32f009b8f;0xf08aef798f215;0xab3880813e991;0xcaf2f9ff4341d;0xbdead34771516;0x8376056228370;0x63e401107dc87;0xbcbd160b3cfc5;0x46269a978dd73;0xab9fa843690];[0xcdbad64abe825;0x1c55e540af967;0x1e476108428dc;0x83cedeaac759f;0x6632c781e0221;0xcdbd7ba5c8b9a;0xf8199aeedd8c9;0x9edf6500d9c51;0x97da9fe07185e;0x2948d642dad];[0x0;0x1dc3c95107b0d;0x35303959305ac;0xc2fe81121a81c;0x91ed8432fd0e7;0x56e251032d9a6;0x5df36050672ce;0x2bb7314d2a0db;0xf53cb97b69f5f;0xc04dfd6305d80;0x2452924606];[0x0;0xbaad47e34ffa5;0xfd265393d50bf;0x253ab2db87232;0xd7b613f07b743;0xefbd4e815019b;0x850da33cce731;0x999d24537980b;0x4bb50a2c82151;0x2eb163b01f02a;0x300e099f93f];[0x0;0x75b9315399860;0x3020eef4baeed;0xea9d85669198a;0xe3e8f4a1a2ac8;0x84200cb146b6d;0xe1b5399633f9d;0xb7a13d2657055;0xf1fc636e38ab3;0xda814c32c686;0x730eae5c80a];[0x0;0x9fee3a2627217;0xc4bb97baf1eff;0xf1683fb3685f8;0x15c698487c118;0xe73faaa6f0b79;0x41e88c15860b1;0x12f05cbc0bd43;0x5f04783bd3f43;0xe9bfb3f2f3c79;0xac24222136006]]);
 ((V [0xd111e29758efa;0xb07b49fdc9b26;0x61675d313cfa0;0xab134808c3628;0x36997506e352f;0x724309e1c4307;0x5c35c76c75513;0xa39e61331a94c;0x3198b171de2d3;0x397c66118ba] [0x3394a6be1c4d3;0xd1081a69fecbd;0xf1dee442194a3;0x847300555eb68;0x23b989046f327;0xb576ed57a2278;0x8e22ef55d91d2;0x83beefaa05250;0xd432c80ec6806;0x5bc1b76448c]),[[0xa815627dc6de3;0x7972a03f962fb;0x28a9e5d63a045;0xdb6c957125dd3;0x6d02ce38ceb34;0x80b50a4531760;0x24bbea962e08d;0x1c21144eb10b7;0xd3f82ccdfdc04;0x135d63870f2];[0x91752f64b6f16;0xd0fb8e92883c9;0x3483f01dc680c;0x6e26e497ea478;0xda1952695f756;0xb7ef04573b46b;0xf49a405363b13;0x2cf801216ad7;0x981e4b28888a3;0x1d9dd319f38];[0x0;0x13d57e1f8251d;0xaf95f97a095d5;0xb34603d7c0f03;0x1d694330c6ec6;0x151f107d1781a;0xa10fcfe8a6282;0x14e4757a7f4a5;0x6f446739f56e4;0x85227e378b0e4;0x1a967590111];[0x0;0x80b3346bb200e;0xcc524d5a0c2f6;0xc22b679e24d8b;0x9bf7966c8af48;0x7b27f47e3da8a;0x8608b8ec1a8a8;0x2fc606be91c94;0xb138b53a9d57f;0x43b8444dac43d;0x1d7cd31db1f];[0x0;0x2515c809bf6eb;0x9966bdc7b8a86;0xce25a37f24580;0x381a9610457d0;0x95553ed17dfd0;0x6bf22470fcb28;0x5a4ace487fc50;0x672e794a6a656;0x37b4b91309128;0x176fed7831];[0x0;0x5d1d91f145d;0xa4d1343a8baae;0x2cb3a235b97a3;0x3b7326f697395;0xf9f14205864f4;0xdbd77dfdb9d68;0x7fba60af8a34c;0xa87ae75d6d4;0x7b943a8404ca5;0x1372a55554b67]]);
 ((V [0xae8def2fce3bc;0x7faf592b58e3c;0x63cd3ac024f74;0x433b84c51b248;0x8fd5aba676bed;0x6b4dd36646344;0x13c3298f36ae9;0x3674612088da1;0xc0b7c7d21b417;0x383470cfddb] [0x77615172cbbcc;0xcf5548a046567;0x5f8b87a0b8e5;0x55bd5173d6472;0xf4e38385e593d;0x5a266ea7a9d7a;0xbd6e77e303a60;0x880528c508ba4;0x413fd01bcddd1;0xef7c6301072]),[[0x4228a028595fd;0x12c3f15ce38cd;0x3ebf5000e4bc0;0x5b939fcc40cab;0x7614cac88deba;0xd3d6e11d9a169;0x8d39a624c04e6;0x10d46c6e08faa;0x27e816d179443;0x5aca55ddd1b];[0xf26c485bc62af;0xe16e4ba426b6b;0x8e73226ab744e;0x8f8a73b34d4e1;0x45d8a09597cab;0xcd040e8687f26;0x68c508e83bfb;0x4540e12bfbc8;0x422075240919e;0x3245a8b0f71];[0x0;0xbafb917250ee3;0xbbf82efe21da;0xbe6640fd32f5f;0x3fb231177df8b;0x203bbe2a70fea;0xb1eb726b36093;0x56dc1073d8fcc;0x736229ab7bde0;0xfe3da7f387481;0xce8a1e6d9d];[0x0;0xc99bda07d58db;0x528c36e73258e;0xf12442e5dc02a;0x6312bdf1505b7;0x4223891f60460;0xcd240372a8b17;0xcfe3063c84375;0x3f13352ffb506;0x4b42b8c2d03ca;0x41154035940];[0x0;0xb523b84c846df;0x455b676b905d1;0x94e73906542ea;0x3b56feab55180;0xaa77d7a612355;0x77a7cb3f5397c;0x940c61fa5f1ee;0xa3764e229fab7;0xd7c16e6ea0a60;0x2032e44b964];[0x0;0x4db09f162a01e;0x5872f2ddabcf3;0x6ab7069edb617;0xec0b96cd9d881;0x92eb767bad589;0x71b36d4b3b8dc;0x490c238675afe;0xaa669c1f84303;0x19f86cd9f34ee;0x5b2594831e21c]]);
 ((V [0xd315a3d3ec960;0x20a9f9bd9db39;0x1d9ffec4bb504;0xfbd98a2d32d0b;0xb7403ddf43175;0xb678dd440e0a;0xdf88a46cc707a;0xc4f46e6815a21;0xbeeee3d54f8b6;0x7cafb57a423] [0x3293cfd3482f2;0x8a131ce82da02;0xa70a2c02fd7;0x5575e5ae947ed;0xdf55e43f7882;0xd4d204ede91ef;0x3b24615559c1c;0xdd3ec63629801;0x95df993443ac2;0x6a97e330d3b]),[[0x5deab890be52;0xc3f475900058;0x12eb0a16ef500;0xa8a48d2f2caf7;0xe6395b1302b0;0xbb44a1332c266;0x104a288ff221d;0x85e34fdb83784;0xab22dfe6ee8e5;0x4f425a91573];[0xc4d77f7c3ae3f;0xf08a50d52e3d6;0x67fd914fceef3;0xf07b258162801;0x4473789ce45ca;0x6bdb702645fe;0x620305c1e9f6d;0x9f34c2c596067;0xa6efa6e87ec51;0x6b5cb516a06];[0x0;0xffd111c1191a7;0x3d2c1bf59b4b;0xdfbdcf5e652c3;0xe1ba8df87c484;0x6c16dcefceecf;0x83fb981dce0c3;0x897a356c11d2f;0xfabe80b087afd;0xae43801874b40;0xc56fc18f72];[0x0;0x6223690084459;0xf9da58b5f8241;0x6a2b0dc369cd3;0x6437fff881f;0x629b5eb1cb937;0x2005f104ded7e;0x9d860c9954823;0x2bbf34dc0c8bc;0x9302681385572;0x944aeab112a];[0x0;0xe5f51890a334;0x7253cb1f40b54;0x651ac3a9b6409;0xde444fde65134;0x8ba7da4ba3fb5;0xc24fcdba0830f;0x19add3edc9626;0x702b35475cb95;0x1b815763ec67e;0x188a051886d];[0x0;0x2bb59078a87c8;0xc1aeeb3983992;0x900db1f3c55b1;0x795b077a103b0;0x21d9103d03fa3;0xdcaacb013e612;0x2c3f6e2f05560;0x23f825c1fb1ea;0x1c3e5312dd87;0x4f7c6921b611b]]);
 ((V [0x4676896ba23fc;0x14ce52df146db;0x6a4fd4745f8c6;0x2109be57118c4;0x362ea60ab3e3;0x351fde4d8b0fe;0x8c3c9b0b9789d;0x93ba9bcf19f15;0x36d673220855d;0x51efc1a34bd] [0x87c659c56b01e;0x90703aa3a38b9;0x989e85fc9cbd3;0x8b2b34ccd3ace;0x3f05bfca20c25;0x7acb2a0587b32;0x1072df9df6a69;0x230f962a1ca56;0x41181f9965d0;0x55812bd8e54]),[[0x419f380b35eba;0xda3feb5bf6c57;0x32bb266058471;0x8776e39f03f79;0x28301b6bb1fa2;0x940609996ec24;0x911dbac092ed0;0x93d4dc1a7ab6c;0x5bb6b37574a1;0xcb0e81e3a07];[0xf4ef0470ddc83;0x8fec8a044a833;0xc76277b4b7d33;0x58d35bc3edc0b;0x97c1fb53fa8f1;0xf221671b7eaaf;0x55da3aa317e37;0x4d139f4f8c55e;0xf31e2c5db0a49;0x4232ee59eb4];[0x0;0xe0d7d8ec9a09b;0x6194d992865f6;0x1988d38342bee;0xc79bcb58a7377;0xa7676917a58e0;0x353601681b6f6;0xda2300665049;0x8dcd7f021d4bc;0x6b9736741be24;0x3cbab0680df];[0x0;0xc6437fcf22ccd;0x65a74e51d29bc;0x21fd262905a22;0xde10a73983425;0x8f11f1030cbf1;0xf7089db4eac65;0xace0669631e75;0x94040266c89ee;0xeae8c569b6ef6;0xa918f716eb0];[0x0;0xdfbd8ad6c7458;0x4754d075d5981;0x19ad4c6bbbacb;0xb7a90b6cd503b;0x678c7feeb16e0;0xb5a91ca17bd8b;0xeb92466b6ed4b;0x6502ac6bf2b9e;0xeefd4f0d552a4;0xa11002d1773];[0x0;0xa1a5b41afcc62;0x947a211cb1ad2;0xc420af682e79e;0x76615ecbcbd61;0x7139084bdad87;0x821d4a6c253d1;0x5acbc6649d9de;0xeb18b89351f00;0x1b0504248e9ba;0xcbfb79080f98d]]);
 ((V [0xd4a0eb7b6aa16;0xb63c71d43db9e;0x26fe2d46b50c6;0xd14986779bc11;0xb3586d1eba610;0x2f63dd1e182be;0x97daf8ad162ac;0xf05306a413eb1;0xe2dd074334dd6;0xcac1822e170] [0x468f41bf5e17f;0x4ef6127a514a7;0xf9cce85522c81;0xe5b51d51998d0;0xe4c03ca71af82;0x7e8c775a4e16d;0x8660a27d6e23;0xb1ad278801997;0x654429773c9db;0x4511d813b2f]),[[0xe0af2461d4c88;0x6251cd77dfea4;0xae4d38159e974;0x89d89f3aab271;0x88b265f68a7;0x28141991c1de1;0xa94d1385cba21;0xb1d9274eb3f6;0x4af6d9f3bcfa8;0xdde0095424f];[0x2f46e889ae111;0x1aaa9c4d37be9;0x4b7af6fc7bc18;0xacbfb104717fc;0x785a63c77ccaa;0xd9bb2b2605b9e;0xdbf5654409bf0;0x2577dfd9f7c90;0x86aa9f636bc6a;0x5b17f3b15f9];[0x0;0x6c7e261975509;0xf6c05dab5945b;0x19672527f1e0d;0x4c406873d367d;0x130f711176aee;0xc060b097d37cf;0xfe4b866c899cc;0x18f394fb380c6;0xb00800510a8d5;0x1a399914775];[0x0;0x6f3f354010dcf;0x21756f5207ab7;0x1a7ad9f0af189;0x1f63d37e56d32;0x57c1ecb754caf;0x692a6049a1a1e;0x320f168e75a5a;0xc7ce2927a36d5;0xbef0af1c3eded;0x9436adfc81e];[0x0;0x49387bc4603e;0xe3ccd205428f4;0xc99923be77158;0xce156e7af235d;0xd1ed25af15ee1;0xfc2122179a05a;0x20c60efbf001c;0xf31604bd67d2f;0x62957bf027d8b;0xc04c942b9b6];[0x0;0x2797b89e2f35d;0xf72ccd0680a21;0x305f60b17c376;0x1219fcde97fc;0x205b9778b1120;0x79729486c7066;0x9d1ce39af2948;0x41640103cc3d6;0x7890fb8ea4654;0xde55328e51b8b]]);
 ((V [0x34ae58d34f50f;0x54980446a7ff1;0xc0a35346d6c37;0xfc205d350d22d;0x42c96aead8eb4;0x968c4fd96741d;0xc533e3f4f0857;0x352370de21f1;0xd4e062410d188;0x57439fab33b] [0x70c1c0b0bb63e;0x540240fbaf608;0x22e212f7c2cac;0xb96cd8ea26e1d;0x97a6732dd74dc;0x9e414ce9146ff;0xc38f5531bc5ff;0x55bfbd6592d44;0x3a9b08304ad89;0x360ca5ceb5b]),[[0x25060ef4ab2ca;0xfe9702081ed8;0x7ad357666788c;0x57c7344e364c1;0xae83c09ea2c78;0x5523ffd0164e7;0x9d9b05f49f6ef;0x9c0f4f6b6ff40;0xb335c69c854bf;0xe608c267a55];[0x3fa59478dbf94;0xedc86830e909e;0xe84fb8aa640f8;0xfb2b258f75963;0x4f53ab2a20c5d;0x6cab4e2fda4cd;0x19a223c0ce374;0x35998d410a207;0xabd0816367c10;0x5a29df78a33];[0x0;0x247fbb268f330;0xec61118f88057;0x3bbbb3fb85ac9;0xce1acffa1d651;0xc78222b6243a1;0x2e3499f7be12e;0xec588cb7741db;0xeeb8892dd795d;0x3fb64bd63e624;0xa095f3b6481];[0x0;0x9b065e608d4b4;0xfd744e4e59035;0x84edaa9701dd4;0x163250172c808;0x3ea5bccd6cbb1;0xb8c981cb008e8;0x6dc6cf39faad1;0x2586bbcd43c21;0x1c0d442ece926;0x7c20ca47dfe];[0x0;0x441391607a48f;0xa2af68924d8fe;0xabb35bd2499f4;0xbe36e00ef131c;0xa01e977aa793a;0x848e29b01a8e5;0x288aaa2e04483;0x669438e116e2;0xb7691f7e4aa31;0xceb3bd9ef73];[0x0;0xce105f241c4b9;0xcb71f9e06da2e;0xa49cc7f5146b3;0x5d1171eb5f0e4;0x774a82767404f;0xd3b483c0236;0xbf8e4530a3e77;0xfc33753ed0f0a;0x6ee3359b0570a;0xe756923731d4c]]);
 ((V [0xf1aabcbcb0ab7;0x1cfad1f857652;0x28cef3da53faf;0xe719df5454758;0x1df959dc994a2;0x22189d730c338;0x5a072138909c6;0xa501db2c70d6e;0xf65197c68c23f;0xedfb3c93378] [0x76c67d1d38b4;0xe6fbb91e77acb;0x3363a87513fba;0x30dbf26fcfc60;0x58e1e012997b7;0xf232fbae9772d;0x610847dc13e21;0x9895791769289;0xe4b4308b88a02;0x4c19b5ce4a3]),[[0x65b92ad32b474;0x5da2a0b6d984;0xf7aed408756fa;0x97c26dde7f139;0xe6c6772b7b70d;0x7325ddcab3778;0x8f4b511d73050;0x258efd2defd0c;0x72ad70159c2d2;0x51fcfb44a01];[0x165f02ba8ec98;0xa51c870d6d7bf;0x9b6e5a02d814f;0x57e8e4c263edc;0xd1bd04f5a5b1a;0xb469a6c91f52;0x692ef1b20ae99;0xd1e342b92c777;0x145ed6f96f79b;0x5d397596a6a];[0x0;0xe1a829080376f;0xeecbc80e03be9;0x55e8a897a59d3;0x374662210a18;0x828007aeb114f;0xb4846ee692e03;0x6bc540f147ff1;0xf16a30ba5ae36;0xddce25401254b;0x1dbf0863545];[0x0;0x207f5c515163c;0x45de8064c0cb;0x45f2742739d14;0xbb745598f7c45;0x413db4772eb21;0x918c18e62d164;0xe0ce58d64f022;0x6d6d155303ca0;0x670d5bb1abd4b;0x229ed3ed056];[0x0;0x43b4ed4de1e6d;0xcdca888807f4b;0xdf6fbf8e4a3e2;0xa5423ce02434a;0x2b68dca37b143;0xf0159258435d;0x758e74733c17a;0xc0b3b5b0460a5;0x97b0b4492cc84;0x1a421101130];[0x0;0xf7111c00a5816;0xe2171b2c095c;0x35fbb8540dc44;0x4b7a8b7a8eefe;0xc08fde5d7b942;0xe6fdecb3121f1;0xb299d695f2de6;0xcbc196f6d6379;0xb3693b4b5a48d;0x521eb336926bc]]);
 ((V [0x631b433c28fe0;0x348f5f24805bf;0xaf4d4896e1f2;0xab9025c72c4e1;0xece0f88246f2f;0xa99a977849f63;0x63a2334d6f987;0xf5a650d41a25b;0x1ee4f20de0d86;0x528a04beade] [0xcf3f25ba47cca;0x8bb41b61f0634;0xc920ff3b8c810;0x2cb3eff94833b;0x303db3039fcf9;0xae05e4655f773;0x298b9cf97a893;0x7fff8424ce740;0xc3c2ac96f3bd8;0x8993a5b9a0e]),[[0x93dca67013cbd;0xd4e92794c6a5c;0x38899db30bd8;0xcb380c4698bc0;0x4d5f70d7f2709;0x4fe8701dffb32;0xb3372953091c6;0x1e135bf1e1ec6;0xdb62a9be58ded;0xdfb576b43d5];[0x587c65e64e946;0xefea84808e830;0x22dd70d7f32ff;0x9e8e78b3735c6;0xb6e4237d58ecd;0xdbb4152ad54ca;0x8d0a5991016da;0x579a42841ec4;0x4d96ab902e897;0x39cafbdea46];[0x0;0x1dfc9ae2eaa1d;0xfa348466b3480;0x791514463d208;0x87e8c2415888;0x9ea36d7e622a3;0xff65164a9583e;0x86d62ab73fca4;0xc98b0b18ff24a;0x3cb158274e86f;0xdd3b24b86be];[0x0;0x56c9d52f4c63e;0xa794b16eb536c;0xbab1f07f52d8d;0x12245e5fa73bb;0x6dfcb7ef82ed8;0x789e4e3988e6;0x29a590e9d49a9;0xfd46984e7a42f;0xb515f55dbae9b;0x8500adab574];[0x0;0xc92e39c330bed;0x831d56b8fd834;0xba1df0ef26f45;0xce557ada89d1b;0x785f413eea4a4;0x2cb7a156651e3;0x7a6b37b57c16f;0xd039b5e99a4c3;0x2b15a92479e9e;0xc37da56f14d];[0x0;0x5eb803a2f8498;0xd87ee8c584327;0x1543d33a837d7;0x8544ea5575090;0xce194e7cc3e64;0x46f5745599af4;0xb15b45eae29be;0x6423d6f04d8ab;0x16cd7d0ee5f58;0xe11d01f9b3d8e]]);
 ((V [0x18757cf47c95;0x562e23699e9ac;0x9c7f313fed5e9;0xea2e165c64d64;0x6390ed2b134ee;0xf00c443c6da1f;0xfcde4fefeffec;0xecd7fe9da63f3;0x8006a40597c11;0x6e848ee87da] [0xd4c2db22c0aa1;0x60d62b9870337;0x7f997b4ab4c44;0x4c777819c1914;0xaa62c075434a4;0x5a4fa69b6b1f1;0xc3755d4b3445c;0x55a7157944796;0x923d2d48eef16;0x1698b86484d]),[[0xac6ffeead96a7;0xb5302c150c1ed;0x714d70b991819;0x31f5cd2604b1a;0xcda42f68073e6;0xfb8dd7dfd0a5b;0xc8997ad87af5a;0xceab045dc0bbc;0xf1e0030d89cd5;0x8825015ca5a];[0x3a75eb3b97a8c;0xfc89ad065f629;0x860924423a365;0x166fb5561e76b;0xa5100ef70a1cf;0x5e92ae41d2e1a;0x4952a5554a748;0x25fb758b0395b;0xd8fae89c636dc;0x2ebe152cd3];[0x0;0x2a3fc07aebaec;0x7ad24437bb639;0x1f5e2ebcea764;0x24d3b6003831a;0x413cec446f316;0x6861ba2f85e90;0xab08237ecf2e1;0x7c42cd47387d1;0xeb7b53f490a08;0x1a9cb573450];[0x0;0xfbe4445f964bc;0x34350463da7bc;0x973530de3c040;0x31e7236c54a6f;0xbdc5373e64bb9;0x38e810b6f641f;0xd588e65916f23;0xc8a798311275e;0x2a0a1093a3830;0x9254a639de2];[0x0;0xc245a96750684;0xb937931b7d0ce;0x5869298609ac9;0x3ae2a1b1ee354;0xcfeaccfec5160;0xf2a5aa054da55;0xe796d8a06ab71;0x950be52197a22;0x3cf51bf490a3b;0x486756cbd4d];[0x0;0x4a57f920ca115;0x69d5413e241d1;0x23c91f99406af;0xc804d74e6f8cb;0x67ae7390d3733;0x5fd2e43a11e4e;0xf82b744b7ce23;0x5a0f8f77a32f3;0x16d82ca887759;0x889e4539400bb]]);
 ((V [0xaf0128b437d2c;0x28c8b514e22ce;0x76d5dcfb829f1;0x8eb936eb715a7;0xbba760c6e2547;0xfe6fd85352718;0x3217af0434aaa;0xda2bdf84020ca;0x5a045a1cfad27;0xbf95dd6a33a] [0xfb8b603d3da14;0x6cd5eefbc604c;0x76b80cedc4b81;0x8cf362d434825;0x831746ebff2ab;0x69224cc7c05a6;0xd0f3e929746c;0xedc9a4e3a51c4;0x6dd7565c826;0xf93027855de]),[[0x6a4706cfb78ab;0x86ba13194374;0x819e2351e4456;0x2cf2d1cdca93;0x9fc62e6bed3cc;0x3f210914fab94;0xf7df5fce228d3;0x6a45911fe7e87;0x74183af75a95b;0x8d9abc966c5];[0xd82fc21d41146;0x9786b275fea90;0x9ef452ccebbb;0x42e6d13f3a4b7;0xeb9364c05446e;0x551eaafee8dea;0x3364c8b649dd1;0x5485403da4a3d;0x3ff968bd58ad0;0x939d150b804];[0x0;0xb4b1bb80b52f5;0xd18d4d6a03a5a;0xa4051dcc3c5d;0x3e1bc1a04112;0x9103718dbb5ac;0xfdc9449e0c4c;0x486f7b23765c0;0x9026a580a67f9;0x4b4261b836187;0x2fb62f737b8];[0x0;0x3a33a568f8280;0x2a2b51f811712;0x4fd955ce1c538;0xba9b929e714e9;0x5f9b405e04f2;0xe7fe5ea4e9bbf;0xbb5819246ac83;0x7f3fc03613d0c;0x30292e433a857;0x18ff8c27703];[0x0;0x49b5b91f2f105;0xb39031f12ac0a;0xc23ff2287d8e9;0x7cd2ec758b2fa;0x55731b814913b;0x9a87c4ecc4c35;0xf0c435f8741f3;0x97fde47b7f00c;0xfbea92e0aa329;0x4e53d145233];[0x0;0xab6639b1b19cd;0xf77459c00e97;0xde68b0c068284;0xae0138d9b146c;0x8bd4bcc14b574;0xf401a773c9b85;0x1cdcf324a4274;0xda44171d3f8cb;0xa692ec3417918;0x8dfb7fcaa3c03]]);
 ((V [0x615279c81ee6e;0xb286c3e3b9a8f;0x76bb8a418b8d2;0x8fc3bff7823cd;0xf68cceff63d20;0x5ba4ccef6e0c8;0x1d2255183fc32;0x316e3aea393;0x6b9911b60a291;0xc1de311369b] [0x6fd65cc34b18;0xb46d2b00dbf76;0xacb7cdd82f509;0x98e818fec2614;0xc8b45dcc65638;0x361545d5602fc;0x553b8156184f5;0x7990a4aa25362;0x5e0327c509384;0x3e3bb702c25]),[[0xe8f5ec6ca0ae2;0xa909785d73f3c;0x46526ce02bf68;0xc5836e3f7ed1b;0x67a685cbb353d;0xd863418312597;0x2c69d74710063;0x9f1f0a737b791;0x8141e4e6db526;0x2a55032f2d];[0x2d378230a780d;0xd04344b28ad96;0x2ff9e51c6f24b;0xef61fa0850a34;0xe81efe8d601d0;0x6db9f20dc6320;0x919daa4640b23;0x602bcdc777e38;0xfd3e9d62fd93a;0xe6197e7aef4];[0x0;0x7dfc5505a5865;0x5bf7e03f19a38;0xd3936dc33e508;0xff6b167e99304;0x77e16ad1b6381;0x8bd5324c12fa3;0x312268e9841eb;0x55761430e5f10;0x1cd2f3ece9c2f;0x8f60f81ff63];[0x0;0x3fa8c8b7a2373;0xd98c6d9a098c1;0xc20282d99a88e;0x1f1028b006302;0x542372e59a8e8;0x94dd0b83894d6;0x23b577a0e099b;0x94b9f72512379;0x900ce5bcb00e9;0x52694d24fa];[0x0;0x91b97301bdb52;0xe1dcbd42d6cf7;0x83b51fafb8478;0xe12043b1fc652;0x52953816026c4;0xd0a8819ac8191;0xc1a9ec811a9ca;0x9359042d29820;0x84cc537a2d986;0x70001469];[0x0;0xd80d9f2378dd2;0xe4dfd849085b8;0xd6852d70e5f27;0xe664b7ef91ac8;0x9b0d848c5c5ac;0xe9718daab4e26;0x84894eb456e2d;0xaeaf340861cf4;0xb2f878b40666;0x2a7ef79297e0]]);
 ((V [0xf514b71ebbdcc;0x4035582f1b252;0x150e3e20a4c4d;0x1dd0fc8f70c9d;0xaf23c4875cddf;0x69076c398d3fd;0x455d23854865c;0xc33b1878fbd0c;0x733fbd20c044f;0xdde9b802516] [0xae1f76a7ab992;0x3d7abb33c7671;0xfd416942a2ff4;0xd2adb72cf521;0x4ee03d9cfdd20;0x2e400e5bc2a1a;0x9e93eae58f5df;0xcdbddd2f6896d;0x177b56c788706;0xc83b81b2cfd]),[[0x419c359fa3ddd;0x682de149aa219;0x8e67d67fe3b14;0x52a17408aa8c7;0xc3aba783431f6;0xc943fe6da4710;0x73be7df79c720;0x99d40f0f994fc;0x48dc9c0e00f23;0x251e0b139a7];[0x81c0d35721c64;0x77d222b764c60;0xd530acae8f96a;0x1c26d72d2fd47;0x952ddc1fce2d7;0xb68a1a611d8e4;0x98a5e0e642ac5;0x32d9e8eb7e376;0xdd536102a0aab;0xf0f75ca86fa];[0x0;0x866f127960e20;0xa74a4dab80341;0x700beb56692b7;0xabd41f57b1b7;0xa7252feec0138;0x44f470d17cd6d;0x6bd918bdc0605;0xda5c01cc0917;0x94ca772c3af63;0x92d0c6d86c7];[0x0;0xf59fe08911780;0x476915b013319;0xf56cc8b02e206;0xe6157bfbfb4d2;0x1ee0facd6a13b;0x2713c5ea93e18;0xb8450648c5e3a;0xa4dc9b6b90054;0x24948693c6a0c;0x120bde485a8];[0x0;0x1c02ae01c0cd7;0xa6a22ac952d4c;0xc79977880a3cc;0xa6b8e3d81504d;0xb0353a40cea89;0x3dfa173fce3be;0x43f1825e67303;0x42cae34ae7eaf;0x89513dbb6cb11;0x561b2ba43b];[0x0;0x6b6054f74c02d;0xe7ac10d90d3e2;0xc0052b058c2da;0xdcab25431a594;0xf9981237236bd;0xc2b6d359c7d40;0x6030c3db66e6;0xe20d003828b58;0x3b38dc58a7c04;0x253f18299d12f]]);
 ((V [0xbba3fc7010e05;0xbd4de23004cc8;0x77102d4ba0ae4;0x836720ac362fa;0x479f130350358;0x1791705d605d6;0x6d529e3941cfb;0xa668e50f9c512;0x4157f8cf506bb;0x1249a6f474a] [0x5ebee15a7edd1;0xc8fc7a7644e09;0x9155aa88e2220;0xdb47686476b15;0xf13b238ab07e8;0xb89093d6bce8c;0x964aa4d1c12e1;0x6bb26c9e50f18;0xc3e7d01c67f88;0x596438b5ec2]),[[0xa4cef143eec28;0xd63764d5f7f92;0xcf28f7c892f97;0x9af7155c6a6c2;0xa52597a026b50;0xba8a513315413;0x691449a6f10ef;0xd1132db8ca6d7;0x8445b8cafcd28;0x13bd6c4544b];[0x27bf9b7f74b3a;0xcfc587403a117;0x820a49aa54733;0x6a8a6aac6c0d;0x26dbb70fe8bcf;0xe743d6190c34a;0x4a82ede45394e;0xa2bafcdb376e7;0x86609a468bd12;0x4193e37f19f];[0x0;0x6f78cbbe46dfa;0x2650be7f8d792;0xf48cdd8b21bd2;0xb32f0a87727f9;0x304dd63649825;0xd01af44111708;0x3c180dd247614;0x58c51183ba759;0x7b2a723465fb2;0xc05d5d14790];[0x0;0xa4037723c9862;0xeb423ec9aa675;0x282bc0aa80862;0xaa692e2446ed4;0xb29bb1d05dd25;0xe64710dc296a;0x3d66918ed3e63;0x179140315287b;0x29a2cb6a2f9b6;0x1ee1267c9de];[0x0;0x5bae05077a45;0x598da6e770cb3;0x95586bbd1c225;0x4bcd8bea81e6;0x1faf9d7e8d49c;0xa6ff797d1b014;0xcb59db9bd8cd1;0x21c4fcb324dab;0x556f41d84550a;0x185aa3b544];[0x0;0xd9962c67df6cb;0x659169a73f901;0x33da59c701544;0x553356df77f24;0x9cfeb536f8599;0xa4e3297c08e84;0xcab10eb7f0ec2;0x86378a2cf4b62;0xa9f0b0fbfef40;0x13e0dd3e193b9]]);
 ((V [0x8443cd425b936;0xfe03b8ddc12ac;0x9035fe5568a9b;0x5a7537820ec54;0xa51e42c947210;0x222fc0a0e61d8;0x58100286654e1;0x5c7ca49ea8c84;0xda8688311c496;0x494e4ef882d] [0x4231b239bfa0c;0xec88de369ac7;0xd0fc19ef56d90;0xefc9fb3a793be;0x910838e955a25;0x51ce4df78d1e4;0x126ac5d592833;0x7cd75fc768f0c;0x5293b3493d643;0x4d12b8a9706]),[[0xe8ba5bfda8cba;0x1b39cbb338cbe;0xbff9f5bf3f4e6;0x9ac64f1d42fd5;0x2118214c2779b;0x1a0e2a7f14d01;0xa25f54c461eb0;0xe550e37a0b290;0xa066a21c2074a;0xab214cf4c95];[0x190a70f749971;0xb5b3fa639be05;0x6c8d2dacbe7c1;0x427cfe1a83c25;0x58d753390264c;0xb2d3093e0d2c9;0xa573fae5dc3d1;0x5e4b877593fc3;0xfaaf53964a442;0x1decdc2a234];[0x0;0xcb44e75f49818;0x64ebb54922259;0x920aef038b8ec;0x76bb64d0c1a53;0x97893b92df44a;0xb764efb21b8d3;0xb946d329a3fd8;0xd734ae4620f81;0x3894d8c605b49;0x14e70ab04b];[0x0;0xb528b7b56f57b;0xcb23f8e3bcb6c;0xa759958bf0f30;0x83bc0da6b1f84;0x24c1769968d0;0x60616be3a05b2;0xf8ce4933a2f79;0xe736aec330000;0x5de7f40d5978;0x778325581dc];[0x0;0xb7b0b6db71efc;0x3f9e05278291b;0x29996d6dc3d7f;0x5973b4e4d515;0x9faf690e99d58;0x405e2f6cc7ed;0x3349d93016be7;0xa9a71f22a7dd3;0xc6f65563fa5da;0x72658123f33];[0x0;0xa94776d095be9;0xc250dc06b8dd0;0xb93ef52568795;0x8709fd751444b;0x86f0a979b1b85;0x47744cf1e7141;0x79f365257cb0b;0xab150256f8060;0x2ccf885280b34;0xaba7a6fd5fc7c]]);
 ((V [0xc84ceb3ba5b7e;0x1ef2a383d07b1;0x46b5c98aafbd;0x3fba1978b02d5;0x3c83dcb05fb7a;0x8112ac727c268;0x2fc4c6fb638f9;0xb4543bd257344;0x1abd702fbcef1;0x65c1897553c] [0xaeffd74cc0390;0xf1fea4c06aced;0x68a73c594568c;0xbd982805210c9;0x125cb78aa94c1;0x69a6c4997b4c;0x1778322474dc1;0x50cfabd9de6be;0x61faa0e952b8f;0xd634dbca6c]),[[0x4c92219755470;0xa23a124ce2385;0x72afa3f49c833;0xfaa15e99318fc;0xa2cc3ad61275a;0xb82e3f1f0a38e;0xdc8599c1b6267;0xb4f8ae4e1bcfc;0x5ceed6884ad27;0x8f30a48bdec];[0x68fc5905690a8;0x8122e9eeef9e5;0xf587e86585b10;0x542bd369b4f34;0x7853d41d14076;0xb90cd24240cb7;0x99e0e23f2f167;0xf7bbbdfcbb945;0xb5ad01d9b4955;0x16d8e1b810d];[0x0;0x265ee11937364;0x778ccedcffd6c;0x4447aab02a736;0xf1dfbca6ade94;0xa9a335018597;0xf2d587aa1aa26;0xe50ab5ba6ca50;0xaaf1a48e27db3;0xe8a1b1d6bda44;0x14fdc0fdf26];[0x0;0x8c741f552ff1c;0xae144d74f8642;0x2963698d5a1da;0x39ed7b100583b;0x8dbd856519025;0x13783926a5a95;0x756dc812e5b14;0xa020f6a86f69b;0xc5db06e1fa5e4;0x56383466c02];[0x0;0x2c2a456787c3a;0xdfb1cf2ed142c;0xe5b6db89467d4;0x26e61659abec4;0x140304aa301bc;0x8772fccc0d699;0xb8bc51732739d;0xaaec81dd59ba5;0x80933f195faa8;0x50176112611];[0x0;0x2c32d705d9a6c;0xd522014a0b750;0xf06b14ee7128e;0x56b2ffa6d6eaf;0x1db947bb5ab0f;0x4c020746d8c9f;0x388f5ad7a4298;0xd9863514f85be;0x393afb677d7bf;0x8fafeb6ada97b]]);
 ((V [0x7112dbc4812ec;0x76a805bd2acef;0xef2ee165a8b4b;0x2f9d4cc266f32;0xe70c81da2531e;0x190950f75a2cd;0x700e4a94847b;0x798223b64c930;0x1ed86398f649e;0xe010dd9338d] [0xa7096a9889cc1;0x466aa97720e03;0xd3a8eb69a93a3;0x4874d0b99732d;0xf876e708cb0c3;0x1f8ecd02084b7;0x18987083827f0;0x611a70f310ec3;0x95b04a2a05195;0x83a6d9a471f]),[[0xc1d5cac6cc72;0x867a1061b26df;0x6871ce33e2f66;0x7ce2c273e4353;0xa4cb871511024;0x39c6c66b3af94;0x79d93c48b51ad;0xf4af1e86e97f9;0x8dec899c9b144;0xac6e004de9e];[0xa1852fbc69928;0x17675382752a6;0x76f0ceb09c4ad;0xe6a1babba6a68;0xf7ca3dce5b7ab;0xa211da03f876a;0xf412566ddfc68;0xbc94c2da264ce;0x1a12f334486f4;0x1f2834e5298];[0x0;0xceb33b614b044;0xb8932a738973;0x3447f1ad332f3;0xa8010456f69;0x70803e20dde4a;0xe862b877e176f;0x6defb60573b38;0xf7e0f49855d27;0xde507b6e78ca4;0x287248c720c];[0x0;0x3bf9fd62ad4dc;0xc448c87f607fb;0x97d5e17c4b318;0x78f4759bcb2fb;0x16018282192ce;0x785027a18b21e;0xe950e18a7642d;0xa2d95393c792;0xd6f179081672e;0x1208f1d4746];[0x0;0x7ecf4c8d0d044;0x54abb33a45cb2;0x1ceaef73ef4ce;0xb7e17b6c9eb3e;0x273dc0ce029de;0x2e5a5b762b3c2;0x66dba61705668;0x38caa52a006a0;0x607338edaed93;0x7423ffacf54];[0x0;0x625bfeb0cc27;0x992b9c69a3007;0xb7a577996d06f;0xe5943eb7f6490;0x5904be0ceb97a;0xc133ef6b3a295;0x7d5d798a03560;0x1311286eaab7b;0xa8b6278a9cbc8;0xacc80c73785e6]]);
 ((V [0xd9bf659b89eca;0x81b24b5be662c;0x5e546e94b2dc;0x197531612bf45;0x65d35e9c455f7;0xfc81a6cdb11f;0xcfd812b155826;0x6cb7f6c1ad7ee;0x4f1276bbaa1d8;0xfbd84919802] [0x6e345f2f58dba;0xd72efa2a138e0;0x323d65bf76916;0x887b9ce79281b;0xf4f410153548d;0xa531536a9dcba;0x1de17043804c9;0x85be854c4c040;0x6d63afa120122;0x71eb96e4f2]),[[0x47aef0a3caf58;0xff0a8a6c46ace;0x5a6bb67119a60;0xae01e598dfe7f;0xc40a2e7a57c32;0x2fa39639c0ed8;0x9842ea44df0cf;0x685a7a50e021e;0xf20feabdf7b06;0x441fe8e709c];[0x7eb4dd9af26fb;0x42200cfa23144;0xb85243965593;0xf699fcf7654f1;0x265781fd0e2da;0xb8017610cdc43;0xa1dcf51ae4518;0xd3bd068c1ab91;0xb476370c77137;0x105d72aef17];[0x0;0xdafe8b7d2ccc3;0x29d029c2c1752;0x945baa97a7a50;0x457d5d3b1ffa0;0x2dc5a468c184a;0xf431d356ed4ad;0xad644d26fc2a1;0x1949fa9292fd;0xdfead574f2d9a;0xc41d84de159];[0x0;0xa6bcadd34cc2d;0x3b5136864844f;0x8a0a254a2e219;0x6a05e6f840fe;0x363eaf7af4056;0xb78dcf139202b;0x1cc5a00e1bd79;0xfe82200d7430b;0xdad2954bad1bc;0x461175941e0];[0x0;0x6388a89cd2172;0x6983c47fde73d;0xdb24e49e96254;0xdcfc6989a63aa;0xc6f397d038925;0x88e546bd10510;0xba20b9b358a19;0xb7794bf9b0f4c;0xdfbfb68f7b482;0x1220f7b4f90];[0x0;0xacc6f6678527b;0x2c87b7e79801;0x79cb3f53cb79b;0x96c384c4ad9ba;0xd596bf9456447;0xce161fa633a53;0xd2a73172e1fd4;0xe282fe5fe8730;0x73c3c784611ba;0x445ca460f55d4]]);
 ((V [0xa4b150af3fc77;0x8d1ab8250a393;0x1e30c3d90907c;0x98f11002ccd13;0x367be619f9ec5;0x9f6278716b930;0xe4a216e63d9c8;0x577a5986e15e8;0x8d1aa6d6c661a;0x59ae35d71e3] [0x60fcea4def12c;0xd8f273b1c3abc;0x4b432f0eaeb86;0x491f1e7417ff7;0x824e4a9a99d1a;0xb02b3409e7316;0x1a288de589ea;0x487f53405a8e5;0x80babd4fc2218;0x5b55737220a]),[[0xaf1f71c6c65d9;0xbc6d1f204174d;0xeeea0effa6f3d;0x8573cb9beb8f6;0xe302d98f4c893;0x575704e37f3f1;0xf2ada70833646;0xb56794d8148e5;0x490879aaa185e;0xeee4666b78a];[0x44b9fab33b18d;0xd6ddd0395c3e6;0x602d18f87d27;0x725710f9501f2;0xda9ddb5b8cec4;0xc38195a315918;0x41cc2a3de7c1c;0x9416c3cf43aa1;0x1b21ee4b6833f;0xa8c176d686];[0x0;0x9e0c97eaeb771;0x1c77fbc1ea256;0x663f768b72067;0x28a03357d27c;0xe34b52f65a82a;0xc67fd9652ed14;0x42c5f5695682c;0x1f256bd3ae373;0x3cd998aa4fef;0xf7c1d613713];[0x0;0x2a11067f825cf;0x764a25491d283;0xa751e0cc727f6;0x4d36c50b350ab;0x1d27de338fe9b;0x9991e07655162;0xc972e42aea224;0x91426eb460950;0x2120b7a5cea00;0xd49d535ddd];[0x0;0x2ffc83ff840ea;0x2eac1fe9141a8;0x83ead7c652a47;0x974777359ade9;0x438d4154d6874;0x3a9d6adb6fbe4;0x21f4a8554a1a7;0xf7f20798f1fad;0xab31ecab7562e;0xdeed7a366cb];[0x0;0xace89108de6bc;0x701eeb757a911;0x1df61718ab765;0x39c617212457c;0xb57498aa68f7e;0x6667bc9695951;0x7cd4b0271b459;0x62318f19534b2;0xc4b008c2a9ef1;0xf06a9e9e25d30]]);
 ((V [0xb1f629eb08ee0;0x24204a89575e;0x4a67e5ee1c619;0x81cbc866e6e93;0xcb8781989d4e4;0x2028bf294870;0xbe4c8df220a95;0xadfe44887dcf2;0x6c6a136fc4c9f;0xc46aeabc0d0] [0x6ae0f704b36df;0x64fc0c6685119;0xd1be59214d75c;0xcf39ef8cb052a;0xa9fd4ba1c27f7;0xce685f17872dc;0xbc370b9d78db2;0xff44039773f5c;0xc9aa1d95fd1a2;0x28afc37c89d]),[[0x7e0c9e0441bfe;0x2fa4021e6ce2b;0xc388c7c167cfe;0x7ce15869634cf;0xe4883c24fde12;0x9d574f70b6598;0xde2d784bf7e40;0xde190df5f2bdd;0x148fa164f775e;0x81384432b90];[0x90534f5e6e00e;0x19e807a5a9952;0xdb00c5f6090bb;0x72b423cd60d64;0xf158e8601e61a;0x46b96002a2398;0x5a51cbb7e8ebe;0xd1061a7e14c89;0x33aa520be1a92;0x6d9d9d05a47];[0x0;0x7892e14e082a5;0xe452c37bfc0e9;0x7ed23d1d2c5e1;0xd32b04553dc8d;0x4325d9973a693;0x4cb00365afe9d;0x28625b4cb9424;0x22e964846e1d6;0x35e4cd19439ac;0x1f6a97fccec];[0x0;0x3dc4d068dbf8e;0x2f79f0aab8dcb;0x9003aef82c60b;0xe440a3aa01ab7;0x5faaa96c57200;0x1316c3b19fe17;0x106cdb11e7a59;0x48d9c90a06512;0xfcacead835427;0x5c3444651d8];[0x0;0xfb29c61c6ae1a;0xfaa01643f0a77;0xd297c0cd3a2f1;0x744766fe68233;0x3d2d73e58c600;0x6e0cd5ac1f9df;0xf7e086be6c242;0xdecc1a165f7bd;0xf387170de1217;0x4139c11906c];[0x0;0x1c5f29ad87eff;0x2a6ee3fbbaba3;0xeb42cfd58f2bb;0xfdc0f20221cef;0x5d741e164c0ca;0x55813dcbfa2b1;0x6c9edd4bb405d;0x8e4070f86a6bb;0x531899cffacbf;0x81839bea0d85d]]);
 ((V [0xfd58e65fc8eb6;0xc2f8cbae3811a;0xa21a82ef44ec1;0x5dbe0669c1681;0xd5225e682bc16;0xa769f7165b7dd;0xb9ea62a1f665f;0xe5227cfda5d71;0xa47e3a06bc899;0x96c3ce19fae] [0xc5acf25517ab2;0x297a5996a26c7;0xb5d1c751300f5;0x46933f07c46c3;0x4a0e1844864fb;0x9ed5fb8f8d32c;0x7b08bcbd9bf3b;0xb4fb0b9a702f2;0x61f45656c9949;0x162e7a80e6d]),[[0x7fc0098859a77;0xd42dbc4e01d83;0x53cf47f5e8059;0x7f20bf9593a0d;0x29753e50d7d04;0x5e499b1f78baf;0x9fa6d16797bb6;0x76b42914cfa34;0xb1fce288dee08;0xb2bd32130a];[0xd45667a36e888;0x1a63d29d9ef58;0x2e39c71852d29;0xa43e59c1d14f3;0x95846de0075c8;0xfed61771aeb81;0x80bc646487b53;0xd78a0bb9d2cd;0x228957454010c;0x2aba8b84e1c];[0x0;0x49fd11b1728c8;0x5232ec920376e;0x23285b43ae39c;0x2c5212ec12bd4;0xfc789862ecb60;0x15e9ba2fb4b21;0xf17bf4a07066b;0x3e8fde4e6f425;0x97bb6df7003ec;0x96b3e4172ee];[0x0;0x61ec4ce61a05a;0xeac358377df8d;0xb40c04e2905e3;0xc203f401e497b;0x9f9122cade329;0x52a162a1456a4;0xddddcd6b3b5f0;0xc1a89b9ab895d;0x744fd0201a324;0x38d08f4a8b];[0x0;0xdda997f888e4d;0x6c4bffa11e31a;0x521904d77e661;0x5f2050d7abfce;0xf014ed5adb392;0xf4169384b1be8;0xe6326db0a5571;0xec97a8a003509;0x4c8c0128a7a73;0x7ccba5757];[0x0;0x5abc821b07fda;0x5a8ff484aad47;0x629cfcd1ca97d;0xe13fd19d5b660;0x63931d3be3234;0x142ba5e038a1f;0x5c3e02fc0ce06;0x4f29fa2eb2c4b;0xd51ae7bc2975a;0xb38fcf345499]]);
 ((V [0x3b1ebb829b9ac;0xabf84d5afa53b;0x26a08e88cec90;0xd0b1a914a672;0x3c5b6e7ee403b;0xc9e9b3c52726e;0x7290bea6f6289;0x933ecdc0e0701;0x7fcd4e9cbac2a;0x53a698a15b2] [0x6306abe35f3ee;0xd87b4011edc85;0xb9cc81a3a395b;0x2d540b74eee90;0x6d4387d7f79d6;0x3b1d4866f2997;0xf7aa8c348055;0xdb34cf09c1195;0xd81a30d99e5f6;0xcaea550053]),[[0xd5dcccaf67509;0x5ec567e48b2e7;0xff7ff48f79116;0x32141559b1be;0xfe41fa86263e5;0x14067b5ea9f0a;0x87349a604e1f0;0x446ac5a6c237e;0x73ee314ed5905;0x70a7db79612];[0x45d26a8f4c4cd;0x80edf40dcf99b;0x1d9851b9af270;0x2d95b37c322fa;0x5ff1340ebb74a;0x8540388a8abd5;0x83887129206d6;0x651f3c57017b1;0x7a1944ad29bbc;0x2efa2fababd];[0x0;0xd97967c1362b1;0x2189e0b466236;0x7752a050ac8bf;0x8d7bcc50e7994;0xf2425f7c2eea;0x21c9ef77a8010;0xfd5a33c5dfcf3;0xd4802e0ee4779;0xc9f9c48277eba;0x58ca0b4a138];[0x0;0xbfe48605b48df;0xe70ebc3afc19e;0x44fbf32792ccb;0xcbb8fd626dec1;0x5200f8c6de3cd;0x58af7cd5f39a3;0xe66d498eea521;0x91eb8b2ae9924;0x6e56af4cc52eb;0x1385c1dd2c8];[0x0;0x945ee543696ff;0xd95c4c2510787;0xd8baa98cb17;0x94b5f7a3c35d6;0x7ff747956886d;0xd12b7b1607fe1;0x907d1e5351f71;0xede8dfa157d09;0x7fe00e025b7b2;0x31934e1a498];[0x0;0xf57a6c8159f7f;0x184aaf035ea97;0xef79644d436b7;0x295da35278189;0xc435adad61f07;0x5170e56848f74;0x59f25730f18b9;0x69c98b7744ac2;0x2c6e970fb49b;0x71360c1dd6ff0]]);
 ((V [0x7a9199407e347;0x3b66ee002bc23;0xb8ec3364857ae;0xfe4178a69329f;0xd6dc40ef5368d;0x57000da529a0d;0x65055665ff73b;0x3c37b0fe7feb;0x5554028f13872;0x54aa219814b] [0xb5814b4db7aee;0xfd30662aacd23;0x55546eb70d093;0x1f1f1d08e0379;0x5581d8229b716;0x18323b0e7b55e;0x1607f9e5eedc;0x2371a39783bc7;0xc7fec065747c2;0x464f2463467]),[[0x5f454ddf46694;0xc906dcbbaaaf7;0x7572075ab8307;0x54f9deab13040;0xe076e30d0c21f;0xd43e69e4267c8;0xa753b86213903;0x86c0b22a44b7a;0x3795c60467d5f;0x165ae51d8d2];[0x45e6bdcefbe3f;0x20d259820989a;0x91efd2f6f0b34;0x23ba2053d46b4;0xee5e2a02c6ddb;0x20b7347b8cf21;0x61f0a1b8295ed;0xfd8fd536cc841;0xfc3f023e1d4b5;0x4a1af456127];[0x0;0xb3ac661e83c27;0x3a7af123c20d;0x332e2d4c19cae;0x265acb1a8c74a;0x199bc2b3386a2;0xba11878942d21;0x4c36437010cd0;0x321cb11774747;0xe27c138b79335;0x1b557362ed5];[0x0;0xb682dec8abbd9;0xb1673104861d8;0xe13e5614e0c5a;0x85b816cf472e2;0x1c7b386760d40;0x310b79b6d996e;0xb657cd9892dd8;0xf1f5445364864;0x8c4e9ffd6b703;0x23705e95e7];[0x0;0xdbd49f51b0d87;0xc8a09cc9443ef;0x74cf0abab9e5;0x5ffd5f07cb547;0xa2c7c955490d7;0xef33db9fe78be;0x762e61d06a5f9;0xa9719a8f4be25;0x737b7f478aae2;0x1f3bfa6fa1];[0x0;0x33b000b49cccc;0xf780f8be680bd;0x2592375666d12;0x71b3c2565efef;0xc733d16ed3d2a;0x5f2be26f27e92;0x1d647a9f3cf8a;0x5b20ac5a1b77e;0x3261d3d35d2ca;0x16712958bf0e7]]);
 ((V [0xcbab2c1572f93;0x1dc612769d998;0xdf74b13c250fd;0x605ba17593e8a;0x12c875fa4f218;0x9ff7107b86e09;0xd304b4173eac4;0x8c3453960860a;0x10bf90e26f528;0x45007ca3fa7] [0x9acea5caa1860;0xdc8e748f05242;0xd5ee02961a79a;0xef8d206b85ab0;0xe39067f029c30;0x39890b4f20f45;0x5cb33576d84fd;0x7baee44aff341;0x99dfc6fb4077;0xf88244e9457]),[[0x2cd8c40b64814;0xc41385cd8b284;0xb0171e9d0b2b5;0x85e015d5d8d31;0xccb835850cd90;0x4e54b05cc971d;0xdccf39f4fa22c;0xef87d4b40ea4c;0x46df41d847808;0xfa31f51ec00];[0xf0f993fca2aba;0x1dc95ecdbc7ee;0xd1398ba3b8768;0x7f7be7e6a859d;0xa56fe50cdb127;0x8b2d6fcbf4178;0x130c3ef97ff6e;0xd9feb9594d569;0x2b646a7c6a48e;0x61854c09131];[0x0;0x34cd92c104151;0x7c01cf414958e;0xf1c89cc2e72c7;0xbe7295b736dac;0x3aa86fa10e47b;0x69fd787101e99;0x4b92ab403f88d;0x4868f5ef0faf9;0xb1076ad1149ec;0x1c00171c6ff];[0x0;0x9cb79042846d2;0xbe6acec8a0b43;0xcc5078a303d97;0x21e4b9a3cd95b;0xaec4bb5c223a1;0xdff9be232f29d;0x9d02ccf240558;0xbb7a83f47a3da;0x7d7244faa31da;0x896e0402335];[0x0;0x3f7b15a236519;0x5d3da8cd1e413;0x682ce68745a50;0xc0ca55bb6e3e7;0xf3dae970562f3;0xa5e19351fd614;0xb52fe3d918eb4;0xab2fa41d7834e;0x207acec9fb1df;0xf4859c7fcf8];[0x0;0x723679bbaf742;0x3ae549455a34c;0x1ce0d7cd53473;0xcbe5ea9c1168d;0xa4bbb23342ffb;0xe208b508002f9;0x6c51b953df23c;0x28e33179252a1;0x8b895922e4bd;0xfb3b75cd6cf55]]);
 ((V [0x13cdf5a0d5304;0xf224f124b57af;0x1aa1cf71d8c42;0xcc6d2a9500458;0x58bd1721e523a;0x63ad5c5880994;0xe0107b1f6fb6a;0x495cb009de164;0x877df0eb3b3cb;0x2104537c013] [0x6c7496cc0c201;0xdcc3c1564d96b;0x67f1eb335e289;0x9cccdb16c5069;0xcbb4da7b14e2c;0xaa7f236cf9f24;0x1a9a00ed62767;0xdc2cd43db2da1;0x28b10d533d62e;0x68a0f32758f]),[[0xc3d5142d05f7d;0xec6f6c9f44a6e;0x9786988eea9f6;0x76d747c57cbb3;0x5f7a6d58f2fff;0xefbd77b86e2b6;0x44ab597fcf0a5;0x8c3a50b5180b2;0xd6c5a57c3f513;0x18b444b9a4e];[0xdde58ee6263c3;0x4205ee1086608;0x9af799f9d6699;0xe0bd8f593938d;0x2bedcb089f3d3;0x2b45bd79e7b39;0x58716fe34b5af;0x54c4e8afa6303;0xd3d675004807d;0xe217a0eea48];[0x0;0x70855b546782a;0x501f80fc12ffc;0xbd283b42454e6;0xb440649213299;0x158de2c411809;0xca3be7a5e4d06;0xda68d644e891c;0xa0c19d3f9d648;0x341aa6308253;0x12994330a1b];[0x0;0xae9a89232d1b5;0xa9ea343df45d8;0xf655be662941b;0x63d394f8118e0;0xbc29c3aa90a06;0x158e26a48b4cb;0x9d0d932e537b2;0x68f176f0d920a;0x625184f814fe6;0x2ff6698a462];[0x0;0xfde130ad7f429;0x2178faaa6f858;0xbb1b53527ea98;0xc88062c3bf14a;0x34bc7d644a242;0x31e1f85eb7dbf;0x2ff896a07f305;0xcec8a6a716d8b;0xf986f3a77d1bc;0x2624bd3866];[0x0;0xdc4e6a559d87b;0x2abf1f45995ae;0x1538e77339d95;0x6fdc6456041f3;0x3ffefd5004648;0x2ea665764c5f3;0xc4b88dce057d1;0xf415144746a9b;0x9967d9930ed64;0x18d071f930552]]);
 ((V [0x2d279cf8f36c9;0x111e4d71c2a8c;0x3cadc4c11aead;0xf47140c21b028;0x9c1a7b127be2e;0xc564583403e32;0x88f79b95045e5;0x476d00c9005e;0x8376989d6f6b;0xb326b2255a8] [0x107f7b45ff6c3;0x242bf6d5a4e2b;0x65204c2a2632a;0xd55d51c874288;0x994382f7d3000;0xc66140552200b;0x29c7557cc6c4f;0x73ea7592bf839;0xd467cc56a45f2;0x907eda219f4]),[[0x3194ef9b4deed;0xd3033b50b2c75;0x9cfa491caf9c8;0xad28f621d6370;0x6e969f3fbdde2;0xc5c882730403a;0xf467b46681001;0x2660ea0eed2dd;0x5f615fa998702;0x6c386fc3265];[0x69970011677cd;0x61925c030d67b;0x662377d21a55;0x2c4e0fe9ef4a9;0x9868aa64d167c;0x2a66bdb8bc6a2;0x9559e8e4ff485;0x102dbec9e66af;0x87ef2c61f8d50;0x5088429bb61];[0x0;0x44db5f258f9a5;0x9d7bc6cc8b55;0xaec6edfa73401;0x53d8bfba69bd2;0x1159523241339;0x4eaff08b662d;0x27a8bfa34257c;0x33c526d52616d;0xa3d870d330afb;0x4421d98af6];[0x0;0xb0742704919d9;0xce78d56c5451c;0x4442918aa8309;0x5ffde44e6cd86;0x2fba41930ff61;0xf82818bdc36a2;0xfd6487853699f;0x139b8db4bdc48;0x828bf5271e754;0x5875eeeeaba];[0x0;0xa2135b24480a8;0xe85dda47f82c2;0xbfe7704affacb;0x93e5700e89aad;0x249aa83a81f94;0x3e553cd6d581e;0xe9787233d63eb;0xa7d657fbee0eb;0x41d402d28c3cd;0x2dbfaabdbe8];[0x0;0x8e54af38e953a;0x94d2fbdd15f87;0xf5e3d6e60b599;0x374b91cd0ec57;0xfd7f0c0d070d3;0x275e2627d83d1;0xf0b513ef9bf5e;0x7fb19b3904dbd;0xa6ac4b9932f44;0x6c66e17ba9087]]);
 ((V [0x2a4990a3f7ff5;0x2dc330faf87ee;0xc8ef4c5292385;0xd612537047593;0x3da5811d6618f;0x2e5822351eac7;0xe8c1866be90a0;0x9db95e15decd8;0x32e94fc55ec75;0xb13f58052df] [0x44b570bf7cc77;0xfab44ad754671;0xd43cd76d0abfc;0x62f1f386988a;0xc1a707ec70754;0x3218515ffa7eb;0x9b2d5a3d501c8;0xa19d29bc952f6;0x77df5dfaa7a4;0x2008f694db]),[[0x495a0ef47b5e6;0x5f2697eea7aa4;0x1b8551f4cd588;0xaf946035c176;0x25ee01d7e11f0;0x7d4d97aa5982;0xea526203d0291;0xac5c75ef1412c;0x2c779d8060d69;0x2ace8484d3f];[0x942ae94c6b5ac;0x770099c0abb0;0x5c339f81b3726;0xd1562cce2c8be;0xc87247aa4e111;0x98b327b3cdffe;0xc104bcfc11fe6;0xaddd21809c8cd;0x18c36ad54f121;0x51dfc3bc9ad];[0x0;0x6eecef0d3aeb3;0xbd667dccf03af;0x72bf030c8dbd9;0xcba9f699b3d82;0xeb058ce5febcd;0xa51b5564633a;0x4570f4567d298;0xe5e06844af1a3;0xe8d4ce0970202;0x7d5f22f99b9];[0x0;0x9ed5601547d84;0xa5712552f4863;0xd1892eb6e4b7;0x1971990b9de5c;0xf015923b42b0a;0xea207391208eb;0xc72d2e9ba6da2;0x1d19bc52a1632;0x88708f107e12a;0x3052c152d96];[0x0;0xc25e2738a5dfb;0xe0853103f5a9b;0x2e6b3d2858f45;0xa111f66372db8;0x36cc78631aca1;0xf6f13048b6d96;0xd2d91297d69f0;0xde97979e3b1a1;0xa03aaa2871da1;0x7286a151fe];[0x0;0xe705347dbb6b8;0xce2efe3f71a9c;0x1b1b9016eb96c;0x6d7fb6a70689d;0x59b21d9b1cef;0xf7ba4f4a80a4d;0xe10f4d298c91d;0x9816648d26c7;0x3d8007e0d82ff;0x2af9a48748db4]]);
 ((V [0xebc8b6def2840;0x71c212edc33d2;0xfad528a7f76cb;0x8156e9c485264;0x8437b71e7cd7b;0x868486e9805f1;0xdcc0d98e113eb;0xe90fe474c7793;0x162f1b54ca741;0xc6e8500c64e] [0xcd3176b944684;0x68cd2a0946363;0x84ad962ee8907;0xe25655f6a82f4;0x5227263ba6f10;0x6beb05916b2e6;0xd24a35a9a9e55;0xcc56ac56c193c;0xb18deb9624844;0x807799865f4]),[[0x8f61208667aeb;0x3a6a678e940a;0x78f6c7bb5c30;0xa046c7db45fb8;0xfd08519d11030;0xa0d52d5272215;0x7996beb26fa88;0xa58858542f580;0x7b69592858ac1;0x7ff0569ac3b];[0x27a3d0d47a91a;0x6e840758f5ca;0x3411e87764c3f;0x643956a47fd5a;0x350da34fb7ddf;0xe0bfbc4c8120f;0x73cd5e128621e;0x4ccc60b112b34;0x64fa8fc896a44;0xd63e68fdcdb];[0x0;0x4e3069620b9a9;0x81ff27ba41c47;0x1be1030892188;0xa07cd3fd8dbf6;0xd98faa16576cb;0x6744cfa01b850;0xa59a1c09b3596;0xcbf1300204922;0xa73ccf608a7f3;0x7ab8a7639a5];[0x0;0x97f2cc63e9f58;0xee454bc988e4a;0x89aee519c7b67;0xa17670f347d63;0x68b00aada9a41;0x8c81ae9f8045f;0x216bc6ce1a92f;0xedb3419c3acea;0xdc6d702ac827a;0x20050b22c9];[0x0;0x35545bb0083f9;0x5b35ea2fa55db;0xe2316d2cca46e;0xd7fc9786cc318;0xd0ba1e3eb18ba;0xc516802b61b1a;0x5e603c710ca2c;0xb880a3850fd8c;0xb98ae3d28c874;0x3ff057900da];[0x0;0xef9953e54125f;0x994904694a44c;0x5e137ae24f486;0x7965d2bc861e3;0xcffe53ce64a5e;0xb5e77c99a54d3;0x31048725897b8;0xbb96daa359889;0x3bfe85c6afb1d;0x806573c89684e]]);
 ((V [0xe762f10182f38;0x84818cef832e5;0x8993a5910ae23;0xd156d51e5aa64;0x72cb977e1a62b;0xae10feaf2bea1;0xd067f2721dc44;0xb8056f65cc6e9;0x1d5502ca1ac23;0x79b0fa5fdb2] [0xd5a1a66122a;0x29064aa57a205;0xc79743db8d7a7;0x75badccea9e2b;0xb02fa76e43bdd;0x845ca860dff5e;0xccf86cbf8335f;0xbb49b7ee8d0ea;0xc1815e71faf94;0xab04ed592f6]),[[0x563e985485a1a;0xf9dc937ff5781;0x3da501667939d;0x2e279c60e3b73;0xf01dec3953bad;0x7652433be5c8e;0xe7e9d26d07d10;0x344713f06c045;0x33a4bb612d340;0x1ed871f057e];[0x75edced96787d;0x1d84618bdf349;0xf350998fdce96;0x34e9e83db6a10;0xe5542e6d98774;0x6ed98e184123d;0x720268f26ff6c;0x92ceee46f393a;0x24260f148dcb6;0xd705854caec];[0x0;0xd61b0aa2dc865;0x3bac3be83a6a5;0xfc59795067b96;0x8b6b7bbcaabae;0xf025a521119a0;0xea0d6c398d3d;0x360dccb4669ba;0xec7668798b367;0xb3d37b544615d;0x9a8c2ea45b8];[0x0;0x47874a1e72bc3;0x4c826ddc54040;0xd08e583666694;0x270193cc5824b;0xe5ece07b1158c;0x57316d3425e2a;0x44dad4bb2422f;0x810cee14fcfb;0x43d96eb82f530;0x1ef544295f1];[0x0;0x4eb8daa8fcdb4;0xc2744c594282c;0x533524bf3101d;0x31f416fc2e235;0x47fbe326f97;0xf34cfe942b7d3;0xa56d043b6eaf8;0x6fafbd03c38b9;0x3a057a0200949;0x3b771b4cce];[0x0;0x6761e3f1c88e8;0xfc1bec1c184e1;0x3c52823c4e750;0xbd2cd49aef831;0xeaa89479e1979;0x7ff83e041893a;0x7be88b9ba2ada;0x65e1edafd0225;0xa048ce2a6f52c;0x1f00982760a80]]);
 ((V [0x75ba9fa422078;0x12ed265ed32d6;0xa3f22aec28ff8;0x4ed283dc75ded;0xaf91e0fef25fb;0x659929abeca50;0x427fd054a5f97;0xa2cc01a2979b2;0x73c8cfa51c1c0;0xbae2e98ea24] [0x148ffd8391665;0x93483a867c87c;0x516e96047c07f;0x3dac39ac5a856;0x2ab3927bb241;0x2de6ff25fb99d;0x1621848767c50;0x6c74d4cc5eb4a;0xa346c4ce9251b;0x5f79e46c564]),[[0xaedc904051035;0xaadf5776a1df0;0x499ef457bd745;0x7adaae7db824d;0xb39f39e71034f;0x4c889612b19f2;0x815062229d7d4;0xf18c39898abe8;0x73c0c569a5e8b;0xf0ceabcb166];[0x3fabe36ad47f2;0xb0b08d411ced1;0x6cef861af3b5a;0x81012b2b4f115;0x637f823d9a37d;0xbfa5b92289d5d;0x1f3a02cdea830;0x9694180403fb0;0xa7d89b40fe9d1;0xf8147cb5303];[0x0;0x78cd0c19be142;0x5617df5f20a7c;0x7fe0a58dc5566;0xe10bfc585ff84;0xa46fd405ba5be;0x673c9968b7200;0x72f04a3635d44;0x360c52490c2ae;0x2a60d8bbe0323;0x39d8c707d5d];[0x0;0x53406ccad99e6;0x10797fd70a83d;0x6e8263ff1d5c4;0x1c0929b5cdc7c;0x12e2132d21754;0x933e0d80c1be8;0x9db5c91078cb0;0xa9aa4cb83c111;0x756e88f8f3124;0x141bd5e7d214];[0x0;0x961dfb2146767;0x2248a471c042;0x97e1e860a1b3b;0x243b602b05110;0xfcc23c0478bcc;0x4107c3e241e2e;0xcf53b85fcdda2;0xa02691d9a0f88;0x28fc63a2470ed;0xe28428f5b82];[0x0;0x8ec1524deaa7c;0xe0241c148cdc9;0x443c53c702af;0x251971a5d89a;0x85f037f174741;0x21bd6f82c4da;0xf6e49c69b62f7;0xd4c09e5855d83;0xa7972dd343dab;0xf1822704b7183]]);
 ((V [0xe475224c31746;0x90b3143abcf34;0x29a59ccf13b0b;0x892ad6b9b2f81;0x30f6fc1986b27;0xc861deb6bc701;0x81e31ade238f7;0x93416b3ea2f46;0xb9e5704ca39fa;0x3ddee77202b] [0xb27325718473e;0x6519928b0af20;0x72a2bf85ad70c;0xf23d09878b487;0x180be4fa7df45;0x24afc88e5c8e3;0x4755d9520416e;0xf28bffd574152;0xbeddc4d2894c2;0x7e4808389b9]),[[0x38f848e40111b;0xa522e4dfb6b53;0x31401e6620278;0x2d4f5966fc510;0xe27ae567ea92f;0x2594381ee925e;0xfe93845d65ca5;0xb89f5f7e79780;0x6465e661cc1d9;0xa12156c56bf];[0x53ec14cdaa771;0x77dcdac874e8c;0xe2807ee6e7aa3;0x62505faf267da;0xcf596205663be;0x6b84a80bd109a;0x336fe746153a5;0xbf5cb8b90b1b;0xb5f5935327807;0xb3a9e79d968];[0x0;0xc86e4a174b9;0xa5f9d52ad79d9;0x753d9064b3fb8;0x5ba3f4b8d181d;0xb498dd1d801d;0x122ee809ef8a2;0x59356ab45c88e;0x9b68322974936;0xafca1dec6ce69;0x886e848478b];[0x0;0x7aaf5ab2d0311;0x17b042f55c3de;0xaada7a3b00046;0x650e55b885257;0x5a4d5f1ca48d3;0x2cde3a07b5099;0x808facf72b5e0;0xcc139653ca097;0x1857b0907f99a;0x78302f76501];[0x0;0x75ef4a8fb5645;0x2beae5707800c;0xfc5c24acea0fb;0x9761a50b2754e;0x87faeaed5d9fa;0x8161f041f1e6;0xde987ca083c37;0x88fabc4c5b76a;0xad6c9ae9e04e0;0x656af37bce1];[0x0;0x1077409cb7660;0x956d231e74662;0xaed6d90cb2f46;0x61ff192431609;0x8c57231c84a6;0x141d9d415a843;0x32229a53301cc;0x340ea37a9d09d;0x832fcb4ef47cf;0xa21127e96969c]]);
 ((V [0xa74faf8e82ee2;0x67e4ef997946c;0x5a6deb703219f;0x61929b65e55d8;0x71d62f4a990c6;0xab2999f3133dd;0xbf9557a0eb1a2;0x466a5f2cd6fee;0xe14f7246467a2;0xa74e12d336f] [0xfb3812e549810;0xe37a5fff40e33;0x2473cecc23760;0xb39dc2efbbd3;0x424400326e369;0x78d3b931172c0;0x779b4e183f5b1;0x1945f31dabc54;0xe4a8a11bac851;0xe0f1c4e8e8b]),[[0x83266f3587db7;0x14c1b6e2f49b7;0xa820d3161523;0xd5b53550a7217;0x4efe8fd073636;0x20b3474755920;0x8741ac64ab78;0xf882c2b93f05b;0xd359c36ef323d;0x1095597b15e];[0xbc50831aa88c0;0xead3a6b8822e3;0x85f7d05f2eff1;0xda9d17220a434;0x57aec98b70394;0xd66ece47e824e;0x5bc0e9035dbbf;0x413ae6efc554e;0x2732f9d0e03f4;0xd3da87c31d6];[0x0;0xb1f4e454e3e7c;0xa6b1014f5b473;0x26b50c45f2e87;0x3f32556693936;0x6f344ed2bd893;0xb7373de9c6870;0x6450db051c6db;0x42a61b538f957;0x91a911e16367d;0xef3fc62904];[0x0;0x736f514193c60;0xfc62e70cfeaeb;0xc234e4006bc08;0xaa4066405df12;0x8e59410682986;0xc523d6ed57b30;0xbc4969071b3a5;0x2cd3e75d440d9;0x9bb72d30c2bdf;0x105c592829e];[0x0;0x46cfc3204e585;0xf62fee824f639;0xd3b3ce4013c86;0x8d25669b1f5bf;0x9497bf8b3f903;0x9bc295e93bae7;0x1b1db9ac4a2fd;0x45780218c8304;0xbfd40f1cec19f;0x1130250ab4];[0x0;0x30c0d7dfdd719;0xcb77c3b900e83;0x3c3904b3c9c64;0x211cef1a814ae;0xed951d8f57dc5;0x9285dc84971d1;0xab5c6059ba338;0xd78a635031aa4;0x4cc4c652863c1;0x109f1a5f4c58c]]);
 ((V [0xf2ac1909aeb82;0xed5b89d7652dc;0xd92e7017de041;0x456e2d7df4fac;0xac04019fb98b2;0xfa718457a857b;0x44a0bd3a5eaf7;0x2456f79256fb3;0x298f984356dc;0xd09efc2002] [0x263f68b3edb5b;0x8aad50c870fb6;0x843260605a3d0;0x7a097cf8972d2;0x6ea09fda2ae58;0x3ff8b863fa92e;0x97881938c8abd;0xabad91ee16a98;0xcbcb366fb553a;0xae1b75247d7]),[[0xd614125393a34;0x2e6b3058115ee;0xae0f6dffd956d;0xf862e70b95a99;0x7d0f22b434143;0x63a60c349b80a;0xee5f4012e4f06;0xe7904576031f1;0xd0a41f61f9f77;0xfae36d8778];[0xab2b9b847a11a;0x727ffbd67e561;0x4c7d0741bd738;0x607ec13efe13c;0x3b669356239d7;0xeae97248f625c;0xe7c0975f7b6f2;0x2fbcca7a401c;0x7f07e982bed1c;0x5cb6827fc65];[0x0;0xaec7dee613646;0xeb2a84a61aa0b;0xd90058b5f2e38;0xa70ba58d2dfd0;0xd4e0da956dea9;0x739cb3bb58bb2;0x34467372382b1;0xda5577a293652;0x7642ea5aea9ee;0x6d56f45f0bd];[0x0;0x40ae415720722;0x4985bc372eae6;0xe4e2cf73730e5;0x3ea18ca3fa482;0x4faabd4ba8c90;0xd3c59b2d63092;0x62b2d95051dac;0x67f6f0fb81fb1;0x9dc0cc9f5ba76;0x1b8e7e1d610];[0x0;0x7cd658acd2c66;0x15aabe7d2804b;0x8ce569669bade;0x15db3d97affc2;0xd09b33669a0b5;0x86ce54a15eb30;0xd40e3bd5d703e;0x20a91d9a660f3;0x5146722abd80f;0xf5e0fbf80];[0x0;0x8bd0186905577;0x812ad1e1faa94;0x3e7f2388d40bd;0xa433b43d4036;0xdf098d3117b4d;0x5a259d614ff6e;0xc8738e1d322a7;0x7073a6dbbe7df;0xf79f4fc3538f8;0xfc75808baad6]]);
 ((V [0xe6bb45c8a8626;0x53cc4cf816717;0xe8700897b9619;0x76df02883f85b;0x5fb6ff7afac97;0x12ec5128f986;0xc42bfdf9c6369;0x4d7dbe8bd99f6;0x793d0d4886162;0x5d669c94262] [0x522afc66b796d;0xdb0e02c56922b;0xf107b52e924f0;0x2bc296ba2dc4e;0x9ded4cfa775cf;0x3478ecbdd37bc;0x8eda2eec4ee51;0xa5c11c8532f46;0xace00a473039e;0xdf88dd0c46]),[[0xc92b4951e175;0x7f1e0fcad47aa;0xca7bbd40aa9ff;0x8c725d75da918;0xa4b48614f09d1;0x835adb3c2fa69;0xb6508aff650d8;0x59f34e5a6fb16;0x9fae3f8630652;0x585f19392e1];[0x49c543afdb;0x4f4da4b565f83;0xd6fc4276e4281;0xa5af3dde380b4;0x8196b9f3a968e;0x5e4d5234095a6;0x365f00b4ea389;0xbb756e90bb16d;0x1def39bec138a;0x370b0149ef1];[0x0;0x53e5ab0f6a48f;0x7fccd51c6589c;0xac79329752787;0xfa5f4b54a1dbc;0xe639ecd4e14d4;0xc686d61fafd8;0x55c6babfb6da1;0x640f74ea79d8c;0x315bbbfe8ab89;0xaa02bc703];[0x0;0xccf46515bdb5f;0x1d3958a471573;0xc55298bece9ae;0xf969c1f4f0cd5;0xc61636a3b25bf;0x137c05302df43;0xd8a30ede9c11b;0xa4bf2b50df9b1;0xb63cb57ec89ea;0x78343b392b2];[0x0;0x46ad95f12f739;0xdbcc1dc65e368;0x923c620773900;0xd45e92b733d3;0xd3f2f6e06078;0x12d977e212bfd;0xf8f8965151b7e;0x25f7147094ee7;0xe4b8b92d606ac;0x1e8184ab0a9];[0x0;0x920a2a3367a11;0x762b399350ada;0x665da48a0713a;0x27a704a3bce63;0x144f42bff8209;0xfd5ddffc7d9dc;0x8df859f23dc44;0x9e4da11f3313c;0xa66379b2ed77b;0x589bba9cafe90]]);
 ((V [0x15bf61c7b89e8;0x6fb1f6b238498;0x560a653bbc5b5;0x7dd5c36ccdd8b;0x58a2a5dc3c70;0x69478f4c1e4f5;0xb4139578fd09b;0x3bc1a61cf404c;0x5d2bfbf01c326;0x16311557b9] [0xf4ac18187bc2e;0x901d576ab961e;0x8dd2e6b56e772;0x2c580a9132ead;0x9ef2f096f268e;0x2d90b73ed2e98;0x65434a03d5f8b;0xf5f36062a1012;0xdcd4ef98c16ad;0x2fd87f20f28]),[[0xf28033d46f1db;0x856edc213bcdc;0x229601e885986;0x1718066ef2d6c;0x82eccdffd253d;0xd32af8b1d18c2;0x5953e1864c370;0xbfcbd95f595a6;0x65fd1203c8182;0x98a9d47cbb9];[0x7d29b87b41c3a;0x374c99ee0eb67;0x50610330f6aaa;0x668e107870c13;0x83b864a251bad;0x49c374ab647e6;0x70bb65b0410f1;0xc7171a6808a88;0xc84fcfa9f8def;0x877a9c17b30];[0x0;0x3c29c7a114b46;0xc4ef1170bee6d;0x3fe8a587d2e24;0xdbe489d6d15e1;0x7d979f0efe79;0x81f64bd774076;0x231071804678c;0x591641a5d60a4;0xc0d2be46da5eb;0x2213b6e4c98];[0x0;0x26c37ec628794;0x8ad6318034826;0xea3c089de7b4f;0x24fec9bb2fdf2;0x1bfd08441db70;0x3b7f676896100;0xb22f95d49b9a0;0xbd425b4e33923;0x6da1e6901ca04;0x10a9b1c46f0];[0x0;0x381ab1c08afb3;0x3e6cda6b8301a;0x1e6b6e79c5035;0xb246e7629aa08;0xaf5a8eadbc802;0xfb3cf1ba859c5;0x54fc5d0e99a45;0xa5885e78ffe61;0x111ca2a38a1f9;0x5b0a1cfe5bd];[0x0;0xda4c90b7a5bf4;0x4757abca75fa6;0x17b92dfc7729c;0x9ddee4bbf2776;0x56d778942c02c;0x3c2b985c0b504;0x7863b528af612;0xc65c4e7b0dd15;0xf50a220c05bdb;0x99795d769c380]]);
 ((V [0x76afd3832c1bf;0xd328927e4a655;0x15b9d2fc7613;0xc3c0d26ed6c3f;0x3cdc44f5c2811;0x30595094a97ff;0x38007077ee289;0x39ecbb6fbb972;0x4a516cdf7901f;0x1770360ccdf] [0x679eab32e2cfa;0xa956cdb921582;0x4075961849974;0xdd2ae82c2fec;0xcca7e4b02f69f;0x25fe551d146dd;0xa402fc2adf812;0x9617dbe8d8502;0x7da1a9d303c7f;0x84adf692f07]),[[0x77ab0b2846431;0x1c16d1b496ba5;0x79c4c0998db7;0x8786cc8a3b70d;0xf4a90f820028b;0x2be56396b0e74;0x6e927c7874041;0xfcd7151d349b1;0x2bdbc95dc2857;0x9efae24df11];[0xe6ac2c4089d77;0xb332baffa5abc;0x5316a754e40b9;0xa5e79f33d2eb7;0xb100fa140c2c4;0x248f6e1a101b3;0x359c0d767719d;0x62469c1cfd8cc;0xb3e6f985a3fb8;0x1fa3a1c8eda];[0x0;0x37342a20fa8ef;0xea160292aa213;0xe3b4517196f9d;0x18bad56653659;0xe08969736a270;0x4cbd68a2af198;0x469cfb665924;0x915f94f77a322;0x1387bb2f079c9;0x1ec79144];[0x0;0x665eb58eb9cf5;0x979bf4d27bfe4;0xd39660f6ad27b;0x3f92ff5769dd4;0x840edb2d416e5;0xf72069655b5f6;0xc62a92f8244ec;0x166be0d293f3e;0xd30d51c09ed;0x3b6d045c5a9];[0x0;0xd0f6e1cb74d9e;0xcea5774aaacc0;0x1519eb45223f7;0x661c3b9f6d662;0x98279887c6828;0x40c4bae6c6a8;0x880b65f862b80;0x92ec889e01b82;0xbb02f5c9bda72;0x62baa536fdd];[0x0;0xb5dc221ed48f8;0x6beefe996d616;0xefcfd8d355027;0x86d29777a5c1a;0xd4ff9a9211080;0x7a7bf01ffb857;0x1f02e71b695f7;0x5c6a2c810396c;0x1a536b5741621;0x9f8c2b7741b2d]]);
 ((V [0x5568e704cd6ec;0x1d4715ad32212;0x149649a2cf4a4;0xc341a1bca306e;0x2201a9ea7a38b;0x70dc63b92b4bb;0xb625962de4ebf;0x811e0dc042afa;0x17395c8c35381;0x475dd04d1cb] [0xf0a7cb722d932;0x8c8748afa776b;0x8ea3d5c96926e;0xc547a015db9cd;0xdb0e5b75a64eb;0x502d591641498;0xe1af409d9668e;0x778b0f55dfd78;0x8d9b95d583455;0x5cd47fe197c]),[[0x805baf6b8bde;0x4d3c24c0cbfb6;0xe8d529c5a1717;0x947843b0bae73;0xdbc3612f33900;0x4e59a0438453a;0xffa6302fc9f3d;0x35da88653805;0xaf148df532538;0x111188965f1];[0x9ef676de138a3;0xa8c21492b412;0xdee4596839145;0x6061e5788ff84;0xce4621f209379;0x7c986efb8c716;0xd746ab00af7d;0xba49254b01ccf;0xa4ec9e3438d89;0x91404a6fd38];[0x0;0xc7aa18ad92532;0x36c888576f4a8;0x340855ecdf104;0x11726ce93707e;0x3b44e45775cbb;0x81270655777a7;0x3f63854cc4b61;0x1b8b6c754d150;0xf9341b73d87bd;0x2255ae5a39];[0x0;0x2fd1e7b44b6bd;0xd8ca209d4db94;0xe1839f9d33567;0x69d256ce5f7be;0xb812f63712fb5;0x4de9965a1dae6;0x41c80dac3485d;0xa4ea535764e86;0x1f905dc83913b;0x11b1476ef7e];[0x0;0xe72838289fd16;0x9306e932a5cc3;0x52fa57938f66d;0x431f662142fdf;0xc17c556a40679;0xc736fe37b8677;0x7b927a89837c0;0x6ad55fc5bd48e;0xa52fff09be494;0x1235557657];[0x0;0x5e82b9378a5a0;0x8e3d9df742815;0xfd4a04a0d8d1f;0xd416eb19b09af;0xfd9c040fd1ff4;0xb7db486fe93af;0x3218aab005388;0xd6c76e797bfc9;0x3b2d9c27433b3;0x111f680f5d959]])]
 [[0xe2b5308246e66;0x8703278d540a7;0x9ac324d6439;0x29102dea471fa;0x77690b451cfbb;0xafa3173f37c9d;0x9b3f43d65caa2;0xfddb7f0d25fff;0x1ad5cd59162c0;0x5137e625a90];[0xafb18e955eb91;0x28ccfaff8e04b;0x56184447398b;0xce1f0d2a457a8;0xc1d23d3f8ecfc;0x69b59228a3036;0xbf3af39c8ed94;0x26fee36adffb2;0x8e974d589b8e7;0xbd875c4df3];[0x0;0x46efa39a1de09;0x28f18e9dc79c;0xb1619048763e7;0xe219680f8c32d;0x3805e8e12a98c;0x9264a663750a6;0xb8db346fa31d1;0x7c236b8fc0450;0xeace5b1fa70de;0x13e52bebc76];[0x0;0xe1122f8a38d97;0x7938bbef1c7b6;0xed5003a7fcf67;0x1726ed97dc42c;0x845e944020d70;0x4ae20ba285a3b;0x756071c9aeaea;0xf820310e8a3a9;0x46e4304a02dcb;0x3ae70324dac];[0x0;0x874d7ff416645;0xb1a2ac3a8f961;0xa2d9736acf7cd;0xc0353a1d3d338;0xf8712588c3394;0x677b8831fdc7f;0x643c177d81958;0xeb25887cfa418;0x95fa68a9be874;0x19c46bd8880];[0x0;0x52481b0bdd5fa;0xf95fe50ee1613;0xa8cb65db02d9f;0x14335929e948e;0x9c14677cba98e;0xf6c0542875636;0x1cd0dfa6f30ae;0xd6d8142bf9c1;0x8123fdd5bbf5;0x517ca7b396668]].
Definition wit_512A_32_5 : colwit ipt wit := mk_colwit (V [0xa268009e5a2d4;0xfe56d1d47d611;0xaed01b7f8252e;0xaf066b9cf2c05;0x12ce8e3a6fb57;0x7a781387ef3c4;0x138a63b3667a7;0x92f2765f7157c;0xf9fc8ddab5494;0xee23e09db1f] [0xb3777d0ec5135;0xcbf3a4b58878d;0x550681086a066;0xec6c1d7d41da;0x94f860f2186ba;0x81e600c5f6b52;0x79e3a100ac21;0x9f0deca67793c;0x6c3e74aaedb3;0x3023bd0bead])
 [[0x23cd8274291f1;0xe37ad477d08a1;0xa8de36562800;0x453bc684212a9;0xd618365a88c0d;0xf99ca31807805;0x92c51845a4646;0xf4d0f4c0111a6;0x2b2bb4db729f9;0x6448a86db35];[0x7c53c1f63097f;0x405677e28bcaa;0x68b7f4253cdfe;0x47c07ec4a1749;0x2e366a36d1ee0;0xa27e023879151;0x88399a4425b3;0xef07d5127d60d;0x8a725fbe3ba9e;0x5ed003e6af9];[0x0;0xb2277c9931e5e;0x53e131fff2e24;0x945393d06422e;0x153f2093a4a57;0x862c679dbb0d6;0xdbcce3224c39f;0xf552c2cf9652f;0x4adde371fc2d1;0xb4d1b623b2fdd;0x2fd2e0b2fa2];[0x0;0x85c3cd1a952a1;0x5fa9eceaa97de;0x4819f2c34bef8;0x136a0ab707ba8;0xfe33f69302a64;0xc26b8f01d873;0x567a56bc5c628;0x74b5cce5b7ed7;0x7ec1f25f98b9;0xbe7c196a71];[0x0;0x1c0123120306d;0x45732590884af;0xb6139d1b42dd3;0x6a8342f808ad2;0x6665c2d1971b8;0x499a2a5a00c13;0xd140b3f42886d;0x6463b4143c9e6;0xda4859ab199fc;0x2748d834e09];[0x0;0xa52b2c48975b5;0x952580ea03cbd;0x2bfe79bf0c643;0xd22155788d6e2;0x4d6162a6186c1;0xb433f05a5b327;0x9e6631cb07312;0xe2b94c6a73418;0x196315ccfe3de;0x647affa405433]]
 [[[0xb8451f24f0fe8;0xd54903d5b24e;0x8887a9f74653b;0xed0947ed5ab61;0xcfddd31555f70;0x2cf11a86ed57;0xd6d178d6dc44b;0x123b15f175892;0xd90fd736a39ed;0x11a31784ea6];[0x0;0x3dc6145d001f8;0xdb5f0d4e7524c;0xf4ee8bcb0e457;0xb325c3331a680;0xc3e84587ed2e7;0x4d173dba2c221;0x24fcc2390daf0;0x8901c7861cd95;0x5a4b91883aeb8;0x11bd833545b17];[0x0;0xe5c6ad06edfe7;0xe279b1ac124ed;0xd4a3322e447c4;0x13be211c740a6;0x540fc9dee352c;0xba94c34bb4f42;0x27dd172b7107d;0x7d35fd08fc574;0xe3bea93cca107;0x13711069c8];[0x0;0x25f72fc8ee72b;0x962d83a65a4e3;0x69fd584e8504e;0x5058943c685e4;0x7d5acad43a870;0x57b768b3dd869;0x6666d5df25a90;0x76a30b31b41e5;0xaad82962e3d06;0x11ac1106fde60]];
 [[0x1874a178d3d4;0x785fe5bdf9c76;0x90b037ecde3e0;0x2addf8f85c0d4;0x6c73a09e79efb;0x3b1818c370528;0x128ea3bb96a02;0x6de64b5e7353c;0x2819703f5d732;0xae294f00873];[0x0;0x577d894be1781;0xf5c191114dbe2;0x770a0b48e842d;0xa4e025175b0cd;0x427e27b6c0790;0x384eb1afb14d2;0x80cc4621d1463;0xb725b0d4a9df0;0xedcf643ee377f;0xaed8aa8ee5553];[0x0;0xa34bc3667be0f;0xaadb556476111;0xbe217c187df18;0x1f82817a63e6e;0x3c8142862dc02;0x24c712f4a4481;0x768c4e472edd5;0x5d21c21f5a1b4;0x549c83f22f85d;0x767c2e0f1e5];[0x0;0x7556d5fe19080;0xb08a8999a6368;0x2fa7087058413;0x1cea79b8ab030;0x2c41fbb80eba5;0xc271da73444d9;0x5e4dfd7fd1806;0x7a9164efed9a2;0xfde59ddaaaa31;0xaf0d6b091b11f]];
 [[0xce10b6b281dd4;0x2955284ee372;0x12802772984ad;0x9406c072a5505;0x768ea3f59a75b;0x717109b42dfe7;0x76f435947225c;0x8e963622b226d;0xec53a5b277081;0xc65d92ed111];[0x0;0x22b46743882fb;0xc2db79d63657c;0xe92e43260c873;0xac7e3b0b39b7e;0x7672aacc0ee71;0x384766217e2b8;0xaaa789484dea3;0x7e37aa57e8610;0x8f2b9c02ce460;0xc762bf62b88b2];[0x0;0x2d409d458736b;0x4123f3de0e76d;0x89f09748ff8f9;0x670960533601c;0x1ebb2caa4739;0xfdd8d31a2f413;0x387782187f0bf;0x7bc7832e0d722;0xd4c815e7c149a;0x99b4e17acb0];[0x0;0x66b09bb9829c3;0xb3a581e6724f8;0xdd283acccb546;0xac2ec687e7722;0x83e0bd6f5332a;0x8f1fbe8d0a153;0x9643af5423f61;0x50a96ff46c18c;0x71031d206723;0xc7858b21c82df]];
 [[0xca79e7fc0b431;0x4f95ef0cfed40;0xa02b7db01ac55;0x787d46c123b37;0x1d9bbc821656f;0x3dffaf8e8c4c4;0x76e979b7bb619;0x2fc74a8e6235e;0xa7a5cddcee02e;0x78547bac984];[0x0;0xe12f66732cfa5;0xa8ba02a009547;0x68b7965d871cd;0x706ab3e7200b6;0xb5795221200e1;0x63dcb11fa80ea;0xc34d39d676e68;0x6773f2c1a1584;0x57986d652040d;0x792e1eced1aed];[0x0;0x51a250d09d06;0xa03fde23c0e98;0xacb67e623e54;0x66e5a4a3b0584;0xe6e126329e5aa;0xffd2051c084e7;0x2c519ea71a5e9;0x84165b91ecf04;0x9124bed25b2d6;0x388f4fd333c];[0x0;0x317af5b94a7d7;0xab73b9df623b9;0x8827f3185746c;0x65240f7a3476e;0xe8283c7c907c2;0x3e754b27373cb;0xb4c58b3809b85;0xd5e2294edfc7c;0xcbc7ff8f7588;0x78778554096dc]];
 [[0x6f359f416e50e;0x1e1982f1c818d;0x1c49fdd84a19e;0x58fc2c0b4050a;0x2888f8d65dcdc;0x62a90d86c7813;0xfd458d643aa84;0x431fb57e8ca10;0xb9e4fc3fdd335;0xac174ba689e];[0x0;0xfc5239be37b03;0xbd4693a33b368;0x1fc30b8d43a12;0x2a46e219878fc;0x7822c9672f2c5;0xc7eec1f9be468;0x2fc46ac063050;0x2ff41b50c4982;0xfde710efdc8a8;0xacd491dbcdb0c];[0x0;0xf60b7c2b8efed;0xf840992b77503;0xd9c0789cf241;0xbc3595908624;0xe1ec3c49dadac;0x390bba4fd5865;0xa5c73ed741aa6;0xd4d1d8d4ee392;0xc6638d8546001;0x73af4fc6779];[0x0;0xe877eb837f46d;0xaecbe5fe591ab;0x1517ff37f8b85;0x2825e3bfa61a;0x56c32b855d51b;0x5d298fa8b6fd8;0x35425efeb9ee4;0x4d19c9f74df2;0x4ca1c990a51e6;0xad1cf46d9f2ed]];
 [[0x3baa1ec348390;0xe56abf5733408;0xe28ad3d985668;0x36fe4d41bb1a4;0xc8bf2519f2c86;0x8cde3d51f718a;0x695ea1a5c0deb;0x81e242102804;0x44654c60e728;0x2c9afefc0d2];[0x0;0x7df879565a45c;0xeb53440deb18e;0x91c50bcd48c40;0xb0812471349b5;0x3264d327598f4;0x28c7db1aa2fac;0x479b5053cafa7;0xb784e56a67f9a;0x48d822583d4e8;0x2ce3456a72428];[0x0;0x42338b67b91db;0x50559b3628e39;0xd152e4d60590c;0xcae31a08071d5;0xedb637e1110bb;0x60040dab4bbc3;0xb94ae801ea15b;0xfdc98ff74c7e2;0xc048afc0d2a0d;0x7c5a57e69b];[0x0;0x25081a481f97b;0xbe09895b90a1d;0x36e18f9cd401a;0xb3d534c527506;0xb3ebf841fbb68;0xc95d92172c55c;0xed6ad818dafda;0x1c5908058c503;0xcd0561e153f07;0x2cb5c21215444]];
 [[0x7783ce775d398;0xac4cd8a3c5f8e;0xf448122b0f83c;0xea000a0e1ef79;0xaf989abdc8a5d;0x4bf6884cf5d57;0x7f546fba0debd;0x366014981dacb;0x5ca3369064014;0xa4df6ad5bed];[0x0;0x232eaec294391;0x3904597cba934;0xe2b9786ccb84d;0x29c906e1b5de;0x8ed3a5e51d2ef;0xd2c9679ed0770;0x887943cee9fa4;0x751da92736389;0xc76d77eb0b10;0xa5a89c408849c];[0x0;0x8200a5a4af708;0xfdd47054a9c57;0x43736b535e9e5;0x848c0000ae78c;0xfd8e0f7761431;0x844d3e355be7e;0x5582b92cd8913;0xe3806c065705e;0xa18084d981231;0x6a2f03dd297];[0x0;0xcb94aeaa3347a;0x79e4dc43f1f95;0x1b6b6af4c7518;0x3955053d2ca05;0xff539faa8ab6f;0x7bd6b7667d70;0xb1db04ff916bf;0x3331dbe6363a5;0x9edb0c9ca2ff5;0xa56e217df27d3]];
 [[0x8e6e0cf312bdf;0xfe79b21deb122;0x357ca46d595a0;0x485bf44f96b17;0xe591c8caccd02;0x501d642a63ff4;0x8ea3fc9c7300b;0x43bca72e455dd;0x7d88b75132e9a;0xe062c306b8b];[0x0;0x3dfa801f2647b;0xc4e6b25996b83;0x7ce14c0821ecd;0xc7bc828496f00;0x297626782a4d7;0x556c64524f19d;0xc0e8e04714de;0x3bf5a60ce7b20;0x8355d5ef050d0;0xe1566b9b7dd2e];[0x0;0x2422795c4e697;0x59697a12ef54f;0xca2d79ef21dfb;0xd24a4fec9b01f;0x1c9173dbbfe11;0x4ba26dacfd9db;0xb32a1fafca1fd;0x2163c960a5492;0xa654b19729a72;0xc4acfb65a8f];[0x0;0xd6e91093fbbc1;0x4dfdbd3b75ee6;0xa4c83bfa4a55a;0xba02942658293;0xc65925025b87a;0x18020aa32c26f;0xa32ecf985835c;0x79f441f9bfeea;0x8ad5190c6312;0xe1c04c9d540cf]];
 [[0x26051593c58a1;0xd2ba5365998ba;0x79b15634a419f;0xa29856533c776;0xfffb4aa5cfdf6;0x9531ef46a112f;0xc5175b241a886;0x4b0905f8df280;0xd62940769553f;0x4caa8e66720];[0x0;0x37f8a83f68c5b;0x303592f86ffe6;0xcab53f4a03e1a;0x2841be3f19672;0x372539cce4fd3;0xff1c296cac16a;0x690b0c868efba;0xc46e370c316d0;0xbea17657c207c;0x4d289174f39fe];[0x0;0xcc7b3add40acb;0x11570ec006d5f;0xb87334fffb91a;0x78369ec274972;0x4e36eef621443;0x35ac4cb4e9728;0xf4169174211d0;0x8eb76519bf609;0xd3bd4bfd71530;0x16f5b62e42f];[0x0;0xa707d9b36fbc6;0x3525c53ed3002;0xb0c948d84f12c;0x1a9d6328f1c0a;0x6e63759e6b3fa;0xde6f2165ba9d7;0x36eaaa15742e4;0xb292ab38e3cba;0x33d9d11f4c0de;0x4d0a127f76bf3]];
 [[0x807b15a8baff2;0xd1e32ccfb1231;0xe93b803d6c63f;0xb06f4de755ecb;0xd7ff9358ac53c;0xd0162a7c99e2;0x443f6f9e2cd8a;0x4260e799bcdf;0x9b7be697f6822;0x5ff408ef201];[0x0;0x62ee5161f40a2;0x1bc9abb9d59d1;0xfe565c6198bd2;0x336a84e4d85ac;0x3116b867bb756;0x2d23dcaee5159;0x2f8b550106173;0xbe9ff1977e99d;0x3e30da52c4e77;0x60a956f418ca9];[0x0;0x457487a138bd8;0x1c137753c5744;0x8e7b8c5cfc5bc;0x3ff62a29561a7;0x1ba84c7d0ad57;0x62ff70ebcb521;0x7000c14db1839;0xb3c4f46fbc91c;0x818c424cd16cd;0x23f7074281f];[0x0;0x5fc64c5bdec9e;0x9d0737fd379c6;0xa6b659b268f73;0x33a756d235d23;0xe6ea7e58ead1b;0x8a401793522de;0x7891b6a53781;0x635f56078dc04;0x100f7af6c967a;0x6005131562171]];
 [[0xbaee217a5cc;0x6031f4063920e;0xa8fe8594646e3;0x70eb97fa27763;0xbfdecdc494407;0xc8729e7f8398e;0xc8557c899b57;0x75cc3d31ba100;0x5de5063173afe;0xbfaf11a29c3];[0x0;0xbc2fefc870102;0xf6f21f632ef1a;0xd88b6dd29326c;0xdebfbb4c357f8;0x83957e29091b7;0x4cd10361100ed;0x4c8e6f04e3944;0xe5d4bbcb76e8e;0xd02eb96a53920;0xc07b9d13ea98c];[0x0;0xe8b67786daf0a;0xe23b676392381;0xa47fd4bed474c;0x64ef008095483;0xce9f6928efe83;0xd3217141decd4;0xeebdf60c43329;0xa20522dd005d2;0xf36b20c9e0f8;0x8f86b409c2a];[0x0;0xc7c35ade42e6d;0x98d07bbf13f45;0xc309b4e287d1d;0xf7085289b445f;0x3c13b6034a70d;0xdf73ec324975c;0x16a99ae281d82;0xe2f5abf2760e9;0x9284eedf54763;0xc0e70d364640a]];
 [[0x29bf903fe0e05;0xe286258734ecf;0x4224e2a809440;0x53b11055c88ee;0x15979598c40c1;0x77fb257f00591;0x3bd4e2bae189;0x5e872ce99ad56;0xa6e65ea542260;0xbef02d89345];[0x0;0xbbdf6ad36a261;0x14453616d11b0;0x8d5bf8370f823;0x74625b34ecc42;0xae5039f3e9b36;0xc7fbbe02bebdc;0x284eb31f0ba98;0xf2e1ed9671de4;0xe59a171e69387;0xc033c1fc8f003];[0x0;0xa29c2b6faa058;0x113601f10f6c1;0x8239bead41557;0x35b7509fb10b;0x90b12f7427cf4;0x8147a10378b61;0xa73f97a621dbb;0x199b3f9206e47;0x1eb5f253b1b09;0x8e6964ed131];[0x0;0x27b0f34b6fef4;0x9f9af79a1055a;0xb7df69d585e1c;0x3e0b8d8758377;0x45f331849b77;0xf8ed9bcd8b11c;0x471c8774bfaa7;0x5c400d10fb587;0xeec16c6b6e79;0xbf4fde5de7fe9]];
 [[0xfe26ad4cc52f3;0x25a4a70220e79;0xc1e0794f9d191;0xbf847b21a76fa;0x9c8d635594a52;0xe9d0e4456895e;0x1600b9f477093;0xfe214b822311e;0x4743abaeca18f;0xc63ce7ca03f];[0x0;0x2259712330dd0;0xde05d5978377f;0xf456bd8fc5ac2;0xb62457754b750;0xfaf12dcd9b91f;0xabc8bf2e545c2;0x35b627cb90658;0x45dbbd61eee44;0xb2da03ee5a1d9;0xc729f799c9597];[0x0;0xe850163c3f21e;0x74c4eba4ac45d;0xc9bbcb35a73f4;0xf9907dd8612cf;0x819064c0f3ef7;0xeac0d06a2b460;0xdf5a9179f957c;0xa6b69a02dea1b;0xe30eebc46b703;0x99824509f6a];[0x0;0xf7723af80b94f;0x53274b975f11f;0xb0b99f756a135;0xde8e19ed7cbb7;0x200197ab7c796;0xe2f7ee71664ea;0xbae7c73ba34a7;0xbeac33c9757cf;0x9a8a26c0780f5;0xc735b45402db0]];
 [[0xe2a7e0eeafd11;0x1858d1b7b4ea3;0x5e2a84fe92416;0xf9c949778d62e;0xd2b073e99ca62;0xe5e0d8b2f19d0;0x2c84f45df1ccf;0x6c956f6fdda23;0xd1ff84bb0e397;0x2b6cf02a62b];[0x0;0xc39700e7814;0x22ed192a85a70;0x42600c9f9b017;0xcd9735f512f21;0x1b4d096e40d32;0xf31330f321e4f;0x646116bde55e4;0x39d8a316d29f2;0xb2733813b2a7d;0x2babf1b3396db];[0x0;0xf6a195c3c1904;0xe221c6f7237c9;0x8361830057394;0xe5127f4bdc096;0xce24d9153f848;0x1561195c1a9b6;0xd6a33a1cbf70e;0xb995af64fdc34;0xe58778b02ad4b;0x75dc709c23];[0x0;0x1672331f41b23;0xcc50d9f931c1d;0x8f32ed97ce49a;0x7fcb71aba7724;0x51623d76e523f;0x90477abeb1d80;0x9408bd54fe7ea;0x4825975402d2b;0xafce2241e5613;0x2b9cec6e54aca]];
 [[0x8c64bd5bfd3a1;0xd9de1c986cadc;0xccf7611eeccb;0x7f9aaae3042b4;0x73777e51bdf30;0x463183aa7a787;0x24b24de2c8702;0xe916c56af7cea;0x8b9f20786f5e7;0xe5b77d69c12];[0x0;0x5adfd6c4fb24;0x1d108eaf77568;0x333365e4f03f2;0xd43898ddafa6b;0xb7b8b6470e7e0;0x4813ca8a8f5c5;0xb590b979b1c12;0xefabdf998c77e;0xd758adddeb842;0xe71ce8149570c];[0x0;0xf265ba226824a;0xcd37dc3ae4be6;0xff65c21f2d91b;0xcf5c2c89e78fd;0x75ab316deb339;0xdb5dc70923e67;0xe3f2694877e2d;0x377ba44e0764;0x57736a43b89a2;0xce21c9e3be3];[0x0;0x5deda8e9433ed;0x9aa7f1b4f0c4b;0xcd8392c358389;0x9d3752315593d;0xaf352050ee9f5;0xb1166d1fa815c;0x87686676b5734;0xc3643b141305;0x46972216dc6d2;0xe6d6771d188f6]]]
 (V [0xc4016aded0db;0x18cb851190449;0xbc94f6ef2a1b0;0xaa4347c252832;0x3ec1deba1b0d0;0x991e44d74b194;0xd89532c8bb7a6;0xb140eeec78b6a;0xe84693aaf7662;0x7f81c671301] [0x596334f5d8763;0x6dcb588621165;0x5cc332ade0f4e;0x23d84212cc4e5;0x535bf174d7570;0x138873f18273;0x4b90dfbc4371b;0x65bcb1a6a27b1;0xd369a1a274dad;0x5552a4a6bd0]) [[0x413330a0816da;0xbf1aaf048b5d2;0x14e6d1809ef31;0xeafeadebbbcbf;0x799f365581399;0x58ca81d14e9a;0xb1463a44eab16;0x712f209ac1162;0x4cfdb4233bd9e;0x9837d3c1ab5];[0x0;0x5fd3bc6e28625;0xaa2fb165e7613;0x82c054773c6a5;0xaeddfa7d35203;0x35f4186d1ed0a;0x3745ae92cb841;0x7a461b8d06c30;0x9df990f6b7e02;0xf4ff8bb8d3bba;0x98fecc34e5e05];[0x0;0x38f8484502a9b;0x4b3cd08368c6f;0x9a215d8faffb0;0x8dec8372acbbf;0x2b2b1ae7d7799;0xc205432af2e81;0xb2734559aec0e;0xb82c92923e122;0x52837460324ea;0x5a8257a2a7d];[0x0;0x454c17205a951;0xb0505d72dae4c;0xe8c69b9c71887;0xdff161f7bba8c;0x77c48917fd92;0xb4dde408866ac;0x22595aad9cba5;0xc709242a8e8be;0x88dd28e0c54ae;0x989744a7ed247]]
 [((V [0x4a1a457c0de70;0x57bbc1fe95374;0xfbdd57d4006ac;0x3631a2ba9b7df;0xd4a0c4c1a7a12;0xf48bb28390719;0xe9c25587d06ed;0xf0b209d1287e9;0xbf4d8350b1d83;0x7df1e4e9e67] [0xce3b97a9111c6;0x30774f4be9ced;0x18fa99550de5c;0xb59597868c8d1;0x896218292d77b;0xb70b5b03504d0;0xc63afd906a195;0x1fa68fc86620;0x4a9c178a76a0e;0x6b0bc0dcfb3]),[[0xb9a421a24d9fc;0x589686987f843;0x8d95d4611c3a9;0xeb0dc6b1a7b;0x8fc5cd96d2b10;0xbff3117124d17;0x6240b29540e1d;0xe2c9f333a05a2;0xa5084f1cbadce;0xf1b7ffa4f08];[0x6a3031c8dbd88;0x35a7c6d285076;0xa867114951bee;0x7b4be29793c84;0x5df46ad86b194;0x38fb78b191bbc;0xbb3806ce281a3;0x2056cbd31082e;0xb59d0895ee6a7;0xa5e879cb98b];[0x0;0x2f239c5e527a7;0x92f2cbfa9a42d;0x767e33fd29848;0xbc90608cf915c;0x8a95b24554d36;0xb90304288e087;0x23f1ef93042ca;0x38847b1b3c126;0x40e9c93165d43;0x3f8204ade5a];[0x0;0x66b850099f114;0xe21841cec0258;0x517d334b2515f;0xa648cd8367005;0xdb092d92c8cfa;0x484768aa3f94d;0x4e41ecd34b9cf;0x897c89b8156f;0x373732cd053a7;0xa1204091ec9];[0x0;0x74f37661c58c6;0xf49a8867e8529;0xc9438c15c9378;0x3b871311b8f83;0x4a9037c52719f;0x9b8d0c8456614;0x46b2bba99d36b;0xc4074326a44e4;0xe52d20cf6d42f;0xe43bf39409f];[0x0;0x43bd02e2e7d79;0x1548de1245df5;0xc628109919106;0xe4715b7fd0240;0x444895b015871;0x42c6f8e3c2e52;0x40d5b3fcfbbe2;0x8602eda0a7f7;0xc7a532bb404d3;0xf2ab31374f622]]);
 ((V [0x60c23bcc0fc72;0xf4f7ac8fe466d;0x4a6ecedc214fc;0x9d0e24854c295;0xef50604839603;0xb267e55e6b4d1;0x10393031e2f69;0xcb401dfa69d2c;0xc30f7b7ea2ac1;0x6a6012453db] [0x57ab3c793e1d7;0xbdce0cd970e79;0xf28bebf6241e2;0xd2760477ce530;0xd023c1bf717d;0x518d9114784f;0xe37f5f6cf75aa;0xd0c1d26bc6342;0x10b4f890c7dd7;0xbf3155ff879]),[[0x3140c35576dce;0x5477efb3d338e;0xa2b3f59f0bbdf;0xe535daa6648a0;0x5f462e428030f;0x5bd0deb2138b2;0xdbd92ac7804d4;0x5f2e5e60c7ca3;0xa6a3689200140;0x1f31dfa4819];[0x5a675b38bf607;0x7b898a4fd87f2;0x84ffc5455b400;0x205c09ef41a17;0xd461f03931025;0xadce4bc5196f6;0xa9d629746eab5;0xefd9a1adc502a;0x9a32fa594140f;0x9295ee3714d];[0x0;0x523258d58c13f;0x282b882dac1d4;0x9c1f4cbb7e15a;0x3f853d44b3e3b;0xe4a2945cb3c00;0xdc9db8a408f65;0x50f60c8da2e77;0x7787992432387;0xa7ac04c2881c6;0x3df61e1d382];[0x0;0xbf3a435337eb9;0x22d5f78fa1d42;0x89ea0b25cd6e9;0x1c6de2caebe6c;0xfdd40d4d280ee;0x41baa1ab21142;0xd07c66606ccbb;0xb75e3c1fd0d02;0x1ff6388e44ff7;0x1a168e3d66e];[0x0;0xbd8300b630bfe;0x25e31d62d9854;0x815e995aa1d4c;0x2b4df2eaa778;0xfbde215f87a6e;0xad6d399b9e2e;0x8aab84270dfe3;0x70c1dbd952a15;0xd065732965382;0x3cd1de137b];[0x0;0xcc0f93e92b4cf;0xdcf2cbf766879;0xc142aee7e62ca;0xdaa36b18036b1;0xe0ad42f2bb9b6;0x9bd986e85b3da;0x58f7268ad1683;0x47ea2c084c02d;0x8cfa3b94678db;0x1f5373fca9f7c]]);
 ((V [0xaf72a7e8a8655;0x301474f5df109;0x5855944fb27e;0x4ba01794f4398;0xc8d0c76931209;0x1c5c5e1d4d188;0xb7ba941173891;0xed64ce0356278;0xc316865d062af;0xda4991344f] [0x5a4557368bf30;0xb0bba21ed1bb2;0x5e05ab67c930f;0xbf9c809d4df7;0xafd4162680fef;0x4370cffcb7fc8;0x89c06e0879132;0xf68477b448645;0x58af02b856b3a;0x9bdb34ca070]),[[0xe5d5b241d2388;0x54770808e3216;0xafb3422f9092c;0x90b8cbca6f62b;0x6d69ad4d87383;0x6073c74105956;0x6f24c9020a4f7;0x26e7ae4299825;0x25c6dbab5b253;0xf3027f76e8f];[0xe621ee4ce5afb;0x5929d33803df8;0x315fc147b9a59;0x4803c32ff89c8;0xa49b503dceb8a;0x72743899f42ba;0x2cd97e65aeafc;0x34648bc837d4d;0x923e49f0355e8;0xe83cb44c3c0];[0x0;0x347d437b4cdef;0xc370a3d1de029;0x910efaade9932;0x2cc693dc531c7;0x4ac5d282dcea9;0x5c0c648ab77cd;0x7bd486067d5f8;0xa2c162f1d1c02;0xbf51aab50501c;0x2c33b32f0c5];[0x0;0x7bc8847564e6d;0xb228e61fdbc4;0xf4b592ac23ac9;0xeddf5a68c709e;0xc455aca581e03;0x8427e7f42b818;0xcd87013f1a6c1;0x6280312233564;0xdb90527e46141;0x16afb646d041];[0x0;0xb174bc9672ac1;0x7a95348494482;0x4e910a5d8fbd8;0x29da494cd3759;0x48f5eacb112e6;0x889a90e47e4a4;0x1887c958490d9;0xced4b5a9dfbe3;0xef19dcd461cc2;0xe6adbe01fb8];[0x0;0x7ab69bcf1f1f;0xe06226d8a5d58;0x291076fa4fc4b;0x7cda3dc0e29be;0xed0a55541be20;0x146abff02defd;0xf93b956743404;0x102363db294a2;0xc53365c6ac45a;0xf44d88d20d50b]]);
 ((V [0x64191a4e21c7d;0x2cd1a8b9dac97;0xeaa9d2982070d;0x8c51fd2d0d31c;0x1ae81c0c8b5bb;0x9b3ede945d62b;0x632ec8c5f9ac6;0x21202b106161e;0xc7a1a9c02fc1b;0x42e3c9f0e0d] [0xca7b349169680;0x38a242ace7ae1;0x38f0647caf92f;0x696bfc0045bc2;0xcc00ba5684f2b;0x95b92ba2c1c11;0xcc35aacb0a2a7;0x4a68d88083101;0xc72086c612926;0x4cc80d122f6]),[[0x12c55c69a660b;0xff9279b561e2d;0x6985998313a81;0xcaef1e78e433b;0x3fd2c9c232f08;0xc6fab60919fdc;0xeb318f841f017;0x2f4003fa6e202;0xac0a722c9ef0f;0xe0d29d77a17];[0xd320cd3e40fac;0x383fe45757b48;0x337965c045333;0x50a537a4c827;0x6351a5fd61925;0xb2302c93cdaac;0x691f76c950d5;0x35a320db31d93;0x1ea2a4adf977e;0xeae88c7b73c];[0x0;0x694ab670dd70b;0xf0326526b437f;0x8a020540e4990;0x957915528356d;0x9280a3859f63e;0x9f8d4d9fae874;0x3877e93bf16de;0x47919e306e4b8;0xa0a0cab2eaee7;0xba2160713];[0x0;0x5a4ae348f53e8;0xcf1c8c22bcf57;0x12c0e8a2f0dac;0x89c75e17233f1;0x99278192142b2;0x7ef5a76e8c307;0xc976bcccfee39;0x8de570e49d762;0x7489450b052b1;0x111c00fc0b0e];[0x0;0x4ef1a6097321e;0xb5e186bd89369;0xf4782efaeaa2a;0xa0eb9e55f137a;0x3c34c6c67d;0x7ec3a1b32fa0d;0x9e9a70f57dca9;0x3898b4857ca85;0x7b280a55e32e3;0xc57140d813b];[0x0;0xb93445a7fd5b3;0x409ec67f72ead;0x618cd507b544d;0x181b54cedc9c;0x60334fdd0bb0;0xcdb6d3d48126f;0xaa5ae8120692d;0xfbc0f95f04962;0xf64ab88855b82;0xe184acfbc07b1]]);
 ((V [0x57307a973524;0x2cb483890d6d2;0xb8f4425476892;0xfbe2bcdeb2048;0x343d9a3c5dca7;0x2797c5300fed;0x8a1fefe714a82;0xffd2d834bd06e;0xa143426e66ff5;0x4225bb88d2f] [0x528aadeb66227;0xa97ac407fdf0a;0x4886824013610;0x9f41807ec7d5f;0x550463487e5cb;0x645e32e3f3d5f;0xcbd85d5bd23c3;0x53b418c666ee2;0xd466b02daa936;0x1e58ee8b6b4]),[[0x9abc30f55d775;0xb561dbe7b0392;0xfae4d63482ab2;0xd5a56125dea06;0x8bbab24e94326;0x17ec971701931;0xa6cd0882e8203;0x4e209e5b94ca7;0xd9166e0b971a5;0x91d107d98c1];[0x768b791f7d5a4;0x441bee121ebd0;0xbcaa6dec47e07;0xa450d3aa07611;0x9c6421a72fe47;0x49703e25ab992;0x50aae2843acee;0x1bfbcdcbbfefc;0xa3c7214eabd96;0xe020d02bfd2];[0x0;0xfd389a11d4973;0x360466689f065;0x38fced9e33f69;0x7158a3ed1c3a1;0x59f7386b336b6;0xcb909969a6532;0x4f8de8bad8325;0xf3ab5feb21c59;0xc99b6de4785ba;0x117a3ecff46];[0x0;0x49bd20d0e9b30;0xef8aaa7136a1e;0x8a7c569efa2b;0xe71e080b276e;0x240b00c589c10;0xc97d96c086e10;0x295ccdd8e05ff;0xc9620e833f599;0x3fa833fa08327;0x57780229615];[0x0;0xd51f286a543cd;0x87531aa697c4f;0x6f8c3c54d7787;0xa0df14d6ff77b;0x173e9eef27031;0x696344e51d422;0xaba78d2b836a0;0xbab3ab6504bc0;0xde58669517cae;0x530e7592422];[0x0;0x66b37b9b5f23f;0x7fd4fe1dfb81b;0xf3e299cc3ee25;0x8f142e22facc8;0x84b2da03c4bc9;0x1b76237961693;0x397b40647a83c;0x197421fc05b15;0x69e3dc542722a;0x92634522be306]]);
 ((V [0x481026165c844;0xee980a401df8f;0x9f6bc317f4e6b;0x11ea6e4af7880;0xb86b42a76e8f3;0x11163b570e0e9;0x1a594fe46e80;0x8ff45b8e43f40;0xa46d3485e63d2;0x995ef4f45c6] [0x40ba312278152;0x1b5990be6e847;0x612140bc23a05;0xab6815b894381;0x89fd0fd6e250f;0x437696e006fee;0xaa711f0c2ec5a;0x52fbea6be8e36;0x40b8061d233d5;0xaa9a1574d44]),[[0x78cacbd2da660;0x76be352107d7b;0x804f14ebce8b2;0x96bb6153413e7;0xd8206c4bdb0c5;0x6902d942f08b3;0xf0c10bbaa8be0;0x6abeb3ec1a48f;0x2dd5531cd201e;0xc4631bbd36a];[0xcc8031464079f;0xf876b65ddf3cc;0x5591f51ccd925;0x796f826ab2dd;0x3eb53f7f41335;0xbb44e2f8dec5;0xbefbc239ed43f;0x8476d85fa1d79;0x71f285936660b;0xd97ed3e5a3b];[0x0;0x105cfa8486307;0xa9023c07aad00;0x7c79bd44d4694;0x83f32b04e89c;0xe7cd7e33ffd0f;0xec5fa83a2f466;0xf3bc904e0047b;0x38b33e01a1cba;0x71c0eec3af606;0x11177a424bb];[0x0;0x2e499b0a0ca69;0x1d5006ae5764;0xd11112c6425c4;0x7f0359acd9bc3;0x357a583f330fa;0x63dec80ab2427;0xa37560b6925f1;0x347043a7276fc;0x915c18889c98e;0x2e8faca19ab];[0x0;0x2d38a62d592ec;0xb9c167399c51;0xb401ed19c2e02;0xd8302c0ccab11;0xfb55b87ffc2e6;0x6df554f844258;0x395835636652a;0x8d42fee49492;0x31a41b6fa831f;0x96a7e8d8330];[0x0;0xaa43c13bd3da1;0x9245c325ac30b;0xe7fe010de4723;0x804713bdd2c75;0x420f7dce912e3;0x8a617b1fc08ac;0xab2f53bd01ed9;0x7422e384de8b6;0x4d9c1d602eca3;0xc4e4954468cec]]);
 ((V [0xfd2862c680c49;0x46d2ba01ed893;0x2915260f7312e;0xf128021251634;0x94e9c47153501;0xc6fe7f745f8b8;0x8a88bf9a182a3;0x4d12d327608af;0xbe27f7d99092b;0xfc2fc8b7ce3] [0x4992f2c8bc4de;0x9ac1739f66594;0x74f3af6c67dc9;0x4609984d80577;0x2a88c4602173c;0x79a3929038b42;0xcaf3200cb075;0xd10e1dd849ce5;0xa16cee42c3ecc;0x2df102f03a7]),[[0x7da54a706e89a;0x6e07a70fa4905;0x55fc53280ca1e;0x77aa5f0160236;0xbf0be4c6515d1;0x79ed9634297b4;0xadd9751c1caeb;0x8d9cafb459d6e;0x1f7bed9b49840;0x9aa4aa80690];[0xcecf614b92877;0x4c6f11d33cd1e;0x2c7f1bf6f53a5;0x81a576ba6f076;0x54cc2f8355d02;0x3ccf5e2c2c3a7;0x4d43e83c75d6e;0xe10ddd76e5e3b;0x5ef675717ddc2;0x65d22f89a0a];[0x0;0x502b0374d1d9f;0x8eca974ed17c3;0x56e688f7588f1;0xe5425a296e6f7;0xfada5c41e686e;0x9ed3402899353;0xefb237d957d9b;0x777f788d82850;0xda01f72a04c5f;0x5be2a404e44];[0x0;0x3a28d00569089;0x2a60c16dc5d5c;0x5141c3ce1ea59;0x26a126f626b78;0x83e14e12589ef;0x19d64a171c73c;0x37265b4cdce24;0x1a10751c9b82e;0xb78c58ad2eef5;0xce1cda7bd79];[0x0;0x916e55ff57d95;0xf8047988b5c5a;0xa4a161a124ed3;0xedbde453126bb;0x464c7132adba3;0xc8daf83e9d2ef;0x79092f6bc8a09;0xb9b99f7854e2c;0xbb476d4880bcc;0x5d6a870d646];[0x0;0xef79cd040dd5c;0xbb5013057fee9;0x24fd58d7c776;0x856958625bc25;0x79105bec730e8;0x5d711b5dd4661;0xe948bd6cd4aa0;0xdec829ee24bf6;0xaa00ffcfd64ab;0x9b039dfbedf1b]]);
 ((V [0x26331843111e4;0x85e8b3cdfec06;0x878997ebd282d;0x59f0f339690d;0x3cb4072d02ddc;0xb0cdf125b43bc;0x878219c6a6975;0x9ad0c710dce63;0xf53b465c5b51c;0xadd8fea905e] [0xc7599c32a7e36;0x10fc9347d992b;0xa96189ac064ab;0x77e7a786a7e5d;0x8586d1657380d;0x3a04e60739e26;0x7a71e175aba0c;0xc5d67961ba498;0x2d05bdde57536;0xd9b3b726d76]),[[0x47fa699c16c0e;0xeaf38b96ea8fd;0x9d78b9a9e4c82;0x429e5810349ec;0x694d4858132f5;0x9a03cbb798a81;0xbc7e7a3fd1f0;0x7895c3afd5589;0xf196d7015af37;0xd3ba7ecc11b];[0x844a00e5edc4c;0xa77cacc579de7;0x2aa51b9a2a96f;0xb9b76f0fe6b50;0x9c9b8bdb8efa1;0x42b1831209600;0xb85161d6193e5;0xf435e3212beb7;0x6be2a4b88472a;0x66b0fae7df];[0x0;0x6f2d26b84ef53;0x114301dea16ad;0x38943a470abf2;0xf6ddd1aa2ff4a;0x8b67f0b1673c3;0x44a985ded014d;0x3b4f50d7c88db;0xaa0da980a304a;0x3561e3bbedd4a;0xf86e1c152ee];[0x0;0x482e69ce0d60;0xb4897f0eb2e6;0xd4d2df44febf;0xdec87259240c2;0x5b7ee1830f75e;0x83248ffcb7639;0xd3dc964089536;0x5774c3bc916d4;0x9fc963612125b;0x4bfe3a92c2d];[0x0;0xa89547ca2ff42;0x532e1926792e;0xe0e9bb710e1f2;0x87d5c5d24aede;0xb314c0899efca;0x50a316bf782ec;0x2f04906573875;0x8522a59d830fd;0x851bfc09dcf1f;0xaf1cf4e0e49];[0x0;0xa0d8e02ba440c;0x814a149074f3c;0xb659a0e1b62b7;0x19fdf4fcc98a0;0xeea728a72dd28;0xe99407f17b567;0x64314a8e80c77;0x5ee403eeee822;0x7b07fa891bfac;0xd4cf03e543f8b]]);
 ((V [0x720ca483717c9;0xc22abfd59d577;0x63a0f1bbba220;0xf6fb17d93ef1b;0x579236f1751a6;0x3cec811323b74;0xe8b965a5e5e8b;0x5040d45f173fa;0xedae1d08690c7;0x6a30afafe81] [0x116b5d42a798;0x534418a237f34;0x1ab680a3185be;0xb025a552b84e4;0x630f300c8569;0xf2c5a7681641;0x989833f12e502;0x3703453cc0ff1;0xf7cb0a2a761d1;0xefe3683f514]),[[0x93a75a75eded1;0x88b36411938aa;0x54fa1f3d5b123;0xe27e1ab74f1c4;0x8b9d9dee5d88b;0xfef4497f51f75;0xe76b8e388d632;0x4fd949e1fb045;0xf697d3c682b53;0x712362e4d92];[0x5b70dc32e5e9e;0x5992ddcb8b400;0x2cb1eb1851eea;0x60bbb932a6468;0x3791cd83e2d97;0xc3029bb172c9c;0x1b86495cdec70;0xcfcd7338b2be7;0x370bbbb41f437;0x634f54a8932];[0x0;0x81af11d98cffe;0x72a594a269ad1;0x6c9f4ec76e989;0x39620bc6ed99;0x31c471fdea8c4;0xbc6321220ee20;0x73e6945dc9e0f;0x6e1f89b02d124;0x3525ed232ab8f;0x760f001f2c9];[0x0;0x9b45859e22102;0xf58f6c39b8db7;0x9adcd372b44ed;0x3d39a9e0a0504;0xeb43bfdddce01;0x50fafb19ce5c4;0xb06b2a5854fc8;0x11d116696aae6;0xf6af4e8717570;0xc06cd707307];[0x0;0xf936640e5fc70;0xd4b68c0240df1;0x16652b8fde503;0x7a3d6059f438c;0x5c66f11a905e0;0x57add0c045cc6;0x3e5d99383828e;0xf7db5eb0f07c7;0x340f3490badac;0x32004232388];[0x0;0xd3902ae077dac;0x3a2b0861b5b44;0x81c3f4b667a0a;0xe994e94accb55;0x46d948f1ee97;0x662ac1b5c9c43;0x430d1de0b4c47;0x6080fdf48f353;0x8e59044b6e4e2;0x71b26cecbfb45]]);
 ((V [0xdeefc5acc877e;0xf4ea3db8084e0;0x7529851b5e03b;0x7e16613c91982;0xa91391221b575;0x16886bd1b718d;0x589550644073e;0x658b1a4e9f966;0x8fb92a38f751b;0xe9283e7d178] [0x77500a16906f4;0xdaa32291e3d2e;0x37ba32fb0ac2b;0x7b43301bfceca;0x3387a0f726424;0x5fe11ac6bfb64;0xecd5b35f679ba;0x6307713f65cc8;0x3f9c2583e386c;0xca28061a288]),[[0x1e0b768f40b84;0x71fa5095f6b96;0xcaa51ccd36e24;0xb3a7174049d89;0xa5b63d2c46dcc;0x5e260a97fba51;0x83f6f06bbdd48;0x30cf7c11469f0;0xb917040c11c30;0x3291f7e7db6];[0x4504da4ef3131;0x1755d8d5238ab;0x10300e8512c49;0x3dcad2f5414bd;0x38aa69ccfe18d;0x5e4f434ff75e5;0x431d8b250ed4d;0x4082382859124;0xbcdf283d4417a;0xc938b107c5d];[0x0;0x61baa74afa060;0x7b053d6076790;0xb8c9c54dd1699;0x5526cfc9c10df;0x33eb9d7a4b8db;0xf8156e91123cf;0x55f479506e9ad;0xbd245caf530b0;0x2910e71458e9f;0x2c0c5ac006c];[0x0;0x299107b4ce54f;0x4a2fc9d62f71;0xb8852b1ecce71;0x43ae587f70d9c;0x834d4159eb76c;0xeb47fea8a0a86;0x237bc009bfa1;0x9bc0cfaaa12de;0x626f3d62c0b99;0x5ec664f02e4];[0x0;0xe96f594caf300;0xba4978851cc1f;0x20ba369e48c21;0x1e105db06e671;0xdc2ed40069924;0xb4f95db556855;0x9c515aede896c;0x37cf16e542178;0xdd011e54d1757;0x9fd5811566];[0x0;0x7191778e49564;0xe4a8a3df5efbf;0x542222cbc44ff;0x169e5640469d4;0xa3e93825285ae;0x375e60a31f484;0xaf8327f2fed6d;0x8702bdf1214d7;0x57788aa8ef54f;0x32ab7520b3788]]);
 ((V [0xa939f0db53338;0xab919fde5e837;0x19c4aa6fb8d1f;0xe57d996883848;0x732a2b74644ce;0x529800fdba35a;0x62c0c7624280;0xdad4b503e1fbe;0x8aafc5cc12ffe;0xa6a4860ee9d] [0xb8eafb0d151cc;0x5fd82b80a6873;0x90c90df4160d0;0x31cfccc323534;0x994a0e1afbadb;0xff756072cd181;0x573a97b3ad840;0xdfa42e823997c;0xbdc58d0ebe53b;0xe7a2419ef15]),[[0xc6f0723308c9;0x8cca513ef2d8e;0x2b832b179bfae;0x775d15bc77a3e;0x32b21a2bb469a;0xf60fc2cc424e0;0x390de774f3f82;0xa7ce816936da5;0xbbb3122712c65;0x4adc06c1d33];[0x8a3a729a9417e;0x96fcee6eff352;0xb16f653e35994;0x95a2e8ac30740;0x953bac4804d09;0xcf87676368957;0xf5fac10138144;0xecd9a7df518ff;0x7b5fb720f6a10;0xc2aaff7f9c4];[0x0;0xa7cb293ba534a;0x6e0682253f864;0x57db05bdaaa16;0x19683d92ef0ea;0xe239866f43b8c;0xed38e45d2a0c1;0x85203b10e6740;0x4aa3037d82c79;0xf8945e358daee;0xd45a48134b2];[0x0;0x44f1ab2c8d7c6;0x9d722faf32cdf;0x5aac3a6bdd4a5;0x18cbda78b2c1c;0x694c5f7d4ea38;0xb7419f9e67ff0;0x5a64a7a7af39c;0xf026f84395f9;0xacb6e9397d8e;0x763aa2fd9aa];[0x0;0x86747dc1e1b7b;0x2a1c92b51c407;0xb6bebdaadae31;0x3edccdda32cd0;0x9f46fd747136f;0x867043c78d8f7;0x52e91c4a94642;0x20c2c3fd88481;0xf3f891f7eb265;0x15e3f103ab6];[0x0;0xebde53866b5e3;0x599e7f49c89b6;0xaa20d69971849;0x430040428fbff;0x339c3416eea26;0x6594fa8c3d9c3;0x9f300452feaca;0x62a403301accb;0xddd4825f8daf0;0x4b3a5606d8d95]]);
 ((V [0xe71c657ee22e;0xa9fee5c2e2898;0xaf54764864656;0xb2421d08884c5;0xdb10ba1ba462f;0x7512e83d6f86e;0x1578984d9a50e;0x4f357d6e67f1a;0x79cf051e1d18;0x9b5899e9292] [0x28cf8fe1045e5;0x1b412ea96ba9;0x611677f199332;0xb99d55071947f;0xa1c0b00191a74;0xfd324b8efc767;0x35e6fbea8d871;0xac4c2f0f4b954;0xf1779ac631d5e;0xa74d720777a]),[[0xd563588eded04;0x1ac52db39098c;0x512bfb95cc0a7;0x6194c23e55e98;0x6e57eb65fd922;0xcc5bc15a0ba6f;0xf0481fddf12aa;0x1e05b1d4543b6;0x97563f86e5350;0x2b9c18af980];[0x2066a8bd04362;0x175f2753f2f21;0x290de82a2e571;0x55c306ee94da1;0x3bb09fbb3d3fb;0xb593c059969a9;0x78dda96de779c;0xb338fc11779da;0xed09f600e50c6;0xd665cd33796];[0x0;0xc169433043832;0x8c4ac1e2517eb;0x80f92f9fb28f7;0xd75cde732ac6e;0x3b1413de6422e;0xa66d1ce64e2a4;0xbd466a347ac99;0xc29c9b95cce8e;0x4390797f06518;0x6c79c797609];[0x0;0xc3d01171985da;0xc2f3ea962b9ef;0x7368db0223dc3;0xff7c287cf89e2;0x272f52e63f355;0x819062d7e8536;0x27bd072d6b2d2;0x80e89535af1b4;0x544e2c2be41f;0x4eeafc778e1];[0x0;0xff0825b940cfe;0x582c25e770aaa;0xf4394278e823e;0xe031c79a56ee2;0x19c48b11cb5c8;0x3b97ca93520dd;0xbc31f465816c7;0xf80e70a81a0e0;0x5dde9a4884f74;0x76dcf79157];[0x0;0xdc369a5d73ad5;0xb65e4dc871845;0x92e62520d7ae4;0x5095c52fea32d;0xba3460f2c05c4;0x1dc8d75a766dd;0xb4486f0492e08;0x21c5f5d1c814e;0xeb0ccd2a26f9c;0x2bc9a16c4cbd9]]);
 ((V [0x8141e83d33803;0xae87998a80662;0x1a921b9890c1a;0x38be7a9893458;0x5d5c7346727c3;0xf80f9ab6f95bf;0x267c7e1a8b75;0x7b283f993c040;0xd704588e6ab58;0x9d78ecb86be] [0x9c4dd76c8612f;0x34751028ad95f;0x980e8ee5cbc37;0x95a82c443b607;0x73e944da94ab4;0x3224472cd6c61;0x7a2499fc44835;0x3a374cc1e5f2f;0xa6534e76f80de;0x15feac028ea]),[[0x8207444736aaf;0x33c6629d2c8ea;0xbdc7c45d55187;0x2288bc43daec7;0x7d6733c2595e8;0xcb7ce1343428;0xe2fec0d57aeba;0x5e08389fdc798;0x537feba805b4;0x39a8955fe72];[0x6edf24ad61267;0x9fefe7a8f4b03;0xa7020bdd34b90;0x8aa0d32ee36e0;0xfdbcc394f7591;0x90db79dcebaf9;0x774ee7a936f24;0xe1d9e7a76b45;0xee83f5518523a;0xe56a984bf8b];[0x0;0x66d5c77eec73b;0xf99fcc4ebfddc;0xbdced4c6b49a7;0x613eded71b3c3;0x890c4c0bd7ca;0x122d6287531a2;0x3221f7983324b;0xbd9386b0dad38;0x2215923d89607;0x5e44690a84a];[0x0;0xb56fe889774fb;0xba2ac96b50f5e;0xd94327715a13e;0x3b1d787cdcb6e;0x73f9a67023d2;0x3580cd8d590d5;0x395f88fcd59c5;0xe90108bd6d007;0x865690a6523bf;0x4b5cd5aa7d6];[0x0;0xf81feaaa8c6ae;0x44b56094332f;0xa488bce410e1b;0x14fc8241e96fd;0x24fc16f9223db;0xd804d6632ecf9;0xd1501f874f9b9;0x22739c5c6a247;0x486958ab25b1a;0xcfc818919f];[0x0;0xe9a595b4bc0d6;0xd1eacfdcb1ba1;0x8b367685ef30a;0x496de22004433;0xe8a8fb05bfee0;0xd23fc0f3a813a;0xa03e5a1a25bc6;0xd5b7aed179c7;0x38dc973068155;0x39e1c35c62ed7]]);
 ((V [0x698024ecb48a4;0xba5fee67dd468;0x856e03026aea2;0x302c7bb2ac43;0x9ab99bd81aa2c;0x4f99dc4701b04;0xdbbc21a636979;0x42057c09bcd68;0xd0a3b8ae2131;0xf6e6517ae04] [0xb8fe1d461b024;0x9bb1f07a961a9;0x728019a6d7e52;0x6a931f539dccf;0xd803b0f13453d;0x375710c60e337;0x64336d26839d2;0x833d156e0b964;0x813b5235b5a01;0x1810fb77035]),[[0xe483c1af2a8c3;0xc37b2dd9e3969;0xfbdfb6dd2874e;0xf43e652eff2c1;0x37777b88387f0;0x6fa3f503ad618;0xa6f620c074f3a;0xbab6b8d07cd4d;0xf0239f3703233;0x94d8d8d7974];[0xbb151074da810;0xfb0854606890f;0x57797558d460b;0x6fd0627b70352;0x2fea67a049b2a;0x5e422e3ddd132;0x952ea2538f8ca;0x336f828f81138;0x7710bc4ddf542;0x9d1e999535e];[0x0;0x24acbd1782c3f;0xa3f3bec00a235;0x5d0cf54bad0f5;0xc7824d572a3f;0xd1e2868c4fd53;0x440d59789bc94;0xbe8cc92c74b78;0x73f17f02f6a67;0xaf627a4ed36dc;0x60dd8b78fc2];[0x0;0x15848e815b32a;0xc93b1a3bb672a;0xa23ad16388478;0x16721b65dc6d2;0x3e152fad0e474;0x50b752cdc4a9a;0xedce47a278d7b;0x1e093d65ed953;0xf04163fad3484;0x1993b9e8074];[0x0;0xfd4b43617a129;0x945bb8e74ef2f;0x6e266343715f3;0xc165970443530;0xb651d1a99d1c4;0xffce9414361ff;0x9d4733a6f44de;0x7f518764f9612;0xf34cb972a5c87;0x568b7267ea6];[0x0;0xcd99c0fbff769;0x87a9e154124f9;0x554b4d7b1df4c;0x6d924fc2e6f69;0xc4638804b0c3e;0x4ca442af22ed2;0xe91ed40551237;0x51dbfa7bc64b4;0x10afb1674e46;0x9539b2b221da4]]);
 ((V [0xcaf129ae68afe;0x9a8092d06082d;0x5d6ce6fc7814b;0x1c2b8663fcd65;0x759c6efe5c62c;0xc1483142ed9f8;0x5be74de50e009;0x7ab731ee765cc;0x29c5ed86926ba;0x1723a6abb23] [0xd9946cf019ee6;0x36366ca0f03bc;0xf2cd52d73bb3c;0xcd2a593d206e7;0x5f31dbbe25f34;0x84de1624430d2;0x87062a1b24003;0xd4076d965063a;0x56d2719b71254;0x8b581744214]),[[0x203aa1db01bfb;0x99d89e41fd4d3;0x6de2201a56054;0x4cc157bca9ffb;0xc00ebb4eb8506;0xe4ee8d42cb654;0x7b99e1c866f23;0x74a6054955de9;0xa8ae5c8cc85f9;0xfbe3d001d22];[0xdfde20955d153;0x6f160e0348712;0x5c6fb49185215;0x7d9e022593b65;0xdb599a8043722;0xb0d9b447436b1;0xf1e3c577101b1;0xea81f4c686f91;0xcad259475d82b;0x629f67aa4d];[0x0;0x929a9738b4e5b;0x2f374eb24462f;0x343db6519d0d3;0x52b08b9921be1;0x3bba41101433;0x9f3b996e78b8b;0xead46a86f17f9;0x57580ee7337b;0x68255135e7520;0xee1f73cea9b];[0x0;0xb81b0cd78084d;0x9d50bae461ba0;0xde5432c853f33;0xe0753cd1a8f4e;0xbe7a9a6c0b655;0x8ba838e1b4967;0x3c397c5992720;0x2c6e1a84ba3d2;0x5dd749511204d;0x2f5c225545e];[0x0;0x7b42b4ce03195;0x6cf0d36f1486c;0xd2837d22a35d7;0x5d2edb2522430;0x1ad90fecc29aa;0xf07d9bead6087;0xa52bf21817780;0x8aa2cff275677;0xd19595dd77877;0xf7d8849e1e5];[0x0;0x139432a012c83;0xc1e023622972;0x324c2125523de;0x1dad200412cce;0x6721fb6222659;0xebe41b3fe9707;0x34582b8008e7d;0xa773703a8d252;0x11436f14db1b0;0xfdbbdeceba56d]]);
 ((V [0x74ab235cfa9ff;0x64ca554493a12;0xb64e7e43a6b38;0x34a4e92e077e6;0x427f23df1994;0xfeaae29a2799d;0x524a39311786f;0xd172831da2b49;0x7a52bfa259178;0x42b3ff77684] [0x1ac86bb74174d;0x1a4dd9e288937;0x3a6182dd8c571;0xcdfa030d124c3;0x22a7e1b37a940;0xc9341f342ec48;0xec187c24dcb6d;0xbd58ba982f336;0x3f8c99039ebdc;0x1dd307c3d37]),[[0x713c0e690233c;0x890ec88d29bf9;0xd1c8940fc8d4;0x4e5e3cc4508f7;0xa75d5e281f448;0x266a1c909c5f2;0xd5d8cac8ac4f4;0x33ba06f800181;0x2e8e61f6a5e2c;0x7290603d326];[0x5cca7612396f3;0x62176d14d52df;0xf90ac181b03cc;0x4249487dc3ea4;0xbd8bb7a2a643f;0xa1bb9e3519c73;0x6017d10773850;0x66d110252409d;0xb8d14e322b0e0;0x39f53052538];[0x0;0xa72a3cf4ace67;0xd0d012db39f20;0x160504013f6a3;0xc628f796a59ee;0x73ba203b3e2eb;0x2641850eb0136;0x304b68350bb34;0xed408b2844d30;0xaf030fb446488;0x2176ce9d97];[0x0;0x2fb022b785535;0x6ddc0e00f1b00;0xf12d38a3a2986;0xd13ed0f079530;0x47ce3026ebc72;0x5410ca27567ad;0xc12ca6fbce3a1;0xc5fdb83e51247;0xf88d027a855d2;0x7cb7a0978a8];[0x0;0x35225f6145d43;0x14f5cf5c2c6a;0x8a233e5bdcfcf;0x528100101966e;0xcbfdcc7f11094;0x5e3e6e528998f;0xdfa4a1fae125;0x1775695f82af7;0x6bb1e329871f5;0x3344e722e9e];[0x0;0x43a1959085c23;0x7d892ea0f3680;0xc693febe70b26;0x5a0b35e314611;0xa7892727e1b1f;0x2db1dab75d107;0x65b9ee21357e3;0x62890b5338f13;0xb72373602daf9;0x72ef71c452605]]);
 ((V [0x7cf652049a15e;0x4145213c67bae;0xd8446e62f281;0x8e3c0f79b70af;0x6ad36bd3cc46a;0x92b62776b24e4;0x560f246579dff;0xc9ea20d3d8069;0x4bf6c9266f560;0x1e47559170b] [0x624c3bf353beb;0xb7cca0eee8aa3;0x9d871bd110481;0x78e6945a96b2b;0x5a2a7c71bbe5c;0xdc312bcb9f02f;0x473b36254adfd;0x6151f44daceed;0x71328c341ddbf;0xbabf3da2f1a]),[[0x34867573e6012;0x1da1038a46e76;0x7f71eb57fb99;0x203798fcbdeef;0x936125765a899;0x75e0375554244;0x3915780393a34;0xe6da8b7cba2ac;0xaa52f2af0dd70;0x170175911a2];[0xda6bd81385a1;0xc85b7050af579;0x4178693961761;0x4c1ee72098d79;0x1ebccae67fe9d;0xcbdabb1dc9216;0xb9d2aab919117;0xaf1fade6d1b83;0x7c365f27d151b;0xa4b485c1174];[0x0;0xdf23a064126a0;0x359ba31ac5c48;0xfa0f1c11f6db0;0xbd607de151476;0xb77725ead5da7;0x72112c8ed56bf;0xf649b5fbd1e0f;0xe5e4e05ec2c4c;0xfdecc809ea505;0x11614e48d1a];[0x0;0x24a907dd6a6b;0x7aff820332e64;0xd79ffbc1ee609;0x4f3752c76b4dc;0xa78b767427230;0x4958b5a2970c5;0x75a2fba8e1c9f;0x614319372efd;0x716090cfb31e5;0x55c426ff3c];[0x0;0x74c1601e34d8;0x80fefba7bdcd;0x1a18ca29463d2;0xd413140943195;0x2efdefbf38a70;0xe57715fa1a59b;0x14e35d8935d03;0x669f9bda8881;0x3d22d660e8b03;0x211432233d];[0x0;0xb3a319845d128;0x2ff3c8dcc2c60;0xd7693d7542461;0xab9fbc00539fe;0x19ce27ff90d14;0xdfda31a58eeef;0xaa491f912aeb4;0x8bba6a88699ba;0xf6e8e8b847e6a;0x171bbcff15e6d]]);
 ((V [0x2ab739472bae6;0x5d58f39928077;0x72b51d14e3524;0xf734e7b46626a;0x861febd45d7b2;0x3fb624f45369c;0xff0b592375a83;0xcfd1de9df6efa;0xa6f1683392211;0x9c5406e9725] [0xbdcd404f1356a;0xe2561713fcc8c;0x442b8d79c3822;0x6a140d4fc2834;0x87a7195efecd6;0x2a4d3658dc470;0xb9ec717d107ff;0xa6e2067c5a7c2;0xed74df9d2aa1;0x8a9bf741c6c]),[[0xd582f6af1eb2f;0xc2e6b7c02b77b;0xa716b0ddeebc9;0x4927dcdb1e744;0xcd718f9c03a4f;0xa7118b91378eb;0x3c2462e616e09;0xe081d2ba184eb;0x3c62008368e28;0x1722739f5ec];[0xd66f73e746eb0;0xd0f550fc31891;0xbaf900ac31d10;0x4dc478f86093c;0x70438bd0f79c;0x152315747cc13;0x868680dd62619;0x61fc718606f0a;0xcc522d5a82e2a;0x7967613922e];[0x0;0x7530a058aa18c;0x23b0801d4b989;0x655553292e8ea;0x5702d011be433;0xf42c41e9ec1b7;0x168558fff1717;0xa50c74e2e67c5;0xc28245494eb11;0xc8988606eff1;0x394cbeea9b];[0x0;0xc3df0a13b8bda;0xf87fac1a33252;0xcdd28a9461925;0x481e29a6001e4;0x42414963a9144;0xa16da51dc8535;0xa9f6dadeb859c;0xf9cc24fa75f73;0x53d00d17ff87a;0x21c0a08ffbe];[0x0;0xd7cccfc114f09;0x198e2975ed1c3;0x4e8724624ebc0;0x7ac4b48c2e0f6;0xd2e0a9f96a9b6;0x9dd464f565fb5;0x4c1097a63c452;0x46da6b0df7572;0x4ebf520413a6b;0x21735698d9];[0x0;0xd5a7e8dcb9e4;0x2aa16be686d67;0x6ef8703466f5c;0xb6b2256792fd6;0x7152a4281fbc8;0x17ea1b21919c6;0x7010702907565;0xabb693f3a031c;0xe0ea1344ed12d;0x172e31f871807]]);
 ((V [0x74cefc2408247;0x36c744c9eed4b;0x477bb4f9cf8b0;0x76cb473b1d828;0x4f56be2c58865;0xc661fd2ac278d;0x1ce8ef5c7fd43;0xe4dd4cab0b42d;0x266bfb8c805b9;0x7d689874bba] [0x9664a799e98e5;0xd26b896f98224;0x7b11777cf196b;0x8a4b3a9343982;0x9e1cf65a356dd;0x57ccee5b7ffa8;0x1ffb28f5a0790;0x8748b1f4743ab;0xd466b04ba0dbc;0x659039f811c]),[[0xd1a63dc6cab4c;0x382c13a216b59;0x7ae1f19bb861f;0x7d2c870b50eb3;0x4244f88248cd7;0xf65a6c3da36c8;0xf0fc6444c785a;0x5efbbcb43c694;0x34cd9f8fc893d;0x9195e3c87af];[0x772231107602f;0x2a492fcb5154f;0xc07da762ff6ef;0xd501b3ea09940;0xc76390d6772b9;0xbbb1e067ae206;0x63a58aca89924;0xe9aa036156e37;0xc3b71345c2e96;0x6d86974eb49];[0x0;0x32260455969e3;0x14e6831b9c5cd;0x63abe3cc43d57;0x9d8261aea334a;0x264f8f0edc59a;0x9f8515e0a54c6;0xb92e915525833;0xf578b17eed52a;0x108f9ef9baf07;0x5f7684010cc];[0x0;0x4fdec7ab8f269;0xc300504188147;0xa09a78d650a57;0xb8d85eb556570;0xa240e77e546a2;0x9e88ad9978696;0xcc56f61011db5;0x2de056a3fdeb0;0xd05ce3f13b944;0x9da6fe50070];[0x0;0xe83442ae2099b;0x35747cdb81ff8;0x8402f7cf6b1b2;0xaef31636a636d;0xf14e91638b8ee;0xf06cc51e62f60;0xa20f6b524b0e6;0xeb348acdb90db;0x3e35233495a0e;0x52cb23cc0d5];[0x0;0x1ae104174163f;0x22cc1201eba58;0x225194b25d88e;0x5a12c04d3b0de;0x5df2eca5f9931;0x4c4c090c09049;0xe93e0a02263b2;0x19627f88b923d;0x61b42982a23fc;0x92390f205dcd6]]);
 ((V [0xc3bab92c31ce5;0x2134ecd1de22;0xf0873b83647a1;0x134df5d089469;0x27e15a7435145;0x25b5317516830;0x2f812ca56b066;0x736dd1ff66873;0x1922240f4e8b1;0x6ade44d460e] [0xc6272379969a8;0x830e999753799;0x837d17ea2e7b9;0x36e2da4a1ebdd;0xda42780f5022f;0xb8d822b335452;0xe011e080d0121;0xa19b823d76a4c;0xa77cfc36ba081;0x50fa27db8d0]),[[0xf5baa3b880825;0xea10c07905d64;0x8f40de9aa57fe;0x69e4e5e7175fb;0x8c90a75794048;0x7c008e27e664b;0x78eec1caf3040;0x6942ff5339012;0xca271b44d5baa;0x4d6ddb1ccaa];[0x4cfac12eef1c3;0x9f20d6c54b9b0;0x92d0f32f66f41;0x96632e7e950bd;0xc72e81c3946d8;0x2b7add68ab052;0xc4ac2b522ea8e;0x2fcb45485049d;0xfe58636285aa1;0x38db0aeba7];[0x0;0x7d103c6e42aa2;0xfd01bcf29d327;0xcfda4a2a907fd;0xcb6a4adf406a4;0x3993bba7730bb;0x428bc9eaa2661;0x7eeaef6af297e;0x78736d44ff9ac;0xfe05624f0ea6b;0x3d6f4f9e38d];[0x0;0x3c4bed9edbb3;0x65f128540cf59;0xb43ee1a88329;0x9c8fb0fbda156;0xccb36a6f484ac;0x9f28364754a1a;0xa905fb3eff0cc;0xf84846f35f654;0x5811968da9b4;0x3d6fed8c338];[0x0;0x3874d195de4ea;0x835a3c4016b1a;0x69afd438eadca;0xdc691d9b009f7;0x1f92a9afbce1c;0xa6f330c8c5bed;0x16c2b1eca45a7;0x7e9a0553d3102;0xab6bb0f710b26;0x176b44f3a3f];[0x0;0xdcbccb88637a0;0x44311d75ab730;0x7f811424ee790;0x4c4ca883d0f8f;0x75f7a7ff7b3be;0xbfa16af477af3;0xb73d045e95581;0xe22923a723bfb;0xab211451be301;0x4dc0e487d2b93]]);
 ((V [0xcac5eafaeb34f;0xeec2a70f8c022;0xe0753ac64cc1a;0xc737e1ad0ccdc;0x4da216d97127d;0xa41ba3105ef59;0xa27a9eefd8da;0x9d40f29d33653;0x4eb31ff23a54f;0x22ad2c5d7a0] [0xe1c9e46b4c285;0x9828f8c2ed425;0xf6dec11b7282b;0x81ab5d7d1cf0b;0xd804707339530;0x5420df1078712;0x5451399d2e34e;0x57601468239d7;0xb12f7c343041b;0x4a5f698755c]),[[0x4bf5f2a6bd03d;0x98471ed076225;0x50d47b08831ee;0xf2a413f2b6bce;0x9573dedf86608;0x419c7ab05d11;0x1c6fb1cd85ccf;0x36dcad83c897e;0x91bfbaf22f9cc;0xfa0446cc777];[0x6fc72a2af0b0a;0xb9911082233e2;0xa649223c3b69c;0x238fc5c808d0;0xf10708531ef99;0x45450805cd74;0x1bc7ff3f0eb61;0x651659813faff;0x9a9ae43ff8999;0x5ec033d6f32];[0x0;0xb1c357934e3b9;0x8dbdbddf7b83a;0x1e636b20aac90;0x9accfaa488f81;0xb8913bc576fe7;0x9127e2e0410e7;0x2734d822ce04;0x1cf3c34c06c42;0x457e64119a910;0x2c9cd1fb531];[0x0;0xe8c9b340a4362;0xae22bc9d4feb2;0xd38e64709bc35;0xc5706fbec855b;0x7cba2e70562df;0x1b362a16be2fd;0x1a3b6aa95f71;0x48f49336802bb;0x5a09bd2ca8d60;0x9e2b4a74366];[0x0;0xd4fa3a2747310;0x6b292f6d4e322;0x9fa76b431aeac;0x2af3f8f9fd443;0xb7449f2111907;0xcaa3e1b9799e2;0xbb19f9ae39eda;0x5dafa6f133a44;0xbb154e01d730;0xf42c5a59a35];[0x0;0x9d41648e04024;0x967ba89ce34f1;0x5d3146b5bde55;0x7146a5416cd8f;0x251eccf400f7b;0xa7c31c2f0d3c5;0x32083f04f28ed;0x6c81706b14138;0x5297c583d860b;0xfb44cc39e3856]]);
 ((V [0x64fde80ccd772;0xa9ddd5d06be0;0xb9f238163f788;0xbc1c0c36d0651;0x5ecb82e091533;0xd29f9f71497c7;0xf41627d006583;0xb582568703e0e;0x800269e6fbc1a;0xe5fbc1d3efa] [0xfb6d553bfd8a7;0xc1e87e36cc2f5;0xb9c2cc7cc6f90;0xbfdc3023e7981;0x2d63bdcf0feda;0x1807792622c37;0x5009176b361d8;0xbf3e3002e47c;0xaf9d87c6452b9;0x8303f72ee15]),[[0xcae1b799fa263;0xc94739d1872a1;0xb1ec78884bad9;0x3700bff1934c8;0x8422f2430c279;0x85ac33c34a920;0x66fd29bcd8d10;0xbf11f5c38d921;0xb6ce9df35b163;0xa0fdd781484];[0x236f4b6ac2be6;0xd82d2008c540e;0x265c49ab5e29b;0x1a923d372cf98;0xb3a9800356ba5;0xce22228b9cc89;0x444d06f098d4c;0x8e59f84ac85d4;0x9c4babcb30042;0x5dfb90a2d20];[0x0;0xb700ea793e1ad;0x3151be96585e8;0x499d46b00ed7b;0xa543753e7773;0x66cf720b43a43;0xdee4a50741b32;0x4511864c956ff;0xcec0afc6680f;0x7d32bbed1062;0x4b274edd27];[0x0;0xb6fdfd39aaf58;0x76424a1f34822;0x1e79f865df6fc;0xb1203f71140ce;0x25c396669936e;0x97b9bdf32135b;0x62ca2feb24c36;0x29d707299bf9;0x896251c493419;0x5d8ac1b7222];[0x0;0xe8bb684cd3dff;0x9670aaa044efb;0x8abc7ecd89cd3;0xfccb3af24de9f;0xd9124ff05bba9;0x8f8420d9c7139;0xb87da9273aa34;0xfefd95665c584;0x195f23ea569f8;0x653e4915455];[0x0;0xb9f2409c051c0;0xe19e17fa15129;0xa2328e207c13;0x67fbea39b9788;0x919c28688eaf3;0x88e2b6ac2cbf1;0x1b11285939f68;0xcf6f0997d7b99;0x8b4e08f2655b9;0xa12402924c32d]]);
 ((V [0x3eef58b183331;0xd7fe8f62a8c;0xe99f0c85a260c;0x862471127ab86;0x3c33b0f144066;0xae33ace2a00a8;0x4e8f904880e9b;0x928ca1bfd8b26;0x9412b21b73915;0xdadaaa80026] [0xc343a8d25e710;0x857ca3246f33d;0x540e7cc22e750;0xa0e3f05b2b483;0x45d7d14fdbed1;0xee672e470509e;0xef46054e70f0c;0xe01066ad76b06;0x790108df5f49;0x4207c123ede]),[[0xa74bb1fc30082;0x4093ac9a8f299;0xee71ea399018d;0x5954e228fefb4;0xb2146b8d02c28;0xb9f60dec24577;0x2ded50810e901;0xb5f3d31543e54;0x6d209864a191e;0x8a1efd24258];[0x5da2c210f28ea;0x575ed05051258;0x396bb6cf7c422;0xf1b390750842;0x32b1ea58a94d8;0xa34046b352697;0xe915c183f192;0x9be7332b2d83f;0xb35d42cf91083;0x63bccb440d7];[0x0;0x1bf5e86ff9356;0x8e1327bbb4b94;0x6b043121fb6d1;0x9663dc835d400;0x3db518cd5e6a3;0x2d3124b6ece87;0xb0ee0880d5efc;0x99700fcd2235c;0xbc285a2b42eb8;0xce9c605ad31];[0x0;0xdf7e1ebad2e16;0xab24386153bf8;0x9f77fc8c02ce2;0x4caedfdd1e2d7;0x69b8ed8edad0b;0xacbedd807e74a;0xa0ae2b6353156;0x99568413c3efa;0xc39e3bbc1fcb5;0x8d5ffe87500];[0x0;0x151f8da56ac99;0x46043c4e11efb;0x9cf7278818e51;0xcd6abe5baf691;0x3b74af74706b5;0xeb69d11a4c383;0xb2c898693f6b;0x88f8ea80f7974;0xe9d528d958246;0x4a856cab473];[0x0;0x39d4a5efe4adf;0xb2e7e9330f851;0x6a57de44df0b9;0xf0391c3000196;0xe0eabe7a6e3fd;0xcaa939ca3970d;0x43684cdee75b2;0xab344b8f8f90;0x959f509042796;0x8aaf1d50beec6]]);
 ((V [0x89810977ff682;0xca3a5f83aafb4;0x10fa1f668ccd6;0x4dc90056b5d64;0x2776af165a710;0xbebc1d85036b8;0x6907f754be574;0x8f41bf6b89483;0xf8956134ccc00;0x3bd4d6698f2] [0x7e5a148da9ef4;0x3a62176ba0165;0x326d854e99842;0x85ef08b37661b;0x8b377de10a140;0x80bab0d520154;0xf08b452470219;0x59eb427a694b6;0x556044e6ca8db;0x62e495c5e11]),[[0x72c6b80f15f12;0x183abc6b02b1b;0x695ac5c1fcda5;0x5a590a305ba3e;0xefae971f9e20d;0xc31c77c79daee;0xfb02621bd21a6;0x1ad1e28ea370c;0xa1ad3926252a8;0x54fd438c9ac];[0x45b8523947667;0x49c17cfcaad28;0xd8de3401ad8a0;0xc3cd2994316ed;0x7b0240d17b5e7;0xdf86bc2c10f00;0xea5c0eaee853f;0x81f675992779a;0xca16fcb10f2a6;0x39095d4342e];[0x0;0x36451d156e736;0x6de9929abab14;0xb8a5c610e688d;0xa94ba060640e3;0xe10cb23a1e01b;0x92516ac0f63b3;0xabed2ccd96226;0x37de4ac81838b;0xda176a6b5bd7a;0xbb192528d7a];[0x0;0x517d3cdc90481;0xbb1c31138f5a2;0xec851e06714b6;0xfe7dc4ce18ea6;0x159b76c8e99a5;0x4872f06fcf9c5;0xbb1694969b570;0xeabf7abd7821b;0xd215a4525ba11;0x2bd7bcebec8];[0x0;0x83c8800b17ca0;0xdbf3047c8f226;0x60e5483c416d7;0x627bfba1bd09f;0x7aea2f58914cf;0xeae49d77e7711;0x53d0b05065720;0x297e1ca1e7791;0x17b5352efba72;0x1c372ee2db5];[0x0;0x123765f3b4f78;0xa3b2545fb7c82;0xd80d5613cec63;0x738618e130070;0xe85168428be38;0x387555231f033;0x1b90e3004953b;0xb30f581863bea;0xca80a88fa91e3;0x55870c0c773ab]]);
 ((V [0x3f632b3c77e7d;0x9f64568bfe43f;0xb4217a615fe39;0xa8f43dbabe3c9;0x5f81d2c5a3917;0x45c5c21fd1487;0xfae72b2ec3b87;0xa99af2425ee2a;0xa13d2dfb816aa;0x6cfa34cbbb4] [0x36ca4b1c08bad;0x59f307be0f99d;0x9defacb47ae38;0xa4ec7c5a62a73;0xbaf236a2408e5;0x6fd018e10c48c;0xd25e88d95c65b;0x25b441d0e934a;0xbe997a9211e33;0x49155f20b52]),[[0x67e1a193d07c7;0x854797679cd21;0x8694fa3cc6177;0xbe81161c3ee8e;0x7a01a146dff53;0x57bd943a845d3;0xbc2a7f841074b;0x35dbed83c37bc;0x6f3f073940bf9;0xfbfd91e3529];[0x6449f24c69f4;0x8339697b9da6d;0xc4148609ecb03;0xd88434de224d;0xb9a3e0fad808c;0x24091cf9e9c63;0xe591f42deb141;0x8ef3de32fb579;0xb48ec9244ef7;0xdfb5de86b1f];[0x0;0xc508872500f70;0x28dccd232db77;0x42fc994538f77;0xa3897267e698d;0x4ac50bbf99a06;0xcc73e50ead7ed;0xd81369c034fd6;0x3dddfaccbeffa;0x9b6f36226125c;0xdfbcbc87a6];[0x0;0x60d40f0cc4688;0xd9571d382f98e;0xd4642476023e2;0x371643c8433fc;0x68b6718bc201a;0x89e3b81128309;0x69396a0c71938;0x4ca2518b624b3;0x99109cfe32eeb;0xc2b02638a35];[0x0;0xb74d7e2722550;0x85afc6444b9ad;0x859c6e44129de;0xbd140caf41287;0x3ec543017bc9b;0x4d7283b2e4ef1;0x9265e81c862b4;0xd893e9da25e78;0x88e223e98cebd;0xf80b373d726];[0x0;0x82f98bcc5d075;0xee50cc184b73;0x8538036d3eb6a;0x55422df76fac1;0xe528cf0cdd673;0x1effc01ee091a;0xf5717975834f0;0xb12a8ea8a32fa;0x40963486d1762;0xfcc92f23bb92d]]);
 ((V [0x30d3fb330bd5a;0x96b9989644f76;0xee6e5274a2677;0x8b35891c6e97c;0xac3ba9c5a6a79;0xb81058e41dfe1;0x401f71e305a91;0x46c416126024c;0xe16701a835b84;0x522ac68b392] [0x9231ed229e087;0x78786d585ce43;0x771b713a2325c;0xcdeea4c85b53d;0x5d195b4645fbe;0x5803bd83b335;0xdddd88b9c463a;0xeac9b7184a359;0x2edad9c76bf29;0x2c9a613525d]),[[0xaca6e8feca2c2;0x2b0bfbc85df37;0x8da5a8f8e2c3c;0xb10077a481022;0x86ca8f71265f9;0x9097012a46855;0xe1fd9cade9699;0x5eb2ba642d923;0x88e3ce860567a;0x95cb1f20852];[0xd0ca00a13351c;0x380480f34f993;0x2f7e342968e07;0x6e56a59ccf5ed;0xa00576591b4ad;0x24eb70c1a915a;0xb2b5648f4c8bc;0xb47347123f474;0x8a207c10d2ea1;0x7718846685b];[0x0;0xef99e925ff0ab;0x8e1f8dcb5c946;0x4a49416e66156;0x62086f010ea80;0x27aa35734ba84;0xc2a50a1e2ad2;0xf53165b587229;0x65e0890ca72ee;0x3b3a14d2eb063;0x2e6411170ed];[0x0;0x446417e865e04;0x573484886f74;0xaf8b33e200666;0xcd9c8c3daf13b;0xd460e8e8c06e1;0x9f1cb222cd009;0x8cdfd0de2ba85;0xd0b66e14128ca;0xd825921a6c522;0x5586da66af2];[0x0;0x7c40a0f3e59d0;0xd31d3341c9100;0xc697743fc5a9c;0x9ed2617009024;0x48f4e5137045e;0x4b3b32c0aef55;0x7442f7ceb51da;0x10d9d631fa69b;0xd4845dcf2272d;0x57a613663c5];[0x0;0xe95a10ed043e0;0xea7e8be94ab69;0x6509f38806231;0x57f3474f0dd9f;0x43375adc7af0c;0x25b5aec52b410;0xa7f815c54cdad;0x148e3aafcced9;0x1dd3987c815e1;0x96709a40902cd]]);
 ((V [0xd451a0f6fa068;0xf092bf9ffd17c;0x5ca46e3b4574a;0x10dddae4f47e9;0x4bea7ee213ff7;0xbc4bc26baa6fb;0x8fef4fd5f1489;0xf8185f349beb3;0xd8882f35c46d8;0xd5c92ba13c1] [0x54146fb2ae039;0x626dbefca611a;0x98e132169c8cf;0xb40b732b9277c;0xdf674f42ec462;0x8352f3befb2ee;0x99df68216acfd;0xfbf7ced0f6c88;0x7a827ec12f10f;0xced19159c78]),[[0xb4dafdd763a9f;0x18334421dd919;0xba4eb927a040b;0xa812d1565b0e8;0xf9f59d489f337;0xb2bd01b58aabc;0x3387e24359842;0xbbc82bafb3c1d;0x2cf9af7c8eccf;0xbca0e2f6149];[0xab322b2d6d146;0x6ffcafbfa7aa6;0xe913b4e8ef8a9;0x10d853351a136;0xb18e593576105;0x24a3b275b61a;0x49cfaae4a09cd;0x3941de746216e;0xbbe075ec34cfd;0x913f1dcd1d9];[0x0;0xce51496d952b2;0x7870bc3145278;0x8ab45feda1b8f;0xc198daabde529;0x29e1f368d0cb9;0xff2368aba978;0x803f5546337b;0xbf025132c32a0;0xbf1a99d4c2ec4;0x1a5f6e56f04];[0x0;0xd5621afcfd04;0xc4a22793bf46f;0x81e082768698e;0xe6906d1a46a55;0x9c492762261ed;0x997bbf16efe91;0x993fb1fe9843b;0x33f381c1e200e;0xd054c0baa3b47;0x41baced5e57];[0x0;0xede5cdcd61333;0x29ec55d9db488;0x16aff80e5f51e;0xe9c6adbe81d3a;0xdd92bb7523d36;0xd84b67df82d44;0x8ff594fe94e0c;0xc394a1df8c4f3;0x8c14de000b6ed;0x8afcb275eb0];[0x0;0xd075ab4e937a1;0x9158a451cb1f;0xbeec4f93d4487;0xfed98eacb782a;0x234de3d8a4d89;0xb616eb9e6bb39;0x4aeaebc7f6d57;0x6ac8c69cb70ef;0x2506f49af887c;0xbcfc88cf1ef57]]);
 ((V [0xea544f7165c59;0xfc6b70d8c9085;0x4ee18fca9381e;0x88197d9c3a29a;0x923c56fa410b7;0xd7f6fb6f6ba17;0x2d78fc121a735;0x985da2786c02a;0x9deef0eff4cb9;0xd67e74ae7d4] [0xace22cffae4;0x202fa15c2f132;0x20c63d550e5c4;0xa70e2d8f1f29;0xc8ebc2e0a5aca;0xc8796bc50a239;0x73e52801e0722;0xcd613eb656264;0x6526ce8631433;0xaabc4d06462]),[[0x2e91f9020a225;0x44aa2d8401fb7;0xf0bb7fd87948a;0xc16f15f7d8d53;0x48b2fd3a31417;0x531e92e0f4890;0x4f6d4e34b75e4;0xea70d137c22f5;0x3ad9e8ad09b7f;0xc8c43fcae99];[0xefb8cd4033e7b;0x27a0f0a720641;0x4820e529a984b;0x2a6f4f156226d;0x6d556318a658e;0x4ffbe51adcf0;0x63cb596a1e857;0x45bf6ad95ac1b;0xbca0f95a403eb;0x8cce2c9ed71];[0x0;0x29bb30b503a13;0xc661340dc1753;0x4d4338e827698;0x72c2fbd12461c;0x36257e99c88f4;0x96732ad824eb8;0xea3e683d002af;0xfff5ee9f28801;0x91b48ddb942a8;0xb28860afd8a];[0x0;0x4de777df6e93;0x2957e189b7d33;0x8882c0c44be4c;0x10c1bc16b6fc9;0xffa4b2c04b8c2;0x4c9726d037c58;0xbd8d3131889c6;0xdac54453deb90;0x928254895f3c0;0x144648b15dae];[0x0;0xb9dd8616aa250;0x4a242023ecbf0;0x503c7e1226c0e;0xf09cde2e4a2a6;0x3000970b3adff;0x517376a16dd1a;0xb9a1fba3b434d;0x2a706f580267e;0x1e935b54ab027;0x9d733a1ecb9];[0x0;0x2c0ca10375da7;0xc0704c554d9d;0x27570c11ebb64;0x2e5ed4802663b;0xdf48542d4baa1;0xcd22bc8f71200;0x134b3cf158073;0x9e45850a01d2b;0x573226f3daa75;0xc98c75dea9078]]);
 ((V [0x79bf27a4d9a2b;0xa82d2e0b6101;0x8dba3e24f3dd7;0x6d50a99b7a692;0xa68d54a1532ac;0x7fb694f732b1a;0xa5d1e6dc52ad6;0x1062547608e0a;0x635264d84e33d;0xab7ef496a57] [0xe1ff3958ed17c;0xf7c772a4f3acd;0xc495a23528685;0xdfd8096096504;0x3b2fbdfc22a57;0x472e36d8abbe2;0x86f0ff93ac090;0x528c516282478;0x81436279336a7;0x84d5e0daa95]),[[0x192811f360664;0xcd52f58eb7480;0xc01a6cd94a464;0x5773f7a4dfc44;0xde44deccb8fd3;0x6f40d584a0b46;0x67ca04df0cfa8;0x8ccb93013475e;0x3033f91233a59;0xb975cf2382b];[0x47d4702dfb629;0xfb005977f2dec;0xfd19281869823;0x19916000761dd;0xdf2183d0ca76f;0x947468f0acbd7;0x51c40c6fd90bd;0x260bf7ff0438a;0xf39da903a08ec;0x89167a859eb];[0x0;0xc513added38f8;0xc21a14210ac1a;0x9d1adf11ef470;0x9d94895f70cb;0xed318ca857b42;0x86f8dc60a4c69;0x494bde03b8c2;0xed2261f408ed2;0x96de8a02a832b;0xb3b7a98aca6];[0x0;0xaeffafe361317;0xf6ad59a8779d8;0xe061467e5d8f1;0xe23de7fd1b856;0xfb3b510bfad10;0x585dc27afb504;0x685874cbbb33c;0x59e0caeac5106;0x2bd35314ba7f7;0xf7614bbd5b8];[0x0;0x8370296f13635;0x6c4c36b169fc4;0x7d3f6acbe2fa1;0x57d53fce14732;0x97ff8197e1fb4;0xe013da1d63d8d;0x45f22790ab69b;0x85aefe6ff589e;0x6a49d56cd911b;0x865b7b9850f];[0x0;0x7a4e4869c1c0c;0xa9ada656f1b11;0xe8b78eecfde0;0xeb0b8e53f1822;0x75bcf8f65771e;0xe1d4cad12b697;0xa97cbc28fc7cc;0x2f4947e352670;0x97744612fd6de;0xba4e6b5fc78b0]]);
 ((V [0xcacf06c535729;0x2fbdd99207a65;0xa3c5caec618e4;0x8755f27e1b4e4;0xb7cea2db360e6;0xddce7a87b1f75;0x8e2cfc579a2d;0xe54ab5d68954d;0xd6d712d6fa4dc;0xe2560157532] [0x901646654a76c;0xc36b2769f7210;0x1cc8c2f8e9b2d;0x460f0d1e110f9;0x82dc59307e580;0x2a9967c16881f;0x1c26496748574;0xab977f5d08b1;0x54e4c9ed623d4;0xe7b6a61c29d]),[[0xace71a6ba41ca;0x3787484c8d93d;0xd4c2990fdf63a;0x2d6207d94bfe5;0x8743b17c08099;0x5cc9471381311;0x164d45075ca14;0xc2dcf1af48af1;0x48ddd74e4434f;0x6b934bbe2b2];[0x5f416120032e;0x62f2f238757fe;0xa74dd374ef4d7;0xdafa00edc9a46;0x26ec2d1ce45b9;0x547af8c4159f4;0x4b222bb7d4749;0x9602469bd50de;0x4084c6b71f81f;0x4afc6f5e224];[0x0;0x24570e13fb9d;0x28be53064ee0;0xd656cc512ee6c;0xf16e8770abfaf;0xfbce24177ebfe;0x477cd0ebafed5;0xc1c3b4ee3dc46;0xd72bd5adccb6a;0x64f6d240cba23;0x72e2d9b6ef0];[0x0;0xf5083b4951c8e;0x8b2b878db8528;0x98558df3ccd6e;0xbf4bdee20a33c;0x29102808d2f9;0x426466ac22f85;0xc0a01c3bf1f0d;0x55748ccad0215;0xdc8c394854490;0x6fa3a631b0a];[0x0;0x4c726182e1cf3;0x8b08686ea7fd0;0xd0cc6c98650de;0x81d344d66fa60;0x237cb0c236e9a;0xf2b1b230b60ef;0xa99ab1fca2873;0xd6ee637eff2a0;0xf151d88b2b281;0x2d3476110ad];[0x0;0xd954e5f60cdbe;0x77baaa5188d29;0x28f6fd1bf2ba2;0xcf06957de9737;0xdbc95577eaced;0x1c2d00392cea5;0x5d2199d9cd986;0x44008f7858e07;0xd38ea141b7b35;0x6be7d399deb6d]]);
 ((V [0x221db16306bfd;0xe3f56ceded11f;0x47cb8c86d7e47;0xe659942a7c872;0x9b90e3a6582e7;0x8d9d6fd8e4370;0xf16b748358813;0x2e7d88ede0265;0x8f188d9766263;0x7a43e9af366] [0x8fab739274004;0xd6b69996fb6bf;0x31c0835fdbd5b;0x53c9c516fd6e7;0x8eeaefc2ba871;0x6a2c0c88fae14;0xbf677b1608cf5;0xdd491145ff604;0x25a5135888ac9;0xec972bd7019]),[[0xc7ec4a1967a2b;0xff8df8867889e;0xe1eb28a6a4195;0x9925a3ee70363;0xefd928310317d;0xcbca71df6c517;0xa36752cde36fb;0x6ce4fca168f9;0x49257ef9e05ad;0x46b41aa939a];[0xd5f6bdbdb00c3;0x559e05f384c46;0xe3e5f50532e0a;0x641fcaa16c085;0xe8e567d59cc9b;0x7d092fe9cced3;0xecaa8af8f91cb;0xa7d09d960bcd;0x3642a797c6bf9;0xa1dd8cce9f3];[0x0;0xb25bb9a5d5c2;0x31d4b50e2f3bb;0xab344c30236bc;0x870dc0222881b;0x45276e7d12819;0x7ae2c45893d17;0xf3247d7ffb255;0x9677b010ce2c6;0x9e4315b056867;0xc81bf743158];[0x0;0x57c1f6bbddbed;0xacb5437be8f15;0x97e5d7ff1cb46;0x4b7819f520fad;0xe0099a3ad0a46;0x1e4db4138a2fb;0x9941646037b36;0xb7cbef814d3d1;0x9c55f763e2111;0x7ffdebf46fb];[0x0;0xe8d08727b57c6;0x71d35cd55a76;0x746c23782dc87;0xae76f01806afc;0xac9e88dd8b54e;0x932d5ef25352b;0x70dda356aef6e;0xfdcd61aec02e;0x5df0878b12910;0x1386fd4a0c4];[0x0;0xbc350d09b1c97;0xa825f2663e816;0x3f0842da5bcfb;0x1d5ab50cd739;0x5f2a5271cd37;0x531d4c16b2a39;0x519a33ef2bc55;0xca06a4551b019;0x7d90cd678499;0x47178cedea1a1]]);
 ((V [0x9199ef4727ed5;0xf12cc0f24e44c;0xd6f5de4250a67;0x252892e783304;0xb662abdf9d833;0x3dc20364253cc;0xfc1d8c3704bea;0xe23a8d2b5ad3c;0x1446419691da4;0xc0941bd5d4b] [0x869e74a3fee3d;0x7b08c5083acf3;0x90bb5e534b9f8;0xf31a77ee9aa9d;0x43beb71b58589;0x6c55ca2653992;0xb9de22ee2f587;0x63ac1a492ecfe;0x25dfd2b098a5c;0xc2f1ee1b66e]),[[0x5f18f3416e2e2;0x47f2536d6be52;0x6886a709faf17;0x7471573b9543b;0x4231b0faf8fb6;0x4e53a3acd6fe9;0xaa0a9f4e61aa8;0xebe45f24ab99d;0x88eab9bc53174;0xc6f2c019c40];[0x6bdd8b4077263;0x5ef3bfc7a9c17;0x4f5e9509f4aa0;0x451fe94a4ba9c;0x8e7ce185f2aef;0x9d0b73a5fe2b6;0xeaa5e9ff1bcd7;0x4e55a5c934de5;0x3bee6194e5211;0x480f3c546d];[0x0;0x3291eb602852a;0xac444227f28d8;0x591a5c475f765;0xe3fcaf3672e57;0x236c1bd7cdbe7;0x485b3c8807369;0xa2e15398d7599;0xb5fe9ebcecfe0;0x2ea1b539c6f9b;0x3a64ccbf26e];[0x0;0x44d0a4df4c8c5;0xa7a85ef6bc2ed;0x9963489e1634;0xf845648f3041d;0x539f31c344b8c;0x1a0c0f058f3f4;0x4c1397cf8e48;0x322bced62083a;0xdbb0b14c2b696;0x16fba88b1da8];[0x0;0xadb23d3b305a3;0x31d03194cf32e;0xcbf6bb3765640;0xad11ad71d89e2;0x1ce3017a657d9;0x15f8d3ff52c31;0xd457d7f836951;0x9568cd8397b29;0xa8583e731eb3e;0x9a9c67579c1];[0x0;0x8f50889c2d95b;0x60b6ae7f6c0de;0xcc0ad6f7bb1b2;0x5b55423e3495c;0x6028c039babf7;0x98cabbb513918;0xa91ecded12023;0xf3a0ff8bdd5cb;0xd410679f9c3;0xc7830e26814c6]]);
 ((V [0x1686cf4ad6791;0x1919ced4b719e;0x7f4a0bb2cc553;0xd3264fe786cc3;0x7bead09d85834;0xe9eca94775b53;0xf64e0dd8e81f4;0xbc4ec532967df;0xa05085d695fac;0xd7dab131042] [0x2bc599f1d5ff8;0x26104fe190c77;0xa230b63d69eea;0xd648af71c6999;0x78c02d74af134;0xb9f30eed2428c;0xdf7f78a13b686;0x7cc67b9c24442;0xda16c81c22bc6;0x319eae7f1f7]),[[0xcd94cc54d6f7e;0xb77f970c3826a;0x9ac79bfe8ee7b;0x68163ab50357e;0xb24607298d59d;0x2c2617d3f1896;0xa4d37a261702a;0xc1650ff731b97;0x383fcfc194b6;0xe7985990ffc];[0x1ed6b3b9dd46b;0xc60c374604c2f;0xa3b0a7703d259;0x61f1da7842de7;0xa9ec290bc15ac;0x309de120b873c;0x1319298a7983e;0xd1643c80e4d7b;0x92a89764cd04c;0x2445464c80c];[0x0;0x6ec57f70008c2;0xeba879faad0a1;0xc20b59ac89c65;0x41277ce28b144;0xbebc35f63cf92;0x31181be4c77d6;0xe933591eae3a7;0x7df014a4daab0;0xea1063dfa0df5;0x90de7f70f14];[0x0;0x4e3389f4184c1;0x46172a57fb0e6;0xb6b2cd8029b3d;0x360067fbc9fb3;0x81586b3079fed;0xb5cb518642d77;0x2d39162f6e0af;0x821995e93ac32;0x457b66c0ca366;0x160b8a369417];[0x0;0xff41752a450ef;0xbaf8455baecea;0x41c61fd2279ba;0x502ea5da97a6b;0x46e1e29e2610d;0x95451b2e50b69;0x27a6b1559cac4;0x492fae54aa6ed;0x2bdba539236e4;0xd1844c4e291];[0x0;0x3fe140a4c5e23;0x10cfb1194962d;0xc683419cb2fcc;0x56b694df93ba1;0xc5f33f31a6e43;0x9d581436cb8c0;0xb080597d70705;0x8fe1191f64691;0xcd2ea30f0f4e9;0xe86ae35fbe111]]);
 ((V [0x85f5cb2391fda;0xc7989730a3e0c;0x4e6c64693ffad;0x8ca0a7c25ad3f;0x8b3d6f3660a76;0xd7fb4a7af3b47;0x121c139c1ad58;0x8383fbcdeaed;0x825a3e98d4ea1;0x811e16a9a6e] [0x6dc5b076fe7ef;0xd5c0f5f21614;0x1aca6aa910279;0x5aa351809b070;0x13d984265f66b;0x497e225d0251f;0xd66509a4424e9;0x362d0936f7e89;0x3d7336493212d;0xa84b95b1b59]),[[0x66aa8696abaca;0x207a748227bc;0xa63abe0478551;0xca7645ce9b2e5;0x28eda425fba1b;0xbae5a3276ed26;0x1cf4cc23083b9;0x17d7a8653a5b8;0xfb855be71f7e4;0xafbd845f910];[0xfe8223086dc4c;0x7b6bdcd6abb19;0x59c15bafa8445;0xb194e95dfe335;0x13385f4b4ad18;0x777d02a6dc39f;0xc177a0b03b14;0x4fbf00ca20003;0x45065b41cba4d;0xb583aebf285];[0x0;0xa91a2d3bf8183;0xbd66c2e0ee127;0x3544f918a7e95;0x31bd1b2e2ac5;0xe8d0a8d42b587;0x203909c19ae78;0x816831b5cd74a;0x78e3c764b6c01;0xe7d295242eb98;0xb6011072971];[0x0;0x4495bdf8c1988;0xcda3cb44e185b;0x99a6de2c1f3c;0xaada7de589e5b;0xbd37e104e5470;0x9472e9eb4467e;0x73313afa9b3ba;0x43b1a5e2191e7;0x6b6bf6df11d5f;0x44206a3024b];[0x0;0x1b9d2b9392458;0x7d18c10249aa9;0x8e49bebf0f023;0x3360621514d04;0xefb6c39783fbf;0x7fe3430e9839f;0xc605edbe68ad8;0x220b306c699;0x260809af11103;0x78a4a74761e];[0x0;0x3d94b63a86853;0x10405d48dc616;0xd329d5e97570a;0xbb7e2f05a7828;0x22ed7c95d3cf9;0x4683ee4fc53ca;0x76e089b0dcd6;0x36c2df9c15cc6;0x93ac5b1607f6b;0xb0a8cd07aae04]]);
 ((V [0x539e05955a79a;0x9423ca42bb0e6;0xb2f97ccd03c09;0xd21c2638a147c;0x1cf9cec24df2a;0x11e429f15b36d;0x6a3bdf76b4c09;0xf5c49872c375e;0xda3d31a8e898d;0x280e23b5095] [0x874379ac8df0f;0x8f5983785141a;0xa3035cb06a4f5;0xd3b863bb1c86e;0x37358fa89e023;0x3c666be165d37;0xbea9c9ba20301;0xa751656ca8470;0xeb455f4d1b255;0x73f32a74fbe]),[[0x9623c183c5ee2;0x86bc0e28cb08a;0x960a035c7e623;0x38aed695c218;0x342555b997563;0x10845401d01d0;0x10167b8d5409e;0xd99cd9d12ebf5;0xeffa1a9a382e2;0x49b0bfe4ec6];[0x1afbd36938e9f;0x3651615cdef55;0xdab01bb2927e4;0xb2f5122bbb0f0;0x31764c186b0f1;0xacaa62aff3bcf;0x15118dc0ab904;0xa0eec9667854;0xecc661fa799c5;0x8867de7cb80];[0x0;0x6cc09e730d4d3;0xffc4ab89879d5;0x327a02d7a7af;0xe77662bbcf904;0x2640817c5faa9;0xcf8b932d53572;0xa8f1f1379bfb3;0x2f9f77ff40300;0xaad75b596e840;0x411f56604bf];[0x0;0x391c26356bccd;0x65ec385ce88f;0x5189b9a5329ff;0x5d83acfd39525;0x98bdad7a0d85e;0x97bcde96428a;0x216fb41e2b595;0xfe911608bdbc3;0x71a90ae51efea;0x60e37f9af4c];[0x0;0xa62920ebc5e1a;0xc8e174a9ee954;0x17eb374d7c273;0xeab00f4a57405;0x265f47766bd54;0x261855d207aed;0x21f71096c6896;0x3f8d0891c3b39;0x3cbed528fec04;0x15364778f97];[0x0;0x2c38bed54bb50;0xccaf5665bd3a4;0x53f4fc2febc24;0xf4fb0cb7dacea;0xd870e1f5516c8;0xba6e84840dcc3;0x1340f0aa1833a;0x58a80fe79ff53;0x1a4b2c5570387;0x4a1413aed2af4]]);
 ((V [0x5993dbdaf3c5a;0xcfc3d80aa03e1;0x1d09811e02cdc;0xc2ef1a9b9df35;0x5e43dd9d43a98;0xccd64e299a5c9;0x68916ac588b6f;0x7b53c7ee49532;0x6569fb6930b3e;0xaba4404f933] [0x573d09c856fe0;0x8d76cbd3908c5;0x2c1d34cac5b5b;0xf3ad28908549a;0x59d54ebf61595;0x46de0b057e378;0x288185f007869;0x396c358b7d5a0;0x6f7411d90726b;0x112e6edcb8]),[[0xa7e9252401c78;0x724439db21cd8;0xcc08ab9471c94;0xbf955a87401f;0x16b6fcd9a0034;0xaf1a5a62401b2;0x8aeaaa9360cd8;0x3ff2b9a1aefa9;0xaee853ec7a199;0x525e6afe2c7];[0xa777c70585a33;0x9052f4330fa18;0xc0849f03c11;0xa63cff0b98ff1;0x453d49b2ebd0b;0xd029784007341;0xf178acf6ff6cf;0xa20f8ce2e4e2d;0x48fbff715198e;0x986905a9013];[0x0;0x526348bc21207;0xe2731476f58be;0x988e833bc0497;0xeb85283676483;0xe0f565a022158;0x6eaa6f63ae53d;0xa8b11b696e0b5;0x379578380ca05;0x54a05bcf08c1f;0x6446bf07fb];[0x0;0xe4a3e19b3b4b5;0xc3e17745d6d53;0xd6eb592d364b1;0xf3e89588607d;0x3e764e3e7cacc;0xe5ca8c3a9ebee;0xeb03da1e1992f;0xb33536f05f040;0xa02069f8f980b;0x4a9d4eb1bd4];[0x0;0xfa7f605fdd5be;0xb7b6f7c2e6482;0xc683d1d38fa41;0xcaf73a6f00cf9;0x3c4c9a8c3cbd6;0xed7b7d87dfdc0;0x8d5e82ce4f5c1;0xc24a8623fd8fd;0xee4469f44238c;0x1a809f5d93d];[0x0;0x3d087231dd8df;0x49d771a94aaa9;0x121ac9ff9e2e0;0xe8d0b73c8557a;0x60ef363d843de;0x7a27c256b106e;0x2e46b635b5425;0x13aed12299cc3;0xe11761913efeb;0x528672cbe3d8d]]);
 ((V [0xd648edf0909a4;0x210c9a94a93e4;0xb731ad47eae8c;0x5cc3895ad050a;0xe3358150db514;0x56d830bbc8062;0x7e1ddfe492dc4;0xac094bd7f9d9f;0x8aabaf97189c5;0xf5746be2bdf] [0x7538271873223;0x5d06bd485ed38;0x2dd5aa773751e;0xd37ec665f9c1e;0x1b215e91b99a3;0xc912b3f673d50;0x43a8de74229b0;0x27e2d4e7e1d75;0xd1dd549d87d8e;0xd00bb620f91]),[[0x2456d43b33b08;0x5bc35149ed4d2;0xb8e00ce09bdfc;0xcef87914eff59;0xa5a429584d111;0x5c1c78e71621e;0xa12e0fcbdd56f;0x9c0da43bcdcd9;0x26f1dc3f02484;0xa37961a3f83];[0x38542f27abeaf;0xf2e8857ff3329;0x46437e21a029f;0xf249fdcb912a7;0x888d1d8c9500f;0xa2592f76ccebc;0xa03a43915c1bb;0x1b40fbd04f88a;0xa96bc6e115a72;0x77e2466e90f];[0x0;0x3e73d53742b63;0x86a84ca899a7;0x5eb6ea6fccf4e;0x42d118b3d55c3;0x8901ad875b6bd;0xcc1a2bf07a444;0xb9f9743affe20;0x298db5ec19592;0x717afb60b224c;0x7314d74cc4c];[0x0;0xf909bfa88e659;0xc9e16d78f5dfd;0xc07f37639d7fd;0xd79377863bf55;0xf1250ba836043;0x337bdd44fe36d;0x7d5d09d52541;0x668657fc69531;0xf973dafda7147;0x15f16c2d11];[0x0;0xd85f0a23882d8;0x5bfb26c013477;0xc72fdc4204057;0x47e2d046ded2a;0xace7f47b656e3;0xced2190239d16;0x67b4c23ce6927;0x270c8719e4a33;0xe84492ab6d720;0x6863cbe4404];[0x0;0xd27abd2cdd3f3;0x4e90b2b721551;0xc2133781bd53e;0xf35675823cbd1;0xa14f07840c488;0x1db55df4e77b6;0xab3874f6d9358;0x7f967afb760e4;0x9e4a9cfe1582e;0xa3edb87a51b63]]);
 ((V [0x3fa0cb4e9a39b;0x99bb2e5c7dd34;0xcbc9849b8344e;0x9a3edab08e0a7;0xda2add7f6c2e5;0xb9e01235aa0f8;0x159b27cdeb4c0;0xb4abeecb707b2;0xee16c9359ab33;0x9184907bce9] [0x84356dce72a57;0xb2d132df1a239;0xa5863feae4bab;0x610019382314;0x9ab54b41d1451;0x4681745af3056;0x2d2e985442904;0xf9d7b3ff31206;0x50baff4d9302;0xaacab06c8b7]),[[0x27991acaeafb2;0x3c8827e036e1d;0xf9290d5d1f78b;0x8b30f333d7ed8;0x20236e01ca78;0x6f6b1b79aaeed;0x395ce21d4889f;0x45939d61bfc8b;0x6653862209286;0x9cea5bfbded];[0x12fef2c36acb3;0x5b1f58b105323;0xd79859733fa3f;0x46b1eb1ca6476;0xabf1a372deaa5;0xe47a4bf613d3d;0x569326ef8a4a3;0xacbaf06e6527a;0x27256dbb3e172;0x7810abf45b8];[0x0;0xdda096520fcbb;0x83ad624b85cde;0x4fbd1f120e2a4;0x3ee33f2a55004;0x600ec58c72f88;0x965becd057ddf;0xe47f4987d660c;0xdc81ffaeabcde;0x173c671a43ce1;0xeb580b71f29];[0x0;0xab64f5c0f86b9;0x973ecf9fccb91;0xd38ddcc402c78;0x2cf60eedcc254;0xe2634b7a7c2ce;0x99942eb86c686;0x183b0accfbc28;0xa34802c5d6758;0x643543fbb9379;0xff0b30e2d88];[0x0;0xd1b9086f40c17;0xbb38a24ae8ac4;0x3b51528d0d851;0xe1bb70903f76b;0x4ea1801a5b647;0x37ff8e6932b08;0xb86f9d747791d;0x42c7f8dcda6ca;0x5b388e904338e;0x602e76a7411];[0x0;0xb36959305eaa;0xdd78db9a71de9;0x89733f81714d7;0x8fd0829149d8;0x5676f0bb73758;0x2274839ed6c78;0xa6fa4c9cf653a;0xe9563a95fc728;0x483a2321c4a25;0x9dc487feb4915]]);
 ((V [0x2aa89466fd199;0x4594c49588a5f;0x67f10e8a2a02d;0x156ad7816f40c;0x2129891772102;0x2b3807775a2e7;0xe86d270be075f;0x8280dc1b54114;0xa8e4bf4d07e33;0x803108bd599] [0xdb193c35f2f27;0x6cb3a68ed5450;0xe7c94dbad9233;0xa4a51d1ab9a16;0x76856719c1c30;0xa0f1f1263c4f7;0xb86270062cce1;0xe3dbc9d6b20d8;0x8c49e2aa1942;0x2f76a254344]),[[0xcd990afce73db;0xb4faad3612511;0xb2d278b22a50;0x148f858cf549e;0xa3fd215c1b40c;0xffffc3286fd83;0xf0fff64f0958d;0x1e5a8ae583620;0xaa1bc65de157;0x7ab00e46f27];[0xde3df0513c3bf;0x33dc38dfc084c;0x85420e607f004;0xfedb306a6f8c3;0xb4afc262bfcbb;0x93cbed24d4cb9;0x47305d054c7d0;0x61d1e9b25c14a;0x64654c866ecc7;0x24190f50f6e];[0x0;0xd1abcfaf96b16;0x137754e086434;0x6160cfca50d5a;0x494c9f57f0e3a;0x32a35a47d3c6;0x688886640d6b3;0xa91516fc4ae23;0x5e6c00089314f;0x8938867ee61e9;0x52b77051914];[0x0;0x4ef3b44fcb35f;0xb41564713c91c;0x89dd8db3040b5;0x4ee203a0106a;0xe95221aa36b1d;0x29eb8b08446d4;0x70e2debfd0105;0x76e35e02781c8;0x8abdf9f101cd0;0xa3b419e6dfc];[0x0;0xb76d246767f26;0x6c508c1d34613;0x19c6e70b62ec7;0xac5682d32b473;0x96eab1b2ce876;0x523ee7a458b5e;0x296e816339c2d;0x6d14c27e3feb8;0xc933a2d137ff1;0x3acc46af416];[0x0;0xfed943d7cd8e3;0x8478d4732b71a;0xcd481da855f9e;0x6eeae873a20bb;0xc419b09e841b;0x1eeafc8fe2893;0xa125519d1bbba;0xb425881c082d1;0xb6753d94622a7;0x7b330c0e4ed87]]);
 ((V [0x7f9aee75c105c;0x3ef6f000238cc;0x61e0def8cc093;0x7e693ee815ea9;0x9d58d8299461a;0x4dffc61d25cb7;0x5a32f08254541;0xbb2d586ba2785;0x129eed51aa163;0x6e098312987] [0x718e00cd25ff2;0x38085989ad01e;0x6af683c370af9;0x38ceb3a88f84d;0x5ebe6a33f75df;0x1e0a8ae09a7d7;0x83c502f4d7014;0xc7971a01d9557;0x7aa9646ee9d67;0x78ac153c690]),[[0xa161c319dc757;0x927e8d9967f67;0x96d236836e492;0x4547c563ad0bf;0x5d18839ca7905;0xd8e02d7df41d0;0xdc3a5eba40937;0xb2a47d4afef74;0x671f6cc0d4fbb;0x537becf0b50];[0x42560c70fcd38;0xe079e61e2820a;0x7fbef9f0f0d5d;0x23e36ecc9c73e;0x645e086952ee7;0x8487d368f403a;0x3f656b4c69661;0xc0c39edaa6a9e;0x12eb751ee0f1c;0x1a5339546b7];[0x0;0x5aeaf8913b1ff;0xe5f603196035d;0x3615515e015b7;0xe410e2afd2862;0x7bfed6946680e;0x532f8003d4a71;0x2ad83897ea71;0xa8aa3e5ea58e0;0x33d1d845be5b8;0x40311221b26];[0x0;0x777a48021e63a;0xf47f8fd120485;0x2b913f29a0ea7;0x9d2d62a6a03f;0x3de13893ba4f2;0x9ca1032e40c37;0x2822b96a1a585;0x3aff71041e65d;0x7d494a0776bf8;0x1ef4e11e93a];[0x0;0x3106d37a0fe5;0x4ea6f8051ffa7;0x26668d37f67d9;0x374ff4a9ea380;0xa55558c592938;0x568b6b0603e4a;0x1de6c111c9a0d;0xff04160cf6d9b;0xcd22f59af8ac5;0x1b3997a19ff];[0x0;0xfb97d4d5a41a5;0xb3cf54a885841;0x743c7ca85ab13;0x369339ba7fdf1;0x50d9d865285e8;0xb78b2a4ea57f5;0x900805dd6867d;0xa0b5551608a8e;0xc3db51bd3b64;0x53d55477c6d24]]);
 ((V [0xeccc1260551b1;0xdb86014860ebb;0x3bef518bdf482;0x31485feb69c72;0xf9c338014578c;0xc3c0403c95292;0x16230b5c83e2;0xf533282aca29b;0x37308e117fb3a;0x6d8fd45d773] [0x3c1149aa97d8e;0x3c4b38ba8f1a;0xb1caf43d5ca4b;0xab9b34fdd627f;0x57124384da888;0xf1d019dc57851;0x10ce9cba63542;0xb5647bf6d7d0f;0xde4357ffea56a;0x28e0893e862]),[[0x145ec7d60896e;0xee34188d83e2a;0x1e3bda03ae3a8;0xb4488cc0b35b;0x4e250460020b5;0x69b90720a7840;0x110bfdbebffaf;0xe413fedb88876;0x5448c33264129;0xd02edfe8b38];[0x6c7529b77e4aa;0xbde559d80d543;0x53eab6998f8d5;0x2d59fae94de3f;0x71d6d21af7ca1;0xa553b3797adf2;0xa1d8fe36f2882;0x104176e3e57d1;0x2941195a99c1e;0xf4975f3e12a];[0x0;0x64bb7d8c6186a;0x7c2bf6a28ab62;0xf477c24a79c86;0x8adaa9f8fabcc;0x726b14ec0bd50;0xbcbb8fdd6cb4e;0xf39d486a46b84;0xef8f04ffd0fbd;0xc015bcd88c611;0x2f4c2cfe756];[0x0;0x9315fd903ca1a;0x7eeccee0ef69f;0xfebb65c6682e0;0x122104b7aae84;0xba9aa797ae49a;0x6963a85b1506b;0x90ce40f22d847;0x1768430fa3da5;0x6398f5dba0add;0xc443d370fa8];[0x0;0x9db667174bc4d;0x74d60d1c55761;0xd6ad278573b2c;0xa9b750bcc6c;0x77d8332c237d2;0xa336867e0fc24;0x1fd6a77f85ada;0x341af971282a3;0x4f90825cae19;0xa94c346f5f3];[0x0;0x26fb371194a4;0xbead02e35cd4a;0x7be0dd1612294;0xf7ac55ae2ab01;0x3d02e87e9817d;0x884f69415bdc8;0x819b504af1456;0xc498243d2214d;0x35f0cee9fde4e;0xd0ff71bcd7362]]);
 ((V [0xe7b3d17cc70;0x7ad9190000dd1;0x8db56a8994d9c;0xcee9dcde6a5f1;0xdc742aa418ff4;0x470c91dc508d1;0x8ae498d082234;0x2585e64b0ce84;0xfb5bb40342335;0xb77c3b40cc8] [0x4e932ced9aac6;0x522fb8fc1fd8f;0x9e27bdcf67fec;0x1b1664e581165;0x98755bd187ac6;0x7f1bac3324157;0x9dd599186996e;0x9c2849e589e2;0x4e0b85b66a149;0x4059d120b79]),[[0x7d88fc305333f;0xe7b5eff3ec9d7;0x7a5b353cfdcdc;0xe676442850a10;0x6812cf04b8f11;0x5beee2945ceee;0xf06ac77dbe8aa;0x30c0e37b5dfa;0x7c39737e68cdc;0xb810d277e5e];[0xf6a11445e6128;0x1b7b972888817;0x309ec37dfabcc;0x9d362b4359cee;0x80db6bedd8867;0xdee9bc87022cb;0x1ac8c00561438;0xd41732eaf83f8;0xffdcde319b074;0x93c91054dd6];[0x0;0x188cbe0e1eff;0x1dd8cb5b355a3;0xef3f10a5e48ab;0xc43c1137210a7;0x31ccb481ce5cf;0xfdc727294298d;0x350f2566b8b;0x6eb0a3f77e3c8;0x7eafd1d030d47;0x2ee3cba6881];[0x0;0xc0f2e890ec18;0x66f7784fc3d0a;0xa8916ea703648;0xb9aa529e0b7da;0x7059d716b4e68;0x838bd1666fa3c;0x47815476d0f87;0xee9178b6bd94f;0x8a3455e758209;0x3ac82491b40];[0x0;0xaf0c7815b84d9;0x65d0719f36ed5;0x40d9a41a4d399;0x902356b1b530d;0x2728110d5ae80;0xdf83c33655b77;0xf46c5d19c0df7;0x31aab20c84382;0x2d3799c16cb59;0x84582fa7568];[0x0;0x54dd9daf66b3c;0x84970eaf3e9a8;0x3f701551c0ab4;0x9d3bf8a04d558;0x44a11172debde;0x9170864dd11d4;0x63aa2b3e3cc51;0xf7b53dae320f3;0xe009372e6223e;0xb893bc84dd6e6]]);
 ((V [0x3c40baf3e3f48;0xa3e2264fcefb4;0x1949837de72ee;0xaf162bf322d66;0x480010cbb8388;0x4389923aaf9b6;0x29a2c2e58c8e;0xde5a57ce3879d;0x39be7de802461;0xc773334d407] [0xb134ed352e65d;0x5163b058ad223;0x142c18a24664e;0x4c5a07918e7c5;0x273028c671538;0xb2f3fd7d1b047;0x4105d5222d47;0xa6df1fa4999cd;0x6834f16e54e9c;0x2235cdd73fb]),[[0x4c54d5f6d1ea0;0xe47d006c59e2f;0xd9737b5abe21c;0x4bec2d9ecfb4d;0x2491c81b7699;0xdbf63aa44573b;0x5665290866def;0xfa5c377c9c5b2;0x519f9d6186bb3;0x3cf36a3ac85];[0x668ab3ca1b473;0x4a326b6daa61b;0x3001f4212dab5;0x94bc3f830f5c5;0xd8d16496c02be;0x7381204d751c1;0x502cd4069a195;0x72a6f18919dc2;0x23ec86a5285d7;0xe792f3a294f];[0x0;0x2099bd9fa430b;0xbd4b7f1261c6;0x7ecfb7acfa037;0xeafa065f99f10;0x53110ca9e06cc;0xedf10672fa4c;0xbf50e84855f1b;0x2ff506f17f7e5;0x28fbaec45445f;0x8382d90018f];[0x0;0xc6420c7cb485;0x775e5a742ea3a;0xef60bce5bf693;0x967ac54a69d23;0x1989f4126426f;0xc35396533c053;0x88827286237dc;0xcb6467018ffdc;0x3484aa62a4dc7;0x1ea479f248c];[0x0;0x786fd88777568;0xe658e69ef141d;0xa3c704a5c8e5c;0x463c85556dd72;0xddd31bdec7c7b;0x7b82d1e804a08;0xddb2823c1e868;0xb25b72193fe3b;0x4f122497fa43a;0xe83013e659];[0x0;0x554d2a5320bdb;0x97995b7e3d47b;0x56603a456c893;0x80bdd43b87d8;0x56cf3c0bed75c;0xa6861f8375db4;0x5f262790f4d0d;0x8738eca9dfa0;0xc0d5294a87276;0x3d2c9094d2d14]]);
 ((V [0x4658cd7f88727;0xf0617c000bf79;0xbe8bf8530c404;0xa96b1146085d6;0x57d4244970991;0x1ecd8c678b47c;0x2a64fa9117cfa;0x9708eb431e789;0x17014353eb53d;0x9a29f983283] [0x54e454d6454db;0x48ffd8b2ade35;0xacc66332bb4d3;0xb7c70c3af405a;0x504c984e79a4d;0xc917a20f6fb96;0xd62cbca2dc8b2;0x102aaf6e318a8;0x384414bb26ff7;0x6b4d7f3cf9c]),[[0x6e358b6be8228;0xe3fdfbe8fa553;0xfacbf2f647e3c;0x1f892f7a8108e;0xb8bbb173e027d;0x6223b853fe7d7;0xb28e18cd84aaa;0x9dd1457e6f54d;0x108bd05ce48db;0x80952d67a3f];[0x2b4f2b22c2069;0xc5f38cddd1f1e;0xcec530535fa5e;0x8c11d14e535b2;0x3285aae394447;0x39e0d3830eead;0x67a3ed32943d1;0xf841a6e1752cf;0x3aa1129f528de;0xb19dde3184f];[0x0;0x8cbbecfa7a971;0xcd673e1c4ca9f;0x1f9fe75a4b3ad;0x494055e7e41dc;0x42926371f0b04;0x4fc514a303d9a;0x7d1143b9688b9;0x1fb7ade95836b;0x3833e74214dfd;0x9b644d993be];[0x0;0x752dc070d5167;0xdd22d98ed68f9;0x2c6517d07ae4b;0xe76cf860d12d0;0x6d3d821308c0e;0x3c8004ba8fd67;0xd5fbe839f646c;0x46128008ca6df;0xed22ec426dff;0x225dac9b79c];[0x0;0xb8cdb3e7baf2f;0x14574b6ff6f5d;0x355d7d1947628;0xa5e43a44ee416;0x2068e4024e7ad;0x1fd167d20f588;0x88b49fcbf9fbc;0xc8a8cc6935157;0x378e943db5b33;0x4095845586a];[0x0;0xe3f597216beb8;0xfe454ac51fe8f;0xb3bddac3b72ef;0xc26f1f8b6d719;0xd08b1ba1fdbe5;0x6ebc1d7c14083;0x17b11f0990ac;0xc2e311f93813a;0xa040a5dd51524;0x812c819597785]]);
 ((V [0xc580eca09549b;0x9f8c55af5f6ca;0x5d4fe263727e1;0x65e97c3476ec6;0x3a61b5782efbf;0x16b08cb6fdec5;0xaa005f3d0d004;0x1a3ef459904df;0x4da405152940b;0x1093eaa5ab] [0x9138a550b7583;0xd92ae5de1fca5;0x2ab9e52d343c;0x6e90fa403fc55;0x439127eb86523;0x3e73ae4869522;0xcc612619d013c;0xbe9c78e1982e0;0x68e6236c21ecd;0xb91750b31c]),[[0x64d6dea48c5fb;0x6f39d87c97401;0x2a5267f781d9c;0x4d1443d675363;0xa6ebd1b454611;0x3267b826724b6;0xde0271422927;0xcc54d6d45eab5;0x7466d0b65a98f;0x6a1ee1d9cd1];[0x84d880965fecb;0xdf25576ff4636;0x14f188775ec83;0xb82ab717907ca;0x5d10b5dafe595;0x86944ca388d0d;0x3e937c80f2f2f;0xd42d400b418a6;0x57bac74d08627;0xd93762ddf99];[0x0;0x8631f4ee945aa;0x9f08e1ff23c90;0x26e6bbbe8fcb6;0x53fdf87ff5ef2;0xb0ca596c1e6be;0xe3318e715fc99;0x22508f05fa070;0xba21393e52e0;0xec2108b7800f9;0x5cd68713ab8];[0x0;0xe35012378e04b;0x547dccd00bd8d;0x863a915ae572a;0x7883211dc1ee;0x28b10b3be5360;0x85466abdffd1c;0xf0c0f932fb068;0x49d8203214a6e;0x8f8807e0817fd;0x58f610dd201];[0x0;0x5a9cfc474d550;0x5ebe67c5116da;0xba385b44118db;0x7e867fb47877e;0xaaa8d7929bf4f;0x8cadf4aba5d8b;0x603277bdee0e7;0x388b0f42d4871;0x3eb970e8e380d;0x2bfd96c2142];[0x0;0x90cc2900ff0e5;0xd1f73ca86a3c9;0x4b6350c7d2416;0xe5665045c4087;0x1b4c549741fee;0x24b40ab4e4ee8;0xc119d2f1a132f;0x2e07a66b336b;0xf6e2cfd6d38bf;0x6ac87ac1f29a7]]);
 ((V [0x1a3821b30fafd;0xe2b29a456b98c;0x4c11d1cdd3e3b;0xb63d7318576a9;0xb7ac5eb428661;0x87b3b27cd5ac8;0x1caa8d690ef5a;0x3dc2b5baf50c9;0x13201f070d80f;0x28e7110baac] [0x38c5e4115bdb5;0xf8da648af8897;0x26dfecaf5fd8e;0x4e668426b6fec;0xac102f4485d6f;0x78e805234c9c8;0x60173f3e72e6c;0xaca2d0e7c6624;0x492129a7b0730;0x9603bdb7330]),[[0x45f3f6868f3e8;0xa1acae7a2a562;0xaaae566085987;0x6591dff72a294;0x50d4e04904aa;0xe76245c35f6ff;0x5939f8da6ee1c;0x6a52374c6bf70;0xb66f8e4104e5b;0xc3c007a4f30];[0x31df458a9a921;0xd3dd2134ea97;0xd823de501e9cd;0xf607ce9ca2d23;0x993f8f1ef48b8;0xf334d4c85258b;0x3d4fd0f31f67c;0xcfb0d28b27131;0x4b83e0e615a51;0x344736b8935];[0x0;0x27622b52b8d88;0xa12f31c9f0119;0xb2b72e02c9b48;0x5967fc46bbed9;0xd3bbf0f1def2e;0xff6747e89b224;0x1336ea4a8677f;0x5e105caca0b82;0x6bfb80b350aff;0x112d2cc0];[0x0;0xe47043cd6eb6f;0x39a72857cf33e;0x20a379ecc2a2c;0xa805e6b72298e;0x3f808d9be816a;0xd6b4e85988c58;0x1dc4934b9a792;0x3e5e31d29610f;0xae5d18c172769;0x11b0f32f7b5];[0x0;0x80dca1dbd958b;0xedbdb604b7513;0x725491a806e21;0x29e1c6a889316;0x1d4824ff84ba7;0xa166d378e8f1e;0xb592afe30c7fa;0x6a0bf66208623;0xa5f8c8dc32130;0x95ae1bb0c1e];[0x0;0xe474e67b64e30;0xb766d557d61aa;0x5f0a02ee858e6;0x32e19656a7a89;0x7e8fde2d20677;0x55960f61dc38c;0xc9a84f3398d21;0x24f806765f13c;0x82af77b3fec71;0xc4654bcdc954c]]);
 ((V [0x9eda499e90f40;0x34705fc720099;0x1f54cb90d8e93;0x40d79d80cdb75;0x7853744e7e64e;0x4f07c75725597;0xda76731207646;0xd9d2478eeb3bb;0xbf07d160bc766;0xde5a8389503] [0xc4c444dfdbd82;0xcf652476d06f8;0x1fe3c0ce53bf;0x7fed005c938d6;0x244c1454e5d;0x73c510705c044;0x11a39dd655919;0x402be689d4574;0x3e4771d5bff4f;0x13680ffbdae]),[[0x3e2aa4a814e45;0x841e65e028fa2;0x647f8029b0696;0xb8e4f288db3f3;0xaeadb9ea4fefe;0xe813f667f9022;0xa538bb784d3e0;0x2bb500f13b4d6;0x5dd00f0c1cd1d;0x35ef920154f];[0x41035a5247129;0x4d095f906b6f9;0xcf78689d9ecf6;0x6b54d8b33b8b9;0xe4384bcd4696;0x8344d9288f19d;0xe9fe2744eb278;0xf8fd7a904b8d3;0x880b3347525b2;0xca65b12095c];[0x0;0x3de907496c20;0xafba8f001eb7d;0x932d4a7588989;0xb734335271002;0x3990c1829eff8;0x3d05aff49efbb;0xe65e4aac5d9a;0x593a10bb6af5c;0xd157ea1c6e57b;0x68905e3698];[0x0;0xd25f7fbd92b15;0xe1c97c6684a1c;0x1b27778eb36e2;0xcdbfe9c495c5e;0x1f6cf45b6e286;0x5a01a993910fc;0x2c29e22ba4119;0x8a8526d7c2c24;0x3350f934d97c;0x3f3652a7eb3];[0x0;0x1f1ca3750e7a9;0xfcbcc405f16d;0xeab9eb0873391;0xa08daf8449671;0x384302af394e5;0xc44b77ad0278f;0x3f02048d208b7;0x60a00fadae8cb;0xff57f41a4da93;0xb5d12a67ee];[0x0;0x43e3979a590bb;0x517a9ac11a4ed;0x80554812306ab;0x69d3fc8cab6d2;0x71f5b1e168491;0x9ff8b3b2b2252;0xb41bbb7550545;0xe244e3715514e;0xbb65997a90b93;0x35ff46de5d9b4]]);
 ((V [0xa61c0f8d13386;0x1175de0a0abbe;0xe43586949279;0xc0db5f75da1e4;0xcc902eea1fc64;0x565458435c78f;0xa1be816d0db62;0x893c1ba270760;0xa4ff0113a763d;0x2406aa1c3dc] [0x9f69b508861bd;0xf293a75e9311a;0xd425dc94b92c0;0x330062ec50820;0x4b920af68c359;0x8b01bdfc5740c;0xcb30c8d5e1f0a;0x308a35c38424;0xc1e39385c280b;0xb994f2f9d26]),[[0x8c09912c05d06;0xb54721a637a6;0x77abd13a180fe;0xb05ad1a5dd386;0xc25d9cabb083e;0x9681bfd161b98;0x557ed8b95b8f0;0x80c43f9381b14;0x6a6764c6ca041;0xa9650d56027];[0x638d60cfdd453;0x82e1c17676041;0x306a56dea1a28;0x2ad8692cfcf25;0x7b403e9a10a49;0x57f932f71e0f1;0xa1c8f008a0ba5;0x11cf5c173b632;0x3f27f9014e340;0x81b0f072f2f];[0x0;0xb420931650aeb;0xc37c4abbe334b;0x961931c622bfc;0x7e7d48e9fdf88;0x855d06c3c80c9;0x5f84e04702280;0xbf852bb9eaa65;0x2622d77b59994;0xa31025b9cdce7;0xc1211c22e74];[0x0;0x61c1021145cd;0x235a03cb242f5;0xf397d5bf027bf;0x79775699c61f9;0xc1f87e1e5a691;0x642b2cdb02563;0x2a687227991c4;0x27687e1dcd31;0x58a5550eb31fe;0x19aeb73cbfa];[0x0;0x54507c1c2bcf2;0xd2fd4fd68dbd3;0x5a160487f99fb;0x7bfb3d0a27afc;0x272b72f906c39;0xd3eb0947d236;0x83e94949ac208;0xb72d24d8b1f3;0x728d3ee5a623;0x7016937f15d];[0x0;0xe11ac0dbd6501;0xf375dca7bb3b4;0xbae8997f5355e;0x8da30225652e9;0x855c1acd16e52;0x5a7ce7b4194f3;0x400b954b79963;0x49de128b51abd;0x2fea9abdf59f7;0xaa89bd4aab1e5]]);
 ((V [0xf7bf7dc4ca356;0x55c4756f1a517;0xa88fb6b355f61;0x36cff08928901;0x87859010791ba;0x2bf9591a05d1e;0xdb7b471f0676;0x796d3be967f5a;0x97f88285682c9;0x66a95f0685b] [0xdf4133875abf3;0x9af406cfdeb1c;0xfb0748fb74237;0x627ffecf3f277;0xe477b332a8341;0x9ddffee4bba02;0x77ed218886ddf;0xd073d7193bc49;0xe6d2be0fb4589;0x5f1e0397391]),[[0xbf1333bf6ff52;0xe0ccdc2c30633;0x3b16b9b154d33;0x2d3e08b61e386;0x34f434f1ce00a;0x1e71deffd5b11;0x679dbd2bf1eef;0x871004efee918;0x2183a0b9572fb;0x3b090fd3061];[0xfb55e4efcdc34;0xe405fb344adfe;0x5c7edf1016608;0x6ef5b401b437c;0x242f2d7e6c35c;0xd6564f73ed8ac;0xa99fab489105c;0x18df74459355b;0x4536e4d7d4c5;0x73b8141f96a];[0x0;0x4995dd8308290;0xccd263b2cc4c9;0xcb7d97e430d12;0x9439bd33bb894;0x298eaa17cc6fe;0xc23513df49a3e;0x86f18415373ba;0xeb5606af255bf;0xd5125896f9d5e;0x511e0045bb];[0x0;0xeb6fe54f79ac;0xe6d6c5f92d948;0xd626e256be34d;0xdba9e3d786b73;0x7b7fc2674e1ff;0x5272c3da9c404;0xc17a5cfe03fa7;0xcb51ad885de52;0xda778009c0c1d;0x5597cb69a55];[0x0;0x6e11cb5021d0e;0x3a68166c2579;0xc9b9308c0778e;0xf8b02033de63e;0x7bcc3039eb1a0;0xa794ce1799b18;0xc98c0b1ba4387;0xc4c57798b1534;0xd2d19963b4af6;0xd9d2d9d629];[0x0;0x1e3b370ee9222;0xd251e899be26f;0xca7eac83a2960;0xe0778bd707e70;0x65f7028529e2a;0x3f83050d81832;0xf2719fada1179;0x485d7f8b018cb;0x4d98066e81c3;0x3b34bb0750471]])]
 [[0xacb6be021fe4f;0x6dac4cd07542e;0x9e2ca2b915607;0x779ea111a2bed;0x277350be93934;0xfaff5f0de09d0;0x101d920898b24;0xabe506324998b;0xa71c271fdbe47;0xe82c76ae793];[0x7cae9b677a9c6;0x2b888f36f866a;0x9147ff6d940be;0x29d9bc6102323;0x3e38f6f9b65ad;0x7997109b858eb;0x279b573963290;0xb7cdb939e6bf;0x1ffd1c45125e7;0xf2b90b790fc];[0x0;0x616908c9a67f2;0xfc361ab6c8da6;0x277e6fb2e275f;0xd8c6ac73aa89e;0xeda39608caa31;0x3c3ff5981b607;0xb5e0feb8db36c;0x602198e6f4000;0x237f5191d7fb0;0x292b67c7cc7];[0x0;0x4d134d8802ffc;0x6c9f6c459d6cc;0x51e1d9bcd72e4;0xf0019683dc3c1;0xeff95565987ad;0xc611b6ae96f5b;0x9e1e27a724c18;0xf4f760310633a;0x4e01652c043f7;0xac877104a5b];[0x0;0x95535d9e6b723;0xc4b69425fc295;0x866e532f79439;0x686cee0aac4c1;0x22567841a5a20;0xb00e01a268da8;0x104fcb5d23c53;0xbef5af070602e;0x8e8f26f2d4a65;0xd2909ed53eb];[0x0;0x66ff35086c7d8;0x254b7bb866c38;0x8d7e5187072fd;0x4ec963386b9b4;0x57bc36f4fc1a7;0x673acab5aa11;0x474713766771d;0x71065ff3fceb3;0xf52c153129ffe;0xe8e5261428087]].
Definition wit_512A_32_6 : colwit ipt wit := mk_colwit (V [0x54c7d7f2fa98d;0x7d9976bf0c5d7;0xc2cca397ab10a;0x4b2fd8764f190;0xc2a84668dbf06;0x675b15af704a3;0x1467ebb5e304c;0x47547dac718fa;0x2fc13bee9d814;0x9c8a23a9af2] [0x9d3fd94372e0;0xc323149a6daf;0xefb5cefef97c0;0x4e58e414adc8c;0x4903b1a266ddb;0x20ec243204f53;0xcbc4ca6f5bcf4;0xe2ca9757575a9;0xdb50d395c46b8;0x35460075bae])
 [[0xee81ca60889f6;0x667bf838d1ee5;0x1d33b493b7bc7;0x718fa2bfeaa31;0x1ba228e0c84c6;0xc90241e203a32;0xea235b9fd19c8;0x3555508857ba7;0xedd180b1d0f3d;0x70a38dece0f];[0x4badaee16f252;0x27e192b431d5e;0x8529fe47bb1f4;0x6e3fde5da0608;0xf170e68d9eea7;0x667015c393939;0xb1e9378993b49;0x8eb308954d122;0x181e3906355c1;0xe106b4b5d55];[0x0;0xb623d58349ce2;0x90a86ff1b1f59;0x41ec46bda6b24;0xa1749d1636362;0xafa932e385bb;0x71cbdb0508532;0xdacdebcfd305e;0x8ab81956b9966;0x20184914d0714;0x5de04d61b7b];[0x0;0x2f61e72308d6a;0x87c42bcd9fd01;0x6b8cbb4e5a1c7;0x1069b9595ee08;0x6a8804fd54512;0xff65a2dedb847;0xab6693e683573;0x6dcda0b0533e5;0x99a0f46282329;0x98817954659];[0x0;0xb7c870d349371;0x99c1da5e75c61;0xbf47fa9bddd29;0x8a4237c86ce46;0xa8cc98a847ea5;0x653a020872655;0xb5cd65ec6ad3;0x515847dc76ec;0x4510af18ab58f;0x318f84ad4f3];[0x0;0x3af6e5f30929c;0xc5a8023fe3764;0xf4dbbb6904e4c;0x235bb14e623f3;0xcc156b88d9644;0xcd0a188d07a0d;0x17133c97c03e;0x114d1f4f6ab86;0xc74dead6e28cf;0x711386b695342]]
 [[[0x7291f7b83f97;0x1f4ee781eb3ec;0xf32af56051119;0x2979604fc036e;0x600d55c37eaca;0x7859f3c2df01b;0xecd76eb946cd5;0xeb5d6e71bb214;0x759dfe0068295;0xaba651ab1ea];[0x0;0x22f209456d91b;0xaf4e501fb0c1a;0xaea696cc07a24;0x3af29a67a18c0;0xaaa8188ecb688;0xe6e6d63e6159d;0x2a689a28336a7;0xa6f94ee5595fc;0xe0abdca8a47cf;0xac52fc37a9587];[0x0;0x9044d5e9c54e2;0x7b3988961ccd5;0x6592bb1bb601e;0xbeb1f0dffdd59;0xfd740f45c1252;0xdd1a4cf035578;0x244308d438e5;0xe4569e96d324d;0xd0ee181bc9e35;0x73179d289ee];[0x0;0x58d2e0be03c3c;0x5ec17966acb24;0x476161cd49feb;0x88e0b3c6b95;0x219694aa9fb3e;0xac6ffdc87c71c;0x50ba065538021;0xd62bf48f377cf;0xd2b561f793854;0xacad5dc076ebe]];
 [[0x3d1ef6b41e7b9;0x679c96f0e8174;0xe69f0ea960b18;0xbb5cbff1b3bf7;0xc2702fdcafdca;0x858270c24919d;0xe15393d8706fa;0xbde1edb76eb6b;0x931739a3ee602;0x166eccec31b];[0x0;0x8dbaef5fb069e;0xa31f0d0325c93;0xd84dd2eccbd43;0x362f60382413;0x412f77e00f356;0xc35908184d038;0xe1d625cfb3d4a;0xc6102b8d15784;0x7fcf5aad9b6ab;0x16914f9332077];[0x0;0xa5350e7f995e;0x50420c358acb7;0x7756eed576cc7;0x642366ad079b9;0x5366c6f090443;0xcdb04b3d835da;0xd3ec5e08b2c6e;0x8938eee77e3b8;0xfd8d13bc73375;0x1f73b2d578];[0x0;0x422dfd3a20ab;0x229bf18c57224;0xcdb2b9101bba7;0x334271a0c872e;0xffbb21f1eb47f;0x4ef82b741f996;0xe0e7ae6ade7a5;0x1c6fffd8672be;0x7725517861718;0x1676186655795]];
 [[0x7b7ceac17e221;0x2d3c772ed4d4f;0x6fdaa97db93b;0x8510d3df255a9;0x6b1941c82f9cd;0x4bb9b5b3a5231;0x14cf897dbe380;0xfd55da575a746;0x19e9d23fa40cc;0x87ff2a36a6b];[0x0;0x7ef5ae810383e;0x2d3f2768fd0b3;0xd2d30f3b5009e;0xe540929b7715a;0xc5d7213e451c;0xc4a7790a2d86;0x4a083cec40d79;0xe5bcae95c74e6;0x8584d4beca4f1;0x88749ba8c1db3];[0x0;0xcf048a83bfbd2;0x635f62ec34cf9;0x285b76b9b32f9;0x3b9ab2fabe761;0x876acdd5b0f3a;0x7ae1f0de75c5b;0x761f784c499ac;0x18a27be1a94a4;0x56580c084ebef;0x483f1cdac3a];[0x0;0xfcf16a40b9f3a;0x88106c7116c98;0x100a5e011ff87;0x84a7ba2092b8c;0x954d5e5f5fda4;0x9c8177aed0549;0xc8079c31691d6;0xc736024e4f07c;0xed32e26e755dd;0x887db8a42ca10]];
 [[0x5a635c899dd1b;0x1e9d94bbb7d55;0x3e15d80d9b57d;0x106b57e0b7edd;0x5596fea7a7c76;0x1cd7b8edf7c3a;0x3937deb7fbb8b;0xf6034494b06e9;0x8ad16be4795f6;0xcc645e0afa7];[0x0;0x3b13aa039f28f;0x1055a7ac4271a;0x4fadb2ada182d;0xc2b7d2c887540;0xf8fd126c2f06f;0x28fa06f1326fd;0x2144aa785f6d4;0x9c0bb50a77436;0x7f4763e5257a6;0xcd06afcee0a58];[0x0;0xe31a97b5a2802;0x8c0b296dd58a2;0x6ac29262ff119;0x997254d2c9a74;0x8c08b873ee4ed;0x3e54530455c;0x959dc2e63b1f4;0x56bc6f051e698;0x128c9ea0e365;0xa3301d3b1a5];[0x0;0xa832241e711d3;0x9459f939ba02c;0x65401969bb84b;0xba6a201e53975;0x885ab6dc2fb9f;0x45d0dd63080ea;0xb41123e882742;0xa73635f308f85;0x2369d0e2c64f0;0xcd8131b3e9170]];
 [[0x4e741788b06e1;0x35fd7cba1af0a;0x4266acd165fd1;0x97b77e826aa32;0xe9a351adc04e0;0x32d76b5720bea;0xe8a1b8e7a9c4c;0x81171c6f0b089;0x195c7dbcb5c7e;0xe69ba648c82];[0x0;0x3c38a0c8180b7;0x67d55fe8da4b9;0x5c001f52a5c22;0x3a37211eca259;0x2f1a2f7dc4bff;0x8f67829eaa0fc;0x2d74e81a51c8a;0xed11bf9f6a734;0x35c0a9dea3bf2;0xe7ad8a417ded1];[0x0;0x724f02d1a86d2;0x6ceb6262ff9f9;0xfc93113e855f3;0xf028ef5e16062;0x48db23028a75b;0x389d63def2527;0xf363904e44a79;0xec149c7c3b06d;0x12a0b3c8d825c;0xcfbc0d6d8fc];[0x0;0xf5c20148c42e6;0x23046967eb425;0xcbbfdb041caef;0xf40ba0263db76;0x92772584662ad;0x43e231f52803a;0x4171f61421004;0xa17a7f7bef7d5;0x5979a20f0b866;0xe73efb34e99aa]];
 [[0x72a7a843e4a2f;0x462f18450fddd;0xdfd9101e99e06;0x81dc5fced0644;0x6c3240dc4ad3d;0xd654fb9ee1bc4;0xfa07812a890a1;0xd5f05d116987;0xf42603fa47ea9;0xc9bf090ace];[0x0;0x89d14a99fce2;0xb835d6ee4df38;0x4e5664a8b4ba5;0x5933350608c8c;0x3a998eea0fd21;0x41334679e84c4;0x8ae27838b1a9e;0xa577bde7b27b9;0x5adc845dafd46;0xca73ca6d04fd];[0x0;0x68e0267324090;0xe4b605d8ccb33;0x792715da16550;0xbcc3766bbcd2;0x83fa5a8bbca64;0x6aeba635c7bb0;0xf2f8751a42dd1;0x96f43536213d6;0x76df704f6017b;0x9efd8ac17];[0x0;0xf3d9827346792;0x8b586f37cc053;0xd2b3124b4ef92;0xef071b914069;0xd7d073d651c8c;0x6429f1be89f1f;0xad613de298b2a;0x40b04418adc71;0x7b37f4b2120fd;0xca901df75869]];
 [[0xbc16812323638;0x8d598f6b324a0;0x47ae8638f8524;0x4a01bdc6f620c;0x207a6ec7e1b28;0xc54e650fca202;0xed5de0341b869;0x1b35261133024;0x73244b0e33c87;0x21d7c845119];[0x0;0x4e570bedf555b;0x8481c35a32155;0x90465173f5396;0x7a4205f9f2de7;0x938c587e67ea;0xcba078154d7bf;0xe64ed577d0453;0xc128140864a2e;0x84a24beb448bf;0x21f755a36d5e2];[0x0;0x33b0792d17d15;0x6eb3a876f01d9;0x1af671e8220b6;0xbf829d6f2302a;0xe4d0a1af597e2;0xb3f6d173270d0;0xe433c62c781e2;0x5f6ae410a5c0f;0x8850ae03d8eae;0x4795783cf3];[0x0;0xef5a5dcf68254;0x3f33f10dfdcd2;0xdd1cfb0d656df;0x3ba59f4f9ee0b;0x5b345430fcbca;0xef45bc792490b;0x5a61e39cfe908;0x36d412e1d1ca5;0xea8a2e0d30dfe;0x220098fe85a30]];
 [[0x90050d450da36;0x736d5b9a0d573;0x6e6a19f2d1486;0x968c44064705d;0x22cc5cfd1bc40;0xd6ad480cd06ba;0x15aaea877026e;0xe0ad1532a178d;0x2a187981633e5;0x3e1d2c6a28f];[0x0;0x9c8a6a2f3cd53;0x62bfd3618ae9f;0x4cb9986ebc929;0x20512ffff94c7;0xaabc3425b0d12;0x138cab9eaf6ff;0x1e069fa6572c7;0xb66d14dcc72e9;0x73f4278851c6;0x3e63e1523b454];[0x0;0x5ce2e9937f8a8;0xf41bced9ec1bf;0x89af966a05f0c;0xbb5975e0cc1f1;0x421142a86bcf7;0x2ce21e8fcd1bb;0xead1d64582791;0xd8f10c64862d2;0x7774f9d644f2c;0xf1224d6839];[0x0;0x4a44c12273b4d;0x9cf034936e572;0x6e2aaf275076;0xab86dda94adbb;0xc2f498e93e4a1;0xf0a089406898c;0x5a482fb84fc50;0xaf6fe2da7255e;0xf9670ada0505f;0x3e5098028f731]];
 [[0xb809155a87b91;0x734ca9bed702f;0xd77951b076032;0x3dcf08dfa9129;0xabc34868f510e;0xaf2270d93bb14;0x2dc6fd30aabc2;0xab3e29af64404;0xa2384595c88d8;0xff3f39af888];[0x0;0x79c2c8ab26297;0xe4aedc5047303;0x5eed2178b8bb2;0xd3bf84e89b90c;0x87c3fb7e0549d;0xc6f9895945aba;0x19cc912a81791;0x8f655842030b5;0x34dc7d5d67811;0x35d6b9d5fe2;0x1];[0x0;0xaa259c359d502;0xf3e0add04804c;0x27d345e5efac0;0xc517aa3f753b9;0x11fc58af9fee4;0x335b0e4305560;0x76febf795e6ee;0x4fcdd2250f2cf;0x809e89eaae32f;0xfe7f0489236];[0x0;0xe60c725aecf6d;0xb16c773553b24;0xf261a5c6d2965;0x18109c11c2b8d;0x560084b581169;0xe6825d31dbc9;0xd1fe94b30a55e;0x29888f2d609f1;0x1bb0a7e3ab52d;0xffea0469d8584]];
 [[0x6003e95c9a560;0x9493491fb3971;0xc83f5616e6443;0x37d0b731d88e9;0xff5b2064be9d4;0x46dff364f23d0;0x233d31f0ffde3;0xd9c9c316fd04e;0x357a2f712b87b;0xd83dc675a3a];[0x0;0x8b22fd8af7064;0xd2669afaf7c03;0x462858a5c2bc6;0xe0561612272a6;0x60c9e2b0abf60;0x1dbc86c491328;0x2d7f03fcf29de;0xadeffbb520d0;0x62893fa176340;0xd8c7273f3e709];[0x0;0xaae3ec9eb5655;0x2dee8f4c74b8b;0x86ba17c32dc40;0x49e660731a5d5;0xca46fa16e6e0d;0x825f15b2b9b18;0x5f4056526e783;0xf52f1de7f0b9c;0xdceea6c10f135;0xb6a84dceb20];[0x0;0x48497eb9dc00a;0x55a50062a17bf;0xe9ef6ae675afc;0xc8f0f99be8b19;0x8d15df6146e49;0x35c8f33456306;0xc7c98632e4ec2;0x137e347dfa979;0x48c77d546ac00;0xd9485353c19b1]];
 [[0xc8937dc39d079;0x445f5822a9eb0;0x2141792d4be5f;0xa7323f07bb43f;0x99e93841b72fe;0xcdba721e78dfa;0x6e7dee83b4b9e;0x976636bb35dd9;0x665d65ab261d3;0xa6effb7b2bb];[0x0;0x1aa82f7c08127;0x603b5502ee3b2;0xb64ba6baf3b0;0x4b20acae7a14b;0xe7dca77512bfe;0x3e0490ff2a25f;0xdbbe5ba550a55;0xce803bf243eac;0x431b91ee00f8;0xa780e040dd6e7];[0x0;0xdd2a28c2cd23d;0xe6426a8844a8c;0xe258a7211e5a;0x13b3c7e1f818e;0x33fb48cd46e3d;0x6b58b9e50fe61;0xf003551c5f1de;0xfc6fe597983ba;0x6ed9ed84ba9f0;0x6cdc1b1b43b];[0x0;0x5634de5d75a0f;0x703b90694d3e6;0xba3f85613b54c;0x3f96afcee53da;0x1cb01f3138e76;0x112ab9fd1458e;0x64311b7e4bf88;0x19dd1ff860621;0x670634f7354ae;0xa78ad7bb63097]];
 [[0xa31ebef8ec13f;0xc2949b5b7b54f;0x9994180f2b8a1;0xe98b865954bf7;0xc39e98e23f449;0x26ba81846f71b;0x34f4283f69c34;0x886202a438c13;0x48f2814586580;0xf48de24149c];[0x0;0xfd0243952bf31;0xf2d7c38af6c4d;0x78a698c41d840;0x70ddb8fd95613;0x9fb3755a7146d;0x69329ecabb604;0xf48f9c6ef5373;0x272acf79e4c7a;0x7f98ac7875854;0xf55073ecf9d10];[0x0;0x280b2bc34fb14;0x960b9b72e7c46;0xc90f834955c24;0xb77da739b7c8c;0x701d569089a72;0x6fb58f7e67239;0x4bb6423f4ed05;0x9cb2eb521cc21;0x14a4fb0c411b3;0xe99ec5ef788];[0x0;0x7453d7a885e10;0x2a839921aa432;0xa2b25b65f4bc7;0xbc5ceb0b6bdc9;0x2da84422df4cd;0x12b0f0ab63572;0xbc364e9ca0d96;0x9f7d7f5044276;0xe5d4cccc7c03;0xf58203a6f8f91]];
 [[0x1dd2305c74400;0x4d50136f4d93b;0xe4abd6dbb3eb;0x91375221fa400;0x8e20fb790b9aa;0x33c3ce3f02d81;0xe1641da011b11;0x9d51518d8266d;0xc486cdc74fb16;0xd4d721d449];[0x0;0xe4764d303cfc6;0xac5f7c87ab36b;0x31944ddfc2f4d;0x6ae510118fa88;0x2597a487a69fa;0xce83c96a32b98;0x18fce3306811c;0x47eb68c24aa6d;0x5e151cf4af15b;0xd58019bf52f6];[0x0;0xb5e52512f041c;0xc67b8654f5eb8;0x1596b4aaa1135;0xfdf49891732a0;0xb588e7f08d1c4;0x2d456895489ac;0xda7728f9166e1;0xa7fe2ab2145a2;0x139d26e2d42c3;0xb0f504d17];[0x0;0xc69ead0e04e10;0xc4272b42944f;0x8ae9b4dbb17ce;0x91eb14b85d92;0xb6706303050cd;0xcf83ef000a1cb;0x77030a428de8;0x462e7c45b1f7;0xccecc42362cf2;0xd64273322116]];
 [[0x6c39f3a1b63cd;0x390253f1a36a1;0x64266668b9a02;0x36e865e71fb4d;0x88de515a13514;0x38b964dc28c50;0x54124da60daa2;0xec6ea43a6d8c2;0xa1a7daf377493;0x883ff12810f];[0x0;0x404fa874b2add;0x776827702139b;0xa905e09677cc7;0xe589a05857a26;0x998545f81027d;0x4c7429d31db84;0xd08939cba6113;0x6cc193cc57f5a;0x461c6fc5962de;0x890c6f7289ee2];[0x0;0xda5ff2d641ff4;0x85c8f4619cecd;0xd5ad63a448b08;0xa434ae50945e5;0x88a9978691dea;0xf95487e9361b2;0x5949e456fa319;0x2cf5ca83232a8;0xe8d7ac9304bfd;0x4884003326e];[0x0;0xf13f43e95eca9;0xf8444e9ba5383;0x4a1185fa85bab;0x86e762646a730;0x8c13599b90410;0x364d0f224d1d3;0xbd980331c3b46;0xe270042cf80a;0x7b83db8511c08;0x889ea7138271d]];
 [[0x6c5dd055a77df;0xf6075380619e3;0x14049d3283e8d;0xcbe2d143bc43c;0xa10b3bc53375e;0x493e65f9b6e7b;0x5ea2ea7f1654;0xcd9d050f65ff0;0xd8e0fcf1d21bb;0x28544812f3e];[0x0;0xbde07c93459;0x1c13acb8e759b;0x2ecd6c90c9cb1;0x49588a82c0b03;0x8f1d3e1013df1;0xad67c7d7d8da4;0x219ebcb0cd3ca;0xf482189b4334a;0xdfd271c13c1cb;0x288483df69a3a];[0x0;0x8d2176d6bedac;0x438c5976c0f74;0x25fd93079c3e1;0xf712a279c4702;0x2f053b6b0e1c8;0x8a32f88e1020a;0x750dcc094e6f2;0xb1deb76a9b613;0x4fae700d6bc84;0x65a72454cf];[0x0;0x1a0fd90ccf188;0x17e640ffc2329;0xfbbcdbe6f48f;0x3bf3dcfdacd9c;0xe03a68337d66b;0xd1833074651ab;0x9feb0c081145a;0xf91e027646466;0xbf0c42a6205ca;0x28760068d118e]]]
 (V [0x742af81c7f678;0xa6e26f06968b2;0x79d08530ec136;0x751a51d7bd9eb;0x9d31a92db8313;0x209cf215c3303;0xeca5f54d8cb24;0xaaa6323fae344;0x63430147c6d69;0xf95c9162619] [0x5891cd944472c;0xd3f2ef65e12fb;0xabb58dff12393;0xab41a3a3d6fc2;0x9d6aa62c7e426;0x84aec0c62ff55;0x68613deb6f951;0x62ae7088e7543;0x80df05676e71b;0x69ba17b89c1]) [[0x90be4f634daed;0x950ee2c8c0d54;0xc0b34a259d483;0xc32ce0b8dca72;0x7c50433a340d6;0x20508392acc54;0x9085101582480;0x8e134ccf45e1a;0x35f5bba6d4089;0xb17f9653049];[0x0;0x5dc99802f9871;0xa828e2abcb380;0x6e9c772079b94;0x6ac3442522707;0x90ad11c23ed5a;0x981bd9aa044a0;0x6c826faa2cc01;0xbb0269f36f945;0xa65c55b43bac9;0xb235bc22eab8e];[0x0;0x40d0a89440b54;0x39712dd4d4e2f;0x1041ed33aae7b;0x1ec888adaba86;0xe1187f12e70b0;0x7bd6c9d125310;0x424e57d6e3333;0xae1b6bc5248ec;0x7b85e20324f68;0x7b11ad754af];[0x0;0xbea850a6081a4;0xf1f6e6028550d;0xdda618a662a87;0xef37be108b00f;0xac6fc33b47614;0xa436b0fdc1204;0xf2dbcac190184;0xe8c662793daf9;0x66cd3423cb37e;0xb1eb06d632597]]
 [((V [0x7a100c5437f29;0xda55f96c1b6b3;0x246c87126b397;0xa52a96b7e40b6;0xdafd76b6c5de7;0x2c34bb9342ca0;0x2c49bb286d56c;0xd25880bb0b773;0x566f26b27d75d;0x58719bd20c3] [0x237942f52791d;0xfcb57ca29d3c5;0x2768639eefce6;0x2ebc64701311a;0x64546cb36a6c3;0x6e8524af6e769;0x798daad380ce2;0x7e692480b309d;0x306b01767ead5;0x7022ea98e6a]),[[0x849f21a023ab0;0xe2de479a9d2a0;0x217ed201ebb40;0x9f5028c1fd192;0x9761731025ae2;0x47a5105cd745b;0x57c2ddc0b578;0xcc63bb18da296;0x3869e2a10d9bc;0x5b72e3e3b68];[0x78c1507414b82;0xb2fdea07b3b49;0x801dbd5e07726;0x5cb1a1c4cb836;0x6b7e565b9139c;0xc1256c18a92b9;0x46a4690b08fb0;0x5645e3a44ca10;0x8ce2ac9cbd1dd;0x84f78d3bad4];[0x0;0xc76951dafa552;0x3494fb7fa449;0xbfdf5ae46e101;0xfa08136c50da7;0xde740b139963e;0xa4d1bdbb2d85b;0x25447601517f3;0x77a14b7f72b72;0xcedd60dba5df8;0xf2e5344a331];[0x0;0x3c75dc538aa1a;0xd71843e53525a;0xb441a47864511;0x4351558f3317d;0xf2012be1e0fd;0xcdd8514d9a353;0xdca7ac388ac40;0x551ede0c330d4;0xcd2ecfd11f662;0x4b8932d67c3];[0x0;0x55ffef53b37e1;0x5634e5d658484;0xdb0b9d1fa7ff1;0x1d587e748758a;0xc49f858cb442e;0x860dc2353fb3c;0x7fbe166a9b8f0;0x91f4dfba85668;0xdaf12c6e1f3e2;0x20aae193a56];[0x0;0x8638931974a71;0x803d8c0673291;0x38b27d0180d9;0x7418fe44a7204;0x8a3bafffbe384;0xe648f8c9ec21d;0xf978e42bf1ae6;0x76a7dfd7d26c4;0xa04f7c3f17c6c;0x5c07d284c55d7]]);
 ((V [0x3fe3d267a90ea;0xe5a0c76527928;0x8c91141f6822d;0xc134243edfcf3;0x9d12ea0ca2d80;0x375d52d72c2c3;0x3819a3fe42707;0x611642c28424f;0x9255991956044;0xa8a9e3555d0] [0x4daac5cb1c0b5;0x9c1ee7a68fed4;0x2ec7324f0bc7a;0x7a17c8947aabe;0x582b1b9b38630;0x7e169dc5c283d;0x50122bcba3847;0x5926ed66d712a;0xae6bc879f0b90;0xe7ab5603281]),[[0x365118818f09a;0x2e47c708e62fb;0x6538d4ca75c43;0x6e8ce65a36041;0xb6a6e2afe27d5;0xd9859fb39e49;0x7635d6d73220f;0x2858af9bfb3d;0x5f96687f8983;0x53c56f89f1f];[0xd98b48f598c62;0x5b5c31937386;0xa89167f4bfe2e;0x1075434bb8533;0xd155bf5ff6d0d;0x321ce067db673;0xb5d59a3c21db9;0x6e5bbbe8fbdb0;0x3c9dc62d17fe5;0x17ae66bed5c];[0x0;0xcdfa3dbd9a259;0xbc23b1b58d564;0x8eb741e6abffb;0x67f70b36d4861;0xc51f8590cf432;0xb59078f8c653b;0xed5f1aeb6903e;0x316baae8fe756;0xb850c3e897d81;0x1e8e4d8b56a];[0x0;0xb571b0a9cb436;0x5c89a64d5e045;0x25ebaf7b6eba7;0x3de3ad34e6248;0x24039f0992fcc;0x7994b2f69798;0x631b80e88220d;0x87cdde8fc7bf4;0x4afd023ff2953;0x49639b9355a];[0x0;0x46ba6caf12758;0x924f159fb3e44;0xa9c536bb67fc8;0x72e1be0a216b1;0x2eabd187a601f;0xfe610e2b01ef5;0x6ba1d8a395494;0x977a4e0620b36;0x92411f010babb;0x1b699e984dc];[0x0;0x63b6ae4e831e6;0xf860c25609fc6;0x7c0c22db33981;0xd02123542cfd7;0x1ccc4683a4637;0x3ad7252440c17;0x508f2a75fcff;0xd4f0a90dad3b3;0xd98f631ddc539;0x53fef4dc09a61]]);
 ((V [0x105b65f7bcf32;0xb4751750bfcf;0xd31c787ff3346;0x6409352ad71e9;0x8544e13ae8bcf;0x3e04a555e2749;0xae9f7d41b7840;0x7305e57312a81;0x52363e5fe7a10;0x27a98558193] [0xe22f23c2c7b95;0x991e64e4b7a86;0x63270318e32d1;0x1441d5d7437a2;0x686d3fc5b24b6;0xb669f46929d20;0x8212b00d877e4;0xf13741ec66747;0xdbca3abdc7df0;0x8fb46856ed0]),[[0xfd40fb0082073;0x830daa230127a;0x595f7765edcfd;0xded58f98386f2;0x1cb68f7cab8a4;0xd63f1cf8d4d3e;0x68e224b3b495f;0x1a7ad0fce006a;0x83b514fccf9d6;0xb54c495bbfd];[0x8ac1df957a745;0x7ae6004dec26f;0x9e7eba0308408;0xd57b17d8d6e5d;0xadd63b7ebea59;0x45830a6b55305;0xf26c5a441ecbe;0x2d876742e29f2;0xc4dc6d1d2597b;0x7c3ce9e452c];[0x0;0x2ea3f645be869;0x29705b946fff4;0x605bc2c28493d;0x590473d803bf1;0x499e3e39b25b4;0x25df182d43b21;0x5cd84316f0286;0x2926607793448;0x1568e017590b3;0x6f1f6b1dfab];[0x0;0xc336e6eed49d;0xe47227c411ad0;0xd8706533efe0a;0xa34d59a90f839;0xa4519fea74e50;0x371b8d3fef644;0xa1518566dd0da;0x6ad12d583490b;0xbd433721b6cae;0x148225a214ea];[0x0;0x5a06be7ee8445;0x81c39b6d11128;0x62e62d1cdfb72;0x1e4a1a6b2ec41;0x63622b20debeb;0x4a8bca8d15a9a;0xa1f950f317292;0x36d03911b1fe1;0x7208f78722576;0x8064f67760c];[0x0;0xc38f7a2069725;0xe582deb87206f;0xc7b17cba1dc9c;0x21de549f617e1;0x9e215faadc1ca;0xabb68f8afa52;0x7983d4fa9f306;0x3bf999a8a2369;0x372a6473d1d0f;0xb65cf158a2e6d]]);
 ((V [0xd932e99d2ecff;0xd886ed78397f5;0x79dc44ae4e576;0x6996071e5024a;0xa6c3663145741;0x17172896551a4;0x7ef93af1e5bf9;0x77e5536c80dc;0xb5a4f36eb533b;0x610c6b08ae1] [0x710937456294c;0x131d7b6c45a5a;0xa42d019cf09ff;0xcd8af6fc1998f;0x9a4af21664e35;0x91f4bebf81d6f;0x60373e2e27688;0xb93eade1c7617;0x2e9d59e90ff60;0xc90950f2c26]),[[0x61f22d9b4ad39;0x66355a76beb67;0xbdba89f75e930;0xddaefb2acd136;0xec652009ea8d0;0x93d3755eaa618;0x5099f525465d9;0xe0d61af0bd6ad;0x14316da37d27b;0xf8f41f8cb78];[0xe9932f9447099;0x80f6414ad4aa3;0xcebb517b7dc15;0x68bdc7615a6da;0x5bceee6f58938;0x88a3e1282a683;0x581b58ba1047f;0xbec9841ca809f;0x76591dfe63a2;0x54e9f225d73];[0x0;0xa892f716d1d7d;0xc0ed861e6cd07;0xcfffa109b2622;0xe91a44e2ea66e;0x20b5b1ac448f;0x34d0d25b10adf;0xd6c412d6aa24e;0xe5ba139a3e301;0x42173b7c2c0c7;0x62516e22b7];[0x0;0xf0c19890ccadd;0x23cfde8583e14;0x24759188b8677;0xfeb55bc9f9d1d;0xd6fbe8f8bf59b;0x8c094df4c5b42;0x518884533a6d7;0x421fbb74e10f5;0xab878d4d2af0e;0x1177f9d7afd9];[0x0;0x55e0839e2f242;0x1aca52d8b3af3;0xefe872c666db8;0xb80fabe955229;0x766a73401bad4;0xffa550fc8b51d;0xb84f103910a06;0xcc6457ba3eaea;0xba22eb1871b40;0xf219e5eccba];[0x0;0xea7ef43d202ef;0x9a1ef63355b13;0x72613d7571b5b;0x56f6af95088fb;0x28d6f1c75d7b;0xfb79f9cb6417;0xe54cc154c309f;0xfe0cc67559464;0xebea67adbea4f;0xf9b545246bb72]]);
 ((V [0x2889096f11203;0xfcd9fa7d4a47d;0x7c46b51fb7917;0x8b7bbfe463095;0xcf90b895b6f3f;0xdd2659b788426;0xe39838669fa7b;0x12298bd80b4c1;0x3d32b5bff18d8;0x908fd950cd4] [0xfbc75af3e4fac;0xde0bdb5ab33b7;0x7fd283902bb6a;0xfe17109af4742;0x345233a7b9e2d;0xacf5ad53be55f;0xe838880f6ea30;0xf3a61c6922f0;0x1385d04b1768d;0x7c9647c00eb]),[[0xd76cdf17f672c;0x61cd773634ac5;0x331c4328e2d9;0x38a453af04bc3;0xb08ecb12f006;0x8591348b85d11;0xae878d37d9340;0x370203a9fc626;0x55ffdc3fd14f4;0x3fa6002e27];[0x77b614c24b68;0x128a961c64ce5;0x11ca1d3697768;0xc03e80102b9bc;0x118a26af3512;0x8c88bacc9c2e9;0x48bcdd4355a59;0x51ed1c771784;0x6acf9a91af8dc;0x337a438c536];[0x0;0x3f0fe331be49f;0x69b0d402a9c0e;0xd64882d46fcd;0x774d03b96a999;0x1aae810237518;0xc4bd39c958edf;0x115085bbf611a;0x8ab84247c80ca;0x14ed6b4a889ae;0x24ca69b6c98];[0x0;0xda9412dd304bc;0xe47ff35292f0b;0x19b45d2672a1;0x8e6ee7b1ecd1d;0xe1296bd4c035;0x72c042fc5c73b;0x24b3c55fa858d;0xaa1bcdda7374c;0xa1c7507492577;0x63f74e34f3];[0x0;0x1c40ddbbeebf9;0xd56974b12bcd3;0xe122b8731579d;0xf49403e8a5088;0x66b67286ee39;0x373a1a1aa68c;0x4a22e83b36ab9;0x75ef4a6ea8e0d;0x3375fc861ff0c;0xfd31fbaf];[0x0;0xceab0eb3b7214;0x4fe1822a9ff0a;0xc4dcc5dfcaea6;0x92cf92c8d0ed9;0x5fe02a12ea72d;0xcb5d1740f3048;0x99dfc00686a9f;0xc7fa4d2178a91;0xfbe53c85a4a1a;0x3fd9d606efa9]]);
 ((V [0xc2602089dda2e;0x8e3e84f89c8e9;0x8df65b2d80df0;0x6d4ab7d406a55;0xd67497b3e0e18;0x31e97bd2ce628;0xc39e7696aa85f;0xc70ae3fefd15c;0x514a428f65717;0x36735189443] [0xae8a2e409ff77;0xcbaf5aab032ee;0x31649cdf3208a;0xff3fd8001f21;0x5b184fad12793;0xd2dab8b3eabd7;0xcb8efab57ece1;0x4b068e2d36e01;0x9c8c8fa6db28f;0x7bb5b9ab8b8]),[[0x111045ab025fc;0x8c5c7c01238f5;0xbaa703367a830;0x701578d09ffb2;0xbdf6bf0e5da4e;0xa2109e2164f8a;0x9ca6a612f9676;0xe7903e4bc26b9;0xa5af2d8c3f478;0x847c2eae947];[0x6e7404daf235e;0xf81c035b21d66;0x66f84263f9e78;0x146c26a5d7bb7;0x8ab40b36bbe67;0x5eb18bbb481fb;0xd7b16c548dae0;0xe6eb4c6815bcd;0xf36c633be38bd;0x6f019326c50];[0x0;0x52e5e5f52adfd;0x7ba2b2cbae0da;0x5099e28dff7a3;0x41684035691be;0xe4a8e72f1c0ba;0xe1f336aa9f1b;0x7527c786dba1b;0x759a13e2ab03d;0xbb4d49ce8f22c;0x51a2254f67a];[0x0;0x545895f8fe72e;0x42ed95e0ea4c2;0xa5f094a6986b4;0x4ea50331d92c;0x52248cf9e80ce;0xeedd61590183e;0x47abd488eb06c;0xaf66dc5736627;0xc66e2adb789cd;0x80f3d9037fc];[0x0;0xe87fa4f154f44;0xa056eddcd5605;0x16220068f26e0;0xf9d02203df837;0x21114def04a0d;0xbfe13b94dde8e;0xf254144ba5047;0x3491afc639412;0x138bcafecad9a;0x44904c614ac];[0x0;0x50440f6a8a2b;0xe99c145454348;0x31050762986e9;0xcf8e42f1ebfa0;0x23753ee644368;0xa5b2c699da79f;0x5b340bc64211f;0xf83c2f3b4c161;0x4ff88fe1cd8ea;0x852f4d49864a3]]);
 ((V [0xceceec0165b38;0xdeb9484063dc5;0x2a94c9144bcc4;0x40e9d7715abd7;0xc4f5099af7df5;0x68a914244f960;0x5f3d60da7e932;0x218821b5f97aa;0x9ea0196cd6585;0xd73e2f8cad1] [0xc467bf846fe88;0xeb228bb3ca308;0x109242d1d4ae3;0xa4460d9f75085;0x98ec6448cb90;0x6b2eed453ee48;0x6a2a7ff559eed;0x631f243d602ce;0x6b35851fa1f83;0x8e1b5b175ba]),[[0x606a397a43578;0xcaa8972b37af6;0xfdeacf72e9ef6;0x377107a2a9840;0xd23e10f7615c4;0x9b10f2f0bbeed;0xb6ac3b8e1bc8f;0xbf157a1a1dbe8;0x742ef7364f140;0x1937b518d4f];[0x679c1117fecf7;0x453d09bcb89c1;0xbd88f7cb5505;0xc8534f8492126;0x2f9b840f215ee;0xe6709fba34efc;0xcf5257b7238d1;0x27c7336d47e1;0x7d17615a6682b;0x1bb59b6ad05];[0x0;0xf6fa6f270164b;0xd0653d1ac31bb;0xc6bdb32571f66;0x36d291a56019;0x150485ad6866a;0x553eedfa2537e;0x461b5b0d90e1;0xc5819350092b6;0x1d32976d0f1a8;0xb94da58441];[0x0;0x895d4181b63e1;0xd7aa24c85ad06;0xf6d922cb64b82;0xb8f856c074db1;0x731674487e12a;0x6d0b9cab0f2b1;0x917de8bd2b7c9;0x9b31a4c4d204e;0xa36c80fbe4e74;0x185f5560416];[0x0;0x9d247dd3951f4;0x34129bd746d63;0xfbc96468958e2;0x6e14e51c26992;0xf773bc7cb5b7c;0x2fec7451b15e3;0x1b60d4f4fa4ff;0x81e74b414207d;0xfecdfcb9ae83f;0x27bed7e2a5];[0x0;0x6db1e52f939f;0x407858683ff6b;0x5814b656b8601;0xc223ad0b96fa7;0x39de952a31473;0x97cdd88324308;0xf73c66a95ddb9;0xa3ec8d416d790;0xfc94585f624c0;0x19411600eabc7]]);
 ((V [0xf1e96a8b55cde;0x4299511c4c18e;0xdb97b2037119b;0x21294dc6d59f1;0xe7f54812246cc;0xa05d04ee2473;0x6ea6586604ac3;0xf71d008149c26;0x7370fec63a4bc;0xef7aef649ce] [0x694a5c2452168;0xba7ffe7ee35a4;0x653656fcec71e;0x19c1a014a2504;0x7479ddd3227ac;0x5a93ef5509f64;0x33078103f8bac;0xf175fa1f27122;0xa4045006586d5;0xfed4dc8333f]),[[0xf40cec3394506;0xfccb9314095fb;0xd76d3360d065a;0xe40fc388a89a4;0xfa775790983f6;0xf32f3241efb12;0xcd39574a99f29;0x2a0788fad1c21;0x8cff26a51255;0x27677875ff];[0xe5dcf135d9fb6;0x53b3c27be97ce;0xdc702d5bc490d;0x813fcbed99525;0x98e523769b2cc;0x5f35ca5fa169e;0x782ef64d26;0x1594b1ec6706b;0x18908343112ed;0xc60389c2e63];[0x0;0xc08be113e726;0xe8a9424828022;0x21c4263e5be25;0x80d4ef1c0ced1;0xf311765de4c6b;0xbb19042fe74a8;0x90d46eca4ead1;0xd6c4c9826dd09;0xa547951629c04;0xb4f982f95bb];[0x0;0xbc5711e65ab6;0x2e831c426c63;0x1ca6d8a608f54;0x86263db4418ba;0x6659ce13f0a37;0x12b993b99a8b5;0x7b69bad242fd6;0x976d3bf93bd82;0x43fc1ae1ab78b;0x2bbf358110];[0x0;0xd5e4bf5bf087a;0x57b33a3260e4f;0x93e6fc10089e9;0x53deef54d2541;0x4fa854ab90733;0xc3bb69c722fcf;0xc407549cd6140;0x7f0e69abab698;0xb56bdee908a2c;0x610b0861];[0x0;0xbfa6e71da617a;0x6a8c86f91c437;0x5a700a53c96a5;0x36d940bd9cab3;0xb97be71e74f9e;0x31fb8e223d01e;0xeb7edc8d5388c;0xe84a6de383bf0;0x98c13e8d7a6bc;0x278b24e1624c]]);
 ((V [0xa2fdd913d2469;0x4af3651eccd14;0x83f68a0b7ad83;0x530ffb30bbd5;0x293a59bbeaaef;0x4dcac97d82f95;0xb44bdd04d4ef6;0xa7d51c49398f8;0xd03d152e00041;0x1dbb12da2bd] [0x5c3a995c7c4fc;0x65386351a5326;0x862a0c23c0bca;0xd0ec0529dbfb6;0x3baa9ed334bd2;0x3eae8a931227f;0x25b5f6a250cc8;0xd0ddd88f864f2;0x4c103d6a77e4d;0x13395470886]),[[0x55675df224cd2;0xd2433311d3e56;0x4f379e5cf0337;0xaaf13373f35a2;0xd4bb40b1b3c16;0x382c67b674613;0xb5f4f4a355fd1;0x49b404d4f4801;0x3263ef70e7038;0x155acf717d];[0xa99f60b44c84f;0xbe8dc9de382c3;0x33ed46b66f868;0xf6da54e142197;0xd24a652286ddf;0xe9eb2f1f8095c;0x4745dea3f8f4b;0xfed8d18cc43e6;0xb304e44d30a8d;0x236f5d9709];[0x0;0x3d80c57617a23;0x56c857e32753;0xf70dfc98ed97f;0xd9b29ef6734d9;0x8e938d8b5a715;0xba0cb5e3c2a63;0x3fb7fa0a520f9;0x67a31cc9117cc;0xa49b2e42cb854;0xe006c606e8b];[0x0;0xda4b1b2c01499;0xf75c25e7e28d2;0x9e3cb11c60f95;0x2c84368ed3062;0xac038f781af9f;0x8c9e955b3e0c1;0xb4e94fbffe28;0xd4a11db94a691;0x8ea5d6b23b56d;0x2a83b6d6c0];[0x0;0xa353def245ce9;0x99454c206251d;0x849e90845e6b2;0xe5bf32de45e39;0x71dab99bedaa;0x746975e1fe13;0xee555147ddeef;0x7c832408fbf69;0x26f069ace34fa;0x1c8063f2];[0x0;0x4962c03ad448c;0xea911d38192a;0x8ff804fb21a2a;0xac891360df87a;0x508f326844c01;0xe6c9229cb6528;0x34e552beed83d;0x18721a820776e;0x2029b7b09a3f2;0x1581a96570b3]]);
 ((V [0x140ba4161e7a4;0xfc949d5f190ec;0xa575e3e6b64e5;0x6055d16ceaa28;0xb05989101e9a3;0x1746166b5ecba;0xc02633a1e8f76;0xa3ce228b80aa0;0x9b53e95fa878c;0x8f851cb9d05] [0xebd2b206ee6c;0xecae4f7c41cb2;0x4e42d4a6e4aa4;0xbc86f341bd5b0;0x4e58c89fdc45a;0xee7a48a05d600;0xf7fe47a4db943;0x13dfba9f363ec;0xb8bf9d62ca7eb;0x6e970893851]),[[0x16588c4ee407f;0xce8fc96ed15d0;0xe0f9a4e0c44b4;0xe19bff953b244;0x82805cced48dc;0xa0216a555e939;0x656672bd324be;0x480647d13b397;0x43bf1c25d7524;0x13dcec2b194];[0x4e5131285c18e;0xb16c7de262b87;0x61254834ceecd;0xfd6c774fb3248;0x24fb616e6744;0xc86a3e991be64;0xb3ae48e70624f;0x62ace66e1cf1;0xf9a34bedc62b7;0x98bbbcbdf6d];[0x0;0x1575a675e9e65;0x3ca67f896058f;0xa874ff6c77fe8;0x51973aa276cd4;0x9eb197553b72b;0x29baefc1adb8d;0xcd23c4d29095e;0xceca0f1be546a;0xf8fdad10dc18f;0x373eaf9fa0];[0x0;0x88b1f9a949b96;0xd177524c9dc94;0xd9b0084202650;0xa2be11828c4a6;0x812dc4d9e895c;0x529d8d269dea1;0x53a822109fb76;0xdb215b895c5df;0x6ad0d78a7a2e1;0x2fbb08a026];[0x0;0xe9fcef8c5b91d;0x4e220ee52568d;0x4863ea00512ea;0xccb87f85d7d09;0xe839bde1087c4;0xb731638c2b89c;0x458e415452eed;0x72dbcede31ccc;0x30c043850377d;0x18a89b529b];[0x0;0x4a012c2b7d694;0xec75ecef970c2;0x8f47fb2d0dfe7;0x2db06bd2ab0cf;0x4fc05c06b0017;0xe10b605de9d21;0x2392f0098eb98;0xd44c224c2d7e3;0x4ade679191486;0x13e7f4e5eeded]]);
 ((V [0x396272afd2daa;0x8730dc56cbdb3;0x3ecbcc3f4f13f;0xf5527991a2626;0x1fc2b8e7f100e;0xaf09df2ed5671;0xd7043d68574dc;0x93ceb627d0918;0xf6dcd3bace2ab;0xcc846581868] [0xbe3e32949fb18;0x938468fbce51b;0x3dba0e97edb1c;0xbffde366283ec;0xb54d2b9b51157;0x845913211745d;0x27efb0a2bab09;0xdfc0f459a50d2;0x4792ff5415f10;0xe126b6094d6]),[[0x90840709cfe90;0xa4cdf0213b0f5;0x55dab3c736295;0x511ac9d3b79e8;0x24739a2128d1b;0x1dbefd4ca618c;0xaa2eebec5ea2b;0x194429b4b0088;0x6ba89dec5aa35;0x4a81daefa74];[0x1f7a9091fa69;0xf45ed64c2b09;0xdbc4979bb7b41;0x3652d0ce6dd66;0x6f19af6227724;0x5d83f85a9472b;0x3c6392db3367e;0x5c63bd3ac75f0;0xe51104dfc66a1;0x4e574053cec];[0x0;0xfa1d059f2d021;0x54c2d6c6a0dfc;0x285b3ed89ffc6;0xea906df7642b;0xce824b95bf2c3;0xe1318fd51357f;0x80e95a537cc00;0xc26e1fb9a10b1;0xfe224a97544f8;0x5075fb4e730];[0x0;0x8429326813377;0xc517534c0e42d;0x16cfd4142ad9f;0xcf4eaa6995cd8;0x899a2b63014e6;0x6189352193131;0xe2dc2f66a2593;0x9e6007413a91f;0x37dc8b45d88b9;0x405f825436c];[0x0;0x93af7b7502382;0xce2ead96a4d52;0xa8bb163300a3a;0xc699664a5168;0x4c2d9373af3a0;0xe6fd6c402c74e;0x501490b8a1250;0x430d771d8aed7;0x8825deccd415d;0x15af5470ed7];[0x0;0x27b09ea578694;0xe06ba4ba3a72d;0xdc5e5354af9c6;0xbc34f029a6ab2;0x28c0769e9735b;0xfdef8ded2cf77;0xf5c6380af70aa;0x7f859ea658b75;0x885a60a4ba659;0x4aba9c0ebf088]]);
 ((V [0x3c250c0ae7a20;0xbf821dd4933e9;0xf9191a3fa2175;0xd0552360676e3;0xaa2e14bbef135;0x9d47dfccc988a;0x56fbfef411471;0x6c3d3af55f56e;0x7f1b496579c72;0x4eaca63193c] [0xf079eb967ec36;0xaa09553d3195d;0xfca424378f28b;0x716b0de10793f;0xa4543eaa0c50;0x3f16daeb5e4a6;0xcfa85d0f015d3;0x64aa6372d7978;0x2b656ba3a9e1c;0x3352e0875b3]),[[0x221317cc5aebd;0x4b359f583c0b0;0x1ce97b9b86c07;0xae961b4ed9531;0x21d554e0ff776;0xadec872684621;0x3d4260c5621aa;0xc97646e162bcb;0x1b95b5f5d15d0;0x1e81bb84934];[0xaccc01ef95ffe;0xf19031ddcf788;0xb7a0ed9e5776b;0x2af35db3b0caf;0x8c0f8947f7489;0x677673295e888;0x89986db3b803a;0xabedd2a2ba15a;0x17965c8a09a52;0x892d596ee00];[0x0;0x6dc48b2a33bea;0x32eba85a0173;0x95e98ed240ad3;0xd5e6e0d2e9eaf;0x906e4160d538b;0x79cb6bfb502c2;0xdbe38934a57ee;0x7873c4d213c3d;0x6d09e62ac24c6;0xa363463f444];[0x0;0xc879a939c6be;0x8288da80e752a;0xdbcb3155ae0f5;0x80d6b43186687;0x158c5dbc979da;0x69719c7380aac;0x5439511f9924a;0xcfaf79f057ced;0x6ed13c4718c31;0x35a94585646];[0x0;0x611a45f331143;0x113b90a1efaf0;0x26aed924bcf4a;0x8b08d5dd28de8;0x67e10692999f4;0x63a2c24d7cb94;0xc1d497fb22605;0xd7a0cc37246fb;0xac3786db71c37;0x3a2a9b1977];[0x0;0xb8c966b5a7d89;0x193943ad5ba03;0xf4bac49f6af1b;0x914260d7d778f;0xfc3feece3d49;0x66d6cebc11932;0x1455b59de7708;0x7e62bb7e6bef2;0x9091c5e47fd26;0x1eaf3c4e685f1]]);
 ((V [0x215d74d1ff5fb;0x1508a11fd9b56;0xfe2d7b1e94491;0x2e9c978f93eb0;0x45b5947cf4979;0xa897fff7e77cf;0x6917796a5548d;0xb3d4e181eaa71;0xd14e0cbe89663;0xa060ae670a8] [0xf65c5897963ad;0x757bbf711a697;0xa853148c07a3a;0xfa61534a06c72;0x3a82efd952422;0x1d06ee41ddb18;0xf5d4bf01ab44b;0x3ee8eeb983676;0x2372c08f85211;0x229c971fef6]),[[0x9919dba4d2d77;0x6dda4e29487cf;0xbfc4fce5fe219;0xbad3a0c8c910a;0xb8b6fd2491537;0x5316e13744d6f;0x74c2bc42b7d9a;0xd0f3053616e3a;0x9bea341bf2542;0xade332ce609];[0xd48dec76495b0;0xbd41d8dbca0a4;0x8253c9727ca52;0x7e6c8619bda2a;0x70dbcae86c14d;0x7f0342cf329d2;0x416286e200124;0xfc18168199005;0x97670dc08f03b;0xb320b66f5c3];[0x0;0x8049f9d42df30;0x49daa5be01cd1;0xa4597fad912c8;0x6e87dde3463f9;0xb66ff33687b17;0xb210995d0b3ec;0xd14583e5bc535;0x2fc4e6b6f1f8a;0xc1380b975eea;0x182da9b5f49];[0x0;0x31fbaa7c1eda0;0x689f235a22c27;0xee7140f1a55f4;0xf8060ad711a09;0xe81340275c509;0x220283c966154;0x261e24d5e9942;0x50cab7d589cf8;0x4dbd8bb96fb6;0x45b91cd0412];[0x0;0x1ef42aabe3c3a;0x9ed3cdb70ce50;0xd0654f5b3623f;0xfefe5a3015863;0xb159c574a17a0;0xd47c199ea0374;0x31d923a5bec05;0xbb7fc54eba311;0x4606c66bd3114;0x761cdc4e12a];[0x0;0xae5610d4453a7;0x74b13e5780f26;0x23de010c9e6d4;0x1d0da32dcca21;0xf166a89f361d8;0x92b983eea33f;0x532188e4f5ad2;0x15b214acef2ad;0xf37952fca7715;0xae5996d4c88a5]]);
 ((V [0x12ce149f357e3;0xdc9e7d1323fba;0x51bbb98a1d70d;0xbf4fa7207e99b;0xe97342f74a324;0x4ecfd734f2b84;0x9f128fa2707b9;0xf6b52ae982dd8;0x1b3f711767439;0x1d294c11dff] [0x1d195c492173a;0x58886f366670e;0xaf62070b3d7c0;0xe4c7875a58197;0xc5940515012b3;0x9e18590fe1761;0x41bc5ce795791;0x740f967526d6d;0x6d9d9c06ed2a2;0xb9be671c7fa]),[[0x2e48d853e2;0x62bcfe0ca33ac;0xee2e8f857f556;0x6ef082b3baa9;0xf819d1b62b3cd;0x3412c28699a8f;0x79f2cf0c3f08;0xb368c42a899fd;0xacab000d1dc40;0x9d50ec95fdb];[0xb6bf73807c1c0;0x5aabfdeca4cde;0x1e7af2e4f0529;0x7d7537db582ea;0x9e949c2c7ca52;0x82d714424e1cb;0x11ed226ed8a92;0x7d832f9e4b21b;0xb1e5ce4fa8380;0xe99ca49ba5f];[0x0;0xf24d0f094dedf;0xd65ca502a18f5;0x31f537ecf0b46;0xf7f0607fd5ef1;0x4a33428daf250;0xd50ba788c8d71;0x9924b32ee2a80;0x3e6c3572e36d1;0x87fb9edd35fe3;0x6478fe84114];[0x0;0xe8d7321289410;0xe39495ddf3743;0x6a7bb9c08bf01;0xae97201a42586;0xb3b22ba09c049;0x7cff55f864c99;0x515b0ec49cb4;0x7ad8319a5153e;0xae6a7ac2a865b;0x2a89f334e51];[0x0;0x3c32c4062aefd;0xbfaa4aaea51;0x87b8f324ceb4b;0x51977c8073129;0xd92d5e01b1779;0xaa3bf23a6305d;0x8f5430e2bcf57;0xf0ba88c909ce3;0xa950c4ba11a9f;0x60ac5bc4b19];[0x0;0x378c5bd3eb951;0xaa5287181a78;0x40f2b45fc32bc;0x7591a75bd6bce;0x101b15defe8f8;0xc8ffa8003cca8;0xda80d7fd4f60e;0x7457244b51696;0x44ed703ea2270;0x9e3edff4749e3]]);
 ((V [0x2372dbc024334;0xbac04780c37e6;0x5a3158a708cc;0xfe26ae22a454b;0x58cd350610c00;0x32875233e2bb9;0x964d14e6dd13;0xcbc1a64b6bf97;0xaa0ddabe287ed;0x4bccabba858] [0xbc3f8d59bd4f8;0xc295ae12759fe;0xb885c3c4324e;0xb8fed4948513a;0xa1f6cf6917f62;0x9ef2243c620b1;0x643471bab6198;0xd94bc32f5b42a;0xfb07b1926e102;0x1b770c1fc07]),[[0x445ec6142ad75;0xdf6a962144def;0x37d55be955f06;0x504df4f0d7752;0xba1e2eab26106;0x3e012ad98763e;0x14ce7e7831ce7;0x430786a934687;0x1b179ce5ea377;0xb91450a3a28];[0x9c893967d9269;0x8d5f3d6d860fb;0x24e8a1fa071b;0xbfbc244c837de;0xb5f30d94a2ef2;0x7b519b7574377;0xc5cddc4f0143c;0x3ed47d4dda14f;0xe9b086d66f481;0xbb3992a1d8];[0x0;0x184fc00f8f820;0xd14db7e3c8d18;0xfef38f02fdecc;0xd5e5d6fe4246e;0xb4f855b9735d;0xacdadb4dcee8b;0xfe5d41519caf8;0xc9529c51273cd;0x11c68a3f40331;0x35261e5811];[0x0;0x56cf807f749d3;0xc9b7899b52f95;0x7d91d042ab3bb;0xad9ecc74506a3;0x68e9dcb1ab24f;0xc3d8e4ba0ecea;0x9127e56a55f77;0xadd4ad8068e08;0xd64efa11a379f;0x10c92abcbc1a];[0x0;0x2f77db533c389;0x485b9dbfab87a;0xa2abbca6c38b7;0x7fb4f4bde9e88;0x4cac995205758;0x8b21255354a4b;0x7cee505e4c9ee;0x5d2d7928f0d35;0x784ef2e898f76;0x85ce5e2933d];[0x0;0xe036933165564;0x6b5cab1748a18;0xee1086bcb61ac;0x765983c8aaf09;0x6bc1370b1ff9d;0x1ec8968f7be33;0xecbdd77901422;0xce55524d3acf7;0x518d0b8444b08;0xb9abad30b0edd]]);
 ((V [0x65281fbd86ee9;0x6d972f1f3182f;0xd36026f57f403;0xec2ba17f9cae4;0xa0835bf297cf3;0xffac8d3c7a8c9;0x8901833ee6893;0x256c71e2fd9f3;0x71c7bc96f620e;0xf3d3e5f0f2b] [0xa68376f5a542c;0xe38699861c0c;0x4540ee75c1613;0x69782c811b2b9;0xfc7c5cb7c8d7f;0x49da44e9d95d;0xfb352dea57469;0x319fa8a33488c;0x265df078a226f;0x1b404d92d5f]),[[0x6eebf0454ef75;0x277caeee8ce4c;0x7dc8e5a86216c;0x30a66d69ba526;0xd2122c19d2d42;0xff3e96fed4fca;0x8aab18fd95082;0xbca99c1cbef7e;0xb3e62840dd447;0x85bbba9999b];[0x61b04ace618d1;0xf5ad076a6a80e;0x3b0e572674529;0xe4944c57d5ea3;0xf3415344d74cf;0xe7f8ac7be8ac5;0x91632b0705056;0xccb841295dbe3;0x5dff3d7f3e2c3;0x44fd95da47b];[0x0;0xdca60496ad449;0x54e12357d0783;0x3ca202c7a8858;0x798f440fbca73;0x44a9d4de4f428;0x741f8f6a8372a;0x23d1d8b9aecb3;0x87d1f017078de;0x6c57fca03e8a4;0x167190416eb];[0x0;0xbfe78799c0dbf;0x2d740492ca868;0x54249dfffa83f;0xfcf0df5de5819;0x6383e18e3f825;0xfab2d05e729c;0xfb22a8f508037;0xfcdf06bb70ddb;0xf0365d8e3397a;0x1cb1fa8ea74];[0x0;0xdc09ea577b898;0x287ae3f93b0d2;0xda0b24c644d71;0xd1b992ceda493;0xd33740da7a259;0x1e52250dfb21c;0xc2809e6c19941;0x90cf29b7dbdad;0x6b5ecb5ec5df2;0x45dc998dbe2];[0x0;0x3e55300700d3a;0xbda5d52723052;0x5b9d27997270f;0xbbf8c93fbd227;0x95e9eadf64999;0xd094891f8f40e;0x2f46618137022;0xce2ae869e1d6a;0xb37511815fb78;0x85e9af5b3376f]]);
 ((V [0xc2960c22e69fb;0xce71e2ebafce8;0x71bd321061ec5;0x12d43261681b7;0x29f3b43c824a8;0xa41ef91217c84;0xedc4135887ca3;0xe235ec699ff2b;0x2a33c7ae6cdab;0x1a457a222f7] [0xe7330ffe31cb4;0x7fb51365ceb58;0x65ff0aea1d8fd;0xddaa3dd98524e;0x180838b2b1e5b;0xef0d4c233599a;0x13b1ed9693214;0xe9d9006d97f6;0x116396a8811cd;0xb3eeafc72da]),[[0x3d441802a3271;0x403b6fdf71445;0x8a1757fca78b4;0x5f302c5bc3c8e;0x1450d1aa764e6;0x20d2365f6e38e;0x9d2896f0bd572;0xc5fd802315841;0x4d259da4d94d9;0x4ba1aa35915];[0x33485eae29597;0x7f6b7ad0e4a4a;0xe736e22c7c9fd;0xfabdcd3827102;0xa9bcb614a9966;0xc3f9dbe265e63;0xc49c5b2b3b885;0xc066257601c26;0xe64b64b526294;0x6d77a3c8221];[0x0;0x48a96d34f79b6;0x3b7bddd1771e5;0xa139e8e60a073;0xdd00b4c982034;0x6ccba37c208ab;0x8db698a4ac02;0xfc73ef4a22e04;0x399e9cff54b5e;0xaeef8ae11511;0xe83bf5ec468];[0x0;0x537244a1c939;0x66b08514538ff;0xb85794181103f;0x64851db0be5c5;0x36cf9fdd310c6;0x1cd4051c31f43;0xac557553e6bb0;0x7403d613f6d9a;0x52c6335caae5a;0x101a18926aa];[0x0;0xe3a674e58914c;0x53ae92ef36f1f;0xbcec92810a2ef;0x709d51c8664f3;0x2489aa0e98074;0xe860984232508;0x92d5efa08dcab;0xc2d91e4991643;0x3b02b61edac54;0x16581fd2ebb];[0x0;0x7790efa201d3;0xddac979990b85;0x49efa7b5bfbf7;0xc765f57cd391;0xa24461579c7cd;0x65f905b887ba6;0x3357289536dda;0x6e180e7d1225c;0xa69d287502298;0x4c2d91fc945ff]]);
 ((V [0x7ea810d19ff4;0x5de24ab398e99;0x74a6245ae97ef;0x146c7a27218bd;0x2bd6421fe9c47;0xac9149723c4ea;0x7fbb55984aeb7;0x29180ae6beb21;0xd09dc0f66e4c4;0xb740088c959] [0x6e82feb0ea855;0x1d2b84105e8ba;0x3f0d3cc5ecc9;0x49846ee70cd37;0x4667ed110917c;0xbc202acee6e80;0x7807840a943b7;0xcc1db6c783408;0x59c1aef657ccc;0x606869ab1c6]),[[0xc06213bdf4ccb;0x44ca9c3f06d1b;0x8fb3bcda315bc;0xede8be9353b93;0xd3b410c266499;0x43e991c51ccdd;0xe360f1bbf9ef4;0x5a8f08c79883;0xa14951dcb2697;0xe6604a7c015];[0x9c813f864fe99;0xb61190c9c4ac7;0x838cf9b2bbfe6;0x48f848161f1e;0xc394a21ab3e90;0xf5e4e8dd480f0;0x10cf6b8363849;0x417b260fd0cc1;0xc932b5ce915ce;0x70947da748f];[0x0;0x490a7b8983680;0x14c068fafc2dc;0xd06acb519fe79;0x2d2ca7f33bc32;0x4ada12605d91f;0x7b4e10d168943;0xbb78f342aa204;0x6905a23a6c545;0x576be2e656eac;0x2b22faa025];[0x0;0x75a17129108cf;0x4737f4211da6b;0x1c6352d9819e6;0x7b8410c7cd929;0xa86a5c8457211;0xa91a0b05490f3;0xba1395b0aaa94;0x184ad8ac5dd7d;0xf9a373afbda49;0x143d83f920a1];[0x0;0xf0d6a22b42e79;0x95389e39192ee;0xcb71e61b37615;0xb92f32e4763bc;0x830da8cded541;0x6394f9b7c0855;0xd9df437a03a17;0x4348ad2bbaaba;0xacd64c48b5b3e;0xcf512a0ec51];[0x0;0x735c9864f5127;0xaa1ffd3be9c4e;0x401b4669f96c6;0xe6987cec2181;0xdaea7db7d4206;0xf4c8fc57e023f;0x7f19e7797c19d;0xfe5e8b193a3bf;0x24d43d072e4e8;0xe6b9669ee7e46]]);
 ((V [0x5614a217f2cc7;0x9724caad7e8e8;0xcd2be19159a2f;0x9627cc662144a;0x8e1c0900ff30e;0xb6076daaa65b7;0xdb6663fb508e6;0x4ab0ceb344e6d;0x1c6a138407b11;0xf3993004f93] [0x210714ba7e;0xc966958466253;0xe48a36be48bae;0xb6c609b37550e;0x82867ab04f3c7;0xc668bf5f3249a;0xa8575e2cb3201;0xe4d6059e1b551;0x7a805b648d63a;0xe37fdf976c0]),[[0xc907181689616;0x50702919a5881;0xa6a6467e5cded;0xaabb5a7a7264b;0x2efa5f3effe8e;0xe8ea472e9ca46;0x19c139f0d639c;0x6eab3fb37af00;0xa2da4bb0eefec;0x8b6c793edb8];[0xd695310c99ea;0x83b2e9ef77f9a;0x6e61acc57a443;0xe7b144077c2f7;0x93b9c8ba8358f;0xe9ef940c387f9;0x9bc0a43be2f1d;0xfb708b4cceace;0xd49db8bfb8856;0xdcee7706c6d];[0x0;0x8e2aee01d1c2a;0x7f833509a08b3;0x66c6b9146af8a;0xc052bc263d42a;0x7d2487ac298dd;0xd567af3d3d0f5;0x803f0125b6648;0x5de5457a7148e;0xa692b57dd85f9;0x832c9c3d447];[0x0;0x6f15ce3759016;0xbac9449df0ef7;0xcb6e12806c70d;0x1249ece767c1;0xbbf4761d1768a;0xba48f4d234d37;0xa2b8877544f46;0xa8a857487b1ad;0x7f4b83c5d12dc;0x6903162b050];[0x0;0xd21177ba2fd23;0x8acc2ef532df9;0xd7a242ca3e597;0xc2d70c22e39ae;0xdcb7cbdf38023;0xd0752279d745a;0xa3d90d1185f27;0xff7d9d2ac8868;0xdc51f18799670;0x4beef9a0c8d];[0x0;0x3f4a4021c7eb3;0x3654e387bba1;0xf46c66971093;0xa01a2cc40e800;0xe14f9d2859d23;0xdb5391bcc323d;0x16ca97aa94cf6;0xa540abffa6e7a;0xbbf51e9289055;0x8bd707bd7a6bd]]);
 ((V [0x4154da5316f18;0x76e4c825e03e5;0xc85ddf909942e;0x9fcdd89a0e87e;0x73510a9ccbe8e;0xbbf81d6b100ff;0x2480b1a5b3c35;0xeb7f5a7c47bee;0x7a691c8919daa;0x42922e225f8] [0x8e312c54b3c23;0xa41cbc38f86dd;0xb775a4a2d4ed0;0xccdc537961944;0xef8c9300fe35e;0xedcb7af96bfcf;0x6680ed8c6d776;0x4db787ec0cfc4;0x758228b66474;0xaee8b6fd76a]),[[0xb81837b34b268;0x9ce9255c3b6a0;0x4db0e1483b63f;0x3f0ab82b7a9b4;0xdac7a092d91bf;0x230d1281fe6bd;0xc377b1402395;0xa7891e273be3f;0x71d90dc7d7c48;0x7f2bea54ba6];[0x4d22b66ba695b;0x129900feeeec5;0x4a9f062e8e46b;0x9dadda91cf838;0x3c54972f9ddaa;0xd15aec36def43;0xe0060df2fea0e;0x4d5a09abc1a65;0xafc02d2ad1aba;0x25327ffd4e7];[0x0;0x8073dd17f13fa;0x4bbe99029cbce;0x5d67d0a83c951;0x329604111ee9b;0x6fae79aa8c5aa;0x444cb07ac7fbb;0xf74a7c597668c;0x21e404ee55e0a;0x83a20e41c2eeb;0xe7cc2cd3e00];[0x0;0xe0c8055d6131d;0x10cf9169eaf56;0x5d7552505c896;0x64a2df9b8a362;0x83ee0675ba9d6;0x544700d4a82a;0x2e01136ee53dd;0x9247fa5e64226;0x6867f6632ed39;0xe206ed49b60];[0x0;0x2d35a0df33996;0x24e204eb167a2;0x7098dc1349918;0x8b4826b226051;0xe021e18c1da49;0xee74dee520b6a;0xda9211563e89c;0x3e929f707adc0;0x7eec906e0ce1d;0x3f2c9a089fe];[0x0;0x1236a1737cc39;0xa657eb5d4fd9b;0x8fc557c8f4502;0x3c5bcdc914f15;0x85c5f841d2fb2;0x1c350f83d1478;0xb8a02e7a4cbb1;0xc2f1b21dc7026;0xc085aaf8bdde4;0x8003071736dbb]]);
 ((V [0x1e51f36e588e7;0x7a6b36b110b8;0xb827f2bf09ada;0xf45b3b01697b4;0x6a05af1f6e67a;0x1aaaeace1c531;0xb80ff9e5ed5eb;0x3ca50f500a828;0xdeb5eda3ad892;0x9ac243827f] [0x96c9ea6c0a8a6;0x145ae651ddd54;0x262cb8f39e529;0xf6485f2da4762;0x6213b43dd07a2;0x62b65d0ec79e5;0xe5c023e79a435;0x3b0c12ee45537;0xfdfa7bfbc9ca3;0xd63f36986c9]),[[0x17703b3a5f027;0x8f31e0bdfda8;0xe00a8dc9551d6;0xca1d98f559115;0x3510907a4c980;0x1b86e2b2d0498;0xff87c00422689;0xe62a62655b038;0x2b9b040b3c6b8;0x24e1c08aea4];[0x433d0710cd1cc;0xafc4ebe3e5cbe;0x534201177292d;0x1f8f8053542ad;0xb59e12d88a934;0x3b851390a637b;0x8e8bf18389abd;0x9c4c7891581b2;0xc65a285158ef;0x24d38d24cbd];[0x0;0x5faf4bf08bec;0xb3018ea5ba42c;0x79c71bd46beb3;0x19ad4ffde4642;0x5219a8fd7b206;0xbe53811074687;0x8e3908e1ff2ff;0xe0b895ae6cb7f;0x7478f6d3e73b2;0x114fb34260c];[0x0;0x7eabceab5ec6e;0x64c49fcbd93ab;0x43282d306ed8c;0x9735914b82ed6;0x32731d13b0887;0xcbf1be54895f8;0xadb6181986452;0x9b806eeeb5969;0x5be92a7ef4243;0x3265efa3d86];[0x0;0xaea4506149256;0xcf416bb1a79e6;0x8e474e49e28f1;0x9383feb008a43;0xd7dec0adf8f7e;0xeadac1e134ef7;0xca2482d0f37e;0x3982559e89ec2;0x3384976daebd5;0x550453b16e];[0x0;0xc1b3f91c06d09;0x85f4f9ee08f53;0x779f09f5c034;0x1fa8dd670f6ff;0xa5f38ee749aec;0xada8118da1658;0x55865e91f3e4f;0x5b34d2544a7bc;0x8b3def1400b15;0x250ed4d1d43b2]]);
 ((V [0xa10616ae332e5;0x84498819b23fe;0x863db5a011ff9;0x53dbd0ce291c1;0xef821c5c707a1;0xd77e23d7740ee;0xfa490210c7ac5;0x4553303965426;0x33e9d5672027b;0xb11b8257af2] [0xe7f633ab2b74a;0xdab01e0b8b24b;0x2c29fa5a621ba;0xd82af76495c30;0x6bf1d6e3f2d1e;0xce850646b7213;0x43b0160664033;0xd6f12e2d42e15;0xe4eabefa34ca3;0x4d9afbafb33]),[[0x31c702b8774df;0x192707c72d750;0x51efe3e49c170;0xed7d745dfc6f4;0x23447498d4ca0;0x5685e25c4ab64;0xfb5afef8f5a17;0x4e2f20dbdd4c9;0x581539dd047b0;0x348c966a54f];[0xbd1fcdf3e074b;0x94c3c92fc722;0x673186cf2ceb5;0x990d2c0f052b4;0xabcbf48b63eb9;0x287e8eddb1ac7;0x7a3dec119b4c2;0x819067541dcf4;0x8f3217fce285a;0x61447eba013];[0x0;0x15b38749eb5aa;0xa19f96489b4e9;0x1227079207909;0xec4f8e9aa86a2;0x2a638d4ee2412;0x6fa6e719c28dd;0x939fb2a612a4f;0x4bcd8802cf327;0x56f51e25662bf;0x5d8e4ca36];[0x0;0x49e5b7c90f1f9;0x54e80937ee6cb;0xbc7dcbbb38509;0x9bd0505dbd323;0x5c218e13af758;0xe91bb1007fb00;0xfc948c147879f;0x53efa85e0555;0x88450e224f;0x57f4ff15b16];[0x0;0xa8e2f0b749602;0x5c2bb53e5a52c;0x468db9880eb63;0xd9ae513945da;0xa80290ed2c49f;0xe114e25dfa66e;0xa5fbf03cda247;0x7808c295c545e;0x170c996a0576c;0xac96a500f3];[0x0;0x6f2307a0919a1;0xc7074b776c5d4;0x5c6e3a04bbb7d;0x5879e2387090;0x5c5127ace4d06;0x2653c0645f8c9;0x1289240c10289;0xaccc9cafab2db;0xc85427303d33;0x349ec46e589cf]]);
 ((V [0xf5f09f4ff954d;0x605ca61417722;0x869ec6559fdec;0xb9b17a4552254;0xa6b7e368f78a2;0x8da9e41ded0ae;0x9a9b201574049;0x186400f4b2d8f;0xc1038d002f818;0xfd3e12031b0] [0x5544498fd1da3;0xc0842e8c365a0;0x1b5d39819fc70;0x46cbeb139337c;0xb372feabf7f09;0x7cde3b4135a86;0x3d9e4f70ee1b6;0xf4f37350b84f0;0x668b034b4e7c1;0x870dacaa7ba]),[[0x70f3edaa98650;0xcdb3adde87ab3;0xde9aadd1c66;0xf8abc6fc22fcf;0xaba20a876dc65;0xc551aa54e3d3;0x855e3ed0553f9;0x932bebf148c48;0x9e6a6d3150985;0x6058d9536dd];[0x7156be0854262;0xf6049f7127f77;0xe30243d449d4e;0xba0ab23bfe609;0x8b458260f8840;0xf3860aa69b99;0x17a678376ba6b;0x5e0de60fb472a;0xbb829adc89c41;0xba5b992a546];[0x0;0x45fcf740cb9d1;0xbae4f099fa97;0xc58403e702d52;0x8d6945ae5ebe9;0xb557ca615892d;0xd823f72495086;0xa256c7a61a454;0xd266a390ba5e8;0xad9ed141772ac;0x7a870d32010];[0x0;0xd163ca9162bfa;0x7d0a429d41a69;0xc61c771d0f712;0x775f4ef606391;0xa2f3d8d6ea8e0;0xc456ea27d871e;0xd1259521515ce;0xcfa503ffb8a01;0x31e8ed56f0226;0x3a6a1b14230];[0x0;0x90881979706cf;0xdf6c24ce842c7;0x3f2505bf2bef6;0x29fbb442d094e;0x239f7c35b379d;0x2d2d9683aa079;0xdac855ff62fd7;0x2a60b30b2f266;0xd7e3784768f84;0x2442c1d4b43];[0x0;0x6d16dcdb06325;0xa5777882637b1;0xee68fae10218d;0xb296192f1e60;0x2456466f9db5c;0x658112fc2c477;0x91577f9002a75;0x2f39bfbdb4dfa;0x3bebac76925ec;0x609c8aca5d80b]]);
 ((V [0xa7de297d877d9;0xf4d4fa918c90a;0xb068575b665fa;0x4bacbf7254015;0xd1ed14e52d97c;0x842ef553b0c89;0xc433ec9237619;0x403aa26cd5073;0x3f5b79586b3fa;0x5165da21d57] [0xf871b04d4cb11;0x24c6cd05435c5;0x1d4eeef174888;0x675a51d55a1c;0xcee6f8eb38b47;0x26fd5ed9b474f;0x40fd9d9cd0b9b;0x885cf451b203;0x78dff898dd0c9;0x92ce5b54680]),[[0xdb40842eed3e3;0x5940082e4484e;0xdac907ece123b;0x410f38e95b4af;0x7ff067f021003;0xed2cd33db2eb2;0xcb8a034c6710f;0x1f278b34caa02;0x34929fb717b9;0x304f07be59f];[0x9811a4ecc2c5c;0xcee3a110a8343;0x9f93782b29fc0;0x10b2829657c8d;0xb95a40111ce0a;0xc65541cda2141;0x3ef553973387b;0x73b0288cfb7ef;0x660614aaeeb77;0x93c0a25793b];[0x0;0x1b8c2531f30cb;0xc4868cfdda1be;0x4a0a115873850;0xf126145aed201;0xcb05a5c7adc29;0xcab206d0e9f31;0xfcfe535b52c3f;0x9911f58b233da;0xb61bf7e168a62;0xfa83bea6de3];[0x0;0x8548ec84e17f6;0x40d6bf2026f49;0x8a58340609ca6;0xd2b70d09a938c;0xcb9acd034430a;0xabc35f24d99ca;0xc877a95611233;0xc3236af8fc8d8;0x94af3e125538f;0x32f8835c163];[0x0;0x8f4315c97587a;0x1d542a5a50fff;0x387eb36b8e6b1;0x54104515d746d;0xd5ae80ce583f3;0x828d93c541a0f;0x43c91531eadba;0xb7c80fc243c3c;0x18c6c316a3037;0x91dbb4d297];[0x0;0xf6d6063787c7b;0xd21515ac72a4;0xff8cd6381cdb6;0xe93ba22a99f2;0x13bbd808cd26;0x752269d8aac3f;0x53d29a8216c;0x9c968cb341781;0x5d19f9b875117;0x309fc45d7e761]]);
 ((V [0x100ea847580;0xa155e7d9fa75;0x57ed1c081880b;0xd27fc24aa3cb2;0x89dab2312ccd4;0xe7c33d7d54a95;0x34e383fca019f;0xb6598c9c5edaf;0xd327e688957b8;0xcde9f7b23ad] [0x904890f98d19a;0xb7caa6c6f4fc1;0x89b1ad901d278;0x5446a552f2d11;0xf72f87b01e7f9;0xc68949bfd0d17;0xb2ac65261d47c;0x8a1ec97a9140f;0x8ee417749979b;0x4db02cee154]),[[0xb77b975251f06;0xff5996bffeb7b;0x91a2acc73a964;0xd2bd50012719f;0x304f2c8191309;0xefb72ad40505f;0xfdead8c8ee49e;0x781acc8d8e10e;0x46627c253136a;0x399bf0e9dfe];[0x6e43d64e7cf8f;0x6d50fa68d4983;0x206d4b2927a3;0x4ccfdc300fa31;0xa8cf614a9ecbe;0x9e33af34a6cf5;0x16d423a6f8441;0xa4b7e761f4278;0x5a5999a7679a3;0x3d12232b401];[0x0;0xfd6bd445c0e8e;0x442ab64e3cb8;0x20ee390b7fe58;0x10f0be45203eb;0x7548d2c40b4d4;0xdc48cb1d5f251;0xc8a790427427;0x84f7cb54888d9;0x3730047d76996;0x19e19c8f41a];[0x0;0x87458725c12cd;0x2ed926a4f55f4;0xed52e53493493;0x20e2017f61715;0x70c2b8e7305a5;0x5202b642e355f;0x66c855f132a09;0x61bb25aeca7d8;0x350ef0cceedbc;0x4212bedd563];[0x0;0x3e4d56bd0a17e;0x90b79b2fabda2;0x727e0300165a3;0x6bc09ddb3ff4;0x923ea89a99baf;0xb9dce57757118;0xe03e0e2128124;0xd02ced60ac2eb;0x2d86f9ca85b9;0xcf6d045c3a];[0x0;0x913d6580d6543;0xf957485dfcbfb;0x1ca96035508d3;0xc20595cc961ce;0x22574d59cc2f6;0xd3fa1d5c0e44e;0x4bd105643d989;0x3141198bd098b;0xc440ff6e8e04a;0x39b98797091a6]]);
 ((V [0x3eaca0dc6dc17;0xdb1e2c5d78747;0xe1f78dcb24097;0x86717b076c5d9;0xe0006086d9c7f;0x7bfe5cf875191;0x5b7a81548edcb;0x4780b72431ffd;0x30742d4bb28d8;0x190eff1c018] [0x372ce2556c931;0x66f1c0bd9c1fb;0xb9dd5b022bf74;0xdf8816185fe21;0x5d9bf6cfa3cd8;0x9f6f07883f982;0xa9d43ddd7d5fb;0x17bdadbf6d9aa;0xec7b0ba6a35b;0x17413a895ad]),[[0x91bea9d5addfa;0x4b5b479ed96db;0x993b562b66c5d;0xdda0378e99760;0x776a5b5fe82ec;0x41a33789419f5;0x8f6d7478e1027;0xac43c6a7b6bac;0x897fa68ce375f;0x8d65c576048];[0x2d097e7cdda62;0xe81fa64b9c7f5;0x3f6fb4c018c1e;0x9755e3f301cd3;0xe0d2f2ccb1679;0xdf6ae0363c85;0x868114c1f5814;0xf5e73bb93e4bd;0x74ee9ac2def32;0x2f785a01142];[0x0;0x8bf63fe6f8572;0x6f1380246a7d2;0xf752a90e3bc9f;0x27379ef750f58;0x618d6e9a89254;0x4dac93d3081be;0x90fc66951871b;0x68201f14a61e6;0xed3311e196003;0xa5a08c88445];[0x0;0x8b628144ea132;0x635fd4549c684;0x5486deefacb1;0x1d5aa8ea93122;0x8b0ce7f6cd824;0x6b4052c589aa9;0x76fe783844517;0x83ecb1adf99e8;0xf6312f95167b6;0x55d1d65a7d9];[0x0;0x81c423f2cca8b;0xb200279e0da49;0x8a17c4d7ddd26;0xd6d331b63f114;0x6e101b81c4b4e;0x724534511b231;0x207f43ff75d;0xbc240b0c93e19;0xce4942af1e97e;0x4e1943f9686];[0x0;0x86af6ddf67343;0xd090b980ef3ef;0xdcf495765d931;0x654a1b63d2e78;0x8857f88a930a1;0x7607040debf84;0xf2ada9fdf541b;0xa0d051bba89a8;0x9f7bb61fa20d5;0x8e570fbc493f6]]);
 ((V [0x20bd9ab2fbca;0x245e57851b51a;0x1ca9b23c6a2a2;0xfb4aa257a9d24;0x2df0b5b1d9f9d;0xa4ad29d5db37f;0xa50fea25da5b6;0x635f5a00b0731;0x1e5d39fcace66;0xfbb5b353c82] [0xf0a567d385024;0xfee7fd02a11fd;0x911c3ed53294;0xcaadfac0b5fc6;0xf3c056b896cde;0x158af5451aa38;0x113ce6b5ba329;0x3d80843a6eccc;0x6c236b2416a4c;0xa3468a2fd32]),[[0xad35eaafff109;0xe4d07ec4d3775;0x8ca7bec90d565;0x31806fc7611fc;0x4a91bea888ebb;0x2ec0a1374198a;0x1159666f146f3;0x37bf797a8a70b;0xca216b350f793;0xe2e6a7c749b];[0x5abf592b1b913;0x8e385869b52bb;0xbc726ef0a1b45;0xb0524c601d245;0x370383ac4c5da;0x9f7b21f9299bb;0xcd6558eb73a9e;0x9ca3e40f2c316;0x5aea5717c023e;0x7669502337c];[0x0;0x5172b1e2a3f12;0xd6dc66ea4d195;0xd95b70ec117c2;0xfd8923904ecd8;0x7212a66f6d4bc;0xac5f9e4ca242f;0x2526360b2effe;0xe32aa8d46273;0x48fd335fed5fd;0x273eeb45d9];[0x0;0x84af8cc9f11e3;0xea669fd9a1d65;0xfddd1e8b2206f;0x646599f908279;0xe608aba3add1f;0x565a67eb2510d;0x698baf83942;0xb536ead4f9e56;0x5bf9cf06bb63a;0x2939130b025];[0x0;0x56eb9ead62df;0xcfaa56bbf5537;0xde7e2dc26e572;0xbda6fac30b69f;0x80477edd7b712;0x4e7ded4a27152;0x7c579315579f;0xa015813a7facc;0xf2a7b295fe74a;0xc91c100dc63];[0x0;0x85daf647300a9;0xdad9037aab827;0xda74d6a44779e;0xc649cb1f48d67;0x119e6283c4f64;0x6a09abfdb2607;0x17cbf8dab2a07;0xdfc6d758cafec;0xb00535a84a1a4;0xe300ab0da6ae7]]);
 ((V [0xd9447e185a894;0xb99bb29621a73;0x5799e18723a49;0x17c636dfb8152;0xe5b3ab080ec2b;0x2926ea948490a;0x9de98e5394bd0;0xab392eec6b0d6;0x28f34ff464f8a;0x4ab39e00c49] [0x9d56114fe0a95;0xe5306e07a93a9;0x3bb2cbec45124;0xc3c3d80906bde;0x8a44ddc3bb6ce;0x1fde356a2a292;0xe65a9e83dbe5e;0x43b4f0b531e61;0xa37477981cee2;0x97dbcbaa613]),[[0x6f9ea4847824d;0x784359be5d9c0;0x4181bb6706001;0x1e2660a1e30ee;0x97c830baba3d5;0xf0dad3a5e78a0;0xb40feea88ca38;0x86e0f9822b7dc;0xd9f9d47ac33cf;0x6245e710514];[0x869e09cdd1bde;0x443cbe3469393;0x3c50a0d79fc21;0x351c34da41def;0xfe14693605ba;0xeddbc6cd91394;0x907671cbd7878;0xe3739c24e744d;0x59377d8d31c7f;0xa868d6a974d];[0x0;0x7257a9e949c4a;0x3c69d4595c112;0x488a1a4b40328;0x22cedf9687a3c;0x9bf11a485bf89;0xf870895f93a19;0xe65a8cdee9b5d;0x965ae44939a81;0x9bde6c26d99cb;0xf77dce9d5c8];[0x0;0xe87a70d52f166;0x286c65102b4bc;0xfd93433cca5ea;0x504a368efbda7;0x34cc38757bf54;0x25eaaa485e532;0x3c07357f12331;0xa143cbd51d333;0xabc1c8d4a65df;0x7d5b2c91395];[0x0;0xb16bcd72ab0f7;0xa5d7c4cd65c8a;0x625a7736c046b;0x2e2ffa2994f9e;0xb304f5c2b96c5;0x50d3f78b112de;0xc13ec9d8ffd37;0x7ba6c9b26bb5a;0x9b5d0cf3c7c0b;0x25b997fedd9];[0x0;0x6c692d0d776a0;0x54a01bb49b089;0x5e6a0d3ddecd4;0x5b21a9654843a;0x4da1fe4f44d79;0xc199d47d35a8e;0xd49bace698723;0x27b56fe2999a;0xa3d34f5f4126;0x62ec2018df4f4]]);
 ((V [0xd41ac460be5b9;0xe853e010c6710;0xb9c7f87f96f79;0xd396888fc307;0xe090600ab931f;0xabca55d10dd57;0xa09c584f00e2f;0x72c81e731a3a0;0x1cc95d8bf3523;0x5c89750c3fe] [0xbc5ef009e474e;0xd742425595358;0xf92caaf7eaa27;0x61c28f479f891;0x7546e1847a72f;0x112787be6726d;0x4c701d5d76d0c;0xfc4275397eb79;0xf6d92fdc0e40b;0x9e67dbaae49]),[[0xf94795927ee39;0x1b46d541337bd;0x67007da53d894;0xdf05df7cf6c95;0x4691c3cfb0abb;0xb08bf7e28286f;0x4e2bcbd9fb301;0x77788d786b4c0;0xe2e49b35e22b6;0x1aaaa6ee4a6];[0xb13cfbe3ab8e1;0x8629cec66ed17;0xa4244c435fa9f;0x15c0d76a07c06;0x67b9a1fee8e22;0x3df61f203394a;0x82871928d780a;0xac4ce64d17a00;0x32f55a8829737;0x3cf8118e865];[0x0;0xd0173732c49d9;0xb83fde87587ed;0x6b458901024bb;0xebd8df9ba73db;0xe77eb1c1fc293;0x86c6194b53844;0x89421435f01fa;0x8ac29b32c28;0xc92646767cc9b;0x15cc555ec83];[0x0;0x79517a56e7275;0xd33f3e7c952db;0x4300c7a82b20c;0x551acda020e21;0x9ca859c64a0d8;0x983c64deebc57;0x359dbb4cad5f7;0xe41c7cb22b0dd;0x664fc2b84de68;0x1fa31b54db2];[0x0;0xda1c13aeadfb0;0xbf3ba1abee8f3;0x58dd0e8dfc5d6;0xa38a2ef4046c9;0x78e293b5c8d83;0x14d5092c08188;0xc8df80bbc3184;0x2e0f79b3c50fa;0x32211d0dadfe9;0x2c71baa887];[0x0;0xce77fdd11a559;0xc808fc0c823e2;0xf76823a184502;0xf3dc6b766e2a1;0xc300cd2b3b345;0xd6fe42af24e67;0x77daec0e6d3d5;0x8193469674dab;0x7ad3b2bf0efff;0x1ac375f9bf7d0]]);
 ((V [0xe8ec7eeeb9f6d;0x441208a788f2c;0xb226c09343f22;0x3f62afcd8e42b;0xf6f7976a90a2d;0x7ec3decfd289;0xe54bdbe1cd22d;0xd50d4bb039264;0xe33b84bb68a1b;0x27977027c0f] [0x8a9c6af9187a6;0x18afd5a6ae4d5;0x6b9b4b5da3377;0x8360baf3cdda7;0x2e4a28d81ec75;0x860ebf13d0038;0x936d59b4075ca;0x805d35c6fafab;0xa687db3d79150;0x93e3b535e6b]),[[0x3363b2066a8f5;0xef6d74e35505b;0x3d0c9b4cd0de3;0xb6704667d385b;0xb8364d66be29b;0xe4149f61ed617;0x3e72a95ecdc5;0x94b0f9cc4de2;0xf1ef9f56703af;0x713d9f229d9];[0xb0f3bfbcef8d3;0x86b972555b3aa;0xce1cfd5affe71;0x24722343be94b;0x3ccc63ec9fb4a;0x653ecf6ed2a71;0x5b147363a0c78;0x6c402eddb3e41;0x3d3a6818c2818;0xa9b971e0608];[0x0;0x9c2c62adc5a32;0x147bc3e3cac36;0x1a963975017fb;0xc990a1c58e669;0x249be7ea0dbc0;0x17c3a343a536e;0xf8a29610f77c4;0x768457ba9e39a;0xaddb31e487ade;0x217315ef4a8];[0x0;0x22846810079;0x94ff08b1b1417;0xce1e36e321736;0x44c418ef244cf;0x933fb6ea1f384;0x5f8a87f6ced77;0xd7e63e39db583;0xb2556913bc31c;0xaa2e0e8721a8d;0x8c23f25b66c];[0x0;0x84f300bc4bb96;0x82a85c0299602;0x31f14116ea78f;0x886eb167eda27;0x2a04e11590bc8;0xaef2ea5574a1c;0x150e9d222f75;0x82cdd3a6432af;0x19ba7558f2c79;0x32177551c89];[0x0;0x2dfc4494027ed;0x98a54dac79c93;0xe99a6df9119c3;0xd19f7e7001e65;0x6a125af28f273;0xb8cc667ff89f5;0x165d1fdbf47c3;0x2658a70ef6ce7;0xab2860518e358;0x71c648547dbcf]]);
 ((V [0x4f2f9de547804;0x7fffb74aa5b94;0x85c1bbfa9aca4;0x37e09e954851b;0xd84252c4f9edb;0xcd11449b3bae1;0x4bf3e9f89bb9e;0x42c8266e76e3;0xad54bb9f0eaa6;0xb4f1c620d13] [0xbd407b62430fb;0xaf30131b6751;0x96e0a6f96f6dd;0x6db0b5713dd35;0x605e5ac102bb3;0xbacb08e19ccad;0xa0c828cd9cac0;0x840253d1a3841;0xbe132d13fba4c;0x49257834d01]),[[0x8922f98d896ea;0xa44c90b7d31a3;0x37a61c7169203;0x611b4a35970b5;0x65da8e922dd9;0xbb68e93a86a18;0xae2a9e1bacf61;0xa1ac7d1cab410;0x88104ce26c12d;0x35995eafa0e];[0xeeac0ffcc9ca1;0xc32b4a1c68220;0x9ed54adc0d3ac;0xc569dc94e5f15;0x8202904ba779a;0xa11bf1434c550;0xa07fc9d5fae1e;0xb0157b8410005;0x19eb5e3797bd;0xe93a7f0763d];[0x0;0x7455e074ee9f8;0xb2984cf13416d;0x2eea487ad401e;0x5a4dfa686bad2;0x6f4b118735084;0x9f10759358a21;0x6a63798667a01;0x4ff0d1e0fe352;0x5eeadf6ae3dd1;0x61f7dc19cd];[0x0;0x7b5e6a8ecc5a7;0xba8e737266dcf;0xa050019407c43;0x8791794c762f5;0x3df523b15d29b;0xef5cb3e1991db;0x95531b06faa05;0x69fe605bcd5d0;0x593842657d4e5;0x3ded7c9d104];[0x0;0xc6933cfca28ca;0xbb0faf3114de0;0xd980f7ea267eb;0xb17519bd32a42;0xb295aec61ada8;0xda1c688eb2e87;0xd5d9d37cd44c1;0x37c23aaa7396c;0x40dfe56ddd6b6;0xb38dd17099];[0x0;0xdaa996f37a6c9;0x9e2f882f8cccc;0x604d3541d721b;0x8b94d10c4463f;0x913348abae9ed;0x9620d481221de;0x959929c3872e2;0x5a98e90f3657d;0x73413c0c5d56a;0x35b15fab3e720]]);
 ((V [0x239e1d1e2b2c9;0x1baefde4e9c87;0x5ac6ca8a8785;0xce34e47d8b49f;0x1c24e78c7b15f;0x2161d446677de;0x3b800bd40b379;0xef4a88d2ce8ec;0xd62adc176d601;0xed0c2111816] [0x282d7ce46e9bb;0xc7a304ccb5f8f;0x561a0cc71b02;0x9f7fdbeb878c5;0x3b8be0ac9f61d;0x264a3ec20251;0x44c7eb8d92c29;0x22eed7ddf1930;0xd2ddc2b4df141;0xdb6dcef6862]),[[0xaddc44bdaef3c;0x9895070d88018;0x7b202e82d9220;0x25de5a49946db;0x46932ae889b3;0xcf56191156c05;0xa52c4ab248475;0xa3bacaccc6c0a;0x17424bbfe5248;0xc50af3cf518];[0x2f5f8ecfef62c;0x8ca1efb87ef74;0x67eeb414ba211;0x2b980e9f1829c;0xcc3c04e0acd52;0x994ef436a5972;0x544bd368980e3;0x8b7bbc74b43cc;0x5370b20eb7f10;0xbf9176147ae];[0x0;0xd4e6ddaa936fc;0x1466d152d9354;0xd6dfa292db068;0xbf75fcb835b25;0x22968f0d15035;0x61eb9c0de80c7;0x690f543cf70c8;0x6748a542e6c4e;0xb749411b675ed;0x7fe4e2f4c95];[0x0;0x17f03d64ec5a0;0xe6a2e9b7ace59;0x38576ed47e9fb;0xf9525e4474c18;0xdb57aa08f9c96;0x4ce0b32b5f206;0x507938de82a76;0xcfeca457ff945;0xb8376cc74362d;0x7099ed4247c];[0x0;0xb2ca06a373ec9;0x629037bd80b43;0x350a1d57a3f3a;0x492f5b14f9169;0x1885b325eab3e;0x98c7e2b30b078;0xdeeae5696e5f8;0x8fd6f5092ff07;0x6d77e47fed7c4;0x97a9dbb507d];[0x0;0xc1efa01f66e2e;0xc358dd269fb7b;0xd9bfb5270d3f4;0x4731f7ecc4645;0x7e67e478585c4;0x40b1d09b1feb;0x9bf78756b9c77;0xe36b23c09322e;0x91aba567843a9;0xc5a4d014af9a7]]);
 ((V [0xb28a76c31825e;0xfee1f8533adea;0x7ce97feb068b2;0xbb65248f11a4;0xd39c5f6d49d3f;0x7e1e2e44b2cbe;0xed99e2e41263a;0x76196cbb7cbc9;0x2794c791dc001;0x5bfe69e0cdc] [0xe42e898946f7c;0x278ddca2bc422;0x19002c6cfbab9;0x4fa55c8e34c04;0xe58813947f8bf;0xf07a7986fac37;0xd1844787d164f;0x4bb56468a1df7;0xa4955991095b2;0x745a2202bf7]),[[0x5680413fcb04c;0x48be688b3321;0x21e3cea29c58f;0x5afa5866c5e1f;0x33a399e34e5c5;0xb042fd029312a;0x3e4d6e586d990;0x9313d4e8d52c5;0xfdf869e210c80;0xe85bffb3af7];[0x519b834b02e2c;0x6b3027333c7d0;0xb3687e06f1b35;0x4652c1cd72c6b;0x9e90a8bda4209;0xb5446b8522656;0x4e9e9e4eb8251;0x4e0e97612e733;0xfef3ba4f8f7f1;0x9dd4d91b60d];[0x0;0x2814be9707333;0xba854af30f7e4;0x55a42a2eadb81;0x1ea1752d8ea35;0xf736788de0d0;0xf43dd5f1e76f3;0xc0da2b63b2631;0x452d5d345ede3;0xe2f879de77e88;0xdb7f75cd878];[0x0;0x78193ae70ab40;0x67683cf9cbadb;0xa1cc1eccf3c8b;0x231c3d0b076af;0xc046298571250;0xbdbae43944596;0xf9e7bc6a6e7b4;0x789e892ed19f4;0xf2a63c6340f6d;0x18e54bd88c12];[0x0;0x62aaec5295c60;0xcbcd0408c8ba3;0x4d964994dd7ab;0xb1299bf55b620;0x81c971ae73657;0x6c1321e849f3f;0xd27dcc559d40b;0x7e0a04f840806;0xdffcc8cc12ae8;0xd2e6e085773];[0x0;0xcbf576b76d557;0x4ffc86a473b06;0xe6892cb3ed87e;0xfeb4a4a0edc71;0xb32c1727b0738;0x4954be4c969e8;0x71024b7a65852;0x998982934f6e2;0x3961a22a18f02;0xe9c8044229ea0]]);
 ((V [0xec97fb90fc6c9;0xdde704634808b;0x4a009ad2f36b0;0xf98d905c32888;0xecec94597b846;0xbcbf42b772877;0x7d55e5bb586c7;0x360d33d2c16e5;0x718c3d037a7bb;0x812a3b50021] [0x869607872ea74;0xb5ae6abff37b5;0xb9f8a3f7063f2;0x8e2e68176caf0;0x980f69f56deed;0xbd7d44bd93133;0x2759c854a5fa9;0x65b89eefd497a;0x524519a7696e3;0xeb993e1efde]),[[0xff669d7f1ffd1;0xa5a856b391c69;0x442c97b9f91a9;0x6107cda72d2a6;0xa1299dd27b1cc;0x55ebc0128de57;0xfbebe51c4086a;0x297b1625cb89f;0x197a1e2ef1850;0x524529f9bc1];[0x406f4a8357954;0x5f431ba253e00;0x3b3436e287743;0x96f91aa181003;0x5329c38b772e4;0x99ae59f769965;0xd38700a61e3b0;0xc5f05901a64c5;0xcc60e3fcfb0a4;0x5b546f0912d];[0x0;0x6e3fe88da9550;0xeecf3b0c5a109;0xd12773810186;0xfef6c84ded586;0x3c84bcd5814aa;0x530e051529df7;0xfcc9e7b31eb03;0xf3c83b20323de;0xabe57531188b8;0x210edc1c182];[0x0;0xb725147f58388;0x5732c0bd73238;0xc58397eb115c7;0x9c8023a383b0c;0xca2411849040c;0xf4ee2377e2ea8;0x234bd709531fb;0xacf53492749d3;0x4f9560ef2c01e;0x4ac89c87f95];[0x0;0x20fd703fc8a04;0x9f4e24de9d6a1;0x6428e2bf485ac;0x175c1eda74d72;0x2f74607ce06e;0x65c246894d7f9;0x7d1fb41a51788;0xc34fdf508575c;0xc987c799a2bfd;0x1a706193a3f];[0x0;0x7ecca93ba3174;0x8c183d14a3907;0xce62c3965e9f4;0xa87e4b8130ada;0x6aca4a9f43ae5;0xc8b53ce2cbef2;0x89f53bfed9f3b;0x512b757a68975;0x4c35b3c421661;0x528b7d0fb8747]]);
 ((V [0xd3f1e0c0a1e0c;0xff6f165e02f0a;0xc15b934e4cc39;0xa8019a12d3862;0xbb9f233d7f78e;0xee21b474b7172;0x4990a6a6b5cb5;0xa5d4c5c360119;0x6c502c83f0ad2;0x15661ff8260] [0x292bf3bb8a298;0x6794c592d07ab;0xd72907ae57270;0x4dd74376dacf3;0xe39962482809a;0x68090c5a9a242;0x5d2fb25fcf702;0x827c5db878353;0xe8a24b5f6d562;0xb5f072d0848]),[[0xf63cde86af6c1;0xbeced961e491a;0x9e89d16513cd4;0xb4945b8788196;0xb21f2e9cee186;0x7d53f50fe2549;0xbdf95da77f79;0x1ec84e279f47c;0xa288fcc8c5d19;0x76d25ce5a44];[0x51b1176df7117;0xfa4f27fa151d4;0x181b0c404145e;0x853756b3904ba;0x92784bc53a28a;0x380bf3b8c668d;0x57dc496926114;0x6728ece564399;0x1b50a862d579f;0x2cb69f9aee4];[0x0;0xc52146867e976;0xd36ed661b8657;0x6b6b79ebeb2bd;0xd705f98e3b4c2;0x2145006da5d6;0x183801bc4cae2;0xecac1740bbd1c;0x4d5bfeba44f3;0x9f0816bf68422;0x412b96be261];[0x0;0xa1e7f0a219b29;0xc1a79065dd4bd;0xa698a273997d2;0xc85848853edda;0xc5369a10de820;0xb98ae3c7a4ad;0x49bec8ed6da1b;0x7c27ef8f3ba54;0xc0a31eea8699e;0xdab477ab501];[0x0;0xee84b2bd33b05;0x261792888eea0;0x2af657e74f8e6;0xa8d2a110db57c;0x8c48e490613c5;0x992d7b6df45db;0x1bad00ab41e27;0x73431eddd1ae1;0xbc323bfc001d8;0x37269a803de];[0x0;0x2b5e7310aa8c8;0xd96cd66110904;0x28d2763745a56;0xec99fcdef3ff;0xa4d825086c920;0xead93adb8b4a5;0xb11c35303d79a;0x6baf7aa057307;0xda6511cef5215;0x777b34351e015]]);
 ((V [0x3b92a84f65fc1;0x2e75e56514249;0x835a533d4f0c;0x850a008a440;0x2f75b241ad70;0x692a72e670c42;0xacec7b4683ab;0xde3fb40cd233d;0x1f4e4bbb80858;0x2b46295e196] [0x6c796b4cda1ac;0xc20bc2a682d58;0xb8a07fb1b1a;0x8ccf4ce16e796;0xfcb9d754b33c4;0x98e084b27faa4;0x3a24113cc9491;0x8df7534449b7b;0xa0b08e3abae88;0xd004e379d0b]),[[0x96db400a703a2;0x553d0ff47e85e;0x4ee5178e77c35;0x672cb7119bcdd;0x59e3a2ce77c33;0xce3df443f2d5f;0x8567a360bfd88;0x539e7216db8bc;0xe207c459a0731;0xd6467b7f8d6];[0x806d4ff3c02d8;0x32ed6b0fe6811;0x719cb030efebd;0xebefb4a9cb92d;0xa10302134fb06;0x4c2fed0fc15a2;0x540538675dc68;0x542869d8c4842;0xba5478fd4fa83;0x2286929d430];[0x0;0x26c006142488;0x96fd50b5320d5;0xad4082a483951;0xac0675997de9a;0x1a9b807d9d2a3;0x60e4ea6000d9e;0xbd4b655735165;0x15066cae48f9c;0x97376c98c4e91;0x1c9e9fc33f];[0x0;0x7ec2515922d4c;0x1099b4dea1c37;0x3f572cedbdb89;0x1c41c8db0ff6b;0x167dd78e9c003;0xb6ec08003db42;0x188ec64d0d793;0x221bc0849f89e;0x47e7688415e3c;0x130922efdc39];[0x0;0xdf4a159eceffd;0xff8fdee3c3229;0x47d47208435a0;0x36dbfc716a4cf;0x3fe4d1dfcc37e;0x3f456dd18b2c;0x41d60f1b4e40d;0x4c19f4b45ad50;0x947fefcf1b99a;0xb359e9e105c];[0x0;0xf7faf452d83e0;0x62cc450987aa3;0xa8a88e874113d;0x1210639bd02d1;0xfd24e398a3673;0x8d0c0e48dfc3;0x6f15ed0c17e79;0xbbd2085236ed1;0x164138b978e27;0xd70a72ad61a58]]);
 ((V [0xf35fca4a55f;0x200e0763d596a;0xe5ad6271f29d0;0x4f76f13a3ce67;0xfc8ca36c8a3ec;0x485916aefb1e8;0xeb8ea0d78f3ed;0x1d952130caf6a;0x55173d637e595;0x50d1a5276aa] [0x689211ace476a;0xe5ace1302ca19;0x5c3d6c5025736;0x622d3a5ead6e1;0xe462787647b54;0xeefa2e69231e8;0xc5a5fc1021b56;0x4ef6e59676c13;0x45f61dc97256f;0x8ef52643b7f]),[[0xd4da3b94c6f98;0xe947ae0e4566a;0x7ba8fe1b17e51;0x91343579cb6ec;0xae04286286a92;0x979b15922c394;0xe3dabae3ee740;0x5f7f9d943e7d9;0xf6cda2316706;0x5a8a9d25e12];[0x6083c8dc554bc;0xc1a47338aa4bb;0x1eb6f7da256f;0x96220a88808b3;0xca461ae1cb38d;0xe8d6d1ac5ddc9;0x26941d7fdb49d;0x1955af822fe2f;0xa1b91958bbfe0;0xf432296cbdb];[0x0;0x9cb36034f3313;0x88de8766cdca0;0x1d224b08b3ab5;0xe7b6a72951cfc;0x3b485ddccdaac;0x8aa6cd7694969;0x51345142ac223;0x655a8f13cc343;0xc108ecb0bdedd;0x750a52042a];[0x0;0xed82df7063578;0x35e8b4bb1bcfa;0x5fc3657510d27;0x7c955d6885591;0xbe27029b66155;0xbc12b4a8e76bc;0xa42e1fbcc4006;0x579d6eee6c4ee;0x32dbd40ee60fc;0x9324b49a746];[0x0;0x4b2581fe4dba9;0xefee1aadbb73d;0xeac7d99748f0d;0xbf80e32eea110;0xe9aec10e04484;0x2c79571f77e6;0x6c2f682e8de7d;0x211d85b353471;0x960cff3f82029;0x2005c18c6f9];[0x0;0xecbe23a0d17ae;0x46cdc6e30f9cb;0x432686ce07ceb;0x77685a776433a;0x8ad299cc0404b;0x920ec6594f020;0x68fba9b5807ac;0xe41c363e55131;0x87f38f59d988b;0x5ad7e0654567e]]);
 ((V [0xa7405bfbb6e34;0xdb478cc4d401;0x893df818e37af;0xa81e5e4aee5b;0x209020fb2dca2;0xe588b92a14997;0x97ab35d9eeb68;0x4741bcbc09653;0xc23ca733e5cc8;0xee2570b998f] [0x8917ecb545bd2;0x8ca8e3d204ae0;0x9b3a43d97f86;0x40dba3c4f8367;0x6b5ec8592311;0x84b9cad616997;0xfd1c8911bbaae;0x5b605e7e9923f;0xb08ae617f1f52;0xb26d641930e]),[[0x18034540295c6;0x43d121894f34e;0x39208313984fc;0x15146c6dfaa2b;0x5cb7077cc78cf;0x86708327b28ad;0xbba9888c18bd2;0x5918684c1c5e7;0xced9a269236cb;0x9ee95ae663f];[0x16fc5aff4565a;0xd46c58d1b76d9;0xad63f97e42b89;0x4600ce1a224d1;0x71c548c40bfa9;0xe33503f05a5fd;0x6a8be2ab31061;0xd3dd334e79146;0x17e67cf17493f;0x3f1d2fe1ce1];[0x0;0x4cea1814911e1;0xfc55029d7c314;0x6645f6924beff;0x8c3dbfcc4d60b;0xf5809d7e284b4;0xaf7e327474ee4;0x8f095fcf3f387;0x69949df6e8385;0xf4a622ad22c67;0x1983b2e7b78];[0x0;0x5fdaee79d03aa;0xa13e0416bb34;0x284fd6363309b;0x11b0593b8ad48;0x2de7afd2f4ef;0x22e3370b41faa;0xc112423fa9153;0xbc30842b50c4e;0xaf7329312fb6d;0xb17b3b00ed6];[0x0;0x1fc6a0a64ea3e;0x785b854b30e48;0xda2cf0e873be8;0x41ca0acf2ccab;0x5190ef22f1b17;0x4398c17413b6d;0x58a771a9e1c69;0xbb3b8daf5d2fa;0x5055872cf9f90;0x62a4e0eafb1];[0x0;0x69d44f1980c90;0xed9a60be216dd;0x8b3b96a1f4392;0x8dc0c7931fc96;0x83978703edae2;0xdd642a39f7663;0x6db77c660f067;0xc82baa99ae5b7;0x7a30e6fb26557;0x9f269b2084d3f]]);
 ((V [0x45e04d7bf1057;0xc403bd7824041;0x68f95420b4a47;0xfde0ad8f0a4f2;0xbb3e06f2d2487;0xc6bf52074bcd8;0x692a070bad8bd;0x8e755ae74253a;0x3343605247a9c;0x47f34677de3] [0x9982d8121911b;0xce7907d59485c;0x5ae8bca82a2aa;0x8adc3f81f3520;0xe9856e0521eaa;0xdaec20c92a589;0xb86df18e1c862;0x48f86b9f09e8f;0xa0a041eb079c2;0x5bc8d871600]),[[0x4d60177062c9;0xe7e1b957840e4;0xee27f7e61c342;0x13a6575f7a8dd;0xf1adf9838624d;0x247d6cfe88b8a;0xbe61296a48b8b;0x772df5669522b;0xed2d38a3898c1;0x9783a8e9296];[0x5fb64a9e5a520;0x85a86d7a36864;0x8f0ff263cfe8f;0x4d8341594400f;0xa52e5923da074;0x37a2fd2360b01;0x40abf10f578d8;0xa666bc053ef15;0xcdf0e2797d7ab;0xfb93aff7f3a];[0x0;0xffde6aa76ff10;0x8e8567c868526;0xd7e88444bf5ad;0x226d13ffc1afb;0xe57e62ba235b9;0x346b1c8c46fa1;0xdc536ee770135;0x3c221850508ed;0xdf7d9ddf686d3;0xdd89a312dfb];[0x0;0xfb64600042060;0x5d6a6f1155209;0x714f6dcddf8b6;0x4a2d9c2a7e77a;0xfe9f280435296;0x6f95e3e32a5de;0x4d6b7f4c02b6c;0xa110a07f19bed;0x20cc9140e9b3;0xd334937ec1c];[0x0;0x7ec99f8a36a5e;0xa3f4119bf2a2d;0xf76715a781a15;0xa757f647a1b3d;0xd43498f75e613;0x33d7cff1c9e7d;0xf6e27d0dbb606;0x11ccd442aba45;0x3fedf38b4541e;0x59ac94f95cf];[0x0;0x8dfb8f6c8af71;0x2e27cb68ea2df;0xb1454a300db33;0x5ecd2f9c252e4;0xf64a550261828;0x2478eb87c784a;0x9c4a79f2a5f48;0xec66eaade7d37;0xa5418f1b9653f;0x987d89a253475]]);
 ((V [0x6e844ca19bb66;0xfaffa50f5145f;0x494ef2a087525;0x3d7276870f57d;0x3e9a9dd9c3dc4;0x9ff75d6406d2a;0xd272ff2e62f01;0xb8ebded6d708a;0xb5af290365d27;0xe2e5d3e4f4] [0xd6060ea4e0c5c;0xeb17dd5418bf1;0x2b8a3788c8182;0xec324e59201d8;0x133f4cfa34ed9;0x4524e53a8aa3b;0xc73d4a4ba2778;0x493bb89343011;0x687ae471910dc;0xe9503783e7a]),[[0xc3d78ae36a7d9;0xd0b7b8c51de55;0xd2e48b28388c2;0x1e97fbbec94a0;0xb7e9f16158b61;0x1def098347ae8;0x39173cb426c57;0xfc5dd10484aa0;0x1e1f426f46444;0xbeb99a6a6b0];[0x45dc48f4aca38;0xe1508d4e8352c;0x9cb98c3bd459a;0x407d53f49bc7b;0xff06cffa702be;0xe8256ffebde1b;0xb31c13cd39518;0x1cb1bf4eb1c58;0xe86ee69c91971;0x8cb84ee1621];[0x0;0x798495666c5df;0x1595fcda9dfc8;0x8499c903bb41;0xc9779c00f92b9;0x3bfe9fba2f41f;0xf19279959af52;0xecce2283686c5;0xe04a7558d7655;0x601cf6a6ced17;0x1438d845583];[0x0;0x5b35f85f7fd6;0x81b2adc1e10ff;0xe83edc94f6318;0x625cf8ad1ac9c;0xe163bd5820a10;0x14321031356c8;0xed9f01f88bdd8;0xfb9331bdd51e5;0x29956ca4d768a;0x88c3384b11e];[0x0;0x2719d7bd69b3b;0x89133e38ce7c7;0xe405cc3af8665;0x36041cfe6fd9;0x4dbc96a3c562d;0x59c39e94c4646;0x606a41374e6bc;0x413db9aafe2ce;0x9a91a0ad68203;0x8e1807c681c];[0x0;0xb1c00c74cc077;0x7647c29bde457;0x87ca6e2321563;0xf748c977e5549;0x1a2190dd48310;0x1f3e0d63ffc49;0x97e7dfafd4434;0x5aea13bb9b649;0x71af0f3fc2691;0xbfa35e0c13278]]);
 ((V [0x8515b382bee39;0xc0f67d6877db0;0x98d19bce8924b;0xe6a5b174ca874;0x2baf9f70f0768;0x5d0f1eb28ff5;0x2f5e00507bf5f;0x80bd35d06c1a9;0x596b586d5fb13;0x78492c69300] [0x26baf7d61d186;0x8e6574086c74f;0x667501f541dca;0x6fbcd78c6a8b6;0x6758cede7fa40;0xd745dba719fdb;0xb1591ef0645f;0x15906b4ee855e;0x10e8353ae8ef6;0x39a4b8c03d4]),[[0x735f5bc09534;0xb2bb941cb5bbf;0x654cb4739579b;0x3b85f87ce4e83;0x5ce41240d301;0xf516a41ef6cfa;0x33440d0cdcefe;0x1f104e4d56ae9;0xea4ea3f601237;0x9c97b0ef323];[0x5f2e3f9d634d;0xd4d41252cd05a;0x174b46f822942;0xbfefab2b9eb8d;0xa580c3c95879b;0x3d4e2a2ce1a7b;0x75430ce39c481;0x4e3c28923d6ff;0xc5244d4ab2d2;0x3b9f7cae187];[0x0;0xe9b5d6ebe17f1;0x1df1164039224;0x4ea7fdbfcd2d6;0x24951f0fee23a;0xbbcdaff46afeb;0x930a7e1dc7961;0x18fb9411c56ce;0x4bf5bd50d1cf7;0x711ce7815a84f;0xc91a98750];[0x0;0xf814ad033a0a3;0x445bafb783fd5;0x9029287e0386d;0xdcaa43e031a13;0xdf1813d104805;0xf8fb9159421b;0x57b4bdddaf54f;0x8b6a5ef79c6f0;0xc7c4256bbd94;0x11d6e42cc8ba];[0x0;0xbcbe6100e221d;0xd5e80c884f6e6;0xfeea98d7c2d0c;0xe25a5ff46e114;0xce51103650876;0x9dccb2e0ca46f;0x503d8632f5a7e;0xe5c5837e6a7b5;0x36379072a65ce;0x5fc93985b9b];[0x0;0x4680a9c532ee2;0x61aed8adc535b;0xe209aa5844a57;0xfc1acbaa9d0cd;0x75c298e672064;0xd9e89792d31bb;0x52220e9bf03a9;0x217596300cbfd;0xf6e0eea71abdd;0x9cf3616abd8b5]]);
 ((V [0xf8da6f29aa5ab;0xc3a21499cc695;0xcfddb4ccc164a;0x8fb0765f06eb5;0x52436ec17d0fe;0x384407130fed8;0x9e2002830d3c7;0xef54c5c7d2cde;0x1b546833c53c0;0xc386ef8c361] [0x614b189aa9802;0x68b71eff562fd;0x8f7cdf124714b;0xb32d1632b0712;0x105f3e5250c9;0x603edec620d55;0x11ffe99a8e75a;0x11526c3d3466f;0xd673da83611ac;0xe38e36a8659]),[[0x82062ac5893bb;0x6c613610261ab;0xf9e7838332d19;0x4214f120a8921;0x39b332bfd5ec6;0x5008f4fd5079;0x2787b2464d454;0x43d615bff89e;0xc09b4282d13a3;0x7fa43358a6];[0x27475b5383456;0x371079ff5e911;0xbf1d36f2ecd0f;0xc255223bf5aa9;0xcd147952eb083;0x682ac9018bb40;0x1b9ad12c47c5a;0xc752d6b468d8f;0x822cb0c7561b3;0xc8daef64941];[0x0;0x9746cf52584cd;0x5343cdf2cfdbb;0x18f959bca06;0x2717009a759d8;0xe4f35deb8e5aa;0xc686cfaf4a637;0xc85b55a38468;0xf20835da8ecaf;0x6f4347b55a150;0x3884ae8cf8b];[0x0;0x43cb67dc01d12;0x720d97d9208a7;0x5a7bd5f36465b;0x2c3fc3ebc6069;0x278f0fea26650;0x96e6b9289503f;0x6051d35a12afa;0x2246ec846c3ce;0x900ecc92a89a;0x397b617b01];[0x0;0x402557f6b23a4;0xe2004d9773f87;0x303e253264475;0x99068d5f92344;0xc939597652bc;0x45e3499f89b47;0xde95c1d433918;0xeb41c1bd153a0;0x95531f6b9e8cb;0x3fa45443c];[0x0;0x474a6f47954f9;0x3300146687fe0;0x6879a2f4c75b6;0x4e01991153c1b;0x412cdf093f0bd;0xcb8f9d73f3c9f;0x6f85cc016d643;0xdfdacbba62bee;0xce441c51fbca8;0x7ffe53a588a8]]);
 ((V [0x937570c1d6222;0xc0486ae4691b3;0x1e61c510aa330;0x87192eabfdd23;0x6956f32515f50;0x31f038d6bc3c;0x7226ea36b51d0;0x18ef08f26c1a1;0x75ba639c4e313;0x6caf2ad6a6a] [0x88c5d0e8fc7b1;0xfddcb0818e55c;0x79e409e66967d;0x45bc48fff9ad1;0x5fb6d7f153f92;0x58cabe215f051;0xe591ae84220d4;0xeb6808bec1a2;0xe805ac0a89e8;0xf61742e3978]),[[0xe9c09a76a37e1;0x8f34ff12d703;0xed1867bf2f439;0xdb733c8232347;0x46f7c3200cbf5;0xabdf23535e393;0x63376fd5da4f8;0x7ba0a7f97fd3b;0x4a5fff6d7468c;0xad01cc71c5b];[0xa3996068ca888;0xefd5cdac313d7;0xc3e261120bd13;0xfdda0fdc81228;0x4b1996a8e4c3d;0x1a4e389fe9cd8;0x584ffb7b1a028;0xa617ca1dca3dd;0x6313ce568b995;0x884bc64a71f];[0x0;0x4e92c2c897ec7;0x11d8b1d8db0c3;0xdcf9f6e34cee6;0x5033cea9167a1;0x654cf06e37994;0x50c395da60bfb;0x89c570a6613e2;0x1c0b364b61a4c;0xeae737102b29d;0x9556d80f414];[0x0;0x4a30227b94698;0x53736c1b8d8e9;0x5a94c5156d597;0xb23af455aecfb;0xc9fc8c567de93;0xf15b202a2fa30;0xec4c3070a6748;0xc0459ed11283b;0xa32991d20f0df;0x133916870f0c];[0x0;0x4f970dc095b6f;0xbf45230ace21e;0x344c594d42b;0x6b3a72e0ab688;0x94df4cc9b825;0x79f606dfbda50;0x23067b1a2f680;0x3c2aacc451e64;0xf396d4a58e75d;0x74eb6e55015];[0x0;0xd5a5f715c507b;0xbc16c5a705cc8;0xced6762db4df6;0xb6a93beb47353;0x650fe8be31e79;0x4ec04dd270783;0xe44f769dfa422;0xba51ac1086ca3;0xae8c574392024;0xade97eaa587a0]]);
 ((V [0x35a2fddcedaef;0xc42fa4a5fff;0xf543940ed6d6e;0x6b53b6925a1a2;0x8d0656ee7c5c4;0x121cae3fed2a0;0x8d1504bb5973a;0xb190dde0df8f2;0x7126312edcf24;0xb5a88e23e5a] [0x288521a5957dc;0xa09e93de4561;0x2d08ce0638ee6;0x6027ce673b78c;0xb6c0010c60a8e;0x8b93a171979c3;0xe0cfcb9191f41;0x5d3e5fe03a81e;0xb944494bcf555;0x542fa8a54da]),[[0x68f5f952b8443;0x680ec6d466325;0x6c37ec2b618b5;0x44197bf64c71d;0xa8013e11865b;0xdd745dfb15cf;0xb8526f3a778ae;0x2d2d2dc316baa;0x4d882ec21a99e;0x6e50a1840f8];[0x47bc9850dbdf8;0xbc3a457592184;0xbfe2138bd29;0xbadd58f13c105;0x497bc3237d8e7;0x77cf3cae36c19;0x93a1140bd1098;0x69e5bb2b6bc6c;0xe020fc9b01eba;0xf899126ac49];[0x0;0x754510813ad14;0xa89b72b24b2d2;0x225c37018297;0x569de3f897637;0xcea13ae3f1dab;0x9c25fe366f8bd;0xc77503d72c835;0x76dfcd4de482;0x30cd845e57e8;0x2e244400b54];[0x0;0xac6c5be1b3936;0x128ee021ce81b;0x34fc6308786a2;0x8459b76dc3c40;0x25e6f8e705a1e;0xb2b7185e2d23a;0x64e97ff46006d;0x505ed51f80bfe;0x6d950e11befb5;0xd417028c8c6];[0x0;0x89df51aaa9afa;0x37b108ef50e94;0x8d54209cc0429;0x4583f194a4de0;0x4d34d29c78926;0x2fce2303a78de;0xbd6d85a450288;0x218b95869a405;0x73cbcef054d23;0x2f896432d5c];[0x0;0xa0c95b50f3217;0x35d88cece1217;0xc842d6f0c28fb;0xaf35111195dda;0xae27cdae8a99d;0x6978e0dbaba38;0x5dd2e11223fe0;0x892e8da1f4631;0x876d076e45a3;0x6e9f8000eedeb]]);
 ((V [0xdec93203e167d;0x53b881de63722;0x519828124091a;0x184621c5cf350;0x7f16de57b820c;0xc43c97b219a06;0x8a002c7139dbe;0xa08404f333cd8;0x9dc293675dcac;0x994a4aa3e0b] [0xc8a8552d5b0de;0x52e443bdf4c2f;0x30c7bc339b37f;0x51629a2bd8304;0x632d9a284e169;0xed7187d817522;0x2edc76c1953de;0xf4744233cc59d;0xadc3d8f162faf;0x1d8f7975bad]),[[0xe21b9032dfe8;0x1ec9e210a8d6c;0x1270d8c7eb061;0x7c94b1f5370af;0x27fcfb35ffd28;0x946c879e21c37;0xb5e8c2228badf;0x1fe70a2504d1b;0xbc108a80d49fb;0x6f0c4bff44c];[0xaa7dc112037d3;0xf210126ac431e;0x306940769662d;0xc76a56764bae1;0x63688071d7968;0xeade0e953aaf;0x3d247767d69c8;0xbd83fc0303794;0x27738f3be3b66;0x817e20afcb6];[0x0;0x6cce5e2758a42;0xf6efd34abb930;0xf570e6115771;0x66c4ecb14e95e;0xfe15ce4576218;0x7e3d52f6b518c;0x4775bd0597a0a;0x857cc5750a8;0x783162ce6630f;0x80e7c7f9a0c];[0x0;0xec09864512e65;0x847b35250f05b;0x9729a5f5cb199;0x228c684ac06b5;0x833f42e853d70;0x3dfb628f03fb5;0x59e183798065d;0xa2781c40134b6;0xc3b9f7952c769;0x49096ab2f9d];[0x0;0x5fad376291ef3;0x342ddfc4b8e58;0x878841f336341;0xd45b2efb43d01;0xfddec73406e53;0x3d81dec1da572;0x81c5bc29c0bf0;0x9797817fb1c84;0x6b5591e0dc9d5;0x302baa7e942];[0x0;0x308a480f38ea2;0xa525da4ccfd3c;0x787d3db40e403;0xac6beab34a15e;0xb9166384d0ddc;0x97c3e39d895b1;0xd2936ed31aad;0xb527e0deae5f1;0xb3b5a4c197396;0x6f87a6875fa3f]]);
 ((V [0x48ff01b683d27;0xedc95affa4776;0xc094618128197;0x4b05029e92453;0x1e8be6bd44e23;0xd6b3c64027d4c;0x8e4cc63a1c40;0x9148b94f1e88c;0x99097ad339718;0x21090f21ab5] [0x7d907151b820b;0x11832c212963b;0x16296baf3a618;0xdb6325949b451;0x576379d460378;0x6de89fbac635c;0x76f1c4be0f5c1;0xc6e54bed033be;0xf625020f3c3f5;0x4eda9e26a3e]),[[0xa13415226c493;0x305cca33c9fb8;0x77b3fa4aeab40;0x2fd8acb7a6503;0xaf22fad1911e6;0xd6199b0984fe4;0x31720f51d9567;0x517fc509fbf79;0x378ccccbdca17;0xb3c5507d77d];[0x8948ca3055ce;0x28ccd5ac35e0b;0xbc07bec91b5d8;0xd4b8925bf547c;0x4a42da20fb5f4;0xa904126c0b0f3;0xbaeb0e27d310c;0x38c897773c00d;0x81ba31ca85d50;0x5210ce48a97];[0x0;0x7f2c1d14feed;0xfc332f9662d55;0x24ecb6ba85fb3;0xaf59fcec99b4a;0x11d49f423dfb4;0x9236be8eeaf83;0x1cc673bc60dfb;0x798b3fa26686e;0xf3b6ff0285619;0x5bc9e2c71f1];[0x0;0x90c337a82aa0a;0xbd57cc37ac0f9;0x5144e25523790;0xc2ef694ee8d67;0xe93f8a311a5c6;0x74a421151b84a;0x9551a351a035c;0x19d5323527e2a;0x20fe9c9d2bad1;0x29843542383];[0x0;0xc470b88e18b78;0xb01e9d916162c;0x47e0f0c880f1c;0xe54aaa488d589;0xefce6e171e8e0;0x6baf50dc853ff;0x61e784f4a39ba;0xf474a06c598ac;0xacec8b99ec5aa;0x7e3d86a46ff];[0x0;0xc2ccdfafc6e52;0xf483ca058c04;0x82141e1aed476;0x4c9616d03d093;0x2b10f2794db38;0xdf14ea066bdbd;0x16ec1d9e1ca0e;0x58a37fc09fd89;0xe15f8f75191cd;0xb4cd881a93748]]);
 ((V [0xeab4847e04b75;0xe88f62c46f000;0x9c85f312c1ae4;0x603c4b1f91af1;0x2f651998e9f6c;0x1a0d61cd22f70;0x11e5b989fa938;0xa94b9a06053a9;0x5a300ed8dc216;0xc9ae0dfcb52] [0x51bcac6dc3346;0x796af71e6839c;0x85c6122dae67b;0x25bf6bd20f9d2;0xb47a36b5a255;0xbcde3eaa82255;0x4276076d6d7a2;0x974855e1e0042;0xcb39ba85a4ba7;0xbb743de0dc6]),[[0xb50aaa9d49806;0xc6b369bef64be;0x451f12d760a00;0x6d9ac4ecb415d;0xc11604ebaa70;0x8e712d770825c;0x14299714e9e39;0xddfd987bae867;0x35248ca6c90c9;0xb71e3e5059];[0xb04a6ac3388fb;0xb21b7c70af350;0xe5335158603d9;0xa9d36413733f4;0x67d28aa9f0be1;0x1e113b0104ac7;0x5a265242ad7ec;0xce9178f02aa74;0xf9c39d5d0bbe4;0x78d82bea496];[0x0;0x1595e1d1c4d5a;0xd34807820045e;0xe38d89c1a81c3;0xc91b1b005176f;0xaa3e4cb0a36a1;0x903033d6e0a06;0x666a10487cc5f;0x24b522b11b194;0x1a15640b4e7c;0x4435638bf7];[0x0;0x8b03000347db9;0x9caeecf6f872e;0x8d9c983c31153;0x30be61930f42e;0x9ca7bf2c4c208;0x51ada83dc7169;0x2a8e2ca8928a2;0xb3ef58847a037;0xa0f9387f74095;0x70cf2fbbb3];[0x0;0x2945ca5c30697;0x6a8f045afa8c9;0xf9a8f3180b5ac;0x589a0df3fc79;0xacfb83a47e67a;0x792acd097963e;0x4b2b519dbc8eb;0x4c3e3a8856b0e;0x989e723456b7e;0x82fc40a98];[0x0;0x2ca3f5377ce53;0x3cbb3150f020;0x1b9ce1a2b01af;0x4f2ff095aafb4;0x2132005ef9432;0x2907aec8bbfc;0xf68ae1af87b15;0x8c59042fcab8a;0xa09a76c891d6c;0xb75cbab01838]]);
 ((V [0x79dc8399749eb;0xbe025864c329;0xc577fa2e0d161;0xe0bf8b19a2ca8;0xd1114db76a274;0x406bac9e23096;0x4df79d4855056;0x5af59aa52d6de;0xfa94ca483ef50;0xe30d378280b] [0x71e12ed881981;0xcd0eef706baa8;0x21db27d1e9673;0xe17f23bd576d;0x7d33abf56e0ce;0x720da019ee71e;0x6a640a5b0a3d5;0xc7e546597ebe2;0x893bf4588721e;0x92c8f2a69ca]),[[0xc4ca4d0a30771;0xae249b451d34f;0x1819944e5ec41;0xe99c53702f3c3;0x558f966a7a55a;0x9baf287210488;0xddea0dab20f87;0xf165fc2048a41;0xbf9187a931d91;0xc9a2937c967];[0x43c3a593c6f44;0xef39549518554;0xf22b7d292532f;0x445831ffd2b58;0xf37a700c0aa13;0x58147c371bec6;0xd4310e7b07792;0xfd778c6f1d99c;0x180d6bae37e63;0x24da5c5cdc8];[0x0;0xd7183d8194e23;0xbdfb66ab2f8af;0x8807f8d95bdda;0x848892bfac899;0x544ceaa0b2892;0xa059a9f370aad;0x6fbd3fdc91cfc;0x576c9263566b6;0xefcfbff20c777;0x9ee2c84dd8b];[0x0;0x5f7585a2a01e4;0xf54051fbf5234;0xb4dd2a6639bdb;0xbf2da87dee2b4;0x223c27d089e68;0x58dc990afc128;0x7d98100889da3;0xf438e4c49d8d9;0x7a19b110216e2;0x1274aa0475ec];[0x0;0x9184b6da2f894;0x73b150f6314e3;0x55548efdc5465;0x67a48ab682402;0x38426628b6f19;0xdbeba7ebbbc29;0x476167ca431fa;0x4bccbc699c347;0x573843417170e;0x9ed0b2d8a2f];[0x0;0x5964e394fb436;0x6c869aea8253e;0xac2b14ee7628f;0x9dcbbe3fb762a;0x507a40d3e68d0;0xab6a248d2b292;0x3db75045f8efe;0x4da319a114d67;0x44eb439dd0eda;0xca583a3ba2c11]]);
 ((V [0x2fbe2e224e936;0xe51d65b3a36c2;0xa430e0aefc4e7;0x745ec2bacfebd;0x2bc1ab2f355b1;0x75b8c7f2c3914;0xe08efe50774a1;0x146771237f179;0x6448a0cce516f;0xc34738da07] [0xf22fb639fcf88;0xf22cbb5f7df50;0xe17710f4789af;0xfa592d16d8e7;0x9af227ed80696;0x43f54ca289de9;0xfabc8a0f29714;0x6f115fb2b3a39;0x1c1ce0e9097da;0xfa7c4b9dd13]),[[0x24a2bb8a14ffb;0x68b56d0940156;0x65ae3c2902498;0x9a898b58ef208;0x8062442701fa;0x40d8feec9054b;0x9592aeb6b0a50;0xc78917c786444;0xf5f864626a61d;0x2254f69a445];[0x588e24b561780;0x590369153ebf2;0xce8f621716eb8;0x35445f4788862;0x3b30233ba8fd;0x13c14b44636f3;0xfd3025795681;0x9df8efce024f;0xb9998f33e638;0xcda94f7b7a5];[0x0;0x3dac08b61bff;0x94adb575d9d06;0x4c92100662c78;0x1c0320a7f9831;0x2f21a7c5f7dd2;0xce2a44325cbce;0xde2e51e3ccb98;0x4b24163c4c205;0xe4f8e7bb1c921;0xc96071201f9];[0x0;0x95c684432e5be;0x4a2ce6ba84ffa;0x7225a2c038668;0x47a30ca6475f0;0x2cd0fb26fae9e;0xaf4cef73b437e;0x50f99fc14214f;0x3ffca3726c813;0x7dafff48cf4c3;0x275ecf1e997];[0x0;0xc7c27d27aa88b;0x588f2107a42c5;0x8239020af4fc6;0x1d08d63fdba6d;0xf5308c4df001;0x827bc0e6b636;0x8b8e76010cee6;0xf8ddfb0574526;0x30c53fb581822;0x49aadb3bcf];[0x0;0x230254d82c41d;0x843c4d10f101b;0x4d956f00bf576;0x81c129278388f;0x6c2bc2228b2a3;0x46e4235742a03;0x50321d4537f31;0x22f5c02d3adc0;0x70cc1ac4725e1;0x22941ba8fb39f]])]
 [[0xbe93309977836;0x54c0211d34bd;0x1e884bcaa839a;0x7ee3d322021c4;0x415ed449dd82a;0xcccfa3532b18a;0xe67b21cc6482b;0x66622a16808f8;0x44729dc058eac;0x5247f587d90];[0xfa42ca8c60773;0xea8b0433bf8d;0x772f8de3e0ff8;0x7d100d5a356b4;0xe6ca80c486df6;0x6ead41ce5207a;0x7cb54067c9c18;0x3bfbbfae50c5a;0x27b22e1bd4244;0x98ccd743ff6];[0x0;0x2d2eabd5da487;0x5e08c5f9a3ee0;0x838e4b6dc12c6;0x8a9c123f09419;0xe99761d4cf4c8;0xffd9ba85b0b61;0x6fd73ec9469fc;0xc918d2900a2d4;0xcd2fd31b81f56;0x94f5946cb];[0x0;0x4d505be3258a5;0xc240f74bbf70;0xa7d9b007798f2;0xc1c2c43bb3a52;0x837b9cae89393;0xdaaf52aa10657;0x8ddbe72cf32d2;0xbf067aec659a1;0xd3f426f6ad69;0xa10471decc1];[0x0;0x87dd0ecb9e75a;0xd75b4cb0bbfb8;0xd2a3a37fc7523;0x7264dc419fa0d;0xe2a94e3d24f9e;0x85e60b90b0815;0xc6fb143af8d29;0x8a42ae25a9e93;0xe6b6f14dd087b;0x1a722d8523d];[0x0;0x7573b5d48a812;0xcf0144593bdc5;0xff8072e616455;0x675628c6469ec;0xf2c9ead47f38;0xa2d248cf896c8;0xd7b8e84bc8c53;0xb6790e8188514;0x768cf9ab8c2;0x5259136b65ffa]].
Definition wit_512A_32_7 : colwit ipt wit := mk_colwit (V [0x102f8ddb8558f;0xcccb8eaa7bc8e;0xa399605559472;0xf9ed9383bbc4f;0x77f13a85af600;0x150445c139d43;0xe40310365633a;0xead5274244f33;0xe5c573173db47;0xf6469287e90] [0x15e65dafc4caf;0x964edca6d26a3;0x7dbe78eadb1f2;0x197b15c5ad2be;0x770482eb3fe7e;0xf1a1d29a41408;0xd1e37376249d3;0xb55e8e9b22785;0xa1ea1f382ec08;0xb6b17c5b155])
 [[0x3731ea845f8ef;0x452d934edd816;0x2d288b78dee45;0x3e0a744debdf0;0xdb85a3a53333;0x7271ddf40e2f6;0xda7ff652ae92b;0xc00c7054b56c8;0x26f04704761d8;0x7325cc5dc55];[0x915771feb578d;0xafc53787132d4;0x5c2aa5ad16d8f;0x842523a2db393;0x4e4b20c42168f;0xb70c9255d4b0b;0x20f47d9fbaf51;0x71a4adfcfd877;0x7f089b88c4589;0x682a8ae4aca];[0x0;0x3b7d17a077fd1;0xaa09f9e0d0f3f;0x5aa4e997f76c3;0x2a4dd0d54a4fa;0xbb91fd3d653dc;0x94b0980dbc91e;0xc1e230bf270ca;0xb313162fc44e6;0x922b178a38cfe;0xb47b67c06f3];[0x0;0x922c54e823adb;0xf9c8580e0a0f4;0x660a722075999;0x16541d7df4b60;0x85ae43ebb0861;0xc64da350e34c9;0x33c4b8637b3b1;0xcdcc086e31dfa;0xbd030064c78d1;0xe4b8e48ba45];[0x0;0x452f011e9202;0x4bbb3c182a175;0x896516f2917c5;0xe80c7bd8931c8;0xf165c35e6436b;0x2da1502139e28;0x306e79d08ac4d;0x80cbddd7d04e5;0x8ae666b144c1e;0x33cafb30f58];[0x0;0xc253b9c02549d;0x4c7104227a439;0xb986a9b0153a;0xbe063a0d8ce0f;0x8d34544badaf2;0xc679ffc5ba930;0xeabc4642c2c65;0x35892d037da5c;0xac77b75f7534;0x738adb0f96c88]]
 [[[0x4c06187878ee;0x55af8f3ce2b55;0x46e2d47947296;0x1e20036d08528;0x42ecd7f7dd141;0xa5e2fbb62f895;0xa5c14ef4a7b89;0x826bbd17737a5;0x87e5fd4ffd91c;0x781b72090ab];[0x0;0xc1464edf41382;0xdf4201dce5dbe;0xeb9195350681c;0x8538b6e80bf55;0x83b3d767fc14f;0x5400170a51c76;0x7324eb621c768;0xe3a4f01a6c296;0x8f8638e7e3d6b;0x78a23ff276d40];[0x0;0x945e7ec0bdb50;0xfad91e388ced0;0xab869754a2d69;0x8ca900f0361d6;0x75c59974962a7;0x95bb83bb99308;0x77e71e5b58a56;0xc26bd272f3311;0x1474291dff4c8;0x3859bdd9bac];[0x0;0x52753b970705a;0x5ef39cad461c0;0xd3b7ec625ee2d;0x300412555388d;0xaa7e10d338db;0x937eefc3fc4df;0x10ecb650861a7;0x7d1d4675c3f10;0x3ba34adfb682c;0x789facb4dbd07]];
 [[0xc1e1157a95b2f;0x2be09f826c19c;0x26f1bf57574e1;0xe238b42fcc613;0x6e93fc1ba38d0;0xd05bd02d2205d;0xc52976805693e;0xf6160db53d1ad;0xe01136c473da2;0x2463f5808d];[0x0;0x57618dca0e53f;0xebf4c1e9a6bcb;0xe71560618c396;0x8a79055b04f99;0x178df9193ab4e;0xa7bb265e6a01e;0x12178dc36fdf9;0xe6fec9d2a50a0;0xf1d83fc6e6dc0;0x249079a6819e];[0x0;0x266cd3df0c922;0x9bcceaac50ffa;0x8bfb4aa544802;0x5d005f69eba0e;0x550b157833455;0x383e6328ce60c;0x1db8ed7d4d1de;0xd6bce92942d94;0x4c41041c74128;0x52c4413f];[0x0;0x5eb05a5f7a6a4;0x3b30edef2cc47;0x3c68d4daf297f;0x5d5db2dec07b;0x38cc750338990;0x7f85d8fa88c86;0x618adc0d8d7ec;0x63ffcb8b5e680;0x475bb4098bc60;0x24905729e3d1]];
 [[0xefd2911e3be0a;0x3b026d0b8b169;0x227229c982e30;0xf6bd3940a8e19;0xc1b351c2a380c;0xe10778fbcab2d;0xe02624d7db801;0x6cf60549460fe;0x5fc7fe9234fc9;0xeca67a22f04];[0x0;0x9c013794f7063;0x4984dc6ddfef7;0x28ec74cf8fc98;0x54e636ac98ab8;0xa1bbeb2956987;0x7b7ed171ce00b;0xd81fe255f22d5;0xd124b85318be9;0x761ea4deb79ca;0xedfbefa3d3471];[0x0;0xdd05ab840f49b;0x25b7648e80a75;0x433f894d48020;0x489782e081fcf;0x43b55e02f5902;0x96c79deb2b3f;0x4bd21148ebce0;0x5aae0bb2bbe88;0x5f616b47fbda8;0xdac35d730a9];[0x0;0xd3c66bd439c38;0x6e6fdecc1c3a3;0x853c7624e50e1;0xcfc1657f44625;0x5c4559b7fabf1;0xc6cb022262ec9;0x678e0266a1cb7;0xf2b40763ecc38;0x751d5af6361b5;0xed60cccc897de]];
 [[0x906490891eaa2;0x1188ef0876776;0xf666178b98bbe;0xad0a6aad045ee;0x8357e16a6ef84;0x428d605b71ab3;0x44211e9e9a1c1;0x49c7d389810e9;0x3e33df662adfb;0x5a8994a8796];[0x0;0x8f82008d3e247;0x9cc919832a628;0x25ded7b51741e;0x22f3dbaaabda4;0x1fc5de687bd3f;0x80632e73341f1;0x9d1b2588f3dd8;0xf0f31f141bd63;0x95763c9ae42;0x5af8f62602e72];[0x0;0xf4c3697d6f7a2;0x7e8b7699b295c;0xeb17873874c36;0x738c610544015;0x1680f3cd2120d;0x652c34e4018ee;0x513210703d050;0x80112a796f955;0xf63ebd4f891f2;0x20050676e7f];[0x0;0x57adb78e2c0b5;0x975aa94e73f5f;0xeb3ff4904a004;0xd1d95d00f143a;0x5bc8e548d7c0e;0xb4256496072fa;0xbe5905c01d30;0xb572acc21316e;0x7c9499e053baa;0x5ad90e9409538]];
 [[0x83f92bf9b0e90;0x28b743c03e58;0x4317f941f1e4e;0xd0716e60a8645;0x3af78ef7b80d;0xd6441734e6eb9;0x87dca58734a79;0xcde00b0ae4b76;0x3b0b2a4285a91;0xcda11af40d3];[0x0;0x703159bf81a66;0x14fd845f1ceea;0xcc977632525d0;0x8f694d69cb56c;0xe68f166a84372;0x3fba19b75f494;0x10bd934fa8804;0x59ff93585f835;0x44c02db8e3d43;0xce84f3baaaf53];[0x0;0x481f0ba26d8c8;0x72b42f10ddbba;0x6a354b00804d;0xef6b919e711ef;0x62e97a29f989d;0xce677dbd693aa;0xfe53cd53c126f;0x943fa8e65e3f9;0x3df5a06b68412;0xa52b6a8dc6f];[0x0;0xdf2d77aaf4b06;0x50bc7b5df6eb6;0xb0fb472186e86;0xe59a755d2984d;0xe7183a23ff048;0x78de690945ba;0xec95da498988f;0x5835f241c8807;0xd24a1396f8fd;0xce7676f221a6f]];
 [[0x82517978ad7a9;0x54a974f56b854;0x649676d3a9505;0x9b2ace661ca0b;0x890afab3b90e6;0x343ffe654f298;0x2e1f1b216f677;0x55f920ad6183e;0x82e4b74bca557;0x6ebb87db68];[0x0;0x5795fa549b743;0x69033b36ec5e5;0x2be4b6ec6c6a3;0x46a8fef97643a;0xcb0a8137a562b;0xb4ead0bba68e0;0x3d36d784e91f9;0xcc42eef6f2dd;0xc6546003b1665;0x6f3a63df453e];[0x0;0xde05892d593c2;0xbd977c87ef1c3;0x992034dca0e66;0xd78b267c02007;0x5f74c63d0bff9;0xe6051965fdcda;0x45982a6c7a06a;0x56cdff83755fb;0x74500db0c1db;0x2fe5b2205];[0x0;0x278802e8785c1;0x5d1fd50a42aab;0x24938d4ac25bb;0x4c521b89c4bb;0x64c4def072a50;0x9f57b6b27dd1;0x1d0691eb81203;0xec16e353ab067;0xbdd4c01b5507b;0x6f7c6b01f080]];
 [[0x9d1001ad605ba;0x9fa4f256303df;0xc8975c2cebaae;0x8a448c30f4650;0xe530448b3b0f8;0x28d981c6e7f67;0x9c6f1a6ca131d;0x6708d5df9e0dc;0xa3c9685f02c7;0xfd6b1fddf72];[0x0;0x7116f784b27e8;0x553f5c33c8621;0x41319d6db7d04;0x36a9111642c95;0xb3d1e64d9529d;0x6d1b134c08f15;0x7b71d99bfb41b;0xc2b3094c60608;0x71e74b66a13bd;0xff49777cf27a6];[0x0;0x22d71b733ce53;0xb7344ca60fec0;0x1959ffa5eed31;0x74c58711d5c61;0xe25e26d0088ce;0x1bb89b2f8e090;0xb7d3b7c575854;0xad9a37d658593;0xa9b53873e9c27;0xfadce9d061f];[0x0;0x7374d444de066;0x7fcfd6cdd23d7;0x5cc51dd42ec5c;0x5773f7c7841b9;0xbca0c30db62a4;0xe6d0950de233;0xf71321614a5a8;0x22db27c87c8c4;0x6a35db88cfa2c;0xfe3fcdf0ecff9]];
 [[0xb88fc0c752286;0x5146279df32b7;0x3294c90c57bba;0x16d72f8009ba9;0xd302c57d64d88;0x3a49145a63eed;0x91bd2ef7e17dc;0x158fe4c0dd343;0x48316a98d0e2d;0x8f54b8eca94];[0x0;0x65cbafe39e378;0xeacd908641c;0x7e4e82c77fe17;0xedd8b08886e6a;0xa5e3433964d9e;0xcaaa05869b0cc;0xc48cf90022393;0xed34c1eca0203;0x745946ed3308f;0x904c3a08a39ae];[0x0;0x3939db4a61d5f;0xb4fba573b253f;0x9dc255e5f12ef;0xc1e17fd918a89;0x6117cbce69d23;0x280a2c806e7d0;0x25ec293241215;0xdf265d4b2f4c1;0xead845af8a754;0x503fc2a245f];[0x0;0x4c4d626e2422c;0xa7e664cccebe8;0xd90efa66d621c;0x9077e3d9c4312;0xbfb7021834a14;0xbf70714d85ace;0x37ce17166cf0;0x83f3856e1a358;0xb33315d0858fe;0x90022b9579b91]];
 [[0x726fbe1707ac7;0x5b89a988d0238;0x2a45ced32ee0b;0x4bcd014969acb;0xd087da8831a2e;0x7526462bdf342;0x7d9426f217c6a;0x6dc4469ca0610;0xd160661cf9a37;0x8adac8dca28];[0x0;0xbca28d986a6c3;0xc792ff88bc0f2;0xef780a48c6eef;0x84d5cc0648346;0x6c7f91b4b1c7f;0xf1b5464e9795d;0xc004de78980ca;0x74973037bbc1c;0xe65ae485390af;0x8be7bc501a43b];[0x0;0xc6b18546b4d8f;0x1ab27ca023f3c;0x3e4d7106f8ea2;0x16dbe3dcffb8;0x84e17d77b6a87;0x7d8319fd6dee5;0x9c685409b4e2e;0x3f3dd006e8eee;0xe702ca0711944;0x4b509b88949];[0x0;0xaf70c6302d103;0x4b8f4c7b78522;0x88a704fa0250d;0xddb1d31038118;0xe46650bce0ac9;0x4b6e54f3d6c1b;0xaf62aac8a9379;0x54ab25ca90c86;0x35b36f6a84243;0x8b68208a80c2e]];
 [[0xc1fd828f4cab8;0x561cad683a83f;0xd6c5c9d97732f;0x334617ac0d980;0xa07586b9ca0b3;0x691678f64268c;0xaa4c19185bf24;0xdee7191e8b26d;0xc292464c15fe;0x1e91432e5ba];[0x0;0xed870de80ea01;0x5e55498ca0913;0x4c553a0e8f724;0x40fbc66360421;0x7b158b0451092;0xacdd797df0039;0x30ddeb34f26d2;0x39b7acce958a2;0x9336bc5ca3994;0x1ecd04551261c];[0x0;0xbfd141f87cd47;0x165ddb7600e46;0x5d0e2adaec8b7;0x99e1b26d88bbe;0x8f81eaad9e86c;0xa6dc9e0f5d4f1;0xfeb64f3dbeb3;0x8685f8d0f3e5c;0xec611e697a3fd;0x3a65e2c099];[0x0;0xea98dfe2e51d;0xdd7709642b59b;0xc9da4180a8015;0xd14ac97467b22;0x76ef545b963c2;0xa84f0abe0b713;0x4cc3701361762;0xa3d40ab5bddde;0xc14340bce25c1;0x1ea88d3b1330d]];
 [[0xde1092bbfd7f;0xa19cdfce782c9;0x60e48f2193bc7;0xdf3131afcbff1;0x726b0d390e667;0x40c76ef009bbb;0x3b78a0ff1e6d2;0xe6770cebfebd2;0x2c30bded4c5ba;0x1c69f79d52f];[0x0;0xc74e73b08277e;0x220217bbb4ec9;0xac2900b441eee;0x990efe4d8636e;0x216030743bfd9;0xf71698fb94a17;0x7d37cd9a1138;0xecdcb5bee8f37;0x35d60c4a990b5;0x1c9abf1f6a05f];[0x0;0xde66526eb704b;0x86cd0ba2e9b18;0xe262886cace2b;0x3a33db66c0962;0xcaf014ab823b4;0xd8c199f1d5874;0x44be8f3831bd0;0xee10f76b40bf0;0x41c8de57fe581;0x3275a0778b];[0x0;0x6e2db607bb008;0x9f40e609b20d4;0x523f565ead723;0xd658fd5ecfeb1;0x3ceb7761effd8;0xafcbde3d2e33;0xe2f388b37abed;0x2f633deb3d0d9;0xf053022941d97;0x1c777647fdf49]];
 [[0xc47c09585f813;0xf3475d833b401;0xdf6da98a9f39e;0x8ffdede854d79;0xde7941fe1874;0xd3ce2e14e6273;0x112ef3a4f0171;0xb379f036b7653;0xfa7f4e2c99e4a;0xf7866b1444c];[0x0;0xa81b2162d4e87;0x63d776700e3e4;0x5abee81d2bff8;0xe49c8ec64f4d1;0xd50d30ec7fba;0x54f7990bec859;0xf0b1db9f8bd49;0x6f4187d35d548;0x782a57ccfa6d3;0xf8ad63476be9b];[0x0;0x85b1d49f49756;0xe4ae7b4965064;0xb0a579661e761;0x662dc23e960b4;0x59a92fa4f2a41;0x845b0525d7b3b;0xe21c21f84ad3f;0xfb0fa72edaf35;0xab29ecb566808;0xef54a93562c];[0x0;0x9cffcae05f0e0;0x3f92c9b123d56;0x1696e84788608;0xdf7e199a072e9;0xcfdd51a80de50;0x5e6547e3a0eb5;0x77c86f68320ba;0xb15765885fa45;0x11c39128f0e83;0xf8760a0ab79bb]];
 [[0x3fe2da2465d11;0x9a757d45129a3;0xdbb9c311f508c;0xa7ae87a03e8bf;0xdac1188905aae;0x913a52a4c3d7a;0x4d824c0feb44f;0x1185bdd67a421;0x32187b3aa1f79;0xa128755bde2];[0x0;0x181feaeb1ffc4;0xcd7cdf006543a;0xc2e6061b605f1;0x435f1291d40d5;0xc9a304410a709;0xad3bb5a1b5dd6;0x662f6ad51e887;0x994859558454e;0xe46ea10cb14cc;0xa1e35c3cc8d6b];[0x0;0xb78f64f1cf8bd;0x14aebbfd9312d;0x3dae26e71457b;0xa08ade9ab054;0x51fa1865842fa;0xcb21fb31fe8ac;0x631ada9067d81;0xe4b130053a88d;0xab52af4c4f46c;0x6573ea026fe];[0x0;0x6f9152930e19b;0x5a9cd736c5c56;0x5ebe107a55162;0x2d96d0f227906;0xe422bf85747de;0xfb5f8037590a6;0x5d61dd97add1;0xb1b9b712a2b6d;0x257811696091b;0xa1d425f1ca01f]];
 [[0x2fb6f31e7055c;0x843636680bce9;0x9271ff029ed03;0x450f643177af1;0x4e511f1c44af6;0x15d42df6048cf;0x85432490ca777;0xe788b985409b8;0x12017cc5aa870;0x54f75dc84ce];[0x0;0xf45516453a296;0xa06f40ef07118;0x43b6c6fbe7c0;0x379922a7813f8;0x94846d9b2cf1b;0xddc07ab7ab77c;0xab30af02c25f9;0x75181cb7eafa3;0x34420bef7501d;0x555f753ba1ca0];[0x0;0x359dccff1ff6b;0x7e145cc7f59c5;0x2599607af4c12;0xd32ea1aa4ce99;0x8ff7ae37016f2;0xb9710756c3d94;0x5f61a4ecf49c3;0xdd0abce4b36cb;0x33c0f5431b62b;0x1c3344918d5];[0x0;0xc14d8dab19398;0x3a586a0e491ca;0xc4b8df33c52d4;0xb631e164eca96;0x43691d5db821c;0x81f8725925385;0x645b99d65aae4;0x2d10ff80e682d;0x2f75b21d0c345;0x5572e83311060]];
 [[0x5ae879369a0c4;0x3c660eb89e89d;0x6fe0adaf28016;0xe32e75a1d1691;0x199ab41702285;0x9a58b31ee03c8;0x688f04d5e6b85;0x4ed6b1d18fa4d;0x2fc2e3d3c2a8e;0x3802d78faf7];[0x0;0xaf3c182a4d37a;0x23f31f1e47aa;0x1ee9a502cf933;0xe7b65249497e4;0xd3c08856b7651;0x6687768e6dc9c;0x48867b05021c3;0x3fcf89aa09fd2;0xab50db4cb78f6;0x3860e3c4697ca];[0x0;0x87abcd6e4e59d;0xcf47b75fde207;0x6b26fc73f3c09;0xceaaf1037d370;0x1f3e98a22261a;0xc1a596c738ace;0x2ee4d6557b898;0x2ebb993c233bf;0x3b578c9cd167f;0xc413e56f08];[0x0;0xf305cf0cc626d;0xacc13d3f61fe4;0x8149832c741fe;0x7125e8d0bf945;0xf8942fe387c8e;0xd4ff91afb9704;0x1e9e47104e653;0x6fd5ab0b6958a;0x847c9bfce9ffb;0x3824fdaf3f4f9]]]
 (V [0x38657f0cbc861;0xef8d852e4a124;0x5c903b60e44f9;0xa9a5f2840347;0x293e029dd5041;0x5df43e59a195f;0xb1b8f3dfbb9ec;0xb6b3d6cef03b;0x8e56b504b1d59;0xd74f3ba682b] [0x9c4e8103812e8;0xe94610a4a95a8;0xe419e4a0f67f0;0xc8f72b1073d52;0x75436ddba1ed8;0x2319188795f74;0x1beaf70459438;0x98cdccbdfe696;0xa539d81f7411a;0x1719655623d]) [[0x50842c2f3b9c8;0x4556bbcd6c0b3;0x2da42dc36d7fe;0x108a8935e9ada;0x402d1beeebd2a;0x417bfbba185bc;0x1b788a17f3d85;0xffa855daeb12b;0xc162b28096b23;0xc46a73a42f8];[0x0;0x5318411e6112e;0x367ebd267c6a8;0xbdf3ca486652b;0xdd84f16a4b706;0xd17083be0529;0x3b4433b3461bf;0x8070ab7c6b9cc;0xde7b1977316bb;0x714f50a7a9977;0xc54f8d5105b2f];[0x0;0xe8c55384a0c6b;0x81e26aab35d00;0xf8f77ef549a87;0xc3addf87159ed;0x98c8b94974835;0xee8c11cac2828;0xacd41272b92bf;0xb56fca7b9d268;0x2cdf941477deb;0x96b32d57610];[0x0;0xd54011431fd4d;0x560c99abab325;0xde895a179f612;0xda029e0a1f37a;0x18d4f3c8a0b5;0x2bfbc0a10f4a4;0x643a8ff02cf58;0x57d0c5f6a5cd6;0x4b6efe249b8a7;0xc50de8368564e]]
 [((V [0x719459b02d9a7;0x1f9bd56f5ee48;0xe4cbf879d6fd8;0x765f294b22d1e;0x9c231c64f8277;0x53049bef623b1;0xd877188adf6c7;0xec6584b60a820;0xa53be4f30ef27;0x51b2fe0902e] [0x35ccbd414cf9b;0x44aca7bb69974;0xee75aae2dc025;0x4fc8a3b9518e7;0x747cc7ae6e6f3;0xfa5bac81afe3e;0x249c0e21a3037;0x252dae7d28ed6;0xd000630f28a66;0x58d7705a51c]),[[0x3e4a58f3a2878;0x8bbe08d9a970;0x357060436ba85;0x761d2435be1a;0x9f3dc4537cd86;0xc397bbde815d6;0x1ca9884bfe8dc;0x7bdb88d2ad27c;0xe20150daa949b;0xd0f43c0222d];[0x5f956e2d0b62;0xd9a557783cde6;0x7bb533b913988;0x37d20b7e48eba;0x9550ff61768ba;0xc7148bee3e2d8;0x3dfe990e300c6;0xbb65178f230c9;0xc5ae81e23bda;0x310fa09755];[0x0;0xd5d16d2a0d7a9;0x13e0966bed902;0xe088ff2aa9909;0x24dcc9562d955;0x7428f276281b5;0x5a979a4bf4b5e;0xbd1aa407fb2bd;0x47d28865a2bd;0xd6c06dd630662;0xb5162eb78e3];[0x0;0xd2bb66f191ba;0x16f7a6dd6ca37;0xf8dfa5ed16af1;0x230031f3ff99c;0x446039676c722;0x3981cd4b8179e;0xcf7221f59b0f;0x56217f4110350;0x7eaf706f05f4f;0x25b557e970a];[0x0;0xc00fe21c56f71;0x33381e4352756;0xb7674a8380d2f;0xa0b76b148816d;0x448cb3a749a92;0xe308ac00e54ba;0x97bf07562f546;0x5e2655c8f0fab;0xc6bec0d995ea5;0xaa8dca85eac];[0x0;0x1487e19278a63;0xbd8fe741fa9f9;0x5b961e8162f02;0x32cd2438087df;0x8f2fecc3d505b;0xdf1f56a5e102e;0x5e8759b69c138;0x6cb7d359af840;0xfeffc6a002b01;0xd2323ea8716ec]]);
 ((V [0x583792a41ac88;0xa8502247550ee;0x7e56b2bff4e1;0x5a8bc4d47d98f;0xd9703391b33d1;0xc88fa468be063;0x48969b3c3d1a9;0xea1148b46ab58;0x6e17b6109d1fc;0x6f448212eb9] [0x168ddfa67de3e;0x2077b9ed8a18;0x43e2ac0bd0203;0x1630f29102b3c;0xe020cdf9f687c;0x779c9efedacd9;0x798f827b427f4;0xe17c7afdbec0e;0x992d577b93319;0x8dda058c790]),[[0x73f9fccced025;0x14b3d18dcb9bc;0xe0149556e74fa;0xcbc26d3d2c33e;0xc6a293daf8e20;0xf0da79ed714c7;0x44ba82b910925;0x6ea756d891ffc;0xc512152fc01e3;0xb3ba820176f];[0xf06c5d4a29fdc;0x134b19d73cfcd;0xe6a4551bb4512;0x5e64460c02c10;0xc06faddcb075f;0x1c2e63f63834b;0x6098c33f19437;0xb294fec604686;0x23127bce1b03f;0xf4e80d76241];[0x0;0xf5c83e4c58043;0x5aa5154ce95e3;0xe123bb58f60a4;0x239cbd00da544;0xf9d749fccada5;0x1b21a734d3031;0xa3cb82f3f919f;0xafab8315072d5;0x638f515731fb6;0x1a12c1e7f47];[0x0;0x1b57baa2ac6da;0xb3fe5b85d4c78;0x8593c03d4ecd9;0x5e1f26c24a9c3;0x1f61ffba3ce9d;0x5cb9bbd05569;0xb10ebd44c062;0xd5063af1f5c62;0x3e3bd7489abd7;0x7cbeba69640];[0x0;0xe141aa8292a65;0xfd63589099897;0x79048fb13813b;0xcba910eece581;0x66bcd3af1f180;0x4f560c2c49238;0x5986a32f23f41;0xeeef9b813b376;0xb3cf4e6250edb;0x7e2e59af388];[0x0;0x54903b5829873;0x4d0d4f83bc743;0x4f196f28cd98e;0x9c9f2a2f30c72;0xa4597a9d3defe;0xf2ba4fc35877e;0x415c91b98956e;0xe4cad0355554a;0xcfa4f285e437d;0xb4597a3967860]]);
 ((V [0x1307c20b67556;0xc616d402db9cd;0x86acd58cfebf2;0x1eee02ea62168;0xd54f4417a7ade;0x16b5aa9cd18b2;0xa22bace31324e;0x191a4809cf58a;0x93c2e5708c2c7;0x92e588936f7] [0x462f766ab75a2;0xd6bd18c7c8083;0x33ffdbd3ec71e;0xc33f3e17b6b3b;0x3cfba2b3aea1;0x26f0c108635b4;0xec73b3afd14ac;0xf17b98249d939;0x102dbb39fbe45;0x81960b26d18]),[[0x8fac528727d32;0x35585bde0e9a5;0xd1df75952df9;0x9033de7eeb9a3;0xa4fd9a0bc5651;0xad0cd2e544106;0x8b816d9505a79;0xa8143112fd648;0x8994e4a171f29;0x1ff323da871];[0x9077622c3ef43;0x8079eca0134e9;0xf91428f3d89ef;0x55781781d71d4;0x5209d4ec0d5fc;0x22ca9d2d8ce4e;0xfc2a176beeaf;0xa4feede13f088;0xa7091c3dd49b2;0xb61b0c25d34];[0x0;0x847984496031b;0x5fafa886588b4;0x4c6185f4dae1f;0x54f1e31feb2d6;0x3bfc20d7b78cd;0x93cbc4e7da764;0x4d6c5f40b5835;0x75596979e1c6;0x1385bfeb9701e;0x305c7b21c47];[0x0;0x6d763524425fd;0xa8a027ae27662;0x4bec767378f75;0xcf158e6452a8f;0x7cc0a888f26c0;0x9b73d41a5dc95;0xa4a065cbe8a83;0xdf705a4cd8c50;0xb2ab3c64c561e;0x236840fa588];[0x0;0xe158ce4258db2;0x5c09cbd36e2c5;0xf101e123dbe23;0xc1eb0cefddb50;0xc9769ea56506d;0x39d08946739d2;0x389abd854c71f;0x6e5164d431172;0x9e94f17adb717;0x3fcc99c029];[0x0;0xecea743b8322e;0xe1f827e26a29;0x241dcc997873;0x9fc63804d060;0xff15588920402;0xc5a15ae3460c8;0xae9cff7ec8ac3;0xfb5360ca27ec7;0xbdc6bd889ebec;0x200ea4a7c175e]]);
 ((V [0x5602d040f7437;0xa488bce4b6378;0x36472b0490d95;0x2be26937f2bd3;0xa80bc1e762d43;0xad00b33a68821;0xb46b6d36b094e;0x180740774540e;0x8d674b7d19815;0x612b08d4508] [0x59ead26dc3145;0x8aff945d51343;0x8a9ebeaad1ce8;0x8d1a1d4888328;0x4191769421e4f;0x98006c4365297;0x68ec8129d1369;0x1da1762471b2d;0xde92f7bd7f139;0xa2ebbd73d87]),[[0x484a59ec36a04;0x7b1ac2ca00afe;0xaeb407a82cced;0x13cee859399bc;0xa2dd2127424b1;0xae17b99c0d460;0xfef0d5ef1bb49;0x22ae9d9afc47b;0x31a89ad8bc25;0x63e6841f758];[0xd4046a2a09514;0x88bba8038b086;0xfd03238051ef6;0x76b4ac692f390;0x3343efe911fc7;0xa1c33d0d09a93;0x406ba88235638;0xdc544424950ed;0x9c471d913dab3;0xaff5317302b];[0x0;0xf77c55345fdb0;0x3ea37531a5943;0x437ff9c80646d;0x37f9a18d2d0d2;0x37be113eb0b01;0xa09baaf3402b9;0xb9459ccdcf112;0xf545bee31acc0;0x8b2e48be46922;0x544a9d95cbc];[0x0;0xedceb3aba6770;0xd1012ac68e6f2;0x521c65073d35d;0x609ad1e76e25a;0x919d555376e44;0x106c254aa096a;0x7748207f1639a;0xc418d7125e0bd;0x5e5fd9c2e7083;0x65236bfea49];[0x0;0x4d22fac29296b;0x795d10bf6744a;0x6f7edb020b71c;0x733f863c43432;0x76b0e420ddd21;0x706597fb7c754;0xb9f36f7b10b54;0x9dd82b74336bb;0x8bdcb80ea3311;0x26fc19c2019];[0x0;0x4e60e3db861c7;0x37255f2e199;0xbfd417144aee3;0x1049c415997db;0x5895edd35f3b0;0x7b9d8d2fd3d8d;0xaaab1785327b;0xaf84d4d3a090d;0x5c4f6001b55b7;0x645dd28a34eaa]]);
 ((V [0xe826accf13c83;0x855d3079e3a04;0x89ddf01699395;0xd07511ed4ae67;0xa49bf3ec7a629;0x8e2d7dac0fd7c;0x3a65810dacdf9;0xd1db34ec5b6ac;0x14af955fd892d;0x2ced7a8d2c] [0xef43e49927619;0x8ee0f2e4e74ef;0xb53671711392e;0x97b59edcfd0f8;0x2d3dfb3d5782c;0x6b3c262b29deb;0x20d5b22ae8443;0x23505c5f54b44;0x3d6ec81dedd7c;0x5d80200bbe]),[[0xd8f4cd00cdbd6;0xe61dcba2f8cdf;0xfe1e90496cc0a;0x39566d63e7ba2;0x7a978abb99622;0xba71ce719a34f;0xa32487b6b2ce0;0xe9418481bcd68;0x55c0dfeec6cb6;0x3eb7dd78af0];[0xf47105efd5c82;0x3705cbec114cf;0xec1a32779c43f;0x4ae44eb469c2d;0xb3ff197b49dbb;0x972ae741b5205;0xa13c8a72a25a2;0xad2a73a7d8762;0x7520688ff178d;0x3c3ef0bc29];[0x0;0xc514ac248ca39;0x89e7c8d548d85;0x45f89f912340a;0x70235dba5ef67;0x988eacf2ad529;0xf0b0ba894aa13;0xa4a28085edbd8;0x227e6c0294372;0x8b59a87e2e1a4;0x24e1a3ecdca];[0x0;0xd86bf74d37d5e;0x27077b6120ee4;0x6859af188bc8;0x34cb681b65751;0xff948a744a848;0xdc6f88c7911fc;0x28b172d7f9524;0xe5a1dc53f3e1a;0xd40bfc59e13f8;0x4fd436b1995];[0x0;0xcad1b5de99a75;0x7fe7dd4e2dc2e;0xf8c327ef5f2f3;0x97c5b4f8e43f5;0x4a0683085a5dd;0x5d67e1ba6f02a;0x35c4e261a1d0f;0x140433ec37355;0xa6954311bc5e7;0xf5d9354d6e];[0x0;0xb43f7a81cebec;0x52eba716ba8c5;0x2b12eb7ecfb89;0x9cf5b9a0b78e1;0x16c85b83ae5cc;0xf9410a519c0b0;0x7a078b366acd3;0xb70f1798fbfbc;0xb3ec9b655ee9d;0x3f0db36f99751]]);
 ((V [0x1d419afe92cc;0x8b6f230425a26;0xf6460dd8a9c68;0xd137a5fabf8f9;0xd490182d6109e;0x1769732b20e96;0xabe6bc95fbe1;0x617f285f17fcb;0xcbc0bb6dcb9f3;0x54b931ed9ec] [0xe3bf8f3ab360b;0xac4eaab27467f;0x27f87fc47675d;0xfc935f00beef9;0x82e896484f65c;0x7008254c04c4b;0x9b73fb29cbc6c;0x6f6f87235ad5e;0xa23a7a124acaa;0x1c5aaf83a2c]),[[0x34b84d124bf0b;0x9427aa33b628f;0x61440c5918bac;0x3129e2edf05b4;0xf8f87275239ee;0x82e5d640d9a22;0x944b94e2ad372;0xfceef27763bd4;0x32f888994e40a;0xf9091fc48ac];[0x6fd09e28c5faf;0x1d61adea3d644;0x8883f2e00e023;0x91f7c485a9d0b;0x30612302f1c95;0x1c7946c5323f0;0x630e3a8e2cad7;0x31bf00624b5da;0xc60a2048f26c3;0x4728c9831a7];[0x0;0x3545889b9a1d6;0x74ad1e11db5dc;0x50a949f2dd65f;0x969ab916b40d7;0x1fcf3e4f35904;0xc109f18a0de9a;0x2a62ea938a25a;0x6930e2257b330;0xb359685c140d1;0x7e27e6ca];[0x0;0xe5dec4852b203;0xe566866c4cc2b;0xaf3db2d9b33d1;0x706419b460a70;0x2c4257079d1e5;0x6f3107a1a4543;0x39d23b827949f;0xf7961821b9be2;0x3782578695307;0xb5e9e88db2];[0x0;0x483ab35121821;0x71c34f137e246;0x132db500fe078;0xc4f69872cdd95;0xda0461bcdf9b5;0x73f4cacec6949;0x57637c92e8eb5;0xcb300094de556;0x2a4b0fed82e8a;0xf242c01f95b];[0x0;0x2892e6e5d788a;0xea5499e7f8362;0xef09bba5d5d1;0xf7cc031f308fc;0xbe58dc2f4647d;0x886a50132b085;0x8e41e5cbbd535;0x13ed0cf14e835;0xe2fed19a86881;0xf9b279071af24]]);
 ((V [0x1788f8e37cf00;0x26762709fbc88;0x93d006f7ff7d2;0x8393f5e0a7c6f;0x80f543b98f64;0xd68ad6ddcb602;0xf31d62b423cf7;0x30cfbcbb26cbe;0x5cf00e6792d0f;0xc421277e1c9] [0xb8819b7f40698;0x554eb8c2993d0;0xabe902d3fe686;0xf26e46b2dcdf7;0x33cf1f4bb2ee4;0x14a5a7faf0868;0xbfcbeb3f2df8d;0xbf8aa8b0ea355;0x6a2e547276fa7;0xf3424c055c2]),[[0xb01d1de586c7d;0x456bfd78cf054;0x38cdee9ea2dd;0xc9bf17953d745;0xef34d958a242a;0x701b44492d138;0xcdbe0804bd31;0x2da9c3036ce7;0x4ac845e8d9ed;0x175eba1a7a1];[0xb4ad4b5b4fc00;0x8418ae236b791;0xa10c52bb0e949;0x6e03f2690b4a3;0xdf9518b1ada11;0x945e14fd3db9a;0x3e9fc2278ee36;0x85b6084beffc4;0x6d002f1d16689;0x6b0dc060a1f];[0x0;0x8dd65e5234f0;0x311c081a86e28;0xbfcb548e19c5b;0xdedff2b97c746;0xf5e03237b8468;0xc5376875bd76d;0x7ba5ac57e1110;0x4022eeaa27040;0x2b2a942812a98;0x1c0a0ebd236];[0x0;0xdf5d4d99c336;0x2fd2d71c8c1cd;0x90bf325ea5a5a;0xc5fad543e0e51;0xc8083acdca018;0xa078530c76a46;0x66c16cad322fa;0x38fa561296293;0xcd9554d319478;0x52d475c306];[0x0;0x928fcf8e4b007;0x75a6c49a7f01d;0x3d283667691dd;0x4c5cd6d1a9d8d;0x285eea044504a;0x7aa0a3acd0327;0xac0b9dd17b4e3;0x820d1eceade0b;0xb0d8399d0ecbd;0x222287df4a];[0x0;0x13eb0b31c1fbc;0xffe3b5857319c;0xd8b3b4354b7aa;0x602909f019ec0;0xb6f2c53060fb4;0x9143eba5d0c6d;0x98386246c990d;0x6b085df212d6a;0x74462e9a88492;0x176bed445b55e]]);
 ((V [0x90b6b6f21939d;0x590349a894e4b;0xb929fe4b6788;0xa1fdd09a7d10f;0xabce8debdf7d;0xb700d9b753bcd;0x2c27bd7135eac;0xc58d36315b330;0xd886bd358f7bc;0xa76eca455fb] [0x5e97429f40d12;0x5b6e6aee6eafe;0x75a8243824756;0xa04796966cfe7;0xae8a34ed5f383;0x7835d62c70587;0x9f86e58c82e3a;0xc426bbe8e4512;0x67f0fa80e49f1;0x445f0a8faf8]),[[0x4a5cb7a17fed5;0x78d28b293f7bd;0xafae2a4b705f1;0x12927851bf2fe;0x86ec4bad585c4;0xdacc9b2ad4fa5;0xae01e211aa4d0;0xfc0d6e78fa81e;0x2957962c150b1;0xdcd7425d98a];[0x933ecc92a6b1d;0x629efe8dd94a0;0x587bd2dd5e19c;0xc9a75e1c48717;0xbd0e85604aca5;0x6bd1d6581c205;0xafad594d61aa1;0xc9ddf528f3d02;0x6f84cd1d2d61b;0x2a402d47f31];[0x0;0xbeb4c16946005;0xf5bd490917ff2;0xcd2088b65f7a7;0x7eb6fe55f5fe5;0x9a3dcdedf66b7;0x4d2623631921f;0xf41cffa4aea10;0x7c84ea03205fd;0x6e6e8ae0204b;0x9642c8c4506];[0x0;0x9dfa1db159b83;0x24cf083973cd3;0xb19e7e110de8d;0xca5189ac84f4d;0x82e7ae466c2d0;0xd951c375f5e68;0x35c3918669c89;0xd4dc7be1a9668;0x4e6890088a19e;0x1a3b30a24f6d];[0x0;0xf4a6919882784;0x8dfed7929e5bb;0xbcbb0eab9d11c;0x94a099c65d007;0x408b427ce074c;0x3d94dd503ae8c;0x69524665b3089;0x8c69eeb891d5b;0x236ebc9d4cd46;0xbe82af1168c];[0x0;0xba04a74250a78;0xf21a00bbe7244;0x6754cc3c49afa;0xe715239c807f;0x4d3b22b0bddc2;0x58d5fa069d50b;0x8b6a19f2a6ba9;0xe8198fb0b2e49;0x9246dfe22c757;0xddccdb094fc21]]);
 ((V [0x8b66d60cfbd6f;0x1d00d94ec07bb;0xecb98204cb162;0x377bac694f1f7;0x541660c249873;0x2f960598528c2;0xb48f71fcf4c7a;0x9e02f3ff3d447;0x74b07b5e0402b;0x8a5f61f4c89] [0xc695351ea6552;0x86033c393c073;0xd986a819e4742;0x2463ebd855cbc;0xe332952d86bb3;0x1642ad563b19c;0x97c89244960e4;0x957877a0e77da;0xb2e9131ceec25;0xcbf110aad67]),[[0xd15cbf2dbfa0d;0x3decf5b00245;0x5e074b88c05d;0x71814c5db56b;0xbdd4e82c8e067;0x6dde70f4ff3d4;0x424d3270ca1ae;0x429448660eb5;0xa3e61fffc3307;0x12524483d4b];[0x5fcc02349568;0xcfdd2dc08d6e;0x1b70a68696143;0x41461af3fcfed;0xdcfd137535ea4;0x8d73db863217d;0xa4f70a76de6ac;0x8f1d14fec27b1;0x7de53f8ca3296;0xfa7c0d73170];[0x0;0xbe11d4ef25417;0xbd754953cf971;0x4bc9e6a2afae8;0xd3f9185eeed7f;0x35f187ff60655;0x8ebb7b2ced535;0x9b209ec1cbb0e;0x43a84cc91879f;0x91cc1c5ab9ee8;0x6d81bbd8f65];[0x0;0x75b2dd1873368;0xbe357a9511c1a;0x2cab913020aa1;0x56ce3fd8ead0f;0xcb461ad91c324;0xa092074741bc0;0xa9c7e6cc1ea75;0x571f507747995;0xd65406631800e;0x9c94ef7e13];[0x0;0xb059c83538000;0x1d719b5984787;0xf9b721d6fb7c7;0x2eb19eb70671f;0x2cb8d2170a187;0x5f5b57a4f2ab3;0x830d5c425ea8;0xa9e1b7f6e53f9;0x4c4fc174c5bd8;0x14fac1280b];[0x0;0x6d24e4dc5058b;0x6a72bbd9718b4;0x1fe156b347649;0xdb14009d2d8aa;0xdffe1e981004;0x924ec7739d9c7;0x2dcaf1b6d19eb;0x334e45682f5f2;0x76aff9415ab4f;0x1266ab3464b22]]);
 ((V [0x7fc3e471a068b;0x1f9c0bd1e7fda;0x6dc0b388702a6;0x59069262729d8;0x2b0d1f7e21b7f;0xcab68c9f619d5;0xde10cc30529be;0xff13e8f3dd855;0xcec4a9923bf04;0xe41b68e9932] [0x88a74ecfac532;0xca6c465e54e3;0xf1de661186ee5;0xb5144ce953628;0x51345443afb5;0x764142fd2154c;0x20ae8de849843;0x4c7f73502e4e5;0xfd69c4b2b752f;0xe78f81973b8]),[[0xa1ca3dc4cbb18;0x1ba0b6acad487;0xd6015e63565b2;0xbc3f81b3ed91d;0xde4ad835fca2a;0x71eed1ed666f1;0x20acd3200021a;0x3b4c6b65fc90;0xe84133c9fe44c;0x457fe5e9e57];[0xa34f625ee8aee;0x9dfdd9bc07927;0x1151f58573666;0xfb25cf83fe586;0x14cb53b35849f;0x9ea647ab787a7;0x68eb421c232aa;0x4da3d11fa5f47;0x2a3ed4216fdf8;0x3a1e324cf1b];[0x0;0x4e306a6eaf735;0x44ad4c330a90b;0x752f213a7c02f;0x4735c71f44904;0x2571a0d7cd709;0x3d1f6e15124bb;0xd99ea5eb96046;0xf01a4dc06b72c;0xb673fa43e5eca;0x4acaf925c16];[0x0;0x51ad9b09d149e;0x29e356a287065;0x74330ce64afa2;0x1154e51c4081c;0x39f5bdefed192;0x1f440f13c2e4e;0xf40ff8246ff72;0x30d4433f1a9e4;0x80b9291e76821;0x6ebbba7c936];[0x0;0xb6b8036101471;0x992e0170e53da;0xd05181d618088;0x42c6234e1ee14;0xa2245365f824c;0xd8193ab745e83;0x353b347e4a17d;0x987245474e241;0x431015016c400;0x12de31d6024];[0x0;0x6b369cc49c55c;0x3f63f55585aba;0x45fa842efcd07;0x9036f71118a86;0xa2ce7023ea509;0x531fec823103;0x8458f926a7708;0xc9459f5d4779b;0xae98982253c80;0x45ad094d10c72]]);
 ((V [0x2f27b3e7019df;0x4c7f8c494c3ce;0x27e04f3873e32;0xbeb1b1e85ef22;0x57a08fa8e336d;0xc57331edfed57;0x125a52a6cd551;0x66d81945cdc05;0x61f26f5bc751c;0x67c9730e6c2] [0x6f7be38adaf9e;0xff767042eb194;0xf6b8dd536aacf;0xb30b9af720a04;0xecbfecd642291;0x5af3996a3f320;0x1ffc9d07868a2;0xfae157fa014d8;0xa58a2e96e5e87;0x63ec616d6e8]),[[0x1a23a6bc73263;0x2ae53c3141ac;0x1464144795eb;0x165b6834ac109;0x12151a8d48e06;0x733bc36f599f2;0x2eaba847f8ed0;0xed3c38edc2cdd;0x9f191c2e3b34e;0x4db0bfbe22b];[0x27b3c23173ed4;0xbf63e99749575;0x754d2ad45244f;0x64007ce69f858;0xf747c98c7c389;0x7563999d254b2;0x877fcfef2adee;0x4dbccc2feb0a2;0x6d8fb05aadde5;0x916e530063e];[0x0;0x94d077b97ee33;0x69172555e8ca9;0x5e77bed8db621;0x987e2ddd3c047;0xd3a3192380027;0xea0a067f2539b;0xa22594b6e0daf;0xbf4c5d3e38aa6;0xbad1074e35542;0xcb40d5cf5a6];[0x0;0xeb30f722f0a34;0x1e0ac6562e870;0x32b8a2231890e;0xc729443b770b6;0xd137ca4c5d166;0x72bc485a47d4b;0xb51af25eb8432;0x7f9eb38006c68;0xcf51783668c10;0x8c8c142744f];[0x0;0x13070ec810a0c;0xeb933fc93b87e;0x43b2ddd4dc1d3;0x746113d222e18;0xe8e7f56b6204b;0xeb35777a204d1;0x6082d1d58763a;0xd72e48de81737;0xe006ded8f35a;0x1793cd6095f];[0x0;0x20cfa61332e0f;0x3520822597e2a;0x17aea07fefaa1;0x94ab344961474;0x2f8a48423d764;0xe9305189b729;0x8c67ed5682dfb;0x7a5fc3f8db754;0x38dac29699def;0x4e242afa4a4a3]]);
 ((V [0x522e794fbe5a9;0x43f6b6c91f987;0x87d3f4138f078;0xdbe52576d8c3d;0x80f5380a4b8d5;0x2ffdb72e1bc56;0xceba5b63f7d51;0x2b6f9959b1a04;0xdc7f44c49c6e0;0x696490d3f17] [0x7a3efb0475bd1;0xd2677b6b4b315;0xfc67e7d0c1a4b;0xf4307e1fe29f;0xb64d66806a147;0x205db1f052de4;0x2b592019b013f;0x5b397682d76ea;0x50174f010b959;0x4a90acb31d4]),[[0x69b111c4ebe1a;0x24873a1392e73;0xf3692d86104e3;0x78b71c536c3f0;0x6bd9b1a82d891;0xd988bb84bce84;0xa42bf704b3c56;0x4766d4eb47974;0xe33a3fb09afb1;0x22950ddec7d];[0xeb96d17248baa;0xd508eac2a0852;0xb69f6a6beb9e7;0xcb00619983608;0x2f7e07f06b856;0xcd3c6529ef8ea;0xfde312486369d;0xee277a76ca960;0x507de4a59b013;0xbf763d154b0];[0x0;0x55a53776b42b1;0x46dd360e7ba13;0xdd91c01274e0;0x395286f3a3a9c;0xb4117bba45d4e;0x8370d55634366;0x97edab39bbf2a;0x15e2236380ec1;0x276e886c4212d;0x2a13b91b7b6];[0x0;0xa520584e349fa;0x4d7208234703c;0xe4ae397958564;0xbde90bc2ce89e;0x27d54dad5b3bf;0xfb7ec2afb3168;0x70a642f1f5a71;0x212cae78a0aa6;0x4795d860ce1d0;0x1aff25de66a];[0x0;0xafb7dccb458db;0x63f3be3497539;0x53ebacb14bda;0xe7d43353dff59;0x1addee700c6d7;0x7d44e9567aa9a;0x5a220b10707cb;0x871459fc75dac;0xc108b7e3c38fe;0x4abee78532];[0x0;0x79820044ef5a5;0x9226ca539fc0d;0xd69a137f18a99;0x3917898558200;0x509c6b883563b;0x66da5c9588bb7;0xaa7696e5b226e;0xa1f52776350ac;0xdc5241fea3216;0x22b76b6353d01]]);
 ((V [0x317680e941468;0x320120e28a1cc;0xd3efce79038c;0xe32e57b789005;0xdc4d2726942ca;0xfc55d82c786ec;0x782dce1327a0b;0xf98aa161eff6c;0xcadec8c80d2bd;0x907c003fdd9] [0xdc1a4263dc6e9;0x506bdabde1ec;0x37b2d14a6317;0xda19a0a931eef;0xc3d4b1a26782a;0x443f26e67279a;0x3e20da579451d;0x9dc0aaaa2028e;0x55e85a0f3a549;0x42093b818b5]),[[0xcca84fbfa5192;0xb02a477465f69;0x8d3bff2c96e15;0x625079bab9f77;0x3d1d17e246d12;0x81d48422ef65;0xb33b6cde36eaf;0x57fb21b2ae4bc;0x49b7646d668a0;0xa5aeb190b09];[0x2c8b0d0f6f5c6;0xbf28905b11ee5;0xcc1fce4f5f4f6;0xa33f2fa6a4b5e;0x2d62b41553f4a;0x8117467a5cc54;0x6f1017e36953d;0x5db72cff31052;0x6414e8e322e0;0x46dc325e20c];[0x0;0xa4154440d49dd;0x26169b56b402c;0x7c3705b16a785;0x1c1c194322ae;0x5dcd99828b2ae;0x24a8de8c70ae1;0x1ed9a207a0698;0xdc80a19b07860;0xcf7701788a196;0x2b63a64f539];[0x0;0x7565bdc7bd042;0xcb632b9f978f7;0x37b1a2786769e;0x7b1aa6c7102cf;0x6f28ea05a9260;0x9967ea6e34d37;0x4dcb2d7953b25;0xbc62cd69501;0x634f7212e16cf;0x608442b9ffa];[0x0;0xe4d6533847426;0x20c432330c999;0x4ae1ad5de7371;0xbae5bc336946f;0x940649dc17736;0xe087381693b1f;0xcdc6bba4d0aea;0xd9d5e910d9053;0x9005e6c0dcd5f;0x6b3aa81a5f7];[0x0;0x895ce762fd37a;0x39e76f5a72fe7;0xf45527f7aa97b;0x8e1c919ec013;0xd196280a4670a;0x2ecf4fbdd0f1c;0x426a59c9d7035;0x4b116231d2e9f;0x691a9c1ef4f28;0xa63b137a65ae7]]);
 ((V [0xc7e2c9ad05050;0x52c3b40c6b7ed;0x65a1d7a8b3002;0x6d21aa006565a;0x11e626b781b83;0xce901cb9c1552;0x1fb783d1df5ac;0x46f2c57fdfd87;0x3b2af26ae1e74;0xb60186af27d] [0xaf2a05f820cc2;0x414e48de6ebba;0x15eec2622b204;0xac1c817ce3093;0x9e85026dcc5bf;0xcdaef9e1745a5;0x68e3b20113fc6;0xcf3cb0ad09ef1;0xcc3e710d02da7;0xd576272e415]),[[0x6f5afd9171e12;0x34c8a51fe48df;0x29a7eb91890ae;0x4b6a5ddc2f132;0x40ee665301cdb;0x5950a36a4fb18;0x4163e62e96158;0x97739e5f3f37;0x1628835439c08;0xc295fe3fac0];[0x90213b5d5e2c;0xb555c19b784af;0xf9f3c15dfc52b;0xe75390fd4db15;0xf8f771fbe2c;0x93fe6c867c21;0x9ee656fa6d186;0xa3d7abad465cc;0xc144c002f04aa;0x5894d8904e8];[0x0;0x399c398a2a34c;0xd5ca614837f53;0xc106dcf01ed2b;0xc31655d298c17;0xd17b2011e0bcd;0x2ae2d2daccb42;0xa2d0c835f0257;0xe138a6b1a6e97;0xf03616e2e887d;0x518bbc58172];[0x0;0xe7448a60ecfa4;0x8464309ed38d9;0xe2e3d8922c271;0x9fa05ea8b0c30;0x5287b5a711bc4;0x8147d54cf690d;0x30f391db04787;0x929483ccfa79d;0x70dc06c2b3d42;0x6463601ac75];[0x0;0x35ca45baf8ebc;0x263657eaec759;0xb13623f162367;0x3083fb08ce69b;0xae57dc20d95e5;0x4ffdf9e2c9ced;0xd972e788cc400;0x232a4cb996270;0x2bc1bff0f1e55;0x93e7ad3a735];[0x0;0x1a2a81ec3bde5;0x8dc86d42132fa;0x97140a20143d3;0x29a888ade6672;0xf79a110558f6b;0x8b9b249f37bca;0xd862730c74218;0x604994629305a;0xb9bcd00017edf;0xc33c0f121047e]]);
 ((V [0x33bb689bba449;0x3b1e13b25c178;0x60f90d0d07b09;0xb71ae856c2d27;0x1d267cd545823;0x2eb49b562f081;0x794273d276f72;0xd6c6878b22bf4;0x70c2908c2925e;0xfad1aca3ad6] [0xde8a12d50857b;0xaff272de13c76;0xe52632a8a91d3;0xe40bd5cdf725c;0x5e830ee74fed9;0x575a2d82cbbd3;0x53e8ba963940b;0xd407da426e340;0x81f8a04bfc343;0x76b8541d9b9]),[[0x6c904c5bb6da2;0x3a84e78c02752;0xfadee10e3d230;0x4a56bab1f4cd1;0x4bb7682c7218f;0x9f2494afcc629;0x29401c4c00216;0x877b0d1cf7307;0x47731a00f4950;0x786dd4ec270];[0x1553b76d471a6;0xaa9e36c9a7f72;0x8d15f0a746a3c;0xeb8da060e0399;0xe57e2d85bd268;0x185adb7bb591a;0x7cd6679f3b4c3;0x74f3a0bec075e;0xfe783a8dc3246;0xd495a1c204];[0x0;0xe0b8e70c065d6;0xda4d50e5093b2;0x79d57e2d26a3b;0x5ef05a8bb6780;0x2e471f5afe32a;0x64bcdb356d4ee;0xe66247bb27d2e;0x22f3f5e42f7dc;0xb2741890db820;0x81662b8360d];[0x0;0x40d54e6276a9e;0xfd10765931bdf;0xf28f22e0b2bdc;0x2e44075db7416;0x42a69ad89d781;0x3c315335dc6a8;0x5d8e166b6e427;0xdfdd8f1e1af28;0x8ec9985f8e019;0xc8d5ee6e3e7];[0x0;0x40114b725398d;0xeda4a94b4def8;0x5c27ade2e3461;0xd948cf15243f7;0x5a3a771fe93e5;0x74a70ac69c6a1;0x6aa28178019d0;0x6b041d2f9ee1d;0x5640361e8f2bd;0x38a726bc66c];[0x0;0x7a5bb102f14e9;0x854c62c2b4fb8;0x704d6651ba31a;0xa0da874c15ad0;0x1bb9b6060fdcd;0x6cb66742b5d9c;0x89bf6ba45ddbc;0x4526c69b42225;0x3520759dcaac3;0x78c5e3a96c89f]]);
 ((V [0x1b106954e06be;0xf3c5231f4189a;0xa6c81468ba4d4;0xa1dde0e101039;0x11473685b2aee;0xe74114cc08c98;0x97c8b87a4fdfc;0xf5953b4b6d29a;0x3b0c020d570d5;0xe0b3384bde2] [0x6855aafd691b5;0xfe9aff7c7855e;0xb449c088ad7ee;0x69ca2ecb0bdba;0xa32f95de20f32;0xafa6753b47831;0xe9114fef8dd74;0x27bdb16d4bbcb;0x5b86e65795f98;0x628a38b33e9]),[[0x9038d81cfee5b;0x5a5e815d0e185;0xa723e4690cc7f;0x9adf1d0e2dc0b;0x699627cf20846;0x47218205f9536;0x6cc7ffa1963c7;0x8546280e18926;0x695222e2fde6d;0x5b87a9113bd];[0xad7d438fe4494;0x199da93fc635d;0xbfce397098425;0x1da5264707f2;0x6a15d921e36b2;0x3cd5c0cf66c0c;0xb3246b61630cd;0xe9ef34a1ba60b;0xbb798c8c55517;0x8e933a61b65];[0x0;0x4d79c6a7ac9db;0xcc202b3a9a9c;0xc54bbf0f51e56;0x1b507d7475b23;0xb60cc316e426d;0xb80ec51f9dd2c;0x7e2462ee3c1b;0x163c2c115af19;0xabfaabf216385;0xf5be30eb065];[0x0;0x8e50d3b58ea7e;0x90d9ffb2412f;0xedcc211fca737;0x400298acc87e9;0xd8584742d19c3;0x99457f06f4b50;0x108478610430f;0x8adf72d31eb9b;0x2817f73b975bd;0x54e4df051ee];[0x0;0x626cda81826af;0x266e892af2b94;0xf675d4991fe56;0xa693c33335268;0x5a717b0e25ec5;0xb09e80614794a;0x4adaf5c549c35;0x379aabdcf90ae;0xf6c81e8464abf;0x20b9ba16005];[0x0;0xe307306e5205a;0x62e68b2ef21cf;0x659b5e0d86242;0x9932c8103d81;0x988dcaaedaa42;0x61fc0a864555e;0xebe2b2fb76988;0x1fa99fa757fc9;0x59078cc47eada;0x5bec8764f7805]]);
 ((V [0x7da2688786040;0xe0fa11f6eedfb;0xa8261ed042525;0x621a73c13387c;0x5a3460e7ead13;0x9c5f5a88b75b6;0x75df1ae13be80;0xfecfc61162bf2;0xaa55f3e7126c5;0xf6c50c55c1c] [0x251a45fbc2cc0;0xb3b0975f2c53f;0xfdf74a2b8ab51;0xefec1949ef48b;0x74b6877230ff9;0xada3aabaecce7;0x54f34023fb75f;0xeb80b0b5bcf16;0xb9ca04f96a26e;0xfceb1053633]),[[0xf4076d17244c6;0x8d4d3d220354e;0x651f0d3d2109f;0x9e0dcb88c7e3a;0xbf6147bc60e9b;0x3200548371f38;0x390f2df39e9ce;0xdb8f486c37e91;0xfa65f02127acc;0x190eae38a3f];[0xd2c39e4a10815;0xaab09e612404f;0x99a39934f0e95;0x9f0cc76727f45;0x733ac0e511523;0x5e5a6ea513add;0xc19d7f5477442;0xfcca989806b5c;0xba45ec62160f3;0x8fc4b52972c];[0x0;0x40663bdb03799;0x38c1b2202e310;0x938077abe37ae;0xb870f8e8c125;0x53aa1155c067b;0xa0c3e3ecc4acf;0x93e3568f1e461;0xdeec36aac9dac;0x862e4ed22fa69;0xc53a1ffc8b3];[0x0;0xa9bde9acee3f;0x4313b9731d801;0x9110a732c22f7;0xeb4eb049e2e11;0x641b52434235b;0x91a793f845430;0x768e51d90e76;0x6873f7801d1d4;0x1618a409bd460;0x134a4c50b5a];[0x0;0x41445741ce958;0xd4980e2c3b962;0x83789c6a449b7;0x74acaa62748d7;0x45e00c0b440ea;0x6ca21501b9968;0x85f500f0fda22;0x5257370be8976;0xae9ec6fdd538d;0x273dede94c];[0x0;0xc72c88f04dfcf;0x83a64cb0d90d;0x548bb0b87fde0;0x6b0139a58f1a0;0x299aa7541f17b;0xb89f192b3da42;0xd9ec67a0b696e;0xda82594cb706d;0x7c55aa114e599;0x192593e52913b]]);
 ((V [0x56cecf384a7c2;0x7961bc0ca5913;0xc147f0d3b7de9;0xae81685ec7ff8;0xde3d94d94b671;0x307711973da74;0x60b3ec6207658;0xdfeedd7c98a44;0x4a69ca26595;0x878d7764f9e] [0x1ea95d8a4b759;0x6421bd95d3956;0x18abac5385a1;0xe89d043008d33;0x3bad82cb26b3e;0xb9173021b9d47;0xc69f50e164532;0xa237b6c525b05;0xdf9d11d7b71b5;0xe355b07110d]),[[0x390324479dcfc;0xe40535a3ba975;0x2894102931aad;0xd27e82e5547d8;0xb62569badc7d2;0x543bc2fcb3a29;0x1dc3010ad04d;0x41a73f7a403dc;0x1fba035c3e463;0x98dea2105ad];[0x5bd31a8fe58a4;0x860f7e87de425;0xbb9174f8328d2;0xdb461f742aa0f;0x85b9eee645557;0xb424a5e3d480d;0xeb34855bddef0;0x28453ac6ab966;0xe53fe9e05ae0d;0xe7ada54acf1];[0x0;0xfe16d066d3dc4;0x4752879fc24c2;0x566f488397ac8;0xae6f604f4f152;0x560abce957d4d;0x7c5bce6145a54;0xd6987a3e843ea;0x4680dcc3eef0e;0x5de9ad35d7d87;0xeddf4b60cd0];[0x0;0xa9c93eac09b30;0x9005ce0bf9cf;0x533b222257aa1;0x32d149006df7b;0xc2d15656d6ccd;0x9e864754f2da9;0x993c2b91c6028;0xa88cd2e9834c3;0x6a9e2aa3da757;0x12e0f0b4d27f];[0x0;0x201f40612a9c2;0x74d0641456404;0x2c4836df52fa0;0x3ed082c62f761;0xad9e017f10f4f;0xa56bf8075700f;0x4d13084bc5ee4;0x185fb9153bcd0;0xf92fbe6a46832;0x5b492210e6c];[0x0;0x83b1f569fe595;0xc0624cecbbc70;0x989da9ca95e59;0x92023085da852;0x5d1c182380a4c;0xaec9e904fb4bb;0x3a6c86a1b6249;0x7280fa46ee9;0xcba584a32b787;0x99b9ea6b75937]]);
 ((V [0x29777ad1c4f8c;0xbce74b9fff231;0x78ed4d6b43535;0x8477fdd9a5108;0x62c40840b7fcc;0xad0a7c62eac0c;0x176ddef91adb5;0x25ae42a3f7dd5;0xd9def04efaadc;0x36ca74d3caf] [0x8f54269065276;0xb722590835b8;0x9d378ff781c9a;0x255c0852e71df;0xd34ae53a9f090;0x7486da416af18;0xc3000e783d01b;0x8be136f669856;0x569e51bddbefd;0xfb81143e62a]),[[0x2db15d7a63fc3;0xf0a83604c7b2d;0xa3d7c25317c62;0x2d984f74280ee;0xb8555a8451892;0x66f0b07329e51;0x4dde10f44e290;0x90e0412053cbe;0xa115fd629a98;0x4ba0f39d53b];[0x98bce141943c2;0xc2d309c5a843a;0x35730ef88c494;0x9bb25a2e403b6;0x86fd42ec2a08b;0x286fbf6233581;0xc50d8949040ad;0x95029d1357251;0x7e74740c9431e;0x88dc37acd03];[0x0;0xb0cccaa39a2ae;0xe1ab947ea0170;0xa0793718c9e9b;0xafd7bc61a5b5b;0xece415f62579b;0xcba9559a871bf;0x3263ca53e6a71;0x92f2f52452499;0x48dcf47f7e6e5;0x47c682193c7];[0x0;0x2b58cf7626514;0x857ceb7538d06;0x5f26fa04289;0x3e61eb02b97b0;0xeb2e03da34c5d;0x6390a921bf358;0x71b4b1cadcfcb;0xc5ea36bf8b447;0xb7ae1a79d614a;0x8652112ae5e];[0x0;0xce5db331a8bf;0x14564dc18591c;0xd343dcff0acbb;0xb1ee71a2a9c71;0xcbfc83e9fe757;0xafde478f28f51;0x51695d113f898;0xc5eec312db5b6;0x628bd51c5d82a;0x1657b3ef9b8];[0x0;0xeb15ad38f62d8;0xa7afadcb3850d;0xbb3c521a53a7a;0xb2d22f6e91121;0xf71135b1395bb;0x2da0bba600618;0xd0739492390bd;0x8627a6fcc63f7;0xaadee6f169f78;0x4c0470796de53]]);
 ((V [0x11692abf9f0c5;0x64e0e30cde639;0x98a9b50e19f48;0xf19ca729f3bbb;0xc694d042ec9a4;0x26c870197959;0x84d4567b2c817;0x6e81705567170;0x74d42dd08c8e3;0x6ea32d77533] [0x1b15469ae7865;0xf102a5cc36018;0x5a150524c9d22;0x207f6b410def;0x60c56e2aa9701;0x80f7025abd710;0xe28fe0b0aea5;0xee26abdfa67ea;0xa25bc020fc1c1;0x1e15a3bbd9c]),[[0xd2b519d36693b;0xec83a18eaced1;0x681dce24337c9;0x75ab6a0c99f55;0x841d9ecd38886;0x6f6ace979e781;0xcd65348960e9a;0xfb35f98a6767;0x441e7df724566;0xe649c07a2c];[0x9de04267c475a;0xbca5711a707a5;0xc87be9c2addd9;0x4b961e2f50443;0xb575ecdd0a401;0x24de9a86b143b;0xde3ed26c9f00e;0x630da5ceb969d;0x18516d0118e1e;0xfa5d54b8fc9];[0x0;0x782b0e9b3211a;0x13c465f7d5cc;0x4bd1d65de8e1b;0x96a8fcc7da833;0x7fbd713801f57;0x89cac57a320a6;0x125cc82fb9ccb;0x98e52abdb2bfe;0xff60c29711348;0xbba0965ed2];[0x0;0xed471bd1cd8de;0x96f473fe06ca8;0xa0efa89a4f919;0x5e9f92a456533;0xdbe061d29d4cb;0x87a456a5f0c9b;0xe912253d7cdda;0xb2b5829cdd7be;0x34937e2cb1133;0x1c47cda2f51];[0x0;0x559911cd62e64;0x482428b7d1052;0x83c04c604f6dd;0xb72bf1b18364a;0xe849b1291d342;0x5e072b81a2183;0x12d2cec993f23;0x511a699b546eb;0xdef2258223dbd;0xcf289b1ad];[0x0;0x6096f0ddb0029;0xe94251c70ce43;0xc7e1962dd099c;0xb68cb2a8a25be;0x33b595cba50aa;0xd8dad5e5a244;0xe3864361695ef;0x34b87d6c90551;0xf2306e9235a47;0xe6fdcd6df9ab]]);
 ((V [0x21b38534be2ca;0x3898f110c3953;0x594d0c889ba9;0x597d87a1205fd;0x8361f3348697e;0xea5fbd0d1f7e;0xa4ff28ea7d8a;0x2419d39ab80d4;0xaa2301bbbdf6d;0x30dd001b22] [0x358ce71ed921a;0xb39879e8b0ec8;0xb120fe80ebd38;0x4fbcba3e6cc1f;0x1c1617dda57bd;0xdb825983d1153;0x5ffd5dbada6b5;0x47b83814ba0e9;0x7e7f33fe30047;0x8950b2fb1a1]),[[0x2ab01a795b4a2;0x65a614a2d915a;0xeea3a21ad40a6;0x8e70bd9be4a8e;0x4a360879b0932;0x33573d39d6387;0x6c227ff80e8df;0x5b26860b526d;0x5a60043d8b28c;0xb0ce36dbb60];[0x9cdad4a353606;0x360c3ef516b80;0x86ce721ec8f43;0x2d5bd52655b7c;0x7cedc06b3f61a;0xddb4548bcb17b;0x2bb41b903092d;0x611d5054d564a;0x6bd45087fb583;0xec07cfe7a4d];[0x0;0x23bfcbbe8dd5;0x43443323330d1;0x13cefa7a8ec79;0x6e70d589128cd;0x981d990185360;0x420d5be0c07c;0x37540e374052b;0x7ec0a4207ac78;0xaa9b1c2b943bd;0x2fd0a315798];[0x0;0x262de89279012;0xbb8948d3ed7a2;0x1d91e5d13302f;0xc6ac886f781fc;0x6df52f454efb5;0xfca9d133a83a7;0x403b36b96adb9;0x3f2c7fd86682a;0x9f12ac47cac7f;0x298e38da92a];[0x0;0x34f8a123dbc50;0xf6321452cca5c;0xc7cfca2b32951;0x9055ef75a546e;0xa405a715f48f1;0x9c625ee82ab9c;0x556f308c587cc;0xa96224f1231af;0x222b2d6d54f7b;0x7a1c318a6fa];[0x0;0x46e62b208e593;0x87c0f014d4263;0xeb1f4640b811;0xd74aded9bcdd7;0x6fbf206c65dbd;0x17dab7fafb39d;0x236c19777abc3;0xb9ab2c3d182d4;0x847cb875c8e9a;0xb1c9526c11a60]]);
 ((V [0x96d1d14cf77c;0xd0eadc6869b39;0x26673c3c6f036;0xbf8cf7e1b80be;0x59bd1e18cbf73;0x32c3152a72236;0x833091c68af6;0x811c3218a7043;0x61ba6608ef65d;0x85f11f7986b] [0x1f4df577238b4;0xe0138f21706a7;0xb5dba68d7604e;0x3640d43a4f05d;0x361cab48dbf81;0x7951d253fa7c;0x2f0e27d3f3e47;0x505f3782bc064;0x852609849d503;0x890f3642015]),[[0x125fd4c741eac;0x43e941afe5c24;0x8e1fc1159a562;0x2faf880f6630b;0xcfdcec92c5fbb;0x4380f229e1f05;0xc460406f5ecae;0x4474cefdd3bae;0xf3a0b0931d70a;0x31e332c67d6];[0x3e4b790820e06;0x79f5992b4b06b;0x8f398b514fe32;0xc02efb2d8d61a;0x2b06ccea0657a;0xb02add4e12ce4;0x59ef617b46122;0x816f4423e8db8;0x700f3992dfc39;0x63bf0aa0daa];[0x0;0x832493d9913b2;0xa041e85c0f46f;0x14ce0c78f9890;0xf6a8691e3716d;0x2dca44d0363ee;0xb4968c39471bd;0xb836a29009239;0x4792a796a454e;0xbd9a9c16bfa67;0x9539ed35];[0x0;0xc656499e7ec16;0xce88477df6b78;0x37b832e0044f2;0x3453b7550aa98;0x939f399f7858a;0xb1bcb18cc4f28;0x760c173e24596;0xc7f0d49a5b89b;0xc80d700904ab9;0x3584a019fe9];[0x0;0x23b1387a9c580;0xb4ac9ffad293f;0x8644e5245648b;0xcfb8bc6d95d74;0x5e7801b132132;0x390e342e2d02f;0xf734b3e439e8e;0x25386ae0a88d7;0x92a5ee1474a61;0x9b8c313121];[0x0;0xe5ea523761442;0x11f609c18b2bf;0xed0943eb993fa;0xaff81f910efe4;0x24b091d874566;0x6978f1489f225;0x4c35ce97e82df;0x3127d410cbf08;0x260ec262e1b7d;0x31fb944d88a44]]);
 ((V [0xa716dc572302f;0xe3aab92fc9934;0x7e7ad3078627f;0xcbf692ba557ea;0x8b6db23ad71d2;0x9e7828ca0f6e0;0xe9b1f4790f948;0x2ee41bf8b0257;0x2862d7efcc21;0x7332953f816] [0xf94aa82eb82b6;0xf39cb349a2bbd;0xb975d26a0323a;0xda0593e70336a;0x9856db0149a78;0x1114e52a79840;0x3cece26b66460;0x69be1002d90cc;0x447069aa72173;0xd29df7e8e8f]),[[0x55726fc47ae68;0xd712ca8a7a13b;0xde515d3ea552c;0x29475ed50e86c;0xb4008f8c85d7;0x1e39aa9368260;0xfcbfb66db4f8b;0x1ea5dcf08cad2;0x732364e6025a6;0xccf6c557470];[0xbd8513c95f042;0xa44f86038e915;0x8de19fdae4b20;0x8ff8963594c45;0xf486b693f7a07;0x22539b05237d;0xb21f7f2370347;0x898beba2b1356;0xa0408e603c8c4;0x5adaeffcf4e];[0x0;0xa6cbb706da5c2;0x9e38f50451d8e;0x51705a7551e20;0x74ab2132b622e;0xba9d7b2bbd73d;0xe1844b4b350b3;0xfb157decba08a;0x6ba7667c86a5f;0x783eba951ee50;0x46146dd08ca];[0x0;0x967376c3b669a;0xc8b624ca36083;0x2ec0f1c93a295;0x4e6d910289f2e;0xf31a574ee0642;0xa18475a0f2550;0xe89f49ba69cd4;0x263b4f2dd79a4;0x5f4a8c90ef71a;0xdb787b0456e];[0x0;0x7469dcf9cd01f;0x1bbc68411f6ac;0x39a45d5249c5b;0xb6a051015b08a;0x6c924fadcfd81;0x261297b0f7695;0x3c1d63df2e031;0x43b1613f04a1f;0xf6aed7b289060;0xa41a3862f50];[0x0;0xc075659ad0d9a;0xba1bb2310f426;0xb902964a100c4;0xe2f75f842a5e3;0x7e1db8ed782db;0x827ff17351039;0xaaabf47700dbd;0xd82056b5c8405;0xe060246b11fe1;0xcdd2be0450628]]);
 ((V [0xd3eb3a91497f2;0x33cda16217e9c;0xc314356157755;0x643d117ec778d;0xa318950869a0b;0x7a05aa9631e5a;0xe6f1c254f8170;0x9b8f9df4607ff;0x14fd993955c2b;0x133dc126183] [0xc7d673d2a7546;0xfb0a4011f2a81;0x902a5005d4f0a;0x37aa1819fdb4f;0x63d2dc55f84ab;0xa2e28c2d284ff;0xc9700c0c903c2;0x195536d2a72d6;0x25c3d1481052b;0x22f4be5a84b]),[[0x15d17a63f9879;0x45cc8f3a6cf7c;0x3f0b90097f273;0x993a37848d58;0xe03a4ce0e9353;0x255d2b8a41e01;0x6529e0a364f36;0xd402e9e80c284;0xf3f7c20f08378;0x1a6fcd408dd];[0x5e997d038dd4e;0x8d5878b88cfe8;0xcec3be077c8ef;0x358a962248c49;0x260e9c3b99c36;0xb498a3a454161;0x1fa2bf48b72a2;0x74d259d67245a;0x952b6bfc0e2c6;0xc594cb34690];[0x0;0x816b2616b3615;0x67337fcdccb7d;0x1ff5add5f1955;0xbe56408e5ab9e;0xf0985edaa802d;0xef7a3b668c99a;0xaa7b720a11c8;0xe6dd045e7be82;0xdea337256c7e6;0x33d67c15b20];[0x0;0xccbdeb3ce2ab2;0x57c42e9704985;0x6d52a59c20443;0x4601e5fbd85d;0x6a98a1a551cf2;0xe57aa1c1ef749;0x4abfabdcb5135;0xe9c88a2972f7e;0x3f6911aab2151;0x2b800d1382c];[0x0;0x25e9bcbc1bc17;0x4529b8634b5a8;0x9c9f785577ff;0x5e6eb9c9c1fe0;0x3bcb1c4fac03b;0x42659c7fa3287;0xbad453216aab3;0x9ef25a3f19c3b;0xcd3fd0e41a4b6;0x2bae684bf5];[0x0;0x67d53bb70c9d8;0x85bd5a5164c09;0xc6861137862f7;0x54eeda4d89fe1;0xe88f62b259546;0x6cd3618c89b76;0x8e4fe5328aee0;0x2191ac77dfa01;0xcff623d390885;0x1a9425d370390]]);
 ((V [0x4cb636a20f459;0x69376b93b29d6;0xb11c1276620ee;0x73aa2eac03a1b;0x6e3394e4a3420;0x75abae76e74f1;0xb2dba9b89fc88;0x95a2f1025da5f;0xcfd747126ed34;0xb565e47d0f0] [0x971f261d21db6;0xfc046e18f5ce1;0xbad847ba6382;0xc142571028e6c;0xe41fed1197ba9;0xbd86588aefee4;0xa4a55bb1de7ae;0x9698d834a3aec;0xad11bc02f9471;0x8801868375a]),[[0x5acfa5428d825;0x3011d4b57f8f;0x4c6d4bc6efad9;0x59f79dd3330cd;0x2783be22257a6;0x85b3c0e4a0e3d;0x68fb1b40cb9e1;0x7fe4497c13b12;0xa81e69f819791;0xff87e36d40e];[0xd71d4783f221;0xffe7f55e951e6;0xf02ab5ddba64e;0x30a7b782d5b5;0x4264b0d84272f;0xf5b8e54c72f60;0xe15695310d5de;0x82ee61c21f8e1;0xa5691a5444004;0x92f3f6275ec];[0x0;0xe78ffbd43b845;0x880eb26b0291;0x4bc6127998964;0xb040df9e2e8d;0x60b9382a619c8;0xc5706ed02fe4a;0x5889f8f561ea;0xe10f13db74a0e;0x94f7fe4eb8e73;0x1723991457];[0x0;0x2a58d6c650143;0x564c46bb62008;0x4df4823d3be30;0x4e164a0f7229d;0xf43fcdf7cb218;0xf9bc90ddd51fa;0x3e9221a2e4428;0xad1d7de1f3544;0xc525b29bbf7d1;0x45c8af74f78];[0x0;0x1d1783360d604;0xd34b86e2d7ea4;0x65826fa48f2c3;0x221b98a5d426d;0x770bc7e05c3ca;0xa382deb9d8edb;0x888f6fce19c3e;0x6aab6915e3bf7;0x895dead881baa;0xff0fff354e9];[0x0;0xafeb0550bb5fc;0x53d06c7a91ddf;0x6a1e134f1bf85;0xeccea4ce9cea1;0xd0d9c238a6cf3;0x68fd2d4c9172f;0xe9965898de1b8;0x13b57c17873a;0xfac061124ed85;0xffe58f42411d1]]);
 ((V [0x6af335f103dc9;0xb7e4dbad7503a;0x3f2805372db90;0xf19da5d949263;0x930f5a848ae02;0xec70f72ca5c4c;0x6383a7c7010a5;0xa9571e7fad6b3;0x945e3667ee362;0x92fb5b1fce4] [0xa581766d06066;0x3eadef520206a;0xa35768636fa83;0x1e338f651e3d9;0x1da2701ad3131;0x4bfc806ec006e;0xc750d5652243a;0xe37fae8604e38;0x508416b5cf4f0;0xb7c8e1386e2]),[[0xa0f4751bedeb0;0x20da74f261c0a;0x43ef9236fc96f;0x24a256b36dcc0;0x3a82e0de47327;0x8dc9a7ed044ca;0x3035637c5aa04;0x97a6f607f1700;0x1396a93db6cde;0x57c034be11e];[0x14c0bc02b33f8;0x56b419f5a8b81;0x1aa4ded5c086e;0x7a59716655b49;0xa46a98cae36d1;0xdcf69d754d05;0xed0bd21bc174d;0xb3ff0a5c7a8d;0xa2bbb516b63ff;0x95d8b13ba81];[0x0;0x7d4be2403e93f;0x9be5978aef232;0xe1c50d7083853;0x6ee9abcf6e6f1;0x4a36450815e84;0x3c15f9159ab92;0x78a3631ee2594;0xc0bc5353f7519;0x53e8d7cebc7c3;0x80893da6ede];[0x0;0xfd0b1f779e2cc;0xbcd9a453dbb0;0x5f6341e4da38f;0x701ee310ae71e;0xb739c23aa757d;0xf622d3336cb24;0xa5716e5666a89;0x29e2dbb0d56cb;0x330d869bca59a;0x5d3d43c1b31];[0x0;0x3986c7bf55d53;0x1e0f9a72bc49a;0xe5059fb27d9e4;0x22c52e62012d;0x9b279f918404f;0x7e2522dc285cf;0xb133a41671690;0x58c2ac10cece7;0xfab3e9b41232d;0x1e143428581];[0x0;0xd721f46e2d2ac;0xdb57dac9a6b1;0xfed1d767f24b9;0x40b306b740768;0x64b76a8860ae;0xef39f8d270a5d;0xe45f18bf4769e;0x48db46296cc09;0xdf90232115488;0x5823c0fe7cdb6]]);
 ((V [0x156d306e419b7;0x75d74263410b4;0x81f1dc4bc232b;0x271dfa6b56b8d;0x4922c152132da;0x3be29b5d2881a;0xdcd3f87ed3d86;0xbf0a8b75eacd2;0x8d3895eb579cd;0x1b4f54309a6] [0x2566cdbeb82f9;0x42ecc5ea643c2;0x3ffe8c6cd8d0c;0xeee30f264481b;0xcd240d5876082;0x8b5d9d20d0797;0x313e294248088;0xdd2f172cce277;0x34b7e42106f6e;0x48a1ddbeff1]),[[0xedb5d8e41e05f;0x99cda3cdb9292;0xd7376a6cf2b40;0x8966c0b2a7f19;0x2b1c11f946cd2;0x55ebbbf9845d2;0x5661ab78b4758;0xb96e33ffb9ad9;0x5cecab4d7b3cc;0x6f0bda7eb8a];[0x7dda9be077a5f;0x8af7a846de8a2;0x7eae32b9b4484;0xc183a5e1b68df;0x275945acdffb2;0xcc1089a2a7f34;0xb9a67b80240fd;0xbc6a3f7675a30;0xc95e94e7db8e5;0x97effe611a];[0x0;0x8cbfbcfc2cefe;0x2bc1af4f45e53;0x3c02aa0ab6c2;0x80fdbae8d6b1c;0x6c010e6d82fa3;0xf22f04a464241;0x768125e53c07b;0x5cbbaf782e651;0x9b802207c5192;0x5463aabc181];[0x0;0x766baa2efc695;0xa0821f8e757a8;0xd3d7e3c6c67f5;0xe2aa5a313258;0x5d431bd92925;0x7b67a68c46d1b;0xfef92be123ad0;0x92137f7130c56;0xe3918b77309dc;0x9f71384a5cc];[0x0;0x8677afa742248;0x73463c6a20467;0x125683d5e6c24;0x94c0cc8a25f01;0xcffbdd15f4730;0x5606e7bcb0a34;0xb57d0554abd9a;0xfb4135f78e03e;0xfb8c83ad628a5;0x302b4806657];[0x0;0x98ae659b49198;0x90f7ff9e4a36e;0xe21ba2c176063;0x5d54488da64da;0x99d25792eb120;0xef21a6b4901bb;0xbeb9d88e54abd;0x9064b49f0df17;0xe6929bef49ea5;0x6faecf7ac11d1]]);
 ((V [0x21e8f9dfad88a;0x8120a82314a55;0x9815f592ba8bc;0x22aa4447134e2;0x257f1649faeb0;0x217b6f29e59f9;0xbdd15ff034089;0xc288cbf717409;0x83c3030c9c5d6;0xe76addb3ffc] [0xf26f02c0f51b1;0x50d8310bfba21;0x8d0df710ca0b4;0xc4fd63d5e9c2f;0x3c1c03079b53;0x2463e43bc33ee;0x33b7e6c6e4351;0x80bfbccfd7a08;0x54abfbae55c47;0x4276b43e7b1]),[[0x33222cbda54d;0x97f15a87a2784;0xe15970a9792fc;0xe16c6dcd2452e;0xe0e270bda48df;0xebbc08ee7bf16;0x276a8f08a8398;0x4befdd985868;0x4408765058258;0x4b657a8b120];[0xc735ff53d2a9d;0x1a95a75fa6381;0x5c6c9373ae967;0xd505bb0d62702;0x3681f278dcf4e;0xe83d5cbfe7ecb;0x6f6865fd7e48;0x2c26a48babced;0x54d9d255749e7;0x4c2e0f716cd];[0x0;0x9920d2a8bc82c;0xfd070e1d56dff;0x79e3d20582fec;0xc78ae338bc06f;0x9b1a563f95a85;0xb79951c31a3d0;0x62fdbbf0ef367;0x39fda47aadb1;0x157e098067ecb;0x2e9d457524];[0x0;0xa68169a529459;0xb80d55de081;0x47d097139ff53;0xe44a3ed3fe82a;0x69bcc7c1e87de;0x55ba446f1fc72;0x5489ea3e3fd06;0xca62fa429bf30;0x498d87bfefbca;0x2ac86d30138];[0x0;0xd24a79130bd47;0x8004313bb37e9;0xbe0c9403f4c7d;0x7a725c84c8798;0xaf31eb14f0103;0x4dfd3d5c4201a;0xfe68085006ac4;0x7f27002bdb7ef;0x38de2df6aa92e;0x16349e0768f];[0x0;0xe57164398c076;0xd47a2c7231988;0xaacb56456e888;0x73bd236a2f2d4;0xf400bc7f62206;0x28a34a037d5c;0x194003a212fd7;0x667f82c18c54;0x1396b85ddc930;0x4b74c30bc255e]]);
 ((V [0x6e73c60b7b478;0x29426011291db;0xda5c6c342701c;0xa3ab77954377e;0xac2c99ff661c4;0x7467e1f2ecb09;0xa3e0382b2fc0a;0x9d290f6c8ecd5;0xf433c1cbf8cd5;0x7f2325d9dfc] [0xb4f3960d98030;0x9294efb8a7706;0x56eeee5079b04;0xb6ae3853f4e47;0x561edf048688c;0x35b098eb8471c;0xccf5af0a14bc3;0xd1d2baba8e0bf;0xe404b51214b9a;0x161d02d47dd]),[[0xb75b229bc859a;0xb306798cbe8ea;0x427d9b3c0322e;0xecd79f6d21071;0x63be0c42e8014;0xd3c9ec4f79900;0x185cd3257f040;0xbf74dcfd2673b;0xb8314ad31d0aa;0xf326a52b8be];[0x92aec80862d52;0x39711c3442437;0x8ff987add926b;0xed0191ba7bf29;0x9b59bcfe74d90;0x564e06be37b3e;0x39c6abbe79a1;0x8739f5102fe73;0x7a17f4151d2f;0x3f263fa98de];[0x0;0x432f6434dc25e;0xf648511c638d4;0xddfc2673f68ac;0x6a2920e1884a8;0x656703383fad8;0xe418afaa65880;0x580f4a27c1680;0x1d5042ecf0db5;0xb74a039746e48;0xd13208b730a];[0x0;0x1b64156c9b0f6;0x9a4aa3366b26;0xd4a824b7f342f;0x740f3e8ade74;0x6b1bd840d638c;0x550b20fe6e955;0xfa6aca97c7f4f;0xcae1f57eaa4e;0x73f9bf68eae01;0x7e416b2fc11];[0x0;0x8cab39f10c28;0x2a35e147b1f2d;0xe5efd4fd296a4;0x8744f01354c97;0x7564af9b056da;0x4a2d59ec12d0c;0xed93c2599dd29;0xdf09235e2e2fb;0xfce8a0f804624;0xe6f263661f1];[0x0;0x45a329492e90f;0x9afe2b26cf0dd;0xac223e8a3cda1;0x4655f3935bcfe;0xd0cc9fed0ae81;0xb2cd2c5d73578;0x4acf864c14bb5;0x168eaea9bc3eb;0x30353ad5d910d;0xf47cd7a228c4b]]);
 ((V [0xc3465ee1a0e31;0x57eec137e1855;0x9a3442dd57c45;0x51d0179fa92b3;0x528dd9472b9a4;0x49dabda2124b7;0xc83fabf59ad98;0x869acd0100960;0x485349f38d417;0xf8fc82bf0e6] [0x234e19534f2cd;0x64eca09af5ffc;0x89e091015a252;0xc0025369b2755;0x9297b7322dc90;0x801d4842e81a;0x146dfaf2b054f;0x380ddac717985;0x61b8d5f9e879c;0x15847a85d8b]),[[0xcf9821744a969;0x8e44d723b4eba;0x4e042aef94af0;0xf885c986992d4;0xf2ec97ee04622;0x1f9c845b03945;0xb3c8b8731996a;0x98b31aac19ea3;0x97b64392fe09e;0x56b27043d47];[0xed21e50f85fc1;0xd87f57fb656d0;0x6809cb82bf54c;0x624025049b85c;0xb3c396913b1ac;0x517cd6a50162;0x9fcd5812e825;0xd14d377cf2a31;0x7c61865994347;0x4097a579547];[0x0;0xa806430f3ef89;0x6e4d45091cec;0x72b7761ed07fb;0x88d77cfcc2d5f;0x468c380480ce9;0x6895d02187928;0xecf12f02333b9;0x16bef265e56e4;0xb8b8121700545;0x3f23e4618b3];[0x0;0xe0aa034e9d6df;0x652c477b7c583;0x4c41419bab40c;0xe5e15491ff664;0x852c1dde48df2;0x32afdc7504cfc;0x870e5bea8fa15;0x40ec9f9de649;0xecf0e2c716dc6;0xefa51a3ce6];[0x0;0xb2745743fba90;0x6c3ec95bac438;0x96808105d815d;0xd97937c47943;0x8017cb621c255;0xa062c2fa29de0;0x1641add431db0;0x9dadd9171caf3;0x83ba21b36802;0x1d5c5fcde25];[0x0;0xd233f4996237;0x4b4c18e16fd96;0x4a77b2476f3d4;0xf4776a4c711e3;0x1fd0660c4e4e6;0x7278e29749d28;0xe2de84b20db54;0xbf8f876327ac9;0xaefe9b9dad63d;0x56dfdec051574]]);
 ((V [0x9bb955130a7da;0xeeb0162b756d3;0xc0b3170950e1e;0x4b33224edb877;0x793b4aba71c9c;0x6a9aa03f6ac9a;0x828b348d74b16;0xad69db5c2c755;0x8fc9caa9c8d18;0x2d33639b59d] [0x288617902da7a;0xdbff82f3eb718;0x2e693f9ed29b9;0x2de522c078308;0x991e2350a0e85;0xe96051b04066a;0x45593e666c7e6;0xb4fd03cd3039d;0xc444ae47281c4;0x1ae85044276]),[[0x3ad49dae0834e;0x2810e90017029;0x59bbb5e7fa063;0x684fe0b07840d;0xc836eeb142157;0x3b1a3be82db88;0x675bbadb82a45;0x2acf071e3e03b;0xe8d3157f5a80b;0x2d2ccb5093c];[0x38c36eb675d3b;0xc98462081dfed;0x3ccce8f519271;0x2829b768207fd;0xb910e73ec3a97;0xd23a8e8313c19;0x68d207e0160;0xf1203e67b2056;0xc2a38589d6f5f;0xa60a545a910];[0x0;0x9661fb9546eaa;0xe1b5297cbd807;0x12a1e9841d320;0x324a4238e439f;0xf9b79b048d551;0x39a4f06dce02d;0x29a1e3a772a8b;0x8927a1a001e72;0xdb130c62eef14;0xf22a3663d6c];[0x0;0xfed6d0cde92d1;0x21175190bd6b7;0x901e56de32356;0xb9d15f5c84119;0xecebbe30bd86;0x281791ffbaea7;0x10838ca379ed5;0x39d5ed67f35c0;0x83b488e7b9ff4;0x7981acad22];[0x0;0x3555859363c38;0x317b339e798ed;0x5bd8b460b0b73;0xba387a2a741c3;0xaf4ce125e0438;0x45eb851fd554e;0x56a0de7c2e045;0x773b4f48d5633;0x2506a2c3df6aa;0x7f8c750d92];[0x0;0xecb91b612353b;0x401a167b2d8ea;0x591a44f902a76;0xdd1743f319bbd;0x7ddc49591e2a3;0x7add395538c0d;0x606fe7e5bca06;0xbb4f89d31c876;0xf41f82bb853d3;0x2d7dee1ec7a36]]);
 ((V [0x7725f25e61480;0xa22fe2a24da88;0x5b14eac48de43;0x82f9a2987ada7;0xbe3099650d2f5;0x401ab7a6202d0;0x205a1c046f5ac;0xbe2b059b1e44;0x12c4bbd28cf98;0xfb0dbab0f22] [0x8c36d0f614ba8;0x96247e0b1a3f7;0xee19b1dc0016d;0xc2a4351ad8e23;0x5918cf997524c;0x2ac1bbe55ffeb;0xe488d814862d3;0xd4a51157398ba;0x612fb876356e1;0x718321f187d]),[[0x2c107bf58ecb5;0xa688a8f5e09ab;0x1e06b4f98450f;0x18e005efd1ef8;0x6c18745d7aac3;0xa49beb0677c4;0x3b2bc1a6db445;0xcf82028824e15;0x758033d687a6f;0x88e5899a77f];[0x39f9f0081cda6;0x325c6d7ef09bd;0x9abd07b980658;0xe43631cab276f;0x88b8d593689a2;0x4a8ab41f70f0c;0xbebf1155774ba;0xd08d6a2cd4ef0;0xa6f485260ac2b;0xdd3067c8ee3];[0x0;0x5764adc4f8012;0x311e95d3cd530;0x196d07a5a7e48;0x416a05782e7a4;0x83f886cf44477;0xc6e4e45240ac1;0x7851504d5993c;0xc3c5d35b84b4f;0xd9b077a12ad36;0x7fb1b55743];[0x0;0xbb30aebec8fc2;0xb179d0467bd5a;0x2d16bb5fc3424;0x362d07decf8a8;0x5b111a3b293bb;0x1a4b1369133b9;0x1e3f69f5966ad;0xf704e2f74811a;0x30dddb5c4d535;0x1cc715d5227];[0x0;0xbea0ffd591213;0x133445db584e0;0x262953800af0f;0x5f977fe73ca37;0xced404210ca4c;0x3c965727f64cb;0x4d3e2643cd651;0x84dc379a87ea2;0x81fa2310c1d6f;0x4934b00397c];[0x0;0x7b837d39a9d35;0xc40132e26db0;0xf9865b501117b;0x3e703a91a1655;0xb2c31a30a2bf1;0xc40d9162628df;0x89a12fe219cc3;0x7a90a2a4238ff;0xd74f206fc77e4;0x89005a92d901a]]);
 ((V [0xd776f6fbbc466;0xb52fe4c3cb5f7;0x5d0ffa67c663a;0x79833821b92ce;0x9387189093b46;0x88a49da0bd0cc;0x237361df269e;0xb50bb57b1b74;0xd758c38e10867;0x2f7fffef0ca] [0x6ff694274f30d;0x952beec0bac58;0xf8785d8b53464;0x4659ffb8ac769;0xb8a9323885996;0x81f48bfd5c349;0xfdc98a7bb91ae;0x3cbd0938f393c;0x7e44d0973cf92;0x9eb39a76add]),[[0x83eaeaaae4749;0x59d9c1250a145;0x5216c20673cc4;0x1e8b8142ac89d;0xcd3ea7e67b82e;0x57c7c67c95938;0xafa5d2f0edb1;0x8cf7ade18d131;0xf9708316e5730;0x42db11fa36a];[0x733cbfc6b2667;0x8daea7c383cf9;0xb0a1fa1310deb;0xce14cf344a704;0x610cf82080be5;0x91b59fa4ec6c5;0xbfc124b6ae4c8;0x72a380ca7f79f;0x9f6056c7aa01d;0x5dc8f541a58];[0x0;0x5364ab96dad9f;0xb29bed021376;0x3cc312133cbd4;0xf5b8510218f25;0x2296ec2accab7;0x8df8895afe539;0x28a01d9af9965;0x4758299af09d5;0xb3e610b9cf048;0xf633ecd378e];[0x0;0x79bcf344d2071;0xe73e87677a6d8;0x4e8d4fae74ce;0x28697fb5097d6;0x1c4c31dc31670;0xfe7f64b6907c6;0x375949e4ed8d0;0xa130311792145;0x833602c64790b;0x3b49e3cdec6];[0x0;0xe1dc557a46b3d;0xdf551b1e0473c;0x3694e282bec4e;0x1de8a96d570d8;0x6ba2dcc88746c;0x9da6ae3192631;0x2bcb15a42482b;0xb4006f2f00a22;0xf4a1ece321676;0x1175b0bcc78];[0x0;0x4a64b19f08fec;0x73411e1541943;0x32677277b591b;0x2a774c11f6853;0x1c81cc089868b;0x722cb5ae20644;0x327d696eaaa9e;0x60a1cb9dd6fa3;0x88349c5afb555;0x435315c6e1049]]);
 ((V [0x8b689e8095eac;0xb3884c648f845;0x7dd012cc491d3;0xfb204afd0b634;0xe538bf111837c;0x6f8a93fe39c12;0xe02eea507794d;0x5c92becbedca5;0xdaf579447637f;0xc072bdfda33] [0x59297f1c029e7;0xacd90d29a271d;0xcd46ee6afda04;0x7cd76a4e83e3e;0x4e83a691b7384;0x2dc2fa2e5fbe4;0x63aaf8d909a38;0x9ab83e5f1d898;0x7675aa2229d25;0x881d765a99e]),[[0x16793458fd6b0;0x8416cae079c34;0x369f6e2d8d88c;0xf07b333d38fb7;0xaaf08b643d117;0x1b75f4f48af27;0xec6cbe2c4008d;0x6bfd10b45183;0x382f57da50b4d;0x29f210a8b06];[0xd3b92e5002af3;0x7a455d947284b;0x83683e3db64b1;0xd74385bca037d;0xb764c17b9b8e2;0xb18ab83a37172;0xf5d309af72c2;0xb94d358340fb4;0xfab4370457c8c;0x2de5e472a20];[0x0;0x1531beeded8c7;0xd178a703cd3c0;0x4f5abb79fc0cc;0x552505bf1020b;0x22084cb3e19e0;0xb194d03206433;0x65e00910d34ba;0xea23499103019;0x45fbe5ab29e0b;0x8d03ff9b5b];[0x0;0xc6bd23bf232a5;0x42dbbf9122689;0xf919f30dd885e;0xe80f34bce195d;0x1f329ce2b62c7;0x11006d4c9fea;0x28bab8e873e4c;0xa00029ec4ca48;0xbba76e5d3c2b8;0x3401a7b1a5c];[0x0;0x4a158105b4238;0x2ee99ed111155;0xf7e238b144044;0xa5ec70461a370;0x103f5a89859f4;0x2b7955dbe5a98;0x8e5c8636de57c;0xad7305c3ad3b9;0x2e14aa6e3f651;0x6df6e39888];[0x0;0x4be8926c1b064;0xa849395f8bef8;0x11074e6457fca;0x49ada34951d0f;0xc7fd5b539cda2;0x2cb837fde532c;0x8a9d197a9d767;0x3bec531de8205;0x22d2f516f423b;0x2a0442ca0264f]]);
 ((V [0x95a2b7683c605;0xa58f926545dde;0xe5192f6d5e5f3;0x9e82234f9d90b;0x53908573306ae;0x50fdc6a91a17a;0xc69fdc6ccf86c;0x7e48dcd199a0a;0x40a2c09a3417b;0xf9e3b57b5b2] [0x16874d925c523;0x3f74a764ec22e;0x404c4f6975e9c;0x2ab77cf2eee46;0xebe58dc1f600f;0xf979d00e378bb;0x8bc26d59008c4;0x2baef80b2cf84;0x95c79795713fc;0x2576532aa61]),[[0x37aec0e7860e4;0xb0eac2a885853;0x9bc166d5d0f68;0x6148f4eb2b883;0xce693b8c389c7;0xa2327845d9471;0xde7b87d79b604;0x60df8ff9465c;0x9bd38e9c8ae54;0x77dcce8f731];[0x349f5ea0003e9;0xe9392c588119;0x45cb3c367dae7;0xe5a291297a239;0x9526c0be9686b;0x4b3cbfae405;0x8c1c8cb04a7d3;0x461623d31032d;0xb4b5137d21817;0x5189512143f];[0x0;0xf35b9c860af21;0xf94537ae988f1;0x2fcaca61f4650;0x12bc760dcd6da;0x87a1987bdb6f8;0x7eac31c5d01a8;0xe6cb6548732eb;0xb4f7b6bacd1ae;0x26848ad56a506;0x90ac506a37c];[0x0;0xf1982992c6a3f;0x34e0b9f2b0c6a;0xeca8df57a07ae;0xe14ecf373be5b;0xf205473cd3cef;0xd698f5fb9d0e2;0x7fddab140f11a;0xc7a5e05eb004e;0x78806cb96bb93;0x7f7632539c9];[0x0;0xd735faeba56b5;0xbd3ebd12b3b0c;0x213f562218cb1;0xe17bb1ac3e450;0x9618b9044d5ce;0xf57ea961d74f;0x18c4af0b14f5e;0x87d26cc9cc223;0xaefc75a338369;0x381f067d0a3];[0x0;0xf4e92db899a2;0xe9bf23adfcf9c;0x9bb36c3df37c;0x43b9d48b42641;0xf4f5763efd130;0x8513a6658873a;0xe79eb62c0466;0x9c953c0d2f6b9;0xbe913f9ca82e7;0x7839c64f89553]]);
 ((V [0x394143ef8261c;0x15e28ad925075;0x67b3d95c0badc;0x981cf11f90d23;0x78a84ae6c174a;0xbfb01451b4d3c;0x3be03195e6f3;0xb23573d8b1eff;0x250f15455a1a8;0xfc19752dbd] [0x757c7259f3680;0xee7f309a1ab1b;0x15bb77faff124;0xbadab5a6e06;0x1c15ac82f6165;0x635ff44fc5f79;0x2b0d2465b4e98;0x3f40fda1dc4f0;0x79d94adede917;0x91354b4d1fc]),[[0xdae8319f79889;0xb53c87d7dc8ee;0x1c067d82457d8;0x5435772b66ef2;0x5519b623c3161;0xe3dbe220c4982;0x22a5b2e7f9caa;0x2ba9473bfcb1e;0x4d646b5e511b0;0x1a27671d837];[0xe5417b931fed8;0x8422b7020c960;0x118eaa541baa0;0xd73031a316458;0x3102f624f3650;0x3354d3a7621c1;0x61fd13af29c7f;0xd8d52645eb6bf;0xd5da7d7ee2de2;0xdec605d3dff];[0x0;0xa8738412c0cb7;0x1289e7ceb9c2b;0x8cf0a9a9fa330;0x2b52f666fd723;0x5e3a0ebf5b16c;0x3d8559a98b7d6;0x3822333f1d47b;0xa5c97ed202f1f;0x76805604f5d28;0xf3ecc19550b];[0x0;0x4b612f5f24986;0xe87cf83e0edf9;0x8d290716c3b0;0x80c67fe1c0e4b;0x95a811d3bce7e;0x2d655b96d2449;0x795904e39a275;0x9bf5607ef6d8d;0x36e46d72fcde;0x7a7911fdaf];[0x0;0x99b0f460ebb7d;0xb0b914a851f0c;0x654c672e2bddd;0x6bb9affd666d0;0x3dcc9ab979d;0x15e5697906b06;0x6b48283359f7f;0xf845086d47b44;0xa8c4eb6e42e65;0x2ac0702933];[0x0;0x95e64f31d890b;0xc49d7ede1868;0xbb2458a022060;0x84db14da58fe3;0x481694952e3dd;0x63855f5c0fff7;0x163bd0a8540b1;0x7613bc7fd4e23;0xed5edab8119da;0x1a597a0532659]]);
 ((V [0x1791ad9300bd0;0xe777d621e62de;0x54df2ccc1ad5b;0xa505f6896aee7;0x5d42e578d4b4c;0x92a9379cf679a;0x1999206c579ea;0xbf7050331b021;0x8d5f8365d719c;0x40f9f9b06c9] [0x7b6743c4098c4;0x5e21625affcc5;0x864dbcb5c2bca;0x3dbd64ef414b3;0x694539389387a;0x66439641dd429;0x9f0ca2ae82dd0;0x1aa95fd7ece64;0x98a49167713e4;0x517fb8528c1]),[[0x96d9fb1790473;0x7e6570c6830b5;0x2d8bc65ca8631;0xb35105498e72;0xb680864540506;0x4504b7e251066;0xaaa68d49869f2;0x239a866bc3120;0x29dc199a00886;0xc399cbe7cd5];[0xcbc900c386a79;0xec1b76a7bf91f;0x804beece83233;0x7249c6d30daae;0x96b134d59c5e4;0x53c566541ff62;0x83bf96da2e766;0xe7e3e038d329;0xd35fb3eeb4ecf;0x817dcc410bf];[0x0;0x8d4ee16c6feb1;0x292ca4fd025ce;0x3668e9aa149bb;0xdf18d0867adcc;0x78accad2b460b;0xb77951054b646;0x44d7fb96de385;0x5ca021c28e363;0x4f2bdfebd416c;0xf842213a2];[0x0;0xfca531bd36ba7;0x30dfcd603dbb7;0xe0c140ba683da;0x42cad4fe58370;0x2c007e40f5dfb;0xe8dc6b34da791;0xc59bd97716f50;0xe0866963c42ee;0x15ff58c25f774;0xdde5a9bcfd2];[0x0;0xc6c405c482357;0xc657925e93385;0x17a8bcd282356;0x4156d953be8ae;0x8dc140be103d4;0x7309446f71312;0x17ecb546d5bb;0x182fd70bbef08;0x8ba9ab76a969f;0x9573a908804];[0x0;0x975a596b83f93;0x2b2b93ff3de3a;0x5c4714a27d2b4;0xa87dda9e33007;0x31612e42b7b18;0xf9f4c1a962641;0xa3cc290de06ea;0x7059e751fae83;0x2a3fd2f7aac09;0xc437ca2ee0c96]]);
 ((V [0xe59d9071a4c;0x412900abeb1d6;0x3f09992e39122;0x1745a22d1e72a;0xab0566b270d8;0xbfcdfc9b23704;0x21f37a855bb34;0x1564ceb9bfb31;0x28607d5f00413;0x922eb16c835] [0x6a06695f05f9a;0xef9a5f83ffa0;0x2a1d8d0f2dba0;0x95c4c012c6ff9;0xb9ae21d081e22;0xf7ae7cc722bda;0x97aa8360c3094;0xa97b8fd015bb5;0x3d0d9c6b3ceca;0x945a20feb87]),[[0x4f066a1c9310d;0xd5ba06bad9a0a;0x1013cb3cfaa7c;0x85d003f803938;0xdb6abfd893490;0xc7b3ce8cc794b;0xcd7401b556a68;0x2c65513df89a7;0x5c722065f3745;0x80a96ba6f62];[0x88fac4fb17a9;0x155ee36b7a515;0xdc50e72e55b79;0xd96d9dd72303f;0xda3938f339213;0xd2eb2c648c314;0x6c66affd8c2d5;0xb2742879f1e3c;0xba7e061ac9e74;0xb565d936478];[0x0;0xb0d81e22d2ff1;0x160bb953e9f37;0x73515fcd9609c;0x8db105efe3a85;0xfbd85755f1276;0x2741113d51e70;0xfa3872ded22c;0x219a167952ade;0x85923287cd96a;0x107df0efe30];[0x0;0x46658508d538f;0xc9ea709222d29;0xbf4c9c67c9e2a;0x167916d483061;0x4800c33213979;0xe564eecce6504;0xf939f47616ad9;0xff1d2e9285126;0x81420dd58aa2f;0x51eb977efb8];[0x0;0xc1efb39a5d55b;0xe817e268296f0;0x79d3e1274596;0x6eaed760ee2b1;0x41e6e12daa4cf;0x8bccbb24cbb54;0x3d2d5490090db;0x90643002266e4;0xbc3aaab6cf2b8;0x40a9dbc645d];[0x0;0x6b6eb5994ac07;0x209d5e592659f;0xfa0ece8d165da;0x95a733e09bf2;0xc8dc79894268d;0x67e43adbe38c4;0x43ac7a5ad115b;0x4c23c814e9564;0x5aabcf09f648e;0x810144f8cbc65]]);
 ((V [0x6fea38f46883;0x2967cd43d41af;0x4ffeff96b8f0f;0xbe0b82c8e65a4;0x71addea5c870f;0x7ffc62e8581d;0xb8fd1d8ca3003;0xb5b88c2de8348;0xc2fb5e9941736;0x8758c9da054] [0x7c88c97936709;0x24742ab1d42ae;0x741683fb32c25;0x7518e721dfc85;0x55f989ede5076;0xeb5aeea7a0c7b;0xfa5199ba966f9;0x942de926bc050;0x12cbe30967340;0xa80cc9430b3]),[[0x3558c493674c5;0x9d2ca472ec7cb;0xf1c9f78ab30f1;0x8d8e2b3ded6fb;0x2eebfec77197c;0x76f30e594f806;0xeac18dccc219a;0x9c0b096a1fa11;0xfa5e461450dd7;0xf756b73bf85];[0xe02ace349ff51;0x811d16758e10d;0x5bd975f59e9fd;0xba21c8579b842;0x682e439f4d879;0x1ddf7d002b833;0x521c700b16209;0xc349d29057b16;0x824f8d09909df;0x4291e809326];[0x0;0x3e8c5890a8ac9;0x93b52f0a7dbc6;0xd355aa17f9c7c;0xfb9a2fb1f8d1e;0xa0fac025c4430;0x3e276c4914cc6;0x83c1f6ac4cda0;0xcb8d65d86aa0c;0x8e20492c231f;0x53794ae403c];[0x0;0x82e59eedbb24b;0xa6b6a6fb4b86d;0xa1a1486940992;0xfc8b1404742f5;0x3bfea097c173e;0x81e17fdba2c2e;0xa40da37be66ea;0x548f16929bf7c;0x8470a0bf6d80b;0x11eaa6c980fa];[0x0;0xb09685da00192;0x4a21696abf84a;0xbb85d0a13e229;0x4de5305a23efe;0x4459dfdeefd41;0x7b5ec15c53706;0xa5444ca427774;0xf30ef341410b6;0xa3d8755610a97;0xeef872f558b];[0x0;0x1597126013c6b;0x6ba443fa0bff0;0x62325aeacda01;0xfff55b3856b9d;0x17bb46fdeb0c2;0x694f960512642;0x9dc4fc3fc933a;0xaad3783810662;0xd5945a663fd5c;0xf85886013fed2]]);
 ((V [0x55ce46608da99;0x92738b34265fe;0x58310c5437ac2;0xc23be482a7bfc;0xf35e4606006e;0xa8e0970b55d52;0x8f857f5913899;0x3fb120c818358;0x9ca1ba0ee057b;0x3cf918f5067] [0x5dc88b308ab62;0x55ce05ba50b42;0x2f301e1c01f2c;0x3b437f1259e51;0x288442ea9a0df;0xeebee6a8be805;0x8f0d054661491;0x50015c8d649f8;0xe019baa9c47a7;0x90c908e176d]),[[0x27b8839da6a7b;0x4c0435b45f5b0;0xbb992adaa5abc;0x8cd86a53babf7;0xf54d8e6a5628;0xf2582d291e674;0xf14c6d9ed44c8;0x77c02cbab0b87;0xc6e912f382ac0;0x2fd9439c7c9];[0xd7048fd225348;0xb14b6b6f48f78;0xdb38810e45212;0xfdd2c87905b26;0xeb4b39dd96fee;0x4b3820f105f35;0xf892b4ef7d4e0;0xee4649f8b92bd;0x1d171c23c8f89;0xf52284af56c];[0x0;0xc8afe88005637;0xa2d2d7424ecb7;0xe9b63016a6c5b;0x61298271f7970;0xb6c3e92f38bf2;0xdd7dfc24a1953;0x133cfc2607b91;0x7df7cb208188d;0x214b15233c171;0x478ec3af56a];[0x0;0x680572aa190a6;0xafe93ec917723;0x48af39534c23c;0x78e84415e14f4;0xad924aa227dc1;0xabebb84e50e37;0x38e159fae218;0x567a771f86ac0;0xd2d14e79d0512;0x3ed1f057f64];[0x0;0x9987b657a00b6;0x56bd1152f2a59;0x224f418da470b;0x93815fe7c4158;0x184e8b628d4dd;0xe1bf5db523501;0x1fa99cac7ccb1;0xaf897a4244ab3;0x7faaebea75747;0x8f17f3726e];[0x0;0xe15d9ad72f860;0x7bedbb97e1821;0x4f1bf7c834648;0xc97d0410abed5;0x2ed4f24fba66f;0xe10d918fd6127;0xe2443811af039;0x22d3a82a1b71f;0xf271a3634f3ba;0x301703905497b]]);
 ((V [0xc426f1ee420f;0xe9e0ca234c74c;0xc572ad52ba93d;0x76638a8ff3f0;0xb8e662ec3b2aa;0xc5c69f7a110bc;0xf12fc8ffedc25;0x4f04a01ff1f17;0x5acad54b7558a;0xd5d624177f0] [0x1b01b787d624;0xb61b7eaa38180;0x184a29e3b201;0x8c0ac1ae06e9a;0x57134a73ea6e7;0xe3f5f8f7d1efd;0x665b01cecda3f;0x1fd9438ed3fe1;0x4786c48bc897a;0x9f20779c6aa]),[[0xe3c465a47c45f;0x4b9aa5f956d4b;0x410e9e4e63c72;0xfd36390cac88f;0x7c3a3a4095bb9;0x9c69096b5802d;0xb5a0fe2770e48;0x4773d4c8bbd10;0x49e970d1f20ae;0x9a90053779d];[0xb15f73c137c88;0xe4d1ff900cdab;0x449c670f2a3eb;0x7c3f7fdb9cdd6;0xb682f6758b76e;0x9b796ac002d78;0x6a92524a91b2d;0x4aa112b8f43f5;0x551012960ba59;0x59ad80e8294];[0x0;0x3b76bf2eac9cf;0xf01aa86df972b;0x7cfc3e311ed14;0x5d493d6d49aef;0xfe3a576e21d09;0x6007c0cb7de6c;0x386d2c4eb3467;0x11736dfe9d4b0;0xe8b64585a9811;0xe85b6146a1];[0x0;0x10caf30da35a0;0xcb1659f5f77e5;0xecdf7dcbaf2fe;0x857277d895f13;0xbc3eba41d87a2;0xf06dc6a371b6;0x9c3dd8a2970d1;0xd86ba11406def;0x1fdf5b299e20d;0xaed4c6bfdb3];[0x0;0x7351a735f3c00;0x93d3435ef0f6;0xf8a9f5a6cebbe;0x9efa9fe0441d6;0xad4afe3d04e37;0x7a24d5754aeb6;0x45013a5511a6c;0x23828dc3e5cdc;0x814c80740f043;0x5d51974c9d1];[0x0;0x62ec725f0142f;0xfb219656a3dbe;0xd202238371a4d;0x11e06d351e258;0x39b9223cfcef7;0x878671a50e4d3;0xa13e81b536ea7;0x5a339e91b5046;0x6bfe3500c743c;0x9ace4a448add1]]);
 ((V [0x441de0642a7a8;0xa7df04119c3f1;0x9491d3ed70254;0xca2c9a87c8d42;0x7fc1abde13dfb;0x312c0784313ec;0x99ace367e1eb1;0xba3fbef487a95;0x88bbc4011e480;0xa020b0449a] [0x70476fa9544b1;0x4ac5db4326fc6;0xc20811180dfca;0x384cb433c60a9;0xf820f53c3abb3;0x2562c36786874;0x89840758a4913;0xf1531220ec04;0xf144df9babc4f;0x2a0cefbc8]),[[0x67733a97c4d0f;0x2055a3458d59a;0xf2c3a26e19f61;0xa13901b8a9125;0x98d9fae71841f;0xbd7d65edaaf28;0x1e5fe04660a9b;0x3b1583b2e3806;0xbfc4e10d02e98;0x2be181aab5b];[0x5712cfb9ddc5d;0xf64d8e7375028;0x49cd4208e2237;0xe0a6964e4cdf3;0x2592dd5417d64;0x32d2ff363cb01;0xba47576e49517;0x20856a716265b;0x863ddffd93f12;0x7316df60ed5];[0x0;0x604adefbbeb5c;0xf8bd5e35620b2;0xa71fcfdbd99da;0xe43a3ec3c5807;0x8c9b085ec695b;0x1c0f918e6eb9e;0x698940d97fbe1;0x2106a87ee6741;0xe6cb6cb5f1f48;0xb29e0b2f75b];[0x0;0xca68e4938cbbb;0xce7f2b6ab2dfd;0xaf108a42ca1f1;0xc043cf4c80c92;0xfd2c949235421;0xf9f754c8bc8d0;0x74b96d0cd6e33;0xf92de27f58c43;0xed1025810542f;0x368d4073be5];[0x0;0xea745c7ed480d;0xe072c6446b7cb;0xae696157963d1;0xf45b9e3f521d5;0xec47f4728de1c;0x76c0c97772526;0x14b6377e98caf;0x25611eb931d3c;0xe18310dd49f0a;0x785883488c];[0x0;0xa30b417289e3b;0x9da53cde5e8c;0xd51bd6e9df806;0xcf4cb85eb0f6a;0x1d7b28408ee38;0x718ff822599ee;0x8d2e049aa087b;0xb0c1dd14c7a95;0xeccf2873f7469;0x2c3053593e81b]]);
 ((V [0x5c1f27108036d;0x28d43fc957d34;0x43337515cc13b;0xa9b4c81c1951d;0xcecf586eac8b9;0xe5c745a9f08df;0x7104f810e2bcc;0x29eb3296b21c1;0xd32bd6bdfa637;0x42fea7b02f8] [0xdbb93f2b84599;0x4797f84181856;0xe81bba0090db8;0xbb1af8f27acc4;0xb7c30f68dd3cf;0x539b1e1a369b5;0xc6236b240a17a;0x374c70f566c83;0x42039dd030c51;0x66d37566672]),[[0xca714e65418a5;0xf87f046bd1f3b;0x23bf6e342af27;0xfca1c649d695;0x29426d39aa5d2;0x288516b456997;0xe8ad8c7bd500a;0xbffe5a0deb778;0x28e2058a51405;0xd9974a9073];[0xc744f43044954;0x8edb32e000a9f;0xd961448ed23b0;0x63c81ee744958;0xa573ca33b984e;0xd373d3413d087;0x502ad2e2558d7;0xcbe0f5fad32b5;0xb538757adeb88;0x360327d0c18];[0x0;0x902c6bc4af3b4;0x133c341112b55;0xb27fc46cb3b41;0x6d9055cdd003e;0x7626dd4e091e4;0x628bf99ea5d75;0xe57a902638a7f;0x3aa65bc04e737;0xbaff3c26a802e;0x6428e0824];[0x0;0xf6211c8f49246;0x52c3671baf4be;0xc949d0cfba97b;0x117cec167c763;0x4f7f6d58e69b1;0xc844bc95153bb;0x96dba5312ede6;0x343a443d45bce;0x69fcfaad0bcd8;0x477ba22f];[0x0;0x4c7bab5af6b84;0xaeef71eb18217;0xc6fded79c7fae;0xfe698ccf6c551;0x4f76700c0feeb;0xecf6f44ef66e1;0x1499cb2adee1;0xc0dc86c49ae95;0xf5afd7d6b7e26;0xb8f1d5d1e];[0x0;0x533c4b40f0c00;0xd86714b56de7f;0x65f9ecdb84742;0x7132783d06836;0xe6d4ec717385;0x88f7acca39e7d;0x6dd8d28dbc1cd;0x40a859fe33c94;0xc316d201b05fb;0xda40720c9c4f]]);
 ((V [0x7f969bc40413e;0x50c42b99473ee;0x90289d7faa4d5;0xfffa7a2ee974f;0x3f3813c108f08;0x989cf6b2da4ec;0xc749f3996f5ca;0xbbbd9f2489c39;0x80ffb381fe460;0x125b583a16a] [0x8e33aa2998c52;0xd3dc9928dd669;0x1123377d945be;0xcc303977d3b59;0x189446a3088a;0x1650d3b155efb;0xd0c323f01d4ae;0xb5ee26e593648;0xd1c867226faaa;0xfbc51a6a3ee]),[[0x2440657d6a12b;0x2c4a34fd66aa1;0xf2372ba58ad24;0x4e2e85c045b49;0xd6e829854ee04;0x94bfeb04a930f;0xcafff0c3e3eb5;0xede012092410c;0xa1a9418570a58;0x1354e906534];[0x139c33850d9c3;0xf83ebdffd8ddb;0xaf0c9bebd7950;0xa098fd5c669dc;0xdae981c5580bd;0xc5707128dd531;0xe9228e3b033f6;0xf80041c331b75;0x8940a227b8984;0x5f523837f06];[0x0;0x8233cec1ac02a;0xc7e47c51651fa;0x6eb8421b3b0e4;0xed17e3c0c9868;0xba908bc53eaea;0x1d3b0555f2ed1;0x309ab969b59ed;0xe1c87709c30c5;0xa81a5feaf6f36;0x11884bc807f];[0x0;0x81356b6a908df;0xce2fba1e45c7e;0x85263c385611b;0xe55b4aff65330;0xbeac98aa6e578;0x74d75c33fb055;0xd72eecf1888ea;0xbfbbefeadcfde;0x99ac4871d8009;0xf8799643f0];[0x0;0x7afb1a069b5d7;0x4728daa601308;0xe2abd8bfd05a8;0x23ac33b6765d3;0x7d6eb7399470f;0x958abcdf12be5;0xd66579e5f47d9;0xfabea88bb366e;0x2c5853c0da96;0x175b6c0b0a];[0x0;0x5559433ff6161;0xf06e5301e7b25;0x8bc11b2b4801c;0x34e69944feaca;0x3d097c437584c;0x8a42503203d44;0x14fdbda0134a1;0x1737edc4ad5f6;0x73be25e446f75;0x136bea301b4af]]);
 ((V [0xbdea550a9b57d;0x5e4a650aee3cd;0x9f330e2cb280e;0x844f4afb1fd30;0xcada237b75ed2;0xbf782a13968e;0xad35b4a3b25cd;0xd90b580bac1cc;0xfb40f4c1cb01;0xc0d05ad92f] [0xaa12b51ef693d;0xe896d2896264a;0x7076c6298fb3f;0xe9b7400de3c53;0x899d495e7ee7a;0xcd61c6fbc7438;0xe3858157b58b5;0xd24eeee27b28c;0x9bf01ef0f0414;0xf38c2f6c358]),[[0x2839c36296931;0x88e0dd9158f5d;0x52e07ac708c46;0x9f3297bd589ed;0x8a9cf357562f2;0xbdd59a16f4fe4;0x8e31410bc5537;0x1bfbf431f2b26;0x6bb773f9e8731;0x1006eb7dc7a];[0xa7c20840d2e30;0x579d7b5db6764;0x631ebff40bff0;0x12afa461d97a8;0xf81aa753a0788;0x335581897e6ca;0xc30fe8668958b;0x13687ffa9c87f;0x7a6f34f3f31b7;0xf61489a16a8];[0x0;0x43b5a1fd6cc8c;0x96e92ba786787;0xf2828e1cefc32;0x31d6fe12d69be;0xbc56299402a79;0xf42faec917fad;0x2257cec086bb9;0x7b00ac4eed84d;0x3ba7c81a3a849;0x150f90002e];[0x0;0x89853c9ec3470;0x7a4563498fcfb;0xe6e5573588d52;0x3641b8f63eb85;0xca32648af1845;0xf0e7b7f094a;0x44422bd24efbb;0x6d6fc8eeb5a40;0x7d562dd15c2ce;0x1f863fbdca8];[0x0;0x438ad121c0158;0xcf38be430ebdd;0x14c60a15a43eb;0x8b10df9fe65b5;0x32c4fda32b64b;0x6ae81acafa8a;0x179a2d1dc7e9c;0xb3a763ef12f2b;0xa5d98623f71a0;0x100dd9f9b7];[0x0;0x8b52811f8f3bf;0x27aef6fba83d;0x144de1eafbede;0x510495c7ed62e;0xec53a990989be;0x2db5bb4354ffa;0xfdc60e8409d78;0x204f55b17fb3a;0x9036546ec343a;0x1017577a1124d]]);
 ((V [0x6d55165f5ad83;0x1c6166acc693f;0x86a8263c23f7e;0xdf3d93fa1ec16;0xe0921e14681f7;0xaad68571cda92;0x77b7b8dd97324;0xc6ce7fbf6c741;0xfa15bf8a15667;0x5688a1c6d6f] [0xce5b0eb57ec4e;0xdd0671d8c4acd;0x2b7c359bea3d5;0x42e7c7ef20f80;0x5afc7f9ca0d03;0x19cd7b9924d93;0x6516996958966;0xc1292e84e453;0xd23e8b68f5f42;0x411793299d]),[[0x8e019c6cba4b4;0x20c2d4b36dfde;0x206c214a2d9de;0x5bc07bde25955;0x9f694a2820953;0x416fe50760a7f;0xd609e83d023e6;0xe06ba292e293e;0x6c6bbe72b5643;0xbf0c48bca4b];[0x6084f17b49e19;0x7ca060170b1b0;0x4d74da3ed9243;0x8873ccc247855;0x769db3682f0e7;0x1363827c804e3;0xb2e02c55382d3;0x3803903700a87;0x21c6e23c50529;0x73647436016];[0x0;0x8ddb4f92e5790;0x2fad189e72848;0xf6afc9899a7f0;0x90488ba1d9705;0xd86fb1ddd97a7;0xace7ba69c0c28;0x65a92e5e62823;0x51f3f5bbe21ca;0x7c174f366e77f;0x913931d98];[0x0;0x430c0d8e1587f;0x945ddbb7c8456;0x6ba1251a265b6;0x2640d9fb956c4;0x9f5ca02a5015f;0xa2df290395388;0xc87fca3be0da9;0xed169f0abc518;0x277335b1f2d1c;0x16b828e4db40];[0x0;0xec8bc7bf2555;0x3b79a723eb670;0x73b9995901d62;0x374e1f8207976;0x4dec90315d96;0xf70ec51e1dc06;0x5f0bb2647e673;0x350df444c8f4a;0x2d5582ac89ded;0x8e935520642];[0x0;0x559dacb375c8f;0x4cdc85883e8c2;0xfec5fd2718149;0x7e73ef7c42ead;0x10dc4425a2cf2;0xe3b2e9c3af6a2;0xf962ab553dfa7;0x43e9c3a28c395;0xd489f98079218;0xbf93bf38f589e]]);
 ((V [0x57d960bed119c;0x3cb4423a1455e;0xc4caa83e6eadf;0x729207fa1e535;0xd22b9a07d0fe8;0x2c283fde4a9f4;0xd89e5149cc8f;0x67cf016760bcf;0x7eaf7c61b1ba5;0xab67e7b4ad6] [0xfc2cc5b1efa5;0xaccd7240d1f23;0x3b397570edd5d;0x6d0dfe6f09cab;0x1ccbc41d0132;0xee8c1b9b70504;0x159447be4bce7;0xf3db927d0c00e;0x883d2ed3b8536;0xae834133220]),[[0x711e677195ec6;0x8ef6923eaf67e;0x607e8da59483;0x30bb7c039f461;0x23bd3a51d48e2;0xd0518df431a54;0x29891316d78ae;0xc705fd35eddf6;0xbc14f01998f5b;0x6ba901ff6a5];[0xf0a814750e0f1;0x4c0658edcd0e7;0xa6f68c69d4095;0x63052405d5456;0x57ece9eea035c;0x23b25cb5b4a7d;0x69afa48863f15;0x8ef479b943917;0x2ed9d3ee42099;0xd2cdc856cf0];[0x0;0x4a8edf80def28;0x5e3f354eaa261;0x2d9d41a2c120c;0xc55075e4da0a4;0xb27d06e6661af;0xd713d128de94b;0xd8a2c60032a2f;0xaeb20778e257d;0x3e4e40db83b81;0x1d40159de1f];[0x0;0x77a7979464367;0x59e6374ad9450;0x46835a2d746d;0xe0afafc2d32fd;0xd2f0407e0ca43;0xd5a299b932a8a;0x70fef0e8a368c;0x24c1045875d45;0x13cef1faae088;0x36bfa72929];[0x0;0xbbe4c67152f6e;0x98f52e2b56a55;0xf578f9dc1ec91;0x30439bf3ecace;0x3237e4257f5b7;0x39af91922c864;0xa9146f5eea602;0xd00c9ea762f78;0x71e670c2450f6;0x2d46b73f262];[0x0;0x5089393bff057;0x55e8de8acf367;0x257bb0a93c92e;0xd698cbfc4b918;0xf698023a826e3;0xc92a1603dcaee;0xbafaf425dc65d;0x596f8c0eefcca;0xd7a8c0ec8617b;0x6bf0f9a720a68]]);
 ((V [0x76f41870bf37e;0xd7b7f8bff1cc0;0xf48213ec009b0;0x95e7223e36e59;0x61b6bfb28207b;0x97558004f5b9;0x23bc4a3701066;0x46ef24b9de36b;0xb5285e8636a7e;0xfc1be1ab08] [0xf649bbbea2003;0xdf42e52bcb57;0xb76ebac51586e;0xf7ca01fbaafc;0x1f7d0b94cd8a9;0x88b07438984ed;0x536d28b790ec3;0x411a5cb9ac3a6;0xba94bd46cbcdb;0xdd3bf43d2f5]),[[0xd162dbed09d36;0x12aefe1e68d8d;0x27fda8969aad5;0x4b9abf11c9367;0xda14b8801abf5;0xe11fc2bab539f;0xe3e1b4510d3f0;0x949618bdc8c99;0x98e7338ffbd50;0x9dd0a3ad731];[0x8f03959c8105c;0x732a8945acddd;0x414740841a970;0x984f6b5f81ae2;0xc3a68e9e9011b;0x85b9deccddcda;0xc60abeb8eec39;0xd9b52b967d695;0x8bece67e0caf4;0x77dfbb8b446];[0x0;0xff17afd0053ac;0xf31c487bd041c;0x73256cf4cdf94;0x1114b29cf199a;0xbb4ab49d41904;0x3bb0879af7700;0x8d08492eed583;0x8697698c099dc;0x3edfbefacd274;0x72c3f9b7a4c];[0x0;0x4935b85a61d1c;0xcb553f402bb1;0x60bb4c30ca7d2;0x20fa98138b695;0xcab4b5e8dd2bb;0x774fa459b0f61;0x7836fbf8f42d7;0x825c0910cf556;0xfc06725a4f935;0xd729726a4a2];[0x0;0xf856aaacba1e2;0x3ad88e35bb838;0x20a954945155f;0x56414eb1da357;0x630d68d1b91b6;0x78713b94f7d65;0xf00bfaee0f408;0xd4e6f7824ac2e;0xeb8581ed788a1;0x614992cd21a];[0x0;0xe2f8019688d2a;0x74a73ff4dd21e;0x696b4de36efb9;0xeff1234639019;0x1e52a86cba5bb;0x1b601ed2324a1;0x2f247c5ca73fc;0xac9f6b1e6910e;0xb15fcb65f1b15;0x9ece68132a0b9]]);
 ((V [0xbc519f02d8aeb;0x42fd4e9ccaade;0x711833d447768;0x2a0965073c1a3;0xbfdeb35e74f20;0xc4f4daf6e400b;0x4e43aadfe0e00;0x38a67b7db0264;0x6dedaab712c4a;0xceae09b1678] [0xef7346983dac5;0x472c0977120ed;0xb0babe8e4d9b9;0x51e6b38ca8e4d;0x21475a258fcb6;0x1327b9517fbaf;0xeea48fd67b968;0xa7116ee7246e;0xb79541ccd6bb;0x8765ff7ab15]),[[0x5eef995074c2;0x6d6df41a1c670;0x6124c08583e7f;0x40605f585d5f1;0xb4d77f71d0d6c;0x80380f850da66;0x1e4d09de755d3;0xbdd4707e4f88b;0x8b15e42363f07;0xaa121069f76];[0xa82dde83353e7;0x70cf928fb4957;0x8113e11d4a170;0x1f83547f7fdf6;0x8a99dc89c99ea;0x5bf4d840574;0xb9f3181fc7ca4;0x93563ecd7d15a;0xf2cd72e11f545;0xeec3aa4fb03];[0x0;0x7f5329f5a54fb;0x15318885f8bdf;0x8da9b92a1368c;0xf1a0427ea27f1;0xf271efec88683;0x848c44bc77e0f;0x16ed8c5721a56;0xfc892b22cc869;0xa269543af71d2;0xf846e7521];[0x0;0x940a033ce0055;0xf696c27845fb0;0xdbdc74baf6f54;0x789929634365f;0x8f6acb4f625;0xf59593a01f3cc;0x7303899c60189;0x7cde860d1a29f;0x50a6d2872a4a0;0x125f2d92e40d];[0x0;0xb2a3e53a5e9fb;0x9e5e682cceb66;0x6b3bea06efc00;0xaa9e468a630a3;0xc5ab71dd92f94;0x518262d400b63;0xce831f3b199fa;0xb8d37753b471f;0xb41141a59d404;0x70fbff130c8];[0x0;0x3a053eae56934;0xb6f9865f8fda8;0x2e849248f646f;0xf34382e602da9;0xf60bdb85b2cef;0xc00dbab3f7761;0x2f6b2cddd99c7;0x608d034a9250;0x5a94abed7315f;0xaa3d4c17542dd]])]
 [[0xd340a6d2abb3e;0xd1808ea276fed;0x85b15158becf3;0x2c6845f821df3;0x95cd3d4f8063e;0xc1fb0b0184ea0;0xa1fe1d18ac368;0xc0c32e19c9bb1;0x5b2c45a078bed;0xc6bb3eed2ac];[0xe40b2676973aa;0xc2d8cbc3b7e6f;0x7a6c9ee849ef6;0x91b6268c49ef2;0x339a13e175b80;0x5ed18d76f5aa8;0xb4b0674254bde;0xf0d1ee64c84a8;0xfd09f055ab1ce;0x6be6fb813be];[0x0;0x29f46bccdcb79;0x3605b101a9433;0x6c5e351405972;0x5348d91eafed5;0xa9b4b9c90723b;0xf699b2e1e8b8;0x69a285ca12061;0xb48defeb00e87;0x3be36ab3489f0;0xa6dc8deab02];[0x0;0x562b848dab606;0xfc9934e420b18;0x673fea4de4a4e;0x972fc5f9180d2;0x62f1c09ac5961;0x86953cec4863;0x6944c9a6ad0e;0xde77b66e0e71a;0xf6df7dec1bcb;0xd237d8c54f6];[0x0;0x4fc0ac0d4cb1;0x87cd940d47ac3;0xf676508dc1a0b;0x2ab9fecaf5f1d;0xe458450bef429;0x90a2890fa701b;0x777c0dc00f774;0x99d8755e8a6ae;0xe09cae1e8c5f9;0x9a462e4bdc1];[0x0;0x693643d147dab;0x750827346aa89;0xa6c3c26730079;0x9162a7be30aa0;0xfb125b5f0a217;0xb51f1eb44fcf1;0x5c2cea9026c96;0x381138c81e196;0xb0aed07a36b8b;0xc7828dae2e965]].
Definition wit_512A_32_8 : colwit ipt wit := mk_colwit (V [0x805f77db46f3;0x1cdb5c0e4f33e;0xff7c5c94f8762;0x1742b3fb19ba1;0x1eb1dde5cbe46;0xf3d38596fc005;0x1cc3ef5d7f6ab;0xd08feca090dde;0xe9ee043e4f2e9;0x47108dfaf32] [0x449c9cb0f2379;0xbd1f3bfc24162;0xf15535683f3d0;0xdb58794f8ae2f;0x47614583eb155;0xa425972b64e27;0x1c283efdef5e8;0x4296d890d2c20;0xaa2375df991f;0x18db6969238])
 [[0xa68509b233e26;0x304012df15222;0x27fbc50bb1e17;0xe68bc5b626338;0xfd8a72113139;0xa5b0487aede80;0x4863d43da637f;0x291f09b98b61a;0xc23c9bd376d1d;0x48834b829b3];[0x8978276259f0;0xba91a6726c419;0x8913e16694c1e;0xb110ee130780a;0x12ace0ab497d5;0x3a4ca67096bd6;0x255c9bc3a6368;0xe438ed743f978;0x1867d8681c578;0x4bd37248027];[0x0;0xd628b3f3bffd7;0xb8d7b96400050;0x3e63c11039642;0xcdb8c04821daa;0xba4ed75721a50;0xb91dd9e2dad7b;0x978313710babe;0xdc09d95756c6;0x15d0924f61856;0xa5aa4a228ac];[0x0;0x3f9f56f4d314;0xe6145586801da;0x9dd1422513eb0;0x1948f5523a5e;0x796cf261cba6e;0x9f814b6ebd29d;0x1ed33579658cb;0x3a18438ea23df;0xcf4c4181f8e7f;0x6be52dd4783];[0x0;0x879067fc7ee65;0x2b5a9e1c9b042;0xf8a757aad0692;0xb9e318feaaa05;0xd45b49aa7cdf4;0x631ce1f2b176b;0xb1016538b079f;0xcfe60bc68fb53;0x27d455f154353;0x148a1dcfd54];[0x0;0xe3d93fc6824e7;0x47d17a4daba7b;0xcdb9f0aa15ee5;0x8135b0bafc073;0x7e7163963c559;0xc9dea635ec816;0xe1071ceda5ce3;0x2f95d269a0937;0xaa8d5dace58cc;0x48f202d3ea97c]]
 [[[0xefe8445e818a1;0x690a016b53075;0x330920e396b52;0xd483b89b6b598;0xf40d07bf390b0;0x64afaf49f9ec1;0xf133ba141a445;0x77d1067aa851b;0x2a49913867f0d;0x2a3cd332539];[0x0;0x25f402d6b2c8d;0x43c62acfca6c;0x586a97404af6;0xc0c07d74eeaaf;0x87dcf58ce1756;0x1de319e2fb02f;0xa6c94141f76;0xe05ce9215b41f;0x8cbda7b41d223;0x2a50cf503dd94];[0x0;0x7aba623d47a18;0xc9ba42764b58e;0x40434f58477b4;0xbcec6f5cdc34a;0x78a4a834c23f1;0x3a4f62ee654c8;0x42597a1edb9e7;0xbab28d38f9270;0xf4a67de0e5572;0x6f803c0313];[0x0;0x45815df41de2c;0x14b5cd78b5332;0x737387ac53470;0x1257c153d26f5;0x1c908e1baf5b;0xdf294ff1e5c6f;0x166c68d1e3b65;0x96277dd418fd9;0x7d63779b375e3;0x2a61406787a63]];
 [[0xb438bd10aa278;0xc6ac813e3d54d;0x23c75de48543c;0xbe26928586b8f;0xd5fe2e7837839;0x8f411d385b67a;0x260ba856b2a0f;0xa69a10e00795b;0xa5b83f2f20c38;0x81679f54369];[0x0;0x78f235452b81d;0xb6c8b3a5f4235;0x8097d3634ade6;0xdc8db4f49a087;0x4e5cf7a3818e6;0xfc7e8223ea250;0x3e315a33e7a72;0xb712151b60268;0x6fa6c22c00495;0x81930c1679a15];[0x0;0x91fa7b53bffd8;0xf30fbff41b528;0x16410ae1a926b;0x98555d2b61290;0xf66df51a9b111;0x9766c0bf53423;0x18904b635e794;0xed7934354b651;0x537f83da4e124;0x4169988477f];[0x0;0x65f576ee063bb;0x50d01c99f1135;0x56cb5d43741f6;0x5f18b9cfa82c2;0x9d0620e1cfd99;0xcbc8b07477a48;0xaefb48e698b53;0xc8e0933680ee1;0x5c9e3adf836e5;0x81f9fb560018b]];
 [[0xda03d709ca073;0xe8b9d91501d34;0x341427e9f9cd6;0xe4d2082125eb8;0xf14c8eebd7a4f;0x7dd2f660583e7;0x88f346407765;0x84ce9fee52d22;0x928bb6811a993;0x4468cfea34f];[0x0;0x79347813f46f4;0x1a3be78379076;0x45cf092a502ae;0xe04f57559d53f;0x25dc5fcf7b7af;0x3a22796024d87;0x9bf1c854e005d;0x302cc7cf8f181;0x82d10c3ba14af;0x4488bb48d97ba];[0x0;0x7adce79c3f216;0x763fbd483fce3;0xfdb92273765d9;0xc2195dda6b60e;0x39e291e0d9aad;0x4c26c047d2c46;0x292c23228e338;0x5c42f84406093;0xc000479e1a463;0x1247d95e034];[0x0;0x248c14e74aef8;0xf16da8e05e89d;0xe393bddbd3c18;0xac0090cde03a4;0x7538aad6d03ad;0x44d724ddd2b33;0x29e0817a102b;0x361d794b692bb;0xf92a9ead03ad1;0x44deeb91296f1]];
 [[0x7c7c8d0bf3bfc;0x93686a280ecee;0xe04a6d72b8823;0x9a1093891e48a;0x7c64dc82396d8;0xc58002df85732;0x6ea2502485054;0x50cd249e1fa79;0xd6a250810bf72;0xe6d16c39bca];[0x0;0x5c64291195e5b;0x2ecb2dec362cc;0x70d6f40ccfab;0x8745cc4717c49;0x8d4e7d8fa6bbe;0xb49e598d5e54f;0x67bb13a76b2e3;0xcac70356f32cf;0x70e22e6fc91f0;0xe7e4ceb6d5809];[0x0;0x386d35a1afded;0x914e2312d971;0x2f4af8b899c17;0xd9bc063f69e23;0xd9dc5f45d8b12;0x5a0725243720e;0xe01411e74cb44;0xc0be71b2d8221;0xe7219bcccf004;0xd01cf9c9a30];[0x0;0x3f45ac46b8c81;0xea98f8abacc5c;0x33a25a5649701;0xaa23aabea79d5;0xc9c4dfcdda31f;0x28448c28a145b;0xd04a833f83209;0x324eb3eb4fff9;0x58addf64f358a;0xe7631e36a7526]];
 [[0x6e548a456c28a;0x54a398ccd0d66;0x1d3e16154513f;0x13d2ba14d15c1;0x6ce791b562bc8;0xb4f2225bf5160;0x94b4c5bc76c69;0xf83d749feab54;0x92b8468e546a8;0xf8dd3aa79c6];[0x0;0x83fa0e0378a4c;0xc8494aba9ab08;0xb3c056cdad913;0x9443f23fa355;0x405c6fce7e830;0x87dc9a34abf97;0x512098ee49731;0x406c4fc1c9ad2;0x6882ba96b6c2;0xf9aa5dc97b69c];[0x0;0xe7d5048bfa483;0x87c6c6a15a9f5;0x77fc02e0ecf2e;0xe2cc9fbe728bc;0xe53bae8803db8;0x74a15ff58d62f;0xaf2caf7c3795c;0x39b5a6ec2e305;0x3282c658734a;0xf1ed60d311e];[0x0;0xb61325b21bd25;0x72f2ad88919dc;0x43def05b6522b;0xdc56838ab4c6b;0xe54eacb5e8b58;0x70062a09b9a26;0xe0f5ef90050d3;0xbba748e9c70b9;0xd3be38e83f460;0xf9ef2ace7570c]];
 [[0xbd5d3a7a094f7;0xd5bd05d9fd3d3;0x7addbb5a9c517;0xc974c8f35aa44;0x88ba596c0135a;0x1c32c04996b2b;0xf13c74f4385c8;0x6638e26eed225;0x597874c2a94d;0x384f10784a8];[0x0;0x217a5a720d50f;0x496650245ba14;0xfa5e8ddb634e;0xa26158923925d;0x37e6aa1ebe8e3;0xc69f73affa71;0x296d12062034;0xd86a7c21c1dc2;0xfe0bbeb756be5;0x3883271656b2d];[0x0;0xab5876819c2a5;0x1ade766af8517;0xf6d5b6dcd596c;0x674efa33f9197;0x2d0a8fd8a0ef2;0x3a7e9fb4f818b;0xd53123779eb29;0x6160a5ea4bce2;0x56431e49e9dcf;0xc62af9fcbe];[0x0;0xb548b28f9ee4d;0xd5ebdaff8d482;0x3b2a6d1bcdf99;0x23bbe6118480d;0x2b64cb46ed71e;0xbb1dd48d5e410;0xf6aad81087140;0x7c7d92d04fa73;0x8ffc68c6ef520;0x387011c16fc2d]];
 [[0xea4382aeefbfd;0xde8a56545cdc5;0xec9ec11c43c31;0x58b831f732737;0x2ea11e19dc83f;0xa2af43e529a82;0xcdfe9d4550a34;0xdd33810952fa0;0x966593b77ec7e;0xcd429355a5e];[0x0;0x8ab109ff0cd2f;0xde58e03a02011;0xe6a4b2f476138;0x77332386a03ca;0x41598312bccd0;0xa255a2acc1c0d;0x6a4d491bf4eb;0xc15834a27b46;0xd4059fae0b8bd;0xcdab80a03a382];[0x0;0x95c3536b628cf;0x7851a678cd07c;0xc63916ac5d9ce;0x276acfcaf1be3;0x7875bd36322ac;0x531af4b05fc1;0xacb77bc655a10;0xd4ed5b2581d2b;0xcd375534fdee0;0xa493b14778a];[0x0;0x37991355540f4;0x4330669d2e49b;0xa74dba0e81bb2;0x44378be561fb6;0x4799e1c95c63c;0xd26eb22a3a24;0xe4d5e7b03c174;0x147c15e82b0bb;0x2d4a20d50d9e0;0xce2403249be73]];
 [[0x674ff9bf2ca46;0xd20bfccb3ae8b;0x8e4f1b8f753e2;0x3c2263a0de4d2;0x95fc8abb05da4;0x84156d9bfa69b;0x27658d074d099;0xc617b10f858f6;0x1e40799cee7b2;0x8ef29e67e67];[0x0;0xb400f77f3b9a2;0x614eb94c49ac9;0xccc6e6fe33a50;0x2751d0b7a20c5;0xbc9d3b93add73;0xaf0ad729a745b;0xcc7e67450a342;0x3e7b85086faa6;0x16337ca46b0ff;0x8f49be66125ca];[0x0;0x6ec033a4a17b1;0x74ef35321e180;0xec77f316dc19a;0xdd04859a2681d;0xab25f6ee7d8fc;0x50a89a880cef1;0xf8c8bc69cefac;0x4e7306c8b958b;0xa72eb61900c9a;0x4fd20dab221];[0x0;0xd1bc4b2af88e5;0x3af1db96fa42f;0xcda79b8984911;0x7df74b0617e4f;0xd5a129fc9c410;0x3e13f4e6aee16;0x2f05b175ccaf8;0xa25735ae6c38d;0x66ce98a50b1fa;0x8fc9ee16a2e5c]];
 [[0x7cd628fd8eb13;0x7cced46baf61c;0x4cb8c5fa33062;0x2221a9591e44c;0xde3256a249222;0xdb395491db7d9;0xfeb0ebcc61fea;0x97bea1adbd88e;0xb7b444652684;0x4f1d5f709e8];[0x0;0xd1fc5884f77cd;0x557ee0698f37d;0x6821c170abab;0x4d0d2d468a7c7;0x517b34ec3ce65;0x7f15c75a850c3;0x974c26469004d;0xaf18f21b43f23;0xf36260f293206;0x4f75a45f2b186];[0x0;0x6efe006334d8a;0x3893c69cfa94f;0x53330c2b7a4d6;0x1cf4af9e9e1f7;0xfc1078479faf6;0x8bcfdf2b6f23b;0xdd4d631321545;0x374e9f092ca08;0xc21b97c2998aa;0x1873244644e];[0x0;0xd7eb39f877b19;0x364313a75a9af;0xc86ec5c66d786;0x86e30b22fc787;0x903eb5274b162;0xe8f90cd21492d;0xc95a5eb7d4fa3;0xd10b7a75c45d8;0xe3e50a546f0ed;0x4f3418da53e09]];
 [[0xdd28eb9d1b4a1;0xe9f803644aa3d;0x988b6dbd76cce;0xe332c3f29eeb5;0x3a20ea192e5ac;0x440693136b820;0x772b5d58ab09f;0x733f0a6273b1d;0xd8b85f8e19bb1;0x94c99473b6];[0x0;0x21083dab6e3c5;0x1aa938602ff4;0x2d89f8b692647;0x731d3856def83;0xc9639ff4a47c8;0xfdb960efb4db6;0x7a3af790dc57b;0xb1d023303a113;0xe3197d9e33f68;0x95058869f15f];[0x0;0x1bf029b8ec7ee;0x90e2f754e7b35;0x227554bf4aa19;0xcee2f18a0e850;0x747fe4b6b9f25;0x6450c11e2c301;0x42006eae1b277;0x818e049c49a83;0xf35b53860d7e4;0x5679b2603];[0x0;0x454a718708e0;0x39d25f60aefbd;0x4ec7589354ca6;0xa22da5485821e;0xf0675492beef;0xf253b661fa406;0x4fcfeee4afd8;0xb3986cf0441a;0x62d1a87a927e3;0x95c7a21f0727]];
 [[0x384d2633d154b;0xe8a6b81cee677;0x64e7ed38898c9;0x3807d97c5551b;0x96a654e91656e;0x1925bc74eb2d4;0x2bc7c275506be;0xd868b5b047068;0x639da9dadc17d;0x783ba3b5bbd];[0x0;0x1045015a878f4;0x44dc7e9018eb2;0x6d6c5cbc6d939;0x9a76fc81ca937;0xc5af869a8bdd9;0xc88840d70b7f9;0x608fa8512bcec;0x83cbb9f27232e;0x436417ea7127b;0x78c12689be3d1];[0x0;0x629813c432d4a;0x191c7f3807332;0xee2bcbf4de716;0x7a78fba521248;0xcdc67ea6040ec;0x8bb6ae887b71f;0xfbda0751abfad;0x8fec5438030b2;0xe593193047335;0x3877f75f3e8];[0x0;0x8eedfa79a2bc5;0xc8b9cad592438;0xe139fb3dada49;0xbaa7d24953e7a;0xda9fc6b3d1361;0xb098790493227;0x115ffb89bb127;0xabd133c242c70;0xe5d94a3efbd09;0x7895e1f25594e]];
 [[0x2a9c7dc99dc1a;0x157209e43ed4a;0xf05573f484499;0x4cc51077d6025;0xeeba018968aab;0x2e5c3980bf3c3;0x5f06f3681afbd;0x6a1a88d8a4d90;0xe70e23b3187e9;0xfcc764456a];[0x0;0x412deff4207cc;0x3f12e991a0c2b;0x42e468cb958b4;0x4f0a6915e1582;0x45919ac742f5a;0x1809cd1a93984;0x823a364066054;0xe5dcb0ad21f26;0x6d8e1fe3ae978;0xfda1091b5ffe];[0x0;0x679bfdb98b580;0x76562c073042;0x6d6685e518adf;0x36c08c8933795;0xac05826f0137e;0x3b3ba0f062def;0x6d85342620bba;0xb7201281cd7eb;0x5a96565945654;0xf99928b5b];[0x0;0xc2012751055e7;0xcbcc15f7bf485;0x86c1a8e6f6a12;0x908e8c1750d39;0x3dc594b25be8d;0x491dcd8859ee6;0x83d55123d935a;0x6033f9fd8d3c0;0x194e677c5f2ea;0xfd458f04a86d]];
 [[0xf1efda3c1c75a;0xb8d217a76b344;0xa4ec695543caf;0x719809526131f;0xc89863d9110f5;0x2d8e54a48137a;0x977237d3841ea;0xc3d6f36a1b3ba;0x235ff2c5330fc;0x48424be7b27];[0x0;0x24842d4457e03;0xd8dd79c6c6f72;0x38400d0a430d4;0x4b013728f2213;0x53c75a7e2a823;0x223e9fd70176a;0x799ec3bd03629;0x7c641c7403e8c;0x7c1306ba29762;0x485c519abc420];[0x0;0x747a1dcdfb9f7;0x66b5de608e9cd;0x34274d57751cb;0x6754debace690;0xcd41e07d8b699;0x978ce0f7b2a5d;0x9fdb057198a21;0x299f37957bb95;0x9d585d2a5a2f9;0x14655bdd8e5];[0x0;0x58947fcd56da1;0xa02ac07a9ddd;0xcf9de092dd7cf;0x1268bbc8623c;0x9d423c1c1b0b0;0x58c1a71ca7e24;0xceb106a0955d9;0xcfb2ac5b06d92;0x2eba17e472fe4;0x48bd0d228d18e]];
 [[0x316a835ccef4d;0xfdfc546fdf369;0x639131d2ddcfc;0xe920476420ef5;0x833b583e58aef;0xb487c14c671c6;0xdc6f0ffe143f9;0xfc7888b64ee8;0x447765db9a8f0;0x6e03659a65a];[0x0;0x37430b3eb6775;0x2318825eb9287;0x41652e1c2ebee;0xec06498a368d5;0x742689fd3c332;0x9680faf7acb79;0xeed045f3991f3;0x70386e6fce9fc;0xe78d824aa53bc;0x6e77e5058b4ee];[0x0;0x27582e07aa5ed;0xe21fb7de2181d;0xc73d24653d208;0x4713afc9aa0eb;0xaef281efef2c9;0x848f8a3eda76b;0xfa0247d9687a8;0x8f6bf930d1049;0xac09577b629b4;0x2f46eb5c394];[0x0;0x65e3645d71386;0x714bb30df8bba;0x762a2256fe040;0xe503fc1041fd9;0x2d228e26f0608;0x18a46a9015b2e;0x7294cdc48a75c;0x1b0f67c71147;0x5618295a817b3;0x6e44de17506b1]];
 [[0xfc4ba2dfc512b;0x70094291221a1;0x81861a4089ecb;0x888455b7e85e6;0x91f5127db3c06;0xda25ec702c877;0x945e50b1a36cd;0x70756e542ad23;0x893f195dbb146;0x7cc6f420f04];[0x0;0x5e9c7d1140822;0xe273712cdbb8d;0x79c5be131f308;0x11f4e5f6433f;0xc9042d258f6d7;0x4c8bc709c4d0d;0xb2cff9bd1bafa;0xa85d6c950398;0xaa0895c931e73;0x7d1890b086e59];[0x0;0xea1e87f4f638;0xff21fcad64662;0x1262c952a4967;0x6ba37f7de3f60;0xc2509fc674755;0x563453ab5e43a;0xef015cd82e35;0x3d21de91c2c98;0x8cdde30924f9b;0x3cd1571e748];[0x0;0x503e154a8fa3b;0x37ca1335d161b;0x717a031ec1d4d;0x46a2217b33336;0x6822e6d9ab90e;0x29e7aad7b019e;0x83b4abc69628a;0x5e3288f6b4268;0xb22dc2318e103;0x7d353ce1bbf62]]]
 (V [0xc478eec075647;0x79ca117b273e0;0x118aab9a31642;0xf94520a659bcf;0xfe4ad5c8589;0xb846cae0cd9e0;0xd64739f08c82c;0xdaba6e3a2c4d;0xa2ec9687e75b2;0x8ba5d92d050] [0x2f4d0649fa155;0x83deeee149828;0x91de24159f39a;0xedf8357c233b7;0x4a95d5b19b0b;0x815b6711a6ed2;0x916cddd1d5bee;0x59e2051f09566;0x6f3b8d2717aba;0x96c12a307ab]) [[0x7c11c974ea1b2;0x800fd97ff212e;0x16b3b006e4c9a;0xaee414a1c9343;0x86ca510f6d5b3;0xfa366bd8e26c4;0x2411aee942767;0xa2fe2193224c0;0xe9bd980d7891d;0x4af99ab002];[0x0;0x951891059db51;0xc5a9b411896a8;0xef7b41c7de932;0xdfcf743273f4b;0x2491d401656d7;0x6aefcab66dcc1;0x39706e72b54af;0x3d0889cf3d666;0xbc884f6243047;0x4b496f2c9dc6];[0x0;0x70fca84471bf8;0xfee04c022cdb0;0xaa0628a7edbaf;0xc99b75a3aca7;0x61bb76065b2bc;0xa6aa2e7146fe7;0x71326ab2a95cc;0x867ecb2ff8cd2;0x98d08d3f31c06;0x15f540cc0];[0x0;0x609a949c0f107;0xe3aa2bbb80d26;0x9947b2b5f8833;0x1a5afab6fff35;0x820ccaef35505;0x30384eaf66ab2;0xb3f9c2225d596;0x83bac37ccb4ae;0xc026c79bc5da4;0x4b53237bd8b2]]
 [((V [0xe6038f6478c0b;0xcec7c23adf4a4;0xeb0d3c6f33a7d;0x5788861ccbf81;0x407318e8ebaa4;0x1163478b7d9d2;0x2a3003e27a210;0x1a5f959e7456e;0x116a5e9a43a88;0xb280874caf6] [0xb03216f5fdd7f;0x259fa7d796e99;0xa25eac022be74;0xfb4cc133f1dce;0x33ec7abcd475b;0xcbf9d97e4ae69;0x9d69e21317c51;0x3a7c187b65580;0x1b600c6cb901b;0x172b3294e45]),[[0xd300c1277c85c;0x9659e41909ece;0xb9af03a1c2b2b;0xdfead5717ed4c;0x673b0648df7e4;0x915fcc204924f;0xdc55921580da0;0x3e8163ea594e5;0x510b3986e6751;0x48629e07485];[0xd75d0e010ae1c;0x4de3199264554;0xd0186c62c1ce;0x1f7bd6184a79b;0xfbf4901054e86;0x74bdc738e550e;0x23302ae7eb87;0xb1b976307d526;0xd10ccaa97e187;0x82d10a8bd5f];[0x0;0xab370d29eddc3;0x91f96e969ff94;0x4b4ff5315c92a;0xde59120e64093;0xb2c54cddd32;0xc66bb8431c7eb;0x2b343bd50c1ac;0xc0b95cc2fd71c;0xee86510195303;0x4c2d85488fb];[0x0;0xfc90678195b00;0xd75ca984c78f;0x2095558c62c2c;0x659bd2592cd27;0x7aceeb189673c;0x966baa0496d92;0xc51b2ae46d18f;0x9b8a95154be82;0x9daf80ee14b4b;0x5540cdbe95f];[0x0;0x7f3aabcf4bfd1;0x442d5ba84483;0xb89c202f3e49e;0x881ad66d38375;0xf4fb9066e4189;0xc0a1953691b32;0x9a79a4bf977f6;0x8906d758153f6;0x3803d8f35e48;0x14779ee177d];[0x0;0x69a40ad8bcfc0;0x281ef9fd170c;0xf8041173be5ac;0x6858aed3093db;0x9fc92a99f2306;0x5bf6682204e74;0x8f45af4fc61ce;0xe196b64d2464f;0x165b44f46e61e;0x48a0042ca3faf]]);
 ((V [0x9bfea96d8be16;0x5f2e8095ee9f5;0xbf696fe3a6d3b;0xb61a10f3d74ce;0x1739194e8e282;0x79f38d99cee6e;0x97b772d52d82a;0x4bfd1f60ba5df;0xb3176559779a7;0x354fd2088dd] [0x6f55f652b2a8c;0xc0249a68adc88;0xdbddfc7efd692;0xea1d05d2655e1;0xabffabb21ff97;0x3792f5303507e;0xf93b980e73a14;0x333c2544e4c5d;0xd78f2f25987b;0x15040cd5fef]),[[0xe0f9f984817db;0x8c1f13fd53ba9;0x6d8a48549a00;0xf69c8db69d200;0x66e41b26d1f09;0x1c17927e8e041;0x2d7bb15ff5baa;0x3551f4fe1ae54;0x84562142d8dab;0x44b24601739];[0xf0e6236e4012c;0x90be2d50e21fe;0x3c07b8257aa77;0x6e04e187333a9;0x3dca5a748a8f;0x1f9d0a46f62c2;0x1999251f51e78;0xe13d248bae93e;0x82fa8b0c2983f;0x18f929813bb];[0x0;0x5d5b01befe24b;0x84d558b23a630;0xd534d90f80c86;0x53b9619b5b17a;0xbc69c120777f3;0xc99317e53f696;0xdb543cbf363ae;0xbd301e701cfcf;0x45c865e805656;0x7c76fcae381];[0x0;0x26e5c553d5fee;0x49489189c94dc;0xb44307c6a1e79;0x648e8632ad4ce;0x59298d4a75157;0x7a92da91b05bd;0xf4b5cdec68164;0xaa156f094f5c;0x51ba4dacaf6b7;0xc6f379d534];[0x0;0xa5aa9ed906b6b;0xb15b34cee8753;0xc4509ae8785e0;0x1c7f48e65b663;0xb8ba479fdec02;0x7e86b7d59f5e9;0xe853d6269ed0f;0x9da55472fc52e;0x26fd5f8709951;0x126f3156329];[0x0;0x7e7db5054daef;0xf3d5cadc68782;0xebaf60c708f76;0x5aad84a658a61;0xddad17b802008;0xe346a699dde5d;0xf9974549105c9;0x880724c640988;0xd362651365838;0x45189065b5356]]);
 ((V [0x247f4586e9dea;0x6da16079f3739;0xc52d4d1025af5;0x8781e5ad0ab15;0x9e96981be08dd;0xb8baf151fae72;0x6dafcb728ada6;0x7048ec921ac68;0xe8870e2256971;0xf712939352] [0x15a3b8d320c2;0xdb1816004262a;0x38a276c1c85ea;0x80153799d8072;0x97db887f6d91e;0xf71d017fea73;0x26ab2c63dcdb6;0xd91a43010c31f;0x317983845edf9;0x290a3763913]),[[0x1217e33c06371;0x3f5200663c963;0x245e2c64452c5;0xfb9118d4ed7e7;0xa391150aa321e;0x14cf78f88c30e;0xc9cc22eef12d3;0xc727b5b070e75;0x8169524f7dca4;0xf6337c64080];[0x2d1e775cd2ccd;0xcb2ebf2172dfa;0xf0879e7c6e265;0x241bf61e13f24;0x941f5ffcf5eca;0x29edba7abdc7e;0xc9a21d9ebd9cf;0x33f37fbb26c3e;0x69997930d9fc;0x79029a201b];[0x0;0x4d0a8e850c631;0xf5ff19b0d8b3e;0x31032d88749f6;0xc5d7af8c74579;0xd932f115835d6;0xbe8d20c1e32ac;0x79f2821e3dd6;0x3c1398fae0ef9;0x658c84fedf7d8;0xb1a25dad85];[0x0;0x34d71b559b52b;0x29af12ed20adb;0x98351bde81960;0xbecbeac1a1c3f;0x3427445ab4a06;0xcf0f1666d0ce7;0x934642e04b517;0x568a12e43f88a;0x55d28eaf0b2aa;0x286c3cb4bc2];[0x0;0xde0bfd1be4fdd;0xd84e6bce7bc63;0x5f12bfe823607;0x9d1add37e69f0;0x21027f9393706;0xeead32bc2cd5c;0xf4f67d039e1a2;0x556b73324adb3;0xbcd7dbeebb8ce;0xecc6fd6b0bb];[0x0;0xa0a0e6ba69f63;0xefb9047a8002;0x8aebab8de953d;0xfe0c1c3679bb6;0x5a2e25bd2b22e;0x7c504bf4f269a;0x3988ebf6c2fdf;0xeb9ee3e3c4203;0x1c8103efcfdf5;0xf74e1b7465969]]);
 ((V [0x6a08407070c4c;0x787e81784001;0x595131e409168;0x1b38d10153ca;0x289411929531b;0xf6f64eee89f22;0xd4e3d661afcaa;0xd276c4b691be6;0xc6ec0c95d0c6b;0x88b0a9631ef] [0x3a8ce346539a0;0x13954b421f8ca;0xee4d0dbb51baa;0xfb6357fc7789;0x672872d6eaff0;0x67aeae0db1353;0xb40037edb4405;0xb268fdf5e80ee;0x4dd49399f910f;0x534845990dd]),[[0x19df473f5b021;0x7259d9d42dbad;0x54f77a3c208c4;0x9d04af85b06c5;0xda21c7dd9a6cb;0xa0a01041cb9ee;0xfe68aa670b8f;0xa4ccbc1fb2dc4;0xa834d9a9d1ca0;0xbe1a1c88574];[0xeb49398ddb19d;0x45ca2db6e90c9;0x430c9e50cb2c6;0x3b1e1d49bc097;0xf5dc881cd4c02;0xb7b20540ef50a;0xd8ae6faa2a08f;0xad9b7c925209c;0xc8d8ddb4d5355;0x74657f6008e];[0x0;0x6d7ccc7258181;0xf49fabe011418;0x711d037733c6e;0x969cd07af7d89;0x2e2e1c12645bc;0xf6c0b8df546f0;0x71169c6498d74;0x20a9dbbe9a2c7;0xfc6e34fa13f0b;0xee74da1f5];[0x0;0x6a2acc7b0b94f;0x9bd4d8cb3c354;0x83edb0151112b;0xf55b21a5cbc8b;0xa15cb1973a279;0x9007f0207f75b;0x1bbdd5b026f0;0x810bf1ee2bd59;0x6cc9b3a8e27ea;0x3cf38970feb];[0x0;0x8216ee5ab36d7;0x8721513780b36;0x2a7649f33af1;0x5ae47d62c6a26;0xc1a6fc1b14596;0x9ad681b65b635;0xc696f619eb829;0xd5bf9f9e0eb18;0x271bf06ecd59d;0x8d2ac504307];[0x0;0x6c15928a9e45;0x30a406e1a171b;0xde614c0b5b6a4;0xa9a72c7fd9b7d;0x86de59ef48f2c;0x572c75a80d404;0x4ae4cdf620eb;0xe14867c690915;0xcb61f40f1b448;0xbe7e2d25c9fce]]);
 ((V [0x78cf823118058;0x84e70b90249e;0xda0731b20401f;0xc967cee9180c6;0x6804b4a67b1f6;0x321525975d8b4;0x116415cb875bf;0xdbe9e4a67c46;0xc84c0d08f411b;0xc9ad94d9ea1] [0x1c4f51365236c;0x74c650114c6d7;0xd85ba75918ede;0x6423779e9e7c1;0x4b909107b558a;0x6f4fffb87d65c;0x83a077d642477;0x7a778bd47fc9;0x9271c14c76ab3;0x9fb56e12866]),[[0x152d65d0f2969;0xd179408d44d;0x803c87278f662;0xad570dcd4bf4;0x9975ff51affc4;0x2705e33e9c204;0xaacf492eda440;0xa61070cdf2b15;0x1f2c67811ca18;0x20a4c310913];[0x7913800ca65e2;0x53306a1d852ce;0x47ac757a1d2a6;0x2c00ab4948fa6;0xd31e82d082d6e;0x21e8edccfc552;0x445b991864e3c;0x59ea7fae42cdd;0xcbfe5c45c7adf;0xca1f17f103c];[0x0;0x4fb46a03f01e2;0x15a8b6799e57;0x2d8fdc83f8d08;0x26651bb87dfb0;0x5e706e67edd9b;0xef80027551dcc;0x576bea5fc9c05;0xa6e607ea67b4a;0xad60f644012fb;0x48fc2de2a94];[0x0;0xfdcbfe220737a;0xc285ad7b7e218;0x72a487978cd4f;0x8e7609032b7c1;0xcdfa594da8bb9;0x30b536e8c1bce;0xada024d6823b5;0x6754da563acc3;0x72cb9a3b5b90e;0x153d44ea511];[0x0;0x3ae3ebfac5ed7;0xd972ed40ade4c;0x17d34f37496a0;0x9cbb9e5f0ef7a;0xed10bfedd9247;0xa132a5ef94735;0xc3ff604f848df;0xdf6da3f4b1ed3;0x8c2f53cc09bce;0x4299acea62];[0x0;0xe772ba1232421;0x67e93249bfba1;0x320be41a19a3d;0xaf53e907f38e2;0x36da11c496432;0x299bf7d1011e9;0xb115a65ae2e2e;0x8e1b252876924;0x72617ab4108a;0x20bd1e62a735a]]);
 ((V [0xce0d96f9e1fdb;0x5151fc124dfa;0x4a2b83e0bcde;0x6153ace32c0d6;0x1dfa73d4079f2;0x9d322dc0680d3;0xe89976d66b7d2;0xc51d4c218c47f;0xdcb66aafbc25f;0xc85da973f44] [0xb68e7658d68e0;0x48f347711cfc1;0xca4f0c1a656ad;0x3042cf83d1514;0xd0ffb83184112;0x18484fa8c9f89;0x78de210dfc54f;0x9f85816608787;0x4bd1afe00a348;0xb937bcfbfa5]),[[0xee2f734b78065;0x886170f8da823;0xb4870d91dbcae;0x78ceef136d801;0xf082eb085e7c1;0xce062510ccd1a;0x5726312a342f4;0x34001f962d2e2;0x12d660f227d1a;0xd5726ffd862];[0x7f15ffcc4a7a9;0x1f74dad7057ae;0xccea397ac673b;0x8b96e99b0b336;0x22ec9d82a3ab;0xca625c49ca44f;0xa778e1c9fad87;0x1068b900d2a4;0xe9835af551188;0xde4ede57186];[0x0;0x471ef2a9300b1;0x84243394f0402;0x9c7235e698e30;0x880020a7abfbb;0x4bad134f20371;0xf96f6e111ba99;0x5c8c027ff5cc3;0x7c947a9d6aab2;0x3e331e80afbbf;0x9ee20970b6b];[0x0;0xd2b68cf6921bf;0x196a8ebf5717f;0xeaa7a89ea8904;0x27ea4e30083f9;0x9ea82a57ca9d0;0xe29bc376d434f;0x1a4b65724ba;0xc94f2508fa605;0x5a68f50fd41ef;0x10a52b27c859];[0x0;0xb51ce98e89642;0x9eb93add255fc;0x939a3d1f8827b;0x912fe38ca9f0c;0x6e4b8081bccd0;0x2f4427fd7eca7;0xfe65d4d02327;0x6cbb8f6ccc1f3;0xc807b6d4ddb92;0xb1f7a183cff];[0x0;0x53f4b1ee33c38;0x5482363b986ac;0xf995879ec7b91;0x868a9e02dbe1e;0x3ffa31103583;0x19731849f7579;0xb8fdf1d5df69e;0x4e2d2915e490f;0x7e3d495cec75d;0xd648fa828943f]]);
 ((V [0xbfc4eeb88a54d;0xcfb3cc2c0fcf;0x4ec2b017ef05d;0x5ee327801ee29;0xf555f95b73cda;0x5d5413721cf5d;0xc854205b66b33;0xdc9ff378a999f;0x2a35fb6450d1a;0xc444be50296] [0xb4374306c314c;0x7d62b7005e8e;0xa3625102a7892;0x96c5b00c15821;0xa0ffe2da84b74;0x9ec5e93749ebb;0x911b0f487ec9f;0x79b55bf87998d;0x24e0192653b99;0xea1c38f0e0b]),[[0x4c9ded6fd6c63;0x6d74c6c6a8b3;0xecd8eeb0bc5;0xe88707d5d476;0x98b0e8d78e108;0xae731da70fb65;0x31d438e3e84f1;0x37a350e9b657f;0x444fdda841e8e;0x661a0c7c971];[0x90788d76a40f;0x2501849b0a3fd;0x2885ad740b8d7;0x12b01144a00d7;0xfaefbc0f6f57c;0x2d6cc2a436df9;0x54c380eabdf29;0xe837a7ad3580a;0xef1f7a04eaa0f;0x2deeeba2d7];[0x0;0xc6c573d52dc66;0xd4df1346f734f;0xd3885631e34e6;0xc2d0d48c9156d;0x7b399981becb0;0x8788829c9d06;0x4cc3a2d8a67da;0x95b4d4daf8d9a;0x35b6a515849fe;0x9cd27b09bc2];[0x0;0xcab2cd29be39;0x23386dbf1bcce;0xc25d4c4cd59bc;0xe09db1c3407b0;0x692b73184a693;0x401dfe0808513;0xa179d4f9752dc;0x4271cb7cbb1cb;0xe28f619286b21;0x93be1bfcb0f];[0x0;0x250d0dbf2248a;0x2f3025e2a50a3;0xf7bb0e1ce6a33;0x761987edccfa3;0xeca60d3e166c9;0x51860b3483e65;0xf46a40d50698;0xee1e392442540;0xec1e4e8f53895;0x28b8c499d24];[0x0;0x77049f6e31eb5;0xaa015a37683e3;0xb1be84b2ab8e7;0xb9e820905ceed;0x847a60de80871;0x771dfdb2c0104;0x82e3d2539542e;0xf90594ada26fa;0x82945aeb1d338;0x6681c8e17ef95]]);
 ((V [0xcd102bb28e1f4;0x24ae7005d855c;0xa88c5389c7f7b;0xd8fe4ebe97005;0x18e1eb0de2bef;0xaccb7afac6378;0xd4873ca99f569;0x8d1a62597ada;0x561980b08ec9;0x72073b9d90c] [0xe9042361e0750;0x614875ae2f9c7;0x788aa3a938c0d;0x14355d17f22d2;0x8943ca21aae75;0x40270b5fffefe;0xd826cb6b2c713;0x58d6ebf4fd4d9;0x8334763782275;0x37bc2f8fcb]),[[0x93f16940cdddf;0x816ed5c89bd27;0x4543f3137c837;0x1fe07e5a67886;0x401d826038c28;0x1d4324161d5f;0xb6bed61b6ce41;0xfd6dd5f10f00b;0xde48936789f6;0xa88f12b780c];[0xb85d4b0282ac8;0x3b6c35d96ab9;0x6d737ca0cd289;0xd2f0d6f62cbea;0x89b50ee325724;0x99debc1e28046;0x3ed969de71235;0xd1572c7d8b874;0x36abca261313d;0xf8c2bd1dbcf];[0x0;0x2c3baef069297;0xbaecfb10ce5b9;0xadf8370e627b8;0xb5feb9f4a22b9;0x7b7d942caf252;0x88378cc6d7ad2;0x23d8749159968;0xa8a2e306c81f8;0x1d19a8cb7d76;0x967955e0677];[0x0;0xac82d8ecdf154;0xa8b08fee2ade7;0x1973ad5d760b;0xcc0eef6d3b5f8;0xa31aa1b485e74;0x2a79456ac3725;0x5f896060a1132;0x2d3dba78e3c8a;0xd4f6382091942;0x1344ab87f5bd];[0x0;0xfccb79d8c62b5;0x7a4be31c01ed5;0xcd4fa1af0353;0xd05a3a098eeb9;0x4fa21bab8fdbf;0x1027886a03fbf;0x50b931e9a8b6c;0x5d43ddc3ee6d8;0xd4cdc0a4e02d4;0x6efc1886c35];[0x0;0x5665239e0fa9c;0xb76765120e85c;0xe81960d657516;0x527eeac327e34;0xc061880b2a317;0x3cdcd8b830ea6;0xef5c164544e8b;0x8f136e2be2145;0x29f85b808e6d4;0xa96dc81e5cbe1]]);
 ((V [0x4008789c03884;0x8969383cc5315;0xd20d20088995b;0x27d8b85cf7a92;0xd4530e6a2a8fa;0xf79f85e365f70;0x2673fae99301c;0x3a9697ffff3bc;0x78f0367008e9a;0xf1ce3869de4] [0xe3d3e625adbd0;0xc19f92acc0cfc;0xae66ab8f7bb9b;0x568743626ae19;0x87cc281964143;0x4bdce64f01b65;0x962a21962cf02;0x5735b54cd40db;0x3263e3fba2720;0x5574529d23d]),[[0x3850f475617c5;0x42f08ccf2e12f;0x61c8d2d947712;0x81ad26ffe4d2b;0xa0ab750cebdb0;0xd16f6fe8fc368;0xaa7c72d01dc31;0x5a1fb296979e6;0x71cb475ed3884;0x9e24f1ff70];[0x663d0ffefef86;0xcf361eb3d9bde;0x472fb8789b7a8;0xba774a44a1a0b;0xe800843a91a7e;0xb31d10c4630e4;0x9fa4913235c3b;0x3eda04244b753;0x68dcf84080207;0x65e0d5af7c1];[0x0;0x23eda5fe51ea6;0xc2aa6ca99bcaa;0x555238b57fb56;0x939d53f2bf1e1;0x747d2ab5da6fc;0x8062ea50e3f92;0xafbde78bd379f;0x935ce8f5f752;0xb38e6f17496ca;0x32ca714ca56];[0x0;0x97923a3c78ce6;0x25da6e3a3e3bf;0x13dfb36a51da8;0x673ea04e5fd5f;0x5aad136b43e8d;0xd5bb0c4577c80;0xff2b3a5ab6f8b;0xe94be7b662289;0xb10e5907c0c91;0x44dc61026];[0x0;0xbfcfabf8c996b;0x1d60f61fd3d6a;0xbb2a80b3cd0d3;0x8f8e6a85523ea;0x1f0bd38efc48f;0xed5b3005bfff1;0xeb4ecc4c5b7d;0xe100e93db9e04;0x3670784b9f2e4;0x61b1a00c4];[0x0;0x7717f5a7a0c35;0xd0225d50ebf8;0x114c1a23f3c7;0xeac4e49a6cd43;0x673dc26c64fc8;0x678ae0131ca19;0xf7708d8ecbfc9;0x2c6369d9971df;0x56b71eecf8026;0x9e7427b0a46a]]);
 ((V [0x226282f1f424f;0xc647d1449cf67;0x7692888a787fc;0x8f1eb83432694;0xe14c0235d5eca;0xd7903b66057ff;0xfe5cdd929f5e0;0xcb8bdb6b1e1c2;0xf72dcddcbbed5;0x213627e772e] [0xd5ee9e3cf78e;0x1c875f53e698a;0xaa281c6012431;0xb40f7938f4a7a;0x34254ee864d6e;0x24c7310130fbd;0xce2473ab29603;0x4806a8c7a2fd;0xfa68a27eca7a1;0xb7f491bdf45]),[[0x4a90f0716892c;0x7a2996d667702;0x785e9301655d7;0x12bedc8234611;0xed20d4af57c89;0x4f3d80810d8cb;0xa484f6fc58467;0x3bc3ed6ef373d;0x9df05b354bb66;0xbba505de86a];[0x41a5dab133cd4;0x8bea44ea2b930;0x4cbb57d69089f;0x2d4495af6eaba;0x3400b54730e47;0x5d698db27b6b;0x233a79bb92c8f;0x2ea71e07e25dc;0x96b239bac9825;0x7bdd992f7af];[0x0;0x6749d9db92ee4;0x843724abc62cb;0xb717e577f383d;0x8a2ebce9f696c;0xe581010c936b9;0x1f2626d1695f6;0xed71ebb49a901;0x29cb2f735a84b;0x2f375f7adcf49;0xe465ec562b5];[0x0;0xd63887d6eaac0;0x908f0b3def2a6;0x709a54e11ba8f;0x923918c4a2814;0x177bc03d2555d;0x503b161ebb294;0xd4d6fe807a0d3;0x8fc5953487f7a;0x742f4aa3971ec;0x7d461c8f2bc];[0x0;0xa808f549445ff;0x7a93750bce92f;0xa1e2403fda9d4;0x9009e7de019fa;0xe3fdf32b4c2bb;0xd80bfedaae825;0x3a7953c1ddc52;0x72eeb3b208be4;0x8357c49824217;0x898a80f3a9b];[0x0;0x27ca82a139c7e;0xa61345c81af56;0x54a385b932e5e;0x5cf776f423e38;0xcee1109dfd20e;0x5bdec6b68d1c4;0xbdeed78e29165;0x1f77d87ffd8c;0xc510567d796a1;0xbcf9906f3f62e]]);
 ((V [0xa1dcbd53f5b13;0x82bece58c5586;0x9fb7c0334348d;0xe6303c70cd5ac;0x65c99bc14a810;0xa477d0a18505;0xa4757911982fc;0xa0afecf8ea97a;0x31be1b27866d6;0x74d409eb02b] [0x517d97d734b7f;0x695a8bff3d246;0xdd60fe6935556;0xe024caa64018a;0x5fc2b8a87bc4d;0x116e42c27b74;0xe3a3f41391a52;0x5d1848271ccc4;0x65e41d42e8b75;0x4cf30b04235]),[[0x3519c74dadfe9;0x34838a2667181;0x59804110baefe;0x3ef09dfd21478;0xe0b2db69165f7;0xc43276c683c84;0x7d79a8ae1239b;0x264b5115b602d;0x6904c1e5700f2;0x7f72873ecdd];[0xb08249beab4eb;0x80c46bf06583e;0x43c7817271d47;0xb145690f3db5b;0xaf262ab801f9f;0xa6b584794a421;0xa1651286c6e0e;0x9f1557ca313b2;0x8bf7ee24d437a;0x5d440b01d4b];[0x0;0x6d485c139dcda;0xdac3e50911ca4;0xb211866248819;0x370bd3d3a8d2;0x2c9123d0d7340;0xf7c44ba4fd72;0x7ad38dd796c96;0x5bfc83e84aff0;0xe8ee6fb16d198;0x44f01be877];[0x0;0x156ebe6e8451;0x1dae1c10eeec4;0xe5ef06de0b1dd;0xc54ff9e60f7ef;0x34d71ae0ac490;0x5a04b416bbe1c;0x2968ef5904b7f;0xfa2d6c2d524ef;0x389db125f1635;0xb72940ca79a];[0x0;0x6cd9b428e8aa0;0xead19afd32265;0x3ae1b723b6cde;0x7d3dc65b34886;0x7f96a5d3d7efa;0x1a2c702538dc;0xb9983af5fd53b;0x7fc78f30c6b3;0xd82c4af84dc3b;0x3f72d56d0b9];[0x0;0x615a7c69529e2;0xd949a1b7a9375;0x5260895203f5b;0x975f166b3cbe3;0x521c49a4f1945;0xf9a087cb3abc5;0x7b0583f671318;0x71c60d8adb51a;0x6a5a957273a42;0x7fc8590a7174d]]);
 ((V [0x49d4fa3567e21;0x7dd75240603db;0xac158cd9b59e0;0xa0fe34e6bfc8c;0xa908451ac12b1;0x4855a0289954b;0xd332bc62da20e;0xc5d68a50be1f9;0xc3863915d3aec;0xf8901046d84] [0x2f3a99de6fc94;0x252ad73775e8c;0x59f94dedec968;0xe5a8a08b1ec0;0x9bb7fa6950e5e;0x6b5742acd434e;0x3f94b27cf61e4;0x7827074467668;0x95260305f0dc5;0xe931e53b78b]),[[0xcfca48c932bdf;0x457c3d8113396;0x7505233593c05;0x291bdefc6b1e2;0x8460326ca62bf;0xbbcabcff21a4f;0x30ce4b3bb6f42;0xd9d40cbaa81f7;0x45a7e22a05a9a;0x9a862100706];[0xa47b45dc24549;0x575c8e5c334c9;0x1a44ed3ba148e;0xa9514a5b97018;0x483f5744f3985;0x8af9e2f666e54;0x8495929a06911;0xf3f21fa52288d;0xd549ce1787989;0xec44cd81c03];[0x0;0x3e0fa4dbe50e0;0xdf33bddabad58;0xf7dfad611157d;0xf51a3099c0eac;0x3c564914aa11d;0x9ba86454857f9;0x787ece8aed312;0x7cd4501536edb;0x127d9445f0d46;0x3550d89d681];[0x0;0x7ecc8d2a61b45;0x28780e966fb41;0xf65d4b8334788;0x814c07d8bd726;0x5fd5eea41ef12;0x3b817845825de;0x6c8d3c3bc4b82;0xccdf484ce6165;0xf6d91674fd48;0x5ce50b876f4];[0x0;0x58a42daa69036;0xce5bafd722e77;0xd0e8096666bef;0x2e0b0fe758ba4;0xb0bc885f206ac;0x86fb847b8263c;0xd975e6d7b1694;0xb05f6083b2c6b;0xf82e88e61a853;0x5d45a5fb17e];[0x0;0x582d1e88b0c4c;0xe0fa2a8d5bc0a;0xd12b0759b2b5d;0xbad819487c933;0x62961a87ebb6a;0xea22dbd98afe2;0xafd14236be3a3;0xf9c4efcf8f8b6;0x732014e5290cd;0x9ad1230036cb8]]);
 ((V [0x5e30d4d789553;0x5424d931ce7d1;0xbaac3e99612df;0xec7d6403637f4;0x843a8159bd9c4;0xdc1b6d17dd03a;0x519b0e4e2cdd2;0x35db3afba689a;0x7c8f6d23bddd1;0xe45ad72e0bd] [0x810221d0602f4;0x6f528198e67bd;0xa629e3ea6d281;0x1736cdcb6286f;0x56bf57c531802;0x723ba508729c2;0xad38def279963;0xff57eb5f2d594;0xf88d06a3f739f;0xf7441ef65d1]),[[0x7a7d2cb43af80;0x1c8736850c7e3;0x82db2ca4d794;0xe1478fe7e9ead;0x5556c43fb0f73;0xecd156ecc5d47;0x4defd7a17c522;0xa65f63a43afb;0xa5bcb1b070ec0;0x403571358b0];[0x887cd5865a6c0;0xc3326c874422;0x31bac26d48e3c;0x95a0c48294bc6;0xe42f561e3d2f5;0x33b12fd8791e5;0xcd6ea7a368342;0xf0df931ef41b7;0x10b11a0bac673;0xed847fc73c];[0x0;0x1f93ac19d0e77;0xe80bffcf684f9;0x61cb2659bb809;0x443b8c875d696;0x43cb231a55914;0xb543d37749557;0x93d423f09b122;0xbcdf68ac22ae4;0xff1a4e1242985;0xf157709b93c];[0x0;0x27ce1aebf6624;0xa91a9b325b321;0xd08396b9a78cf;0x26d9f5da81d91;0xc012096adab72;0x6f05733a79509;0x9b73d678104e;0xe37306bcf0566;0x31f2fc88e78ce;0x74fa4f863f5];[0x0;0x640af37731a3d;0x88f31d4af207b;0xce27a3401ead0;0x6cf43bf948d35;0xcd7dac57808b1;0x511eccd832987;0x7af55db69ec34;0x68cabaf3fe633;0x110219274485b;0x101ac3c2d7c];[0x0;0x901ece9138a48;0x5142620272110;0xa2ac1b16f486a;0xf46a6a7e83566;0x755957ff25e69;0x9956080c12ba2;0xe9dad6266c5f1;0x10220a06df59a;0x81291c24941e3;0x407ab82cfb52d]]);
 ((V [0x56d544a491ea8;0x98470ff193ec9;0x228da6bb8ed78;0x387e0c40e7a18;0x7cd2318ef73c7;0x19fc0645552b9;0xa5c36989324c0;0xbc61d51e35aa3;0xfc340c2d92020;0xf7bb807f7d] [0x4ba5697431a1d;0x71427076bd0d5;0x56601875fe92d;0x8d3383eaac68e;0x77b6dcce17c46;0x45c0c7688d636;0x3006f16848ea7;0x74d16aef10883;0x91bf6d7261691;0xfdd9f2bf643]),[[0x1158eda4005ed;0x50acdba85c76e;0x4736ae60938ee;0xe5680be1cb4f3;0x8784c741ad249;0x98bbf12e32a92;0xc51d8db30ca5c;0x822cbf136214c;0xae2a5c975cb62;0x58e09fdca9b];[0x2be3bf3dcd9a3;0xd45a1df4e4880;0xc7121d0c69169;0x71e9746940e38;0x60b6957be0bb;0x9bfaf38cb8323;0xff18e0ea032ae;0xc647b09b3aca7;0xfd7d8a33db422;0xfe1acd0cd96];[0x0;0x708d3fd295e8a;0xce2e55eac3fe4;0xd32b4ac9fb804;0x6acf62fcfc174;0xa6df4c80c7fbc;0xbdb06557760df;0x7ce16e125054;0x1d8a5af023c6f;0x711dda9ad8431;0xcbb1ef86065];[0x0;0x790301bade0d;0xa66b0a22d64bc;0x84d2d010ad3c5;0xfa8e741b65ce7;0xaf4189f95feb0;0xb8ab8e4ddfbb3;0x13bf406c2297a;0xf9b9f8ed4450d;0x4da0ebe85f8f6;0xabb0c150729];[0x0;0xd24bb58c3870d;0xa24ae529a94fe;0x2eff4c693b08a;0x842656f9f7f6c;0x6e06889500597;0x2b82c781021d5;0x5b886a02ea19b;0x408be973ee1cf;0xd5be8ebe94ed7;0x1edb32ffdaa];[0x0;0xe6087db87c2bf;0x23aad36aeb67e;0xfc8eea07ed9c;0x9b0324bd79f59;0x47371ebca3409;0xd09a4a72a2962;0x2a6ef21f12519;0x389b9ff115a2;0x660aea236a335;0x598367f764ce0]]);
 ((V [0x4f8f11af893c;0x68786a7d6ce26;0xc28de0e472f;0x47e34ab964dbc;0x3e5017f418706;0x29ed61b1a3e7f;0xbbe574b803794;0xb4bf817a75ec;0x7f24bc0748d15;0x91f64b8d5d2] [0x801f80b6ec4c9;0x6845dc545a752;0xb17983a98adfe;0x7789c2f17f1e6;0x3b62095aa09a2;0x519ecf098404f;0x826576c4a3978;0xe1476b3ac7e66;0x62b4be8abe3ac;0xab5efdb0b4d]),[[0x79a7a0e60a904;0x80ee54ea54634;0xaee89c8e47b21;0x3a861802347e3;0xe164457172722;0xc25673264a09a;0xd5c119ea6c82f;0xbf10693963c59;0xfac186e3479eb;0x8291013946];[0x9828961d40fb;0x6d15e23918c3c;0xa6f08af5be6e6;0x63ff6a42fae69;0x1dd5714c08a3;0xc0ba950f06448;0x5b29a6c2ca4b4;0x51d6d3559f40f;0x72905a672dda2;0x45bc261730e];[0x0;0x141b6ccb18c93;0xbf9cc73060f5c;0xa535b06bdcda6;0x884771a10b7f7;0xd379a17e630f4;0xa15e1c0463338;0x11c71087f92fa;0x3355791131635;0xfde785dfc0268;0xefbb5b4af];[0x0;0x303a12c65b035;0xc2fd4bbd91b87;0x7dab2485baf71;0x3726d6cd83035;0xc583c29e90f99;0x1a323263859c0;0x6de557dfcea89;0xdde3bdfa00b8d;0x519f585f55082;0x102f0eddcaa];[0x0;0x4761f3bd8425c;0x5a700ff474222;0x37f6a2164647a;0xa4fb70ca3fb8e;0x5fb292eb9567f;0x7a73f4d9056c1;0xc7f813ab60f77;0xa4c8df9b60ac8;0xefa93fade7d87;0x429797608];[0x0;0x72959ecc0dbea;0x98e5821bfca88;0x5683c9a218b8d;0xe000a2b2b931e;0x421ca3fe6539f;0xba14db4850f4b;0x3e7a6678394cb;0x1188d598f2bc7;0xb391dd6873a3a;0x82d106138949]]);
 ((V [0x18d8c6e871f7b;0xbd123f5eef939;0xdc6f9809a16d;0xe263afd4ff6b0;0xf44b322738c7b;0xfddc652b90915;0xc6bab9b2209c1;0x3c572b9da382e;0x585e728ead46f;0x86e75d2003d] [0xc8802c3027047;0x876c5eb140f0f;0xa23c51d756380;0x4213c0b3e8650;0xa43c1ab1a7fc6;0x6bec8106c0e28;0x52a7f1cc0149a;0xc41d6fdf0cdd2;0xb400c89ce3d9c;0x7332c956163]),[[0x5e316574d3d6f;0xe4473f1da3f65;0x4aac0913eaa22;0xb23d8bcdd7c0c;0xebb565c361c39;0x7bd32e34345e8;0x377815c2d4657;0x75880a64d06df;0x25c1eacf49ed2;0x7942405cd92];[0xd7f0234f22a30;0x63c41592c6b91;0xe939234d03776;0x4cb16a28af9a1;0xa950be3a62df6;0x6b90b659c5e2d;0x4c5ba2cb8d3fa;0xa23e4d3987ea8;0x94bbd8c13e98c;0xfcf52f14d48];[0x0;0xe03c36fb98520;0xe1d2a0a056fa7;0xfd7f6b5736181;0xa87ca64524274;0xf254c835c6adb;0xdcffe56199230;0x2e3daa5998a4b;0x888232384705;0x26be4a1793e4e;0x5338ee8b6d8];[0x0;0x4845460b23436;0xe3fd78b78b08b;0x7e5b368b1d72d;0x4810600cabb64;0x1da46c3a3b72b;0x20fdd9bef3a9;0x6683935778be9;0x939b7a0d2c4a9;0x36f6f7258450a;0xa2587ef7a7e];[0x0;0xee5fbbd035262;0xf6aa20476e98;0xed7e3d8f2bdad;0xc591c4cd25cda;0xe29c947609c55;0xe7a73ac583099;0x3e3bce8db04b;0x115d4c38f37b4;0xff0a763d3d94;0x396fb1fd055];[0x0;0xcbed458f8c0d8;0x4c50f3fbfb460;0x829e025e098d3;0x731ffc0c0fedc;0xa0ebd58847172;0xbe244cb0eac84;0xb2ac0a015e306;0xa1ef4fea25f7e;0x1a0f8dfff461f;0x79c0bf8888e14]]);
 ((V [0x67c05ff6c8f5e;0xb5dc5b5b6eae2;0x75a01d3cda1ec;0xa555a0c1d92fc;0x71539d3cbdeed;0x60b646505bf85;0x251dc9c21b9c9;0x166396e1384e8;0x9d8caede070a;0xd6dde5704ff] [0xa318f260fe992;0x4b3897db1aa3e;0x4a620737ab727;0xe32d037c1b301;0x369aa726c1c9a;0x97cadc127948a;0x25df806557815;0xbd79e15284199;0xbf0df78e5fd6b;0x2ebf1ce497d]),[[0x6ea616e3bcbc3;0x117036b579000;0xb04fef85bfeb1;0xa18b911f831c2;0x331d8b0d185ce;0xcf7cf7e8dced7;0xa87a40951f271;0x81fcdaa8a6dbe;0x6ea7736bea850;0xfddc2b7ceea];[0xeed42b9dd9d12;0x845c07da50572;0x95d614b031240;0x9f3e034128ae4;0xc202bbbafccee;0xa18146edba76a;0x9f2e43aa68672;0x835b75e42f718;0x3ef618e3e7ef4;0xa5eb46fc444];[0x0;0x87372e31e43c1;0xe43a0d673153e;0xc992d93c7019c;0x90ed52e0b7fdf;0x52590f8c30abf;0xaaeab16ab14a7;0x94eefbf144114;0x30a1ad9f24bb3;0xaba4fbebbcef0;0x47170696b5a];[0x0;0x879a01de66550;0xbbf0dcb0a6c90;0x7922e146a2c1f;0xf5d4c03b5ccbc;0xc4b29509a460b;0xcedd2095f885e;0x65edb13a6724b;0x3061d6b702afa;0x5f0899e61551c;0xe4788861b38];[0x0;0x7a4c7e22efa23;0xed603489d01ce;0x93131c6e5bea1;0xf587373801156;0xd69de38108e1;0x17e912d4a1e57;0x2f337fb6b1eb6;0x13aef44280d95;0x34f76c20ce90c;0xfbbceb4fb5d];[0x0;0x948800b746195;0xf5326611b2b77;0xdb3278650df43;0x89673cbc772be;0x7e879edea3ce;0x54ffa7f0de0fa;0xd639f8f063c3;0xd627621234b66;0xe5a86038f6664;0xfe8abc3e41a67]]);
 ((V [0x5f7d1ae808ac6;0x328cc162058b7;0x7b43bd4527884;0xd00f6708251da;0xf57fb553d65c3;0x1344cecf69588;0x83eddd591ed51;0x619e8fc683d63;0x1f8834775241d;0x7ab1c2c2037] [0x35593d02c98ce;0x7b36643459c14;0x463c903019c36;0x1d1e84e6a54d6;0x7bb394c00f891;0xeec20b2672552;0x76e7995d0f013;0x489f5e06d780;0xc358b167fb289;0x54e1b1696be]),[[0x586591f1b8d22;0xa5ae1af559c64;0x67616b9830e33;0xfa0e693b46f16;0x98d678ef175;0x34909cd169d93;0x742e4b9f5328d;0xa020a57dd4c1b;0xcc57841a39671;0xea2e7fc679a];[0xf6dd731395a88;0x576bbe0161c8d;0x4e4300bc427d;0xb8c884e326eb5;0x6c4f86f216172;0xf4c6e6b23bac5;0x568dc6563ade4;0xc0215648aea82;0x3280060ed236f;0x338e181e905];[0x0;0x79d9c5a460424;0x8ef0458fdcdc9;0xe307c14d2ce98;0xa3078280417c;0x8f9bfe869a388;0xe9faeaf12d19a;0x3b60f2b7ac100;0xdc62218649b98;0x26d21be9f0e73;0xb457bbedb73];[0x0;0x24d85aeb49334;0xcf1210f1fe590;0x5f4d80c959178;0x793f396abfc72;0xb7b059cdb1fcb;0x73579a35a9514;0x16afc0fbf49ad;0x5f12b70ed7be3;0xfe9e732dfe5d5;0x55865c2a627];[0x0;0x102efd6c620ee;0x57577dcbd8a08;0x726d9087dd0ae;0x95136408d617f;0x508ee668656f7;0x33df266499d18;0xe97c799ac2598;0x41d9d4768aa7d;0xa19b0ac3a343d;0xd6390a09018];[0x0;0x405a884248ed2;0x2b845ba4e7a6;0x6e6dfa4b5e18e;0x6fb0a0d038390;0x1d36ecdadbfe5;0xced8ca0493d8;0x2f898fe98da1b;0xa8a8f1c3d45d5;0x61b3d15898aa6;0xeb6cff5be30ed]]);
 ((V [0x16289d358c3ef;0xc7d4c8575395c;0x5b7b7dbdc9588;0x83291c341d2bb;0xa0c0b117bf59a;0xd5d3512948047;0x2822172369272;0x9aa0a03711779;0xbf918148b1d82;0x8e75cd479c2] [0xd65066989a5fa;0xf02929055a0a3;0x94cd01f10d9d7;0x34f4daa8dc6bc;0xfcea752529293;0x7bca54a715e79;0xbae342d08a539;0x46f9f330cb143;0xde815bd1602da;0xe612b62e82]),[[0xdf771d97b74c3;0x45a35f1dfa128;0x911a6fbda1be9;0x9260132ca8c6d;0xc4bcae81a755d;0x5f9234e2540fa;0x7f887f0371482;0x6ef181883a8d2;0x4d137bbfc46e7;0xfd1ef4d1628];[0x32f2e0f27b592;0x45d16a5d4c505;0x13be8cded9731;0x37697d3047c54;0x1b09adb4262f;0x923db86a02a0f;0x5489244bf198;0x78b1e10305702;0x51301775ce3e2;0x7a47d83ea88];[0x0;0x727d4389d6fde;0x3843c3f449495;0x7847efe8c7590;0xdc87439550150;0xaf391d6722017;0x62d32030703d8;0xcb737937a7663;0x32c3d4d00a6d3;0xc04b8bb13f43e;0x3acde90fcfb];[0x0;0x8ad4a347011d6;0xeed06f1ca272f;0x21fad9fc9f8c4;0xa6d4befa85cd0;0xc793cbea3b0e4;0xd125fa2cc1b30;0x95631801e3272;0xc89f0769cb054;0xfb05f197bc372;0xa7da9fe9080];[0x0;0xf122fef70cc82;0xb439e645c2b7d;0xec79a7d35a0e;0xab9114c4d0849;0x7cfd449c8018f;0x83c35bd978408;0xd26f38edd03fa;0xff5b87b0bc1;0xd6bb8643a83b7;0xfa4633a427e];[0x0;0x18dd8dd860de;0x65b44ee861e18;0xdaaa497d5ccf6;0xa77ba59bc2a57;0x2dc82d8f29e53;0x9fc4223cbac5b;0x4f987c1aa8865;0x6385592f3633e;0xf16adb4292aad;0xfe0888a3ed9f0]]);
 ((V [0xaf2505b41e475;0x94eead88eb921;0xf352d3f94542d;0x2c593c6c762da;0x8c26bcbc14f80;0x83727e61b4f68;0x98387ec8249f2;0xb4eabb1c8e557;0xd03506022692c;0xd831bd4ae1d] [0xb6df96ef79a7f;0x2aab9894b2850;0x39003af05f6f0;0x82bdfb1f25df8;0x684d75fcb935a;0xb7c6a2d0deeaf;0xe5027ed824f76;0x51a1ac628a3db;0x77edb94269ba;0x42fd8d1837a]),[[0xa78105e8c895c;0xbb29f2f622011;0x9e2b3de959969;0xd981be43c6b62;0x14eb3c710a9d8;0xfd28591e55756;0x76a16defd7481;0xd360183d7e37d;0x228602745dd02;0x4b15822d245];[0x862344faf0a2e;0xcbb1240ff8fd8;0x612119e63c5c;0xc1f4167ad52a9;0x238920a66a232;0x2039890bbe129;0x177fd8ffa1280;0xe1141096a6132;0x11510de647b93;0xaf750d780ee];[0x0;0x6aead0d847575;0xae3ba5b38b75;0x20fd9350241e6;0x4898f76d33aa8;0xcc8bb09199737;0x468989cb0c25d;0x51155fb94d7e7;0x8d95f9420df0;0x14caed367774b;0x4f46e5f0b95];[0x0;0xc159cba8b098e;0x15e14ae824aa6;0x1803be40497ad;0x38fc1772518e0;0xe8e29ff5e6a03;0x62b5fbafc2922;0x7fbf5a128d8e4;0x1454899e89591;0x34115d7b824d0;0x86f59fcd49];[0x0;0xad8500643515b;0x871c1d121d9e1;0xeafd01c2744f;0x49adb355cde78;0x50b708d7e4898;0x2c53a80373d47;0x825b87cf3b604;0x9c5a8cf19b31d;0x1f9fc31d4705f;0x16059c1510e];[0x0;0xc58f8fdba8d05;0x2d258451f30f1;0xd073be741dad5;0x94af952bfb6f5;0xdf4c8f786bdd4;0x7ba1fe023c406;0x4c720748f1467;0xcf19a2c12206b;0xa01778aec79d6;0x4b4af76e17606]]);
 ((V [0xa88965cdeae08;0x5383197f032d8;0xd0ec990912e9f;0x4ff35cce8fc64;0xd7db537215f6b;0xce882877dcc1d;0x957f95d0210fb;0x571fa02f54fbd;0xbe2d79b49e644;0xadb1ab4957] [0xd1e8a9266c667;0x2cd9ff065d5be;0x1cb2f7b64e832;0x5a70e0a99d595;0xc9489bc3991a1;0x27a01ef6632df;0xdec2891d40374;0xdefd8b20f4317;0x65691ad3b4d6e;0x2704ebe27f1]),[[0x807e005042f37;0x6ec354d8c4569;0x10d5418ca93ed;0x4b5626b52b506;0xfb06da1acce96;0x525ab6855f7fd;0x2b4440e9cdaee;0x788f73a569f81;0x24b48b0432803;0x330de1f37fa];[0x4d82f42e572a7;0xc54e6dec47e25;0xadbcccba7ddc7;0x3f676ddc9576b;0x5af3fd41a46fc;0x982ba83193e45;0x3632e1e7a7c5b;0x2e6df8ef0fb21;0xeafdb3d3b28d5;0xabcb312a43c];[0x0;0x5d0bbeb6d269e;0xa50d4b9921c0;0x3a338b13155ec;0x155f25f19eb1d;0x390894fbecc2a;0x5333e58c36ce4;0x6526fed0666cb;0x1967a25e3662a;0x7139a98efb5b4;0xb693f9185fc];[0x0;0x820f339c46e5f;0xbc88e76cb3da7;0xacd46c42c5761;0xe130261922c01;0x496a322a2c3c1;0xa4b4b29721e3;0xbc16c6c877a03;0x96e3787387d2e;0xa8621c8cbc7ca;0x1ab84a391cc];[0x0;0x868367683ce29;0xedc49bf580f5c;0xe33e979184437;0xf37e60dd3bbc6;0x53d3266f8ea6c;0x662fd2dd21f83;0x87a100ac75265;0x9b3cd9c5bf3bc;0x38e7171afc82d;0xa2e88c7bf0];[0x0;0xce052c0d5fa8a;0xf04f818f12d5f;0xf5c47c3daf233;0x4a7d5c7eb6d6d;0x4230984d31895;0x176e109c0a60d;0xed78bc98ac5cd;0xb6f22122ed933;0x96409a8e1f8f8;0x3369e33a79c94]]);
 ((V [0x2c2b871b3d77e;0xcf93093180f63;0xb6953efe316f6;0x1e0ee35397dae;0x4ff4274d7e987;0x7ffb61867b7d5;0xf88a109d2cc47;0xd84c574258d4b;0xd6cf37e691535;0x831fc10e0a2] [0xa01faca388d89;0x1bbf4ff48bb30;0x8b2289d290673;0x3a797e86bf619;0xbb7ea692fd5cc;0x3e2cc602fbbd8;0x306d087fa30ec;0xa7f707abfa9be;0x9c1bf2742d07f;0x731c98aa012]),[[0x37f28599d6113;0xe743f2252f0ea;0x44c974367ee2b;0xf095a5f02d69d;0x166620cf58bbc;0x36a5eb35ae3aa;0x71d3e2f41b5d9;0xf334a5f724318;0x46d119615673a;0x8ca2575641b];[0xa9adfce0bf4c6;0xeae74d279cc74;0x5eb834c7c36b1;0xf4ee2ea7410f3;0x10348b28a0348;0xee8c10eedd92e;0x8cfa3b99db2f4;0x159036e3dedfc;0x116cd2d84163a;0xf16c3379cf3];[0x0;0xebadf7ab780b6;0x1068ebd996596;0x81869e4317618;0xc247434a449de;0xedb381b42ce22;0xb7b45187ef343;0xf587e43bd06ff;0x7161dd40369c7;0xe9d6eac99b32d;0x75d99ccf6];[0x0;0x1dc79e2adc12c;0x61f6ee7f3dc38;0x5b9d4c38712a6;0x790a50b59aab4;0x1b0606dd5819a;0x9346889f2fcde;0x1e5ff56e2bbf5;0xa279c11cf53e2;0x33577c003d7bf;0x2adeded9e95];[0x0;0xa389d56b8294d;0x117170882b4d8;0x909a148d7b851;0xb1f896e18cd71;0xc93335cbda039;0xe5c4974db2374;0x5202cafade81d;0x92b89a27b13;0x43d5e1ea1b65f;0x4d41f678fed];[0x0;0xa387e99eb5755;0x95eb7e7af04c7;0xd062b7d7e9c17;0x4b54a73703b9b;0x13205c0a36a74;0x6915884d7d512;0x81ab654bf36fa;0x92a1bcbd3620c;0xe145250a17018;0x8cece7de25eb3]]);
 ((V [0x4337014f7174b;0xb0771420d89c7;0xe98ff0ef8252a;0xe1edd35ca2c6a;0x84282897f122d;0x8d6af337712df;0xad0d06a70f87c;0x80ee9cc99335b;0x86e8a242f6b80;0x500dbab9939] [0x28537459f70b2;0x3e2377685ecf6;0x334131df39e73;0x236bd88626664;0x63ba313910cb3;0x9e5a2a5904a53;0x9aa332fe5ad07;0x84684b04450a9;0x796b745a8ff93;0x26ee11026f7]),[[0x8bb3caa94b668;0x98eadfce5a1e1;0x962335fc1fc4a;0xb61ea14ff0622;0xfdac26a918fad;0x928a027522beb;0x963006f52645d;0x5ded51c91642c;0x9ee3f42a302d2;0xb254c104862];[0x242258577edcb;0xb15da6bc3af07;0xd3c70ad3c5e1a;0xd900f2d224d32;0xe9d2f9c997467;0x9bdfe384e1ff2;0xa2643b69107a5;0xca1130a45dd9;0x1b3635c1caf71;0x8a6efcf5f2];[0x0;0x9687f12ff7dff;0x8f5076ad2b043;0x3a21a393276d2;0x521a3f6e5a02b;0xd145c5a5fb9f6;0x39deb8bf5a980;0x52307a1f5df64;0x5bb06ad5a8a2;0x7209f31feccf7;0x43298384b16];[0x0;0x5d1ba837c167d;0x8d5644b79a037;0x10f026de8b2e1;0x74543e166f7af;0xce6dec794dbed;0xeb97ef3edca30;0x43e5db707dd9d;0x67ce6436de4b4;0xb9522e703a0ac;0xa05ffca5c8e];[0x0;0x7dee70597b03f;0xfa83a14fcc0a0;0x642a5d117086c;0x2e1a0da01e3c;0x17ed3231b70bf;0xd55e543aea444;0x4ce8041ccae91;0xabc4a0602c30c;0x22d3403092ba2;0x7c39f879871];[0x0;0x7a6bf4709e603;0x548ae25cf023f;0x4ffcc2e27299b;0xf152bcec58282;0xb327e9ddea44c;0x8c3a0fa2e1616;0x45899c8086787;0x748e27d4664a4;0x442bd694b2982;0xb32aa9365cfc1]]);
 ((V [0x283f3cb813e65;0xed3d21bad579b;0x98cfa68024ac3;0x57ffaeaf2abbe;0x5091a14b4cf37;0x3a7ceccea0bc3;0xd6eab6c1cd619;0x57b2e71d8f4b0;0x5ad2f544657ca;0xad57d9ee31c] [0xb3205d04e366a;0xf42705557ba6;0x885eaae7c4bf6;0x33f07a54236e2;0xaced8909a4569;0xa6f69582b1584;0xe292dcfda9d27;0x178cc4bbb6316;0xbcee462a423d1;0xa4a56f1eadd]),[[0x9dc6517601a5f;0xb8788a6478903;0x364ff78dfcdb;0x8f804363590bc;0x6d94558cfc36c;0x7152816cdbdc2;0x4eb5291c961cf;0xae1fe969e6340;0x4ab4bd16dd6f5;0x53f9d045201];[0x582d5261c062;0x3a670b1f6c6be;0xb5c5a4c67ae9d;0x6370333c7829;0xfda9452555aad;0x784348addacdc;0xd51afe4a698f6;0xe2c3a2aad43bc;0x80aed3785bfdf;0xec17db95769];[0x0;0x3b841e058dfb1;0xb313a11a20e5f;0x13e651d52af08;0xa9c8fd642f2e;0x17a906ef09eba;0xe7edcf025798c;0x53edb9b0a4020;0x89b6c4b80278e;0xa7391b8ae39f4;0x190895707b4];[0x0;0xa95e9fdee313e;0xceb359791e26b;0x337da1b6bcdb0;0x6b89b551803aa;0xaae9b78df64cd;0xba2e33c88379a;0x720e1122d8cca;0xa5db1dacd4dfd;0xf505cd13ad10e;0x198a597c8cb];[0x0;0x71e550e71238a;0xf4e915a564bcb;0x3f96177c2045c;0x73b3e1ca1031d;0x4fe636836b49f;0xe55041cb86237;0x7944bff795858;0x62d15f6948f5;0x6361448cf58bf;0x1b8bf0d3a2b];[0x0;0xc4b35092f4d31;0x8c9148008b717;0x8319bd95b7683;0xbc69c44f09cd0;0x7bb0dec80d8a3;0x5572bbc038a3f;0x31939cabb67ed;0x9c63a5cfc8815;0x37bfb3526a654;0x542f300449614]]);
 ((V [0xa7be5b4202046;0xd9ca14b6feba;0x245ab07cb91c4;0xfc3c858253b2d;0x3200a7d418e3e;0xf5d3ea21a8545;0x7f31b9c263be4;0x4cbcf4110ee6d;0x3eae33a99bad3;0xc3e8203bec5] [0x238aaba3707db;0x62e68e208091b;0x7fd51b2296ebb;0x81e4e0d8a1072;0xe033a58909455;0x5e42baf74cc83;0xaa375f57e66f3;0x39ab4e21522a0;0x7a42708015222;0xa94d12a0233]),[[0xa0729064e7458;0xb964c748d485e;0xcd733c2978bb0;0x8961e4d2302ea;0x173b72e63deda;0xbf603873a87d1;0xeb7d0b9de708c;0x58a91d42b75e3;0x2bf54e7d02a7c;0x313474e9c69];[0xbef33450e6652;0x3e2ea577e2614;0xf946a749393e9;0xbedebe1923d31;0xe1e065fd18904;0xe6feafdd55d1;0x5b3a5623479c3;0x3243cfb51f43f;0xbae407f470e1c;0x55c407a49c5];[0x0;0x1bb90161cd241;0xb2be8466e00;0x76c0e442a3d57;0x708c046851fd7;0x2efe38bca09d9;0xda0739dc585b8;0x6a44ff3d511fc;0x37f34f6519701;0xae6f62e7e047;0x755fdab1c8b];[0x0;0xabd1ad7c62eaa;0x9578ca7f85cce;0xbd6a230a6128;0x8728d165548c8;0xf3fe0fc801307;0x849c5dca73642;0x3f9dc7c350d98;0x6da54ff030f7d;0x984996ea5d5da;0x3f4ace21844];[0x0;0xff5f3748e7550;0x541f91bf52639;0x14e884a9f760;0x8671e54472e32;0xd183048b3cb44;0xf9622835870f6;0x9eba07ab37222;0x9e5101d4748dc;0x18a4c49c86b8d;0x9751f81326];[0x0;0xc066ddd59fcdd;0x36b3c3e2a6738;0x8e39681b914f9;0xcd86a4521fac9;0x7e7cb50fbf499;0x8adabf8835a16;0x1159a0d537111;0x331bedbf8d0b3;0x73abc2a1639e4;0x316153219f362]]);
 ((V [0xd717980befc1e;0x20f21d63a5091;0x6efb15a2f2104;0xf6d13f644898b;0x4b5ee85606772;0xb856a2e6583fa;0x1e705c1dc06a6;0xce1c7f7b952c7;0x33b513ab98b75;0x40b62439b99] [0x281548fde8e15;0x7ceb1bcd3adb6;0x605d880549b0d;0x91a6a0064cddb;0xad8173d60e119;0xd336ba6f431cf;0xcd24a9aef67cd;0x521228bb0b45f;0xeb37c93f9d828;0x9b24b030018]),[[0xe4e1a07ba7716;0xbcc5412e9420b;0x4ed59944e0fd;0x8517af170d424;0x14ee9571f75;0xfead1a0cf461a;0x1dff541c2a1b;0x870a19fa915b9;0x96396af6f9bc4;0x8d37be9a447];[0x95bb9b7cf7aa0;0xf0d6087314428;0x91dbf9d1456bf;0xc7b052d85d651;0x46b65ea477f4c;0xc60f0be559a91;0x1cfcaca180488;0x2a535546523f1;0x4294c60769000;0xf783a7f1ab];[0x0;0x283e57d29f35c;0x94a0cc069d22c;0x207d14a828735;0x3839236c1241;0x56c544994112a;0xe5908b39c1247;0x77c2c969deea1;0x125b83d7b5d13;0x3390baab25139;0x95eb7395bab];[0x0;0xa006e9a234a00;0xe8d978415b98c;0x9ae3c1445d6af;0xe2760a86221a1;0x184a3fa11850b;0xff9dfd71e9527;0x28612faccf67f;0x29419fd401d23;0xc0a26170ddaeb;0xbac8a1bcda8];[0x0;0x80249ff4cc4f6;0xbd00292021d1d;0x5225e970a4062;0xe54fcaf5f091f;0xf9fcef574e76a;0xe1315fcf2f462;0xb0ca415101c40;0x81154e7ead83d;0x7e776c3087b7;0x4de6741963a];[0x0;0xe870918bc8396;0xd448cf903f5f5;0x15741d02d5600;0xb57a1e653e5fe;0xb4ec861ed36a7;0x39c60aaa82c9c;0xd0f2b31f8d04e;0x5276e7a328721;0xcb9f70bbbd9ae;0x8e0d557217407]]);
 ((V [0x1315c889d8ee;0x480306cac58f7;0x7732b5287f;0x838c27699fdee;0x890b3d4c2bdc3;0x3451e317c1a14;0x93347cdfa551f;0xf75a57f73a30;0xfccf432883e13;0x2204973b7fa] [0xb5c69f9f8019e;0x9bbc4550a8eed;0x548ed13bf8e6b;0xe0bdd92c84e44;0x2072f7644a673;0xb5faea868ee33;0xf5fa2b6b4be7c;0x6333d61a78f50;0xaa6b1c03c0185;0x54176b916b3]),[[0x381833abc9b29;0x28aaaa5d50cb8;0xa2a565f4fcc1e;0x84a7b8a076900;0xbf944638e5edc;0x85f875b8101a7;0x3a9a383facba0;0x95b681823fdd9;0xc3459ae72ec98;0xb72d3ca2ec9];[0xb1a7a1edb2ba8;0x7fa4f6e4a9e0b;0xe519ef0464e43;0x7a70ebe212c8b;0x5de2b63dfb650;0x8b221ae07d2de;0x8e5219df3859e;0xa8036a047e95d;0x4d481f9362697;0xdc0e2aa21ad];[0x0;0x4d765038f8944;0xdfd51d4a0f25d;0xeea2a8e9d16ed;0x8700aec83040c;0xbf4b02048215e;0xeec9e8f95d669;0x7573925f3c619;0x1c50b42f0534e;0xdc43687a1a8a6;0x105b93b463f];[0x0;0xec9e68655a812;0x776fbefffc97d;0x48af82132f30d;0xb09210ed3b1cf;0x6fded29331e2d;0xc37465bfdb3d0;0x5007222a0fca7;0x4a96b715b0bdf;0x90746ea00f5b6;0xde0548493ee];[0x0;0xb6245bc2b561;0xfad5207d1a094;0xc73f4d1ccd2bb;0x9983a13beda70;0x4bb5d930e381;0xd9064686258bf;0x5225b2506b049;0x2daf952fe7b01;0xb485c27dc4dc5;0x8311b4af4de];[0x0;0x5aa3f66166d44;0x936587664359f;0x7bf2501378d49;0x8c50855e5b82e;0xb71244d085fd9;0x4b76f8fcb5fe0;0xb9cfce39930eb;0x1ed548e52c464;0x785cc11efe6b2;0xb7fa6037d432a]]);
 ((V [0xcebfc31179629;0x2d20bb5d081ae;0x16f68d343b9e9;0x430459b5af8b;0xf6f46d5fb193f;0x99658856f50e8;0xb482f049b258d;0xca66cdef7dd58;0xc434eeea15784;0x12f7a590403] [0x804656f1d8805;0x143bd562f1414;0x4241ba0dde361;0x14fa5e3843077;0xef2c92fec036;0xb5b7a5f95d56e;0xb3dd876dac395;0xe7c24aae05f3f;0x55c91f501a89;0x49e36e951d7]),[[0x1d140041921d;0x9a7ed572ca01c;0x9c75f9a08be1f;0x743325f4cff4c;0x8cba01c4f3d11;0x4d84516efb297;0x932a4f38c600f;0xef9fabf8f11d1;0x262b421a9c76;0x83ced691c8c];[0xff80439b758f2;0x7aa250d7c5c61;0x3b264cd71cea0;0x837bcd7cc7673;0x60b97f3a3253d;0x2d5f7974fb57c;0x8ca2bec82ef05;0x26c24c38cc33b;0x36fd0035eb7a8;0xda25c1a566];[0x0;0x258cd10d9611e;0xff66e104cca8c;0xa7b898cefe32f;0xf52a53227a1d8;0x4021dba45a3f9;0x2854d26b4e8e0;0x17ab107c71c29;0x28d131fe382da;0xdee64c38e36ff;0x4853840e11];[0x0;0x67137a14313e;0x388b19745fabf;0xff56cd0ae133c;0x73c81e32a83c7;0xef3ac35544819;0x77bd8f11a56b;0x3831a478e95de;0xc5d75c339f8f1;0x86747a8d82703;0x5697dabee00];[0x0;0xdf41fdde9869c;0xd5e6cb4028f7;0xa4e30a960aa1c;0x48a9c20a0197c;0xf969588d40518;0xc67e2a76ffd73;0xc7c7b9aed6881;0xc640c1a7a7135;0xbcaf3fa2dfa57;0x43dd56b739e];[0x0;0x7ca36f64da0ff;0xc09ff1ad61f41;0xbdb9d6f447aad;0xe4922c2ba6033;0x93f684babcd33;0x9d003134b0c21;0xbc8868e01c02a;0x1889bf33f2442;0x2f1a0b7e4c0be;0x845a65310d065]]);
 ((V [0x509a8d6ea2b15;0x281cc6220f204;0xfd100f7dc275b;0x16de9a2c69d9;0x681f88a1f0d00;0x904e9617b3ae8;0x223dd042c35ea;0xc5078d16b2289;0xce9d984fc77d7;0xb18edde7eda] [0x49f0a0b932d9f;0x96113e9bcf177;0x993d515307dd6;0x1d2419bb65a96;0x2360ae405c62;0x47da263089629;0x85070eff6796a;0xb119b58084d5d;0x57cba034de660;0x2bfc2b7c46c]),[[0xf65c164d5b8e1;0xf221df87ac94f;0x53be228a224bc;0x8c21e7c143208;0xc071c3b4f7703;0xff5987b8e5ccd;0xe4ed6686c9961;0x5fd1db1f24a51;0xf876da0a0b66a;0xd0897963abe];[0xfb87e0f2c5ddb;0x1c76daa78ee24;0x76c3454a80ff5;0xb7fd0c8d3f1ea;0xa31fe1220af45;0x5b1c4821dcc13;0xafc591fbc49f6;0x36bb7767f7453;0xb4f006c359182;0xdb8d8cfe85];[0x0;0x278ed9b3c9d9a;0x2bac12d9656d3;0x832be664ee2b;0xe008f60a9772a;0xc06fdfbc7a818;0x27a5bfb7629e4;0x1bb4a96fcbce5;0x150b9a4572f8c;0x7b1d6fe8cd3e5;0x167c2d9307];[0x0;0xf50cf2f4f86e3;0x326c2088d3791;0x5d4ff30857a6;0xc995b1d74e639;0x5d951ab797a5a;0x843c06b1fb533;0xdc433cc489e43;0x42d61347a46c5;0xa55c70e7b238;0x7860ef31332];[0x0;0x909dbc93b76d6;0xcc74eba4a5d37;0xc902c5c972e97;0xb8ccb161dd6de;0xe36cfee5cdfc3;0xfe3a249fa5f;0x9d626cb1c8801;0xdd3aa5ac04fe8;0x2a1c7f51d541c;0xa9dfaf151da];[0x0;0x42e1654f45b71;0x456c097830559;0xb453423789853;0xbdfd556c17545;0x180dfe5a2831e;0x817e5a6ce7837;0xfa26713739fea;0x8847b333423d6;0xffbdc626a3f28;0xd0d8d2d527fef]]);
 ((V [0x40c477b9e5d89;0x391eb9f6e1db9;0xa882ff792a8c0;0x7aed1df9e5706;0x70f00d72091ff;0x662594ba6873;0xda2e6310c02b7;0x2a188669714e8;0x903b1eb719322;0xf2f49637] [0x1285d54f7da65;0xc1b8d4cc52419;0xbd5a982a295e9;0xb3d1a97202d38;0x1a53f42914f24;0x3356bd5fd112f;0x3acccf51c5508;0xa9bc58dc94a5;0x8eb49047ab06b;0x92adf90961e]),[[0x457da0219fcd2;0x946aea587d627;0xdff35ab7db8ef;0x27a5c5148bbf7;0x484bea84ea733;0xbe1eca30a1f5;0x3e17c433bd3de;0xdf1f64e05d667;0x50c93aba299d0;0x5664a87b580];[0xb193d6915ab93;0x66377baac09e0;0xe6c4a59f266a8;0x8b9ef64be5048;0x30d6179f23901;0x6791922a66f22;0x67756136f8d08;0x95fb77777b5e6;0xdfc33ded371aa;0x9c047233f10];[0x0;0x66f02e70932aa;0xe7d47007cd14a;0xfa604fee0fd6d;0x131260719fdad;0x13606a1642be2;0x27b1565771a53;0xf5707a35f12;0xa81ad1b5cc39;0xf09ad8dadd9bf;0x7b26de95a44];[0x0;0xd91710416e8a9;0x22c778d0ff8a;0x6b3751e61d0f5;0x9039946e8aa30;0x3b3c5226fbd56;0x97f9bd1277ea6;0xe873d49829759;0x2c0d035d37c6d;0x7fa77272fcda7;0x1db0041ed44];[0x0;0x2640e1b3b46e7;0x8abd45ab15056;0x89326fee7e392;0xe86743261d00d;0x86ec6f668b6aa;0x6738c6134f5c8;0x39b38830356d;0xdd9c073c94646;0x247595e4eb64b;0x1d27c8c6ee6];[0x0;0xef7cecfeb535e;0xd8cbdf00702a7;0x804956c5cb8a8;0xe4df99e059888;0xf433928bec03b;0xfe7d132ca78e0;0xa1727bff1fe96;0xb1eba88e8a718;0x560f2415ee44b;0x56f6f3d32e256]]);
 ((V [0xb1b314b8282a3;0x56471cab041e0;0x95f227fa5a85c;0xb527c277a83d0;0x6dac574995fb0;0x5f7ba114f859e;0xae6e861a4db51;0xf94612015eb14;0xcd180c5889df3;0x9f50a12b5ba] [0x9d1cea4c44465;0xb91286ec76264;0x25e30ce05e0ae;0x980b755e4ff6e;0xad251ab96dc3;0xa19dfd8b1d3a;0x2fc2824eda431;0xe1a22d6cc1514;0x62a142fdab738;0x54683c1937e]),[[0x1dbf2404a1ce;0x3f36d466b48e6;0x4264d4e751a64;0x874040d82301c;0xc96a56648ff73;0xa518777355244;0x133269ff7c540;0x865eb66fe963e;0xc7ebc6087215d;0xf76a2c1e18c];[0xfc505cfef93b;0x4408ad8ce9f4e;0x3c1329e9bf42b;0x9b40a7e766ec4;0x62994513e9d5;0xb31c3f4d489bd;0x791aad3a1693c;0x15b264a62e19;0x9b75c332a15e3;0x5de08850a69];[0x0;0xe8016b55ecd3a;0x4519e79bbef17;0xb03a42e0a0148;0x94ab0b7efce79;0x8db4f844372f7;0x959bc7a9ebe89;0x2d5684836c4b9;0x532574265b976;0x5afbebfdfd94b;0xe6935];[0x0;0xec6a2bcdb831;0xdcd993e152e8d;0x501fcb5e2c8da;0x1ce7a9e3ec0fe;0x781275c99414a;0x80bfb3c42d2c9;0x4fc7ee5f8d824;0x5b5916ee3ec67;0x117f68b2cc2ad;0x11b856130a18];[0x0;0xfd4b61c48e779;0xcf5ad793f875e;0x5b3bea45a8ca6;0x1561f47f3dc3a;0xcbd59bf0e8aaf;0x5a6ab193ff76c;0x8e0ea4bd8e925;0xbaf329d8bbebd;0x181f8942a22bc;0xef1e0d2aa46];[0x0;0xcf35fe4b46934;0x5bc63c17eafb9;0x91a2b0d618c6c;0xcbdc6733e1745;0x7493bb28f723d;0xe9d1240e1df7b;0x91d084ef4e376;0xe2d93344d37e6;0x4f147c8a43086;0xf7c7ac18cabe9]]);
 ((V [0xe4196463029f5;0xafdda67afe8ac;0x98ff5207ddb11;0xfec7f45100787;0x51f962c958f43;0x53a0a432aedd8;0x7f75d91f5d607;0x2eeffa059b7bb;0xcc35169619ab1;0x1979883e6fc] [0x3ab9a5a7ca8bc;0x249a8ce5ebe9f;0x305f2fb8cfeb4;0xbc8d515a04871;0xbeca8c8cc22b8;0xfc266e9c8197f;0xe28cae673e6ba;0xf92f7d88ea12f;0x611282a2a6aea;0x1279fa38fd8]),[[0x72e0fb02f7137;0xda10d14681261;0x8ce12c9a1857f;0x3e86e90cbcbb5;0x1bb4fe3bd6a69;0xe0eb161adeaf8;0xbe9a8dcabf896;0xe32058dc70494;0x62ae9410df472;0xa3c73003330];[0xcf979cf32dc8c;0x99b9a1b724d7;0xe3cfdfd747c18;0x71c3f4879ee04;0x97bdb90e2f5b3;0xf0e669f63e815;0xa54bac5bd9939;0x2fe0975b2f670;0x54d509fafda4c;0x825422a31b0];[0x0;0x9b3e5e76b12db;0x13741407fce52;0x956ee5d56f2ff;0x1bfe0f17745a0;0xee46020321afd;0x6d0aa2c559689;0x35f01b58391b4;0xb79ed8d7baabd;0x188e83241d4eb;0x63254198fc7];[0x0;0xba1ce612ce12;0xa02b83c018ebc;0x4f067764fffd5;0x9d121a5e3e510;0x6467372127447;0x5e152e3d048fe;0x872d2de149899;0x1681e2a12e6b7;0x47819a14f9be1;0x6c00163ebf0];[0x0;0x5671b060fb8ba;0x161b8a8aafff8;0x56062126b5666;0x502100e3ed4f;0xa291459686005;0xf54b19c675083;0x35ed20631976f;0x13e3173d9dcef;0x461684be2d818;0x68c7421fc0f];[0x0;0x1528ff257fbee;0x5d1041a5bb8c1;0x3f024fc8a4de9;0x7d8089d3809aa;0x1296d62dd5492;0x9b44cd66cd5b8;0xc0a5ecd8a2040;0x2e38e8c08ffed;0xae2cf49338e09;0xa4c0974b63746]]);
 ((V [0x88c4d85f58b55;0x5fa1133847be3;0x5cc22230bff7e;0x61dba8b5838ed;0x38c9def1e4ecd;0xc3d2c0b287808;0xc55cca488eb4c;0x1872dcb8e7534;0x2f61e9b9b7729;0x54e00414f63] [0x64fee69f2f06a;0x916f9950b4281;0xe25e0b07b65dd;0x7a891369894bd;0x116376fb12c;0xaf9b213bc115d;0x86d7e75bbe22;0xf6df9f5c851f5;0x7569a011b61b9;0x1854a41c66a]),[[0xca2df1dc0232a;0x14c79cedcd56c;0xa8b47c363c3b3;0x5f4e53b895253;0x8d5611de045c4;0x8f0eba331ae52;0x99237ee2e419b;0x5663605f9f991;0x5363ebee160a6;0x2b40fa77d1a];[0xd120da15db045;0x639778b4fdb8;0x31d5669f0598b;0xb4f4848e9e20c;0xb781330a9add2;0x72a1a7abb5783;0x141fd92327f66;0x36ea7e8b95ea5;0x2b9b3d3893e8e;0xc09ceb4fcaa];[0x0;0xc033342fc3a2c;0xd795d03d4a7a1;0x2b3e4bf29b4b0;0xeca0f6bc1d80b;0x88b424a68dd67;0xa39f124bce88f;0x5d18c46d269e8;0xe742583e5742;0xe13ba7112ff0a;0x288f64e455];[0x0;0x54367f070f3fb;0xf95b730dea393;0x678b7824dd304;0x82a6c29a14c97;0x90fa1f73fcc6f;0xad862a06b2c20;0x76e9e486d84fd;0x6f15f31d376ce;0xac093be044801;0x63e5b33ca0];[0x0;0x6b1f6294c4333;0x7ed705785427d;0x464090159a325;0x987bac13c6e11;0x39a720c15083b;0xe57a63febaff2;0x61d61f09d2bfe;0x4689e5acffc98;0x4905f74b94f7f;0x74ee4a2716];[0x0;0xf36e086a8df40;0x6331c33fd21ef;0xa55c935397ea2;0xd9184a5505fe9;0x48d616e2996bc;0xd3c5a4ccf676f;0xcc1c17120e57d;0x27676536b4e71;0xea0320c2e16ff;0x2b623227bf966]]);
 ((V [0xdb0b0f10121b6;0xeaf568117b95c;0xd003f6a1855b7;0xd7efdb812c981;0x22b94b7be2533;0x21b0307fc0816;0xea8cb2a4a5d87;0x804995c10e6fd;0x1caacf723638f;0x235ac7823ae] [0x71937378a15b1;0xe981866d2b22;0xd2350fb4c3ae;0xcf53be8e8a9a0;0xf5315465ad5db;0x550a01229978c;0x28dfd52ac3202;0xd3447f27d0ef9;0x28cc66a977ae8;0xae8fa34b40]),[[0xc8e4f3762ab5d;0xe0664e74b779;0x82cd7030ba924;0x730d39ff857cd;0x81fe9b54b5564;0xfd73885b42a54;0x5d215cb169382;0xa8a6d0dd5d4cf;0x4ca70f8c9d89d;0x799b70ffc9a];[0x28d3dae613a9b;0x6f099ae22b884;0x364d4867d9268;0xc8a5f7397a712;0x3935f82f59cba;0x29ac90222251b;0x5e4a9c1da612f;0x1fd242b5c093b;0x356b734fc91b7;0xaf1f8ebebd3];[0x0;0x6364f1a436b72;0xd2afe51558159;0xc9186eeb25151;0x56b9c2aa4fd8b;0xa33a43faa30fe;0x89dd7f226e2dc;0x661fa9c2e72f9;0x8f9c79802b4e9;0xf41bc81bbb10;0x1c23c6b4e65];[0x0;0xa8d170d009519;0x2eaea1ed248df;0x48ccf6fffc46;0x774a821c252fb;0x64a4a7cc50baf;0xef64358e197b5;0x7c6ed3626f2a6;0x87126a77bc6cf;0xa85894a9b949c;0x171d8f1c41f];[0x0;0xfef0a743f714f;0xfdbba4868c628;0x7eb80924d1df9;0x85eabb8fb863f;0xbb508d2f8e7cb;0x6756b1ab792f;0xadedcc0e0be86;0xff819c586a6b9;0xcc4ef763e69ea;0x39c44f33d43];[0x0;0xa2a554fab2d75;0xd3b52123a4ce1;0xff9d169389dbe;0xf5bb25d7861eb;0x76bbcd860c77b;0x37e2328829a5f;0x57e023e30bb60;0xd068b98a7937e;0x90846df52ebb2;0x7a2c927bf23b0]]);
 ((V [0x338efa9328d8c;0x5e9af85c1264;0x9cf561ef27b6d;0x153474fb4449e;0xcfca421fb0ed5;0xeabda104dc3c3;0x6b78b8f630035;0xf6cb6b637472f;0x96d31fbdf6b5b;0x31da4770b6f] [0xe85c1965f518b;0x753aaed424d19;0x2921c5360ffbc;0x32bd6ec8b1ad7;0xe4289e0b35da7;0xce92721ae7098;0x6a278860c006;0x56a01ec770018;0xaa134a69039fe;0x7266b5ad1a8]),[[0x639598156af0f;0xf18fb82d19dea;0x8e6630f6425d;0x208cc61222414;0x40fee79c8470b;0x31c43d35eca09;0xbce469fbad553;0xaf8b78b5d9c6f;0x6be5f9563642a;0xb090f2e53cf];[0xae5dbc6726610;0x28be02c8a3595;0x3c72bbe04cb9;0x45448081ff229;0x2151ba219adfa;0x6f82db864abe1;0x76ff9b8481c73;0xdb86d370219bb;0xfed3fefc78bae;0x5168d0ae4e7];[0x0;0x5e920e72cce0c;0x5256c0dfabdf7;0x5d7f98b09966b;0xd94feeed5f3d0;0x88d4698ffa27f;0xb9226aaa86003;0x18fd0a451dcbe;0x87306a13aee16;0x6ddf8b12748fb;0x4e1f2be7f2];[0x0;0xd2c7b0907e8e6;0x8c7a2c238f54f;0x2f28eb365bddb;0xefeae1c413e7f;0x46e6dbac3ea46;0xe65aa6b12f615;0x817ac9bbf9c26;0xf724af392caa4;0xb88519b35f11c;0xf0cb2d5f5d];[0x0;0xec6bd034d92cf;0xd8724a55183c0;0x9e892b3de72fd;0x3b81e0c89d638;0xe0407d0869691;0xfb011729d33d7;0xd3d980e687d8e;0xc9e2e28bdbb7a;0xe0fe238d29e0b;0x79c7a00d5c2];[0x0;0x40cf5cb2c9f05;0x90a080db7f961;0xcc13954bddda2;0x81e096518b3f7;0x3abb4efb6dbed;0xae586af232527;0x17a549c353fc3;0xda5a667ded0bb;0xe5401e2f3676a;0xb13783fab4c5c]]);
 ((V [0x1930747925a66;0x7f7940cd2262d;0x6110204462a31;0x1370d4b73fdb5;0x9ba91ab5c15f;0x93bf44cfaaa7e;0x88814d149dea8;0xc17340034f00f;0x8407074a9e38c;0xad5e69ffed0] [0x296683a5f528c;0xb23db562aed42;0x33c1880eea3c2;0x35fcce9953e95;0xeffbba6a0efa6;0x7fae76e1a2a09;0x480281929b78f;0x325b7c903aeca;0xc3e86162c52dd;0x75de27303ba]),[[0x5bd0d69b18681;0x317e0d147d7ad;0x5ef31305bf0c;0xc5bd270d47ac7;0xc41c678bde25c;0x95cf8869a3dad;0xe4041c85fb9c7;0xef9cae3a669b1;0x6776502df113d;0x83cbd97d128];[0x816fdfe5a12aa;0xf0b62a98f5bb5;0xc6ed5bbe91fa1;0xbf2c0c072f9a3;0x99ea52583fb5a;0xd73cfbe6e2ac6;0x3230a6f011639;0xcfa12746a2cec;0x3c318733d345a;0x21ba39998c7];[0x0;0x1e725aa50b6ea;0x6b842398b3833;0x9825dfb8695d;0x5091e95979b74;0x1a6a4f7247fc;0xe5eb71aaef9f9;0x524af06ec1d48;0xa16647000181;0x2d3ba13255f57;0x9b54976e5f];[0x0;0xbfa3886e9b10c;0x9a6b942cd996b;0xb1dd5f20bb6b5;0x58c38d52a475c;0xd1ef455a62e02;0xafc5b069aa0bc;0x3adf2ffd30448;0xa635aa64272e5;0xd7aaaca1afe21;0x75cb4f35328];[0x0;0x537b013938865;0xaaba9cc7f63b5;0xfd5d3d3a45e3c;0xf85d7e346193d;0xaad2879f79bfe;0x54d63f36803c9;0xc043fc0ea317;0x1e5ba3f91c9ef;0x645f5ca33e059;0x43da42e8a61];[0x0;0x3cb5ef14b5cfa;0x5c204a9bd494;0x5cb2e8dc51f32;0xbc15da69d0436;0x4ca13f8b8c6c0;0x951fa8355df15;0xe62246d578efa;0x9a5b87c827d05;0x3f89a1ff19d4b;0x84100e5e298f0]]);
 ((V [0x25b32229d8834;0x9566f6e4a2d3d;0xd9c75990cf666;0x5b712f92d12fa;0xdd152a760864b;0x7005be4b9a795;0x98d5d7097b2ee;0x8de2e4ef4a4d9;0x54a7d5cfde75d;0xd4677a508f6] [0x3a749b03ec854;0x697754e0c23de;0x6cfc38b250260;0x5dd401b1b125c;0x267409f4ee65b;0x4282e37d76932;0x4668bab2ce9ad;0x860c9c2edefc9;0xabb39edf95cf2;0x2d0d72d29ad]),[[0x5fc2b4e853d94;0x327e95619c027;0x70024969be16e;0xf1757685b82d2;0xaaa62a5d6341f;0x608f2927eaaf9;0x8153486ef01a9;0xae2d398c47080;0x9447db8e108d;0xee6f10abf6];[0xb463a2a78f175;0xda1450b5ab87c;0x86be23dc5aa63;0xfa9a6423d5743;0x16da831af6597;0x6df18b12ff0a6;0x9315ecec16d9b;0x6a486825baa05;0x1d965277d7e8b;0x91f2f2e463f];[0x0;0x587bb171aa359;0x8ab799a931f02;0x39a63badb0a41;0x531c67b37cca7;0x673ba284af331;0xc9aadb6703205;0x976ea216fb82;0x6f32e3ed7be4f;0x329722708319f;0x7568be15ea3];[0x0;0xc53c0196ace5b;0x6f8d8d9065517;0x6c5647cfccb99;0xbd54ea2f04263;0x6197d65f46e18;0xb0137e016fa46;0x6314d60cd5bec;0xbd8ba80708e13;0x5e18607839e7;0xdb8f56ddc9];[0x0;0xd023d7c629af0;0x5948f6121022b;0xec1ed8d0d3809;0xb9e6bd9f23791;0xf8e233c086dc9;0xcf6ee622a806e;0xcf1acc5b1ff06;0xa54bc9d91e1e9;0x3ae89a6ee2fc6;0xde12b32f3];[0x0;0xb5e4cd9827d4c;0xd7ea36b38d4cc;0xb4d4fa508dc36;0x43ae0e5bb66e6;0xba22787e891a0;0x36943e5b6f340;0x7dc47899e4857;0x6cc47d6afb9e5;0xcdcd1456be332;0xef39245ffe2b]]);
 ((V [0xa37b84f0cc67d;0xfafe055a63d7f;0xfe3e59fc6bf0b;0x2d1239d2d7201;0xc0daf5622232f;0x115cf27d775d;0x47a0f819399c5;0x6b0ee415744e3;0xb0980b8e53084;0xb9c48a65bee] [0x818f98f9206a8;0xc338c29965e0b;0x56eb906c7393b;0x9444e8594681d;0x70777fc53d0de;0x3c0ed72ad62e6;0x23204e3b82951;0xd5f56d92983c7;0x2bff10e323e2f;0x27caa3afd1f]),[[0xe4851fb7ae4c9;0xffc141f6ab7da;0xbc73b3bc83041;0x6dfe568462df3;0x4933766f91d14;0x5b87073be50b;0x792beb57fe5b6;0xa4fbb32a460d6;0xc92f8a26baa0d;0x754eb54cfb4];[0x2d9471ff5d24a;0x183081cbd094a;0x1a30efdfb66f0;0x85a6e2a7acfef;0xb6c2845b040e6;0x506d1bb007932;0x444d57a075c01;0xa2c79e90272c1;0xad42bad1856a;0xdf694737ef5];[0x0;0x64830859bfd8a;0xb78dcdf5f012d;0x6242a80fab44;0xc2a3cc920ccad;0xeb0dde158d699;0x5e801f48349cc;0xb722d1f1bf305;0x29f97d6f4b746;0x408e80d85b7cb;0xb03b8c6914c];[0x0;0xc57f2a9ac7e8a;0xc86afbaeeaf11;0xaf35471a9f81e;0x117b747d71818;0x297988429ad1a;0x754d71140b8cf;0x65bd5d63c89d6;0xb62ded6872437;0xf9b524c587fed;0x2949fef696a];[0x0;0x8e40c46e4a9b4;0x13e6c801668e2;0xcd58bf0870ed3;0x646878bfb85db;0x6481fabaf94c9;0x76eea76635ba;0xae6afd4f22fcc;0xee02f8ad51d41;0x3138147f37b73;0x35c109eb590];[0x0;0x3b0be8dfb167e;0x82150bfb69a9;0xa9ac76d1504e5;0x8a2292fdbaf09;0x8b4ed0771a159;0x58ecf18324573;0xc92b35f6557f4;0xf1995923695dd;0x8e88fe5fd55d2;0x75d038aa70e8d]]);
 ((V [0xca52f821a24b5;0xe46616c8ad35a;0x255a0d7d99534;0x92d7c170cd603;0x35931f9aa423;0xcb2ade8c6a312;0xc962141799c27;0x84b706a4fed9e;0xcc9c63863bc9e;0x2fa522ef85b] [0x7a3a6a487880d;0x44d99de11db9d;0xb28cf395131f6;0xa8d515be0b7f9;0x6ec96587dbcd0;0xb3495e5108eeb;0xce10283c68a90;0x74d2972741a07;0x51dc8507c6cd1;0xd67284a2053]),[[0xc36d75362cd5f;0x7d6b8d63778ab;0xb5cb2a3079635;0x4361620d28315;0x5cd32568f68f9;0xde34c4df35348;0xc0ebbeffd4c23;0x9def3249ec464;0x7632b4f73efeb;0xdb4c247850b];[0x965ad23a5c1d;0xb8b52d74764cb;0x5c0f41f2d7245;0x25a3b4fba2ebb;0x75a17394f4ec8;0x87a7257a5ad63;0x30227ad3c01b;0xcd9a2e8dca247;0x64d4f38639908;0x804bed453d2];[0x0;0xc89123b98cbb4;0xf59d2aba078ba;0x2cf287595333;0xfe3466f9e722a;0xdeca0dc3c2073;0xce8dab8fa0e3b;0x8b1be8e190895;0x2fc876e1f4c4f;0xde5e8326c5fe0;0x86cda6eb448];[0x0;0x69b29a99e60c3;0xf94ea242b479c;0x7de4ac97f52ac;0xbfa4dc6fbef43;0xfc9fc20421c43;0x13a62b1d9f292;0x4438e1d8cb0cc;0xc0e17d0347aa7;0x48d4198f01858;0x442c5fb666b];[0x0;0x1063893dc53de;0x81bf3d21fc8a9;0x1b4bc1d3e0fa1;0xd52b0e6c93725;0x2979bdde9ee97;0x7f4594d7c502e;0x2eaa836c1d8d0;0xac46cbdb67456;0xbbfce54ebd1a0;0xbbdb5d0b86b];[0x0;0x3ccc36dc991c4;0x8b6c7dbb1c68a;0x3ed0b7d187561;0xd712bc450d44a;0xd589ee6bda871;0xdc36741eaf329;0xfc1c579d73c0;0xcdb074ebc61f5;0xffa78f3dd8509;0xdc9dc28f4b36e]]);
 ((V [0x94212197afda8;0xc3fe30b4c8f08;0x56666ee4bd9b9;0x71551b6737342;0x46168a86ffd72;0x60f1e57b0bcbb;0xc7d0cf884ed12;0xa2d2be056524f;0xf60248c6215d7;0xd884f4790f8] [0x9dca27ba72d87;0x2dcc5cdb11b14;0x1106e38913f37;0x1ce76946e286f;0xb799d921e5b68;0x8ccdc4b1b908b;0x5c11d1bc7f886;0xc4d0d22a9b0d;0x8d9f58f3df1ef;0x75dce202414]),[[0xd0b740924f4c7;0x5c324c0e1d7d0;0x3c81a5cc7b12f;0x707cec0ce10ab;0x49acf1c1e1f2f;0x2cb02122b6029;0x61c6085cbac04;0x56219f252f4b8;0x765523b6b0c34;0x8cb42934997];[0x406e44a381431;0xf1d63ca1610;0xcfd4ee190a2ae;0xd3208cbeaf2da;0x793a764054f86;0xc9b250a705763;0xcaf77a4cf6a87;0x96ff4c8924de0;0x8330100c2ff8d;0x435adadd2d7];[0x0;0x534f0781eadf8;0x7ea9e963613eb;0xa4f5bd923b5a;0xb3dbdf5065144;0x6bb734067b170;0xbb4a805a282e9;0xa4685d29715bb;0x1229e61d35645;0x2371404306bcc;0x8de0d5a00a];[0x0;0x2722d37222b29;0x467152d5918f2;0xfc53fa66fa25c;0x42ebd825e07a0;0x379564cb3a267;0x6b2155734041f;0x6a67fb4b58edd;0x4c9c9439c2dd;0x81d833542cf59;0xebbb172487a];[0x0;0xb4dd27c1c369;0xb288d449453b4;0xb25198bde3239;0xd5ad75d67ef12;0x3517640a672f7;0x75a6b7303b34f;0x282795da1418c;0x7ac6cd9ab8439;0x44aaf5f96131e;0x4d558bdb807];[0x0;0xcb15e2a1f5208;0xe71d8c71f88b2;0xd0c719ae5e06c;0x22db9a25374b;0xe95a1a1ea81f6;0x2da22474ff7cb;0x9c675c8b962db;0xe6fe36ed318d7;0x68721767cf136;0x8ce40c1ea8f98]]);
 ((V [0x9dc955c960a8e;0x44ad131367e63;0x7191957abd60e;0x6841a50eb212e;0x2afcf084cc0a2;0xdd639901fa6df;0x2625ec1a2df6f;0xd280ffd67763a;0x1871039977e05;0x9a2f1b6961f] [0xd9fa27d377753;0x2f138adca68dd;0x41226a4ad4bb2;0x2a54482f9ec03;0x7040042affd34;0xe9ce86001f714;0x6c353ece96a6b;0x36d6b97f24e9c;0x91760e867936c;0x99f58e36808]),[[0x87d13af916b06;0x6f9424e703b05;0xbfd5d70704548;0x11d617985e152;0xccaa7961e71dc;0x9703fd8a21d14;0x3ca4460420d98;0xa673317c67da;0xd788e5a554884;0x8df8e796094];[0xaad913639c8e0;0xb88465fd05848;0xee48e700bb23c;0x6b89608afcc77;0x1c741d1186ae9;0xebcf122ddb406;0x6224cfb810000;0x24bfa69b8cccf;0x559ae11e4166b;0x804da4988a0];[0x0;0xff69c426e1fa0;0x6a0e2fd5ca65a;0xa35d55984fb20;0xd5699fddea84;0x66bf63eef98b0;0x47e38c61091ed;0x810dfd4e15aea;0xece300dbbaa08;0xfd01d856f5ba;0xb720a199509];[0x0;0x6de8a98f1fc90;0x9550f623215b4;0x70b1f9a4f3a8b;0x783b523b49a1;0x431470c038901;0xbe8142a5a47e2;0x4317268f7382b;0x54c15e3213398;0x2877b0c556c04;0x82ba822b279];[0x0;0x16ca6e07b478a;0x4dde9b4b41918;0xebee6c36371e9;0xbea883144d5db;0x91b7521c8e3ee;0xcb9bb3861d585;0x53c4638b3a8f6;0x78db35fcd07d9;0x1799f1a01aee1;0x4ebc211cca7];[0x0;0x86ad992248f34;0x958ff23504a3f;0x77619cc0588b5;0xffd07f5da1220;0x698fd82d2f961;0x1a4a8229022eb;0xf682c6e505230;0x94b9522d14b31;0x45f0b147496b6;0x8ea97261bb400]]);
 ((V [0x2d38639aef3ec;0xaae8484039f64;0x2c8a44e7c1627;0x6a1771ca8f07;0x23a203da15991;0xbd97d2420c419;0x1e5fc0c97d04e;0xbefcdb838525b;0x7ccc41d6929e2;0x4976e5970af] [0x3f60bffc368f9;0xe2e2814c56924;0x656282a8986b8;0x469729143f6c6;0x767dee70c7657;0xe8b1a72569f65;0x473c39cae1c1d;0x5110cfd0f35e3;0x28d57fbeb63c6;0x94c7aff3901]),[[0x659bf4508c5a9;0x9c86b5cd0e98f;0x8aa37f7b055ba;0xf26a13c48bb18;0x7db2fbd07ae24;0x89665eeca24e;0xfe64bd78c8ef0;0xcf3b33cbd83bf;0x1efd9bda975ed;0x97b8c4e95ec];[0x9168fa0a6fbfd;0x7bed6e2d59be7;0x3bd783e2780e4;0x764fd6c401f22;0x757926a491247;0x96ed2dbb2bd9d;0x960ff1b526406;0xc13eebcaada3a;0xe00f9d7a344a3;0x850e9dd54d6];[0x0;0xb2be3fcf02b01;0x1b0e894528812;0xf60913f8b71a3;0x90f22eb4f9712;0x7ca6ee4689561;0xb594bbfa9f680;0xe5604fbb091b0;0x59b474da93779;0x7f3398d568cee;0x5cdcb5a5dd7];[0x0;0x7205c2316e54d;0xb476535903996;0xf368d2561ba2b;0xf659b116fc27c;0xc34b29d1b1819;0xed5e7535c4508;0x43f604fbebdcc;0x430cd8846301f;0x46bdcad58f764;0xb67deb996eb];[0x0;0x1d6c5cee9cf2f;0x5c055e285343;0x3d294eba0dbeb;0xe79098d536b15;0xe66125b5b1d63;0xd783622f01470;0xa02bd1e8db739;0x39af41dec3f39;0x72d923e1d908e;0x59eb7da6f4b];[0x0;0xb0156ed2f96d3;0x40c842beac155;0xcd86af3af0073;0x41c9bb28a5d40;0x5890d89330381;0xe6926bdfbcdae;0x58e42e52aa1f;0x959ffebdc86a6;0xc6b4500157f36;0x98805498847fe]]);
 ((V [0xe5f872845e310;0xd8991c0a8bfc2;0xe5894d80127eb;0xca023473636c6;0xc65e441e19601;0xdf4f7b607d0c2;0x81a22fd9ffa84;0x3d087c5ca4a44;0x9a5df541897a1;0x857ee2ea536] [0xa173abc4d1eb9;0x311739498eb45;0x8aa52df8e2e16;0xae74dd736b452;0xe964873d5323a;0x4b30e627d8f5c;0x3efa326ff5332;0x4dc1b56926adc;0x97a41b20f32ea;0x360aea49ea7]),[[0xb1ed3085898bf;0x5a4120a071030;0x14dbab1ee9926;0xe9d7e852dbc91;0xe51cdf7973538;0x8a2434361e0f9;0x743be6b781531;0xbafe42134858f;0xfed540fc96d1f;0x169304411d6];[0x7545719fe35cd;0x3506a7899debe;0xac2e9523b5696;0x87575330fa31a;0x831d402629ec8;0xad1fa442067a1;0x8d28cceeba7d2;0x2779e4cc832a5;0x628660341e3ca;0xbdd631e77f9];[0x0;0x76255f97c1225;0xa15e91681bec1;0xa07f19972f3af;0x26014fddaf033;0x24197e5731c8b;0x7091b0883c1c4;0xeefbddcd9d477;0xdd7976ca3fd54;0x701f5e2b3ceaa;0x15150628996];[0x0;0x3120f4f944485;0xbbbf6a2fc8b27;0x92b483f271e7c;0xf08bb7696d9d7;0x972f3e3d01d97;0xe4ec2aaa92319;0x64b41450260ea;0x207e734a4c0f2;0x8f2ac653767c5;0x1a3d3483db9];[0x0;0x2d52c52eb639f;0x393dde231950e;0xb114d060bfa9a;0xa11a51fd3c9a;0xa9083569b4ca5;0x785e1d9e439d0;0x2828c00445ef0;0xccc4ef8b3cd9e;0x924d076e471f7;0x1fd992913e];[0x0;0x1fccd46e6fbd;0x2928257fc739b;0xe3d784928edbf;0x7a1806e06b6d9;0x4ce25f606908e;0x224e546e4977f;0x10c576d2468e6;0xb31efbf32a7ea;0xd1944496c49dd;0x16a44c1c03896]]);
 ((V [0x37b59a2fd2a69;0xb2fc6c0b9ad2d;0xf243acf3fa619;0xd98043dd1631e;0x4f1d3aad04ce9;0x3c6d79a906e06;0x9f7e14cf00960;0x798e1aafb461f;0x9ed543488be68;0x714726a5aa3] [0x5e5ea27b81265;0x11f9d7beae8be;0x8cb92c1fca245;0x22bc41747d4e3;0x7d59ba6d7a362;0x47274cbd7f888;0x8b9d530029ea;0x2a251c87eb2ff;0xe0404d1c86c3d;0xb3171a77681]),[[0x68d203c06fd7b;0x7c04e229f3ca6;0x21abf06efd988;0x26d20bcdad232;0xd96b043a07b;0x96b597c72bbe8;0xac41fd1236470;0x86073e42485ea;0xaea7f50ddd67d;0x92e3aca9a24];[0xe75cb673b8e82;0x93e324f0708f5;0xf0c3476c2a17a;0x19e43bef59c9b;0xf394442737b67;0x20edf1b1740a8;0xdef4f43ae84ef;0xd2617b86bef12;0x68520bd5a4254;0x5b66682a582];[0x0;0x5ef4d083192;0x2a831392e0cf0;0x5fe2d3ca62558;0xdeea3f117b8fd;0x450fb2e79398c;0x6b85d6ec407c7;0xbbf21aa395c35;0x42055bd37f216;0x8741c76678fac;0x459d16aba27];[0x0;0xb1ac7148c75a4;0xc1b387c8009a6;0x39ea6f33a7bc;0xee2a5c90eae7d;0x90f8130539e7;0x6ba23fbe46b5a;0x2cc65d0b47b0c;0x912e1cb6bb117;0xa7d63450c2dd1;0x3e04937e184];[0x0;0x5eef1719292f0;0xab4e43d790287;0x185e6a2ea93db;0x902fb23f2a7a5;0xe76dfe8d3372b;0xffa40c0718ed6;0xe43e5ae9ced5e;0xf75a548e7547e;0x7a6d16eee0989;0x54487b6d266];[0x0;0xfb66bdeeb2164;0x8a9a2c2c8ce2;0x975e95d91d777;0xec60a907d81cb;0x6f041fa372ba6;0xff1c5be9bdf93;0x7b85652937f21;0x72de144b21801;0xf4124c998daac;0x93822a1ab9dea]]);
 ((V [0xcfe31ab94d6cc;0x2b50df211627f;0xdb87a79d04198;0xc0420c414b745;0x14fbad58418b;0xe3e65ebc05ac2;0xeb3830c072099;0x64b19f4ebb2d3;0x6e6f57593e88d;0xc3e21f1c853] [0xacba4b8cdd5df;0x18e7967a0e23c;0x98b5c3ebe256a;0xaa33d3d49fab2;0x497feb2d86806;0x4c34ab5b70cd8;0x4c0fec451b422;0xe856030798127;0x16f28e3bbc9a0;0xe223327808f]),[[0x9b80bf0949558;0x744e3585c3881;0x4d0235f971038;0x6c3e4350c7be3;0xa218c18f1ff63;0xc6d92a055b226;0xd8653201642c2;0x8d8770484c5f0;0x8e065db9d4d1e;0xd0d90a77759];[0x72abb24379520;0xb51f9ed797a7b;0x24f32723b2f9c;0xd832cbc887b62;0xe86edb342f258;0x99e15e612fc15;0x5a607693edb8f;0x40e242324833e;0x3ca889859144f;0x71aa40af002];[0x0;0x26c9aa0cc1a87;0x3070177b81483;0xc1223d27521b;0x117457110b9f0;0x2a3a82f1942bb;0x180bfbc5cba2e;0x5d0876420d0aa;0x8b595de40cd83;0x129640d67c665;0x321fe3e4b60];[0x0;0xf3e1a886a2354;0x3c284dc9759f6;0x9f1f57f1ab734;0x3c75512d817b2;0xc2a4df0c3767;0xfa0423eea9286;0x18bbcb445edd6;0xd91d203a7bfb3;0x43c274e11fbcc;0x1243536d1d9b];[0x0;0x51b4e5166704e;0x19a3ab2e733e1;0x5bc0c8ba60102;0x259da69c78236;0x7a2f69bcb7081;0x4d9d2702633b6;0xa27b41b8ae5d4;0x327117abce7ca;0xb56c06d3b9a41;0xaa616904de0];[0x0;0xa945b2b719104;0x44a51a89e6aee;0x4d343c5a85f16;0x28712d380c5cf;0x21dfc39530ec7;0x7e319b3bf8c62;0x45f884f66538d;0x7f4a91a79d417;0xbcf36dcf7e130;0xd1667f8f4f461]]);
 ((V [0xe3b883fcbecf5;0x96fd314837457;0x7d3848ebd466e;0xa352639ef1dbb;0x9ff3acc66e3a9;0x8da78381ab9e3;0xe384a1e2bc352;0xab93f1eec7e37;0xfb4445677d057;0xab16d3f04b0] [0x9383fe455c96f;0xe0752b5935dce;0xc0ac0dbd6e2e1;0xe683bc7b8de1e;0xaf8b4af7cfb6c;0x11d5622823386;0x3a56c71277c32;0x6b7c18764d8ff;0xdff29a7fd996b;0x3e0004a0dad]),[[0xe7ada88c50d99;0x1ae0a4cf73ff8;0x8aa085a63441c;0x700834527d563;0xcd81eecc922f6;0x9d7f35aa9ff83;0x52fd6a956e13e;0xdc59529775d7c;0x17b8a119d339f;0x8d54ce2e89b];[0x2f5eb53acad2c;0xc4d17b2621d44;0xf751a0e68cb48;0xe362356e3f288;0x53f22580751e3;0x2c37b9f6433d6;0x309c1cc2e111;0x48b9e286c0f5f;0x8ee0fd9e0ff14;0x618eb8791af];[0x0;0x7142171b51f7c;0x2e16cc8d38743;0xe1a1ae02f6eb8;0xc15bcfc8ea360;0xcdc3b321550dc;0xc7840ba80e6c;0x6052349d8934f;0xd7d0c44952da1;0x4c43a6fc6fd5a;0x95e24320651];[0x0;0xafa8464d0c88a;0xbf893635079ca;0x7e51917e0101f;0xf0cd4f706c183;0xb5a28ae96ef0c;0x9196d410bede8;0x9a3621303ee6d;0xc73889fe7266;0x25f5dc67b0077;0xf9b098f435c];[0x0;0xfa696d140adfc;0xe0f61be62a6fd;0x3f2f4bba0a5ba;0x3a23d49a6d3a6;0x348c0cd79f216;0x70bd455f53818;0xa4b03bcf7998a;0x249b67b2876e4;0x6cc9e92acc545;0x4e068737384];[0x0;0x939daa3ada3e0;0xbbf450374703e;0xc7bee55edf784;0x5b9fc42d32cf7;0x99a4468f7e6f6;0x361aefc80c054;0x984ea1a6f30b;0xfaf3ad70a5d17;0x2c5e28e03d393;0x8defd32bcc5a1]]);
 ((V [0x1fb48692b082e;0x2253f0242c574;0xf457d55650c08;0x492055fe7cae4;0xa87aa09a5fa4f;0x514f4f3b49089;0x4c3a1426aec23;0xea447cc03064f;0x75e67200991ca;0x3b407c56985] [0x40eadef28bb8b;0x87dd072b94735;0x6bd94755c88c;0x2463f7ba6d239;0xae29719b4e04e;0x83ee8e215494f;0xd3ca6f683a149;0xda0afc46e3ef0;0x25807086c20f2;0x2d087611870]),[[0x5be24fd54d6d2;0x5adef628213f;0x6aa3d9338d48a;0x2bef348d5830a;0x2b1694efdf518;0xd2747db800f8e;0x3d2ae6b684ff5;0xd325b85ce33c;0xdd86ee8087422;0x820e4e04680];[0x91235aa072f54;0xcb70d7d8326b9;0xfb124d6aef408;0x5b1d03b69811c;0xc18b3d30bcb64;0x5568094258326;0x62a9758b240d4;0x56643fcd5c59a;0xa64a7130347cc;0x6a2a231172e];[0x0;0xdb2c821eef7b3;0x42cf1259b673b;0x5de0d479833f8;0xfdd9ff5c3408b;0xc88d1028d9f4c;0xee27e1962a62e;0xdf2699106dcdf;0x39fccdce7ceef;0x9decefddfc82f;0x7257812c210];[0x0;0x181b3b16e1ac4;0x57d00cc5963b7;0xd732c8f3218ec;0x8966555f85a90;0x7cbebdc579d82;0x17402dd8ddd9c;0x33ddd63bd876f;0x7bc22d34b91e6;0xa4a6d3ffb714e;0x3efef27e051];[0x0;0xfe948b06efc74;0x67ccc50926178;0x551528cd1d51e;0x5a9aae11183eb;0x3e31aa531d15e;0x7bd8744ed2a0f;0xe28e4b7176688;0x7eeebe62f5225;0x20d02a679055;0x4212880919f];[0x0;0x6c732a3d7f66e;0xc36f9096be227;0xf9ac052d1acf;0xd6d26ba3b8016;0xb3ebe5c3c78ce;0xa2870b6fe55bb;0x5ff47c117480b;0x2ae48f880d85a;0xefbe71e0e83eb;0x82c92d6ab6888]]);
 ((V [0xaf4ef631cead1;0xc68be4c668f34;0x47a670222a2f6;0x1fad7baf6426e;0xb3d2b40d25e77;0xff2600f02480d;0x97dc31fa973ea;0x6264beee3fc3f;0x12c5d9f1fa4d6;0xaff837a72a9] [0xda29b094ba393;0x418ac11b5ac61;0x86f943ff94d69;0x472b9c06b710f;0x53a676f8cbf19;0xe09dbeb016c96;0x4c88c7c9cf033;0x79972b599f511;0x4e79284fc3b1c;0x2736f3eaa6d]),[[0x294449d23ca0c;0xdf54485ef96b2;0xfd0057d9d7803;0xa406b590248ef;0xa86dccd09f8ef;0x8fac5200322cf;0xcb60ca74e4f62;0xd1a75153c29e5;0xaeabe56ed1e4c;0xb5f80b8c6ae];[0xae2f89d6b716e;0x7ec9c4515744b;0x174d17ba047a5;0xd0eb6e49e43bd;0x4468a4fef2c4c;0x995693f2bd4e8;0x59adb602aefa;0xc60d55455d811;0xe877957a69b60;0xafeddab4a40];[0x0;0x6a119d874a7a;0xff8ee28a0d3b0;0xe982fe87f65a9;0xcb54293fd2a12;0xc9ced88175847;0x6556d502d6339;0x420ffc699d7b1;0xfc0e43ba96280;0x872121523a03a;0xdb6c98e51e];[0x0;0x53607465a3136;0xb8459ab99e014;0x94ae27a6d8b91;0xa45f299df6405;0x1cb173c2d9e89;0xe0adabb85c9c8;0x33135e57c2a9a;0x95cdcf23e3509;0x3319f287f442c;0x40053b69abe];[0x0;0xc0cf3fcadfb85;0x97961acc524cc;0xf2810d2f99947;0xceb35768efcbe;0x71397631c4482;0xb20068219589e;0x2c761cd9e2010;0x64745639566a9;0x4b54d457835e2;0x8158b0aaefc];[0x0;0x723299a02f0de;0x2f8fac442314f;0x24d97bb092b8a;0xd63b0f84e2d8f;0x52f1ab78b58cb;0x493d93efac851;0x58c082a6046bd;0xbd23f2d1004ab;0xf0d96b4875f97;0xb65b0c9945fe1]]);
 ((V [0x62350699a5b9f;0x6b3c929900bab;0x5eadb20ec8399;0x3a3178f18172d;0x194982748877;0x37b8bac70e1ca;0x5eb7b26e2ee5c;0x3124fce200e7;0x9fe39b998d967;0xffe12474626] [0x4ff3beb2b3a8a;0x2dd6ff8e8c01d;0x39f0e8f661649;0xecd3e0887377c;0x1218244886a60;0xa3440797da854;0x5e87040b68797;0xe26c7df2d68de;0x16b782f8803bf;0x21235e048c4]),[[0x5571e5cc893e1;0xed57266742e6c;0xa8a16e98db702;0x8722e03b64c0b;0x7ab510b69302;0xad2be428a8f18;0xda5268722d1c9;0x59efb72f78cf0;0xaae5789776224;0xaa162f65322];[0xa47f78af24008;0x5061da06e15bd;0x4ac2461553119;0x1e1a5fd5c8163;0x1b493abe7ac9d;0xaba8da891e5d;0x11b36eecd3132;0xc18fe75be7325;0x8a997672c586;0x96244c1d69];[0x0;0xcd714a007209f;0xde254dcec0768;0x805055f26ac97;0x61b1956f1dff8;0xcbffce64591ba;0x6d99aa448746b;0x212f54067007c;0xaff6831645f94;0xe3560e67da213;0x78f54cc26c2];[0x0;0xa4d4e0e7a8726;0xfbf6f8fd1975c;0x6d1941b7b0b1b;0xd745c588d2c50;0xd02110c48ceea;0x7914df67cbe9f;0x5ab4361c1ca5d;0xaf1c62bb749c7;0x29b496e08711e;0x341bc7eac03];[0x0;0xa24c01dba3180;0xca28b795cfbbd;0x12968535a6248;0x2bbd423a94caa;0xb6469abc5d40f;0x8cb6ff0ff39fe;0xf6bfa571aa342;0x51157882ee73f;0xb9f4e852497a1;0x710178de94c];[0x0;0xa15de5ca1ef64;0xb82b43cc09a0d;0x23f9adbb66e1a;0x29687ca93de88;0x478866fe16ebd;0x5dbf2aef8b1eb;0x3fd319cb637e9;0xd9aff2bbb682d;0x852c864b02b93;0xaa8b2dfa87621]])]
 [[0xc2afa2e191333;0x361d6d5f6f54e;0x4fc4770069433;0xe396d739d160b;0x40b1eda3dfa82;0xf4d6d7036d8a5;0x69ddcb6be3be9;0x6726a976e0728;0x411fd6de15d40;0xafadf68a56];[0xdb55b7c015f2;0xff0dfa098f39d;0x8ab56c5dc5a9f;0xaf0890654cf70;0x1129834c7c3eb;0xef513893c2002;0xf4b9c31d814c;0xc9a28bfbc898;0x2c2ec69c01b0a;0x8973ddadf34];[0x0;0xa6a3d11107eb9;0xd785214e4eb8;0x25a9ab56619db;0xd3e55a5d7a1c5;0x9720e90596e7c;0xd675cb8ce2945;0xdb84714e3c77e;0x48c5be898c1d7;0x5175f069ab2d3;0xffc24ca0f5d];[0x0;0x31af30c26dd8e;0xa1cb5080d1598;0x9a419543204a0;0x1377dec75e2fb;0x3b5d4176d096b;0x504db97240346;0xdba93765e046c;0x3461efcc33581;0xdbb2d806f80a;0x2d7b642b13];[0x0;0x82da8102d94fa;0xfbaec7adb2c83;0x828bf75fa2914;0xc15a286544d2a;0x6c09624a9177d;0x675d4254e5518;0x945b14995c463;0xd05072899ca51;0x653c613108119;0x788f4d484];[0x0;0x82d54fa33df13;0x949f79304fbb4;0x5620d3e1d267f;0xf6281c7e465fb;0x58f48e4e40221;0x596b9018d489e;0x6d2460b86d9e6;0xf6b7b88b0c805;0x4b65e493254ee;0xb0809d89e358]].
Definition wit_512A_32_9 : colwit ipt wit := mk_colwit (V [0x19c7f5f7d1baf;0xfe9d93cab6983;0x29ee5495fde89;0xe917020442d8b;0x9e2453bc53f40;0x23df1d3e4fe16;0xa2a081de9bb65;0xf61e22630676e;0x55385c67eb22b;0xd1bc57b40e3] [0xb940f8fde3ec7;0xc5c6fccc26180;0xaa827cedf498c;0x3d25e32ef49c1;0x8d4dee935b695;0xf8062639562e9;0x5c7d8433fe445;0xcc8fc9d54532a;0x5e4d421e436b3;0x97867056ae3])
 [[0xfd7ceda061dc9;0x3849e6f01e98b;0xf2fb1ca014f28;0xe2bc6b3c0a99a;0xf2b9a3d772888;0xe5e1c541498df;0xa0973601efb69;0xbac1fcdbc5a3;0x29c5a7d392026;0x7a52e01e843];[0x3c459eac706ca;0xcc0b0d2d9b92b;0x464a04f6609bc;0x5e5394f0773b4;0xeb191279498c2;0xa7ba498a7b2d5;0x9f75e2022e299;0xeaa5909fdc06c;0x411c90f18231e;0x1eae92fede4];[0x0;0xd26ed39b25499;0xd45754bb4f29c;0x87c5e1e619264;0xec89fec3c9b03;0x81756ca9b3fc6;0xc043f09a2cee9;0x1e29ed3b80f6a;0xfb04b67d609c4;0xcc77fb43afc80;0xa4070a2aff0];[0x0;0x165410c47280a;0x7fba8d47a0f5b;0xfd235c59a39b1;0x27b33c5b862eb;0xe5905b9ef0f87;0xf8144e68b66b9;0x91ed9e605f867;0x8c45a0c6b21bf;0xde91af8f8bff9;0xda74db4fb4b];[0x0;0x61971c9244548;0xb9e19c74dc34;0xdf3da8935555d;0xaf7d23ab55d33;0xde35828d75e08;0xb9cef16119d54;0x61b498036d11e;0xf11fe1fe1ed20;0x2586e3b11e6d4;0x3a7318716dc];[0x0;0x9119757e41f76;0x86f31eefccd92;0x55d3c47f70495;0xf555789726de8;0xf2b33e7f2ddbf;0x34274d4136d9d;0xcfe7f9e9d37a9;0x2c726de6c0ba4;0x6e300e78ccc57;0x7acae59207f5f]]
 [[[0xe9fafbbd1a460;0x9c9e6df4d7bb9;0xe02ffcbc2d865;0x1e29d85bd3ca3;0x580f975fed78f;0xdc31560c68501;0x11163669c7b19;0x4a8ca29c61d;0xd97f28beeb6b6;0xab29888005f];[0x0;0x7b4ab93a8b5aa;0xf4873f703f9aa;0x4e87f6fdc1f44;0xeaf69a7d334d6;0xa49d0386834a5;0xf8791b8e54efe;0xf5bcc0db6ae02;0x70388d444a1c1;0xc1dd8395548e8;0xabd7eac9ef099];[0x0;0xb39469e14cf2f;0x64e58fb55dee4;0x822b7d603d3ae;0xb8c14fbb20af6;0x12b1411bcbf9e;0xd03e465191c9b;0x7b135cfe37c76;0x6497b5ea8012e;0xafa9c21cf44ec;0x7270831809c];[0x0;0x18bb493090d04;0x35bf77b02579d;0x646c64c9337cc;0x9f3247b0bd976;0x41ad102db580a;0xedb01c10531a3;0x6b3223753716f;0x85cfdfecfb7b6;0xf9344e16c10ea;0xabdb9cdc454f9]];
 [[0xd762dc92fb149;0x3c0d4133384b;0x35fa22807642a;0x682b75d06f64a;0x42ca3aebd3817;0x22881545ca7d0;0x7c8331e96f13b;0xf9f025496545e;0xc71175500e6ad;0xc1149d398f4];[0x0;0x75673b371fb9b;0xf8cc7159e527b;0x1204824981389;0x9581a9c2ef781;0x7e1d9bdcd5b84;0xc6f548190ba99;0xa7d72cdefc83d;0x48161c9c9f8da;0x70b0172d56b78;0xc1e121ccf2125];[0x0;0xc71f22504c0b7;0xe6e85edf34376;0x5069e671e2dc2;0x90132f0f7cac1;0x5bff81929088;0x9f0f557bdc2c4;0xea65069275ecd;0xbc2a5932db672;0xf4d2bbcc81bc8;0x91a016b9bb9];[0x0;0x42e263ab04649;0xda0918b16a2b;0x5ebe99b75af00;0xf757c8b0bd093;0x50228a86303d0;0x5c5f5658a9aa8;0xe8bc64cffafe0;0x25dd8b76b987;0x28ea63941bee4;0xc209c2da29a78]];
 [[0xd0bb9a8aef9d0;0x2578990299658;0x99add19c4e1ca;0x6b27024452869;0x865c313fedcfb;0x9ed3da7c5b301;0x1adeef69ac29f;0xc63e140c2a3ba;0xcf378cb90be8c;0xac4a0aa5b66];[0x0;0xb49155da3df99;0x65a6053fd559;0xe5b0e50157ba0;0xa466a523dd19e;0x56a31ca4e471f;0x5f1d8aa545be0;0xfbc8d3547255c;0xca2dd7055ad25;0xfa244d851841a;0xad2eff1476976];[0x0;0x8ed43067b881d;0xeda09cc123094;0x89379de69ea65;0xb3aca169e90c3;0x973aba5308dc5;0x329a40b789396;0x3f66456948040;0x222ac44d8957a;0x13bac40d691e7;0x73f393b8d56];[0x0;0x2f61a47d3356;0x9b4b3d603e374;0xa813e7ece3638;0xc83a1326c29cf;0x2870e35bb556b;0x16d28e394c503;0x536ae0f21a2c4;0x2ef3eeaf445d0;0x5ffd900e0dc12;0xacfc86e6e4941]];
 [[0x3c7ad35666b7a;0xba500774e55c6;0xb3db6240c60ef;0x3eceb941c1c49;0x6603f71bc8a6c;0x4aa6ab2d127b9;0xf7ef4f7c3cfad;0x7d83344307de4;0x5dd3935924dbe;0x51336539caf];[0x0;0x29b99cf0f5251;0x522204f30cf46;0xf47252a65af88;0xf77bc845eebab;0xf906a41dde57a;0xa758cbf4c972b;0xfe79112dee020;0x95cb4dbf04baf;0xbd7382b7b0fbf;0x51a239251e97e];[0x0;0xd129a2f602c9c;0x53f87d0141a03;0xabc6b4297c517;0xa86e81482f70a;0xb0c9d51778650;0x8a282cd9e30a5;0x1e2d1908168b8;0x4909373796a0b;0xd1b265ba6827c;0x19c190600f7];[0x0;0x47c932012daef;0x73377c5abefc5;0x97b4d4235eb56;0x3ae97a031e2b9;0x7309f35530d97;0x91b59cb03a084;0xe7ff632dba5aa;0x5a543630022c1;0xd248b2b9122af;0x516f4457df13e]];
 [[0x55a3d5daeeee2;0xb923ef397db57;0xf550b9febdca5;0x743437c8740a5;0x573dd00cb6d3a;0x386cb5b9a165d;0xa783b6153a846;0x3c25f65c90563;0x8cd6b857f2e13;0x115268e0d31];[0x0;0xe15d875d2a16a;0xf5611a245d9d7;0x307604a9fc053;0x5917795e8e74f;0x471b343f36b46;0x476978279ada;0x2f3fc60a184a0;0xfb0b328360e17;0xe514ffad9a03c;0x1165806fb6ba3];[0x0;0x289a73f3a9dab;0x18c36004acb10;0x390b2883571ac;0x200d8e85e891d;0xd456a30913f1d;0xb110e8fb17f68;0x4f6aac669eb17;0x6d5de4551f8cd;0x7f82220fd273f;0x12c0c75370];[0x0;0xfe681346f7669;0x13eaf31497c92;0x9702167c2c235;0xafd2c078cfb3e;0x3416dd85e0409;0x1cb8cbf8d3032;0xa51817fdf0ce0;0xdf7bc24b17d26;0x313ffcf8e1829;0x116b5ff920f6c]];
 [[0xab335af04bfeb;0x1d2304f3be1bd;0xeee43f12ed1da;0xf09db9747489c;0xf1043bab20485;0x4ba3d1e1bec4b;0x33194345b6e9d;0x6a44902deb0e0;0x69396a9f25e54;0x4879f421512];[0x0;0xeebb2ebfc6678;0x92c8a518093e2;0xaad0fd16cb093;0x61dee77aea991;0xedc70adfa1093;0x8c94f709ecc1b;0x2d80014e2b430;0x26416bcb01e36;0xd024f52257e11;0x48e9d1095c2c7];[0x0;0x360d11de00ce3;0x42f8888444b5;0x7757a2f100e06;0x679facb24f0f6;0xd93a95f61075a;0x9392f1971bc5a;0xb8548e6c40603;0xf93c75bd95a11;0x3f083d307ac2f;0x1484d36b6df];[0x0;0x9ae56c50bf092;0xa978e307f960e;0x5d9ae6d87a009;0x44d1d59a1d6f4;0x5cd3e3930556;0x55fed10db6f33;0x145da79c8c56;0xc2ac462909e17;0xabaf7963a42f5;0x48acad1ade814]];
 [[0x8030b9205ec99;0xa5e4d3f3c0aa2;0x4144fbb186176;0x7b391fa8e7771;0x8f0f9aac2f788;0xc394c209c17f4;0xf2c31d61f1b89;0x3e79f5bc2e3b6;0x1128b1633fe10;0x1246d801c14];[0x0;0x95f651644f31d;0xa1022f4903cb2;0x9fe84ac8fb482;0x5df5060298a3f;0x7f662989c5ce0;0x893adfaffadb2;0x9cd289e77b612;0x93145cb0253c5;0xf329ea2fbca8b;0x125d9129822f3];[0x0;0xd5aa6567c723b;0xd04ef39e34230;0x5ad1cfaa96047;0xa0f1fbf336569;0x62421abe077ef;0x68bc644906228;0x4bb32dd506a65;0x46423cfb159be;0x5cc5296df7d37;0x14e09fb166];[0x0;0x66f4061309e5e;0xcf2aa272166c9;0x1ce32095d3e8d;0x1cacf6e54a5ce;0x5e3884b1b3ef;0x39ddc1213c087;0x4e484c23d1593;0xddfdce4f35bc7;0x819da27c4170e;0x126234fe99fc6]];
 [[0x5a71fcbd1720b;0x95c8d4b461ce7;0x15827034ed099;0xfd3823381a2e9;0x1d4fe6efd5f10;0x29d48ca9efe8f;0xde8e10c7a80e6;0x614efee973abe;0xde8ef4b847d92;0x79ce0627b08];[0x0;0x7dca83925707e;0xfd1613f981f2e;0x5e8d814dc7092;0xb79b90820abf0;0x5fff2e4b92886;0x58cd40861b53c;0x2ecb3c9c4aaae;0xc47fc5144ff28;0x496e71487aa57;0x7aa204f21a6b4];[0x0;0x2a3dc28392541;0x253a7fcc399e4;0x630ed2caabbba;0xbc593ec2c1ec2;0xac7f7b0eae4e1;0x546eb903be1ad;0x982825f3903fd;0x23345c6e1d61c;0xc2d03026c6755;0x39f4679f6ce];[0x0;0x137c8e898813d;0xe6a64b463046;0xd6be50eea01c1;0x8d286057d85a6;0x7312fbbeb6474;0xd2b7c05289f9e;0xa178bfb6d37ee;0x44d813a33a4d5;0xeb370ae9561e1;0x7a19be4aca1d2]];
 [[0x7548b4ae85362;0xcea849c87f93b;0x47b5f72efea15;0xc74a54fb5a928;0x6401d0634968e;0x77a92a5edbe30;0x1f1fd444da137;0xba9e734de8b04;0x1dfcb5e5c03c;0x6880e1628e2];[0x0;0x3671a05073412;0xe7f04b888ec37;0xfccac0e7b4f66;0x3ca7011357917;0xa8635127da81a;0x11ffb9b87a73e;0xc86bf6badd220;0x5cc1f05472fcf;0x725f269876b2d;0x690f395eedfa9];[0x0;0x2800b4c5bbe99;0x8cbdcceb7848f;0x226cf6fdb36b3;0x8f79a415dc032;0xa16545a76840e;0x2456cc1f27848;0x9e877381207b6;0x90a8e00c1c4c7;0x69c40e4b56476;0x2aa8f8023c7];[0x0;0xc92088a818a7b;0xd6df8ab99aea7;0x3c49fc53191a1;0x7f393c0cae570;0x75e87f3b59415;0x12cc69013ef1;0x5c2529ae99031;0x1a8e8b8c4eb70;0x354845a48e63f;0x6904a2d8aa042]];
 [[0xc605a371ff91;0x5f69694c1879c;0xa3aea4bb97afe;0x640fcc6292190;0x584d8841d463e;0x653f658535559;0x30cd88fa51b75;0xb8dce69107195;0xfe11dd67af12e;0x5915b3517cc];[0x0;0xab8a3abcaca15;0xf3b4abb6ab6ca;0xdf35b4faa5017;0x1c6c32f74c689;0x80c31ea6101aa;0xde1a2ba5326bb;0x86332802e2e26;0x57783fa004571;0xe24ed8ca6e441;0x59a6461b85c09];[0x0;0xacb46f550dc03;0x3706a0e2ea26c;0xa82bd8bd77e5c;0x7ca95fce1cd51;0x7a45df673c04b;0x4ea0987bd0c1a;0xe02e46da0b413;0x71454d9a4518f;0x2131c9b3ce592;0x1f00188591c];[0x0;0xb492744b8d239;0xdbf29e46459a;0xce3871ac2dbee;0x2eefdec956208;0x94b049751a244;0xb78f9be93fd2;0x73e00ef108b3;0xa4381f01d0900;0xdce63641733dd;0x593d796b41da2]];
 [[0x6fddf5bb968bd;0x29c44b04cca11;0x12642b7e0f8c8;0x15e09d7ba2fc1;0xb5309abd7772e;0x9cd079a883db7;0x524163d717756;0x4f7c336e27787;0xdb191a521e434;0x53794577e40];[0x0;0xd937736a8ca35;0xc0b24a92d014b;0x7ee4b66ecb39;0x5c313d740ae3f;0x85b263e6f715b;0x3dfcd3f2d7b71;0x7e6fc224bc5a5;0xfb77972bcfc8e;0x4daf1f18ab93;0x53d2889e21e67];[0x0;0x76543409cca8;0x4a4279dc29c63;0xacabbe7bd31c8;0x6baaac14d53cb;0x34a3940e50ad3;0x22228705257a;0x9910c5a320ac7;0x619de56098497;0x4f2b7e5e1176;0x1b37dc7e7c1];[0x0;0xf958fc776a25f;0xc06807d465b13;0x3f1be9c417c4d;0x6a948bfb2c961;0x83815bc75120c;0xf86d24484a0f9;0xf4d4860b7ecc7;0xee8359cbd3201;0x9f0722a3c297e;0x53ef956586562]];
 [[0x2c8a21445d558;0x924a948192213;0xbf44e6e281ba5;0x80ecd0f2761a4;0x2d918296fa890;0x97751379d627f;0xbcafc84737653;0xd9cfd75d553f6;0xa7dcc1dbe08c2;0x1c629ce78b8];[0x0;0x450040becc692;0xb455ad967dbfb;0x7b9fb28859cec;0x855fa82ce1f98;0x3faf0bd4d5667;0x4489f93e26c20;0xf563ee0092da6;0x42f58b3431749;0x2fb45c59d5f0;0x1c8cd03729589];[0x0;0x35aa61a839f04;0x7240792e510c5;0x558ee3f58b95f;0xd3a5cd313c5be;0x4500b3d7a23f8;0xaefc7b7fcb7fb;0xb8e01e8d6887;0x22a2e987bb26f;0x8250ae017d18e;0x325b84f27f];[0x0;0xe854c27e83e00;0x476551d1c48dc;0x9bb1806e245bb;0xbe500699882a9;0xc44c32624f785;0x3ecad3acdc083;0x94402084456c7;0x1b85a10156c1;0x8f18e4104ddc6;0x1c877a96deec0]];
 [[0xb4a21d87d5e13;0xbeec60f6e2393;0x87a3a11494d97;0xc34b021ec31bc;0x58b8db2a590ce;0xb3ccec06c9dd7;0x199e67daefd0;0xf784bbdc3a2dc;0xfc1e27199a828;0xe7280a46740];[0x0;0x1777abd5efe0a;0x5c833fa93198b;0xc4f5e3e781489;0xf218d6f314dae;0xc6b9e22d4a243;0xc2f87d1cd6b09;0x375dcd06df43d;0xa9f83d8ee51a4;0x45d60b55a545e;0xe8c4c3d66d8a4];[0x0;0x63997c4447c78;0x67e5eb4ed2add;0xeadb75aa109dd;0x36ac3bbae5396;0x5f9d68e229bb2;0x6fbee92532eee;0xbfd03fed9e4da;0x1efdd63d2b75a;0x249482828cee2;0xd0b948ce5be];[0x0;0x2a0162a29e950;0xc8f19c53ba806;0xb3b5ba92fda81;0xd2f51fb61416f;0xa36a9cbf6eed0;0x43e5026ba04f2;0xa0100bead56a0;0x775ca6ca8b5f5;0xaa12932ebd7f9;0xe77eaf0aacfdb]];
 [[0xe161278af4060;0x852bcff488df0;0x50402ccb31ce;0xb0f66d18c43c1;0x8b4d14b70648f;0x8934ce290b5d;0x201bfeab104f1;0x4f1277b306bc0;0x4cf964ad79580;0x4e5bd5780e1];[0x0;0x3476c89dabc6f;0xd6d1bc952e51e;0x18c86c53bd6b8;0xb59f30feae876;0xa127b2952cd99;0xd1f189374b80c;0x81648d2091a13;0xf64858cf49285;0x4d08b2f01a22d;0x4eb6c1017f96d];[0x0;0x6566290971330;0xf2ac7414299ee;0x1f7de8166de84;0xc3f7b8399b98b;0xa2da19431fe36;0xa61b0ff7da52a;0x61f1c41c294fc;0xea4acf3ee0dde;0xfb107002d9234;0x17fc17069de];[0x0;0xd4cd69be7222c;0x6d1f4906d490c;0x8b61b63f752dd;0x1babdaa32915;0x71b42ed1df496;0xb2a9c793b849a;0xd0f5a99ce04c7;0xca8339d5e7b;0xb53db24fcdc2c;0x4ebfdf65750c2]];
 [[0x56c788183c9cf;0x55b91fc00461d;0x432bcc5886c2a;0xf3d7ce2a2509f;0xf4fa232c4cb7a;0x3d3219c342891;0x9a0ccc6018643;0x7864003abaf26;0xeb4032d2dcd9b;0x3af85b88930];[0x0;0xdbcc31cc409b2;0x2206cef01a48;0xe17bd118f1a13;0xe4c98c7500f14;0x106db87adcf0f;0xf9e5cca838d1a;0x9be7d82adc6ed;0x838e82b8425c0;0x266d467d6cac2;0x3b4d18bc38479];[0x0;0xa4302ed541636;0x7bdfb99632346;0x7cffeac6ac2c8;0xc5ea5c238a246;0xaae590820c0a;0x7ea906d21ae5e;0x577fee64d5185;0x356d91579a5ca;0x9f7773eb3b2fb;0xd957a6b5bf];[0x0;0xba613907a3ce5;0xd237206e8453d;0x89b29ec0d0b98;0xa7f7054b4a855;0xd67552bbe3875;0xda2f5f5a109da;0xe2c7c190e4c28;0x64de90742d42c;0xb592c871f30b7;0x3b42830085317]]]
 (V [0xb63be2e2471b6;0xf93f7c56b8c12;0x1d30d14631a1;0xfcfa3bd3a2e0b;0x4ee143508e99c;0x1b2231cecafdb;0xc6e5a738d66f0;0xd244b44618db;0xd801a3e3ddae;0x7adebae94de] [0x2eedb0339bf8a;0xe213ece2a8cbb;0xf43b5618f638e;0xc6b7f81dccf36;0xf325fc164c339;0x800b3f7cb6d64;0xc993dd7bc97d2;0x32ab979c64f30;0x7a45c48960e20;0x7e5d2bef5ab]) [[0x4902c18b49f53;0x3912a1eddb170;0xb173399d1d626;0xd3d6ede9e5e34;0x7a357263ca2be;0x7f8dda5d08c47;0x122f0429fe3dd;0x5d72827fb4c5b;0x37a3f3851516d;0x3c86eecfe0a];[0x0;0xf02bb039b0041;0xfbe8bceaff96c;0xc6543619009d8;0x1bbdc6829b681;0x5dbbbc7a5cdc7;0xe12537bdc59c3;0x2e3bd5fe16aa3;0xa07d0af728d2c;0x18164e127c94;0x3cec5ad84edae];[0x0;0x2b792d71f55e5;0x8a7f521aeb64d;0x3c94c92651433;0x269fe281cfd38;0x4c90566a3b6a;0x9a31000e7ed15;0xb2f05f9ea3c5c;0x52a4e101df15c;0x2faeea160d094;0xe4f871051b];[0x0;0x96a177dc0587d;0x9a44665881abc;0xb58605c217a02;0x8955575caf84a;0xa1425f1f11752;0xee0bdfcb63832;0xd403c2d9dc630;0x143310608e4ba;0xd111566386d39;0x3cadf6b797103]]
 [((V [0xc9a2a9c84cb80;0xe9956ba08c4ec;0x177f922cf8a32;0xccb0b3677ec3c;0xe5f70eb13b9ac;0x9cd3597b664f5;0x9b16abb840024;0x228ff7d368aa4;0x964b9e0d525d7;0xb0f6ccceb45] [0xb6fc91a99fb04;0x8810fe8f7bf65;0x882ebc52909f2;0x6122e53e3327d;0xd597f9367c8bf;0x8f7bab3625de0;0x12486b560f423;0x869c64d4b2940;0xa2a5339ffe1ec;0x598de085029]),[[0xb82a8c353286b;0x32c90d27e3a10;0xcad7e2231614f;0x2cf8d70b88f5f;0xfbda2fd6ec2e9;0x58a9116649868;0x6f2e439e23fca;0x8348561d843d6;0x47a83cc5151bb;0xa559eb242c5];[0x791535a93d688;0x3ad4bcd3639be;0x1acd6b39ad543;0x955c7345a00c7;0xb045260312fcb;0xed96ab8269d0b;0xbf21721549736;0xb935be79f6704;0x790b21fbbc42e;0xb970ce4b150];[0x0;0x2b62acb41a244;0x51556c1e96c36;0xbed88bf4739a7;0x4ab029f6df4fd;0xce10234043d81;0x475a3494d548a;0x71a426fd54917;0x87087b4e3c4ce;0x539a1c7ea0b0d;0x3af90bef135];[0x0;0x6eb4aeb406400;0xa631ff50fc050;0xc51487e7db6b2;0x7cfdfc0bbdfde;0x79107c013a27b;0xb9795dbf55143;0x2c978d3b8a8f0;0xb87676d321ab;0xf069ff05615e0;0xa33cdf8ddbf];[0x0;0xa2a3babbec7cb;0x4833f1fda9e52;0xc526a07010fc1;0x6eb3509a9a511;0xb00c57c965791;0x996933e2cade5;0xab03e48e8994a;0x3de5b31fffd09;0x7272aad627813;0x6acd08b1f84];[0x0;0x8584be02bc547;0xe94ff260d06b2;0x61b38371aa431;0x251c55701a65;0x9cb89c5077e90;0x3f03439de2c2f;0x413d6fa9e92b;0xbd74b93fbcb14;0x49584c1463fe3;0xa5dc548bb9afd]]);
 ((V [0xa3dc567ffedeb;0xd23f31f20040d;0x3006f8193581b;0xffdaf6203371e;0x3f69da657a379;0xc96e09c8683a1;0x785e41cd2ae72;0x7a5c1cd208425;0x31e207e977eda;0x2f645dc1c3e] [0xc0872a7c56663;0x2d9434fce95f0;0x46ab5611db26c;0x6c8a96e806311;0x7f5ed29be1dba;0x7896159527c9b;0xe76bdf9ae5b20;0xa720daddabd51;0xabdd0b6290e5;0xa601a01b9ac]),[[0xe882727834f7b;0x2b3e1e35037ae;0xfdd401d9c6327;0xa4a31af167ec6;0x9ef8d91774fa3;0xdff990bbec0c4;0x236621991b9e8;0x52d2b53480043;0x4ea9b4ceea6a6;0x86ca31f3dfd];[0x10bef5dcb700c;0x9a999dcfe68c2;0x23bb84f1df567;0x2cae278d92442;0x7da9c37a014c5;0x3c4f6fb5aa08;0x8e77dc99ecbd0;0xba71408bb5ada;0xc5208413b9fce;0x5f6b22c9920];[0x0;0xdbbaf7b38406c;0xe640063af658;0xb4438f457a01;0x42bbff4105399;0x552fab27f2df2;0x1cce1edda19c;0x7e1ef2f42ec9b;0xa95ff6cc242a0;0x79ca261d55c02;0x7a54478a791];[0x0;0x9b20b2e106090;0xe2fa887b141d0;0xe1550c622d22a;0x5808999ed272a;0xfcb7b67a50d8b;0xbc8dda3887424;0xd0914e177fb31;0x1961382dd3d6b;0x6cb637dd8c323;0x5e4dfde4808];[0x0;0x6aaa3580db662;0x1eee1226c3696;0x7ed69a5c9762b;0xc12222814f912;0x7ffbe11145152;0xc51788734555;0x8c8ef07b2961a;0x7e4ace2322c93;0xf659f0558b72c;0x46f84bfe2ce];[0x0;0xbbd9f2e64f8cb;0xe7f2db027e31e;0x93a2f4cc13a2b;0x2fb2e06c6b0aa;0x68b07dbd88c52;0xfdbe8244fa277;0xc23572de1f515;0x3676461afa8c9;0xe623dce1af3f5;0x87953522c8915]]);
 ((V [0x4d80ad48d55b5;0x30e671ca92a74;0x5750177c3130d;0xf7fcbf94c9e79;0x2fc353268ed33;0xa81f5cea640d2;0x349df48c5fb6f;0xa2552356f00eb;0x2e335e154ac2e;0x1f7727bb941] [0xfb1c4ee9aa1ae;0x410145574526d;0x8bf7331304a5e;0x5dfa13c308026;0x6f2288aa18fd5;0x29c91766a4989;0x34f8777a3a853;0xe7f8310d5b05f;0xc422724081e95;0x4c2e66a35c8]),[[0x625066308bd9d;0xce602d0011e70;0x7f25468ed45fe;0x807b469bf0d39;0xf4b7c744ed7f0;0x10109da372b8d;0x7bd4629092118;0x4bfb9fbe3371b;0x71ba0c2906dd5;0xe9457fbb261];[0x58ee0b907dca9;0x6464fbc35d564;0x9f299f5affcbe;0x25d6675319d8f;0x628ccbda18bfa;0x43940d845139;0x52c7357a3bbdf;0x6dd7eefcc7105;0xfad28635b19bf;0x759b0a76454];[0x0;0xdac11f2675e70;0x9b50741ee9632;0x551bd5fa361cd;0xc8195b443a926;0x497b620d8d69;0xaa94177f71f9b;0x7bd69df00de64;0x383c5a9643049;0x4c97b6e19594c;0x8c601c687a];[0x0;0x37a1f8aff5ed9;0xf90bbbb8e994f;0xce96476f2aaf;0xff1310b9b0624;0x2df10e3584e0;0x3691dbc87ecd6;0x725b67d58b51a;0x232b8c0247d07;0x5e43c10ecb2d9;0x12e8917fae33];[0x0;0xebe71f3519152;0x3a848537e527d;0x45000e032315;0x6205f9329c29a;0xefaa51968e1da;0xa43240ec887da;0xde9d219ba0fa9;0xb8e639fa4ebca;0x3d15b1faa85fa;0xd48f9560c5f];[0x0;0x21833155ad728;0x83d849679bea3;0x40b49bec5c8c4;0x43b5628edbf0b;0x949a7d9c168b8;0xbb6ff09e09378;0x131d491bb638e;0xcd751fb54715b;0x4536cc26843d8;0xea3d4873eec0d]]);
 ((V [0x3a8dfd3ca15a1;0x54dd76de7f970;0xcf36899272a90;0xcd4b1a4fa62b7;0xa85fbbe4fcebe;0xa976027a672c5;0xe876b0b5898c1;0xb21bc81781f75;0x604010c0246cf;0x359b86bab66] [0x403f1b6bd63b9;0xf0aa061928126;0x9e5ca1a2da026;0xfb58c142d025f;0x6fe5057953220;0xa47820de85f60;0x3289733acdecd;0x5873c0d778230;0xc31c326e25854;0x79d0d67e92]),[[0xdec2ffcbfa3e6;0x1bb89dc0f95a8;0x693db5fb3fa2e;0xf60082564fb99;0xc905666ca5735;0x64591e89b2fef;0x272eb664057c6;0xa27518bb4318e;0xb5343a3ac25ac;0x28e032f66c2];[0xcd245ffca5a97;0x7c6162f4c6962;0x702fa8800384a;0xaad68a71dc377;0xd282a41daa6b8;0x5eef1ae39409e;0xed7246ea22a2b;0xd3f619cb24750;0x6701b357838de;0xebb762b17a7];[0x0;0xb7f757ebcd58e;0xa7aab03fded4d;0x121be352262b5;0xf61d7f1131ee7;0x682380b7be880;0x17eca223a14d9;0x1f0e056194696;0x669b7b3e611e1;0xaed25b32231e5;0x3de1315646];[0x0;0x3235d35c667e9;0xac16c945ccbb9;0x999f3f6f82369;0xf36a8776b9e11;0xa476b6df2d8e4;0x417d5d9be7ce;0x1555bff1fa4c3;0x8a5256c807a1f;0x3cbfb5060a6ff;0x1853ef9b747];[0x0;0x952e59f22159f;0xddf28cdf946a6;0x941f412072653;0xd3e30736bbc4a;0xca36b3d27c80d;0x284c7c9d4899;0x610a234af08ed;0xd457e582c9a19;0x54bd703408b;0x686d4463b3];[0x0;0x97219772af0cd;0xefbe423d59a6d;0xbd5626c95365c;0x7e4962b6ca8e5;0xe52d21bc02d16;0xdea100f94dd06;0xb636966c07a53;0x17203e31d5795;0x75bc86b48b1cc;0x29058a164f300]]);
 ((V [0xc54650a133242;0x777b9cab9633e;0xc0ceb917728cb;0x5e0d7a46792f5;0x651df14ab2a55;0x982fd8a9c3b13;0xf4656f3309f3e;0x69e3c7e2fb063;0x6aa1c99dd2304;0xdc8f74e04d] [0x48d892c19f9af;0xfece5d4740593;0x6aff4e6521a71;0x6ee57848af01a;0x9a696513cbadd;0x3a856c55e2795;0x3d56ad062fbae;0x58d55f020d07a;0xc401b4e68ed04;0x57d7e3eafc3]),[[0xf3464893cba76;0xc825b3f6cd38b;0xbc121781d2e05;0xffd8525c30ed7;0x5687fc33d0af3;0x67836a23c532b;0x42385fb248712;0xa043cc262d68e;0x312d3d8dee167;0x6cee98f6a6d];[0xbd48bb1d7a2d1;0x99c3bc73844e3;0x6c8d2e94d6a00;0xbcfdb7e26f6a1;0xfc62dd4689a94;0x69783c1c74ccb;0x6c37b54a68637;0x22038b124d214;0x77f9014c27e6c;0xd9037e51726];[0x0;0x2b067dfad3010;0x2d468a08ef495;0x58daebdd8ed90;0xf69ab3e3b5616;0x1d760d6b80455;0x3a0d49e165940;0xd662640ac24a0;0x42aa59a2d7abd;0x71c51a2a19c84;0xb39c445bc8];[0x0;0xf502ad75b0503;0x10c651368627d;0x2c66008830039;0xb222b5069bd39;0x5b20209817fc;0x4b4c97a5dfa33;0xd9d9e57aef4d4;0x7481f121286b9;0x3c27570f5681;0x67ab46dc5a];[0x0;0x78e9d75a2a820;0xea26144dad4ad;0x6919fb34bce20;0xb9a814ab30a0c;0xe81a31c911165;0x9bc02684dd3da;0xd1c5688210162;0xcbc67950d583b;0x61c19719d77ba;0x2e5a2f70e2c];[0x0;0xc471cddc3ef04;0x6520289ccccf6;0x633df3f4d3ccb;0x5ac61d217584b;0x7cfd8e7924341;0xa52774a009280;0xbbdfeba46d0c2;0x96047049eea2c;0xd2e38db819524;0x6d6c7981ac0f4]]);
 ((V [0xd951d5dc12a08;0xdad570ce05254;0x5aa212598825;0x39b5cb51be64d;0x4de1171b76bcc;0x8c00af4a94ce0;0x9c001207bedac;0x5044ebd477446;0x5dcd1cbd43f46;0x48e70ff2371] [0xf60024dce37d1;0x35e60bbdc0cb5;0x455c17a7d2047;0xe4af58aa33a52;0x2128b839a333f;0x906ad3e714f54;0xf2feca63019da;0x10f4af55b73e6;0xf983f924e7cff;0x60854f704c2]),[[0x182af925dbd23;0xf532c4bd08e09;0x2c312ab972fbb;0x3397db80afbfd;0x33e8b4019dc81;0x3f8e422d89ff4;0x8457ed46e6860;0x3607bd33a0499;0x47c25cbcd9519;0xf6ca066ceaa];[0xe1a7a883a02e5;0x4cdfe5501b4d3;0xe7e0dca43e27b;0x67a567fed4fcf;0xd12fe582de16f;0x1b5cd15ebd805;0xd3b2405851060;0xcd16fb128fd4e;0x4a496691c4033;0x7fa4f5577ac];[0x0;0xb2d4633af44e9;0x897cfa036683b;0x2cb48602d5d6d;0x268a4634c54e3;0x3610e9e23a420;0x703e3e0636e9c;0xa72c0413645cc;0x63a49795d8b86;0xd01cde37b22bd;0xbe06e1454];[0x0;0xddd0a4ba89b61;0x4c5baf08bf8c4;0x3018e0e0f2585;0xc7f7889a9fe8e;0xffae3bce0e0bd;0xd8e80d95530cd;0x520233b381f50;0x1e01ae37f2f7c;0x8bad9fae31609;0xa95d8f24297];[0x0;0xfc6ce04e9ddb;0x1e89da4b97106;0x9c2bc8dd718d4;0x7c71f70485451;0xf9698a1cde7b4;0xd8055556a67f1;0x8d89441eeb713;0xbd48b6a0941d0;0xfb38317005d11;0xede8e3c776f];[0x0;0x31f175e767445;0xa4d813df2f78b;0xbe86e58bd8ca;0xdb972a6d8787;0xbaa4069f03024;0xc18e4ffccbbde;0xe777bfadbc316;0x7df1e81a5939d;0x2846d9d14c494;0xf787d2e06e79d]]);
 ((V [0x8bf940c1d3d78;0x57f5bc1cf4155;0x1b2eb351147d0;0x3cb1eab2ee93;0x52dc55191f681;0x4218b12cb5776;0xfa2a223452f2;0x6b21778931c8b;0xd27f4ed2d2c41;0xc454346927] [0x5d1f226680814;0x9ebb6fb8649a5;0x2fc6e2b96263b;0x4f39aebf461e0;0x62c8f6297e801;0x674f8921aa217;0x5ed8c78e3467;0xd3bf4a8350fdc;0x8967171de9ee4;0xb7f970a8d95]),[[0x48d14bec0f17a;0x3f1bb8159330b;0x46626c9163409;0x6fa4fd4f0a7a1;0xa95764efad309;0x874d372567903;0x580336407da71;0xebcabf9fa944b;0x6e89918d5ea99;0xe6f66dcc340];[0xfa20c44a73347;0x9050057492576;0x9d68299d2b8ad;0x53f6c200ec14c;0x290ffe78f06d;0xc39213e4dee52;0xc1ff65fe49f05;0xc6b33d33eae53;0x15ac2245f9513;0xfde25e3da9a];[0x0;0xd8a8526443f3f;0x7cc6083144918;0x1f522ad8c8e97;0x683108a3c1a57;0x11d8b0744dceb;0x59d882122b0e2;0xc5a3c3fe106ed;0x193765a6ca17b;0x9fd4b4655b5ea;0x14c2c986071];[0x0;0xd9704e78f18d;0x4f3fadadc21db;0x5c89ae8d98810;0x3ebfd7246344a;0x8c08545eea068;0x5e822b742d825;0x4a04c15330567;0xe0fe35dd33ccc;0xf8acf32d8b363;0xae295dbdf60];[0x0;0x6022b96fb6e84;0xa9530a295bdec;0xd39849020280c;0x9edc9bc682058;0x591f9f9ab092f;0x2d8ce795d2197;0x43bba0b5df54d;0x1ed05bfd8fa3c;0x7ee6af683fe7f;0xd05fba82210];[0x0;0x41537547974e7;0x3bb8c631a459e;0x76435c1107b5c;0x1b8945dcb30d8;0x3e5dcf806133b;0x7c02986d15a9f;0x4872ab107ea95;0x8ccb17d8a84c7;0x78d3ee7405467;0xe81417f55e5f2]]);
 ((V [0x4b6b9d0d987ab;0xd8fa4fde162ed;0x29c1ce1f93ecf;0x32fb6916921a2;0xfe6b8ec4cb5be;0x36116b73ba2c5;0x2d327f8632e62;0x97cae7961d21b;0x584f21bc42124;0xf431453c50b] [0xfb950e332e250;0x3a027e64341f7;0xd7b70123578eb;0xfa94529cd3af2;0x8cd45de3c180;0xadfbecc0000c2;0x8f036fb034210;0xdee9d1253f9f7;0x36f6b4904c074;0x2a6c0c86f7d]),[[0xf3068511ceeae;0x850ac2bd71931;0x1b390338a1998;0xef53b2e1d5b43;0x433c54c6bbe7c;0x513eb619bd857;0xed28558ff8a50;0x69f6b56ea1a39;0x6c65c51701c5a;0xffc41066920];[0xc512008af2485;0x3f87649e53c28;0xd06fe2e9a8a6c;0xa61328de02cc4;0xc98794509660a;0x597ea23dc253a;0x68c9d86e577aa;0xdb6ba427bd221;0xa9fdca041e368;0x9af8645c88c];[0x0;0x127c8c8921a6d;0x6d569cf02bf46;0x7ba5a1f35850c;0x51169e75c5ba;0xe35e9a6fb7558;0xb2843bdac1c9d;0x8267b2f076447;0xc1210449fae89;0x4b7587373235a;0x96910bf37];[0x0;0x4636f6e3ea53b;0x47a61dea105ab;0x7758ed1e8a31f;0xfb047f514600c;0x91264433ae03d;0x9933b8b1edaa6;0xc4a52d0662960;0x62b3071767899;0x86e610e644fb1;0x16f9cbbf77e4];[0x0;0xfe87990befb0f;0x57ba1d07c943d;0xdd0cdde873049;0xf43b78e3cd09b;0x90fa3a351dac0;0x4623bcc3afd4;0xfc25f16d9f67c;0xa558456002249;0x614e531176255;0xff882ed5750];[0x0;0xd4b899210a02c;0xe26ab50afe1db;0xbb638a9befe20;0x21dca1480a5ce;0x86a23f883c1b;0x910bb4107f640;0x1090240307dd8;0xbd3d0cf4d5161;0xa7abeafacf01e;0xffdc1ec177a3b]]);
 ((V [0x217a74ee5b484;0xf784599760691;0x958fde0d7d496;0xca838e18a2e84;0xce23282da92a2;0xb4151443463b3;0x6676a32693460;0xac027fa23bc50;0x42c5838d4f251;0x672973ec550] [0xd1c4b809ccfea;0xd8083cf716f4a;0xc9569cc73ceb4;0xab0014f6ea50c;0x7b4c652b59d1a;0xc1b887469b63b;0xef5924f176de7;0x191bf353480f1;0x5f9fe868af665;0xafde75846d1]),[[0x374d3d3c62f74;0xefd07d14bbfba;0x7d4c03ad09d9b;0x77d5171f4ffe8;0xa795668d1e67b;0x323624780568b;0xb65fdd3ef015;0x308773efaddc2;0xb335a20280202;0xd3a1e6e99f9];[0xd14dc805e3e04;0x5dadf9c6ac3bf;0xcd6071e80e304;0x1050eab9609e1;0x1cbec597a92bd;0x93ca534f86270;0xc226ded80fd4b;0xa98a2c2285af6;0x3af5925ec7003;0x8150b773f1b];[0x0;0x441879bd34423;0x1271c3f12e86a;0xcad94fa6e5335;0x9293889bb171d;0xed7421a68ab9d;0x584f5243719c9;0xe7cce7b07db53;0xc3ea91c5d78fa;0xa7ca231cf4883;0xe8edf5768da];[0x0;0x8e87991c1f9d0;0xa6e115af81c8e;0x4d4e553f11907;0xe6e4cae6040e0;0xed1873d0ad4a8;0x31807c88b280e;0xb585078b65fe8;0xf0b5947cfe568;0x13c07c94cdf5e;0x4623c515d26];[0x0;0xc66862e04a99a;0x519d6e68ca371;0x23c96446d6ebc;0x2d7e00ebd5766;0xe7c4599750eb4;0xf9f89e5b7fad0;0x92b2f5e975a25;0xbc9196285edc9;0xd37dbf4a9f959;0xaef449095f3];[0x0;0xd1fca840a8372;0x3e0b33706e523;0x813fd7c8659dc;0x3723fb56a6ddc;0x2db8e8b2ad476;0x64a2a49214a3;0x437016e95fb9b;0x753d92f6b8708;0x7bcfddeeada52;0xd4ea1f732e84a]]);
 ((V [0x1c5557818892e;0x43f9b138969a6;0xd505f289e1dfb;0xe3e8153ace79a;0x90c0a25e40db7;0xf9ba23b8322fd;0x1b25d790a1342;0x98401153e2e0d;0xf9adc8b8065c5;0xff2fca58daf] [0x875bee32c2ebc;0x177ab43d1706f;0xb6fc246ce6076;0x836c54493269a;0x3bad14f28ad47;0xe673bc109a784;0xaff0bbad70852;0x55af7feea63a8;0x484462f9760c;0x458de05b44d]),[[0x1137531349864;0xb29c0fe4a7c74;0xc6c5ba3e295ea;0x6028b09f229a;0x57bb9f237ec42;0xe940e42c8ab2d;0x3868595e9519f;0xd8e22b34c6dd1;0xd3f5fa01d44be;0x51c620a1b5];[0x8a3b5d6a7881a;0xed460a5a17a08;0x1de2a6a09bc9b;0x1777ca79c6246;0xa15ee85cfa8ad;0xf1c479005005b;0xd6791928e6841;0xb485b7db215b1;0x1570caaa08741;0x4c2b6ec2a4a];[0x0;0xd3bd222bbc5a;0x239639db36133;0xb2d11cb74cd2b;0xf8633b02fa3ae;0x1867049ff517b;0xc7b375f947a46;0x45749d8049e06;0x7114e422f26e5;0xac593cdc25a6f;0x299261fe829];[0x0;0xd4e53c9761952;0x110c2ba3b1e04;0xffd427028a36;0x38e27dd4b0b65;0x7824f60e852ef;0x5a1913762abf2;0xbcc4299fef942;0x6a423f410aee2;0xe55ee2c37d758;0x705aff5162];[0x0;0x10d55f97eac56;0xf60f6fa18fa74;0x27ef92acdb07e;0xdf47238389ad0;0xfdc2c0271d353;0x2354c70beb6e;0x29c57168d3af9;0xb0147a6a742cc;0x35e3923e7227a;0x1a1ef9fcd];[0x0;0xc3871dfe82de2;0xa2c008fb20ab9;0xe4af7e752a92c;0xe34e23ab174f;0x83b91606e2c5a;0x90d7e859d8eb3;0xdd0c47f67a56b;0xa415ceaaaea04;0xb17c264e856f8;0x51e75718b788]]);
 ((V [0xc1aa5879d131f;0x3c67c8475547e;0x6fc0cb5796e32;0x977a0c61f42bf;0xa9fa5089d8e1b;0xd6b775d67fa34;0xc4b4e31e68cf9;0x64a1fcdbf8377;0xa4637e91faf63;0x5f4369e5ce2] [0x853516dbffd9f;0xac2ec09d79eaa;0xea426c9d89b8f;0x37a806e5e1fe2;0x892597f2e67be;0xc6412c8e023c6;0xbee3e1cdd44cb;0x3373cda9ac822;0x152dde055995;0x1a70eb375d6]),[[0x1e1ff048f15e0;0x85d448c3ea97b;0x531c868ba5ffa;0xa3e4e96b53683;0x9098d7116cd93;0x9355e814f08c4;0x2b2d7db300263;0x8c592a7d5c77d;0x2de23acb326ab;0x78b11bfa201];[0x1c3052fdd7c4b;0x4de02f8e1e34f;0xe58295fc0a780;0x71c7372e4f410;0xa5c7fdfe0e31e;0x210311d43c33f;0xd03f3f94e9f8f;0x20ba0e8597154;0x42a8b65201c22;0xef80dd5dc6];[0x0;0x8780ffaa00c3f;0xc01aa95ce6e58;0x1631bd4341073;0x7888938bc5b5d;0xeced81c80b378;0xeed00d0ffc3e7;0xedfc3120659f7;0xb62031f14453;0x9f8d0e65bdaa1;0xfe603e08f0d];[0x0;0x6654e021a5acd;0xfced4da19d140;0x4d796fb1d9e7b;0x81229e5a9ce79;0xab214e5694389;0xb2005407e14ef;0xe8872ee15436c;0xc6ad6599a330c;0x3974a3331b0a1;0x41953fb9a69];[0x0;0x41815c7523153;0x26aac9e4282c4;0x62df6d67b8d90;0x78592369598c8;0xf9cbafd18be56;0x6efd32370302e;0xc64db4caf870a;0x4dce5926ececf;0xc17f42f6e104;0x38e684c2310];[0x0;0xf71de12553ff3;0x4be8147cc0cae;0x8cf804376c279;0x55c9d4a2b4875;0x3688dbd7a907d;0x440920a8ed15d;0x781817abc362d;0x13ae894304c5a;0xc89248896b428;0x7975328738ff8]]);
 ((V [0xce43935f63feb;0xeac04467d250c;0x6be3663003c7a;0xf018d3367fd0b;0xbce09fb0f1c0f;0x6d72449f866f0;0x2cab9f1262f70;0x9c63c8e6748cb;0x82ef51f41582f;0x5ad928f4ac6] [0x3320383f781bb;0xfd8f83d3d289e;0x9b2af6451f6af;0xda6aa9b4e27d0;0xb5b6ff83be8df;0x21970ac7f1566;0x307fead6cf2d4;0x90610734eaa43;0x9580a1d73cac6;0x239c64ada95]),[[0x55d8d5b635037;0xe976ff115efd7;0xadf24c8cb2f6a;0x91bbe716b7a0c;0x2499aaf6f53bb;0xc5f8dd94f70f9;0xd163749de55a4;0x363575b9350df;0xfe83c6585f562;0x62beffb928b];[0x20fc44b7cd06b;0x97faca00b3f94;0x541068060e967;0xff60f6b4ab26b;0x9dc411dc7d406;0xefa9ee1358f33;0x2d691e39cea69;0x69cca645deea4;0xeea6f4d200fbb;0xbb17d116b26];[0x0;0xcaa19c3533ffa;0xe9c25e9793b7c;0x2d8c26a599127;0x17c43cd3777ab;0x1f28b2f283b3;0xa52f7aeb29d13;0xf7839a2144b39;0xbc1053315efc0;0xb9ba76b8d1801;0x23731a59291];[0x0;0x5c60e4aecde4b;0xf5bfbc33ae67f;0x5bd72b28ce2b1;0x68f01ab3e9f06;0x25f5ba0d45895;0xb0d4fccfb55bd;0x794b91b151237;0x1f635b5c250cb;0x35ada5b2861ef;0x1465e886bde];[0x0;0x429d9ed1ded18;0x1342745dfd715;0x114c0a777cdbc;0xbd3e1a4e95603;0xa42dbe901c7c4;0xb9ff2fecd34bb;0xe7b7720b8f1d2;0x46469642caa22;0xdcfc533e3c4b2;0x2616ca4a597];[0x0;0xbcb5cf68a07d5;0x1011a1ebc7962;0xeb0eb90dc114;0xb1f8d9fe2ccdb;0x2d95fe6d509d5;0xbe74525af8d62;0xd90652abd1ce1;0x2b979f559cc27;0x887e5f1731bf3;0x632372b10372b]]);
 ((V [0xf7278301cc7d4;0xe3ef7c479f906;0xeb820c9c471cb;0xbe5cb941a250b;0x9217cd8eb2227;0xe92d43b3ebd6d;0xc1291c80592b9;0x767cb5788fcae;0x4526d6359e24b;0x83368e91207] [0xfdf31eec77c;0x1fe870ec5ddfd;0xe4e36a375dd81;0x78bf159d7c92f;0x6a50b72f42df8;0x3980fc693a5ac;0xb3bc465b63efe;0xcebdc1b4307c3;0x5c0dffa8b51b1;0xcf8ad5b90b9]),[[0xffbf60edcc437;0xb89560b6c6115;0xfb4a640d788ad;0x47c3c79f54522;0xd9a0002da9356;0xda0629e780ece;0x4277e6eb585ba;0x67e45bec56b82;0x304a61170ec17;0xf5f4c56a9af];[0xda7f4d7c01e05;0xcd01c0a994eb6;0xb7879dbeb5edb;0xca08bff16769;0x5fc1345e03d76;0xa29723759a734;0xf8a6adf6eeea5;0xdddfc6117ff12;0x80ac409e08e34;0x17a4816f613];[0x0;0x488317a360eac;0xfa69fdcc2f1d7;0x3bdfc418939cd;0xefda941e8abbe;0xa054b1ca51089;0xc898cb1c45289;0x25f53fc6d7c76;0x8c927b95e10d7;0x2e95d9eeb3550;0x203d69027e9];[0x0;0x5415205213941;0x84c8532f64fb9;0x5f21dcd192fc7;0xd5cc0bd8c4279;0x7c1f01efb61e0;0x2ad7190067baa;0xdfce73ca3abe5;0xf32be3b323678;0x2409a17656c80;0x446d71c0acc];[0x0;0x83c0350e08ea1;0xc0c6bb07036f0;0xa937dde345f75;0x2e20862c21447;0x85936497f148b;0xa5236b31d376f;0x64aff76cfc825;0xb6af413b9b88b;0x9c5056e241bce;0xec4e6be6f80];[0x0;0xe49606c86a5ad;0x424620c4e4663;0xfedf696b9e239;0xe793beb84c7e4;0x90f48a1a300e;0x1bf51889a7969;0x89ae8ef5ee625;0xd664230cd799f;0xd789b000697c6;0xf6c3f235a14b7]]);
 ((V [0xcc44e46944eae;0xecb35a122c442;0xf5db898183ae9;0x403fe5646123a;0xb20c9d1fc7737;0xbbc30eac65d00;0xca4e19776ab19;0x719f08ca271eb;0x26725389ce0e4;0x9b953024b5f] [0x2aa81964450f5;0x4fde7e44c201e;0x49ee8ee652506;0x82b08db503597;0xaa4b3dda879b0;0xccf49a904729a;0x1f06823d6a947;0x403b07073b4a7;0x36ba9da279e41;0xf69d61bbab7]),[[0x2e9f4889540b;0x846b38cb21ef1;0x776096d3ac6f1;0xaf5f85170fd98;0xf67a9e9edcf4a;0xb551873deb9f4;0x5c2aa8c0482df;0xb9c41092ab48b;0x9e5e54e47f947;0xd3dc6c6c7b6];[0x88cd0552db491;0x9338fb51132c0;0x9d33482e181c4;0x595b203d21782;0xab821621eb59a;0xce0516b2b2774;0xe391ceb989bdf;0x93f5269b2be73;0x16e2074e97312;0x72b401e984d];[0x0;0xa11d042d12109;0x15be7cd71e745;0xc133131b5c5d4;0x61259cf677ff4;0x5c557908ead6a;0x9c89462bc86c5;0x8717c9b3710d7;0x1c7a73afccb1e;0x60fb58d27eb1d;0x4340e188fbd];[0x0;0x3ec11675dc147;0x9d1172db4390d;0xb16ec21a989bd;0xb534b241d3286;0x120e005809d1e;0x4596cb6ce7b55;0x17d8141cd610f;0x3e0909caf72cd;0x859422baa21e8;0x1578442bb68b];[0x0;0x47313a22670c5;0xa01992a95939f;0x7b5f0dd7c22a;0x2a68f6c7a7bf;0x90777c50390cf;0x44f8f263b270;0x46ebf7b19b4c2;0x3456c197bfe10;0x6514d7fb92e0;0xaf5518855bd];[0x0;0xfe46d8d3a9d52;0x81dbbed77cf47;0xa2261d268be31;0xf34170dcc12d6;0xeb2e1511d5d6d;0xbc537b1a59790;0xf319b82a73246;0x63f3a827f5f47;0xe6e1d58925672;0xd49c1dde16266]]);
 ((V [0xcb0782861a8a4;0xdc46594f1ae42;0x732ada2b5e38;0xe29c84dc9e01c;0x39c5b1ec746a8;0x489265f9147c6;0xcb183ff9bdd18;0x13fec103165bf;0x54a431158c74;0xfd00261707a] [0xcb48f33bfb685;0x8cadc85512ae0;0x63ac7e8489273;0xfcabb8a9d459f;0x19876091d708b;0x2da45c78c526e;0x67cd2373fa664;0xcab70c6b1522b;0x9ded6a1b314a5;0xe29198998d8]),[[0x475d1de6f1052;0xb751272fe87fb;0x619e04b0d27c0;0x619a52e9fcf93;0x48419fc255e22;0x78448ad225edc;0xed47b66c8ebec;0xccd2df3bfb96d;0xe91f3bd5db30f;0x8bf8527f535];[0x54e79db9405ae;0x36c7e8149b378;0x2fe6fd499160c;0xd56c494bc9256;0x4b0cff6f550e0;0xfcc2074033c3a;0x735b9c3642aa6;0x3b6a855808b60;0xead6006127b3d;0x1889f602001];[0x0;0x5befad34b3aba;0x853d59cb9d05a;0xdc8abcf0e5de4;0xf51dcc5b4076b;0xc538ffca36332;0x6d16fdc56b3bf;0x4d5e0be2a1f79;0xf9f39a347e1e9;0xd1e91b80d8206;0x5e8dff3d881];[0x0;0xa55494e92d8aa;0xd29ca36d920c0;0x933c6644ebed0;0x1902e6e74225a;0xd4e27012c94ab;0xb9d2c89cc07cb;0xea9a0e3308d9a;0x656611d64bd2c;0xefabc74d1219f;0x10dad58014b2];[0x0;0x6191bc283199c;0x14c1cc22c2d92;0x8fbca6f3908eb;0x342d85cf6b34f;0xdf0377df99aab;0x549ef12bab146;0xf4e39b1899d05;0x8fb77760e6e1a;0xa75e05e10b7;0x4c879a7635d];[0x0;0xefa13800424c8;0xea08ddd68c5d9;0xa91a48123af93;0xf3a3a6d16d024;0x73e35ea86b99a;0x7bd29567f3da8;0xded4818050309;0xd42997df27d7;0x6a950a6705484;0x8c4f073f45264]]);
 ((V [0xa42e26e50e9f0;0xe310392c5a08e;0x11faa51506055;0xdf973ba0e262c;0x4da99220f6d70;0xf9ea1a25e1fcd;0xbb06e9d93f70d;0xd487146d2e876;0x320591c3ec24c;0xf52811ee451] [0xf52992a016e0;0xd40fa2c843daf;0x319b899cc63fe;0x613325aee9c17;0xfeb3ecdd935b1;0xa8c6c61b9e9aa;0x86a8cfda7e070;0x9e6891406e8e7;0xfdf3aa027eb2e;0xf7b3cbee4b1]),[[0xc0a3aa5c2421f;0x5c612ef5577ea;0x32129669c2ba7;0x4452f8bc052d9;0xd862f7625ab1;0x19b080530206b;0x55c7210c71240;0xc40546a2b74c;0x4b4904d31d7b0;0xcc06a833ba2];[0x939a39e6bdab4;0x58fcd7c8454d6;0x8b33cb96f4a8c;0xa321a0bad8f9b;0xbda8e9d790751;0x468cf99c63322;0xdb99de0645ce2;0x835db4d95b424;0x1320c9380668c;0x7e671c66987];[0x0;0xa56d0bac66ec4;0x9876f4c1ed964;0x7f0ae3151fc80;0x4f59da73df314;0x676773a95b9c0;0x9b4da592ac88b;0xb15365b9ac6cf;0x8affee6e4ea7b;0xdbfa2812eb4bb;0xfa094b498ab];[0x0;0x9d9f5d9ef6afa;0x23ff5f48e9051;0xd148ced047260;0xbcae7c7f88da9;0x1118c8a692553;0x97e39ec321bca;0xc1ba1c8f6a0de;0x4d3babf184a02;0xf3ede15110cbd;0x16923d3c2888];[0x0;0x2e18708c66b2f;0x5872746ffdbe3;0x5aca96ebb4e40;0x403e9790ae5de;0x872117990d3e8;0x4116c9cc5dc78;0x8d99c42cbd5e9;0xd4d77b1bfca34;0xb284250c1c08b;0xa29a9c3ec19];[0x0;0xd7707bfd8780;0xfb178a0071d76;0x1f1b841348dde;0x4e08e9784da09;0xcbf619dba2819;0x8a2ac00ba6f57;0x91d46d477a60e;0x79ab91409885;0x13c34c7055719;0xccd8ef403635d]]);
 ((V [0xa70cfbb4cdeef;0xa58c804fbe23c;0x92b407f38ed2d;0xf8e1046f72df7;0x9e81d417baa53;0x342cd34ef2c7b;0x21da61202f3a7;0xa6193208387b4;0xbfc1bb074b336;0x443b928695] [0x530acbfbd5a89;0xc32c6284fa55f;0xbd52ed2dbe67e;0xe5b766cc6a96e;0x6ee038dc525e8;0x371cd1f0ef522;0x260295feaa7d3;0x5efb463dfbce1;0xceefb9d03432c;0x9d32ab025ad]),[[0x8413f3f4025f;0xb1979f7f328c4;0xc266baaaf5140;0x34a50730afc7c;0x1b6cedc8f2a5d;0xe829e07d764be;0xb7fd4edc9c372;0xccda341894464;0x8e935c5c5f128;0x527544b2719];[0x8e75118a1f6dd;0xf75d6f6820887;0x75a5c29af9bf8;0x9240a352afc78;0xf551caf06860b;0x9766b7f1b969;0x41e0f801237a0;0x2f31fc84941ae;0xfccdf8a4eef6e;0x43551b9b063];[0x0;0x7a72145a580c5;0x62416127364b3;0x3a661c6b119a;0x913984ff25ef2;0x5bfbc289a7ba1;0x2ac67ed85896e;0xf22c87447f868;0x7bd6de87125aa;0xdb4d5b8683fd2;0xeac5b897abe];[0x0;0x1bbbdd801acf3;0xca72fa3661237;0x7c3ebbe1f22ad;0x36ba96bed6735;0x194d0c2c8fc27;0x9c4f6080fd011;0xc806953d52a52;0xd00a0d06482ef;0x3e844e2c8dd5c;0x9f921dede62];[0x0;0xb5301fa79d7fe;0x4926c0b5c7225;0x169ddc31abbbf;0x99ba81ff87ae5;0x3f898b8fbe84c;0xac5727f149345;0x4addda343e96c;0xfece99a65b9a5;0x113e704cace7b;0x1a8f55ba2e5];[0x0;0x16800c3b583b9;0xbc227959773dd;0xf733c9d819ce4;0x73431a200957f;0x15700ace7ce38;0xd58ec1998a3c1;0x4c6e3f90d364f;0x1dd2169c5c66;0xf2970acea561d;0x53155174948e8]]);
 ((V [0xb9b2dc74e9231;0x88fcc29cdd838;0x1d9de492aa81b;0x2c40fdf035ea0;0xa8eee4e770e96;0x9a2ab46e953fe;0x937de100e3ea3;0x1724b03d942d6;0x620c5f8075819;0x83cde2a2a75] [0x591c607621d82;0x75152a51649d;0x49e8344ee0dec;0x3f8be888f774b;0xab43c84cfa20;0x492fa732f7dc1;0x4558e7b0a5a3e;0x6a251faf8ada6;0x75ea9ce5931dd;0xef76ac0d5e]),[[0x48845dc4d6ade;0x4e55a64e5bb87;0x2c31d08f5aeab;0xeda714faeceec;0xc22b9fdf09913;0xfa9ac15b7c37a;0xb5045fb9195d9;0xe22452adb60d9;0xd174c9d435948;0xc11d4847677];[0xb45445713a1ad;0xa4ab25b4ac019;0x2ca5af28ccedc;0x3e1ea93aacec5;0x8efcc27db667;0xdee97459f9098;0xcf2aa25114da2;0x2f514c5d041b4;0x39896f79707ce;0xb1bb2546f31];[0x0;0xb89533a0fc2ec;0xb30cf91d5bdd6;0x74d961f203afb;0x5bfb4b03a8412;0xd26f12f404e84;0x9b57608a77072;0xfe45425a52d5d;0x3dfe6c43746db;0xd74aede7d663b;0x122fb3b45];[0x0;0xc1d5259dca6a7;0xd75071a46bc1f;0x6ec571e4df05d;0x1e8a1c98f3e99;0x193c676cc3a67;0xf15ca10108372;0x11167e0e32dd9;0xb0dc20bb01d10;0xe4a844c17eb9f;0xed2a5c187ce];[0x0;0x440b87b5fb7e3;0x46c8b0e316c4a;0xadc5ed19726bc;0xe2e20346556b1;0x1f0a80eef4d4d;0xa923f7af93ded;0x12b6fd832efa6;0xa68f2754384d3;0x4d99bacf18b6;0x91ad2a551ea];[0x0;0x78a25e8b8965d;0xf6402af7c8b1b;0x88263131ac33e;0x96ce27b5cda08;0x966fe9aa768de;0x9bda6ae4c836b;0xf678dc33f13ec;0x151a1f4ca5962;0x6fdd7c9f56c10;0xc17e2fcfc09a7]]);
 ((V [0xcc93dfb132ba7;0xb357a58c6de99;0xea5b5989eef3;0xf28c9e80bacd1;0x2dbf9033b8e29;0x75dde3f6215ed;0x2726fdb906a20;0x856bbd1598c7e;0xd5e8469955418;0xc53bd259896] [0x333bf6ff8cf99;0x8e464507fb448;0x71f937528f2be;0x14d6520e05891;0xa7d2eb67509bd;0xcbb2595d6d0b6;0xf56c03df8f836;0x95dc9106c1eab;0x838870d9f08a0;0xe19acf6112a]),[[0xf161b96f05c1b;0x2bc84e60420db;0x6c3484358f593;0x8f5de30c54274;0x9e42548111202;0x7d78fd67356fc;0xcd1dc15a05e52;0x1df53a23380e8;0x28a734349001b;0xe8ade307790];[0xa7b4596431bab;0x5b6b83827a431;0xe21719c23333e;0xfd4353162786e;0x54cb66e673d22;0x9522da776d6c7;0x2812f4936e65a;0xd9e8374c98693;0x5633c6ae061d8;0xac34cfba38e];[0x0;0x1f9070a58989a;0xf5e0da819af33;0x3e932f269471a;0x4706eba253117;0x2e82c06d56f00;0x90eecaa841e4f;0x3dd7fbef08701;0xf984bab8c8911;0x5bc4761274023;0x43dc5b87386];[0x0;0x5b87386144e21;0xb09e341ed0459;0xa02467002836a;0xd9e2855c054f6;0x7a195a086003c;0xf5a2e3466e95;0x3bf73033ee138;0xca3c264084a58;0x47725ea82ca20;0x1b34c66f735];[0x0;0xe9264032e4eb0;0xf20e71f57d368;0xa6dad9bdf48ad;0x1ab70f004ae34;0x98f64c828bc6f;0x76ef9adc09244;0xe9052c2d243a7;0xd969971acdd8a;0x46932629ca363;0xd37ba19a2cc];[0x0;0x1bd65d2b2fc10;0xced59dc01fb7b;0xffe159b2d1a63;0xccd77933bf38;0xab416d19ecf6d;0x18b69ec8d3f8;0xe30660f62cb6c;0x8cd6b4a63a98f;0x2cf066832af7d;0xe95b18d7f15b9]]);
 ((V [0xaa052f1df21d9;0xae919e5e5619c;0xdd30670d76687;0x28829359d6b1f;0x7198b78da3ad2;0xa64994c1a8754;0x8cae47e47d9f6;0x775637e0040b5;0x60f3110b2f5a4;0x6a7e19f05db] [0xa4a80cbc8614c;0xcc84ca9824274;0x5a084fe2569eb;0x8811d3a7f5386;0x80f3a08acee27;0x91a3fabc319cb;0x36a56f939a513;0xe0cc3b477a97e;0x9b07e84712a4d;0xc41adeda821]),[[0x8772156464b10;0x83d2191b44648;0x79c5f2d2ea999;0x3556cf939349c;0x42130ccdad7b7;0xa3ab068e0ff49;0x5ade070dd113d;0xe0da43d9651a0;0x86348802cbcc2;0x377b16c34a];[0x438f8b0045101;0xe879219bb7ebb;0x7db204f042530;0x14ff9ecde250;0x7f2f7275bea0d;0xc0e8d618ecdcf;0xeca992a76a84b;0x285f23054ee3e;0xc0406444598f6;0xd2a9d07ecb8];[0x0;0x5ee43a4fbda90;0x26cdb4df615d9;0x103c9c7b7ed5f;0x809b3e840b940;0xd16e8fff1677a;0x5d472392fdef7;0x5cea0e55e0960;0x411b43d07f347;0xeb0a9a26bb170;0x97f51fb86f9];[0x0;0x26bea938ca8df;0x6ba4cc3fc6526;0x9d27db0450d96;0x26eca4d194c00;0x409390123f316;0xa050c1921ca18;0xa117073c332cc;0x119db4f6c4752;0x22dd9385b0eec;0x61c977fdce];[0x0;0x3c882e6d06d5f;0xcb684f578fe3a;0xc6e6e7562b9f4;0x9133110a13165;0xa7a0e97564367;0x9b36b9874e230;0xdb39d66799950;0xfaf276ef94ebe;0xbb56d529b1385;0xc061ef6c];[0x0;0x2f76cb7cce13d;0x517356194202;0x56caaab12440a;0x51c206d4d9587;0x8bc4f67bc73e7;0x3081877eb4212;0xd39e390105218;0xdcda6100cad5a;0x6e0ac28e1bd34;0x37c63c3de58a]]);
 ((V [0xbf70f09225e9f;0xe6fb609049f8b;0x7778cfeeb65b1;0xe66a8c4841fff;0xdcbe286e3f7f4;0xabc1e17df71f4;0x747a3c18e3af9;0xa66b920f90558;0x88c6a4905d59f;0x14e7ed704d2] [0xb896f3de52c7b;0xfcc199d6292df;0x75ba1dec995c3;0xf4cf70cdc7268;0xaf4738f8682d6;0xe8bc5228a551f;0x2e1f8628b9e25;0x90ff07045829;0x6203525c49743;0xcecf2f17ac5]),[[0x7d8d446801c03;0xdebe55cd8032d;0xd10c5ed8019d9;0xc5172bd678ca8;0x1210e306234a5;0x7e9be790aed8f;0x9aae791722948;0xc1610db3e8b0a;0x1b396c99aad95;0x2f9768aa13b];[0xfc37a0bac2130;0x6bfc978353604;0x2731df3e615e5;0x4f9bd470679b8;0xf192a0e6fe9d9;0xc466e355882ea;0x9958211f07961;0xb18875c4762b8;0x69b9de7c98f9;0xf898dd18fba];[0x0;0xb0813e85fe537;0xfd210762af461;0xd2ead82e4b0f1;0xd2266b289bbcf;0x4d07caa06767c;0xf2e24ef484a9c;0x3764be830b2b5;0x850c211e3f606;0x7d7c8fcc27d5b;0x2c4cab9898d];[0x0;0x67e3f9a9ed5ec;0x35211cab56b48;0x845da8656e1c;0xc45a83dc3ee64;0xac8d5f22d6141;0x42328def76803;0x1c5525a1ff16;0x928e28a616aee;0x8aa6784e09c9e;0x48e9d5e1887];[0x0;0x72fe4b1d52c88;0xa8f4ff81a0fff;0xb2877ef41b150;0x2bb9d272e55d8;0x468bb9ec7fc9a;0xaac4dfa7349cf;0x8e9f2e33b9821;0x688feff15c46a;0x91c91c5598449;0x8d8f1fb16a];[0x0;0xe39d90a2ed7e4;0x6002f9bc0f1ed;0x9da39eb70f265;0x3ac5a682dd77c;0x5faa18a481d98;0x658aeec16ed4;0x9f8cea7aaf64d;0x8661fb42788df;0xc2acc31929ced;0x2fd6e9437b665]]);
 ((V [0x6633f8fd24a36;0x66c65819a218a;0xad3a2652bdbd2;0xfa89f5eb2be64;0x7f26cb66f6d25;0x40ff4009c920e;0xce60e557023ab;0x5fe4e8553e268;0x62f2de83ba2d8;0xc68a11eba73] [0xff462a90b96ea;0xdc02dcdedbad;0x7e80750ba56be;0xf762d2c5ee840;0x2fbd2112c951a;0xf7e28273aa406;0x37d28e59b4038;0x43684df4723a8;0x70d0704315d8b;0xb09f0bb774e]),[[0x76d4591715257;0x518a997e45aa0;0xcb39c36cbd07a;0xae59f8a7d2016;0x3d26f9a7be7e1;0x6925669f710fd;0x46e44690d16bd;0x9b3de018226e2;0x5d49ea5b98333;0xd1458cc9c7b];[0xc34bc4b476c2b;0xbd90d593ac07b;0x81307c90afd85;0x75a039ae62ea5;0x12e0c793b2e3e;0x8e517780f7524;0xb857cab16d3e8;0x26d6cc1ccaf49;0x364cac6124c3e;0xb9233cbddd3];[0x0;0xb3fd36275e8ba;0x8b8d3e493d298;0x1ec3256e5acbb;0x5324ee5495771;0xfc2c0523d3fe5;0xa07d4235721a4;0x8078e203a47bd;0x48ec6b1c8c850;0x2b53eb1f1c501;0x1b50f37e8f];[0x0;0x12c13c456d403;0xc8899c9619c02;0xadb4e915d269;0x48782e43c520c;0x1086510404deb;0xb62f45c18febf;0x51773062bb209;0xde8c894f79bd4;0xd4265d5b1cc5e;0x1521eaa0ca9a];[0x0;0x146c2d32300fb;0x9314b3ac82063;0xb3c11584fb4b2;0xe60604d5d87e6;0x9ee1468e45b0a;0xca96437bbe58b;0xb02514b8c3ec;0x20b11731a9668;0x9dea9bfffd653;0xab12a2c6aa4];[0x0;0x9066224c070bd;0xd3c84f550eea9;0x1c3a3c32c29a4;0x50b50c18b7d7f;0x4b88c20a94d09;0xe1ea37dd489d1;0xb00d8a4bb206d;0x21c88f56cf14d;0xbc149851ef81;0xd1859cb46444f]]);
 ((V [0x46066bf25d8dd;0x8f8fdded37674;0x2f8e7c117ff3d;0xcca5c84f03454;0x8f010df463959;0xb0ca87d261279;0x51819ff3396a7;0x97fabfb1ba0d5;0x84431785a3012;0x58237a26999] [0x812f6efd4132b;0xfb5c192f053ce;0xd42602f919417;0x68e0492db0cd5;0x1bdb6cb00cf39;0x75356ea74890d;0xa2b2ef04b3a6c;0x3001de7ade024;0x33111f50c29fb;0x397845e01c1]),[[0x7b18959387d9d;0xa54dd32b513b;0x145d3646f5c72;0x777ce48bcda91;0xe62c37442862c;0x8f9c10e6263f6;0x65b28cc327408;0xf937ee922c9c7;0x8a0e0a38910e1;0x4b33ac84ec0];[0x1f29af6aa62ff;0xdafc6a9062887;0xb31adcd2d1524;0xce870610031bc;0x4c4f50b91df93;0x53dca753f7a9d;0x4959c90ccc6f9;0xaf3dc5217ce7e;0x3e9a88f01ab83;0xf2adfebb509];[0x0;0x34635427f2073;0x5f0199c493bef;0x11a68f7ac66f6;0x523693c64c9c0;0xed67dd7177f20;0x597a691352b1b;0x64aa3a801989a;0x63c8db4b2afc7;0x93c877db11458;0x99f9de2fd9f];[0x0;0x481dac6a2e1a5;0x81d92a3cdb88a;0xf9fce5192e26e;0xa39fa37b08be5;0x143e4de4d44ad;0x755ede865ec81;0x76504f6fb46c9;0x8687dfd03690d;0xbb58016aa416e;0x67c47e494b0];[0x0;0x181b316b99300;0xfff3fa8361a18;0xe5bac1c865cc;0x3bde2796b9b2b;0xb1f8168aad252;0x501929181d359;0x19a2070ed9c2e;0x96c1a33a7db27;0x5fbe3940724d2;0x16175184138];[0x0;0x253e932a3581d;0xb9ef170b42f8c;0x62d4b0ea5b444;0x7148f26b89255;0x12404684d8082;0xbebe711026f55;0xb8115c1855e82;0x62cf29f9ec1b9;0x16f1276d6740a;0x4b9f4e88be2c9]]);
 ((V [0xe466281a83e11;0x8729c84b9255c;0x6c76612ae67c7;0x3b22833836d96;0x40b56dae9ecb7;0x35f6c128105c6;0xaa8ae7a0340e;0x170e6abaf399;0xe0850a58d2dea;0x5edb4113d1a] [0xc085ede1778be;0xe9409e6a9af53;0xb2e990fa5672d;0x73790bed6af80;0x879abb6e2892b;0x429e57702eab1;0x58fbe6a2cc40e;0xaa780f242044e;0xfa9a14fd1dd07;0x47f3ec420ee]),[[0xcdb29d22b3b81;0xf1c19acaf49cf;0x584b5eb1f08bf;0xd1fdec39c6a63;0x4c604a07f7a9b;0xfa44a157680c6;0xddde00201b460;0x2e0b34cab3375;0xfaf5de9f10d4;0x59127c028bd];[0xd54e3648810c1;0xa428b95691a8d;0xc37d2d65c1b52;0x59a25ca421c46;0xb4dacd66990c6;0xf46ff2780e477;0xcf0e584a31c2a;0xed73607ffe79b;0x7ca95911c2df4;0x1d124a40f33];[0x0;0x9b249991111b8;0x66ad07f17be76;0x3f5d3a54daee4;0x6c5fbabf57dcb;0xa3238a6ce4b3d;0x2e498c20fe77c;0xfd6836061f7f6;0xcceefac93c0b7;0xf7ebbbe9fab2f;0x1e5868e52a6];[0x0;0x6ae0c0d60fe39;0xdd1a1dac0d0bd;0x4e50da7bec32b;0xe3973bf01f7d6;0x16290bad2766a;0x5b69875050fd5;0x45068576aa1d;0x6b1c9c827a070;0x1ed84a20d04fc;0x27fded2d4f6];[0x0;0x9eb7073c4f71a;0xda1bf60d8b0b2;0xd53125d3043d7;0x118fc2e65779b;0xcf7feffaee736;0xa71426b7ba270;0x573bdd970f493;0x3df3b5e83e26c;0x56f5b2e1c9eb3;0x1efddb8f71a];[0x0;0xc9a8316621886;0xe518e593708e4;0x328bf0da05c67;0x6887749f99b29;0xe1aaf82a4194;0x5d3bbfc16e0e1;0x5acc42016f5a1;0xe80e0b0f7cc20;0x8b42e876f62f9;0x5969381e38d22]]);
 ((V [0x540c836348c9a;0xfeaec8d34e16b;0x111a672b3c0bd;0x3c7af915d9b69;0xd06d2d672d379;0x4dedc2b02f715;0xef173458416a2;0x584c9a8224f09;0xad3f4ad29d554;0xd0688f0ff8f] [0x404726cb4234f;0x5a4842dcb7fdf;0x4cbfd69944180;0xec167a726bfb7;0x980e0902bd7bc;0xfb83d5f8ecf66;0x9d0d28d7a0b7c;0xa5f9a231d6a88;0xbf566d19a2beb;0x2795006b9ee]),[[0x95674c9acddae;0x7ed9d20cec20f;0x1d53f27f79c89;0xd8ed3e2850163;0x7ff81dbf3b945;0x9a381e69f5c76;0x24ff0bde4027c;0x53b5c482804f1;0x322e3c069d53d;0xebdc41d2d8a];[0x6e5be4a3c236f;0x6955af85e49b1;0x1972047b2c1a0;0xbb487d2e4041c;0xe20f735fa67ef;0xd4923a7e796c4;0x90a6599de1d1c;0x1c69fbf64a599;0x4a73cf1f9bd6d;0x2c2c85cccce];[0x0;0x4eb5874d040be;0x999eac41d92d6;0x6ab75f9a6e5a3;0x8f33baf6eb7a5;0xeba8060122707;0x639d275e6ad24;0xab31c2426a489;0xa7e9baab80f06;0xf9fe09f5abd31;0x2325bf92f66];[0x0;0x3cfecdf14b411;0x50a8167544248;0x9f4cbdf75099d;0xedd59515be650;0xf6bb77fffe00c;0x6b515462f68ea;0x232a749f95cba;0x23f002c587966;0x6283b11f61099;0x8495a3ffbce];[0x0;0xe8776ca2bfa38;0x609293d3fc059;0x290cfdbe7f4f9;0x66740df5dd7a9;0x1e6f0e3187cb5;0x56644b681ae0;0x478b529755d0c;0x4c7d7ca8ee2d1;0xc9a1d15659b98;0xd94e1e5a4d0];[0x0;0x9fbe37fbfa331;0xde7a4f5150665;0xecbcfcb483f2f;0x4ccc7695e1775;0xc2997edf93a01;0x47527f798ab1a;0x62798f5fda023;0x8bc1b401b6e04;0x22ca3a6e1a636;0xec5f7fab73983]]);
 ((V [0x7236c240b8918;0x4a5783d755070;0x1922113087310;0xd2c78ffd14cb7;0x8ff1047cd515;0x849272791d179;0x245fd6f065ebf;0xd041ccb597a16;0xc207aa8225110;0x6fa5ade53bf] [0xcd7dbbe0f6993;0x4c8af43c52448;0xa70a2f34b6252;0xe511bbf86b9fa;0x93a6d62f852d5;0x3bfdf818b8241;0x8d1094bdfe699;0x6b80bec6ac017;0x38cc42434fde5;0xca5c3943fea]),[[0x13decff2a63c7;0xc6e3fc7e5db71;0xb94bea594742;0x111cdd40e9b94;0xf80a3291599a5;0xac67cd9bc892f;0x1864b4e7231b7;0x8ad058890dfb0;0xd56ae6de2fb2;0xe1d7c1a096d];[0xbe5e3aa195b79;0xef0127d1cecab;0x68784e27eec4b;0x54ad76073392f;0x28f0daf21e23f;0x4973ed72b1002;0x56aad86391652;0x361715b77f5a5;0x936b05a282fe4;0x5e815f0cffe];[0x0;0x2015927b7417d;0x35aa2c0d71bda;0x8bed8d1d9c93b;0x53962840cc42;0x7fe8ff0476118;0xe9dd8d459fdfc;0xac931dfb12f82;0x241ff62e89b6a;0x4bd612887cd34;0xa9aa132e818];[0x0;0xc781fc2ad3845;0xdbaceec540172;0x31b57092ec4ed;0xac4933ed45225;0xe6236603644a;0x882d7532270f1;0xdc7eabfb37cf3;0x57c31571b56d;0x5b2792cb77f40;0x45d6a2e435a];[0x0;0x43c01074d0e73;0x1d3c57be3a851;0x82731f59352ce;0x7418dca2c7650;0xc88fff1cc6596;0xd451c95e7ea9f;0xa6648f1344665;0x55bcd3d5c3165;0xbf2102311b33c;0xc73cf833174];[0x0;0x244be1c900e3b;0x8847cec123954;0x7ba971edd5893;0x616c2d3da9bdf;0x1392db5550242;0xf3554d7d758cc;0x250b24923d5e5;0x4e879586a95a;0x5e81b6e36893b;0xe30ef636f8b13]]);
 ((V [0x3d65c258f21ef;0x6cc8688258c17;0xd7946c57175ec;0xd8648c305b0d9;0x76956aec12493;0xc26fab38a40a6;0x438869a5e3baa;0x7efc144e304f9;0xc444bf1826188;0xdb23352d1b1] [0xda34d574d9098;0x4354ab63524b2;0x7f4ae9ad3013e;0xdcdd4a6998cb0;0x2f53536ffdffd;0x652926f7598d9;0xb81ae395171bb;0xd0347d1b2ee27;0xaf498ee60becf;0xdb8bf495a04]),[[0xf1167893e38bb;0x1ccc1e01e8688;0x63d6c2e725272;0x23966f5aa7c16;0xf74b78083b471;0x26673af072acf;0xc94f0bdcd23e9;0x99fb2304903fb;0xc7728e4e684be;0x749e0bbc911];[0x24bc161ac15d0;0xaefe9c5244e17;0x1fb417b30d636;0x8d8bb4e1a7a20;0x6daaa85037022;0xb5ece08d7d440;0x63ff5d7217153;0xb88f66e07fd8f;0xbd5d24e45a32;0xcbb342716b5];[0x0;0x6f0b70bb4010;0xc68f28a398d1e;0xd816c44a08a82;0xa30abb4427463;0x719b12f05dd5c;0xe42be71dd2c43;0x210245021737e;0xc254ff9f7c77f;0x397835ef09080;0x30b1180669a];[0x0;0xc178ec5a11e02;0x15070c4594dcc;0xdd3c05c862314;0x6c801412803aa;0xa363bc63ac6f8;0x6975d0b639920;0x6f6fe5fce7bc;0x1b4d8ef976575;0xbf6a182811d80;0xb85d704a587];[0x0;0xbfa66a847fb6;0xabfd72bd767dc;0x6dccfcaa0c03c;0x12987ef61c3be;0xbb76c31c0dd49;0x359e30f7a0e49;0xc05d4e10714ef;0x3483430cb277e;0xeaa7e0c393ebb;0x351f9c3560c];[0x0;0xef61b25774b3;0xa5cf63e423ae0;0xbf94cb6ddebe4;0xfa3988574e431;0xf91ba20c4442f;0x481d61ce5bc84;0xd0d4a7d59d78f;0x9ad554540779e;0xfdd3b970267fe;0x74e1b28a9a0c2]]);
 ((V [0x1bec33eae25e4;0xee3bae5da9d9a;0xc3ea483130757;0x4898e7e256fec;0x4e82a91d4029b;0x8c19bf5a64046;0xcd21c9df18f98;0xdb7cd702f7f62;0x28ddcf8211797;0x312d1d1c2dc] [0x6c47577fbb9e4;0x29f52d23c9b7;0xdfb366e7ba690;0x9d65675aeac4f;0xc8ed92d7373ee;0x1245aa27eab9b;0x436738b23342f;0x3c8c1adc91f32;0xf28a56a84fb88;0x4d590472f4b]),[[0xc2937086de2b1;0x30177f24f9bbe;0x5c63c63aa8f5a;0xc16e8861153c8;0x2284c45c40993;0xf0d87004a97b8;0xc01ced7684dd;0x2b49022c69f2f;0x674ba1f50c781;0xff0e5c9815a];[0x475c731be73e;0xc7ef1d60a4fe1;0xf72c7ccbde260;0x343be8f4588b7;0xefca789026bd7;0x34222a856d61a;0x79d8c1c2d5377;0xe662d0e00a84f;0xaeb992d848a2f;0x46455d1909];[0x0;0x2435151a15705;0x2e329dfc3476b;0x1c637c5746d54;0x359cccf6db4dd;0x6e939e0289200;0x78e9f7a6b9045;0xbc0a1c388740e;0x2095962923c23;0x37bc0db0f8ac0;0xbb9541d2c1c];[0x0;0x8fd0e367593be;0xbe9f09a7bd01;0xea2466fa56e86;0x27e16149265ab;0xcf7e1fe826a70;0xee5351c602599;0xa7f9b7488ca14;0xe174083a89c3d;0x350377584d294;0x1b579736248d];[0x0;0x4f5c58d909269;0xa5a220d1994b9;0xfa92eedce02f1;0x28fafea448c16;0x4d17cb996ca62;0xa4a4c8dd73518;0xdb3be7aec0d2;0x856b00013ed1d;0x1a4a8ea237932;0xfe1d9d453d4];[0x0;0x6e6b56c5f379a;0xf28f0b1f09391;0xb1354d7370cb6;0x73f664d76749c;0xfbda8aee686b5;0x20b8c83dd52c7;0xf954dfe0eb040;0x5b65e5d64ec49;0x898df3257e26a;0xb6c09f95529;0x1]]);
 ((V [0x48666b6332ec2;0x827024ae133b4;0xb3d18c5757996;0x85cdfb6147e4;0xc3ff17202916a;0xb1af24ac1b70b;0x3f9dc70966f9a;0x2820375116702;0xc8ad492d7fdb1;0xc1561b1b9d0] [0x1dc21fadd683d;0x663359807d022;0xfa09321bc5005;0x5a27a8ab8b812;0x4a7b84cf9e2c4;0x1c1d5e0c02450;0x4027eb4282cd3;0x922de10e3cbed;0x2d665f40664ed;0x4c3b022b872]),[[0xd3af3279dbb63;0x49160bd204537;0x12ecabcebd2ec;0xee45f32f0bf52;0x7c0d06ed2ed25;0x32e3e076f6f41;0x35cfe2dc26b8c;0xe688ef331f844;0x5caad9f5ac12b;0x4011563ee67];[0x8349e3fde4f50;0xb3e5e53520b89;0xdf301d6aefc0f;0x1bda20d18cd3a;0x92a4a4324d970;0x968a99f338967;0x9748a195a0566;0xe6dbae515045a;0xa19ce413e5ba;0x40cf0d4b859];[0x0;0xc6ba1b90a7e40;0xa39be621c419d;0xb7deb621f79b1;0xd2d12ec5b3c06;0xf464f06be1ac0;0x6fed28a8f848d;0x21b348037d960;0x34bf61a808ada;0xbf62c958cf8f3;0x9724d1808b];[0x0;0x73260f179c83c;0xf83367a121498;0x27c375464d73a;0x743982f6ce299;0x68b161b037824;0xd43a0cd445811;0xdf6629bce2aed;0xfda8d592c30ec;0x29bab1d9d8357;0x26b6fc29e30];[0x0;0x532d4396f9049;0x861ac25345ac5;0xddce5baada7dc;0x209ec801f1770;0x526b40e3d6815;0x57176717849ae;0x770afaf9a6cdf;0xa259573c70a98;0x3d3474f6f3c30;0x1008ac4c04a];[0x0;0xe7d12928e2c36;0x3268ae8a03f23;0xe52b699828c75;0x915fdb6fc93a8;0xc5817dc54dcb9;0x3ed388d7ad6e5;0x2e8fea136b59d;0xb0255c2fd3760;0xf18d3c68060fd;0x402d53925b716]]);
 ((V [0xca64220ba2b7f;0xd8c72fdf4f4eb;0x957ab8acee74e;0x8cff42acd83fc;0x5c0fba86493f9;0x9dc2f602b4695;0xda2736ee418e6;0x3a93691c8a2b0;0x85f1ef94b74ce;0xcb48f9b67a6] [0x690e7c2e6ef14;0x1e05ee3fe9653;0x9a946795c64ca;0xed75af139b00d;0x4a6ff555e3d70;0x97616ac85f823;0x5cc70f06004b3;0x34ae455e7329c;0xc66dfd4a3cf84;0x1da04053c02]),[[0x2c6af906ec441;0x740c8b8fa4ab6;0xf218206b82b0a;0x39ce5cd2c2896;0x16bfe2199931d;0x7b3b408dc1570;0xfde1184ea2e2e;0xa02be25fb5d2a;0x98ef00c19ba2c;0xbcb45bc239d];[0x2a6043101470c;0x1fa828913a380;0x2217da17f4254;0xe2e7e8b0f2f9d;0xab57fc7a736d;0x10d2c504579d6;0xcde12135d9c7b;0x35993402624fc;0xb8e19937cfbae;0x287a897c4d5];[0x0;0xff5de1fcd3c48;0x5fa2eb738d9a9;0x29498e4481a8;0xe89ab60739d85;0x8acccee14ee86;0x34d6be1fa841;0x693505ca3ed1a;0x25eefb222c147;0x943dcf282d85a;0x9202f1d5dc3];[0x0;0xb4d32b6a4035e;0x835160c7c5d91;0x61e9dba9f832f;0xb807b85fe4ec3;0x73fe5ad9b3d38;0xb2703b5ccc796;0x7b2df54ba6160;0xfce8044ff05a6;0xf48104f3bcde8;0x706214d09b1];[0x0;0xc49cd605d0c92;0x2995fd5d623f3;0xc018a4a40e156;0xe950fd3313231;0x224bd9cb758a5;0x8e2a075c7b9ae;0xd84502340e049;0x8382bebd996c5;0xc8c5df9c4b496;0x8b1965d66ef];[0x0;0xa7005cffb1eff;0xe78bc20437558;0x59b3097b9aff0;0x12c633d1891df;0x23788acecf4fc;0xda416b25f1833;0x3da055795a965;0xd84c0bde5a3c0;0x8247ba207afdf;0xbd69bac02cf28]]);
 ((V [0x9e4ed654aacf4;0xe35722b32b235;0x942c289e694fa;0xadd2f54c9e240;0x67556b254ef4b;0x5f6f4714ede29;0x820c921b54fc3;0x186c09cec5bfc;0x8bf0e033f9b55;0x4b7eefba0a1] [0x366593de9d13e;0xa8864ba23cd47;0x287c58d92d0b2;0x1dc6aeecff465;0x26e761f09e08d;0x6d3d68c98e817;0x809ec7aff29d8;0x407365dab3776;0x7a3463e9093a9;0x5e55953ba54]),[[0xc99a14d8bb097;0xf2463ba9b67b0;0xa7fca9ffb02;0xac187c7ea1509;0xccfa9e3b8876c;0x7cb68b7862f94;0x8d3fcc64abdeb;0x5c44ff3b8fc9b;0xe3fd47676c975;0x5f04d9f7a28];[0xb1086fe551db9;0x6ac11ced8c286;0xbd405eca08f71;0xb437b935e18e9;0x52dbe2fadd3f3;0xe1c78aa140645;0x219d4c0685dd;0x2f562b88863b0;0xa47e76aea6276;0x19c614ff9ef];[0x0;0x79d6847fd7a78;0x92a750dfd2df6;0x8c81234301373;0x3c455761a15cc;0xd8a4be04122ef;0xc4cc9f3f7e3b7;0x6e15b5f0f0ea;0xf788783547c96;0xaddc1f0c30be6;0xa16cd0d4d05];[0x0;0xc7ff2b21b0c0f;0xafcadaa4a0cd5;0x9aa38c5b3f5ec;0xb19fbbc75cc31;0xa3d3beeefc2f2;0x270e983611436;0x3b7d601f67b15;0x83f6e3a3af852;0x8d11cdb8693f7;0x15fe0f33292];[0x0;0x2916f9b072de9;0x3934d8fde07e3;0xd9218bda439ef;0xc66a67613179e;0xbc4b19698fe36;0xcef9d0024f03e;0xa62669425fe06;0x2673d3de1e1c8;0x868f1ec7d91e1;0x234499dd53f];[0x0;0xf78710d197294;0x2f5cc07020027;0x2c75e6fcb13c3;0xcadafd29360d2;0x9bd0cd28d796b;0x62f544fb95fc;0xa84fc7c3197aa;0xb869e016c8862;0x8dbf3a454ce13;0x5f934d3744e5f]]);
 ((V [0x372342626b0f4;0x316c56d694e07;0xfd2c7e95d8fcc;0xa3f1a7833a724;0xf04269d9216be;0x51ab90447ca3f;0x35b1af12c9366;0x944015ee648ad;0xbbf195cbda67f;0x32fac39f5d4] [0xbdb208873d95a;0x582dbd13f0436;0xf9d7103b6558a;0x4d204de6409d;0x2a55acd9051a2;0x31573c443c061;0x8f88bffc91ada;0x451a5bbd22580;0x7f85ed0eacab3;0x3012465f8e2]),[[0x939818f0dea84;0x99c0860c1c5dc;0x57785f8ca05b0;0xa078532465399;0xaf6042ff6ee6c;0xccc811ba361a4;0x1d59dc4e4090f;0x68d1eb5e17194;0xa87a49f3baf4d;0xe9d060a779d];[0x44d0201183409;0xa14853759e731;0x23cefa5e6033c;0x5481085ee62eb;0xc91a427e50a10;0xd07105a0581f1;0x52096d7e83bfb;0x746a10cce9371;0xafeacedba7513;0x55c6b6cfb6];[0x0;0x3b6dbfea9b341;0x11fa3846e47ec;0x854c84e7107e3;0xf0904610fcbdd;0x2d1b1c507a3be;0x56f555ad9cbc9;0x7f759dc272a0a;0xba017107115ce;0x9565b28ca335f;0x16439f67dd8];[0x0;0x951883d473d67;0x5b5fdde4e8ca0;0x5cef5c6b34eb7;0x21133a2054ea2;0x2e4424c67434b;0x1555c2bf6ad8;0xfca4276aca9ec;0xd60fa008dd224;0xc6032b02e2b68;0xac515bf4b12];[0x0;0x944a2fdaabd2c;0x3c5a367ac37fe;0x90b141694401c;0xeed502b507044;0xd4a0c221de812;0x32b4970c94b0a;0x62d7dae61571;0x34b5e05708ad9;0x3d6fa30362511;0xd58cf98e107];[0x0;0xe18dd2a7b1ddc;0x62bac45112ec0;0x56a13be62739f;0x1f1f935de63b7;0x8e46a3786566f;0xac8b8d9544b71;0xca1b3b522a23e;0xbedd1da41c8fe;0x35460b8877194;0xead09548eb0bc]]);
 ((V [0x45cdea270c204;0xe7aff0408380d;0x162133725395a;0xa31967014ac98;0x274f51743b617;0x74d13d814bdc2;0x6577744503673;0x41f1f8189b1d1;0xd13c46bd952c5;0x293aa0700a8] [0x7894a9a85c50f;0x120dfd4497679;0xb1674a9e476a7;0xd6d6fdf2bd83c;0x2f0050896f6da;0x2805cf3529415;0x881418b8425d8;0xf8266452f5abd;0xbfcf1164dc9c6;0xb04643b842b]),[[0xe872630519812;0x8659299e38a65;0xc4120aa3b3c82;0x9ebb50723e75a;0x2c83f719e2a5f;0xc88690c0810d2;0x5af4ec0517f22;0xefc2e200a575;0x5aab789191ee2;0x83756262e14];[0xeb430ada2461;0xb22a334c38312;0x6d3d31a63727;0x2961920bec88b;0x48da29540b700;0x7d6f6b5c4de7a;0x8b0a7e262b273;0xf026486ffb062;0xa52d6db1aac70;0x95dcf15d2e3];[0x0;0x260602be8a659;0x1db09b45dd62a;0x1583ca24adad1;0xb13a669bd9b5d;0x83be50fd41b05;0xf33c6b48ba0ac;0x2ca62189e659c;0x1b36c10e3b743;0xff9ed90fb5b7f;0xa26ea0ce92];[0x0;0x6782c2d88037;0xc53268077f8aa;0x54b33d746e42c;0x6638902032a8;0x3f8eb02fb36a2;0x52acaba6b3861;0x469dfbe121e1f;0x8c1ad8b75fc54;0xe2c649bb76aa6;0x315ec9ad3f4];[0x0;0x4106362ccb7e8;0x9d0a86b26ce1c;0x164520a8c41f;0x462b84a0dd686;0x6c8f07578478f;0x4f985c2c15880;0x39b0e78d2b423;0xe09ed7c22cd05;0xf11107859c919;0x4381588446b];[0x0;0x336b2628833e3;0xa63bc483d1e2a;0x8a2cfb6d9f8f9;0xb1f42989e24cf;0x172e4495eca32;0x27d9617776c6;0x40a9089f2f2c7;0xc3cd9962869d7;0x2e112ba4d4864;0x83fdd98fd4c48]]);
 ((V [0x871ae6368995f;0xd1fa57b4920c;0xc22495b56822;0x4b65df2fb2217;0xb5828faf873a6;0x2465c3383ec1a;0xa54a3765d1f67;0x131a180b2916c;0x2c0323fb363ee;0x4a78ac3acae] [0x20b3ac3799d33;0xe210a4530d492;0x2caccba239705;0x7f476d7c12a0c;0x846b0571d26ce;0x8442f211f9cab;0x3b1cd6f0e7f83;0x9f6c5a2ac354;0xc0650a8d42d2a;0xc1f358baaf9]),[[0x18acfca070ebf;0xea0b0bc032b0b;0x3048308e75b62;0x3dca78f793467;0x30f952d9cfce6;0xf6a58fd390edb;0xf1d4084269d2e;0x1b0fa3504a964;0xe3ad26b31a75e;0x6dea65b2dda];[0x82dc83ed37088;0x961cf4cf91508;0x749bf5cb94abb;0x2ee7171b2385;0x41e7a940baebd;0xc603c0609466b;0x2174df971cb47;0xf371675a29612;0x732a6a2e6c4a4;0x173818c00fa];[0x0;0x5109a9a400438;0x9b60f6095851;0xf30c1d31cc3ec;0x70f4354822162;0x349bbeee76a39;0xed8afed9284ac;0x734a81486998e;0xd672e8b8a19e6;0x2367b7422a0f4;0x6a3d4d0fab];[0x0;0x92323cc4bceca;0x9b785acf7c623;0x461c070e39bc7;0x288836e093757;0x1317736275aa;0x5d9cd86177293;0xa97ccec9a0c5e;0xb141f91894ed2;0xce766a805ffb2;0x975ea22c7a1];[0x0;0x9916872a4a16;0xedd411ed177c4;0x57fc8484667fc;0xd5d2a38983394;0x95080f3b168c3;0xb1ba6bc7d9659;0x16258426e8e3;0xaad341df6fbe6;0xa407f389e5ca1;0x2f317138642];[0x0;0x1818462abb41e;0xe70d40a7d33f2;0x52e00a7915a45;0x4c104f6c16354;0x35ae6478087c7;0x488a5d3faebef;0xa9840f0ce4386;0xdfdf48d59fe61;0xc63aa4752a05f;0x6e4a0a3d9fbc1]]);
 ((V [0xed4457dc597d;0xcb9dbf02f7460;0x6ceb2f0a0afb4;0x6c180d877fab4;0x50b16c094a4b6;0xa32404e03e9b2;0xed1d575c25e78;0x798f2f443dd87;0x7a4c17cab91d7;0x4d1527d8898] [0xb7d4c0fae7787;0xac82c92d0ccf0;0xc09d37f006787;0xb2fcdf6edb1f9;0xa61fccd0a5547;0xee02d062e8204;0x3a897d9479fa0;0xab2082cb5db91;0xae890b6fab3ce;0xcf8e56d64f4]),[[0x9c2792d345ecd;0xb5f39236455f2;0x53f0064a4e9c8;0xc0a19f350a17;0x6ad87d9436f1;0xd184756b5b470;0x29a2fc0e5bd5c;0xb21e19a3223de;0xdd8ef1d8cad18;0xf75fe94def2];[0x35cdd92871455;0xdf86d7a772174;0x9d221b078d9c9;0xc6530b2308e77;0xa5f0fdcf9b756;0xa063f8b336740;0x559742fcef447;0x9604bf7a93a9d;0xa2b3571229d5e;0xb9093519886];[0x0;0x7e8208ead6bb4;0xbdd14aeca7c99;0xc243d444da078;0xd14ab7fd60dd6;0xbd5332750b7a;0x26e327736d2b;0xd2a9a354ad872;0x73592bc2e4aa6;0x859d27dbcaa78;0x15a9fc73e84];[0x0;0x88454efb57bd;0xf06785ab48b93;0x95ad80cfde3c7;0xb427a05c806fa;0x9a5deebe993ba;0xd12d7ac6f455a;0x7668be5772cd;0x1b451a158c581;0xe75e2b9696c94;0x176d4e95727b];[0x0;0xfa2b8d0094a2;0xa0f6ae10b7931;0x1b63b1ea940;0x38b88a14ecf89;0x1001eca763e85;0x9cfe52daf5c2c;0x55353756d4545;0x6ed2ccc44f5e1;0xf1bfa26bcb54;0xef0a3823600];[0x0;0x320402ca7a28d;0x4562d1443c5cf;0xd8f50d98749fe;0x29a82a62150c7;0xaae86457d1537;0x600d465ee4d05;0x137d467e6ede6;0xdf899b8f5d30a;0x7a03ec13774fb;0xf854c34184d28]]);
 ((V [0x68df936502394;0x8345874f1886e;0xf2f3b79504d66;0x8ab55610a36d6;0xd5e850313d754;0x98c033b549f50;0x78fc37e03d85;0xb2de385373bd3;0xa55cd0ff14c36;0xe8d2eb139c1] [0x1064a86625cd6;0x7fb0408fe16a8;0x1c3426aff16fa;0x62b84377bc9e7;0x2a329ebe5a90e;0x5e2aced4aaef7;0x5377340b553e8;0xd89ea49d31c1b;0x7cd38a301639e;0x80d650e59ec]),[[0x2f87b045fe480;0x12f6153a1cae;0xa2214b9cab354;0xb7dcd8d5fd0db;0x6a6c18eb0cfa;0x813b62fcef13d;0xc43aaa743c341;0x558c8f600efd2;0xcfe5c14555f1b;0xa9310bacc91];[0xd4263aef053f;0x807c8b6ae8baa;0xcd1768e9c1ecb;0xcb961bd8752bc;0x48fb3be4ee1f2;0x53561b958a184;0x5962fef35411a;0xe31dd6f6bb963;0x382a9e7e01286;0xbfd64d32609];[0x0;0xb083f067d7e6;0x1c3379af5075b;0xfde2843d60c63;0x38908ff2295b2;0xeeebe7b13e565;0x8fac43272c864;0x853e6245bbaa7;0x79f96f990c0f0;0x5da6d1fb91a96;0x1735bbb7d27];[0x0;0x3ca18f8f0ce89;0x47e9f542e5c84;0x395e6d1877d40;0x2dc0404e03fd2;0x261bc5cc30c9f;0xece8faea29d1d;0xff7276fa9e473;0xff9e05d5a3ad8;0x2e47a609f54d5;0x1125976129b9];[0x0;0xfc9dfcebd72fe;0x5aae73b84f5e;0xab6cca5036a83;0x30e4c7da33b72;0x839d7f56d313f;0x2f4ef8840a35f;0x85b5e2a0aec3b;0x611bd6ae81c86;0x592d64ce8c070;0x6fd1cacf9a3];[0x0;0x78234d9d33b45;0xe6e59c7dab0ce;0x33c9c45e2bdda;0xf4f13d4ec113;0x460a20e2ecbb3;0x9fca5fb546b3c;0x73dbb7ff8e377;0x3e57db293577d;0xd9e3611c91120;0xa9734e9c27434]]);
 ((V [0x71de49cf2c1a8;0xe54b0d45ccc59;0xe1806ba80616a;0x60b3c6205687b;0xb999ae8211bfd;0xf8b999150b59;0x92a762c0854c6;0x4447f27d77a9a;0x6ae5c8b76b37;0xc2aacc7307f] [0x1afeaccaabd3c;0x39f67a34e0932;0x120eaf0d94dd9;0xdf96350e31a99;0xff499e2167357;0xfe808cb5458c5;0xef3573523f198;0x2135326d37e35;0xadd831eb29d06;0xae70c31ad00]),[[0xfee1df620024f;0x466446490df02;0x593a6446a1692;0xd2bd30f062382;0xce01299f3d939;0xedf5075be852;0x5acc5a1df7a91;0x43909b7b7a24b;0x251751b080544;0xa3e188d5b2a];[0xc1a290c4fefb1;0xb8c5d22a32b2a;0xd6e9e40566dd1;0x79b9d496cc5f5;0x35bc0a5f734e7;0x982834d6d5324;0xfa72131b80bfc;0xecbb8d7ee588a;0xdd8b04566e281;0x5d93ef03a21];[0x0;0x92385b1dfff29;0x32682918d4b45;0xd8526e02c8f82;0x7d08bff2fd8c7;0xcc0d7ca8189ba;0x12c2514ab4622;0x3a982a9700771;0x38519ed1e401;0x8d8d155f2d501;0xd3bef7da0ef];[0x0;0x491a1050752db;0x4a48af822c71c;0x249d0de9ebab8;0x115a6cf67315f;0x91cff65e9a33d;0x65600f12939b3;0x9d19770e9e69;0xc2f4c21b5b876;0x78b1691615120;0xa4f3ed796a3];[0x0;0xcea87a64d4be7;0xf90d1ab5fbd58;0x2d5a25a84b51f;0x72081451f85ee;0xd2397718b44f9;0x36794a99fbef4;0xe21cd1c88e39;0xbcb2e3b9044cb;0x2753d8593d497;0x68e8faf1f24];[0x0;0xebd986d87157d;0x8dc54bc4c4436;0x7ae9d22839943;0xed1e14f0ab3d0;0xb921542f36c4;0xfdaffa1c1b3bf;0xcb3b43bcfd33c;0x851b1979cd535;0x3911d95093153;0xa49dd787b0a8b]]);
 ((V [0xe077ab88ecc08;0x9394749d45029;0xdbbdb1a7755c8;0xbf32764db9efe;0xffbb3ecd86b6d;0x4c671cb683826;0x1b997238ccfbf;0xf1ff78cdccfb;0xfd2fa25c299e7;0x73e043f77e5] [0x3d9e0e4bad317;0x6a165196227f1;0x71f4cce662417;0x9e9181cad5321;0x572abd0c66e5a;0xd936f0cd042e;0x41e6f159f2491;0xaa1460970ec99;0xe45506fa609af;0x921ded7ec70]),[[0xfd89005704a18;0x1df67b80e5617;0xcae4406d0aa00;0x57b81b6ee548c;0xde365dd30ccdc;0x1a019f4b6731b;0x4f42d2323206;0x30d217479762e;0x6bbb45c6757ca;0xeec05ba6d9f];[0x4a9d90347352a;0xa7d0bc369e457;0xbe1f7492edfa4;0xe1a59a12f1e4e;0x541efe687b8d4;0xfa5086fb457f4;0x262022e2e5aa4;0xd54a8371119c2;0xfd35c1eecab0b;0x3032b56520];[0x0;0x18d394f6fa63a;0xd6115c133077d;0xdafc0cf961ce6;0x91c1744dbc6dd;0xec50d3c4b6927;0x808cc384a2b52;0xbaf0578014945;0xfd039bcce2c68;0x675a98a01dc11;0x94074fd2841];[0x0;0xf80d7773d9a12;0xd9b11a3a5a478;0x6ae72add3689e;0x56d3407fda5b2;0x92abaea8abf75;0x2f5d52d13b33d;0x78e6893d90a50;0xa15987640e716;0x9c6228f18526c;0x1455fd0d2110];[0x0;0xfebad44e0f5d8;0xf65b5ff671742;0xe67e11ce04990;0xd3b85a8639eb5;0xe120098753841;0x1fe931fa13eab;0xb913e6b8dbb46;0xfd693edb422b4;0xdc2d1b95ca1dd;0xdeaa3af3d85];[0x0;0x2d6449e949a03;0x18fae3d1af777;0xb37e89aecac50;0x602b760769dbc;0x7f164b1710056;0x9db97d09e22ec;0xf54a768034a65;0xb2345359ee393;0xc11d6b298c789;0xeff897817f602]]);
 ((V [0x2b51e130736b2;0x823f6f836d9d9;0x12aedad9abe9d;0xccf5ea939e749;0x1c2ce53b6f1d3;0xdb8f376f7e8df;0xc6d6a62f4bd71;0xff82ba0739a08;0x4508a09c908a6;0x7be12e8c60d] [0x5a3c8ce258ada;0xa7d122e8ca3ac;0xdee48a7fa5646;0xe42a8e766e72a;0x7a0aacc7dfd53;0xb87ae2bb5bb4;0x44c16b87b4d87;0x49d71d673ebcd;0xe71ef4e6ae6ca;0x2e69d0318f4]),[[0xc90630e792f5b;0x2aabc98dec9d6;0xe75774e14b921;0x93cdae9af7390;0xb1772326b4138;0xf791e22027c87;0x7c100b2b3609d;0xdf9989f435c95;0x121701a57c685;0xdd06adc2d43];[0x33eab2b6f926d;0xca2cdeab0bf31;0x83188e297fd87;0xb44f7806d3469;0x903bc471f0427;0x2b6b8688c25db;0xf66b480bfedae;0x77c6de2993591;0x4a74fdbc66cc6;0x1e2d5ed6107];[0x0;0xf1ae2cc91bf95;0x27a19fa10435d;0x2d37399506361;0x3d0dad84a0757;0xe3b653fed7432;0x4b3e1e122f76f;0x4775bf5a1165d;0x26b80e7266aea;0x2baa9376970d8;0x347341875eb];[0x0;0x1027544f14239;0x51741196c4ace;0x428a8cef2b93c;0x626e533dc4cf3;0xcbf06f39fbdc6;0x1c10a65d0a9f;0xa9a825461bb56;0x4704df0bb9236;0x2ec81af8e4909;0xfc4f4bcee03];[0x0;0x83f1dc2b493b1;0x3ab9352047a4e;0x644ba1dc4e169;0x4301d63183d3;0x2c16d2230c938;0x8980087df8297;0xe3f3cdcafc901;0x7e98f4c7efc15;0xfad19d0466332;0xbed4882efd6];[0x0;0x404bb3d472fb2;0x1e8416030b23f;0xe1bb83bd9fa31;0xcb1965a63a6f4;0xc258df8fedbe0;0xdb53210d6adc6;0x404e97a50d049;0x36118b91bf05;0xc05122245898d;0xdddccb70a0487]]);
 ((V [0xc6c565159d79b;0xde7e5ef3c09f6;0xaad48fbd77400;0xf2351d9f95dc0;0xb1b738ebf6c33;0x44d4bdb0035a8;0x82228c55d1b0f;0x8c3d99e1c8748;0xaf0979d35d72a;0xcbadf24b6a1] [0x17f8d8c967749;0x8bf3ba9eee01;0x7f2803c31fc1c;0x5314a0fa46709;0xa5ed0d8148c71;0x2cf438a15b3d9;0x46d5d4583319c;0x1905443fc45e2;0x62b889e6d9471;0xfb82bbe9d96]),[[0x8b9b2d4396166;0x6a20d9d106d0c;0x1578a01039d7a;0xa2b595605f91b;0x84e9af474783a;0x9a5344dd0649e;0xca4c9798000f5;0x4ebb05c70b01d;0xdbb15ea66abec;0xf36d750e308];[0x4d06af107a99f;0x88a989ffa1515;0x8f192b57aa5ce;0xcebe72eb6ab4d;0x64ab073ff419a;0x39e60bf25df23;0x8f87c003efdc8;0x471a5763e6e26;0x90b58f8ff58a3;0xc39925416c2];[0x0;0x4679430cec8b3;0xc03b6a4de7d69;0xc411f15ab974c;0x3eabe6afe0e0c;0xde741ae98356f;0xe45e9449d83e;0x405bf853b5674;0xa75fc9082aa85;0x4fa6091d600ad;0x3bf228cdc04];[0x0;0x64e1b85445431;0x3a99c87e0cb20;0xab5bf20950a9a;0x2ce2c3d6f14a8;0x6187d1ded4deb;0x6e3d332fc1c74;0x2f2b7fac6c3;0xc4ae25ecd5eb2;0xe19fb2a396eeb;0x584491cb3db];[0x0;0xd5c2e238c5733;0xefafab3dab870;0xfccd47ab1badf;0xcebbe844e4466;0x7ad49c5c3eea7;0x96ae0214cb3f9;0x1be3ce7bb16e0;0x57d6a1eea499a;0x86307d1607918;0xe778fb05d3c];[0x0;0xe0d9a689c5b27;0xe52b43988f6f1;0x896710b664c03;0x2a0fbd21509e6;0xefb3f052d9bf6;0xdc6b99341cb03;0x164712848d28f;0x59576f0a0c1b6;0x83d847588754c;0xf4150106c40e5]]);
 ((V [0x6b88796d5d67f;0x4e085c3a3abd6;0x3ace61d294c6a;0x6fdba64091707;0x36142c3637b2a;0xc8e06478dcad9;0xd00aca6870b6e;0x5d142377bf5b4;0x9f68a36c71619;0xeedbc9f2186] [0x5f21d875dd040;0xb6a1969808988;0x879362386c2e4;0x77342e4edd131;0x9506a77a31411;0x1fa6a669899ae;0xf5eed7edea91e;0xb691461eb0a0c;0xaded7f4185a13;0xbb48301d5c1]),[[0x91bb07f3aea4b;0xdbcc9ad06be0f;0xe9357c51e6e74;0x3209a048d7d47;0x21c21d4b2d748;0x2de3f1585d9db;0xc432f601644b5;0x856002f241cfa;0xcc991d4c1466b;0xb9e59e9500d];[0x7a797560cdc9b;0x93b2639d2c5f4;0x9f5925b9133e9;0x62354bd306cdb;0xbda31249fa5d4;0x74fa16ba24497;0xafe9e186f0661;0x86acc4a545997;0x4e130868da24a;0x9d057f090e4];[0x0;0xc334e8081e2d2;0x8ce0ae013e394;0x98ad9c362e8fd;0xb62e7677a2e9c;0x9f78e0bd48bda;0xc0fc3a5800d18;0x7021a06ad0122;0x815ce70f6c5ef;0x6cccbe6dfce25;0xa20d5474f98];[0x0;0xe253a5278547;0x2359bb4005b4c;0xbbb36a28422f6;0xdb3585e53cc73;0xa1da83f9eeee5;0xea14973eb8928;0xccb000a0fe53a;0xaaff681c12325;0x9d70b57392bcd;0x16d462316546];[0x0;0x8f1311102c19c;0xb5e4e64fad2b5;0xbcbe09fb26fd4;0xd9e4654ca0ff6;0xf51b65536f48b;0xfe4ed687e04f7;0x49081370f3c96;0xb066132e6b12e;0xeea1fee395e5a;0x86fdad28740];[0x0;0xc99f365d8b048;0xb32d560bae62d;0x1d1becdb61774;0xb9cb24bdbc00b;0x65bc93242cb4c;0xf7f55cd1c2aec;0x9520b078ef2e6;0x2f14b0b4975c6;0xf98b95d9cd58d;0xba85f884f1bca]]);
 ((V [0x9b6ae68c2b3c;0xec2dc045ac797;0x3a7a71ca6e6ba;0xf7918d0319dcb;0x65f0c7bec5efd;0xff3e1b34e20ba;0x7163d5e87ca85;0x466760652d522;0x6aa1e63ef84ef;0xec799ae923d] [0x808161741de74;0x488830816f237;0x4e64ea8601afc;0xf25c92eb695a2;0x91bce72a6cfa;0xc394f14526e63;0x2205eea3b09c;0xffb74ba4103e9;0xc43c1b2ae9614;0x2c5aab1379]),[[0x32e0208c5d60d;0x2f5d909820353;0xf56ebc7b7e38;0xd32fabc8feab3;0xa3428d8a2f90c;0xbb2f78b90792b;0x7055ea6d9774d;0x987a72b69da47;0x37b1f65c92982;0x45a0302ab69];[0x16095ae4de27f;0x9c4978c4c374c;0x23cc99dd47f14;0xe694aec9341be;0xbd664ecc942b2;0x71d63606eeceb;0x1374cf5e7ef1d;0x1e85ef1b279d3;0x78edad657b356;0xab2c0bcc451];[0x0;0xdce31c935336e;0xba1a9e83c7112;0xd488443ec8d43;0x9d1ea4d73bd91;0x86761cc02330;0x92a7065d9d426;0xdd2d24db763ba;0x3ea47ddf8b8b8;0x8dafd5e231721;0xdedd683148e];[0x0;0xc46f5ab63c0c9;0xb4c74510b5f3e;0xa62d762442923;0x314fcbd5a2562;0xfc08fa675f613;0x2250ceb417568;0xe59b3c407c79c;0x7b28e65d441e6;0x6d759933b7cc8;0x65df4aa5893];[0x0;0x93feb4ecb0419;0x56244a74cff9b;0x6a999732cd4ed;0x8b70c4c4c9f4;0x3b4c4d2c9196;0x5c0be111b88bc;0x17c5236a120fb;0x65034ea2424ef;0xfc4508ce3e054;0x12efbe3344d];[0x0;0x8c08b65de8bc2;0x93b1eb79b75cf;0x45e02fa972a91;0x2ef771f3cd61;0x304b528ad77ba;0x2bc9a8aaecb96;0x562f32f4ba787;0x7ca0e3b12ab73;0x3bc78981e12b9;0x45e6764f5ee83]]);
 ((V [0xd770c3839cdd9;0x4550e825842be;0x321a786161efb;0x746ccb4b2ca41;0x7aa571dc6be4c;0x598c770858d02;0xe6fa3f596f483;0xe0f2f3d0390ef;0xee203cef81d13;0x7a235aa3bc] [0x672561a456829;0x17051158b33cd;0x239b3bd174ede;0xb11374397ae31;0xa17e5a8f4bdba;0xab0f1db2194de;0xab755dec47a8d;0xd338a113a346d;0x17408144d9ceb;0xc71b7397886]),[[0x6cd74c1ce465c;0xa305b17847cd;0x3e50239534d75;0xb25b349baa906;0xb50d21b1c05c5;0x855985afa708c;0x6fc8cf6b7bc8d;0xc3cb7882de98a;0xe914e75f76f82;0x492acb0dbb0];[0x3b77182de9c29;0x803344e729bb7;0x578def6dd9ed8;0xaf7c06ebc8e2a;0x1c0526f806ef5;0x9441df664efda;0x9593a74044a00;0x774c4ea3033bd;0xd806c2c5564fe;0xc92cfc19507];[0x0;0xb1dbc354302e1;0xecac88ac96cfb;0x52b49cb2b8c1e;0x68136ea0dce5e;0x3f035c02b39ce;0xd8734bc77e394;0xe1e76cc73cfc0;0x151df6d790598;0x4fe055f6eb798;0xda706f61a83];[0x0;0x5b6b8ff0ba9d7;0x966e77ca8ab7f;0xdd726bad864cf;0x76ad7501e9a4;0xe93315d3e1c52;0x55f6d0cba5f39;0x180125fa2a89b;0x2a8307976de6f;0x2da3f5dc974df;0x195a89adcb];[0x0;0xb6dbbb54f9949;0x43a071b3e3b4;0xcc937a6ef7c3f;0x8ebb448d6f813;0x98528e8a6b73e;0xb073ddaada876;0x859b7df6e345;0x67f35cf2637cc;0xe770c0fa14cf4;0x14e96ef5163];[0x0;0x6580f0e2a1bad;0x42b5e945341cc;0x62f1e07f653a7;0x27708ed99af4;0x911627ead8877;0x9caea516e6e05;0x1ecd739847f76;0x19220b11438f0;0xb8beb6aaba7eb;0x49b55d8581698]]);
 ((V [0x7a6113f9059e7;0xd7b1a66375f66;0x10f8f613fb07f;0x489e92ef2715a;0x2579aa91e88b1;0x53501bbb98f82;0x637ca2b522f50;0x662e0c4839468;0x817ab004dc268;0x82fe6167c14] [0xcbddf787f6eb0;0xb2b97124d383d;0xe9830e0e4fc86;0x50935d5028624;0x3e533d1751fa;0xe7b49eccd6efc;0x1eaef1147b4ea;0x7f4501ea0cce3;0x1b88f290f13a;0xa689e01a553]),[[0x76c5b897f666d;0xbd5c7b395568b;0x5343e758f0e27;0xdabdaa093e4ea;0x307f33b311ca;0xf7cc1cf9c58f0;0x19ec26b234de8;0xe93861c9c0bda;0xc5584c03037e7;0x9acbc312ae7];[0xfad29d5b03419;0xcb7be54b68f82;0xfd878c3512e0;0xd7330a01d36b;0xdfc9f96f5902a;0x80bef9bb68194;0xe71ed30cf16a8;0xb5dc31832cc16;0xb8e440ad0a32a;0x385502bd0bf];[0x0;0x3af994a0c6368;0x760025291f4f9;0x42e8d581e6c8d;0x90112eaec320e;0x1351652792704;0x6322b1b0523da;0xb5b0ef589e454;0xc819048fdc711;0x8f029687647bb;0x3a45b745f];[0x0;0xf8cd8bd3b104d;0x3a349c958399e;0x4796030e0b6ce;0x380693900704c;0xbd707a9e0051d;0xc10f612c9f2f5;0x29207d02b6266;0x9e775c10cd0d4;0x75dfc13eccf91;0xf0c9fc0c83c];[0x0;0x33685e99c84b0;0xf59d7d8d1ff1f;0xc128c1830f4c;0xfa4829080b3bf;0xdace409d67282;0xace9ecd5a8dde;0x7b7241ea47b9a;0x94c40626b3978;0x3c741c27453d3;0x5d99c8e16e3];[0x0;0x92c9ca922bab4;0x9884805d3500e;0xb7482f77a0b56;0x8679b4d64bdf1;0xfdd8494cecb3c;0x9aca566db8905;0xa02370187d79e;0xe30e8055f9bb8;0xd194c879479dd;0x9b1bf7335a435]]);
 ((V [0xcf4011eaa04e2;0xf77256851380b;0x1441263e90845;0xc4a097f83bad0;0x4ba7014564926;0x35eb0d1f8f8f5;0xeec74b67a3cf0;0x716aeeed5d851;0x7bb6c6bdf072a;0xdcc9c35a84c] [0x68808a9228588;0xae9dac375e031;0xf1f01bc6723c9;0xd46c3fc23b3e5;0x7d549db8caded;0x76b7d6a541b43;0x34f52a3099199;0xb64d4109fca21;0x83c70915d1c99;0x6f20d4e6727]),[[0x50282726c349e;0x909bb8389efa0;0xf4899a106c9c;0x200477a2f4db8;0xb6ba2844ba247;0xa078d07e36c0;0x445c073d2a4a5;0x4aaf0ca1c617e;0x3c882f161ffcc;0x9a618671ca6];[0xe25634e24745;0x3cb3af0643d7b;0xba863fa68769b;0xf506653159e46;0x53bc0baf71098;0x2efdff9283e51;0x5d92c8935aba8;0xde7e493f58b65;0xb50ef300aa7a1;0x41d8db7f628];[0x0;0xe0972bbb98f74;0x3ac816e1832f9;0x86a6b3d426421;0xde38c4b04a146;0xe3cd9fa87082a;0x6afec27a270f2;0xfa7a5a5437fd1;0x23acac70fd755;0x8d9e5f83fd92;0x430757b2cf4];[0x0;0x8ff2c40c5e8eb;0x656523cbeeb01;0x6d51b414ad644;0x2b1b812d45718;0xfdbe1b3a5801d;0x7de187f86c4b7;0x5c3aec223921b;0xc422ed6b358a;0x94131e1f788a8;0xc8dcc507e61];[0x0;0x6149a5a30708c;0x8ad331a2eba00;0x2dbedc6b16998;0xdeafd8e760296;0xcdca5d74e6f7e;0x3519ba340d763;0xb93b8c10f0c06;0xaa3b1a00cd5e0;0x6bf503fa68ba4;0x5d197ae8105];[0x0;0x647f6fbd91ad0;0x8005d33b9030;0x3aa3dbd051012;0x5d98d342eb2b5;0x76930159f3d91;0x549198f4c9582;0x44c92065a116e;0xd50c174886e08;0xca5d28fb7916b;0x9ac5c16a17a88]]);
 ((V [0xac102aaf08048;0x35fd7477dcb0c;0xa330e91292fcb;0x7d418f972b148;0x840ccacc638af;0xe7b0d01bec5f7;0xef3c341af628d;0xb0c3afd514ba7;0x485c93aa9f1ee;0xc6e292194e2] [0x1e8c696c5df02;0x3cce7e458eff6;0x8f10dce93271e;0xc0182fa2b64e5;0x95442f279b4a;0x8a81871c3903b;0xe47b5382a8540;0x1a407fad817d3;0x28af3d10635d7;0xdf656b76f4]),[[0x26f1bfea5b21a;0x59caed2460fb4;0xca706ed0483c2;0x40f94481ba4b4;0x9214ca99b29a1;0x6dcf8ebfb6fdf;0xc88ed68cb16fd;0x8e115fd71c105;0xa756800f6fb43;0xbccc017d7ca];[0x517c75c018b3f;0x1e06e415dd994;0x9a6d96382fa1f;0xc416432d4be21;0xb5b73e0697e19;0x556d3aa641088;0xf96c014157b13;0xcf087f791c391;0xc6e9de7aac7ff;0xa3e4ac9d5a];[0x0;0x6565ca91fd593;0x6dbf2460e26c7;0x7dee5a01b9b1b;0x87ca6238147e0;0xe5b2587d6413a;0xaaff986edceb3;0xe00a65441b9fe;0x8c56ded7bfb41;0xed210927e4238;0xbe6b66c7ed6];[0x0;0xbde3e2ea92ae9;0x8d12983db973;0xdfc4ae9d52b0b;0xa7d2f5b822eb6;0x2fb5165438ea;0x7e1c1bb197190;0x6859b93cb0c66;0x760d3dcff8635;0xc8a1eb1dee4d2;0xa3e95650fb5];[0x0;0xbf5bb9063aa8;0x10db9cd95b4e8;0x60d241b6518cc;0x968f8621f95ba;0x620fb85e092de;0xcc110c9b878fd;0x138f8abea7b57;0x70649e1b41766;0xb44982f43557b;0x8b3c44c2af1];[0x0;0x6ebccdcb0b430;0xfc50a661504d9;0x7c50baf71eacb;0x8e7b18880c1ef;0x9c5e50837b436;0x5119608c38391;0x9da058cd18696;0xe62efb27cf033;0x62257ba508d12;0xbd98f4bb81eef]]);
 ((V [0x4da1341910fee;0x429055ed691df;0x8512bbf09026e;0x782dc76efb817;0xb0503c34cd5d5;0x3a0fa133353a3;0x56f826bb03ec6;0x2856a2473231f;0x5da26547e996f;0x79befc4af4d] [0x26003b3bfe901;0xf89a7eae08dce;0xf60ee310ce85a;0x9a7352f08da1c;0x78d05fb0aeeb7;0x9f2ec55d59f7b;0xb65a1b98e20ec;0x31324f2f580b5;0x3744a859e2851;0xe30c921598f]),[[0xb9d87e1d541db;0x3b005dd9d9fb9;0x8d680ac1eea15;0xda6c9d316fd9f;0x325f5e86c9f2e;0x99483a065ebb4;0x821ff88270a8c;0x2ea66ca619d6;0x3ab1a4f0f7f6;0x250a33e7345];[0x1908c81e2e27c;0x91366cbef2c54;0x40be028633591;0xcae0d079c6cea;0x84c188d4b7563;0x8fc2762ca8255;0x31a02f439c8df;0xed39e2c7d796a;0x715532ab0f57b;0xbbee477abb8];[0x0;0xbf2d1422f101c;0x6113891fe047c;0x4db5902c2cf9b;0xfa20b800cf18a;0x5c4e89877718f;0x66db0c6b235c1;0xe09ac1784f60c;0x364714190b9ac;0xf571181a06540;0x9a8342856ce];[0x0;0x4c3ce79af422c;0xd5df480dad15d;0xe3795c48da630;0xdf1a434c8ae3e;0x4664931c16bcb;0x330a63391dc56;0xfc6eb9473f214;0xcae9452906eb1;0x56545ab18b7d;0x40a51f92b5];[0x0;0x2fa071116144d;0x296c4bdd0f755;0xe832387995018;0x8089446403025;0x2f3042721d037;0xda9c65ad65f2;0xcd09e1e091aaa;0x11397482caca4;0x536e35a6befcd;0x55bf368edb];[0x0;0x90dfd8fa5f208;0xd4969a376d630;0xa7cea41ef4813;0x505931051d669;0x9a8df97d2cfc0;0x611f03e1ef70a;0x9fb1ea33dd0b3;0x89f9efc813dbb;0xa7871699722b3;0x253a6752c9f33]]);
 ((V [0xcd0146e4806b7;0x69f3cc11dd6c5;0x11ce7a02b78b0;0x92ad6d365eb13;0xf9d2184e2c49d;0x285155a4d2bcc;0xade0acf118941;0xde877b8d869a2;0xade2aac750bd;0x873f684ff19] [0x8e7e29c0d6538;0xaf8bcdf3bb308;0x562b8fde89ced;0x6ecd1e86921bb;0x3ccca0aa5d1a;0xc266d2cf7872c;0xb73156339a386;0x5c3871dc00346;0xc6b4c001e5bde;0xd47908b0b95]),[[0xf57e6d755f335;0xe08b5f826b17d;0xf9ada550e14e2;0x72c6e19eb3d5e;0xac58a65502cfb;0xfce745a48899e;0x8b52e160b1fae;0x7309dfd334f2e;0x669a985914267;0xd32de7ac67c];[0x9c6502a3de88b;0x2e6f125b49b8d;0x624d0f61323b6;0xaaf202dc3640e;0x72d8e20eaefd7;0xb3b7cf718b5a8;0x1703e889cf627;0xc27403a315f3b;0xb038d3279ce9e;0x982a63a4ce4];[0x0;0xe60c47997757f;0x6eddc6f3d611c;0x5dd921903b006;0x6ff9c7cb6e9f3;0x20545ed9aacc9;0x4ce7eb44ef349;0xea8bb01a1915d;0xbb248e7a175c2;0x93d9f880b07f6;0x39e618fa535];[0x0;0xeff4f6ed392d3;0x6150c0f51b2ae;0xb630adfba7f39;0x4c249878e30e0;0x17bc61fe24225;0xf6daac87f27f9;0xbbeeb9e6c6cfc;0x67714938a2918;0x46ec2fb504350;0x17698262d765];[0x0;0xdf28081ce226a;0x7df617f32aee9;0xbf13adc360c9a;0x404d168f8cdcb;0xfa76131c2de74;0x92b44a47abbda;0x61ff3f270e4a7;0x885aa501ff47a;0x625524725962d;0xae34b421775];[0x0;0xebf5b476067bb;0x8e7c465fc44bc;0x6a0dc13320c7b;0xb0f94cf9de3ca;0x7ddeffb7f445f;0x751b52b7eee22;0xa39079a44f910;0x74600a889afa1;0x774111659fb96;0xd3f5f24f411bc]]);
 ((V [0xf61a6802c8c4;0x83693ddb65b6c;0x310cd4f16b7a5;0x3b2e0fb568620;0xc1b370d7ccd5e;0x60fc1a5d1365e;0xcde6dab9f76a9;0xb628fb922639d;0xd99e720463d88;0x27596e279aa] [0xd7145b9de2dc5;0x85d68bc50d458;0xf57c496ce4333;0x47df3547b7ffa;0xa34359b995f71;0xb7db2157ad758;0x354d936e9d504;0xc5948aa95b8f1;0x3af88703f0dd7;0x809a9e769ca]),[[0x6a3760b7bc561;0xc7577f733d15a;0x90f36d37a32f6;0xd4e0a23542943;0x311bd46a0cc0d;0x34ddb6bbcd1ea;0x10edc85991393;0x24f426da1cecc;0xaddc4a8ed4f4b;0xcf40f811d51];[0x59d0809395be0;0xd012a1512c116;0xc6b14ac18efde;0xc4ca93bf39cd0;0xa1056ea54ca2c;0x813a1104906cb;0x329c49abcb160;0x1a460ac19be3e;0x3684bf2ce8ea8;0xac7ffdb6956];[0x0;0xba4c3715fe187;0x48719d680238d;0x6740bb303f6b9;0x15b25b26fdba9;0x61488e09d071a;0x1ceb9a15b164e;0x743e5b6d2d1ae;0x316c0ebf2f2e0;0x89d72e337b12;0x4773efb8d2a];[0x0;0xf4e1ccafb0494;0xbc8bfa0d2c2c8;0xef9a3325b953b;0xd28bf5671e540;0x7707dd81633d7;0x4b054af15490;0xb84f581060dda;0x82e077bded276;0x7b3817f734f2b;0x15807945a3ec];[0x0;0x450a3c8f62ef9;0x9457c8a1175f2;0x805ea7d220def;0x368625eb8323c;0xdbe92fc7d4993;0x32ff59d21c552;0xec4a11f02c8e8;0x71a5c960180c5;0xe8e34f8287028;0xa7ca21a9cfe];[0x0;0xe1ae54147909b;0x7c798e657d9cd;0xb268b3175c6af;0x3ca166dcfaf32;0x8753b2cdb8fe5;0x34fc25a75f3cf;0x1791213fc5240;0x2de42fdb39092;0x112c6e741897a;0xd05ddc559990c]])]
 [[0x26e7caa48c57;0x40fc7fbb6e5cf;0xc3d6041a9d56c;0x94a3a5c854626;0xbf7d311608e0e;0x23b83b34cefc2;0x12d560c699fb6;0x7a653317ea9a;0x94e5d0ff598df;0x2981cba77d5];[0x975c0cf6112d;0xfe2bd9b1d1874;0x7ce56d02472b4;0xf4bf2b23f2b68;0xa91aea3923506;0xaf0418ef396c9;0xd24788f7e21b;0xfd2e98f75635f;0x80e61c5515f41;0x96dd06d8c64];[0x0;0x74a9f724cb005;0x6ab9ed66ab5f6;0xdf793829ea177;0x77903221fb6d4;0x773c9c008f3d2;0xfbace79a6d046;0x162ecb4671e8;0x1493978f0a441;0x80a71d26aea2;0x60c5ecdd81];[0x0;0x56f6dc449848d;0x7dc7ad1e140f9;0xfb08fb0b55984;0xc46786a4fb0c;0xb1ca56bc566ab;0x1601cb7756e1;0x4a654f17000bc;0x41f6c12ce475f;0x1df5a4dc7c4fb;0x29b3ef3330b];[0x0;0x676dbfd18a372;0xefa2a91cf784f;0xc6c47c3341f47;0xbe200ef68ac08;0x62e582aa42146;0x655639099ad7f;0x32a6ce8f3f22c;0x4a5fecffd0887;0x5fd7b3312eae4;0x6bad50a86f];[0x0;0x79304ea830f73;0x69fdadaf897c1;0x2f9fee9448f1b;0x65eb63b668892;0xead06be01501d;0x83a2603bfd8ec;0x165187c3e6ecb;0x2286513a9d5f5;0x5ac88a07800f6;0x29aa4d931f3fa]].
Definition wit_512A_32_10 : colwit ipt wit := mk_colwit (V [0xc39e55b26deb3;0x5100191c7ad95;0xb72ad4cfae1b4;0xb1d6656d7307;0xc8f8641e9c8f8;0x1415e604f6f6f;0x438a8282af789;0xd561f7e7875c6;0x46a9f820d769a;0x48e7c28c76] [0x5bf5c6a4c3f98;0x6ea0290284e1;0xbc8ac73c07e5d;0x1521498b57e41;0xb16e004cc6b26;0x13253b38e857;0x265e4509a9546;0xef66d97d38b81;0xc74beea8ade1b;0x3ba0746c00d])
 [[0x77d90baf43cf4;0x173dd87076d65;0xe883a563b809b;0x7aadd51603a52;0x4b835dfdf09b1;0x47d4095b968e9;0x5d097e430a3d4;0xb1f45f9872df9;0x8a17089cb8f3c;0x2dfe04f8da7];[0x80a7ec3dbe01d;0xcfa41ecc59c84;0xc5b7b1598f2b5;0xd4230ac96d839;0x5545e805e410f;0x6815ba7c69667;0x116cbba67b323;0xd2a404d8a8dbc;0xc4c3f118756b1;0x48a00635fd3];[0x0;0xcdb534e271684;0x80e4440c47493;0x33528494f1652;0x3efb2a0623d92;0xcfb059944fd;0xc809ed7a84399;0x908e07a91f706;0x6888840ceadf6;0xc97e4dd80c9f1;0x81785429f0];[0x0;0x45da433a94083;0x7915de5957609;0x3a18d3fcf40ba;0x38cf29ed6b070;0x1e1ef65d3fbe9;0xc47121066327d;0x9a636fd654634;0x2c89acbe47da0;0x445fb5d8a0845;0x1e2449aef74];[0x0;0x4fdf43742f2c1;0x7d67e898e3ce8;0x3964eaf57f924;0x8955fbf857022;0xb64980914e250;0x76cbabcd40cd8;0xf53f6b4f288ad;0x53df134645cab;0x8a8ddb4f8fa70;0x84349cd5ab];[0x0;0x6e2a2243bd752;0xa22cfbb41cf0b;0xfbb6179050ff7;0x6809f54c38585;0xa7048ecc697f5;0x6847091377d8c;0xfa9f94c6fd47f;0x2040830124654;0x603b6df6b626a;0x2e335eb6c9d3a]]
 [[[0xc9c3c840e7bb5;0x5b97971567c21;0xe905bb8b0f058;0x4a1bfeb116d6c;0xe37b0ca7ca2f7;0xaabd4b47e4bd9;0x1ba4fcad56809;0x7740364ae79c7;0x5d17c363eb718;0xfb53dd733c5];[0x0;0x73bece0ef977e;0xc4d1be22204b3;0xcf6c9a0547874;0xe843a947d0382;0x18f6ee183be77;0xb52fbbc93acb2;0xa0be092d686e;0xef54bb6117634;0xa05f82a45fe9d;0xfc26fb9884ed0];[0x0;0x29285cbfacaad;0xe04882f92a2e0;0x312efe4204558;0x2d30242cecfd7;0x8e1c99307ba88;0xb11b166cb71f7;0x2c2587837ef3c;0xb983744a25883;0x9927ad7ed29ec;0xf6bd8fb9509];[0x0;0x7fdf8cde16f4a;0xf0542c67ff2d9;0x65c88fad41df5;0x81922e3c6ff88;0xd500041110451;0xe4f3151997658;0x5b31728480889;0x3b129023b3994;0xa07f78673673f;0xfc637e019e587]];
 [[0x708938caf26e2;0xf26ac7b6e3c72;0xd78b009dc8c84;0x488cc549f8a08;0x1305f0f97e1f0;0x57e50c2ab5b19;0x54fc2b9b6a91a;0x133d39583b428;0x69e4472c247ce;0x6f29a619f3b];[0x0;0x6ae88fe197095;0x886cb56912de;0x5c88b273933a9;0xd4e5c0f72dcc8;0xd2d73af1674c9;0x96a01d396d92b;0x7aba78683744d;0xb1eb69b50b5a6;0x1963a29c61a0b;0x6f900153181f8];[0x0;0xa69e1dc2a65a1;0x1d7f24bb51658;0x52fa1ef3421a7;0xf1f9a24e4a9d6;0xda9b881902627;0x70cb1d52bdb2e;0x188fd2a761d05;0x70cb190e56ce0;0xe187064611d6d;0x304524d1216];[0x0;0xddbaa1773d0b4;0xe4e509f51320;0x7b3f91929a358;0x6f4caf96f6df8;0x5bef4777034f0;0x1f1af22e8532c;0xbb2baff2821f9;0xd3d2d2df19f45;0x9d1bf46704455;0x6f857df676192]];
 [[0x68da9ef754264;0xad643f1d187a1;0xa1e6d5b60c5a8;0x8cc8ed0e822ca;0x9a71d6903c588;0x2ae3ca62fa8ca;0x1bb7787176cbc;0x3e7e544c88aa9;0xa0f480bc6901f;0xc0d32d4cc37];[0x0;0x7be927c18da27;0x4dd75b1f2ddc6;0x738aff8e68bc0;0x2ab66469df38e;0xce2fa6f899931;0x44de9628a39a1;0xdf87795316549;0x1ae6e7d78d57d;0x824fedb25b91a;0xc16336d9c9d21];[0x0;0x6695c9002e378;0x5ddf50e33bb3d;0xaa93129590550;0x2899b2a12548d;0x1a4cdb887e188;0x8e56d59d7c280;0x36361c14b96d4;0x91544fb023e98;0x565ded188d5e5;0x913d7226d9c];[0x0;0x2511588068082;0xc5e90e1901bfe;0x1b613fc1b3ac8;0x73e971e8de15d;0x2535dd8ec65fb;0xe2158c911fb85;0x2d0f34e595d92;0xf87414a5848fe;0xa585b41ddab82;0xc17bee383a178]];
 [[0x1c61537bf6741;0xfa6768c85ea03;0x724fa3b5ac458;0xe67e1d547b608;0x517a2c8bf44e4;0xa1a0abb28b19b;0x2e5832ca4c6e9;0x1cef8d0644e99;0xb2c4715cb6869;0x66000e54a11];[0x0;0x39b1170223946;0xa91fb23b41066;0xcac7dc9da6814;0x7dde2a1acd18f;0x916e5f5c0022b;0xf86e432f283e9;0xcd83b10a3a9e2;0x3df66084cc230;0x23e1b5cf48855;0x663f83f14dd66];[0x0;0x143c0f35cbe08;0x6ad8df4c36613;0x31d5a41f7a677;0x1cafbc9e5b8ad;0x89f744f2ee836;0x908ddfce156e8;0x39fb1448d31ba;0x1807ddfd70afd;0xf04e1bd6e1cd0;0x28a40b6b712];[0x0;0x43193d6aaf507;0xc82501b46b5c;0x7267f830a3ad7;0xe1bbdbd482f75;0x716b28ccd481b;0x8a55a73c70cdb;0x5de1f94135030;0x1e22e45811a97;0x27b854f84ff6;0x6689005f377a8]];
 [[0x4aade6dcbeb86;0x47292708fd0ee;0x73c85fc17cf06;0x63a24254510d5;0xed18094d4a62b;0x6f49a0c8bd1ea;0x73581ece60711;0xbef55aadb73d7;0x76555bc32b8be;0xf69918c3cb4];[0x0;0xd7b29d5429951;0x98b59692d2810;0x9be4e7d45423f;0x6202340056e73;0xc91a02f1e0902;0x8e30511abfea7;0x8dfadc7c73853;0x38b23b0f7c7fd;0x5a2b53c7267a5;0xf787008a41c4d];[0x0;0x54ebe94b92e5a;0xa5d1ae5c989ec;0xa07ca7528a6fd;0x7f3d9d6e0a8b0;0x6c703fafae71f;0x94ecf282ab5c7;0x4390f6659e154;0xf90c9a48b10ea;0xb7df4995b3234;0xed8a9726e71];[0x0;0xbec2b90ba38a3;0xc1acd6eeda0c0;0x61a92f7587f55;0xe1052b164f7b9;0xb52f4b8420d26;0x9d50c9c9b74c7;0xf1cd91284c64d;0xa6216e5a471c7;0xd7ca26c61b94d;0xf6d73b2c6baa1]];
 [[0x88a7271fdecfd;0x1b23ccc87536d;0x60f81bc24d41d;0xc4c89707850a5;0x3f9d1c7c39191;0x417a45deea50b;0xfab39b46aa5ae;0x9da1288c179ae;0x7f81af335a7ad;0x363d9ad6163];[0x0;0xeb1c9a41d98f2;0xe438d04c729f;0xa6b37ac06c355;0x22c2f0190be8d;0x4b382d81be655;0x332ea9bbc1092;0xd7bac889baad4;0x9a1cc4c5d41de;0xacf757bd473b9;0x36495c11c5de2];[0x0;0x75cf9a72b4b47;0x3cec12f767f0e;0xd995c6f349f78;0x1ba586309a2d9;0x995a0c4c1b599;0x551859a477e7e;0xa068bd7f1bb16;0x808447c00177b;0xc791c19736edb;0xb7e0c25790];[0x0;0x4e6c0d10044e8;0xc21a242e53ced;0x5fac19b6f08b5;0xf88074b36bebb;0x4ba0fbaa5eded;0x8e4c434be926d;0x83aeb31d40039;0x78c891bb9ad2e;0x9911508910ffb;0x3698577405f5f]];
 [[0x54e49bac280d4;0xcf883633b932b;0xc292cba1914b5;0x2e52c8d711574;0x3f237024e806c;0x1a424ac21a177;0x8ce11208bbcef;0x3dcb227d949ba;0x673c41ccc6022;0xe5e1bd43768];[0x0;0x852360df23814;0x8c4a43306f773;0x54385fca0eee9;0x818503be165af;0x194570d921b39;0x90417cc8b7480;0xfc3360c420761;0xa6b36835ac7af;0x3df231961b95e;0xe6ae3c5804f31];[0x0;0x8f12a44ab1d16;0xa268ac1574305;0x1093ac12f0f48;0x595ca586bf49b;0x18b5bd4a4f513;0x2b9ff806a476b;0x560de4a4af606;0x47df42a1853e7;0xf923e2270a7c1;0xce6da3a8ee8];[0x0;0xe59cc14341681;0x5e440982a1c8e;0x9067d306512f8;0x89751ec4bcf87;0xc1d0f14c537eb;0x1a8a1a8524226;0xb8e806239ec68;0xf9c01f337d77c;0xbc5db1871b61f;0xe6cbd4c6acfa5]];
 [[0x72010f97b7916;0x618e8fd4d4dfd;0x20ea1ed7fa3e2;0x88661092ef92;0x4ca42a1ff917a;0x4aede3f4e66fe;0xcd7f1826dfc6d;0x27fdc62c469d3;0x62f38f077c720;0x315f1b2bec0];[0x0;0x346539b4d30f5;0x5a81e55964fc4;0x355f064f38d7c;0xd62e67a46411d;0xb91e520d681ff;0xdefefb3b88451;0x76066c62a14;0xb5b26f3684277;0x9b24bb7fca052;0x318bee09f513f];[0x0;0x3d4af4150a26e;0x7d33a6023a316;0xbfdf4c557aa77;0x903966d185f12;0x29fdc0f7629c6;0x17dba6d30213f;0x33156355af65a;0x60289329af960;0x5d5fd49f59a31;0x9858bbbfdd];[0x0;0x10bd40997cf75;0xad2d546202841;0xc4ccb45e4f03;0x5a6ae03539d1b;0x622b44a98bca1;0x204792f38c63e;0xaaa51dd9af102;0x1cf5c0e54d886;0x99bccecc46506;0x318ccb03417e5]];
 [[0x7708bc831e620;0xb4bf57e6144e0;0x87f7e07d17243;0x7989ba8503fa9;0xa06afabb4d8f0;0xa907381f7298e;0x75ef4f1895bd9;0xd483fa01dcdda;0x7aa5dfd677705;0x417f9fa2c51];[0x0;0x6f487e8fb92e4;0x1950478ee2048;0x82fbd09327ba5;0xd5e1f6910bc85;0x289c6bf637eeb;0x51df5337922e4;0xea1f0bff57b50;0x44d35f65a31d6;0xb6fc563abb779;0x41b63358e4e38];[0x0;0x336a96f9b1f77;0x323c5da08b11f;0xc53df4e447d03;0x5801ad83b3b4f;0xc2cc71a1ff397;0x6b65cfe0a76b7;0xfad254eb40597;0xc57e19c5cd9;0x12a503341c539;0x10c20eb06f2];[0x0;0xd18947d14e43f;0xd8c7b888bfc87;0x42d3bafd91017;0x89a386d2195a5;0x8c0707365504d;0x88eaa7e1f4150;0x64188feda763a;0xa02e4590900ed;0xff8af8be5db32;0x418f0c60b93e1]];
 [[0xb72da30e137ba;0xa906606949c39;0x9dc1157439141;0xa02db2db2b809;0x3331b6828a603;0xc6c51fc0cb3;0x1cd838420fcff;0x3ea1aad432f28;0x7b809ee18356e;0x296dab386c9];[0x0;0x3a4c86aaaefb5;0x97c2b18a97162;0x7aa0a36a13f5c;0x3ee4ed3911568;0xbf684db40d7e6;0xe5edc8312b552;0x735b99386730f;0x2e9ecd9f86254;0x80964e147815d;0x29708465383cf];[0x0;0x97afbca9f4cd1;0xb448a3d604812;0xc3fe1b7b00b9f;0x5ef238ddb93e0;0xc64146a298735;0x8ed802550b9f8;0x5430b2a99cf4f;0x52d35a9446d0d;0x97fa84706a75a;0x6b44fd3535];[0x0;0x8c78511408a1e;0x8a8a9a883f7ff;0x9493e1a573e96;0xc1bb35db1f69a;0x25f61c0c6e7a8;0xe12b3a84a2fd9;0x46731ce605861;0x4dd8ed0a28dc8;0x9a18b3d608e8;0x29b6b2bc692d1]];
 [[0x1ddefa4faa28d;0xfaadd75233f10;0xf33751669d369;0x59a29a699fef5;0x359c07b1b16e3;0xc2de5ae4683a1;0x82ef24f751264;0x890421fd25909;0x156bd892770ef;0x4cd771f19b6];[0x0;0x7886f221aa700;0xad578a06f6ed0;0xa02f3371eaa5b;0x99b9c5b0eb77d;0x9536731845514;0x6f54ccfb2128d;0x56e5c4f783b87;0x7938a2690f355;0x622bb676d28f8;0x4d175781decca];[0x0;0x8ca7583885244;0xd1dba86043acb;0x40d433fde7cb7;0xd99eb194bd9c;0x83f82c1a21600;0x8e4df4aad944b;0x2033f0aa1d2c4;0x56c44a34f8563;0xbf83215f3734b;0x1710a0f80ac];[0x0;0x71faf8cf44573;0xc620223518d22;0x93f331aed9fe0;0x410f906a8eb37;0xbf4f22c47663f;0xdfa090395b2dc;0x957a613924077;0xa118a0481ec83;0x45536b1550fa4;0x4d126ec40d2ef]];
 [[0x1869ed275a969;0x2293d307ea8ec;0x811af46e0e596;0xf0cee4273dd67;0x7fb1ed8f4d3b6;0xab864a9747cf9;0xf7a5ba0398330;0xff41c7644dcd7;0xc9ffe6315a6e4;0x53ca2939d88];[0x0;0x39e7eeeeb99ce;0xcf64a95950;0xc116015bc8059;0x4a7d997cafe0d;0x80e7592b634e1;0xa7f3b2e2dd8a2;0xcfdfbec31c0d6;0x2bccd3e5cf374;0xaea5ab1e43ef6;0x53fc5df4b6b90];[0x0;0x430141487d336;0x21df0ace6113f;0xa47629627ecef;0x99dd491a0940b;0xdaf6940b4e4e8;0xda46b35fc178b;0x9607ddd2070c9;0x97700c0515be8;0x8821aa2c0bea5;0x1b6cb660985];[0x0;0x32c89014d923a;0xbcf1e11f91a8d;0xb61bfc97e8132;0x22c2c25d3d86c;0xfe3964f901e29;0x42f3b9120f3cf;0x95cb511e56731;0xc70017ebec331;0x996b8c8eb7b7e;0x54272fc04731d]];
 [[0x650ad4875e03c;0x3f6aba48360e5;0x331af3451ad89;0xfa581896d1c6d;0x77c851f6b3c70;0xdf9ddc1713ad6;0x51008a8d838c;0xc548e8a5ea881;0x9d18f91ea1085;0x8bd065e3ea8];[0x0;0x3294305d9a222;0x210474c94c6a2;0xe5c445ba9bdad;0xc4b86f3c60373;0xc6233d4bf82ed;0xf91cb2e84225a;0x6800c1652cb90;0x70aaa8869cea0;0x6a4d79ece7a68;0x8c339599e3a18];[0x0;0xeb7cb1afc718f;0x1c5dafb3907bc;0xf421f1e62bf4b;0xf16991c8a3279;0x2aa653d0d9ede;0x558965edda75d;0xfc54927060fca;0x1b66d8462a6a;0xc6b80f8667558;0x4c5bf84b3b9];[0x0;0x926df1f47915e;0x47f81d29bb8c;0x5d654b3a27e64;0x336e96e672122;0x1a96e559afb64;0x2573f85c1e664;0xafcabd34a29f6;0x902f26850cba1;0xb9d289b4bf1ca;0x8c005cd278d7c]];
 [[0xebc72f3df3b8f;0x909b2aae3fd9e;0x3fe67721ac839;0xaa689898f95a0;0x357fbac1a2eee;0xc45881759e093;0xa07b63f7d4ee0;0xe351db0663490;0x97838a4edef0b;0x4f1616e2f38];[0x0;0x238009c15212d;0xf86982e7ad792;0x179fba7f7983d;0x37201a463ddf7;0x799b73a2cc37d;0x78a9519a2d099;0x895a4e671299d;0x286b5906eb04;0xf119e5c03f572;0x4f1a3d52682d3];[0x0;0x60c99cd0a65da;0xa2b021ce7c977;0x62ca0750cb9f7;0x5bbd0ef26c8b2;0x2171a7759fd54;0x6642f7db68b42;0xa3ccb71417816;0xf3b914f113481;0xc7ee2269776d7;0x186ea408035];[0x0;0xbe80b0da942f3;0x1ea7f2b2363d3;0x4eaaad6a42194;0x85b2fb3c81db1;0x78ba34989006e;0xe4b48258ce014;0x3897117403225;0x23c00348633ec;0x73a0a2d099092;0x4fab28fa23a39]];
 [[0x5037117ad4580;0x5336694b949d6;0x758fed7442f58;0x981726d1e66b7;0xf3179541bb08e;0xf92b20f3e00b3;0x10e26b885a498;0xa3430e6f07be1;0x44766ad8e2f3d;0x80c8b091d91];[0x0;0x4b73d25b436d2;0x7692ee45351eb;0x86169ad6609a;0x1903ec3083f03;0x956517c158766;0x43511b7600094;0x8bbc0b4948c4e;0x44ba08ecad51e;0x4aab6ace5aba7;0x8141690424f99];[0x0;0x4e4ab751914ab;0xd72a76b111d05;0xdf5c8b02b6621;0xfb52a39642baf;0xa308cf78dac08;0xbbcd02d8d17a8;0xfe67143c34d28;0xddc8b3463c9da;0x54a9c136d102;0x40c94de636c];[0x0;0x7e67794e8f7d5;0x6be83a383ef73;0xfbf5a2b60b37a;0xbdba613e744e5;0x2cc2f063778c7;0x22b5551613ef8;0xb8e864b9bb06b;0xe1498ce60c578;0x680c00df95d80;0x80d8ca6eb780b]]]
 (V [0xc39e55b26deb3;0x5100191c7ad95;0xb72ad4cfae1b4;0xb1d6656d7307;0xc8f8641e9c8f8;0x1415e604f6f6f;0x438a8282af789;0xd561f7e7875c6;0x46a9f820d769a;0x48e7c28c76] [0x5bf5c6a4c3f98;0x6ea0290284e1;0xbc8ac73c07e5d;0x1521498b57e41;0xb16e004cc6b26;0x13253b38e857;0x265e4509a9546;0xef66d97d38b81;0xc74beea8ade1b;0x3ba0746c00d]) []
 []
 [].
Definition wit_512A_32 : list (colwit ipt wit) := [wit_512A_32_0; wit_512A_32_1; wit_512A_32_2; wit_512A_32_3; wit_512A_32_4; wit_512A_32_5; wit_512A_32_6; wit_512A_32_7; wit_512A_32_8; wit_512A_32_9; wit_512A_32_10].
