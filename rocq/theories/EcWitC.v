(** Witnesses for checking the table of ecp_id_GostR3410_2001_CryptoPro_C_ParamSet.c (EcTableCheck.v): slopes, quotients and intermediate points. *)
From Coq Require Import List Uint63.
From Verif Require Import IntPoly EcTableCheck.
Import ListNotations.
Local Open Scope uint63_scope.
Local Notation V := unp2.
Definition wit_C_64_0 : colwit ipt wit := mk_colwit (V [0x52d7eda7e5090;0x2bfed33848509;0x417a5a57dc1a5;0xc122c60964279;0x8a16723487d8] [0xb02c2d5babfbf;0x86a125a4f406a;0x828252d06cc51;0x7a33f3113432;0x999414485daa])
 [[0xfcb582a40103d;0xaab6528ee7bf4;0xdd0742ed086a5;0xc02f9c8da8642;0x17985688c6c4];[0x0;0x0;0x0;0x0;0x0];[0x0];[0x0;0x5e0283f861efc;0xcf8540aa437d3;0x65fc753a14265;0x2a7bf42a2c3da;0x13d614df824b];[0x1;0x51d99ddcf9f55;0xd6dddd862769d;0x4778c75f195ba;0xf4a2ff9da0b8d;0xdf93dd50c1dc];[0x0;0x5811e5996527f;0x88fb8d879c1ec;0x2b46817d03009;0xb8add50ffe0be;0xa5a352a5782f]]
 [[[0x834b5c7432774;0xf38f8e8628333;0x4f3a48c99cca1;0x731b3fcd03ffe;0x1ba8e3358ba5];[0x1;0xa188d5591cf04;0x86c663f9e1bf9;0x91db93997e08b;0xc9c9ac41997c1;0x8336d4628a177;0x1];[0x1;0x71c28a178c950;0xc6297df84938b;0xeeb977ce76a98;0x5b6414d7bf28b;0x1ceb8af67a632];[0x0;0x10675fa516f70;0xdef2ce2fd714d;0x28089028166d1;0xcbec4419aee37;0x1e3da32954fdb]];
 [[0xe0f9698b3f32d;0x7045decee998f;0xd7690f12a062;0xa9eb6b9d01fa9;0x3608bbe3030b];[0x1;0x5f1c1e76dd374;0x9d28c4ab784f5;0x5a98e0e59ef19;0x5f58e05c90a59;0x625684d7f0432;0x1];[0x1;0x8fb2c5d222335;0x3a75d8f6fd5b2;0xee9685954d63f;0x71d84744fc69;0x1ebaa2a50b58a];[0x0;0x98dff05ea2567;0x360a8b6318899;0x1e72edcd56777;0x8128beb8ca140;0x5a6d892410e5b]];
 [[0xb23f2a827f74e;0xcfe26fccff56;0x239b37c032fd;0xa0f5a36f27596;0x991e75d181fa];[0x1;0x19406b4db85c8;0x8cef19d809420;0xe8d0fcea6569f;0xa1ce0fbc0a724;0xb597875063a25];[0x1;0xb868af6ffee74;0x6f02c6c2c5565;0x5e39c299047d2;0xa05f4879ca41a;0xbb77f372d5aa];[0x0;0x95dda96083d20;0x2810821ca58cb;0xcc2cbfbfff892;0x59e59ed62821e;0xf28ea54369508]];
 [[0x3201a70b903ad;0xc9ce7a18b82cc;0x64cb8f4df9901;0xa7b95e9409800;0x36edb7f11ee3];[0x1;0xf690400281cdb;0x158a4ead53cf1;0x3d687c0cd2925;0xf4ae4f3298cd7;0x53006c0e1066f;0x1];[0x1;0x4761541a1ac35;0xf8e5afa4ff88d;0x728c98bcdf082;0xb643ad7d0cdae;0x162c1c8e9a59b];[0x0;0xe9ad4da95998f;0x46590a9681297;0x457de8f00366a;0xca93373dabb03;0x4b94ad188d84d]];
 [[0xc8e70c6edc7f8;0x11b2b3a8bd84d;0xcab27f72d02f3;0x5daaa487ab41a;0x826b3d629a46];[0x1;0x82afbd3142748;0x921edbfbc8ddb;0xceb3a801870a0;0x577bef535685c;0xdbfae8ad221da];[0x1;0x829caf2e35b40;0x3170a9132208f;0x977ce9e536a6d;0x2e7b7d15b37e0;0x17fe65829ce59];[0x0;0x72a67a858f5c8;0xe8c159b8ff749;0x52320ee8ad8ba;0xd0d34ae14dad0;0xc5fa4750abd8d]];
 [[0x2042db8427ec1;0x89619610f6cd8;0x94d4c9d37edd8;0xbacffedbbc4f5;0x4867b395ba29];[0x1;0xcefe5a2d7042b;0xf33dfeac65422;0xa1cd94e905735;0xea427534a0b88;0x3540c3b80306a;0x1];[0x1;0x2be7db33cd6ed;0x97c9dec946b74;0x6ef56a7f4be2c;0xe2034dc062de7;0x1b5d835c057b7];[0x0;0xae86737a99bb6;0xc2b5fda79d8a9;0xc01b748752161;0x60e1ba8db899f;0x5fc4d37d6d5c9]];
 [[0x5c64256536fc8;0xc6ab7197406c0;0xae1c90a1ca9e1;0x3eaf13bd5e75d;0x94e4e88e8ad2];[0x1;0x3fb7b8caa280;0xd9f21110ce0bd;0xfdfc1f8e9234e;0x4e53b8d6fe3af;0xb148b909fd256];[0x1;0xec81f2b31f740;0xf35ef28c48a4c;0xa4c2c477f53c9;0x2314c4b2951a4;0xabbd11cb0268];[0x0;0x8be680a1c3f10;0x648ed34c4f433;0xe3fdfc2d9ab96;0x991fe2a454f48;0xe11e92a6de9c1]];
 [[0xbb4dec311715a;0x199fd8442a69e;0x303c61a7bbb00;0xadd653a9a0ab9;0x2c483dfb07b5];[0x1;0x4b74c5f6da18a;0x1a14eb2528d87;0x8d502861ae25a;0x5209d271ed58d;0x64de2a8887b19;0x1];[0x1;0x4bd40104698d4;0x117241c681b12;0x76c0bce050e91;0x272e213f2207c;0x150b73b16153a];[0x0;0x7f4f7ebc36354;0x9b49818952d4;0xfcf6cbb2704ac;0x25e6417ef7f65;0x389ac003b789d]];
 [[0x129fb5bdf1330;0x275c6dff8a640;0x86f2919164371;0x308d7777ba12a;0x30c6d7fb45b9];[0x1;0x8d619f03ba660;0xf3968954978d0;0xf1cafea015c77;0xa942b81e759ff;0x687d117244aa8;0x1];[0x1;0xe635b39907500;0x9ecb7dff4c4e9;0xd4e3b00b8cbc;0xfac9b177aee4a;0x1add12cbb1f93];[0x0;0x38ee3b846a8e0;0xa1620e6280b6;0xffed4af0c187c;0xdea5325139f52;0x431b5c136db61]];
 [[0x950077a6a8a53;0x34de9ee4ad356;0x70c19efc4c307;0xacb9ad6980666;0x3c7b2237768f];[0x1;0x6c31f6b678799;0xf895c658a48f6;0xa9acc01798d68;0x669680c124d96;0x4ccee815d80e8;0x1];[0x1;0x92d5772303035;0x41d77a9003364;0x2da748847cf6a;0x61823e0d23498;0x18d82e64bc509];[0x0;0x27662129d527f;0x59dcf1e953ce4;0x4c3b9d2b3510e;0xe913c38eab94;0x529287cf7daa6]];
 [[0x874d1d2edf77a;0x448a4dc09585d;0x54642666dd609;0x42a862a50bb3e;0x37b9be4bdc7];[0x1;0x16570bb507f6a;0x1dc85457dff54;0x89e097fda6428;0x453d7d4e0b54b;0xb0dc4c5a53d63;0x1];[0x1;0x401362143f954;0x74da08498c339;0xeadbb926aefd8;0xb21ea9aa8e527;0x214c8b5fc2dc5];[0x1;0x7d0cc76ce46ec;0xaea2bf701516c;0x219b4a8882966;0xc478248965c86;0x12e24c83bfef9]];
 [[0xa7cc4a22dc42;0x6198b25b2c5a9;0xbf8fa03aea571;0x14a0c76b520a7;0x97f4fe839814];[0x1;0xb443dcd42aac4;0xa25461a3b9569;0xd9e3f07b84dfa;0x56aa3e7a78534;0xb00bfdfb8e8d0];[0x1;0x8d78cff934ab4;0x9b833370e3abf;0x431ff7da04c8e;0xb226fa2388009;0x1c2e59a1d73b8];[0x0;0x4ecd10d730876;0x89d0d0a80a46b;0x241991426f15d;0x50ae432296849;0xe9f377b4fbc95]];
 [[0x44a0424eac5ff;0x7b591bf78b48c;0xe73cab9636311;0xbad0563382439;0xd9128b28795];[0x1;0xde89ccab6459e;0xfd7cfe2eb62e;0xb1c7a0160ecac;0xc1ee29ab52208;0x9dfe70d72428b;0x1];[0x1;0xe51190b4f7b6d;0x5e8f933389e1d;0xcb1456a92de88;0xc3e000a00cd8d;0x19284aaedc896];[0x0;0xd22d04bffc64b;0xee727be20621f;0xf95531c1492ea;0x9481c4463f309;0x2115f477b1d1]];
 [[0x65e2cdd4e039a;0xc3f7135b64b29;0x99eda79c94173;0xed170efe63ae1;0x5ee7b846f446];[0x1;0xc09d3c68dbc50;0x5de01a6eaf729;0x89b6847e99255;0x6d9c4731d7ab0;0x10ced684d949f;0x1];[0x1;0x50d285c4499d4;0xd86eb25ffcf80;0x7dbbf543b84fd;0xeb9af35ee855d;0x101eeb46f7fde];[0x0;0xa37d35ce5593c;0xe142ee94f11b3;0x870968e4fa511;0x7af0eadbbdbe9;0x86bb935f4484c]];
 [[0xe4e40c6a906ef;0x18ac2c1348ac6;0x853e95c694302;0xd28cfc1c42e99;0xf2ca9c8546b];[0x1;0x7872c62668863;0x3ffb9c926192e;0xb74319d3f7634;0xabaaef8d0e45c;0x96be2abe3a5dd;0x1];[0x1;0xe1a3499a21c0d;0x5c100385e11f7;0xb8f70fc517023;0x454b2391d1c54;0x13f3b12c7644e];[0x1;0x357837486b169;0xffe4b93bc3984;0x38edcedcfa7e8;0x7683246055049;0xb00585ab0e4]]]
 (V [0x2bfd78261b27b;0x73c9c13c0e966;0x61c2a320c450e;0x107cbcbff6da0;0x91993e526357] [0xfd1e9a7630fd8;0x516d09a4b898a;0x3c6f8c2edb0f8;0x97d70f9e77205;0x1b4edbf5fb96]) [[0x7cf334b8764b8;0xcd12c16337e9b;0xe1995c4b1bb5f;0x938790d16d44f;0x107cd74688dc];[0x1;0x42b53da6bbd48;0xfbaf6ec894eba;0x5050e1a939eba;0x73863e7789633;0x953593218ace8;0x1];[0x1;0xf7148d2ecf40;0x7e44895b98f67;0xec78f33441458;0xe69b683d10bd4;0x11c9f242e7828];[0x0;0x8031bc05d4460;0x246323dedac46;0x11c5c6ea76381;0x78ff2b727ba9e;0xcb7abdf3f114]]
 [((V [0x7500df3e60e4e;0x6312266b9cb13;0xefdfc857f871f;0x160c6be14212e;0x3e3b8843f332] [0x161cdd7371fe3;0xffb71ad4e026b;0x6780758586797;0x701c69e2b0494;0x7ec79973794c]),[[0x6594c2108181e;0x77ee556d74491;0x7e102c48eaf37;0x5c7f1547e7e41;0x973e47ba2570];[0xeb7ee275a5e57;0x12b99dea253fc;0x7a580e67da7b2;0x4169170a3924a;0x1e2168441997];[0x0;0x49ddb59217b5b;0x7b665accb997b;0x14411cc5b6229;0x911beb6ec9077;0x56a7cd2b3169];[0x1;0x49fbb346fa220;0x4651f0fa76e68;0x72c1c9ddaeac5;0xa98f67e5f8e5a;0x704041412840];[0x1;0xd47afada77b34;0x3b4faa45a9769;0x72f854374905d;0xdc3f6a42e59e2;0x1b2681f4712b6];[0x0;0xc5871f122525c;0xb3034c368db0a;0xaa283f381e9e5;0xe90ede46ba183;0xf471d104fffaa]]);
 ((V [0xcb1937ad73791;0x63f3216610e22;0xa4516a9479386;0x2eb7194039cbd;0x360b9f1a020d] [0x5aa4e09d9f8f;0x62f52e8a54c2c;0x35a0045ada096;0xca5d191b9fc56;0x6168021fa7bf]),[[0xa6ca6f81b4b6a;0x1d88e8829c8b8;0xb022104710095;0x1e8a68b9d16d4;0x9b776b961458];[0x124cf9c5ba1e8;0xdf167d66476;0xbf692ca011dc2;0x44405fc64961;0x4a5750fd720b];[0x1;0xcab33572a274;0xe4240c6f46faf;0x357b081c04a60;0xe4febb6c8c3c1;0x6167b27c8e53];[0x1;0x6836e702dc44c;0xcdb1c4d4d9152;0xc98861587d7e1;0x3ee63e2fadd18;0x82347f9c5a4f];[0x1;0xbfad7da9b1814;0xcd44857980928;0x9c7a0aae880ec;0xeb29af50217b7;0x8a5717e71fe6];[0x0;0x448961f7bd514;0xd3d77ea4d0e21;0x2a9a395f1eb22;0xdd78026e4ff17;0xefcfca2c75a60]]);
 ((V [0xad87289d3ca16;0x2157c2a817882;0x15fa4f0da2b40;0xa448d039c8413;0x4d5769d865a2] [0x3edd54c3ab910;0x70fcc7d144532;0x56b0f54073da4;0xa6c12e1ac1e46;0xfa17ceda44d]),[[0xea48e25b8dce0;0x688bcf4f36f7c;0xc78c141bafa29;0x2edd6d3ad28f;0x88696656cfe8];[0xd504afd5712ff;0x8f80494344d56;0x1f78b3a86c313;0x3453a02042c9d;0xa3e44621c44];[0x0;0x71bd8e083daf3;0x3cf37b7135243;0xa424d26728548;0x780f4d3efd4d1;0x1eb42c3be22];[0x0;0x38ca0f28a4ac0;0x272a6afd54826;0x5e199ff65ebba;0xc925161261fda;0x6793e68c5d35];[0x1;0x7457b46ac7400;0x46160aeea43fd;0x6ef64f03f65d2;0xae2ea7d704400;0xb976f9bb10c2];[0x0;0x2110e11189480;0xa35943457b60f;0x658614032f688;0x71f834aa7cd2a;0xd94bfdb75ffab]]);
 ((V [0x2594c8dd06679;0xf3eca24186eed;0xb931cdcd9f9e0;0x2535d2c555749;0x160d477354af] [0xece53253795f2;0x9ea120f125840;0xf1b7561023a36;0x1e40957c037a4;0x21e50c5a546b]),[[0x9ab6c0169813b;0xc621ee07ebe6a;0xaa78485010f1a;0xb024fc90c2d45;0x2c90dbf19296];[0xa257b280a7b3e;0x409b6063960ec;0x575884df252a9;0x793c522ff1279;0x3ca66ddbe9f];[0x0;0x4f2d4f18b5dec;0x7659d500adcbf;0xc42668025398a;0xaef6a24fb66da;0x20339daf7ea9];[0x1;0xeac2365b931e0;0x4589009ee4344;0xdfaf6c82accd8;0x56c0818205052;0x1a63da10f194];[0x1;0x7a6fb8420c725;0x9f15a74421245;0x83c39587e027f;0x205e43de374c0;0x115f7a3b3c099];[0x0;0x4f27d9c3faa36;0x5d12a34b2feb6;0x87609d084de00;0x31b46a20a9ecc;0x471a445dba75c]])]
 [[0x6f12d6d1473e8;0x4ffa9c9466a5e;0xd2e2305ec09ff;0x6471dc9695196;0x3ccfa85067d];[0xab701629caa06;0x10548e5cef9f7;0xaba0bed11f739;0x13bb93612aa0c;0x492d197647ae];[0x1;0x941d811adbcdd;0x11eca0b5d47a6;0xc8e0efd6296e9;0xf9ff1b48cd1ff;0x75401cf522db];[0x1;0x30c8fa45cee20;0x9ac3bcb485fe2;0x747bc33f516f6;0x92f888b5565d1;0x1781b0f2a3807];[0x1;0x16ca0241f540;0xff2e7383d2f0d;0xfd6b31ce89c21;0xe8b1dbd68a1ee;0x11198f99f8ce2];[0x1;0xce4054fe95e18;0x5919fc85a2836;0xd930d12d11dd;0x4375aad5e2b77;0x5fe0fe70c8bd]].
Definition wit_C_64_1 : colwit ipt wit := mk_colwit (V [0xafca4b442cf46;0xe788060ffb1b3;0xcdca4f68a0f06;0x7fd2451dc944a;0x80af66460786] [0xb1b9a8ca33e93;0xab60a0d47ffde;0xd3648576ee241;0xdd43f826d82a7;0x5fcd63fbea2f])
 [[0x8267df2b45985;0xaf6296e846fa;0x8cb6b13d02f6a;0x26eeca43664b6;0x5420ab28e46c];[0x82bf6a39d5996;0x1796957167bc9;0x438ea91d8f9fc;0x9d954038960b2;0x6bcc85e6bf0c];[0x1;0x186298db3f17d;0x2df7b8f42ca53;0x3f6fac8c12624;0xb524a7617edb6;0x51428c01eda1];[0x1;0x611ccbd24678;0xc009b31556a71;0xf31cd6182e392;0x836953bd94a50;0x1c86afee969b6];[0x1;0x21cc4c8c99ca5;0xa82fa4e10ea9c;0x8c6da2943c5f9;0xd6fcc8521d8d0;0x2387d09400703];[0x0;0xf3856c5775b6;0x6668b5da1d99e;0xc2239d647c705;0x8e3aec44186b0;0x7b21737242508]]
 [[[0x7d7631c3f6d16;0x95159c4fe36b;0xb1861527856b3;0xdd5813a7fb3ad;0x9a052a15b4bd];[0x1;0xd7834ea8809b0;0x147f77c35c569;0x35dc9dbb3bbbc;0x52b28fb89a6f3;0xacc69499f4c55];[0x1;0xa3bb551735614;0xbf3840c39bd1a;0x6b6525e6c983e;0x78c87b1e5b8;0x1307f634d8d9c];[0x0;0x900e92789573a;0xf32d3abe76b9f;0xae7992c48b627;0x3284daf47cb8d;0xfe6f54a2abe4b]];
 [[0x115960999e906;0x34b689e8d3f84;0x4370269e3e491;0x47e25605a9667;0x3939af52b8bb];[0x1;0x7455f15a5a108;0xc3121472554a2;0xdb6af58136789;0xd73aefe1a5fd2;0x545473fbeaf01;0x1];[0x1;0xa7ca39346c754;0x9aec72ebea265;0xfff13fcca1595;0xe58907a9e9c4d;0x1c4379fecad99];[0x0;0xd88993afaef9e;0x9eaddff0734a0;0x9ca9c1022f566;0x544a2268440af;0x55b636b5110ce]];
 [[0x3ae26e3d36212;0x2c0061b54e155;0xbd2f0ae4eac67;0x7f85af8056bfa;0x315ec0d5a1dd];[0x1;0x56dafb5299d24;0x1166dfeffb42a;0x16d6c3e68b28f;0xd211ecb94df6e;0x60c8bc5be88ec;0x1];[0x1;0x4f160b53cdf4;0xdf6e0b0830d33;0x9ed76252ab7de;0x930c35c3ab3d3;0x20d0d6ea52d96];[0x0;0x72f9878bf2d3a;0xa875492f4783c;0x1e4806d9d6e33;0xeb2ef8e2da8f9;0x471eff9d94d75]];
 [[0x1efa8b937715a;0xc1168be34ecb9;0xb0156eb423d55;0x934c0ea030d8c;0x87e8d88b8116];[0x1;0xad3f87ff7f10;0xbc88d584d4536;0xea7ea921763cc;0x38551dc3037a4;0xc9891b8624c13];[0x1;0x5620c2c9e98d4;0x34d284f6e66e6;0x223a7af774b12;0x4850cd77a16b7;0x14d306df309d3];[0x0;0x65ad163ea849a;0xe219480329ab;0xace548dcd4238;0x9eb72481d802f;0xd794a5c21ad1f]];
 [[0x8c8b7432a865a;0x21a7a881f358f;0xa03bf2f492079;0x3c9d372c6bc9c;0x8721b67a7a95];[0x1;0x239a1efab38f4;0xba4a3a974a9e2;0x7a38f300a2531;0x63a3f64a57f3a;0xcd84efc9a58ee];[0x1;0x5909885b70cd4;0x901e22ae54a45;0xc15fcde237c28;0x8b198f0331208;0x1446bd4d3c046];[0x0;0xf280baadb6838;0xe5fc581327b5b;0x4d9b130cc23f4;0x7234c34c686d;0xd80da876bf7ad]];
 [[0x3b6a14bf531af;0x55468b0828f5d;0x80eacfc5b4221;0x3a6e587be19b4;0x7028d1eea6cc];[0x1;0x281ac4c685dff;0x5bc41be88b96e;0x79ec1a23c7890;0xa0d493160daa5;0xf23d190036e1f];[0x1;0xf04540a518c8d;0x24047fe6d0844;0x5b0abaee4e8c4;0x10b9c59082c7e;0x1bed283fa835c];[0x0;0xa160e3a4c139d;0xcf842cb3b0a42;0xbe5892e927262;0x632cfe9394433;0xa7ac83b75483c]];
 [[0x6788d8259c7e1;0x8eb4d022fe4ad;0x3118c4905e6f8;0xace8082212e74;0x4116f4cf7c3];[0x1;0xf4b07ce5f1b39;0xaf1e1ab4a4f51;0x8f0e54b90aed5;0xc01b620a655e3;0xa7cff245f13c8;0x1];[0x1;0x5503370ee402d;0xee6bb263e07cb;0x87365c2c75be7;0x62ba234fe48eb;0x254c887e029c0];[0x1;0xee16e47a3ff57;0x3a3e7c0a65939;0xe1fd6edbb1149;0xaed89653adecd;0x1378f969e9ff7]];
 [[0xac3d6fdd56efc;0xae70269f05825;0xe73b0713fe4c5;0x558c41e21bf81;0x65ab657d7fce];[0x1;0xf28762c047254;0xc2c3fc9f09604;0xea0e6ac4e6db4;0xc2e40bf21803c;0xfe0efa9b2f9aa];[0x1;0x9ad9cf4045ed0;0xbdccdaf29d2f2;0xe8eff658f44c7;0x8b41b9fc9e7ea;0x17c6407360b5a];[0x0;0xf483f4b2b9d1c;0x138e9c4fd8cc4;0x473a7a2710118;0x7c6128d2c1dcb;0x9a221cd0f5e29]];
 [[0xee9556bca724d;0xc5042f3c2c37e;0x4b41a29976f9f;0xe026507542dbd;0x78cc5b43eb5e];[0x1;0xa58a766d09f29;0x68095af902248;0x53e8d55a224c7;0x45df796f86d2e;0xe4cbb7ab8f0f2];[0x1;0x187e713218f75;0x695e29bb13980;0x92aea81eb974b;0x36f7f4206ea04;0x13dd70b5d3088];[0x0;0x2f2df14a74ea6;0x6e7723cf38e53;0x224697d358387;0x3e42a73039c;0xb7989295e7c09]];
 [[0xc8a318d4a02f8;0x7d9c8b0178732;0x16aa08985003b;0x22081e07d5df0;0x393ab017084b];[0x1;0x5bf7e9d55ccb0;0x4a5d0533aee83;0x836faca50954b;0x963ef9d71e5a1;0x4aeb0a22d982f;0x1];[0x1;0xeee4051566b40;0xdbc81b42b2125;0x6c2ced4926c25;0x6bab7b53b5d20;0x1a6b654f30b5e];[0x0;0x8a3fd7d494278;0xe7366376783b2;0xaa54605f6f231;0xb4775216f58ab;0x526133aaff6d4]];
 [[0x5527ec6f6e772;0x6ac6c7538a61e;0xbd5e072eef475;0xc1cb528b40ff3;0x12a6b59fe55a];[0x1;0xdcfa591f4f328;0xec588ded1a93b;0x1eea071332b93;0xee7a90d2c1440;0x98680b3df31ee;0x1];[0x1;0x8ab717b674574;0x4ed367352d53;0x83f2c4286e8a0;0xd9c9b3e27aa0b;0x2267c59070b1c];[0x0;0x187a93e1894b2;0x5804c17559c8;0x623724102fef2;0x9b03c2e06f4a8;0xff79a6804f8f]];
 [[0x5707c9003f7b;0x324168424a23d;0x96a8b4d8acd0d;0x2eaab8acdcc66;0x3d9f2603d82d];[0x1;0x6464da44c199a;0x5f34f926f20b0;0x107342ee41932;0x7a689d4ad1bf0;0x44f7a78ed46be;0x1];[0x1;0xed49c889e2aa5;0xb2946d4829460;0x370452b4c4445;0xe1595b41105b0;0x26db60d53ad0f];[0x0;0x70b6a0af25d81;0x2ede52f9ee569;0x3959b2ac8b049;0x7b7bd1d73d5a5;0x4de466b8062db]];
 [[0xcddae2ec9268d;0xf64163a979797;0xae4432eb046df;0xf60b6a2fb00d2;0x68080304bf98];[0x1;0xc94d80550fa9e;0xa81fe72e9b009;0x337d0e3f168e1;0xffb53b232238e;0xfc38948d8f512];[0x1;0xee43cb283ebf5;0xfce5ad470cdd0;0xbc4ed36340fdd;0xd89ccad5a34bb;0x1914b46f171b1];[0x0;0xc60b0e0ade055;0xb323872442558;0x78036e7d8ca7;0x162b506569cd1;0x9ff9046f30482]];
 [[0x32ceafb66bffe;0x575e3a0be1bfd;0x7c2e507524829;0x97cfcad456379;0x89f2277d41a0];[0x1;0x107f9fcbefc70;0x6600e8ec7402b;0x2b0f5163def2a;0xee274a2d33ccf;0xc7242b658c768];[0x1;0x3fab701f15db4;0x85c21596e8631;0x10dcc9d3a5db3;0xd9a46db4abcf3;0x15ad624bc6782];[0x0;0xb31bd61759c86;0x177d34a0976fe;0xb65b1d7a3d65;0x809b497e6906a;0xd75e459f59eff]];
 [[0x57abaac0be3;0x8be1a8efcdef1;0x42b5f965914b9;0xad80c7bc1fba2;0x4b99a0e8b000];[0x1;0xff1fd11ed13b2;0x809a9d38bebf4;0x8795bdede543d;0x386eb2291e8ec;0x3190211c26275;0x1];[0x1;0x7cd9b53b09d15;0xff0dd1a062564;0xce50048d6ca70;0x71893d5f64070;0x24eea1416820e];[0x0;0x8e06c4514a6c2;0x14f29a2ee34d8;0x8148bff3a8de4;0x69cae94b6171;0x751dba892a539]]]
 (V [0x4ed1f557e5f81;0x2c8c6d98c6766;0xb4f66f86b97e8;0xe502165c57127;0x4a6ca8cc8646] [0x1334b1391a461;0x2e5d2e8887625;0x32b9cdc5b0ee5;0x554c5c77b0b6c;0x91fff3be9d5f]) [[0xb790588925709;0x220febfdb16e3;0x226d198969c2c;0x4abcafee38675;0x4005693e3d19];[0x1;0xd47720cff4f08;0xba1f940d69f4f;0x433b63cc4741e;0x27d01bec84458;0x4bb1f07a12b62;0x1];[0x1;0xbabd145412f7d;0xae81ec94f328d;0xdd4203491701b;0xdb21538bf1f4d;0x20ce8e9f10173];[0x0;0xd2c23cd218ec0;0x47c3312a5c660;0xe116fb4d68630;0x16585db8edd17;0x5d37bb5992fe5]]
 [((V [0x828328c6b8623;0x6151115d72fc;0x383f230822091;0x8a06f6a7a37cf;0x69626840a563] [0xae363e2bcf6d0;0x119c31810ea26;0x6babc548244ce;0x737806c7be9e;0x57b790b72d50]),[[0x8ebd65d4c4600;0x63597b7fbc93;0xe62cba63fb894;0xa9d1442541034;0x2c5302ed15e0];[0x56dd7ce648309;0xb2a9c4de1385d;0x8ee3f7d116f94;0xe0c19ff7db225;0x38927cd74bf6];[0x1;0x20b8be43daa6d;0x21d272a23064e;0xfab6e7e9cf689;0xe5c5490d35f58;0x397816fa327c];[0x1;0xa4c9e06521c00;0xc8dc7cbfe8920;0xb3308f438034;0x31e2c818ef09a;0xd4a7493a31f6];[0x1;0xd13ceb2540000;0xeb79b71489aeb;0x300a38c12bdc7;0x437b07b6c3be7;0x1959740e78c50];[0x0;0x510acef87be00;0xa1efd78468b8c;0xf719b1da3281a;0xf55388b5c3b81;0x32378b8482c4d]]);
 ((V [0xe50a36e2186df;0x20695921a357c;0x19159ac33e3;0x8d3b0b8a149c4;0x7103515f4049] [0x4ffa65b999658;0x51d43e1748716;0xafcc7ce25ef24;0x3001d3ac8860e;0x49f149df0a95]),[[0xf81cdf91062db;0x87abb4f5eb63e;0x8c4beeac2cd7f;0x4d3dfbb1b5660;0x43813e09f4b8];[0x929ad9b119bcd;0x30678066b8d03;0x60b8408bef153;0xd752574badd88;0x419bc80ef8d3];[0x1;0xdb61e768fec95;0xa0a5e6c518677;0x8d2348b22fb34;0x458e451dff80a;0x248feebe12a3];[0x1;0xfa9bf4b4ffa60;0xf472423ecd513;0xc53d7b21deb91;0x6436ec31a1e32;0x10850f611779e];[0x1;0x85df3052cffe5;0x77c6193052a34;0x4aaabcea21e14;0x7e53ed92a29c5;0x1f757500160e2];[0x0;0x8f53828988b5d;0xe7c6bf399dd98;0x5bac4b54e26db;0x26a415bb2e2dc;0x611641ab723ca]]);
 ((V [0x1dc28c74a4e3d;0x6b1bd102ea3a8;0x28f9fdf293af1;0xa40b4104f9e79;0x68a207ebd77c] [0x165a2830768e0;0x84ebbbde382e0;0xda469aa0623a;0x11e5d9c6ec7fe;0x74e14b7f685b]),[[0xcc6b57d4a251e;0xdc3ceb67d6fbb;0x8ee94e3445296;0x6560236577d83;0x237f691371d7];[0x16ca02f568a09;0x3fb98817f263a;0x7901c39533e16;0x84c630cff6862;0x3aa5a760e712];[0x1;0x1f7c7fe0ef0ad;0x983ed01308185;0xad909df458963;0x9ad0b502ba135;0xe67a6516108];[0x1;0xf1d74f50fe020;0xbfff6d4437e20;0xf99f45564cc66;0x87880a286ece4;0x11053c66e8c62];[0x1;0xbe44d17c49734;0xc90b549947f6c;0x1e95a9ec71448;0x7f06fd26dd051;0x217d6afd58db3];[0x0;0x3b7d72905bede;0x7fcaf4c6c70fb;0x6628b39eda665;0x9a7c4305e9d79;0x28671f02d949e]]);
 ((V [0xe8682a18bfa2d;0xe7da95bdccb4a;0x20b676531a9e3;0x99ee20eec9312;0x8be203b49136] [0x1974b59aea19f;0xcab674398d64b;0xe7d081523ccbe;0x24f2bfb8d8922;0xcaa10794a93]),[[0xb43136e7fb19f;0x1be08a463ca37;0x55c1f06fc09d6;0x6f7e238e2b280;0x40b6f32d9f11];[0x66d2e09fdc9d8;0x2da1291f4cce9;0x86d1a45c45a7d;0xac0651eac0c9;0x5e7afa62efce];[0x1;0x51c3df4e03b55;0xc3ce83a992376;0x50e038524be1d;0xbc67daa3a3798;0x55121c476d5e];[0x1;0xd4bb101846940;0x28a0fc4b721fe;0xbeee0b78c4a29;0x22d1d32f87ee4;0x181b0b7359496];[0x1;0xee128fcfbe92d;0xb0622c5b347d4;0xd8a1471ea5dbf;0xa0965a2fabde2;0x22370c30aa13c];[0x0;0x6ee01b7706495;0x6648b20d0f3e5;0x229f27e5f5673;0x86e39f5aeddaa;0x5ef892affe8f2]])]
 [[0xe3cf7f2478e85;0xc7e1d5c1b4c3d;0xa1dd1ba18168c;0x3953d96a3c3c;0x9aa444cc9a1c];[0xd4209360b0858;0x15f86ea451e26;0xf2a54dd6c6bd9;0xff47b8149f94b;0x344ea292af7c];[0x0;0xa78479fa89ecb;0x5568b29f114a5;0x9080b857257a9;0xe3903ad723278;0x27b0832bc329];[0x1;0x1f3a842cf47fe;0x9040ffa88a413;0xadbc186db1b70;0x3303c5d4cfb91;0xf99a7a774e1d];[0x1;0xe9ca2219746a5;0xeb579a275668;0xabee4366d252a;0xabd346a90da93;0x173c8bdb8c569];[0x0;0x5dd4fe94f3362;0x6e045fbd77422;0x89d49b35bab4d;0xfaf15f5605ee;0xfb16eb82e91b7]].
Definition wit_C_64_2 : colwit ipt wit := mk_colwit (V [0xb2056fd1beeb7;0xc12a4d503ee72;0x7ed17cffccc24;0x7e673c732187e;0x4399c099ddf] [0x56b670b996041;0x9b30c993afb9c;0xd7eb6cecd77ce;0x66b169237caf2;0x68ec3a122715])
 [[0x89e1b16ffb89d;0xc0f1872c05849;0xbbe5fcfba5ee;0xce04afe9d6ebf;0x53a12c552409];[0xbe358e0e04e09;0xe77558aefe37e;0xf5def40791caf;0x4cb2910cf3e4c;0x294a6cb118d4];[0x1;0x1a00abe288140;0xf0f51114059c9;0xc5b5fd7381419;0x383742bb35c26;0x39d16e98dc16];[0x1;0x336c23ce50354;0xf4c4ba18d4d18;0x408f6fc170379;0x5e843cce7fe51;0x41c94a17d3b2];[0x1;0xd7879b6a17e15;0xebe2a01146007;0x3c3a21b70177a;0x5c57b4281c3dc;0x5c7a7ff80ad3];[0x0;0x34b39a4b7c946;0x385675c0189f4;0x5f6815687a4ff;0xc46863a78f74;0x74bc92e057745]]
 [[[0xc80fedd3d8cf7;0x47ab554bf795a;0x2bf059f41c28b;0xd4f36f3837b9d;0x67dbdb648984];[0x1;0x3750fb38fe978;0x6423c81234340;0x68dd2da62e8b4;0xcadc1960549cf;0xfe366debc0ba4];[0x1;0xa58124777c77d;0xfb57b125f14bc;0x40f69cf757e3d;0x5b1a60cad25f3;0xb71b6825187b];[0x0;0x191a2d544ef04;0x7b44e75e2704d;0x3570d7ce3a1b8;0xb49fd0e2f57d7;0x90fc3b85032bb]];
 [[0x4dd57357d11ac;0xda415558fe65e;0x94a26eb6c70d2;0x51f0a0462a3b7;0x2279a1ec35e6];[0x1;0x4372e4b2ee6b4;0x3b79e51797ce5;0xbc60936ba8dc8;0x1211513facc1a;0x757fe1882d591;0x1];[0x1;0x1fa67841a1c50;0x8fe5e14097402;0x10596e2c7b502;0x4bcbfc31c9ee8;0x1342d8eeaac85];[0x0;0x7ea106b59c604;0x59bb66dfbd89e;0x2c7268af2f8f5;0x3ae3b01d69e2d;0x25c7d7335841a]];
 [[0x1f3846a978fdd;0x5c04db5704a1c;0x310ec200a7100;0x81d3656e5c809;0x144808d41711];[0x1;0x2a4ec0fab3143;0x7b62bfe93cc19;0x2ebad6687db1b;0xf3da68d2ee80a;0x90e777cf643ac;0x1];[0x1;0xbaa620fe63895;0xf8ac4a7e04d4c;0x80c9afc622563;0xb923156a7f07;0xac27313db61b];[0x0;0x8405a3efbf47b;0xa340aaf3892cf;0xa2bb90925f514;0xa8384f179ad6f;0x10b04cf09ac8d]];
 [[0xdb2e78adf9568;0xbd404f914d43a;0x7d8dcde24bade;0x7f38ade4ab6a0;0x8309b5d53da0];[0x1;0x1d9cad3cd4c38;0xf98def11f32f5;0xeacba1c51a1a3;0xe17999c240bae;0xd4f9a2653a791];[0x1;0x777234e0e8d40;0xdcbd96e27b20c;0x20a01afc04043;0x95a8d269bb18f;0x5326ad316a75];[0x0;0xb07dc094b3c98;0xa2971794b4987;0x42ea96fce6c89;0xd04c07b18cf11;0xce4a042fc1cf3]];
 [[0xddbafdd6e96b6;0xf33d51ae5f0b;0x4ca2d39a78f61;0x5939b397e5913;0x18e93c824ded];[0x1;0xf26f3b1da158a;0xd5d010ad69422;0x1818d275695e1;0xb1c4bdb6c59b3;0x8ff15adc4b244;0x1];[0x1;0x76018d0eabb94;0x888b30e39bdd7;0x8f3868d2e175;0x24f370634cc1a;0xa6ceeace2890];[0x0;0x5f88e5bc6fd52;0x7290f70db56d7;0x103b90b5153c;0x87b92198e115d;0x22836049b8cfb]];
 [[0x7fecf4ea1db32;0x5b6fdf046a710;0x62f69d9647ef9;0x44a7f830814a;0x2972bd4ecede];[0x1;0xc711c5b86e42e;0x443be2264eba7;0x7c74765ad0404;0xa4d87ddbe43d1;0x6e48157d59737;0x1];[0x1;0x77ab104ce6074;0x77530e847d80b;0x27438d152f769;0x8b317adb43c4b;0x458ba28f6b4f];[0x0;0x1ab0dfa9bc804;0xf3ebf043783cc;0x25e1133550bad;0x154129e1b09c4;0x326ff32d18fe4]];
 [[0xe7e2052d83750;0x4a3a9a431fe5a;0xd50860f1dd747;0xd0e03dc117d6e;0x205b274d4bad];[0x1;0xdd7d88e046580;0xec8731bd941bb;0x63f2c99007c53;0xe273e19791323;0x782554cd401d7;0x1];[0x1;0x203d5dd898500;0x5aeead41d92fd;0x4a216c8d4175a;0xf7f777e22925;0x13077d189d4ee];[0x0;0x46409bd482c90;0x2a24cb7e578fc;0x40b4d9f3d5190;0x606ea8e8b056;0x20bf6c7119a79]];
 [[0x81dba02a41abd;0x15ba21bb2227b;0x2f3a8d0d49e9a;0xd60bef93dbd0d;0x153921409c97];[0x1;0x46c29c02afad6;0x5f62126bc883a;0xa56ef5b581217;0x5bbbcb1751c50;0x904d8018957ae;0x1];[0x1;0x361c61b514c55;0xfb12ef3507ec6;0x471fafc93da66;0x90ced0cf9edfb;0x12e8587dd3fe4];[0x0;0xd5441284fc43b;0x8da97f723d842;0x8fc976819d326;0x77a87345357cb;0x1acd8905e5152]];
 [[0x26d923b916902;0xcacf89dafbeee;0x97e2cd12ba160;0x36b33850cf22b;0x51e7bcbc2b68];[0x1;0x995d452d152a4;0x145e16245830c;0xbe242d1c9d3a3;0x11ce3a4b74dbf;0x2f5960f258c80;0x1];[0x1;0x84af5d69031b4;0x1143d9f927326;0xc36355e010c11;0xb641c25442579;0x86656c354ec3];[0x0;0x918a7c8e44e46;0x9589037b81266;0xe4cf460612741;0x80af161719601;0x7730ebe6d7531]];
 [[0xf9fe7ccaa1f57;0x696fa36d99461;0x9d6ffdc9908f1;0x6b8e58f80dfcb;0x671711d56bba];[0x1;0x1e8ff59ececa6;0xa73f9d8ab2ed5;0x6712016b4e5fe;0x89811151579bb;0x17c2805a822;0x1];[0x1;0x3ef69875047bd;0x18ecfb682d298;0x674e2eff1ee3c;0xb1e537b5b5718;0xb032b35f95d6];[0x0;0x830cb04d33ce3;0xf03d50ed40fd8;0x926956986c4e8;0x1aa326da5a31a;0x95bb9c8cf92df]];
 [[0xf46bf7e6ebf2;0xc9da3541df5d4;0xd1c8e2754883d;0x1c0cb848ece11;0x6154dd8ff471];[0x1;0x5e332e02de20;0xc2d5c234c66a0;0x1fb644d26207d;0xbbd0838865325;0x107cf37277d86;0x1];[0x1;0xd0b79ea9c5f74;0x7f3df8cdcdf74;0x76fe3240f402;0x7889e9490c25b;0x681165e5da9f];[0x0;0x73968a310b884;0x66950e3105ab2;0xb14ab43920e6d;0xab3b642f05343;0x9a9618d1fa6be]];
 [[0xcddbd582b0014;0x5816f49b7e8f3;0xab6e058a35949;0x46ec2bead46e9;0x712fd640ce51];[0x1;0xcccdebd0fe0f4;0x2b0b876730093;0xbf4b9523a1b8e;0xf73d49140538a;0xf9dbbb13c389a];[0x1;0x5ae78063c9a50;0x4324571695f56;0xb5976765e8fd0;0x82ac861a58af9;0x51697e51720a];[0x0;0xe8c0399cf1a60;0xbaa1db348c8f7;0x5746b7745a19d;0x2b2bdc843d1ca;0xaf43339315738]];
 [[0xc7784d3e9eb3d;0x840ca74ca96bf;0x6937902d81b4f;0x363c9cc765138;0x855981033a19];[0x1;0xf1dd2a5a2eb4c;0xe1db0dc48abcb;0x1168dc53a6c98;0x369ac6f4ece3c;0xd293865827b79];[0x1;0x3d80abf38a555;0xe3bdb40b4c059;0xf8bd7188505d0;0x5f89a13ef5b11;0x38da55e7f20d];[0x0;0xec10051646532;0x7005965063594;0x60e00a7f910ca;0x9fa374fa3f10b;0xd74230db2267d]];
 [[0x5f4e52b7cbeb6;0xb04e6f1cf7f9e;0x38004b2a6844c;0x4d25ff697cc81;0x3a7accf8816a];[0x1;0xe75fcebb2615e;0x1546c57dcea0b;0x19770f8633e25;0x68d79703143cd;0x57656199ae236;0x1];[0x1;0x491e25aa1b94;0x89718d58f7ec1;0xe9bb90121d770;0x44b6dd4f40a36;0xed675e5a8aa6];[0x0;0x4f3e5b51bb454;0xf6d769e5dd260;0xb32a6064e92de;0x9a78d032aa21c;0x50c5fa2eee810]];
 [[0xa92d057190ab9;0x839c0b4a284f2;0x8fafbfe6cd867;0x7489d2877f85a;0x2f3444b51280];[0x1;0xfffcb324fb96a;0x3ad971c441aef;0x5d0634502d289;0x721b369b0b0c2;0x5f0bb6557b98a;0x1];[0x1;0x374948399375d;0x2ca46d53dd22a;0xda8ba03122401;0x751733784999e;0xe011149d055e];[0x0;0xeab3c68313b5a;0xe74b72c88ec4a;0x5507770a8251e;0x42eafc3dc4ab6;0x3c5c6dcb6e694]]]
 (V [0xf2ad897478a35;0x12762ce74e159;0xc45b1b3d160dc;0xcf56bf7587ff2;0x206f574768e2] [0xf18e5855ae3ce;0xcfaa5518c0b18;0xc235708943a2c;0x4013de585d19e;0x764dcd0011d2]) [[0xd8fa91b25173b;0x376fb3d000705;0xbc46d6df0ad71;0x8edc9750cd384;0x17e1a206cf4e];[0x1;0x1d4c926a19698;0xc220849faee45;0x2caf22cd88990;0xc94654513dd22;0x8f45877dbf7e6;0x1];[0x1;0xcafca6ee71b25;0xd22d3f7526031;0x9456c04e2c113;0x10f5c7e8a411b;0x8cfd43ce4ce4];[0x0;0x79a1151901f1d;0xe0fd20845cdff;0xa5405160be971;0x13e6813c36877;0x14fc86e48e940]]
 [((V [0x806c352dc8ec3;0xb994e584c638e;0xc58c938c05e42;0x559a7087a3d27;0x575c5f5076ef] [0x5ddfb7de62932;0xd0af3b8ad250;0xa16cd15189bd1;0xd1be7ff896b77;0x11484e87b2e7]),[[0xd0d96ebd7b0b6;0xcd6b35680e38;0x1ecc854597a61;0xf6087f13389db;0x1eec8febc8cf];[0x113e35ca5fb49;0xa30413abf0f;0x551321f716a2;0x90d56284e3f1f;0x9341993ef78];[0x1;0x783df2f5f05;0x633b5859b3735;0x1edf2f06cab39;0x871e6fcbe0064;0x861362cafd4];[0x1;0x8cefc3b7d42c8;0x19fa241556ddd;0x7237264a6a21b;0xc3db4f7304ddb;0xf09d0a4f56c];[0x1;0xf02dc75385394;0xe12787c5e934c;0xb91355ed56cfd;0x2092f4ce742cb;0xf4467d31d5ff];[0x0;0x6c519deba316;0x6d7362535d726;0x8ded902b52cc3;0xd4426fcac042b;0x258fec28a53b6]]);
 ((V [0x9324d40db5f4d;0xa468f2b2d1a18;0x567a79bfd595a;0xb8771f6c0be9a;0x91bed1b42424] [0xae391307c8b31;0x62925ed02de6a;0x4d2d83070735a;0x14d186d612bfb;0x2d37f7c73420]),[[0x9b8ea42669868;0x28edc7bb962da;0x9c709d749e648;0x122680873c559;0x12f8cbc887e6];[0xd94eadaf8b544;0x342f29deb4088;0x129ee6ccdb79;0xb628b2036f149;0x43d1ac043770];[0x1;0x5aa3f3b175155;0x87698f0c6a705;0x89e87ece91437;0x94c5a82f1d8a;0x3e85818fc911];[0x1;0xf55589bc69c20;0x8063b12db0223;0x111d3cb1731ea;0x48052f6d93c;0x15b1c2483fb44];[0x1;0x72e159e933d40;0x7aff8ee5b3aaa;0x34abcabe94b7;0x774d7e8e8f7cb;0x20cdb7540111f];[0x0;0x777dbc6dd11c8;0xd4e6144e5535a;0xcdfef6e2569aa;0x16ad6710ebbbb;0x1924ed65eb1b2]]);
 ((V [0xb7079a996dfa0;0x9fb8033fe4897;0xc5295880ed514;0xf0c86c82ff81e;0x141973957524] [0xf2232c202ab46;0x9918c0714fb56;0xe721dbd2eeca1;0x1c4ab61cb68d4;0x715924017b07]),[[0xd73d657ba6939;0x5f9707374f703;0x30af68216383b;0x92a325df3aedf;0x2760376fcfac];[0xf16d341c70ac6;0x4de593e1b218d;0x8e079675b9195;0xe863a198a0493;0x84e64ccd7ed4];[0x1;0xeca1644cb975;0x8fa1d3c689d5c;0x11541256934da;0xca4782da02330;0x52202144035a];[0x1;0xbfe8d67e1606a;0x5df46835d2a1b;0x502c7d66e833a;0x7a7cd8f2e265d;0x2899d6b2d9af1];[0x1;0x8f4224fbce85d;0x967f97ad37010;0x9709c31660448;0xd93f752ef28d2;0x1f69acdc2e07f];[0x0;0x881cbc2293362;0x7cf1aa2d10c36;0x5bbad7f539444;0x76d991e2c7917;0x342187b27af8c]]);
 ((V [0xa00dafb7e898f;0xc86261b5cd59c;0xd9627b76fabb9;0xa4e94e7a01811;0x60fa0fffaa20] [0xd69ae167d009;0x844ad5e8fb4bd;0x97ce558c03ab6;0x78add8c32fc54;0x75577823ff54]),[[0x82f3b4f30a60b;0x304b2373eb74f;0xe695661e667d8;0xb5cd192cbfa3;0x75a60db97ded];[0xebda711a0f094;0xa48808cf97e76;0x5641c2440ad90;0x24613bc8ef691;0x9b1d183224d7];[0x1;0x2116ee1435400;0x61bbdea045e25;0xc487728e450b9;0xfa5dbe59f996c;0xfc912005fd23];[0x1;0xfc0e425cbddb4;0xe1a796b79e352;0x1b08d72802207;0x77e8b660508d4;0x262be9daef682];[0x1;0xdb7cf4a0685;0x45b06002c38f7;0xbd89f9563e6c0;0xbbbcb4ab2bdd1;0x88b6bf7d427a];[0x0;0xe3a3b5d640e8a;0xbd83f7a841063;0xf4c7d43aa32e1;0x6f6f0c1e1e52e;0xab2e8b3b7ee21]])]
 [[0x9829bacb51768;0x9b8fc65736d7;0xe4c05715bf628;0xaf87f9371b634;0x8ac0926c1447];[0xd4ef1bdf2e94a;0xd85a0c343e8ec;0xc783d229fb43e;0x3d8c1ec67e09a;0x43c95d0ecbe5];[0x1;0xb4bad8ba92fcd;0x4edd5b1b1f00e;0xa0baaad40abbd;0xfe7be37242ada;0x3313ec7fdaad];[0x1;0xd083d2f449310;0x66c13786f61de;0xb8f0654eb1c28;0x8debadbef4505;0x8debd068f700];[0x1;0x36e9634afad40;0x3a19f2230c30b;0xe24369d2e71e2;0x3df2997855a02;0x18c431716b4cc];[0x0;0xaaaff66c4dd28;0x3ebbf4e7b8efd;0x8e119f01b2026;0x2cdf5538d2fbd;0xcdc98fa579858]].
Definition wit_C_64_3 : colwit ipt wit := mk_colwit (V [0xbc2e0a1d26ff3;0x9be92ea169b95;0xd95311cabb780;0xcfb29e340bea0;0x6f79d88990c0] [0x577725e8d214d;0x67bcfec237d22;0xcc0cd2ddd01de;0x63b2913b2709;0x61f6e329ae40])
 [[0xbd75c4d4f0bc1;0x430cbfd49c8db;0x117424ebc471;0x7fbe4ac8aecd0;0x5022eb87bbe8];[0x7a26c4bdce063;0xa2449266fff95;0x8759989f0446c;0x7bc61752199dc;0x21968cb06a31];[0x0;0xb7b820c500fdb;0xee9a8c241b1cb;0xb716588290793;0xf6a4bd9219327;0x289b19c4fd32];[0x1;0x7774e6b4b4052;0x36161f0ea78e2;0xb79a9fa54aebb;0x796edfa1f3108;0x213b831a0309];[0x1;0x9e6e3b6a168ed;0x1aca0b09fe6db;0xaefc351dfd266;0x9e2a47839e9f8;0x21ff2f95c07f6];[0x0;0xc2a6ab600a7f1;0x3de6de50a4b94;0xca58f9f7634d2;0x2cd8dd3a3d041;0x6e9c5264d2b74]]
 [[[0x93d2b02ba05a0;0x1e692962f357d;0xa4a72a96e7560;0xecf9ab5e5fe6f;0x7004ca5b38a7];[0x1;0x3404dd946e3e0;0x350785d047267;0x7bf61537c40d5;0xaeee53b18dcb8;0xeea11fcc54982];[0x1;0x5ba0147b4d400;0x2fb7c9b86b483;0x72cc611546cd2;0xb61934268b936;0x1eeaa768a4061];[0x0;0xb268ff70a9a60;0xc7707cf442c17;0x171a2a5dbddbb;0x9f2f41f6f5b15;0xa267a2b591402]];
 [[0xaa43464fb1bdb;0x1542614d719b3;0x8412c4baf1438;0x21b135cbf9bf8;0x4b84178812f7];[0x1;0xced5e5bfed5ad;0x80755a1b2df6d;0xc4af41de47e05;0xb9ad009ec69a2;0x2ec5a6581c24d;0x1];[0x1;0x37a5ef3590de5;0x23e570c7fe52a;0x2d8b1626fb984;0x8a52b79756f14;0x235810b6eb8f7];[0x0;0x2ef8e83583cad;0xf5244977d2699;0x40e508a2f09f8;0xf201c5bb1864;0x6585528c49f2b]];
 [[0xeb7f465cc1c6a;0x26145f8d7ed;0x6d1bffa82702;0xa79f400e0cf;0x7201f0a1166b];[0x1;0x8970835892d2e;0x3a0c9dd1b07c6;0x55708856201d2;0x6b191afe55e7f;0xedb141f8b925b];[0x1;0x8be3c5da39c14;0x9570adbdf0041;0x7534ebf1a1dc7;0xd022685e4c452;0x1b299fcef5fcf];[0x0;0xc2cc1b99fcfaa;0xf1d45a502ae01;0x64ff82ae5eebd;0xaa442a1e11b6d;0xa83da88fb62ff]];
 [[0x719036461ee0d;0x4d6071119c194;0xe97d3624f6539;0x8c4d12dde76c8;0x4feae925d6c];[0x1;0x4f00b6d076b11;0x853a3059c3e81;0xb97ab461eb363;0x5ee0a77b4aada;0xa344aeba8a400;0x1];[0x1;0x354e267f032f5;0x6406943d102c0;0xf6dc46d9b35f4;0xae6076252a423;0x14f8d1c308c31];[0x1;0x7e42d9d40f559;0x78c480a0a1272;0xd07fb924c4ca0;0xce144a2c1fd72;0x8e133facedc4]];
 [[0x62cce9926186;0x1c593f1664b4;0xf7e7b382a87de;0xbc68e2cc95d0d;0x2c2f0c1a1274];[0x1;0xa5ff0d61e4d8e;0x9452b34179c59;0x8e0632da05010;0xb1f3e943fec44;0x6aebcdc37d559;0x1];[0x1;0x1b0e9ebd0b554;0xb17739e6a9af5;0x85483767a8bdb;0x7f413d964be20;0x159647c71d5d0];[0x0;0xde33f950c167e;0x5b3fe0aea3e9d;0xeb95284532b83;0x7a7df10f2c377;0x36b385f381efe]];
 [[0xb42cfea11120e;0xc4912f7f3ba18;0x1b1b008fee6f3;0x4be6d9e627919;0x63cb65c8998a];[0x1;0x77ae7a4d8794a;0x7a2fca24972b4;0x874f5cfd7d983;0x85df13c3178;0x7f0a8a44f5d;0x1];[0x1;0xdab6c75c08774;0xa2171175bfffb;0xc7d22b2cb2aba;0xddabcd00d29c4;0x1e4ad217a6632];[0x0;0xb41779b248112;0x7829b26a16d23;0xd0c21b07694ae;0x8eacdaef28f1b;0x860af308f9283]];
 [[0x33ecf94e04241;0xd1c63df409d36;0x9b85b83d3c862;0x91e6c55dc140f;0x81253869b028];[0x1;0x213ea571d6ddf;0xa08268105a2ee;0xb5a9f7aee3186;0x4429c21aa76c3;0xd1e5be2279e03];[0x1;0xee1974493d1ed;0x7ae18a8f4b833;0xcdf76819cae15;0xca83bb3286422;0x2073cf627d6f0];[0x0;0xbcdc91f27d947;0xff031ece15268;0x78488df3c861c;0x1c419be118dff;0xbf9692377cf89]];
 [[0x1c0d4856854a7;0xd4f8fbc178b4f;0x5dfe895f79465;0xaea476bcbfea9;0x44b654a4813c];[0x1;0x6b08967f522c5;0xf51c121cfa224;0x7845a94c0a539;0x10084165242f3;0x3b27c61409653;0x1];[0x1;0xa1e3f5845c19d;0xe5ca231ca2c53;0x56fb0c2725346;0x3051668129644;0x20f92864c3fb0];[0x0;0x7dbbe32d64e0;0xf353c84f03d44;0xd096dbce4c508;0xd19605b88b084;0x666ba0aa517dd]];
 [[0xaa7b41c362ba7;0xddb408baf23e0;0x20cbe69876722;0xe3f4f9a625fbc;0x3b5ec65dab45];[0x1;0x55e21f672cd82;0x446145cdf15c6;0x3d9a8bb067af1;0xb53468adb61aa;0x52d309060643c;0x1];[0x1;0x19d60b4961b9d;0xa432a3fcd1233;0x855bc9e5b098c;0xea6878791dd40;0x20fab86311d4f];[0x0;0xacf1bca35179;0xfe8d8f80a4e08;0x2a4ccea16f206;0x6069132e8b157;0x5ff44959e4f02]];
 [[0x922db34b2939c;0xc9c860905e24a;0x301cb914d9836;0xdd539ba221d9;0x347edcb07b3d];[0x1;0x1acb3e4d3ac98;0xea1ec90159516;0x1d7f0e240a597;0x85299952bd2e9;0x60bfd6fa6cc63;0x1];[0x1;0x720882337f1d0;0xf76ee4c3c71f7;0x4f09ec03794bb;0xc7c9e90a80946;0x1e9adc288c6be];[0x0;0xbc068d0425e60;0x99acf5d4576b8;0x9d9507e7e3a60;0x33354f06063b;0x51107d5bac8be]];
 [[0x8dedce6705d17;0xfd48535501b1;0xde7d30695c82b;0xa55edcf270386;0x193f5fffa7af];[0x1;0xdc1eb8a04a15b;0x6dffeedaaecc5;0xc03c180ec0d5;0x9def7f0670be8;0x87911685beb99;0x1];[0x1;0xa7807c918e63d;0x1ddd780799aa9;0xb5fc8f6ceb6c0;0x700bf8027185d;0x19b7a4da6bba4];[0x0;0x660032f2fba55;0xbfbd3f600ec3a;0x6ea8783212f2c;0x159bd09a325f0;0x1754228fc1d39]];
 [[0xc66df50659fd7;0x6a602c154f34e;0x5ad1eb0412506;0xfaead4ecd6577;0xf0d4f1bec6];[0x1;0x2ba0ab59fc633;0x9cca803c16036;0x2307dc86dd0db;0x94f1fd3feaad2;0xac9f7b74c53f9;0x1];[0x1;0xdb2e3e7f192bd;0x84f1970d994ee;0xbbd4628c487a8;0xc3dd698edb6d7;0x150530e3bf8ee];[0x1;0xfc6cede278dd0;0xd26f4305eaf5a;0xbb0f0df570178;0x5a31b89176abd;0x179dea3e139f7]];
 [[0x7de713616292e;0x65b9aa82899f;0x76a1e6504a9f9;0x2d0eca6a60e34;0x7ae0c119b5dd];[0x1;0x24e13bf569760;0x79edb9d29e60d;0xded9d9ba8ecf2;0x499a3018158a8;0xd933b99b874cf];[0x1;0x6bb91f60acf4;0xe5d6b27236bbd;0x5b1f56b91a02c;0x13328c173e874;0x16b3dddb4e1e0];[0x0;0x75198038d3990;0x1599d961af272;0x54cc621659b64;0xfacac3fb94df5;0xb1e4ee226674c]];
 [[0x4266fe620d479;0x41db6bfd405f5;0x58d1a7cdf955d;0x7627bd4f4c46c;0x2f4dc44dff3d];[0x1;0xfbaacf4c8a75b;0x9875283d6ef89;0xa7505238c1a56;0x2dc5608a1328d;0x604bd4f81ffb6;0x1];[0x1;0xd05678f3408dd;0x175790c136d96;0xfa8aeedede13;0x5e19eb79de533;0x1db5713569f6f];[0x0;0x424a47278088;0xa0e8f1c5f5d16;0x95b31bfaf6f21;0x2acc6f794266e;0x46b891907cf66]];
 [[0x62613cf8d3ba6;0x7f8f70426a212;0x70f3e3490f14d;0x84bd47e4befe6;0x54ec3c812b6];[0x1;0x1b466177f9e64;0xa569102027417;0x36a844370490;0x781b836795b69;0xb0916a919c077;0x1];[0x1;0x147fad88ac4d4;0x81d1fe84dc0c;0xfefdf7f555aed;0x60994d119aaa1;0x191abe49228bc];[0x1;0x5e5e725cf4c4e;0xb6a6ec39b5c85;0x7371bac311eb9;0xbf681e9c278c5;0x7679505921b3]]]
 (V [0x9c01434771ed3;0x49df83314d986;0x48144cd76ff9;0x333b6b3a6bfb1;0x2c381f6e8fab] [0xdf3d1ada3d59c;0x8ead9b9ac11dd;0x9488be2ae8ecf;0xb613490946f99;0x3824d27bf984]) [[0x4ad66caf65c5b;0xafe50628b2340;0xcd0cf4a29cd1b;0xcb3f6b839f4fc;0x3437a750d2b7];[0x1;0x842b2633adbb8;0x9bbf5996280c1;0xaa79f8c4e208f;0x394ce85db683e;0x562d785d2e118;0x1];[0x1;0x1ef591f270ce5;0x9689148fd4c30;0x7be5675a456a9;0x32848756ab8fd;0x18fbe6480f396];[0x0;0x8dce58085d7dc;0x20c277e4c6771;0x5ac8c5ad96abe;0xd0097f45f7f89;0x4361e310abfba]]
 [((V [0xa6c05a3aeb474;0x7e72b0b1113a2;0x71ecff9d36171;0x226c91141ef56;0x899336089302] [0xfd8bdee86a16b;0xbf75aff92fbbb;0x1f9111ab39b5d;0x476dcd9753be6;0x54eed1f18cc3]),[[0x8bbd4a084bc9d;0x44cf4c1efa95e;0xce6155f3eb598;0x33638a02379f3;0x887e6fb03588];[0x9c08ef62f1d3b;0x866fa0196c34c;0x139baaee66566;0xbfbee46485a95;0x99258a15f43e];[0x1;0x155e8d8565f35;0xa225d16ba363a;0x2197ced2f0d96;0x22b93f5aca551;0xef5cc9e3a790];[0x1;0x8c5bd1f6a1a78;0x8d033d560d13b;0x653f1c2b7d717;0x82af24039b998;0x2a1ee6a76d032];[0x1;0x69cd8889a4615;0x628a9656924a0;0x48f7fe3d5ea8;0xfc8a72fd5cafb;0xfc13b8625399];[0x0;0xc8603673ec308;0xe3ee41ee22dde;0x18632af56fcad;0xcd97b74a3a30a;0xd2b61dc8a5e22]]);
 ((V [0x24d5030832f2d;0x9e9adabfc200f;0x30000ebc6e648;0x430808c92a46f;0x924eeeadf10f] [0x18ef173ec25bb;0xc9db55206c7c;0x396de86e2cb68;0xc369131f39fcf;0x3ea5fc06dddc]),[[0x2deeae729f34a;0x6c9fe01dfa53a;0x57e88900a67a2;0x84b86fd5c14dc;0x89510f84666a];[0xe10347224d6b4;0xd792a30cabd64;0x6ac367f41b088;0xd4f947d6dd579;0x74d72bbdaacf];[0x1;0xaeeb71723f150;0x274a4ebe7b787;0x85d44553c555f;0x2aea20f574018;0x4695333a5b8e];[0x1;0xfc77e72c618ac;0x8a4ba0c3256da;0x91d46a6a42768;0x617ced1c531ef;0x1bb5c73008119];[0x1;0x4bd5a33f2e394;0xc5ce2a40cdd1f;0x488a708eb15dc;0x8551461885099;0x23c232ea2579f];[0x0;0xf54128f2656c0;0xbd465ed9e1d27;0x4c95e796a7dc5;0x9cbd276f8f10b;0xd81124423c557]]);
 ((V [0x920743aaed388;0xbc34084a113be;0xeb250d058cf52;0x825444f555045;0x680dcdb8be5] [0x1ad6406fcc5f4;0xa66d227ffac4c;0xd9c301d43773d;0x3ec466c57c5b8;0x2ec9d5973e53]),[[0xccf08d9f142dd;0x9eac46f5b788e;0x64a29ce64b9cd;0x69f9db00d72;0x5d3067bf6a6e];[0x9574649464e27;0x24d50ca351a4f;0x3da541b0ed497;0x776630b435e7d;0x37153f49b8dd];[0x0;0x7304189d4a4cb;0x162ff379529b5;0xff97f0f9f55fd;0xc7938d72865cd;0x2ef091aec3d5];[0x1;0x4641d3b50a086;0xd0e4c5a75c631;0xf015ff4ef07fa;0xfff2ac6c9c6fe;0xd5710ee5a092];[0x1;0xfca2f0c082e95;0x29f7a2ea43c26;0x58bd1a97c508b;0xb27ee0b0c4206;0x1b4404b2fdeaa];[0x0;0xc2b216abb9b32;0xb6768bd83df69;0xbb451516f3b88;0x39a7533f6de15;0x973cc61d4872e]]);
 ((V [0xd390b2118fe93;0x570c489b69e20;0xbd81dcb1a9932;0xaf4e8401024cf;0x1892f999baff] [0x56db0df1e5ca9;0x3c3fca11eccf3;0xa273888c44b5c;0xb83f7a95c069c;0x62df5eff2b72]),[[0x2debe0adb31ae;0x7bb80549f72d8;0x320c64280dbaf;0x8f0b7a631dc86;0x808ba448591a];[0x5d6e92b9ae939;0xfae67449e8afe;0xdfca5c1fb4dd4;0xeee51bb20e6ea;0x6eac41e80a60];[0x1;0x7c6f57ff5f340;0x16ead8bdf0525;0xe64710da5543d;0xc3c3019431c;0xb5c926844413];[0x1;0x46b55409b2df0;0x783b5e7331f26;0x12e297234f79a;0x321e90e817b94;0x1e5835346c299];[0x0;0xfc53642ec1d0c;0x908b5a2b103c9;0xdb5bd066df0a9;0x386da08efdec0;0x2c5bddf1fcb2];[0x0;0x7cc88d3cf934c;0x4d12b36276f0b;0x908d26062c6cc;0x52bd6961b2125;0xc90302abdcb84]])]
 [[0xc9243c240dc70;0x43596e07cdd6d;0x7ad57fcfc96ac;0xba2704ccb162a;0x7b8536524e18];[0x4051acf60e76d;0x6612292fd2db;0x8ecdb1dbceb38;0xcd65c729afcbf;0x5f6e6bc9e82a];[0x1;0xb1c18f1f903b5;0xdc930bf0641a5;0xb0c673d03cc7c;0x63513c44a5563;0x991ac8663946];[0x1;0xe764e5fa3ae60;0x972cc9adebb09;0xfd71e938d13a8;0xcad7a8cfdf30e;0x14aa31c41e52b];[0x1;0x1292e5c25d00;0xdf073208915c2;0x99e4383040c46;0xbfcd500806e18;0xa18536c5c5f7];[0x0;0x164d83ebe1440;0xf3d274f268dd9;0x1cd103a284e4e;0x6ef5abbcff7bf;0xbf8cdc48ee879]].
Definition wit_C_64_4 : colwit ipt wit := mk_colwit (V [0xb2451c09339f;0xc167939e454fc;0xc7dbb72a2b7fb;0x261bae9f53e4e;0x4a9ea0145213] [0x80dd602e4867;0xd920bc6d57808;0x707a0246491f2;0x49526886a3a83;0x6d1968588d92])
 [[0xc277b599b2521;0xbf7682da90ade;0x27c7834ae80a7;0x1475123a671c1;0x74f911c41b72];[0x17cf71ea48e94;0x940a4f782295;0xc1bd8cdb518c9;0x1ddd3923bd7c7;0x61c67b9865c4];[0x1;0xafcbd45a18340;0xe01a5fd6a4aa;0xad67e58b26a70;0x4cf32235040de;0x5500466f7870];[0x1;0x5e30cd3d9c840;0xa0ce8d254e73;0xca19af768b8db;0xb842b6cf52f67;0x1cdcdb7dd34b8];[0x1;0x62fbddcf868ad;0x20164e63852c8;0x982a9dd26ad65;0x295be02829c04;0x1884027f2e21c];[0x0;0x615c062400a76;0xd75a9b54ad63d;0xad691f945b1b0;0xe45aa49186d2f;0xb937e7ea55f07]]
 [[[0x81084df20d6f4;0xfde68566da1e1;0xe43f43dcce777;0xc79f297f27ede;0x8333f8a68e5e];[0x1;0x6b10a6ee63e00;0x369b2f74cc23a;0xc40046a62018;0x383556851cc29;0xdd0cace0007c0];[0x1;0xd3c94c75d2550;0xe1ed7dc7c97e7;0xeebd51a7a5509;0x192c34c984d9a;0x155abfabd4b77];[0x0;0x4f7098ae55be0;0x5788141b9fe6e;0x44062e10995ef;0x83a7d9c3cb0d4;0xd4b856ac2fd78]];
 [[0x3dcc8ef9e6359;0xe0a3f4b37984b;0xf0ee30024bb2f;0x4ed3a98b4e203;0x7a136e546a54];[0x1;0x6ae16213cf74b;0x605d974bf489;0x7287cdc6ae7b1;0xe29b26c80dfe1;0xe706eaed337fc];[0x1;0x14ed466daf19d;0xfb24d30300ba8;0xa2346103815c7;0x7153e22f6d0d0;0x15aebd189b6ca];[0x0;0x5e4c9ca3d62d0;0x21346cd2fb7a1;0x3f6a73cfb0b87;0xd9afe7d9f3867;0xb6e0dc1a1e870]];
 [[0x9237bfecac0ba;0x91dc1a9491f48;0x41d123bb81a17;0x9dca033f1d178;0x924e96a90396];[0x1;0x22cba4ec8ca2c;0x6e1e861955b05;0x55004e88a66b3;0x7bbe90e56cb0f;0xb66c54c3f10c2];[0x1;0x766b8cc80c654;0x2d1715fa59ed0;0xcd8dc9e154e76;0xa1ab4e99230b6;0x160a9d649ac30];[0x0;0xf71312f9f3e72;0xe2cee5eb6cc4a;0xbed95e9ce32e5;0x6252efff0b2af;0xd7b23cf716d7b]];
 [[0x53636cb67200b;0x53dbd042d9162;0xdc4de1381a241;0x11a1a227114eb;0x13f0c43c3128];[0x1;0x929e5323a87b4;0x32bacf5c0169b;0xa72b25eb6b4d0;0x61d7c09f41b0f;0x8b56f87a1a6e6;0x1];[0x1;0x6da2fb5e4d285;0x8dd03f2131ec3;0x383946c531278;0x8aa395cf1ceb9;0x19521bdcae12e];[0x0;0xab2251e90b14;0x32ff536b0fec;0xfbfb8baeed041;0x151967acdfe4c;0xfb70729d7351]];
 [[0x571868016fe23;0xb59ecc2b31e8d;0xc23924976673a;0x93fa1f4607c3c;0x7cb9a890d85];[0x1;0x7e883646bf751;0xab13769fb6466;0xe2d70cfb63771;0xf631677fad198;0xaa1c31dc1c126;0x1];[0x1;0x651fc7c327c95;0xb6bc4dbf7acd5;0xa7cd5c3ee00b5;0x2fe11ad2dd92f;0x12cdb22950e3e];[0x0;0xa2d6b7c612e29;0xc6b0e95b6bfb;0xd83d28b7afdb5;0x5cd3e4898f775;0x4e0f4ce1ad32]];
 [[0x3af126451c565;0xff65b0bcec009;0xcb499c45a7dee;0xef969c79c1011;0x4b819b3cab64];[0x1;0xdcf87cd9c923f;0x18a620b7ad07b;0xc66b0cc93f53d;0x11e13a16c6b54;0x36d95c9d4c36e;0x1];[0x1;0x4dbac15f60065;0x392d0a55b3145;0x508daa4d74304;0x1ad3b1e527613;0xfd53669e1e97];[0x0;0xde2c6bca63745;0x3a7dc106acdb7;0x3c3f45d0e750f;0xe8846bc0dc709;0x770d75a48fc2a]];
 [[0x9162d17b6245a;0x2ed9a967f3d9a;0xbfc2e25c1cbec;0xdf85174149559;0x3975e53759b1];[0x1;0xbd29ab1b72d92;0x43135aa4efa5d;0x5e53fa315cef5;0xe3088b3b7a421;0x554c5c81ed6ea;0x1];[0x1;0xb9bb9f7b444d4;0xe9eac3d74341f;0x1c1d9d85bf955;0xabd94bcaa9936;0x1ac4c42e18ae5];[0x0;0x46bd44c9d3dc8;0x4ecff7268b6f;0x3118c7e732080;0x69d519972a63c;0x5751d505cd101]];
 [[0xf1835eff6a6ea;0x4cb3aa5d727aa;0x77022e1915c92;0x288fd501b36fc;0x4fbdec2115e6];[0x1;0x5f46311638288;0xd56043839fdef;0xabd128bf03352;0x41decbf2b926e;0x3445e04418983;0x1];[0x1;0x89e48932ca614;0x11e6a3f782aaa;0x44fc9b0714efc;0x5a9713a5ddc9e;0x23cd5eba6cd90];[0x0;0x8b437cffef664;0x8042df9d2a4b5;0xc493399bab586;0xf2f9fa8fe0f4f;0x74ffb9ee026b0]];
 [[0xce1016b15fd87;0xfad8f299b6a34;0xb0d941b64b982;0xfc41557e7907b;0x945ac323c8b7];[0x1;0xf433958920b03;0x445ee269919b8;0xf6938bca50822;0x3cf499b79bc4e;0xb62ec4212bffa];[0x1;0x43ef0b019d4dd;0xc5fa7975f04bd;0x5055e054e8294;0x74987757dcf35;0x1ae601c39710e];[0x0;0x55912eac3b086;0xe9983fa5b13f;0xb7fa6bb49a742;0x518052daa0ff9;0xeaa1696f81e35]];
 [[0xb8038e7e22231;0x51c3fbfae1e74;0xb726eca162b53;0xcea15de1a78d2;0x5a1b5e905313];[0x1;0xf4511bffe2316;0x9b0db09b5d928;0x9b3a679fe8233;0xa38ad595a3216;0x232f2c5e76b79;0x1];[0x1;0xeed099726694d;0x3259b04a97a07;0x74f19c6822881;0x35506f4336221;0x1277b003cd644];[0x0;0x141df45b5497f;0x51537f2e4d157;0x2a2081905b252;0x5801adea48480;0x92c8d29ac6022]];
 [[0x844b74bbcbe48;0xdf42e4854f1ec;0xc495cf93185ec;0xe6c9562080359;0xdd90ba69eb3];[0x1;0xdf54da9c24790;0xc63da5167d98d;0xe5294219d8114;0xd2e1b1c467fb0;0x9bd4153231db8;0x1];[0x1;0x7c66d85efbf40;0xb6188066256e1;0xd8925001f4956;0xd3a2f7e6f9432;0x9dbae7c29fe0];[0x0;0xa814851ddb228;0xb241d18f471d2;0xe26285ff39b9a;0xb7536f3deb1ea;0x8e5958f9b520]];
 [[0x946a2271d6a21;0xc49be0754c29c;0x9ab714e551662;0x5694a6b4eba7c;0x4df7fe306699];[0x1;0xb7faf014d99e0;0x3837a0a7f43c3;0x76cb1f4444741;0xc05abe2ca3eb7;0x2ee8ee29ca0a1;0x1];[0x1;0xb99fa2d146aad;0x9d400e249afb7;0x939cc2dbb425;0xbf17d3ff9266e;0x102ad142c7ef5];[0x0;0xd3d72a2a8cc01;0xdd0d4793e7458;0x427cf3bf9a4f8;0x349eadb0f1d22;0x713ee08d276c3]];
 [[0xd3ebefe8d78ef;0x38905c77c0cfa;0xf934cc77df860;0xb472e7beb5e2e;0x9288baf538e9];[0x1;0x64a1009f79046;0x4df6672879383;0xd4ea6ca147127;0x22898c549bb25;0xbc113518a9b03];[0x1;0x3f702954bc80d;0xe1a0ff5d3e21a;0x486a2fbec319c;0xed8265e7cb5fe;0xd8e6b27f3f5b];[0x0;0x980e631f900af;0xc32f59c60cfe1;0x3c81080251ac7;0x641133c0a0810;0xe37ca00fc19e7]];
 [[0xd17c1a9e7bb87;0x2259f9a166769;0x59bdc6cb5885c;0xbfdd42b47cb23;0x223c58e3d16b];[0x1;0xd02abbfb391ac;0x9f9dbf9fb168d;0xb4b3c471fdd5;0x693c0a9948fc6;0x738dc9ac8f139;0x1];[0x1;0x636ae028e68dd;0x89cb59cac368a;0x92e2c4a71ac14;0xb6c210e0926e0;0x16d2a660e609b];[0x0;0xf73a353c618f3;0x10294e4526cd3;0x7f84908058b7;0x7b130bc284354;0x258d91abfad99]];
 [[0xc432441cff5a7;0x3022c014cc211;0x568f7429fa4a7;0x7e9e3f80ddccb;0x3d3c9769d585];[0x1;0xae2a5c8a0df36;0x7bde30a357406;0xb385cba415925;0xf12bbc58f7b8e;0x4eb24bbccc132;0x1];[0x1;0xdeeb2cce6b79d;0x5e0082513e9e7;0x5eea2aaa76c61;0xeed520d4235aa;0x20b51858c6690];[0x0;0xedc6848a8ec45;0x577e8ed4ee394;0x81357fbcd28d6;0x30cd5bd33611f;0x5bad7bbe442ab]]]
 (V [0xaf98da512f3be;0x4e43d9762f014;0xb03b4a48bcc4f;0x843f849f4cfe0;0x624ecbd70057] [0x906f204903b1f;0x1e50046cb5371;0xcd5760a76e453;0xa3abf6baf7e7f;0x61277259af06]) [[0x953549f72fdbc;0x85eae2a0a3c6d;0x337456afa87e;0x973491bc597b0;0x5646af13f72c];[0x1;0xcfe8a46867a4;0xdcd5fffc4cb65;0xf8ad978e2cedf;0x4a74d490256a2;0x1dfda0f065f36;0x1];[0x1;0xae962f8c6f0d0;0x41cac08c0bdc4;0xa58bbe5c1e907;0xf8a31b077fbeb;0x2215667cd1e80];[0x0;0x11d09f76ee94;0xc7165d19cb224;0xfec22d05fed26;0x5f8e1d56a7445;0x84fcb30397738]]
 [((V [0x58e29f7855eca;0x6646e495797dc;0xa32a9e6cb1ce0;0x13292f4ef262a;0x7fe2ff3b7622] [0xac703bf7edc92;0x6a8bc101d350;0x5897ff3a27566;0x3a0f11457ff9;0xb8c7e426ec9]),[[0x31f8671aed7e4;0x8757c7e8d92e2;0xab05f2bd9c82;0x646b85c51e541;0xd8eb401d6f4];[0x61a3f0dad536c;0x3b87af3b3e638;0x3982abb37f786;0x607248ebedf8e;0x45806efe8c2];[0x0;0x14803261af54c;0xaf97e90aa0cf8;0xafb9b95b62099;0x33228118eab3d;0x36f4bd6ac9da];[0x1;0x4ae3c03c46cd8;0xfadf1d2b90d21;0xf8d37f3d5546f;0x3f98b71be5831;0x15252074c6d8];[0x1;0x71753c5997dd0;0x9e32fceba7817;0x58db2f5aadcbf;0x5dac212f2d7dc;0x214a085923c5e];[0x0;0xa1c4a2e3201fc;0x494348de9144;0x9d1d07a64d0e2;0xe7fc388f518aa;0xb8a83223fc48]]);
 ((V [0x9c7c754abe9ab;0x8640aa7545b34;0x280bad93ed01a;0x22d5852ec6ff5;0x53c65977c4cb] [0xabfe1d45b0a2;0x6283ee88960bc;0xd52dd2726076e;0xa06e7fc144603;0x21ad1e384b63]),[[0x9f25de75233bf;0x824befaf0d239;0xfdad313db05f1;0x99d7566266124;0x8cfd47f28a83];[0x1e568d36aef9c;0x8719165ec4aa2;0xe30ff331e0adf;0x838202fe227c5;0x3ae5a95b297b];[0x0;0xdbb7f81a0ae6c;0x9df67c59c7bf6;0x273ec71712add;0x2d37399620821;0x8353ec3a939];[0x1;0x45bf3f89aeaac;0x5bdad552b9d4d;0xd07d23b9e8b7a;0x6cf9554f170e0;0x11e5e40ea59aa];[0x1;0x8a08d79e455ed;0x1fcb34ea5f9b3;0xaf372919b9780;0xde04a85bc43fc;0x1aed39b4f02e8];[0x0;0x90d7ce1a98d18;0xbb47a6f153f29;0x35e62a158b5b4;0x564792842d777;0xebc4826fd51b8]]);
 ((V [0xcc6b3f33732a3;0x74a8a773a6e52;0x7c7382090af7;0xedfcccb32fb1c;0x7db40f0d3d33] [0x8b9782a426d25;0xf9af20036a88e;0xc848c484ac512;0x208a3d56cd7fd;0x51bd0216e853]),[[0x772e4de9a9b04;0x46731b8ddc187;0xea8ac22d7505c;0x7ba58ae6e3916;0x692293ca834a];[0x91973572e0119;0x4d76b9529ceb4;0xa79866ef48fc4;0xdd9f1e5e6ead9;0x84a6a5d9699c];[0x1;0x24f341ea98f45;0xbf7a7db1b5019;0xa6d0a22132d5d;0x816fb47d33e48;0xad1d2914519b];[0x1;0x67442e4f8d3d0;0xd9f66df85070a;0x660b55ae122c6;0xb65505881b548;0x271c4c47d2f07];[0x1;0x17dfa662e6ed0;0xe1f0943df2060;0x8118c98598b70;0xffd58f091eba0;0x19b603c322479];[0x0;0x6626f2deec7cc;0x9ec80aa1c9b6d;0xb6d20d905de6a;0x9c1e5b98adb39;0xa3c76979d9d5c]]);
 ((V [0xd326605dd1dad;0x9155938285984;0xeb1b63afa771c;0xd8d53aad174b;0x3c2bf1ce609c] [0xcd29967a27845;0x91ca999664ae2;0x1e70435c8989d;0xf4fc20c7ec751;0x49a4e4e54dd6]),[[0x43e3e31b7380a;0xd11e11cf1bc78;0x4c520401edc32;0xe1a01c0402e35;0x402976e26c1];[0x71a4a48676540;0xbd2651942c98b;0x76100874bcee8;0xf332e9f51b98c;0x7591b9e4afb7];[0x1;0xc014cc7217b95;0xc82a3929d4b;0x472ddb425dbb7;0x301b090a09da5;0x5bdda5a90fd5];[0x1;0x98796814a5b14;0x978f77b3d50a7;0xe3fd394c20084;0xdb4fa0d689988;0x250a11d2a1c30];[0x1;0xdba5294920694;0x37bb290d77b2c;0x3013172cd59f;0x889e3cbf54177;0x20071e1756901];[0x1;0xad94592eaea5e;0x9f74c7203e6cf;0xab9ed7134e5a1;0xe4d80de6c80e3;0x91a49cb68375]])]
 [[0x8147da6e8465a;0x102c9e8f5eff2;0x8be80755fa188;0x247af5867c4af;0x8a76bb3f727];[0x577dece571acd;0xfe246487b3097;0xd59deec9fcd50;0x6309fe4e6f551;0x3e89ce34f2c1];[0x1;0x6f6c7a09c0035;0xa0f19b17fa43c;0x29cbe2bca4427;0xe2883e62d1b57;0x4f9c4432557e];[0x1;0x45d90619a7034;0xf1f50e5c28f7b;0x245efbc87c806;0xad5dcebf51696;0x13d129d26eec4];[0x1;0xb059b6e460cd4;0xcb7820e4df35d;0x9e304af0d39e2;0xbd09fcd86b6fc;0xf8a75e2afd6c];[0x1;0x5f2552d7d284e;0xb73d8e0661813;0xcffe0a2bd21e3;0x8a776a84589e8;0x2a8da3282637]].
Definition wit_C_64_5 : colwit ipt wit := mk_colwit (V [0xef4a5f82fe33c;0x88bc3ef6de65e;0x3c9a5acaad752;0x94faf3e93e0a7;0x90d6bff8d1f3] [0x176b11b224dc2;0x5d486d462b0e0;0x72cd863afec1f;0xb6189d70cd1a5;0x38fde5a26222])
 [[0xc93e7056afda;0x4afa6d344a45e;0x8ac87e536a43a;0xbe7fc95a0896a;0x5dc15ad7ccb2];[0x3f802552c73c5;0x78b67c23ef10e;0xff0e2d7a3db4a;0xd4da50cb25cca;0x5d8f27ec4389];[0x1;0xf3ffefc25b6fd;0x39ad1d7e760be;0x59237d47f61f4;0x7bd22b06bf308;0x93b01aee8b5a];[0x1;0xd465251cb184;0x5e657f89333e8;0x4731a95e45c73;0xddb12e18468be;0x16b9682697871];[0x1;0xcbbbb6a0ce2d4;0x23d001c9cb884;0xcf1cc3fb4d5f6;0x4f0ef40e1e66a;0x11c1de38d98a6];[0x0;0x40b83232f9718;0x3e726ff135dd9;0xc231767f65b97;0xecbc70666d7dc;0x8a470ad3b0cfd]]
 [[[0xd53161f0ff637;0x6cb45eeed34a1;0xd6dbc7b6ffd38;0xde675fdb064bf;0x63e4bdebba8f];[0x1;0x321a2ea66554a;0x3ec6d69ce865b;0x65d38049d98be;0x639e4e1929cb6;0xfeef095251eec];[0x1;0xe6b0b759c72fd;0x65fdd2c8b5abb;0x4b817fb7996f;0xd6e6594bf14ec;0x17580988cb946];[0x0;0x76dd1fed44444;0xea1926daa2887;0x2174270ce3305;0x4f9062c5fc81b;0x972cdc486cd03]];
 [[0x39e33b8432393;0xee487041f7120;0xde3fb1f414bd6;0x71ac4b6226abd;0x5de483aa37f];[0x1;0xb2e9c45c4f29f;0xc71c09359655b;0x9370795e82bd;0x76f8ad9dc71d4;0xa6976baf31687;0x1];[0x1;0xbd37d25cfa9b5;0x481a6f1c9348a;0x3b4f4464c1f8;0xe5e8dc1dab6a6;0x249723b855e68];[0x1;0xda1601d98bd4;0x5569b08a6c5bb;0x1e37777857a4b;0x75d5c94e50489;0x771a154b0544]];
 [[0x96e51652b95c1;0x207253682c7ff;0x33715bd8252f6;0x72b1ea3f05b79;0x64f519593eae];[0x1;0x3cfa4e4867ebc;0x6194b12dd4284;0x5f768a5f056ad;0x67714c9383272;0xfe7e7f3b669e6];[0x1;0x39af3b99deced;0x99b96962efc9b;0x4cd352d129356;0x6a0119226a19b;0x24ededf01fc40];[0x0;0xe5ca197bf08ad;0x5d92d8e2fc42c;0xabca28785b8a3;0x1d7bfdcab6f46;0x9ac7d3dc42599]];
 [[0x89ce166f706b8;0xbe5c4dbcb2bd8;0x8a512b22b2389;0x277388a0c9e54;0x8dbb8650828f];[0x1;0xc65b815a46c30;0x90796ecac3089;0x7bd59dda38a1d;0xe4cf0212e098c;0xc2f3ec9224dd5];[0x1;0x6f8a0f24a2f40;0xba7b466294c35;0x5ae14631ce1a1;0x555ecc514a7d8;0x234e7441dda81];[0x0;0x33222b3b4f0f8;0xe7f58bfcbbcf3;0x70e80cead6cc4;0x454168eef5ee6;0xead159dd2997e]];
 [[0x4d6478c82fb1a;0x17339bb9cfef4;0x4b373af9f928c;0xe55683dde169;0xd3a6e567b41];[0x1;0x14c914b0ead38;0x631cb3e4d67b7;0x7ece1bec2f7fa;0x68c25ce2206a5;0x9edc2b8470bf2;0x1];[0x1;0x96f3ad3f427d4;0x4d04cc19499f;0xba01f4cb6342c;0x31215b61e18ca;0x1e96ee9d52a9a];[0x0;0x7dc3b89e2c3ac;0x1f3be535de1f5;0xcbc2145ce8e02;0xb2f2c0f531f6a;0x1040a221c9e5d]];
 [[0x8f764a74ed1ac;0x96423c2839cd7;0x4c46d82695f52;0x901001b8a14b4;0x4c56624a8271];[0x1;0xc82ad82b0ce4c;0x762b58a0bbbfb;0xb522053e6a877;0x195d2c089d1fa;0x2ac65a55569dd;0x1];[0x1;0xbb07d596c1c50;0x194565b306ae7;0xd81a2f915f8c4;0xbc59bde99886b;0x127c56a800ef7];[0x0;0xbdb51962a961c;0x5e5af9f6a2665;0x3b8a7d06157b2;0xabe5d27227f71;0x6bf98ff62caa9]];
 [[0x18edc3039b2fb;0xcd5b6313f69f3;0x3e5edd09e3d26;0x77bdcb9245aa9;0x4c26e3633565];[0x1;0xe692dda08ac5;0x3cabc75e06f2f;0xe0c027f8c8156;0x8e773c69697d9;0x24dcf3a8e0998;0x1];[0x1;0x8d27e711523a5;0xdde6c99ecf007;0x6be39fc3f40ac;0xee67d8e28a71c;0x1ef7cd2c322c8];[0x0;0x4478807820dd9;0x25371affbd985;0x3ed3b02019c6b;0xb24de8dac51bd;0x64213de5b9804]];
 [[0xcad6e425a2f27;0x4c1f2c12b4530;0xcb4fe4305775;0x25fbb77b8ccf7;0x3b13c45a657a];[0x1;0xaa6599422eab9;0x46c10358fc344;0x3c3b38841f124;0xaeebe48eca15b;0x458320315a87b;0x1];[0x1;0x919efc747189d;0x1370a9f398e88;0xa296adb6cbcfc;0xc6acdad06b481;0x25a8016bf7690];[0x0;0x5b444b12201cd;0x69ebaabb965e2;0x1aaaf476ac67e;0xe3b20d5ddd1d;0x561eeb1a454ae]];
 [[0xc172be8eb2839;0xc3590cfaef023;0x5f750bed2618;0x579446d58c6c1;0x85a084e5e09b];[0x1;0x1466d3df43497;0x1e1e59f165f4d;0x9ffc3da88b1a3;0x75d5310fb8301;0xd0503a7ca6fec];[0x1;0x89fddfc18de5d;0xe7a2b6d5587a6;0x2497ac120ccf4;0xc638011f6e57b;0x15bec432680fb];[0x0;0x372fee239e0a7;0x2d1add5e046c6;0x6daa4fdeeab5e;0xe0b2c3464cda4;0xda86381a44a11]];
 [[0xba80e8d8461c2;0xd2c3175a7197;0xf06a216696dc;0x14dfc704fd464;0x7c513b22374d];[0x1;0x1838550837a56;0x120d80a4339de;0xec1e730be9b3e;0x387c7f4ae98d7;0xd5783cc4e8fcb];[0x1;0xcac551755a8b4;0x19937b4b9b1b5;0x351980aa64619;0xf3637b6341a3c;0x17cc868c5f13f];[0x0;0x12e81b21e111c;0xa1e04b7c5e4f3;0x57d2a3722882e;0x18bd74fbcb8c5;0xb56b42ec40f48]];
 [[0xb5f1cff0b62df;0xd94085c9a5708;0xb61e7c9fb5405;0x4ff40a004af96;0x3d8d66479126];[0x1;0x7c1fa172d2da8;0x2100015ab3dd2;0x9a961440139cc;0x4250995665ad4;0x3dff3330481d1;0x1];[0x1;0x27a96a4ee98ad;0x689be1f24ac76;0x2c235d8f30727;0x5138d686c4bac;0x2038dc45e25d3];[0x0;0xc81b1cbcbca6;0xf9cf5c1ffe6be;0xf467598a5379b;0xaa355ff82afef;0x4ef39d2b4d738]];
 [[0x6f192362d828a;0xd19fda933cdd3;0x2c4261bd28aae;0xdc157f7a9fd9;0x6415d53ec912];[0x1;0xe12b8ca18abfa;0x4130cdf135fc9;0x26739d8eb50da;0xd246fe06e4eb1;0xff145557348b6];[0x1;0x33378426bb094;0x3e0f9004bc4e5;0x8f7ace05eb540;0x25a8ba299898;0x1ea39ee66cd9e];[0x0;0xff264e945cb62;0xd5ffa75f9afa3;0xc8fae52cdf4cc;0x56c0e7941648f;0x93acd582dd198]];
 [[0xace5d1de47370;0xedc1884d6928c;0xcdb1f7977be10;0x6e4a7fca8d744;0x474e8ab054d1];[0x1;0xb4462001c9110;0x2c3e98ae050e5;0xeee54e95a3eb2;0x221e3f5df7f34;0x34c11cf1ecce4;0x1];[0x1;0xf77bed28fd00;0x7ee222247dddd;0x234c93232c038;0x6778f3bd3b831;0x1a9c4741f577e];[0x0;0xaa6b3149e2e70;0xe3f53fa4f472d;0xe9da95ca4c667;0x162d431b6c711;0x7210dff824864]];
 [[0x1d845ecd16a67;0x8f333b4ced65;0x3e9bb58d03dc1;0xa7b6d4d09c34f;0x59127b3df02];[0x1;0xe26782be79827;0xa84b199825a5e;0xdc7f28cf537bd;0xe0380d08034d1;0xaacfc5fba277f;0x1];[0x1;0x698c13c56281d;0xcde92e96b44ba;0xa1dc2d58f3f5a;0xfbf4dcaa95c21;0x133b1528a8dba];[0x0;0xbd6ebad21110f;0x54dd7c0cc12ef;0x10beb0c3aef05;0x89232a16aa3c7;0x57f037951052]];
 [[0x95d4e7249084;0xa0611d7faf453;0xd6c37a29963a;0xbf15ec6a2ded3;0x1f51bd4de037];[0x1;0xbbd748fa4568c;0xfe437184876f5;0x3562ef0d6b6ae;0xf7004f3349591;0x7d18edaccb75f;0x1];[0x1;0x891ff3854ead0;0x17ad5c1051b22;0x58959368d09bf;0x23e79cf77abcc;0x15068efadca1e];[0x0;0xe715fcc9ac0c8;0x79e41b67bbd38;0x43ac18955a499;0xd4e98083235eb;0x2a134d255516b]]]
 (V [0x7a554c93aadee;0xcfcc18822307f;0x2a9f03c8edecd;0x36f2feb77ac05;0x195788e45bad] [0xbb5693a9b1f68;0xcd035a23d5a39;0x67c652cc9da66;0x52394aa09b8ca;0x8a63156f9100]) [[0x248c91f68cce1;0xf6e46da1999dc;0xaafad87b89972;0x9d71eb13b34ec;0x5ca816bb7d68];[0x1;0x5e777afe34ceb;0x9a0ea47da5d0d;0x14cf0893a49c9;0x598730326ed06;0x1523df1fd4d5d;0x1];[0x1;0xdbd0351cb422d;0xdfb13a357583d;0x6a541b171d2da;0xd0972922f3702;0x58e5e5c94575];[0x0;0x4aee72dd671ec;0x88f1c14e0c2c8;0xa7b8dfe3e3a2f;0x3833acbedd955;0x860cce64c4f55]]
 [((V [0xea34cfd4586c7;0x3b2af2c32fd9d;0x38307cc310bba;0x426988126924;0x515c768a3c19] [0x3d447b0cf208;0xb5453585025a6;0x43fbdce4161e2;0xc68738c377bfc;0x52060df32050]),[[0x591c7cae9b547;0x8151f61382bd8;0xe430a0e27c6a0;0x4f29bf9548603;0x80c092f7c81b];[0x87e74f400505b;0x3aeeb61763364;0x8d8d642ab6b6a;0x6713294a9f461;0x27c220786d29];[0x1;0xd26bcf1c68df4;0xa36d9bcc6b254;0xb9ea0fe27a911;0xc394827c14a95;0x3d46a1a32af4];[0x0;0xae2c320fa8610;0x238a00e1dc143;0x4cb4f128d651d;0xdf3cee52e2f62;0x10244a6e3608];[0x1;0xce35178ddb75d;0xb8d2c9fa23e52;0x2ef732ab16be6;0xe0d0304182787;0x6eb1836b4c90];[0x0;0x637f877f72880;0x838fa9d3ce07d;0xc2fd59d49b177;0x65a18b63fe987;0xbfb630dba48a6]]);
 ((V [0xb88c0fdd0ebbe;0xaad2c1e4036f8;0x92e8802bbdd25;0xc500a49c58983;0x4721ce72548a] [0x3993d4bdab621;0x3ace42342773;0x28cc317fb263d;0xda9e2cdc017be;0x67c67923ee]),[[0xa27ceacf5c6b1;0x6bd127c255027;0xaf02aeeef4cb3;0x9d3e2358da0e8;0x61eb9668ba58];[0xc6911f00670bc;0x58d4b3c450d3c;0xd1193ade7bf72;0x66f753a5c27c;0x679bd292c4cb];[0x1;0x4eec3c845885d;0x716b94fb0c32c;0x1d263e6cd21ea;0x3c9623c9d98c6;0x7fe67d4a4d02];[0x1;0xf8296791fd9d0;0x5a650392ab282;0x2b525f0db114e;0xd50781963c65d;0x1a8b99a2bb319];[0x1;0xc6ff17c6cae4d;0x6fe27eb168c7;0xfbcb2813043b0;0x98a36daf5941f;0x143142d8f457f];[0x0;0xef84056f82266;0xc2478bc864455;0x2d203d8685829;0x1ba874eed09bb;0x9d2afef7d09fb]]);
 ((V [0xdecc53439fc00;0x9b95bc85eb191;0xf0388cc936715;0xbbf7004f6545;0x82395f1df612] [0x41aaaed6c77d7;0xe051d5dfee1cb;0x86b28acd90452;0x444ebbc18c3ec;0x977eb514b341]),[[0x1c43904cd679f;0xfeb8bd05a09a1;0xee346adb1326;0xa89530b2453ea;0x8e273c6e883a];[0x40a3f810b7e67;0xbea604fc6036b;0x567737c5c6583;0x98919cd31ea29;0x3ea7bb5a67b0];[0x1;0x93cb1e8eeaab4;0x42e22a8bd9c11;0x3e1b885d776b2;0xb0ab6742bde4a;0x468e19b1b0fa];[0x1;0x1601f21f94026;0x51fa95b53e46f;0x8e719367582dc;0x18dd0b67e73f7;0x145197d0ce579];[0x1;0xd831a36886d2d;0xc116f85faafda;0xdaa3330b851be;0x786bc2b7061df;0x13e651945e903];[0x0;0xdab47023ad9eb;0xcb6470e9e566e;0x8984e870bd3f6;0x5136f03e9c0a8;0xdce48a1917eb7]]);
 ((V [0xde989e2bd576b;0x99258d2d80ac;0x46058137707ed;0xc510a229f6c8f;0x4cd098b7d5bb] [0x6d36feeb7088d;0x95fc0c316f8d7;0x48f0a0fd6a1a7;0x7387ec075a0ee;0x67090c270c7d]),[[0x66f48f2cc58d4;0x4e2018bbc9a7f;0x3b2ff9fbbb21e;0xdb0c29d375d2b;0xf1592cea87a];[0xa8dd54d1a699f;0xa224d36c56501;0x39b16d1ef3895;0x25c9f6fd0daf3;0x4f02b462125];[0x0;0x6b78019300000;0x7cee2b8493de9;0x7d0cab4ad3da5;0xb4d1d0a9268ca;0x64d8f6dc90de];[0x1;0xb671784608e38;0xbf25869ad92f8;0x1fd8dd18d7dbc;0x1afc52ce74697;0xba31e1b95cd];[0x1;0x4e9d8fdbf7050;0xa202a5294c9f6;0x551eec26b5a7b;0xea921857902ec;0x2295667fb1b04];[0x1;0x8d76abb638f38;0x9c4b26e4d63f9;0xa0e57f44b89fe;0xc71109acbf1f6;0x640665e6a3b]])]
 [[0x6f02211a51757;0xf9ef1e26d659b;0x8fda6e10792fc;0x9909e20c4524b;0x6791dfb6f809];[0xa8c29f4de50d0;0x7ffaf9f6f314b;0x3891b2d61448b;0x561e97a819a32;0x7f58e8763cc1];[0x1;0x3120e3e43dbc5;0xf95b731fac07a;0xa1957dfcc3484;0x9366dc5ffc660;0xab924aec9ce8];[0x1;0xdb8bdab55561e;0x3c5c4a41e62f6;0xdeacaf3bef126;0xec99eb3019ad6;0x1fbf3e4a476b8];[0x1;0xa52f2839197bd;0xb486a519e0bd7;0x1c08dd16ee759;0xbebe9858ee6bd;0xfbec74737509];[0x0;0x2201763b233ff;0x435ffb2c0d92c;0xbcc524b689d66;0xd1b273327a33a;0x9a8302b831c37]].
Definition wit_C_64_6 : colwit ipt wit := mk_colwit (V [0x960fd96080b02;0xabbfffd1bf9b6;0x51d4e1b2b265c;0x5b558e161533d;0x2d08d5c2a3c3] [0x9a358d4a8e1d3;0x64a5f381dcdcb;0x3285fdd1ccccc;0x8854a46b96791;0x545b1bfeec2])
 [[0x310312313ffa1;0x1dc084e72ee7b;0x5ebce7ee3ef3;0x3655ca8d15973;0x75cabec83192];[0x1e44c6793ca96;0x33f0639d43637;0xabd135d8d758d;0xafd709c4aac35;0x22bb35afcb5e];[0x1;0xeb9f0745796ad;0xc87331b5e1c21;0x62258defcff69;0xf8b21b010a558;0x2e1c6ca41901];[0x1;0x11c9c19bbba22;0x7bef194913a45;0x4aead5903a983;0xb8630a2f822c0;0x17fd6129d635];[0x1;0x614b8dcbdd9ad;0xe51627f23ca96;0x4bcfcc25c44e6;0x507e0ee6fe038;0x792f0991ce27];[0x0;0x3c6d8e05189e8;0x4c0e12bfe86b3;0x980e85d5533e4;0x9f20e7eafd19a;0xbaeb5b605f2b1]]
 [[[0x6db328638620e;0xceead0406cd3a;0x42916d258c6c5;0x32f9956f39808;0x727346a2772e];[0x1;0x38fc8a0866dbc;0xbd0553f3fcdf1;0x1e0ac183c1205;0x894c1ba0de2a5;0xe41978a46b054];[0x1;0x2a65efaee4774;0xc5cf4a116e902;0x4f1457a53336c;0x8b434195b21c7;0xd61aa2624be8];[0x0;0x2d4237a1cac66;0xc81137ff9855b;0xc2ff79056f673;0xd44f2be1933e4;0xaae42a81699fb]];
 [[0x13bc92cc4fb52;0x3a9c331fed500;0xf942ed2402cc9;0x2a4ad35ef80d9;0x3e1756770f92];[0x1;0x617df5a494030;0xc8e75c7876938;0x42614157fb627;0x3502527fcfa8;0x405c5a9438e9a;0x1];[0x1;0xc24e0e01726f4;0x256c512fe0d31;0x3e5f9e9b91eab;0x5ab6ac8a9fde;0x19c12f66bfd29];[0x0;0x45317c9c7a94c;0x9612c574ca83a;0x7ae74870615bc;0x73e6bf205ab2;0x51c9efaf9df2f]];
 [[0xbf9a0938e9c75;0x57d890eeb082c;0x1f5c01a402e33;0x542f4586e53da;0x371d73a874];[0x1;0xf6778408546e1;0xc293fc1f2376d;0x547acec424e33;0xc789e3c0223fa;0xa29bc97ae5ce8;0x1];[0x1;0x8bb2bd18b5b85;0x7771b40333b5e;0xee53f89d57d5e;0xfd04af32c53c8;0x2129d341d30d2];[0x1;0x733f763b0454f;0x5759f78679dca;0x8f6d8898af95f;0x3997ae9605ce5;0x1c21a1894b205]];
 [[0x908e54ed0611d;0xd5fcd56c9065;0xbee2253abe4cd;0xd0ddb61e15111;0x43a4c6b46c7f];[0x1;0xbcc99cb739bbf;0x364fd21decce1;0xf10e32e275848;0x4cef34619ff99;0x32616b7a958b8;0x1];[0x1;0xdfa457e476715;0x95ded728db786;0x592f0a84c7979;0x71b21a803d354;0x1fec5dc797177];[0x0;0x3b265e1e9405f;0xa8640f8f79b3c;0xc177a952b4ce1;0xa30eda59bf97f;0x55782d9287d25]];
 [[0xfdb25dafede02;0xaa8e28f9329d4;0x768c7f1c31a05;0x2d96127e98528;0x8901ee5e16c7];[0x1;0xb1ee908e3ff6;0x4a612eae162d3;0x52ebc4421cb17;0x1ffecbfab3884;0xbfc7826fcaf7f];[0x1;0x1fc6037fe75b4;0xb9c259262141;0xde2623f1ace13;0x52c325393092d;0x143b539a0f293];[0x0;0x8c82b62b30570;0x91c3bdec2d44a;0xf04f0cee7773;0x6b7a35dfab62f;0xd22017fefc83c]];
 [[0xa2747d290192d;0x9cdf5506afe08;0x9b3603cd33e6;0x74750e613b07f;0x3f5202375708];[0x1;0xf0d34a7398e86;0xa18f938bae822;0x5a16ac25ad53b;0x8895f086bd010;0x3e1597dc2f9ef;0x1];[0x1;0x96faa40b64f35;0xd4da96ef4a90a;0xd71aa1797cdbb;0x10c1a1b4f9c6b;0xd273b7b179df];[0x0;0x633c34bfb9f7e;0x1a6104784228;0x6070e4f1a88a;0xe91bf20134f59;0x5616963f2e30b]];
 [[0xc17385b037da8;0xe2a15cf391dd3;0xaa951d7686ace;0xc9d6e44155419;0x7514d0a138d7];[0x1;0x296545839e2f8;0x40c676fb57667;0x413c9ee50aaa3;0x76771e3efeb25;0xdae74191db2f8];[0x1;0x69ee9c3668140;0x69d925b3ab8b4;0xf468038649058;0xbefd3cf47d819;0x67f1d06f2d06];[0x0;0x56ac3a10559e0;0x3d1942bed276c;0x8970d1fd6c81b;0xa165da7f109e7;0xb20a88f6873f7]];
 [[0xdc3f1e974abe4;0x4a471dfd9f6d1;0xd26cba0e730cc;0x46a1c36427449;0x521396f2b10d];[0x1;0xe2ab66c41d808;0xe9c841bd96f93;0x8d14d6c53268a;0x8274ca7422033;0x244e0a57a8ded;0x1];[0x1;0x34bd529129dd0;0x24f937d63625c;0xdb730d49ac9d5;0x4556279398579;0x13c4ab4f605e8];[0x0;0xb028febd3ece4;0x657a081b530da;0xe2c7ca0093f8b;0x4b88a41ced0f;0x83a4b3053a634]];
 [[0x38d54c121018e;0x7db071db540ed;0xfe016b14a67ff;0x85f6fd625f0be;0x8b53630d5e0a];[0x1;0x624feaea1e3e8;0xfec5e1f080d35;0xd4120045ab47f;0xe7dbfb7cc30b9;0xc5cb8b0768526];[0x1;0xa8f7fd7fb1174;0x9960ef93d024b;0x4ffa96af53a2d;0xa71764a009994;0xe4d719ce1825];[0x0;0xa1b6fa5b235f0;0x44dac02a374a;0xbdc1cc850818;0xae5443355298;0xdc4d6b0cae8f9]];
 [[0xe950664a58988;0x7b015729e5443;0x958aa36b20207;0xe1ec9961c034;0x73aecf2b339e];[0x1;0xc99779c03c078;0xde029f0bf7b93;0x7443d026e0585;0x4639ce790d5fd;0xe0007f4211cf6];[0x1;0x1d0ecbd13d340;0x69c4374ac66fa;0xbe7bcf035dcf3;0xf04c11b4d2462;0x150bebad7e3f8];[0x0;0x24cd54eb63e30;0x2fa9d34635d1e;0x49d5608c19c7f;0x12679e2f6fbe0;0xaf29a829016f1]];
 [[0x212ab07a328d;0x5e2ce757198f3;0x5ec319684deb5;0x11785fae46c3f;0xd4fbb3ae832];[0x1;0x76c6f72416d24;0x8b3ea3fec162d;0x6d677f914e26;0x855e880f40f61;0x98bb0a2fb0efd;0x1];[0x1;0x3009823ec3f5;0x3f104871619b1;0x8209258b72088;0x137fe5b8ecd41;0x192cfcb3523aa];[0x0;0xb569a02eeeeb4;0xe16f1b8328269;0x155615aa535b7;0xf198895a40467;0x6a7896a4c5d1]];
 [[0x3ad988b54420b;0x80f3cdfc6e229;0xb5915d4a6611b;0x9de1c69796e8;0x7c6e05db8da1];[0x1;0x6fa2c74b23539;0x32c87b7e13c10;0x8d88c9d452de0;0xd92ea26340bf2;0xd0794abc9dac4];[0x1;0xe9a72c1114e85;0xda28f2f4d92ca;0xb064ac3a21c51;0xd6cdb2c412de5;0x1178f9b118c45];[0x0;0xf7f628d8cbe1b;0xb9b58144768d7;0x485540513d8d1;0x13999a09e42d9;0xba4bb50ddde98]];
 [[0xf700c8f4c6c77;0x25791d8d72123;0x56b2a6ef95f94;0xb704ebb5e4498;0x40b66663977c];[0x1;0xe2b97b371bea3;0x81f4da99400ba;0xfc54585f0480a;0x56a7941e9d544;0x407d5b752a02a;0x1];[0x1;0xbf6cda03c1c7d;0xb93920e41286b;0x58f7ddfca5cff;0x3f0360b100074;0x18763ffd31612];[0x0;0x310198896be19;0xc0e76f517b383;0xb733b760ed8e0;0x26a14724daa6e;0x667433828a1dc]];
 [[0x530dc60d3fc0b;0x6b71220ccaa35;0x2fa6c7aa771d2;0x68ffb1d9c53fd;0x71bd8c3529fe];[0x1;0x459ac6b57f82b;0x9d8b4bfedc398;0xf0aab345120ba;0xb15d437719438;0xeee47d1fe16af];[0x1;0xafa5cd5419a85;0xb415d05c9de1;0x5819f133d106e;0x3a95037fdffd3;0x93092441ace0];[0x0;0xdf03e62fa6076;0x1465766984e92;0xf152e390965ec;0x50eff241b07a3;0xbc3f3748fad90]];
 [[0x7c9a583d8ffd7;0xd862766016316;0xe7b7c2882b09;0x94c0839d82d1f;0x1078607c33f1];[0x1;0x797ed0a43a696;0x11dc089781478;0xf9fa96be70fe0;0x8538e0bc874b0;0x916d8c681035e;0x1];[0x1;0x9415abc7bd2bd;0x30d507e646381;0x9132ab76589f;0x148b1ec1088f;0xf556aeee6932];[0x0;0x27551a329c92b;0x5e9d380a8bd9b;0x60f193215bcea;0xb23aa2c829a51;0xc9bf1dd0dda9]]]
 (V [0x1bd48a9e75ad2;0xcd0071fe6aec8;0xf43cd50740a85;0xe7b8c8dbcba6c;0x2cb043a68b1f] [0xe42e8f47f56af;0x1e93d5f18d8b1;0xa6405d05796f5;0xa0ca82a33a8d3;0x847a94794a53]) [[0xdd49b48ba64f6;0x978a4ec129bf1;0x8c8bf6f89a093;0xd9f47d3f2fdb3;0x4fac61673b9a];[0x1;0xb6855955c7072;0x24b2ece127296;0xd5981a24236ef;0x56aa0a1171436;0x2a84f3f4a1055;0x1];[0x1;0xd3cdaf21e1294;0xaf32a4fabb44d;0x53abfe09b0c7e;0x2a3641d34d3b1;0xf2059dbd5e33];[0x0;0x35011139ef1b4;0xdd69aeae17ae1;0x9e82d9194afbe;0x28684f1b51569;0x6e8ce3365d926]]
 [((V [0xe3e79550235f4;0x104b8b541eb7;0xf9a390e4591d;0x47b9adb4bfd89;0x2634e7dfb4bd] [0xacc5c15d17186;0xa5221022ac403;0x3903ff77580b9;0x8201faacbfab9;0x233266519758]),[[0x32a24b27ba64c;0xebf0f82abe320;0xd09fc37e5c259;0xe599d20b0a2b1;0x5936f012ccf7];[0x45c475bf78629;0xda1ad029111ee;0xaea1ec5c82bb4;0x31b5f5aa3d469;0x3d4694e3282a];[0x1;0xac936d1c9fcf4;0xdbf5537ba2641;0xe4cff45310e7a;0x78a02eec110c6;0x57f7551e7331];[0x1;0x15c259aafc9c8;0xab8ae14c949e7;0x40730648c29f2;0x6f9d4733d4f72;0xa7237a75d888];[0x1;0x32faa59f3db50;0x7dbd0d59b80c4;0x4c671ea2350d1;0xa3ef34a375385;0x9ebb3dc93e26];[0x0;0x316c27ce8ce3c;0x818931a3fae4c;0x6d0caacae3cd9;0x46fe835bff6c8;0x858aec14a56f2]]);
 ((V [0x5f16cad1f37ef;0xc5958b0521b87;0x89f27a60c7916;0x50dc258db463a;0x122089002f56] [0x2f60e547052f3;0x91ca1245295f7;0xe1c51850414fd;0x3ef48ac614a94;0x5c35eee6d928]),[[0x29828222fc6b;0x5492cd4894992;0x2fb9151e907ba;0xac493549cb0bf;0x5af1a8408945];[0x72bc530138d48;0xc34bf035ab604;0xb0e153a470498;0x7963ab94d6910;0x742099005c55];[0x1;0xd3ea200595d50;0xacbe95c6894e6;0x4c62e30f7e588;0x306f4a124b2ae;0xb5a66a82002c];[0x1;0x2e0b44d53dbb4;0x23cdf644c1116;0xebac915cf426c;0xef1955abf2eef;0x22496b860baf6];[0x1;0x5b47eff4931c5;0x3de0783a4b92b;0xf1255a4d18853;0xf0d66f4488c47;0x665f7960ea4e];[0x0;0xc7ddbe90d4c7e;0xf1b11e6bd349b;0x53b4d38a1b1df;0x124eec15a65fe;0x8d1a2aa0f4cae]]);
 ((V [0xed3fa44b88834;0x4c865d37edd95;0x6741eca2f2048;0xf6f56b6b70c2f;0x910b15f91722] [0x60f5d00a27424;0x608ee985ae1cf;0x85a94bd6d448;0x27750fa7d4044;0x2dbd2dacbc2e]),[[0x3d151bfa7c496;0xed5be438024e9;0xf620d514ea563;0xaa2a047a8a904;0x5d11eea771f1];[0x54ec29c3499d0;0x150e094b17161;0x859a79ec8f304;0x94bce2ee7bb8d;0x270bf46db1af];[0x1;0xb605b255c20d;0xebde31842f65a;0xcafdfba1105ff;0xe926526ed7a57;0x3e1ede17e90e];[0x1;0x6d5e262794b74;0x891bfbb3ce765;0x19a77c3acad21;0xaecaaaa51aa80;0x6309e25ea091];[0x1;0xb23bbd78ad814;0xaaee1311414ae;0x4473f1b30b2fa;0x6d44daa74fcc4;0xf2932a47bd1d];[0x0;0x6f96898178a8;0x10f0dd63ad22e;0x752e7e2f55528;0x6e7307e046542;0x8a20fa4c18816]]);
 ((V [0xcac57c743146b;0xe7c5a88817a08;0xdeb8d92c52241;0x226f09f49105;0x8461920ab637] [0xc455ce19d466;0x91eb50f962f13;0x3148e834eb06c;0xd20035ff00f28;0x46664ec26338]),[[0xa7925c2c1e32a;0x572cd2003390b;0x1663e5656a35d;0xc38cc9ee761f8;0x7afd8ea2d936];[0xd17fa39be7e3d;0x9e3b18c8c46b6;0xffbc513e15068;0x2d087bd06f187;0x850999203c24];[0x1;0x46fe583fdaf50;0xb29c471090fcc;0xebdbed5643429;0xf3f4628f9d367;0x53aa0954f738];[0x1;0x768696f187f90;0x47c4ee0b50d7a;0x84c008f8a74f2;0xc0cc6e4ce578;0x258e1bb4ec667];[0x1;0x13e6fdbc53714;0x8413a3433677;0xc9fbff8876526;0x56ff7360552ae;0x255c2cc9ab022];[0x0;0x18fa5fe87cffc;0x91807300d80eb;0xea525a3174630;0xbdcd075f00108;0xc43b364059740]])]
 [[0x9687fa199a34c;0xa6c900756349b;0x3b23ab3ce03fc;0xab493b4fd287c;0x811f6a602148];[0x9c391bab566ff;0xf4e3147e66cef;0x4524b0c8ab8e1;0x10abe6bf09205;0x6309da95111b];[0x1;0x356b9c28401c5;0x922b34aae5c1d;0x4c9561e1e5974;0x3f71f18e3d033;0x324ee553052f];[0x1;0xef8dfb6d92d50;0xa84329d9036aa;0xd4f5a0e4f14b4;0xb76835911a7de;0x1849196b4ca18];[0x1;0x21319f68ab350;0x1ba356d00c757;0x66a6f70ebfe48;0xe77dbec7bdac7;0x1e14269d650b3];[0x0;0x8de94fccc0e7c;0xb54dfe201f7a8;0x6f3f39f0d2c9e;0xd3cac7cf0e6c;0xce58aca972685]].
Definition wit_C_64_7 : colwit ipt wit := mk_colwit (V [0xa4c578961df17;0xcfcad7d4b7ee1;0x98d33a024cbaa;0x8d9e72b66fc14;0x73b994f45ae] [0xffc6afb0d119c;0x3cac6758e0ff9;0x6a4ee429fab58;0x15004048a8ff5;0x2b4fbf4662f3])
 [[0x4be4ea528176f;0x2bd6bb5dc5ca3;0x3d4e66e744734;0x2f4e2cf776b90;0x33490b763f55];[0xd2e79b8abb313;0x971f7ee1fe816;0x197762b53cd22;0xfd9653ff9ea3d;0x5481ac9a5d67];[0x1;0xd9396de554755;0xcc064fef41b32;0xf12efbe29a25e;0x9c3ff632e0771;0x538753419650];[0x1;0xa2553b7fe5b58;0x54872d178ca68;0x566597141644f;0x9b722732babbb;0x188ed9bd1892e];[0x1;0x2981dccc7f0d;0xd082b0b68a655;0x2407153c4d2cf;0x313d337723fc8;0x12cb732fd4393];[0x0;0x6cb75e0942dc3;0xe0e3277c0e2db;0xcd4578bc5c3ea;0xdb43083049f03;0x4d7fe45fbae35]]
 [[[0x96758131fd5c0;0xfdf69aa4adace;0x2d090050ac997;0xa7ca7e3c4972e;0xf775c5ce015];[0x1;0x701f6bdc8cc40;0x37a07b234a8d4;0xde8a3ebce2fed;0x2316ea64fb2d5;0x948790847db03;0x1];[0x1;0xe40e0487bd000;0xf5fd6720a6a34;0x2b35b4958fc05;0x75dc633765955;0x139705557cc5b];[0x0;0xb7f7845842b00;0xcfbe234d59656;0xce08132ab9b1;0xc5f96339c1ef6;0x9e4c0af01d44]];
 [[0xe419f72008434;0x32a35bf48d0a7;0xe55b0caefeb0;0xc6f03bbb23a08;0x3f57f57d89cc];[0x1;0x52b36be6c6418;0xbcf4239840501;0xe580f0f4bb6df;0x2f96e20c7b98c;0x41d727829076b;0x1];[0x1;0xf32a221bc8f50;0x9c66326001796;0xf00e026b695d4;0xe4fd82aaa917b;0xdd07441e7260];[0x0;0xfc7e8a69629b0;0xec138cd44c220;0x9b4f72931d94;0x5de581cb0448f;0x5decd9559449f]];
 [[0xbeab8d332f646;0x47349a26b5f6d;0x375b902ccf26e;0xe1c6566cbf12e;0xde97a7dded8];[0x1;0xc77f26eabcee;0xfde25bd832dad;0x8578571d151d0;0x25f9d3bf7974d;0x991a42f820884;0x1];[0x1;0xf3baf79bc4a54;0x8f68bf334d7bb;0x1db46893ed83c;0x560da8f38bdfa;0x13d39c9af8a95];[0x0;0x9056f625df80;0xc42b7d4b102e7;0x390612c8ced43;0x49278cff93849;0x7b00a6d67200]];
 [[0x445aa9016c3b2;0x99bf4682fcd93;0xfa93f3b8b5afc;0x7fc05625e4f7a;0x702aa8eb5bda];[0x1;0x7d2cde8dacd70;0x5428bc50bcdfb;0x562891402a5dd;0x177fbb7ca51ad;0xf1b8572ba2b99];[0x1;0x21ed416ba0a74;0xe3b92f14cce7e;0x2a2fb0a7e4290;0x4bf2a4a9be558;0x1960f0067ad73];[0x0;0x804b987a67ae;0xb4db5cfe11845;0xc3fc651c85cf0;0xb18aa36d62266;0xac3a8026fe829]];
 [[0xc12b40b23157;0x81db914442543;0x23261aaaabf9;0x994058a9b5ca3;0x72d7c4c7dbb1];[0x1;0xf1bc993f639fc;0xb81e17130f164;0x44f6bb33490e0;0x627f482cf8079;0xf46c9c7575308];[0x1;0x495ea6bb9d3bd;0x352fdfcd4eabe;0x63207375c13b7;0xdc4ff47da5397;0x17de6215b8118];[0x0;0x15598825caf33;0x2cb16c70ec93b;0xb469f945012e7;0x2777f5ac78c95;0xaf5b5f29bb50a]];
 [[0xe5196223520ee;0x87780b093f83a;0xf470ed761d01c;0xc20cf32afc039;0x21d93a833691];[0x1;0x1aa44f33f486c;0xfaf1a6ff9e934;0xba339978eed35;0xfcb0a91ac158d;0x6e03072bc26e5;0x1];[0x1;0x1155150a0d1f4;0x9faca691cb6a7;0x82e4f84bede29;0xda94c9b4c2b7e;0xf0f1e5fd3827];[0x0;0xbc69b932b1e74;0x356c9a1ca63e3;0xc3096b45d3932;0xb76fbf75c3d37;0x1d3ebd14424b6]];
 [[0xb8a8e8e3b67e2;0x51b1b130f044d;0x39cdba1b06e1d;0x2445e3dfab2e8;0x80156fd07b49];[0x1;0xf972b568e341e;0xefdb2093b077;0xa59d2a865aea2;0x7ef9e13cde6e5;0xcea9fba0ec7e2];[0x0;0x812b1e8c284cc;0x4e413e186449c;0x7f6dc4ea880ad;0xd2e375c82ae6c;0xef7dd08ab27];[0x0;0xb3533dae9cb30;0xa64a359294b2e;0x8e03f2a2944c1;0x1f8e8b91d080d;0xc217be44b4cf9]];
 [[0xc8d628e2dfdd3;0xa4daadf4c39e7;0x4cd55dfceea2f;0x42c09cf37f151;0x5188677c743c];[0x1;0x473bc081450a6;0x76ae6dc3487c2;0x1ead5340e20a2;0x152eebf4a930;0x2418a098d6bc3;0x1];[0x1;0x81aa68b05f135;0xba225983c6d2a;0x80860d145cd0a;0x936d6edf472f;0xfe07e15758c4];[0x0;0x9fe1291eb9eb3;0xabbe459a293c2;0xcc98e710e5b8b;0x44e0b5e91cc2b;0x75d5f35d3b7bc]];
 [[0x825d21a7da5cf;0x8dc552f1e3a67;0x338082241cc61;0x6e4b8cf9c1a66;0x7ea077f80f82];[0x1;0x968034ce6b944;0x79426260acef8;0xf7bd9525dda81;0x201ff39a5abca;0xdd6fd0fb59267];[0x1;0xdf002c037194d;0x51e7fcf49e8b3;0x22d1399f4626c;0x80e37dc4e24b4;0x168ff4ad4728d];[0x0;0xc4e07d01d558e;0x73cca6e1d6272;0x64a23328d1acd;0xf7ccce10f7403;0xca70a64d4044a]];
 [[0xd41821ab3b109;0x5eea4e9bdbec6;0xbd3f407164a84;0x5a0a4aaaebbec;0x7f726965604d];[0x1;0x5a95013ff9dad;0xb74b065997343;0xb1232bab2cd9c;0x750f1f484c670;0xdfd48615fa206];[0x1;0x554c88ef8f37d;0x786bc32ab9454;0x99ab60cac1a40;0x8c5940bbd4a8b;0x173371dedca5c];[0x0;0x5f32247f0499f;0x77348ce82d888;0xf9f3468829b5f;0x79586a4820e5b;0xc9534c0012822]];
 [[0xc59c9ee6737da;0xb52d2ec4d6102;0xcdc902534f2be;0x93a9f6df5c71a;0x3351a43339cf];[0x1;0x1864ddda0c18a;0xa8a99f2469433;0xf75fa52fb668f;0xdd83838f0f955;0x582c97cfda1f5;0x1];[0x1;0x386fcacbc02d4;0xcff4cc244a303;0x477b7ba62a78a;0x78a8614ccae92;0x1353edbcc78ea];[0x0;0x8ae84713e958c;0xf411dce701efb;0x2910c0a61a107;0x8caaef0246cd8;0x40fe05c596463]];
 [[0xf85d67291b02f;0x82e7ec96bfe43;0xf223f4a88c2b;0x9eb014054e16c;0x9a445091332e];[0x1;0x3e64fa6db35ea;0x3b8a89e9c9080;0x4852d41e7ef14;0xb8707155c56d5;0xa2b186aaf9b1e];[0x1;0x67009910438d;0xfd820cba00871;0xafe9c3a50dc08;0xe3ea76957c0ea;0x36f58cf6f5ca];[0x0;0x61a7e76dbdca8;0x645b99f259808;0xc9ee93ef7b281;0x85aa36f5e6bdb;0xef9cdb0bd7759]];
 [[0xd7f7e80075c9e;0x8a054514aa330;0x203ec3455be2b;0xcb1135e71a8da;0x5e779d46a1a7];[0x1;0x3b3685f1216ae;0xb37a24c17e82b;0x7c87a7aff10a0;0xc00804247116f;0x15328e91f4a32;0x1];[0x1;0x62e6086cab134;0xeb4c3870301a8;0xd3c489b20d493;0xb34095d84a987;0x5bbd880d3532];[0x0;0x6e752dd8dd4d6;0xce058fd135b4e;0xf36048d623d12;0xed27d8d558c7e;0x92d4e9d7458a5]];
 [[0x3c98cb87ee38b;0x92dde508be2bf;0xd291bdbecdb41;0xab410682100fd;0x207044612222];[0x1;0x8a6e89bc15445;0xd9bc1b0ce6616;0x740137925c78;0xfe15bbf1267b3;0x70b137615e9c0;0x1];[0x1;0xca36a83805b85;0x497748021d8cd;0x391bf1ec9f73a;0xdc51ff340dc4b;0x3b61041c6034];[0x0;0x2d1952b2db863;0xdd58408a23c8;0xda38a2d963b79;0x39154d55f651d;0x1f772650eaee6]];
 [[0xb76fd08daad8a;0xa19f65286ca32;0x46b6c98cac039;0xea173f31695b2;0x24a458122cbc];[0x1;0x4228405063d8a;0xe35fef07b0c96;0x143c346a26aee;0xdf4699396c8b1;0x6d083a8b8f7f3;0x1];[0x1;0x3a1aa0d21dc94;0x20b07421bf0da;0x7d92af68ff0a9;0xe60084dd4ba69;0xdfb5542af50f];[0x0;0xe7398b7e3ede4;0x70d3a63e7e620;0x6bb7d459b4f96;0x3b068b151f6ff;0x2faca48b94783]]]
 (V [0x4aae8b2ad78bd;0xfc80e3dfa8449;0x5d62e04a964b0;0xc804b0f3991ce;0x5a449048309b] [0x1e1b95e3cfba5;0xe60ab59aaba5a;0xdf1fcbfe1418e;0xbb0011ce308a3;0x751ab50db917]) [[0x42ad7ef2c32e7;0xe8ad1698185f6;0x40e2d79802152;0xc4716fdeba7df;0x809acd303fa5];[0x1;0xb7f24f3a2bf00;0x8f4802dbe6d0;0xf54b53553d2c1;0x49c3a846a871d;0xdaad8333000b3];[0x1;0x71a8cf35a731d;0x768848987c662;0xeb2ee1d1aba3f;0x66a35f7e48ebb;0x16c195f6f36ab];[0x0;0x16a80f9dce53a;0xa514bdde6d12f;0x210945fdea82a;0x80f4fa913683c;0xca75a56c277c8]]
 [((V [0xb9dacb2c72fba;0x1f54b4f5eb394;0x2a70f7481e1ba;0x5701b835046d4;0x80d676c98a76] [0xd28cdc687d4ea;0x36e8e33c0705a;0xd58e503ab2e6b;0xdcf938668318;0x3565e02ad45d]),[[0x3e607d6b89b9b;0x281a6e15d952a;0xbf4d9204d68a2;0x7a23fc2b22e5b;0x6a60f36ffa16];[0x6400553efe114;0xcf53900bdbfde;0x363f4e048f987;0x5918d8cbf3827;0x9aa9b790de1c];[0x1;0xc992b84ac2855;0xb14b32fa3fdba;0xe24f050913c85;0x54fb880fc2f2a;0xca0febd90fef];[0x1;0x53afc33cf54b6;0xaa7b04319b28;0xf6b3199ea7f52;0xe6d64688f906f;0x26bcd616e2000];[0x1;0x3e4006b903e65;0x14766da3d132d;0x67a9c9e8b3fbf;0xe244d34a771ac;0x1b4342eeeae7e];[0x0;0x61bcdc45285c;0x94ef4642c395e;0x574e4904ae149;0xdec21b8cc7082;0xa05620501b36d]]);
 ((V [0x72d394bdd88ac;0x2d849cadda9fe;0x22fc6e6bff8fc;0xd2d6b6218073f;0x6aec5caea64e] [0x1dd48d7445725;0xafc5fb4d90dff;0x24e8ac66ace4a;0x2a911daf83bbb;0x2882157120e7]),[[0x927ce600f2b5b;0x739e8ec036e3;0xf6a4b76111f6d;0xccc643b819873;0x1ac9ae791480];[0x10e6c1414d2b9;0xf6fee81dab8a4;0xe18f6eef91e4c;0x8a1a23e61dacc;0x68bf2fe60aa];[0x0;0x6733fd00ddac;0x4f6003bcd326a;0xa1084b6ca8ceb;0xb983a8aada4a;0x5fe4c6a3a9fc];[0x1;0x9ea80953fdd2c;0xceab05d68900a;0xc2dfc2dafd9bd;0x2b042a99030fd;0x1e8f7bbfd1cf];[0x1;0xeab7b58daeee5;0x24136695f81c8;0xc184a711af2f0;0x76d2bc00d8116;0x25327ef9b9d52];[0x0;0xb8ae0b78b1327;0x497b469468b3b;0x4a64bd9c75f8e;0x4325fd47a011b;0x23c913794df47]]);
 ((V [0xc542857c8376;0xefb8435a2869a;0xe265d4662652c;0x44dcf58b107cc;0x60174dbaf9b7] [0x5e8835701ab17;0x1ac783321831a;0xfe137accfa928;0x6888e774532cf;0x5cdd50149cbf]),[[0x1586bca18ce98;0x5042d41b1534d;0x35f12221aa3;0x6242ca879ac89;0x74aa3cb41f20];[0xfc5cc4a57f59d;0xe433bf8d66a04;0x88d222717fcc1;0xa3c271cee47dc;0x2b426fc5e538];[0x0;0x3dbca2dc51bb0;0xd6c089bbe347c;0x43897323bfe96;0x5bdc5723295c9;0x24d29fada22];[0x1;0xfa2042704f130;0x1600b1abf4f98;0xc83b01718db98;0x2e0f46409001b;0xa9630e0288e7];[0x1;0x1564374be4d40;0x348f45f3f655;0x77a734bdf240;0x375ace5e7b3c1;0x1a663aa0eec62];[0x0;0x87ad4660b738;0x45037ac2f04e;0x70ae00eb26952;0xbc9cdb80a287b;0xb7aad309cbee1]]);
 ((V [0x69e073fe38f5d;0x2a8c73645e46e;0x89cde112b7081;0x5e5bd76836f2d;0x5ebfa58bef25] [0xd7ca11f7c4fc4;0x9fee3f13dd37;0xaf863c358d989;0xae18c924c1da1;0x5d200df8287b]),[[0x834d853f9ef9;0xb5dd2e5f30677;0xf0b9f8e040efb;0xb8a4fde5661e5;0x4c1045895fd3];[0xed1381a01746;0x5cdca85143d24;0xf34e2fb10d429;0x252bd34aa92b4;0x16a0026ea4d6];[0x0;0xa644fb3a9676c;0xe7032b956ba34;0xb6b55e3da8ec9;0xfa55a2e4dbfd1;0x161d3f94911b];[0x1;0xe65d25d3760e6;0xf64746637eefd;0x79b95f2ee55f8;0x8959a716197d1;0x25830d2e8aff];[0x1;0xdf0cddfb1b1dd;0x5ea4d8dc11466;0x5165081246979;0xecc7ea6d56c4;0x1b2d3363119e1];[0x0;0x44f5b19e888c6;0x457968882d91f;0xb44e9eeb2f506;0xa99fdef06eb4e;0x6d46b0b3a37d0]])]
 [[0xd09aaad6ef153;0xed323dbc39107;0x4b3256a19de76;0xb5d0316ba949;0x92cc89bcc91f];[0xd6f59533ca138;0x7579d39ce1238;0x7cd5af80182d0;0x802ffb48e607b;0x19fc043379d9];[0x0;0xef49f7e82a06b;0xd4757f77a04ca;0xf87495bbf91a3;0x8b93e4a74911e;0xef11b32f7c7];[0x0;0x35fa77f02a0c8;0x2c69e2eed7359;0xd83553309e9d3;0x2a8c44f2ca77;0x1ed22bf9ae1d];[0x1;0xed413fb73235;0x33882e8dbcf7a;0x93aa3c074b398;0xd7e8765e7ccfd;0x126662b460d5b];[0x0;0x6f165e6968318;0x6eed857bd22ce;0x132e4efe8be5e;0xf456335a417c1;0xe0f686ee26060]].
Definition wit_C_64_8 : colwit ipt wit := mk_colwit (V [0xb2de3999c1c42;0x871e4afe4a989;0x462574475493;0x130d7c1bddfbb;0x43a2111cefec] [0x9d704a3364c45;0xa095943099d0;0x5a832de513b4e;0x1749a5c39570c;0x667446f64886])
 [[0x910864f94357d;0x57e38c0845222;0x853e61d72bf3a;0xda2ce015fca9b;0x7ac2a004477a];[0xc22728cec40c7;0x3f2d5b6239a22;0x7130246f428f3;0x355e24948335e;0x8c27946f9448];[0x1;0xbb6d0cdd4ca34;0x34683f9941d35;0x68b08784a0fe2;0x186088dc8cb31;0xc3b3a6401e2c];[0x1;0xc9ed6d5bd7b98;0x431cf48937b7f;0xe8986dbfdea79;0x8e0e17b2a347a;0x1e6dfe48262f2];[0x1;0x42d55ef5665d5;0x44185bb88c150;0x8b611068ffe60;0x924f422800efe;0x100b88cba446e];[0x0;0xb927ebff360f3;0x87d33385fd390;0x8b8486ab4a0d8;0x1a0d4d466d21e;0xb67db25a67e68]]
 [[[0x78b2218b32bc3;0x4ae79cbe2eefb;0xd74c31e096de2;0x3da6681fea24f;0x7dabc4429af4];[0x1;0xf052a76b5feab;0x2428be5952500;0x1525fd587b484;0x34bc42affdfea;0xd8566b2d77486];[0x1;0x3c05a0e94e755;0x6ea3c4d735d5f;0x316ddf1d80201;0xfaf849a6e98e;0x12b8deaece626];[0x0;0xa658061e0f3ac;0x78b816090b70a;0x14d234f02d267;0x6df39b292871a;0xb9624a0994b44]];
 [[0xf2bc55714a87b;0x9aa1514d754b7;0x8bf59b0d35423;0x1e5469903042c;0x1c31ac371b47];[0x1;0xe07de53eb2b10;0x4b25d167f5ae2;0x72109ba84fc9b;0x1191a8ea2be8;0x808d48b665876;0x1];[0x1;0x2f25876918a5;0xf54e225457b5d;0xa235cfe719a13;0x7e73358dc528;0x149c3dab6894d];[0x0;0xc021903c84156;0xb19b728b0326d;0x2486dafc06535;0xbca06ca89a42d;0x252101523f235]];
 [[0x155eef44a57f9;0xc4f11cfcaa0fa;0xded7976fa6e30;0x4edf36c2e0414;0x86dac0fbf5a3];[0x1;0x1cd5e48a0f7e1;0xcd5c031146145;0x7d121197c96ac;0x8b3cb2692e7db;0xd4aeb3751751c];[0x1;0xc17f57527ebdd;0xa99e63e39b9a3;0x4e3e63b959451;0x107f232437904;0xdd596feb1055];[0x0;0x2b9f210a63726;0x17123a848810c;0x1300364cad8c8;0x38bf61271c96d;0xdc5f3a8ef337d]];
 [[0x1dd6ac24bb915;0xbbca2e509e129;0xc75ec7a93438f;0x5f0e634e5270f;0x42becc4ee695];[0x1;0xdfb28fbfbd606;0x9474471308b3d;0x6e6d96208141b;0x73467db189e17;0x47fa650b21aef;0x1];[0x1;0x299535b59acc5;0xbaca45c9c7190;0x734722381dc91;0x47898e644f999;0x1191f6bb2ad55];[0x0;0xd9dcb22d8855c;0x64d9b5856208b;0xeb086c6f809e6;0xb8da3bc2e2ada;0x6a15b3a0914aa]];
 [[0x2844449bcba90;0x5a5ac118bbeb0;0x1d0ae62dfd7cb;0xc0333f97278a3;0x3c1e901b8be];[0x1;0x8effeb718aa50;0xe52caf98a2483;0xb1372985b5dc2;0x1d22b1df680d6;0xae1bfe8503dd2;0x1];[0x1;0xf209ccd15bd00;0x5597009d1f31b;0x725333fe96f7;0xcc7a299fb14d7;0xefd806e5feb8];[0x1;0xceeb895b362a0;0x11f111d19adb1;0x5ae06ced6d40a;0x322cdf0ff7026;0x34c14e7023b6]];
 [[0x8e9a3a2977694;0x543061c042c;0x43738d79cec9;0xd93f705275844;0x86ccfeb388db];[0x1;0x46c940554c168;0xc80a2e03fa388;0xbef6a7e676f07;0x5d85cbb934a57;0xd331e58cbb3c1];[0x1;0x207b9ad080e50;0xe42e851c7da0a;0x1821abf943c78;0xdddb229f1f8f5;0xce58cec74786];[0x0;0x8eec80ad675b8;0x7b209b7a80036;0x8591f045376d0;0x45fc04fd47fba;0xd4b0eca5849b6]];
 [[0x281cb941a8aaf;0x5ec3638075896;0x1ccbd66bcc622;0xaf498587848e5;0x6f4b9bd33ef2];[0x1;0x65c12963bb239;0x2d5e8061d30b9;0x1dd11358a069c;0x93c9b69fe19fd;0xf3b4e9947d41a];[0x1;0xe302481e7a28d;0x64752dd3881c8;0x3db4ed5759a0;0xffa926e8067a8;0x1133afe3ffe00];[0x0;0x618e37c75385f;0xf621cd9545760;0xf2393a3400755;0x2702b138f9cca;0xaf1e8fc45c8a5]];
 [[0x21004aa38990f;0x8a4723efc8778;0x96cb422c7b62b;0xd3677bbeaf1a0;0x5610eeb9bd24];[0x1;0xcc424e9614caf;0x741dbb4b19e0b;0xd35b35ee752b4;0x63170d1b2627;0x28b5f55bfebb0;0x1];[0x1;0xf016d0881eccd;0xa3348de3597ae;0x6dc4d915bbfd8;0x86e77efc506c3;0x118dabe04e061];[0x0;0x7b7ccf299a549;0x743a496039bd8;0xf5c2b56dfcd7b;0xff51b8b711b93;0x895a542314ede]];
 [[0xe82281c8f45eb;0xaf4741d207f7;0x478be0156ec0b;0x5fcf8d0cb189b;0x4b515b3828f1];[0x1;0x37cacb0aad907;0xeb4792e451bb2;0xe54e98b727e05;0xa5b0eb60ced54;0x33097c61feee6;0x1];[0x1;0x70d9351d28ec5;0xe95b64d72d1e7;0xa7277d8ccfb6e;0xd953c797d410e;0x19ae74d79f30d];[0x0;0x9be57a5464ea2;0xa3d221f0a6d2a;0x1290016130c43;0x2470d4adb8c5a;0x6f24d90bbb4cf]];
 [[0x536ea5c2ec1f3;0x3bb1fea7de5d5;0xf480ec0ffa845;0xa6d6a1de23b05;0x38b8f68b4611];[0x1;0x7dfaf3d162a7e;0xf1a47a26e3bb9;0x44a0c172a70d3;0x3bd3dce309394;0x57d1ad14d8479;0x1];[0x1;0x6c0cdf9d3d2f5;0xcd00fb96c61b1;0x42739e9bfb219;0xe00ad1c671787;0x171b160b9c627];[0x0;0x9ddb7415e53d2;0x8db603fb1e436;0x2fa6e9460e41d;0x5201bc75bfb33;0x590fde9b5d945]];
 [[0xcb4ec3042d301;0x8d99ab794ff63;0x1ca8cdb5f9bbd;0x5bfb5531482e0;0x876690ab2cd1];[0x1;0x64e12b38f3abf;0x1973f1c7905aa;0xe8acd71b1d8cb;0xfa20d43724b07;0xce6678fbf866b];[0x1;0xee162cc82c56d;0xbcf3d56f4b247;0xabbbad13f2699;0x8c7ee379337cc;0xb8df26fdc79b];[0x0;0x58a60aaa7a05d;0xe950a3fa64099;0x99b121c0252b3;0x2f2307ad4e6b7;0xd5cc65f6870ad]];
 [[0x37af32d1e0950;0x7e832eec74d4c;0x20bc7206dcfab;0x9f893e51f1a16;0x6232028c1634];[0x1;0x3d3083c40cc10;0xca618d94ab38d;0x6825df7931ad5;0x3b1f1ae8a261a;0x10da5796558cc;0x1];[0x1;0xd7ddc534bc500;0x9172157a1c472;0x590bf029d1194;0x1eb6f4c7d27f2;0x1318967dd6a61];[0x0;0xd6f3300958fd0;0xc03439fba04d3;0xb3cfeea0484d3;0xc547e5ddffdfa;0x9997ce3e84d3a]];
 [[0xa542d0e59324d;0x3dcd8b63a877;0x2b2c7955213a6;0x19c34c9aadce0;0x7902d6e5de24];[0x1;0x55f2e585fbf43;0x33232b8644f0d;0x13fd14f299b1;0x4b6cbf3e901e3;0xe51dcd7505d24];[0x1;0xe08952cb0f75;0x8c37ec7e47d92;0xd10d2dcb53e28;0xd6298672f773f;0x89b804ebdaab];[0x0;0x54354c5e36665;0x35170ca1c1741;0x72fd9daeff572;0x8fbc7b18e43e2;0xbe90bbdd69253]];
 [[0x287b8fbec8f94;0xccba3898a37f6;0x603588846694d;0x84da03e838d9c;0x77768adfa0a2];[0x1;0xb670262c2cc54;0x56fcc0a9f2f49;0x9dbe1a0fd55c0;0x956984eb61698;0xe7b42fa52eed8];[0x1;0xcce43440fd650;0xa8e6599715c59;0x384eb293d68fe;0xa0d7bef14e7ec;0x8dc36722ce79];[0x0;0x85226a48a80f8;0x5f2d8a6b2d08e;0xadff10a3e802;0xa621b1694b54b;0xbba153052e54f]];
 [[0xa1e9f349620af;0xde1cac1ccf79c;0x8f75ff3ada578;0xa1a3d997b0368;0x817f0ad9ba40];[0x1;0x405a1be9b71fa;0xe832721cda708;0xaadbce08f8d9b;0x8643aee59760d;0xda28eed279d9d];[0x1;0x84653953268d;0x8bb3e4bf66807;0x8d1053d69a53c;0x2f846d047cc5;0x7e3fff9a62fd];[0x0;0xb3141e2fc570d;0xf4217d7c64b48;0x5a0317fc59985;0x456063fdb003d;0xd695124caa2d6]]]
 (V [0x8d978e798bc88;0xa53122810bf30;0x1a2299ff19c47;0x58b79865e4d49;0x657a4810b41d] [0xf402237a3d67e;0xb4d46c3964e84;0xedcb13886eb02;0x9d93eeb4826bb;0x3f9ad17f840b]) [[0x55c4fdbcfa7e0;0x831ac47f09718;0x55a2d1fced2c2;0x7e62d2d64d28e;0x5d8b155a77ae];[0x1;0xb7dfff3f74ac0;0x955d1ce7cfbbd;0x68d61a74b9860;0xa6074515b5821;0x1dd3d46b10249;0x1];[0x1;0xef5f3b0fbb400;0xbf0b46ad2ab25;0x5a3fd4c49ee90;0x97237c57f6051;0x105c9bd1fb8d6];[0x0;0xd870da6f6a7c0;0xcf4a7d74e1aa0;0x506e1f3a76537;0x502855bfb796d;0x9385755f7105a]]
 [((V [0xc9909144a58d4;0xa756d6ae4f95f;0xfd67f25e0e383;0xc5c4248c444c1;0x7f1015af95ae] [0x441e961af7d69;0xd481e525f2f;0x6ebc100afea24;0x4fb470b46b4be;0x11acee865fc6]),[[0x1f95b1f852d5a;0x7b067b92bc3e8;0x869dbb94c7f5e;0x3ea495b608989;0x57e206e7101d];[0x627cf1d733309;0x175c00b85fe21;0xc5ee5cd081d0c;0xf99a6f897d4af;0x6f1cd9a28883];[0x1;0xddc9339394340;0x3e04cdb7c6b32;0x91d339a83efb0;0x13448e5251c4e;0x749c237ccb78];[0x1;0x5ef8c65b8d4b8;0x55840ae513e52;0xebce04dd44385;0x42670304f004d;0x1ed2421de1331];[0x1;0x7499a23f308d4;0x36ec689524403;0x3b02ff16036c7;0x1a41fb2caad8c;0x1ed40acee710b];[0x0;0xc265a5ecdd4d6;0x60c587282737a;0x7cc5782ae2570;0xaed140a0fa891;0x8b0af1130a732]]);
 ((V [0x4ca3ae8e631ac;0x106654c0d7101;0x87bafec88bdf4;0xa344aa9896d2a;0x350d0dc8bffe] [0x862db598be9a5;0x605f607869191;0x224829023d4c0;0xc6dd794184325;0x6f87ad72b36]),[[0x848fc9cedbbeb;0xa428d827ea783;0x5d7657235ae64;0xd5e57dc502117;0x88136b81aba3];[0x17bcf78cbb17;0xbb91a6e21e0fc;0x20567abe90819;0x676986c68ad9e;0x88bb3291d3d6];[0x1;0x370550af7050;0xbe081b36c4e46;0x269fa4787a67c;0x9446d9c61cbb6;0x792de71581e2];[0x1;0x119a4abf8f24e;0x28e072e899be5;0x61efb17a97374;0x25fea49fce70b;0x2947eee10ba2b];[0x1;0xe4e76a1d062c5;0x525393b949fb4;0xbe6809b396b59;0xf442dd8f47afb;0x18252b37651c8];[0x0;0xdf1712ef78671;0x6619f211d67bd;0x6e1eb481c3a9e;0xdbdb8e0828a5c;0xe72388ad7235b]]);
 ((V [0x8dc28e559b5f1;0x9d1e9325bb1b;0x9fd5f14814609;0xa9f233c9b034f;0xe7641b6c2e0] [0xa5f5e23e1acf1;0x3de8de26a367;0xb0fce13fa7f53;0xc6e0ef0449e51;0x815195bfcdff]),[[0x54870ebe57c56;0x587cf748b2305;0xead63e118a93;0x60f68bc44e595;0x367f2e8bd4aa];[0x386f944de0473;0x4810826a06031;0xcfbe9fba998a3;0x8237c14dd9541;0x65810e5b2ed5];[0x1;0x4a18a63e11c50;0x77a89a32a22df;0x6ef1eb36a6f67;0x54a019f60b93d;0x94e3d90d2023];[0x1;0xe0e5f359d8bac;0xfc17d2bed32de;0x430da377de789;0x7ff9f340ecfd9;0x200ad9ee2455e];[0x1;0xc8dc13e39d914;0x7f1b1991afc37;0x882418446da25;0x503140898b0fb;0xb33e8c9c14f3];[0x0;0x9909d134291a8;0x7be04b42fb1a3;0xd741f71daa19b;0xd025f90e384d;0x4ecbaf80627b9]]);
 ((V [0x5c014a04e4ab3;0xe36f26524550c;0x885cf0049e629;0x99d87532be197;0x8a1aa139a606] [0xcd17e6af8c56d;0x29681ea0313ff;0xec1aed9df1861;0xfa38a9e0a92ab;0x98cbaeacc9f]),[[0x2bdd5866765d1;0x6f174cdcf2027;0xcef32bab56e00;0xa63c1087a4320;0x6e1db996cc67];[0xdab2f93314ee3;0x445a914092d0c;0xe285c7e3b3499;0x8803e7b449f2e;0x210eef1146ee];[0x1;0x2d443a2dd2cd;0x7f8250927ad2a;0x9e9ccb939b433;0xa1e06502addf7;0x350986647dcb];[0x0;0xf897336e3eba6;0x30aca9dcaaea2;0x5afd0fda521f3;0xe2d6cb3d0aa95;0x33a8c7061f1];[0x1;0x31618b4d1bf8d;0x67b4e18270a13;0xbfd9c622385;0xa1a2ef49ebea5;0xc4d86bab32d9];[0x0;0xf6edd000700c5;0x74e3fd19b5a4d;0xa157c3c7e839c;0x5e0c79a32e71e;0xa6135602ff816]])]
 [[0xa69464631e4a5;0xb9db62d67454e;0xba8863b4dfa9a;0x364ac819c81c3;0x44b1099e2d14];[0x3dded7504965e;0x3ca1859e0b6d5;0xa298524807751;0x85f52139d1a00;0x2fd5f5e1d9f1];[0x0;0x25c1d3d643a8b;0xf0a86af8004fb;0x8195e0a2c1651;0x3e65486d57f75;0x2bde0f517557];[0x1;0x1c05a63de935a;0xa6c977747a6f1;0xc469dcc676d02;0x1618328425fb2;0xf4468c92714e];[0x1;0x9eb5138850ee5;0x26d927e089c48;0x8d56c6e5758d0;0xc396635eea5c8;0x1c154443a51eb];[0x0;0x6d8c54b6f6a8;0x636b84f6e2b8b;0xb4c21adf8f9b3;0xf2dda93f1bc57;0x746449319e5e1]].
Definition wit_C_64_9 : colwit ipt wit := mk_colwit (V [0x738871b4e12bd;0xf34dc53502810;0xac0ebcf8207df;0xcee38b9eda6b;0x6fce10b38f56] [0xf69d5084360cc;0xf0482544c5355;0x792b792fbc8d4;0xd23488750c56;0x560aaeaf5059])
 [[0xdd91e41a0c60c;0x281adcda4fe11;0x406f370f62133;0x9d2c5c08521ad;0x9b0458966c5f];[0xdba852b83dc74;0xc16cd3e1c19e5;0x26a2dc382e6d7;0xa7df21a04be92;0x84872ea51701];[0x1;0x2e3b94d2c0350;0xd2f1ce8f2f65f;0xd2436f5db469e;0x313b246d6855b;0xd87dbc3c7030];[0x1;0xce6a23caacb70;0xd7d50884c36a;0xfc156a8c1f89c;0xb570c99f0a481;0x2794793b4991d];[0x1;0x51dc063f87d50;0x64db6d95d03c4;0x9eb648475186c;0xc4738215c63a7;0x5013d2de67fb];[0x0;0x646c4c269340;0x9fed1db4b3032;0xc6187a1e86fa9;0x49417c2801fdf;0xf4cfdf25bba86]]
 [[[0x77d42bb046182;0x6ca9aa3552fb;0xc83ccb040f749;0xbc4173ff3662d;0x40111bf8e693];[0x1;0x3880223f55474;0x3d69d3f99eca;0x982a47870779b;0x12a49dacc91f2;0x4852a7a583f61;0x1];[0x1;0x19180c7c5abb4;0x49e8b9c7aa490;0xb26abc36b0c4b;0x538f8fa59110e;0x112ba8527fa83];[0x0;0xb9381c314a966;0xbc3b078265df2;0xb575f054dc389;0x49994de7f6814;0x6289dce879db4]];
 [[0x680a348676c19;0xa6790531d6cf9;0x8bf2ca858802d;0xe55a2b04e724e;0xe25a30b479d];[0x1;0x9222b0863b192;0x62a0707b4a20b;0x80614b5f89a57;0x413a3ff3351fe;0x9a0d5e828c6a9;0x1];[0x1;0x520f8402e691d;0x3e60cee31d0cd;0x9a1e4830d44e6;0x366de4fa8c9f6;0x17bcc53bc5eb3];[0x0;0x76264f5fcdc23;0x1067424213fe7;0xbb9f45b6e9ccc;0x8db355b3666ab;0x10e692e5ace5b]];
 [[0x7ea8dec590d37;0x3900366e7d624;0xe2ce2f1e81e34;0x17177d8d713ab;0x60e5de731534];[0x1;0x9a69d5ec93c8e;0xe952daee08ce3;0xce5d937955cce;0x16915552c2ab8;0x1325a60a3a746;0x1];[0x1;0x9e180d286acfd;0xacfcb0c39224c;0xdaae673b927db;0xbff61fd428858;0x18c92a44859ad];[0x0;0xf33d592d26b31;0xc06bef55c3a8a;0x4dcd9a0b6d337;0xbf5e22b9828a5;0x9bae177975d13]];
 [[0xebfdaf57e991f;0xd9d2e78871265;0x211b90197b2ab;0x36a5be0bb8d79;0x3d5239bae134];[0x1;0xeae28d7cbfa9a;0x16745b51b7851;0x446d535d2c2fa;0x31e4afd4b4f23;0x4b16f016d7f10;0x1];[0x1;0x96664ea2de62d;0x4c1305cc8a131;0xc4499168be2a0;0x3fdeec709b48b;0x1f846bf00206e];[0x0;0xefdc3c57656e0;0xda22dd67263c4;0x544b5458a2c0c;0xc887c66cf5862;0x561cba7b5855e]];
 [[0xa2d15ba1d90ab;0x33eda1db8b577;0x15431743069ab;0xd821bef3898e0;0x52b27f5f4a14];[0x1;0x5ad3637c4170b;0xdc45b2b15b9e1;0x24cbb1c3a279c;0x84caeeba74b6a;0x21f439d15be7d;0x1];[0x1;0x1945dd47ea145;0x9d9c96f706b0;0x690a7af00d5a2;0xb36186549c3be;0x23854eb6047a4];[0x0;0x25d72af38def5;0x9a5cc096a3ddb;0xfce9f5d190b66;0xf2a3f74174738;0x701ac9ace243f]];
 [[0x5b265a8cfbd88;0xcd9c85439e5c3;0x518d3d4298f39;0x8b75e8ebf1452;0xc486ec15bf5];[0x1;0x20d8b30ebfa68;0xdd71206110cb;0x64a6bc1240079;0xebfd49073cc35;0x9594ab9db1104;0x1];[0x1;0x3e582c1521340;0x6752dab03cf0c;0xc452d5193b5e8;0xb2e9771fa92b0;0x204fd311ab766];[0x1;0x31bde4520bb80;0x1d39f885b405b;0xefb9f71da67b0;0x2403434f76e91;0x607ac055166e]];
 [[0x531185940b96a;0x1d65490543a50;0x5f7930cbe1730;0x81e3104040179;0x1f79d27848f7];[0x1;0x231d2a17d7410;0xf76d9b95926dc;0x30398473441ac;0x87be4a756e1fb;0x766d72a7ae885;0x1];[0x1;0xa25d78bb85014;0xf599058af66aa;0xdaaa2b35cdf5;0x3b90a01c7f9ac;0x1f9467e6d78d3];[0x0;0xf21b1e7a61130;0x952ad08b648f7;0xc2fc898d01b0;0xf41952a4bbef7;0x261b9894a2c16]];
 [[0xb111a6f493ab3;0xae3fc54d8026a;0x20a45d3f8b0b4;0x3037c7247debb;0x9785148faafd];[0x1;0xed383b666fef1;0xaffe45cb53a7;0x7c61ce479f083;0x93699c09267c7;0xba3104c9b8878];[0x1;0x51c25650ee575;0xa029913d6459a;0x9a531601c3b28;0x8fc80e3fc0f1a;0x1296db5d1bb04];[0x0;0x519b89146db1;0x658b8078b07e5;0x4a21e807a2ff7;0x7ba8cf0b2a75;0xfdf9dd466a50e]];
 [[0xfb5d208aed09e;0x41273fc03c868;0x360befbb97522;0x76c08edde4184;0x822f21bf447f];[0x1;0x84da62e78852a;0x4832c77446bce;0xfa1993488bffd;0xb046ec24863a6;0xced94d0e7c350];[0x1;0x3d2030b962134;0x2868fa2603963;0xcd1f8cf9d0479;0x69cb131862330;0x81565960c6f2];[0x0;0x6cb558d373876;0x25b59ad3ae308;0xf4677652f12da;0x458bd46b9ba2a;0xc297371e79361]];
 [[0xa76e7a52bd334;0x57067d70c1280;0xc2120aa8866b8;0x34cf855fffe13;0x2509a155197e];[0x1;0x7a06a4e6eefb4;0x722cb53c6b51e;0xa6eebc0f24e77;0x74c3bf2eb03c;0x69a04ddd7fa6c;0x1];[0x1;0x7b0970c0bc750;0xb5036e2f4eb1c;0xa02f300db757c;0x9333b1806c7d9;0x19f3686360bff];[0x0;0x6be52d314acf8;0xe407f584e7978;0xf1a58a8ed5fda;0x34bb5b27b8fbb;0x284ff65722d0b]];
 [[0x9af88f916e335;0x73ce9b1c27fb6;0xeac29d77dda09;0xa543e91d6b985;0x7d5f16d8bf0b];[0x1;0xf3bfcc72724be;0xd3ff4c56a0915;0x56f4ee39da11d;0xf2ffe0d99b0fb;0xe08335068befb];[0x1;0x4a0c343753105;0xf5955d158b5a6;0x3a5e5d8f42d6b;0x202352b1de064;0x2198fac982507];[0x0;0x6f1361b25b72c;0x89718cf0d7dbf;0xe6d6ab51cdf42;0x79dd166eb481e;0xcb1ad445b6923]];
 [[0x35916f8997f26;0xd31479356ee1d;0x9221b9498dd57;0x1bcb031eb0954;0x6df903668e7a];[0x1;0xcdb7fb367fd7e;0xdee8de42fee1a;0x5db728e9e8f7b;0xe5b191c88917a;0xff8cc12c8abab];[0x1;0x1338f3296c6d4;0xe36ddff07bc5e;0xbdb1ece875218;0x383101ae3194f;0x1c323d11b03f3];[0x0;0x85a5f429ce428;0xa9e17cf8df28b;0xfefdd242ebe54;0x8c126952ddbd2;0xbac2bd4d4a6a8]];
 [[0xfee411807ea61;0xa1fd7e461d71b;0x570f9759a92c4;0x6d4c0c93eb1e1;0x64c3f3cf33fa];[0x1;0xd846bff4a4324;0xf040c2b3ba2f0;0xdc22cb577ad52;0x9eb7fe9009a4a;0xaf7c4d98ecd5;0x1];[0x1;0xfa66bcb2fc12d;0x3403c3cb7bf48;0x613d1671e6ad1;0x9db8e510e5e51;0x115f91c212707];[0x0;0xc54dc2200d118;0xda88fb057c6c2;0x8991cd98bf5a;0xfb643d3ecb87b;0x9c1d057282b76]];
 [[0xe9669936ab7a1;0xa5df6880a44e7;0x34c63b35a0c67;0x6624867883cf6;0x77aa70ebf050];[0x1;0x205ebecd4f07;0x6736cb0b970ab;0xa629e8d7279bd;0x71f928f8d33ab;0xde8ca2408aae1];[0x1;0x9b3b9b3a489ad;0x693c14c494f22;0x48d6273b3a9b0;0x661bfcf48769e;0x172554a3f58de];[0x0;0x7ce7c9665d3f;0xfdcd958b38dae;0x70e82b1787f3;0x2008a9100ce80;0xb489032a7b57c]];
 [[0x8a54d7f622d7d;0x796e74e0aa3a8;0xddd690fc63c97;0x6455af0140c66;0x210983e0f829];[0x1;0x9e6b1b2e661d7;0x6e5f12bfb9e48;0x28e4284dfcecd;0xd54d6e9d3ddb;0x7d10d0f2f4d38;0x1];[0x1;0x3540c003ed5d5;0x451f658c720a2;0x872f540d0e3d0;0x7863f57704ce3;0x25b483c82103e];[0x0;0x8d2880b101049;0xa5c1887bd7483;0x8d489da57e06c;0x73681d92885f4;0x25a869f50a33b]]]
 (V [0xfc799719afe6c;0xa2d2aab71e94b;0x32154fb59900;0x7e3ecba53258d;0x949674f4e63e] [0x7c4380f2df0c;0x27eeb84ea24dd;0x694672aaa37cc;0x7fd7589515a63;0x6d521d50be80]) [[0xe8eee24bfa969;0x9f2cef8dea723;0x50f9289b92ac9;0x40973e721072;0x8ec71db93a7c];[0x1;0x2837fd73cce4c;0xdc15d180208f0;0xe15892d0c1f29;0x3639ae5e327b2;0xb9cf360b9aedd];[0x1;0xb6f42f794d73d;0xc3463870d69de;0xb0e60d4a91a29;0x3535c796f553c;0x16217cded2fa4];[0x0;0x9340bd5c87f8a;0xf295bc9243f74;0xf082eefb74346;0xcfbdf73e6cf69;0xd6e0751f54d62]]
 [((V [0xabf43740779d0;0x7d04e6f9d376d;0x996aabcbc3ac2;0x98959c6bf07ac;0x68b6b99f43f4] [0x757cd40d22dc9;0xae574b66589c2;0xd68cc5b416f3a;0x65a4d096a8e34;0x6bbe3a09d19f]),[[0xb4457034b2b18;0x762aedfa36d82;0xefa71e7c15628;0x55f9977cd6878;0x3a806d9cf393];[0x44ab54da8cb3a;0x519d56a1644c2;0xe828c8b50f76f;0x72b508fd44c87;0x4cf60076cf6a];[0x0;0x6bf5bb0c099b0;0xb84e924fc7a92;0xe1a0f3c2edac2;0x1711794a1d43d;0xf450ad738ee];[0x1;0x492d7630bad40;0xf3eb37317956a;0x2a38cce82221c;0xd2db197fc6f9e;0x13a3f5885056a];[0x1;0x969ad4d288540;0x5bc161d138200;0xec41330f99959;0x392a127e543b5;0x27f1e39ea2df0];[0x0;0xb91acb8d5ed68;0x36a1e6dfd8436;0xa40d80a6ae18e;0xe74fc2df487c7;0x4d6f78f5915f4]]);
 ((V [0xca7bd43756b6e;0x9055a458bd638;0x64f7d6cc06e5d;0x6142045f89885;0x9646d5552677] [0x652e130eca938;0x2ca0956d70dc3;0x545a6e4dd26d9;0x6261847de04ac;0x589334289541]),[[0xd0c8fbf054a07;0x6c575adcc41eb;0x583189d3258d1;0xf576361a2a82b;0x6ae7f197c855];[0x4909405dd29c0;0xff4d22c3b70b;0x826a7d01c6173;0x7cbdbc2f3d700;0x20d93306da23];[0x0;0x152cf97b3eb00;0xac620e1bf24c5;0xeacd1e675e063;0xd95ce5c5e0ace;0x106c435ee22d];[0x1;0x43d9ac127e226;0xd124f6146d865;0xea1dcf47285c1;0x8bd9e19169872;0x1eb6a72a8f15];[0x1;0xde9635ef97dd;0x3d4ffc708b7af;0xd592b9c436cb9;0xadabdbb53245b;0x20646906498be];[0x0;0xeca5ba3908aa7;0x17fa8a4d37f66;0x6830aa59e9399;0x808aabf1a1f93;0x9e437faf5c596]]);
 ((V [0x7c1c0474a8330;0x32e9b32d3de8b;0xbd3cbc7541083;0xd9d240fb0a20c;0x2b6e3a81b44b] [0xe86d3e71161ba;0x515a5d5e861c9;0x6467a009a910e;0xe9e1d1c27b83d;0x53a0cf0371a3]),[[0x42b90f75e656e;0xd4697a7cb95cc;0x8e18ba5261f05;0xd97d691be62c4;0xf9a2e41475];[0x4ea9ee8723b27;0x163d20f64fd4d;0x3622e309a04d5;0x94a1d14f47d9a;0x9b6f66eb6ada];[0x1;0xb0f1692b71ff4;0x40761ea51b3be;0xea98d105d5f85;0xbbcf924fbcb59;0x6e93c7b1c682];[0x1;0xd3c2057c459a0;0x8f2f2ce1eaa53;0x1eb4c9a401750;0xad8d75bcd7a39;0x30e99cd77f53d];[0x1;0x623ab761917f4;0x3468830ed5ee3;0x136faf2be9b0b;0x5e582075f8d55;0x235d9765aae18];[0x1;0xd70488ca98f3a;0x54420a510acd9;0x272a940d1bec2;0x1d3b85d5bfe82;0x10046e07f6c1e]]);
 ((V [0xf43db9c33321;0xec725a7a00a15;0x9737e13df6045;0xe511bb00b05ba;0x250071b6abd7] [0x1d0fb9f2c7e5c;0x91113cd503bb4;0x105614b0393c2;0xca7dcce7da9aa;0x332bd3b006fe]),[[0x1e81b26a838b0;0xf3aefa08ba6aa;0xb2075b58cc8d1;0x88fa8f5c1cadc;0x20736410b60f];[0xcd42a700da3c1;0x1d3015c23bfc;0x6ada6a5dafd10;0xae1c43375e2cf;0x4a7eaf17a4a1];[0x1;0x8dbedf2327500;0x7ab5a9b755f00;0x92025c00a1ed4;0x491365e2ffe9e;0x6e6c8c5daf32];[0x1;0x599445e46e4c0;0x62742beb18a95;0x1e31f0501199;0xf97d325829e36;0x15d64749ea55f];[0x1;0x9207cc51b8500;0xe7b7e2456b4e8;0xcf927c380d351;0x9a6fbd2f2bbcd;0xc4fd0c2e453f];[0x0;0x45ccc33bbbe80;0x75f3abd0de80c;0x586737c4b367d;0xa54735d41c594;0x28fc3d5ce321c]])]
 [[0x535e7e1d3f649;0x6acdd4e8cd9d2;0xdd11669bdde6a;0xebadab1338fb2;0x618592a55501];[0x7e0cbefbf44f;0x1804a3373168a;0xbdbdc1aaf520b;0x9576206ebc2a3;0x330dae27d1e0];[0x1;0x9030ee625d4ad;0xae85c52b090db;0xdb7ae04efc08e;0xcd8c0bde43de9;0x4b2f79627841];[0x1;0x3d36a870a5b18;0xc85a220381401;0xd092edd151393;0xc5903f223432f;0xcc73a85f47f4];[0x1;0xe526e86e5fffd;0x4e337c4ca15d;0xf36c9bb8b3c4d;0x7d31431c48174;0x3e3a72f097de];[0x0;0x153444bff927;0x89c929728bb84;0xb2f4fc8cb681c;0x1045ca622f4de;0x92a6e68fed8e6]].
Definition wit_C_64_10 : colwit ipt wit := mk_colwit (V [0xe72c67c9601c8;0xdea312632e99c;0xa32df8d9bf635;0xc698f63aabea3;0x28cfa0a727b6] [0x4e11d9e8baab;0x58362c7fd40e2;0x480433cb07c92;0x9e9510ec249c6;0x51f2941d8318])
 [[0xaa56441b872d5;0xaa71657dc7c53;0x772a1cde7b88a;0xdded7b71ea222;0x2fce6990914a];[0x33d060d809cd7;0x1e46fb52a8c23;0xfc45cf3561ba0;0x50f9d1485433e;0x62819a4e14e8];[0x1;0x1bd09d0dfe525;0x67d743956019f;0xfa2022ff54107;0x9289284db63ba;0xa20988ae6963];[0x1;0x11407bc50f006;0x171230d7f511d;0xb48cb9b66dc4d;0x2742ba56cfef8;0x1a2b5e02d764a];[0x1;0x41059ffa93845;0x521dd2a49ba99;0x8591680e4ad23;0x7d807a6a9114b;0x37a87ab82452];[0x0;0xb5f04da33878a;0xcbdc1e491160e;0x654dd5564b933;0xfbc77b962caf1;0x396ac4b74ac90]]
 [[[0xdf5627119ed1f;0xe931515190516;0x6b510d5325046;0xe165933295dcf;0x738823464183];[0x1;0xd6ee2c8f1b754;0xac4abe96cf7e5;0xe5806631c90ca;0xa5f3ae9f4e887;0xe58d12ccc580e];[0x0;0x92c525ae6a1d3;0x332ffb1af0c50;0xb71281626566d;0x2d8603b0ae816;0x4728c658710];[0x0;0x103e13a29dc7f;0x6c28020445b1f;0x7c9d15b9e03cf;0x4e580a5858480;0xa4ea7194e2515]];
 [[0x95cd9e3a317dd;0x403bc5e173b81;0x6e079da757604;0xba632c99b4758;0x79032c44f71d];[0x1;0xf43d1fe304a4e;0x165607a0a4fa3;0xa1aca14d8bf1d;0x59d6e3006edd3;0xdaefc9dd5ceb1];[0x1;0x7f2f8bd26c895;0xb1bae2471bbd1;0x3530951881d44;0xb5ed2c2d8a5ec;0x4bfd142f88f7];[0x0;0xc9cc8017d617;0x83543876c16ad;0xf5e23ff0fe79a;0x1d908364a57d4;0xaba2bc7232275]];
 [[0xa15d56cf8ac91;0x534c3efca15fa;0xaab8ffd4f30b6;0x5e7c7efcb4b1a;0x54475e00bbd0];[0x1;0x42f2724b9001e;0xc789bcd5363e6;0xc4032f4f8de20;0xe5af03c52c6d7;0x1c13afda3772d;0x1];[0x1;0x2657005de70d;0xe1cf2a5f596c8;0x5416644b6e699;0xdb2937ff782c0;0x16479af1740df];[0x0;0xb453da267c3e2;0xef434c958d39f;0xb6e0a994234d7;0x599793f4ceeaa;0x75d1e3eee7931]];
 [[0xfd0be65de07a8;0xb90584713c5e;0xaf33582adb3af;0x804c0208c01e8;0x5da5a4349283];[0x1;0xf46fba53e7418;0x45dd2535fdc7d;0xd81d13eb65a44;0xf581f8b53ef36;0x17d52a4ac09a0;0x1];[0x1;0x2af6d80d2140;0x874bf0af2e172;0x70293366a446b;0x67e03bb0562c7;0x149290a94ae01];[0x0;0xb7189f6782168;0x9008a6f1c7688;0xd610fc60f82e0;0x8ab4e7b18f8c5;0x8d4dff0719cb8]];
 [[0x9ede7105138fc;0x758bb52e14997;0x6e3e2f8ffff88;0xa5ea9b4eae9dc;0x6c98cb70ef24];[0x1;0xed3e7c82e039c;0x55fae62f35ce7;0x1a5154c40d587;0x32339e96b0de8;0xf3558643e0239];[0x1;0x1cb3c4a7c4ed0;0x3fef964147c6;0x3362ee171b88a;0x124ca2de8d98;0xa43113dbc181];[0x0;0x7206099513a8c;0xe908e5adbda3c;0x7876b5c2262cc;0x98e97e5ca54c2;0x9ea7609c1a3a6]];
 [[0x8c243208d954;0x10d72e5914246;0x5c51901815db2;0x2221bff828f69;0x24251f65375f];[0x1;0x1faf61f84d58c;0x7ee670ff44439;0x20756ede75956;0x95459548ff01a;0x71ca2d019b882;0x1];[0x1;0x5c3a9b91cf450;0xb8b65f55867e1;0x2cfa60644d239;0x6c11c13dab7d5;0xd0987c793a40];[0x0;0x4defb3f13a3fc;0xab133d4f39d5c;0x8ae89cf0a6174;0xc9af3996ded08;0x25fa3e80e8171]];
 [[0xad27b5106a167;0x450fbcef07abb;0x165364ead5607;0x9c151ec59f89e;0x5285f40c7fe3];[0x1;0x54228dbc38929;0xb1d26725227cf;0xa012c8c98e344;0x157251f8aa239;0x1f513520f0539;0x1];[0x1;0xf68b4b63421d;0x8220b1b138235;0x8a126a94da98;0x81604c17194d;0xd37362c78f95];[0x0;0x1a1d8141cf2e9;0xfada8c802bcee;0x5eddb05fd076c;0xbc3ee7081f4e9;0x776744ffb7938]];
 [[0x10b9fb5f44a0b;0x63bbdfab76246;0xdc9b90c6f042d;0xb748146d838a1;0x6b0d17bb332a];[0x1;0xd92efa8887c69;0xb11d89149685d;0xcbe456e466ed1;0x920b618d0f494;0x104dcf3fb152;0x1];[0x1;0xb6ae6d4cc3e85;0xa51ac9578b5ce;0x4cf137120d2c9;0x6445ddbfd008c;0x13731af9b3d94];[0x0;0xc260bdb31a347;0xc67178592dae4;0x473b66340f9e1;0xc29acfd98e7b7;0xa27ec84c927cf]];
 [[0x525397c138636;0x34b81fcb9fe09;0x4d43a7317d5f;0xd17c940a91e88;0x51ea2d52fa53];[0x1;0xbe649e0021ab6;0xb0aff3c2b691f;0xb859fd3922a4b;0x26f3452489db;0x2406166252f28;0x1];[0x1;0xf8f911cccbd94;0x2583ef692f400;0xebbaf8d5fc500;0xabef77e23caea;0xe3985c9a9fb4];[0x0;0x2268b4914e3c8;0xbe734675a88c0;0x5dc68899e67bb;0x4c2ece6ec6336;0x7e33a12db6980]];
 [[0xfd2b5cbbfa10;0xa404816602c61;0x46c584fe1d1f3;0xbf89256c06e5f;0x1eebf4966cb3];[0x1;0x6e09d66518f00;0xd040e9c6b01d0;0x753829fa9f67d;0x5b40f59bd4ccc;0x812cb61369634;0x1];[0x1;0x9fbc42759ad00;0xbe013789a7b82;0xc63ffca1843b3;0x16e711d440a0e;0xe9cf25f75b4a];[0x0;0x6abee0a26be00;0x913e99dc39c68;0x49ad7521b70a8;0xbd611bc3e68ad;0x2be2cce06f7f7]];
 [[0xc036c60622ed8;0xafa9992d2f6;0x1c4c8c09c07f5;0x12cab5671ff46;0x7e06e75d93f3];[0x1;0x385a129d1e648;0xada81e6f24e5c;0x5b5db2900b834;0x86bf9d247a07e;0xe1b1398d88934];[0x1;0xf79a9f4ee7940;0xb1b65b0ef9c75;0x36f54b0d87d7;0xa717fceeb1161;0x9fc44a0404a0];[0x0;0x59de0ed4a9870;0x80fe453cfcbe;0x9507b4333646c;0xcc1c929c59708;0xc3cd3ca9ffa5e]];
 [[0x7cd97b01b2bf1;0xf68c3b93acf3;0x493393579a7ef;0x5c64f2fd84962;0x949199dfaf9f];[0x1;0x67eaaa0dd95fc;0xa0f4e7fb6262a;0x2c3f77fc80c25;0x1d003fecc2ba9;0xad6da019e0454];[0x1;0x513ee57b48ecd;0x84a2ca8752b06;0x9ce3933790e89;0xbd6f58a016af8;0xbd7fdc63478];[0x0;0xd82d63763d52b;0x32c0db55f01e8;0xcde21ff1c985e;0xfb196a7a3045d;0xeb0bc36c932a9]];
 [[0x1c34ae869ce8e;0x21af4cca7d504;0x8cec7711b32e7;0xcb25471f79c8e;0x615fe1e8f707];[0x1;0x2be09209fefc8;0x9613351a50a69;0xc0c30f6877d96;0xcb9d7cd3a0c2a;0x1330a0f78f573;0x1];[0x1;0x6743658eb0d74;0xd7feaca319c03;0xd51eec76b1940;0x871fe5328c181;0x634a2901ded0];[0x0;0x1ba733df0c76;0x4966bc6c4d726;0x647632b31d891;0xf651b075a2f66;0xa2b74e449d996]];
 [[0xefe4d8d880c99;0xbf5f99e9c009a;0x9c2472747e631;0x75f9c36adebf4;0x7021330816ec];[0x1;0x1f488634a3c9a;0xd03045faab72;0x2f2832d12515f;0xd3bccfbb53e36;0xf9b92962926fc];[0x1;0xbee126bbd8e1d;0xf8dab4b9a7228;0x72a0eaf5b1b0e;0x9671307e6c0c0;0x11fe9b0cc8a6b];[0x0;0x646a4f025b444;0xba01f92c1d039;0xf61558e9104dc;0x7dfe4bf354533;0xab46b5b3ef34d]];
 [[0x58e3defd5d0e3;0xd8c37c8497e8c;0x27620ad2f3cb4;0x412b7739e19a5;0x16d75d5dba84];[0x1;0x60900f04b6583;0xf3112ae7b6d72;0x22342b78a1756;0xe887c60550032;0x87724b44dea2b;0x1];[0x1;0x38936a3dca315;0x83e79011b728f;0x2e7b038180f86;0x70cd164c9665d;0x1577d8b50aca0];[0x0;0x84b9a1ad96466;0x7e235a5cb238b;0x9a935eeaa0600;0xa012db7298b55;0xe3443df00593]]]
 (V [0x76e7701271e30;0x4bd3ab859bad5;0xeb416ff932723;0x77f03122a1702;0x8dc66c2f952d] [0x4d975067f450d;0x5e057ab888c4;0xc5990effe1c2f;0xff86a48c2458c;0x741b97f1357d]) [[0x2e9ba897416b4;0x6a068b62d45f;0x527b3f09bdb68;0xbaa9a492a3ab8;0x26afc01ea207];[0x1;0xf0408a00e325c;0x7eb7b3969b082;0xd96aa461eb172;0xb2740e7db02fd;0x6eeeddf84f2c1;0x1];[0x1;0x60aaae4c50350;0x68485cef81455;0xcece4ad7f7abf;0x8e689f86244ca;0xfeee11d53892];[0x0;0x5cb990fb272e0;0x80799fc4b541f;0x874caffc3749c;0x272242add725a;0x254f244de797f]]
 [((V [0xb7912317cee8c;0x2d7c5df9c24eb;0xa595e833733aa;0x1055ba3fa638d;0x69c268e12ffb] [0xadda24b29d45b;0xba8213529b5ea;0x14b7356c824e4;0xf3f0bbe10abc9;0x76a7f7e49c5e]),[[0x2adc25bafbc8b;0xc8c9e6bc99cbd;0x7dd6888e497e3;0x91e72ae317cd7;0x395a41d13fde];[0xdccf6c29272bc;0x837305ab1de68;0x765a4e8d44cde;0xf731a5480900f;0xf9bfa20484f];[0x0;0xc2fba724eeb00;0xa8b2b39520eef;0xe847a459fa2af;0xbb7ac16762f91;0x677b7f799c37];[0x1;0x271e2fecd42c6;0x79f712eb31b8d;0x3236e3fd74d81;0x6da1beeba9e17;0x8167e481ec0];[0x1;0xf805b611b0985;0x738f8b75d31a2;0x7f6a4d5d7e92e;0x92f5df26ab9d;0x26b47ac8c9369];[0x0;0xd330da314938d;0x690202fedef32;0x894350af848b7;0x18d14fddc6f31;0x4979abb43f323]]);
 ((V [0x40a163b8d7901;0x8e47f1bd52245;0x90fbf4cd5a24e;0x33af0d61ea5e5;0x5b70e98aed8b] [0x3115b1e9a34c4;0xe267644b30e26;0x8eb978a283dfb;0xfa5665c0d1988;0x4962324dcd71]),[[0xc9a63856349ca;0x263aefae8f6ef;0x2513d020452d3;0x8413a25f1f301;0x441ca0001424];[0xd2079713ecffb;0x53c36fd33e86;0x884d621c617e2;0x50266c695c38a;0x2be1a49fa43c];[0x1;0xf482547db9950;0x855f6fa8d4ad2;0x25ee6dc200793;0x9cb62135b20f6;0x4fee25a3c3];[0x1;0x44b9d5f00676c;0x70fd2b79865fb;0x7d35b26b7204f;0xe52149beb8a93;0x8153745e8a23];[0x1;0x5b8e86547fd94;0x12a8187b00e93;0xd2e4b82ac0216;0x979054857dbd0;0x1d48f5d970b8c];[0x0;0x4cb0459512238;0x71656bfbda6a8;0x727caffb538;0x50d2c975c9776;0x5f9612006002c]]);
 ((V [0x5626ae771c146;0xc8c4c5da2fcda;0x9679e1f832a;0x8ea24c29e9763;0x431ab1522b20] [0xa0f393774b57b;0x5f56fcda2213e;0xb55678eb3d654;0xbabe6e034ed2;0xc1518d60de]),[[0xe332001db92d6;0x4ea3e2e7ef1ca;0x5c17f92d07421;0x2b63a2f82fe2;0x646b44d0d712];[0x47da799166e08;0xb125d75e47593;0xe18eb50daa935;0x6c8fe0f515eea;0xa069fffa27];[0x0;0x854bef06fde93;0x4899c12e0ff59;0x8e8d57064b4e8;0x60cfa31c73193;0x34b2c7c68fe4];[0x0;0x9a867c56f2a10;0x3ef5081b6371b;0x817425e6240a5;0xd2850b73e51b3;0x4afa12e19c28];[0x1;0xa8844fe2cdf14;0x7683aa4baa82;0xdcbf1c6c20333;0xceaeea3e6bf61;0x15a6e6e26a8fd];[0x0;0xa7dd1a0026fa8;0x5cba4523db0b;0x93aec17673842;0x19ededf404e17;0xa2d0f0a2fe889]]);
 ((V [0x29e82eaee6d6d;0xdf85e2c9749d4;0xd7660596c81ef;0xf0d1a3373b39;0x771c11dd9585] [0x3522d54beef77;0x54f3b0a359520;0x35ad28ca9772;0x46606deae1141;0x2a761a3878bf]),[[0x6d09964b3011a;0x5372a9e343099;0x79a5d68e387f2;0x8bda77db86b34;0x41f14bfeff53];[0x5a51b61cb4ea;0x863609c36fa61;0x5e6a6b036e94d;0x56a82729a6ee7;0x7100ee347901];[0x1;0xde6cf747dfe54;0x2f2e5ee121f44;0xe15df90078243;0x2e3d76b1564b2;0x9cf4d2840946];[0x1;0x748b2e56b794c;0x49d901af7bf24;0x7c4fd46218530;0xcb1d05acc199d;0x23daba88e94ad];[0x1;0xabb8d908ffd4;0x5475dcc77d4ba;0xa23d6d5a8dc81;0x7016b684d0931;0x184c48ad29ed4];[0x0;0x99f00ca849a7c;0xa39aae038a221;0x8abf99936b6a1;0x316a25f9080eb;0x697524b820f39]])]
 [[0xaa405ff6b506c;0x6a2844460491a;0xb0768fe81a4ab;0x57e61ebdb844f;0xa4867e60026];[0x985b89d624fef;0x2e22ee442b46;0x764a899dfe07;0x422826fa3fbdd;0x92e4fb6b4173];[0x1;0x32085986f9bb5;0x1ed051f3e43d9;0xe741badc16259;0xa8b2812e89f2;0x967a890bec96];[0x1;0x10653e6b18048;0xfb6007d65068d;0xf1ca0b6462b0c;0x158893409150a;0x2dff3751d885a];[0x1;0x3d48f58d0d650;0x5fdd15aa9d75d;0x56953fc25ecb8;0x1b57dd7d7ede8;0x26c3aabad17b1];[0x0;0x4ab2fe3817a08;0xd7d119d282ba3;0x9a4b5cec3d154;0x9583bd0b67db4;0x97475fc114d]].
Definition wit_C_64_11 : colwit ipt wit := mk_colwit (V [0xfc3240db46321;0xa00dc2f1bee0b;0x44dc0c597fbb7;0xd8b85710d805f;0x40e0e80ab795] [0x117eb125a3f6f;0xd605ff02c9ff;0xb2bb42b356248;0xe179492c17aa8;0x754df57c9c24])
 [[0x691dce3800e6f;0x1e04996363de7;0x5f3ef9319507b;0x6b684011740bd;0x20e095b76f87];[0xaa91e34feb93a;0x49af9f87b4e0f;0x4da383bc101de;0xd20e967f059cc;0x59c9baf3571c];[0x1;0x798bb7b9068d0;0x4f98d18c7da98;0x7bd0d9993838e;0x65de44dbf81f6;0x172290f0b77e];[0x1;0x4ad1a3976c96;0x443f519cc0d2e;0x58597c37fd212;0xf3f341a1b0d3d;0x19923da54a65a];[0x1;0x1050f973ec90d;0x1e344de2d7cf6;0xd90d75ed8032d;0x11bddd813000a;0x22dda569fd15e];[0x0;0x7afae4c8b548c;0xc2c57db2b306b;0x54bf617ce8939;0x9da314e4dbd60;0x2016cd711c229]]
 [[[0xc7d68a94794e2;0xc2e4f30ad0ab5;0x86223bbe13782;0xc2b73a7b564ee;0xce3c03f7fe9];[0x1;0xc4466fff58a3c;0xac47a621f354e;0xbf542cb7043db;0x5bf56d5c09809;0x9a619f8da1255;0x1];[0x1;0x54baf620df34;0x6967547f73112;0x8d4347a04c376;0xe6109e74accff;0x1e5650fda1d30];[0x0;0x4454ef9ceabd6;0x96d8da416bd03;0xfb8d8c27e3540;0xde88f55ff377d;0x8735c76deb8c]];
 [[0xd984c8fe44d4e;0x3501664546939;0x901474c82beeb;0x24d9496659535;0x93484bc06d55];[0x1;0x1c7edbc9c4964;0x4cf2500efb13f;0x4f7fcaeab8829;0x3a8160af5c272;0xc3de3b09315df];[0x1;0x12fdb07f03674;0xb845e05731c1d;0xdb0b9d7bbe448;0x4a563f43b2fbd;0x10c624abbe52c];[0x0;0xbebbe49e65f5a;0x1c3997026aaa1;0x816ae5ab96869;0x9e608cc0715e4;0xf57eeeb340df2]];
 [[0xa9f2f6167ed64;0x31e9a4ee2a50c;0xd52406d4f814e;0x418728fdae86f;0x91ebb9ab3ad6];[0x1;0x3692e12974d78;0xd915303b9b70b;0x4552abe9e10b7;0x438eb558b75b2;0xc58d39ce83903];[0x1;0x8d005ec8e19d0;0x68861c86f7f81;0xc77f03f3ead0f;0xc10d22ce112e5;0x13e5ca3244706];[0x0;0xf48d8b92d27b4;0x9795354f8653c;0xf93dcd58f666f;0xa2d15505c46d0;0xefe38fba4625b]];
 [[0xc140dbaf43a7a;0xd2bcf401cb074;0xb951dcc161339;0x62fccef3653f4;0x318cbd21aaee];[0x1;0xfc358483f8a48;0xf774b46ef13ce;0x1ab4aa12459b4;0x3b5b16e6bc70a;0x66b8aaf06c265;0x1];[0x1;0xa603ae767a554;0x69440e1382472;0x9ab0b36043799;0x77914325ddb42;0x137b1000fed56];[0x0;0x938be96998894;0xc366d33f71909;0x1058187157402;0xfcc0a406a6ca6;0x47d2424a60c90]];
 [[0xfae1783632cd7;0xcab78cc8548b9;0x4c5735817c879;0x2f572e115be47;0x6f31079ec681];[0x1;0xdaf2ee31c837b;0xd8016dedc7a11;0x60452d13402e7;0xe32fbf6283646;0xf30def4ec8084];[0x1;0x52b9281e3b0bd;0xe5501d9265e1e;0x120cc4c9c9b87;0xc5391877a724d;0x8cfc9cc5cebf];[0x0;0xecce3fb0455cb;0x620681b0677b2;0xe49770f1ac0f7;0xe7f5e9775a384;0xab6f0c96bd287]];
 [[0xb62aad78e9917;0x971f02015fbfa;0x6d906b1ce8ca3;0x5a2a424b16bd1;0x891112888fde];[0x1;0xfb1267acc871d;0xcd0b4c6ec0790;0x33d06e451bd0f;0x86d3d6b6f67bc;0xd0faf67803b6e];[0x1;0x89d07f3c40e3d;0x57d4fc20628ac;0x4ea2a718ba3fa;0x360f215a9d0bb;0xa903ff6000db];[0x0;0x56e6a93db4a9a;0xa3ee8a98a4427;0xb9f44905e77e3;0xe3add8e1451e8;0xe0e373bd6e45a]];
 [[0xdab64ad910d8b;0xd35c9b846f49c;0x852e66d2be743;0x2caac306e0908;0x37fa3907da23];[0x1;0xf3dd621b23f30;0x9ff312878e4c0;0xdc5db7db98d75;0xc79f4519d92c1;0x5a451c1f5f5d6;0x1];[0x1;0x9ed161e6bc785;0x52f24243fef45;0x62af7449324ab;0xcf28cbc84dd72;0x17589add7ba06];[0x0;0xd3ec20ea35899;0xca174feb35e87;0x3385276961e9;0x573dff762ce36;0x54da7abbe75a1]];
 [[0x683d1ef1b61ff;0x21078f0bfa46d;0xe7584efe189f3;0x4335a83ba427f;0x27073822c2fe];[0x1;0xc758661a07b40;0xb35fa47eeeba1;0xa13e332d3ffeb;0x7be9fa7d79cc4;0x75f7d84cf5223;0x1];[0x1;0x800f20ac2a36d;0xce1056a04fe22;0x87034ac2b4a86;0xf18a48d74f5fa;0x12c6ae306bedc];[0x0;0xd2693a8a7e2f2;0x272cd346d5e2e;0x6b61a5d7aec09;0x8683909ec378;0x3914d39a851f3]];
 [[0x26cbc3c02f30;0x38446df02a50e;0x5f845e5b1937d;0xafb54ff62297a;0x5957ef3536e2];[0x1;0x825b9f0d4d970;0xafe3055f75f0b;0x5fef4c2d42bc3;0x4da127fd2e9c9;0x1daad18ae6362;0x1];[0x1;0x7cbe76540f500;0x3274da56d5627;0x86fa3e2a2d368;0x8c6781c6e505e;0xa943c67a0d5b];[0x0;0xfb915a514beb0;0x9fb2bf0e1f8da;0xaf58f12d0d8b5;0x92cdebc914266;0x8b341819b085b]];
 [[0xe02fea558ed45;0xb2fe545934afc;0xa905acf52a0f3;0xe891f310bfe8f;0x16298385f12e];[0x1;0x1feffb462187b;0xba18772bd93e2;0x58b0f5fdab230;0xd47478216efdf;0x92afe14a71696;0x1];[0x1;0xd351926084425;0x1bb6af5f5973f;0x631c8dc0ed568;0x3fb03985cc1af;0x111e3a7ea0c49];[0x0;0x93ae01a92e961;0x8d4a715bd4f;0x7cad4e6759b9;0xbf6009c2f2200;0x212398fc38b88]];
 [[0x952aeecc09d4f;0xf6d186957d0b0;0xf53960ce44b17;0x2c383b9797301;0x967859434428];[0x1;0xe6237e4cd07a3;0x9578911633f8c;0xc58847c3cffdc;0x25cced0f5fe26;0xbc18c8cc282eb];[0x1;0x75a88d3b8064d;0xf6640d1f948bb;0x155adb6e84478;0x30a80c0232ae8;0x4de312e9100c];[0x0;0xcaf3053e814fe;0x3911c3c5f4685;0x360c6e23530f0;0x4c62ac2e2af30;0xf16a2ac2724b6]];
 [[0xa92fe699294b9;0x974befbb40a62;0x542103d580b0b;0x9240929131c7e;0x15071be7b6f6];[0x1;0x7291f23594136;0xede4d5fb29aaa;0xd67a8fab591f8;0x93673c71fca68;0x8bd044f3da1ef;0x1];[0x1;0xfa7cd4fe79b5d;0x38980366b02a;0x79d3f28fc8944;0xf8d22979e7df6;0x13dc672274bde];[0x0;0x97938cc1cdec9;0xd4e08f793b260;0xccdb9f6d93de8;0xea5ef9181714c;0xbcd4b69b1b04]];
 [[0x60ca38952d37c;0x8eb7780c51b4e;0x517786780263e;0x91e64a7ea1495;0x54f4b50b314d];[0x1;0x860af8f41e240;0xb06edf02c3a9a;0x6c7bb473020c6;0xc370bd0614a73;0x2336779669634;0x1];[0x1;0xaf9b243844ad0;0xc4d75c0b5263f;0xba61ad4411fcd;0x8508cde3920ce;0x16d62944b5fe8];[0x0;0x81ee66bc0d238;0x4a17f53ab82f6;0xa169f9d2f424f;0x5ce2da14094f;0x7d4b81ab0e0c0]];
 [[0x879838ac3a54a;0xfd14729a3c8d1;0x84f2d24fee2cb;0x618bbdd473af4;0x2f337412d53b];[0x1;0xd452bb03daba;0x1572156459c12;0xb58e91ffb0c6;0x621d2844e8d0;0x64fd8e005bb5f;0x1];[0x1;0x5e19c69efab94;0xc157b7b8bb697;0x41c61d2fe8e0e;0xcb539c64b3554;0x1a4ebfcef4c0e];[0x0;0xb62e92d4facfa;0x55491c26d2120;0xa3bf00502d7fe;0xc33be665e6cd7;0x3ce7836bb8b70]];
 [[0x36acfc984e2c6;0xc408e4e3c0ebc;0x4fe4990165df5;0x9148825a18ffb;0x88ca7bae9421];[0x1;0x1dcdab9311322;0x7d5633f94d7aa;0xe1582fa9493e5;0xc827bea0faf48;0xcd71651835f88];[0x1;0x7fd3d3c992854;0x63c15a173b444;0x2bedd12c19fb6;0xc491d359368a3;0x101bb4a9c9754];[0x0;0xbfc111c675b62;0x7022318b32104;0xac001c62f2fe2;0xa67c6c769d54d;0xd55aa56f5cb4e]]]
 (V [0x5c016b068afa7;0x8849362cdef4d;0xaec77f2da3b9d;0x24db8c3abd60d;0x98467cb8f97b] [0x83ec309a2e9ee;0x584fd38b5de66;0xb34589cda12d5;0x1008e367b0764;0x90dcdd5e5fbc]) [[0x7da3f647bcf80;0x2e1222af19d1e;0x6b83fa3b99515;0x1f5ab6099e7ee;0x9109ed1ffe71];[0x1;0xdf2cd9d214f00;0xb2f11be0bdf71;0x3a3ca66671a68;0x1b01705698d24;0xb81347c57306f];[0x1;0x265ccf34b4000;0x36e3ef08f1339;0x294ab40058914;0x7f07e7fa95b85;0x1aded5c0ecaa5];[0x0;0xc0e031e9f3080;0x8c21f1c986697;0x56ad46740cd1f;0x9c7eeeccbd3d5;0xd59d6ce6aa85b]]
 [((V [0x2ce7270c5cd2c;0xde875d1e9af54;0xfe2a76dfd5fcb;0x1f74a9a1842a;0x963914e064c6] [0x5557a906570c9;0x85e0bd848137e;0x2d974d6974389;0xb9bac4e6ec8ce;0x8daee03a96b0]),[[0x9e755580cedea;0xdd3de24a20297;0x5a615e0538bdb;0x12c51eaf52596;0x2624d3a5bee1];[0x8a9d75ea50f55;0x19a5aa087d618;0xf6b17ced882d8;0x762b5418a1ab4;0x62720fbea16c];[0x1;0xe5df149c5f39d;0xd3c81d21e1c56;0x27100d270db2e;0xbf8294c4bc88d;0xcf1816af638];[0x1;0xeeb195c088938;0xfc0ed3e22c658;0xa03b427496fed;0x70eee752d8be9;0x1af73f68eb00c];[0x1;0xc5e86c57d8214;0xf8746d5846ccb;0xd2d1e51ecc7a1;0x519efa377be2a;0x2e2c188e28b62];[0x0;0x9480ee25b5fd8;0x25094cb202c60;0xfc44e657321fa;0xe6d97ca9c6726;0x22f047e249f54]]);
 ((V [0xb266402f260f9;0xd49e1558af74e;0x383f2095706c9;0xb9c070e17612;0x744965d805b2] [0x36da82ec6d0e5;0xd383d08eb12d;0xc9f3d1c29920f;0xfd4ea1302dd6e;0x5bc8cfceb18]),[[0x2e8548c61c07c;0xb869232094f66;0xaab582ad7c2f5;0x475a756d2fe98;0x6e954942bc67];[0xbbe5912f9f7b0;0x72bffd08461df;0x7999b96723ab8;0x84b9c0f2c5b81;0x4d7bca9ab7e8];[0x0;0x618b3d6f8bfb0;0x3fa51922950dc;0x9eee0380049a6;0x71398d9f909c1;0x118cc228af8e];[0x1;0x4d4b501657058;0xbe68d94d07640;0xe069be943e14c;0x3a18da9b23b59;0xc5a99250b465];[0x1;0x4044b7d0902d0;0x8e5eefbb69ac1;0xb6b22607819b0;0x183a31750ab93;0x25ef2e44f80b8];[0x0;0xee8d49ae24c70;0x5cc3acda50045;0x1a6f4d75f9554;0xc2b1887872528;0xacf5a7fb139af]]);
 ((V [0x646ca83ec162e;0xefda69e7b178d;0xb7f78e617119f;0x90b83280b8931;0x7c15095dedac] [0xdce3968b6c86f;0x3034774ab3ca;0x960ba13704abf;0xadb147745f63a;0x2aabe9b128a7]),[[0xc6e2796d06487;0xd8055b1a9bf9a;0xb2f6ae4ce90bd;0x6da4ab4e49b6;0x58056e5ab26b];[0x3b4e80567511f;0x3146a1c45dd8b;0xc3e74f1eb71f0;0x13ae63bad6cdf;0x8233df72f39c];[0x1;0x967d8441d45dd;0x342a03a0ca4e9;0xaeb6a786f0d47;0x37bc097053951;0x7f4a5e249d09];[0x1;0x818725972880e;0xc697947a88fe9;0xea77d5eeda4b0;0x95e6911919677;0x28cb2d70255cf];[0x1;0x5c95ad89fcedd;0xc2a239a473bd2;0xf96ca0b42ae8f;0xf0847f2358861;0x218ea4128fdb4];[0x0;0xa21287749f0b4;0x5483cf558db83;0x3dc7b57a80cef;0xfcdbe6debacc3;0x8f4883803841e]]);
 ((V [0xab44f2a5ef6a7;0xc8aaf0612a96f;0xbb210648da468;0x7a416ea8b65ff;0x4cbd2c7b5fd6] [0xab650ae790aac;0xfadb9cd0d8a1e;0xd2e8e6206ec3d;0x7685585fadd55;0x584aed7faeef]),[[0x746c7d5767614;0xd5ccab9385aa8;0xfa84fc6337fbb;0x8ddcce1dcabfc;0x15c034f5c496];[0xb397ecb144f68;0xfb2c3f50c7ed4;0x22ef6f6b6ca27;0xe99c5800fa73f;0x4ec509ad1484];[0x1;0xe09ef4d8b68f4;0x5523596bb65f7;0xfc5cf224014e3;0x88bb7e2cb557b;0x1ea475955c26];[0x1;0xa250db1b64e78;0xc555f5d8029d6;0x5eb0cbce69f6e;0x39b9dd3eecd2c;0x1896ff020fb1c];[0x1;0xe2281b0124a50;0xe7fdfd8d0afc;0xf81c63298107;0x2c1a52e64253e;0x2136d8110f0e5];[0x0;0xf26975c5eb480;0xb022166b9a849;0xdb76e9e791bc6;0x4dcabd870be95;0x17a73b15411a1]])]
 [[0xd0ecafe8216a7;0xf849137e91773;0x323caa366db81;0x5ed63190269bb;0x2b70505d8d37];[0xfac1b0fabe461;0x10a868de7ac5e;0xf2541b2ddf2e8;0x8e4e4addee05e;0x215e0b30f890];[0x1;0x8bfca9afed9d;0xc86f05bdafda1;0x29210cf7c0ea;0xdd2b9d350e235;0x110c7d36d6d8];[0x1;0x5b0ded2df5048;0xc166061115295;0x28e8314b5d756;0x878de0bfb2c0e;0x84039ac96bf3];[0x1;0xec1408298ad9d;0x897413a67f37d;0x498b0e56d8ad2;0xfe0a4a4f771c3;0x159b270d702d7];[0x0;0x2dfc9710b9ce;0x4cd99fd8372b9;0x7843a9e793146;0x16c1f2495cd39;0x33ee184b664f4]].
Definition wit_C_64_12 : colwit ipt wit := mk_colwit (V [0x9dc3f4cc2ec7e;0x99cbf55558c96;0xc74016f0d54dc;0x6e2fb7e9f5ff2;0xae7c0304c1f] [0x5fa0e157dacfc;0x639272a8fabf0;0xae0e722e717fc;0xefba25c74ad50;0x5ea96ac46e6c])
 [[0x1860f2c14f920;0x8a9ac12e8aad;0x4cd6b0b85d4d;0x32d48039c9114;0xfd0b71b1de4];[0xa3343088bb1b3;0x508c263835b0;0x486d65cdaeedb;0x90b62a076db45;0x19cb6d266180];[0x1;0xdf81060449794;0x60299384ac83e;0x64f0c610c5669;0x55bfe9a4630c2;0x1013d0fb790b];[0x1;0xcbedac0f1fe00;0xde73bf638bfc4;0xe04233c94a98e;0x84b31cc6628b1;0x77303199808e];[0x1;0xd20b1117bf400;0x78019c43b8384;0x6fb147a4585fa;0xd3137e14cd876;0xe3082e98e4ed];[0x0;0x63c52c5b30ee0;0xa785fcd6092ee;0x30a0f5241f31c;0xf068d0915aa32;0x4c6d5a881eff]]
 [[[0xb1b0c50a83a97;0xb3c21be4e1cae;0x97bfd9e1d043;0x2f8ed63816fe1;0x998476694db];[0x1;0xf1bf52455014f;0xaba015d594c31;0xc7bac2ec442a6;0xb67b98cca12e0;0x9d3aafe4c30a3;0x1];[0x1;0x63faa57fc6f3d;0xffa67c985c444;0x4f45eb8134ca6;0x56eddca7bd262;0x15de938fa13c3];[0x1;0x48f758ed16ae5;0x4d0b65b4c569d;0xebf5b50e826f9;0x50cb71b8c5b09;0xa18bbe5b9bef]];
 [[0x3bfaf0bbd5307;0x5ffd0512fea84;0x28a3a74bd7a82;0xb0d8295aa31c4;0x3401616c73f2];[0x1;0x9c2e49a284531;0x8c65756915174;0x6096a0a53b7dc;0x109f3b75d156a;0x572507a76766a;0x1];[0x1;0x61816b8e83ddd;0x1debb4c06c3e9;0xbca27c09d5144;0x4e0a665e2c360;0x1a21ca1c9e963];[0x0;0x27524ba45a83e;0xb08885815c363;0xbcb935263be95;0x4b235fd28963;0x3b2263b8691dc]];
 [[0xc4fe7714da7c4;0x4f2cc7e93011b;0x6f34bb04dfe59;0x4a5fba6606cfe;0x6283947aaf30];[0x1;0x28d05fbf6cb40;0x8890a84d4f446;0xc816b87a0c7bb;0x19e37b1c4e529;0x8078256f99f1;0x1];[0x1;0x8b061f49acd0;0x76e50f8f9efe;0x72892ec13a2af;0x21ebdd4bd50e4;0x104f209a2ec79];[0x0;0x76ed96e15b7c;0x606ee612cef56;0x3efeea6965fb2;0x8654dc042c95;0x97b4b7b0fe931]];
 [[0xa98eef0de5a44;0xcfead3144f3cc;0xa5da04f2c294c;0x91410a327ed50;0x59fb4d890a87];[0x1;0x9ee20de26a770;0xc79ff9d26cec4;0x48c6bf2a7274;0x8d08a59af2ada;0x2347e53402eda;0x1];[0x1;0x94d0cb576b0d0;0xac55fd766cd53;0x841747359d3a2;0xf0ad3faf40990;0x7806f566b7ec];[0x0;0xc4601252e16c;0x7f1a134d285cb;0x3ac4132149db;0x84f6a2a5fdc50;0x8fa577bae7fd6]];
 [[0xd6de949fee9be;0xa037668fa1634;0xe0839c30c6648;0x197601ad9ec3b;0x4c14264d0dbb];[0x1;0x14b6b28d0ece8;0xfe9a7a5bc51c0;0x8ca3bd5271783;0x49dbc3607012a;0x309de7f1d1237;0x1];[0x1;0xa4584c38312b4;0x8d8909a3129f4;0xb682d7e25b9d;0xccd9593bf0a74;0x66353c937b13];[0x0;0xe515587ec4be8;0xeebc50f49db44;0x74f7ff61500fc;0x3fec376eb4a22;0x734ec82f594d8]];
 [[0x3559741fe54c4;0x166013c8cfa5;0xe68237b9f36ac;0x540a52834339b;0x80723de696f];[0x1;0xb057322c58eac;0x99a57d91698f2;0xaf1cf0780f765;0x47d3f71bbfa6f;0xa92a8e8f39aba;0x1];[0x1;0x82607d11f74d0;0x1a116addc4f2f;0xce95dbfee3ad5;0x9b64fe48fb229;0xd2834079026c];[0x0;0x2fc2b4ff75d1c;0xf6cd0574b470a;0xd73d15915d499;0xb547715623781;0x6150c75bfc47]];
 [[0x9dc5f689a660c;0xdf7f10eeac808;0x979dfb5366e38;0xc65f030a62632;0x3c6d7c1bebca];[0x1;0x2f918ac278ef4;0x5bf3c73aba2a8;0xe59b0bc9523cd;0xfaf64e6975bc2;0x50dd261824d01;0x1];[0x1;0x857a85d537d50;0xe3bd879f7d73c;0xccc0a14c5a01e;0x53d8139c15791;0xb4b07c15b212];[0x0;0x78735192c2ad8;0xf3db7da1c543b;0x30ee62d2debf5;0x5e8935ab68f92;0x53eaec76fce42]];
 [[0xd54161262eab1;0x4269879b09efd;0xa0889b658f842;0xbb2b314291065;0x83b654b38f56];[0x1;0x493edb8a270c8;0x7d155547732de;0xc7fd7f2576e63;0x6a341aeb3427;0xcf040dc7a234b];[0x1;0x7da6e0988d64d;0xe5891cf0e69c1;0xf7845e010b56e;0x445b906b0ea0d;0x164926d5a35c];[0x0;0xf463294e501e0;0x8791610f79543;0x2761cb90676ba;0x769d064563cd4;0xc34e1153a37d6]];
 [[0x87d5af249d7e9;0x6a2af6805edab;0x16aa4a2d989c5;0x3957cf79fdad2;0x368cdaa0280d];[0x1;0x373e69aaa1b3b;0x3a2d34a837414;0x43c559866dc5;0x2e974e9bcc0a6;0x502f58d806a5c;0x1];[0x1;0x52b96faafd83d;0x7b4765bf6cfa8;0x78a780c728237;0x827ab09d02c4;0x10845e329ffce];[0x0;0xbebb71e8df2f7;0x534c7b2363b18;0xb7f71dcb53fb9;0xb7ff604f01e23;0x4934393b6ee35]];
 [[0x316d3ff48ae78;0x9a8531065f682;0xff4624c07bc7f;0x8368f94452b21;0x1a061a958d19];[0x1;0xc72e9b5edb388;0x1138dddd7ad1c;0xf15d587093863;0x4e7eae2319128;0x8c8a2020b7a38;0x1];[0x1;0x6511415ee5340;0xd3efa67930ae1;0xea541bdc2e703;0x98b55285711c6;0x1120589eb654d];[0x0;0x1038523784220;0xcaade75ab6236;0xf07b1b6dafea1;0x49165ce4087f6;0x2a1244b3bd46d]];
 [[0x2b53c9393acde;0xfe2aa2850517f;0xa2b4c65c0a42;0xf6288fedbeafd;0x4490bc6950f1];[0x1;0xb1ecb37a2b84;0x92b0a971d4811;0x98a5a29b1051f;0xfbdebf742c92d;0x45dc5991b0cb3;0x1];[0x1;0x896138ff5e434;0x707cd38fd1fa5;0xc72c3510a4680;0x8f93027a43709;0xe65a87aff632];[0x0;0xdee25783279cc;0x1f3db76be5931;0x939f32eafe1e8;0x78bb34ae6fbc9;0x6bd4e5c31d409]];
 [[0x160845afd7da6;0xb6082086b8d04;0xb17197e97171e;0x21a305c29950a;0x227088ebf1d9];[0x1;0x8a27ba343745a;0xbeb0e7c343e14;0x35a5739771648;0x1e523f382ab4;0x7cad0b9ab81b8;0x1];[0x1;0x9294ba0947cd4;0xb4276bf37c696;0x681af51e66935;0x286c80d05e594;0x1adcd22028778];[0x0;0xdb62b6711b88e;0x1b517d3634192;0x7ac7a859a0166;0xfb0a7c6205ef5;0x34bf0d35e64fb]];
 [[0x7bb65998eb3f6;0xa225e894b61e6;0x3296834946559;0xd4bf6384f0c90;0x843a692af78e];[0x1;0x577180362bf5e;0xc664439cc1045;0x23b377e97f3be;0xe3e90fdb3cd15;0xe010bda62259d];[0x1;0xc6757ad245694;0x3d79c5a8fde1c;0x3c363dccdec93;0x26f371bfe5920;0xcdf6d19fae1d];[0x0;0xa1cf7b72b522e;0xf635543395d2e;0x43dc256b09ccc;0xd0f63c7774682;0xd9d04c01f0d50]];
 [[0xda07f594ccd2b;0x6e092cee8f829;0x96da519f79cd5;0xf1ef9ff855805;0x47bcf0db9d84];[0x1;0xe8ad682683fa1;0xeb82cbfbc0132;0xb6fbb0511db9d;0xeb489e07ea4cc;0x3963c1a59fafe;0x1];[0x1;0xa690a8e6b845;0xaf575c8ce0dc1;0x2f6523d7aa14e;0x128925232f2c4;0xfef3369e306f];[0x0;0x9305fa9d550b;0xbc624715c449a;0x5225e23c74363;0xc105512cd9728;0x64484e09d628c]];
 [[0x8b5bc65e6640;0x8d441b7dd76c3;0xbd5f2d9211951;0x1bdbbebb3f998;0x2df3e3e1a9c9];[0x1;0x309e3eef24540;0x775388d837236;0xbf239f07ab00c;0x7809fd647a311;0x63675c8183849;0x1];[0x1;0xef3154101d000;0x1ded536df604;0x608fd8edea5bd;0x3b25159c6a2ec;0xe3a1eeee3741];[0x0;0x749a422160b00;0xd7db19610a26c;0xb93f7a260f0e7;0xd7fce56ace2ed;0x3be644bbce453]]]
 (V [0xbf89ebe9c7d48;0xe3fbdb3edc36;0x5e34a852b77ee;0x9eb5f5865a1a5;0x22efc532a60c] [0x9ea098d7e8c06;0xde907ae14446a;0xaf654a4b9d614;0x5633ce7f8e04b;0x5cc130c55c9c]) [[0x8c184f90d88a4;0x4b0fd7950d292;0xdacc05eae77fe;0x2cd2eedd68334;0xc7da3e7d2df];[0x1;0x64a57ee1ff420;0xb292602990608;0xbe07260226686;0x2ced5df7b5f57;0x9ea559af70045;0x1];[0x1;0x2c13aaa166bd0;0x3f1cfa6df05e6;0x39a6da2346ba7;0x9c3f1aabfbc36;0xcb51227cedb4];[0x0;0xf029fcd5df710;0xa5db446496af7;0x4f65c9c9d490f;0x98d37a2ecf9eb;0x2e52fa0f2e5a]]
 [((V [0xd3e61a5306215;0x2ec137f9b1b6e;0xfa2545372013c;0xc44cb5ec013f3;0x86715fe2c604] [0x5b338691443c;0x58dd4de4b20e0;0x7171034ca6147;0x4fc7aeec83010;0x9a5648e0d09d]),[[0xde571a5f0bb9b;0x4ea4df4e57954;0xd8122dac50122;0x7456e092af195;0x6a779e510890];[0xe3e7c61acb7bb;0xb61e764a538bb;0x87b5f219c44ac;0x5c45609c1e628;0x7f242fc8d1a3];[0x1;0x7d0efc08f6f40;0x7fd7961078256;0xbaf55117ccf5c;0x65470695eb59f;0xc94e1cf697bc];[0x1;0x51aa6ff848ff4;0x7394276eb1080;0xfad70832dbb6f;0x5e5a6e26d4426;0x2052a9f1bc653];[0x1;0x375d2ec9ffe65;0xf9d2b51430cb6;0xe173d914fd629;0xec69fcf880008;0x10743494e93b3];[0x0;0xa8526f502da8c;0xb052952fb5f36;0x665b3af84c755;0x3bba485651deb;0x96012a1437823]]);
 ((V [0x4c477313e8873;0xf9e48377c6890;0x57078577583c9;0x57d40924ee7a3;0x6f1f3164488d] [0xa223a4ab7ce3b;0x9808e8ce36385;0x91d39269d48e9;0x6b748c5907279;0x3df87c820909]),[[0x1e645c5126c0d;0x431b78152be47;0x4412ade0572cc;0x37515a193946d;0x62f67316cad0];[0x36773d9ede5db;0x44a51f670cfbd;0xa0c7c158a44c9;0x850ec09416f08;0x69a484a9db3b];[0x1;0x5184c19fcdec5;0xfe325ea53fdbd;0xa800260a81ede;0x21f1dfffbd1a5;0x39a318e68326];[0x1;0xbc58824a7a838;0xf587c63eb7175;0xba8422cce9fea;0xeaefcf3228a9d;0x155b1885bd801];[0x1;0xc27ff28730ef5;0x5c4345eef4c7a;0xae37534fe52b1;0x163ef06e0ce9b;0x2322ecb4d4110];[0x0;0x5fd9750ca15ad;0x953af4713e61e;0x9684fac293d9a;0xf1969e973ca4;0x91afeda64a3f6]]);
 ((V [0xab497b3c2a147;0xbad36d0449302;0xde1db3a2ca4b3;0xf10c0aaa8c5b;0x8da1a6bc3844] [0x1e6f054f3e777;0x81441a2de7836;0x63db8225ab5a6;0x1387001f07ea9;0x4378505ac2d5]),[[0x6f7a88eefe92d;0x90b82c31518b2;0xe094a3ae901c3;0x87eb7cb5ceb6f;0x27cd56e1a74e];[0xa72c837fcfc0f;0xfbaf969dcede9;0x519dfc95ae7f6;0x96f05de5b2c10;0x294a6936b518];[0x0;0x8d7bef02f620b;0xb834d71620512;0x5242035f39345;0x5c5e9c3382a55;0xb6c40390331];[0x1;0x24052a22850e6;0xb66fdb15607bc;0x50f7c2f96a9c8;0x5dc007af3f99;0xbcb4dd962b51];[0x1;0x285580346ef35;0xdd7b626b3308;0x1bb5e42db7552;0x5c791b4d838a3;0x24c659929eafd];[0x0;0x3ca3ea8264db3;0xa42965627dd33;0x8a86a7779d504;0x9ffb87490acc5;0x355ec5510348c]]);
 ((V [0xc1a1772ba9c57;0x312a3eee289e9;0xf23d10d39562b;0xd1eb5f97d3016;0x12a2cc7e4b59] [0x976e9d6bf6d56;0x769ec9959e89d;0x23689d3085977;0x7278140e100c0;0x45f18dfeb15d]),[[0x854fbdffccfef;0x74aa4f0378619;0x1db61bf92e3db;0x90b8aabdff46b;0x497e3a4fa1c2];[0x3c40a2f0d907d;0x66000c634709a;0x7395966a8b2d2;0xbf080c707c2a2;0x1f5db7af9304];[0x0;0xdb8ecaf5580a3;0x817ba4ab5ef95;0x290eaee179094;0x745ab47703a60;0x4d4d01dd7237];[0x1;0x6e361c4c38d4a;0xbf60972486831;0x13742309f69da;0x99b3248ba0c76;0x6bb3bf2775c0];[0x1;0x58eef5ddb520d;0x5780c6eb95a76;0xde13f0d862c1e;0xabfd6f51729e9;0x1cdeb044f4994];[0x0;0xce2b24cf93b65;0x7aec1ba1381cd;0xbd21d8d3469f5;0x5dcaaadacd472;0x7185a16879b07]])]
 [[0xe4b950074376;0x9cc6d0186a4e7;0x9a8a093a697db;0x11280289b0fdc;0x71b5a3028f58];[0x3f43c25ac656f;0x987fae7d0a366;0x7e180a7cd66c7;0x4bded0054cd11;0x6c0b38416ce3];[0x1;0xfb363a89a05bd;0x4fdadccc6586a;0xf57d2c1b08981;0x36e70fc05b272;0xaf80441b2959];[0x1;0x45a22e4b2b9a8;0xadca2a0cbfa27;0xc99e938c317d2;0xcbdb531b2809a;0x1bf9f29b91b82];[0x1;0xcb8ce900b9894;0xa2e8ef1c05b50;0xaa46fe9756463;0xdc00f8e8f2dc;0x19b42c225b3c];[0x0;0xa503d9e676c68;0x6de79053446aa;0xc838544e8b7b7;0x3062c1613507b;0xb1e38e6abd924]].
Definition wit_C_64_13 : colwit ipt wit := mk_colwit (V [0x2c779431443f2;0xb00f966b7cf7c;0xf74ccc5ac8d23;0x87efee5d10d27;0x8740fcb4dfad] [0x4e1dc7a8f79ff;0xcd4eea9155815;0x1e27d9c4e7fd;0xaaac0136ea5e3;0x501a9f6aeecf])
 [[0x2ebde1e4fa212;0x85d8c6249de0f;0x58f72b11574a3;0x1dac5255ac1e;0x5bf14afd295d];[0xc7504986a25b0;0x4b32fd6ebffe7;0xfdd4ad5774af7;0x9dc2311b3d658;0x53b75f9a2ac1];[0x1;0x601863a99ced0;0xb97d6ecb4a252;0xecc9e963d9884;0x46d5f94f1de8b;0x845c89547e35];[0x1;0x469e023fe4bc;0x5e34cec9c0328;0xd5e1f5141cc24;0x5dce4a2c284e9;0x164efd6810bc9];[0x1;0x64b08bfd8cdf4;0xf60b075816c2f;0x958543bc5f400;0x6fdc6bcf6d68b;0x107201ab223e0];[0x0;0x3b49a2f1e8942;0x88d778106b8f3;0x22b51822159b6;0x1cc1d6a9f7a61;0x88a69e34d3256]]
 [[[0x65359cc4c2c7b;0xf156f3e37578f;0xccb589af27517;0x916a886f9f0e5;0x3aadf0014a6d];[0x1;0x61911278d0e51;0xbfe43835f8060;0x28178a6725f67;0xbf657c436ecae;0x4c5e74e491b92;0x1];[0x1;0x8397586b510a5;0xbec0c923c02ed;0x2ba9583acee0b;0x1b1bf223bf215;0x1685276402794];[0x0;0xaae57a670b24b;0x5d36c2c487255;0x4fb6b1bf2b4d7;0x5a737c0d7d964;0x5a2fe226df2fe]];
 [[0xf8ef6e259bc9;0xdf468a5c0d259;0xfc049aee160ec;0x7844387c253da;0x4ae5a951337];[0x1;0xc29dce7ca3f75;0xbfba48afb1c1b;0xe15d59261b93e;0xa5f80a20e8dc2;0xaea53129ab0d0;0x1];[0x1;0xb6c788f066fd;0xec66b64ed60c0;0x40367b1338f84;0xb7c2d54bbc07e;0x1560797cf055c];[0x0;0x7791ced8ee6a7;0x88d4f3f0f79d9;0x41058e51c44a1;0x47806d1e4dc67;0x25e4895e971b]];
 [[0xc18b35c8c5;0xeadff681609d6;0x92462b6bd4b20;0x95cff633948f4;0x5ead5bbb6cc5];[0x1;0x80c9361c3161d;0x7873ee19cbefc;0x82a2ebfc99162;0x6c4efa7b1d88d;0xf67d6464fda4;0x1];[0x1;0x83a898f24db25;0x461bdd568c192;0xf7f5eda530bc5;0x3cfd6c89ee836;0x19a3f21236104];[0x0;0x1c6050b49036a;0xf979129da8e6c;0x8e9c3df3364f0;0x288dbd0787c6b;0x8dcd6c3f65f3f]];
 [[0xd741df486ace8;0x19f8a5fd5c900;0xe2fe1dab68f2f;0x2072b6d73bc54;0x57d26c03fe6a];[0x1;0xbf47b7dabcd50;0xfe9141ce11b2e;0x4f3584bcb18bd;0x373a4431291b5;0x1bd4bb7544840;0x1];[0x1;0x9e9dcaeea0540;0xe37c36305205;0xfb26319b5b614;0x32318637b2a97;0x1b04caa212baf];[0x0;0x916df8ae41c30;0x1ddd213385464;0xca04746db7a0e;0x5737b1154f75b;0x890ef3130561e]];
 [[0x28c17538b9ef3;0xe4f1dbd53edbf;0x1436c126e186b;0x4e6f1ce8591f6;0x4ddf094144b1];[0x1;0x1a301300b8ebd;0x4202c73de61b9;0xfafda99a331d;0x946fb118cb086;0x29bfed6da578f;0x1];[0x1;0x9ad94ec0848f5;0x5c1382858775f;0x4f5414fe4689d;0x45393e3697996;0xce2370fe5821];[0x0;0x1ab9d9bc3b210;0x4e12ab9d0b3f9;0x3a68a0fc016ca;0xa2d46ab00d0f7;0x6f4de220b79f4]];
 [[0x93ddd04a9ca3c;0xc68278785b179;0x6ca9344d211e5;0x277df9d0b5946;0x1aa72d1eeb59];[0x1;0x2bbdada89ca98;0x2e8c43b8eb6ca;0x2a9668f983f37;0x5873a4b40d5ad;0x7c976cff06541;0x1];[0x1;0x52de17b965cd0;0x7d2979fa6e37c;0x8dd39b2327be3;0x2e054eb6cf20;0x19f8b9c856010];[0x0;0x768618588d420;0x1e8ce8f3fc9b8;0xe3b58fa0c7082;0xc1d5d2599c68a;0x1114ebc9c46ae]];
 [[0x82ecdc5781cc0;0x5b6339080522e;0xcfc0aac005f7b;0xe132ca1b3c633;0x3ef42fb3eb11];[0x1;0xd6584d214e1c0;0x9dae7e2716b77;0x133ce417c7596;0xe13fe56cc5cf6;0x4032bfb18a258;0x1];[0x1;0xba078c6df5000;0x4fcabeee63edc;0x293681de80e1;0xb3723201f647e;0x236bdad248b52];[0x0;0xd6fe46323a8c0;0x3eee7d68874a4;0xed769209f3952;0xd9c6d7f92d8a;0x54441e9707f99]];
 [[0xff7cc205d43ba;0xd737cf33d91b;0x4c82f1d9060d9;0xe486e05767500;0x47fe27227039];[0x1;0x366b04af26256;0x5e5a1dea3d664;0x2e019b4d66613;0x6a7694582884d;0x34f7cb555205a;0x1];[0x1;0xa093b252ef254;0x75f3af9c1be85;0x9bec7fdc3906a;0x4d4015d55e416;0x22891ef42f19b];[0x0;0x8bd06837165ba;0x2fbeb41c01252;0x2ba40d41315c0;0x30929f7507f19;0x6c217b325afe2]];
 [[0xdda1255c18d34;0x23f5cf67c57a2;0xca0ba61739d27;0x4ab6435b95e68;0x7b2841e6805a];[0x1;0xebbb89ac05834;0x1cb59d9afbcb7;0xd14a16fd371f2;0x68a8d6725e70d;0xe346f65762907];[0x1;0xf9b0fd0d01750;0x2dd3646e56899;0x4584326415b39;0xc40e61692c9fb;0x13ff1d4a9b7e9];[0x0;0xf2f2433ea722c;0x2fd9004102c07;0x78fabe7621a5d;0x9a87b226c5f0c;0xd07e7eac22937]];
 [[0xf4f125c283e1b;0xbe82d51484702;0x4c9d71853db94;0x7e70693052c1d;0x8736af87200d];[0x1;0x65f4505e5a567;0x3f5fb0506461e;0x231d52ed54fac;0x708572e1f5ee5;0xcc2470b405cd7];[0x1;0x850d76203965;0x3b2ceaf00119a;0x7a1991c2f4d81;0xe849e1bd26ca2;0x14a9402ae09f6];[0x0;0xac6b292acad0e;0xe5e9433505cee;0x59b5664301223;0xd112ba7ad5cc9;0xd2ef08acdb5a8]];
 [[0xcd4b01f97d921;0x184e3642f2448;0x9b42aa9d20f77;0x9257b16d4ad65;0x3b31b238eb31];[0x1;0x8a84f22cd9776;0x98ab4febb8e9b;0xca1a4b3852eb7;0xedef9a384fabf;0x4aef11526a51f;0x1];[0x1;0xc6dfb9262b0ad;0xb65969cae6fed;0x6665a2ab47aef;0x3acf11dedbdfa;0x28ba90b927f4f];[0x0;0x9f058ca62c806;0xa79a1e3efce8c;0x3811317cdecf8;0x9a428c4303a2;0x4a92bbc11c62d]];
 [[0xec52bac8c557c;0xf58c1b84a1f52;0xc851ec267d6b6;0xbbef65c5f82e1;0x117f82c4f972];[0x1;0x294f26bdd2654;0x9f05afab06158;0x8c2c81a0aefc0;0xe3cbfa40fd571;0x8af6ef5fe79a4;0x1];[0x1;0x9a5b0609b7ad0;0x945cf63a06194;0xf63c9ec0e130c;0xbd4045476219b;0x1e2db894cd9d1];[0x0;0x6f2be494d2150;0x5c2d90b0118d1;0x319b63f887088;0xe1824017ecf43;0x9edd57a718ca]];
 [[0xd80682421a971;0x454cf38145218;0x27bdc538de513;0x496198cf550f2;0x7b507bc84442];[0x1;0x9155e7c983cda;0x99c08eba0fa1b;0xdedaa3d226d1d;0x792a97522c379;0xddb5c19ec864c];[0x1;0xce7748dc7bdcd;0xf68844fdcb7dc;0xdd155f927589b;0xd48bf864b6abe;0x13da3f85b4857];[0x0;0x239fb22b25a2b;0x39b4f15fe8;0x7ffefbf7888b5;0x89644154a4a79;0xb9b5901146f6d]];
 [[0x3e777982d83dc;0x990a676ddd21a;0xed99a17fd8597;0x17feacd8c334c;0x5e96f45355b9];[0x1;0x1b0e4bdbb27d8;0x65014ca22968a;0xe3a5eca03dfe3;0x34a1ab1f03684;0x96ddba2947ed;0x1];[0x1;0x11aba25cff7d0;0xbd303d3b33e4f;0x48a34a49850ca;0x4966da7603034;0x1c4479f1f0f17];[0x0;0x1579192e078f4;0x9bd0b077c106c;0xfec90ad3b979a;0xc7b2caed3406d;0x8dbac9c2432a8]];
 [[0xd788b44f92f63;0xfcfc88ca4d432;0x75bb260a060;0xd6a63f8c79425;0x1daa7e6e7af3];[0x1;0xbe57f5879647e;0x3dc9c6a5290be;0x8aa93b3b27de;0x66328c19223fc;0x8087fe329dfbb;0x1];[0x1;0xa61727d82e15;0x29e978cfc4494;0xeebb698365f85;0xc19023cf6d723;0x21cd9335a4314];[0x0;0x36c2d30be2101;0xbd77404ae615f;0x4e12b8d4c2532;0x15bb497b3b7d8;0x249eae3e2870d]]]
 (V [0x67b8e4d9d2b4c;0x2f3a5fe6c4575;0x3b7718ae48ed8;0x32df6a2300ac5;0x20f668c0174d] [0x84fe649a7036e;0x8d0bd3d3af6e1;0xd420a82fd9c2;0x5bf093a88b093;0x1917bb769b19]) [[0x38156616ca8bb;0xa0b29cebf6ec7;0x2ccf69c3ff328;0x98bb787c310af;0x1d4096d6d541];[0x1;0x464c75acde14;0x1fcff73423616;0xa0542a85275f2;0x11b525601d774;0x7e14670f29c97;0x1];[0x1;0x4672123949825;0x8752a0b7a3ad7;0x4c2d18a791d6f;0xab03ff795e5d;0x1269bab7181be];[0x0;0xdd8228d94c536;0xc48afadf8335;0xd172b43005a19;0x916ae659cc9c1;0x27d71d4212e0a]]
 [((V [0x4ecff6c595c9a;0x38be304c774a5;0xde84975a1c63a;0x5c8c27c7f547b;0x5f133d59db75] [0xa7601873cd5dc;0x7ba65f863dd22;0x5cb2bfae7d086;0x5e9c6cc8ab782;0x8b635fe6f2d]),[[0x5c7a88aa83a8f;0xad6933bbe55f6;0x4ac4ff8258285;0xf9a7f0327623e;0x9187e3690a19];[0x81237cda94c9f;0xa028f826bc9a;0xeef57a774c6bb;0x9d8a0d4502d09;0x7c8e75b39032];[0x1;0x8d1e56f047350;0xdfc2ef6c7ec70;0x74be868458e20;0xfa38f9d3f74e7;0xc5ea0f9e54b9];[0x1;0x2823249091914;0x2e1625c274b4b;0xaa86a2c9c7d2d;0x43dce2251e8b0;0x248649c17b61f];[0x1;0x1e5b0927a15cd;0x505782cd5044d;0xc11905781836c;0x899a8ce069202;0x80c0b73c16b3];[0x0;0x72f4de9d3873f;0x7f0bd1b82d541;0xc73aa38755673;0x4225ca0df7f34;0xee7a37fd8394d]]);
 ((V [0xd7c865d4c18e9;0x1e3cb55bac8f;0x9e44e8c4aa68e;0x96b5906ca8fee;0x7380841253ac] [0x935043cc80d0;0x398980c4e9588;0x6e756fc66810c;0x937a59e363468;0x17f8e6ea79bc]),[[0xc7e6897875e0f;0x5623ee28334b0;0x916202daae5a3;0x164ec79836210;0x670139a12877];[0xe275c8b5b60b;0x6363f98b96af4;0xb1467e02721e6;0xdefcc37398e66;0x67961bf6a482];[0x1;0xb5fe9002f1dd4;0x1de09cd0eae3d;0x1cb4c8752653e;0xa0afe0245a15;0x7050c3c7f4ed];[0x1;0x50a4e07d0028;0x43ee81643c54e;0xa98bcbe615aae;0xf49aa719603cb;0x2044dbe716db4];[0x1;0x713ccd7bb4acd;0x91fdc7f547203;0xbb6fbab9ee7b2;0xc1f767db63982;0x1b29f437c6c0f];[0x0;0x5915ca636e922;0x4630d358bc9f5;0x4187cd0b48344;0xdaffda803145c;0xa99d7ee9fa70d]]);
 ((V [0x64387dff2747d;0x73f6b19ee7929;0x207965ada21a4;0xcb17062554774;0x973aec46acd1] [0x48663b6a989ea;0x9a6ab1106db;0x6cc74890dd9a1;0x7bcdc72dfa9f4;0x536c27606719]),[[0xa23a5f3af6a2c;0xf0549ea81849b;0x9b7aa7bb74390;0x6e3080ed0a77f;0x6dba40e5c96b];[0xe20308bd141f3;0x132683d0a539f;0x6bdaffa326609;0x8737e1eb8844a;0x8435204c3cbd];[0x1;0xe28d4e3c5c23d;0x9b368050025e1;0x51593f8563a3c;0x9982273952c85;0x83c1df2615da];[0x1;0xb82ecfcde3180;0xeb8998f4fde18;0x6edfaa6208d5b;0x8886657a8b478;0x27b46e413aa91];[0x1;0x690232520d850;0x7a52eb17c8c61;0xb727fb28d8187;0x8d12aa5acdfd5;0x22768eda85d9b];[0x0;0xb71e635c29354;0xda3718811f79c;0xd64db3b27078f;0xee8b5d1c71dc;0xac8c997d73fc8]]);
 ((V [0x55f3bbd8cd93f;0x1ec711d1ba252;0xff39f35a12a55;0xd2d8efa29feae;0x72b8a56d8a73] [0x4734344a2d2e6;0xa487438989c51;0x906caf35f6767;0xcd4c5b00801e9;0x589f7eae632f]),[[0xc574b8c98a5a4;0x60946d70ee4f2;0xd32b3439c7005;0x72559feb44f7e;0x4f0cba2ffc88];[0x9f45217c63ce7;0xc16f07d85aec4;0x22cd109f6b60b;0x872d3ab6f7dd0;0x4a51d2a6e641];[0x0;0x90c714f468c2b;0x1bc8ebedb2f1e;0x438409f3aac2b;0x10f5bf22086cb;0x18b49ed17278];[0x1;0x13cdf32291390;0xed8f00ca95ba8;0x34b2bf8a6406f;0xd4754390b7cfc;0x12aa76e0419d8];[0x1;0xbe2bc485d73d0;0x4b303b15e7216;0x303d68bd99202;0xee183be15da59;0x2861cb7eedb72];[0x0;0xab089908eecf4;0xa721f285accef;0xbc2b7ee8639c5;0xd6ea4bd57a7d;0x74ddf19cbea8b]])]
 [[0xaf0c27d2712d6;0x257483b34477f;0xcd144bb1bfcc7;0x2cdfdfc9b79aa;0x5113cb8aba90];[0xbe3151e397bf5;0x7b2529256920d;0x136664eb4d2cc;0xde999bff31da7;0x743ffbc0fcb7];[0x1;0xd7dabb147e6ed;0xfdc5f6915c46e;0xd056112ed65f7;0x750ea9d7caeb2;0x6aa978490836];[0x1;0x69b0242c6a1e8;0x789e98219bc32;0x16f9b437b755d;0x78b2b0cc7bd2f;0x1f1fcf9029336];[0x1;0x17addccdedf14;0x6232cb8dff0c8;0x90cfffa34d51a;0x84c1f94a6297c;0x160cc4d654493];[0x0;0xc476b4612e772;0x4cc775baa86ce;0xf83ab9599938b;0xb4c4514a42b23;0x811cafe1f5158]].
Definition wit_C_64_14 : colwit ipt wit := mk_colwit (V [0xd53c5fe22eef;0xa2e13ec7202c7;0x96331f5f51073;0x3735bf7adf59b;0x5131ac3d706d] [0xcb2218d70989;0x39146c4a15ac8;0xba6af76ccf4d8;0xb7b1bb283bb5c;0x4bf79e8e9c22])
 [[0x7acd59d0af389;0xc2363d4ea58dc;0xc1c4daaae5ee2;0x5c639d4b7b184;0x1414c4ec7eb7];[0x40a0a40b7760b;0x7725546372e3c;0x71f3765b836d;0xa9e73ed3eb7c6;0x42afdc720bc7];[0x1;0xdf882cba2f34d;0x975ad2051b952;0xc8cc0df9cae46;0x4e25b891e2d1d;0x6cf6eb671fa9];[0x1;0xab485d3c94c76;0x382058409a0f9;0x1e97c3594516b;0xce33b7297c9ee;0x154c3692ed49a];[0x1;0x976ddbe41dc7d;0x94554e85da3d6;0x2037592678b13;0x3cb87c2e83b9a;0xa62e7114a3c0];[0x0;0xe8b10b3dc9c13;0x98ba8f02eda77;0xd2ea0148c3f17;0x75e876d0c59f3;0x1786ce3f43620]]
 [[[0xd732729844611;0x58b6bb1b34f20;0xdc42b1269b9ad;0x7dad0f94f09c9;0x161e2c8f30c7];[0x1;0x440acd4d495d5;0xd51e0d16e2369;0x1a3e30ec086cd;0x61dbf97001887;0x8fe1020d07392;0x1];[0x1;0x9832ff31bce0d;0xf19ff6abd05fe;0x8f8f88b5ccf7;0x9cd8e8d925ff8;0xfc84c96d6915];[0x0;0x2dfb3ee3a7a5a;0xee2dcb612ad87;0x2033ae45f8e3a;0x421dad0ef93b;0x1a468875f535e]];
 [[0x2ba13af4bb683;0xdf82a2f09cb8a;0xc2b7d0f8e0754;0x39630dcced543;0x1977ebe258da];[0x1;0xc81e7a1695db2;0x815a5502864f5;0x427235554755a;0xa6f65cfca8582;0x840dca01fde95;0x1];[0x1;0xa52ec92174dd5;0x546d1b6a05165;0x974b391baab30;0xdfe42c2f6a0b6;0x12bc924ac1809];[0x0;0x9ee7eafc9186b;0x52df8d834d25b;0xed1a662875eea;0xe5945a5d0be7;0x21aa3fabbfe79]];
 [[0x35234e9438726;0xe34d87def1486;0x8295cba779b50;0x5e2be183e8545;0x79e4d3bfc7c2];[0x1;0x56c98f5fb3b30;0x169c613b0f0ad;0xe4ca902b8867a;0xc955232370f56;0xe72544747ea51];[0x1;0x4c63be7c1a6d4;0x5a5fc4f18c255;0x68661ff463443;0x182002d49a027;0x9bfe93f4c4bd];[0x0;0x8d8f802af25da;0x1eb8da978d608;0x3a22eb3c5152f;0xd09bcfe8b62b9;0xc9c68d147b23e]];
 [[0xf6be414982725;0x328925f084629;0xaf7b63c762fef;0xd1a5b813680b6;0x59386552cae5];[0x1;0xe2c5b67991ab4;0xd654a3c48c39c;0x44bbea5b11d60;0x51b5aba895a9c;0x1c18aa4296a14;0x1];[0x1;0x75375d57d13e5;0xa4469be9c85b6;0x8dd8bdc133dff;0xc0249b3b92ad7;0x145bbf244c33d];[0x0;0xac7716a7f42af;0x1501ba856ca7b;0x4713e3c14fa35;0xcbb7b483d00dc;0x80c0e8e66f65f]];
 [[0x932eb0f11f210;0x4e1dc3935b7c5;0xbe1ba2c5afa2b;0x308528a44633e;0x898188f4b70e];[0x1;0x3b393cd1fafc0;0x623fb162aeae7;0xc3536b50a864b;0x568cb34e65c95;0xc25089c35c085];[0x1;0x9e11dbfccad00;0xf33a5427fef03;0x78d0ac12102f7;0x42e2fa9c9b8ea;0x1480c0e61433c];[0x0;0x34de8a2aebb80;0x6ee6b8bb1598b;0x84787839f4937;0x1ebb6a3031bec;0xd01c027c98df0]];
 [[0x5ac287215a311;0x2de020672045e;0xc90b831c17701;0x28ead95671898;0x786cbb6d767a];[0x1;0x5d8c776ca5cf;0x6498aaae68caf;0xb1f245965e34b;0x7af7da49cb2fa;0xe18e58930517d];[0x1;0xd1e4070cf200d;0x9bbcd9cd1b3db;0x6d43b99b71561;0x928226469a684;0x156c68b3f0431];[0x0;0xa67abf0cbe2f1;0xb1df310490030;0x4ae727f17007c;0xa3de4010c870d;0xbe6fa38865e44]];
 [[0x39279bb1a9a03;0xfcef68d5da1fa;0xc03d874005d4e;0x1c2d9c0275243;0x66c51025ba27];[0x1;0xa54a82bdf754b;0x5b61cba2e545b;0x8b7eb9a5bec21;0x7cd9fcd304447;0xb0cc88b86b44;0x1];[0x1;0xe9003c12a3ed5;0xae1b7aa1c5339;0x45a442577f45e;0x7ed04505c2e71;0x14475e16b974a];[0x0;0xc91b28a0ad80;0x53f5f4835a233;0x18bb6196f8094;0xf6d8bcdeb030b;0xa1ae35bf315aa]];
 [[0x10b9315bca930;0x142d3c84155a1;0x88228ebe1c163;0x1f6f0a7f12b48;0x3fff81a37571];[0x1;0x36e903c66b5c0;0xc037a2f0714b3;0x21a4279d2ee21;0x5113e1538cf22;0x3d44933ff71c7;0x1];[0x1;0xc5537edabb500;0xbbfb9257a5284;0x53286a129280f;0xf2f77c0c3ef7c;0x10cdff4d1d507];[0x0;0x3fa6068897930;0x4232e1e1979cd;0xeab79d6c32293;0xf204e1212152e;0x5a091625a7211]];
 [[0xc09de5a170b84;0x8df1e7d125187;0x542c7973f9157;0xe209298da873e;0x96747bc3195];[0x1;0xdc21ae7469838;0xdc3254026f6e8;0x5530a88b877ee;0x707f12f12e;0xa393d161a68f8;0x1];[0x1;0x75dcd7d93e2d0;0x2603efe6eadc0;0x5fcc68cd62449;0x1484fccc1c259;0xd8d8f543b3b0];[0x0;0x6a384333a1360;0xa5d8b25655c24;0xe8ef266c2fd52;0x68371924b3e51;0x6db89ffb6d24]];
 [[0x39183091b51c0;0x34573fb5e73e3;0x31300324cfe9a;0x1ee6be8362ce3;0x9b9ecb1da937];[0x1;0x2c7e6ac8cedc0;0x47dc1a832a95d;0xc5c46ad91e6c8;0x2b66701e03caf;0xa74e1e7c097b8];[0x1;0x23182e875d000;0x6ff7400d900c0;0x5c107bc613bd9;0x50f15a4dd2446;0xdeaabb44c7d7];[0x0;0xc103939dad840;0x2729825df3337;0x4f64c4f9abac2;0xf1b99bc9d97b8;0xede577ed794cf]];
 [[0xb945a9408b4a0;0x6ec3a472ea05b;0x2e00d8dc55755;0xd98c5a7265cf5;0x65c5d485bb8];[0x1;0x70249c147d120;0x86b6ae7fcde38;0x89ac9b1d5e96;0x21891fb6eee74;0xa286d71fea2a5;0x1];[0x1;0xa92b765439400;0x37bad73c0823b;0x88204af7e7605;0x4baea7c1ab359;0x17cf1d342c762];[0x1;0x9708638348ea0;0x5fcfce72025ce;0x953223c4db260;0xb935cfc779f1d;0xd7a3b354a4b9]];
 [[0x7c9a8d419c29b;0xbf7a40e617fe0;0x500f549602971;0xbc74af2851e52;0x47f2d3a5bab6];[0x1;0x7f46fb3c97cdb;0x26bd42de4bded;0x79926ec01560f;0xe727fda304d2d;0x2e4ce05a4647a;0x1];[0x1;0x6949e7d6ef065;0x902b43d61ee7b;0x57d7d4a45d5ec;0xfd66b61d78378;0x151b0af31e16b];[0x0;0x4bd9dc113577a;0xda5a8110b0311;0xb7edd0763f57e;0x288c7ec969638;0x60288df9d689d]];
 [[0x732258a87345;0xbd25fecca7a02;0xca2633077541a;0x5823e1d863094;0x5d1e0e7b46c1];[0x1;0x61a6abe628e86;0x76ead3c532d8d;0x9181983f64d23;0x7703bf9469f48;0x1573c0907aff0;0x1];[0x1;0x88850674bd025;0xee4458df7fac4;0xf42cefc6ea4a5;0xc2f052c193720;0x1713e0da85b33];[0x0;0xf7393cf052714;0xf10a0a2411b5c;0xae7c6cb77fb95;0x5e1b75a4d8e0f;0x90a24867b6fe8]];
 [[0x22b7554b40fa7;0x6646c1eb0c30d;0xccc23fb28c944;0xeafa468b31ba;0x96e0bba2cd39];[0x1;0x10973ae05c163;0x39472545bd883;0x8f6fc94467a7d;0x93d87ba09b67e;0xad8db6d4ffb50];[0x1;0xace3d8fec339d;0xe0ee25cedf7a1;0x96e0b50e6b3c0;0x9b3d067ca187b;0x124cf2f47067d];[0x0;0xbf618c47e90bf;0x6fc89e0852761;0x65e08b6c41618;0x93e408590eeea;0xe990d82073b81]];
 [[0x7314a28b5b581;0xb918f5f9af96d;0xfabc1ed634eed;0xbd505f007328e;0x63dc9a00a8b0];[0x1;0x12e40f14d6d57;0x2aff65f666a27;0x184f2e80fbd79;0x213b8eaaa2579;0xcbefddbbd198;0x1];[0x1;0xceba424c6e66d;0x8f57ae2c52a0a;0x7861aaf880c53;0x86ed5250a322e;0x1afedbc8141ed];[0x0;0xe4c86b271e0cc;0x3a149d3165c80;0x8987d1d581d46;0xe3340893b1c09;0xa38b7a7a94b81]]]
 (V [0x62f26eb8dc2a0;0x4a01b8c0f1072;0xdaaabd9991e25;0x2cec9dc3b0d95;0x19dcd1c56684] [0x25266d02614b3;0x7a71ef5757191;0x3a87c548da379;0x81f35a8c5a825;0x41d1a5004134]) [[0xd07c00f40485a;0x949dcab5eca55;0xd986b92aeb94c;0x8be793f8d03d3;0x93ca72c324db];[0x1;0x11a79977edf1c;0xe192d409a24fe;0x559a70a3e3caa;0xbc17b71ae7baf;0xb9595c2b46bd7];[0x1;0x8f42ea48354d4;0x8bec9bfbcca49;0x7c3dd2d26be84;0x1aa382600dc9d;0x24e60368a656];[0x0;0x121dd506a730a;0xaa3549615dc7c;0xf803519a33157;0xfb8f7926ec1f5;0xf27ea7a242390]]
 [((V [0xda98753c2cb35;0x1e9ec80a260c7;0xf221841c7c56a;0xe23a8f8f0b2a4;0xa17c2b4b973] [0xdbee616cdefb;0xeb8999f1e2694;0x90f01d6722740;0x7224493b5ae64;0x2484806c7700]),[[0xeaa9561c87b96;0xa2d26f2fae635;0x4393e0c42a451;0x849c36eaeac50;0x1d975566612f];[0x97144a150c4c;0x6879f30849ecc;0x48477255c02f9;0x5cd00c3657ece;0x24eeebe720e2];[0x1;0xffb76cddb1400;0xc7013f70acae8;0x498b8ed9d6043;0x7d97d0c422c7;0x3875198eef56];[0x1;0x7a90e3d477674;0x24ce4fa9fea20;0x2f87be696f7e0;0x8be43c5cedc6d;0xaddf1bf7635f];[0x1;0x9b484429b3c14;0xe3a7af0629c57;0x7751f9d4260da;0x8a62005157650;0x6010720ffd66];[0x0;0x19fba16fb7208;0xf922e64d9456e;0xac4fa3fa6c76d;0x5ac311173fc9;0x2799d8ad397b1]]);
 ((V [0x9fd09d24442f;0xcc49a57abdf2e;0xa1e185692e98f;0x476fed0c5e708;0x2cda68b1edf2] [0x22326db1c9a98;0x292a1ab571d55;0x99e05e9043f4f;0x4d99c14c19f78;0x5cd41dc14177]),[[0xdcf03ca1b019b;0xba31fb596d189;0xa5668f1a6d5ca;0x3c73bd3a9973;0x62d4576024d3];[0xb61e177df9da1;0x3e51626899ad1;0x9a98bc40c08f1;0x5ad6272e1ad20;0x60d227b69c08];[0x1;0xbe3397720105;0x30a739edcb796;0xd61b8c47aa157;0x81407b479e226;0x9e9dcc1a4484];[0x1;0x6defdafb82a0a;0x765bc583b5913;0x5cc5dc76e2239;0xb104dbe294c88;0x1c01120ff422f];[0x1;0x77c16cf477265;0x1d778d327f5ec;0x29b6b88ee8a0a;0xa1b3340b8e29a;0x2c3a0740bd1a];[0x0;0x4ee32b6e00a5f;0xb1b3ff0edecec;0x4d0378b7be8;0x94e2af2c5d783;0x9818b9b894e70]]);
 ((V [0x30a64d21be04c;0x5ec3e075ad027;0x63bd892c76cf0;0x2091abcabbedc;0x5a8360360946] [0x5faf1dbdfe886;0xf95362a9feb0e;0xb284ab5ec2373;0x3e49dce304c86;0x3176e74f393d]),[[0xbf2d1735fe498;0xa2997bc5304aa;0x9e201ccc8bedb;0xc7e078ca5bdc5;0x6763f37329a7];[0xe160ab4a341a6;0x4d8887223234d;0xfa187f62eedc;0x171d708ad7870;0x410af0d6364b];[0x1;0x738416157bb8d;0x39b5987d5ecdc;0x4d8acb0aa7f22;0x9f3cec085864f;0x5e1175aee5d0];[0x1;0x8f989f9e97a80;0x8b0e2a2a0e658;0xcf4c177473a64;0x210875177efaa;0xd6473b4e247c];[0x1;0x9c8c0cc29ed40;0xb1b0f7c51c007;0x73d4f44bd1374;0x358e8b1977ad4;0xe3c5e0aad98f];[0x0;0x3cb24916adce0;0xe7babd2730824;0x75291ffce808b;0xc616a055ac62c;0x9df224365e033]]);
 ((V [0xf6a3a29389fcd;0xb0bff5e9048f5;0xe5860a0ae1145;0x90d8a0e6558f;0x2a995a750a] [0xc9b6511b1a40b;0xb04abca4d2aaa;0x5540487561686;0x50b8b706a4997;0x5159b53d88a7]),[[0x31d07eb50330f;0x9401c2bd49fd2;0x891ab0308434d;0x268f8773e68c1;0xee70292d2b1];[0x16840c13f9194;0xb91a4617b210b;0x85266623d064a;0xd2327083c65e1;0x66432f856d78];[0x1;0x79b206ad98b50;0x8fc16195ab907;0x43a6033b0c486;0x21670c2127953;0x7393f974318b];[0x1;0x29ef33f24dfa4;0x19096edb625d2;0xd55cb0f88cd61;0xaafd4839898ca;0x1ffd4421f720c];[0x1;0xf11a6056708cd;0x383ee509197fb;0xa133c6090847a;0xccbdef387dbd7;0x128a2d714f3b5];[0x0;0xf3c5849088778;0xb9a033633e0e9;0xf7a2c238c572a;0x3798fdb8c9d07;0xc3d31f53fabc]])]
 [[0xb2a2d1b82c9ce;0x3a041486dcf2e;0x92e9fc00b4016;0x71995beb1426d;0x8197a5d319ec];[0x49071691adf3d;0xab412440544eb;0x3b98d76461dff;0x50e353e9e7586;0x6882a66a24c9];[0x1;0xc293f9f554275;0xc711e308ffc2;0xf851964cb4295;0xf021dda8a82c8;0xabeb81610bfe];[0x1;0x3e7ecb2b4b3a4;0x19d80b3e07bb1;0x23c1237ee14be;0x115090f9afa79;0x18ce8c83b960a];[0x0;0xc0b04e630038c;0x4209279ad3266;0x17259e95fecdf;0x4e3e8e664b7a1;0x2bd89ca8c9c9];[0x0;0x1aa3e33d6eb6;0x636ad5269e5da;0x5ee6a8433e2d2;0x7219dfec1dbee;0xcdf4f1fd7f7ee]].
Definition wit_C_64_15 : colwit ipt wit := mk_colwit (V [0x8cc2cca25ec65;0x34c50917af082;0x6fae9370079e3;0xb680c15d87f7;0x685b8fdddfcc] [0x2059efd421dcb;0x4075325348383;0x128e778380bcd;0xd6119d2f7856;0x5ca7fd7fde0f])
 [[0xa80dd2a99f46;0xd427b4938aa85;0x8ed9e42a7219;0xf84863b878b52;0x64499825289f];[0xa7b8f5bdce1bb;0x1da87745a543e;0x7937400643204;0x775d526975aab;0x96ccd8eac34d];[0x1;0x7cba52d96a89d;0xcf3f3d7036da5;0x7a64fe0ba1f6d;0xed9872ff904aa;0xee7c3f2c1194];[0x1;0x853b00100a6cc;0x3460889740c0e;0x3720f07f92830;0x2f8199f7c7924;0x2db2f7bd9a081];[0x1;0xb153f334b4654;0x37f6c7c6d664b;0x543fe0179ff6e;0xce4db7eda8667;0xea160140a47b];[0x0;0x1e0b012de9046;0x8b0ff131f1814;0x15dabf1b69ce6;0x72c711ad554b5;0x9ab2165bf714d]]
 [[[0x84cf3ff3b1030;0x9ff94d524ba30;0x5fd0bc8ac589;0xd4c7cfedb93b1;0x73a688cd088b];[0x1;0xe8d2231562e10;0xa2df1df786597;0x30d014354e6dd;0x191e660aa96a7;0xf0f2780250c01];[0x1;0x32b8ca200d500;0x53f0cda521dca;0x67cacd9d7c60f;0x7badbd263bb2f;0xf683df3a207e];[0x0;0x3feec510176e0;0x3b470da026aaf;0xfdc9762e21d2c;0xb3846d4fa2272;0xb16068c9abbe4]];
 [[0x99860e79e1b7;0x3f10ca3f2d31f;0xc94e44aa0f00b;0x5581ff1d0ee32;0x63e95b740246];[0x1;0x96ba72f78bcb4;0x1c1f4d333fe71;0xa28aff96896e;0x1eaf811f14a05;0xa52ca3c9ee1;0x1];[0x1;0x50903b5208ffd;0xdcae56fc37444;0x7ce131dbb747a;0x8e491afcbc9a;0x18f5168218436];[0x0;0xdb581da5f4ba5;0x9a6462445c5ce;0x3b7dc90e76a81;0x8b2b14772ac1d;0x974f252a0cfbc]];
 [[0x99429187344fb;0x3263836f90a99;0xfd575bf404dc4;0x25706f6843281;0x83ce81919e49];[0x1;0x9203fc80b5a6c;0x65009c30c20b8;0xd54f2e642cc3a;0x24c9c2bd15012;0xdb625a2f368dd];[0x1;0xaf3f71b797fa5;0x91598cb9663ac;0xee38c74fc4306;0x9aabf87d0282;0x13c554998c3a3];[0x0;0x49ed6c61e64bb;0xbb2dcd05ec2bb;0xebe931cd408ec;0xf5f664b3abfbb;0xe125f4602bd40]];
 [[0xf7caa7d215ed;0x393def8e6641f;0xd832355544ef0;0x6b28d639cc518;0x7a30ac07f06e];[0x1;0x73ea9b8ace506;0x99d159b2ece37;0x88b17b5fc70b9;0x212860dff8edf;0xe6f568ec551ee];[0x1;0xca7607ad514b5;0x734bb72897bc;0x6a65e9b0b1ea2;0x8fe6793ff9ce4;0xa78fdb8c39a6];[0x0;0x7c1489180f4cf;0xdd84656d4956e;0xde1ac42aba5f4;0x33975ab15018b;0xc0c65850d2d8a]];
 [[0x545bc8150e6cb;0x373a0a6f66f37;0x398b47e7b3062;0x4427a07328abf;0x55168d3aaaa9];[0x1;0x2f61a4df36fda;0xd2673ed3ed266;0xe326f9560abeb;0xac7aee180b087;0x19b97e3f3f87d;0x1];[0x1;0xe8544b5765d05;0x942cd287dd15;0xfbdc72d28d7d1;0x3825d4d0ec0f8;0xd017037f2900];[0x0;0x4c7fe1e8d61bc;0x988fa43f75587;0x5cd85e59d331;0x78711f023f4a8;0x77729fa52fb9d]];
 [[0x33c396589d47a;0xe7b680ab9ca45;0x7b321b3715571;0xa9eb7e2fa03b3;0x1fc926ed4534];[0x1;0x8884598774a42;0x823306c647463;0xe0009274b5a5c;0x87d7f4e2f90df;0x789359a36b203;0x1];[0x1;0xa5d2cc58ecd54;0x6af2f02ec6cd9;0xccfae389e67ab;0x47a789b60ab3d;0x17c545352f186];[0x0;0x5fadc423015cc;0x180d9c006e7e3;0xd2130d318c06b;0x3e0139885b321;0x1f90b23d7c041]];
 [[0x4df91ab2afcea;0xccf1ee95add2f;0x99046176e0ef2;0x9e67cc2fdeec7;0xfcf2d0b6f42];[0x1;0x18690dc940734;0x68b48b7d999bb;0xf3b6fa909db4c;0x5d47e48901d78;0x93fa51cbf38b1;0x1];[0x1;0x6ff23b1f17e14;0x9b72c9b3818fe;0x530ef2842f7aa;0xba31a4df3bd9d;0x247ee47567814];[0x0;0xe77ecaa7d42e8;0xe3a8fa3f7debb;0x4bf96fcd3327;0xdc8229fb22008;0x68dcc0fad28a]];
 [[0x8c26a394f64cc;0x3526bf16bae52;0x4fe08f2a9d4f7;0x46140d080cb48;0x7e18be244b40];[0x1;0xc8b6398383dac;0x1fce31dc8c020;0xdba7772930884;0x19134bc325647;0xde40df9b273bb];[0x1;0x436f6d7b40750;0x4f9974dfaf738;0xd22bae1e2cdb9;0x3976b2a5827a1;0x17704f439a6dd];[0x0;0x369d162aa4b20;0x9b7853c03502c;0xa8a2304c4ffe0;0xf509d63d90553;0xc85007d2ca685]];
 [[0xade609fb11f6f;0xd5081facdd728;0xe9979d1def489;0xfefff7523ff80;0x29d4bd32157];[0x1;0x1e71a48f6ec54;0xcd8488717bee2;0xabf5c2eb10011;0xd6429fd5a3d23;0xab6c7177882ee;0x1];[0x1;0xd07e250f6af0d;0x36bff3930e37b;0xdfd577a68070b;0xc03fd12bf503e;0x1d114e3528f8d];[0x1;0x81c704d3ac22;0xf03d2b56f3b01;0xe27668dc47249;0x3c6126d78068a;0xa276852405cc]];
 [[0x7cbb0366fe4f6;0xaafc56e452871;0xce3c3afd8ea2b;0x50e5ce74ca225;0x8279c3bd8a51];[0x1;0xd3f97e880f0ce;0x7c5e44112d0d2;0x3c283409f6b2c;0x4d123a975ac92;0xdaadc0aef85c4];[0x1;0xfcd53d881294;0x9a1de33127400;0xf108444d55031;0xec724f147e676;0x1713edb19b721];[0x0;0xda0e283edd244;0xece4c69a09c41;0x2d6f2a2f6d556;0x95223d45b57bd;0xd7d01e954bf5a]];
 [[0x6926d8863b78c;0xf3e4b7ea14d3a;0xe2f0fa3cefe7b;0x9422a9c79beea;0x334b44006f87];[0x1;0x6ef21649ab338;0x952b1599dc9f7;0x225b96fdf19d0;0xa9f3d246eba3b;0x5ca5ab5cfc825;0x1];[0x1;0xbdcac7c379150;0x6088179c38c9f;0x9de4ff1b2071b;0xfb8948daa16f6;0x158e484c7d61f];[0x0;0xac2fcc9d064bc;0x44cc51cae94de;0x7123a023cc12d;0x69ced8a44015b;0x5060193cdb311]];
 [[0x88a065f909d4b;0x23c7c9fb9d5a0;0xfd20f3957b7f2;0xa61091a8ddee6;0x4a6eada6ae68];[0x1;0xf269798040e10;0x34ee4c792b309;0xd284e1c0a32bc;0x46ccfd388b8f6;0x3a8e41a8f7149;0x1];[0x1;0x34d869890e005;0xc3e449b1b43f9;0xcce7204022e0e;0x3266f594f5fd;0x1349adf68f1ba];[0x0;0x9e1bd77f632cc;0x4fe676eec4ce;0x4e95c7b4d4371;0x572534b4c1269;0x71c759d2ad26d]];
 [[0x851a29c590420;0xfd6176b3e1ad9;0x162432cc7cb11;0x688904fcc7a1;0x44d7f8e61ebf];[0x1;0x83d5e845808e0;0x9ac9917da57ce;0x11721170fa6a8;0x2ae8ff7d5710a;0x36a19760c4446;0x1];[0x1;0xa354fdfdab400;0x5a81d60c05b29;0x289265c82a229;0x7e75fac0b17f9;0x1a7af0c5e4dd5];[0x0;0x713c599b7d1e0;0xcac0c2b4985b9;0x3bbfae6880908;0xf6f34d0063136;0x63281b1ecac4a]];
 [[0xdea7fe24e2327;0x41bdc93fa89e8;0xe4f52742a78a0;0xca63e7a4c5dd;0x9acdc4105872];[0x1;0x4b7940c199f25;0x931e8068f4075;0xf25b3d2c191e;0xeaa575c0619e2;0xb553ed8ce71cd];[0x1;0xd8eacc820909d;0x69082534851bb;0x8e203ab64828c;0xaed8f8ee29be9;0x1e1420d49e8c5];[0x0;0x39042aba6753c;0x32dd114385196;0x7e27d3407238b;0x30225c77e0e50;0xfb1470ad4a912]];
 [[0xdd0769abf6c58;0x2c1d45ad73b5a;0x4f2229c5bee7f;0xad60aaceabc78;0x2731c6edeb12];[0x1;0xc8f939ae24770;0xaa74170117096;0x4aec3c6f4bf52;0x11bed01806820;0x6f02403b8069d;0x1];[0x1;0x7fedbcc81e140;0x6ecca3b26f8ac;0x2f3b0f97d6a9a;0x4ed5b7e0e7d66;0x1e8327023415a];[0x0;0xfad6e67d6b538;0xb49b005961bed;0x3301545747b7d;0xfe290044ed507;0x2b14fb9dc9c81]]]
 (V [0x8cc69de5841e6;0x52ece36c54e7a;0x5e8a6ff224adf;0x4e907634aa6d0;0x4e5b1cb45734] [0xdc7c0c7368c4f;0xbbf48c0265b57;0x6843012891de2;0x390f0a686324d;0x844b6efdf287]) [[0xec6e9ea8f1d7a;0xaadc3f46fef9e;0x96e0be1e0c953;0x67a1050c2a613;0x7e702d5274a3];[0x1;0x18173d9291484;0x5cda1e1242ff2;0xeeefcbfbf4d56;0x6f933e5b878ed;0xce93489da1b8a];[0x1;0x55838d5b3d154;0x1bb3f0b539a6;0x5803fd0279e29;0x57676d8d4e858;0xb9247cacc126];[0x0;0x94db8fb14d2ce;0xd5bf82832c4d1;0x153b8b4d96e65;0x7509a0c1c100;0xb751be3089eab]]
 [((V [0xbb63c12fa627e;0xf36c192c07053;0xc9502df903bf;0xb4884b8224824;0x43624db4cc5f] [0x69c5f3baa97d7;0x9333e6fdf63f1;0xed66540f03e7;0xa2e828452bc40;0x395fcec09d50]),[[0x859146e756da3;0xb76e52dbe8de0;0x21957c327999;0xdcd4a4746578e;0x30657c5b2785];[0xeb60bd32e5c7e;0x380f92f2b50c6;0xab5d9611976ab;0x333ecc3c134e9;0x8921125376b5];[0x1;0x194153bf493d4;0xdba3f3f9f2ba8;0xf8d4d231a172f;0x4ede0c23f5811;0xba204924ce8a];[0x1;0xa1afef9662192;0x68f1d590fcbd9;0x205a43e298dab;0x6192cebb83c14;0x26316428da55f];[0x1;0xc35033e51f595;0xe4432b7e2375c;0x1b1ac8ca04a9a;0xfdb1427b35460;0x1619698f26613];[0x0;0x3141075e6f559;0x91f31b49d988b;0xaa5f2a59d359e;0x9d9258455292;0x3e61bf8019604]]);
 ((V [0xf2e9811831d78;0x6d4121c03667;0x50033041309d8;0x8a442f6e55e69;0x866dfdf38e8c] [0x58e4a79a5b2cc;0x6d34ddf0fa0e0;0x840ba0760a958;0x348bb936c07af;0xbf60c072f11]),[[0x61000ee5e65b2;0x87d2a3cf66de3;0xa85935be0edc4;0x92202b8d9b049;0x42a0eb73e11e];[0xb8473d17a7d0f;0xb4f45791c31f1;0x941e9642a75bf;0x9fa2f1bc3c308;0x176ed90f4d6b];[0x1;0xa85930e3dbb4;0x8c4755d46cf09;0x80a54996041f1;0xfb9738ce5012a;0x95ed21cf4b1];[0x1;0x4fa122e27eb4c;0xdd8c7e55edaf4;0x2cdbd218801bc;0xa0ecc7e6ab263;0x532633613bc1];[0x1;0x4ef6a4b39b274;0xd84d557ea9797;0xeec248314850a;0xba53ae8a305db;0x19e4e1e41cb57];[0x0;0x8e94fc89c870a;0xb8305d40e58c5;0x52a528a3c8b8f;0xf21238078738d;0x67835b8b6007a]]);
 ((V [0xa8ec14d4b8f64;0x9b82393a73326;0xc2dcef3e8595b;0x95095eba8d634;0x3bac35aa7b36] [0x5d62fae4a7dbc;0xdd933213c2a71;0x48843d0c3d205;0xe5359834443d4;0x8654bf510984]),[[0xcfc4749d4870d;0xc35bc57867993;0x3b6707c13712e;0xae6525640d217;0x1c0bceaec365];[0x5f9003da24bbc;0x3a882f4d16e91;0x1c966c3b74c89;0xe61f08a928409;0x9398e9c79da0];[0x1;0x2a120b6ae2340;0x22d12a15b8c39;0x5248d22db58d6;0xd4a6f40504da5;0x7eacf3b5ab8f];[0x1;0xd4a5ddabde658;0x94922b2e4df76;0x31dddc361dccc;0x12d8709a70fc4;0x2e4b83cd694d6];[0x1;0xb331ef0e0f4f5;0xb50bddd4c3680;0x4dbd9cee028d4;0xe1f481df0c589;0x21761f0343901];[0x0;0x3d0b8a36bd9ab;0xa2fcbdb2cfb58;0xfeda05942e697;0x2c230f91abdad;0x2121104ea8fc3]]);
 ((V [0x6792d72129d6;0x70868f336d510;0xbac972cddba71;0x847fc568b563;0x76bd1fb9c9bc] [0x9afcb427a4f66;0xfda24ca1c7861;0x82e8daa951aec;0x23faae44debf6;0x819b1feeb041]),[[0xafe07d621e0c1;0x6f58d7c618b9d;0xaa72156a72b80;0x3e5310616ad4c;0x173afedc659c];[0xa1b25bc539994;0xdadae839bd0af;0x7fac835303750;0xac1aabd9c63be;0xba7566a880d];[0x0;0x830a5b90e9630;0x2edd8f71bc9a5;0x50e7fd7af7cad;0x5c68574b0e763;0x3b5fa9e6e68];[0x1;0xac01655376c18;0xa64b00acd3daf;0x72e02816e9ca8;0x535e30b3359ad;0x220ad596b1cb];[0x1;0xc823bef754aed;0x768ac4b2c4d33;0x81708fd5c3c48;0xf8a15aa2709df;0x1842e9c377674];[0x0;0x5e6082020dc65;0x29288619d824f;0xa79efd72631e7;0xc619503aa8734;0xb83a2ef1e7bd]])]
 [[0x5cebcde845e47;0x28a6c1a0cf161;0xbc364f4cd5cb5;0xc4fe338cd1800;0x29db5bdcfad9];[0xf412641ea3889;0x5c64bc7455898;0x11b45df5697c0;0x14c63175415fe;0x118877604ba];[0x0;0x7be89d8f4bcec;0xf472f30dced7f;0xd19dba8055bf7;0xaf5f37d1ff14e;0x58cb4a04af13];[0x0;0x75bb8447f6afc;0x1f69ec6525d09;0x194ec6817a35b;0x19468142672d0;0x2facd6e45ac5];[0x1;0x1bcd4da049d5d;0xa968f40eed3ad;0x715762e6164d3;0xeb9858613c73a;0x22281734acf7e];[0x0;0xdd4dabb4c72e1;0xb0d9436d1739d;0x35c32c76bc314;0x8f3d3534c9553;0x35719ee5c1abe]].
Definition wit_C_64_16 : colwit ipt wit := mk_colwit (V [0xdcdee18e8c83f;0x3aff8bf941d5d;0xf69f3ca815a7c;0x34c5cd4dab35b;0x49b006398571] [0xbfbf74d42fea5;0x9e4fe564d1410;0x8ecad31355fe3;0xd1dffeb481d62;0x41842bd82fce])
 [[0xc6d0742cc003e;0xc27729a96d852;0xe264df703105f;0xa5cf41b4f8213;0x3b956f5f9ec0];[0xa5163d6a640e5;0xc6c4466f127cb;0xee70c5898d47a;0x6ef7c34aa7064;0x31a05b40c131];[0x1;0x124098c3a60b4;0x7160ba34436fb;0xefdbd6678eb67;0xca721f4548d71;0xf524b9820b7];[0x1;0xff1157aa99ba8;0xaaaa380843de2;0x8b3d3f24fb9c3;0xdf2f8b30c4d18;0xe69ce2582e1f];[0x1;0x3befa69dfc0b4;0xdce8ae9c475e0;0x3099862df3acc;0x110cfe54e70d7;0x1b0a08588090d];[0x0;0xcac9085923458;0x16df668e8b650;0xd132c1973b543;0xc751240716089;0x5a5392ca90553]]
 [[[0xb48125ead63e3;0xa03abcedd34f1;0xf6436c744399d;0x3a17d063a7e4c;0x3656b4d76415];[0x1;0x4e6cb615a849a;0x24fa5dce6dfdd;0x83f0bcd9bdd6d;0xf11485161716c;0x577ed4428b7d6;0x1];[0x1;0x4815d36716d15;0xda0d39ba72ea9;0x68b93243e0fae;0x7cd4f78e61d37;0x19f82d7b3ed66];[0x0;0x1ebf87033d7c0;0x46ab6e9e3216;0x23b7493190065;0xb28783cb2a921;0x4cc4cca539e45]];
 [[0x1a68dde21ee9c;0xbf0f32c85f017;0x87244b9a57da7;0xcf06d28df376f;0x565e3981193e];[0x1;0xee501240edbc;0x1ba5c71311ea8;0x9b6ce7202f29d;0x4eb30bf833290;0x1a76722e4f4a5;0x1];[0x1;0x4ab4f752fb9d0;0xdc0ad3a81aea5;0xc45da8a308391;0xfb14a1abb8e27;0x18807803170ec];[0x0;0x914a85e040430;0x28ef31462c6a8;0x6164f53db18e4;0x7f8267235a497;0x7c47a72a28069]];
 [[0x3ee04603a8ceb;0x69f288c3f0a90;0x531998a485d79;0xe0f13f23156b3;0x393689e5c31];[0x1;0xc032a26dcd100;0xde97827cecf9e;0x276c55e0bdbf6;0xf3dfbbf28f556;0xa6e40767555c1;0x1];[0x1;0xe9a64c9de0c5;0x2cb4c328e0e52;0xf1b35ed6df194;0xb716d3b1f55f6;0x1f16fd21bfcc9];[0x1;0xa933632ecc3a;0xaf96f7228131f;0x7d3f2fd16a290;0x68f37c616a1e4;0x8c266a8095c1]];
 [[0x83d0591009a72;0x17c46d510503c;0x4a99bc95ee8bf;0xf19af1e615c67;0x2ce372070e70];[0x1;0x2ba9773fcbc82;0x4c0fd070a9812;0x2b4a42c9add36;0xf68034c6a20a9;0x66faecafc5852;0x1];[0x1;0x4649a52674174;0xea7a0fc818cb3;0x8ce8aa923c17d;0xa54836382a7d3;0x18192ff0e6ac5];[0x0;0x90484a87d71d6;0x6e0ebf749c610;0x575adce783970;0x7928cb4ca2dc8;0x44c13f010fdea]];
 [[0xc23bcb8148f4a;0xdcf9e571737da;0x77195e3caef91;0x2b86b6328a737;0x29038e21d7a0];[0x1;0x9966188fb348a;0xfa0e138310acc;0x8527bd4703c06;0x4ff80f1dc61aa;0x6d89cb8ec284c;0x1];[0x1;0xed76c35295394;0x66a043dccd2ab;0xdc3f43f26c63;0xe4646cbafbd1c;0x129566998b51d];[0x0;0xf260e170e69fe;0x9812bc11140cb;0xca8e552357189;0x67dcfade04342;0x3b3fce8b7e31f]];
 [[0x636c0f9c7226c;0x60c6f24660adc;0x2d8497476245a;0xdc9545cd59bdb;0x78eab18a4cf1];[0x1;0x988297017da4c;0x334e6a808437;0xe9adbca38c4ec;0x710f8d33a18a1;0xe467047845262];[0x1;0x1e31217ee4650;0xa5f34bc3d13c9;0x9aa794b7cf0f9;0x8c48eff852157;0x14c6571cb37bb];[0x0;0x2e20bc39ba0bc;0x4a698784cffee;0x67a33af4b754;0x14b6b2ff63d5b;0xc01d1a8dd5a42]];
 [[0x5b4fb2350fc8c;0x9769abf9ecb2d;0x60c9e780de807;0x6acacaaf9bc66;0x7d1700cb314b];[0x1;0xfc1f907f7c1d4;0x7949a7d6c15cc;0xff21da8b2309f;0xd1e10b9959bf9;0xe23d1c07301c5];[0x1;0x31850edcca950;0x4afcbc1f6e952;0xd61a6f691672f;0xe4a261eb4db4e;0xf3dc6757467e];[0x0;0xafcbfc5ba6540;0xbf279c90456eb;0x9dbff106ffd18;0xc6cf9e6c197e1;0xd3270f56c7e5a]];
 [[0x2fc8578d33422;0x134c1808ec5a2;0x97dfcdb1bb69a;0x23e19a6836830;0x90ffee0d66e];[0x1;0x5ca6a333700a4;0x1dff91c6b87c3;0x83c368bc78433;0xfd92c91b78975;0xa5f90924ec121;0x1];[0x1;0x9462214575834;0x1eca8e6fadf5d;0xd2e5fdb2aaafd;0x37d4679391b63;0x1432887e12146];[0x0;0x783c7a17c5cc2;0xdbfb564b7eb5b;0x9512cb9bcfa04;0xfc5f305ce43f;0xa799be175664]];
 [[0xca3396bcfe357;0x25d6da506ddcd;0x8a592c3be0360;0x67aa9e320fd49;0x364833bb7da7];[0x1;0x60bb98c7808a4;0x374a9ee84d864;0xc28f9d89935ae;0xe29712237aeed;0x588ee8fa73ef3;0x1];[0x1;0x8e7e04a271fbd;0xbc0e826ccec8;0x4a7d089fc474c;0x17361b458f60f;0x206f95a216368];[0x0;0xa03f6b1cced13;0x29b64122ed0a9;0xef168582dc0cc;0xea2f2c706a63b;0x4fa09cdfdcd04]];
 [[0xafaf3aa13998d;0xeae80de48494b;0xa241a138e4ef6;0x1ecfb8fb9d9c5;0x43976fdd2d7e];[0x1;0xe20e228be3ca;0xab1c92144fd51;0x9f584b2e1bfce;0x7b63acfd44339;0x3efadc754decc;0x1];[0x1;0x32705fe9301f5;0x180e4f1616fe;0x475a693d3af14;0x1b7071cf31cd9;0x1b7d940fc68bc];[0x0;0x1babb3743193b;0x12c159da54cb9;0x99d5a6e204ec6;0xe0a544413c662;0x66ed066b01c2d]];
 [[0x4ab8a050f0492;0xc3edc3f79f7ba;0x8dd751694c40;0x19b6b359e556e;0x3cbda0849d94];[0x1;0xf90737d1994ac;0x4b872d805ba03;0xd59c147d2d242;0x52879b1d1736c;0x4a34ae3eb240c;0x1];[0x1;0xa61d6cf2bdff4;0xdabd91bdddab8;0x706fe7fc9fc46;0x4fc013266cdbe;0x119f87f905ad4];[0x0;0x36164412f31de;0x9d19b34d33f0b;0x970e7f9b9535f;0x34e2d0dd127fe;0x5fb3dc6c0ee92]];
 [[0x910770edb98f6;0x129a618342252;0x890e27ae1b10a;0x4b4bee5d06cfe;0x162eb6ad32d2];[0x1;0xbbca4f06b5b1c;0x8209423df5b6;0xd7fac40358441;0x219aa34d4c29d;0x8fbe630a977c7;0x1];[0x1;0xb0617cfa74294;0x6cb5f2079daa7;0x79b5dd50b468a;0x8c0d77dea48fc;0x11714a433ff68];[0x0;0xdcff3201096c4;0xce297107c7792;0x7779b3ae57b59;0xc13d7c09a36c5;0x1fe4f6146e928]];
 [[0xbec63d671de75;0xc767756f84117;0x4c510e016d8d4;0xa7a6691fcf18c;0x84e441542eb2];[0x1;0x9b596d82433eb;0xfb3497f22ab5;0xbeb87b89a73a6;0x6c0cba8f723fc;0xd0e6b3e6386ee];[0x1;0xc9de2dbd11f85;0xc4e40b0830027;0xb214648c3dfdc;0x97cd990a8d16f;0xdc75edb11b76];[0x0;0xd679d63221958;0xd28b3c2a73d7b;0xcc258bd906795;0xe156ae030c234;0xd6ec64c26a82a]];
 [[0x8455e76cded27;0x5366b53cc1c1;0x3880e32a5adc0;0xc669ef3cece11;0x32535a7e65dd];[0x1;0xe841065dd764e;0xea66c0a09cf92;0x314d103d844a3;0xf99e92095043b;0x5e9f78113181c;0x1];[0x1;0xbc7fb11d32c9d;0xb6a8b8f7d64e7;0x6bdec620aecbc;0xbad3fc17a8bd8;0x17a7ced93b142];[0x0;0xfa0b54bd2247;0xbde7aeaf71c2b;0xd59946ec3c5d8;0xf5301d5370247;0x46d969b69e4ad]];
 [[0xd0965fb4e335d;0xe837bbd9dd6dc;0xe6882a0e90459;0x56e0944736ea1;0x8447f1b84fd];[0x1;0xd829cc73fffcc;0xcc0b41273905e;0x9682f84eca6c4;0x93339f11f2ebc;0x9e29b603d3610;0x1];[0x1;0x8394b302d6795;0xbdd21e6ac9ad3;0x6b3d6aa2f3b63;0x83ca4ba7cc99d;0x15a259f926855];[0x1;0xf4b67da71f055;0x2a5c3f18d3939;0xacc8fbe05184d;0xa805d33ee1dd6;0x2ae9bc1d647b]]]
 (V [0xb7b213f6e726;0x6432f3ad2f07a;0xd577021dee729;0x389d13431bf57;0x319a685c1026] [0x573218db19a79;0x5c912f1bdc505;0xad6bcb0b8d959;0x6336e96de9440;0x1e0f0368fb30]) [[0x4507f83811481;0x7b122713e5675;0x170592d8b4624;0x1f0c03f62130a;0x87a04113131f];[0x1;0xcbb6810439ef7;0x4e1a86a149847;0x3352378ffdaee;0xee5a3872e9c31;0xc68062a1fb5c8];[0x1;0x3d32de5c5cc6d;0xd822a6988d51f;0xca8c06abaa13c;0xf3754b3df5ebc;0xd8206de02cb4];[0x0;0x819df9f7925c1;0x3b4b245e7fc1c;0x5db9bc0747487;0x1da30aa5c6959;0xdbd3da593f390]]
 [((V [0xca3be4db644bf;0xde6ce4cc24e7d;0x95cf973e66aa2;0xa1d7495702e4a;0x37ff6449b880] [0x8efb180d37ea6;0x6fab58bad5df9;0x7ccd2f786ea56;0xf99ba5ae70d6f;0x6002df35d6b2]),[[0x40449e4331cee;0x42732b7ff0a73;0xbd7968feaf85f;0xab98263863ae3;0x18d46a4eb6c];[0x5aa0801a6b3df;0x5965061ad1e5b;0x5f914e0d74157;0xb16009a29c80c;0x6aab88f8b6f7];[0x1;0x7aa5d29f826d4;0xf1f9b384b7ddc;0xaa2811d0bd839;0xda52cd7223aca;0x9fa98ed1bcbd];[0x1;0x632d8fc60ff4c;0xfe206f1391f8c;0xad7afb0b31090;0xacd96b6e92e46;0x21e74683d0774];[0x1;0x8dcaf6ede21f4;0x34c1baa35a734;0xbe8e98d0aaf19;0xc4882f8a2bc64;0xff4bbe7eee12];[0x1;0xcbc3c03dc8680;0x46a9e6506a0bb;0xc9568d78083d3;0x65caa7c6b2a74;0xa58c98e429be]]);
 ((V [0xd44d89f72b979;0x4097a1ad5ab56;0xd1f4b2fb785f;0xbbd0e012b13cc;0x3c76769b69ed] [0xfce8a2e2c8d78;0xfbfff7caa8985;0xd3b463980bb7b;0x7c0c8b8de528b;0x99295f6719ae]),[[0x5252273bc0093;0xa0a66b31e4556;0xa29ee60bc4645;0x5b902691e8900;0x8a1cbdda55c4];[0x8c7ca551de327;0x3c7bda351e887;0xa918d6c633d4a;0x4ab5bff97c54a;0x2b02c5fdc393];[0x1;0xc3497db565bed;0xb8334f579c972;0x6375d2cbb1972;0x4631137c8db8f;0x329a7c0f5f8c];[0x1;0xbe1330d248bd4;0xb362914ada624;0x5c1f8c728edf9;0x188b9e3aceb19;0x3a7a73c08ca6];[0x1;0xc14b31c5d5fb5;0x90466bbd3b067;0xc10cccc8b3524;0x9ccf6b42df802;0xa11f4754c95c];[0x0;0xe0bf3bf5e7737;0xe740ee0f5e6c7;0x2a4ab517b0665;0xc198970c65f3f;0xcf32d8b438bb4]]);
 ((V [0x36dab168829bf;0x185e82942c1bf;0x2ecddc2748278;0x23c18a82ec1e;0xbfc91206cba] [0x316d7eb04254e;0x7bc854d23eb03;0xf3dda6e7df6bc;0x4ffea79599fd6;0x4a85c66ad88c]),[[0xca5ebacd463a3;0x9054ae866db50;0xd81b9b755791a;0x65aff924c03ba;0x676ac4e2799c];[0x5556c2a721d94;0xe1c30b929ba07;0x5d461d7ba2482;0x8ea6cbb807a19;0x7c65c9141cdd];[0x1;0xfb18bff8cfadd;0x363bf3f00c4f6;0x80f7f6e07c1c5;0x64ce4acfe2a65;0xb524c73af7a9];[0x1;0xc0905df43c690;0xdad4cb4981871;0x7d2a8f7886da6;0x16ad2c4954054;0x1aafa00c567d1];[0x1;0x4d9ac28d3e995;0xea94a269ab411;0x9ca344e92432e;0x9ab8a22eba68a;0x95eaa5806974];[0x0;0x824d55fff545b;0x3bdd113cef769;0xf447cb6a82ff2;0x9c7f5d9d10fb7;0x991eeebdf54b8]]);
 ((V [0x9a65d1f14fe6a;0x56557a5fabd5b;0xfd242cd5025d7;0x3730e546acbde;0xdf5bf366b8f] [0xe4998ec9c1ed5;0x969d8bb48c1ea;0x2f2c325d8008d;0x93e6b10cf719e;0x5ba227dd0023]),[[0x408b4ce0a1b19;0x55854cce90195;0x9d6449928b0d3;0x9b66f5138c3c3;0x8ccac1a47c1b];[0x397b51aa95ccc;0xce2c3d2fdf866;0xb648e5a45fd5f;0x9f7c73fabe125;0xa8b9e58c957];[0x1;0xeb972c5a1d9ed;0xa9922edc175e;0x32e0e94e20b42;0x8a8294f83d617;0x106c89403dd4];[0x0;0x49002aebe0974;0x82cf2ed54ee08;0x8d66da6ee97c1;0x28e00fc58ffd;0x422a019b272a];[0x0;0x9a3162d3900e3;0x1113a5e255d61;0xd8076680a3385;0x6f90accc9553c;0x40f97e587864];[0x0;0xb2cfb004385da;0xa2a9dcc93894a;0x211e7fe4598df;0xb6d1692e4061f;0xdc64589eeaa58]])]
 [[0x2044fc7c10bb2;0xa6e120ee066d7;0x729cc2c4aa728;0x8acb1904593bc;0x563a5cd9597f];[0x9cfa5f946b842;0x55f199cf2fc9d;0x95690563ad8d7;0xbedbf0def08e2;0x1843fd06a6dc];[0x1;0xe1d8a80efa414;0xd5e91f0497003;0xaa56f63246c3a;0xeff2b535dc4c8;0x26aa2d5635d0];[0x1;0x24e886c795824;0xeb2fa089e3e1e;0x7c3038bb3549f;0xf7e0086e603e5;0x22d76a33b5e4];[0x1;0x95cdebbb3aa74;0x39d9cf30f9189;0x8030eb7298b38;0xa0c4db26e584d;0xecdb1a437efd];[0x0;0xed0386216fdb6;0xe1ba97daa5975;0xa1cf27f9db852;0x80ab185a5269e;0x768ef7cfd4b15]].
Definition wit_C_64_17 : colwit ipt wit := mk_colwit (V [0x61df0f5788b41;0xdec1b4439d639;0xac38045d7a825;0xdf7db2f13f791;0x1fdee5a16ae3] [0xb7ac74a297e1d;0xe68c19a828a2d;0x319b42b78f51f;0xebf260a1aef10;0x8ac77315e645])
 [[0xca7767c0afc1d;0xbd93e18a5d4b7;0x25cc4c8bdf06;0xa89f30174dd42;0x4842c968e186];[0x40735c8c40e0a;0x4a9b2f69b8e9e;0x48c74b9d455c2;0x87cd15d2762f2;0x2ff9c0ecf306];[0x0;0xda1559a7b224c;0x3dd9bebf04f1b;0x4f9e1100d69b;0x41a8a61f024ed;0x3862adc60a32];[0x1;0x22ba5e6a71dde;0x96685267167c5;0xc8573a4c266a2;0xf8bb535575c4b;0x88139d3b0337];[0x1;0x161893ce42d15;0xfa3528964552a;0xf242c2974d942;0x948e4f27f3920;0x1f048c9031990];[0x0;0xd7128bd2a2cf6;0x41330ec1749ea;0xd773ab9bbb2fe;0xa9eab8aeba56c;0x61f845bcbc593]]
 [[[0x2d6367cc740af;0x964575b4a9f67;0x557a7f6d96333;0x46981aa793e6f;0x9020d7841135];[0x1;0x66d445a920bc8;0x57c867aabf41a;0x217902e352e39;0xd0e7fbe2e1a8b;0xc49e361c538d6];[0x1;0xcc98f5e59e68d;0xdcdd77b768729;0x5d17c17fe2f33;0xf1ec0c20986ce;0x166bbf983d0ee];[0x0;0x9b9cff137546c;0xff222b07b0ab0;0x469acff623696;0xf81d83555fc36;0xdec5e6137dafd]];
 [[0x69c05577b01a4;0xf744c369f75c2;0x493b44e77f58f;0x99a28af0428ae;0x9b50447bba94];[0x1;0x6b0bff812e45c;0xb7242d5d926a;0xf80d85f2eee32;0x6dc3f2150d723;0xb508e3d18c54e];[0x1;0xa3b6ba85d3d0;0x549eb19815edc;0x65e407c0cae7d;0xa2de85b5adfbe;0xb113ec0d0fa6];[0x0;0x862ac781d0280;0x9b49fac9262b7;0x749bb2df230cb;0x5f07dfdd3eb1e;0xf82efa1e4217b]];
 [[0xde979e4dc57a;0x870b170f77e28;0x8798beb3130f3;0xb31c0756289f8;0x919dab98455];[0x1;0xfa7d1d8e5b24;0xe4462e43481c6;0xe17ca0dd939f7;0x9aaa0d6a54fe5;0xa5318ec6f118e;0x1];[0x1;0xfa835ee097154;0x8f8c38146b366;0x4ba50063c7da8;0xb99675a9532c;0x13cf7f5def47c];[0x1;0xa7bd5c92a38b2;0xb98488eb286e1;0x2e3862dc8e75d;0x351552caab80a;0x1bfdfdbbe22d]];
 [[0x46db0a79d468a;0xdf70ccb34ef0b;0x3a25282c13493;0x34d279ac01fd3;0x251c36b34cd0];[0x1;0x99727f54d27d4;0xfa17b2b398808;0xd97c97b9bc732;0x8840c0106170a;0x79c44aa4d6e88;0x1];[0x1;0x66cbff770c094;0x48cde7658c265;0x5d7655673bf15;0x450f37218c640;0x1447b43a8b976];[0x0;0x9ebdc77bb6fa4;0x910a47d3f8b7d;0x481538d9a4eb2;0x89250badf536d;0x2b86d3527c689]];
 [[0x2b90210097fee;0xc45b3b713a670;0x6c3600be00f6f;0x2aec2d7103c87;0x5c6d47912aa1];[0x1;0xb42ae9a5da82a;0x66c8956b02ee2;0x38db2fd9324ca;0x59c93919a8dce;0x16681458a4090;0x1];[0x1;0x92949996fa5f4;0x37fa4aeb5cda0;0x2dec7800b14a4;0x3d7fde22d8eb2;0x841760954364];[0x0;0xe4534367acbca;0x86816f125ec12;0xa512154e0ed49;0xc96e05258c19f;0x83cad52713fcc]];
 [[0xedf4d11cfa5b6;0xe749eb7b72f75;0xf7211f9af38da;0x394c2e92cc7d7;0x722298501731];[0x1;0x36d2ccf081d12;0x70532f3acce95;0xc577c7b06b7f2;0x70d7238415cde;0xf0c27f93ad05e];[0x1;0x998546d87f94;0x950e54f9c1eab;0x71691510a724e;0x7588a07000439;0x225a5c1e9508];[0x0;0xb1f40a17609a0;0x25da56a39216a;0xa22de65c647bd;0x59f59179921bf;0xac7cfb72e00eb]];
 [[0x6317fb5c80781;0xa3fe5f4ebdcd9;0x97831c9d40525;0xd378cb640ad86;0x17909a625d33];[0x1;0x8ea0281599d16;0x9a22616c76119;0x31f4b6fdbe2b8;0x627d89148e3ec;0x8e631e2211ed0;0x1];[0x1;0xe1994f1deba6d;0x51cb90a119c5b;0xa7a62b6305c46;0x3f35ffa452cbc;0x141869eb014ef];[0x0;0xf9fd944006045;0x852ef498cdd51;0x2b401df725d3a;0xcdaad7fd6195e;0x1da4ebae616e4]];
 [[0x6f159e3839e8c;0x1171ce71fa75a;0x7174e502cecf2;0xb33a3a2ca2d82;0x2e20b485ac10];[0x1;0x61927769bbf10;0x9d16f1ae3041c;0x81c26bd3a379;0x48d8bed2daf4f;0x71bc47aa9b0ff;0x1];[0x1;0xf34dff3e21950;0x589ecdabbed2c;0xa78bd5137e2f5;0x7ca10d53f06c0;0x179e0f9d1890f];[0x0;0x5225e7c6c8b5c;0xc5066d90bd8c1;0x10d9d7a3e4d32;0xc500a45767f28;0x4871898dc2bb3]];
 [[0x352d52ade6007;0xd6c7230620b9f;0x1f00a301c6a72;0x9ab25a60c8667;0x8114f567a087];[0x1;0x34be08a51d006;0x775fee06fa21e;0xc97dd319679c3;0xead819bde621e;0xdf6d7bf3d2967];[0x1;0x5cef9fc10bbdd;0x6955499a54402;0x9b5764414d63f;0x34eedcc1fd788;0xada983753450];[0x0;0x8933d4dff8ddb;0x148c9830f1d;0x68809ef5685b;0xbb471735709ec;0xc6522027f97b9]];
 [[0x17301f7c8ea61;0xe83e968fa72ef;0x99892a80c7c0d;0x8b74831094876;0x3e0d16e4d1f3];[0x1;0x944611cd05cd8;0x859921ac83637;0x3cc6aef99727e;0xf97fe8546114f;0x4afbeb330ace7;0x1];[0x1;0x736f16949c12d;0xc14ba21b8190c;0xa2f9c86cfda09;0xed60d271102e8;0x17d07f7e06418];[0x0;0x13e8bac7c73e;0xa754f1b7f3738;0x4bc856db18bee;0xfe90afb258708;0x55f56aad60c27]];
 [[0x6c5337fb7626b;0x945a8fd046489;0x4bc54df1ec7b9;0x68ac310b6a180;0x338cfac0ca40];[0x1;0x3ce255363e567;0xe463b0d65e1c1;0xaf6188d21ec0c;0x4ad51386964d0;0x63a917ed8d89d;0x1];[0x1;0x33bb91a6f25c5;0x34deb2f48159e;0x55b081b7dec42;0xcb850d5f9da85;0x193157904dcaa];[0x0;0xe20820304c3e;0x3622c5add455c;0x51cd68f9a5786;0xb35b4f0ea5568;0x4cf9a58b2e1c9]];
 [[0x2afde3039f68a;0x9e8c77bb125c8;0xbfdca24386933;0x89a27d601ac94;0x6702fd02b4ae];[0x1;0x87a9b6e9f4d5c;0x66a75220247f1;0x1f5cabc82e04e;0x6c753902427a1;0xdbeee5b30b83;0x1];[0x1;0x7426b912b8094;0xce010d2cfbe80;0x2b9ae55d34e85;0x9e2da929b2ccf;0xdff3635b03c3];[0x0;0x41aef7ff27a5a;0x717c43233f2fe;0x40341788d4c70;0x7c8c84ce4131d;0xa6d6e16f32584]];
 [[0xb9434147d88f2;0xe576458f049c9;0x43d09cf593347;0x4378c695bbb8b;0x15d8f3810489];[0x1;0xdc2f7272cabd0;0x5a43ed83dd971;0x417267b07dff0;0xf5544698bac0f;0x9636283e47927;0x1];[0x1;0x4d9f9023da374;0x17a4df65f6c78;0xa67a8e9ba7b1d;0xfcb5b7edf34c2;0x10635a2d4ce5f];[0x0;0x166cfb989041e;0x829c4fd4ad813;0x1df114040e719;0xdb1c3ca057d3d;0x19738061cbee8]];
 [[0x128b8819b183d;0xab041143a4f97;0x38edf53aae42c;0x9628a050bfcc9;0x3cd8b2a3c408];[0x1;0xd1768adb4678c;0x91713cdf4a9f8;0xe7ca2d1c6943;0xd351adb36d500;0x50ce2f752eb7d;0x1];[0x1;0x196ae36652f55;0x4990d92bd194a;0xeb3aeaea562de;0x5e2af6044055e;0x153b664dbb247];[0x0;0x84f40afb6bd66;0x88a8cb146317f;0x30c983afbe90e;0xc6929d0beb7e;0x551feb08f924a]];
 [[0xbb3d9abf62d45;0x31e8034aba7e9;0x7dc8ba49e2630;0xe1e996583e3f;0x55cb1f87b283];[0x1;0xcf5e3098e5f5d;0x6fc12da9a938e;0x335430542e4ef;0x52c525fe3d82c;0x278bf87229deb;0x1];[0x1;0x2e2f7fb2c425;0x380b3647fd0ef;0x47d4e1b22ff4;0x8b038d553f642;0xf01e0b46f9d3];[0x0;0xdc11cd4b1581b;0x9f2fcc95b46bd;0xf6ecee46c564;0xb1b7c84e980dc;0x7e3286ac5d937]]]
 (V [0x617d9ebcd520b;0x2bf5aaa7357fa;0x31c86aade7358;0x23eb6331ca200;0x76ef0d90d33] [0x99282656bab11;0x169c161ec4cc;0x215ca391c2c9c;0x8dcc9b3c1579b;0x9b0505f9dcb6]) [[0x1abbecae5ab1f;0x21318377f65b0;0x3dbf0d0f2bdd2;0xca90cef6e313a;0x34b29eab0d78];[0x1;0xbdd12241be39e;0x3a06f7e007078;0xa2d1c4399dd69;0x34a6fcf40a805;0x54dfcb0142ec5;0x1];[0x1;0xe5eddb07f122d;0x5c108421afbbd;0x45d9f2229ef93;0xfe640e2ff2a34;0x118e532159cbe];[0x0;0x7c6623cb40f3;0x4c37bc4339c42;0x4369b6c003ba3;0x6d45dcdb0d117;0x3cb764a0b59e7]]
 [((V [0x3baa9f625309d;0x8ed474f2974b7;0xd6b6012e64b64;0xf2e0ea92e0287;0x2876e7f2bd8f] [0x2fc7db141deb5;0xd7f64005bc2ea;0x76e6d12188dd;0x2ad484cebb94d;0x739ec288e1ba]),[[0x6c45cb5a199b1;0x74ffe7f5d2eb0;0x5ed2d964cdfe4;0x8196b39ebadd2;0x3f4a638dae0b];[0x4b55601d8557a;0x5c04704eca8b0;0x243770843bf22;0xb12f311e1835a;0x43dbf28d6174];[0x1;0x94f8d9cf52e85;0x7c4fa25a0a5ab;0x3c6ce86096ff0;0x7afd837eea086;0x6f460eb3b0f8];[0x1;0x3943dcc51d85a;0x90d3d7d71c38a;0x2b95a3b8c3ff;0xf243a556e3ccc;0xe16e5a586dce];[0x1;0xbe5271378fc4d;0xfe4d8cacbdbc7;0xf8fc7cf2fb6c9;0x6116b38a4f1dd;0x4147c2b2cafd];[0x0;0xeab3c435caeb5;0x172451dbc4796;0xadb417dadd125;0xb7b7d00db5cc2;0x4e2354da61060]]);
 ((V [0x8e5471fca15d4;0x12fa3ece09162;0xbb1e3deec8084;0xdf154dbb96d73;0xe7dea2ac3ae] [0xbdec6b0412e34;0x4943b5885099;0xe1ab5e4a14fa8;0xc6e5ee39df480;0x93f9e3498b3e]),[[0x30020290d5a44;0x62eb18cee9914;0xd603e8b92085b;0x2d45d76530cce;0x8149588e7919];[0x93f476cc2b253;0xe6e2e9233880f;0x400db3363d6ab;0x1b73aa6888414;0x6b70ed29f819];[0x1;0x11f637316ee15;0x82e8b68684eb2;0x10c97e82c1fab;0x9e4baebd3a26c;0xa638453f7d4e];[0x1;0x8ca1c5219ad08;0x7fbe9eff0418b;0xfd7dd0a3709fc;0x95eaf505cf60d;0x162c08041fceb];[0x1;0x3988f7b0eb0d0;0x86bc704b74c81;0x3c0e5258599e4;0x4043f42e6ecec;0x318f7a45160b];[0x0;0x2c70eba4fa398;0x2bf1fd9ced1b9;0x2fe3d3437fdde;0x98ac28c897eb3;0xc06b2128bea26]]);
 ((V [0x1dec14299500c;0xaa53f4b637f71;0x507969109b620;0x4b1c2c35e1327;0x6a7e35491469] [0xa63efd73204eb;0x8b9b7110b6777;0xcafdd03ef79f6;0xca1684b857650;0x6e8af23b7ad5]),[[0xe3224cf5657dd;0x9162b1a0b744b;0x9fdf5687b16eb;0xa0759a8b4213b;0x7f112d8e3de5];[0x8e4c3116146fc;0x23c43495e8ffb;0xcaf8f70975a9a;0xc438e60987e00;0x3713f4bc434f];[0x1;0xd0217d2acd850;0xb8139ccd9253a;0xa82d4746553ad;0x6376f37a23022;0x5941089677e0];[0x1;0x83132d666a628;0x3ba32911364f3;0xb42dbb184b252;0x8fb3614feb75e;0x2ecc80f0fa2d];[0x1;0x23cdcb0294895;0xd06eba2dadd54;0x7c31f3076dc4f;0x39f1c3eb2b32a;0x771bceb608d7];[0x0;0xa9d57af2ed3c7;0x9cb8882474462;0x5a1f0486388e4;0x8632d95bccf7a;0xb726d511577a4]]);
 ((V [0x88a031846ad53;0x129712832419b;0x3ec1b4f0257b6;0xb02967042bd54;0x46452deb67f8] [0x720d07d3283ba;0x9111adc675d5c;0xd68a3aea00a7d;0x5d152573e41d5;0x240d97ca323c]),[[0xbf0fc54ff6671;0x2aa27f25e74e3;0x1fd311a455548;0x3d34e1698176a;0x6208912e43ba];[0x2c69b3ff26617;0xf355d2636134a;0x5c21d6b8364e3;0xf822aa6cc6198;0x2ce83c3bfbad];[0x1;0x68d7b4df6ad50;0x3e3bb44dd8c9;0x306ac2c1af2ea;0xb984c7c2be75d;0xffc2543701];[0x1;0x2a3a54e5acb3e;0x4679c73559661;0x1fd1c60a2e2e2;0x2f58c02587976;0x62fb5a497766];[0x1;0xa48532e918fcd;0x47f302ef0d06a;0xa1baee8bc488a;0x3c1d377423809;0x19433d97cfa00];[0x0;0x3e8c73f9d01f6;0xa33d114f0f7d0;0xb8142c30b887a;0x5978f9f91b702;0x97c9223a408ef]])]
 [[0x5256d9bf7964f;0xcf175786760b;0xa969f037889c9;0xd990d2f9ab5cd;0x9800585d4a65];[0xb1934da891ec;0xd165ad39b68de;0xe2bbb717ece98;0x3e035098b8508;0x95630abd02a8];[0x1;0x59c021b00fa35;0xfb0161e038b20;0x60d89e407174e;0x1405f87895980;0xd603235f2d54];[0x1;0x6934128c69edc;0x8875612dc2936;0x76c56b5afdf70;0xce20c90e767e1;0x2ab6f22134582];[0x1;0xb8ccc008c1c4d;0xcc48babbf5288;0x4a3355f617d84;0x94720970c9564;0x10310a29dec9e];[0x0;0x94b75ee520723;0xccb323f70b9b;0xe62c5805bd840;0x12092b48f62d6;0xf42ee3b1fac7d]].
Definition wit_C_64_18 : colwit ipt wit := mk_colwit (V [0xef1f933fd781b;0x5166e524fe6bb;0x718d4a7671f48;0x47ccfb4acebc6;0x158a22e9cc54] [0x4f46e1c3bce3f;0x534d0089ea0c7;0xbe2aef8e77d45;0x467922113c10d;0xcb24294b91e])
 [[0xd7ac6d9bde5df;0x4fcdef106ec11;0xb336152b123a6;0x7a0e39f038831;0x28c901930d37];[0xfd12cfc4b98c6;0x6a8cec87f3e96;0xfba6d61ba8581;0xa92990a4996e5;0x36bf87394247];[0x1;0x49e5d5fd53535;0x71bdebbe08ca5;0x29dd66f0680e7;0x9d0c76f761e69;0x1038929e4bfa];[0x1;0xc0a7360794310;0x23a7a7c66cd;0xe6c07ef1c9f33;0x654f621a516ed;0xfe675fc6c3b8];[0x1;0x2a90a696e4aad;0x31c44c25da785;0x4d0c7e2709fce;0x1703e6e5f663;0x1796c43ded669];[0x0;0x891010382896f;0xb220167eb35b0;0xc9a2f7a5aed5b;0x147839edc275a;0x3e90847d56ca4]]
 [[[0x8da601171c3a9;0xc99eb47f53121;0xb4a5b29d6e16a;0xaf5becb41c686;0x7e655428b72a];[0x1;0x3a4dd32ee75f3;0x71c01ded1ff3a;0x416fef5c20609;0xe4e313daccfd6;0xda009bf8aaccb];[0x1;0xb6f9a749c5bd;0xeb7440853b9c0;0xbc06abcb307ae;0xeeaabd9dc52b2;0x108a3d473f414];[0x0;0xda8ab27bd811b;0xbaccb1cad35bd;0xd3dd74a812a33;0x7b2e1ee2e9548;0xca213673c006b]];
 [[0x7acb2e1214625;0x896be0990e96c;0x7cb3e6a7855e7;0x5556d07b4329e;0x87d147e15c22];[0x1;0xb6138b22cc25f;0x43ee7c492add6;0xeede4c38ddc97;0x123a564153b2e;0xcaa5eae80d5f6];[0x1;0x698a659b0d1e5;0x57ae384ee2220;0x8c33189d73b3f;0x5ec21b39ed418;0xa0d22fb3021e];[0x0;0x468f056a8e960;0xfa938254b8231;0x8c99cb546dbc1;0x1a780780711fb;0xdd74dfd96331a]];
 [[0x12013ba26f544;0x2274e4b033d38;0x1ba738ca8f174;0xf2a450916911c;0x20970c1d98ed];[0x1;0xf2f2fc6851f38;0x16e4334143004;0x8971c2cf7a318;0x8db0d39a311a3;0x7637895c876b8;0x1];[0x1;0x39443635f28d0;0x46277b0a4c687;0xea67a524b65ba;0x49c4135f2f069;0x8d56b7d3d88f];[0x0;0xd3d1be5843f9c;0x13d57f191416f;0xc5c6a1fb10ee4;0x93ed83de4e873;0x298727517df9a]];
 [[0xa1ec82a098a8e;0x41a49884da129;0x9165e85605f27;0x4103c343fc8c1;0x798ba5872c0c];[0x1;0x2202e584c727c;0x65250e8ba42b7;0x132a58e5e6650;0xd7fcd246a539b;0xda679c13d2939];[0x1;0xcfe59015c5d74;0x40d168eca7f5f;0x53c11e41eee94;0x4f38dada28521;0xa7faedea80d7];[0x0;0xc664140e43e1e;0xd52bb4c1ddad0;0xa6d29a23acb6a;0xc54652e434ed0;0xb3b931ae1af2c]];
 [[0x9c87cca3d1832;0x151631af0bacf;0x96b223099767c;0x17411ac4badf2;0x94157c0a3368];[0x1;0xb5b271de88da8;0xfb5e4c05201a3;0x950a3955c4a55;0xa883077cb2036;0xb2dc932c0825d];[0x1;0x6c730bdf6a474;0xf379d38ac5390;0x535c0df072f10;0xd1ea4a1f32b1d;0xf07450073625];[0x0;0x9e87415b34fa0;0x27dffd1c78e56;0x294e194d21b0e;0x539811e8e70aa;0xe6c17d6109de0]];
 [[0x7310d2436b831;0xb0410c6de73a0;0xf67697f6cf9bf;0x974e5db22a2e8;0x1f1f8933add];[0x1;0xe2754b969738f;0xae1c0b5a14126;0xd5e494dc3b8d2;0x614913cdc772e;0xa35f14f8c4002;0x1];[0x1;0xdef3a0861654d;0x2399cc310d92c;0x670c62922a271;0x7d285c82b2c55;0xd038eee00b29];[0x1;0x2fbf4461d78d8;0xc189f1571e9df;0xd86b3b43132a9;0xd12bd824010be;0x8b7424eae2ae]];
 [[0xc9e3921b5102a;0xd70a502ad84de;0x5a891dc9af09a;0x22b2c8713bdb7;0x1486af2c392];[0x1;0xe51a49150e834;0x1ed3a50bf75c9;0x88f22fb5c6988;0xdf82bb9ad98c5;0xadca0c3dcdf80;0x1];[0x1;0xb633a70a1ab14;0x6bf179c8ef1e2;0x7db764fe9ab58;0x29bf0f28a6923;0x683c13360fee];[0x1;0x1cf298863b82e;0x3e091b5e247c1;0xc6dc94e801d96;0x2831ecadbeb0d;0xb714f05746c3]];
 [[0x4e1ac4d4f722e;0x7868152176c51;0x321cb596867ac;0x935f2c90687d6;0x3c72b6669934];[0x1;0x1d2e8a62baff0;0xb4b8f6cf6c00c;0x2ef681c85b714;0x5e69d950bcf12;0x3f17f06a64f6f;0x1];[0x1;0x5dba2dd7338f4;0xf3c0e45bdacbe;0x44850591a152;0x40641f3f492d6;0x60789f7e9a33];[0x0;0x9b32ea8ef19f6;0x8dba344ea8a9c;0x965927b2aabfe;0x6c418a99b6902;0x586ed32acabff]];
 [[0xa5df34c508ad1;0x819e256ab8a55;0xeb5bb9537cbfa;0x19d22f57b9279;0x185a69bd55a6];[0x1;0xd8350aa652c06;0x2ee6fef554962;0x47e77e4c30513;0xf7c48f9d53921;0x870e126cba090;0x1];[0x1;0xb3943d4c9e18d;0xfd51d6a83a284;0xab4cf9991132b;0x39b82e3edbb9f;0x526180f0e845];[0x0;0xf715ab34d06d7;0x5848f168aaf30;0x8ceb623c5bb46;0x43cf2d5bae177;0x1a081275eb849]];
 [[0x8836ec31c5738;0x1fd9c762f47b;0x159625e9ccdda;0x9a3b636c217da;0x365bc6165fcd];[0x1;0x6e5d6e0cf5bb0;0xc40e2ef92346a;0x1f3d0d59b22df;0x5bf7acfd20ab7;0x4714c14df207e;0x1];[0x1;0x565a4b8c0c740;0x81cf1d1c26248;0xd85492522c2b2;0x71d20c36bbaf3;0x9f20cb87d6a5];[0x0;0x31a7a24718ea8;0x64a36f1b77a41;0xd517e8f85e483;0xc996c0bb2cc26;0x47e9b1812c0c9]];
 [[0x1fbb3a3b12d8d;0x9735d537dde59;0x90240cfb370a1;0xa34d638efe37e;0x50f66f82a44d];[0x1;0x6a630a5c90d2a;0xf31b1f1fa0b47;0x668235070356c;0x81bfaa16fdf92;0x26bc37a487305;0x1];[0x1;0x3345a17d769f5;0x2ffbe7faf9dfc;0x8a6bb83719dff;0x371e895d58a64;0x1522d98e35085];[0x0;0xd079e0749242b;0x7302e3e86083a;0xb54ac8c19e94a;0xc8ec1334f4d8f;0x82ab9ae665937]];
 [[0x6e0b4471200fc;0x796089a12ef29;0x10777117bd461;0xb171a80ba221e;0x43ad7087573a];[0x1;0xb196e14f416a8;0x6d43910254b65;0xd0ebd903120df;0x56220bcbecd71;0x415329b2ae9d7;0x1];[0x1;0xdfe7dad230ed0;0x3308ea82264fb;0x62fb0eff7f9d0;0x1dc3ad431e956;0x1028fcf7a869b];[0x0;0x2ea1e2d5b2448;0xf3996d8137b23;0x83293c03ef4ec;0xae8548b2040bf;0x70d8a696bba4f]];
 [[0xbff5f024a8ad;0xc87a28990401f;0xa9cffbf81ca44;0xbd08e87440b67;0x72d8258c2a2b];[0x1;0x68832f52ee987;0x9e4fedba3ca1c;0xb85d920840b4;0xff162a90bde48;0xec5cd4089270f];[0x1;0x77c5495748635;0x9e392d961d7bd;0xe7fa90e8dcac2;0x59cab1fe3f667;0xf243cb6472c3];[0x0;0xb78cd30820747;0x6b7e687916c63;0x32e2bdd41832;0xdb5e72c28fa36;0xb2aad9479b0d3]];
 [[0x7f37002dadddc;0x79d306f89101e;0x30c5243423ee0;0x64460fb0b6c4;0x4a3905f9be76];[0x1;0x5c9d80412b134;0xc173ce73cadfe;0x1fdc362db9487;0x7fa2c3dd678ac;0x31cba011aa651;0x1];[0x1;0x4d1740eb4e7d0;0xc62ee29c60579;0xf31550f57e997;0xf8dd5aabe2c37;0x1effe7f84c369];[0x0;0x36fe53419aaa8;0xe012124faec82;0x980219c20ff26;0x37de9c31a47b9;0x709005566a09e]];
 [[0x4cae5f1248df6;0xf99279d93a4db;0x94c51757d3f5b;0xbc22fcb5c4a47;0x5fec89837b40];[0x1;0x1b22136c238e0;0xf5c2fb9381b90;0xf92bfc1d45083;0x66f789b5fbbd8;0xde7f39c3bda2;0x1];[0x1;0xad6d8437bee94;0x4c65b11efcd2b;0x61159c398ed86;0xf67d3fb66f702;0x196390b2a5e34];[0x0;0x747e98528e1a0;0xef61f50098183;0xefe44fd385d0c;0x1ee9931e7febd;0x8d8c656ea1558]]]
 (V [0x7e9a567c2748c;0x5bd13e7dd6469;0x9d0f749836d2b;0x360e079b454a9;0x86a27ac33a73] [0x9b13457de48e3;0x4bce41748d026;0xb3ee6b492513c;0x37b5924a62968;0x5905f9f2a4c1]) [[0xc31d6f4b3cc3c;0x86aac69fc840d;0x4a8f5747da04f;0x16ef78a2f68ea;0x551397ed676b];[0x1;0x3502389791aac;0x36271306a1832;0x6edf48c886af9;0x64e99046f25fa;0x177744595ab28;0x1];[0x1;0x6227972388cd0;0xfab76d037f30c;0x6875a712cda5d;0x9f86b5037d8d0;0x2137eb3490062];[0x0;0x5fb5c1f0bea48;0x27c89950a45e9;0xb760c9ef24b38;0xdaa69261f1e43;0x76269a067591a]]
 [((V [0xeb08daac1c4a5;0x3a7d64f0890d8;0xdd88dca539122;0x76745617b4808;0x3622d22f141c] [0x4a94672f2713c;0x8b95c0a135a08;0xa5d3486652f6;0x771b5da957c8b;0x9b403fce2404]),[[0x9cc416f4a345b;0xa079b5295b9e2;0x110890df3a96d;0xbb235a0de3837;0x7f3ac0adff05];[0x61d39313c591b;0xa3fc5625853cb;0x1bb8a31769aa2;0x6a6ba16f32b4;0x90b04cac565a];[0x1;0x7a9566aa6e950;0x2831b8d80a111;0x21251e10e61a4;0xa27532de8fb3b;0x79894f45f63f];[0x1;0x548e049b3ccba;0xa36ada57a331c;0xd662322c66906;0x91bb5322cc665;0x2491d4343e37c];[0x1;0x7ffdd1dd35ce5;0xa54185a1ff696;0xb68b963aae6ca;0x3fdef4f80c672;0x1abfcabc4d3fe];[0x0;0xa5eb3c7ebe740;0xbaa83d2a24766;0x9ba2f1bbacbbe;0xf08f42689aaf7;0xc1b2cfe706b59]]);
 ((V [0x8b0e8c3e43afb;0x2ed2f5ffddc7c;0x119e4681c299a;0xd365808e0a68;0x772e681e42c3] [0xeefd643bbc327;0xcdb6e44455e2c;0x439318418fecd;0x3e5b70919422b;0x600abfc8ee7b]),[[0x3e0e304d32c3;0x1becac503923d;0xf9c40555b06e;0x88758b0fbec41;0x972cf6c690cb];[0x9395e66109af0;0x7fcdb6363510e;0xdd0dd95dbe333;0x27114fd233ef;0x96919c2539d8];[0x1;0xe01695254cee5;0xc9471f8e71653;0x588168af10270;0xe4efd7b414cc6;0xe4dab6e739cd];[0x1;0x478193d462148;0xa689fee205d72;0xbb2dfb4960386;0xf4f716cf91bec;0x1ca10db331578];[0x1;0x9b86c27004955;0xc79d3794a7f23;0x9a23b9c249296;0x18e60a108cffd;0xe34e6372eda7];[0x0;0x74f6f1bb902eb;0xad5179cc4baf0;0x16f0d04fb276e;0xe4326894c76c1;0xe152d67937c5d]]);
 ((V [0x7468684050f2e;0xc3f9297f933a2;0x6fa84cc1088a7;0x4e26533ec86a6;0x7d1a467fa80f] [0x1c779e7d5ec44;0x1dba8aa35c07a;0x5ddab028e854d;0xe11be318318ba;0x79c804b98937]),[[0x44b1a897e711d;0x9a32a164cce40;0xbe0c7948125ab;0xcf87b52c63a11;0x76ae0091022c];[0x7ed1986246cac;0xe7851891884e1;0x3b8f77b600b01;0x61531e547e267;0x8170403b8a73];[0x1;0x1b158087e13a5;0x5fad476cb9eb8;0x9ad3935ef26a6;0xcfabec4de345f;0x79a75e97f173];[0x1;0x10ca69abb691e;0x873491c016691;0x3382e839fbf19;0xfaac9afff05a4;0x1fcee5e473efd];[0x1;0x778aa06ce8715;0x1785343c39f0e;0x1c3d4c5e2d42c;0x4631cd3ca4f6a;0x1fb654c00e638];[0x0;0x9e8616d67bfca;0x7587bf9b59fed;0x960b31f5dce1b;0xaee81307200ad;0xb1983f887d9ed]]);
 ((V [0x3b0b7be4e2a7f;0xa2b16d4fbfbb7;0xd2cdf149acd99;0x2fbc6b70b280d;0x1930a50f0293] [0xf1127bb17614c;0xc39af71e0f7bc;0x84e93ad9ca4bb;0xe19218ef1defd;0x7665751883b9]),[[0x862f849b82358;0xd98f82cc3bb3d;0x3326a1935991b;0xf18c190db3c8a;0x83a206144a53];[0x4219b0fa55d;0xfdd809b431400;0xbb468eb8ff6bd;0xc3fd1674382cb;0x40fd0164eb18];[0x1;0xfd05374a234f4;0xd064ebdab1914;0x922d1d8daac09;0xdba343ae7a7d1;0x65686f9c07c];[0x1;0xdf3b5ae071fc0;0x68fb9ae3666a4;0x58e7ec27d05ed;0x4f54164ab4c47;0x8356563ba96c];[0x1;0x57c7912887140;0x974896a75c68d;0x7935d6cf42518;0xe5f952a79373c;0x155af7cf804df];[0x0;0xc6bd884dcbc40;0xaf88224d343b8;0x144dd477bb74a;0x4a8faff06e0c5;0xcab817390c2bb]])]
 [[0x62914ec90f4bf;0xaa9123d1defb3;0x5d4fa2c9cd6dd;0x5823d1dcea705;0x597a5cd55020];[0xb894b72d7c52e;0xf02edb1fe884a;0x6d8ed23c62c03;0xa1b4eb717586d;0x3c098ba47c75];[0x1;0xfa07e631a266d;0xd618b7cee2024;0x7e0f132983e26;0x6680b350ca793;0x5eaf2c20d433];[0x1;0x475134074e748;0xb4f23eff7e71f;0x7c00cd363989e;0xe4900e7de0440;0xb0c5c397b66b];[0x1;0x8948691647bed;0xb23694db8b070;0x9d0a904458820;0xe2150b7431de0;0xfcd0e42a95eb];[0x0;0x862ab5d1c0067;0x3217a85ff8180;0x7474585c4fc47;0xf7be1b261203;0x8026d9fff69c4]].
Definition wit_C_64_19 : colwit ipt wit := mk_colwit (V [0xe8b1890a25688;0xeec0bc17fbe9c;0x89b4a7a670d5d;0xfb1638dc79307;0x4c8f2ceb2744] [0x4161e5676104e;0x58308a519d5c;0x2c80e4f44ffd8;0x2a10ebba40224;0x7031177a39cc])
 [[0x3fede25784f4c;0x2465605b4c8c8;0x65a9b07304d5b;0x4005549d234a0;0x9a1764b9b965];[0xb855f4bd0b820;0xb6b21bbf57752;0xf35e4750c151a;0x4792ab3006383;0x781bf08477c0];[0x1;0xd27f0ea1ec85;0xe7281b2c1c022;0xcc3a1caf7bfb0;0xdce54b8710773;0x5131d9903ed7];[0x1;0x26540fe619e80;0x66cb56458d783;0x9769a33b9c32c;0x171e88279b63;0x1df94b2929b60];[0x1;0xde529512e5350;0x56a1745822a2f;0x437d0cc7f90e3;0x595afe22dfc8f;0x1a023e346725d];[0x0;0xb48656334c2d8;0xb5cc4a2eee2a7;0xfed15984d4b6f;0xd35e24b3f651d;0xf558b703f8fa4]]
 [[[0xa7bc397bbd9b6;0xa9374631b1b09;0x355e50a69d6dc;0x7672a6dbdbb10;0x4038c97048a1];[0x1;0x156076393c428;0x14b4bc2a109bd;0xa181cd593c995;0xc306b8e2e09ce;0x49eb180a0f094;0x1];[0x1;0xfc0a628ebaf94;0xb40d97b051bb0;0x9ca30b4139e03;0x489ab4391dc4b;0x1d6bede675f15];[0x0;0x5884ae1d734ca;0xf8f801dee009d;0x1bf17cf4ad8f;0x6c7fef360d131;0x624cf3aa48708]];
 [[0x84a9f02434f2;0xb5dc40c8cbcf9;0x98184f9a4d918;0xb17696c1216b;0x89353d9502e4];[0x1;0x1675e36718830;0x34a5493f67e19;0xff69600fbe2ad;0x83ade31ec2db;0xd0580c0b73926];[0x1;0x1b288a50b1374;0xd248d616ca2a8;0x362ca1c4d3ecb;0x30a0bcc3f9068;0x17f8b0aea41ba];[0x0;0xa1ebbd6dd299a;0x359a1c5b80154;0x531e1a11328;0x37ce7939c0fa0;0xd101b74eb9955]];
 [[0x27306e5b0f639;0x85f93565d1e09;0xab355087d0487;0x4a4e73a475c4e;0x9b0cca1f33f7];[0x1;0x77fb761bf828e;0x1cfff5e06f0d0;0x365631b65f384;0x7160dc482918a;0xaa5661fa501ec];[0x1;0xa74172291ea5d;0x1d4d21e62956a;0x44576d9ce5870;0xc0651a8c2fdb5;0x193e879cdc49c];[0x0;0xb0f76250dc7b0;0x7d27d9201e7d5;0xa1d4078e69616;0x6e93fb4132135;0xee99c0f4f3f59]];
 [[0x9801c3b985195;0xcb4b58442bf54;0x8f04964dd85e2;0xcdff649d9f212;0x81db26ca8851];[0x1;0x32e6aa38bb59d;0x458cf764146be;0x286925be6fc20;0xa6863bc23e597;0xda527776b4332];[0x1;0x3dbbcb1140dc5;0xfcc861ef05079;0x3e20a9be848d3;0x4925eb26fe163;0xf651ba11184a];[0x0;0xfd85c505888c2;0x2fd2b5b1747a0;0x6e93a264df81d;0x95b01c5bfb899;0xd116d67773d07]];
 [[0xc0e60e15e1911;0x9fd236d9c2d1b;0x9b4b375ccb373;0xba58a86a32daf;0x41174098c350];[0x1;0xd3bded3c00f6a;0xd49497859b07e;0xf4e52370665ce;0xbd7f74783f725;0x44ecb511e3d56;0x1];[0x1;0x592914fc75c0d;0xefd757f5fef19;0x64585e2fb08b9;0x3fc15228d40a;0xa1247b35d739];[0x0;0x192d2687b5390;0xbbfe7b005d04e;0x4d02accac92de;0xac6ca7cd462b;0x63adfd78a77a8]];
 [[0x760b128ada9fe;0xe2f85dc7ca84a;0xdfbfd5470a84e;0x6b42ed84cb6b2;0x63f84c5fefd6];[0x1;0x1549ad1911556;0x4bbb08049270d;0x1d4243546551;0x6d25096d89de7;0xde110c30bff7;0x1];[0x1;0xa111aba26d5b4;0xbd68853863c9f;0xcd26d6f8cee1a;0x7140f7fc5995c;0x1486fa26e3e8d];[0x0;0xe9fcd83089e2;0x20b090ce63d53;0x11af468fab02d;0x257a3810df834;0x94817b2559027]];
 [[0xb44ff5f785290;0xa5726a825e877;0xc474fdd18973e;0xb1e6f879df205;0x469751c60713];[0x1;0x6cc44ef62c890;0x29405063c2912;0x13ac1dc8096b1;0xe3e32bfa073fa;0x3979ecae8d585;0x1];[0x1;0x3b7eb3a64bd00;0x5739f7d1f2ec9;0xb2cc6830970a8;0x778ea57c7ac24;0x175a423fb3c5a];[0x0;0xaf5b378c8a1d0;0x515a546aff49b;0xe041b399a916;0xac5791e4e7468;0x5e0674bba5532]];
 [[0xd661d75db0120;0x63e45030f66e2;0xca84841ef85cd;0x173e55fbe69c2;0x1f03a2b8c740];[0x1;0xe1259e037bbe0;0xb7ccd3949340a;0xc0f8ce6cd6308;0xf04500830c9ef;0x772a5c479d2f0;0x1];[0x1;0x913f75b65f400;0x374fb45a5a153;0x5c68ad1de439;0x17271d0f784d1;0xd71454be5b4a];[0x0;0x459e2fe579180;0x3a0dc966c9b52;0xb99fd4e58ccdd;0x7bc9e3d97aca2;0x1f24fe03ae033]];
 [[0xb73e198128f8b;0x55e440035ca86;0xcf26c5e7f7de3;0xd35d710b71c3c;0x3cd3a691a5e];[0x1;0x6b54edc1c6a72;0x9274115bf73f0;0x7eb984b6090b0;0xc3bc63d6c815f;0xaf4555c9126b5;0x1];[0x1;0x5d49961b18385;0xa4708c67c612f;0x90d7ad97d3192;0x89ab1701d9df5;0x183dacbb104e5];[0x1;0x887b612b0ec2f;0x22b7b96fa7951;0x723c00daaa523;0xfb601974edd12;0x176da9a3ff2d]];
 [[0x57e5a4aa4adbc;0xdc52c4416966d;0xd4107028a2002;0x8d5077f02197a;0x1f0c429e2c99];[0x1;0x46275a2867c08;0xa38a651b6a2b0;0x43e1b5b239050;0xda1f369d6fe56;0x85e2ff3926e35;0x1];[0x1;0x82ef5ca4f70d0;0xaf73eba80c97e;0x4258e9ce15a77;0xd99b16605f6fa;0x1568da3092021];[0x0;0xd6de7a0ea2940;0x7d104c1627b0b;0x31dd38b845a13;0xf86a7963b45ab;0x2e3b1e0f050ed]];
 [[0xa15417ba29539;0x50cb871bbddb;0xf4cd948adea96;0xddaf4a37bc114;0x713900458f2b];[0x1;0xe87bd41fcb881;0x89323f8ad04e5;0xe67635c3b3d87;0x498db8d24488b;0xf35381c9bda65];[0x1;0xce8737454a05d;0x9bd65dbcaf043;0x909501807fe7c;0xf3890d1234a0e;0xfa7533c12a1e];[0x0;0x664361375d7ad;0xe56c435182abe;0x95e4155915c06;0x47d88c0fc3507;0xa9b36f4f4c8a4]];
 [[0x6493db1f63200;0xb6853ca51249b;0xe2099c872b3c9;0x4ca41b460d100;0x51532610b839];[0x1;0x311208c4bee00;0xd3191287da25a;0x2ae2c70b0f876;0xf7bce18773b0c;0x29a8e65d6cfb3;0x1];[0x1;0xbdcefc740000;0x56ddecf4d97b3;0x7c2d0cefab562;0x54ffcdbcb64;0x1b20577babb02];[0x0;0x6f9af21354400;0xd2e65fb025a30;0x365b5f3d593f5;0x9b1080b09ca0a;0x78e54254359b5]];
 [[0xfce9fe1175ead;0xe14e0f35c1e58;0x33257491fbfd8;0x5a5770d37ce37;0x84f834d4a98f];[0x1;0x6c5d34efcbd58;0x42a38cd7d4dfa;0x5b3f48b14164;0x71c84100719f;0xd4abc17382385];[0x1;0xcd80fc84cd235;0x6c289760a4db4;0x716f0a89acfea;0xba847eb785eea;0x11e25a0dfcd0b];[0x0;0x11ca6a34e60e8;0x5aa19fe526c3e;0x4c40072559419;0xeaceff3aa759c;0xd992246019fdd]];
 [[0xce57ac997bf9f;0x71fc714e23021;0x111b2c5703f1c;0xc1f1f2f92835e;0x7378ebf089de];[0x1;0x15e13cca21795;0x94e88c8295e79;0x911aa67f8f6eb;0x2be5323a065e;0xf840228737098];[0x1;0x2b491bd8f7d2d;0x1e419d58b01bb;0xa71e5ed3f9f72;0xcc5c1663ddeb;0xabb7e7717a46];[0x0;0x6028bda4b4f69;0x8793a922c4321;0x9cdea4df49a3d;0x2a46edabd41f8;0xb8a7c4c9bc4e7]];
 [[0xa1c6949620e7e;0xa17ea3016c4ed;0x3dab5cfbf6a59;0x7b49a62a8622c;0x736bb4388551];[0x1;0x687325fca18a2;0xbfd5cc2b7a30e;0x2dadedeefe7ce;0x859fa26b6bdd4;0xe8467f3b6aa9f];[0x1;0x6c40c8feebb4;0x65cafef3e247b;0x33e9b28eedfb7;0xc43cb5b6320d0;0xfe50ca262aa9];[0x0;0x5e69bb395f15c;0x67117d11d57d2;0x6fd449e930830;0xbfbfb4befe55;0xa7ec88601fa64]]]
 (V [0xd1f047e65dfca;0x33ff905bc7f9f;0x50735579f1b57;0x5b3a620c5b782;0x1abf78b65672] [0x88dc2840dd068;0x231eda918fd28;0xd02b9e131b111;0xafee0983f283c;0x4984d661e3d3]) [[0x467eaa51793fe;0x40ce2ca5ff123;0x971c2cd5b1522;0xd38b434f00661;0xf253f8e1593];[0x1;0xc5c15b6ec47be;0xaec036b7c45ae;0xfd847034e9c9c;0xd85c50f4d75e4;0x950cff2dfa07b;0x1];[0x1;0x806617ae84db4;0xf2c91bf77fab;0x7301df25f550d;0xae3e2ab45ada3;0x1d6f073b3d07e];[0x0;0x7edadf1f623f0;0x5a7b98cef35d9;0x3158e263ac247;0xaa0c5cfcc916d;0xa86830ec9322]]
 [((V [0x4a7e7939b0019;0x65ab8dc6beb5f;0xf9a8de2fbea53;0xaef8ae9d990b0;0x1582d1e26116] [0x3797a892a84d1;0x44cd2df4fa32b;0xef069c0bad888;0xd483645a242d0;0x613a04a50b79]),[[0x828cdd673af9f;0xfcd895b2541a;0x71575b724aa1a;0x957ecbb9ecb46;0x7c18f46ee5e8];[0xcd5971b4c0c14;0x263b48f6ed86d;0x6bf62c318b41b;0x6706ab53d234a;0x61f5d3a7b207];[0x1;0xf822f6b525594;0xaa9836481665d;0x472f3cf30b3f7;0x263927ab12397;0x9c8c3e93e382];[0x1;0x3035ce44da170;0x2bb640654caa5;0x79757e1081d45;0xfcb370c002021;0x17ed1c6eab451];[0x1;0xe35fbf2411d2d;0x4e2f16abfd0d6;0x27fdd7ade9de7;0x9733de3261ae0;0x186d9e3a7719];[0x0;0x458a19040be02;0x37e59b4058a78;0x8f41dcb695dc4;0xf9df00d8971c6;0xc01ee3ed7f7c1]]);
 ((V [0x443c12f921e7b;0xd40490b34131e;0x8e60cfe8c0fb8;0x30ca242571ce3;0x3e1970acfb31] [0x4c5e8b836aa28;0x587ab0edd2431;0xf4b88dee4cedb;0xfef1c141f9a1a;0x99508d411f2b]),[[0xc73ea20dabfc8;0x62a6a5fc95741;0xd3388a68a089b;0x4ba6874485c49;0xa4007a61779];[0xc347f688d33d9;0xc3f52fb3f64ee;0x7eeba82c0ede7;0xd8ba25b48d885;0x43718484d894];[0x1;0x735ef2cc3311d;0x31c54ffaf49df;0xa23398ad3feb0;0x21ce68161c3f7;0x6bf8b0eea97a];[0x1;0xe32382a8ac150;0x5b35e77d11bb8;0x8846ae4f2c445;0x13be01b326666;0x150a9934925f0];[0x1;0x575eed47af740;0x12b2d9bad421b;0x23fe5a1438d28;0x7bfada51c901d;0xac400be7d546];[0x1;0x9b373c997c698;0x252914a56c613;0x5666171b23e40;0x5ebe65faba77c;0x8a0fe28643eb]]);
 ((V [0x4fe3792dde8d4;0xa94363e6619b8;0xb43fc248a9f1d;0x51220dd322a05;0x8576f5cfd012] [0xf4e7acc0d3e43;0x73935b8368a46;0xe43ec02b7bd31;0x8df68897b660d;0x2d54d8b940e6]),[[0x601ff058246c;0x585becd3635fe;0xa1bd0a2f2eabe;0xa81cfe23cdd15;0x56e41987ba23];[0x732ed57790437;0xcfd1e068080b4;0x84f124e81c96;0xdb379f9e80751;0x70ea9ec315b7];[0x1;0xb1484c066aca5;0xa45689c77d06;0x4363f23b551d6;0x9dedd9b3d2249;0xa0f7dd8031b0];[0x1;0x29446eb238ec0;0xd3701b1e4cce8;0x39f8b229741c8;0x63c9ae4d5276c;0x192acf4b82f37];[0x1;0x98de5b28a3650;0xf1a758fae8d18;0x5cbb22e7b14ff;0xe5bbd26c005bf;0x17757ba9a6b39];[0x0;0xe1920a9e07400;0x93b458dd25008;0x67e04e4f77abd;0xe3febe6df4798;0x7bb6fe075514f]]);
 ((V [0xe735344a419af;0xd7874d9feefbb;0xebccbb7d7e323;0xe1a93ec31b152;0x45f409f5bc34] [0x6e6800c1c7ba1;0xcedacf02d1bb5;0xdee79b80aaeb4;0x58a649ec8f05f;0x551b6ee2b8e0]),[[0x2796275a5a5c6;0x6c50854f40d2a;0x38118573cbcd5;0xb9f741fcff1e6;0x6c25228d4d31];[0x68382ff0fcdca;0xdc1bc21e34ca2;0x2a678a1c1059c;0x791ef41961afd;0x727748942795];[0x1;0x6db119d3f050;0x5ac9619f35e98;0x9f2884bfef3bb;0x5c6912a7b794d;0x49d5df638062];[0x1;0x4db662e3faad4;0xa193a560df407;0x36004c024d6c;0xc6ea16e22a35b;0x2068612ff25f4];[0x1;0xda2a71bf4fc54;0x246f8e62bcb9c;0x150cb633ee8d4;0x6caab1f4a5070;0x1df0596b2664c];[0x0;0xb0ffd1d8a39c;0x3b743bc1c08bf;0x5d05b03be843b;0x7ec357a5a3467;0xabd7ac945f0fc]])]
 [[0x9a0b9154068d9;0x6c53d57e9d178;0x48221924e4b3e;0x1c433b3b04c63;0x38835cc0ad69];[0xe8ed0d12aeec2;0x1277adb3fec43;0x1d57cae9ebe72;0xa6e8edec60647;0x1414c3a302b3];[0x1;0xc5575c892fc8d;0xf5999d332044d;0x9c5fca77d5946;0x56d73a03b683e;0x196d0b3abd6];[0x1;0xe11c1832f930a;0xf76deeb6fed18;0x63fb411256ae1;0x49bf8a233d81f;0x35ec9bad13a6];[0x1;0xcf7d5f93089d;0x179036e44084d;0x8a92b8b1c5253;0x37964f0b4d3bd;0x1037d3fcc86a0];[0x0;0x5a36ce7570438;0x6f81a2f942f13;0xe80ab893b183c;0xc2794c3b07885;0x4ab8740895437]].
Definition wit_C_64_20 : colwit ipt wit := mk_colwit (V [0x3268054f33b2c;0x945b1b09a4c85;0x249ee7a335944;0x105537ad3a85;0x2b9e5694b176] [0x21804a2b5a8f3;0xfcc498ffc7103;0xdeef63bf8bba3;0xa8adcce49f93c;0x6b11a37c4d34])
 [[0x27ee883aa2cf4;0xb0462ce89fcbc;0xdf1df2460534c;0xeed58a6a32b35;0x6c7eb2c14e6];[0x8c97a2d1a7711;0xcae3753f30c1;0x2c786161d25a7;0xc7b131f7f2ea9;0x8947414236fb];[0x1;0x7c8aac4dc7400;0x12ca2d202b52a;0x1bbcf05fd3487;0xb65754dcf3568;0xdbeb5410ceb9];[0x1;0xb0b73e1716f60;0x76922635c8273;0x465ef3190a33b;0x52ae4c0d696ec;0x2ab42e7c6fea4];[0x1;0x4b08aa2fe5550;0x9faf287abf1d0;0x22feaa70a1fb0;0x3f06e4bb8e0ca;0xab2fab51035c];[0x1;0xea2208de7d294;0x523204379e4ff;0x467e6766b42bf;0xa08549d83d3ef;0xc657e083bd7e]]
 [[[0xdb93fe388f19e;0x2bfb09d9280b4;0x76795d37bc4a7;0xee768232e0378;0x6c1bfbe0a3b9];[0x1;0xb88ea1800251e;0xb82456000ff87;0x2ce4b7a1dd04c;0xacfff3169caba;0xf7336e13d83f4];[0x1;0xf87e5b4d72d34;0x1af2e76888467;0x88feee84f022e;0x5f851b669ffab;0xd8182ad4f8a6];[0x0;0xbd6b32a654e46;0x73998d9792d21;0xdd6c2bd5e5b7c;0xd0977ca2f9983;0xa67a820106c31]];
 [[0x3a1faac6d5f91;0xa1e8eae2b6b8c;0x1137ff3c69d89;0x3a0f63e6352f2;0x2bbfc0bb390d];[0x1;0x976f7983ed85f;0x2e5ddca6e9965;0xc7c42cdcab6f4;0xf294d8b45654;0x7239aa3e54645;0x1];[0x1;0xa44e22b23350d;0xcfee46e94f240;0x7161a65004891;0xa1ea26a9e3af6;0xee4cd9023dc6];[0x0;0x4f52424b51095;0xc92f9ec91b63f;0x37d23df7f35c4;0x7777013d6f441;0x3ba09191fe9d1]];
 [[0x76de0238cf277;0x905c7c9eee084;0x28bd3d142fd95;0x63089651958a9;0x20d479d60c8e];[0x1;0x1642826651013;0xc23b6a189dad4;0xe8ed2d95ae237;0xdee5c575a1c6d;0x73323dcf2986a;0x1];[0x1;0xeed274137207d;0x9d6895c5a841;0x78bb6cf8752a0;0xa17e47abcba5b;0x69a2b62a23d8];[0x0;0x622c599023a;0xf1bae73e631d4;0x82ed8ad66927b;0xf5e187ec00592;0x1a914e974cf29]];
 [[0x43bac764493af;0xf8c1f287ea64a;0xf0d57f20156a7;0xc839d6d82a0a9;0x44f683895d42];[0x1;0x657e80e4b8a96;0x93b48d3a1d861;0x8c2e04120a6c;0xd1c456952f557;0x39364538c0750;0x1];[0x1;0x791d36443d88d;0x50b0aa6d2f673;0xfe294fb0ac08e;0xfc7380ed08e7;0x8386b2a33139];[0x0;0x688494d13b383;0x27bc8cdacf75e;0x44d646d75350a;0xfb02f38e6b331;0x6184181b7fe12]];
 [[0x4c6f509ccb44;0x4778668a95d1a;0x4afad20c61603;0xfdfc0143d9ea3;0x8fcc50eeedac];[0x1;0xe546210e985e0;0xc846fc44fa685;0xe064ee5602a8;0xa68ffc89c1fd3;0xc23cd604618ca];[0x1;0xe0ec67a1f18d0;0xd5e1ff4cbaa9d;0xecf6b8ccd2741;0x1bf64c20208f0;0xf3379a03a071];[0x0;0xb146310dc353c;0x2179b7592c098;0xec57f9e499938;0xb896d6b154c22;0xe57ae6eb369c6]];
 [[0x668a3122fdff0;0x8b4ebb3497698;0xe5726a3055279;0x259c91f84f2b4;0x850632d5044e];[0x1;0x9764110ca60c0;0xc800674ba1fe5;0xf1f5ecf5f119b;0x346395643654e;0xdf35023ec8324];[0x1;0xdce02bfcb6d00;0x2cbf0a73ce1ca;0xcf22bf45d07c3;0x9b7826f783255;0x14a2dc1e97a37];[0x0;0x7c32074937210;0xd6339e937781c;0xf3dfb7de12380;0x5465df81a42f2;0xd3aa819bb1709]];
 [[0x3ac059a592708;0x27744e98e557f;0xb3c8639118653;0xc8ae4015f3792;0x8b31c97a7849];[0x1;0x2d63b4cd38980;0x9e448945073bc;0xa7782b84873b9;0x44a41c94615a;0xc245a6d455da7];[0x1;0xc72947b0c8b40;0x57677b1d35645;0xa988ea000754c;0xf73b8677bfeae;0xbf9f455e8ceb];[0x0;0x2f163b5971ad0;0x4685062ed49f3;0x7af050786faeb;0xe6ebe00be5a7;0xcd5d43a5250f7]];
 [[0xb9b9bd3e0600c;0x67a7d31b0cf2;0xa1e9367168baa;0xee105448e54ae;0x65e1e11dbcbc];[0x1;0x30777def4c04c;0xff1267d589500;0xecb467df96524;0x2d652dc10bdc3;0x21c0ff987ed0;0x1];[0x1;0xbf4a8a5a22d50;0xe44bbea153399;0x72186a7bfcd9b;0xc162c195f41b0;0x13d7d4e592633];[0x0;0x629fb590e85cc;0xe1dd6079ce763;0x42f76a43f90c5;0x9f3cd04bd9c8;0x9845aa3f8bb4e]];
 [[0xaa1d8221f223f;0xc2d4df4c75b7;0xf06d5eb06eca6;0x62e0814475fdc;0x2731a406970];[0x1;0x3f368b86e0fc5;0xbd21cd5ab6223;0xe7882266d3f55;0xb8dfbd157590d;0xb3529183f7bf5;0x1];[0x1;0x5da355b393ced;0x79a53c976465b;0x60c1045828caf;0xd0102ce140ca;0x1501b9f5653a2];[0x1;0x21877f0dce25b;0xb07004ef7d241;0x78ac945b216f0;0x4f71d1e30adab;0x348c7c73ab70]];
 [[0x890ce97b8e64b;0x969c7db184e1;0x1a88afce8fdfd;0x752705947efc7;0x67747ac0252];[0x1;0xe74749e560289;0x3234ae15f2dbd;0xbc08411f0a748;0x1213136afd4cc;0xac39e628a5657;0x1];[0x1;0xa42a12f002e05;0x66e7cdae9d798;0x2f211269cbce8;0xf8d7045646d8b;0x1171991238611];[0x1;0xbcc2c67de5571;0x83ba2df7e7376;0xe973dd84086ce;0xef8663bfbf16;0x54c69af87175]];
 [[0x61f12eea45fb7;0x740cba50330db;0xbc10441d136bb;0x3dd06b6159b16;0x80193356e8dd];[0x1;0xbed50278afbaf;0xfd6e0d47096f6;0x33323675da6fb;0x33bc70b1018ed;0xd8acd8b0b5003];[0x1;0x6b1963abe3fd;0xda23aeb628599;0x926cc0ea143e5;0x1a4171115d421;0x90652ecec5e9];[0x0;0x931f3fbe28db4;0xb2b3b2fce08fc;0xc7bbb487f1db2;0x63917ea9813b8;0xc880ed473da95]];
 [[0x6abe5e074d07b;0x5dcd41ad42b72;0x57621bcf0e1d;0x242c535cf173e;0x247386c95243];[0x1;0x36693e93a7028;0xe616d11e4b177;0x4c2c074374186;0x1c0d64a446072;0x76bbc7e7b78f4;0x1];[0x1;0x8d29584d6c8a5;0x393ca779187b8;0x574dcb5452162;0x22167eac5f021;0xe168838f698d];[0x0;0x87cda5143d16a;0x995db4aea8ac9;0xc3e8e0165d988;0x183544e8dd8f7;0x32767e73f695a]];
 [[0xef79ac05b18e5;0x9f1b3c41d609a;0x3b57dded6bf83;0x1db8d689fa760;0x57b8da076a39];[0x1;0x7f52593c87d29;0x762014ff3228c;0xdc7f6b5f4ee60;0x80c5fee883a31;0x2436da7914778;0x1];[0x1;0x69f08f4a8e765;0x6e66f4b86be63;0x5dc323c5064b1;0x51b750bbd2ac0;0xf90d5121bf7f];[0x0;0x2cdfe3be141d4;0x7d49b89e2b105;0x379928dcc8926;0x59623caa8822b;0x845f05fde6f1c]];
 [[0xb0232b9f056f6;0x3a8e162435e9c;0xb574b71525a4;0x61b4a51165ce;0x15a78ec8c58];[0x1;0x664f3f2f00208;0x6680e6f4586b2;0x8762433949d12;0x3291d58c1d984;0xac8b836861440;0x1];[0x1;0x5ed51e73d4a94;0x2b050e65879e9;0x797f4a381fccc;0xa54f799d0fb25;0x146585ab01ae2];[0x1;0xe9649006b4242;0x3eae04140a807;0xcd8d48640f0a5;0x34eb1ba663d7e;0x11fac6f91a5ea]];
 [[0x86523307d0d75;0xb024a35d16d9e;0x6032cc383e07c;0x4bd97d6e22a1e;0x69374f43076d];[0x1;0x7f8bb60eb0242;0x530e57b79064d;0xe2cfd25bc725c;0x2a0d8e4897581;0x3674969a97a9;0x1];[0x1;0x7ed0390ecdd85;0x8f98aae36a3f9;0x4f7904fd4816b;0xa6528e3e71800;0x166f476a8625a];[0x0;0x1364ac223eb5d;0x91543dec779a5;0x17ebb91669c4a;0xd716b9a42f40d;0x9ae4ac100e793]]]
 (V [0xae5a0ec174bd5;0x1c1cca5aeaeae;0x1028d56745285;0x46cde7d48e2ab;0x11ecafa280fe] [0x9c2814b899ef1;0x267c5271e233a;0x4495b1e757198;0xd8761c27acc7e;0x8e11c3171ac0]) [[0xc2a33581eb83e;0x42a3a70f2df8a;0x1501c768d6749;0x3bce3eef10ceb;0x436797b3fbb9];[0x1;0x4981ef36fc520;0x8bf585fad8bc;0x99683a32d8346;0x44125264c0e44;0x4090fa872a82a;0x1];[0x1;0xbc643ee4a60b4;0xeb88971eea229;0x3c61891a72135;0xd59a7bff4275b;0x102a697dbd3f6];[0x0;0x7f8682cfb2bd2;0x327d51ad158ab;0xdc237a2219013;0x9a4f7091fc9da;0x58fda8d36971c]]
 [((V [0xfd45d1c71f8f5;0x441010f1fb730;0x9b851de98bf22;0x7f3e07f5e4e5e;0x469d69b6d668] [0xd91b20203abd2;0x9bf9fefac1899;0xeefabae4ee662;0x389c6fcdb6f5a;0x1c855909f44]),[[0xb51741c8422d5;0x1e02b4b4cb188;0x3bf9978fd41a6;0x54e0db7be0327;0x7290ba5a13c9];[0x6415994a540df;0x8c99cafce15f5;0xe66bde99ec30d;0x4cfc05562a897;0x4b2da0377ba1];[0x1;0xd3ee6174c4a45;0x11d9b4233610d;0xd7f6b3f61bb81;0x744a299ede2f8;0x799aa3e66f57];[0x1;0x3141d8e40d742;0x9a9982485b10a;0x6c94c041585a2;0x25cc574ab1601;0xb2773e42e9a9];[0x1;0x928fa15f29845;0x98a98e40581b6;0xd450d1781ea5c;0xd2dfb08aeba27;0x5acb37d1580c];[0x0;0xb6aae228b3f97;0xb0ea4cdf7c9d7;0x6c6b7c855742;0xbb4bf3584e4f0;0xb01d67651542b]]);
 ((V [0xf4d92350e08e7;0x6b2fc9b7b86dc;0xe8b4607b6b21b;0x353fca6b3f0ed;0x47aff4e2ff0b] [0x994881ad28e2b;0x54197c03d7ad9;0x58c561e9daf3e;0xaa1d0055a2f65;0x61c04d82b097]),[[0x7a5d02d0a81a6;0x1060fd04d4d7;0x1bf47cb7deeb0;0xe6efb6b54587d;0x7b5b62133165];[0x42a8c9ef7be4f;0xef1b94aebcb40;0x20d048177b2c5;0x489d8d8734997;0xc81140fe977];[0x0;0xbef1815405b7b;0x6e7152929e33f;0xbcef6faaab53b;0xc784ba864acf5;0xb78f7e4702b];[0x1;0x455ad85672578;0x759a7d5e9a23c;0x269badc6be2eb;0xa7be84f893848;0x4b84a8d0a424];[0x1;0x538db965decd4;0x520792406f172;0x4298f54efcbc7;0x4fe19d351b53e;0xfc7803162026];[0x0;0x3e807ce9aecfe;0xc866991317089;0x3d736df5fe31a;0x979819479d638;0xc5e0dee02e750]]);
 ((V [0x49cf17f216524;0x6b64617fa4988;0x97df23fb17fc1;0x5c06e8c850386;0x2e9ecb3286ac] [0x908d4f05a7005;0xa4418917035d3;0x1d310306c48e7;0x82c10829964a2;0x79f2cbb5664a]),[[0xc13de9486c307;0x4d3de0d9197eb;0x5577a32c3c3;0x10a7d68723dd8;0x9b708583a6b];[0x93fa4c4de0f25;0xda7e9cf9e5e6c;0xfebf69541ca64;0xa062ba5ee3e90;0x3322f3471278];[0x1;0x88b3bb538971d;0x418f029f7c585;0x3b0f430aaaff8;0xad79a48cc37c3;0x3318e1f5a677];[0x1;0xf5a36628fe452;0x49e0defb890b;0x41a81aaae45b5;0x812dd3c4609c6;0x100ca6de6d607];[0x1;0xc0331ffa9dddd;0x70529fe3f9f8f;0x488cf7dbc5161;0x87b697b5a46f9;0x137efb1160184];[0x1;0x92fde79eb7c74;0x1433c4b6da926;0x6b46ff0eb6ef;0xe9be53c9fcbba;0x6189bc121658]]);
 ((V [0x97bc9168c6561;0x596971b5fcce7;0x96643e28c8aa;0x75a36a0e9d015;0x9778bdb079f9] [0x8e1473445cc98;0x79d5392bc2bc6;0x540382d3fe8a6;0xcea6739a550ef;0x3897b341d75b]),[[0x779291098f5f3;0x65d897f0d92f5;0xd1ab47bb80a96;0x4767d1ffca3ce;0x938c0ffba7dd];[0x9deba9ae80196;0x98863945d07b2;0x11a60f0e4f101;0xbd5db7ddfcb4e;0x7d5c88b95972];[0x1;0xf7e2009b3dfd0;0xaf235160e225;0xda3669e06171f;0x4a9d321b5369e;0xc0410f8e27e1];[0x1;0xe7afdf8bba6a6;0xddc5934414ce6;0x5bcb3744a20b8;0x9c6822b1efe81;0x1940e4c7db11b];[0x1;0xc97b9ba882af5;0x1f161406f991a;0x4ff0e6d45959f;0xc06c5a43465fb;0x106a98a98d60c];[0x0;0x199b95879a5fc;0xf09ab54c20025;0xe6839509ac991;0xb2257fee805e8;0xe06a927b80ff1]])]
 [[0xf1297966c8b25;0xa99f194cc835b;0x34e9bcb122fe0;0xc7e9bd3ed60b2;0x8cab0adc0cba];[0x9de0b5c9bb78b;0xa67e03621548f;0x6a2c403b47652;0xfec765b2e795;0x7e31a585c914];[0x1;0x3ad04ba72bf2d;0xbdbba0ef33af4;0xc0bcbc2db4855;0xad8075f5531b2;0x3c2885c21f9f];[0x1;0x3e422ac92ad30;0xd1dc7f955d256;0x3bcd6dfae47c5;0xe146f6fd4b2e;0x219189bf50215];[0x1;0x899595733dbe5;0xca4f15132ace8;0x5771f5760cb3b;0x2d78e1beeaedd;0x223fdbee36b72];[0x0;0x524988547442b;0x4ae0f69784777;0xe36522490fb97;0xabcfd1e55c682;0xdc644378ae625]].
Definition wit_C_64_21 : colwit ipt wit := mk_colwit (V [0xd87635be7d171;0x3043747df8d15;0xdb21a2df2735a;0x5d2cbdaeb093f;0x1d309bf7868] [0x161265ae0f79d;0x32ec1cd96a353;0xb550257025e66;0x2ce9a24100a43;0x2f2c369f0cd0])
 [[0x83b0697070788;0xdc794a5c3303;0x3706ec81e4ff3;0xbfa74ad245258;0x976ac570f84b];[0x7217385115137;0xfbad100b3022f;0xb22cc4a711f37;0x6a83d317b1744;0x2e23adcb38ff];[0x1;0xe9303cee550e5;0x9bad2ae974599;0x2a58d9ad48437;0xd42ed8043a9ef;0x1acb2135535];[0x0;0x954c761d71d20;0x85a23ba4e38c2;0x2adec7f221678;0x9a4556ef895d5;0xe135b060329];[0x1;0x505a794643340;0xc9297f23ec988;0x6b2f92c0eadcd;0xd7c34902facbd;0xd145db0c42ca];[0x0;0xb643753e28c38;0x4972924bc3e11;0xb5713fb2fa724;0x299251b025ae8;0xf370318c4c0d9]]
 [[[0x759a87ac6ed32;0x1ab7cba38a891;0x9aaadf80e33b3;0x7f7afdac16763;0xa367fbf204];[0x1;0x91ddf7be634b2;0x8ebed070a6a30;0xb3d43043004a4;0xcab174dd9197f;0xa625a3986e809;0x1];[0x1;0x3e380d1b8c874;0x80e0e6e9931b1;0x28bc725a24323;0xd7ad8e60131d4;0x151f15051a502];[0x1;0x522a848d56ed4;0xc99ad5016bc4;0xf2a258cee0081;0xe4f6d1d8cc1f0;0x1393147ffa671]];
 [[0xd815ba2cab4de;0xf113cd43157ae;0xf7133294551ed;0x584929186cd24;0x594c6ad5775d];[0x1;0x258824c1d194;0x49b76480c1952;0x664ccfb5ded7a;0x8f8e21fddaee0;0x1a8a1609eb2ca;0x1];[0x1;0xfe3439924434;0x4cea50d1afabc;0x782dedd86e71f;0xe7351aea8ca5a;0x87f7f08980ae];[0x0;0xead01fb02d3e;0x38237b63893b9;0xd4c6dadf588fa;0xfe9bed7a020bf;0x924b0cb09f07d]];
 [[0xdf343fdd60492;0x95e93fa0061fc;0xcb5225dbabbfa;0xd962c03010e21;0x92b80023ca7c];[0x1;0x9998f6c325640;0x11a831cf23b68;0xba0a94e428419;0xeb5b92c20bc74;0xbdcfea5efd1a1];[0x0;0x99759af88200c;0x68fb911f7b331;0x79ea83e6076c4;0x474c84f6a09fe;0x1f53ceb76c85];[0x0;0x464a038e493aa;0x149c2bcb9012f;0xb4a2c1443d14b;0x3e0f600bd71d1;0xf249bc9744cc5]];
 [[0x6d4fd4f41adfe;0x1bf0370bcb81a;0xea5540d22faed;0xba8ab9b3bc166;0xa64136c0e31];[0x1;0x14e7a80ad75e4;0x5ffeae0a894ca;0xbddbd7ec5e844;0xeb5cd98030c85;0xa056e8507bae5;0x1];[0x1;0x992c0b68005b4;0x7028dc3890c0;0xe2c1dc63bc41f;0xeb84161cb5405;0x10a5736482869];[0x1;0x281f1f95fff82;0x3465162d8e70d;0xbd41fc8797645;0xa083f95858269;0x1ccfe8d5cc15]];
 [[0x7234253d831b6;0xaf883771b1be5;0xff3b800a75992;0x32621ce636ebb;0x4a36efca15c8];[0x1;0xd51b20114d1f0;0xe11913fd13ce;0xfeb627f46f42b;0x34ee629f60e24;0x2b0903e6a1b86;0x1];[0x1;0xe0a03ee524f94;0x8b273ab763cc0;0x31f53863a510b;0xcbcd9d75514c6;0xb80c0c131fc2];[0x0;0x5f9d7eb55cf5e;0x52d1836f64079;0xc108438d38a1a;0xa30f7a62537d;0x6cad2365e95bf]];
 [[0x443f418052cf3;0x265b6c9dfc9fc;0xd677d12aaf556;0xfeb3347bfd889;0x2777d5025de];[0x1;0x1160844dd22f2;0xdbf8fb0feed2a;0x66442db711a6f;0x76aec26e9d69a;0xad37447fde1e4;0x1];[0x1;0x770eec2b64cf5;0x79a5b71f5a2a9;0x92e8d23611e40;0x424b705ba8601;0x739e20c3d206];[0x1;0x8df499e5aaf88;0x83ddd47c18d5b;0xb9f6d251f7a69;0xce931d4bd01d2;0xa2b8d5fa2221]];
 [[0x9c0a72852c3;0xc933a152a592c;0x48fd3f4b54d34;0xfbe72b4de18ee;0x4254b7380cb4];[0x1;0x3338d40d01b6b;0xa8c4648cd96a5;0x41ef7254291f9;0x6b4ca646159d2;0x3b632cd5a86e6;0x1];[0x1;0xd7bf7cf7c0955;0xbb429fc5ed73d;0x7f7a4e8215b9c;0xb1b358603874e;0xeeea69f44eb2];[0x0;0x86215766b7e1d;0xbd954752f96e8;0x7000cb9b1c353;0xaf2308b922836;0x5705f37de475d]];
 [[0x17eab1de65d32;0x7287f8a9135bf;0x6e823f34195e2;0x4c9a30b7dbf65;0x8e6d39b6bc8];[0x1;0x44a7974625c5a;0x1aa975ecd7247;0xbd7fd3766c713;0x40f10517f776b;0x99bb907e985c6;0x1];[0x1;0x881c1d1658874;0x769e7a5031767;0xe6f8897230f0;0xef8c499d30e81;0x1877521a51a89];[0x1;0x45e6e38af17ca;0x4342cbd73ae80;0x9cc2a64fddca8;0x8302eab6ac089;0x1798f0784606]];
 [[0x8a0464f8f17e8;0xdc56db4a14ba5;0x3f09d5f0b4ece;0xebb0b029faf74;0x5d15cc371e71];[0x1;0x90b17399a3848;0xf45032a11ae81;0xd988b18da0219;0x967dc62f521b0;0x18732c75cdb6a;0x1];[0x1;0x6edacc87a3540;0xb30b3ecd079b9;0x6db742286011a;0x970f4f32fce57;0x110a3f7887d29];[0x0;0xa4da16b65f0a8;0x77fc75f4fcd54;0xcbec0a25dd8b3;0xe879bf9507feb;0x97bd603c97ed4]];
 [[0xf64fcc2e25e35;0xa861ac936e8b9;0xcdca95298b4fd;0x37f296310fba3;0x4767f05cd6b3];[0x1;0x1ac4de8839d6b;0xe5f7824795ab4;0xbc1ddcb0ec86c;0xa0efb444a778b;0x3af4f6aa5b17f;0x1];[0x1;0x5a279219b8705;0x51337e7299da1;0xae5ef2dd25be3;0x8fa19d4f25b8f;0xd58f4a3c9676];[0x0;0xb39dc32e3d050;0x252b82adf65ec;0x2484f144c7232;0x3e408aefa4cd;0x674f52c3a5c8f]];
 [[0xea5af3b0cf803;0x3f3c7b9c63f88;0x63559086fc167;0xfc46588f490d4;0x13762d46e8ac];[0x1;0x750c4db9d287e;0x2729bbe8ec81b;0x21283b260a342;0xfcfdab22c1eb6;0x86ecc1b0c0cdc;0x1];[0x1;0xe6460ea6e62d5;0x4ea6a12be925b;0x28fc414ab700c;0xa9b40e6345ed6;0x103f88f7534ad];[0x0;0xbc3df78d921a9;0xdf9fba2e59cf4;0xe6fa2dbba6b26;0x7237e26dabe0f;0x81d2105a82ba]];
 [[0x8d941ccd41d16;0xd3f7e77ee5d2a;0x9a585dbe3a033;0xc5d04767e609f;0x76f04a61533d];[0x1;0xbd15a12123e6c;0x7f8bbf4b00a3f;0xf4597ffcffaec;0xa3fc5b4b1526a;0xe4eef95c4d1ef];[0x1;0xf656b8249614;0xdf714f758ef1c;0xd6f37e43744c0;0x63e06380adc64;0x10c93acd08037];[0x0;0x59ebc677fc576;0x9e521dc584936;0xcec3700ac342c;0xfbadf8b7123ea;0xb7669f27580a3]];
 [[0x569c9ee5dda2b;0x4fc7e66c4262a;0x861100f860f3c;0xe2acbe8e31437;0x1d92c2ff5fe5];[0x1;0xac986f607dca4;0x97ffa4e9bf8b7;0xa1ec623f4772f;0x5ddc7f80f9e64;0x80ca8f6fbdde4;0x1];[0x1;0x25a0dc411be45;0x3fcaf95989432;0xf620d208f87b3;0x49c198de97273;0x1551938c7aab2];[0x0;0x462a0f58bfedf;0xb113ed76bc1f6;0xe569aa3a1280b;0xd8958c501987a;0x25985f8e68878]];
 [[0x31a1b567617d4;0x5e4d5df065e9a;0x1270228468ad2;0xab5912d6af397;0x38a6bc079646];[0x1;0xad5b9f3ff73c8;0x5c4a9e00d7b4a;0xfd2f083571691;0x13eba6b508987;0x4d97210f554f7;0x1];[0x1;0x3fdb1d91de850;0x1e9fa48eb8;0xc72133bbec48a;0x389c00fac7d18;0x119736d4eb536];[0x0;0xc98290a5615fc;0x7915acadf8ee0;0xdcbbcec08d0e4;0x35bc33f6bb2e7;0x52e80176e9332]];
 [[0x4d7ec70cc251c;0x372e715c95de6;0x12718085b733f;0x56e41f4f23926;0x393b0e0902a7];[0x1;0x668d6edd80ab8;0x629692b5e257e;0xecb43198f2eb6;0x2e6ed1a07f698;0x5417e85f0c3a6;0x1];[0x1;0xe908bb7a6f5d0;0xe67152ac44838;0xb8dc1212d1aa6;0x42c7c38de4f5a;0x1098fd504d0e8];[0x0;0xba2209fe3afb0;0x98b8f9a1b2804;0xccc5eed663ab3;0xb5d33e78bcbcc;0x5003b6a9db547]]]
 (V [0x1c4134b4bddaf;0xe02fbb9bf9750;0x9d87bc35f1885;0x146d98c71cd4a;0x6f3e5b4a127a] [0x8b09267771d51;0x5603966e66692;0x2a5f592c9d635;0x1aaf95b5bcafa;0x36ac7fb9263e]) [[0xc6a68d6d4abb0;0x8b3c62409258a;0x266408bbff541;0x7f09604c0f9c2;0x1a7f58a55e6a];[0x1;0xc6f847f98f9f0;0x4ac2b4bcf0bba;0x82ab7e4ffe87e;0xdefcdfc6ecae4;0x8189e5e2b54cf;0x1];[0x1;0xc161e21d42500;0xec351c837563c;0xe0d7992bf51fc;0xef7e23e5cf44f;0x1cd5c31c3be45];[0x0;0xf70f6ef4ed470;0xb27373565bbec;0x2fdada8825f3;0x48cd08a94ddbb;0x17a74563eda12]]
 [((V [0xc61bfe27b98ab;0xa27a1aabc59;0x55bc256c5018b;0xff913fddc59a7;0x261b9ee07a95] [0xe398c62276996;0x96548d91a6503;0xf6fc5c4272221;0x43cf569486a8a;0x56b2841a6031]),[[0x1a525ade27823;0x95d4b98706e05;0xef52bc225dc24;0x9460ec5af90c1;0x7b974744023b];[0xa19d5014d893a;0x9201d3876c8c9;0x68628b3bd479e;0xec9ea20e13470;0x1ecb04527b15];[0x0;0x95ac681aa6b73;0xe435259b13b43;0x86cddcd29b832;0x7a918d5166cb7;0x1cdd8ef53834];[0x1;0x9d6ec89fc5e2e;0xf742265ff0226;0x286e9a10a09c3;0x42bef6f9e9458;0x51c252117e81];[0x1;0xae5bb8190a895;0xae7579012629;0x59dda020ec7e2;0xf06683e83de92;0x14a872b447484];[0x0;0xdbfa73e0c3915;0xaf54d45176e54;0x37bb558d978e7;0xd71a4826476e9;0xc5a7b25640514]]);
 ((V [0x32cb1235de687;0x9a9c84df51003;0xb480df3103c15;0xa05527418eddc;0x50a08b37cfb4] [0xee5a7a6e8a012;0x605396135ddae;0xdf327ecfb2b18;0x5771821ddf874;0x5ff21599da42]),[[0xa75c0fa9c58f8;0xe91302b822d2d;0x3008e4eb0229b;0xbe794785e75c8;0x2c5cc495e712];[0x2d00bec202f02;0xc3cbfe96af61a;0x10e58543026c8;0xb16221ad5d2c0;0xcf894d53623];[0x1;0xacb3be31f9145;0xa0c972f2df6d5;0x1a0550628b6b5;0xdd8cbd17400c1;0xc017aa10007];[0x1;0x5b89abcdf6e20;0x62cad61528b44;0x672b4814a7c15;0x566b9b758b4f7;0x1f38241e5e59];[0x1;0x841fac1948b40;0x87a375aaed160;0xb3805cf0d5ad0;0xde07e6c916355;0xf55c8266dd17];[0x0;0xa6bd89a93d8c8;0xcd7cba0a2bb61;0x5d2b92333d1df;0x18fb19bf29bfe;0x37536f6608099]]);
 ((V [0x91acd0afaeab4;0x27b5d2f1ec8a5;0x5162c10412fc1;0x5d8aea7437004;0x88441afae84] [0x3a516bfce0c;0x163569caeadbb;0x11c5470d67e97;0x3fa9be19916ba;0x16ab3ffe3e8f]),[[0x3f5c1395f5b72;0x2d946f5d082cb;0xefb2ee1dc1629;0x2baee1ba18c49;0x87301cdb6ae0];[0xefeafb66db44;0xb75fd18d11a05;0xe2266b2156751;0xaa4b8468da391;0x12a7a79f5adc];[0x0;0x4e21dc5f94523;0xceb8fec150273;0xc441933473262;0x85dbd6bcf3505;0xb15c384541b];[0x0;0xc8b3d0ba91898;0x101479b53de5a;0xa40034ef13355;0xfb8d55d62883b;0x39ff10ddb344];[0x1;0xe5e95237c5574;0x1c8a67da3d2bf;0x7513d5e0af117;0xade9679787ce6;0xa1d665ac2413];[0x0;0x26db81d03ce48;0xddb62022c330;0x752d265b38e6b;0xb33ef4cb418ed;0xdbd982f2357ec]]);
 ((V [0x1fc5b45272787;0xbeec57dbf5d2;0xd70d4233e2f3c;0x9af386c42ded8;0x2826925d5b04] [0xa1e91b0c55539;0x6c6fd7e3238bf;0x805ecde8532c6;0xa304156f12e54;0x4b0b20adaf6f]),[[0x3e5c273d1417e;0xa829e49e87443;0xebbbc7d64bfd8;0x8df557708814f;0x89ce1ba1c697];[0x5aeb26cd35940;0xa64f097c8b6a8;0xc98f50f796ee8;0x6901a72f96911;0x2aeb073a228c];[0x1;0xb704abc44a350;0xc21b7d9abc37f;0x5d1d5708576fb;0xff16012790d43;0x462268169645];[0x1;0xb4e64f0bc1790;0x7818e84122e8f;0x8179966ae6760;0xa356b87958757;0xbc4a3e07e875];[0x0;0xec5c58487f04c;0xf35f0b98b027e;0x8ef5c186623;0xfd0bda53d2d50;0x1bf5b0279196];[0x0;0x90ab11895351c;0xe95585dc5eac9;0xb4c81f3d3e3f8;0x59190c980a52;0xdcbfcfe83038b]])]
 [[0xd21c4db6358b4;0x57d7e1fa27c24;0xea10aaf6e7928;0x51f64cb7a139e;0x9b8109fa1eb8];[0x29ffa7f24f406;0x3bb24510c969a;0x5964af14ed3d3;0x80fe57284e063;0x75613c303841];[0x1;0xe9399d7e830dd;0x5bae67fd767d1;0x63bc4bec57def;0x54698f1c164cc;0xb6bb49899373];[0x1;0x580a3d2481108;0xf5a2a1035c8ca;0xec78d2df6ad30;0xb5cb618d621df;0x1bdef3711bd7b];[0x1;0xf53d0245d9350;0x6b30107031a40;0x65a38555fd247;0xa319708f263c9;0x52da516012ff];[0x0;0xb6deec7bb6d0c;0x2ed9f8a8f880c;0x648e1b78fc97f;0xf5d78756f4284;0xf9aefa2de7d9f]].
Definition wit_C_64_22 : colwit ipt wit := mk_colwit (V [0x9de65cb29a7b1;0xcbfdcd611d04f;0x6d5969daf4b6b;0xdcebe98798f71;0x3468a442d905] [0x98552131647cb;0xb841f1b3ffc07;0x2c041b65c5689;0x9fbd8bf451bc0;0x75f12d69d3ea])
 [[0x702dafb62ca05;0x594384c8c9910;0x2ff9da2ec0911;0xce7aaa0f1ba31;0x2f87d3b96173];[0x6b5510d3e7e;0x184f3ad21371a;0x3438186c1f3d;0xb12cc8c291d3f;0xbdef45da92d];[0x0;0x547e72fa6063b;0x6ba3e3162316b;0xca9ca55bb769d;0x977beb2599d91;0x7399f995253];[0x1;0xfd6c015f57fb6;0xb1600533225cc;0x39e506c7b2ea5;0x2bf5e558d1350;0x3678c6f6276b];[0x1;0xafb61bce5da5;0x90a71ee2eeb13;0xf154ac384bcb9;0xfdff3e206eef8;0x11bfafa557929];[0x0;0x429b4b656108d;0x374c49ec514f8;0x8e22ffa6f8478;0x8ead2e33ae381;0x40d2374c7f6ff]]
 [[[0x1455a92924976;0xcc9498d28ab93;0x365227a6fb8b5;0x5c92b610565e5;0x210ac3fb65ce];[0x1;0x5d86a5417f982;0x5e9263e0f92b9;0x8d2ce4ba95fa8;0x3a3f45ba12df7;0x8109499fbd71e;0x1];[0x1;0x3415249a8094;0x98af89490337d;0xfa99dd5fb8b74;0x7006b7020ff77;0x188eefc3d1c20];[0x0;0x7f86ce99a61fe;0xba634c569f038;0x11dd450d27204;0xf493373810bcd;0x2fdb7be5c7b6b]];
 [[0x6e145dc2c9106;0x5a21a182c8d22;0xe363b755a2cb0;0x15caa014c9551;0x40cccba70a08];[0x1;0xadd66001c0286;0x9393f1043e4ab;0x77a825e7b262a;0xc493ce1bffe98;0x4d1b06bf37511;0x1];[0x1;0x882bcd0892754;0xb3feb19bf5eac;0xc77c8d2152e4f;0x39ea52d4e4d21;0x19b3773761765];[0x0;0x568a0a8f11c84;0xc490e25359de9;0x4fe1fa2186708;0xec6d75dedc3a3;0x63b73c71a6c4c]];
 [[0xa88977b7c3566;0xfc0103ee4dfe4;0xf45062083037;0xd5fcdc0e1cff8;0x746485f2b339];[0x1;0x2822db3d9c3e4;0x524a53cd92645;0x8264c5383dbf1;0x959a98974155f;0xf252bd3e9f926];[0x1;0x637bba21c95d4;0x73f91ff1ba17e;0x31f6183d95f6c;0x4c7bd5732d191;0x9dd6550160b8];[0x0;0xbef85b9947cec;0x226eb12cccb7;0x13983a54d28c2;0x7ded44d4384c9;0xb6ac065d69538]];
 [[0x71f761cdfabe1;0x7ba8827d71bf2;0xbebd2b49bb1b6;0xf44c2cd4b5c4c;0x2e193388d09b];[0x1;0xfdf7e56b8facf;0x7057d7f4cfa44;0x5cd337f9d2eea;0xf92252ca5c42;0x6321815fb6703;0x1];[0x1;0x789deeb75682d;0x8fc0717e9e871;0x87f84c9d43e50;0x32c28772ac3a3;0x12ccca000b559];[0x0;0x94c8fbe95bd93;0x163cb84e1933;0xc89af85976bc8;0xe867af98187b9;0x3e0c813e80672]];
 [[0xd4560b8e8af34;0x4b2c235e075e5;0xccb98bdff7d83;0x53a23c97664b1;0x3b9fd13e81c1];[0x1;0x8bfc4b475f4ac;0xa906a200c9aa2;0x1ef60f0b9c4a1;0x6ccd641c454d9;0x5644d762f8b92;0x1];[0x1;0xf912ed7f1a750;0x2f1243c08cce5;0x37ee4006f9c0d;0x138d06ae12ae;0x20df1c2570492];[0x0;0x4eaa798256e48;0x9b385a02c43f2;0xccdd2a11eb903;0x5708134dd6f83;0x5f7b900b2c238]];
 [[0xb7e9c57cd999c;0xd809abd31cf16;0x139465e829d5a;0x113a74a2cd7b4;0x4311fe6a2f36];[0x1;0x32e92e29222a0;0xa142122c89aa6;0xee1a5ffb85ebe;0x8f5da32cd3ae9;0x4c13763607ce5;0x1];[0x1;0x19500edb501d0;0xcc6e0ea1e98cb;0x7bccf565899d7;0xc4f2c21ae3c8c;0x177e3a98ea7ce];[0x0;0x90692aa3df4;0x1a15377b93665;0x3f088717b708c;0xac744f11cbc23;0x6ee9da0945397]];
 [[0xe5d28a2e7c920;0x54e6818aef48e;0xe60678ecf154;0x622cc4ee82b92;0x5b9daad09f34];[0x1;0x85137630b0f00;0x8477ae004b58e;0x695729c0c493d;0xe10a0a9ed1685;0x1d7ef09e8da68;0x1];[0x1;0xa9a8fbf3ff400;0x27790d56d9cb7;0x4195fc704ca5d;0x118f13d3de810;0x1540797f7dc6d];[0x0;0x6f0843e4e5fe0;0x7fea745907cf6;0xe927f0df5a3d;0x6bb5f7136ed37;0x8d7380e87e599]];
 [[0x3e24e0ad7a5b0;0xcfbc6ff836771;0x97fb4c0bd4c9c;0x7ff13750676a8;0x2246d1bf65e6];[0x1;0xed9f6a27f840;0x3c3fb14eedb2d;0x7c7dcdb82bd7d;0xa9374353f92a7;0x7dd20e75ce41a;0x1];[0x1;0xd3dd15dd0e500;0x63252e0ee23a4;0x36511cf55a67f;0xfad7a58beae5d;0x143989d63a354];[0x0;0xa06843989d140;0x96e6de12e2cbe;0x89289efe854d2;0x989f0d7435a7;0x27c054d1d4390]];
 [[0xe9d6c762a6491;0x52e54e2d219d4;0x1117c86b27524;0x3d20ba710519f;0x31fe578e38c3];[0x1;0x3063da815fa9b;0x72a07d2f705c8;0x34d3dade4d3e9;0xa285887e02269;0x58821cec32d94;0x1];[0x1;0x38fc02b07970d;0x1df7fd6b222d3;0x2b7a318208930;0xc20b309a38133;0xcab17e149003];[0x0;0x1274ae013a739;0xce004ff598c6e;0xf1adea07e541;0x875720b417bcc;0x40fe1d08d48f6]];
 [[0x9c4bf67ebd3f6;0xdbbcbea5a94b6;0x104f2fbe5a672;0x36ecd1d5ce1fd;0x65d44c97d233];[0x1;0x92ac83f09c45e;0xb22059c9bfbcf;0x493acc4e3bb83;0x32042889297bc;0xd9fa32bec394;0x1];[0x1;0xd5508cb9fd694;0xb45307ff09a83;0x7adc9df8fee61;0xeddd1cf6b05dd;0x12febaf6d71c0];[0x0;0x250cb82800c6;0x5118a2957e6f4;0xdc0df73a68847;0x3d02491554b69;0xa6daa16b2693d]];
 [[0xcbce113abe51;0xb0827d258d181;0x4dbb7fbc2ff31;0xb509f10449b8b;0x2d7369e5f9e8];[0x1;0xbfae1c90f956f;0x652beb3891dad;0x57e0943d691db;0xffa924bf917df;0x6fb9b2d4cc8be;0x1];[0x1;0x6c4643441ec8d;0xd889def02f1aa;0x4701fe176dd49;0x6f5482620a8d8;0xf625aa94ebcc];[0x0;0xc3bb7d990ecb8;0x41ce50f93e1ac;0xd335feec26938;0x4e56039f7dc7f;0x48d71b661feb4]];
 [[0xecaebf625d1fb;0xfdfaba9470f38;0x6b9b985b52fa4;0xe201d291ae51c;0x5a02d5ad3412];[0x1;0xc1ef7629424d6;0xbd59a1f09a236;0x9544cb8a20d18;0xe4cd92b39fafb;0x1db277e0a75ab;0x1];[0x1;0xac27f0f5e25a5;0x46fb4d463a7a;0xaa03647c3a28b;0x13dc4eabe5f56;0xff0a62856b7f];[0x0;0xb9b646906f173;0xba1ea6bbc57e7;0x5eaaf0b797aa3;0x93505310f116c;0x8468bf1ee03cf]];
 [[0x6970639377c11;0xee59067bcbed3;0x96e7e19807b84;0x9a65943142428;0x209498161114];[0x1;0x7f8aa8efffd14;0x9fca0948faf9e;0xd40909da2433c;0x290df6931119c;0x7bcd0a01236e5;0x1];[0x1;0xaf97ad2e78a0d;0xe5e9e534f89ed;0x13de50988d07f;0xeb21235611d6b;0x125ea2c7ea2a6];[0x0;0x981ffa9458851;0x67d51e1df472a;0x4ba0bc3c4cc08;0x5c2d6dbbe3e04;0x2502d0ea701e9]];
 [[0xcc4b59088aeef;0x3c49ac065a686;0x171a1db418410;0x12247925efcf9;0x780770bd3d0d];[0x1;0x40d5ff275af72;0x3c02b3f7ce9c3;0xea3df05f48960;0x3af67fdce0917;0xe6093f309a8b2];[0x1;0xf0ce8eb5c0c0d;0xde9b49d2d755d;0xbfb417d53d5f3;0x85e5b182ac53d;0x73cd4e96b33b];[0x0;0x5075b67beb1ef;0xc1f00cc419e3c;0x5b5027b2c225;0x926f1f98f61a6;0xbd204d6821fc7]];
 [[0x530c2bcc62090;0xb22f9250a1ff5;0x57d5596c4c1f5;0x5a8cf07406c7e;0x4b5176d2cb17];[0x1;0x8f6302f101080;0x4494ebb7467b6;0xd41b436fc3a3d;0x9a2c06ba628ac;0x3c7b7ba70869d;0x1];[0x1;0xda6215a7d7d00;0x50c5f513eebbe;0xf9f79731ff4e4;0x58b47c0423cca;0xe5f3e39ff9b5];[0x0;0x3e96252851d80;0xc4211be6cc72c;0x267e2d792634d;0x32a7229936c8a;0x7b194046cd38f]]]
 (V [0x4785f202adfa4;0xd2e3d3b770dec;0x2b37ce93ccffa;0xd657b042c67af;0x1b197f9d06a5] [0x23b7a5f5bb89c;0x8c1d2ff2a98e1;0xdb207057f4212;0xbf0f83e00cb3a;0x6c1ffe6bbc26]) [[0x8b42b42a1c84f;0xccaf499ab1ff7;0xd04795b460859;0x50fe586757b20;0x461fddcfa393];[0x1;0x5e1e8b1c2a013;0x705301e7eb4d;0xad7e433a3e127;0x86985ab2c4515;0x38a37d9382bfb;0x1];[0x1;0x6398bf31bc84d;0xb77769c920bdd;0xfcb965e906088;0xdffbf1ef63af8;0xb90c74a05f01];[0x0;0xad2dda3cdcc08;0x7b3a8e77d3146;0x255c00a58c564;0x2c6d4e935c7c2;0x67c10cae03376]]
 [((V [0xba2588fa01f3c;0xb467bb1d34a7f;0xe1c58ae5a426f;0x270ac5482a2e1;0x4cf8c5fba8bb] [0xfd12eed9a4a2a;0x1839670e88621;0x9c110ce8123d3;0xf974411323cec;0x66bc3e7ddf44]),[[0xa118b232e7e48;0xdfdd49e628516;0x5a0afb90ddb5d;0xd6ba426198d1;0x9abbb2ccb1e1];[0xfcfc907cbda1b;0xaac879ef9984f;0x74718a5949c28;0x844f3192ed7f;0x4854f0076ef];[0x1;0xc54d734c983d0;0x4401e83e86f9b;0xf106f5add0c25;0x5a14351babd26;0x2b7b4b90404];[0x0;0x119496c349340;0x883624849e4a6;0x198fd42790395;0x9a9e41a128f17;0xb0118c1b0a69];[0x1;0x5d55dcd3bbf40;0x27beca7d8b055;0xa8899d185d5b4;0x1a360a35c3db6;0x3ded97466267];[0x0;0x141aa1c20ad58;0x133cab6c465f;0x9ee3e70549a3a;0x776acd6157fa0;0xec557bfd2de7a]]);
 ((V [0x5ef36c646ad48;0x366a5d10e05cb;0x7837a2d7cc1ff;0x474d1b8148fb1;0x13754b99206b] [0x952df6a44688;0xd722b091a5480;0x504a8312c1dc9;0x96664202baac2;0x1bf1934770c2]),[[0xa9f2a8eb2b8c1;0xb27fd48e66f92;0xa517ef8003b5d;0x6f264a55da16;0x908384f766a9];[0x4f33eede22625;0x7b9150c39bd3b;0xe70bda6016edf;0x3be448e67bc28;0x1da254b9b17a];[0x1;0x6ee922c9e54d0;0x9e9c162955156;0x36cf8c08ac783;0xd7c55e6b424c3;0xaad780280a1];[0x0;0x27b0d9c15993c;0x4ae85a340b64e;0x505ea9cc6dfb8;0x8e31cd2024a48;0x1bec4e397e42];[0x1;0xcc84b3ad13aed;0xeaf82025b7abc;0xf2f30a39d4146;0xd814c1b5103f4;0x970c85665363];[0x0;0xdafa3d4d68077;0x5aecd2192a7a5;0xe3087958e6732;0xd9816561e3e89;0xe9c4fc5b4bb2b]]);
 ((V [0x204b386ef6ffa;0xf82d3f2b7a197;0xfd05c98a789dd;0x404f8f0ce5c58;0x517d056fc96f] [0x736796aa90732;0x5f08e07b7f11d;0xb7c91b0bac5a4;0xcc317b13fa649;0x1a48a9d68b1d]),[[0xc01eef7b82ae3;0xb76f3588c3dba;0x673e588de456a;0x8a497d799f608;0x7645bd8e4cff];[0x6e1bac5ea67ab;0xe493f9b6aedd1;0xb49d0a2be11f9;0x345462d59fecd;0x37a9e8950e32];[0x1;0xb807b5e8e6f40;0xb630fcc7fa01a;0x8fa38a5ee6ee3;0x368153af71ecd;0x592258bdd61f];[0x1;0x754bc09d97570;0x4e1707076d370;0x808fed0e47401;0xfe44996cfbec7;0xf8dce62510c8];[0x1;0x87b2da1c60f15;0x78844cc4b783e;0xcd49c19f107c2;0x79400ef9913eb;0x6c2e1311b049];[0x0;0x3eb50ee75a60f;0x1f57f2b72bc51;0xe71d7a966057a;0x66ad15a2cdf8b;0xbf1021cf60ba2]]);
 ((V [0xac218745bc06f;0x1d4d132d1a24f;0x727bcc38d5528;0x93e2e73d13793;0x7b17c85b88cb] [0x8edf2bef3c2b8;0x2c0333c63b11a;0x5768b1dd8b19a;0xd8df98f9e5fbe;0x8ef0ac43467b]),[[0x77da9833adb;0xbc45f3c8666e6;0x3f03c6aec3b6a;0x640a1bf3ec57e;0x428be539fecf];[0x5afc0d9cfbad4;0x17d4037ffe5df;0xd80fed86b9022;0x3cd5d34e89889;0x6f625157c940];[0x1;0x320f902530b54;0xa45711f36b83f;0x18bebe4abd734;0x844d306deaa21;0x8c8ecb8d1049];[0x1;0x1e9c1cb96fa9c;0x3a1820af6370a;0x2f9edf54c9bec;0x377ba3061a608;0x21fd6d20fcda3];[0x1;0xb15f541b34fe5;0xfd21648ecfa6;0xece5eb4c204a8;0x3b8c941ab06dc;0x1ba2142de9e97];[0x0;0xcc44f9075ede4;0x5469ec598e0d6;0xbd8921c0ca551;0x67cadd086aee4;0x5dc96e992d5d5]])]
 [[0x1dcb7111da3f;0x56d17718cc769;0xd2968bf1be2aa;0xc66cac084016;0x61c1f23788f6];[0x5d07663e49e3;0x5ed68b95ea132;0xfa02ce30ac1d1;0x79fdd6c327c51;0x4e80947bcc95];[0x1;0x25c356a69f50d;0x9475680014ddd;0x27a22e8d643a1;0x1ff7356e6ebbf;0x1fc616b5aeb2];[0x1;0xb5c76446d2b50;0x5c334568a75a5;0xa8ab30073916d;0xf704990148e46;0xe076c4bfaf5e];[0x1;0xa0e18a448ced;0x1307c871b97fb;0x6de5775554926;0xd8c3392428ea7;0x1e781fdad23e7];[0x0;0x119520cbb0730;0x65bfdd70d4ddc;0x635135c76f017;0x60ebde634743d;0x8c4a3934ed5c4]].
Definition wit_C_64_23 : colwit ipt wit := mk_colwit (V [0x22f2ec60c567e;0x89b81e7ce1a82;0xd6a2f142643f2;0x2e6dac81a18b0;0x710910c06419] [0x4f7bd8cf2fa0a;0x2f09a378ff9f;0x84f90cbd4febe;0xabb1e3c5cfd67;0x893d1ceacb6b])
 [[0x27580eb4975e9;0x28358b9e8e026;0xb4b25a0367ae0;0x6672195de7867;0x2704c143b4da];[0x940158be201e2;0x65d9617265ed3;0xd47769fc0199b;0x1b431a831dfe;0x33f32a8bab17];[0x1;0x71181bd710940;0x63dba41d8d17f;0x498b4f8215c33;0x844f34fe2714d;0x2442693e9851];[0x1;0x8e73a00935d46;0x60fbb9aa12c13;0x4fa013ed48ccd;0x189850279d1bb;0xd984b1cc2d00];[0x1;0x32033f887443d;0x61df1014d0e;0xb46183b9f628e;0x6ccfb6cf0ba02;0x1d00a17400d16];[0x0;0xca3d89c9d03f1;0x8cc4f00f2afc2;0x1b6f4ff8c9524;0xe0c661f143814;0x27f4dcc579f85]]
 [[[0x958b698c8bc36;0x47bc1580915ff;0x64f5e7debd8fa;0xabbabdfa032fd;0x8e9a0ccfa878];[0x1;0x589bfa1d4b302;0x5a421d3fcddbf;0xff1fd7b5267de;0xf5aadf0b27aba;0xc0a136d8a3a40];[0x1;0xc431d351fe594;0x1a84822c9bdba;0x9d0fd9f143edf;0xc078ce7e39919;0x148e8b134d3d3];[0x0;0xfc085416a1d2c;0x5133a5dd61721;0x687e1960f5cc2;0x44bc1e6ae0ded;0xe41ffb44ae884]];
 [[0xf3caf79c4a5e2;0xc10a1f71b695c;0x4e7d2461e3d88;0x67a740d2db266;0x71b0fc80f263];[0x1;0x768679870fd98;0xee4e1d9fca25e;0x9490f00b09f6f;0xea66c7c20861c;0xfb0f7639c9ac7];[0x1;0xeb3b7427d9334;0x4643e822e81cb;0xacfc69329c173;0x56d58189c343e;0x17f84e3cbb584];[0x0;0x8503c80a92c9c;0x996d57062d7f8;0x173a737d55277;0x4bea2f3e51441;0xb455a39cc97aa]];
 [[0xae2c071c8b347;0xe3e4a72e4e28b;0xd85fbfc1f36f1;0x17dee7fae2ffd;0x8f9a3cd0199d];[0x1;0x5a534f5b2a88f;0x6c24e65c0abba;0xacee733a1ad2a;0xd26dc86e86530;0xc141e7b74c0b0];[0x1;0x9948c171acb5d;0x26512d4c132;0xad77acc07344f;0x22dd3d9b39051;0x12e4efef5848f];[0x0;0x5be06c5ab0a6e;0x32fa4d8d10c6a;0xc0fa7cacd00d1;0x4d92018e4239c;0xddf04a2f65f2a]];
 [[0x6bc5ce41e9a91;0x7567a93e79f11;0xcaac585a54ddb;0x6bd3c755b27cc;0x7ca642f7152a];[0x1;0xc16ed9ff50b92;0xe7013a7073a4e;0x8816616854a20;0x58399bbc9a277;0xdc220f2975e04];[0x1;0x72ac7d253530d;0x37d87450169c3;0x491f1fbbc67a5;0x7de546b43b16e;0x1ae5a9949b165];[0x0;0xdcc5c46e3cd31;0xdbb8e81e64256;0x328696509347d;0xc5f50880829bc;0xb4f1eeba06f4b]];
 [[0xb7e3992dac4f8;0x191851b522d45;0x674302232ca5b;0x878b044124c29;0x53193f98d08b];[0x1;0x5cad4851a24a0;0x5536c10cadc7e;0x79ed1a8a066d1;0x2ba94b174f8a3;0x272c3f0ae38be;0x1];[0x1;0x5fdd709ccb40;0x4dc106064e11a;0xd6a1bc1f76b26;0xaa068d0fed69a;0x19cd4c12e1c5b];[0x0;0x591f3d3af3bd0;0xbb4226d7a9ae6;0x25a38ecc6de3;0xfad4672608986;0x7bf4392e579eb]];
 [[0x7e680a08bcd03;0xffa31a4b1c220;0x3acf315f1586b;0x53fc686df45fd;0xd17a2839cbd];[0x1;0x91708d55a9d43;0x967624566929c;0x2aca8c7ed5ae1;0xbab9a4b1fb944;0x9eab40123bde1;0x1];[0x1;0xedf5f2a7988d5;0xcfb9b541ca3c8;0x293a81bdda6c4;0xa27ba68325af;0x19ec03c263654];[0x0;0x604cf10a016e0;0x856d98c00ff1e;0x753544c93b920;0xeb33cfece9fcf;0xc3f1c7619875]];
 [[0xb29f166324bc7;0xdcc48213835b4;0xe9d33781626c3;0x1e9282b72bc7b;0x4f86b6488580];[0x1;0x265fa5df1e7a4;0xeec23fd7af970;0x24156f7aeab22;0xd681301d467e3;0x37d71f592df74;0x1];[0x1;0xb9d9b2870565d;0xa5ea70126786c;0x801e47e7988b1;0x28d2b7fedd40c;0x2182e07c1f602];[0x0;0x2c93eb61da6f5;0x1e12ad2bbbe62;0x32a4aa7a52b75;0x835f718ae233;0x7d10d38096a34]];
 [[0x76eb090afe425;0x8f492660ca6c2;0xe073343736832;0xabb4dbeb0ab6a;0x30ebc76e08b8];[0x1;0xa5c57f2d6f244;0xbb0cdd47794dd;0x1e76e6e001f90;0x9156fadf83bbf;0x627d34e712323;0x1];[0x1;0x94a58032f0de5;0x67598880f9d8b;0xa2e1825f40b64;0xf23f4b6c420d2;0x165684741bb9a];[0x0;0x12fe6a838cc59;0x39297ceac7579;0x6ff981bf54e6a;0x4358c376f2619;0x3ddd79d11a8b8]];
 [[0xb873c77f34835;0x1f5f43cca5305;0x23bd30f78f7ec;0xff1b99560fc82;0x56247d515ba5];[0x1;0x2152e03f86c72;0x729217fb12638;0x237ca7c437dc4;0xa103c514606ed;0x1b05670b6863d;0x1];[0x1;0x868c3d4849b05;0x5a0420be1a288;0xd197cdcc44a80;0x623d0b11e8d80;0x9443c3060a0f];[0x0;0x91787271144dd;0x1653b4c025105;0xb52f2b3658f52;0xe3fc4d1465411;0x76b988746b3f3]];
 [[0xafe4b972a9ae;0x1d59d60647637;0x7c88867555e25;0x2df26d5e00d2c;0x4e6121806df0];[0x1;0xcf8b40d8dd48;0x8baf70bb53600;0xc9c3b95e52e7c;0x89295b48d28d6;0x29d2ac8e1ae2e;0x1];[0x1;0x3e24f7ccc82f4;0xf93a7174e94a5;0x88f09bf3850ef;0x86e3cb6445989;0x16a3a38febddc];[0x0;0x9881a155312ee;0xf969121222d17;0xccf752751961a;0x6a8c29997be0f;0x6d06b235ae24a]];
 [[0x2768f9f18ef2a;0x8b77a74b4fb43;0xa597e3d544bef;0xd150bbc4425f3;0x3c367ef949a0];[0x1;0xa23c8b49151dc;0xab054a5450574;0xd37c460c3b3ec;0xd42a6ae022a53;0x51fc296e13ad7;0x1];[0x1;0x3bbe51a966714;0xe959add1b5a14;0x6da08d405aeab;0xfea9b6756a35a;0x1bcf2af181991];[0x0;0x61ea98a57a6e;0x30d3303673db1;0x1294c5be90d78;0x3ded306840462;0x51268279a5658]];
 [[0xcb22a34574483;0x59247ed6b15e5;0xa8c3ff57b3f11;0xbebeb9f06ee98;0x8d7d588866d5];[0x1;0x43459233eeca2;0x4649fb86a25cf;0x37e09546e8c70;0x946702e1f9c6a;0xbbf85c0741c4e];[0x1;0xb7ce71eda11d5;0x8925b8a36aaa3;0x82bb86733958e;0x95c61c9f68ce;0xd556988af282];[0x0;0x509a9072e6d43;0x6a6ffd380d754;0xf160d75e6a935;0x83d1ad71f2665;0xd17801727a6f4]];
 [[0xde0e1460b0b7a;0xf6e1c0a82992c;0xda1becdbed742;0x4241558241031;0x635a4c2aedee];[0x1;0x4679ed3a955a0;0x63c175e36b999;0xe915cef45fede;0xb0bcbb80355a4;0x65408be25b9f;0x1];[0x1;0xc6dc4badc954;0x123bcc985de3b;0xfdbb89446bcf;0xfe0cd1cf19654;0x1895d5cdd3d8d];[0x0;0xafd704b178566;0x68a2f946476ca;0x72c0577207b10;0x653af2d55576d;0x8f4c0098801fc]];
 [[0x53723cce9c6bb;0xe9a9994a9acf3;0x9fcb9795b5211;0x91b4809afcb40;0x72cfaaaac644];[0x1;0x5461c94e4bb14;0xc6cc97ddd4725;0x8c761016bba60;0x60a24de675de6;0xf45d22b5bce20];[0x1;0xe80b1aea3dc25;0xb76ce3a39624c;0xb3088bf0d25c7;0x515f7b79a2223;0x1a816ef132968];[0x0;0x7a60e702ac221;0x56cd90753cf03;0xb0bf3d2ded5c4;0x5f800887be468;0xb178385496716]];
 [[0x1a0aba89c04d1;0xba5c9df8df19d;0xbaf34e450b671;0xbe45f0a65b254;0x654a62ddb22];[0x1;0xf9a9f7fa01684;0x5827b9e99b9ce;0xc57c4c3bb8b6;0xf5a87ff73d7fc;0xa9925972cb6a5;0x1];[0x1;0xc4e22c3c1058d;0x2bb57d6a7d4aa;0x7b21e2c41b6d4;0x5cef4e985e0eb;0x159e583fb1406];[0x1;0xc9b2255c90cc9;0xc9d307897491d;0x79dc8ef847d56;0xd2992229d4dc1;0x57bc4cd36996]]]
 (V [0x535ce7d7f36eb;0x9266010ac9a2a;0xdbcbe43797fd7;0x19644513e031f;0x81427f594c03] [0x93685c0537e50;0xcaec923e6ba5c;0x182c39ef4486;0x1b0e48c3ab1bc;0x89cd699273a3]) [[0x4a5603bf8594a;0xb8a1ef42cd53b;0xf0c0383098d84;0x6f8ac2bbc0103;0x1555e2f73680];[0x1;0x78a486364b824;0x274b0323420bf;0x2b3af0238cc36;0x5743262ead4a1;0x903688fb1a1b0;0x1];[0x1;0x9b35ce7367b94;0x57fe52b01f3e3;0xc028d421d6b1b;0x2dcb9ea050622;0x17d7138eb815d];[0x0;0xcb61cc908f766;0x20acbfec4b82d;0xd26b68583fd37;0x4839335639a84;0xe513d2f0bcf6]]
 [((V [0x66ad0d99c472e;0x16a095582a275;0x98aa579401e1d;0xbff99be6126b;0x8e50c9f5f1bc] [0x7eb0a22150c34;0x683843d1e1e3b;0x53b0217dfc6c8;0xf8041ac5daf2d;0x65e0c9d634c9]),[[0x79bb5ae9d6076;0xbdd9562a63983;0xf1f453a88ddff;0xb39f816152384;0x721eed29e828];[0x4d1ab447a8450;0xac6093b6d5f90;0xc4c72deffafdc;0xb4c0ef0cd6342;0x5c455b351efb];[0x1;0x7ef460241ccc5;0x70139f6686988;0x9ba50cdee5b33;0x7b312aae81e48;0x2c6c5f107dcc];[0x1;0x15b372eacaec0;0xb94178581ec64;0xc5a010cdc3ace;0xbf087b31d41e0;0x10de3684bd85a];[0x1;0xf9b4adea4a494;0xe75090a9ceda;0x59470945304cb;0x15f367bfad0c5;0x23fb06daa3abf];[0x0;0x637f93b0c20ac;0xc38eb096dc4f5;0xaa841c9c7a64f;0xbe5a6ae3410c4;0xa7569769cec58]]);
 ((V [0x67db79877011;0x9942e6fb33d07;0x19e402a1521b5;0x45080038933a3;0x7aa5818b614f] [0xab3b9b9c78d57;0x740a3d66c6ead;0x3aa41f72df1c7;0xd2b9440e47d20;0x720297312f]),[[0xce9dd427fb5ee;0xc635c92d511c7;0xdb07e01cc94e3;0xffb11ce343010;0x100be60911c1];[0xf205ef2597217;0x8a8e7972dd9fd;0xab2f448e6d196;0x1fc1523931ff0;0x2690ca14c6af];[0x0;0xe3f8ea4682b0c;0x71dfef921b8c7;0x60fc1da08fde9;0x58ca672f16379;0x42b4b293a587];[0x1;0x5a81772bbf2f0;0xcd4c12649a676;0xcadcdeb04762;0x685bb3552419d;0xb9f2a66a13bd];[0x1;0x296e1fe67edf4;0xa5a0c22632b21;0x7ad9e58119a0d;0x8439615f59d9f;0x29c51cac2ecae];[0x0;0xf478b35f7745c;0x13ea5dc90aa85;0x6aa6114914dec;0x8fcb6af2d5605;0x10af5dd7ca007]]);
 ((V [0xa1efe3b3034cb;0xd24ceeb8dc8b5;0x609def7bb847e;0xc7822472ba13f;0x928a5a93c87a] [0x192e11be5ffdf;0xe5d86c05a1542;0x69bd52f3817d6;0x1ac5fd458f92e;0x1d8aa79a3f68]),[[0xc134386df729b;0x9d0ae7929c9a;0x2df4b6c35e6ec;0x77bd68e26986d;0x3d7a1faf1d6e];[0xacf8cadff539;0xf92a428ef9c10;0x3a5375678be54;0xec2a572dd698f;0x396ac2eb5c01];[0x0;0x70a38ba1e2df3;0x418d2b3e3d9a1;0x39bc0d8ea6656;0xbae166827233;0x234e700fd36];[0x1;0x18e7bbbc2a352;0x3156ca9441f38;0xb2e45edbcc5a7;0x2c658ff67c9e1;0x12ba349522018];[0x1;0xfbf100b439065;0xbb6cb70ee5d47;0x8d84b7fddab24;0x7d83a5c3906ca;0x26c484bcddcfb];[0x0;0x643cca340bb9f;0x43dba6fa417ac;0xa106a35c4e8e3;0xcf1a21ddae8df;0x6411cc9e2ce7f]]);
 ((V [0xece7b3c3cd02f;0x1d60c8f7ad7b6;0xf0d9d9903c51c;0x298404f2d24a3;0x89d210fb3abf] [0x252bc4ebbab9c;0x5cacc1344ee1c;0x1e8a252867e96;0xa40178bac183d;0x30c3f3d4dd3e]),[[0x83fc8598fa47;0x63061e6ac18f3;0xf59875168f45d;0xb5c56e86b10dc;0x59543bea79ab];[0x1d2e9f32a7b18;0x5d6c78ee85a45;0xdc39b0d075919;0xce05899d3006a;0x751aa977d047];[0x1;0x6ebfff82c0105;0x2a6f33daaaad7;0x89a535c3357b8;0x19fd734800930;0x36a60cad5f8d];[0x1;0x9f3b6b541ceca;0x3f9704eac338d;0x68df2fa735065;0x7ac35edbb34f7;0x230a1d744eb58];[0x1;0x5bddf516c855d;0xa4a71081cedfa;0xc02477bb7273b;0x766d54c866981;0x2918f3be18abe];[0x0;0xb4051ae1b5989;0x3a71ef17dc8e8;0x8b2fd912b7f94;0x84c537fab50eb;0x8f012e4e42cda]])]
 [[0x84fcf78c8996b;0x44b7bb6ffdb06;0xfc3f31ba8bd5e;0xfa569a133c621;0xb64dbbbf91c];[0x11543e657ef23;0x6c93c95e70344;0x259efd2222652;0x1502637675292;0x7315f115fafe];[0x1;0x551f75453038d;0x6196f1fc8640;0x1575b5096f783;0x285bb96b07ac1;0x4342fc0e09cd];[0x1;0x18afd0c2f0048;0xe08886a9d6c65;0x19c8cd8bf5206;0x2dfca6342d47d;0x24171df63f229];[0x1;0xcbd2fa15f97c5;0xdedb6dc084af1;0x48d87b3af71bb;0xb86cc2fbf0a56;0x1c847f32f3c17];[0x1;0x23ffeb2e6c5bb;0x33377ade9cae7;0xf4251e9c5209c;0x6bc95fd53e9d4;0x615f1f09d8c]].
Definition wit_C_64_24 : colwit ipt wit := mk_colwit (V [0xa40db6711bdee;0x5df1f48c4ea13;0xdbca551200bf3;0x13abda1ff3b33;0xfa2459e9347] [0x67ddb2a431ce8;0x3dee1ba62e9db;0x41b60147200b6;0xf2edf0f0deeb4;0x483185684503])
 [[0xaba4b2c59f38f;0xa02af7015ae41;0xadc9e55bb3e12;0x2039ce58865f4;0xe1a4fa6f27c];[0xac94b1ea32e91;0xe335425892d54;0xa5ca72d454471;0xee374ade11f4f;0x8f51ea8a7ce8];[0x1;0x8325d280e41f5;0xe76aa5c24a366;0x36699d2054596;0x931c25a933b9e;0xebbade99b4de];[0x1;0x4184c305c0c26;0xcb6713967f12e;0x6c128dfdbdbc4;0x1f55eea10c9d4;0x2b919ff8b73c6];[0x1;0xaa4c13ca32bcd;0xf77e11056882b;0x7a1e352b39198;0x96546a95df6aa;0x1fcecf427d0c];[0x0;0xd869723ac6626;0x8eec2a91f5d18;0xf78fa3429b487;0xf2c5d432ae51c;0x115f4aa58992]]
 [[[0x518f2f5dbfdf6;0xd95a0f8cf81d6;0x64d687379a986;0x63db2b28ccbd5;0xe21a4917401];[0x1;0x738e04df3d58;0xfe5e1b5d61ef0;0x7be17e772e56f;0x4c8a66dfd0a35;0x90490511e3eb4;0x1];[0x1;0xd9538d4662e94;0x76b9025026e88;0x5c3bfeac20dbd;0x7f42b7677c43b;0xff1d21627ebf];[0x1;0x4e6c50929778;0x5e9ffcdcfd521;0xf51dcf9c59484;0x59d15a37a9aec;0x371e2cb989a3]];
 [[0x6e3b3716f0bda;0x64fbe54de9271;0xf1456c4db5f9c;0x6f35b36aba948;0x5cae8b4a3419];[0x1;0xd1b14f82418ae;0x3e9c8efd3781e;0x6a58707d46f3e;0x8cc2e4f04f9bc;0x1444f9a235e14;0x1];[0x1;0x886cf95ebd2d4;0x96e063886ae27;0x6bce28962e8d2;0x19a18e422a1c8;0x1c3d820ce0379];[0x0;0x66e94f1d69832;0xe4b701f4c30f8;0x9708b123354d3;0xc8be6923d33db;0x8b6fb218d7abb]];
 [[0x74d63874c848a;0x420c73a56101b;0x811195328d4e6;0xde1d71fedde0a;0xdf2847b0188];[0x1;0xc4aa2f4604c2a;0xe863fb63df04d;0xc71f26c3f6d30;0xe2c7a98e70503;0x9ba0324108e68;0x1];[0x1;0xd2689b706b894;0x523c0d6104a2c;0x569a31d8e561f;0xaa9b1fb1a7588;0x1bdcd0c50aa83];[0x0;0xd83086859f4e6;0xfe056a10b9191;0xdfd4d34e0dc60;0x5df360a9b62e3;0x4cd272d2f8e2]];
 [[0xb877d9d0237fa;0x45331e0c8f743;0x83c881dfd0cef;0x6b9b4e597aa52;0x1e258c2c67cd];[0x1;0x6a540dc286602;0x19b116f17a712;0x2df9400fc291;0x129bb4e675666;0x7798be64ae901;0x1];[0x1;0xd504854fd2b54;0x4440feaa0c338;0xfa944e09af79d;0xa41f471347816;0x13591a57df49f];[0x0;0xeb475ff009f18;0x8f72907489f1f;0xcd33b64619de8;0xbfe3ed34f9f19;0x17ebeab0260c3]];
 [[0x695d4ad29f4c2;0xda639ce0f2a9f;0x610c11df01cb1;0xbcc0665cce3be;0x1e6eb2e8d7f5];[0x1;0xe99954d68ace8;0xb4b96cb41d2c8;0x3e9f9277f450;0xf381b61c21c72;0x77811018a90fc;0x1];[0x1;0x5499d752d84b4;0x962461ee4bdb2;0x421d69e219b94;0xcb8e414084d5f;0x13367fa3a25b0];[0x0;0xd0b0659e644a0;0x2ff61541880f4;0x1740d12a9cbdc;0x128b4ecbe57;0x243112dc084a5]];
 [[0xe80fffc21a738;0xb54641a2fec8e;0x24a2f53fad1e6;0x2c6bfa5d091e;0x31a386b1fc1d];[0x1;0x4d2a76624d2c8;0xcb82910e41fa1;0xe77810c539b6a;0x881e944f68cbd;0x63c7862f6832b;0x1];[0x1;0x1cab854f7c740;0xd5200ffd48229;0x10391fd30745b;0xee767b339e7fd;0x15fcd84f43020];[0x0;0xe783725deb9d8;0x5057600a30971;0x44a57b7556ff7;0x36e2dc9d57bc;0x48fb032b34e60]];
 [[0xde1c9f92de5dd;0x580dcd23017f0;0xce099eeb45e0c;0x693fee6b351c7;0x638bc3c6f6ff];[0x1;0x2d193f6bebd79;0x210e2518d9f64;0xe4fed77f22ba0;0xa4c741810b824;0xa0a3efdc9056;0x1];[0x1;0xd54c969270495;0x4d759f3b3fea4;0x6495d749a5aba;0x9283070cdec8d;0x1868e6aec8d0a];[0x0;0x249bed55cd491;0xddb86200fd2ed;0x3c6ba13cc2fa3;0xdbaa7c8bffba5;0x907286cdbddab]];
 [[0x1b8e299341ea2;0x96ee68644eed6;0x9a89b47e4bd96;0x377ab2b1557e7;0x63e155c40b50];[0x1;0x949bfdfe37426;0x2555e841f88b0;0xb11f7ca2151c1;0xd2289f4adfb3a;0x7bb6469f76ea;0x1];[0x1;0x8997b67881a34;0x8c8bf23d6f6b6;0x1331d925c12c5;0x6775a62c1a951;0xe4e60052a8fd];[0x0;0xc5d82bc2b0916;0x9a86c5f705077;0xe42581df01f2;0x3d30a882484;0xa0b890065e27a]];
 [[0x6bcaecb67a5d0;0xdbb2a9fcf6772;0x2a68eadffc8a1;0x3ea0e626c5202;0x6fcf90452c14];[0x1;0x4b0240cef9b70;0x7306b0a60af36;0x926d6c151a79e;0xcf1d255b1e464;0xf98a9a95d0e4e];[0x1;0x7394dcd459500;0xf3059184434ff;0xab6561d46fb0b;0x58cdf3d05b439;0xa9babdf6477e];[0x0;0x342f0da8c690;0xc03405673c1;0xf1141cd5f8843;0x3e028dfa031b7;0xb605683432dfb]];
 [[0x282bd160876b4;0xacc6f5b473f82;0x8d387fe83ad19;0x69c41f701f2ad;0x780c2a95aa7d];[0x1;0xc6a91e3111b4;0x30418eb955494;0x450a3ce870132;0x7f19de74d167d;0xf1bc543b326e5];[0x1;0x65daaa7600350;0xc1ce1b614e629;0x27363c62e38cf;0x89d2404b01c57;0x16ee5dc6aab03];[0x0;0xc91f7b752518;0xa5a3f4eab6fa7;0xd9f654e62a2ef;0xf26b7bfb0b327;0xbfc91cf739655]];
 [[0x12d0ee5e1a80a;0xad941cb0fba5c;0xf8420ad53c504;0xa5ce2435b9dc9;0x804da4a3da42];[0x1;0x664dcf21e836c;0x136fb72fdadf5;0x14166179ec59f;0xd694ca8bf4ec7;0xdb50f1f0f893f];[0x1;0xac0180933c694;0xcdfa55c71e7fc;0x151187b6232c9;0xc3660ea08bd8b;0x179caa5f76531];[0x0;0xb0fec4f7c3144;0x85b0ddd28d64b;0xc34b8a80f92eb;0x804a52619de1a;0xce304e4a11693]];
 [[0x40605fc866298;0x29658e2a59d48;0xdbb22b4808f4f;0xe063c52897da4;0x47919a00a453];[0x1;0xbad918974e868;0x4dd131699027d;0x89fdc71d9f025;0xa64aa4c2d16d1;0x42053c77df203;0x1];[0x1;0xc5028d3430d40;0x4072c56aadfe6;0xa0213f2ef6ee;0xfc66eacc219c3;0x1291ac7d23dc4];[0x0;0x78ab0f5e49df8;0x20cc97b4df94d;0xeb4dcaad47e80;0x9a627537f84d6;0x6d96483659884]];
 [[0x8f681d2cc6b7e;0xbd84d2a67fd4e;0xbe9381df83a1c;0x2149e62548633;0x68c53541d8a8];[0x1;0x70d3d38eb01d6;0x437432a8c56e;0xf8b756503fc20;0x574a017e2cd5e;0xfa0b0cc8385b1];[0x1;0x4d04e455687b4;0x3f6588913f9c1;0x3617ea7d2f2b1;0xe487a56f5a270;0x907384ef3527];[0x0;0xc4e0359a62eac;0x63f8f26140c6b;0x6376f7d993ab4;0xda92c2f1702bc;0x96c2bf0502670]];
 [[0x62c74a66242db;0x595f00ef8cbfa;0x92c343f6fa116;0xc6abec9658cd9;0x98c79786e6a7];[0x1;0x9f56bc7f3e462;0xd020c2f0084f0;0x96c638ba0549;0xe00d078ab8703;0xaded5762414af];[0x1;0x51e1926793fe5;0xaa2fa0f08da80;0x6ac88e1b30f3e;0xc17c0b025fdce;0xc51c66a5ead2];[0x0;0xdacbb516f6d9a;0x6957f2340f743;0xd85110b437b70;0x3f4941017cb0a;0xf0204ef5ac4b7]];
 [[0xcb595b8c800df;0xb885a145f09ef;0xf2b543e511c24;0x69ed761b6e161;0x3ca7fc721bc8];[0x1;0x409466f3b09ad;0xc7301c849f6ac;0xcbfd23470b942;0xe3c3259c40c5b;0x5054db50e837c;0x1];[0x1;0xd67b8d6f28cad;0xbef20ae3706d6;0xa13bb9492ae58;0x7b7dd5526503f;0x148abf06c883d];[0x0;0x73b9932eb5c00;0x50b19a517069d;0xcfc5cc73fdc50;0x6d434ee7dd3b3;0x57086edbc8f4b]]]
 (V [0x625738098b1d7;0x16e22cfdeb88;0x9ea1f9b0e3e90;0x90cd0f81b5deb;0x40d56f3fc27d] [0x7ccf185867b8c;0xb059ebc835fa2;0x27dd3a5217a28;0xfad4bd3cfef9e;0x7f5ce5552aa0]) [[0xc8baf148a95e7;0x32d3a0ec62c46;0xa63bc0b2839d8;0x684007d5ad40;0x4a173220cb69];[0x1;0xc9ffdd0290ee9;0x35528ab480bce;0xcdb0d5472184a;0x8ea9428256ab7;0x3730a1db3180f;0x1];[0x1;0x532db14d7d51d;0x20c2b8b3c98df;0x3493d9647817;0xcc4cfb29ca47d;0xc5ebf3f22c1a];[0x0;0xff48123ee2a2f;0xffb47a780c9c2;0x79214c25ea268;0x2c6171bdf52a5;0x63130568e8dd5]]
 [((V [0x7a2aa47ff42fe;0x900ff59c4a361;0x28b4c7632dfa9;0x5f40cbb0d5cec;0x73b23e2486ca] [0x5073b62e28a2d;0xa6a9d95af9d6b;0x61d991fbf6a00;0x5f8858da8bff6;0x28a1dccdb325]),[[0x445782ea5421d;0x5dd87b4ca7cfc;0xcb45751b520f1;0xbfefab15141b2;0x1edd12403783];[0x411b7d4f5ab97;0x1a23908c862fe;0xf96d58426ba0d;0x381e5cb205cb5;0x50c6cdbe536a];[0x1;0x63c4c3cb71ebd;0x1e1c371623b3f;0x38d60c6452534;0x63dd72bd212ba;0x69de1cae660e];[0x1;0xc34fffd22ff58;0x9082cbc0e7215;0x2bfff719462c6;0x4ff2fc3a38312;0x16cc05c7fde00];[0x1;0x207247b60d915;0xcafc4349843b4;0x543d0787bec69;0xb0db290966631;0x18d80f59f6335];[0x0;0xe73b62b13d69e;0xe9ef51646405b;0xe5fdc3c916821;0x3fd3730539b18;0x222e03c5f5d25]]);
 ((V [0x5a7c406d8e732;0x3d51f207d31be;0x7a51a344300a5;0x35e3ad31b671;0x4c62c7276391] [0xd35463fd53359;0x9b83dc77929e5;0xf0365dd521160;0x55fe56b9affd2;0x823e40273876]),[[0x6b8dbca714cce;0x1088d259507ed;0xf47f869b7cebb;0xc069f88ba65fa;0x47c6ac94a4ba];[0xb59a6218df54a;0x1ded233b3053f;0xafea7e0ef8ee2;0xb720ab3d29d57;0x8357412f27d4];[0x1;0x2b3f6577341b4;0xcb53eb3f972da;0x95f26dc6fa0d5;0x81a28dd2ce628;0x820b040cd8d3];[0x1;0x6ef8cf04b19fc;0x569fa40638696;0x33ea48f5216f4;0x750229b5c7b56;0x27352fcd03fca];[0x1;0xb9b6dc15b4074;0xd573498d207a2;0xfda40448b286a;0xfcc067ba91fde;0x1d93153d303ec];[0x0;0xcbfb6839c9ab2;0xcfd4233d2f62e;0x1a09ac44c9bf3;0x3e3aee72c4ca5;0x68afe5929e3bf]]);
 ((V [0x776462a20325d;0xf1f59c1a95521;0x345edb64eefed;0x4b5f9d9acbd7c;0x30bf6f579a69] [0x38686e3a6ac4a;0xb381006d25540;0x69ca714a0f55e;0x69f1a87145492;0x2e437a3b4c20]),[[0x9f3c6c21e2d96;0x19345e4b60f3e;0x4868e6ef07469;0x81c4022c89eaf;0x6e029aaa9348];[0x72a88adc0f84;0x5f4058bb983ea;0x71be854897d2c;0xcc54fd0c163e;0x232ab65f6d36];[0x1;0x55fefd1a15074;0xab55b76b5639e;0xa4205914250;0x7e7519771f34;0x145b3c958661];[0x1;0x1fc22eed0325c;0x885d50290cc45;0x2fc4eb9fef2e1;0xac7f6df65d76f;0x60bbdd24c1e];[0x1;0xa8b78f70ff414;0xb7f257d2ad9af;0xaa6741c400b89;0xa0ce5fc51b700;0xfdbbee9953bb];[0x0;0x236672d10f41c;0x1abe4c60e2f7a;0xa10052cc2d4b4;0x66d5bc25c7387;0xa8b751ec5683a]]);
 ((V [0x3610df23ec7a5;0x3130a7ee3b452;0x6865a3a522d56;0x8ba7a229c370d;0x526bd1ebc2d6] [0x89015b267f7fc;0xb95391ebba7b9;0x4fd0f0d48a04e;0x18477a88165e3;0x6db1129edf2c]),[[0x3a026fb6cf788;0x6d1b862564984;0x9b7f3e357b3ca;0x32a5c774a77c7;0x5e1398d66446];[0x4097b950d3819;0xca190823182ed;0xe810a70fbf883;0x797d1caf909d4;0x98636df8960];[0x1;0x27942042b3595;0xcda58d14604c2;0xf68d78fff2361;0x3e13b43115906;0x65c58b4ef9];[0x1;0xe13433f3a7620;0xb137f93fb8b60;0x82cd37078edee;0x9b09e8d42ecbe;0x7b42dac351a];[0x1;0xb5be3dca73340;0xad43210b69419;0x8282f16ac6286;0x346a15cfe1b06;0xef17da1584ce];[0x0;0xf749af9bd4498;0x26b87bd64a8c8;0xdce1a778a2705;0x1917b5fa87566;0x8d729d5d91018]])]
 [[0x197833ce26681;0x275a950e01ee5;0x5b742490fb36a;0x2a6bbe52ff838;0x7c21b7db7662];[0x11d0e675a4b3a;0xd3e23ab11f874;0xf8e1fec1eace2;0x659b05336da87;0x37ab7dbb6bf9];[0x1;0xa630307f354e5;0xf4defadca846;0x9cf3acc726717;0xabd634a5d6ec5;0x2fecd9819b4f];[0x1;0x31ab3f0175098;0x69cb2ea2dee3e;0x824c1a21c0a7a;0x5009e16ac3829;0x7460916031b3];[0x1;0x2e1891ccfa06d;0x7afbf8347db9b;0x47f76a3ec22ac;0x9ae93b70b08fb;0x1947aab274e22];[0x0;0x47e8cd2085d00;0x97abc85cb25e1;0xea65a600818c9;0x2a7251605dd4b;0xbe98059289f09]].
Definition wit_C_64_25 : colwit ipt wit := mk_colwit (V [0x51f77638cc084;0x80d7a2867568d;0x4dc859a07b4fe;0x220116e430cb6;0x5bcf0bb19c1d] [0x7c6a1ab8ccaee;0x3b35c53b4ad6c;0xe2047031c7e81;0x463b0f3e1a5f1;0x57d911d01fdb])
 [[0xca4c8afe4ea03;0xa4037f4a2ccf0;0x1a7b66c08d2cb;0xa918c5a7eb9a9;0x249ac95371ed];[0xc933d4e5d5e34;0x8059ec91690e;0x74eb95009a191;0x80a8bba47c5c;0x4f9dd27718a];[0x0;0xed7d0b07b224c;0x8ce48a3f6db9c;0x443c55703e12a;0xed94fb3aab484;0x77fc13a658b8];[0x1;0x75eba64493058;0x9b331d07af006;0xc28cb27ffd4db;0x7322cef2d0229;0x13d463020e5b];[0x1;0x3fb09f5629ed5;0xad81de53fd53b;0xc4d3c42031f32;0x4895e11692284;0x25f114859a7d7];[0x0;0x1222a423ce37b;0x9f803b7af825b;0xf4bc9f18c6514;0x429e99654426d;0x30cbcd29b03fd]]
 [[[0x2100dd560ecb;0xd7faeb528f512;0x8970de2102484;0x7a03cdd55e94d;0x99c604291048];[0x1;0x1e1d97eb400b1;0xe20872aa8ffa4;0x5c6c123fd6a5a;0x4d3911b270407;0xb3ec23fb002eb];[0x1;0xff1580d7f0d05;0x9a99aa6361599;0xa26b063e77dd8;0x3f507e8f0fdf3;0x180b7d6ef794c];[0x0;0xc4921c6e44fe2;0xd04cb078bd5d0;0x4212f16a12869;0x7aa28a9d3091f;0xf398eb078d641]];
 [[0xe0dc07aca58b3;0x6d4af6c1f9ffe;0x4ca8a6f535219;0x9a348311898a5;0x4967750c8109];[0x1;0x7f03c3bb7a878;0xb0c006abb524e;0x3c65dd8178286;0x29bd32173338;0x2f02b0a81e77c;0x1];[0x1;0x881d7c831c975;0xffc9ac4a73cbd;0x17ee2b9536deb;0xa3d030451d675;0x1be3abac53e67];[0x0;0x865cc0d2f84f6;0x2164078592c9a;0x7ef3c97462c43;0x290c5c24b9a7c;0x6cdf46c6ce9f1]];
 [[0xa1259a8482263;0x255601c84603;0xad202957dab18;0x2b5bdb8c43aec;0x45a6d5597634];[0x1;0x9136237ba4b13;0xe193653c89a9b;0xf2290b1742c24;0xb910bdf8299cf;0x438a1affb683b;0x1];[0x1;0xd175a67073815;0xf1b17cebed675;0x1982de2f35bf6;0x543bbe264893e;0x1b9e272d2c97b];[0x0;0x7b9580aae5927;0xadd95e60bfb3b;0x693136ca6f77a;0x771a56f79e7b;0x7453b809670a3]];
 [[0x2d7a22e395a2e;0x6ddfd30feb89e;0xcba65c46ff606;0xac3b3f65817d5;0x724528e3f13a];[0x1;0x69bc3336c8952;0x462eb3450ab5f;0x2bec4fcfd926f;0x44a87769aefa4;0xf6b2ddd4116b3];[0x1;0xd4e505cff18f4;0xfa527af23d472;0x93695ccfc0346;0x9cd4747d2392e;0x1698052ccbe07];[0x0;0x1a2e22dd3834e;0xe558ccdb31f59;0x7f54dee88a683;0x9d1b31673bd64;0xb4b6ee8b13a37]];
 [[0xc42998efa07;0x5676693aa7503;0x9dd1275fbf716;0xb4ab8e88d43e0;0x7ae00f1b80e8];[0x1;0xfc628e3f3b2df;0xf1153fead0dba;0xf2f4ca38b81b3;0xe199279b721ba;0xdef0d20d82a22];[0x1;0xe714c11ceb7dd;0xfe21b09f14d83;0x5c5908ba3e549;0xb0e9e3e603cbf;0xe91b18a14f5b];[0x0;0xc0e14ab21d9ae;0x35dd26f6cc68f;0xd2a949eff431a;0xb085b02e2916d;0xc216cc765e0b4]];
 [[0xb99ab3ab8a449;0x5a7570f50d188;0xa950f0cc634f3;0xb72b042d654dd;0x6cceb7f90082];[0x1;0xf5aed379e5eb2;0x6685b838badee;0xef650fc37df75;0xf979ec59caab3;0xf8103681818fd];[0x1;0x3b739462e8bfd;0xc367b6f76e9e1;0xeca6edb0bcbd4;0xc4b40dddc5109;0x7fb4a14db464];[0x0;0x47d33134e9e57;0xb16a9a48dc96f;0x4bfb2044e9316;0x32fee0e93337b;0xa8bc13d346ab8]];
 [[0x9b66f5a78fbe3;0xf51cb1b6722bf;0xf058d762c40f0;0x3e2de5368d17e;0x5605c656fdb2];[0x1;0xb8b1214a13b1a;0x155d7103f0838;0x3c947be453df;0xeb90bdb6e1315;0x1c3bf6c02f203;0x1];[0x1;0x688c1791bd15;0x803903941746f;0x19c73f59f8845;0xd72e6a47317f;0x114a9cf4c2160];[0x0;0x489a84a5652f7;0x4a80ff7b77264;0xf8c1c0bdb7465;0x3b04b5b2bc94;0x76da6ead82a52]];
 [[0x9910df0c58783;0x249760f57975c;0x755b561b405e3;0x112c09d86c242;0x3d5e220e82ce];[0x1;0xd79ab78e53694;0x21bd74836735c;0x3a52dd49daed9;0x467554af171d0;0x42c92a76fc00f;0x1];[0x1;0x2b9fac3b3bd5;0x8272ddc5685b7;0x7526546fe8e29;0xb1f1fe1732cad;0x193a38e3cae74];[0x0;0x42820896ad5a8;0x9f0fd06b95f38;0xa59169a44eaf2;0xa116aaadca41b;0x5363573f49029]];
 [[0x7aaf492f4d1f6;0xfd1dbb1d5decd;0x3b1bcde0d92b9;0x7eb9b5b60e680;0x91ff49937fcd];[0x1;0x947f56413188a;0xdb52a383ea7d3;0x9ddc8770091a0;0x1f26d98b7c79;0xbbeb8882afcf9];[0x1;0x781248748de94;0x8c13bb43367db;0x2f77444977f8b;0xbe24b98d7980f;0x18485f5d1660e];[0x0;0x6dde5cac14a66;0x5f2d145c1d7a8;0xc9461312794c1;0xcacfe7d6a1698;0xe8e237793295a]];
 [[0x4539bcefa0430;0xea0793664f5d5;0x8a593b71f55ca;0x3f94924481b2e;0x3839e8baa0be];[0x1;0xb974855392530;0x95fd3fb3f2881;0xe389590de9823;0xddc09ca053279;0x58356618748dc;0x1];[0x1;0x78a61f1865500;0xff44a93100761;0x1a9e58e7e32af;0x3db4b2f61f23d;0x1adf42d53fa02];[0x0;0x9dfcdcab28630;0x7be0639837dbc;0xf85705ad8ebf9;0xd4adefb657b0d;0x4fc1c6b940c94]];
 [[0x2550f8aaa0157;0xb779ff085b316;0x86979e6b882cb;0x7190797504500;0x62502feec676];[0x1;0x52e94bd1a705d;0xd67ea750410a7;0x3cc70bbe43572;0x3ed884ce8075c;0x22b129fad255;0x1];[0x1;0xde516bce5b3bd;0x1037c70ecab9c;0x14608c27f0b89;0x3f5828923f59b;0xd0eefc0c3ecd];[0x0;0x5d58655853058;0x6d5e188c5ef5f;0x4448b022374a0;0x83a14f1b8402b;0x911cb9f3572ee]];
 [[0x536a8d1f6915c;0x51d4ca78edce2;0xc960cd3d8b814;0xff9b6989fed1e;0x457426525d90];[0x1;0x1b41a90f1f8c8;0xe22eb74a657cf;0xde3546a0c9f96;0x9685ab5a2bda3;0x3ca4429e3641f;0x1];[0x1;0x1a372cbcb5bd0;0xdd08e66e3a1d4;0xb7bb51f23ccc3;0x3d94d28946b77;0x10631fc5db4c9];[0x0;0x84049bfef2c40;0x8c1fd83e61032;0xee164ed3c0811;0x80016b7083448;0x65d6b164edafd]];
 [[0x4a660d8edaa;0xad1d4e7c0a4c9;0xa4ec79de1595a;0x3730005f26146;0x48a49d952914];[0x1;0xb318ecc949a7a;0x472bcf565f3cd;0xdd71c716523cf;0x7ac0d13f61ac1;0x3390a8296d186;0x1];[0x1;0x7d7f2ce7b0114;0xa483cb7a579f7;0x8f07f593ccca9;0x975cfec3b0dd3;0x18b22448dba47];[0x0;0x1a169d79d22c;0xc8331d5f157f8;0x4db0101e36f40;0x76139a216cb52;0x63041997adede]];
 [[0x1e31082b2171a;0xbe602b6e05a84;0xc90d49a632f12;0xbcdadc4fc5b49;0x505747cde220];[0x1;0xe42a597dd2fdc;0x2a9a514ea0f92;0x2d8cc97a7867b;0xb2c41fbfbedfb;0x26c874fd5ac88;0x1];[0x1;0xc180e066417d4;0xda49a16f48297;0xc5de12c0ab96;0x73ef1792025ba;0x17beee8c81d49];[0x0;0x139f11fe023e8;0xe3bfb49bed8bb;0xe594ba86b6d6e;0xf733097c49901;0x7c42962e430f2]];
 [[0x1b2f71f334dd5;0xcb713daebacc;0x17b74c66bf542;0x5a6f8f63a4f18;0x94578b5af5c1];[0x1;0xabb8eaa61ab01;0x2f3aabee27a5c;0x6702cf24257b9;0xcf84941433b2e;0xb948e3270e032];[0x1;0x4a5680f6b0e45;0x298b95672970a;0x77ba94d531062;0x2676bdc152dd0;0xe0a038a19b8a];[0x0;0x327d009b40493;0x60fffd0b16406;0x33ae4b0b3cfc2;0x716b15eb76eed;0xf0d6331833029]]]
 (V [0xdd3d1984827f0;0xa53366ffb88c7;0xa683a2412936a;0x8654b94d582d2;0x3adbdb53bd5c] [0xdf201b8555ad7;0xbdd1a80d97d78;0xe2311ca0b3b01;0x5b457b0e062c7;0x36ef076962a4]) [[0x5c8597db6080f;0xd14ba5c764cb4;0xdd06017d919c4;0xfee1d4f0d21c7;0x22489e198be5];[0x1;0x35f3d05f7596d;0x28bca6a5d247d;0xc373b0a216647;0xb5b71d888746b;0x75ffce2aed502;0x1];[0x1;0x9dba6ff0ac6cd;0x2ea61c1dff820;0x24e5820eaffca;0x12951cb4bd119;0x1d728c65f27e2];[0x0;0x376cb3d5a7d2d;0x33b4e864849ff;0x5582673decc33;0x93c2fcb9b6b65;0x30862495891c3]]
 [((V [0x594f27d431050;0xcc058874abb77;0x83d407b776728;0xb6a491e06ea69;0x8bdceb7582e6] [0x866298924eee1;0x324dfbb60ac3f;0x7c971f9653d90;0xa5678acc890d8;0x6f6330d0923]),[[0x6768d44e18613;0x12adbd20733b9;0x2a3a9577b3700;0xc547e8d02831b;0x94c46b42b85e];[0xcbe740b2ab1fc;0xe0f1c7d13f0bd;0xb92725ecff9a3;0xdfca75cef196b;0x4d753e46ea7f];[0x1;0x35e31b366d00;0x8e3f79b437f00;0x89c6b3507b8ae;0x73efe37b29e68;0x69285350d691];[0x1;0x80066194d4ca2;0x60246ecc1ccb4;0x75aa331c7b845;0x59dc41c4f6597;0x125dd4bfb6db4];[0x1;0xe2b7102b31cb5;0xc2e2b1c5b57c;0x476c90f9f2226;0x2368bc287631f;0x11981f24c8e50];[0x0;0xaa6bdae7824a1;0xb772296aeb345;0x57aa9e866a6fe;0x10356d3346b52;0xefd763e738ad3]]);
 ((V [0x782331ec3bf29;0xb510aac0d47f1;0x8c64a623dcbd;0x5537d5b391981;0x2c97c8eff5c0] [0x697c6912f530e;0x172c5653ca597;0xa1d8fa151cf5b;0x26e12ce92fe1e;0x32911df0870d]),[[0xcf2d7adb0a8ae;0xe009d219983da;0x5a1c4f3b5a620;0x119da041bf42d;0x8bb543e56cc1];[0xd086df8561ebe;0xfdf9169090941;0x23d5375cddfa6;0x418ccb5fbaff;0x9007efe1a203];[0x1;0x5cc7ce9eba500;0x7785e580d6b71;0xbb414a1e23e9a;0xd37ce8bb4a7ab;0x6f3b85489607];[0x1;0x3c183fa62f6ac;0x505d7f5aff92c;0xfe496945ae25a;0xe81aea0ba6ac8;0x2caee7889b938];[0x1;0x9d4370d1f56f4;0x4bda89f01fbdb;0xd8fc381e09b03;0xe3d4050816249;0x19815d607a975];[0x0;0x3ff691c7a2500;0x8dcf9c82f3c58;0x7be7229677600;0xeb49ea5b17eaf;0xeb302a90cb271]]);
 ((V [0x1d5c2c2f69756;0x5eb6e065d0c6;0xdc8c475944433;0x29770ee8cd93f;0xa2e15a072ce] [0x4c06f888eacb3;0xaef30f376bbc7;0xa58aff021cd68;0xa34a7c9cd15c7;0xce1510c591d]),[[0x6c2c0f333860c;0xef13737795688;0x20859f3ce4efa;0xd1c6053b9673a;0x71912b1bfe6c];[0xb922170f59e3a;0xc4a91ec92cf24;0x56234a82b1e21;0xe175a7db23aa9;0x549aa829b442];[0x1;0x18741f62f68bd;0xa5e239758610;0xcdc9f0c4b40f2;0xea8c799b961d9;0x7e65795fdca0];[0x1;0x60f5c79dc6f10;0xa0c008c829e1a;0x880803683af35;0xd4280f1306964;0x1685aeb25140e];[0x1;0xfbbce22927d50;0xedb4c6d981587;0xbfc24e96ce9f4;0x6c9779dbaec79;0x5094a9380996];[0x0;0xb5abfd9ca330;0xb2702df4fbc30;0x47b045d110614;0x9559257396e94;0xbab0d9d7ab4eb]]);
 ((V [0xc22d0876e6ad;0xa31f69703987f;0x233a0cf1850db;0x5ef5f451deb45;0x8e5c660aaec6] [0x6ddac1bdb20c1;0x218a545809617;0xcc6862c1488d8;0xa9d37a7f52375;0xf6d17e4de2f]),[[0x54bb0c6d21cc9;0xd3efba8fb399e;0x4ef237e49cf04;0x51645e07c9b4b;0x8463dc6a3d3];[0x8e91f44f26283;0x8f066cc920f91;0xa2e5a9abee60c;0xe25b220dba854;0xf50f2457b30];[0x1;0xe8aaee8982d14;0x65bb9669673d1;0xec6a57f8cb392;0x8211afbe152b2;0x188780a5ae75];[0x1;0x4e6d97574e85e;0x41f022d4840ee;0xeb2f3224f0892;0x14f901101c081;0x5ada078690f9];[0x1;0x8f9fe25f190fd;0x78e473c6722aa;0x88afa7dd8770;0x687213e764ff;0x10b3ca9eb5a5a];[0x0;0xcc73e0cfa66d6;0x9aa57321ae3fa;0x44e90240ae55;0x8fe5198b9352e;0xa9d0f662eb08]])]
 [[0x4a7645da8b7f3;0xb4143f5d2375d;0x71cbd699fbb84;0xbfb5b66765d36;0x70ad1272b660];[0xb983268f67ac3;0x454ca29ab94ad;0x1fce94ff738b8;0x9ce4cc1b6bcce;0x901a114bd312];[0x1;0xb81242b4e6235;0x4b0e20c478f2;0x8595d4b5010b1;0x16c8ca8dea825;0x6ad1a40bdc4a];[0x1;0x100f93555416e;0x8bf6d5f21e242;0x4c29e53cec739;0x9abe133788c39;0x2c171476e853c];[0x1;0xe5beaef9686f5;0x90812815d9fe6;0x62f7c55d747de;0x477ee7a2430ec;0x2759bdd13fd0f];[0x0;0xa67b392d94b49;0xb5b1d6e34d7a4;0x6edef23bd9091;0x7f3345fa14631;0xb844b9e6fe096]].
Definition wit_C_64_26 : colwit ipt wit := mk_colwit (V [0xd7b55f4130753;0x2cbe31dcc0e2a;0xfe40e5dc49ae1;0x519165d4ac0cf;0x802820a1cf4b] [0x26bcc0a591b03;0x43f2e48c33855;0xe8132b712f764;0xeb4bb612076f8;0x17add95dda1d])
 [[0xc12c7aec03a5b;0xacd750584ab53;0xaaf8a4db51aee;0x6097ed782d180;0x25aa26d28806];[0xf20eb119a684c;0x86578d93b13a9;0xa0abf91f0cbab;0xbdd896040431f;0x819f15affefa];[0x1;0x9b2ad7700ac25;0x4890372ee2e3f;0xe32e6fea4d78c;0x739c0b9532b4d;0x4937468a8037];[0x1;0x66d0bac5e4570;0x81af02dd08eea;0x5a2fe4863ba3f;0x934faf3aeef54;0x27d41e965d241];[0x1;0xb08663cd850e5;0x6056d41b64ac1;0x3a2b82ad4342a;0xf7e176070260c;0x2af584dfa227c];[0x0;0xba349caed920b;0x12b1b8092be5c;0x71a43ed36f432;0x3041dcc3b62aa;0x395ebc4b5f88e]]
 [[[0x34c22837478f6;0x349ccff7fac39;0x78df0e5aabdf0;0x3a07b54ff9655;0x720fed0e2561];[0x1;0xbad4f9d436872;0xf88e6bccc8b6d;0x7e02631a563a5;0x262a9bc1b456f;0xeecc02347cb4c];[0x1;0x10e721c13c294;0xd69d778b5b27;0xcc7a49e974e65;0xfa15fbc324888;0x226457432cc13];[0x0;0x2676099183ab0;0xab415ba0a95de;0xd13607eeffca2;0xc72c781693608;0xbcc05c7908a1a]];
 [[0x7242916b1069;0xe56c337a1d943;0x38701a281e1fa;0xc6528d9e00cc9;0x13a5aa602506];[0x1;0x40b9aa383f61e;0xff3584ae13085;0x50da0fe29b875;0xcad31ba4d8ed;0x8fb5e954e7939;0x1];[0x1;0xb0940a5f17d3d;0xf4cc0021a7713;0x80485fb8b40fd;0x6c96d2fff6650;0x2092bd8d39cac];[0x0;0xaf747a85dfa36;0x4edd6e2ef56ba;0xc2d095155e8f9;0xf1953e7270fb7;0x13d8c07d9fe4c]];
 [[0xcd695cb56330c;0xd3c2340bea17a;0xd25c1702f772b;0x82de06d598a;0x20ca0e2ff71b];[0x1;0xc41b68f55624;0x969aaa2737a78;0x478ce5877e78b;0xa324e3d31fc15;0x6e5ce17ee8ee6;0x1];[0x1;0x37013f3135550;0xdfc339842509;0x906e8fe4190ea;0xc1e16b53bfa8b;0x1db27b9939913];[0x0;0xf4ad3c55465e4;0x64f5f019ba3a4;0x6100cedfbbb52;0x2a16641ce5e40;0x26ae6f3b140e7]];
 [[0x7000d440b1c09;0xa8683cc4ae2ae;0x5305751c8d1dd;0x4115da7ba8078;0x71ae28220c79];[0x1;0x84048480d1d23;0x42311465ba751;0xe38fce0b02771;0x44af201cc6a12;0xec1b7e6454fb0];[0x1;0x2ad5cd380017d;0x4b1d888267a0b;0x5f55e959cb644;0xe470274a25421;0x14ed6318471bf];[0x0;0xa0cb964a03002;0x67772765dff22;0x2ec0d13ef3a27;0xbd6f0b78a48c3;0xb61a7375bcd55]];
 [[0xcbf910f4a195a;0x665353c9b924;0xf15c210c3f53b;0x5a2614090a02;0x4072b95d1442];[0x1;0xa377e617348c8;0x449a179f15721;0x7de050aa56c9c;0x17623a307d7de;0x3c3ead003b277;0x1];[0x1;0xc1dcebaa238d4;0x578ec6bf62c79;0xcff63737667e;0x4918808274eba;0x1ba308e0a7421];[0x0;0xb3184e7186134;0xbf84f37a022f2;0x6d9bf35741130;0xa11243341a0e3;0x5f04b35a9014b]];
 [[0x8373ba60da1d;0x50157f11827b3;0xa04de25b54200;0xd5914e6dec212;0x621268254dd3];[0x1;0xf3ba09dbb74b9;0xa0aa105464ce2;0xff0d3394f7360;0x86e6c226a5f08;0x7cb2d45a00f5;0x1];[0x1;0xfbe502c408915;0x583ff9057454a;0xd40a097547317;0x5db452c866fb1;0x15a3d58836268];[0x0;0xb2266484d5757;0xa17763aff63ba;0xd95901006fefd;0xe3502a043f90;0x97067c051a3bb]];
 [[0x4c7db7f08bac;0xd24e9ad74c1f6;0x730b0418fb03a;0x875e707093d55;0x3f050394a251];[0x1;0x641bfb8bf76dc;0x40f0dae5ee69a;0xf5914bf8e50e2;0xfc0688c439e78;0x36c4f0a03b89b;0x1];[0x1;0x4cfbcd5d74c50;0x94c7ce10066ab;0xdbbc00041570;0xdecb2c579aa3e;0x1532ca2901c56];[0x0;0xdf412088c89c8;0xc58d0f9188666;0x2ebb0659eb6ba;0xb0c8e23615191;0x507ee255873dd]];
 [[0x409213d254aba;0x667b822835e27;0xc67717b34206e;0xae98ce103cc25;0x4ec211c6aad4];[0x1;0xf6b53c9a30b84;0x7d701ada3bb25;0x3593b239acd72;0x7c477ecccac91;0x22c44317e2ffd;0x1];[0x1;0xb0bde40d6ae54;0x408f4c8ad4583;0xdbd2b17719517;0xb6c1b282b0c5e;0x1caf441d8790a];[0x0;0x1218966be3780;0x87a0cd6655d9a;0x61355c0bd69bd;0x4ff8ae82ce48a;0x78a7352478f40]];
 [[0xc02dc5eb62dde;0x54c4a8873f58b;0xf980a0ce6d84;0xdc2e0c74ec49d;0x59ea74fd815c];[0x1;0x9277a4300a556;0x3b8a033b8e69f;0xec421485e36be;0x40656bfd546db;0x165e1ae7b76a8;0x1];[0x1;0x8ebd18d99f034;0x8fa2858906f63;0x9918811d81e9;0x2f5e9b4d74c6e;0x217817bfa7f1c];[0x0;0xe8c6b63b85e9a;0x90c43f38a2312;0xc1ca6e0a48327;0x5b2d41b81539b;0x9196af2a982d4]];
 [[0x4c98a961cd6fb;0x63309ba6356f5;0x91efdab156610;0xc61c1fdda9959;0x7719db8f8031];[0x1;0x29b72fb92edef;0x95440511ff867;0xe5e03f190cd35;0x949571bd23bf6;0xe8df40d6f8b0b];[0x1;0x17f7d06e5dba5;0x6f889e5e77082;0xe12b198494864;0xe078ac7542cae;0x1a3de5f14f764];[0x0;0xadcd6f49bfd8a;0x14a5ed131f88a;0x2e4f81e436bac;0x63d19c74835f9;0xca421c57260b2]];
 [[0x5963dd1cc6c9c;0xb7e39c6447769;0x2f95f15d34449;0x6888c6b0d7bce;0x4eecf7388acc];[0x1;0x9ca5586fabb58;0x361d80002dec4;0x2f9f963aa158b;0x69fe6cbe043e1;0x2810a3743776a;0x1];[0x1;0xedbe24a4e09d0;0x2f77e0e34483b;0x124f906ba1e5f;0xe0cea83c6a95f;0x1a594e3a6c6a4];[0x0;0x5b26a65a0c918;0x557965d8629c1;0x228d761388dd2;0x5a7e6f42ca7ce;0x7cecd825ab395]];
 [[0x94edf4e381984;0x355b3eb5d161;0x78dd769a74f99;0xd1471595bd7fc;0x466c6650b271];[0x1;0xa71352b157cac;0xb413036f7041d;0x261817e899c8b;0xf447660197a81;0x3797f5fc9f105;0x1];[0x1;0xa24e941c992d0;0xc98458694af61;0xbe550e58975fb;0xc7aebef4cb3c;0x1f98a32bfe36b];[0x0;0xa55c4c2a33d4c;0xc1e104708aea7;0x56d83c0120ad5;0xd32ec1eb3304b;0x72687ec371fb2]];
 [[0xac667c5640303;0xb87919cd6e76e;0x6c7c799f97d8b;0x49bfa7774ee4;0x5553681c347c];[0x1;0x29fbcdaa6a5d9;0x644e80b256790;0x9c15529d83b1e;0x3a5280390549f;0x1f5d55a17851c;0x1];[0x1;0xc9819384f7cd5;0x89ebbcc043077;0xf9c5a8f6ddc21;0xb11941bbb7abe;0x2096b9677c625];[0x0;0x922446929cf12;0x674ece7b59c70;0x31103c3a963a5;0x98469f10495bd;0x84637e166936f]];
 [[0x9eba0dbb84f53;0x4fc581ec5d7ef;0xa70892d62c9d4;0x8892314e56c91;0x93e974a5c266];[0x1;0x6896b67328a98;0xa535776ab6310;0x5b86d7305c331;0x11d221c52462b;0xb0a1790b3c58e];[0x1;0x84570d4b51635;0x20cd15e31781d;0x121e4d0acd9c2;0x24a2609668d47;0x1a68bedce8462];[0x0;0x358abde736c77;0x24f1540590273;0x67a3d9445d7df;0xadff67f8de102;0xee48ddecd61ac]];
 [[0x3b8495b325d3c;0xb9e162a950d1a;0xdcc40f960e04;0x472733c0f7e99;0x93e6bce85e86];[0x1;0xe9d2cc58d8a28;0xe25e6d3b1129a;0x3d667638b2410;0x8a0074a6a39ac;0xb0550686b84d4];[0x1;0xe8e0b568624d0;0xf9955baeec120;0xb89e5d7211c47;0xff96c2f3b0c5c;0xd6cae3f4ca92];[0x0;0xd0f3080d12c28;0xa243e073dfd2f;0xfe7c2d9205ee0;0x27a65243ae5c7;0xed5ff91bb1c95]]]
 (V [0xd7b55f4130753;0x2cbe31dcc0e2a;0xfe40e5dc49ae1;0x519165d4ac0cf;0x802820a1cf4b] [0x26bcc0a591b03;0x43f2e48c33855;0xe8132b712f764;0xeb4bb612076f8;0x17add95dda1d]) []
 []
 [].
Definition wit_C_64 : list (colwit ipt wit) := [wit_C_64_0; wit_C_64_1; wit_C_64_2; wit_C_64_3; wit_C_64_4; wit_C_64_5; wit_C_64_6; wit_C_64_7; wit_C_64_8; wit_C_64_9; wit_C_64_10; wit_C_64_11; wit_C_64_12; wit_C_64_13; wit_C_64_14; wit_C_64_15; wit_C_64_16; wit_C_64_17; wit_C_64_18; wit_C_64_19; wit_C_64_20; wit_C_64_21; wit_C_64_22; wit_C_64_23; wit_C_64_24; wit_C_64_25; wit_C_64_26].
