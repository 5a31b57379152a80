(** Witnesses for checking the table of ecp_id_tc26_gost_3410_2012_256_paramSetA.c (EcTableCheck.v): slopes, quotients and intermediate points. *)
From Coq Require Import List Uint63.
From Verif Require Import IntPoly EcTableCheck.
Import ListNotations.
Local Open Scope uint63_scope.
Local Notation V := unp3.
Definition wit_256A_64_0 : colwit ept wit := mk_colwit (V [0x4f7d4d6e092b9;0x8e9ce0a6edb37;0xe44c35b475;0xae3e512aeb35b;0xf6870d679448] [0xe62ffaeca5592;0xd31e359363c8c;0x59ab19660a732;0x38aa7330bd296;0x18c8d703e7fa] [0xffbe200ef4844;0x68f81a5ff8a5d;0x850d9c6fe1cbe;0xb4e2d1f83150a;0x58925ee4d659])
 [[0xb9171e38716e1;0xb3f7ff4ab9e35;0xb1ec384e329a5;0xfb35e0ba7cf6;0x9f710a067fd3];[0x6de5e6a0cc896;0x88f657497dd19;0xadaad15789055;0x759faba9d58dc;0xde0525cc732f];[0xe8752747155f;0xace74c5c99a73;0xf601bf7c72a32;0xa1aabaf1ee4ba;0xea438892a59f];[0xe8752747155f;0xace74c5c99a73;0xf601bf7c72a32;0xa1aabaf1ee4ba;0xea438892a59f];[0x6de5e6a0cc7ee;0x88f657497dd19;0xadaad15789055;0x759faba9d58dc;0xde0525cc732f];[0xa9;0x0;0x0;0x0;0x0];[0x0;0xf5de79c89c45c;0xb18b5410c342c;0xbc50ef093caeb;0x35a5b499ed4a6;0x5830a4a2758];[0x0;0xb49a63cb1047f;0x79bdabcf2a0b1;0x5b40020fc94f3;0xd38fedd87db9b;0x91e762cef37c];[0x0;0x4];[0x0;0x4];[0x0;0x4178e20cb41f5;0x6ccb74f5eb6f8;0x9e70beba0155c;0x26f300ca8319a;0x24983639ab3a];[0x0];[0x0;0xd6c498f6878c7;0x78edfff0dadd6;0x8dd709d24a7e8;0xf29496a6f5ae4;0xd5ce12a97d17];[0x0;0x356eaf3445408;0x61aa38acfea2a;0x5233235de30af;0x85cd3ae0558e8;0x18fd79d37ff19];[0x0;0xf06f9c116e372;0x64e6ceaa4fa27;0x95e1658ef3b97;0xa26afcfb5e692;0x17de11d35e0e]]
 [[[0x64d41077be053;0x83a13cafe22da;0x3dfbaee642f17;0x9a905b6d0c7ab;0x3afe41e8b1a3];[0xce0080952533a;0xd9080acd5c9;0xd7b4223b13b7f;0xeb490dfb652ca;0x6d12b53f0377];[0xb06fbe0465ad3;0xb888b87c11327;0x8db04a2e87d94;0xe0a7d9799b1a2;0x4232eb32c7b4];[0x3a69367181278;0xad834fefa37e8;0x998a8d2e87821;0xedf223b577d55;0xb83fb6ff9a9d];[0x56feafa25bc8b;0xd6477852f2092;0xbcf57b397018c;0xb34220f35957d;0x173083ab505c];[0x95cee9679051;0x3df7687a121cf;0xb97deba29f8;0xd92a1f2df1b9f;0x84dbae4287b0];[0x0;0x35a49f428498f;0xf1880a23134b5;0x9e6d44c2fd745;0x8aa0cb6e43ab;0x2157e717244];[0x0;0xab3513f948265;0xf216c08660e82;0x4171393a216a3;0xe7d4ca28d17b5;0x35fbf842d075];[0x0;0x1];[0x0;0x6fc21673dae21;0xca863d0225fdf;0x707f7d62158ab;0x6a7c6b3fbf5a0;0x5d3548ac0943];[0x0;0x5c77f56a9f3c5;0x5ca07f2a50776;0x9679a3d78cb95;0x9bf3f76492f61;0x95ee20790fb];[0x0;0xc];[0x0;0x7877b714e09af;0x3bbf14793b6d2;0x74aa9d30d4580;0xa6938d81c0d1d;0x48544df67f40];[0x0;0x16504aeec449b;0x6a480200513b4;0xf336cf75b9b64;0x671022ae277db;0x2f1d8403b236b];[0x0;0x5a8939ff5c084;0x73f394c76ea58;0x822cbb7ac138a;0x9fc56167e9e4;0x1e2958cbfecb]];
 [[0x64d41077be053;0x83a13cafe22da;0x3dfbaee642f17;0x9a905b6d0c7ab;0x3afe41e8b1a3];[0xfc7446efa2791;0x846662bd49f69;0x52556b6c40f91;0xab3def4391894;0x93bd8d49fe3a];[0x9b9c69370eabb;0x91611fd3fc6c8;0xafafbd3da0664;0x7a2b161e3cbfa;0x87b6f4ac6890];[0x6d84036250053;0x4a942370bdf2a;0xde0631bced0c8;0x2c503c8ca0b82;0x857216e518b];[0x502a8b9286927;0xda4e73f88bd21;0x2837ec9039aba;0x4b1209b4c77e6;0xf67b6eb629b0];[0x8f97bfd79ea25;0x78cee9d0968f8;0xb110f75f263d4;0x8d6bf64364dfb;0xc84f37237510];[0x0;0x35a49f428498f;0xf1880a23134b5;0x9e6d44c2fd745;0x8aa0cb6e43ab;0x2157e717244];[0x0;0xe7092a2b4c5d9;0xfbd29319e63e5;0x9a09393c6b3eb;0xf46c466810421;0x28bf0242bbae];[0x0;0x4dbe2d8f8dfeb;0xb0896e9ab5baa;0x74e31fc360492;0x865cfb6d8640a;0x106f6f7154cb];[0x0;0x4790ea144ccfa;0x591f09b827793;0xc21a99a1c90a6;0xf381efe458cd1;0x2bccffad7c5b];[0x0;0x738c0d6a0cf2d;0x513d7806c7770;0xb467dcac0e8dc;0x36f52b5144f74;0x4674b25a9dd];[0x0;0x6935417745551;0x134be8c9c32cd;0xc0196d9c69979;0x8a5e53d3ad6bb;0xa37aa6462cfa];[0x0;0x35a2061255dc4;0xe5609f1cd8fbd;0xb3af40da9eff4;0x44a887538f62;0x11517f8e3d83];[0x0;0xf120728d393ed;0xf7722b00f4543;0x36bf3298de832;0x87b866b0ee84f;0x582155addef6a];[0x0;0x27dfcfe1083b0;0xef026077daa;0xd3ece7c6030db;0xaa858cf1b65f6;0xa1092a1329c]];
 [[0x64d41077be053;0x83a13cafe22da;0x3dfbaee642f17;0x9a905b6d0c7ab;0x3afe41e8b1a3];[0x598de20576d8b;0x8645e3e7fdb8a;0x36d8f7f33f372;0x1597b39e7a922;0x454b2110a297];[0xbd683f430f39c;0xd6e5802e24e1f;0xe09301307308d;0x760cf9d52ef97;0x4c21a7345029];[0xeb1de73aa9f26;0x685b7a8891afd;0xa5f766218c5eb;0xfb3b2b4283f37;0xb9e170931c19];[0xfc94133bf7640;0xed321d60c442b;0x63eb23f048de3;0x10857c658b500;0x729a1762bf38];[0x24c7aa5e316f4;0xfd9fe38ce1d20;0x303a84fab3c7f;0xfb53f9e7e86a7;0xcbf8a98b039a];[0x0;0x35a49f428498f;0xf1880a23134b5;0x9e6d44c2fd745;0x8aa0cb6e43ab;0x2157e717244];[0x0;0xe4b27a89ff58f;0x24cbcb18fddc;0x73654f5f6bc42;0xaee3a57be6927;0x141e5198de9b];[0x0;0x321f434e5ee22;0xf0e21f27d52af;0x4cc279b7e56b;0xf557b5820312e;0x2e7c06392aa];[0x0;0x54ea7025efaa;0x892f095d1662c;0xb3b583e335270;0xac8b703a09983;0x52af116e025e];[0x0;0xdace40e2173a8;0x806e09e6f7f64;0xdd6015e15d28f;0x5bed118fc381;0x850056e3cbc];[0x0;0xf4010da520c97;0x6579153dbe1c2;0x528e3f83f0785;0x8ebdb563a348f;0x1ce5f88e104c];[0x0;0x180c5f83708aa;0xb90ac71a5fc3b;0x8dbfebd6cbe8e;0xc1d562ef7bc57;0x42ac225d5402];[0x0;0x38a865dfa6785;0x4aa4da4e87566;0xc9722f948d2f5;0x14275206e0b21;0x3c4ef7e97682b];[0x0;0x3f8f1e7fbe610;0x96230e14322eb;0xb87d01da25394;0xa4e6cbbe32367;0x377f5e8114c3]];
 [[0x64d41077be053;0x83a13cafe22da;0x3dfbaee642f17;0x9a905b6d0c7ab;0x3afe41e8b1a3];[0x933d0ef1d5a50;0x274b27c0c3d9f;0x2ccef67cc2c6f;0xad0be1e811f0f;0x49b6a135ae70];[0x8152c5fbefa08;0x263f97f9ddb3d;0xe7eeb5e3e98dd;0x5f63c15278e2a;0xb9e3851badd9];[0xdecc16979f9a9;0xd5f371a99175e;0x5d1140360409;0xc13f9baccf051;0x3f459323dc9b];[0x206b64693f92d;0x480fedded7966;0x77aa90ddb58e5;0x7176171e63b4b;0xca13580ccef0];[0xa6c2a86687ce7;0x6eda2339ef525;0xb4024981fa611;0x8231af00fe913;0x436254207d55];[0x0;0x35a49f428498f;0xf1880a23134b5;0x9e6d44c2fd745;0x8aa0cb6e43ab;0x2157e717244];[0x0;0x6fcc99a20dc44;0x120c61799934c;0x7ea057f5e12dc;0x2280a7f294046;0x120ad153741e];[0x0;0xa0c5079b2a59c;0x92a1dbfd35f99;0x46acb2c74c716;0x75c63e9b6ca16;0x17d8d7878c93];[0x0;0x53d2e8b682423;0x660be84527866;0x1c0288de36beb;0xb4240700ba4af;0x378b8906d91b];[0x0;0xb48543f003c29;0xe99680387b906;0x2e6b8166cad5d;0xf0d430526688;0x5958de4fe51];[0x0;0x4020111f04f99;0x3b0df71b37ca0;0x71bff757d7215;0xd195daf9ee096;0xed33d533cfd0];[0x0;0x5b2d960a80ee0;0x20cc408097ed7;0xac1e4c3bb5008;0x6cf78283b8bf4;0x2c9fd094faf1];[0x0;0xd4f9afd1b9f5;0x6f31a7b47a97d;0x2866a0be71a38;0x36aca8c7c2434;0xc759e0b47a54e];[0x0;0x8b4bc3b7cd3b8;0x8b71286eeebc8;0x204dac69b4b71;0x76d7636121c54;0x738a50282f85]];
 [[0x64d41077be053;0x83a13cafe22da;0x3dfbaee642f17;0x9a905b6d0c7ab;0x3afe41e8b1a3];[0x4cf3384a29619;0xc46be7d0e327b;0x5a15d27b89567;0xc30bd818851d8;0xa4c03eeeebd5];[0x14e41f66ddeb2;0x8797c7198056;0x104c086941dd7;0x805bb81253e81;0x20dc810ee752];[0xc6ba36a43ce3c;0x8b80a4d98e64d;0xf4055981d9631;0x61c6a6b231575;0xbd5284122bdb];[0x87910b4728d34;0x25baedb56e523;0xa6c374913dcc2;0xd7e1a494d4f5;0xab978b379aaf];[0xc68aa27289cd7;0xd9343348b3c68;0x378d51b0c8458;0x1152fb3fee884;0xaa14130695dc];[0x0;0x35a49f428498f;0xf1880a23134b5;0x9e6d44c2fd745;0x8aa0cb6e43ab;0x2157e717244];[0x0;0x66d6dfe0737;0xa201dbf7bb322;0x2d51a1480e52d;0x25abbd8e77ac;0x1581368b606d];[0x0;0xb9a2fe8cc6d20;0x17e8ff2aa62e4;0xe6eb9d8b16d3f;0x5bb5a5e24e2a7;0xf01028998ba];[0x0;0x73af07970d266;0xff3db0f9b7d8c;0xd7d0f54346bb7;0x9f55012ad9f3a;0xb7cb92511f5f];[0x0;0x14668e1ea3b68;0x19a6cea7d85b4;0x50ef6cac99e0d;0xc974c3db16c2d;0x127a4ebcdb31];[0x0;0x1c0c09375d9ee;0x20a0a21aef884;0x7c9f592ed3241;0xfb11891b78cb5;0x953de0b42186];[0x0;0x50657b14d73de;0x9d720c722a1b2;0xea564965e8685;0xc3738466d0469;0x2e59f56ad339];[0x0;0xc71cff98abebb;0xc098cb4714801;0xa9d2b96217132;0xe1d128ab8b046;0xa8f77d873ae97];[0x0;0xd79f2669329c5;0x94a00a55fc81f;0xa3fe47cc17228;0x46a47d2a3a31f;0x2e8064f7736c]];
 [[0x64d41077be053;0x83a13cafe22da;0x3dfbaee642f17;0x9a905b6d0c7ab;0x3afe41e8b1a3];[0xbceedddfe599;0xdb375af194f18;0x6c6bcd681968d;0x17fca34de9cb7;0xea043d18a479];[0x2f3c0850178f8;0xdfda1d1e68e79;0x2c27d05a42897;0x2c4e66e1f9bb4;0xfd9b9180ddc4];[0xf7bc563a9690c;0xad8f7398c0653;0xece7f5499503f;0x2123f64dbf237;0xcb2217a58456];[0xca4445e65317e;0xae3d0a90a018d;0x77ceac73ab0e1;0x5e102fb82a2b0;0xd58c8b8b2d81];[0xbfd5947f4e764;0x47c965f9e6e36;0x62c40c4b4b954;0xfc28ba7aed40;0xbdef8df07cde];[0x0;0x35a49f428498f;0xf1880a23134b5;0x9e6d44c2fd745;0x8aa0cb6e43ab;0x2157e717244];[0x0;0x3b8cdab3aa8e2;0x7345da3af5c73;0x5da2f2ac27aac;0x432fa3aa44e57;0x900b7f8510c];[0x0;0xb5f4fa0877fd8;0x726ae24976023;0x251416418adf6;0x59c53bd59dc56;0x6f91243ddd9];[0x0;0x39ae5cb359a9d;0x1a745f76f56b6;0x4f87f5a0d36bb;0xe90dac1b8c641;0x9f2b35fe362f];[0x0;0x89552bca8ffd0;0x2cda0769a0148;0xceb2e7947fb4b;0x1385d70896e5f;0x1000806bb82a];[0x0;0x51e1ac70e6194;0xd635db6352d53;0xc2d035f1f3606;0xbfc4d642e6237;0x455bcdb9f70e];[0x0;0xd133ad335992c;0x62b4a74c90240;0x4809b774f3b66;0xdca1b085cf44;0xa0770417a4a2];[0x0;0x49888ad92b87b;0xcb7aba46e0fcb;0xfce2b0f692bf9;0x61015089bdc46;0x6ceb313309234];[0x0;0x98fe21278456e;0xdac338e63652d;0xd49379a3f3e10;0xb8e94d87e9c28;0x4a496874a6d6]];
 [[0x64d41077be053;0x83a13cafe22da;0x3dfbaee642f17;0x9a905b6d0c7ab;0x3afe41e8b1a3];[0xa50cc900c8846;0xa163ee7a21237;0xa284856f9f74;0x247da3e353d28;0xea74edbe3f3];[0x7e9cb0084d56;0xa4f98e8129439;0x91f5af14fba40;0xb379b7e70de53;0x525ea206485d];[0x220709d200a51;0xb1727e71733e5;0x9cce418fd158b;0x4e83145200a9;0x37f61df51d49];[0xcdfbbf0029bae;0x9f530a2d90ffe;0x5d0a99615ddec;0xb39e22d040159;0x827e6e88b17a];[0xc591daac66df0;0x235cb8a944d3a;0xde4be19734e40;0xf3509fe5141bc;0x68aac27936d4];[0x0;0x35a49f428498f;0xf1880a23134b5;0x9e6d44c2fd745;0x8aa0cb6e43ab;0x2157e717244];[0x0;0x81ea0a2add524;0x8909860a69971;0x44775519ff74c;0xa39ceaa70741f;0x1ee8b33415c7];[0x0;0xad00d6b2f400e;0xc5de5bcc5895e;0xbf04756d8b066;0x3a57dcfe7dc5c;0x10fea667d33b];[0x0;0xf444771b695d7;0xcc25f65f00cd4;0xb3e792e7c7724;0x31b5cd3a94dd5;0x68541efad02e];[0x0;0x45a325cf9f49a;0x6e8a39ea698d1;0x128051a7e4929;0x6889159cd2cf2;0xa7d169ea118];[0x0;0xa57182458d344;0x7968ce4fd1e85;0xd8fd8a70df2b1;0xa9f1ef86e22b2;0xa90b2e94fc4f];[0x0;0x64409bfd78b8b;0xcc36a132665b9;0x9534b2caa96cf;0xa062ee01639e7;0x917c184a0e3];[0x0;0x4cb1f1cd5f567;0xf31c1116296ee;0x68e222b33a742;0xfd986241985d3;0xfa929e5960172];[0x0;0xab0d93a6743bf;0xd870643a37c0f;0x92b687cc031fa;0x295e9eebc85c1;0x92d54e8439ac]];
 [[0x64d41077be053;0x83a13cafe22da;0x3dfbaee642f17;0x9a905b6d0c7ab;0x3afe41e8b1a3];[0x5d23a49fd8212;0x12c9c55d76faf;0x55d99c3c8f43d;0x6ef2f095c002e;0x18fb81104b75];[0xf627274e8ef73;0x6a7b1980e6cbf;0x9110e8a125478;0xcbdefeb300fba;0x1e7875ad315d];[0xa698eefb3c334;0x3bb317e6f112d;0x47d09a76b7ae1;0xfc883ec1f32c9;0x94e6f488b43c];[0x3cfb2ea5f8325;0x6ff0041ded80a;0xbaf84e52aa941;0x92d6245d79d4a;0x85b6b59ead2e];[0x484f1ba655e94;0xebfcd9c2b0726;0xbd72488465147;0x171b659415ce4;0xbb3e38a8bcdb];[0x0;0x35a49f428498f;0xf1880a23134b5;0x9e6d44c2fd745;0x8aa0cb6e43ab;0x2157e717244];[0x0;0x34952f53de4d9;0x9232720f8d44a;0x193cbd27325;0xa21e3fb6f1710;0xf9564b28c66];[0x0;0x44f396f430403;0x9d1fdebb7a00c;0x6c10e0bade343;0x4cfce872d0812;0xf6117217016];[0x0;0xfc9bd940ba801;0xbb2c651e96851;0x521982f77e912;0xa72fc6a3ea290;0xe3dfca9519a5];[0x0;0x552ba34766fd7;0xb6aefc0b88a06;0x2642362516992;0x95b530444bc12;0x16e8c2e3b449];[0x0;0xf76c885ce9778;0xaaabee6a69aeb;0x98f0605a7e0b7;0x937e0396b55b0;0x98f992dded00];[0x0;0x8cb437410fd39;0x99b4eea984a63;0x962bc41fc0c15;0xda51329040766;0x4b48bcafa5f];[0x0;0x6bea49be3977e;0xfa4344e3656fa;0xff6eaf3ba35d1;0x9780b8c7e3523;0xa83b8270730f6];[0x0;0x42e48be221665;0x49e0cee54393b;0x669b515c4bea7;0xbb0e2493ea9a5;0x1dfe619efc21]];
 [[0x64d41077be053;0x83a13cafe22da;0x3dfbaee642f17;0x9a905b6d0c7ab;0x3afe41e8b1a3];[0x3e1df0e8366ee;0x630e929cceacd;0xe7af4c8270073;0xbf2c3e2378ee4;0x5e443364bf24];[0xa4d175d917ad0;0x482e9720c660e;0xe9087478443bb;0xaa70de2db98b;0xf5a625c1aa11];[0x6891f8c2a12a4;0xb4e33eb9e2b6c;0x35bdc1f3948fb;0x1cf50efa0555;0xbffbfdf2cfcb];[0x8230c7f3b9f4c;0xbba9ad36dfccd;0x9942d71fd0beb;0xe8815a627878f;0x14d9747f09d6];[0x221b2f7c004fb;0xc4b1ceb576ee7;0xe05bc0b8c4887;0x777f0055d040e;0xb7876bc6ecb3];[0x0;0x35a49f428498f;0xf1880a23134b5;0x9e6d44c2fd745;0x8aa0cb6e43ab;0x2157e717244];[0x0;0xe2cdd2a39d8f5;0xfaa52fd2fd294;0x522a51b83e6c2;0x9c0c157f49b59;0x26b59d054d53];[0x0;0x755e98617b60c;0x416ae98e38813;0xee2d71fe4be57;0x68f0e46ae46f1;0x4ab00fad8d4];[0x0;0x55d21ecb18c05;0x8a71f432155b1;0x72d99383b93ab;0x390abb92c4302;0x995ba9180df2];[0x0;0xbcccf98ffba8e;0xc73b377c2c344;0x2607732d05e4c;0xf21fd2dbd1caa;0xf6af393514f];[0x0;0xe62bebc1b0ec1;0x4732c47ded6cf;0x48cb3a0fb734a;0x3ec2fbb9606ed;0x2e6e80636e1c];[0x0;0x83dace3756297;0x13cdc9a675881;0xac3df39d80a9c;0xe2f40259fa42a;0x23935898d509];[0x0;0x43aabec23537c;0xce9146ea8492e;0xd5a0ee808fecc;0xde1fdc1435eff;0x419db71257ff0];[0x0;0xd14c05f6b35e5;0xd56e2436cb39a;0x9a2472a148221;0xe720735e1dfa8;0x17d28ccaa248]];
 [[0x64d41077be053;0x83a13cafe22da;0x3dfbaee642f17;0x9a905b6d0c7ab;0x3afe41e8b1a3];[0x4538da19b7bde;0x353e0f5237014;0x39f20ea678653;0x98cd580fc98be;0xddb65c79041d];[0x42ec4b3f0607a;0x21e2680a12c79;0x142cc025028b4;0xee56d08c062d3;0x5940f6e41bca];[0xd03343a214273;0x952faac40eb6;0x824470b25fdb9;0xc501628413b36;0x9a2c7e82e4a2];[0xe9af7b28e3eac;0xd8e4345efa818;0x417ceb8303410;0xb1a195f85db0a;0x5d5053314bae];[0x2374b96c799d8;0x902fb5b949144;0x476ae4b837810;0x71729a3025e6b;0x9901368a1da8];[0x0;0x35a49f428498f;0xf1880a23134b5;0x9e6d44c2fd745;0x8aa0cb6e43ab;0x2157e717244];[0x0;0xbcd30134cba49;0x81fa3c6f85dc;0x2e944f5693a28;0xa04bebec981b;0x164c9c296441];[0x0;0x4486766c9994;0xe9d72e836ef64;0x2fc0c97671f4f;0x6c6cfe203a1ee;0x95a810a7a53];[0x0;0xd4f2bc4cc1565;0xe5c247795aa80;0x5118a3aac7721;0x91720fea4104c;0x3cc9b460e53a];[0x0;0x5adcc21ecf8e0;0x7f8fcc8b6ea0f;0xaf6a07a46bfd7;0xb9338162cd639;0x61c7d175c0c];[0x0;0x8b2c7f7b895d;0xd19b63e61be9c;0x1adacfbe2a3ad;0x70948d8a2fa57;0x5d09ba63209a];[0x0;0x881a7e8595386;0x49e76867f2a5b;0x70f7b615badb;0x6cf5738a0b7a2;0x2dd5c777ff2a];[0x0;0x9c7fcaa5eeebb;0xfbac451be9bd5;0xd09a06c4784fc;0xc7e270744fe35;0xe02153c59f090];[0x0;0x2fab46dac3ec9;0x320fa023bf77c;0x2bcc29ebc8668;0xb5ea7ca2d196a;0x2df344d8f4ce]];
 [[0x64d41077be053;0x83a13cafe22da;0x3dfbaee642f17;0x9a905b6d0c7ab;0x3afe41e8b1a3];[0xce3bc8f1a18c9;0xeea2b5857d3b2;0xe7393163c4554;0x59821ec175877;0x3bf9d47eacf6];[0x8c8e70a1cdfaf;0xe3f62b2339bf6;0x43f066673cfa4;0x1a0696ee93e13;0xae2a27499626];[0x687f8d706090f;0x1ff9a5dceeffa;0x6f38f5b3e1e8;0x946b76713235a;0xd257948e08];[0xa7e7637fc148;0xee505ee539b9c;0x55c762d57f83f;0x20e218dc71194;0xd00469db9bbb];[0xcdddaf6d0ad4f;0x36512186f2b29;0x4f065cc776005;0x9620672d94b3f;0x31f469eed4f4];[0x0;0x35a49f428498f;0xf1880a23134b5;0x9e6d44c2fd745;0x8aa0cb6e43ab;0x2157e717244];[0x0;0x86380b8f61e2a;0x11498b19ec174;0xbe309e107d2ca;0x5a54b9d8eb5a0;0x363fbf72b20c];[0x0;0x498630ea859c5;0x19714f09e6b34;0x21a44de6ff4ec;0x21c60132eff34;0x51faeb9af58];[0x0;0x23277c1270333;0x5a8e25a09ad56;0xb21a5bc5ecc51;0xc0f5b15b3c694;0xd60b92189214];[0x0;0x6bf6e26c32e80;0xb443d61703c84;0x21c21b67e0c09;0xaebfca754c6fd;0x1584d8cca338];[0x0;0x5a0507f9bd8be;0x9b514277aa65c;0x5da5969da5607;0x7d9fa9b61cf42;0x32f715b55fee];[0x0;0xd8d7f4d651964;0xd357178635c48;0x753bdace0e7;0x23836b769a468;0xe06853596d7];[0x0;0x7f8c56ac476e3;0x3e0a9017953aa;0x96d62339e4c7e;0xf3b0968176bb0;0x950d574a6204a];[0x0;0xf015d89c976f6;0xd6b21eb68314a;0x7b399918e0b17;0x89819f4559a6f;0x2143a02b3e53]];
 [[0x64d41077be053;0x83a13cafe22da;0x3dfbaee642f17;0x9a905b6d0c7ab;0x3afe41e8b1a3];[0x8ea2f5b93d930;0xf8bc9a24b5d1e;0x5a2541af6b65c;0x60ad5c46e2d37;0xf9738452eadd];[0xb10331211542c;0x44b9c20b6efc;0x7e15ef0686f2e;0xf182067b98429;0x3aaf83478932];[0x4447a022452e9;0x9926622b3274e;0x1a20ea60d7cc5;0x37c3779221f6;0x59dc3346a109];[0x97f5854b7547d;0xcbcdd4f1f3ddd;0xc97c20174abca;0xc7e4c7e6b94b5;0xd5c41c495579];[0xd2c69e284c7c0;0x18a7a9cebef5;0x15bc5e3002432;0x78c71a8f93772;0xcbf38c51dc96];[0x0;0x35a49f428498f;0xf1880a23134b5;0x9e6d44c2fd745;0x8aa0cb6e43ab;0x2157e717244];[0x0;0x5dbaeafdf613d;0x7519128a4b918;0xbdd84b403d55b;0x572c7fbcb2239;0x2f1e24ddfa77];[0x0;0x162db8515915a;0x66f1742f2668a;0x1cda5310346a5;0xfbe06eea0347c;0x5cbc0862daa];[0x0;0x16f157b221ab6;0x351977070e838;0x68e8b8f8d7604;0xb4d438047b20e;0x88fb3966a914];[0x0;0x23edd6cb06eff;0x14932aaca745b;0xc8aa2f971725f;0xa1006d8204713;0xdc577841501];[0x0;0xd22827e3f42d7;0xd6cf183f769a0;0xf86e62d8152c;0xd491dcccae0ce;0x39a6a1a0a369];[0x0;0x5a90a4567ba6;0xffcbcf6708f5f;0x842e4daf9abac;0xe0c7d9d687853;0xa3143394b22c];[0x0;0x98bb1a1df596c;0x7e380af7053e1;0xa66fab5ad537e;0x670d5fef820ea;0x18d419aca6891];[0x0;0x1b1352758822;0xb3af1eb4e8eee;0xcf9a9db0fa422;0xac0948361f29a;0x1034abfb3fb4]];
 [[0x64d41077be053;0x83a13cafe22da;0x3dfbaee642f17;0x9a905b6d0c7ab;0x3afe41e8b1a3];[0x881d09a3f3c79;0xcd37d075849af;0xdb511bb138ce2;0x62a5a76dc2d90;0x79baa1bd9e5b];[0xedd41108e60e3;0x1ac39679abf6c;0x257a98c5a42ef;0xa75f711db3f8f;0xc3f6dbb9b59c];[0x27273dc101c8b;0xac8510e5026cf;0x199fcfb74a040;0xaa7566a2eb173;0x587b0736639f];[0x5286d7070634c;0xd084bc07286af;0xce9cc52503769;0xc338cb343a8de;0x4d954ae44e03];[0x561729ccced53;0x3e3b704d7cabf;0x17b2b041d53bb;0x2d64a86921c33;0x5a9584042c98];[0x0;0x35a49f428498f;0xf1880a23134b5;0x9e6d44c2fd745;0x8aa0cb6e43ab;0x2157e717244];[0x0;0x9c1b0fecdbeaa;0xf6fae47a5af64;0xc103633617371;0x27a9112f01e73;0x27d019c2e00];[0x0;0x82bea370c2dcd;0xd4b26b7cbfe68;0x21fab61115f42;0xb69cc674e7aa8;0x1033f17b8f9b];[0x0;0xfd4c5361ebb46;0xb4ff0d0f68b03;0x251ecb26310ec;0xa98e4f9116e37;0x17df248b895b];[0x0;0x19cd0850ddb2;0x2be04b1c3be23;0x2e5b6d730b428;0x4841a4dc3026e;0x266617fcefb];[0x0;0xc23ed2737aafc;0xe4dfba0c88b25;0x4fe43df1921d4;0xdf75f713c7061;0xa12ae46e2d31];[0x0;0x1b434563c6b78;0x2c4941f2adf0;0xb6f2c0f1b4fd2;0xbb6b41c8e3d6d;0x1d9330aea0b8];[0x0;0xd92ddabb9dbac;0x40122730c37db;0x3435ed3a5c96d;0x4bf5b11f3f69b;0xa221934f75396];[0x0;0xbed1ed0239828;0xc4a2082a8d9d5;0x1641d94f1cc5e;0x70b0538e5bd58;0x2624029f602a]];
 [[0x64d41077be053;0x83a13cafe22da;0x3dfbaee642f17;0x9a905b6d0c7ab;0x3afe41e8b1a3];[0xa2674574413c;0x62b08771d9fca;0x236c350f018b9;0x42798c584869a;0x722ee8e25a8];[0xc76f75da32c88;0xf3358eebf4649;0x870a198c85922;0xd7b2b14bfe7e5;0x1f8626ae8962];[0x837e81cd909eb;0x70870413fd73a;0xb27886235ee01;0x3e13d77534a25;0x7474bddeb1f4];[0x9cdfc6520ff6f;0xd2f8b303c19dd;0x80ec39f5cf27;0xffec0837d2217;0xe994c9ef402a];[0x6b764efc52a9d;0xffaa696aa5bf7;0x4744aa8b8d264;0x686d9dab29810;0xe8c5fdcd004c];[0x0;0x35a49f428498f;0xf1880a23134b5;0x9e6d44c2fd745;0x8aa0cb6e43ab;0x2157e717244];[0x0;0x29cb600c87808;0xf5603034f48e2;0x56e2dcffa09c0;0x6d7320b8bf6e0;0x2da50fbac9c9];[0x0;0x6ba11afb4089a;0x4148583e9dc8b;0xc248b7a3f1384;0xdeb00bad51b8b;0x6058682c3b2];[0x0;0xed1f73d0aee27;0x5625e17a7ac3b;0xd2fa256b4eac8;0xd4acc2c1942e6;0x972d22539ada];[0x0;0xf26fbbf8f487f;0xbbe2351516840;0xee0a472b52719;0x69058182d13dd;0xf32ccdece17];[0x0;0xa067faf4fe2ae;0x6ff110770ba13;0x8d3f12b3b79fb;0x5ad100609db7;0x3be54b215a01];[0x0;0x47b64405f5c22;0x4d1ceb78e6324;0xf1aec049e51e0;0xc3f4b4f1a955a;0x4335048e6b4];[0x0;0x183313b65e79;0x6889d3eaaba82;0x3335cff910690;0xf5b391de48892;0x8659f03016859];[0x0;0x3d0ab625a91eb;0x5f38e9ea540db;0xcf57c4651347;0xb5f3a12cb92f2;0x4a8c665f1536]];
 [[0x64d41077be053;0x83a13cafe22da;0x3dfbaee642f17;0x9a905b6d0c7ab;0x3afe41e8b1a3];[0xf99cbf5a546fc;0x4acb65ca336a;0x99e267aa17cee;0x2548ec25036c8;0x62ae22fcdff4];[0xf822c161be6e5;0xa9007ec940112;0x212e1a7b6e20c;0xd29c7c971484e;0xafbe122ca231];[0xc6e43182bd747;0xd3f8ff91625b2;0x9262505b474e4;0x5d2da3e4af08;0xeff1de9eed40];[0x15bd889970f7;0x782a573f51f7;0xb684f17c6af25;0x70ce33a92d49;0xd8f5de1f3fdd];[0xf5948e3263b24;0xf8c7d1ebd5e0c;0xf51deae08a2ed;0x3238beac02761;0x8b951c1b04a6];[0x0;0x35a49f428498f;0xf1880a23134b5;0x9e6d44c2fd745;0x8aa0cb6e43ab;0x2157e717244];[0x0;0xd2a21bf7c9df5;0x3c3b9c6cfcc0f;0x40c5bcf1c6921;0x8fdf7c47714cd;0x15baac0249c0];[0x0;0x3c975c6ad0e33;0x8243fe352ebea;0x9bd9e606546d1;0x97e0db33f9a04;0xe96823322b8];[0x0;0x10465e5b5ad55;0xa8aa7b4458048;0x9a133ac1a8eb;0x43f1cb5fc6bde;0x79f831130402];[0x0;0x1bdff1027e56b;0x948d336e89b3b;0x88f3ae1cc4800;0x2c9d08bdc44e;0xc431c01570c];[0x0;0xdaf9c3ab16cdf;0x7d82c580529ae;0xdfcc7db037626;0x5827919f1cb53;0x911a86ef496c];[0x0;0x7fea7d8ce6a1;0x43787adea1b78;0xf89eb7fd6a86a;0x48b0fef41f5f;0x30eb7abe360c];[0x0;0x880025760c3a;0xa6c0adfccaa1;0x7db93b5663df1;0x8e637d88a693;0xed68cd42dd236];[0x0;0x222c5b745c35f;0x8f48d285af6b7;0xdce504faf1874;0x49cbdff61a6d0;0x7157240d5f4f]]]
 (V [0x9e87bded6932a;0xe6a2dc163a3e7;0x44898c3df781f;0x9c88135c4431c;0xfb05e762e06e] [0xb7aba787fc74f;0x5bab413f2d70f;0xe2a1e38ebfffa;0x39979af666eec;0x53ed1b93a591] [0xb5e8465e55ca3;0x61f3cc01228d;0xe9d1129589481;0xdb99ada6ec2e6;0xde88f645f1e3]) [[0xb9171e38716e1;0xb3f7ff4ab9e35;0xb1ec384e329a5;0xfb35e0ba7cf6;0x9f710a067fd3];[0x3ae9f5721e115;0x56a8a3d053255;0x864ebe0ba3217;0xc503b82221feb;0x8156eb2ddd23];[0x87201f36a97e;0xd6e83821cb49d;0x3662b427ca1e4;0x1c0944342bcc7;0xff4bded978b9];[0x1cdf591a52bff;0xe99c3113c75c;0xbe118690647b0;0xdc806efc54255;0x9c2aa30e15aa];[0x95917abc7b5ef;0xa438c0f6865cd;0xf3335529011a2;0x8b95e6b897ecd;0xdad57cf740e];[0xc04fd87f2f389;0xee06f342a42a4;0x9042139341097;0x6e98987e7e859;0x71d38e10b904];[0x0;0xf5de79c89c45c;0xb18b5410c342c;0xbc50ef093caeb;0x35a5b499ed4a6;0x5830a4a2758];[0x0;0xfe9125b00ddda;0x617e341c3084a;0x169576a884cbf;0x857dd23e35cc9;0x2ac671aa5f79];[0x0;0xf267a9233b03d;0xe3a1cbb24a4dc;0x54f2cfbe92d61;0x490e19cf4a70d;0x2ffb88102112];[0x0;0xb];[0x0;0x1049f6a923743;0x76f8c83c6beb9;0x699c9b68d4a1f;0xb9ad388635cb4;0x5670d06a16e4];[0x0;0x6];[0x0;0xd571580ea48b9;0x9df7211d038b0;0x973e06a713568;0xbe2e538d1c990;0x7ed3342ff297];[0x0;0xd1b48a138acf0;0x97aa6cc6854d3;0xb7cb44f708d7c;0x39823877c3250;0x56857db27a31f];[0x0;0xa897226a4e7a5;0xf4614470d73a0;0x5657d66ff23c8;0x238d54e32556d;0x524b6986ab72]]
 [((V [0x12ac7ea37e012;0xf2b1c7f7af22d;0x7a77710742419;0xe1ce0fd48492d;0x5afbeb6292b1] [0xfc8e76e4d57c6;0xa2e2fc14d57d6;0x63ec9b61b2a22;0x4bf3444636e8a;0xb91c88e220a] [0x71a68b008c566;0xe01bd50fdc5b3;0xa455ba64b6c65;0x9851a9e766241;0xb95223b84bc6]),[[0x32f50634d7ae6;0x96010f28a02a9;0x6898daec7fd54;0x9c87482c440cb;0x6f08018ce488];[0xe741658792c25;0x97c7d8bb0f938;0x57c618a8e9085;0xf679fb85a0d01;0x6f35cdf9ef11];[0xb5e8465e55ca3;0x61f3cc01228d;0xe9d1129589481;0xdb99ada6ec2e6;0xde88f645f1e3];[0xb5e8465e55ca3;0x61f3cc01228d;0xe9d1129589481;0xdb99ada6ec2e6;0xde88f645f1e3];[0xdc1f573abfb9d;0xdae472ea44de1;0xb2462922d44c;0xb8887930d962a;0xddfde8ae0f6d];[0xb220e4cd2e20;0xbce365d0cab57;0x4ca1b616bbc38;0x3df18254c76d7;0x9137e54bdfa4];[0x0;0xaa33c3302bccd;0x66890d03895e8;0x6e2d90fd4bb68;0x4e8cb3bff73f2;0x53c64e9cbd0];[0x0;0xc840839eb59bb;0xc29ae7b48092c;0x177000f680a24;0xbb2db316e388;0x608458690897];[0x0;0xa897226a4e7a5;0xf4614470d73a0;0x5657d66ff23c8;0x238d54e32556d;0x524b6986ab72];[0x0;0xa897226a4e7a5;0xf4614470d73a0;0x5657d66ff23c8;0x238d54e32556d;0x524b6986ab72];[0x0;0xb939ff60e27dc;0xa6e5caa27b2b7;0x8fda7ecdbc4a8;0x3451233358651;0x1b839b7dcfb5];[0x0;0x5f2d8dd6df1dc;0xb4f3b23701fe8;0xd16474a140265;0x427d2b36dc2c9;0xf62493debf19];[0x0;0x2409a65ca428a;0x83cbdb51a0641;0xdc757e3c097f2;0xf52a50845895a;0x27865a6c0880];[0x0;0x3d3752d57b222;0x558edf79cd5f6;0x3ed26a8254b73;0xba875ca62ab0f;0xbfa7acfd134b];[0x0;0x83c506f5e4a6a;0xfa6839da4f5e0;0x1014b45f41ccb;0x6cd5a428df242;0x41ca314e2dd]]);
 ((V [0xda475ca7d0db5;0x1f899c3e7eb16;0x8bdf4707c19f8;0xda58a27e52c8e;0x63ea9af9796a] [0x2655b01396a14;0x35f955b9bf3ad;0xd2e70f28c1423;0xfa14f23b8d983;0x3d44516b14bc] [0xa076eccbaa85c;0x4e6206a0e392a;0x4962ccbec08cf;0x6757e17c03e01;0x5a83d70c7480]),[[0xbf8c2aebdc5f;0xea4a1a2646b10;0xb0a86d7b9b5c5;0x5c2533a01256a;0xc826be11e062];[0x2baa44d8f4d86;0xc9683c8c3280b;0x23ea6010a9dcc;0x79a848c4691d9;0x6f56069a4f27];[0x71a68b008c566;0xe01bd50fdc5b3;0xa455ba64b6c65;0x9851a9e766241;0xb95223b84bc6];[0x71a68b008c566;0xe01bd50fdc5b3;0xa455ba64b6c65;0x9851a9e766241;0xb95223b84bc6];[0xda4ae21a0b313;0xcd3c0efdf3993;0x821fcc030630a;0x3b65711de38d2;0x1cb190d7f9d9];[0x515f62bee9a74;0xfc2c2d8e3ee77;0xa1ca940da3ac1;0x3e42d7a685906;0x52a475c2554e];[0x0;0x98a12fd92c6d5;0x2afd46e3891a8;0x64001515fc7c4;0x3b4ff5feaa3a8;0x45c3e0af881];[0x0;0xfc433924191cc;0x90b39f9c55898;0x8a1e8ffb27119;0xa15c380823920;0x90e437b12ff4];[0x0;0x83c506f5e4a6a;0xfa6839da4f5e0;0x1014b45f41ccb;0x6cd5a428df242;0x41ca314e2dd];[0x0;0x83c506f5e4a6a;0xfa6839da4f5e0;0x1014b45f41ccb;0x6cd5a428df242;0x41ca314e2dd];[0x0;0x370273b5b0a97;0x2b670bede7270;0x932938e99784f;0xd64ad01079664;0x85da41050d];[0x0;0xae54a5525c9b0;0x9aa15b8a93ac2;0x1dbe33d79cfcb;0xdadce6050bf09;0x20561968bade];[0x0;0xa5ae1a7fd7771;0xc46921a80f641;0x4af1f26547e7e;0xff897db684750;0x2b744c95f51b];[0x0;0xfbf9e709065ce;0x1d72d076d5ae9;0x428a42513f246;0xaeec12e689085;0x3f6e4324710a2];[0x0;0x9ea3d0de00b78;0x611c71d75224c;0x9fc835c505fbf;0x821a41ead62a0;0x17e99105a262]]);
 ((V [0x4e35c9631b90c;0x64b7b8dfab211;0xa3f626d9fb3ad;0x77b7b0bef4471;0x2d1c39a36b66] [0x26f9eb173bd51;0x41090180de650;0xc2b2df92cb5e;0xa1313f68b144;0xc65c8dc72e4a] [0x835e8bc33e347;0xa86e41fb94300;0x51609b360038d;0x1ddec9e1fdadf;0x9d3fe81d9535]),[[0x98ece9a5c7532;0xad40b72334230;0x7272ef1ac1be8;0xf9b4155e4fc9a;0x390cfd3a3496];[0xb1bca22f50227;0x642acdbc5b24d;0xcf348f48ff211;0x67527658ed379;0x1675a66070ee];[0xa076eccbaa85c;0x4e6206a0e392a;0x4962ccbec08cf;0x6757e17c03e01;0x5a83d70c7480];[0xa076eccbaa85c;0x4e6206a0e392a;0x4962ccbec08cf;0x6757e17c03e01;0x5a83d70c7480];[0x97ada3955ec3e;0xcb225c1aecb57;0xd09d58a8903b;0x324eda0e618b0;0x98c933904a64];[0x1a0efe99f1381;0x990871a16e6f6;0xc22ab9be761d5;0x35039c4a8bac9;0x7dac72d0268a];[0x0;0x13aa198818b4e;0xd567a02d73a64;0x9035133563045;0x9f2a9b2cd81d;0x22132d9274a];[0x0;0x7231f329dded7;0x7249e2b9353d4;0x7380c03d0d5d3;0x3e3525ef45fde;0x142bf298ba84];[0x0;0x9ea3d0de00b78;0x611c71d75224c;0x9fc835c505fbf;0x821a41ead62a0;0x17e99105a262];[0x0;0x9ea3d0de00b78;0x611c71d75224c;0x9fc835c505fbf;0x821a41ead62a0;0x17e99105a262];[0x0;0xd6fefc9eb737e;0x92b8c2386859c;0xc5556e4f02125;0x37cc479727d7;0xea9a10862aa];[0x0;0x6fcee7ac3e448;0x82cf9ad2c3e96;0x5e03778e69b51;0xb569b1dc55e42;0x26ff4adca1cb];[0x0;0xad3444ab4cd18;0x773b4f5d7ac2a;0x79c292d16f5ab;0xd4b53032c4063;0x3f5282baec6];[0x0;0xaa2cb638729b;0x8df7b7fcb9031;0xdac212f44b9c0;0x9bb8a0d23af9f;0xd1abe4cd36ac2];[0x0;0x474728889f143;0x9592df1d64246;0x7e46103b23f04;0xc7e582b51a0f5;0x22f423b4c0a3]]);
 ((V [0xd8a7e05f78d27;0x484677d34e03d;0xaa0c16681dddd;0xb490dbbdc5534;0x92b099c4a3d0] [0xd708453d18546;0xda55422187a0f;0xb50094480a6a3;0xfac5122fd2872;0xeac97082828d] [0x18fe0f7561ca6;0x93a86bc8df24;0xdcfc1692ba62b;0x10aeb3c012d5a;0x547a96cac39f]),[[0x9d54952768586;0x420cee3eed298;0x84c2282f10348;0x3c66c5e8406e;0xa02d6e1f9fec];[0xd05113e7bbddd;0xeed3cb7a70a75;0x4ee693523b1c2;0x90853abe7cf9a;0xd7c85dc565a0];[0x835e8bc33e347;0xa86e41fb94300;0x51609b360038d;0x1ddec9e1fdadf;0x9d3fe81d9535];[0x835e8bc33e347;0xa86e41fb94300;0x51609b360038d;0x1ddec9e1fdadf;0x9d3fe81d9535];[0x10fe0e7cbf01f;0xd06415f7e48a4;0xf320ed064b093;0x7cb7b28ad83a7;0xe7a6859171bb];[0xbf53056afcb56;0x1e6fb5828c1d1;0x5bc5a64bf012f;0x13cd8833a4bf2;0xf021d833f3e5];[0x0;0x3fca4c240a781;0xdc243c4d2eac7;0x1327524408c1a;0xc2d572097fac0;0x3b3293c82ac];[0x0;0xa3bcfe73f9bb;0x8afee42793b69;0x503142523acac;0xe9195f4382a2b;0x6263d8f32d29];[0x0;0x474728889f143;0x9592df1d64246;0x7e46103b23f04;0xc7e582b51a0f5;0x22f423b4c0a3];[0x0;0x474728889f143;0x9592df1d64246;0x7e46103b23f04;0xc7e582b51a0f5;0x22f423b4c0a3];[0x0;0xb7dab44276cce;0x3fc3a74e38694;0x7d5e4f47980a0;0xd0c34f2b17069;0x99b34cc65148];[0x0;0xeb64c5dbc17d6;0x24865aabae57c;0x6d785318368a0;0xb2a6572cdd5db;0x7f2ef601c7b];[0x0;0x7b00eb147465c;0x93ab66bab1a05;0xc8357f02ecda8;0xb461f85b02c9e;0x7ba520d78b32];[0x0;0x72dfd61b9ccde;0xa5b47c886b71a;0xcc1a9b60533eb;0xb0dd6eb03903b;0xed17987ccf1ba];[0x0;0x19e98d45e619c;0x40a2a0371b8e9;0x153a926a52b46;0x8a7c9c8d73dff;0x8688d9ae84e4]]);
 ((V [0x74f82d1b1a65f;0x4ca1817980c76;0x8086d25be6c76;0x6a0e6931ba5d8;0x645e0dd0123] [0x51fd568e882b4;0x2a524a6d6b8d0;0x61280ceff5760;0x8d393b196272;0xdb6e6954882e] [0xfbbf8a7dda270;0x17c5590404414;0x2f652e54cd7f1;0x26cab7650f922;0x2cd800e19dee]),[[0x49e7efeea4e0f;0x7a230dc1f0ea1;0x30d04e5cb3767;0xdf1d9d9b35892;0xa6c5b366e44f];[0x31da9e22d68cf;0x3994b83aed6f3;0xc4682bdfc9e69;0x2794c21c4a8c7;0x8c0cf421ac8f];[0x18fe0f7561ca6;0x93a86bc8df24;0xdcfc1692ba62b;0x10aeb3c012d5a;0x547a96cac39f];[0x18fe0f7561ca6;0x93a86bc8df24;0xdcfc1692ba62b;0x10aeb3c012d5a;0x547a96cac39f];[0x8609d03c0e11f;0x265ad21934e8a;0x891785f8c6527;0x434ba866ca91c;0xac9b485d78fb];[0xabd0cde6c8548;0x1339e621b8868;0x3b50a5e703942;0xe44919b57ffab;0xdf71abc43393];[0x0;0xe299cddaf1f45;0xc100d3473f532;0xfeb82391af5ee;0x288089859e598;0x1fcd75822f0];[0x0;0x242d422f651cd;0x961fb1e7d41a0;0x884b76255ddd4;0x138cf715d0ffb;0x3708bb513081];[0x0;0x19e98d45e619c;0x40a2a0371b8e9;0x153a926a52b46;0x8a7c9c8d73dff;0x8688d9ae84e4];[0x0;0x19e98d45e619c;0x40a2a0371b8e9;0x153a926a52b46;0x8a7c9c8d73dff;0x8688d9ae84e4];[0x0;0x35d6bae27dcc3;0x1ba9967349d19;0xd6c8587651fca;0x62924e99d765;0xd754e030750f];[0x0;0x65c2b0d8d35bf;0x1b0d869f2a38e;0x6ae7504ce63a4;0xefc83a0fae920;0x540de9381597];[0x0;0xbff9f847857bc;0xca0268a2dc88b;0x9783acfb713a7;0x8251237b47398;0x36e883ad48a];[0x0;0xafc881332ed3a;0xb2e4876bda657;0xa65179bcfe8da;0xfe004bc8710f0;0xe1a498293c715];[0x0;0x62434a4916004;0x1826416f701f7;0xb160ec0de11c5;0x7728fadc30af0;0x5607bf86a6e]]);
 ((V [0x7ad8e73995d01;0x19110358944e9;0xff7bf2127a874;0x40f2b14618d53;0xf5593bd409ba] [0x41b2b9737c296;0x96f61186e87a2;0x3ce3968c92e7f;0x48a6f31b62a5c;0xebf83d09858a] [0x1f6ff1591d537;0xd4a12289f7600;0xd18c73a5398ea;0x66dc9ab661bc1;0x6bb93c8e2e9c]),[[0xda8701b270224;0x3818c96895383;0xc55dbf5956dc4;0x734b36fe955b6;0x2dd33af57ed0];[0x24aae0696ce5b;0x8458a3f814edb;0x8312ee6ac38be;0xe05114df30d7c;0xa7dea911e5c4];[0xfbbf8a7dda270;0x17c5590404414;0x2f652e54cd7f1;0x26cab7650f922;0x2cd800e19dee];[0xfbbf8a7dda270;0x17c5590404414;0x2f652e54cd7f1;0x26cab7650f922;0x2cd800e19dee];[0xa5586c7af1dfc;0x8e3a91c23fc36;0xd5b877b249c03;0xadcc885724e02;0xabc3a274eebb];[0x7f5273ee7adf7;0xf61e1235d52a4;0xad5a76b879cba;0x32848c880bf79;0xfc1b069cf709];[0x0;0x65940d5590934;0xa96b2aecb21db;0x52ce997340f6e;0x10ae6555805bf;0x10e1b750f43];[0x0;0xb6e884ccfe863;0x5aec7d0fcb85a;0xd730823e1cf32;0xd1f1ad6246e3a;0x806f88453da];[0x0;0x62434a4916004;0x1826416f701f7;0xb160ec0de11c5;0x7728fadc30af0;0x5607bf86a6e];[0x0;0x62434a4916004;0x1826416f701f7;0xb160ec0de11c5;0x7728fadc30af0;0x5607bf86a6e];[0x0;0x8902eba72ce8c;0xfa5f8f8d5326b;0x7c2b2a8786bfe;0x3e48fe690f2c9;0xbc1617d550fa];[0x0;0x80624672a7e46;0xff8b5aa171aaa;0x77e442ec4772a;0xc6d8c972aa3dc;0x27599d58b3];[0x0;0x3b7a7a0811de4;0x4f0ead9c38a28;0x857bab136ab6a;0x653582fa61a5c;0xa0e29b7243da];[0x0;0xff51e1ea8a87e;0x9ebe909800ff2;0x67a5c0c9f4395;0xf18fe15f1f948;0xf10bfe0b45a3d];[0x0;0xb17c5e46ec979;0xb14a3f8f615a6;0x55399317498ca;0xeaa3efe694982;0xe226d2dcfdb7]]);
 ((V [0x93a5edb91d894;0xe8604acca2095;0x90aad3eefc6b1;0xa77cdc2f08530;0xb47ecdd504d3] [0xd2c15827394f1;0x90a020ee3d970;0xaa1a79bd4c874;0xa932c4963e7e1;0x9bb89433e48d] [0x64f78e94867f8;0x4cd81249106b8;0x32351c653a27;0xe17e4eb2c9464;0x614fe36368b7]),[[0x22500b0216f10;0xb263d1b20d259;0x963778e6c06b7;0x3cd2ef5c54d88;0x3683a4fbf388];[0x965548920aed3;0xe1f705de2f32f;0x22db667041198;0x181a5193b62a9;0x31bcce1e767d];[0x1f6ff1591d537;0xd4a12289f7600;0xd18c73a5398ea;0x66dc9ab661bc1;0x6bb93c8e2e9c];[0x1f6ff1591d537;0xd4a12289f7600;0xd18c73a5398ea;0x66dc9ab661bc1;0x6bb93c8e2e9c];[0xdfbccb6d6844b;0xa21706e688d4;0x6e9ffe63d43c1;0x685b65aba7e05;0xa666ce51f64d];[0xb6987d24a2820;0xd7d5956fc6a5a;0xb43b680c6cdd7;0xafbeebe80e4a3;0x8b55ffcc802f];[0x0;0x5553b547735ab;0xfb7e043d38533;0x307f142cb6ad5;0xadbf4acbb46fb;0x288d9dad6e7];[0x0;0x1e31ba77b6ceb;0xdf3b015e2921d;0xfe05884e83166;0x757a5f68d3718;0x16f077fcaa7a];[0x0;0xb17c5e46ec979;0xb14a3f8f615a6;0x55399317498ca;0xeaa3efe694982;0xe226d2dcfdb7];[0x0;0xb17c5e46ec979;0xb14a3f8f615a6;0x55399317498ca;0xeaa3efe694982;0xe226d2dcfdb7];[0x0;0x9dc60f85aa64f;0xe406c89906404;0xccecf93d646b0;0x274dd5ccf1f37;0xd981b0c5cc2c];[0x0;0x1cb9cd4b14b47;0xad62ebba1b2f2;0xddce1184377cc;0xafeda6d97e04d;0xeb23eb9e8208];[0x0;0xd921e1521e12e;0x97ec152dfbd12;0x49fe2536e9fcb;0x3d1fea58dbf51;0x231163d87264];[0x0;0xf4e4bfa30b745;0xa2aaff154a9f5;0x6ce4dca5be809;0xfadbb55d4763a;0xa3900aa265996];[0x0;0x9eaae82773304;0xb75b614f3e029;0xaa8e7d3c2ca1;0x9737e5ee4a7fc;0x6dcaea41d06e]]);
 ((V [0x4d1f41175f74;0x1df866c2d3dcd;0xb86a7d7745608;0xf897504733435;0x5dd0f1558c9f] [0xfa18a647ed5be;0x2bfda20191f71;0x2a2ecc45fbf94;0x754b94cc33574;0xd4b756b64cf2] [0x8f6075b3717b4;0xdcb1d626fe24b;0x4d5eed32d6f5b;0xad7e07682929e;0x975fd15738b0]),[[0x3f3b82b377f11;0xa1ea82f3c424e;0xcf16179b26155;0xe623e6b5925d2;0x78470f802ea8];[0xd5eea39e48dd7;0xbb9e940d4f4d;0x3493a9bd5e49;0x5c2730f39ccee;0x4b0a12cdefad];[0x64f78e94867f8;0x4cd81249106b8;0x32351c653a27;0xe17e4eb2c9464;0x614fe36368b7];[0x64f78e94867f8;0x4cd81249106b8;0x32351c653a27;0xe17e4eb2c9464;0x614fe36368b7];[0x36393219731ba;0x626433c5ceaf;0x43948a76ed179;0xfa513d640b039;0x157ae5d86f65];[0x9fb57184d5c1e;0x593a6047809e;0xbfb4b024e8cd0;0x61d5f38f91cb4;0x358f2cf58047];[0x0;0x260de6181d081;0x66cff81ab30;0xcb9815c56cacb;0xd31967da72965;0x24a23ac6391];[0x0;0x45ee352e87187;0xea459d960e2bb;0x6ae33f4ae2c6f;0x504e630abcf9d;0x2db875a311a9];[0x0;0x9eaae82773304;0xb75b614f3e029;0xaa8e7d3c2ca1;0x9737e5ee4a7fc;0x6dcaea41d06e];[0x0;0x9eaae82773304;0xb75b614f3e029;0xaa8e7d3c2ca1;0x9737e5ee4a7fc;0x6dcaea41d06e];[0x0;0xec40d84dc12f1;0x57af6277f84a4;0x590fcd260642c;0x214f5b2948f4d;0x5eb9088c3728];[0x0;0xe2219cc2c45e;0xb825a49062b2d;0xc5552c0e9550a;0x3edc7714dca41;0x7f429042d1f9];[0x0;0xb33946194ef90;0x12ba925ad9fb7;0x4e8af65d29879;0x3ac04e9c0b6b7;0x1b7fe7c1a6a9];[0x0;0xddc713104287d;0x42492d7d4ff52;0xc89704ced63df;0x485e3ecfa66d8;0xde1d2acea4e5f];[0x0;0xeaa2c207d733c;0x28a71067bf422;0x51d32ebd16ac9;0x326d738bc5160;0x4df437fe5c6d]]);
 ((V [0x880c01d61ecb2;0x8a2281d1b6e35;0x2ca669fb3ffda;0x4be62a6a80c97;0xa00558c111df] [0xf8117e5ae2fc;0x1e7c632f38118;0x87c1c0e166a1e;0xe600c9193dd61;0x6c8634058e53] [0xb648fb3a281c6;0x145ad4585c738;0x4f4e077ff6c5a;0xc76a51f070d5b;0x11c47bca829f]),[[0xbf5da6f650afa;0xad4c2540fa01f;0x86d30a57d0619;0x4cf4d85f1770d;0xaafaa0e9dac1];[0x762ba88d12e40;0x55ceefdf618fc;0xebfcc021c6696;0xf1a1de2275e37;0xbce6e1f51028];[0x8f6075b3717b4;0xdcb1d626fe24b;0x4d5eed32d6f5b;0xad7e07682929e;0x975fd15738b0];[0x8f6075b3717b4;0xdcb1d626fe24b;0x4d5eed32d6f5b;0xad7e07682929e;0x975fd15738b0];[0x1af7715af6ec6;0x5dbd955112b6;0x74cb1b75b4ac1;0xc84b77513b79f;0x142d674d5171];[0x5b3437321bf7b;0x4ff3168a50646;0x7731a4ac11bd5;0x295666d13a698;0xa8b97aa7beb7];[0x0;0xdcb8f27c2e9ce;0xbcdaf4608ddba;0xf84634fb37b3e;0xfc529380ca902;0x38fc5a9dd1d];[0x0;0x9f5d6cb447db8;0x2b233e9339880;0x3872ff61422c9;0xa09275adc3571;0x6519d3bc8538];[0x0;0xeaa2c207d733c;0x28a71067bf422;0x51d32ebd16ac9;0x326d738bc5160;0x4df437fe5c6d];[0x0;0xeaa2c207d733c;0x28a71067bf422;0x51d32ebd16ac9;0x326d738bc5160;0x4df437fe5c6d];[0x0;0x2713d52612b72;0xc08558a5a8a2f;0xaf37acc03ae17;0x926d472f5bb18;0xb0c02aeb0572];[0x0;0x60c6a73733833;0x4ac959053c323;0x8ea8b4eb25733;0xededc7bd846fd;0x226179e136b2];[0x0;0x3a91c9ed9b5c6;0x4ffed620097f;0x7943f4d49d965;0x9942ba66c1116;0x76143f3968cf];[0x0;0x3632c553393a2;0xce8f6458f7b91;0x7c04c00fbad49;0x5fb3bf89aac03;0x6e4d505cdcb0c];[0x0;0xa546167f01c5e;0xf733d3c3477d9;0xd43df1062c17b;0xeb09b31a759b1;0x43d624c277b2]]);
 ((V [0xf37b3a6c66e2b;0x658eab8a94d90;0xfa971031be4eb;0x676b71564a1e9;0x65be019eca6c] [0x5283ea17fbdb9;0x5d1ad697dab3a;0xbeebfef6fb687;0xecfc7183f0f41;0x6af0022273c1] [0xfed8f798d2a1a;0x71c914bde230c;0x9782f8901fc2f;0xd6f36e8ae303d;0x2c0a8ddafc98]),[[0x12be20b9655ed;0x9fa42e7d255a4;0xd77e53729d56b;0xcf3a6eafcd580;0x37e03de1f872];[0xc6002d87e02e;0x566cc200f7f62;0x81f759393e74c;0x8e690673ee4fa;0x43a5a4ef7188];[0xb648fb3a281c6;0x145ad4585c738;0x4f4e077ff6c5a;0xc76a51f070d5b;0x11c47bca829f];[0xb648fb3a281c6;0x145ad4585c738;0x4f4e077ff6c5a;0xc76a51f070d5b;0x11c47bca829f];[0x532d10011416a;0xb093f84c5750c;0xcd65aa28a22e9;0x99d6616174053;0xe416d644c09];[0xb932f2d769ec5;0xa5d8c9b4a0a55;0xb491af109c462;0xf492a5127a4a6;0x3564378b257e];[0x0;0x7d1127f2a8913;0xd48d6bfbdc735;0xcf063de0a52a1;0xad562cebdf1f7;0x6b04dcb9db];[0x0;0x65286bbb192e0;0x451a9cb3f4950;0x26b92d11ce2b4;0xfd9072995531a;0x3e0c6d053b0];[0x0;0xa546167f01c5e;0xf733d3c3477d9;0xd43df1062c17b;0xeb09b31a759b1;0x43d624c277b2];[0x0;0xa546167f01c5e;0xf733d3c3477d9;0xd43df1062c17b;0xeb09b31a759b1;0x43d624c277b2];[0x0;0xf5f8435568f4a;0x5966dc70e99d8;0xf258e3a36fabb;0xbd666584efb4;0x2e01823f307a];[0x0;0x532b3b2aba8d9;0xc65fcb3305c38;0x79ce14ba50ad1;0x1f7e2420e233e;0x6406af0deca7];[0x0;0x88621b160298f;0x624c74593edc6;0x7892d449f5c50;0x381d4a79acaf2;0x1ae28f707cdf];[0x0;0xbb1392eb79ad2;0x1a372bde46f23;0xcfd4488ebfa94;0x537e13c233529;0x6fdae22238483];[0x0;0x59aced1d85eef;0xa21bababf845b;0x426c1e59a3092;0x8a483827268d6;0x2a800fa671ef]]);
 ((V [0xf1ddcc02be468;0xf206c6371a577;0xbe16a4a9b3272;0x627e620750af6;0xd16ff231a438] [0x52510b126d070;0x43cc505ef4c85;0xb973ab9ea7c47;0xab9d5af3efa5a;0xb81afbbb6388] [0xed6ecc1496fe8;0x52671c5e5b8e5;0xed15fa01b5f52;0x87ac7d1983656;0x79beb95c9648]),[[0x48093893a3431;0x1e79bfd5e17bb;0xd1dc5fceb40c9;0xdc86ef40406fb;0x585f0771a95a];[0x42ad1a919386b;0x53faa2eb931ba;0x7c17b490c17c4;0x2edd175689c1f;0x7af90c72dfb5];[0xfed8f798d2a1a;0x71c914bde230c;0x9782f8901fc2f;0xd6f36e8ae303d;0x2c0a8ddafc98];[0xfed8f798d2a1a;0x71c914bde230c;0x9782f8901fc2f;0xd6f36e8ae303d;0x2c0a8ddafc98];[0x2ad1deca5aef1;0xfecc8a2edf5c;0xd50f76798b25c;0x66f48a9dc9039;0x1cdf715794c4];[0x17db3bc73897b;0x440dda48a525e;0xa7083e1736568;0xc7e88cb8c0be5;0x5e199b1b4af0];[0x0;0xdea50e6ca24bb;0x4d3199a56c8af;0xed2ab5e72feb2;0x3bc958f72278;0x10945f9a859];[0x0;0x7587f786f75c9;0x381e658ed2347;0x41f98abb2f7e3;0x7a78d8025a8bc;0xf33f9f5c2c4];[0x0;0x59aced1d85eef;0xa21bababf845b;0x426c1e59a3092;0x8a483827268d6;0x2a800fa671ef];[0x0;0x59aced1d85eef;0xa21bababf845b;0x426c1e59a3092;0x8a483827268d6;0x2a800fa671ef];[0x0;0x94e0572b29d40;0xed21fd2e65455;0x5a80588e36428;0x324f62e4cd942;0x2caba2c8887a];[0x0;0x30e1c951b2ff2;0x82c3f2d7b7760;0xdd3ddceda6b91;0xa297a1981331b;0x286f7a4db370];[0x0;0x10ecf08038334;0x35b1a3ee98911;0xf549e4acd3ded;0x860c46c5b3891;0x649b197d74c4];[0x0;0x187ce232425c5;0xdeb5423a5e636;0xed5434732c3b7;0xc38e556453aa2;0xbe15ac04794ad];[0x0;0x6a46702935228;0x39f33d8a422f1;0x7ba4997d498d9;0xe55374c5bcd10;0x969e896457bd]]);
 ((V [0x9c32b646c1ead;0xdd86d56646e5c;0x66e9ef556a4e4;0xfe3c451486910;0xd438a766c45b] [0xeed30e080ddf3;0x41322bd0d5931;0x17bebfbd1c574;0xf5a5f2395b045;0xbda0440832ae] [0x16d358629e1da;0xfc8b4405e323;0xdc48aa8448a3e;0x1e065e876fdc5;0xe6d1078a426a]),[[0xd53d30d6bc913;0x9ea06284b370b;0xbe173572ba635;0xcd7e9d75bf14b;0xe761db364ea1];[0x720cb3c929230;0x44dff912630b;0xd1fbe0deba11e;0x721fb1cbca468;0xf8ce8d845343];[0xed6ecc1496fe8;0x52671c5e5b8e5;0xed15fa01b5f52;0x87ac7d1983656;0x79beb95c9648];[0xed6ecc1496fe8;0x52671c5e5b8e5;0xed15fa01b5f52;0x87ac7d1983656;0x79beb95c9648];[0xfbcadee8d8c6a;0x178de538750f2;0x3f2f1dbe3ad1c;0x16c1bdf6c9eec;0xa6beb8be377b];[0x7641d4e0505c7;0xecc01a58b1218;0x92ccc3207f401;0x5b5df3d50057c;0x520fd4c61bc8];[0x0;0x96047c43e7a63;0xfd39a416aa158;0x4bfdb1172bcec;0xa9ab3cf5777cf;0x2dd4e6673d1];[0x0;0x8bd5496104d38;0x41a1057e719c0;0xd2f0491101bc0;0xc12686cf8d381;0x6e09a2c6c3e2];[0x0;0x6a46702935228;0x39f33d8a422f1;0x7ba4997d498d9;0xe55374c5bcd10;0x969e896457bd];[0x0;0x6a46702935228;0x39f33d8a422f1;0x7ba4997d498d9;0xe55374c5bcd10;0x969e896457bd];[0x0;0x3cf4b55451eda;0x9837209afa467;0xb342069bf579e;0xaccd9f9967fa8;0x8466ccb578ad];[0x0;0xafa5a2184106f;0x7a57f3fc4468f;0xc676c2bc4d60b;0x5dd2a6cde46ae;0xab57fa68fa52];[0x0;0x602146dc774bb;0x26916f8430cb5;0x2fba7c595c3d0;0x532a843d1ebe8;0xce421d13295b];[0x0;0xec8b3d283af52;0xc5bf1565b0f14;0x5fd1856458c76;0x8594d920dd080;0xbdf5842d96423];[0x0;0x42555778e8b2b;0x23222fc498273;0x84767f613fa92;0x46679acd10101;0x9d32af655773]]);
 ((V [0x1e84daca21fc4;0xe278b6fcac132;0x8501ddc834b22;0x191571217f261;0x63230b25da1b] [0x4e389307c62e4;0x13b11de7e8e65;0xf28376e958de0;0xf04ae3b0a8f1b;0x73715c24cdd7] [0x1d89e2b57924a;0x4ca537ae1092b;0xa7253ababc49;0x4cc34e2ef5663;0x9d082317b285]),[[0x6f909323ceff1;0x9f08d9a071d12;0x3e2376112c95e;0x4d64a43564168;0xe2933cbd689f];[0xc0e70953e247c;0x16a8ebc4cd56e;0x6064cef0a725f;0xddc5947d16d49;0xe2ce2a75dbd1];[0x16d358629e1da;0xfc8b4405e323;0xdc48aa8448a3e;0x1e065e876fdc5;0xe6d1078a426a];[0x16d358629e1da;0xfc8b4405e323;0xdc48aa8448a3e;0x1e065e876fdc5;0xe6d1078a426a];[0x309a8205899ae;0x5cd7af127db95;0xd82d5017ec794;0xd85c2a00f6cfc;0xa436ec8e8023];[0x904c874e58acf;0xb9d13cb24f9d9;0x88377ed8baaca;0x5696a7c2004c;0x3e973de75bae];[0x0;0x5a1052702933b;0xf8334210f54a1;0xc0c4888c3228f;0x9df1067f768d2;0x56e46b4ee67];[0x0;0x748793d44d1f2;0xfcab2bb9d2d5a;0xd5b46c56ac56b;0x56c03b5171d17;0xcc4949732771];[0x0;0x42555778e8b2b;0x23222fc498273;0x84767f613fa92;0x46679acd10101;0x9d32af655773];[0x0;0x42555778e8b2b;0x23222fc498273;0x84767f613fa92;0x46679acd10101;0x9d32af655773];[0x0;0x8d3a6117fc23d;0xc0cdb47126977;0xd918ba110a98c;0xc9a3e8fcaab6;0x8c7608c9372a];[0x0;0xce88ffd4351f6;0xb9e77a0faef76;0xb22ab8c42a0aa;0x82c42266705de;0xafede1cbdfa5];[0x0;0xd2112f75d0900;0x76f171e5aeb7e;0xcbb1a7b548870;0xfc0f7d34c9f4d;0x57d4c67bc6f9];[0x0;0x1d90d37b8cc6;0x2339242b8f9c5;0x8f8d263763399;0xeb1a7877875f5;0x7444012bb48f2];[0x0;0xff4f6dcd2b6aa;0xdefe08be07ace;0x6d882fa8cb2ea;0x4d58a44f493cb;0x2cb4a428c555]]);
 ((V [0xe04fe37d3314c;0xfe88ff3e193eb;0x39796f7ace6f6;0x939845fb3210b;0xd62632e5f5c8] [0x6c6ab748cd113;0x362467c1c9beb;0x7bbb1c18dfb1e;0x555729cac45d5;0xeeaffb34f39] [0x7a91c21be2a86;0x83e8c71d1934e;0x5cf78ddb8dc89;0x6bef6ffeb540e;0x231ebf2197d0]),[[0x8e9c6ade2170a;0xf0625e43532c3;0xd6fe872a64875;0xd2ee72f4bd394;0xa5073afc90];[0x4a3a5b4a06543;0x3b5491ebea44;0x8edb7d560f989;0x126052d799f07;0x1d7ccdf05721];[0x1d89e2b57924a;0x4ca537ae1092b;0xa7253ababc49;0x4cc34e2ef5663;0x9d082317b285];[0x1d89e2b57924a;0x4ca537ae1092b;0xa7253ababc49;0x4cc34e2ef5663;0x9d082317b285];[0x1ac4c6eb55974;0x5b987846e2802;0x128d09fdc6463;0x8f13200674514;0xc2d19edd620d];[0x2f75945eb0967;0xa81cd0d7dc242;0x7c4e735849525;0x834d32d1259f3;0x5aab2f12f513];[0x0;0x9d9302034d71c;0x22aa750437c7f;0x49fa2709c1539;0x8f2be47c591b7;0x3b1d951c6e3];[0x0;0xb124488164b87;0x350319c3f7e3b;0x23c71e0c4ca4f;0x81ac931b92201;0x653aae0600];[0x0;0xff4f6dcd2b6aa;0xdefe08be07ace;0x6d882fa8cb2ea;0x4d58a44f493cb;0x2cb4a428c555];[0x0;0xff4f6dcd2b6aa;0xdefe08be07ace;0x6d882fa8cb2ea;0x4d58a44f493cb;0x2cb4a428c555];[0x0;0x9e18c226e36c4;0x3122d291e8450;0xa460ad390c3c7;0x33c329a2af72c;0x340f0afb8a98];[0x0;0x14e906c92d7bf;0xf0438b87312b7;0x17cbf9ca1560f;0xdf268b2c1902a;0x26641f6b5386];[0x0;0x3ef9e838078c4;0x967997126a2ea;0x8467fa1b8695e;0x48dfc14a5ad45;0x18aaba8a57af];[0x0;0x8adf9846c542d;0x5fcaa03b89e9f;0x3e2fc798f64e3;0xb38b5873fe1d9;0xfbe3161ce7d4];[0x0;0x989abcd09a692;0x89d9f20d5041b;0xf528445f4d818;0x7a0c82b980c1;0xc7aab992552]])]
 [[0x609d7323a09bd;0x9e5567ade3f32;0x33074a79d4412;0x9495ed1266435;0x63bef218afcd];[0x289adebd71086;0x1694c70c5076a;0x7cdf963d0f930;0x7a1b0f1380630;0xcb6f1d205e76];[0x7a91c21be2a86;0x83e8c71d1934e;0x5cf78ddb8dc89;0x6bef6ffeb540e;0x231ebf2197d0];[0x7a91c21be2a86;0x83e8c71d1934e;0x5cf78ddb8dc89;0x6bef6ffeb540e;0x231ebf2197d0];[0x7874f8554e20d;0x546e96cede96b;0xb9d98706db219;0x5c13f42750449;0x8b948d293026];[0xb025e66822e7a;0xc226303d71dfe;0xc3060f3634716;0x1e071aec301e6;0x3fda8ff72e50];[0x0;0x84b4e405c7a23;0x78694f97f0650;0xfdc699da59e83;0xbb16ccef4b2c;0xd389ed4668];[0x0;0x3a5563765e5d8;0x8228939820d25;0x3c8d59fc0afc0;0x2bc0522fc897e;0xdaf15f24c52];[0x0;0x989abcd09a692;0x89d9f20d5041b;0xf528445f4d818;0x7a0c82b980c1;0xc7aab992552];[0x0;0x989abcd09a692;0x89d9f20d5041b;0xf528445f4d818;0x7a0c82b980c1;0xc7aab992552];[0x0;0x76f28a8da2904;0x673dc936f2ddb;0xe0c3acde0ba24;0xcf91a6a000d27;0xde8bb00fdd];[0x0;0x2052353ff0f5a;0x87f4fb16b2d7f;0x5253ab3458b15;0xf0e264adcfb28;0xb323e2cb9d4e];[0x0;0x6f733de96497;0xcd62958072af;0x9de2f8b5003c5;0x616b1b4f9325b;0x6e4efdc0b143];[0x0;0x252f664f84cbe;0x8acbd66c7cc1b;0x1421e194f6d13;0x41be62a8297b5;0x110e887970603];[0x0;0x73d0580415c19;0xe310a154a018c;0x297b8553d16b1;0xcf5361219c334;0x921ad07561a]].
Definition wit_256A_64_1 : colwit ept wit := mk_colwit (V [0xecf9294cf46c7;0x9877739fb4835;0x9189a9b0b49f2;0x922e094e7d87c;0xd317ed6aa45d] [0x6892831daaefc;0x43f361aa2e682;0xb348e4a87cf3e;0x31a5c0b190275;0x14902bf677db] [0xcccd59edb2af3;0x7707b99e2dd82;0x87e5f96224c61;0x38f237636e749;0xc81e673c1d9e])
 [[0x5c578246342d5;0x38a70009c431d;0xb6792e61109ca;0x4c0eacb8a167;0xf7bd1eef201d];[0x62598d54bc6f7;0xe99c5645f29ff;0x2aff2acf885fb;0x86635b71ea908;0x24dc12e9b021];[0x23367321e8b93;0xb2ea758921a81;0x644110c249e25;0x2d8ed610b669f;0x2b533b02212e];[0x23367321e8b93;0xb2ea758921a81;0x644110c249e25;0x2d8ed610b669f;0x2b533b02212e];[0x2cd8e945ffce1;0xeeefba57f9a43;0x40674e6fe8bd0;0xc95629356838c;0xed7e499d157c];[0x3580a40ebc7ae;0xfaac9bedf8fbc;0xea97dc5f9fa2a;0xbd0d323c8257b;0x375dc94c9aa4];[0x0;0x9bfa654b19894;0x5f55201cc6db6;0xbdcd84c61fd7a;0xad94d14f136a;0x104f5c347c5];[0x0;0x470ab231afd68;0xf3e1a2858ae1e;0xff733ae8295b7;0xb488bce9c81fb;0x29ed4f9dd7a3];[0x0;0x73d0580415c19;0xe310a154a018c;0x297b8553d16b1;0xcf5361219c334;0x921ad07561a];[0x0;0x73d0580415c19;0xe310a154a018c;0x297b8553d16b1;0xcf5361219c334;0x921ad07561a];[0x0;0x36a84ebb15875;0x449aa945cc23a;0xf99c0fc5ed739;0xdbfe28bddca09;0x11b9b7b3264];[0x0;0x13260115190cd;0x7771fc18e1566;0x76707b4d5a35d;0x7274695f38261;0x4b44a474436b];[0x0;0xbb4f1740311ae;0xda290a4525f74;0xc00f039379859;0x16b5a5fde8deb;0x1e64d58b6777];[0x0;0xb062fa94535ce;0xcab3deec8d9f;0xd52a69d71cd7d;0x514cc2f99bcae;0x15a9cf7c49c6f];[0x0;0x731be8c31e4b7;0xe100a8583c1fd;0x100c4bf1cef81;0xafe86a7b786cb;0x10f4c0422187]]
 [[[0x71dca223671a0;0xa0d60b1ab37c5;0x7f725c1c822ca;0x7af271b1ac7ff;0x7b33be39380];[0x3d3005b3ef15e;0x3c297aea1bc30;0x4d37c70c555f5;0x48d9faf3e4a0a;0xf52e03dab32f];[0x459f32aef2315;0x9a9aaf5f5fc2a;0x930d650677095;0xe93e5394d4c26;0x55c0a2147ec2];[0xccfca6bc85532;0x1bd77b0c057d8;0x32b3bce879624;0x873b9a9952e13;0x17093f271878];[0x30901d16c426c;0x8fb9937376360;0x4471ac00b320f;0xa758df1d3cac6;0x48b055e20f22];[0xd96ed49af95da;0x24fa88adce6bd;0xf684fa2cbe5f1;0xf96c112a5e0b8;0x3e72ac2f2d2a];[0x0;0x80a8f54a54b87;0xaf5bdf811ea80;0x3104d4782a1ff;0xf111f384a1859;0x4b55fe04913];[0x0;0xd150c9de892ce;0x491393fe4a692;0x96826ee87e139;0xd0603f5529869;0x14d9bf203c2];[0x0;0x3541bd120ccd9;0xb4f1240d40427;0x11f9f860b19fd;0x1648b32d4526d;0xb2667c2d93b];[0x0;0xe4dae83ec3b18;0x8c139419aecd2;0xfbdf7d3d71fa3;0x5f19d4c1acf14;0xde2f345d1b7];[0x0;0x6f748848de524;0xc1868299f2f62;0xa89f30bae7a1a;0x75782cb169cda;0x15a4c0d1896];[0x0;0x23c3dbf032675;0x5cc3b430e4179;0x9c4bb5427bb38;0xcc1f57fe6fcc9;0x7276354dd677];[0x0;0x653348bd5765;0x6f7101674704a;0x8bd2772baa25d;0x73cee79741da3;0x48b8c32932d];[0x0;0xfa0a0f074d481;0xcc6e1c1c1ac82;0x5b1e8f6241aa8;0x19c6cef814ea4;0x79e34cc5159e7];[0x0;0x5d6496e54a56b;0x77a6a1c19f365;0x9dfab910729a7;0xba85893507641;0x240eb1c8235]];
 [[0x71dca223671a0;0xa0d60b1ab37c5;0x7f725c1c822ca;0x7af271b1ac7ff;0x7b33be39380];[0xefb666f564fdd;0xbe1bfc1eaf1d1;0x3c8284317ba2a;0xd1fcc2d0e62ea;0x135cb410b0cb];[0x39f34ddd262b1;0xf20ff1146ca4b;0x976c4c4009877;0x3a04c62cbef0;0x1cecacb56323];[0x24ad7ca862375;0x19a85abd7d710;0x5be8505abce60;0x9292f7c6c66e;0x98746b5acb3b];[0xc7ff671573f87;0x503e9703bcd40;0x8cae371046bf7;0x89b61a46a8089;0xfe2288e8df4];[0x7d88acddb29b;0x4aa1fc38fe20b;0xb83471f960e7e;0x9d688687e7a72;0x9a5fa9bd584a];[0x0;0x80a8f54a54b87;0xaf5bdf811ea80;0x3104d4782a1ff;0xf111f384a1859;0x4b55fe04913];[0x0;0x49ef7f7582b75;0x4226148d0b21d;0xef16c22d97140;0xd52de28dd5c78;0x53b451248c7];[0x0;0x5d830135344e1;0x369a61956e1b4;0xc5f05cd80e2a4;0x4a235da921616;0x619623b70a];[0x0;0xac76b682e53a5;0x341ff9c76b7aa;0x3c345bd0752a2;0xa261db4b4e823;0x643df2701cb3];[0x0;0x10e5eeb08d4f;0x929ceba80213a;0x76c56eabee8be;0xb183eb7645af3;0x9c3cc41f403];[0x0;0xa5587ef3f1ea9;0xf902946cda2bf;0x5b7b3b6c752a9;0x489faa5acfbef;0x3e9c8dec27f];[0x0;0x7828a3fc31a2;0xbf10f3d239729;0x69d9170970822;0x6a0dca3ac67d5;0x10d4e26332b8];[0x0;0xe3b24f15e831a;0x6af011a8119db;0x13f2a860dcc63;0xd72cb87d3fd36;0xb4601eea3b18e];[0x0;0x68a42f8353d8c;0xd7cabda8fdf92;0x2d2e585ab5a19;0x13c6e3c6647aa;0x943cb34428d0]];
 [[0x71dca223671a0;0xa0d60b1ab37c5;0x7f725c1c822ca;0x7af271b1ac7ff;0x7b33be39380];[0xdd5d6aa56bf42;0xb729a0dcde8a1;0xc64a8797c25b9;0xcc8cb8e9495ea;0x33d1f36d9887];[0x7ec62923b0138;0x40a0dbb195372;0x831facad0dcfe;0xcf7bbcb207731;0x4b43aecd5867];[0xeeb189684fb6b;0xebd14671bbf72;0x416495b1f5e8b;0x49193f5dbcd3;0xd97c1b27d42a];[0xf6c6e38b2a129;0x719b099e1618c;0xfe568ee65fe5f;0xc9c710e95eb71;0xf117a33d3689];[0x7a05ab0e6496d;0x870f05f8b65e0;0x3b12e285aa26f;0x654d752b934e3;0xa9a125814814];[0x0;0x80a8f54a54b87;0xaf5bdf811ea80;0x3104d4782a1ff;0xf111f384a1859;0x4b55fe04913];[0x0;0xbdba522fd8832;0xd9d8492b2e919;0x249927eb3ee83;0x8f13ffd7f2561;0x2f1139e82ad];[0x0;0x43286e2901bd0;0x82f26fffb8045;0x23cc271553b0d;0x853a4986abcd9;0x11e02afd9b20];[0x0;0xb7682afd8657e;0xf95eee186a208;0x4591350a88fc0;0x2146b4880e7d5;0x8c9c767cf721];[0x0;0x52273024bbc4d;0xd8d84842e7175;0x692da05756cc2;0x5f89cfeee943b;0xdb282a30553];[0x0;0xbf794039f188b;0xe3adbf75387b1;0x5eb88cc89c486;0x213506cd4abbc;0xb781264c44f2];[0x0;0x2f0257f3fb9a8;0x52bb3af8ddf2a;0xcfc986aded4dd;0x43c1cbd5fe6f5;0x18efb63ac6a7];[0x0;0xb7fc7fbb59c7;0xf8f56cc5cb183;0x8f33710de2531;0x65ca6f961782;0x17abff1cd52a8];[0x0;0x5b8da96a43b32;0x290e5d94e98e5;0xfacf0704700cf;0x1d67d5fe0b298;0xad9ab6cb959]];
 [[0x71dca223671a0;0xa0d60b1ab37c5;0x7f725c1c822ca;0x7af271b1ac7ff;0x7b33be39380];[0x3b18776b47778;0x3cba2d3b833d4;0xe460e6f314a47;0xca9bc48384d45;0x1b2cb424b74f];[0xa4368ab5ea7cf;0x9de8783b211a3;0x7d020a52f29f1;0x7442d8fb070fb;0xacea00ea7a];[0x873d2a4596f32;0x797333b13d34e;0x179483e7b3557;0xfac50a5b14725;0x97d515cd012a];[0xe8adef6ced231;0xf03ba0b819bdc;0x557153f280d67;0x1f7ebdc3cd50c;0x9271890ea5dd];[0x4a5893d425566;0x21e6fbaea0c76;0xb30b71fe15966;0x10a6f1c853d7a;0x894ca45ec97e];[0x0;0x80a8f54a54b87;0xaf5bdf811ea80;0x3104d4782a1ff;0xf111f384a1859;0x4b55fe04913];[0x0;0x915d406d349b8;0x816d234ee2d06;0xdb94e9b5ddc86;0x7707107df5d76;0x66ddff47ddd];[0x0;0x6c1f6ba620d7b;0x7b79d080c1045;0x39ec609ee8e16;0x33fb202470e22;0x9e52c6b14db];[0x0;0x5dcb1e2e4c288;0xa4601d5567555;0xfc71403b96cca;0x751a72c5285e5;0x1297b5db53b6];[0x0;0xe318eda4137e1;0x73731d055b8e2;0xdc90e4f94eac0;0x69dfd237a2f10;0x1cfa7eb0b32];[0x0;0x636ccfd58bb6f;0x1b7f11e8bd408;0xa68be5e2fbc67;0xf510c11c40815;0x65949172cae9];[0x0;0x2732842690012;0xd4ccda9d6e34a;0xb7cf8433b51d3;0x4af06cbff38cd;0x880c9a8fc29];[0x0;0x5caed6536e6b2;0x239aae905f25e;0xc08f3def903f7;0xf8f44a631fdd7;0xfae7dfc942a24];[0x0;0xc355f7b4ceb4e;0xd4563716f7e8b;0x9bad914ce06f5;0x824a1d3391e06;0x4a5b12a21e8e]];
 [[0x71dca223671a0;0xa0d60b1ab37c5;0x7f725c1c822ca;0x7af271b1ac7ff;0x7b33be39380];[0x5864c5b2b2c9c;0xb2181cb755535;0x4a497f1ab3a07;0xa8c16fff6bd25;0xdfe540c513c];[0x40291d1685749;0xdb9b99870c59f;0xb43499d209ccc;0xd6abf62906b98;0xce59d2336288];[0x10c2ebb9e1639;0x81a9cf14adab5;0xb88a7b3d9ccef;0x9fddad898ac3a;0xfe31e34bd328];[0x6f7b3fc8eabc6;0xfd32d69da77ec;0x2c46caa782f1d;0xe74e13617ee4;0x56583224136a];[0xecbb7169ca54;0x7ce1ccc6b41ab;0x6380cc43b49fb;0x2b3ac340c5f8a;0x4786c0447ab];[0x0;0x80a8f54a54b87;0xaf5bdf811ea80;0x3104d4782a1ff;0xf111f384a1859;0x4b55fe04913];[0x0;0xd6e9bc3c14b9c;0x7cc17b6e9ce33;0xc38988cb445f2;0x26f6b77132e6d;0x540902ded1];[0x0;0x37e3c2ed219dd;0x616977725e643;0x258fccdf876f0;0x17d7db45bacf8;0x66f2f995828];[0x0;0x3c4d31fdcee96;0xae4871e120b1b;0x35e4fef0b3b03;0xf1223e2b98e93;0xc3f239991282];[0x0;0xc456b63497f8a;0xd703a2d69ae53;0x910b1010bd45b;0xfbdd3259593be;0x13166f3ca37d];[0x0;0xf22dc3c31203b;0x32fc2c606e5e1;0xb3e01f6ba95d0;0xb5188c61f3b60;0x420d5dc8cf4c];[0x0;0x51c0b282dfa03;0x879f0f9c62593;0x5288153794e40;0x8dc23f4aa4618;0x95f1210ad94];[0x0;0xf3e4837edcea5;0x2e19e2eebfdfa;0xed603fea4d505;0x41745f22d0d2f;0x42f261cb41418];[0x0;0xf703045622771;0x321212704825e;0xae1813176cf84;0xb8fef873b0df;0x2a5533ede935]];
 [[0x71dca223671a0;0xa0d60b1ab37c5;0x7f725c1c822ca;0x7af271b1ac7ff;0x7b33be39380];[0x2bd12d62017b4;0xc84fd2f5e71e;0xf27e7e59f6a82;0x12978b04bf10a;0x61573653c44a];[0x19ed2b6f1486e;0x3fa817e13c1b8;0x6bb54fa359d29;0x8aecc0881df38;0x97f6ec8c4ebd];[0x42b4028fb7e35;0xd84f76e61b2d5;0xa08bcfb036e4a;0xf80fe8e95b36d;0x131ca041e091];[0xa3446f1ae901a;0x3e9d457464136;0x2e351b4df3a08;0x863846ec63ba3;0xa93dae6fb00a];[0x82e7428feaafa;0x9020bcd1ee660;0x8019ed220b8c0;0xaf44c2312516c;0x89c0f2c7bb40];[0x0;0x80a8f54a54b87;0xaf5bdf811ea80;0x3104d4782a1ff;0xf111f384a1859;0x4b55fe04913];[0x0;0x9f23015dd0d14;0x976303ccf96f8;0x816cc1a6e9076;0x96e11e93fe6d4;0x193404c2fa4];[0x0;0xf5ce5db9a032a;0x3347afec7aa61;0xd11c9cce32da1;0x571fea88d4332;0xdc564ea45c6];[0x0;0x51ee2ecd06806;0xa297c57683aef;0x77721f9c2f77c;0xe2c0a1f71e6df;0x341fa46e6b84];[0x0;0x5ffa2d512508e;0x323c4337221ed;0x16363e6900936;0x42835367c7991;0x513d6e03f90];[0x0;0xfaf6f87f4bf0d;0x5d833113ae1b1;0x4e01db46d2f56;0x2cfd62a2b2c61;0x8d5e514c4ed6];[0x0;0x1f39db5c90ae0;0x72e839f69262b;0xa2324fd499370;0x605589cd7eee3;0x3047f6d6f19c];[0x0;0xa0f363af6083;0x7cdab749fc3d6;0x52a23062f824d;0x867bf1be9da08;0xf39e42d691e7c];[0x0;0x4fe7224d7cd98;0x29dc3e1c4717e;0x77a74b519f0ad;0x9f51db0f7e268;0x745436003b8a]];
 [[0x71dca223671a0;0xa0d60b1ab37c5;0x7f725c1c822ca;0x7af271b1ac7ff;0x7b33be39380];[0x6664de25f7ab9;0x28b05e0b2588;0xebbab28cd907a;0x4224dc7830cf3;0xf56d188d42db];[0x6c821e8356e04;0xc8e3305825046;0x9cc055690c9a3;0x1e737f3c18ed8;0x429d527d8921];[0x178e44d757bbc;0x7fe01871af401;0x222117fc29dbb;0xca5d19c250d1b;0x339fedb87cdb];[0x1a3e7f1bfdaa7;0x4fcf035cbe2fb;0x658f77f381f58;0x3461bda174472;0xf1e5323296a8];[0xacc984528492a;0xd78d15e3063e2;0x794a5da1b025a;0xd3382ce30be24;0xd5206ef9cf10];[0x0;0x80a8f54a54b87;0xaf5bdf811ea80;0x3104d4782a1ff;0xf111f384a1859;0x4b55fe04913];[0x0;0x18950aabfd131;0x32e8fd88c9e35;0x2d0029a35a5ce;0x8cca845822671;0x15d506f9628];[0x0;0xeeb00f8d8b460;0x5bbeeca0a31df;0x86ba03a244802;0x7517034e63751;0xa33095c2dbe];[0x0;0xfafe0ec2973b;0x8aee118146b1;0x6b6e3068e53c8;0x3856aec94e645;0xc1647dbf5188];[0x0;0xe1aded7ee4eb;0x8f292166879ff;0xba32b1f120e46;0xd5a4d316a437b;0x12d6c0a9972c];[0x0;0xc685bb8e85161;0x553e70924a368;0xef95e72e731a9;0xad9ac1d29c1cd;0x68b3e13aec8d];[0x0;0xd2ecdb3824a04;0x5cfca6b880a7b;0x8e0f922b478ff;0x204995a2f0daa;0x8a3b7852262];[0x0;0xd1096c728c9ee;0xb0ebacf0ef3e3;0xed3758f115674;0x59356763e851c;0xdd40822453587];[0x0;0xcf297ac334aec;0x938a06ee0dbd9;0xab005ca39db10;0xe0c59793961bc;0x7c4bb4a511e]];
 [[0x71dca223671a0;0xa0d60b1ab37c5;0x7f725c1c822ca;0x7af271b1ac7ff;0x7b33be39380];[0x807689c0414d0;0xbc165276b0e64;0xeff6bc9abb0f9;0x391147d71353a;0x12e0e7946885];[0x7efd68468e268;0x48b6a26e0da29;0xdf2e1091b66d4;0xabd25eeb66e04;0x20b1a3333d00];[0x1f00a07bcd861;0xcc773fae7e099;0x1aa1fa9028ee;0xec2730e662b41;0x34caef79df35];[0xd0429979297cd;0xa671d58d2aa5;0x2cfb9c126057e;0xc9e9dffb75ffc;0xeaf7da96f176];[0x5fb89127d07fd;0xc2c025dfabc4;0x9c908ed1911d9;0xec6182921a984;0x3c025078c7b9];[0x0;0x80a8f54a54b87;0xaf5bdf811ea80;0x3104d4782a1ff;0xf111f384a1859;0x4b55fe04913];[0x0;0xe0bd422668350;0xfb67c70d56c3a;0x9bb17f6f763a0;0x9a7dede83d38b;0x1a57f6b37dc];[0x0;0x8ced3231ada00;0x29c8a256445e5;0x7865149fe1abc;0x21ad866526808;0xb94f59bf12];[0x0;0x26f4cd6c9593;0xfd8bb27bcba7b;0x9a5e870af06af;0xaed77a5e586a7;0xb5f8971d61f3];[0x0;0xa0dbcdadfcc6d;0x5ba60406a6a42;0x14f5b11bb82f8;0x7377283807a37;0x11b9ed7d736d];[0x0;0x5ea94861352bb;0x7191dbb1c910b;0xfb1dec1f1175f;0xd56c0f926e0e9;0x76e51d00c19];[0x0;0x2359bbc40c21f;0xcb272a14df5b5;0x85e785fbe46d7;0x824c46e0fcbf5;0xc833a82f526];[0x0;0x76a611c97f4b7;0x29bc06607270c;0x3b503e85b072f;0xa4ec2057cd161;0x850b9542d1a49];[0x0;0x3e2ef40ea1ea8;0x50e65b95c3488;0x3ad88756c61ad;0x255bae18d7e1b;0x535b32fbf8fb]];
 [[0x71dca223671a0;0xa0d60b1ab37c5;0x7f725c1c822ca;0x7af271b1ac7ff;0x7b33be39380];[0xc996b0cf9b1c9;0x9aa29b95b86b5;0xd9866cda8f680;0xf172aa051918b;0x946c19c4cf2a];[0x360a1e91c9b7d;0xcb8ceea936212;0x83a78eed49d6a;0xcf1d7b1e2eb56;0x2b4a30ec7755];[0x233d01952e1ea;0xccb4982c573fd;0x119fa3b25d857;0xe3f0cce9a07c1;0xeb4dd58ad3ed];[0xb79c0537f55e4;0x9e00ae0118f93;0xf4106e675c6a5;0xb1586c366dcdd;0xbcd000e5b63f];[0xf848b3e1eb055;0x4ee8fe7a1805;0x4525f49fc6af7;0xba5d45e70589;0x401d62b09c8e];[0x0;0x80a8f54a54b87;0xaf5bdf811ea80;0x3104d4782a1ff;0xf111f384a1859;0x4b55fe04913];[0x0;0x95d1a97a5ea1;0xe7f749b3b64bb;0xfc7c45d0bc9ca;0xed5a426737fa4;0x2032c2717b];[0x0;0xc01cb07f9b67d;0xc30a185c86fef;0xf79a6655d717c;0xd7f7c0f30729e;0xda11210d3d9];[0x0;0x23933ecd21b89;0x19b70570150ae;0x7468e98deb55c;0x6e0881d3f6e11;0x67b4165d2a5e];[0x0;0xbe8f054b413e0;0x8c48c18a2a582;0x471418d427dee;0x2ebbf9986e85d;0xa1a1e80637e];[0x0;0x8c3f17439d21f;0x3d4664e3c6325;0xee19a1f3803fd;0xb2ffe307b92d9;0x8be96ef2c39a];[0x0;0xd6090c088395b;0x1df17b8363139;0xc5e477b0aebd3;0xb2493bc28f4d;0x28461d20f1c8];[0x0;0xd346413f68ce2;0x8371f964102f9;0x9f8521cba0a85;0x79e5da87d0fc9;0xaa97da7147d3b];[0x0;0xc6cd3d537938a;0xb1f3e0cecaa91;0x14f1698729836;0x95ec633291228;0x2d1af0b0525c]];
 [[0x71dca223671a0;0xa0d60b1ab37c5;0x7f725c1c822ca;0x7af271b1ac7ff;0x7b33be39380];[0x80491b63bf44b;0x8111ca3a29ca3;0x5d73b62105be7;0xb094c54889a96;0xabaf177c110e];[0x28c244122ee92;0x836f6f3d9501f;0x7544aeb12d664;0x4d61756577b52;0x93e4f2066284];[0x1055500ff56aa;0x969b785493ca6;0x3921db5094fe0;0xc1036a0e1b1ca;0xac11b0b11a64];[0x8d927fe14212b;0x95b32318ec6c8;0xb40060ecac063;0x6addfbfb2bd7c;0xa81d2f056374];[0xa15d754783608;0x4e6a7d4c829b;0x6a81af6cf8e28;0xdf55b5ad89586;0x1fb74a7d3965];[0x0;0x80a8f54a54b87;0xaf5bdf811ea80;0x3104d4782a1ff;0xf111f384a1859;0x4b55fe04913];[0x0;0x3f4ea03b9f53;0xe7c9f7cc1e5ae;0xeb41c1d9c574c;0x48c5731c0654f;0x39d7a26fb49];[0x0;0x766f748b4ab8a;0x78a79a49fb6b9;0x1b8944f8e60a3;0x791e70d7b9bd6;0x5946a4da153];[0x0;0x1fed70cf3dbf6;0x7110f37ccfd10;0x7fcecab5f65ca;0x2b3bc00b889c4;0x891182c5e072];[0x0;0x4bf492c406363;0xfba7c9cdbe8d6;0x771e567d89917;0xb9f3203e6b26d;0xd5a29662007];[0x0;0x34994621352a;0x331b4d7fdb90;0xeda30e6618bd4;0xad4bf8f98e6d5;0x39478d546de8];[0x0;0xf2be5e444e160;0x8b0587316a5fd;0x8525d24c54bca;0x7cf9f6932f2b5;0x5a31d495ffda];[0x0;0xae489ba7fba53;0xf5eb53fb3ac20;0xf8aa9fcd3cf6;0xdc6805b010cf3;0x9e8e471d691bc];[0x0;0x7c7c10a44df51;0xfa32fb66f1d6a;0xb8ef7dddb4ea6;0x2faf35cec07d;0x519e1cd0e81b]];
 [[0x71dca223671a0;0xa0d60b1ab37c5;0x7f725c1c822ca;0x7af271b1ac7ff;0x7b33be39380];[0xac68a062690d1;0x8c1adad1a75c0;0x44f1e32197994;0x79039babe5538;0x90cafcaa88cc];[0x4942e107d420d;0x73dabf497f594;0x58a7f54c07e9d;0xe23a51e926ca2;0x8224034ce2dc];[0xd35cc6795ada8;0x7908752139465;0xf78ee6b528b72;0x860946e05b2e2;0xb845002870ec];[0xd9bb992bdb81e;0x9ddc9bfd8f7e8;0x991598bfee47d;0xd27d3f83b2d04;0x5b55edb8f93b];[0x5a1658f4900b;0xa3b1f5a3b6099;0x4cbf938acdb6b;0xfcfa06083db6e;0xf9c682be39d2];[0x0;0x80a8f54a54b87;0xaf5bdf811ea80;0x3104d4782a1ff;0xf111f384a1859;0x4b55fe04913];[0x0;0xc0e70200b3929;0xa10f4dbc15242;0xd1a903c1701ab;0xc9a29e6a98def;0x1ff78db8b5d];[0x0;0xb1cf57c68d219;0x4904dde893a9d;0x8e5cab791b2a3;0xf9d6cebff1acf;0xacd8c29e60c];[0x0;0x58e4fd0147ae3;0x87481ce94a42b;0xedbf57bfb333;0xefbdd27828071;0x801b00e020e2];[0x0;0x8b7937fe3a3ba;0x7286cf40fd4df;0xbce4417cae172;0xba3a7ce32e203;0xc7aa5cfc09a];[0x0;0x94dac62a8d630;0xb5de33f002ef7;0xab95f8300d1d7;0x4df6a75d80028;0x6ee6075e4c03];[0x0;0x47a1c70a2310b;0x80ac88a4cce14;0x25fbf7ca35102;0x2093a81d8168b;0x485f372f838a];[0x0;0xc15603c895e91;0x65ad26a7e026;0x49f2b855199e3;0x101e0988b734c;0x224174ee20fa6];[0x0;0x1e79457659fb9;0x1047c1f704a96;0x472aa75d0cc94;0x84b1dc984eea6;0x10ab620a088e]];
 [[0x71dca223671a0;0xa0d60b1ab37c5;0x7f725c1c822ca;0x7af271b1ac7ff;0x7b33be39380];[0xbae751f8add03;0xb1f938530b983;0xa37ca8958c9c9;0xe68c4213d6e80;0xae0e07eeb19c];[0x2a3488648a6af;0x666a8bddc0ebf;0xe03041c5d50b;0x9535f3a834b70;0xf0a44ea6f32b];[0x2ba405e141562;0x62ca4969f90b0;0x1a01c3aafdea1;0x9b14d31ffea1;0x7538a316e657];[0xf609fc89f352d;0x5c27ba6e80941;0x7a2eec2368678;0xa41e7dd359fdc;0xe4cd899b8cd0];[0xb7577878bb15b;0x96fb8f1c53893;0xf43b8d80c0d92;0x1b8ce031b1a7b;0x2b2f7cc58e21];[0x0;0x80a8f54a54b87;0xaf5bdf811ea80;0x3104d4782a1ff;0xf111f384a1859;0x4b55fe04913];[0x0;0x6ceff25906f8b;0xb48d45c73236f;0xaf6bb63bbcb15;0x7a6f77a00660;0x4d92635ea2c];[0x0;0xde9b56e5f887b;0x5c5db5c5780ba;0xfb07c219ab209;0x784e501de7452;0xa4731bce356];[0x0;0x786b1313e1529;0xb66c71838da45;0x748c66ee196a7;0x9420309821269;0x1b8003ce751e];[0x0;0x3882f7c319661;0x2682f71a2de2a;0x5fbddbf211a7f;0x972256817fbe6;0x2adc9517b11];[0x0;0xfb51671e55ca4;0x621beb179a88d;0x64db2074d586a;0x394dc256f8964;0x6982cfa63fb4];[0x0;0x194a29358f415;0xa15afe87e0b7f;0x89418a51f9cf9;0xd5cc88deb5729;0xa646da70fa4a];[0x0;0x151e1d547036e;0x3eb89d4a086de;0xd21a85079ef66;0x89fa421cd739e;0xd40b84161219e];[0x0;0x388056977b2f9;0xd380206a77c94;0x58890e5d6e383;0x701d7f6ec72d4;0xc6989b9bb55c]];
 [[0x71dca223671a0;0xa0d60b1ab37c5;0x7f725c1c822ca;0x7af271b1ac7ff;0x7b33be39380];[0xe0175f3a149c2;0xbb4e09e6cad30;0xea5f7d31abd6b;0xc543d50aeb663;0x49842276f2bf];[0x6cbeab9521181;0xb3910b052a24a;0x30b2060216d27;0x1e157195529b0;0x138b2619ae24];[0xe22900728d673;0xff391a6c56a04;0x39825fc903740;0xb7b682b5b847c;0xf905ffaec7b6];[0x19fb9cab7a187;0xf4f14158019bb;0xb59095bb9c320;0x1ed9fe62e7cee;0x4fb01e34d4b3];[0x8a2fb384a0e5e;0x1746fb7530152;0xfa5fa190413c5;0xc8d7a78b6d53b;0x5d86a3dadb11];[0x0;0x80a8f54a54b87;0xaf5bdf811ea80;0x3104d4782a1ff;0xf111f384a1859;0x4b55fe04913];[0x0;0x2213bf90bc4f2;0xbbc57f7085df3;0xa2656adfb6de6;0x66f8cdd0895bf;0x5f6f7bfa08a];[0x0;0xb2d7742e7aad;0xb7bd1b386f06e;0xe08d08caabbe7;0x98b2e07d73590;0x13a4ee1ea893];[0x0;0xcf3874d926dea;0x74553255e92ca;0x352cc5d426b22;0xd5797444af9c1;0xab6b5f9716ae];[0x0;0x9ac542fd150b;0x1af12fa203d90;0x8068bb2792298;0x4238123b44506;0x10b2cb87bd1f];[0x0;0xff1307acff5db;0x6f471e7f06d2f;0x7d23736caed66;0x59eec0ee55985;0xc9a90789a057];[0x0;0x39a96ca2d7959;0xb1a157f2aef04;0x57bd90bb8888d;0xa0f815be0c08a;0x2f808f0d4fb4];[0x0;0x385ff1e6a0f42;0xa8ffe9d2e36fa;0x3b947d0ccf147;0x3a6f9e6ee3811;0xddccac9924578];[0x0;0xdec4aca1d4395;0x1f3266fbb7c2e;0xb4ea1eaf4985a;0x1617e42002363;0x8933cade1944]];
 [[0x71dca223671a0;0xa0d60b1ab37c5;0x7f725c1c822ca;0x7af271b1ac7ff;0x7b33be39380];[0x8c40fde7ad741;0xfd877232baeb6;0x4c00e8d477037;0x4ffc14ff8d14d;0xfeb812cba5a9];[0x56e4a7755da4d;0x44178524335ba;0xa11bb46cde1ee;0x8e600e5db0e25;0x8f476c555df4];[0x72dc823d7cfb2;0xf15a2b0362bd2;0xdee7e4b5fb991;0xe876f44acfebd;0x1074d262b7f0];[0x6a1b881cb0b05;0x4c3ee3a7730b9;0xf191345030a22;0x50aed7247a93a;0x910f70ba80ed];[0xa3b54b3d4d03d;0x369a6243b86fd;0x35f91fa5af6fd;0x6c052c23fc107;0xde4ca46cad90];[0x0;0x80a8f54a54b87;0xaf5bdf811ea80;0x3104d4782a1ff;0xf111f384a1859;0x4b55fe04913];[0x0;0x9793b2f2fc7d9;0xabeb1ca8b09d;0x7144352082a09;0x20c4f8eb4ae97;0x6bf103109c];[0x0;0x3576cec5258e9;0xeddf5471a55b;0x78097e2bda007;0xb2fe35b2dde;0xd496cb5d8fb];[0x0;0x225dcea757317;0xcc196372154c1;0x17804d2087386;0xac842b7fa9429;0xaf1776f2deb2];[0x0;0xce52efbab1cb1;0x9077a5320d3f5;0x8dcc1e9e50922;0xc729e8fd66fd8;0x110e5f2ea1bc];[0x0;0xd32043a67e396;0xe1f37f61e86cb;0xcbd8134bb8f94;0x56a00175b5910;0x8865b1d617f6];[0x0;0xf5374bcd441;0x646b146561f50;0x8e27d3280c49b;0x56381c0e7b0c6;0x58353b85ffef];[0x0;0x547dd3718fbf;0xa5d85210183bf;0x45fcf55f5ed49;0x839b0a772068f;0xddfe5b09df679];[0x0;0x99a39b3c2bba0;0xfe7f951dd444d;0xb8a8879e9a598;0x546f3bb7eb71d;0x4cd9eaeb341e]];
 [[0x71dca223671a0;0xa0d60b1ab37c5;0x7f725c1c822ca;0x7af271b1ac7ff;0x7b33be39380];[0xaf064e062ec0b;0xe4c18fbfa8e93;0x9f498afbc581f;0xd71deba8ee89;0x8bcdffe58b31];[0xbe24ecee1764d;0xd2e6b1f49e8e4;0x913538e7891cd;0x21b9eb74ebe83;0x39a72642fe4d];[0x3393289117ea2;0xbd1ec9e8afaf6;0x374c3f26c1440;0x420f96f915fc8;0x82240709bbf];[0x8c343f139da68;0x89a675ca51114;0xd9cf288144996;0xbf9dd3c5c14c8;0xda3276d1ee7];[0x10ae186a9a251;0xc0de568824c4a;0xd009364f13449;0x79ecae783563;0xfab5c340d477];[0x0;0x80a8f54a54b87;0xaf5bdf811ea80;0x3104d4782a1ff;0xf111f384a1859;0x4b55fe04913];[0x0;0x95f301514a153;0xddcdd664d6972;0x7e2db8dda3ac2;0x658ca341a73ee;0x3f45bc2309a];[0x0;0x415e21e680f91;0x78e5e84d1786c;0x7dd9d31131eb6;0x14731cf2d8044;0x71ef4e1baa9];[0x0;0x5dc3e2caad9a;0xbefa6cf7a076;0x84f2c21014abb;0x7bcd01be6b979;0xb6febe3501a5];[0x0;0xfe12d70e40c48;0xb712d29bee238;0x5634bf571db2a;0xf48db7416a378;0x11d376f558ca];[0x0;0xbc558792249e4;0xb8dc8a7d2e46d;0x223c0636118da;0x3b84f516d9d84;0x4919c248c8a1];[0x0;0x22b42ca5906fb;0x429063a5f0fa2;0x66f46128ed60d;0x2d87973f2bcb4;0x3acc36e66e65];[0x0;0x5e10b6f1a084f;0xd11ad8323b184;0xed4d455897ea4;0xad39806244c3c;0x8f644ebe64b9a];[0x0;0xec7ae5defecb2;0xbdf6092d5cfcc;0x280e8557ad841;0x3a4fe113aa6e9;0x3aa48d35cf49]]]
 (V [0x6f8b1206f11be;0x6fcf21a94f45;0xa6ee590e391f4;0x3d2436c3f4908;0xc4b656a72a75] [0xc0a2095129e0c;0x3d16adda07cb2;0xb7a308e6b2c2;0x30c82d167d6fe;0x19358c457d8] [0x44e2e31fe6fa2;0x943176a2df0a6;0xbf34932aa0beb;0x5da1b4424573b;0x2e3871df7ea7]) [[0x5c578246342d5;0x38a70009c431d;0xb6792e61109ca;0x4c0eacb8a167;0xf7bd1eef201d];[0x84975e997845e;0xdffdf1f56aecb;0xb07e11e1ae38e;0xac87d4c06c18c;0x7643cdd97d46];[0x98a21eb6fcf96;0x391eef2f86213;0x2143a5f03546f;0x4bcde49d2efff;0xffb941cd05ec];[0x9e9c0882232f4;0x9e0b0d323937;0x6e109db73c1f3;0x3c27be28224b9;0xdedc7ad98bee];[0x1671dd4a3ea46;0xa42806c0fa18a;0x49018cb1cf18;0x6e05f38d3b54e;0xd351ae554719];[0x1fb10db12770;0x4a544a382e9e5;0x75bb5fb40e43b;0x5e335c6d6072b;0x6f07d23aa704];[0x0;0x9bfa654b19894;0x5f55201cc6db6;0xbdcd84c61fd7a;0xad94d14f136a;0x104f5c347c5];[0x0;0x4cb5cc3514ae1;0x69ff50643df67;0x4345f3b39c5c5;0x87178d52fc84e;0xf24a538851d6];[0x0;0x715f317ac8848;0x2af5e31c5136a;0xdfe2067a487f1;0x23c1f95a42a7a;0x7152a53cd78];[0x0;0xa30705248ab8b;0xdef5f95e76bb4;0x948d3b8694d8d;0x7902ec5ee7669;0x4b9b5ddcc235];[0x0;0x7b13b7e7caaa4;0x830de05286be8;0x75000e56d1774;0x13fcc15656d3d;0x92c3282223a];[0x0;0x7826f1818d571;0xc3194531606aa;0xf51306cc2c00e;0x7e7ca5067310a;0x3a614930e2ad];[0x0;0x66e802df39bc8;0x3d4c11799255d;0xe53d9ee9b257a;0xce4ec45b34bbe;0x5ae025d6dd88];[0x0;0x5e8dc1428481d;0xc36cef0998015;0x6c5f68896bcbc;0xbec165c4ffc22;0x1a0e8f4ac4b9];[0x0;0x71579f91135aa;0x1c375b954080b;0xabc5250ec1213;0xbbebfc9b83932;0x135ef3ff60b]]
 [((V [0xfe4e7c1a7a849;0x292c153ba5462;0xed3137069e2d9;0xbddd98eb5941f;0x650890ee0d95] [0x6b209f4ad8694;0x733fa02e2cbe2;0x545fedb3820ef;0x31a3800256d69;0x261a86b14eef] [0x1be19b0e52485;0x99f853e027556;0x45d3e6ae59e94;0xd16ab001902d5;0x5cf57cf3b83b]),[[0xc6490123cba8c;0xc07e2df41a23c;0xbda9250bc4d00;0xdb1af5d3ab91d;0x9d16c0d0e66a];[0x88fb9b667ecf3;0x90c61dce9fcff;0x317b3e6e3532c;0xa86a79084c48c;0xa1cc2ba56d7f];[0x44e2e31fe6fa2;0x943176a2df0a6;0xbf34932aa0beb;0x5da1b4424573b;0x2e3871df7ea7];[0x44e2e31fe6fa2;0x943176a2df0a6;0xbf34932aa0beb;0x5da1b4424573b;0x2e3871df7ea7];[0x60d648ea93ed3;0xa9e7890f56057;0xa0f7b1d7a2373;0x9c0a8c0615791;0x7bd8dea6b6a];[0x2825527beae21;0xe6de94bf49ca8;0x90838c9692fb8;0xc5fed0236cfa;0x9a0e9dbb0215];[0x0;0xa8a30340ec046;0xb040c6ae91524;0x1036879501d13;0xf1e5394d6fefd;0x1166650e10b];[0x0;0xf7df35bad1823;0xc2dfac02689a5;0xc4cb4e7aa8454;0xac9fbf844ad0f;0x1c5cb97fe6bf];[0x0;0x71579f91135aa;0x1c375b954080b;0xabc5250ec1213;0xbbebfc9b83932;0x135ef3ff60b];[0x0;0x71579f91135aa;0x1c375b954080b;0xabc5250ec1213;0xbbebfc9b83932;0x135ef3ff60b];[0x0;0x62edaaf15bdcb;0xe5fd2f57d0a1a;0x8a78c9e48f4fe;0x25a4d8f6ee0dd;0x27b8098f4];[0x0;0xc6f26fd9ece95;0x9d47947ffbc05;0x12579613453c5;0xa201946eb4e90;0x9727b68f4c08];[0x0;0x2978f98f4aa30;0xb92340464fab9;0x7780c3470ea94;0x6cdf787784ad7;0x3fdaf732ee52];[0x0;0x5f2827227fc4d;0x7ab4e8b78bb63;0xf1ccf48b3c7f4;0x12ea7ee4ed073;0x26faddf6e51ee];[0x0;0x2d3eb0aa705a9;0x8cc66c1f47dc2;0x78af586c2ef47;0x6dd6f43817089;0xf09bd8a8421]]);
 ((V [0x6895f8e92ef9f;0xb49f88f1c07d9;0x90e2085dd5f2e;0xd287aac897275;0x87009576764c] [0xdda203219676b;0xfbc4807ad8b00;0x87a825fc28ca5;0x4794d42a0937d;0xd4f798d4c68b] [0xe1de9818bd4a1;0xcb2ccf03499a5;0x5a6a0e8af349e;0xf2d35ea3112f2;0xa0921cfe6e44]),[[0xc9e66a737b1db;0x31db5d58133d5;0x4d976e68b3f60;0xcbe509e3d5d48;0xfc1283dc01fb];[0x88c69614e7e17;0x2d7360677fade;0xc826b625d98d3;0xe29393fb316d3;0x6feee65f21ba];[0x1be19b0e52485;0x99f853e027556;0x45d3e6ae59e94;0xd16ab001902d5;0x5cf57cf3b83b];[0x1be19b0e52485;0x99f853e027556;0x45d3e6ae59e94;0xd16ab001902d5;0x5cf57cf3b83b];[0x7ab8cfc55259;0x6fe9007b8745d;0xfd7516a388bc8;0xc5c424b98323;0x88fa20867353];[0x811b091892956;0xbd8a5febf8681;0xcab19f8250d0a;0xd63751af993af;0xe6f4c5d8ae67];[0x0;0xee4b98a432e54;0x233031121043c;0x642ad698bab53;0x851f275537cfb;0x22feb4fc6e7];[0x0;0xb2c696be1e6d0;0xeade976d2eaa6;0x54d977049fcd0;0x534afa46be139;0x5b886024351e];[0x0;0x2d3eb0aa705a9;0x8cc66c1f47dc2;0x78af586c2ef47;0x6dd6f43817089;0xf09bd8a8421];[0x0;0x2d3eb0aa705a9;0x8cc66c1f47dc2;0x78af586c2ef47;0x6dd6f43817089;0xf09bd8a8421];[0x0;0xbfffbea39ab61;0xef56d2c863e1c;0x8f643969aa588;0x24c3464722182;0x5abe2bc4651];[0x0;0xf92827323f5bd;0xeb3118e7e6137;0x3838c8eaf1a2b;0xadd271422413d;0x27dfc2a537a5];[0x0;0xd5a8b1da426d2;0xe22d4c9449fd;0xad64aff3d9e53;0xd120ad79d3afa;0x3b073cd602b6];[0x0;0xf0a6142b821f7;0x79ea687ad40d;0x42da81451bdf8;0x82ef600be944a;0xdc7530d074018];[0x0;0xabce6847f754c;0xb692c7d5b83ea;0xd12c6583a32f8;0xc5797b715b08f;0x704f0deedd31]]);
 ((V [0x25864611c520a;0x661fb36096539;0xb880605b9e7bf;0x6e7915122740b;0x38336ee8580f] [0x6e6dfcf656e25;0x129d6f7b96f2c;0xb875a6b6e69c3;0x821d8e1b8f07f;0xc87decf4e126] [0x62971ace4c273;0x433cead243dfb;0x77c9a09ca5ee;0xa7c65f847dd70;0x77c83bf749db]),[[0x8c06dc9bef6d5;0x102a17ee8a31a;0xfea3b014cf4d7;0x7834d4297839f;0xd80449414846];[0xadbbad58489d7;0x401862b0aad2f;0xefef3c3f214b6;0x51991ddd64276;0xce0cf331cb4];[0xe1de9818bd4a1;0xcb2ccf03499a5;0x5a6a0e8af349e;0xf2d35ea3112f2;0xa0921cfe6e44];[0xe1de9818bd4a1;0xcb2ccf03499a5;0x5a6a0e8af349e;0xf2d35ea3112f2;0xa0921cfe6e44];[0xe3bbfeae3acc2;0x6876f0ef328ad;0x54c1c2dc5d2cd;0xee32c489b2a4c;0x646b641ef6de];[0xc9ffaeaa0daad;0xd7a171c178481;0x9b2d7962c41e8;0x63665953b182a;0xa8756b1425d5];[0x0;0xd784e209d9aea;0x6ad97831162f0;0x4587f389c0f59;0xeca13f282bc04;0x3c72a48313d];[0x0;0xfb967b00fa92;0xbbbeb8ac86cfe;0xac211b6c4a49b;0x1b82e8d4b40a5;0x877df8b1bdb7];[0x0;0xabce6847f754c;0xb692c7d5b83ea;0xd12c6583a32f8;0xc5797b715b08f;0x704f0deedd31];[0x0;0xabce6847f754c;0xb692c7d5b83ea;0xd12c6583a32f8;0xc5797b715b08f;0x704f0deedd31];[0x0;0x9a820658d92a1;0x7a037179635cf;0xb38a03ebcbe3;0x2bf176421154a;0xb12b0498aeab];[0x0;0x53b06f915910c;0x41fb323582e84;0xfed3ac6694d18;0x2291c8ae7a6d2;0x47319da34808];[0x0;0xb75e436e44202;0x8d7cd38c1edf4;0x7c42c2255f9b;0xf461a4b9097e8;0x2d3c3b0bea7];[0x0;0x64754f6603bef;0x83871f44fcc90;0xdfb4eee327787;0x9ef70dfec506b;0xd4646c4b24890];[0x0;0xa9e53cea210d9;0x71e089b83b16c;0xedfd179add66d;0x9d26f95d27213;0x2c03d3c7d8f0]]);
 ((V [0x59cc5591f62f8;0xa7d3ecbf10d15;0xbad1fa83d28b9;0xd832b865d302;0x21c58fc538ef] [0xfe5d25f5f1c2;0x2fabe5bb9599;0x212d704de5607;0xdb6b7a01cf50d;0x81ff43ad89df] [0x4a5f12cc119d1;0x38749a0782875;0xc6392df9276a2;0x929736e847fdd;0x4ee332df47b3]),[[0xb890670f518fe;0x40046acac75a2;0x43efe12c33a2e;0x17ac47dae4d1;0xce8c07c9a2dc];[0x736a61fcbd00;0xf30f76ca249db;0x9ae37ee0367fa;0x2810fb47236d7;0x2c19817b180b];[0x62971ace4c273;0x433cead243dfb;0x77c9a09ca5ee;0xa7c65f847dd70;0x77c83bf749db];[0x62971ace4c273;0x433cead243dfb;0x77c9a09ca5ee;0xa7c65f847dd70;0x77c83bf749db];[0xeb46726b0bb90;0x9f73426d926b3;0x87a953f8a8cb4;0x8f62475e22704;0xed0e40187f7d];[0x1bf033b4bff08;0x539c345c92327;0x133a2ae78db46;0x98aeb3e900fd3;0x3f0b4162988d];[0x0;0x4d9a00c8049b5;0x8bc4573cb0626;0xc534fc71cceb5;0xcbd9fa001361c;0x2d17bc15bdd];[0x0;0x6489ecbb746f6;0x2485f01f77e7c;0xd6e7553fdd3a5;0xa4069f3f2164f;0x60a4a5669ab9];[0x0;0xa9e53cea210d9;0x71e089b83b16c;0xedfd179add66d;0x9d26f95d27213;0x2c03d3c7d8f0];[0x0;0xa9e53cea210d9;0x71e089b83b16c;0xedfd179add66d;0x9d26f95d27213;0x2c03d3c7d8f0];[0x0;0xfdd9ec1dab39f;0x7b8a8f88a0762;0x1c327c72f1136;0x7446363b1342b;0x9d05002fe244];[0x0;0xe3b0b28e98504;0x600736fb9cee6;0xd23bcf547982;0x5507faa93cdb2;0xc568adb0726];[0x0;0xff7b42b5540be;0xf265a8d91e03e;0xbd796ed86d9aa;0x195e74baae487;0x5d15215ba96];[0x0;0x98e5b3bbe7a7;0x69646630f60f4;0x58ae2b1d67f94;0x120c78054cb7c;0x88b8eab369543];[0x0;0x993cc287744b9;0xf15a546553b07;0x6d119975582dc;0x3416909a3f12e;0x11263a2a3077]]);
 ((V [0x16f86e152a7c;0x74ef7ebbad697;0xe2303e98b02e;0x44f50699192fe;0x73b6dc4b25ed] [0xe1e63ac54bd71;0x461cb3bcacec9;0xfa37b5dd052dc;0xfb220812eba3e;0x44211c23c4dc] [0xed72f260633ff;0x35567d60793a8;0x2e853b91b3788;0xd0a63421ac1f2;0xd398b079ac7b]),[[0x3c52c1b0a1527;0x7b97eb8a77972;0x76f736f27c6a9;0x7abd0b682de6f;0xba5e76bc39bd];[0xdf7bb16da74be;0xc21161c1bb316;0x15f0af5616b17;0x17db4683096a4;0xf717ec90617f];[0x4a5f12cc119d1;0x38749a0782875;0xc6392df9276a2;0x929736e847fdd;0x4ee332df47b3];[0x4a5f12cc119d1;0x38749a0782875;0xc6392df9276a2;0x929736e847fdd;0x4ee332df47b3];[0xfaf0eaae4616a;0xe9320bbd97876;0x60bda5ad5a8;0xde8f9a7dd8899;0x1814c71f3ea4];[0xe48ac6bf61355;0xd8df560423a9f;0x158ff1b06956e;0x394bac0530e0b;0xdf03257122da];[0x0;0xaa89d092b24dc;0xa94779fe1329c;0x2dc5fba1c3f56;0x7d4350eda5f34;0x1db29a82cf8];[0x0;0x58f5c2a103ecf;0xc62ae62ed772c;0xc820d3cdc2101;0xd59ec2a07d00;0x396e2ef9a22c];[0x0;0x993cc287744b9;0xf15a546553b07;0x6d119975582dc;0x3416909a3f12e;0x11263a2a3077];[0x0;0x993cc287744b9;0xf15a546553b07;0x6d119975582dc;0x3416909a3f12e;0x11263a2a3077];[0x0;0x4f3f33e76;0xf677694f21462;0x9958e570dcc40;0x92e840bd10435;0x420340bcca90];[0x0;0x6dd189d320dcd;0x777f55d903b65;0xef9bad305f146;0x2ef25ac66c768;0x47487876ef5];[0x0;0xbec3b1513086e;0xcad1e4d411daa;0xaad9147ffdcd8;0x430dfa29228fd;0x6fb03ee8225b];[0x0;0x465ba92f8aa2;0x3d3c8f622391d;0x843690ae2faec;0x9b0fd7a36d083;0x444708e4b1601];[0x0;0xb3bbdf36b4ecb;0x331f91554857e;0xc6fa56c3ae8d;0x23a5a1dd33c3f;0x1ecb89ce86d7]]);
 ((V [0x1f1c43b66ea81;0x948502fb0ccba;0x90be1f36b461b;0x53191beead8ed;0xa833ef6bd2ef] [0x92592f85eeb43;0xe0a0a7b6dafd4;0x21f301822ab6f;0xadccb6169dfe2;0x4e171d845550] [0xa19f3ff045bca;0xb3863ab4cec46;0x3490cc79fdb8d;0xa04c49a89c6e2;0x3c93ad611eaa]),[[0x4a8d348697ada;0x3d3c57ad2b3af;0x858d2321e930;0xd04df0924ff80;0xadaaf6795b10];[0x71a784f7d6e4;0xc3c80a4426cb8;0xbdfacfb026084;0xb64d2ccfffab5;0x98cef9fa9c7e];[0xed72f260633ff;0x35567d60793a8;0x2e853b91b3788;0xd0a63421ac1f2;0xd398b079ac7b];[0xed72f260633ff;0x35567d60793a8;0x2e853b91b3788;0xd0a63421ac1f2;0xd398b079ac7b];[0x9d679e2db648a;0xc24e153d0b2a8;0x7ebabffdab00a;0x3ca4f8439239d;0xf0305a1a4178];[0x69b2da21c6ff2;0x179f5071ba0f;0x3f400fb27b07a;0x79a8348c6d718;0xa89e9fe05b06];[0x0;0x27eee57b4338d;0x74fe97951767;0x7dfcae6e40959;0x8b444d6a7092d;0x4fa820ae819];[0x0;0x667cea45ca80e;0xcbfde41a9d121;0x22bd30f3d38c7;0xb7ed23b18499c;0x8f8b7e607261];[0x0;0xb3bbdf36b4ecb;0x331f91554857e;0xc6fa56c3ae8d;0x23a5a1dd33c3f;0x1ecb89ce86d7];[0x0;0xb3bbdf36b4ecb;0x331f91554857e;0xc6fa56c3ae8d;0x23a5a1dd33c3f;0x1ecb89ce86d7];[0x0;0x370cb7fdd5c41;0x1546ac6ccdd85;0x58186a2369d71;0xfe7295cf5e6ee;0x12219b3b44e5];[0x0;0x714a7e6b88492;0xf4c75fa10999c;0x947944ecde231;0x58913d7ceb116;0x344dcc897c7e];[0x0;0xdf7bbe032d2b1;0x1adc1946dcf86;0x523a0e9ecaf26;0x6c9fb937aec12;0x6466d431db6c];[0x0;0x41f58356ee83b;0xcd7f46a0a0eb9;0x479b245387bb4;0xb54ac2182a043;0x500ec19686931];[0x0;0xaf164a0f1a9ef;0x3a5e72545a33c;0xdb14bede88327;0xca3b3622bdc4b;0x334f030231e9]]);
 ((V [0xdd3004d117445;0x31842d25c771f;0xfbe97ad904f06;0x783a57786e9f0;0xa699dc1cfcc2] [0xaacf22be752e1;0xbb29584b378e1;0xf593bf26795d1;0x3d9e71d6169de;0xf49d6601d7ac] [0xc5cc6118799d2;0xa56cf1089de0f;0xdba056fb39396;0x1cd10cd0fb8c0;0x9599cd0fae87]),[[0xb3163c26383be;0x2bfa7d1bbf73c;0xf1591cc814839;0x4d31adcef58f4;0x587b6e1fbc8];[0x8fd4577786d14;0x7e844a8efd185;0xde9aba3a8963d;0x3b76b2b137b25;0x9d0c3aa2195];[0xa19f3ff045bca;0xb3863ab4cec46;0x3490cc79fdb8d;0xa04c49a89c6e2;0x3c93ad611eaa];[0xa19f3ff045bca;0xb3863ab4cec46;0x3490cc79fdb8d;0xa04c49a89c6e2;0x3c93ad611eaa];[0xcd29fd4886b29;0xd708b2171bbe4;0x519482107efd4;0x2c47632e14999;0xa77a41901d30];[0xc2aa5a2efff83;0xa77b9877e15a0;0x8d06382a0a668;0xf2f4f832318c;0x6256821a0465];[0x0;0xe58a0f32f2330;0xbb5ea4d85a209;0x77c0d804ea820;0x6d8a907d15b7b;0x16cdf540d94];[0x0;0x4fd01cb0dc0e8;0x18d6157cad544;0xde0c4dccb709d;0x1fe72114adc6d;0x14eff89ca73];[0x0;0xaf164a0f1a9ef;0x3a5e72545a33c;0xdb14bede88327;0xca3b3622bdc4b;0x334f030231e9];[0x0;0xaf164a0f1a9ef;0x3a5e72545a33c;0xdb14bede88327;0xca3b3622bdc4b;0x334f030231e9];[0x0;0x7042d4dc166a0;0xf114ec0640987;0xe6ec992631d3e;0xbe2458c0c98b2;0x17d21812f52b];[0x0;0xd704663c5a232;0x9526410746308;0xb0ee8f2cca1a6;0xa9b0efb0421b1;0x6e8434c6c9ba];[0x0;0x1f17a156f8233;0x29dc111b96beb;0x7c8a06d4deda4;0x67a3459737159;0x6634515c721];[0x0;0xecd9390e67851;0x23d52e43b14b3;0x6fa9ea1a2970f;0xc653337bec18d;0x3512c2afeb0b;0x1];[0x0;0x738df5a8c8625;0xd0bd0acc2ba39;0x467826d29001;0x1603d20f4a9eb;0x9f31148a1f59]]);
 ((V [0x918758c77fe1b;0xd3c8e2d1ff5a0;0x74d080eba7213;0x43eabb0d18773;0x52b95c966d87] [0x3694c1b140f22;0x98b79d3c75658;0xa27c2fe606112;0xbe2fd30cd5e71;0xbcaec1f63b7e] [0xf653a0c9e03cb;0x26b7acf7502a8;0x97168866f2017;0xbcc434ad928a3;0x8754120a326a]),[[0x3b69bc2ba26c5;0x140eab01c1504;0xb87aaace8863f;0x7c9314039fc28;0xdbea5e4476ea];[0xe7b884cd2498f;0x8e22d8ba43b04;0x6b174e95881e4;0xab5b422d6e286;0x18d74c3b007f];[0xc5cc6118799d2;0xa56cf1089de0f;0xdba056fb39396;0x1cd10cd0fb8c0;0x9599cd0fae87];[0xc5cc6118799d2;0xa56cf1089de0f;0xdba056fb39396;0x1cd10cd0fb8c0;0x9599cd0fae87];[0x803f958bf3d9f;0x50394b3cef7ed;0xc05d7ddabaf9a;0x5daeb70263d52;0xea300cfacc16];[0x6778ef4130988;0x3de98d7d54317;0xaab9d0bacd24a;0x4dac8b2b0a533;0x2ea73f403469];[0x0;0xb4520fdaeff07;0xe769be72e0e52;0xa5c1e73a853c0;0x4eec982d6471f;0x38516fc8c7a];[0x0;0xb8dcd143d6ead;0x3c21bad1b91e;0x5714d73397c02;0x434e42a331f51;0x808388185647];[0x0;0x738df5a8c8625;0xd0bd0acc2ba39;0x467826d29001;0x1603d20f4a9eb;0x9f31148a1f59];[0x0;0x738df5a8c8625;0xd0bd0acc2ba39;0x467826d29001;0x1603d20f4a9eb;0x9f31148a1f59];[0x0;0xc5395aa261d2e;0x9f2876a0f54fb;0xa9f2bad012bac;0x569a437d3d0b4;0xe9bc6b39ca08];[0x0;0xb6554673a8b97;0xa66be2210130c;0x1dfffee33de2;0x2a15e1eac0f1f;0x6c6be5ee6fb4];[0x0;0x20611e81eaf54;0xd1306ba496965;0x618dae82cd8bf;0xeb7baec1dbb57;0x806f2fcf4f8];[0x0;0x2504a1c42c02c;0xf0ba0a33a59c;0xedc6e38572820;0xe17f3f9e3ec65;0xc754bd03699d0];[0x0;0xbf542e19254ed;0x752f21d53f9df;0xda0505f2b039a;0xd5f80952a2b50;0x3cf898a8b6d3]]);
 ((V [0x3d204be80fd6a;0x51d7e17f547fc;0x8a4827c571a08;0x7a55c492601d7;0x8a093fbd8294] [0xe001cf21c0a59;0x5d3107ed01bbe;0x923c9d78f9279;0x89b251e462c82;0x43a5e71d7313] [0x86fbb714b1b4b;0xee1926106bff1;0xdec980037e5e8;0x33a2a047ed6f8;0x68780dd01f9b]),[[0xa921552bbdabc;0xfd5c79e84a203;0x4b96aadf7021;0xb080184a2bd4e;0xe12bf7349715];[0xdc8f262beca84;0x665913be6d665;0xf6df881ea1a0d;0x300fdc34f823f;0x331770e75cb8];[0xf653a0c9e03cb;0x26b7acf7502a8;0x97168866f2017;0xbcc434ad928a3;0x8754120a326a];[0xf653a0c9e03cb;0x26b7acf7502a8;0x97168866f2017;0xbcc434ad928a3;0x8754120a326a];[0x1b0eb33acc3f8;0x6d98f4e2aa800;0xe4e90e9533e9a;0xf019ec5dfb748;0x737de1c92462];[0xc18072f120424;0xf8c01edbc2e65;0x11f679896db72;0x3ff5efd6fcaf7;0xbf998f1e3855];[0x0;0x72d7c513033bb;0xb87555d65e503;0xd6c0e4ca952b8;0x544a493f5930f;0x32f1f7c841c];[0x0;0x8e36980f0b9f0;0x48a85cee0e33e;0x68e2eef75421f;0xd66462eb44a6e;0x770821a7e85f];[0x0;0xbf542e19254ed;0x752f21d53f9df;0xda0505f2b039a;0xd5f80952a2b50;0x3cf898a8b6d3];[0x0;0xbf542e19254ed;0x752f21d53f9df;0xda0505f2b039a;0xd5f80952a2b50;0x3cf898a8b6d3];[0x0;0x14e3e391e1154;0x6cb643bccebde;0xb6a337a378bb7;0x3a2c472b0a2af;0x8b11242de510];[0x0;0xbbefbecad5393;0x40ef4e0e2097c;0xf88c5bbeb09c4;0x6c204b47816ce;0x1abb45875111];[0x0;0xc2e630c5126e4;0xc4764437f951f;0x7314ee821c061;0x605011bbb96a5;0x1b8c7b684744];[0x0;0x1a22ca84fb05f;0x63f06c5b04c8b;0x963d37e766c56;0x30bc293112a53;0x470841a2c4a69];[0x0;0xda236d3a11c9;0x72acc0d616768;0x229ff8ca56049;0xef94075b74e21;0x2479e042e7ee]]);
 ((V [0xeb7952bc6b386;0xb863f6225321d;0xe3ee5319ed1a0;0xe6d12a49670e1;0x50ffea3c9fb2] [0xe4b295388a02c;0x913b928042bdd;0xcbf23570bca66;0xee51a16dff6d1;0x1f21fdbb978b] [0x492d7912a2ed0;0x36622b07d91fe;0xbfd1eeead1120;0xeecf0f1eaf1ae;0x95a565fad3ef]),[[0x38611e749e985;0x7f00a4450008d;0xb3ccd345ca049;0x875155b41445a;0x31aaa9f3790b];[0x86699183e97ec;0xa1aa3d217ac38;0x17c9226ee7b58;0xe9feb4ec15b5c;0x685e2975e30e];[0x86fbb714b1b4b;0xee1926106bff1;0xdec980037e5e8;0x33a2a047ed6f8;0x68780dd01f9b];[0x86fbb714b1b4b;0xee1926106bff1;0xdec980037e5e8;0x33a2a047ed6f8;0x68780dd01f9b];[0x648fa18494a09;0xd08389e873c83;0xfc6f61fd61f23;0x830689a16dad1;0x65598402120];[0x21d9efff54de4;0xd126b33906fb5;0x1b59c07185c34;0x66f82b4aa808a;0x62089135c1ee];[0x0;0xa640e5839aa9c;0x98d99ee69a701;0x38e6082fd6ac3;0x7d768c8939093;0x2753f597fde];[0x0;0x34f1827496ad;0xb9201eb341ede;0x47e47062b2dbb;0xa6465734c3413;0x14449fb89eba];[0x0;0xda236d3a11c9;0x72acc0d616768;0x229ff8ca56049;0xef94075b74e21;0x2479e042e7ee];[0x0;0xda236d3a11c9;0x72acc0d616768;0x229ff8ca56049;0xef94075b74e21;0x2479e042e7ee];[0x0;0xbe6b048d7eb58;0x94017b218fa77;0x3ad0fe3d996ad;0xba535f62ad80c;0x11e0427d26d8];[0x0;0xc89fc5455ee00;0x6f3750cdb25d9;0xcda14190a2303;0x14e438039dab9;0x4a6df90ddbfa];[0x0;0x146f4977d6c48;0x95f95bce0fc37;0x897c0e4012f2a;0xb97a71fceda11;0x2105c23eec74];[0x0;0x6b016e8b6e3fc;0x1699771f61ca5;0xe8c272e847bdc;0x5ee93f538a838;0x2049096dae80f];[0x0;0x90ce75c8a6c88;0x78093db4de930;0x7489729a7c902;0x7da53bcf1e8d4;0x9d9bea2ce88]]);
 ((V [0x1fcc975dab525;0x8b91506812ee0;0x6ac55516d3736;0x917f2cf539c80;0xfe7e54a73241] [0x55ca63219ec12;0xae6967a27a998;0x640656350048c;0x632f56eb3c13c;0x12bcce907a4f] [0x66f3d0cfb05d2;0xd6419824704e0;0xa288f6abffe48;0xb30ec74f4f62d;0xe6ef2fa4ddb7]),[[0x9b97b8caed1c1;0x46e6e163969dc;0x7f8fb89bd3ad0;0xaa916efab0537;0xc7bae3908a27];[0x7740b7fec2720;0x9f3d6162f765a;0xcb87d9af1b384;0x9f7777ce11bad;0x1bebb3c8ae58];[0x492d7912a2ed0;0x36622b07d91fe;0xbfd1eeead1120;0xeecf0f1eaf1ae;0x95a565fad3ef];[0x492d7912a2ed0;0x36622b07d91fe;0xbfd1eeead1120;0xeecf0f1eaf1ae;0x95a565fad3ef];[0x4cf5b961780ad;0xf080e4b6ab4ac;0x13de3fab36ad2;0xf9c156cb12820;0xf3414866970c];[0x2a4afe9d4a40b;0xaebc7cac4c1ae;0xb7a99a03e48b1;0xa5b62102ff38d;0x28aa6b62174b];[0x0;0xc8b2e46dd7129;0x8839998ed6f45;0xf09e780113718;0x8932fea3483d1;0x3855cd73937];[0x0;0x5bc0b895b7fd0;0x1d4a1e25f4f5d;0xb98335d40071f;0x9edc07a655cc1;0x74c0d1783a36];[0x0;0x90ce75c8a6c88;0x78093db4de930;0x7489729a7c902;0x7da53bcf1e8d4;0x9d9bea2ce88];[0x0;0x90ce75c8a6c88;0x78093db4de930;0x7489729a7c902;0x7da53bcf1e8d4;0x9d9bea2ce88];[0x0;0xf0ccc56804295;0xca4d52fb8c32d;0xf997b0629207f;0x48cc8b56262e7;0x3c93ff6d48d];[0x0;0xe679e2676efcf;0x186e2c4cb8a1d;0x1582d6d95cf8e;0xd8f8dc9269bbc;0x19a0f23a5ee8];[0x0;0xe0a71f83b18a3;0x7f1afd5ea4a96;0x2288e5df43cf0;0xeca0d7a57fe4;0x1bc1a39f2cfd];[0x0;0x3db21109b9d71;0x282ffed413167;0x468288924704f;0xb87072ff32338;0x13c7e8d548f0b];[0x0;0x1681fd2742c78;0x66dea926e549a;0x970777d7b9ffc;0xcccc8a66aeb25;0x12a094133516]]);
 ((V [0xefc12f0c12c97;0x9b56f50f0a;0x87e85e25309c0;0x4a626b0ccccb2;0xae03fd41cf41] [0xab3be87aa2ea9;0xc4de613e96009;0xc4c218ade77fd;0xfb1d12598503c;0x172e5c15d17f] [0x602cdb527a5be;0x5095ed35d8703;0x25861c9b6adc2;0x6781f7211ee55;0xbb5d1b8d7d29]),[[0xfcbc7e4e6404e;0x4483ce0650eb7;0x7c42ac3aa11e;0xfd5ba034ff0c1;0x32e688e38a47];[0x2c37ac1aa76b2;0xe491232e7f487;0xa724af8993e6c;0x372281d87f9dc;0xfa1e8bf94c67];[0x66f3d0cfb05d2;0xd6419824704e0;0xa288f6abffe48;0xb30ec74f4f62d;0xe6ef2fa4ddb7];[0x66f3d0cfb05d2;0xd6419824704e0;0xa288f6abffe48;0xb30ec74f4f62d;0xe6ef2fa4ddb7];[0xe34b43fe8b747;0xbe7284a83049f;0x60c9248cd9eb9;0xeb437cf60449f;0x5c3da18c2c58];[0x48ec681c1bf6c;0x261e9e864efe7;0x465b8afcb9fb3;0x4bdf04e27b53d;0x9de0ea6d200e];[0x0;0xb0d5ee56bf528;0x8d7a0b7842522;0x475a22ce74aa3;0x7ffccae3469d2;0x56efc5966bf];[0x0;0xbcf97b9604846;0x36f5189b0b10e;0x65276cd9f5b6a;0xc9901317de615;0x2deaadaf5591];[0x0;0x1681fd2742c78;0x66dea926e549a;0x970777d7b9ffc;0xcccc8a66aeb25;0x12a094133516];[0x0;0x1681fd2742c78;0x66dea926e549a;0x970777d7b9ffc;0xcccc8a66aeb25;0x12a094133516];[0x0;0x7f672bb3b9f8b;0x76f7bea0f74b0;0xebd269272400a;0xa4eded20463ed;0x15f184c5c13];[0x0;0xdfd5a238c0f1b;0x20c16bf96df52;0x6d72180468daa;0xbb71394bd71c4;0xfcfeee53384d];[0x0;0x31d50442d3b7;0x7089ac187f0d3;0xb146812ad746;0x751a9d2d8db24;0xaa04a8ef926f];[0x0;0x76208bcb75bc;0xe4e8ad6ba8738;0xa4a75af3b431f;0x9ebf871e0f99d;0x1736e136a1157];[0x0;0xc4935db223b7;0xa43e822e2552a;0x148a9cefb9397;0xc8bab67a52a28;0xfc1df10af31]]);
 ((V [0x424a1ed8d5a0a;0x2fea82f21f9;0x354bf72857cf6;0xff951cce4e9c8;0xd3664a18a80a] [0x8996072057fc5;0x7fa7854e4e52e;0xd11f202949b81;0xa567eb0edb07f;0x6ddefb82b0c9] [0x9503b44e6d66f;0x2bdd5d6a1fc0e;0x92016e0cc4250;0x884074b0fcbfc;0xeebf5745f991]),[[0xcbda57607154b;0x5dcece380eb23;0x9eb29ca3d867d;0x74c5a174e8ecf;0x6fbc26badc5f];[0xaa2e584732253;0x8248837bc301;0x194588d135955;0xd3b60be052407;0x9e92f56955ad];[0x602cdb527a5be;0x5095ed35d8703;0x25861c9b6adc2;0x6781f7211ee55;0xbb5d1b8d7d29];[0x602cdb527a5be;0x5095ed35d8703;0x25861c9b6adc2;0x6781f7211ee55;0xbb5d1b8d7d29];[0x275cbe1f39ba5;0xc02ae8112edd7;0xb42057aa75abe;0xebb45ada3ff2;0x8c842794dce2];[0x82d19a27f86af;0x47f9a0268d52a;0x65253126bfe96;0xc4fac632ae414;0x120ecdd478cb];[0x0;0xd3ae5dd5dafd9;0x2fbeccff15f85;0x6341e5b09a74e;0xdc68af0dbc95c;0x4688c08d05c];[0x0;0x945f58e593941;0xca591ef4f6152;0xead0c8e543de1;0xc45c1969cebc0;0x51c713ab2a33];[0x0;0xc4935db223b7;0xa43e822e2552a;0x148a9cefb9397;0xc8bab67a52a28;0xfc1df10af31];[0x0;0xc4935db223b7;0xa43e822e2552a;0x148a9cefb9397;0xc8bab67a52a28;0xfc1df10af31];[0x0;0x71feb800e84f4;0x313554cb6f23b;0xb7e0c24204221;0xf98d7eacfe086;0x2195cf1249b];[0x0;0xe24738cc1c8ee;0xd7cdddb30f987;0x5ce999584ada7;0xc1377bccdd34a;0x76496c555fd2];[0x0;0x2d6ef6d28dc14;0x5f5c5109c92bf;0x2de6435681089;0x1e8123fd23d75;0x82f27cb95a65];[0x0;0x812756417a594;0x22396c906186d;0x4c3f8eefc0f5a;0xd4f55eb338436;0x707c001f407cf];[0x0;0x29b5eab697f35;0x2899f6f0cf8ea;0x44b0e5b6d8e54;0xc7c1da82e676;0x5abaaff1f783]]);
 ((V [0x9af9838ecfb1b;0xd441b17d477ca;0x48e262f8d89b6;0xf37f350fcaf50;0xabc18334149] [0xb6dbf484e8b3f;0x37d90baf94405;0x9b41b4d41b7b0;0x39134c5307074;0xab91201733fd] [0x957ddeb2a15e1;0x24add616c8137;0x88f981efe4292;0xb8c54acfcee8b;0xfa29c4f27d43]),[[0x930557d665082;0x6ad15341aa27b;0x655987a8b3cdb;0x8901a6d7ca571;0xc4524b9a2a6b];[0x9e4b186bdcb76;0x1b66a7d21636a;0x7432d723dbde9;0xb08c755bd5c57;0x2a2a3c63d98c];[0x9503b44e6d66f;0x2bdd5d6a1fc0e;0x92016e0cc4250;0x884074b0fcbfc;0xeebf5745f991];[0x9503b44e6d66f;0x2bdd5d6a1fc0e;0x92016e0cc4250;0x884074b0fcbfc;0xeebf5745f991];[0xb26411fc8e8fc;0x30888abf1c7e2;0xcd1475dd20172;0xab352727f7dd8;0x631b5482322f];[0xebe7066f4e012;0xeade1d12f9b87;0xa71e6146bbc76;0x5574e33dde7e;0xc70ee7e1a75d];[0x0;0x5d3472ec8bba5;0x570277a77b100;0xf0470077a0193;0x40355134dfbe6;0x59e0bdf9555];[0x0;0xa13b02469eb58;0x2dc9849fb60a8;0x7d22bbeddd0dc;0xb35a7b2072b1;0xb7173e9d5cb9];[0x0;0x29b5eab697f35;0x2899f6f0cf8ea;0x44b0e5b6d8e54;0xc7c1da82e676;0x5abaaff1f783];[0x0;0x29b5eab697f35;0x2899f6f0cf8ea;0x44b0e5b6d8e54;0xc7c1da82e676;0x5abaaff1f783];[0x0;0x5fa959d03ddeb;0x98e19e7370b29;0x736fb433875ea;0xddf8cfa1fb069;0x2f27a466784f];[0x0;0x34bc8dbba687e;0xeb6fbe1656f5f;0xdf701ee127b0c;0x4d99c46f9a85f;0xae91c703c61a];[0x0;0x414902e51fba9;0xbb222b8207c6;0xff387d92e4f7c;0x8dfc4909f42a0;0x1c4a15ca6a7];[0x0;0x5e76b9c2fa28b;0xb77046536355d;0xa1740d9703b1;0x9053f5af468b6;0xb486103fe7309];[0x0;0xb16415bc037dc;0x68c836abb1287;0xb7fbfa6a4a723;0xc67d0c92af92;0x731ba0c6dbf]])]
 [[0xea7b4aec52803;0x504a9c7e02547;0x45f350d8b0117;0x9cb764b4c85c0;0x1b99917ccc80];[0x7b2269f55b30b;0xcfe4a758c00fe;0x24e74fffdde5;0xa38582539c41e;0x94e2e7ccbadf];[0x957ddeb2a15e1;0x24add616c8137;0x88f981efe4292;0xb8c54acfcee8b;0xfa29c4f27d43];[0x957ddeb2a15e1;0x24add616c8137;0x88f981efe4292;0xb8c54acfcee8b;0xfa29c4f27d43];[0x49a6f6638a8e1;0xfe839ab992c96;0x42abf3ad528d5;0xff6a3908d0f13;0x7280e89989bb];[0x317b7391d0a2b;0xd1610c9f2d468;0xbfa28152ab50f;0xa41b494acb50a;0x2261ff333123];[0x0;0x4f4c9aea32d28;0x28f405241a1f;0x5fe033e313a7c;0x4c03a205fa11c;0x5e2ce863be3];[0x0;0x615449a908128;0x81927bb4a0a3e;0x403cc0986e74;0xb756a49c00d35;0x1af878e7e4c2];[0x0;0xb16415bc037dc;0x68c836abb1287;0xb7fbfa6a4a723;0xc67d0c92af92;0x731ba0c6dbf];[0x0;0xb16415bc037dc;0x68c836abb1287;0xb7fbfa6a4a723;0xc67d0c92af92;0x731ba0c6dbf];[0x0;0x1f4c1598b0860;0xafbcbec759863;0x8acba96987b31;0xfe3420275535b;0x72fb33245dc2];[0x0;0x1f4e97a37c82;0x428010cacb2fb;0x5aba0421cb79f;0x522484c0acb2b;0x733c178eab];[0x0;0xf1042fc2dee9a;0x52c0b11986f09;0x4fd056696e2f1;0xf7af41b7198ae;0x78774de9ec4b];[0x0;0xead7c3aff451e;0xce0d2ecac1cb6;0xa4df29aad507f;0x5fb12e0b22758;0xb8c5038b2a20e];[0x0;0x2722eb440e4c5;0x1eb73deb58034;0xd2f318d0ee645;0xf3aae3d508771;0x91b0940b46b4]].
Definition wit_256A_64_2 : colwit ept wit := mk_colwit (V [0x183c7a0fc79db;0x70236a87efe75;0xcafc0f28cc303;0xc32a62e9b4a3b;0xb01b9ebe5c70] [0xbb9587efbcd4f;0xfe4a88c00b295;0x37e45018b2e24;0x3d747103adf10;0x7a03c3866777] [0x4368723bb2432;0xc801257fcb171;0xef5a1f67d658b;0xe359f27abdf5c;0xc7b81d453ff7])
 [[0xdd5c212002d5c;0xb8bfd3d4597ec;0xb360487379c82;0x34463e0d1880b;0x4e5190e64716];[0xaa7a5672efb2a;0xef178d92bd2d3;0x9a0c534111ef4;0xa99570c8f157d;0x9f352f8e4b45];[0x54ff768f9ca3;0xc3d9e4b66b860;0xbefc89e545901;0x7c66ced56376a;0x93657737247e];[0x54ff768f9ca3;0xc3d9e4b66b860;0xbefc89e545901;0x7c66ced56376a;0x93657737247e];[0x34c42b3fa4233;0x172d3a32cfe87;0x56f9e739f8b75;0x36a9f74169549;0xba30e56fc353];[0x75b62b334b68f;0xd7ea535fed44c;0x43126c071937f;0x72eb798788034;0xe5044a1e87f2];[0x0;0x28f19a91500d3;0xc0ea26b235dda;0x9a22578978ee4;0x5ee79b80abead;0x377cfd3ec71];[0x0;0x3893ed7ca7e26;0xa51e18792ddfa;0x6fdea039e6872;0x22e036b62f876;0x2d17e0db2eb7];[0x0;0x2722eb440e4c5;0x1eb73deb58034;0xd2f318d0ee645;0xf3aae3d508771;0x91b0940b46b4];[0x0;0x2722eb440e4c5;0x1eb73deb58034;0xd2f318d0ee645;0xf3aae3d508771;0x91b0940b46b4];[0x0;0xb24ff29940eca;0xc96af4085934;0x78ef1b35f593f;0x8a25b83d434b;0x7ea5e8fde32d];[0x0;0x46907469b153;0x4c4d705e41a7;0x5e66f2b865a94;0xd7f6b10912640;0xa798286ebd27];[0x0;0xb47bb922faaf5;0xc60b69572fbff;0xe76e740448f5e;0x30bc4d6fffb1d;0x6d85be070e12];[0x0;0x1a2d918cb22c1;0x78c2e3a53cf6f;0x488bb3cf6c0d8;0x2a3463f5a1af9;0x7ce5e4c0a66f8];[0x0;0x631235a753815;0xdbd0a3cacfea5;0x294ea9af07ace;0xe5ed51654a1d;0x53efc07b13d6]]
 [[[0xc18673842cea5;0xca41b0862a73;0x5916df8c52479;0x9dface317db88;0xe0edd51e78fa];[0x1cd6a7e32c25d;0x1544fd947fbc8;0xbf19b389798e3;0xa8ce35b37bef9;0x12fbc499bdb8];[0x850d1539792f5;0xed2610af82e57;0x3dbe64c81f98a;0xc051b9dadd28d;0x9fc0dc664fa8];[0xc28fc4492b592;0x19476eb9794ac;0x4e841436b5b39;0xd873d89037468;0x75ea875f12a3];[0x2c671982a3ae8;0x380d36271afd2;0x392c8cfac14a8;0x5f81cdbe3e005;0xe443a3a17ddb];[0xcb37ad22ca7b;0x1cf949138a0aa;0x1f0fdd454ba06;0x4908f4576bebc;0xacc58b34dbe0];[0x0;0x3858f618f84c7;0xba9b02e35e0be;0xb386caa8226e1;0x4bdb5f6f2b4b5;0x4b2f7c27990];[0x0;0x5e231fdb5231e;0xebf1da65baf04;0x133c13dacccc6;0x2bb48b5ca0869;0x8181b7f495b8];[0x0;0xc6629bb855c1f;0xe30e9169e0b17;0xab708af7aca5d;0xbf18ea07d157;0x62b94b5b6512];[0x0;0x4eb6a302dcb51;0x9984e7a487b40;0x439263d5ac00c;0x69e4ed32deae8;0x7bde2301f327];[0x0;0xe3b52bac8f05b;0x8fb6005660c4b;0x37166c7fb1df9;0x6bded5be20fdd;0x55d21236175b];[0x0;0x973569270acdd;0xcaf282265240d;0x799bb46c31bdf;0x329d0ba5bd027;0x8e7dc9ff13fa];[0x0;0x3b16ff727da57;0x885ae4d62df64;0x8fb8fd83692ea;0x81374d253a17a;0x73c5e476ca4];[0x0;0xf691dc79d1194;0x1876c8e238a48;0xccddf061312a6;0x6536526adb825;0xac3737f859b35];[0x0;0xe641896650769;0x55a978b65a91f;0xf566179803d5b;0x8a7946d901b00;0x3e0d40766871]];
 [[0xc18673842cea5;0xca41b0862a73;0x5916df8c52479;0x9dface317db88;0xe0edd51e78fa];[0x4c5e52a0e4678;0x50c58357c3e8d;0xfe6ba0f26b7fb;0x6f80c16e4fe76;0x65c76b710e52];[0x9d88f8d23a684;0x551b26a5e4b60;0x5d61b27bc5397;0x5c7a01ac5ed18;0xe23abd942582];[0xd667145b35dcd;0xc71f993b768e4;0x18029af89977e;0x18ab12c6c3954;0x2d021ebd7c8b];[0x18e1ab53f5ab1;0xcd5a5251b9c9d;0x87dfb9e0157e7;0x29d344ac759ef;0x62f54ec5315e];[0x483a4fa002b7e;0x1fa96c37738a8;0x4a95dbb5552d6;0xd766588249f22;0x582cb0217b70];[0x0;0x3858f618f84c7;0xba9b02e35e0be;0xb386caa8226e1;0x4bdb5f6f2b4b5;0x4b2f7c27990];[0x0;0xe8e54ea1bba0b;0xd9594ac61df6e;0xde7d8e9b5c7bd;0x2ba0fe3a142e3;0xb7894d3db8f5];[0x0;0x3b023fdd875d8;0x1e015065ffc44;0x7b263370fdd0;0x37cd3a71eabed;0x2e81f2540c82];[0x0;0x7111d76eacc05;0xf8aa8ec8b60dc;0x67983644c76ce;0xa906b566e73f1;0x6ffd917d8da8];[0x0;0xc46813c8ce449;0x780a68f47d3ec;0xe8d848dc2ee1;0xd980f17cba088;0x4d9771194b7f];[0x0;0x139db4ecb5352;0x926af41c6a3e3;0x9ed929de53466;0xdadc7f02d46a9;0x43203fff182a];[0x0;0x6dadf51c34652;0x59ce804805397;0xa7e902bacd73c;0x33595c38395bb;0x3a296f35b69e];[0x0;0xcdc4ed8d1b47a;0x68e3a474476f7;0xdd08450c0224d;0xcd1170ab30bf3;0x740336245a323];[0x0;0x7008fb7a9efb5;0x2106960307bcb;0xfb321dc45478d;0xd9d1247b0318f;0x3fe3dd15ec83]];
 [[0xc18673842cea5;0xca41b0862a73;0x5916df8c52479;0x9dface317db88;0xe0edd51e78fa];[0xf7b9fe11dd79;0x5c547761ada7c;0xe2c8a6b607278;0x781c448a94cec;0x8a54876db507];[0xc8a9761ad6c58;0xe0ee890a19ea5;0xd01e0b35da2fb;0xb427445f019d3;0xd711f605d07b];[0xf27b3908ca49c;0x3653feaa4007;0x2c94d5346d669;0xa5a89b525572c;0xa402d45a939e];[0x7ae3cb26dcddc;0xe0382fef1fb13;0xc73f08e330645;0xb3e6150a2668f;0x689c86594df8];[0x5b7fc078e9d59;0x483714ec42970;0xce28f3d546cc5;0x392e3deba4fde;0xecc3ccb03339];[0x0;0x3858f618f84c7;0xba9b02e35e0be;0xb386caa8226e1;0x4bdb5f6f2b4b5;0x4b2f7c27990];[0x0;0xcc3c7edaa1eaf;0x1004c5bbb8c30;0x4b87480a35937;0xadda196a6b019;0xd9573b26d28d];[0x0;0xed3dc1ae85337;0x715ca7956babe;0x4cd7e8010d3db;0x611aaf4497356;0x45b9c142c0a4];[0x0;0xec3ad91b3af1b;0xe9e60186da2b7;0x2dd1ce1caa36e;0x8fd8495f53540;0x4ce9632a8160];[0x0;0x264c01278303f;0xf20ede35209a3;0x3f1924af8adb2;0x785ae15d13b31;0x35499b88e549];[0x0;0xaeb45c45bcadc;0x9465a341e61a8;0xcfc32ffabf919;0xece0ba3f222eb;0x64a32599a447];[0x0;0x514ec6f9f1220;0xcb541bf62a5d7;0x2949e3283db76;0xf1801f3833ae0;0x529906f903b6];[0x0;0x9f321b7d46c9c;0xdd343c754859b;0x8fb35e1f23c88;0x1f7073f0c05d;0xb3cfa83c9dcd5];[0x0;0x49d96396ff610;0x3fb8df5fa4974;0xbe950572e015d;0xe5e7ea6a7c8e2;0x685e35d349f2]];
 [[0xc18673842cea5;0xca41b0862a73;0x5916df8c52479;0x9dface317db88;0xe0edd51e78fa];[0x7352983e79d13;0xe8ff5396ce24a;0x32b584c0bbd9a;0xf71790de75221;0x77ce860a79ac];[0x642a868d02f8a;0x935b49ba7a269;0xfcd92a89cef89;0xb404ca9eae5e6;0x6b838f1aa374];[0xdb87cf5c20100;0x1e0f8f3b48034;0xace7235ebec9c;0xa214e4ed2fda7;0xb68f5d1fe2d6];[0x7e89a597b7307;0xb8a27071aad9f;0xd99414c20817f;0xd80776ae83730;0xc94068c9eceb];[0x5bd81c26c3987;0x7e3d621869289;0xe99b5d5fb8d51;0xc3bce397ccc12;0x49fd9711cfe7];[0x0;0x3858f618f84c7;0xba9b02e35e0be;0xb386caa8226e1;0x4bdb5f6f2b4b5;0x4b2f7c27990];[0x0;0x1c008a87dd7;0x41977d121b7eb;0xd5da3e4cdd82;0x5696177a743c2;0xdfc11bc49b9b];[0x0;0xcab430afe79bc;0xb0d9cd0891527;0x4373b5250564c;0x811dd54d860e5;0x48db0e6faf2e];[0x0;0xc1d17ae81aa0a;0xd87d5312a5459;0x9ff809339ef36;0xaefdda12aee00;0x783ddd107b3c];[0x0;0x48d7fd5ecb11;0x6e289824f6f1d;0x540fdd8d3d0cd;0x15b705609507c;0x534eecfd26c9];[0x0;0xafc0dcefaac99;0xc1592d0feffc7;0x10f95cd6ec7d7;0xa02f608071986;0x6927b1283523];[0x0;0xb36206ddd0286;0x700bd2a741f3b;0x2437b85acce4c;0xc9f3a5537725f;0x3e88ab82bf9f];[0x0;0x392fd8a61fb9;0x547b0102f8b20;0xfa1b5df9cabb3;0x8493cfab22040;0x470dba77eb76a];[0x0;0x52a7a5b1a40ff;0x3e4049296da0e;0xe27141839fca2;0xd1a5a2bb1cfab;0x23e4b6c4a9dd]];
 [[0xc18673842cea5;0xca41b0862a73;0x5916df8c52479;0x9dface317db88;0xe0edd51e78fa];[0x69839b9c6471c;0xcd444e2883144;0x3802a21db5750;0x448bc51f528cf;0x54ed0edb7afc];[0x32aa9d7da00e5;0xd13a2f1b03ca7;0xd7949d3d92d5f;0xd0bdf05d999f9;0x2ecfc1ead8f6];[0xc7f18fe2d7f46;0xedb1b770e95f;0xd0b0bc0a4f94c;0x1ae8cb2ac0ec;0x25d14ae817a2];[0x2942ba9079463;0xba20d85588bf8;0x73e9ef69f400;0xce3bf006fd008;0xbaf4eed68f2a];[0x7239806650f3;0x2e8a4caea0644;0x8a17e087e6c7;0x688fae58257f8;0xcc944cee89d5];[0x0;0x3858f618f84c7;0xba9b02e35e0be;0xb386caa8226e1;0x4bdb5f6f2b4b5;0x4b2f7c27990];[0x0;0x8f13914cc54b;0xbbfa7a8889187;0xd5bdc8f38de96;0xbff6dffb1096f;0xbb11ff6ea8c6];[0x0;0x77f89614d1c46;0x8d0a7d9726718;0xdf03f82e1bfdb;0x358391c624e2b;0x3fafb358fb0b];[0x0;0x58f388f7c8bac;0x441fa2a30bb81;0xa61640a3fec83;0xfa260b9f61058;0x2f4e6dc68c8e];[0x0;0xa92c3071396a9;0xff051eadec2c7;0x65ac9239caef8;0x388dc78fe75fb;0x20c698ddb31d];[0x0;0x988f63b255f8;0x4d76bee0556e6;0xc0a19f3072c1a;0xa141c1a57b4c1;0x5bebaccfe9ef];[0x0;0x6cae2cf5bc5ea;0x76e6cda09d3b8;0x5ae7884b9543;0x53b77837ca7ae;0x28a9b83e22c1];[0x0;0x83fd49e9186cb;0x5fb52123c9913;0x9b570e03fbbdc;0xbc731bcad8bb7;0x4f786d6acb585];[0x0;0x8d683f0b6f332;0x882293f684f99;0x1d3c20ebb2b7a;0x1271c8cc08217;0x24867939f039]];
 [[0xc18673842cea5;0xca41b0862a73;0x5916df8c52479;0x9dface317db88;0xe0edd51e78fa];[0x8b7133184df29;0xb9937e3424c74;0x4bb0dedfd2749;0x284ddd8586a5e;0xedf29235d8c2];[0xca44ea52a4902;0x38aa415f968f6;0x7ff25dec86b57;0x249a4247836a;0x92c8704d9719];[0x8cc1ab2cebcc;0xc70f63b065115;0x824b63cdb768b;0x60b9022bf08cf;0xb9c9f92fa259];[0x2c44787719a32;0x867ce3af4863c;0x9be3475918ebe;0xaf5c7ab307c27;0x805881e1ff3f];[0x2673cf0650cee;0xffd81c7a780da;0x5d9efdd3755ce;0x260a4a9aab16;0xc8789158c908];[0x0;0x3858f618f84c7;0xba9b02e35e0be;0xb386caa8226e1;0x4bdb5f6f2b4b5;0x4b2f7c27990];[0x0;0xd7a24cc94e520;0x2081b5fb53f8d;0xf171d4adbb89;0x5e969f9ff54f2;0x387a56af0ac4];[0x0;0xcdeae54d21eff;0x914a4fe3a1d0a;0x4a82d7370a92f;0x40d92a0372f99;0x3a6bd436b4da];[0x0;0x249bfa8164507;0x6e6f22c599684;0xb46a8442e2f0d;0x406bb70d7aa9e;0x347a454f2c10];[0x0;0x3ab117eab25f1;0x9e18935a1bfe6;0xc110305f2ee98;0x242c17b580591;0x245bcf010411];[0x0;0x6e337b3de5f2f;0xac3149e230a58;0x489977ab5c962;0x2c10633cc347;0x54523f39568c];[0x0;0x7daad3add1d76;0xb90f1456eaa61;0x112ebc8bb46a1;0x315cab73e8d52;0x88991f549b17];[0x0;0x3ca4c5923b5a;0x9bc89d79ccddc;0x8a5c9b56089a5;0x124f79764eb8d;0x2f2631ee0f869];[0x0;0xf19330543e180;0xf787d80d14407;0x2fdc8111b545b;0x11324075c66cd;0x1af2b6052d72]];
 [[0xc18673842cea5;0xca41b0862a73;0x5916df8c52479;0x9dface317db88;0xe0edd51e78fa];[0x5640b202e7467;0xe8fe24a0a6de7;0xcd0387684814;0xdccdeb533d0fd;0x1b312d433993];[0xa7eb6f1d1682c;0x687daab8dd5e0;0x617a01d03073f;0x99e392584f519;0xb06f89b72f81];[0xc72d6cf573bd5;0xe889879c42af3;0xf2064c81afdd0;0x871cbda9b327a;0x5f95f682e96a];[0x1ac1b9a52f25b;0x8fe495ae55350;0x6752f9d706daa;0x85c706104137e;0xa08aacd92eaa];[0x27f5133e7923e;0x9dd135f859d30;0xbdbacdaa57e1d;0x9b89fcf5860ae;0x4d55550a2073];[0x0;0x3858f618f84c7;0xba9b02e35e0be;0xb386caa8226e1;0x4bdb5f6f2b4b5;0x4b2f7c27990];[0x0;0x87052fae51a3;0xac20d8d7814c0;0xb1821e8c5639;0x5a062905078fe;0xd6441ab33c69];[0x0;0x19c5ab0c48250;0x8bc15b1b93be2;0x171c8c1d0c83e;0x54e467a09b1a4;0x460b75f8b587];[0x0;0xc57b9c11632f0;0x45ab605064485;0x3d4f8ec4609c6;0xecb498825c1ff;0x204ae936bf8e];[0x0;0xb276ecee58eda;0xc8fff24ed2a94;0x3a059bc688649;0x7ad5cd8531c8f;0x165fa6ddeab9];[0x0;0xa18d854d7e862;0xc5c4410cec97a;0x9d05319063138;0x40933cfb686f6;0x651913630187];[0x0;0xfdbfe0396bdb1;0x94b821b95a1eb;0x19554e4d4d7cb;0xaf12b5f7603ff;0xb91b43bffc5];[0x0;0xf93eb4062a6d5;0xc2743fec3e3a0;0xa5540c73135af;0x80c8b7cf4b231;0xb2dc26f6434a9];[0x0;0x74336876a79b4;0x9a7cac06d555a;0x1b1d69ce7db4d;0x1b3a3393ce63e;0x4812606dcfea]];
 [[0xc18673842cea5;0xca41b0862a73;0x5916df8c52479;0x9dface317db88;0xe0edd51e78fa];[0x3a73da940f091;0xba3ce16d030e5;0x4402323bd6805;0x5fae0a427a71e;0x59149a561a1e];[0x3b6c8b62ecc8d;0x33e8a3ef78fee;0xa507ac0d9df0d;0xe09a80364cd3e;0x9ae523c81fe0];[0x6574d85380c61;0x660c75c2ae4d7;0xfe1e7fc51656e;0x21623da8fa71c;0xe42ad8b7b636];[0xb91b0251e8b93;0xd9882179df994;0x10669e30697da;0xc38f5f5d044a;0x6ae61ab3cbd6];[0x7b0a86b7ac191;0x1606cfe8a8d16;0x4a8a3dede57c1;0x1f01a14414bec;0xc53ebdfeb86];[0x0;0x3858f618f84c7;0xba9b02e35e0be;0xb386caa8226e1;0x4bdb5f6f2b4b5;0x4b2f7c27990];[0x0;0xdb76acca4d2fa;0xbf32b7c2557bc;0xc7922045b98be;0x2f0f11d1b72cd;0x3d5cf6139b58];[0x0;0x9fa220147218e;0x2e28ee587660c;0xcffdcebeee222;0x8c1e741f987dc;0x33e993706465];[0x0;0x33ea3f4b57a4;0xa44bbb86f8c32;0x4a5699426ccc8;0x20d8ae84d926b;0x74882fe765bc];[0x0;0x80ea8f6fbf63a;0x4f477d43e38d3;0x3dc3e95be8f69;0xb9c112d94e583;0x50bcf38ac854];[0x0;0x9260d85ba2746;0x412251deee9d1;0x1386f07aa8d7;0x619d5c0a190db;0x4aed49d32981];[0x0;0x429344cb05bd0;0xde163976dc4eb;0xc36f26771c3d7;0x40031a5805d68;0x3d82c5eee810];[0x0;0xec2e62ba0fcd0;0x2a12464c15e48;0x58bc9e7a77b80;0x2f794e80cbe4d;0x601c3404f96b1];[0x0;0x260ddbe8c1eee;0x75a4658a14ae5;0x92c48a5d0d099;0x78a9f0edf4c3e;0x3fc42c2e0c11]];
 [[0xc18673842cea5;0xca41b0862a73;0x5916df8c52479;0x9dface317db88;0xe0edd51e78fa];[0x83b3ac4dc5c97;0x2fb0ea132dd82;0x9870b4ce78e4d;0x5ec56177ec896;0x8fb7a7a08e2a];[0x257aad911b01a;0xe44734d28e9b2;0x6de9adb3daf35;0x48c2504cce0b;0xeab9da018ddd];[0x68348f50bc271;0x89c74b0de9ba3;0x6e5ee81aeca41;0xa4e206789facb;0x71732c155941];[0xb5e3afc2d61a5;0x34bdf596dee1d;0xa362d7f11d614;0x2b0e87bc67fb5;0x3589bdf9d3aa];[0x79150eb87a0c3;0x1545271a2bcf8;0xe9a03652b8427;0x4f1d985741e64;0xdc8d19eeb4a6];[0x0;0x3858f618f84c7;0xba9b02e35e0be;0xb386caa8226e1;0x4bdb5f6f2b4b5;0x4b2f7c27990];[0x0;0x168bdc34934c4;0xde65739231b2c;0x9521477bca3c0;0x244273fa3876a;0x104681cbb3c6];[0x0;0xc4bc5709e0599;0xe3458fee03f8;0xf9ba481dd2c09;0x1864a07c96557;0x54408fd3e670];[0x0;0x16eecd0e3507c;0xfbfa0347cf7bb;0xa6f84c795f091;0x6abaae78bfb1b;0x3f8702f47cf1];[0x0;0xbcb30920592a4;0xaf4cd735b8c2f;0xbe62c0dd6867e;0xc70a6fda408c2;0x2c03acd805b4];[0x0;0x5865540d25366;0x444cbc54c040b;0xf01892b45570;0x3679092178b6e;0x799a9ffd94e6];[0x0;0xe09b22f547dc3;0x2d7dc15aabec8;0x6832ea0fa6bf1;0xd905c2ef53fc7;0xba6fb11705f];[0x0;0x84b88bbf9f2f6;0xbfc7cfca4c1a5;0x61ea9609bcef9;0xc286b0e2670cd;0xba1a4b1597b5];[0x0;0x89ce91bbe3375;0x818d7870ebdd1;0xd91dd93aaf4c8;0xa6210ed5de9a9;0xeafa98c290]];
 [[0xc18673842cea5;0xca41b0862a73;0x5916df8c52479;0x9dface317db88;0xe0edd51e78fa];[0xf138ff5d3105a;0x6823182f0c28b;0xd0ecaea195700;0x8cb1a87f9fb89;0x5602b7cc550f];[0x22a3ae565530d;0x56ba6581824c4;0xc8def61af702e;0xe740b7b41eb5a;0x34df91729fa9];[0xb76d7ff30c5cf;0xe4eff0d8fdb08;0xdb6f82a414457;0xec9e58e9fe7b5;0xd57bdc9667bb];[0x84787a82015e6;0xeb7cc5588ce3d;0xb67a8b2d92e01;0x557fbd56d0d30;0x42e301ca1266];[0xad913ac35e47e;0xdda58a0e03794;0xc03349773e458;0x45c210da14ccd;0xa871aa4184c6];[0x0;0x3858f618f84c7;0xba9b02e35e0be;0xb386caa8226e1;0x4bdb5f6f2b4b5;0x4b2f7c27990];[0x0;0xa62ec25894b37;0x2e52906edacef;0x500573dd9c2f;0x3c40b25a129d6;0xa5f1e74008e2];[0x0;0xfef98022f25bb;0x66c67b103b67e;0xbb251f2f82d71;0x6b60830f0e9c1;0x9e485ad28d5];[0x0;0x450f9c4455a7e;0x86f0b1b53d4ee;0x8e07d6cb49820;0x6fdb6cd2e3d0d;0x7c9bb27d124];[0x0;0xc8910e30a5b41;0x43ddd3551ee8;0xd6de67b32481b;0x7f3a4b28360ff;0x5655680593d];[0x0;0x70707f3cd7c;0xbc7bf80531a4d;0x80113d1533bd7;0xcc79e7dd1fb07;0xe474614d8c9];[0x0;0x67f85211cb9bc;0xec92ac737859d;0xf1a325abf226b;0xef64e472cc027;0x34e128bce8d4];[0x0;0xc3d26c444b947;0x34b1b54674e3;0xa97fd3a786abb;0x7e5683f372eb7;0x12e1f066b16b3];[0x0;0xabda6488f8fa8;0xbd5da2e13c222;0xfec30593e2adf;0xa0db91dcc3acb;0xb257e47f9d9]];
 [[0xc18673842cea5;0xca41b0862a73;0x5916df8c52479;0x9dface317db88;0xe0edd51e78fa];[0x73e96d6193380;0x2f3f1e4e467b9;0x8a43317447f4e;0xd4d1d378f5304;0x36761429022e];[0x7ebdfe9e41222;0xe978d32d405ad;0xe83e2b940ac0b;0x624d5faf6db5f;0xda5e2d0065bf];[0xadd43d804c27c;0x9f164e9d2ab05;0xa1c588f9c49e7;0xcc8e9c7dd8796;0x84b10c886a21];[0x8f0e78bb08e8b;0x4f1c568c8d310;0x317ddca3cc0d7;0xb63a7137ea2ef;0x737216abb062];[0xede554b1b2e62;0xf0a234b636322;0x142c0ab4540ba;0xfeb8815aa22f3;0x1252cc67fbd6];[0x0;0x3858f618f84c7;0xba9b02e35e0be;0xb386caa8226e1;0x4bdb5f6f2b4b5;0x4b2f7c27990];[0x0;0xa5c2184515238;0x47ce63a0f38f4;0x8246bf0fe9b4;0x8efe09f631a1a;0xa20a0fe98a79];[0x0;0x3d51d23480f12;0x7d73c9aba86f1;0x9a511aa0e0838;0xc014ddcaf7c98;0x4b03d2048cca];[0x0;0x3bb5e1cd1b9d4;0xd7051d4b6edae;0xbdfee0d15a6c3;0x203f08b7c0eac;0xc78dcc5244b];[0x0;0x32d8dd3680dab;0x447a6382950e4;0x2ee329fd32e03;0x91f979164df3c;0x8a42510bc58];[0x0;0x73950764c2652;0x623b3863bade1;0x9ea1686a8dc7f;0x6245f26ad1aab;0x6c4583c568e3];[0x0;0x3dfd299df2727;0xe7c92b71028c5;0x9a1757273e0a2;0xce910697b3a28;0xe019f97f39f];[0x0;0xfe1edd08ba710;0x3380f43924df1;0x6b7586539295;0x249c5b2de1af4;0x9ec4b96e50212];[0x0;0x2507951dcdad2;0x6579d36d1a5ec;0x261649efb22b6;0x6774cb13abb2e;0x26eacd26eb7b]];
 [[0xc18673842cea5;0xca41b0862a73;0x5916df8c52479;0x9dface317db88;0xe0edd51e78fa];[0x4ceece6af9f24;0x52eaf78bf6cbe;0x36eda980ec932;0xc38d9b267df65;0xd5091cfbf61d];[0x5196ac2c8ccd5;0x58d17eaa57108;0x9771fc4c9156a;0xacde5a34e976;0x3929ba0d68d4];[0xba1a4182b4b54;0xd69851bddabdf;0xf24d54cf593ea;0xcbc04453bd81e;0xee58b1ab3ad0];[0xab4cfff17b33;0x9affe58ee59ab;0xc71c6cf6014d1;0xba76234bac612;0x374d52b23bcc];[0x9c8ca6ffbebdd;0xe24fabd25488e;0x8adff4704555f;0x6a2cfa6952e98;0x67c82bd9713e];[0x0;0x3858f618f84c7;0xba9b02e35e0be;0xb386caa8226e1;0x4bdb5f6f2b4b5;0x4b2f7c27990];[0x0;0x2822962a232ce;0xf9a332091ce77;0x2455fff6621a7;0x20ba366a26ced;0x88b5b5c16644];[0x0;0xb251a097430a4;0x6b03c4b970cc6;0xef3a7c55f1658;0xace758b9d27ea;0x1f61367bebd4];[0x0;0xe297a7bd48358;0x2c570ebeb29cc;0xa1ff993be91cd;0x42aaa04966736;0x6819238ab882];[0x0;0x83685fafb844f;0x42c0ffd476b54;0x5fc04b97de01c;0x879a548537208;0x481f9b2cd59c];[0x0;0xdaacd61b4b98;0x676884a7798a9;0x4374b3d95cd1e;0xeb821f9e04f1a;0x2d4a9aa7912e];[0x0;0x5e5c5c917d2c0;0xba8e3cb15bd4b;0xd7215f727d0c3;0xcc7bbfd6a31d4;0x99b3a597a162];[0x0;0xd357fd954ae79;0x864e233e7cfd6;0xdaf7b13ffb632;0x6baf059e8932d;0xe1c9d10fdaba3];[0x0;0xb6fd7ec370e39;0x3009019d3d854;0xa3d43e069ce35;0x50391f469fff;0xa1362e18c6df]];
 [[0xc18673842cea5;0xca41b0862a73;0x5916df8c52479;0x9dface317db88;0xe0edd51e78fa];[0xce2007f15e4c5;0x28dd5cc376299;0x11550d47200f8;0x68718bed5af99;0x9c1ec61e0dfe];[0x8fad7acb40890;0x489b5cef33279;0x62d8a5b94747c;0xaf396c69784e1;0x85c17670bdb7];[0xa1214c27d1b8d;0xb5438526d1d6;0xdf2e6f718ba8f;0xfa80a5ea41c05;0x72303e4e2b78];[0x68b0669b76fc8;0x5c789e5de2289;0x4a8ed25ae8c9c;0xf7c958ddde9d6;0x9041f97b35c9];[0xa1221650ba0b3;0x5cf4f76366f8b;0x91279545a43d3;0x7c51cc73ca266;0x16ae6bfc914e];[0x0;0x3858f618f84c7;0xba9b02e35e0be;0xb386caa8226e1;0x4bdb5f6f2b4b5;0x4b2f7c27990];[0x0;0x747aaaa7ceb59;0x97bec935a60eb;0xcfb967b84ade8;0x72e8b59e0312;0x1a7cf3315ec6];[0x0;0x1dd2c008a00ad;0x4302090edffb3;0x842e3893314eb;0x195ade0ced86a;0x5808196ef3a5];[0x0;0x94029e70a04f0;0x1c79ad1394970;0xcf46ce937e566;0x601b367e7d997;0x99b65982ddc0];[0x0;0xccd3044791927;0x6d44e48915ecd;0x3557991ffc284;0xfe224f6aea492;0x6a7f85646feb];[0x0;0xc79078d62a6bc;0x4ad8cfb14e92a;0x88ab5e73f19e6;0x12775a54395ae;0x7f0f1aa9bf42];[0x0;0x27e9dbde28243;0x4dbe172b03002;0x73c5e23a19cc4;0x5034f46f77697;0x5b2d8019bcbc];[0x0;0x7f11b0a4e9ec8;0x63e55f7b870f8;0xfe56fdf7558f5;0x1af4161ac8ddb;0x972c32fb95fa6];[0x0;0x68671c581b241;0xd170cbaee2e12;0x3116ec6d1a19;0xd2a487a751729;0x562fc5f5415f]];
 [[0xc18673842cea5;0xca41b0862a73;0x5916df8c52479;0x9dface317db88;0xe0edd51e78fa];[0xad3ff17cb3d59;0x47a0aedd037d3;0xdf309b0ece784;0x60e432aee034c;0x2043e98223e5];[0xdf89c018b4ff4;0xf28276baf5612;0xc4de44d8aa933;0x79c02c039e0d6;0xe48240a921f];[0x9bf8c793b6afe;0x6d923cbf8a2d1;0x114282bde6d1d;0xf340322bd7f2b;0xa5c68a2aba5d];[0x41ebc3b66a377;0x63d82e9bf87ff;0x24659db4c479c;0x115ef088ae28e;0xff42ab5f0d58];[0xc291985c320e6;0x26beea48940d1;0xbc0efceb35ab2;0xde8f8d18d1b6c;0x1f167ff50429];[0x0;0x3858f618f84c7;0xba9b02e35e0be;0xb386caa8226e1;0x4bdb5f6f2b4b5;0x4b2f7c27990];[0x0;0x10bbc0e1041a8;0x7d4b37dd4549b;0xbdab9eae9bb52;0x93a655458b8b5;0x4c5b94914b5e];[0x0;0x9887fb9876567;0x924870544f9ec;0x3b670ae074b1;0x35389ac896cd8;0x47426494fda3];[0x0;0x12a51297c3aba;0x24211130dcdd6;0x8e740c05bb4a2;0x3be6386875fea;0x6584f6b09390];[0x0;0xee1511114bc1b;0xd253ecc8d469d;0xb1d1c42845534;0x713f0e81e65b9;0x465635bf304e];[0x0;0x98fe4d7887ce5;0x9ad3bdbf4f8fc;0x869224864de13;0x59f9ef333831;0x66d9dab79ae7];[0x0;0x591686fdd3fd4;0x190504d024996;0xb787fd40ea2f5;0x8f4e24b133a33;0x18ee89f918f8];[0x0;0x3f865291d91aa;0x7ffe51d6d3dbb;0x7110ef9f26d95;0x6b159fffbb555;0x275016e3c46b0];[0x0;0xbbf72a8429eb8;0x2c1fb67d924c9;0xa591c7e14ca19;0x29c2ad20ffe18;0x1ccdde674c97]];
 [[0xc18673842cea5;0xca41b0862a73;0x5916df8c52479;0x9dface317db88;0xe0edd51e78fa];[0xcb0c023bb16ab;0x851ca8fdff784;0x69872bb0194ad;0x8c7a30a168f50;0x66362fed7e6b];[0x107239df3aacb;0x5ef7c7be623ee;0x79f9b13916e84;0x7ece13f0407a5;0x5e10f1758953];[0xe8abed803e318;0xcafa850cad33c;0xe166e13f220a1;0x27aa67195cfca;0x504b08361066];[0x48627c5234944;0xf89a626bfae53;0x82996ae69873;0xa65758035a5ee;0x2561e481735e];[0x3c1d7772a47b8;0xf3b587fcf77a9;0xa7d746384c500;0x3f20af55fddc1;0xd70d64e4ff89];[0x0;0x3858f618f84c7;0xba9b02e35e0be;0xb386caa8226e1;0x4bdb5f6f2b4b5;0x4b2f7c27990];[0x0;0xaba7eb9cb6bd;0x9c52ecee32824;0x74740a21ea05c;0x7609bf0da775f;0xb6b1312963eb];[0x0;0xe863d58b4be46;0x315dcb83f508d;0x955d1b479e5bc;0x29f290c44c472;0x5e484569f03b];[0x0;0x4c24aa6c84692;0x4ea990083ae39;0x8d230bcedf149;0x5d6e157453433;0x19a4b8532221];[0x0;0xb1f4560fb6136;0xbc4e1a66f89f5;0xc7607d9a78692;0x8181387b5fd2e;0x11c44e0487fb];[0x0;0x16cfc12205107;0x7b7964c810b6e;0xeb363bb773a6d;0xbee413eff4dc1;0x8814af7d14c1];[0x0;0x33cee4f03d8cb;0x74a4440bb7225;0xcc4adc4d26d0;0xac4ede5d53233;0x2c3a90aad12];[0x0;0xbe30de28206d3;0x8c418d2c394b0;0xf320f7421950b;0xd25318555eba4;0x375a8fb272755];[0x0;0xb2dedb4c856e2;0x8890329a07a04;0x414fdd78d0e56;0x99f5f3c565cff;0x1715f42aa0b]]]
 (V [0xa8fc85aaa7715;0x8c8fd069823b;0xb624b68cf81f;0x375063f73aa5b;0xa226f63c860d] [0x2b3c7e051ecc6;0x30f215a6cfed;0x279bab2b8ebd6;0xdc442572812a5;0x49f66def000d] [0xcefe25286d3ac;0xdbecb168fea0e;0x6dc7b97ff3a7e;0x64a7f4285d843;0x3c2b481f2084]) [[0xdd5c212002d5c;0xb8bfd3d4597ec;0xb360487379c82;0x34463e0d1880b;0x4e5190e64716];[0x78b719cdf11af;0x942580d0990dc;0xb0bd89beb4a7;0xe506dee86bf4;0x8c799c2268d];[0x3ec101dd18616;0x982ea1ccb38ef;0x5aeba6b53d37e;0xca4365fc30aaa;0x77f30d48bc86];[0x3c9744aa39965;0x6652836b11c7b;0x6f6bab08378dd;0x4eeeb38f53c28;0x8dc994485d1f];[0x208154bc6c7b5;0x734f4dd0a88fb;0xcee85c84f8697;0x8c9866ec19729;0x236630a11d74];[0xc3f0e38422f8d;0x94ab26e1281b0;0x58236a1e2c10;0x1ef9694b66066;0xe2573e42db14];[0x0;0x28f19a91500d3;0xc0ea26b235dda;0x9a22578978ee4;0x5ee79b80abead;0x377cfd3ec71];[0x0;0x57eaa731a481f;0xab1baa6116b1b;0x6d41e759990bb;0xab26709e8433c;0x2382c0000b91];[0x0;0xc6da6c3c97f3e;0xbbdec1fb32103;0x8a5833de8cb21;0x716c208b4b742;0x4dea5c1476e];[0x0;0xf91d16c8289cd;0xc6f07e28299e4;0xe568cb0db5fa3;0xcdfa07b4429b9;0x2b2ab0d90506];[0x0;0x336e1dcc45f75;0x2d96f769b84ac;0x9396ab621ac71;0x7a2ae627f36c9;0x25865d2a38a7];[0x0;0x88086faa5a515;0xbd5810029b5b2;0x6f5fa4c6d6c58;0x8ae004fe4a292;0x59a150d69dd];[0x0;0xe32820b4bf453;0x5603a5c73862a;0x5464defb0e9d5;0x850fad321fd48;0x58fa55f9058];[0x0;0xb64b287a03071;0x6b9bf0128745;0x3db60c7c6532c;0xab8911e2e3e18;0x4e6d3ee73b48b];[0x0;0x6c9343aea883e;0xbbb56fad3bfb0;0xf8efd250bbe27;0x48d0165d09cc;0x2ed93349d9a3]]
 [((V [0xa63945531c911;0xd4034283c68ea;0x7f241c9b9ff51;0xeee0a900d6868;0xeee7c0885268] [0x6000f382ef6ef;0x39da2fcc0a79d;0xc0a3354250e53;0x5f5351ac44d8e;0x4a0cb94256b4] [0xb3e526315cd82;0x69bb59ffe80fa;0x342e9cdacc17;0x281e0f99defb0;0x2131117e1a5c]),[[0xf1301df8e97f2;0xe5f373b7af4b8;0xd9eb7f0b09111;0x2a50906380c7a;0x883723b9c52];[0x2d90b58bb9ba6;0x7e0077b1cb6e8;0x39cffab20d462;0x4ebf136969eed;0x6d06d72d7dda];[0xcefe25286d3ac;0xdbecb168fea0e;0x6dc7b97ff3a7e;0x64a7f4285d843;0x3c2b481f2084];[0xcefe25286d3ac;0xdbecb168fea0e;0x6dc7b97ff3a7e;0x64a7f4285d843;0x3c2b481f2084];[0xa5b31bad7e5dd;0x26368db7dd3c6;0x2554fadaca671;0x1fc4efa4cd98f;0x20f682fa768d];[0x87dd99de3b5ca;0x57c9e9f9ee321;0x147affd742df1;0x2efa23c49c55e;0x4c105433074d];[0x0;0x5c7414aeda21e;0x94825f7283068;0x7d4e8976867df;0xdad768a0cfb8a;0x16a6a85eb18];[0x0;0xf15e5451c38de;0x279ede87edb07;0xca06f0132b20d;0xf24e4ffda964a;0x2003f4029c6];[0x0;0x6c9343aea883e;0xbbb56fad3bfb0;0xf8efd250bbe27;0x48d0165d09cc;0x2ed93349d9a3];[0x0;0x6c9343aea883e;0xbbb56fad3bfb0;0xf8efd250bbe27;0x48d0165d09cc;0x2ed93349d9a3];[0x0;0x8167a4877dd1;0xa2af83c57fb4d;0xa9c25d03bd4b9;0x676f17c6959be;0x155e77e9c491];[0x0;0x59bdde4d08969;0xf930822965ea1;0x3586871b1f8d;0xe5dead14d803f;0x66b55592a078];[0x0;0x3ba03de88619;0x89b05d617160;0x320ee60b2009;0xd531504d28ce5;0x65bf0f37a52a];[0x0;0x65507f8a5ca3c;0x930d00dcb38fd;0x2dec911c95ffd;0xdc2ab090cd25f;0x4cb4ee7fc5346];[0x0;0x33c37156712b;0x10d8d05e4d300;0x2e140f3860be7;0x8742246766c9b;0x451add67d102]]);
 ((V [0x980d658731a39;0xa1c61afbea856;0xd7882bdba4b20;0xc1616f06e07a7;0x965019e7dd4e] [0xf45d342e233fb;0xf8914f0074ea9;0xdc68854e15453;0x47ed421bc666d;0x709d7b58bb92] [0x26ae365a7cbbd;0xfa21be6bb909a;0xc5f448c63da29;0xaedcac3fdbe0e;0xb3c479439851]),[[0xb18696e6fe7ec;0x72f083740ecd0;0x2fcc2fa9290fc;0x552e67b34e4fb;0xc39056bc2932];[0xfbfd6771b7be2;0x7c4e78ccc7139;0x60306270c2772;0x26faa68340a2d;0x51700b9a8c72];[0xb3e526315cd82;0x69bb59ffe80fa;0x342e9cdacc17;0x281e0f99defb0;0x2131117e1a5c];[0xb3e526315cd82;0x69bb59ffe80fa;0x342e9cdacc17;0x281e0f99defb0;0x2131117e1a5c];[0xb1c1ea67bdd94;0x6bd42cd3a2a42;0x63c05a988417a;0x7d58f70491e71;0x8a2fc125f378];[0x4a3b7d09f9be6;0x107a4bf9246f7;0xfc7007d83e5f8;0xa9a1af7eaebbb;0xc7404a7498f9];[0x0;0x656be9cccd506;0x985e8422a02f8;0xe1b4596621ce8;0x75fd98f13359c;0xc7ec5b460e];[0x0;0x1e3d8bfe3747a;0x8811869c6822e;0xf508def43612;0x9e49b3de740e0;0x195b172bc643];[0x0;0x33c37156712b;0x10d8d05e4d300;0x2e140f3860be7;0x8742246766c9b;0x451add67d102];[0x0;0x33c37156712b;0x10d8d05e4d300;0x2e140f3860be7;0x8742246766c9b;0x451add67d102];[0x0;0xc51fba0be327b;0x92428bad24249;0xaa95e06340ba;0x5a869f2c82172;0x156b5bbc3e69];[0x0;0xd6ffd09846ffd;0xadd94a78c8be9;0xff1dde3e04a36;0x99bde404bea4f;0xdef3bbca800c];[0x0;0x864661c898a91;0xf52d9e08ae30c;0xc53f9415f5fb;0x1e5b588f9c438;0x2fd1220de23a];[0x0;0x7e51ca019007b;0x89f75e416adfb;0x6c44ca6d2528b;0x13d4a398fe5d1;0x756a212dca9ba];[0x0;0x3761bb25eb4ca;0xa8cfd064b6955;0x6201a779bd13c;0xe3c6ce5d6117c;0x421f82e1ea22]]);
 ((V [0x22f0f6027a2af;0xa9d0567a03f81;0x80acdce02cdb6;0xa9e1987833496;0x9e5aeb6371bd] [0x336546d1d6abc;0x41a2b459341e0;0x6b8cd536366ae;0x3ece692bae640;0xe95e31da60f9] [0x4ebc56fcf72d2;0x70b2751a95fcf;0xf49b8546d320c;0xa777d69e29ca0;0x8e96fd5eb344]),[[0x490c8ecc3333c;0x2dc86e6443239;0xbb5372857a501;0x79f9e0ae2084e;0x9c4e6ea5d31];[0xb86567e2c787b;0x471ab9b2b27db;0xbfcfe4e34459b;0xc89340cc88069;0x584806f4995a];[0x26ae365a7cbbd;0xfa21be6bb909a;0xc5f448c63da29;0xaedcac3fdbe0e;0xb3c479439851];[0x26ae365a7cbbd;0xfa21be6bb909a;0xc5f448c63da29;0xaedcac3fdbe0e;0xb3c479439851];[0xccc9edd76725b;0x35ec008061faa;0x832e6c98d397b;0x7cb018cacf50b;0xdd40b5427c68];[0xeb9b7a0b603b8;0x112eb93250830;0x3ca1784a70c20;0x4be32801b8b5e;0x7b0751b21cf2];[0x0;0xbfaf6b28056e5;0xf92d776f479be;0x3476c0a2827d6;0x5440ac18785c2;0x43acaedc9c1];[0x0;0xc4fe6115953d7;0x84ecb533226f5;0xf8d85d79b386c;0x2ea25a3d2277e;0x6dc2cd75016];[0x0;0x3761bb25eb4ca;0xa8cfd064b6955;0x6201a779bd13c;0xe3c6ce5d6117c;0x421f82e1ea22];[0x0;0x3761bb25eb4ca;0xa8cfd064b6955;0x6201a779bd13c;0xe3c6ce5d6117c;0x421f82e1ea22];[0x0;0x9a68aa84c3bf2;0x3531bc1966b14;0xd626eba32a736;0x735be1f9dcfa3;0x318a2cce2a64];[0x0;0xcd7fb4962abef;0x2665348ba192;0xfe4459ff05c6;0xb71190388afe3;0x5841f76beae1];[0x0;0xf1eedfc7e0a46;0x45e24a80a4773;0x997c2722e0769;0x5de77cbdd9a4a;0x369bcec9d21a];[0x0;0xb291b0d1fb36e;0x15e3f9d35469a;0x357d3877641e5;0x87d93ad2ff5d8;0xf2ec745882b0d];[0x0;0x3ea6570a2dc1e;0x5bed79b7ab21a;0x7355ae042eeac;0x2444cf3ccb8cc;0x905b04766d80]]);
 ((V [0xa55881087cab7;0x6a05fd441b412;0xcf24e26ded7ed;0xe07134d534f52;0xf66c328d4dac] [0x54f4ee9290f89;0x3e927602c17bb;0x596a712f0b574;0x89670204c7a11;0xb51cef81d45d] [0x44cbdd13e110b;0x7b94dcce1ab35;0x181296a49eeba;0x1c73c6947d992;0xd869e9698c89]),[[0x30168f11bc9ad;0x7af79bd127cbc;0x850fda16df699;0xce62c8f61db4d;0x10b977a68536];[0xf0c913cbbf591;0x238a7407a515;0x680855fdbd27d;0xb1e7dbeecb8a0;0x441629b97f5d];[0x4ebc56fcf72d2;0x70b2751a95fcf;0xf49b8546d320c;0xa777d69e29ca0;0x8e96fd5eb344];[0x4ebc56fcf72d2;0x70b2751a95fcf;0xf49b8546d320c;0xa777d69e29ca0;0x8e96fd5eb344];[0x8a8ad394b6cd;0xe8800e222309c;0x8fd9a8c0f6737;0x2c9d28738f34b;0xe9a86df197a5];[0xe820669273c5c;0x19b8991e57479;0xd82ead3cc6b45;0x854ab37b3c554;0x5a6dbbc7e7b8];[0x0;0x84cd1ac8c92af;0x576d5f3e0e0a5;0x4d8e439fcfcd4;0x9309be43942f9;0x35adc4e9c3e];[0x0;0xc33ecf179ab8f;0x906cd16a43a31;0x32ff3827a9794;0x2041d61c00f54;0x950bd97f486];[0x0;0x3ea6570a2dc1e;0x5bed79b7ab21a;0x7355ae042eeac;0x2444cf3ccb8cc;0x905b04766d80];[0x0;0x3ea6570a2dc1e;0x5bed79b7ab21a;0x7355ae042eeac;0x2444cf3ccb8cc;0x905b04766d80];[0x0;0xc586d14127535;0xea7182e06a4ac;0x8aa9d899f1f2c;0x3ec6924c9d1a0;0xd4bc99682a9a];[0x0;0xf069f4760583;0xfc170e7d1d244;0x79bce4be8907d;0xd0814bf222b8b;0x61f45ad91ac1];[0x0;0x633acebe2bf56;0xc44d740597bc6;0xa902c85d19d8b;0x9fa9a2cb36c6d;0x418a12e3c3a9];[0x0;0x54a994b50d661;0xa357e1d70be22;0xfaebc9f25d6e2;0x83470f81e4949;0xbd6c089ff2a44];[0x0;0x76b7e86d77fbc;0xa95ac07b757aa;0xbf48b772d1c62;0xc1bf90931877e;0xae565a1f6b82]]);
 ((V [0x461b36e2694b1;0xb9eeb1f64db2a;0x6b105c096c5d5;0x54f035db85778;0x82e33b688acf] [0x6fb72b678413a;0x4d508241d6929;0xb079dd196c84f;0x2e982e4b871a2;0xdc2063f9ee36] [0x621e68195156e;0x6127cca02c383;0x3cf7a7e895375;0x447bc64f2efc6;0x7d8475488849]),[[0x8329b1040edf7;0x36be66d4fd06;0x9717bcbfdde18;0xa6e02cfb811c3;0xac2de52b7c93];[0x9fdb642ba293d;0x924ad638b4c2d;0xa237663018d0c;0x6ded2332a8a6d;0xef24d245f29e];[0x44cbdd13e110b;0x7b94dcce1ab35;0x181296a49eeba;0x1c73c6947d992;0xd869e9698c89];[0x44cbdd13e110b;0x7b94dcce1ab35;0x181296a49eeba;0x1c73c6947d992;0xd869e9698c89];[0x370a2db2b2f47;0xc35dd73333ba6;0x7db1d5e1f958c;0xe7fd94b828cd9;0x47fc52ceadef];[0x68d13678ef9f7;0xceecff0581087;0x2485904e1f77f;0x85ef8e7a7fd94;0xa7287f7744ae];[0x0;0x50e78b740c7fe;0x8279082f957bd;0xae5affe734951;0xa7c7458d12aa3;0x517861b25f3];[0x0;0x18e21dcb7efa0;0xfe5345903c145;0xa374274523be1;0x919b62fc9faca;0x918df52c72df];[0x0;0x76b7e86d77fbc;0xa95ac07b757aa;0xbf48b772d1c62;0xc1bf90931877e;0xae565a1f6b82];[0x0;0x76b7e86d77fbc;0xa95ac07b757aa;0xbf48b772d1c62;0xc1bf90931877e;0xae565a1f6b82];[0x0;0x7e2cf93154d86;0xb80c3de5ba0d3;0x3428393f6a150;0x6520146110aa2;0x8021edf2dac6];[0x0;0x3a9dc03c6c136;0x20c9bad9021ea;0x379452640cf8f;0x498d20bb3ec5d;0xed341ee2427d];[0x0;0x841626904dd78;0xc59fd9daf09b2;0xebe1e1cd3704d;0xa91b2e049a458;0x7a44f7ed1e51];[0x0;0x790c9b8ac6971;0x737d0c2374da0;0xa37ae86ac8b2e;0x3231214f5aaf5;0xdd084bce5b5b2];[0x0;0x850754515f34;0x46fb1ad635495;0xce831cf91ebf6;0xb2429a2f6ea4f;0x708bd692ed24]]);
 ((V [0xcccaf0252554;0xe8d9694e83eef;0x4508420ec4517;0x9335d791a7b16;0x46a3beb70652] [0xcb7b9016de77a;0xf094208d17876;0xef9272b8d5fcc;0x693243b02f92c;0x9b7ac9ef28d6] [0x6350118011dd6;0x1b6ed781d0c1a;0xd4f02c3d0aeec;0xdeb453cccc56f;0x5586f61977b4]),[[0xaf5022ba98e31;0x687a6f32bba9e;0x10b8507052b80;0xda701eb31c691;0xb633bb4266c4];[0x2437a3b12150f;0x1b16354d5c2fa;0xc8d8e569fbe83;0xc8252a6214c10;0xfab0f2e22554];[0x621e68195156e;0x6127cca02c383;0x3cf7a7e895375;0x447bc64f2efc6;0x7d8475488849];[0x621e68195156e;0x6127cca02c383;0x3cf7a7e895375;0x447bc64f2efc6;0x7d8475488849];[0xae9bc969c7382;0x3c505289f0c6a;0xa3f726346cdbc;0x4eeb20fc65beb;0xd6b6d3e54b6e];[0x759bda475a18e;0xdec5e2c36b68f;0x24e1bf358f0c6;0x793a0965af025;0x23fa1efcd9e6];[0x0;0x3e2f24c17a5bf;0x9810e4510d83;0x666f0d7fff730;0x7cdf895113247;0x2f4074d5ee1];[0x0;0x5c85b1d810cd9;0x6553c630fa7b6;0x953f861cb0c5d;0xc0c7c244d3690;0x595588953e8c];[0x0;0x850754515f34;0x46fb1ad635495;0xce831cf91ebf6;0xb2429a2f6ea4f;0x708bd692ed24];[0x0;0x850754515f34;0x46fb1ad635495;0xce831cf91ebf6;0xb2429a2f6ea4f;0x708bd692ed24];[0x0;0xf4d89afe1f7ae;0xbeeb576ca976c;0xade983161878;0xefe060b68509e;0xbd47afeeb6f3];[0x0;0xf77f3cf7a3625;0x6054f8dc4653e;0xb5c7a9ea02fc0;0x18a13d9262587;0x42eb9208962a];[0x0;0x57aa59ee6393c;0x675002a573d2;0xb53cb007d3e0;0x6d9aa3eacaad2;0x452cbbd70b25];[0x0;0xd6cbbcbb822a9;0xec2ee4307b62d;0xa4e9ae137878d;0xef6e05b00d08c;0x9bae607bfe7f8];[0x0;0x5a7b3369539e;0x8a6b334caada7;0xa1e08055213e2;0x83068bb89b741;0x2ae7063a42ee]]);
 ((V [0xf2a06d43e2;0x274bd38c89f0a;0xd36789f338f62;0xd816ea770789b;0x30a7eea733b8] [0x183f0cc436123;0x684b5a8d18d5b;0x9a4086f944f8d;0x66ba5083da8af;0x4c8d7a7b7b15] [0x6430222e09e45;0xdfbe0fa32d67a;0x762d87c9a9782;0xd4e6aa499ddf7;0x1fa511cd2008]),[[0x8c866851d7f5c;0x4657915a9b786;0xd5cf2bfbb3a9c;0xfdd3de41ab019;0xa11aa2ddf24f];[0xd65be1b81b30e;0x495192e3b18c6;0x783bffee74a82;0x2257be8ffa6a9;0xc8f24b19a09];[0x6350118011dd6;0x1b6ed781d0c1a;0xd4f02c3d0aeec;0xdeb453cccc56f;0x5586f61977b4];[0x6350118011dd6;0x1b6ed781d0c1a;0xd4f02c3d0aeec;0xdeb453cccc56f;0x5586f61977b4];[0x1ffccec4984c7;0x942c657fbfd3d;0x8a6ba722b4d5c;0xe63f511a8221;0x541a82771efa];[0xb65f12f382bdf;0xb5252d63f1b89;0xedd058cbbfd25;0x13f3c97e52487;0xb874a23a7b0f];[0x0;0x8a00ecd92afa;0xf9a2cb7e9d9eb;0xf7be305a115eb;0xd04718a6f9ad1;0x20327d47bea];[0x0;0x989edf8af1e36;0x915e8516c0f32;0x50c229bc481c0;0xc84201d095764;0x35d2c6e49111];[0x0;0x5a7b3369539e;0x8a6b334caada7;0xa1e08055213e2;0x83068bb89b741;0x2ae7063a42ee];[0x0;0x5a7b3369539e;0x8a6b334caada7;0xa1e08055213e2;0x83068bb89b741;0x2ae7063a42ee];[0x0;0x77acdfec51f2b;0xe1b0dc9c292a9;0xca6d6dc3b4ce2;0xfd4d19ecec21e;0x5e6deb6cb2af];[0x0;0x5f3f1e4902df7;0xd1b03b2ff6966;0xf2aa55f2f239b;0x65e5852e87b01;0x137df508829b];[0x0;0x121864ad3b63e;0x292fd71056d74;0xfb66e23112c7a;0xd5417cf5815da;0x26313f784c4];[0x0;0x53d3a2d410a99;0xbbe0ff529c4d4;0xfef2f7f41c996;0x2cfe80f2d8834;0x511a3b274f692];[0x0;0x9865eccf11787;0xb9999c8457063;0xdacfc3924e0d9;0x76e8fefdd4ac2;0xe8cbe9f9542]]);
 ((V [0xca518bb61ffb5;0x132bdaac93b46;0xdd164719d24df;0x8f3f3808a2fa;0xc1379b6a5bbf] [0x8c7ca49225be7;0xddf1a0fa4b97a;0x636ef93de77f4;0xb2d40fc6cdeb8;0x154eee331b8] [0xd887801370773;0x8e4da37a4d818;0x6852b3caebed7;0xbe5c67620ea15;0x9b8989f8a850]),[[0x7baed46ab48bb;0x88ecc062bc2e7;0xf4ab18dddba13;0xa52f79e627a7f;0xaa29eb8e034c];[0xb90e9e846c9aa;0x5c2147ecb70ae;0xb5c33bb22eb96;0xc077942411cca;0xd26fd8a6dbf4];[0x6430222e09e45;0xdfbe0fa32d67a;0x762d87c9a9782;0xd4e6aa499ddf7;0x1fa511cd2008];[0x6430222e09e45;0xdfbe0fa32d67a;0x762d87c9a9782;0xd4e6aa499ddf7;0x1fa511cd2008];[0x2d48a5680543f;0x4d4b44eafbaf2;0xa248c8d6b746;0x7a8fe09b9ac9a;0xd9e4c0231b14];[0x8bc5f91c67303;0xed60301bb5bc;0xab9eaf24c3450;0x45e7b38877030;0xf88b1883c0e0];[0x0;0x1f130d47834f4;0xac6f060b31739;0xbb073f1a54e74;0x6e6ee4e59c31e;0xbe9b237dc8];[0x0;0x4e908718c7ccb;0xb2bd5160dd385;0xe871d9941f074;0x939d197a8ef00;0x1508cc60266f];[0x0;0x9865eccf11787;0xb9999c8457063;0xdacfc3924e0d9;0x76e8fefdd4ac2;0xe8cbe9f9542];[0x0;0x9865eccf11787;0xb9999c8457063;0xdacfc3924e0d9;0x76e8fefdd4ac2;0xe8cbe9f9542];[0x0;0x529aaae7f8306;0x925d9502970d1;0x979c4955866a2;0x3771b0b2d9495;0x16e44ee977b4];[0x0;0x398f2f906c5a7;0xe9bfc4542b298;0xebc61a4efb3ab;0x1d92bd3a3f8b2;0x93f67a7f006];[0x0;0xa8a42d7d75a2b;0x93f53cf35f9e7;0xa82213e88938b;0x4dc5c007ead30;0x9ed4081e7d94];[0x0;0x447f90b9e4ac9;0x9b4473a72ef4d;0xbaf62e3c3c0;0x46b71a29bda25;0x158b9c2bd230];[0x0;0xe1980f3598f20;0x781ab807344b4;0xc94ed6d0fe413;0x9602a0bd9bd69;0x10152279594]]);
 ((V [0x292f5e569db39;0x290641c4eca21;0x6658a14251efb;0x6d71f7f5ad11a;0x53128cd60258] [0x6e84a563d6e5a;0x7830c9e0fff3e;0xbfb09757f876e;0x970895d25a156;0x89e9e6f2ea54] [0x2b548c5131355;0xe321fac808a2c;0x2d2af560e4fd8;0x2802be1ef726f;0xc6b2facb0576]),[[0xb02fcb6aa74a7;0x89b25ac7aad73;0x767d22e77b9df;0xc09069e539bb2;0x572660c37488];[0xcf156966827e0;0xa6bf0dd376939;0x3bef29852c015;0xf853612b600a7;0xddaaf2184c29];[0xd887801370773;0x8e4da37a4d818;0x6852b3caebed7;0xbe5c67620ea15;0x9b8989f8a850];[0xd887801370773;0x8e4da37a4d818;0x6852b3caebed7;0xbe5c67620ea15;0x9b8989f8a850];[0x76c6692be9431;0xdf33e06641b13;0x8a3c682a3676d;0x2383279ce5ef6;0x97d8a18db394];[0x584f003a993b0;0xc78b2d6d34e26;0xb1b2c15af58a7;0xd4d0398e7a1b0;0x45d2508a9895];[0x0;0x7c46a52dca1f6;0x47ba72ec0cd68;0xfaa64e30eed12;0xa120c23e34937;0x3a8d8d15546];[0x0;0x4dd4e31da8fa3;0x218fd656c84bf;0xf40578304d701;0x2cc9034a1ca37;0x34f30f18506b];[0x0;0xe1980f3598f20;0x781ab807344b4;0xc94ed6d0fe413;0x9602a0bd9bd69;0x10152279594];[0x0;0xe1980f3598f20;0x781ab807344b4;0xc94ed6d0fe413;0x9602a0bd9bd69;0x10152279594];[0x0;0x2ddd45d0f83c0;0x74792403a0822;0x6dbfd61503632;0x4cafa70193335;0x1c60b6a67];[0x0;0x1e7144b6f3b1f;0xb24253c6a2487;0xdcd792047cab4;0x6edf1de6a3665;0x91d4e46a8463];[0x0;0xaf4587c6318c5;0xf52b30e40c770;0x87f8dc9777dcd;0x87d8fe7175978;0x47ee7c75b1ba];[0x0;0x15509f39698b8;0x1e7924fd20312;0x1150a7fbf4ee;0xfebb1d6c8d92;0x8b11d52024abc];[0x0;0x3092ed983f993;0xd9c6d0c3c6eda;0x83436dc440df6;0x454bd2fb4c47f;0x2cc0d4323425]]);
 ((V [0xe5e66ebc4c7f2;0x5f0814e04cd4b;0x203a3ae41bef3;0x521247518fb1f;0x1bdd9fe746] [0x98b5519120b9b;0xb5cf83bb71587;0xd44e60e4101d7;0x2d018e087f635;0xa4446d110522] [0x8294384f202d2;0x8b458826544e0;0x5dd08e9b519ab;0xbadcad7a8950a;0xfa2e31a7af8]),[[0x7a5ce83b16ff;0x4d0d12cef5cf8;0xbacb8bd7ec939;0xb5e0856edd512;0x9fc663bab25a];[0x4e6ce218ccb06;0x1cd506f56456d;0x486c2c332d6a1;0xc44dc6b07974d;0xe714ccd75610];[0x2b548c5131355;0xe321fac808a2c;0x2d2af560e4fd8;0x2802be1ef726f;0xc6b2facb0576];[0x2b548c5131355;0xe321fac808a2c;0x2d2af560e4fd8;0x2802be1ef726f;0xc6b2facb0576];[0xa87177d63ccdf;0xbfd11d2c20a3d;0x61f81ff49f5d5;0x97c45e217be5b;0x277fd4a6470f];[0xa5fb6a428fe28;0x5d03e9c943b2f;0xe6740c3e8e0cb;0x2c89688efd8f1;0xbf94f8310f01];[0x0;0xc3cfbd76f3568;0xe0f3cda4829a0;0xd5007c5ee8d52;0x9db7dc7b7e8e6;0x4acd2de453b];[0x0;0xdf2af7971cf23;0x551deb1bed59c;0xff516e2dab3aa;0x3153743081d07;0x7c03259a30e0];[0x0;0x3092ed983f993;0xd9c6d0c3c6eda;0x83436dc440df6;0x454bd2fb4c47f;0x2cc0d4323425];[0x0;0x3092ed983f993;0xd9c6d0c3c6eda;0x83436dc440df6;0x454bd2fb4c47f;0x2cc0d4323425];[0x0;0x50dce48b61e03;0x86f330a2682a6;0xcc40d60588d56;0x7b31fbcb96d34;0x4a4c2ee63556];[0x0;0x31ec914c982df;0x7b41dca7e7ebb;0x16e74d10adbfe;0x70dfee614ec64;0x1af508aae118];[0x0;0xfe6f0ed8a872c;0xfb5d8e36686d9;0xea7bc8c0f3455;0x716b1d1373f89;0x19273ee63a];[0x0;0x8f8096b1f1548;0x85582d97f8ffb;0x5daa11bc34b3f;0xd78f2358dbdc0;0xa544426edc2b3];[0x0;0xc1a23b9b9216c;0x505f2e2003090;0x378f13cef7a06;0xd7654409f360a;0x11e16d2dd9]]);
 ((V [0xdf35a89910fab;0xc0dda423c4c17;0xea77d72919d79;0x61d079a4e9d21;0xbc9137c8682f] [0xbbe121a7f3e23;0x4ae3be9e4d2eb;0x7a750e5a2bcfc;0xf5dcb088e3630;0xebe7b23e90a5] [0x325951174c784;0x5c0a4f885f921;0xba2b52a82f6d2;0xef1cac7c7d201;0x5ab85a451a38]),[[0x9466d278701c1;0x8d985d6b54e0b;0x6d47d325efc3e;0x3cebca09f8e9;0x905ed53391ff];[0xfae31506aa1ec;0xa7394439f2d26;0xcb34b8784b967;0x344e25e86cb01;0x29a9eb62b55b];[0x8294384f202d2;0x8b458826544e0;0x5dd08e9b519ab;0xbadcad7a8950a;0xfa2e31a7af8];[0x8294384f202d2;0x8b458826544e0;0x5dd08e9b519ab;0xbadcad7a8950a;0xfa2e31a7af8];[0xdf5aa1020bc92;0x2925bd3c5550f;0x484b1985d43f1;0x4344ed9796d29;0x17f2e287b21b];[0x1b8874049e55b;0x7e1386fd9d817;0x82e99ef277576;0xf1093850d5dd8;0x11b708db033f];[0x0;0x5bc9dff04efa3;0xe019fad6e514f;0x946d78ae162ea;0xe233e33588392;0x5e2e92cde3];[0x0;0x53002334eeb8a;0x9595c43a604b;0xe76350aea7638;0x2d25f1ec53368;0x8d16a93f638];[0x0;0xc1a23b9b9216c;0x505f2e2003090;0x378f13cef7a06;0xd7654409f360a;0x11e16d2dd9];[0x0;0xc1a23b9b9216c;0x505f2e2003090;0x378f13cef7a06;0xd7654409f360a;0x11e16d2dd9];[0x0;0x954cf1f2ecdd1;0x10cd36a583eb7;0x1c4f728a99c69;0x352afc5ff352;0x6967be07ee16];[0x0;0x6c56a5b5aaeff;0x640042c1d26c2;0x1f6b095835985;0x4205d3d88879b;0x3087f98];[0x0;0xcd654d9a1ca0d;0x73438e52b366f;0xff8e7d91e5a9;0x8ae3ec6ff6bd0;0x1eb06b2eef5e];[0x0;0x37583198226da;0xd3863697f4de7;0x90fb84c427507;0xba66ada87d177;0xf83fe25be441c];[0x0;0xf93b0771315ab;0x52f6dce6bb03c;0xbc4c08813c92;0x4a99084200005;0xadc3f8895bfa]]);
 ((V [0xaa510fd934c6;0xa1e6033111f8;0xb0de081e12bd6;0x7ace1ad369e6f;0x9d6e3ea7476a] [0x76680568b454a;0x7b89c26382ef3;0x349b3890c98d7;0xdf0f447b88a90;0x96d1dc3f5b89] [0xbbe354226742a;0x5c88b46e75b2f;0x9ada4fc28c739;0x2d0cf80d1e9a0;0xeb89b8e39c6c]),[[0xafc84a8ea60a5;0x27368a71496b;0xa063a4b677fd;0xd946ae80d227c;0x8b9fd23347bf];[0x8c374115fde12;0x195f3e0b659d;0xab1e89fec8f3d;0xae129eb7c47ea;0x7053e5dfcdef];[0x325951174c784;0x5c0a4f885f921;0xba2b52a82f6d2;0xef1cac7c7d201;0x5ab85a451a38];[0x325951174c784;0x5c0a4f885f921;0xba2b52a82f6d2;0xef1cac7c7d201;0x5ab85a451a38];[0xb5550705d9736;0x9d3ff7582638;0xb64e3f75edef8;0xdf6808cf99111;0x9cc3c5ee036e];[0xd6e23a1024474;0xf7c1f46b33f64;0xf4d04a88db044;0xceaa95e82b6d8;0xd3901ff1ca80];[0x0;0x7c8d21d180b51;0xe529cd6b80115;0x6d50a30f435f6;0x8879f44742897;0x2226f25a711];[0x0;0x71a3c9d437a4e;0x4652948cb5c19;0x4a507622e2f87;0xfc0bd68c7262d;0x317abc00fc5b];[0x0;0xf93b0771315ab;0x52f6dce6bb03c;0xbc4c08813c92;0x4a99084200005;0xadc3f8895bfa];[0x0;0xf93b0771315ab;0x52f6dce6bb03c;0xbc4c08813c92;0x4a99084200005;0xadc3f8895bfa];[0x0;0x32e4869a4f365;0x3104e3402108e;0xc7e9180674027;0xcd560c6705152;0xd96332f20694];[0x0;0xcd84048f69903;0x2b51c31fc7f13;0xdf4a9f5b24d54;0x56fe514af67ed;0x8ae59c4e9633];[0x0;0x841b0296fd6e6;0x2547271ce281b;0xb54b236753215;0xa0fe4677a0c64;0x4513d384bf33];[0x0;0x973b61c2bbfa5;0x7706ee7b7484a;0x822d934ecb036;0x6cd833ea9195;0x9c1c262615f6a];[0x0;0xab6115c1853be;0x50d61e53b16c1;0xc30556d4496f4;0xd7de84c7d3ba0;0x5cbfa728dead]]);
 ((V [0x147f7e20a5c6f;0x57635c35b925a;0x986f3c3f2c5ad;0xdf59891c9c199;0xdc133079458a] [0xb151c17c8edb5;0x881b91af4771e;0xbb6d854c13857;0x691875d91be21;0x9d7ea20572ee] [0xb64c5fd389039;0x289adf3b21f7c;0x5c09a10f2fdec;0x33eb4b96d132d;0x2ef8bb69cbca]),[[0x2e9cf99cdf211;0xb5d0cb5d737d1;0xfd0c559ae2ced;0x6641465e69bd7;0xaddd2f563adb];[0xb09d1a833c491;0x1775bde2b3e50;0xec7f9f2375e31;0x9a015ccce8fd0;0x54d503b1c31];[0xbbe354226742a;0x5c88b46e75b2f;0x9ada4fc28c739;0x2d0cf80d1e9a0;0xeb89b8e39c6c];[0xbbe354226742a;0x5c88b46e75b2f;0x9ada4fc28c739;0x2d0cf80d1e9a0;0xeb89b8e39c6c];[0x4993af1d2f1b3;0x46657f600f01e;0xb48e38f5e3f3e;0xd189c5abefdc1;0x17cf0aa3b435];[0x67096b660d076;0xd1103e82a4e32;0x37f1662d91ef2;0xc8779720f920f;0xed7e459767fb];[0x0;0x8a3ac65996d6b;0xeb2f6fc7bc982;0x174a36bc19037;0xbc88a89741f78;0x58ab7055b46];[0x0;0x934ac6c9e94af;0x2209e6f2755c6;0x3b651a3d33bb4;0x1accbaf8002e8;0x9ff793640c90];[0x0;0xab6115c1853be;0x50d61e53b16c1;0xc30556d4496f4;0xd7de84c7d3ba0;0x5cbfa728dead];[0x0;0xab6115c1853be;0x50d61e53b16c1;0xc30556d4496f4;0xd7de84c7d3ba0;0x5cbfa728dead];[0x0;0x6e8fefc7ddf7;0x7448e965a906d;0x6e4372ac981d7;0xfd874127ebe89;0x58da9a239c35];[0x0;0x6b12049705e82;0xdf41281ab8128;0xa076595052ee9;0x6e082a5aa7e1f;0x60d0685314af];[0x0;0x158fb49320016;0x917dcd7d53d9f;0xe56fdda11e765;0x702e9c3df2757;0x48ed6b0c2a4];[0x0;0xcb86c7e984ff9;0xba531b37e9585;0xb65aaadd636dc;0x57fc1f4dbdf0d;0xa7225b8bfdac9];[0x0;0xef628f48ba90e;0x493c75e1c73a8;0x97aa93b3faa94;0x957a0be93e2e3;0x8764a1750f30]]);
 ((V [0x6af10a65df8ab;0x5b5179f846956;0xc0b3296771050;0xed2183cec338f;0x41e42d95e923] [0xf466f459f42a0;0xe630f735715cb;0x4fb11fd433be7;0x88f1856eb49f8;0x635bc550b4ca] [0xddbbb009af22f;0x5f5cadc57acaf;0x306a440093899;0xa82e5c71b7f16;0x1219de089925]),[[0xd37f0bd88d2fc;0xc19e4e54c452b;0xff5635174b582;0x151d436e2aef5;0x975a9914c175];[0x7215e928a77f6;0xf3a8733cf1b01;0x4a609720776d6;0x5858af11fbdce;0xc5776a1910f2];[0xb64c5fd389039;0x289adf3b21f7c;0x5c09a10f2fdec;0x33eb4b96d132d;0x2ef8bb69cbca];[0xb64c5fd389039;0x289adf3b21f7c;0x5c09a10f2fdec;0x33eb4b96d132d;0x2ef8bb69cbca];[0xca5f46cf25495;0xaa6fd8d1caaae;0x44a207160e21b;0x4bcaf7538aa8f;0xb5e084728721];[0xa7b6a25982362;0x49389a6b27052;0x5be900a694bb;0xc8db7be7133f;0xf96e5a689d1];[0x0;0xa7e223a743e31;0x35b8fc9389e6c;0x4e091ea7a7e8a;0x1728ceffe2425;0x11aec84df3f];[0x0;0x6f1ae1cc3fca;0xd6415690a077;0xfd10c4ceaaf73;0xc99dff0c04094;0x1bc55613c155];[0x0;0xef628f48ba90e;0x493c75e1c73a8;0x97aa93b3faa94;0x957a0be93e2e3;0x8764a1750f30];[0x0;0xef628f48ba90e;0x493c75e1c73a8;0x97aa93b3faa94;0x957a0be93e2e3;0x8764a1750f30];[0x0;0x9cf8d7617d23c;0x11d5e4a2fdc95;0x7ec5ec5084c48;0x752ae28c91a78;0x60e4915e92e0];[0x0;0xa4c7259209719;0xfdc55e45c0c0e;0x69041f544fabf;0xb605eee064555;0xbd30fcc0aab4];[0x0;0x5b29fb140ba2d;0xcce717efc196a;0xa382670ba181b;0x2ea46327dcc9e;0x32d353747b9d];[0x0;0xb4662ca5afdea;0x7addfec8e5cc1;0x13900352cab1e;0xb7654b018da9f;0x64c7422ae7391];[0x0;0x43f720f0b6ef7;0x90c5431fb4297;0x1070bd2497531;0xf113842d862df;0x1992dc868a5d]])]
 [[0xd82a61c7b5595;0xba72613b6d4dd;0x2b57b152056c0;0x4a8c38819ca42;0x5f3287dcc8be];[0x7535c2e89ff74;0x4d2fa95e56ef3;0xa6e21331c9c7d;0x9f978e01ef3a6;0xa22455d794ec];[0xddbbb009af22f;0x5f5cadc57acaf;0x306a440093899;0xa82e5c71b7f16;0x1219de089925];[0xddbbb009af22f;0x5f5cadc57acaf;0x306a440093899;0xa82e5c71b7f16;0x1219de089925];[0x4576650d581b4;0x5e5dd15fcf034;0x69dfccd294eb9;0x737b10d81da56;0x64676b1ac3c2];[0x2fbf5ddb47dc1;0xeed1d7fe87ebf;0x3d02465f34dc3;0x2c1c7d29d1950;0x3dbceabcd12a];[0x0;0xb068745243c80;0xf63af622321de;0xa0ebabf9f5630;0xb0548a83f4cad;0x6d0727634a];[0x0;0xf882c5b3b1131;0xa41b023788352;0xa9f292bf8d539;0xe4d96bc30d0db;0x6bb2c0dcf05];[0x0;0x43f720f0b6ef7;0x90c5431fb4297;0x1070bd2497531;0xf113842d862df;0x1992dc868a5d];[0x0;0x43f720f0b6ef7;0x90c5431fb4297;0x1070bd2497531;0xf113842d862df;0x1992dc868a5d];[0x0;0x84324c8ea5194;0x6c46a2681acc2;0xb7ce31db14de0;0x7d995def3b879;0x26901b824b4a];[0x0;0x1e7fadadbde48;0x2e5e3d8eb69d4;0x18f68eb0a508e;0x92294224037a8;0x10f5aa875b89];[0x0;0xd621c31bbb355;0xc0230ba335714;0xd74614db47e9c;0x92844d6f9b6e2;0x72afada94a9a];[0x0;0x62a5d5890038e;0x9bb19498cd0a4;0x4359a4a413dfc;0x58938da4aaf0f;0x3b78754247c75];[0x0;0x40437b1fecf70;0x6ecbc61ce95d6;0xfcacb46316894;0x7510e692ae074;0x291f55d625a1]].
Definition wit_256A_64_3 : colwit ept wit := mk_colwit (V [0xa4e111839d55e;0xde3ce23fb4be;0x8528b4e1c0358;0x20a6efb75beff;0xebcfb3a3a16b] [0x7fb475b0c9626;0xb6e216e482cb4;0xab1416d6eeaa5;0xccf1a19f2c07b;0xde32ec2e641] [0xd534da1d4cfca;0x87f3a132e1d4e;0x7d2774aadb55;0xbc8c25e73ac1b;0xa8c1d6c7f442])
 [[0x1bc7d50d0bf49;0x5b52dd91284e2;0xabaaba993437a;0xda6fa600d786b;0xba08009daf95];[0x139da2ae5cb26;0x7970825c8dfc2;0x327038c15fa1c;0xa823e9955b997;0x5f7ab49de1de];[0xff921373dc1c7;0xb8de820056599;0x9067240c015;0x9bff07cb0223d;0x3dc5a18d63be];[0xff921373dc1c7;0xb8de820056599;0x9067240c015;0x9bff07cb0223d;0x3dc5a18d63be];[0x4d737c5cb455d;0x6530a4ef81ef3;0xc40cb7d4976b2;0xb2afd54798745;0x2d7bd2fd81a9];[0xc62a2651a85ca;0x143fdd6d0c0ce;0x6e6380ecc836a;0xf574144dc3251;0x31fee1a06034];[0x0;0x6bd1ecac5e94c;0xa712372ec0687;0x7336a1c736eb5;0x9babf6599b053;0x174122db84f];[0x0;0x6d4a043ec824f;0x6ebddf7ce9bd5;0xbe209167a0083;0xf12e425391e3b;0x2ce385b3d375];[0x0;0x40437b1fecf70;0x6ecbc61ce95d6;0xfcacb46316894;0x7510e692ae074;0x291f55d625a1];[0x0;0x40437b1fecf70;0x6ecbc61ce95d6;0xfcacb46316894;0x7510e692ae074;0x291f55d625a1];[0x0;0xef3d4568451b4;0x330e864a956c4;0xa79465261db73;0xcb3ed7a174a26;0xd341096bd83];[0x0;0xe1169447373d9;0xf804718dd567e;0x10ab1e05f337a;0x1a62a7a54cb29;0x8013c536d560];[0x0;0xd9e60885676dc;0x3384b5271c743;0x595b9a494b72;0x8ce6cf636217e;0x57f31b04cda0];[0x0;0x7a35e9745d0de;0xbd02ab4dfba9a;0x7f35b4c51733;0xfdfa082d91cb1;0xe6e824866094];[0x0;0xa3db124d10a66;0x2c701d8dc71e0;0x72a64c1f4cb40;0x5391b76098953;0xccad05e7311]]
 [[[0x86339bbc05eb0;0xf26fba4f37695;0xb8b0991532ffd;0xc250e9cbe6e32;0x7773b2559ee4];[0x697b7eeb8872a;0x18a8b62f71871;0x179306fe29754;0xf95a2b0c4bb86;0xfe2758954d49];[0xae77647c5fa80;0xbfdfeb207f542;0xd4152f1d712ae;0x56aef759d1d74;0x1fd6a25d1298];[0x3991d4b85b6a2;0x56362afb92eb6;0x467c183337a2b;0x9f83549e0c1b8;0x7a7eaa4dc522];[0xa9f21be0f42c0;0x287e870df3f9e;0x66e404c6dad4c;0x7ef5c1120381d;0x6d03db60d1f3];[0xe20c65a84ffd0;0xdda60cf057728;0x8643323a81612;0xbc1b1c6eef3eb;0xb822774072a1];[0x0;0x2617fc6a3e852;0x679638cf4cf0;0x5605dcb662ccf;0x26a0eb1e6d481;0x3f879754827];[0x0;0x1265e5c59fa4a;0x7f806e12763e8;0x8351d2fa2f753;0x890cb7072c907;0x1cd2c8e85f2b];[0x0;0xe815849797ce2;0xa68ddbc808063;0x317edbe94bedf;0xb9544edc4533;0x9d2a6eb1b4e];[0x0;0x972fa6de130c8;0xcf65e59f16de1;0x1a45b928363d2;0xd010ce4a01074;0x358dad0b5a8a];[0x0;0xc3c706d93d99e;0xe88cb1156aa0;0xe6c679680015d;0xad4b684953371;0x327645d2d6d];[0x0;0xc56aec47d841a;0xe5eeb5810a781;0xb1725311d7817;0xfb6cdb5621c1e;0xa6cb495e54ad];[0x0;0x255abb94e0779;0x8025d5cb6489f;0x3da4b66e64d0a;0xcff2c5ce10592;0x71ddf474f242];[0x0;0x287b1f1cbcff7;0x42bf597833d27;0x9db28da52dae7;0x3066ad31282cb;0x976f6f6a44fa7];[0x0;0xfc18333922bf5;0x605a8425a2087;0xa14e6cc4a8e6b;0x9696968a7ef2;0x43d0eca4446f]];
 [[0x86339bbc05eb0;0xf26fba4f37695;0xb8b0991532ffd;0xc250e9cbe6e32;0x7773b2559ee4];[0x62a8e8652ee44;0x11f62c71ee3b1;0x9f4b9110e7669;0x8ec4c30f16901;0x52d1ad71f36];[0x58a3404e82a58;0x6d46de82e9d07;0x9ed21d98e4fac;0xf0bb7e4d96a7;0xde37656a463b];[0xa92ad2db2da47;0x403835ef80f84;0x3efa424901e80;0x2ba28d691ffe7;0x60bda8c1297a];[0x6e08be6857466;0x2b2d942451623;0x29bdaf9802a57;0x7c960406f162a;0xbde635faa290];[0x8fc332656fb2b;0xdabdd5ad7e2ac;0x1dd1179dc326b;0x97f952d98985;0x8739c8ca7364];[0x0;0x2617fc6a3e852;0x679638cf4cf0;0x5605dcb662ccf;0x26a0eb1e6d481;0x3f879754827];[0x0;0xe4ea966df2474;0x124eed3d0f484;0x707211d2afc52;0xb3b47a9b3cd34;0x381b945f1d6b];[0x0;0xce9847011adf6;0xe015cce378617;0x66ef716d1959c;0xf3360a8738e69;0x638ced5468f];[0x0;0x625968c6fe1c7;0x6277ed892c018;0xbbc7244841229;0xdb9c1733d0da7;0x8b6e11c35feb];[0x0;0xa0aa3b780cbae;0xf791ee51fc915;0x68beee7731a47;0x23aa2ef35a748;0x836198fa3ee];[0x0;0x6476ecdad469;0xc79cbb5d24118;0xab50084a09cc8;0xf1359db26ec5c;0x69a6314950e4];[0x0;0xa423d0b9b5a92;0xa9e138e9f2635;0x5c84a937566a5;0x77be594e62962;0x4ee55a08d2];[0x0;0x2ed67319aaaba;0xf5c7752f7af1d;0xc9a4c5dcbcb50;0x70a28c72dfd02;0x51532f2051a6d];[0x0;0x3c8f139cfa360;0xa1183d4688d60;0x256b33e03a74c;0xc7fce2c4951ab;0x49008f24803]];
 [[0x86339bbc05eb0;0xf26fba4f37695;0xb8b0991532ffd;0xc250e9cbe6e32;0x7773b2559ee4];[0xd2fe4fe0670ac;0x67e75b209b987;0x8eb824e2279e;0x11a11ea9e3799;0xeee5751836fe];[0x9463550ee387a;0x9e4feb70b185e;0x909219c6b8408;0x1b0358ae3646f;0x1eec52bafb18];[0x4c8e4aba5a8d0;0xd862881e83aed;0x35790a5078b89;0xd2bf15f3be25f;0x235745c95d25];[0x8409c5b882ec8;0x5c30e25676741;0xb70280f7ccaaa;0x78cd30a46b245;0x2375449eb104];[0xd0222119610f2;0xa3a57a0b4a431;0x7b0284309e041;0xc6430dc5d2329;0x147001f48864];[0x0;0x2617fc6a3e852;0x679638cf4cf0;0x5605dcb662ccf;0x26a0eb1e6d481;0x3f879754827];[0x0;0x1164abc5e612c;0x4f3a145a0e2ef;0x185a349d7f15a;0x9d2d1c4d752d6;0x3f78819dff3d];[0x0;0xf3012becce424;0x352aedd5b64f3;0x868eff14c044d;0xe50058d4c1a3d;0xd3ac5f4943];[0x0;0xc18c99366a36c;0x4e9873b8d0fda;0xa0f6615b1e84b;0x6225df94a2925;0x4696c1985065];[0x0;0xb8a8becc69eb4;0x17f4f50736ba7;0x45e98f146f689;0x381bbc03b47fa;0x42839b157e7];[0x0;0x5348fc5bba024;0x79eea84e04f58;0x5d9ad9acfa75e;0xeb1fbdd0ac97b;0xe0a413b4403];[0x0;0x70e334b475305;0x8ef5b47d6e920;0xf74e86fb316f3;0x982ae4e11681f;0xc4892e35300b];[0x0;0x92e9e0e05aebd;0x1fa969a442445;0x6ced285e5ee4a;0x423ec84dd1c69;0xec3ded234f97f];[0x0;0xb729caf126d87;0x84bbcc5e69392;0xa664d7efd1a17;0xd9fa88db9765f;0xc18b3f57c63d]];
 [[0x86339bbc05eb0;0xf26fba4f37695;0xb8b0991532ffd;0xc250e9cbe6e32;0x7773b2559ee4];[0xbfd0fabf5665c;0xdbf05a4f10906;0xa710a2443f22f;0x6f645770ed333;0x7a262bc8e218];[0x254fd81b8e1ad;0xe3a7fdb10f3b;0xd0644d3dc831d;0x3f469504b7395;0xbd6e71c9094a];[0xa3b63976a7ace;0x1d526aef15857;0x87eef3aecf4ec;0xcf4160191e279;0xf033e8fbdd14];[0x605789923242f;0xb910a98b7fcc;0xf7b2da14f07fc;0xb6c08917a8104;0xe1240fb2f183];[0x758009522f2e5;0xcddfecb8a1be;0xc1f64fc1d62ae;0xce9b6035560e8;0x47d9c7f9aa45];[0x0;0x2617fc6a3e852;0x679638cf4cf0;0x5605dcb662ccf;0x26a0eb1e6d481;0x3f879754827];[0x0;0xf067c01d4e04c;0xdd03a46be5e81;0x4e453249f2f17;0xe10a9004c48ba;0x2e44572e7dde];[0x0;0xfe5acacc8de8f;0xa321474e8d786;0xa2fd51e575171;0xe309cd9fac16e;0xb6cc9842ef0];[0x0;0x75711294a53f2;0x7b81055e8de39;0xdfec09e3e00d0;0x5639558577b53;0xd8b4dcde8830];[0x0;0xeea25de2e205b;0xad255ace9d4a2;0x84d2572891ebe;0xcf8ff3c701e16;0xcc326962318];[0x0;0xdb40f63ada70f;0x73004fa8349fa;0x284b0d4801129;0x45f669177f6d3;0xc1ff76518461];[0x0;0x5f399886936a5;0xf921788893990;0x58aab92f7f3d7;0xd5c5544367c48;0x4986db847efc];[0x0;0xfee6c78a5c4d9;0x16eed8052f68a;0x1f0cf62f3a862;0x5fdcb1721f9b6;0xfae22c14a428e];[0x0;0x1d4f4c225c413;0x65f4cd6901d80;0xcbf53cae7c3b6;0x185798237d669;0x923d1a316bf6]];
 [[0x86339bbc05eb0;0xf26fba4f37695;0xb8b0991532ffd;0xc250e9cbe6e32;0x7773b2559ee4];[0xb1886042ed7d0;0xcb5afa8a5dfe7;0x6f278d9fd3d2e;0x9ac7d48c97390;0x562c05639e34];[0xce5abdeb940b4;0xbf6834f83e401;0x8698c6fba71d;0x19a7538bf0ccb;0x6f86b4deb88d];[0xfbe6932195b0d;0xaeae5678c52f1;0xd153f9b564b85;0xdb621992a37c7;0x4fb4e5689bf2];[0x84e750113d73;0xd5d2d0602b189;0x89bb05f67e13b;0xfcfebb60735ef;0xa6ae5b00f543];[0x474af729acfc0;0x8f7866bb0f7db;0x72c96a05cf93e;0xafecb3611fe8f;0x955552757d8f];[0x0;0x2617fc6a3e852;0x679638cf4cf0;0x5605dcb662ccf;0x26a0eb1e6d481;0x3f879754827];[0x0;0xd37048b95bcc0;0xb10a8526ab9bb;0x6d91a44d39861;0xf68a7fa49ff33;0x1f7649e72afc];[0x0;0x2d6e07a1f5a90;0xf6f4f02895472;0xd9e15b6df4983;0x305b1a8d10531;0x85c0457fb11];[0x0;0x5a01722459bbd;0x73c6e2dc86dbe;0xb9c6c5649f8f9;0x394813197551e;0xdfc90d764008];[0x0;0x97f5ec2421053;0xfeff0425415bd;0x53d62c44689bc;0x9fe2ba376e310;0xd2ddfdbf9bc];[0x0;0xf94b58019e9ec;0x66fee42f3b5af;0x594865249557f;0x49bd24ea730e1;0x8df1e8d7cb63];[0x0;0xa5903c78a663e;0x85760a888ad0c;0xb22ff2a7fbf05;0xc1787888b8b4e;0x467715ab4dae];[0x0;0xba0a51b425a42;0x98d7658288348;0x3a8fee74a2582;0xe7125a681598a;0x3638e1651a94c];[0x0;0x53d0620b24fa6;0xebe8226a36d19;0x402c49dd235ba;0xee8502d4321d2;0x2a92e355c7ea]];
 [[0x86339bbc05eb0;0xf26fba4f37695;0xb8b0991532ffd;0xc250e9cbe6e32;0x7773b2559ee4];[0xb028473361c2c;0xa6c9f68c10594;0x855295889a3fa;0xa84cb48e49f44;0x1c6785a04d8a];[0x47934da240e9b;0xc2cd91003961b;0x7cc13f5f6cd9d;0xc3421a9fd7778;0x5dccc8aca941];[0x72b33edf55ea0;0x91d5a24904fc4;0x94aafefca87ee;0x558492940e77f;0x4e279eaf5559];[0xd8f4e1b34df44;0x7aea0a87c443b;0xaba2ef47969c5;0x391cf1fdd3219;0x25ab355ca1fc];[0xb4d36cd14442c;0xf2ecb2c3ee5e3;0x835d04277a537;0x63282c6dc1770;0x5bc56f87445];[0x0;0x2617fc6a3e852;0x679638cf4cf0;0x5605dcb662ccf;0x26a0eb1e6d481;0x3f879754827];[0x0;0x5813b2d9d987c;0xf7a7cc93e81ce;0x5b17bec01effd;0x98df1b48cdb04;0x1477780cb8ee];[0x0;0xa5d21328f0881;0x4071bc3de00bc;0x4a2a085b5cc15;0x463c857b3cdf2;0xb5b2ba18461];[0x0;0xa14f0656fc616;0xa9225cefe88cf;0x54b8c4cd35e42;0x9333c09bf263;0x2ff52bf1f37c];[0x0;0x22ec6523efe82;0x43aa93e0e4ca8;0xf4167be2d727d;0xafff1787f0467;0x2d3076066eb];[0x0;0x577db91fe0902;0x2124e379906a5;0xc904e17fad0e3;0x8dde59e7d145d;0xc0d45393710e];[0x0;0x6d4d1832c07ad;0xae437cd9a1290;0xc10a191c55eec;0xf2636da08ba07;0x179aded11a34];[0x0;0x6a424e4c12ac7;0xf668ec61018b6;0x269e09e22c323;0x3a4d64cf0d43d;0x86a5ed7ea8720];[0x0;0xc67e76529a5c0;0x3cb56efb896b9;0x31e8c1288fe76;0xfec7f8f3a280;0x6a01b5f7dfeb]];
 [[0x86339bbc05eb0;0xf26fba4f37695;0xb8b0991532ffd;0xc250e9cbe6e32;0x7773b2559ee4];[0xe15a551d4e2bd;0x23aee442f4c81;0x221270c6db016;0xf6fab4b7e4f67;0xe4c368ac600a];[0xf51c974417f5d;0xeb834bdb6655e;0x8c119b584419b;0x6719a64467605;0x302cfe77ff86];[0xe31acf6ea232e;0xd6a4be6ef91d;0x7bfdd9070d79c;0x77006e45cfce6;0xf6d314f507e2];[0xa2b790b3dd6aa;0xd837776f96438;0x210082945355a;0xb08baccd76dbe;0xa1ebe0481bef];[0x5e1d4726577c3;0x30820880036de;0x7d5358fc42566;0xb931c0ba209f0;0x33d0ec6866f9];[0x0;0x2617fc6a3e852;0x679638cf4cf0;0x5605dcb662ccf;0x26a0eb1e6d481;0x3f879754827];[0x0;0x5403a83de8b35;0xb3d414c26f9f7;0x68feece87d8d1;0xe8737f026b217;0x3370f21ac9c];[0x0;0xd9e20cb07081;0x4e1ff915537ae;0x7da5d46c157b5;0x6328b8fb30a42;0xb8a78d43878];[0x0;0x6add2e926a3be;0xac6d1c22d9d0a;0x5b40cc770183;0x9725ef284d918;0x758025cdf2b7];[0x0;0xb16cad9366cda;0x1f0840015f196;0x9cc29e8e79721;0x6e8aaa2ac45b9;0x6eb7be954e2];[0x0;0x9c493f4b2fae7;0xb4703c6f69fa9;0x2d2d6848d477c;0xafce7142ba68d;0xc3f78424c866];[0x0;0x460d5bc3d41a5;0xb72f3d673935c;0xa3e817f15da7;0xa6e6f1f907dcd;0x2a3a47412750];[0x0;0xd5b3d58870fe7;0xc09db7a609bb8;0xed726f8ed71f1;0x780663da9e257;0xab32374aded6b];[0x0;0xfee65188b8f4a;0xc607e199d6446;0x209c2a0682efd;0xdf0284ef418d2;0x1f647c61d14c]];
 [[0x86339bbc05eb0;0xf26fba4f37695;0xb8b0991532ffd;0xc250e9cbe6e32;0x7773b2559ee4];[0x53a1f72440cdc;0x253e61ee0b0a7;0xa9586f57bbdcf;0x909072acaa993;0xe0c9b04905ea];[0xddff96b58baa2;0x43be899cec047;0x13d74f0d90837;0x806056e0fea6e;0x93f076cb126f];[0xa88dfe0f470ce;0x464d886522455;0xcd90cad5d149;0xa75974d6f4c3e;0xebc2fd08f0c3];[0x1cc47afe1f09a;0x9b1628aee0a7b;0xd7fe0782d03bf;0xab7877dcfac16;0x7fbca0d30e78];[0xe6b74d7bb36b9;0xf5dd86bf759de;0xd155ad9260db1;0xdd5a42ffac6d2;0x611d149e51fb];[0x0;0x2617fc6a3e852;0x679638cf4cf0;0x5605dcb662ccf;0x26a0eb1e6d481;0x3f879754827];[0x0;0x9e9aaa68e632c;0x82bb59f536a3d;0x648be57da8d0b;0x62b5b80b3a72f;0x2caeff555def];[0x0;0x481238209b37c;0xffab386841fb6;0xb1977df2d5a5c;0x41a175eb60b3b;0x290413604b6];[0x0;0x121542450d208;0x6f61901e669d5;0xada207c0117ec;0xa4e76bcc4e5d7;0x9ca752e5027e];[0x0;0x44f6d3d7550c;0xb9aba7c9b9c2c;0xc6ac7f19dfa7c;0x343c79e315b97;0x939c52e8d43];[0x0;0x13f8e1fbcd303;0x6ef29cd121a2c;0x73304af95b5f5;0xe19f5f31c6e38;0x2b8755a5c47f];[0x0;0x81dcbfa171714;0x3812b5da101cb;0x30dce3f70fc10;0xa0dfa79a26636;0xc3c7056a496b];[0x0;0xb9493d5772290;0xb4c3d252ed9bb;0xd6139da9ae4f1;0xa6112f2cf13ae;0xf48a7db75e3b6];[0x0;0xc9f38c573759c;0xd7a1336156a9c;0x6a5b9df7b5d3d;0xc3c259590034;0xd35ee00c5e27]];
 [[0x86339bbc05eb0;0xf26fba4f37695;0xb8b0991532ffd;0xc250e9cbe6e32;0x7773b2559ee4];[0x99e6c2c70578b;0xa127d8a62843;0xf377f586bcc15;0x91f38288fffc0;0xebd9ecda2cf];[0xdfd009182a308;0xd1c0814ebee9b;0xd3284d7a51c24;0x1398414f04e36;0x2942cd50f08f];[0x5b41bd800a505;0x76f07c903f0c7;0x5e9f12d8e8550;0x27c4b5765e0b3;0xd6bfded59795];[0xb162bf7bf17dd;0x9491254d3955e;0xf38a5d9b0a88b;0x46e31ce9afec6;0xf79c96ea2cb1];[0xfe7c121ede937;0x5ff36996fc32c;0xe12c7a6c912cd;0x838906f7bdc85;0xd10ff97aee68];[0x0;0x2617fc6a3e852;0x679638cf4cf0;0x5605dcb662ccf;0x26a0eb1e6d481;0x3f879754827];[0x0;0xfbbc6680bc813;0xce47a57d196cb;0xa2d0f65c29111;0x6c189fe838cff;0x51efbffa1743];[0x0;0x2023b41348100;0xcb976e187b270;0x5672277989560;0x2744883eddb72;0xc185ca26085];[0x0;0x92f8a61a03e21;0x88e8850b32fb6;0xa839a995e404b;0xb28fadb46de1b;0xdf8d701bc7f2];[0x0;0x3802b03edff29;0xf3d63d3407bac;0x881a0e33d784c;0x96ce87a8467ee;0xd2a5d15ec7f];[0x0;0x42960c60aff37;0xde91fc7f28597;0x4e931d80127c7;0x2a02532e875ab;0xcd60d582cbf1];[0x0;0x43dd42971cab9;0x62a2ab34fdfcb;0x7318fa8504461;0xe1313a4923943;0xcd9c00a99a3];[0x0;0x221ea8d9748a9;0x39d2d89b7664f;0x17760f17df600;0x93c1a29d9733b;0xb074d04186e2d];[0x0;0x140cef6093424;0xb426502b703cc;0x1d175c87bc14f;0xd01e5098c7e58;0x914605390f1f]];
 [[0x86339bbc05eb0;0xf26fba4f37695;0xb8b0991532ffd;0xc250e9cbe6e32;0x7773b2559ee4];[0x9045dfb698da1;0xe6fdc75f00453;0xb58742cbe0ef6;0x7063207b43a8;0x3b68ed31c72d];[0xc90d3df04f708;0xd8ce773614d98;0xd9f36845b9276;0x117792efd4b7a;0x25cd7cf09077];[0xbfe4b292ef421;0xa473c6f80a8f;0xa5201a8c46b5;0x933fa511579fa;0xa0ba01fa4df1];[0x7e47cec02aa14;0x3f91e70c90407;0xf5e6baedf7319;0xbe99932c3fc17;0x5028fdbd116];[0xd266a02465788;0xd6c2adb56182c;0x20f2d40f8d27a;0x8d8504cca8817;0x253c36a0fab6];[0x0;0x2617fc6a3e852;0x679638cf4cf0;0x5605dcb662ccf;0x26a0eb1e6d481;0x3f879754827];[0x0;0x9956a3f9dad79;0x6683d2e888e3d;0x9c04c461a6dca;0x6ca8ef00aa172;0x526081969aac];[0x0;0xdc447162cc2;0x8bd4535722266;0x9d0edc7efbdef;0xd47aed790f3dc;0xc1b52500e8d];[0x0;0x9e0d5eb0cb1d1;0xc4dda44619e3c;0x5499fea63fb53;0x45c6fdc493776;0x997fd3413afc];[0x0;0x69638aa135d6c;0x3a873e42c7277;0x10ce395baff82;0xc0c3b9ddaac66;0x90a37058248];[0x0;0x401ec27e16c8a;0x96fa76e722825;0x84e8a68e362b6;0x2f23e9bdf6c70;0xcd93170a3cdf];[0x0;0xcb4d4737659;0x80c2c8b86b1f;0xab347d2c1709a;0xf5babdbecad8;0x361b859c9158];[0x0;0x97d0f58b7f935;0x156c740a38c02;0xb0f8e15f56823;0xd2ee6b7dc2510;0x41b3017241729];[0x0;0x4f542c0b64db2;0x40a4d480b9965;0x1335cf3a720ad;0x84e0b9e1a04dd;0x391860d451ca]];
 [[0x86339bbc05eb0;0xf26fba4f37695;0xb8b0991532ffd;0xc250e9cbe6e32;0x7773b2559ee4];[0xd31ca9ac50923;0x42b39603c1a2d;0x652ad3bd85a61;0x10a24bfaa5986;0xb680278ae4e1];[0xc3e817800005f;0xd5937722edbfb;0x3f9b2aa580527;0x96b570cb818ce;0x7c6a12a78b23];[0x666efcf088365;0x84728e30fcd02;0x673e64e1d1734;0xfad8ddcdb8f57;0x919069ee8af5];[0xb2e3b30dc1e09;0xfa759244cce2;0x9f3ec8dc0618;0x5b356479531ab;0xd5d981ba780d];[0xd29c0fcdde8e2;0x310f0c86c2c17;0x339941bbd8e16;0x200d07093d281;0x7f039e14259b];[0x0;0x2617fc6a3e852;0x679638cf4cf0;0x5605dcb662ccf;0x26a0eb1e6d481;0x3f879754827];[0x0;0x2a6023903adcb;0xda0ea578fcda2;0xf428a7962dc7e;0x1fdc5ba70889;0xe12b530060e];[0x0;0x8a5d06e23e54f;0xc59aa9c8cb2e3;0xedd3f89cf34fa;0x30613c2b4766;0xca5e1793921];[0x0;0x8362e981b0731;0xbc252f2394dab;0xe9afe4461d516;0xe9945e21a0537;0x39bf19ef208a];[0x0;0xae6263d44d365;0x826a3ce38ddf9;0xa9521f04d3e78;0xd35732abf9026;0x3669bbd1b0b];[0x0;0x3c82fcfb059fa;0xd13e749b0059c;0xdbfea6178c48f;0xeeb2eee5677da;0xd6c3da55f941];[0x0;0xd29759fafb318;0x27b37f407de11;0x63d9f24d91422;0x6e2714e32af6b;0x8f9b4231236d];[0x0;0xfde4e0a3c5a13;0x43416145c3838;0x65631d9a020cd;0xc8e93610e054c;0x9c1d3fac90a33];[0x0;0x539398ae1de0e;0xc6c6ad8317b7;0xb7ad851d68a8;0x4b653641124db;0x78ad95462386]];
 [[0x86339bbc05eb0;0xf26fba4f37695;0xb8b0991532ffd;0xc250e9cbe6e32;0x7773b2559ee4];[0x3395bdd7c7761;0xeaf913d59924c;0x14dacba49caff;0x8ca1a79392566;0xd09692c5a7b1];[0xc1d180f143405;0x81eeed9db6a64;0x52a5fdbbfde06;0x7306ae0cdec90;0x70d5ce0740e8];[0xb992ecf0e68bb;0xde1619b65375c;0xf4ab8cd5d4a2a;0x5cb8cac3986f9;0x57ae1ecafdbc];[0x3c613e66bf0ad;0xf5b43e72d8d1a;0xaf63dc1395bb9;0x145a754409665;0x999c91d2cdac];[0x9a638fdb83f3;0x1cd742eec60de;0x27238fde430a0;0x3b40f632312c0;0x58280f42b6df];[0x0;0x2617fc6a3e852;0x679638cf4cf0;0x5605dcb662ccf;0x26a0eb1e6d481;0x3f879754827];[0x0;0x8f745afafeda9;0xf16612bbd4ca7;0x361213fc31f5d;0xdecf43d1756aa;0x19c11e6b2ae9];[0x0;0xfd191c5a5475b;0xa3ad2aaaf7e1a;0x85d357d8d2895;0x86da9de10b8f8;0xaed828f824e];[0x0;0xc27b0ff75ae01;0x8df78ccde35f7;0x34b8f94653a2a;0x69bc4813a801c;0x8d44910901f8];[0x0;0x91d745f4ee46b;0x1bb0364cc8824;0x8ec22348810e;0xb87332a353d2c;0x851cef52eb4];[0x0;0x5aa36c7f5b1b1;0xce9356c13eade;0x62a96531d7bd4;0x2fa0fff3676e6;0xb98e4550242e];[0x0;0x2385cff85064;0x4d2d83d06d236;0x1b5147ce5265b;0x5f655f0c0f839;0xc596899eb08b];[0x0;0xb476a6364c1c1;0x81ee03eacc15;0xfb773eefcdc1c;0x28de7429b2564;0x9d1da9cd56084];[0x0;0x7a010277457ce;0xaa2b88a2da511;0x4041ddf88901b;0x452112ce58f33;0x93208de2cef1]];
 [[0x86339bbc05eb0;0xf26fba4f37695;0xb8b0991532ffd;0xc250e9cbe6e32;0x7773b2559ee4];[0x48a9bd163059;0x48702a8cf406a;0xe667e016079d9;0x137e823299ae6;0xbdeeff8b2912];[0xbb1ef280fde6f;0xf1a338acb271b;0x24d1b1d5d7419;0xd737cd5d276a5;0x2f9572f70fa1];[0x8755510196d1b;0xfb36ebf0dadc5;0xe4e57c2b46140;0x958eee05053f3;0x405589cc53df];[0xdbea5dec7acf8;0x2cd3ad522018d;0x6506c739db1fe;0xa6e17e3e053da;0xf67843b9820d];[0x75ff8c15b0;0x5a94896d1f4c2;0x89a90b53b629d;0x457e5bda3b74a;0xb434a9766e2b];[0x0;0x2617fc6a3e852;0x679638cf4cf0;0x5605dcb662ccf;0x26a0eb1e6d481;0x3f879754827];[0x0;0x92ded21926dd1;0x9d706d78a078e;0x8ea9a2fa0241a;0x19cc4c6098e73;0x4ebaa46ce01c];[0x0;0x499b0370e0403;0xdb32a48225238;0x6d348d81cfc56;0x84c09cbf1a5b5;0xd27b22b89be];[0x0;0xe072641d370b3;0x61968f9e33d03;0xd8accd55f95be;0x8331ad4da3147;0x8f11c13f1589];[0x0;0x23b2dcdb88ac8;0x318aec1bdde35;0x5977fd6caacba;0xa9eb5195a3abd;0x86cf802c7ef];[0x0;0x199656a3ce0c;0x238d8104ef102;0x55d58d6c22850;0x1dc9e205b971d;0xdf602411527b];[0x0;0x55c5b09afbbdc;0x6872c148211ce;0xb5f752cd90378;0xb2d780ef3d901;0x2e2d59a1001];[0x0;0xc5a8671a6c621;0xdaa775cf636bc;0xc78e5742f235a;0xba1dfe86077cd;0x18a11a6df6964];[0x0;0xaf7db1a8f5101;0xbe11ddf123ae4;0xf3d927257f949;0x65d88661390e4;0x5e4949b8ab]];
 [[0x86339bbc05eb0;0xf26fba4f37695;0xb8b0991532ffd;0xc250e9cbe6e32;0x7773b2559ee4];[0x6912becda31ac;0x3a7e3f4cf4718;0xdef03a99cbbf3;0x734b2ef862fc;0x10d6b53a4b0d];[0xaa8997db5afaf;0xf426ea8e49941;0x4d17e90a25e76;0x3b97937197111;0xf40d4d31a2cc];[0x91efc3688278f;0x12d479a3be8f0;0x519612170c89f;0x9e9120adbb85b;0xdbf77c656a49];[0x7553a96e7c87d;0x9aa29c5dbb83b;0x24078a7121270;0x6c8913da5181a;0x22d2a346bc32];[0x25291d581bfe4;0xcf033e5b98f30;0x56b91793fff20;0x321ca8b54d5f2;0x8c0143d1b7e9];[0x0;0x2617fc6a3e852;0x679638cf4cf0;0x5605dcb662ccf;0x26a0eb1e6d481;0x3f879754827];[0x0;0xb08ef48e4a37c;0x37b0826df5c64;0x71122a6cbf0f7;0xd5b3e8ae1bb48;0x4a81cb8bd425];[0x0;0x84c04378aa4f5;0xab73bfd76ed6e;0x22ed2f569c87e;0x6fcbc09d40a9e;0x3605864331];[0x0;0xeed7651f69f8b;0xd793ab08a71a2;0x424feb5dcfade;0x81c707d828f9b;0x1653ade8c7d2];[0x0;0x8c6cfdaaef79;0x92469d8981cf9;0xfc54ff46ab434;0x95224449a5cbc;0x1509bc96a0e];[0x0;0xdcd6a52d1e07a;0x398eb9f97157a;0xbbb5c08dbe6d3;0x412883ba9c7b1;0x3954c0c807c];[0x0;0xa4d158a172179;0xee73a1809f6e7;0xc4acda4746315;0x6612a53011da5;0x7ce74b88de0];[0x0;0xbc63164c949f0;0x2b1903609afd3;0x396f4079fa86;0xca00265ae7aee;0xc22337a140d5e];[0x0;0x4a08e860c2ef7;0x23d9ed849b48f;0x8652003e4e63a;0x6b97e9d9f69a7;0x5509969e5f05]];
 [[0x86339bbc05eb0;0xf26fba4f37695;0xb8b0991532ffd;0xc250e9cbe6e32;0x7773b2559ee4];[0x9dca5bba14ca8;0x8e5dc232ebbc7;0x842f1ac88407e;0xe963a399a85b;0x6f3e7439a4d];[0x6d864e9bb5dba;0xa1effa1ade573;0x54e7ae7afe4da;0xbe47056394a67;0x4be514f56b82];[0x4d101186b4f1a;0x1469424af7d75;0xa95ec530b124;0xf4228f9ca8258;0x8315f5ab55d0];[0x45dfe3481571a;0xd9762fd02fa46;0xbe222992cf62a;0x6901376d14452;0x66fea8ae522c];[0x75cb4398118d2;0x37dca4437dc78;0xe3ebb91edc40d;0x5628df6bcd1c4;0x3d5f551791ce];[0x0;0x2617fc6a3e852;0x679638cf4cf0;0x5605dcb662ccf;0x26a0eb1e6d481;0x3f879754827];[0x0;0x3fb33bc185ed8;0xf8df547bf39ee;0x58e245f4c26b3;0x59d0c262055e1;0x413166d3c2e8];[0x0;0xdd2672b0d4f54;0x5ab6792b88724;0x179bb9b815a82;0xcf989e152d500;0x670313f449d];[0x0;0x6b974c5b008f2;0x7abcad4d99908;0x303bb823f3f89;0xeff458f632cfc;0xa8f6441f7926];[0x0;0xfa645e4418452;0x86abea585900d;0x3f73859e83cea;0x9c01a57a7c287;0x9f35600eb17];[0x0;0x9db9b24ea8db4;0x8916f032930fa;0x80569a4bddb11;0xf9ba235add223;0x6d52a18c8043];[0x0;0xfa42b07fd492a;0x1ad7428d0ff1a;0x860ee39747d1a;0xcc99a23d816be;0x265bbd3cc41];[0x0;0xa8a0f5ec11af7;0xd3f5b316eaada;0x9a2238ff89600;0x2bef395a3aaf8;0xaee96422e55f];[0x0;0x1256af08931c6;0xd736fd7f35224;0xe6cfd612fc6a1;0x996b3740fc3f4;0x38dad9f5620]]]
 (V [0xf941647984a0;0xe65860e9c4a39;0xff0e53fe4a800;0xa971feae98d5f;0xe8f6f94519f1] [0x14b9079278e9;0x297613ba51bc2;0x293dceb58db6c;0x7c31a9661dad3;0x82ed4393f36f] [0x295e45c1a5f89;0xd93082b901560;0x9cdd42a1cf587;0xa74a4012c0a52;0x4e3a181231bb]) [[0x1bc7d50d0bf49;0x5b52dd91284e2;0xabaaba993437a;0xda6fa600d786b;0xba08009daf95];[0x43890acb98b75;0xddc3c24165e5e;0xb6274524f779b;0xb9a17c97cb802;0x30bc9ca9b2a3];[0xc108307c0ec12;0x6eb5479afcc72;0x5a83e05d62ac2;0xdde04edd34e23;0xfc2f45003269];[0xe0e3b7a76e0aa;0xb03c5831cf0b4;0x6c5774eee5c5e;0x319400ff64504;0x2df90a442e5b];[0x44b6a9420d7fb;0x6281447af9105;0xded0f961320ea;0x54b42d5790a9b;0xb484892da2e0];[0x7cf0625f3549b;0xe883f585228b1;0x4d0a92f692005;0xc6da1a8394715;0xb967836dd064];[0x0;0x6bd1ecac5e94c;0xa712372ec0687;0x7336a1c736eb5;0x9babf6599b053;0x174122db84f];[0x0;0xd4d50b5362137;0x97571b59d8a;0xa876d8173fb52;0x4e259e8c5dbd8;0x4a2c388db8a];[0x0;0xdfbe2c2784854;0x701b41f4dffd1;0xee25e3aa719f1;0x1be9e136e17ff;0x140bfe1c5c8f];[0x0;0xca3a239ae18da;0x80ea6fa6d26cb;0x47d1ff54c0fe;0x2aff36322085e;0x74a0971bc30];[0x0;0xd2cd52396403;0xc0c36961007e0;0x91d8c98a120f9;0x1bcf74de2b1b6;0x257234db97c];[0x0;0x7b784748a0211;0xebc148f85eb19;0x333082290485e;0x121dd29e9f3d8;0x3e6fc74b7823];[0x0;0xfd81d186d5b9c;0xc994b9ddfcd48;0x998cc5127f992;0xbf2b65231cd3f;0x2c59f2acf11d];[0x0;0xf6da63b91313c;0xbab53aa8e16af;0xbc9e88fa15ed6;0x18212407adde8;0x898d489ca6cef];[0x0;0xf4694020c7b81;0xd8d41ecbd726b;0x3accc96225df1;0xd7f565bc5dbf5;0x772554b922bb]]
 [((V [0x67e9d6b2f2f1a;0x9ea812bde1552;0x12fd2dd275751;0x82420270a7c30;0x16744ea8439a] [0xa14135fe2e082;0xcb5eaffe6298e;0xe07d48d43955;0x856c7e84c581c;0x984c8beba167] [0x631ba9b1a19ca;0x152978ab1cda0;0x1806884975bcf;0x16c0b7a857698;0xd687c4d390fa]),[[0x2b35fb8681982;0xc7fb8f168e555;0x1104d4a1bc62e;0x68ebfe28e9ff2;0x9db5068b93e0];[0x32decada49b0f;0x3676bfbf794a9;0xbeed0e6f860c8;0x415a2eb7c5dda;0xbfc4dafe8815];[0x295e45c1a5f89;0xd93082b901560;0x9cdd42a1cf587;0xa74a4012c0a52;0x4e3a181231bb];[0x295e45c1a5f89;0xd93082b901560;0x9cdd42a1cf587;0xa74a4012c0a52;0x4e3a181231bb];[0x553b3c403aa48;0x611a079b8806b;0xff3d809f4cb8e;0xc644e51e12fc0;0xd8513825b0cd];[0xdda38e9a0ee5f;0xd55cb823f143d;0xbfaf8dd039539;0x7b154999b2e19;0xe773a2d8d747];[0x0;0x1af40846a89d7;0x59dc9b5b4b041;0x41ff2f5e99934;0x2fce2c2fe5e8d;0x1d72f16df50];[0x0;0x7cddaf7b928f5;0x9b56db84ffb66;0x728c9904eb032;0xad0870da46d94;0x3030f1d630a8];[0x0;0xf4694020c7b81;0xd8d41ecbd726b;0x3accc96225df1;0xd7f565bc5dbf5;0x772554b922bb];[0x0;0xf4694020c7b81;0xd8d41ecbd726b;0x3accc96225df1;0xd7f565bc5dbf5;0x772554b922bb];[0x0;0xb997251b0cf9f;0xc296eefd1eb03;0xfc578294d99f9;0xbd7c3886d33e0;0x42f5d4887504];[0x0;0x9462886f57d87;0x4e3388ee0e996;0x7228555e3432b;0x5eaf5f381cad4;0xd4009211428b];[0x0;0x22a12ae2421a2;0x25f901ab7fdec;0x25ed0c0ae8aa4;0x50ee94264d07;0x10d20af12195];[0x0;0x41b8f47b81ece;0x103b4db45eb0b;0xfdf07ea05eb95;0x41ac42b814736;0x9aaff115d2dfd];[0x0;0xab51b5bf81b26;0x13e28f530718b;0x823a7577b4b9d;0x9a5839d9e42cf;0xd5bc58113b9]]);
 ((V [0xa9a70af6cc126;0xde00cc21901e3;0xb0d0dfe8769eb;0x4cb0bd6367d43;0xfafaff8020a8] [0x3a4ce27df4984;0x5daf371ebcd4c;0x12fb6448adac1;0x7416269690cf7;0x4e8dbd681385] [0x174ce6a95efa7;0x1ba08601820b0;0xa2d0b3f4a51b7;0x39615d6f96ef5;0x766dd5bce9f8]),[[0x40f1cc628dc3b;0x3f039e6d40593;0x4d20bd3af57ee;0xb8d83d66f3eb;0xebc68b73ac87];[0x1c455b4efd03f;0x8d9d769ba2e19;0xfe84d38b8a2;0xb1e13c70499d5;0xd101a78ff3be];[0x631ba9b1a19ca;0x152978ab1cda0;0x1806884975bcf;0x16c0b7a857698;0xd687c4d390fa];[0x631ba9b1a19ca;0x152978ab1cda0;0x1806884975bcf;0x16c0b7a857698;0xd687c4d390fa];[0xffd7cf5f813c8;0xb471f45c2326f;0x2a484fca269d2;0x97aad4ca6354;0x2a9ca0ce1e13];[0x1c6d8bef7bc78;0xd92b823f7fba9;0xd6b6350964ecf;0xa8668f23a3680;0xa66506c1d5ab];[0x0;0x72e77c3e8e425;0xa89697efbaae1;0xfc0ef8f2fa674;0xa6c21d42c56f2;0x50c2e0441e3];[0x0;0x3f2aa7ea88909;0x51f6d9c65fd06;0x81b68fd7359dc;0x6297ca099819a;0xc595038d1928];[0x0;0xab51b5bf81b26;0x13e28f530718b;0x823a7577b4b9d;0x9a5839d9e42cf;0xd5bc58113b9];[0x0;0xab51b5bf81b26;0x13e28f530718b;0x823a7577b4b9d;0x9a5839d9e42cf;0xd5bc58113b9];[0x0;0x747dadd46c324;0x7ec0ceb03ce82;0xa4d5671da3f33;0x7e10335eefa2e;0x5a9afd0b300c];[0x0;0x6873bb31c1cb4;0x42fd158146340;0xdfd5319642d27;0xca345843007ce;0x1f8325c4c46];[0x0;0xa356bcadf0ef4;0xaae49c5b90e34;0xc2dd9f53bda0d;0xa593bf41530a;0xcce889d97802];[0x0;0x9dc3fc4d663bb;0xf328583e68ac3;0x224c2bb05ebb3;0xedbc9547fa374;0x4f7475a4ef3fd];[0x0;0xaefa0f60161b7;0x8b72e837f837d;0xe942b2640995b;0x1f664f3494e97;0x4d036fc91b42]]);
 ((V [0x66051be647c2a;0xfb654555c8537;0xd91fa52f4e135;0x51b95ec4c2fbc;0xf0aba6ade732] [0x6d8a435ebf764;0xd3506eaeaec6e;0x58ca5e80844f1;0x7a805b1f018d5;0x28e5a5049ba4] [0x86a535c89415d;0x95f4e45b7356;0xebc4c5a39357b;0x5d4cf18390e9;0xa998ac0ece65]),[[0xc30fffe975f53;0x6bd0b6902079;0x961fd3ac0193e;0xf9127389a459d;0x492e0a14f7c2];[0xe0f84a813d94e;0xccbcbe28a8872;0xde191effdcf0e;0x3081f9c83c6c6;0xc6ce9aa2883e];[0x174ce6a95efa7;0x1ba08601820b0;0xa2d0b3f4a51b7;0x39615d6f96ef5;0x766dd5bce9f8];[0x174ce6a95efa7;0x1ba08601820b0;0xa2d0b3f4a51b7;0x39615d6f96ef5;0x766dd5bce9f8];[0x4e8f9c3748413;0xda099185f831;0xa1f6a6e9d948b;0x797de846d7f43;0x94828cc0aa9e];[0x9268ae49f553c;0xbf1c251049041;0x3c22781603a83;0xb704118164783;0x324c0de1dd9f];[0x0;0xbbde086f0a226;0xcb99f7ad04c95;0xd808f793b416;0x924c134f0ed53;0x2c9554a2799];[0x0;0x7c6b657b6fcc1;0xf1a8e59e7f4f9;0x569e18ff397ea;0x128ba9be7d7f8;0x21da9e594436];[0x0;0xaefa0f60161b7;0x8b72e837f837d;0xe942b2640995b;0x1f664f3494e97;0x4d036fc91b42];[0x0;0xaefa0f60161b7;0x8b72e837f837d;0xe942b2640995b;0x1f664f3494e97;0x4d036fc91b42];[0x0;0x274def772418b;0xedc70d115b79d;0x7063e21534a2d;0xaae24b3e5de0b;0x181aade59cad];[0x0;0x888529375c3d8;0x467e9a626dac1;0x8644d98d44be5;0xffaef05758cba;0xf60f311e4508];[0x0;0xd61a54d399698;0x19eca7366aa77;0xadd65e2fff3bb;0xb48cd6fb3210b;0xbae6fe6aafba];[0x0;0x2395d35c26c6;0xb13e156f09f05;0x171f76d7a5526;0x8bd887279e352;0x2977d562ddf7a];[0x0;0x39797caa08aad;0xfdbcf3dc4dc74;0x636ac18b2f8ce;0xec8fa8663acbc;0x2672b6ba3d1e]]);
 ((V [0xd561122618eca;0x8f3fa71c6df04;0xa69bfc168abc7;0x64a10002daeaa;0x31f215fe9c56] [0x72e9f1d1cf82a;0xdc3c9f37c422f;0x92d456197b5fd;0xe6add22a13caf;0xeae91673160e] [0xfcbcebececde8;0x9e1deef83ab8f;0x5e54b2bb517b4;0x6c3b79480799a;0xebfc0eae71c]),[[0x49584cac4985b;0xcd19826a418c0;0x59ef66aec59a1;0x76ea3a00c96aa;0x32aec3389da9];[0xedb787b724646;0x624b2dd5f0d27;0x4c572e15eaf63;0x5c5751d615b9a;0x5d1f4d358e49];[0x86a535c89415d;0x95f4e45b7356;0xebc4c5a39357b;0x5d4cf18390e9;0xa998ac0ece65];[0x86a535c89415d;0x95f4e45b7356;0xebc4c5a39357b;0x5d4cf18390e9;0xa998ac0ece65];[0xc3b6490b000a7;0xbd00a9223b0c5;0x88fbf4dd14f9a;0x48cd6a53fc23e;0x83e01b2861e5];[0x2a013eac24337;0xa54a84b3b5c62;0xc35b3938d5fc8;0x1389e7821995b;0xd93f320d2c64];[0x0;0x7f2e77799284c;0x798a0e60ba333;0x93a226a175207;0x27d2b4f6b1029;0x3fd877626cd];[0x0;0x3a2e312885b9f;0x75123073c6b56;0xa03bed809ea00;0xd457d6454842d;0x219398b4a347];[0x0;0x39797caa08aad;0xfdbcf3dc4dc74;0x636ac18b2f8ce;0xec8fa8663acbc;0x2672b6ba3d1e];[0x0;0x39797caa08aad;0xfdbcf3dc4dc74;0x636ac18b2f8ce;0xec8fa8663acbc;0x2672b6ba3d1e];[0x0;0x3599a7c1243ff;0xaad036b4af9ff;0xffa20fb3d8fdf;0xcb4287ca95725;0x68891921540];[0x0;0x91186be2b095b;0x192e74170754;0x2b5e3e541d51;0x346c4c203d467;0xe2424b9e2a57];[0x0;0x2cd8729700894;0xa2b12c4ea4eaa;0x26703f220803f;0xc00901e23f0d;0x122b0d5e6c1f];[0x0;0x81eb71949f52b;0x52551d7494af2;0xc7862a8a479d5;0x5cd2b27fcbdd8;0xf44071769af77];[0x0;0x854c256574a24;0x305fe773c017;0x4543d13d2eab1;0xbb8ee6b90b8aa;0x2dd4c1d20194]]);
 ((V [0x3703097951db2;0x13bd96537faa2;0x9bcdd004a7667;0xe3ff815f97da5;0xfd084a472fb8] [0x2543ed2ec903d;0xab6b2e75c81f5;0x251d5d92db224;0x7ece39cd399d3;0x9190a3142a15] [0xf449fb19390f3;0xed00e6d6b5214;0xd512d2b166aba;0xcea77badb792;0x4a0199c9a0f2]),[[0x68b8127b09d7e;0xff744f304c9d9;0xa6a3d25b2b19;0x1f4b02be97f47;0xfed5eb08a5fa];[0x1c1689fc9a224;0x1efaf9109a765;0x321c53805735b;0xa02ccd8a61d48;0x9c9f74cdad6e];[0xfcbcebececde8;0x9e1deef83ab8f;0x5e54b2bb517b4;0x6c3b79480799a;0xebfc0eae71c];[0xfcbcebececde8;0x9e1deef83ab8f;0x5e54b2bb517b4;0x6c3b79480799a;0xebfc0eae71c];[0x873f8beb7ed4a;0xd26572c89bc7e;0x3648864fa85f1;0x226de97401aad;0x883337a70b5e];[0x94d6fe111b4db;0x4c958647feae6;0xfbd3cd30aed69;0x7dbee4166029a;0x146c3d26a210];[0x0;0x111ea1a873e16;0x57d5bb63bed0b;0x8e7d9370de5bf;0xfb178dd518cbc;0x58d67b1f9b];[0x0;0x40e34c4a88bd4;0xa8aef5511df78;0x8b4322330ade;0x27eeb71ccf901;0xeae947f1a66];[0x0;0x854c256574a24;0x305fe773c017;0x4543d13d2eab1;0xbb8ee6b90b8aa;0x2dd4c1d20194];[0x0;0x854c256574a24;0x305fe773c017;0x4543d13d2eab1;0xbb8ee6b90b8aa;0x2dd4c1d20194];[0x0;0xb9eb5daa8da76;0x764c6826b55d6;0xf340618bd9789;0x605d0f8d2d950;0xd78ef14443c9];[0x0;0x7f07749bb44df;0x37b004f6332a4;0x2393ef26b03f7;0x68bca9d09e7c3;0x9be91590f1c];[0x0;0x1e2d8ede395a6;0x3932fe89ff1dc;0xa5c523e818826;0xfd79c9be155ce;0x9acea8dc9002];[0x0;0xe528267203d2;0xc1405914a440a;0x55db2e6512915;0xcf6c65e320a64;0x9518c05b6baec];[0x0;0xd821795e8de21;0xca4f8bbedb9b;0x3fa273f0a82f3;0x4d4a1ba52995a;0x8fe0a7ec4f9c]]);
 ((V [0xaae7ff93515c0;0x202b448925e9b;0x87037290219a3;0xec771fd7f228d;0x9f4a3e8c8573] [0x3f2d3768b3b3f;0xa171f839c091;0xd1e86a0d51e9d;0xbafdb784432c6;0xa176147bbd3a] [0x6108e3f5ea754;0x3162779257b9c;0xf6c3772d6aa44;0xf4d51b6fc37c6;0x4c47c7a52dae]),[[0x98d16ebf5f477;0x283b0dd6c28d8;0xa5bbcef2697ef;0x89d7c2bb5d575;0x85abd441422];[0x986a0e9d5ed8c;0xb350f30511bdd;0x5e63dd677feeb;0x7217dfaec42f5;0x1f492806f71a];[0xf449fb19390f3;0xed00e6d6b5214;0xd512d2b166aba;0xcea77badb792;0x4a0199c9a0f2];[0xf449fb19390f3;0xed00e6d6b5214;0xd512d2b166aba;0xcea77badb792;0x4a0199c9a0f2];[0xce4794bed4906;0x707ba545c8c8;0xb04699ac0213f;0x2a042b62db131;0xf6d51bb6390b];[0xca2279de8a21e;0xac4938b0b5314;0xae1d43bb7ddac;0x4813b44be91c3;0x28740c50be0f];[0x0;0x6a9fa8ef7ccc6;0xdff3541b7954b;0x89dab876e078;0xdd000da37282c;0x1bdc2f56393];[0x0;0x3af63919afaff;0x9b423bb114a7d;0x828a463f8934c;0xf6f4ba4b308b6;0x26a48153ab2];[0x0;0xd821795e8de21;0xca4f8bbedb9b;0x3fa273f0a82f3;0x4d4a1ba52995a;0x8fe0a7ec4f9c];[0x0;0xd821795e8de21;0xca4f8bbedb9b;0x3fa273f0a82f3;0x4d4a1ba52995a;0x8fe0a7ec4f9c];[0x0;0xfeced329a6cf5;0x5ea4c389f4af9;0xae4f88ecd8cca;0x61023f3cff62f;0x52c52a74b63e];[0x0;0xf14898cad204a;0xdcd5bf20ad71a;0x5af913e55ad03;0xa997aaf29fe47;0xfa1963156e53];[0x0;0xab0d4e2991d36;0x52b2b20d4531e;0x505ea9d11a343;0x9ab7f23a66ab4;0x137782a6c97f];[0x0;0x9ac612f25fdb3;0xf70da5ed3e8b;0x4b0e1872e7dfe;0xec466baa2ce0d;0xaa51bebd1e5e1];[0x0;0x4cd23e6d899f4;0xb6451797a20f2;0x45f9482d1e4c0;0xce70d17a8306e;0x64772a4e0000]]);
 ((V [0x8c7e9f8aab609;0x540c61c066743;0x2ee59fc697760;0x181ff2838b29e;0xe5edafbb3fb] [0xf5ef6b54ac6c2;0x38a42277fa4d3;0xe23166886d96a;0xd95cde78a4b86;0x2f5e97369b71] [0x267eeda240f3a;0x66ff594fbf694;0xc06fc5ceb8e65;0x7b4231234d48e;0x8d1767d06e1]),[[0xaa89ae103efde;0x16146eb5728d0;0xc580d0c12b2d5;0xabdb6df676d41;0xe47de86caed0];[0x4c912d62f782b;0x94ce7c8938283;0x52aa48947d6b5;0x950638cb45227;0xc9182c2f2deb];[0x6108e3f5ea754;0x3162779257b9c;0xf6c3772d6aa44;0xf4d51b6fc37c6;0x4c47c7a52dae];[0x6108e3f5ea754;0x3162779257b9c;0xf6c3772d6aa44;0xf4d51b6fc37c6;0x4c47c7a52dae];[0x392c6e44bdf32;0xde1b01a261be6;0xd342261aea316;0xc258f8f2b0880;0xf429d9cb8303];[0x1364bf1e39691;0xb6b37ae6d669d;0x7f6822799339e;0xd2ad3fd8949a6;0xd4ee5263aae7];[0x0;0x1f19e31145c32;0xfa7c5061619b0;0xe8b25b38e0b7e;0xe004e2542e888;0x1cb7598801d];[0x0;0x62fad5ee6a65b;0x882743fae0393;0x267069e623e36;0x2cafbf783375;0x4415721d07a4];[0x0;0x4cd23e6d899f4;0xb6451797a20f2;0x45f9482d1e4c0;0xce70d17a8306e;0x64772a4e0000];[0x0;0x4cd23e6d899f4;0xb6451797a20f2;0x45f9482d1e4c0;0xce70d17a8306e;0x64772a4e0000];[0x0;0xf668ba6f83009;0xf66b517a04f78;0x6529876828bae;0xe2b81240a47ab;0x65d5bc3a87b9];[0x0;0x680c18c010de9;0x4bce8b8a3933d;0xe7e02aeb090c3;0x84871152a5903;0x631d4f3ac64b];[0x0;0x7b330356fc8bc;0xc61e9afae1d37;0x6376303bdfc5a;0x628f5e3615896;0xb49d54f1b8a];[0x0;0xf842f9bc45afe;0x9b2e00275fbc2;0xf4301dab34e0b;0x1b19c22e26f7f;0x300124cdb488a];[0x0;0x42cde39d5d628;0x2649527ce4ef0;0x7351241a16803;0xaa8a78b9b0b41;0x2a8b985a25d]]);
 ((V [0x6a92fba02a757;0x4e10ee14c4b39;0xabf0d26e51a9;0x5137fbc5d0573;0xa81b1f860b83] [0x1960fa93cd83d;0x4de30d27c6e6a;0x9160f6c95e568;0x9e50d643c8f0a;0x291fe4818dad] [0xa0e1f0451ccc0;0xcc74b182a645a;0x5ccd4fce3b409;0x5bfe9d2cd5dba;0x3897ffe2fdf9]),[[0x65477e1febbb3;0xb177533ffbd6d;0xdd922b15a1ce1;0x77e41bd4f343b;0x194a78bff1dd];[0x8b242a88f2a0c;0xba0ddb4f38c37;0x86c60bf8d0820;0x28d8abd66e4e1;0x38244a72641b];[0x267eeda240f3a;0x66ff594fbf694;0xc06fc5ceb8e65;0x7b4231234d48e;0x8d1767d06e1];[0x267eeda240f3a;0x66ff594fbf694;0xc06fc5ceb8e65;0x7b4231234d48e;0x8d1767d06e1];[0x5db283edc70f4;0x8cc31e53870ca;0xae68686860f1a;0xc1f8583f6e19a;0x30d15f6b4ef1];[0x2d71a69b2b919;0x2d4abcfbb1b6d;0xd85da3906f906;0x66e0539700346;0x752eb071529];[0x0;0xde5a0e900148d;0xf3557e8c4bac8;0x1204d39a63019;0xb96c7383d1cdb;0x351d5ddadc];[0x0;0x52d5ac69ec6ce;0x41e6b04445413;0xd4e3df07e9edf;0xd63922f0ecbfc;0xdf054741f6];[0x0;0x42cde39d5d628;0x2649527ce4ef0;0x7351241a16803;0xaa8a78b9b0b41;0x2a8b985a25d];[0x0;0x42cde39d5d628;0x2649527ce4ef0;0x7351241a16803;0xaa8a78b9b0b41;0x2a8b985a25d];[0x0;0x4b5f84a05f870;0xc5e39562ef8dc;0xf09e48ca0ffdd;0x6c71fab9fe8ce;0x8c3de79727f];[0x0;0xfac4ee978dd88;0x6a0fd617ca3d5;0xc9a778764b9b1;0x490b47fd4d855;0xce831913d9];[0x0;0x507edd34b8da1;0x4cfc1898f3bff;0x98dca51b0c0c9;0x8f3ff53001bd2;0x24ddc398b64b];[0x0;0xe6be76eca9966;0x376a97477633;0x226fdb5652b76;0x957d81f5f5f19;0x2b2195e2c56fb];[0x0;0x904b4bd88223d;0xc22900b7064a6;0x20c8d2ea3ed1c;0xa45c832ad4a32;0x1b01496283da]]);
 ((V [0x389e86798f524;0x90f581b699c35;0x5a1b67d7ac16a;0x13bf3947fd659;0x77c2c362790a] [0x501f1cd7e00f5;0x1a92e740d9bd;0x5faeba180325b;0xda864601c6911;0xdb69986dd8fe] [0x27b324aaf06e9;0x4a4f455bea28f;0x3bf2fff358a18;0x2c772a0ac7072;0x3839eeb1aa30]),[[0xc2bdba1554963;0xe4b308274e958;0x603e9787699bd;0xf82a88a1214f3;0x94bb4a07d0e3];[0x2d055a6e9557a;0x51818f3ed5184;0xe5ae87bbc1572;0x3f3aac5709952;0x8e2eb481fad];[0xa0e1f0451ccc0;0xcc74b182a645a;0x5ccd4fce3b409;0x5bfe9d2cd5dba;0x3897ffe2fdf9];[0xa0e1f0451ccc0;0xcc74b182a645a;0x5ccd4fce3b409;0x5bfe9d2cd5dba;0x3897ffe2fdf9];[0xb9bdcbc65069d;0x6d085210aba2c;0x1d9b8b43dfc;0x413edce09057a;0x8a73ad392a54];[0x73478ea844c75;0xe4793d2e29757;0xe590ec307d775;0xfdfbcf76793d8;0x7e6f3e0ef558];[0x0;0x77d33be37a5ab;0xce305283bfb9f;0xa8f3d69b4b098;0x9e6b09c6ad07d;0x154e18200b6];[0x0;0x7812129dfb22a;0x8c30bb34d4b50;0x35cc5185594b3;0x308167ede7d0c;0x20e14754cff1];[0x0;0x904b4bd88223d;0xc22900b7064a6;0x20c8d2ea3ed1c;0xa45c832ad4a32;0x1b01496283da];[0x0;0x904b4bd88223d;0xc22900b7064a6;0x20c8d2ea3ed1c;0xa45c832ad4a32;0x1b01496283da];[0x0;0x1698cf7565cf4;0x3c6dac567aca4;0x5df58fb3147a1;0xf2af9597dc0cd;0x69b3b2aa2b8];[0x0;0x36cb8c619a144;0xc6ff7ca34fccb;0x6844f55a1604e;0x854677ebdf18e;0x6e639c3f9944];[0x0;0x58323a17a514;0x57ee680137c3a;0xc383dbf8f15a1;0x262d0a9a0014a;0x4283e1d17ab];[0x0;0xea68b5a1206e1;0xd30b117dd2637;0xb4d934108b26;0xfffff975fe585;0xe8a6555a7a964];[0x0;0x76a42ecc6272d;0xd16f51ec31fee;0xb2016ee467f4c;0x7b25d15bd6160;0x66a503566862]]);
 ((V [0xb1460aa6dc68e;0xe0b620628ea0e;0x3a0f36bcd6b7e;0xefe18327d1ef4;0xcac8a6174488] [0xc2bc8b5497751;0xb24e96269d0e9;0x7d24bcc0cd671;0x3c545a9b3bcd;0xe6411405eaa2] [0x61da2719ec1ee;0x83d5b29f772f6;0x64e71511b7426;0x3e4bc0b6467f7;0x5fe00f43c3c4]),[[0x15ef9e1231a47;0x5c2b1bcbce6ba;0xe46f3b3f58cfd;0x5dadf19f9c79a;0x9822abd92432];[0x357b7b16b95a3;0xb7e7a3999a4d8;0x51053cd8d04f6;0xf292c1e8e15c;0xf20b6e1712f9];[0x27b324aaf06e9;0x4a4f455bea28f;0x3bf2fff358a18;0x2c772a0ac7072;0x3839eeb1aa30];[0x27b324aaf06e9;0x4a4f455bea28f;0x3bf2fff358a18;0x2c772a0ac7072;0x3839eeb1aa30];[0x3ee9772b1f78b;0xb56e366a704eb;0xac6489fef7be3;0xf8b9d15cca2d5;0x76bfd3b341ab];[0xf69203eb99e19;0x2796d2f29fec;0xa4a0b2d9d8913;0x166f5ac1c3e86;0x7b4b9a63d14d];[0x0;0x48088806913b4;0x2385d0bca00e4;0x2d2abbceaec53;0x7824ae37f0e57;0x152aae9dabe];[0x0;0x836a9ed869064;0xb190f6f87a192;0xed2e7c8408957;0x6b88f3e3ba4df;0x216a03299424];[0x0;0x76a42ecc6272d;0xd16f51ec31fee;0xb2016ee467f4c;0x7b25d15bd6160;0x66a503566862];[0x0;0x76a42ecc6272d;0xd16f51ec31fee;0xb2016ee467f4c;0x7b25d15bd6160;0x66a503566862];[0x0;0x5e29cbb973e42;0x3f6dbef8ef49a;0xb0d98e58b7cbe;0xabc222610f23c;0xbc0dd65a5622];[0x0;0xff8950bb925a1;0x52da6b6fb2abf;0x6d65cfd335da3;0xfbe7f41ab56c5;0x3806a5d242e5];[0x0;0x3d8b739661eca;0x8267ccdbd33cd;0x6be29cf91b701;0xb5090a50ac314;0xbfbabad5a035];[0x0;0x71b8ad8bc4fe4;0x242d3c225cf61;0x3b2c9aa817792;0x15e18c3b96464;0xe709e87a66930];[0x0;0xdba85af49e500;0xe2e7e27e9f5ec;0x4beb0e0ed4d02;0x3bdf8a69829b0;0xb663d207703c]]);
 ((V [0xb897aae85bea9;0x211cceb2a7f1d;0xea6bd89a01f3a;0x7085f2489902d;0xdce64da971fe] [0xe056737b3542;0x92750a857a4b4;0x26496c768fdac;0x6e4dfbd5f9660;0x8ac46410a192] [0x8a4f2b9b72f55;0xe6905a44b521f;0xf635288d6f949;0xb05a3b5eac047;0x197b374265ed]),[[0x14316e927f2cb;0x2580b224ea73;0x22ca5773c4e52;0x358e344c43460;0x7b4e487b589f];[0x49f1eda3769d5;0x36effb3e8bf86;0x67e4e650100f0;0xd1592a1e259a5;0x61aeefd3b7b7];[0x61da2719ec1ee;0x83d5b29f772f6;0x64e71511b7426;0x3e4bc0b6467f7;0x5fe00f43c3c4];[0x61da2719ec1ee;0x83d5b29f772f6;0x64e71511b7426;0x3e4bc0b6467f7;0x5fe00f43c3c4];[0xc559e8200ad3c;0xf3c4643bbec80;0xf3a6ae228b2d1;0xd4722d520488f;0x8210dc88fabe];[0x849805836ba31;0x432b9702cd305;0x743e382d84e1e;0xfce6fccc21115;0xdf9e134abcf8];[0x0;0x978345fd598c9;0x694b806d9ed34;0x681f343c0ebee;0xccd5a901d85d5;0x2417c220338];[0x0;0xd9474e7520be3;0x7d3e78d250bd1;0xf16677fa05942;0xf9cf0ce5263ca;0x2e2df8bf6bd7];[0x0;0xdba85af49e500;0xe2e7e27e9f5ec;0x4beb0e0ed4d02;0x3bdf8a69829b0;0xb663d207703c];[0x0;0xdba85af49e500;0xe2e7e27e9f5ec;0x4beb0e0ed4d02;0x3bdf8a69829b0;0xb663d207703c];[0x0;0x9576e789dbf63;0xfacaebac1cdb1;0xf7e9f1968a642;0x31d8b551dd293;0xcf190085ce2d];[0x0;0xf338899215065;0x3301c4519870b;0xd0bb7ae8d12;0x5f85ad645ed26;0xa0a14360a845];[0x0;0x3e37e3b070626;0x816878c7df9f;0x73a89cc11d22d;0x567356097c637;0x544a36e7b037];[0x0;0xfd7bcafbc5f0c;0x9d2484458c50a;0x8907c1819c227;0xfde83cec7e6bd;0x9021767b44d52];[0x0;0xce2eec89de64b;0x857efd4d6cd98;0x249f01b046ba4;0xabf2fa4aa0df0;0x77bd9c891d54]]);
 ((V [0xfb78c4af5db24;0x4a969cfb2a8d6;0xc2ba8f76caae5;0x40ec6bac1f51c;0x472fd00bd425] [0x21d55134349b7;0xddf2c50feadb;0xfdd0f6b49a9c1;0x9131531d233c0;0x5af16a977ce8] [0x8596e32a1595e;0xe9f644ee9fa8;0xe23cb2814e817;0x78039b3e98b2e;0x6128bab8a883]),[[0x6760a43c44e18;0xe3e45586cdb64;0xa7c17d4eb083;0x5b9bf51131820;0x2026d954ae90];[0x7fad7b1ccc2bd;0xdcad83b627480;0xc2883b6c07ce;0xd11dea219ef0;0xdec3f197b205];[0x8a4f2b9b72f55;0xe6905a44b521f;0xf635288d6f949;0xb05a3b5eac047;0x197b374265ed];[0x8a4f2b9b72f55;0xe6905a44b521f;0xf635288d6f949;0xb05a3b5eac047;0x197b374265ed];[0xa609c2bad1d80;0x33e673eda1b90;0x3c2d5d25f62b5;0xed08761f2c66c;0xc7886f3b03dc];[0xd9a3b861fa53e;0xa8c70fc8858ef;0xcffb2690ca519;0x20096882ed883;0x173b825cae28];[0x0;0xfd7d756ee7a99;0x9a0ec0ab93ee7;0xdcec00cf8d8f3;0xe5d55d1dfa2aa;0x997b425420];[0x0;0xa443629e653fd;0x6e7853b146b29;0xc58e2d97f8e13;0x5f7fea8f947b4;0x33344d4603e];[0x0;0xce2eec89de64b;0x857efd4d6cd98;0x249f01b046ba4;0xabf2fa4aa0df0;0x77bd9c891d54];[0x0;0xce2eec89de64b;0x857efd4d6cd98;0x249f01b046ba4;0xabf2fa4aa0df0;0x77bd9c891d54];[0x0;0xdc16b18c02d1c;0x2723fc48b6d25;0xb9c7b24e10f21;0x4673f96089869;0x4b38528b4ec6];[0x0;0x7d90a6ceca5;0xee44c94838b14;0xae2c254b98c49;0x85532d7fe2432;0xbe9ca4aadff5];[0x0;0xe4cafa1cf2022;0xf7ea5543769a6;0x33efe4b8fc094;0x66985cf024650;0x3df1f303ec8a];[0x0;0x6cbfe453a7cc;0x2a0f4f626668;0x2ffbf6413cd72;0xadcc8314d4952;0x5bae51de892bf];[0x0;0x845e236234152;0xd5ed56cf43d3a;0x8c5f27c6a2759;0x4130dcdb7d61b;0x1949f0caefcc]]);
 ((V [0x13c0621c76394;0x37b371afd0bcf;0x912c39ca7c50c;0xef016701ef362;0xf5b403e68989] [0x1fb63515c8c3;0x6d297d446814f;0x759c558dc2f66;0xa18c8174f3707;0x4690d7dc46f1] [0xec3b621a31be3;0xcf2e80120d4ab;0x9487e1bf5b41a;0x20ccfaa094bc1;0xfc40d4644325]),[[0x4fc8085cbedc7;0xd7b303f7367d9;0x4d6649ed68ab6;0x2bc75a7b4abe2;0xdfcab5359a07];[0x7e65aec83c094;0xc1f989d27ba0d;0xd49e9848f8065;0xa2c54ba9f4a3a;0xf9e3a1556514];[0x8596e32a1595e;0xe9f644ee9fa8;0xe23cb2814e817;0x78039b3e98b2e;0x6128bab8a883];[0x8596e32a1595e;0xe9f644ee9fa8;0xe23cb2814e817;0x78039b3e98b2e;0x6128bab8a883];[0xce997e3c69954;0xfae64fbbf85a4;0x2f07b6cc41a28;0xbd5290afcff99;0x57da5b370f59];[0xafcc308bd2741;0xc7133a1683468;0xa596e17cb663c;0xe572bafa24aa1;0xa209461e55ba];[0x0;0xe8937e1b6ea15;0x342d99d7a43a0;0xaab7c34ee601f;0x16ffd9a568bd7;0x24937ceda8b];[0x0;0x7cf1cd07d3a32;0xe5c3d1095d851;0x98b3fb1157aff;0xedb55eef6422d;0x54ef69905467];[0x0;0x845e236234152;0xd5ed56cf43d3a;0x8c5f27c6a2759;0x4130dcdb7d61b;0x1949f0caefcc];[0x0;0x845e236234152;0xd5ed56cf43d3a;0x8c5f27c6a2759;0x4130dcdb7d61b;0x1949f0caefcc];[0x0;0x8c1f27dbdee0b;0xa909d2674c56e;0x40e63a639a16d;0x810d3cd93a960;0x204ea29c616e];[0x0;0x98f77522b4089;0xfff1ec14cc72;0xa1c105d118c97;0xc8f96f0a7ecf3;0x13cb8e549d17];[0x0;0x18820d1726dd8;0xa0e83a1dcb885;0x956ca8f052900;0x3aa63e6f5eed5;0xefd69142dd70];[0x0;0xb59423532650e;0x40b70def2351;0xea375065faf;0xc1d65a50f49a6;0x46abcb4c36b01];[0x0;0xf5e62f092ce0f;0xf71a080fd9ce0;0xd449604eb2b04;0x2f27a401512c9;0x43ba3d80d55a]]);
 ((V [0x2a24dac18efab;0x616c408878656;0xd8c9e35f7fcbf;0xa7a2418af36ba;0xc5038b2e67bc] [0x55f9b11344ba4;0xe79ebb157aac8;0x4da3e3c8013b3;0xe6e95d35a49c6;0xbb3371eccfa5] [0xb3a8661d12dbc;0x29f7d713dfdda;0x4ce43b5477921;0x797ae7df0ea34;0x96ff1a22c01e]),[[0x446f499be07fe;0x5362f6fed9cdd;0x266f4bc6a9f2d;0x24e5964f598d4;0xa1708711d233];[0x8b399b650bb67;0x6bacb08aef48b;0x54857f627efb4;0x755fd2782b84;0xffb21adc7277];[0xec3b621a31be3;0xcf2e80120d4ab;0x9487e1bf5b41a;0x20ccfaa094bc1;0xfc40d4644325];[0xec3b621a31be3;0xcf2e80120d4ab;0x9487e1bf5b41a;0x20ccfaa094bc1;0xfc40d4644325];[0x97b48d8316161;0x5d6b4ed5e27c3;0x93f7dcd75f352;0x9ec4498b8611f;0x4514c4e1d4ec];[0xf3850de1f5a07;0xe4161b50ccc7;0xc08da28b1fc62;0x6891b39bfca64;0xba9d55fa9d8a];[0x0;0xa3738b9b66065;0x1647a9963b66b;0x745711a2590df;0x46d327361df0a;0x5ef6559dca7];[0x0;0xb4721f9fd3225;0x45c6766d2a8b1;0xdce0570692c33;0x4770341602b3a;0x9f13a707b986];[0x0;0xf5e62f092ce0f;0xf71a080fd9ce0;0xd449604eb2b04;0x2f27a401512c9;0x43ba3d80d55a];[0x0;0xf5e62f092ce0f;0xf71a080fd9ce0;0xd449604eb2b04;0x2f27a401512c9;0x43ba3d80d55a];[0x0;0xc7f4835c06b18;0xc178d8074810e;0x8fe69f756c2ae;0xb0e2752e4c0eb;0x13738800049f];[0x0;0x801ba76f97bdf;0xf997c74cd9c99;0xc0b786bfc3d8;0xa445727af9a66;0xebd20e0cbf82];[0x0;0x7184a2d16411e;0x5827128afe6bc;0x7d7c8d467406f;0x8cd71fd424756;0xc4c798c602de];[0x0;0xf0c3d3426cb5;0x5e5cd65f53895;0x74e81bae5c5c2;0xcb862f911bd5e;0xbb37014d54309];[0x0;0x3485353b96bb0;0x5a3cec0fa7fb7;0xce311603e2986;0xce22d4e80f8f5;0x90112e0c6f86]])]
 [[0xaa94907b1d74a;0x71ad841a6a3ff;0x265202baf466e;0x72e25e257d972;0x9f672869c160];[0x41f8e4fd0e9c5;0xa593b837c3c2a;0x6c87f77844711;0xc6db221f7971f;0x8902ede0a3e6];[0xb3a8661d12dbc;0x29f7d713dfdda;0x4ce43b5477921;0x797ae7df0ea34;0x96ff1a22c01e];[0xb3a8661d12dbc;0x29f7d713dfdda;0x4ce43b5477921;0x797ae7df0ea34;0x96ff1a22c01e];[0x69c696245a095;0x6b5ef9c26c9bb;0xeb044296931cd;0x9d2ebbeaf49c2;0x9f6e755fe926];[0xd8324ed8b46c8;0x3a34be755726e;0x8183b4e1b1544;0x29ac663484d5c;0xe9947880bac0];[0x0;0x247a4e5389186;0xaf55df3d922c4;0x27a7851221e8a;0xb5e5dbaf39738;0x38d7f1dd8cb];[0x0;0x856a6d305ca65;0x1ff2f8234d04e;0x22f449b5bf69c;0x961ce4313643e;0x5e0549b55614];[0x0;0x3485353b96bb0;0x5a3cec0fa7fb7;0xce311603e2986;0xce22d4e80f8f5;0x90112e0c6f86];[0x0;0x3485353b96bb0;0x5a3cec0fa7fb7;0xce311603e2986;0xce22d4e80f8f5;0x90112e0c6f86];[0x0;0x8456b157c98bd;0x49b6cc80d0ac;0x5b7a6d61a9d9a;0x5d2e750fb5a2;0x88e432c68e6a];[0x0;0x1fd42b71d1637;0xbef26ecde60bb;0x4ba1244514ebe;0x357bf68d2f4d1;0x979e7441fa6a];[0x0;0xdf72304c4075c;0x214dd6b058096;0x16bcc8e638b91;0xb6c1be9a7e1d3;0x7b0dca3239f];[0x0;0x983fad5177c72;0xbfbb27f4f2e4;0x805c628809f0c;0x8d9ba2a382b8d;0x13b481d3b6e5d];[0x0;0x9bf250b620824;0xa3e6540407f99;0xc53fa03a77d19;0x82d18a76e6049;0x1132b768932]].
Definition wit_256A_64_4 : colwit ept wit := mk_colwit (V [0x19da69e22bf79;0x8990e259ea2e9;0xbbd74fd7cd1cb;0xe78d3eb2fdb15;0xde10100a916d] [0xad21c27652769;0x92cd5e6d09fd4;0xff21f43203bf3;0xffdcb78dabe50;0xc3e124788ff2] [0x9b2eadf73c678;0x5c48e4fa15e4c;0x8e210444e62ad;0xc728f571badcd;0xdd744274edc5])
 [[0x6b7edb71a5dad;0x3ba7f1c4f67de;0x22d54b700470d;0xfd52294f53f0a;0x39e53a957da5];[0xb1013836f653d;0xf5d7484f79997;0x6a29cfdae487;0x90d57888c4569;0x593d615132bc];[0x49d54a46b4f00;0x1aa620def496d;0x4ff90e0969940;0xdb6a0612da6c2;0x70fed553097e];[0x49d54a46b4f00;0x1aa620def496d;0x4ff90e0969940;0xdb6a0612da6c2;0x70fed553097e];[0x78d1729d0e0e;0xfea785e395ecf;0x67e049a2db282;0xc32e85ea529fa;0xae1a30b7fbef];[0xa974210d254c7;0xf72fc26be3ac8;0x9ec2535ad3204;0xcda6f29e71b6e;0xab23309936cc];[0x0;0xd5719661523a5;0xba258f520a169;0x62fa02e6a744a;0xd1e72cc4aac49;0x2a89ae0196a];[0x0;0xe1c6663be1eb5;0x2b278c509d063;0x6033e5b5c5289;0x69094c94a451d;0x198deb500881];[0x0;0x9bf250b620824;0xa3e6540407f99;0xc53fa03a77d19;0x82d18a76e6049;0x1132b768932];[0x0;0x9bf250b620824;0xa3e6540407f99;0xc53fa03a77d19;0x82d18a76e6049;0x1132b768932];[0x0;0x20f136651f35a;0x95d7a8188adae;0xdb48687ca7f0b;0x6181724c3a83a;0x16ead85f464];[0x0;0x69bf5fc68eb;0xb73736c9ec227;0xf05ec766c2be8;0xbbf6519d3a4d2;0xce7f9b1c5b];[0x0;0xb1d1f7d0739e2;0x5c2dbf9dbc231;0x64fb13e4b1ab7;0xa5b2fd12ac311;0x4d68d3d2043f];[0x0;0xe18337958d753;0xa7e7269663cf4;0xe5e9a665f55eb;0xbbd48e7251aab;0xcbdab2f37847c];[0x0;0xcdca337139f3f;0xabbe8c3b0566;0xfacc74f94c599;0x4c774035672fa;0xa9e987f8fcb7]]
 [[[0x9922407ff1a7d;0x3a13bb0171268;0xdcaa413a3e11b;0xdfd25e5140851;0x892a90562c83];[0xde247dfa027eb;0x12fddcfa31fb5;0xd339401b8a531;0xe2c142068454a;0xf6dcf2d6bc15];[0x44294ab3b2bcd;0x800231cc6b069;0x9d122bf34233e;0x87911585ba72a;0x42ec4b91f3d3];[0x665f30d9ee9a9;0xb1994721d578f;0xbdadb1e0d073d;0xfd9d51c1fa64;0x1522129b3b33];[0x69ce9d59deaca;0x719c2f9568c1f;0x29242a478c00f;0x2dea5876bb326;0xb879eea1ff75];[0x502a057a3c019;0xa91482d435194;0x47d55dc0566ad;0x66c4847a25017;0x67e437358ac3];[0x0;0xe8a024cd68f8d;0xc51d2b457bb19;0xe28c8619eabe1;0xf6e5749f0e237;0x535e240b739];[0x0;0xf107303bc0a33;0x3f5f91d788bd;0x9dd38f09042cf;0xd3548e4ddb789;0x3c8b29add0f4];[0x0;0xe88b3ab91783b;0x7d46b8c6d3dd6;0x129631fe83523;0x63151952cde63;0xafecc6b87d8];[0x0;0x5537f2522425b;0x98a47d5db3d97;0xd837cd4e4fe2b;0x21bc8dbeadd85;0x109c3e16821b];[0x0;0x3ff415067bdb4;0x5d11373ed3595;0x8affa7bd716cc;0x46ad8243cdfe0;0xea6dcfc26f5];[0x0;0x680a9c353907;0xd9a75c3e9f5b0;0x8886d8f889c6b;0x7981011a40a4c;0xc770dbf4a56];[0x0;0xf13ae00e1c2e;0xbcca10bad7729;0x5f64f81e16d7c;0xf76239a17e6d7;0x10bc05fa3af3];[0x0;0xf44a21d520e48;0x800f0758a09ce;0x6aedd9355ef95;0x1dfce749d4410;0xa0d320b1b058a];[0x0;0x9a8b472c92ec8;0xa8a4ace5fe7c6;0x6c78c40387fb5;0x17f072f88de83;0xae0b716c2f2]];
 [[0x9922407ff1a7d;0x3a13bb0171268;0xdcaa413a3e11b;0xdfd25e5140851;0x892a90562c83];[0xf82b1f540d8fb;0x414111ef69340;0x4dcaf4fdb5009;0x923d78c314364;0xcc5cd37b2832];[0xd684d804f64fb;0x9bc5a7e3b1a1f;0x2e11860b2d66f;0xd14b5ee82d200;0x802669596f2];[0x2f30ef4e3aaff;0x1579e3e19c425;0xb3061940b87d9;0xb1b46cb7ea7bf;0x8601f9eb1d79];[0xb36874244aa55;0xe9dfbcc1faa7b;0x895b8507125a7;0xff6ef66f0f90a;0xf9a14b849f2b];[0xfedea0f96e424;0x8b75076701037;0xccb2870aba3a8;0x4e559a67f3e6f;0x3afcb911b46f];[0x0;0xe8a024cd68f8d;0xc51d2b457bb19;0xe28c8619eabe1;0xf6e5749f0e237;0x535e240b739];[0x0;0x9571eba4b77bb;0xb995a2f5ba380;0x3d011d5eeda5b;0xeb1e14f89642d;0x83c370b58bb5];[0x0;0x3c5d87b0058b1;0xfe06679f5c16;0x2ff83f84a019b;0xe06d7d3ddfdb3;0xd4742f8d82d];[0x0;0x7654c4d0bc637;0x5f05dd0239949;0xf649b6fc2f423;0x9ef74a7abe1f1;0x8b31b0bd5b2f];[0x0;0x96c8185727b1d;0x2599604e582f4;0x9ea23ff0dc00b;0x591bc7d9be252;0x7ac824d0fe1e];[0x0;0x97918bd14352;0xff7d11c10d8be;0x6e01c5feb7e03;0xadc216912a1d4;0xf0da46707e0];[0x0;0x9fd5fbaf197ba;0x5646a6204dfbd;0x203fa89588729;0xd389d39e4413e;0xc0ac6fde4f41];[0x0;0x666f60fe8224;0x7a221891f8858;0x7e56720724ed2;0x5c3ea2eb576fb;0x9a3a0e6ede727];[0x0;0x442372f74010b;0x9071cd878b96a;0xc5f1dad11dac5;0x606e0072553df;0x8f985a7bb8bd]];
 [[0x9922407ff1a7d;0x3a13bb0171268;0xdcaa413a3e11b;0xdfd25e5140851;0x892a90562c83];[0xcab43584aedc3;0xe820ab87be5b8;0x9b55298646b39;0xabd75863d253a;0xa1c05c1f04d8];[0xd45ccb6dc8b28;0xf96082c541589;0x3d8c48d3aab98;0xdf6dda10a76f8;0x2bb62976e226];[0x2c88f9e59dbcc;0x4a9769f321d02;0x87503f56b691a;0x4b5aa21a2830e;0xbfb2e011d589];[0x8d80553d070de;0xef55e95342b67;0x21b238b5ebdab;0x3bf36f0f5bac6;0xa473884c3bf3];[0x7769a5e410f5c;0x791c70cbaa484;0xffbda9a54d188;0xfa21004c8fa06;0xb1a13d7a727a];[0x0;0xe8a024cd68f8d;0xc51d2b457bb19;0xe28c8619eabe1;0xf6e5749f0e237;0x535e240b739];[0x0;0x6bae23c82a85c;0xd3b5188003fc1;0xbcf6bff3520d4;0x904f068b743ad;0x6c2aea5eb707];[0x0;0xf392345d02414;0xe72bbd2783b91;0x1dcd0eeec89d0;0xc3e610ca4a7ca;0xb8acf7d6cdea];[0x0;0x2d7dfc939d068;0x111fc2cb81325;0x1067242bb33d6;0x62455645d4ef9;0x841da3f6d700];[0x0;0x3563e50c6e0ea;0x2920342a2876f;0xe7bc986df0c7e;0xf9106a0a146e9;0x7489c0690584];[0x0;0xd94fcc32dbce8;0xcb2217bd6665d;0x9c1ed58501a8f;0xe72f05ceb9681;0xd15c7f94f475];[0x0;0xac388def46844;0x234e2cae01e04;0xe177bbc434241;0xad5ff589d1e2e;0x219af9ef8c3c];[0x0;0x830b9814295e8;0xe7b79f3e32324;0xcae83facb7268;0x97245ac016cf3;0x35e686955a57];[0x0;0xab0900e9fc3be;0x2165431d28e13;0xa9fd195a6eaff;0x60ffd4aa97eae;0xaf24b031eb]];
 [[0x9922407ff1a7d;0x3a13bb0171268;0xdcaa413a3e11b;0xdfd25e5140851;0x892a90562c83];[0x39fbc84dca640;0xf482b2e3eb0ea;0xeb38ab2f089bc;0x6150cfae027e;0xdad5aa0a4e93];[0xc923b25ce5d7e;0x3fdedf85be53d;0x8a466c0acff0f;0xd40617b5c6311;0xd5ceafa58384];[0x31824988b3c05;0x3142c43d3e7e2;0xea2fbbb26ddda;0x4c2c8cea492a7;0xefc7af928469];[0x3ff15488ba9c5;0xf226cd99f34af;0x426171d662706;0xf604f87f37175;0xc36129e3e3a9];[0x5caf3e18423a8;0x52f85ba62a9ae;0x254adb33142b8;0x3fd3f9d864f84;0x39d6eb2d1eac];[0x0;0xe8a024cd68f8d;0xc51d2b457bb19;0xe28c8619eabe1;0xf6e5749f0e237;0x535e240b739];[0x0;0xac47052701a36;0x41fee01027c3f;0x5904d44108b89;0x195e3ee64736;0xb4bab0905d8];[0x0;0x294e3c7e108ca;0x1e0363ef70ea8;0x902927e73aef7;0xf42885b321daf;0x28b220060905];[0x0;0xd435449c36780;0xdb8e013ef6b82;0x6168acebe7ecb;0xa430a1f0bc11a;0x2db412c716f];[0x0;0x24ec8e6109d90;0x2ad6811b966f3;0x7b99f9db2f96d;0xe805dbd05db25;0x2850865e732];[0x0;0x1a03c479f7e24;0x931aff8813793;0x29b22f6a8bd0c;0x6f8e113825ef7;0x2e22b8463518];[0x0;0x25658787b208c;0x3464cd3be4708;0x863f4ec571e42;0xbba62682d9ac1;0x2cf7c274cbc2];[0x0;0x687e48bfb464c;0x9effcbf7295eb;0xcf92d06327be4;0xee261a989b72d;0xd5a5098538acf];[0x0;0x74f354d12ad3f;0x572be4311879c;0x70eac045bfc98;0xb74902a3dfe0e;0x2b81af3c6943]];
 [[0x9922407ff1a7d;0x3a13bb0171268;0xdcaa413a3e11b;0xdfd25e5140851;0x892a90562c83];[0x8221ce16018b5;0xa1cabe18e5014;0x334cae68e9c1a;0x4399f86a96d13;0x9aff9a6c6bd8];[0x1cd0e7d83fa9;0x315e36b018f6e;0x5536d532372dd;0xffd3c743442b5;0x22778b4c9717];[0x67e4e5d402286;0xc899c111c32dd;0xa9dfb174fd866;0xc26e6be5aae64;0x59196718cd3a];[0xa56c4175720c6;0xfeaead6feffd6;0x540c49c01d88f;0x79cbbd4daf52;0x9ee8359f4108];[0x17bd7740af3ad;0x12f3218f1bd30;0x8ed2987a39d1a;0x3456fdb95bb66;0x30a8c8316ce2];[0x0;0xe8a024cd68f8d;0xc51d2b457bb19;0xe28c8619eabe1;0xf6e5749f0e237;0x535e240b739];[0x0;0xed093f95d8e65;0xf9f7157ad6111;0x6ab5fed1168af;0xd66fa328cdb45;0x550f7c559c21];[0x0;0x492f3674be7ea;0xad48d3055f8c;0x1843c88585b22;0x3197ddd65ccf2;0x284034fe49fb];[0x0;0xa52478e9ed2cf;0x87dfe3478b01d;0xaf518b918fb41;0xab4c961166ddc;0xb7a7ebb0be36];[0x0;0x54ab3fb8402ff;0x855a93e8fab2d;0x11597a430e5ba;0x31309bbc4d39b;0xa2004d639070];[0x0;0xafdc0ab54ff5e;0xcb0d06d5f2a8d;0x26b1fa0731420;0x8feed6036ef86;0x2da19302bc13];[0x0;0xf469e8caa0eef;0x8a12f8c4720e3;0x65c072871d043;0xcf9bc6cc8d0ac;0x63b9a819d0bb];[0x0;0x1543a957554f0;0x83121244188e5;0xdc4f483f808a2;0x50b2b84eccf76;0xefa64a2c53];[0x0;0xe8d762246a27;0x9f211219a01f7;0xf0dfc24044127;0xb1b57c3906b0d;0x967a8e360]];
 [[0x9922407ff1a7d;0x3a13bb0171268;0xdcaa413a3e11b;0xdfd25e5140851;0x892a90562c83];[0x6055d0a0f69d2;0x425f174666822;0xdefd8127aeeed;0x4aa59afa10b66;0x5abb2856ecd4];[0xccc28d5af943;0x6afdf9a1c933;0x781a376bb1d5;0x7eb5f6b3f6b;0x57bf4cb57980];[0x4e0b5489e428f;0xbfb80759285a5;0x35434b32618ed;0xb08c20dd2ed36;0xe2d2f494f993];[0x2bdef6c6dc075;0xcd14fa5b32f5f;0x714030e97dd45;0xc9718a0122f99;0x789240843fcd];[0x28b4504c8f014;0xfbd59beec2813;0x79c2e60e8086c;0x56b8e851eaab8;0xa04b898211ea];[0x0;0xe8a024cd68f8d;0xc51d2b457bb19;0xe28c8619eabe1;0xf6e5749f0e237;0x535e240b739];[0x0;0xe254bad639537;0xe426747841673;0x9f5291f609b1e;0xb7dbded620369;0x5396491fe43f];[0x0;0x99dbb2358024f;0x74db148aba7a7;0xa37b5b398ed43;0x7eb7c4d5e371d;0x7e0721bf8073];[0x0;0xf76db19a8e7a7;0xa30817b062158;0xbed51a8cadd00;0x1ac8b06425a5;0xcae08f2ba];[0x0;0xbaa88b79cfe9d;0xbdba64b3b0ee9;0x3ed763956fab6;0xe190d050e20ca;0xb2f4c05cc];[0x0;0x25f87be2364b8;0x411067ded180f;0x60541f250230e;0xb4af9bbb2fdc6;0x8edfc1c3505a];[0x0;0x304c6db87e0ea;0x1fe32657172e0;0x9873e428428a0;0xfaa25190570ce;0x2c23f3f8008f];[0x0;0x46c20e3588756;0x3f22cfbeca824;0xca3e1db69ddd1;0x35f87a6cd31c4;0x7abb12a882a45];[0x0;0x112ac9d72edc1;0xbc47242c26a83;0xbd25f7d3a26f9;0xc4a3b71f6b842;0x396479720d2b]];
 [[0x9922407ff1a7d;0x3a13bb0171268;0xdcaa413a3e11b;0xdfd25e5140851;0x892a90562c83];[0x640936c05e387;0x51d3d5e8194a6;0x3c0166c5c1c67;0xd303371969178;0x7d77f547bf55];[0x815e08cd54db8;0xbb9ed0d03a3a9;0xdd54c47d8df0c;0x4e76def1b8e38;0xde87f245ef62];[0x9f5213b033c24;0xf039da6776377;0xbf8c45abaf9b2;0x11de0d7e577fb;0x4ebff85722d5];[0xfb796806ba2eb;0x290443bd87f86;0x9424bb56b68cb;0x2caee51a565f;0xdd52743c7c2e];[0xed3bc3cfcdd30;0x299a1a56332bc;0x4176afd17aea9;0xd1c4cddc32417;0xd1d2c75b2781];[0x0;0xe8a024cd68f8d;0xc51d2b457bb19;0xe28c8619eabe1;0xf6e5749f0e237;0x535e240b739];[0x0;0x22032e0ded7fa;0x80c6ab7122c96;0x97b6b6353dbfb;0x5da69f1f902d4;0x1ccb3788c4b9];[0x0;0xa8f6fbb1dd730;0xfff5431876da6;0x28f56a0a9d2a8;0x45a843049c5d2;0x5f4b7bed82dc];[0x0;0xa9f080bcc1c91;0x8285e8b80f2f0;0x6fe57570b740;0xfb408f5708ec0;0x6654e99ad23b];[0x0;0x2a12821129af0;0x952843afa49fc;0xccf3487275e93;0x9912a6d983196;0x5a440cf64d91];[0x0;0xc775550efa368;0x6388af0daf78e;0x7c135ac1f95f7;0x7c482633f33dc;0x6c08700ce399];[0x0;0x9317cc240bc;0x74c1852cfcd4d;0xd28be1b100df7;0x4a1a79693519d;0x4e6430111f82];[0x0;0x838705b3a0950;0xb3ed22138b511;0xc72d1fbf15df5;0xcc7b0ef3a3bee;0xa721f5e758750];[0x0;0xd1dcc0359fca8;0xf73919f12ebea;0x220b07789e1e4;0xc9b9321bb8f51;0x6532980e7f80]];
 [[0x9922407ff1a7d;0x3a13bb0171268;0xdcaa413a3e11b;0xdfd25e5140851;0x892a90562c83];[0xbcc9c75c33b7a;0x515db6a2ac100;0x9209ae7d6496d;0x3d302171ec0d5;0x187d396d3956];[0x7affba30947ec;0x317fda4a6ff61;0xfa2f45984986f;0xaa6fe249d00bc;0xdc3656721fae];[0x31a63a6d67bc6;0xdfeecbb87dccb;0xecf2079e54bb8;0x1c333d964bc84;0x863725115ac6];[0x8f51cdfc4c65c;0xc4d655f6f14ec;0x2c71e33849593;0x5568f3da7b150;0x331463bde28b];[0xac173f43c1adb;0x1497d9f7033ac;0x762fb5d68e8b1;0x2f792d08283fe;0xd44228a89a5b];[0x0;0xe8a024cd68f8d;0xc51d2b457bb19;0xe28c8619eabe1;0xf6e5749f0e237;0x535e240b739];[0x0;0xe45a1389cb3f2;0x594bf7e76b552;0x398dc47aaf04a;0x28ee111a35a89;0x5f503b3d4313];[0x0;0xde7ba5cb4f4;0x4633a09d5a7ac;0x5877149e95495;0xe98cd2b450ce8;0x7a621ea79d86];[0x0;0x1980a37d180c4;0xa078cc07f4e53;0x2b204f7b23e95;0xeef6922374c90;0x8c7fb7881745];[0x0;0xe716e84ebea0a;0x2549ee24126e7;0x77d593aed5a75;0xa7c429fe1086e;0x7beec9155251];[0x0;0xd18b709b59f0b;0xd63fba27b0f6a;0x480a0b3cd113d;0xbb248a9cef282;0x8abe075a7da1];[0x0;0x3a3b7e3d62ae8;0xeb5d53bcc2de8;0x69882917365af;0x243ec255bf300;0xbcc96cd248b];[0x0;0x7aac6a317d7b2;0xd80c9e74fc9d6;0xa428a526087cf;0x634e6f8aa628b;0xd226a7bdbb71a];[0x0;0x1dd222cd57dc;0xde573aaffb164;0xc4caecad20b8c;0xb7d5a24a32839;0x5fd626bdb49e]];
 [[0x9922407ff1a7d;0x3a13bb0171268;0xdcaa413a3e11b;0xdfd25e5140851;0x892a90562c83];[0x8c613db6e288a;0x532f524c8c20d;0x54da694967c2;0x6a724ed87b81d;0xd6ef8fc75549];[0xc66165aa55fe7;0x8e0b207acab77;0x661f39b27da36;0x917ed27ab6b0e;0xf474474ce352];[0xb05def7849ada;0x67414e415b5b7;0x5c0457cc03367;0x2c407fba518fe;0xcf3f5374bff3];[0x3a3f2f037fa3e;0xf20587a75101d;0x8a9d77aa85762;0xead52d675d7de;0xe9a7d550a120];[0x89988e1fb4f85;0x35899a4bf3337;0x9ea5b371f6cb4;0xeabfaec0d441b;0xcec2aa903aaa];[0x0;0xe8a024cd68f8d;0xc51d2b457bb19;0xe28c8619eabe1;0xf6e5749f0e237;0x535e240b739];[0x0;0xb4aee25372fe0;0xf4ecc7b2d78d5;0x6edb15726201f;0xa11eac074e336;0x703d3a8cae02];[0x0;0x14b6d47a5a351;0x6dd99a77f4b7f;0x249eca433c1a;0x427ebe99d525a;0x5e608b3970f1];[0x0;0x5cfa1d32bff55;0xe5320af85d129;0xb28195498a2ac;0xd6740cb914337;0xac8a28287122];[0x0;0xa1342c99054e9;0x8eee6667345bb;0xdff0bf8273aca;0x76bcebb6d88cb;0x983214ad10dd];[0x0;0x6fe6e53be695f;0xc814245fc93ef;0xd1c4d941abce;0xec3e22f12edf7;0x6afe17c81a6e];[0x0;0x280fe4bda6158;0x4a499db952024;0x35cf1efa3ab1a;0x8672067004730;0xd1d496db8e55];[0x0;0xa88900f2e71a4;0x4f67d1ebecb62;0xfc03ab97b29ab;0xdf3b3be980be0;0x9e175b8254a4c];[0x0;0x9f1d74083064b;0x18d51adacc546;0x21bddc384142f;0x6690abe173182;0x98cdde7a9b82]];
 [[0x9922407ff1a7d;0x3a13bb0171268;0xdcaa413a3e11b;0xdfd25e5140851;0x892a90562c83];[0x7ebe46ad99a57;0x10e971fe2c022;0x36a0048f9c521;0x44815309e5b03;0xd897b1623ffd];[0x99a857a54aa76;0x850bce77f7e33;0x3d7d717423bbf;0x3c9e428b77d56;0x865bef246095];[0xea6a99c3d056f;0x8e6ed05f3743f;0x34369db71a0c3;0xd1a8b9ee65f31;0x2cd6c4a315a3];[0x703d2c634be30;0x13b41a7b267e1;0xf7310833f8a4d;0x5132b671f2502;0xe56f3933a740];[0xd0892a21fe8a8;0x1cbbaddd29c2e;0x3a01e9b56f88f;0x7c9270020d4e0;0x2c6040d23cc1];[0x0;0xe8a024cd68f8d;0xc51d2b457bb19;0xe28c8619eabe1;0xf6e5749f0e237;0x535e240b739];[0x0;0x62a71782fe632;0xc288297af448a;0x59ec64f626eef;0xef3146022dd56;0x843f1376b0f3];[0x0;0xd4b77ed4947eb;0xa99b1035aa90f;0x8405947cccfb9;0xb9e056c7512a5;0xbf3a0c085bf9];[0x0;0xe5e6b44ae8d35;0xe44c7d1e2c589;0xbbe8446994154;0xe91b919d4c4c7;0x87c5b696d801];[0x0;0xf0dec4aae9cee;0x63da2498c57d9;0xe87b6508d142a;0xd3be56595bfba;0x77c373dd1601];[0x0;0x266677639d41d;0x3ecba38b074;0x9797f7b2b5358;0xe6605ff38ca5d;0xd8c9c0c5bf15];[0x0;0x2f9c882337355;0x1c0ec1e3d141b;0x77f7e924871aa;0xb360a7ede6216;0x28c003e64695];[0x0;0xa6832d1022a4;0xa76f9971387fb;0xb603529860126;0xa5512faf412f2;0xa3e5278908188];[0x0;0x69b48a2d0924b;0x768b7560ec039;0x4da337a6580c3;0xe7401ba00ba61;0x1e8aa94b720b]];
 [[0x9922407ff1a7d;0x3a13bb0171268;0xdcaa413a3e11b;0xdfd25e5140851;0x892a90562c83];[0x69cb5e14de621;0x7c3dd449dfa87;0xddb61e45bbfde;0xfb67ade9420b;0x55b4df471f2e];[0x7f5d82fa0f142;0x34090afd11879;0x8ecd11537f86f;0xbe9a82c6707fa;0xa65ad392112c];[0xe4de4cc42664f;0xc7cbe44a629b9;0x74d51094bb1c2;0x53209cc1c3997;0x29474e14ae63];[0xbadc39eab652f;0x3cd385f36be49;0x62a0e4333c5c1;0xb46319c4cea4f;0xb959ed60c4c7];[0x68b970716b81a;0x1b16b4213eefc;0x671856b5e028d;0x820efdc1c0261;0xe463b2822a0e];[0x0;0xe8a024cd68f8d;0xc51d2b457bb19;0xe28c8619eabe1;0xf6e5749f0e237;0x535e240b739];[0x0;0xe8237031925d5;0x3666a7f615590;0xa334544e83349;0xe659346302af8;0x293931ed4dfb];[0x0;0xd5e34b450008f;0xdb9bcde7204a0;0x9df675b0f85d4;0x414968ad2521f;0x24da6298928c];[0x0;0xd414036d7f20c;0x4bcc89e12af4d;0xc1511f81ae79e;0x2cb5fc0aa8550;0x8cd02f6fac57];[0x0;0x5940d3e409e1c;0xcbe92309298d1;0x7e76401424884;0x63dc34aa6cbdf;0x7c35c410d784];[0x0;0x635161ec9ef7;0xef35bc78fc32d;0xb0c014332f947;0x3b4fcf876cd7a;0x29c77ba46c1c];[0x0;0xe33ea48126401;0x7d8501c49ffd6;0xae3d8d926d8e2;0xde144c634870c;0x51fe5861c8ab];[0x0;0x6aa68f6308525;0x6be128e780805;0xd94f617064bb9;0xacaeb84002d74;0x4b3e7bcdf5111];[0x0;0x2c4094c6c696c;0x78c73af93551;0x7ee6e528b8b7;0x85a393bcda00;0x451c6b149aaa]];
 [[0x9922407ff1a7d;0x3a13bb0171268;0xdcaa413a3e11b;0xdfd25e5140851;0x892a90562c83];[0xef63ea174d336;0x7da49116579ac;0xe25da4fda9226;0x88e98f1fed03e;0xf63e212dc888];[0xdb8f73a2261f8;0x3958575a3592;0x16dd23f515c02;0xe8c4ac0ac6361;0x95e3e44ec4a4];[0x393712c7fa7dc;0x173b62c4ce45;0x4fabb53b491d2;0xb91fc27f49798;0x3c573ee15299];[0xe58db9b7e9f71;0xe5b44b50a7fac;0x63dc283f2092f;0x249aaed480b25;0xb7bb7123249d];[0x6fd7952242f8a;0x8e59853920c3a;0xa3081e7916d3b;0x9101692b0849;0xb7cc6b76743e];[0x0;0xe8a024cd68f8d;0xc51d2b457bb19;0xe28c8619eabe1;0xf6e5749f0e237;0x535e240b739];[0x0;0xd2bdd616c9dc6;0xdcd1e5c0e0f47;0x1bf9373660fa4;0x3e45dd3ad38dc;0x41829f186b55];[0x0;0x2ccca260827e4;0xfefdbb02b4ae6;0x144b1b651f586;0x8ff27cfd4755d;0xbb64be8fc5e2];[0x0;0x29b49fca199b3;0xc5db43b3388c1;0xf03c192a8160;0x4d756276e14ef;0x3ea9f3fe1e99];[0x0;0x56af90890ed10;0x825ed981e3f27;0x239b88cbd31cd;0x1823e55db16ee;0x374674cc9d8d];[0x0;0x7acfd1dbb8f66;0xbb0c0b4016c59;0xdb990ec96ab4c;0x12b3afbf00dfb;0xd47147806458];[0x0;0xec61d93d33d5a;0xa57c2580ca388;0xf891da82a577e;0x2ac69c88bb0ea;0x4c62e5056aa5];[0x0;0xb0e4488dfa1f8;0xa88db5fdabfce;0x5d0ee400696f1;0x770b6f8f47f96;0x19e85a5e90a5a];[0x0;0x405bd901b4372;0x51ae6d20cada4;0x73cad9bdbc92a;0xe6562d9a4e853;0x80483fec587]];
 [[0x9922407ff1a7d;0x3a13bb0171268;0xdcaa413a3e11b;0xdfd25e5140851;0x892a90562c83];[0xc26260347c473;0x9a7ab4b91b38;0x2334a7d050fab;0xf4169a0cec90a;0x87cc86ebde01];[0x2a3deda7885b2;0x7223d008f261f;0x736e24c509561;0x60857c8491a5d;0xc1eb04572792];[0x4d5c3141a3bc0;0x7763e9fc1ac6d;0xc761b66d148b7;0xe39a2763263a7;0x23bad3483536];[0x32702a13651c6;0x5ef947256fe38;0xd7736f7c6f219;0x7e9d402bf9eed;0x302240b449a3];[0x9600491d4a832;0x66f9eb1ee5089;0x66a3e6e017dcf;0x680eaa15e96df;0xdf3c9ed0dc13];[0x0;0xe8a024cd68f8d;0xc51d2b457bb19;0xe28c8619eabe1;0xf6e5749f0e237;0x535e240b739];[0x0;0xd448a8147dbb7;0x2c59dbdfcdb8f;0x1cb8750fe3219;0x740de51d3568d;0x8668e331bdb0];[0x0;0x44b70a272737c;0xebe17ac01db2d;0xec30de3d52ef5;0xeb88b615ae540;0x3cc364ffc54e];[0x0;0xb228df262a8ad;0xe14796320a050;0x6a2dbf6c6c0fe;0xbb72701b9b4b9;0x166b726a954c];[0x0;0x460ee9ecc0873;0x425c23f07c8ba;0xa8e9f5ad2b73c;0x63f3a3c94c73d;0x13c6b65763df];[0x0;0xe6cc42c581a9c;0xe8959dc100e0;0xaac4012a30e9;0xbd67c81d6fd3f;0x44e2b0a47274];[0x0;0x1d168be2ce352;0xebd1eb3509bbc;0xa5ba923cc2e9b;0xededa94a31a9f;0x3b8ce86d726e];[0x0;0xd57c583241fe;0x9c256efbef396;0x5ae463c0a47d7;0x7b2f60c8a2c37;0x875f68d19114];[0x0;0x9fce30412f6b1;0xcd83dc0bb8e4e;0x7b7b54797ab7d;0xbdd7c57188f85;0x39abccc2bad]];
 [[0x9922407ff1a7d;0x3a13bb0171268;0xdcaa413a3e11b;0xdfd25e5140851;0x892a90562c83];[0xac2008c79acba;0xfc470e0d8c0b8;0x7a58e4ebe92a;0x4a066726e0092;0x2688e0ab1ea1];[0xee267fd7f0fb7;0xa1ce658f19402;0x23748114dcdf1;0xa9d7e3ddd3581;0xb9afb6c07938];[0x9609b5d4097a5;0x753dd8432f44c;0x82b8f11f40241;0x568d940b8cefc;0x8049afda6080];[0x9c072d84fed7f;0x3cabe7d9e4319;0x98508ff603770;0x1a8584aaaee88;0x6933dab78b0b];[0xb942414e7d3c3;0x6e0e1761af4b9;0xc75346d76101c;0xd16269933e05d;0xdc3d0c570057];[0x0;0xe8a024cd68f8d;0xc51d2b457bb19;0xe28c8619eabe1;0xf6e5749f0e237;0x535e240b739];[0x0;0xa3cfc707b2a49;0x687d5a22376c6;0xd4338f867771e;0x7411c50d720ba;0x26e235f708a3];[0x0;0xc4a82847c925b;0xbb33fb278771;0x427deec1b3b7c;0xd57c459bc04cb;0x55e599dd105a];[0x0;0xc55dcf6ca9654;0x32a4c15fc5fc4;0x213631e623ef4;0x4f3228f705050;0x721434cc2a3];[0x0;0xe3f773fccef2e;0xe4fd7e85fb753;0x2db8ffdd436c2;0x39ee374f51704;0x64a0c1961ff];[0x0;0x9c57cecb7a47;0x43c24b20b4990;0xab0345c144c0;0xdc2f4da47bc59;0x6160f596ce3c];[0x0;0x45630542c89d9;0x7e7fb84a2de6;0xaefe5f49a17f1;0xb9318a87e8989;0x1276119aaccc];[0x0;0xa7a9465689713;0xf00b401ccf9f7;0x3dea32bdda498;0x2d34b33964fca;0x36b7249b193a8];[0x0;0x7ffbe6699099c;0xd88930891004d;0x6dda1ddd51633;0xfb69efcb13122;0x18e43b39205a]];
 [[0x9922407ff1a7d;0x3a13bb0171268;0xdcaa413a3e11b;0xdfd25e5140851;0x892a90562c83];[0xc0c0524687d0;0x7eabe12d297e9;0x18c718d43fd68;0xc8dcb3c1a7515;0xebe3f176ff31];[0x790fbfc4a2c3d;0x625ce5d1e71c6;0x64031921fb916;0x6fad063e795f5;0x93297ae65c28];[0xa2a2fe2bf7848;0x674b6ad9a9c5a;0xd98ed8f6a7e5;0x31304b73f1ef4;0x887aa038e126];[0x63a6bacc17e30;0x167edf4c00491;0x7f882fcc4cd99;0x7997ad6cc65f3;0x772e132c2588];[0x17a2e77751fd9;0xef09dc28d64d2;0xea097024f886f;0x74f512ef0d523;0xf3d9402c576a];[0x0;0xe8a024cd68f8d;0xc51d2b457bb19;0xe28c8619eabe1;0xf6e5749f0e237;0x535e240b739];[0x0;0x425421f83d8b0;0xf250bb3efbb8;0x3a41801d63fa;0x94e3cdfd46fc1;0x7a20fddd3423];[0x0;0xfd71aa0ea59d4;0x9c485fab87fc0;0x40236e1843a6;0x98ef5d2a564b5;0x5dd78d163e9a];[0x0;0x2e75fdd0fad24;0xbaa0f5cd36126;0x616ff5260eb9;0x9b37e27c07f46;0x2d11b120603f];[0x0;0xd779c9732f70c;0xc9fe2b24b3f5e;0xb108252d324c8;0x6602152e2e3dc;0x27c14a2b77ba];[0x0;0x331d438b82180;0x976c21a4b80a5;0x2e4b144c9a9f6;0xa78cdbff06f2e;0x6a62c9ce3bae];[0x0;0x33fbda9e7fd44;0x3c0a6c6b2082c;0x25191f48f5db3;0x8f19d82d9042c;0xe5a63766ad0b];[0x0;0x100297ad9ff86;0x156378ba80f6;0xf21a7651f440b;0xc0fe2af3410e;0xbfe3ccef0f918];[0x0;0x10c8f603e9ce2;0x8ff70f123b089;0x70788f7f203b2;0x8bd132e011849;0xb9e672d3736f]]]
 (V [0x81a0d894e99e8;0x74f015ec2d843;0x7707584493520;0xab5872caf2554;0xe23c9d6eabe4] [0xd38b6365f0e51;0xfdafa6eeeec9;0x59932f9726e15;0x89f99d6fe0779;0x6039b7021043] [0x2c4fcad1eaf65;0xf2b359b8c8bd9;0x41163bde9c030;0x77cb6d55d600f;0x7286186099b4]) [[0x6b7edb71a5dad;0x3ba7f1c4f67de;0x22d54b700470d;0xfd52294f53f0a;0x39e53a957da5];[0x2765b9996b0fe;0x727c8ece91ac8;0x656c7b0ecc08f;0x7c54eba741632;0x3475e36947e];[0x55387b21b8b77;0x368ccf7b6ba2d;0x33e80b995b517;0xa60865663982b;0xd11159a19a20];[0xa4ee94894ab7f;0x44204af8d8e28;0x5afc511606d6a;0x38f799bf1e0f4;0xe337b9cfe212];[0xb67462bf376;0xb971f50474d2d;0xbb1c7cb934a8a;0x37929ef17a58a;0x885ac88eba39];[0xf5512bfa66fd1;0x9c399985a623a;0x49da3b65d87cf;0x139d46c74bc05;0x6ba910d3a598];[0x0;0xd5719661523a5;0xba258f520a169;0x62fa02e6a744a;0xd1e72cc4aac49;0x2a89ae0196a];[0x0;0x31b9ad14cc34d;0xd167fd10d2d98;0x6f9613f05b200;0xd469f3a12d478;0x2717597bc9ca];[0x0;0x4fac0864faa69;0xa0337ec4a830d;0xb18dfeeb07d8e;0xa9c571bded596;0x12a4672aab98];[0x0;0xf8a3a56028e9;0xc1ef223d7c228;0x770d7a36ddc6e;0xc6e98da331b0c;0xab7fee3f652];[0x0;0x2c8c838d61794;0x2258cda72dfc7;0xa066bdd9ea8f;0x4a3ed5f002b61;0xe4883c9cbd2];[0x0;0x5bdb49c80980f;0x1b7972c788148;0x72bea3e774260;0xa4eb8413fe723;0xdfd672c3603];[0x0;0x463b417c9ea2e;0x4b997bac30dbd;0x17d2b8257a632;0x59da8465af5e;0x2e5c7ea7388];[0x0;0x1097116774532;0x615a0765b5f91;0x4e46711876d9d;0x96e0e3de39088;0x66299a6929788];[0x0;0x4c0f7f5fe3b75;0xdf49f7e6f91d2;0x3921c8e0da7e5;0xd78c470fe834b;0x5509bc43b57c]]
 [((V [0x200891e2b3c9d;0x1b1a48c4f962f;0xb7911aba8719f;0xfcbae8978ef58;0xca736a440e24] [0x3ef7d280fc117;0x2291bf9c00b53;0x8d0b63e0eb1b6;0x5ba842a4c85b4;0x6ca24a02fb90] [0x191a0522efa16;0x5447a98656791;0x9133ceda08f43;0xbf07d30039c96;0x84ddfbe4f272]),[[0xb98da82ebdbbc;0x38ee6a0e03387;0xbee9f94f51077;0xfa8825d2824ab;0x5bbc9eea9482];[0x58d8d15e0be71;0xcc23d7dac270f;0xe8cb7a0003670;0x282eeed5daba8;0x87b467cf276e];[0x2c4fcad1eaf65;0xf2b359b8c8bd9;0x41163bde9c030;0x77cb6d55d600f;0x7286186099b4];[0x2c4fcad1eaf65;0xf2b359b8c8bd9;0x41163bde9c030;0x77cb6d55d600f;0x7286186099b4];[0x83845a799819e;0xe5b423d63cfcb;0xab4bd4664ef2b;0x45de7e210478f;0x9af093bfc88d];[0xd55476e473a6b;0xe66fb40485743;0x3d7fa599b4744;0xe25070b4d6419;0xecc3d40f5ee0];[0x0;0x92f1b3e75326d;0xf4fd5df306ac7;0x260433acd424e;0x9f268482b038a;0x2b1cf8fcd57];[0x0;0xe3c899aedfc7d;0xf28d216aa973;0xc0b0a149c3e84;0xc8b400815aa3;0x290a0c3bf1a2];[0x0;0x4c0f7f5fe3b75;0xdf49f7e6f91d2;0x3921c8e0da7e5;0xd78c470fe834b;0x5509bc43b57c];[0x0;0x4c0f7f5fe3b75;0xdf49f7e6f91d2;0x3921c8e0da7e5;0xd78c470fe834b;0x5509bc43b57c];[0x0;0x457356d0fa275;0xd66497450e2c7;0x4d180b6fa2d77;0xd8d378958e38c;0x242b56448df1];[0x0;0xddce13c908b73;0xc87187b49a08f;0xf57c845d022c3;0x4067223d28f98;0xc7ef14519431];[0x0;0x470be8bc9e7e0;0x7a99bd6b093d6;0x30091707706b8;0x748fc348e24cf;0x6b518848dd92];[0x0;0xf6acdb31f2d41;0x61d70594e3f1;0x3ec0abe1a9bb5;0x90a63934422f2;0x6fd30c701e417];[0x0;0x3de2a47560dc3;0x9e474348e3fce;0x2e735effd9458;0x613e2d1d58fb8;0x55e90865ad98]]);
 ((V [0x697fa4a3fc653;0x41665841a144b;0x6e8ec0c67058f;0x596c11e48954b;0x4347847af2ed] [0x57b7407379da2;0x7120bf2e9745;0x3d315d3bff209;0x22b2db5480413;0xdf9fc6e3b127] [0x27757b6e5fb23;0x2ff25f6826be0;0xe0fc0144bb697;0xe412fb2a92b91;0x66cbf703aef2]),[[0x63b8d4aa50303;0x70c1afe451617;0xb0a3c4371a770;0x463ac743a7679;0x747b3f9214e4];[0xcc5f697a8facd;0x5c53c94b82810;0x62790577a62a3;0x9cfd1a682036;0xcdbf1de433db];[0x191a0522efa16;0x5447a98656791;0x9133ceda08f43;0xbf07d30039c96;0x84ddfbe4f272];[0x191a0522efa16;0x5447a98656791;0x9133ceda08f43;0xbf07d30039c96;0x84ddfbe4f272];[0xb8ff93d3492b1;0x850f212cc975b;0xf1ede0582937b;0xc1a465110fb28;0xb2331d9ee2e6];[0x135fd5a74681d;0xd744a81eb90b5;0x708b251f7cf27;0x482b6c957250d;0x1b8c004550f4];[0x0;0xfdcd4180559c9;0x9f05bbe84d6a9;0xb934f07c5e8b2;0x58dee7eb443de;0x3204c49f854];[0x0;0xa75c330599ed3;0xa68eb37ba878b;0x3e82706a60c51;0x4dc3464297c1f;0x3c748dca374b];[0x0;0x3de2a47560dc3;0x9e474348e3fce;0x2e735effd9458;0x613e2d1d58fb8;0x55e90865ad98];[0x0;0x3de2a47560dc3;0x9e474348e3fce;0x2e735effd9458;0x613e2d1d58fb8;0x55e90865ad98];[0x0;0x46262d53439a0;0x2db43cf59ddd5;0x82b51ade71bb3;0xe98253a27be61;0x2e195554456d];[0x0;0x57c2160510eb4;0x1313aa25e979f;0x320293f6252dc;0x81e02cb542ab8;0xa01a57bc0b93];[0x0;0xbf5e344418412;0x1e75d8046c8b2;0xadd032e2cdab9;0xadd75a2ef466;0x36127f4d5f98];[0x0;0xf108245f087d;0x6a92a626f6f70;0xa2353f9057fc3;0xb2289558fb28b;0xe25e2508899ba];[0x0;0x20807c0d33915;0x30db508e23a45;0x8bba74b63cc40;0xeed55afd037b0;0x3ac54a178969]]);
 ((V [0x11202832d71e3;0x25e021be877c2;0x680b602d03e7c;0xd22aea6406c07;0x7b7e8222cccc] [0xbd6c5d6e03915;0x9327df7aceafa;0x3c97b42aa1dcb;0x3ca366b2a2892;0xe565cc8153d5] [0xd458f568f69c;0x32dce666826c1;0x551f79ec66519;0x5ea4f67262649;0x99f90da5e50a]),[[0xe0c81f9564578;0xaf82d25fecfa3;0xafe9280aea801;0x7899d422014ab;0xda32b73ac4d7];[0x495e0fd1b0234;0x220576d139da4;0xf5af6fd4025f0;0x70ec186efcc08;0x5ad94be0c58b];[0x27757b6e5fb23;0x2ff25f6826be0;0xe0fc0144bb697;0xe412fb2a92b91;0x66cbf703aef2];[0x27757b6e5fb23;0x2ff25f6826be0;0xe0fc0144bb697;0xe412fb2a92b91;0x66cbf703aef2];[0xc11bd743acef3;0xe222b675a49f8;0xfb8866dd1b592;0x594b48fb601a4;0x8da50d4cc8a0];[0x8842388e030d9;0x3fe2c05b953ab;0xfa2708f6e705d;0x17a0cf739ca63;0xcd343e93fceb];[0x0;0x601f26323610f;0xaa4cd5422610e;0xe8f6ec47c42f3;0xfe06a9fd5460c;0x26b2cd7b20b];[0x0;0x6cc008a1b52ec;0x83c21ecc6b719;0x9facfcb2d6572;0x4966a0915d16c;0x579e0dc2c887];[0x0;0x20807c0d33915;0x30db508e23a45;0x8bba74b63cc40;0xeed55afd037b0;0x3ac54a178969];[0x0;0x20807c0d33915;0x30db508e23a45;0x8bba74b63cc40;0xeed55afd037b0;0x3ac54a178969];[0x0;0x47de80740f517;0x15e86a6279c09;0x2061c59e09167;0x3d9ce3f502d78;0xc357c03957fd];[0x0;0x1b220fabf0470;0x9892228677041;0x35728fa6877ca;0x2076045d33a4;0x11ae83531bea];[0x0;0x35b8e6291732f;0x166b8cfb0ee03;0xf095d8ec1f8be;0x4a431f69ba7de;0x2bd34c97099d];[0x0;0xbf11d83a56c35;0x93adbc2ad438e;0x238ee03601b87;0xe1397cf54abc3;0xeea5a1368830e];[0x0;0x393f7d1ceea75;0xe5ebb3a3d6a29;0x53526a4a17ba9;0x353fc23c74d86;0x6ea945f9abd2]]);
 ((V [0x229db59e6a825;0x1bd302835f59;0x9514b4d1e20a6;0x3914424d90a43;0xab8efb714aeb] [0x27bc9d10541d3;0x2106a367abab;0x626f70be0252b;0x26e44c078f32a;0xb79bd0a70ef7] [0x3b30b6c4a75b6;0xa90d0238e6e69;0x620374a1e798f;0xfa0989a216137;0x2080e8e9c023]),[[0x1919b618d29b5;0xf2f3efa115206;0x18558c946da69;0x3b2795375d6d1;0xead2c4c1f6fa];[0xde909af25ba5f;0x4eb0b69a639ff;0xccbbb3b3d6e0e;0x1d74df34d5531;0x3f2852237eb9];[0xd458f568f69c;0x32dce666826c1;0x551f79ec66519;0x5ea4f67262649;0x99f90da5e50a];[0xd458f568f69c;0x32dce666826c1;0x551f79ec66519;0x5ea4f67262649;0x99f90da5e50a];[0x7cab5f293fd2c;0xd381d15c7d381;0x1eab319c9817;0x818854a2c0f06;0x97f383ffc838];[0x61e53bc91bacb;0x7b2ee53de667e;0xcad1009a0d5f6;0x9bec8a921462b;0xa734ce23b680];[0x0;0x9658e73dfa99;0x8f0f3bf2d7876;0xe95e9ae4b7ef4;0x781786846ba9;0x39f6c930026];[0x0;0xb7daebb4cf91b;0x1a1dc32edbda9;0x15cafc4a5b6cc;0x7e5afccd9398d;0x8d3c6b1e2d33];[0x0;0x393f7d1ceea75;0xe5ebb3a3d6a29;0x53526a4a17ba9;0x353fc23c74d86;0x6ea945f9abd2];[0x0;0x393f7d1ceea75;0xe5ebb3a3d6a29;0x53526a4a17ba9;0x353fc23c74d86;0x6ea945f9abd2];[0x0;0x8064d6883917b;0xd0e7f1c54aab5;0x82ccdd6c6bc4e;0x3af9faa1f07b;0xcd8f485a6166];[0x0;0x905c1d4181b32;0x431dbdc78ff63;0x74102ff6c0739;0xc84f2f2d553b7;0x3b92cf91cd35];[0x0;0xc8a4dcfe13798;0xe51fab16a7c95;0xa29a9e6f89160;0xb01c7a8661a82;0x2a533543c126];[0x0;0x92bebdf149a95;0xa5def9961407b;0x856c365276190;0xecea1873c5d3f;0xc040c977ce999];[0x0;0x9f4a6360cc39f;0x2e9004a02448b;0x2bbc39090ff64;0x8c50c82b5106;0x7b0ba1245ac0]]);
 ((V [0xc0ed00bbcdc1c;0xa1bcc1b8746fd;0xa701887461fe2;0xc8f518aff76ac;0xb510cd8bdb34] [0x3e79f4290e6cd;0x6b115dc4cb830;0x736ccd87de111;0x4f38cb0f1a580;0x5bfd1babf8a1] [0xcd86c8790ddfe;0x486636b143278;0xf717a9ee5a2e5;0x100619a700d4;0xde1e13944a5]),[[0x331e9d21a0c30;0x7c611d1ad1e85;0x210b8ec47248b;0x5ccaa234e2473;0x63b8abeb4d26];[0x243610d46d9f9;0x2c9b2dd185741;0xe9640e58d86ff;0xa2785641fda46;0x24fa4794066f];[0x3b30b6c4a75b6;0xa90d0238e6e69;0x620374a1e798f;0xfa0989a216137;0x2080e8e9c023];[0x3b30b6c4a75b6;0xa90d0238e6e69;0x620374a1e798f;0xfa0989a216137;0x2080e8e9c023];[0x5c9ad2a1e858e;0xc8999dc82e8b;0x4decaa1137781;0x14654f43a82b6;0x9e15bb3c23a3];[0xc79b3e3285203;0x201193f5028b5;0x9b776447a0f7e;0x8e1306fe55790;0x86e48c57e2cc];[0x0;0xb4ddf2591f0e;0x6893318dc5f0d;0x635f638e6f869;0xa7a8c06607152;0xc3c74d3b9a];[0x0;0x6323fa4b8c3f1;0xb20071eec086c;0xa0f950213f942;0x9a71bfa0ec129;0xca94c8dc905];[0x0;0x9f4a6360cc39f;0x2e9004a02448b;0x2bbc39090ff64;0x8c50c82b5106;0x7b0ba1245ac0];[0x0;0x9f4a6360cc39f;0x2e9004a02448b;0x2bbc39090ff64;0x8c50c82b5106;0x7b0ba1245ac0];[0x0;0xeef05b4e715dd;0x3aa20d3674602;0x63426dfdb97a9;0x5e39a3ae90265;0x83b023252bc1];[0x0;0x464b81493ce1a;0x341a54089b2e8;0xb1e83500992c9;0xb640de9020500;0x72f853c542bc];[0x0;0xb501988ca70f4;0xe2c083f335e45;0x323049edb45a7;0x76793acf76c3d;0x1a2761f0c0ad];[0x0;0x8bb5860e14f37;0xb0c23de09c6b9;0x611fbe7833179;0x8f33736a6ca7;0x60e854fa1ea7e];[0x0;0x7c56a2dd0a0c2;0xf274998de99f0;0x86cf9aaa302d;0xd1dcd37e27e58;0x410ffe3e41e4]]);
 ((V [0x6d0a772a89864;0x37374f1e677b1;0x8f8cb2e37a760;0xc289fdc0fbd99;0xa61879ec9982] [0xfc77a98c5f7c1;0x5b7d4074a982c;0xffc779315d56b;0x8dce21d827677;0x2de32bdf4eb2] [0x866ea97ac5ad2;0xc926ee4ceab85;0x772828f9f7078;0x457f9fdadf36c;0x3dcc81cd9286]),[[0xd25ce794c3a86;0x9c8d2e7f77083;0x3124143d80083;0xb65f8ea806b3f;0x2490fcac75f0];[0xdc818742c59fd;0xcfbcec8d5498f;0x865572811e764;0x98957fb29358;0xb557d5288fe5];[0xcd86c8790ddfe;0x486636b143278;0xf717a9ee5a2e5;0x100619a700d4;0xde1e13944a5];[0xcd86c8790ddfe;0x486636b143278;0xf717a9ee5a2e5;0x100619a700d4;0xde1e13944a5];[0xe0dd80a6670cd;0x17802bc04f732;0xe63b17262ac6e;0x9b1a7daddaa13;0x199d85a99f3f];[0xfba4069c5e931;0xb83cc0cd0525c;0xa01a5b5af3af6;0x6e6eda4d4e944;0x9bba4f7ef0a5];[0x0;0xaba0d790dc51c;0xc8812a9745cef;0x653b6440e0189;0xb01daec7e4958;0x539e11c31d];[0x0;0x5f7a329c97fa1;0xb8ff71f7daee6;0x4b08e72825e3d;0xcc97408721b10;0x1fba06e71ba];[0x0;0x7c56a2dd0a0c2;0xf274998de99f0;0x86cf9aaa302d;0xd1dcd37e27e58;0x410ffe3e41e4];[0x0;0x7c56a2dd0a0c2;0xf274998de99f0;0x86cf9aaa302d;0xd1dcd37e27e58;0x410ffe3e41e4];[0x0;0x5560932fb4f04;0x77fb643c396a3;0x43bc1087a7434;0xd721164cd86be;0x210debebf7a9];[0x0;0x6de10ce9e3ef9;0x3a839f0f3b40a;0xa8280ea269b11;0x543e046a08442;0x8010c3c21a7d];[0x0;0xeb40bcd0a3e24;0xfdc0e477709b9;0xc0ae16d85beb2;0xcddda877182a1;0x75a84ad26692];[0x0;0xd312689eade98;0x2a6a0796297ae;0x681fb3eaedd49;0xd2f2dde2eef38;0x2eb948d662588];[0x0;0x878420ab8763e;0x1f78ca23dbeb5;0x3c285700bdeed;0x5c3387a2f9492;0x1dc5b199b2a4]]);
 ((V [0x487803a108a65;0xe8cb63ba72876;0x8538197d37437;0x803ac33ebabcb;0x5c7c83489991] [0xa87c922ef9bc8;0x1b2e85ceb3fd3;0x631ab33d25a83;0x797843af2000b;0x7fa9f4b3fc16] [0xade8f0b5733b7;0x4fd5240f5ba54;0x2a30c838f318c;0xdac7ef61305b8;0x2da0d3c15106]),[[0x77199eb446bfc;0x96da62f98e215;0x1f23dbeb872a9;0xd5bf55b2c5fb0;0xb775b2f43be9];[0x7052c7cbf0476;0xe37603756e192;0x80397f1fa97ae;0x1c90c78fa9455;0x8d68db5571bb];[0x866ea97ac5ad2;0xc926ee4ceab85;0x772828f9f7078;0x457f9fdadf36c;0x3dcc81cd9286];[0x866ea97ac5ad2;0xc926ee4ceab85;0x772828f9f7078;0x457f9fdadf36c;0x3dcc81cd9286];[0x184f7066caa83;0xa64abb063c011;0x1fb35fee0a31;0x9541cb428624f;0xdb6a9b2c88fc];[0x580357652578b;0x3d2b486f32181;0x7e3e4920c8d7d;0x874efc4d23206;0xb1fe4028e8be];[0x0;0x60c27c693d2a6;0xc5dcbc3fa9a00;0xd8346f291eba0;0x60fc759d2e81f;0x1743b983b16];[0x0;0xc91b56557460e;0xfa6bc4e71df5;0x7e306ea2e77cf;0x2f82e00abffce;0x2c499a746e55];[0x0;0x878420ab8763e;0x1f78ca23dbeb5;0x3c285700bdeed;0x5c3387a2f9492;0x1dc5b199b2a4];[0x0;0x878420ab8763e;0x1f78ca23dbeb5;0x3c285700bdeed;0x5c3387a2f9492;0x1dc5b199b2a4];[0x0;0x99c4596074eb2;0xfd7dc333787ec;0x630a6f204362d;0x1dbc225d9aa0f;0x839a7035735];[0x0;0x1bd71addc7743;0x8db9da4ee251c;0xe5f35f73742eb;0xe09870008a6cc;0x6bc3c075ed83];[0x0;0x5217df5f11f09;0x4d57c49f23c7c;0x7b27cb069f3d0;0xc86fc9ba98263;0x33167621b4d0];[0x0;0x763cc1ae26697;0x1c0f95fc200be;0x7be43fb32183c;0xba21ff7ccf06f;0x833c459c0320b];[0x0;0x88ebf50ed7777;0x89b7a112910f5;0x4fb9056323be6;0x3d9de8e2d09d6;0x2e1f2bbb6260]]);
 ((V [0x73ccbd9926045;0x651eccea7d7a6;0x4adfe4cc2cd34;0x92015bdddb0ce;0x90d128a2f939] [0x874f4cc4ec3ce;0x5a97bc75b352b;0x160a5ae3c2c1f;0xe036aefdb560a;0x2c353a9fe754] [0xb2b29f8a6adb0;0xb7e4e8c1f9d1d;0x61bcea647278c;0xd5b214543437;0x24e4bea18cad]),[[0x7c11250309dc;0x4c72162efb8a1;0xf302bdfce38be;0x2f4b763a0b9e0;0x5f63424b061];[0x7cf0435d41c9f;0xa94548a698de9;0x837fcd289780a;0x3296dfebdd8d2;0xc16552b30782];[0xade8f0b5733b7;0x4fd5240f5ba54;0x2a30c838f318c;0xdac7ef61305b8;0x2da0d3c15106];[0xade8f0b5733b7;0x4fd5240f5ba54;0x2a30c838f318c;0xdac7ef61305b8;0x2da0d3c15106];[0xe1141daa03bae;0x54815e0003fcf;0x337053e799a93;0x2ac8f29debd89;0xbc7dd45f9c25];[0x9bdc25b33e0f2;0x54c3eaa694e19;0x500f7940fdd77;0x7cded4df1b49;0x4e77e536b5d];[0x0;0xf9c0e43fb4d17;0x368a70ae2ebd7;0x830caa0774a91;0xa6e7ae19291ff;0x112d513f69d];[0x0;0xe8154a898a823;0xb761ae08573ae;0xcb1f47f423551;0xee740b39b9b62;0x11005f97769];[0x0;0x88ebf50ed7777;0x89b7a112910f5;0x4fb9056323be6;0x3d9de8e2d09d6;0x2e1f2bbb6260];[0x0;0x88ebf50ed7777;0x89b7a112910f5;0x4fb9056323be6;0x3d9de8e2d09d6;0x2e1f2bbb6260];[0x0;0x533db4cf5ca3e;0x15205474a08e8;0x12d4354e616a6;0xb9470b287f4b5;0x3faa119f93a8];[0x0;0xfd3bd30f58731;0xc72ae8b14db3e;0x1e1bdd8b6d93d;0xbae01c75bdd55;0x2169baeba008];[0x0;0x479d87436281e;0x9b5fdc4485917;0x3f79444f12907;0xb7839f8d6d2c9;0x6d6700f02bb3];[0x0;0x2471fec83a17d;0xb86633b84fb0d;0x5e33c012b0faa;0x7bd56758f7fec;0x2ce234423b6da];[0x0;0x234b2f5a9149a;0x4d5134e1eab67;0x18ca7d8caf310;0x66d5a2efb9417;0x19020f73448d]]);
 ((V [0xa44b413f45f26;0x4313bf393f286;0xd0e1380f405f9;0xe3445867f7e29;0xa7260a9fd4bc] [0xd580b215cd291;0x28c6ca8420239;0x11309a216b3b1;0xe711a5010a564;0x11c456726ca1] [0x3b413c7270947;0x9c9062fab54b1;0x5b06af7097e37;0xd4dba05f64dda;0xdfae0a85ef10]),[[0xdceefc35406cf;0xe4b2cd4408004;0x2535a267a035b;0xe77bd2c58a29c;0xbe154bbeb30d];[0x751034dcc85d4;0x367112cd5338d;0xe5d84127eaec8;0x8a76e95932c19;0x898d78b995fd];[0xb2b29f8a6adb0;0xb7e4e8c1f9d1d;0x61bcea647278c;0xd5b214543437;0x24e4bea18cad];[0xb2b29f8a6adb0;0xb7e4e8c1f9d1d;0x61bcea647278c;0xd5b214543437;0x24e4bea18cad];[0x944ecd4dd33a4;0xfd8c404b27cda;0x77e47beeb0f7b;0x5ce9afd3bef43;0xe5fdcdea89e4];[0xe0c1678ef4fc8;0x38e4d2822b6b2;0x6df3c53939f4c;0x2d8d398573cd6;0xa38faacf0c19];[0x0;0x2fa5351987b67;0xfea903284a221;0xd7757ba1cddad;0xc93a9dde8ba0e;0xde387dcd0a];[0x0;0xbb209ef1b77e4;0x46641186f3d87;0x182f721477cee;0xbc7dba615dfc4;0x1b64d72a0915];[0x0;0x234b2f5a9149a;0x4d5134e1eab67;0x18ca7d8caf310;0x66d5a2efb9417;0x19020f73448d];[0x0;0x234b2f5a9149a;0x4d5134e1eab67;0x18ca7d8caf310;0x66d5a2efb9417;0x19020f73448d];[0x0;0x2d5241282eee0;0x589b35ab0d599;0xee393de72aaa6;0xceeb44dd3f653;0x7a257384b27];[0x0;0x9de9e650cdfd7;0x23e6abcd34403;0x2246face750f7;0x9e44aafd814c;0x51ebf89ab8ef];[0x0;0x96cbcec236072;0xd14805ba8e028;0x41d84ef3517e1;0x8a11b362b516b;0x59cfba766448];[0x0;0x9b6e45c4b5517;0x3727804964273;0x71fb33d03c64f;0xe3c4ba20fc44c;0x1247dd9d173c6];[0x0;0x97b54a3714899;0x7e2187c973f8e;0x2d2650dabd6f2;0x9aa0afc65c305;0xb99b8463cef]]);
 ((V [0x9a50bf4d3ea1f;0xfbec77ca8d4dc;0x49dae6f2fff20;0x11a424391a7c0;0x51bdd966be64] [0x82675bd8c5162;0x44a1b3e5b22d7;0xc41944c04a05c;0xd04d0b1abcb53;0xdfc7e430666f] [0x27184d2ec9bff;0xd65ce3e8978e4;0xe44bb2c8c239;0xbd316ca66121e;0xe9efa380a495]),[[0x37891e32829d4;0xda3d32d2d463f;0x9ab2798a829c8;0x387def3cd67ef;0xab897b21bb57];[0x2bcf61ced0da8;0xb8b81f4cd14a8;0x9babdca5148a5;0xb09f3b8935e87;0x52d3bd4c3719];[0x3b413c7270947;0x9c9062fab54b1;0x5b06af7097e37;0xd4dba05f64dda;0xdfae0a85ef10];[0x3b413c7270947;0x9c9062fab54b1;0x5b06af7097e37;0xd4dba05f64dda;0xdfae0a85ef10];[0x68560f48860c6;0x524104cafe1ef;0x95c206b3074b3;0x8dc2a0652a0c;0xc85b1776c5d5];[0xc37952864aa7a;0x66771a81d32b8;0x5e9d5f20d3f2;0xa7c31182e347b;0x8a78a5d57144];[0x0;0x9fbdaff31b19f;0xc6a0beacb4dd3;0x72d4c11dde97f;0xd0a8b4dcf65dd;0x5434a3724d3];[0x0;0x921441b308d7c;0xd74ce77e98a65;0x8cde1fa99f639;0x3a8309901fb8a;0x95e160c1308b];[0x0;0x97b54a3714899;0x7e2187c973f8e;0x2d2650dabd6f2;0x9aa0afc65c305;0xb99b8463cef];[0x0;0x97b54a3714899;0x7e2187c973f8e;0x2d2650dabd6f2;0x9aa0afc65c305;0xb99b8463cef];[0x0;0xc5a50e5aca6dd;0x97c9d4583c884;0x8929a00032f66;0xecbbe07974e64;0x13baa0faed4];[0x0;0xfcc9187ad4366;0xc4ee8eb59b7c4;0x942efaf19ffbe;0x78ff58ceeddcf;0x6d22a783af72];[0x0;0x8eb5d7504e77f;0xe980a5f4d690;0xf15f29ef7d100;0x5cd62ff2e3350;0x1a726b8e9820];[0x0;0x66b891026799b;0xe0529ebe36394;0xd8b0ea8777e60;0xb54d1cee0ea31;0xe93df08e505be];[0x0;0xf6575a8178df9;0xcb4396d0e98ed;0xc7eb9e431a2e4;0xc86f92516263a;0x477433d108a4]]);
 ((V [0xad43fcdedb4fc;0x32dcc04aa1549;0x8f472de1e79b;0x18109073e446d;0x449a8c2a109e] [0xcdc886ef41e48;0x19048b99d1a79;0x760942d083fdc;0xfec3dc85d5636;0x4811b4d8bf7c] [0x4cc979a833047;0x1a416063c6021;0x94b3b8fa97194;0x21538490cd3e6;0xc9a59077d0d9]),[[0xe81004bc04fdd;0x7821231dee4ec;0xb0bc8590a0ac8;0xa6f7d2fd78239;0x99d328a8b23];[0xa942d7718646e;0x97eeb7c3e0b54;0x4190d79ac068a;0x792aa72d9e8ce;0x6dc6ff688e5f];[0x27184d2ec9bff;0xd65ce3e8978e4;0xe44bb2c8c239;0xbd316ca66121e;0xe9efa380a495];[0x27184d2ec9bff;0xd65ce3e8978e4;0xe44bb2c8c239;0xbd316ca66121e;0xe9efa380a495];[0x6fa620a8d1115;0x190c85e5ee9d2;0x154e25d213b48;0xe1e01b9eec899;0x8fd01f65bfbf];[0x399cb6c8b50f1;0x7ee231ddf2182;0x2c42b1c8acb42;0x974a8b8eb2035;0xddf6e002ce9f];[0x0;0x13ceb8af9218;0x6079f2ca3b69f;0x630fe59cf910c;0x7d4843b10b81f;0x58110f767a0];[0x0;0x8f8c605aab693;0x96e658c9637b9;0x77bb6c6a15740;0x2917cacb4d186;0x8c912e633f1];[0x0;0xf6575a8178df9;0xcb4396d0e98ed;0xc7eb9e431a2e4;0xc86f92516263a;0x477433d108a4];[0x0;0xf6575a8178df9;0xcb4396d0e98ed;0xc7eb9e431a2e4;0xc86f92516263a;0x477433d108a4];[0x0;0xd05cfc1db46e9;0xccd60ac455ea2;0xc0dbe6799636f;0x4e59cf147bd49;0xc39ddba0e11c];[0x0;0x5b404bc9a11b0;0x5ec16aa21a911;0x1aa39d7b777ff;0xcaedd688a496b;0x1a19b05dbecf];[0x0;0x3245bc9656daa;0xc16052162b627;0xf02478bce4886;0x51bbb7bf204f9;0x1d6b21a8482a];[0x0;0x5fed8732cafa3;0xaef86a5ae5832;0x521eafa89728a;0x861130dc20832;0x4aa4572cb7bb6];[0x0;0xf58957efb8b4f;0x4ddffa6593ca0;0xbf982495ff8fe;0x36268ab3526f2;0x13503625e3bc]]);
 ((V [0xf70fc3fb7a081;0x8c58800c2d4c8;0x78cba357db194;0xbc6745935191d;0x7cdaca59de0d] [0xd642df20e103a;0x18c48c9b2a34a;0x501274b44f4c7;0x10604da00cdc7;0x246baf0eb94f] [0xd09eb17cbd0d4;0xc089f8f6494a4;0x43f65fe378f60;0x8ae89ae4ec435;0x9e52bc7a9185]),[[0x4af8c1c59c59f;0xa193dac5ed0c2;0xa71d0e7b7803e;0x1d7e3b532af44;0xbe6effce6626];[0xbdbe19a4cb2aa;0x85570da0a1d4e;0xfda50c3f8df4;0x5d593ce1c63ee;0x4ae7f5ce2ca8];[0x4cc979a833047;0x1a416063c6021;0x94b3b8fa97194;0x21538490cd3e6;0xc9a59077d0d9];[0x4cc979a833047;0x1a416063c6021;0x94b3b8fa97194;0x21538490cd3e6;0xc9a59077d0d9];[0x9ef0fb2e4bc00;0xc54d09a2d96d1;0xe2a9e51e9adf7;0xa14f953625b76;0xba2cb73cccab];[0x1ecd1e767f442;0xc00a03fdc867d;0x2d306ba55dffc;0xbc09a7aba0877;0x90bb3e915ffc];[0x0;0x71cd01f863ab2;0x81c28508c4df9;0xa9ae4275970ae;0x5a515f35ca5d9;0x4be93f477d7];[0x0;0x4874fb48a92e9;0xec0c7d80da6fd;0x2e941f70bb7ac;0x7ad903c64cc01;0x96004fdb7f14];[0x0;0xf58957efb8b4f;0x4ddffa6593ca0;0xbf982495ff8fe;0x36268ab3526f2;0x13503625e3bc];[0x0;0xf58957efb8b4f;0x4ddffa6593ca0;0xbf982495ff8fe;0x36268ab3526f2;0x13503625e3bc];[0x0;0xf4927501d11c0;0xd92d181497610;0x59c84cf97d149;0x42b37a7bab9ea;0x1449f6f37041];[0x0;0xdc2f834283062;0x3a46266267589;0x4774d49e45c1e;0x4141ff184c63;0x126277c3482e];[0x0;0x86f9557d7f2eb;0x9ec72e6885782;0xcb86ed9b88ee6;0xe491ee1146ea1;0x24885fcc82c5];[0x0;0x6969300b58491;0x2e5d97b2385e1;0x64be009d8126;0x9a1687ca6fb3d;0x2607e7f3cb2db];[0x0;0x7db7d07a87f8a;0x705ac2120173a;0x9b0a83464a356;0xe9add53e831a4;0x11c34947f574]]);
 ((V [0x5c621895c9643;0x4d2ddead9e3d6;0x8af0335ba491;0xf7612de390ce5;0x9aff673f3c1a] [0x393df62e70b54;0xcb34434f44f5a;0xf9abb5be2758d;0xaf31e87974bc4;0x2abee97b82b6] [0xe3e87a1b560ae;0xa444ec1ef7b90;0x2da2341a52c3;0xbf2625edac7e0;0xbacba4f572fd]),[[0xb36f345f02500;0xb31dfc79dc05f;0xb08024f74d3ed;0xa8b4d9c21b715;0x33784d44a55];[0x40f118e0f0af7;0xc2e340753ca78;0xdeff3f9db5d2d;0xfbd64a216b486;0xbfc8a605bb2f];[0xd09eb17cbd0d4;0xc089f8f6494a4;0x43f65fe378f60;0x8ae89ae4ec435;0x9e52bc7a9185];[0xd09eb17cbd0d4;0xc089f8f6494a4;0x43f65fe378f60;0x8ae89ae4ec435;0x9e52bc7a9185];[0x6663ea0bebb76;0x6a887ae4ec288;0x6b3d13b2b969d;0x6028caf048f6d;0x15215c78780d];[0xda8d2ed504f82;0x585ac590507ef;0x73c22beafc690;0x9bad7f3122519;0xaaa7498d4322];[0x0;0x6e4df4141c384;0x2ddf6a1206778;0xed5eb7f5da5a4;0x7bad287194042;0x3b9a09db3be];[0x0;0x3f9bb8d8f325f;0x2509757f91c4d;0xbd918ed660ebd;0x125174cfd0db;0x1fd4e21e1b6];[0x0;0x7db7d07a87f8a;0x705ac2120173a;0x9b0a83464a356;0xe9add53e831a4;0x11c34947f574];[0x0;0x7db7d07a87f8a;0x705ac2120173a;0x9b0a83464a356;0xe9add53e831a4;0x11c34947f574];[0x0;0x883709babed82;0x653b7510681e2;0xcf65b65468472;0x46e5a982ba285;0x52e7687f222];[0x0;0x297668ad13859;0xd7d281b9f0525;0xc2cb9eb947e8b;0x6fe2bec50306d;0x3ce4af04501d];[0x0;0xa0e5277b704c0;0x63fa5ee667d76;0xc24f6cf9886d2;0xb6a1bc3995a5c;0x741e0a15ec84];[0x0;0xffd7a6e15b44f;0xcc18fe01311cf;0x8e354f62eb172;0x190e44683edd9;0x2b6a790215ebb];[0x0;0x8c5ed68b369e2;0xfc5f1d9c9f5c1;0x8b6cc16f960;0x7fc44a761c0f8;0x19e17ddc3d9e]]);
 ((V [0x11cdf9a19a99;0x5eb904c6c49be;0xe1bb6d2a5c5b2;0x69e80ac8ded06;0x24ceadd4caf1] [0xca3acb649739d;0x757ef2f25e7dd;0x939cf42cdfe1d;0x25ff68e3d92a1;0x41d7b1ab70d1] [0x22891606b224e;0x9ce3fa352f099;0x9f1487cf187ac;0xb2d0aa15ab70;0x9e987018eba6]),[[0xd5502a45aba15;0xea63a7d93a1c1;0xec752cb24b84;0x82e3635936507;0x75d88100793b];[0xeb01c87d4cc56;0x5645ae12be31b;0xcf87d48c45f76;0x4ea00ebfa340;0x506768ff444c];[0xe3e87a1b560ae;0xa444ec1ef7b90;0x2da2341a52c3;0xbf2625edac7e0;0xbacba4f572fd];[0xe3e87a1b560ae;0xa444ec1ef7b90;0x2da2341a52c3;0xbf2625edac7e0;0xbacba4f572fd];[0x7e32621be0004;0x388c0a004a1e4;0x4525c0c1c2c09;0x7c71d31f321d2;0x36ec72476bfa];[0x6ccf66616cc53;0x1db9a41274137;0x8a6213ca8336d;0x88782dccc816e;0x197af6b7d851];[0x0;0x26ac8aa551c43;0xdbe87b872988c;0x9e423dbfab408;0xcdc05e96c3b3c;0x4651fddbec7];[0x0;0xd1344a3e67f90;0x678a046fbaf62;0x7bc819e1bcff8;0x5acff1990c92b;0x55fd0c58533c];[0x0;0x8c5ed68b369e2;0xfc5f1d9c9f5c1;0x8b6cc16f960;0x7fc44a761c0f8;0x19e17ddc3d9e];[0x0;0x8c5ed68b369e2;0xfc5f1d9c9f5c1;0x8b6cc16f960;0x7fc44a761c0f8;0x19e17ddc3d9e];[0x0;0xf39a9897d9254;0xf75d6972c955e;0xfd111d6863edd;0x82fd7902e05c;0x72332fbef2c];[0x0;0xa264077a2f33a;0x78852a3c6ccb2;0x4bf91aed20341;0x21561541d1212;0x5dd84706edee];[0x0;0xf0867bf3fbad5;0x1d87a0685b2a5;0xee3651ec803d3;0x85df5a1264245;0xb8f74931a58];[0x0;0x71b999ce12b5e;0x5c997930cdffc;0x759a64e7aa32c;0x4dd7adc9963a7;0x44aa4cc13270f];[0x0;0xc9bbc808d2a91;0x2f9b7494a8ee9;0xe309609ecb82f;0x7857f1b02b8df;0x9777d4291b4]])]
 [[0xe7d409470b07f;0xf4bc2bb6ff2b6;0xeb010ee98ab73;0xb0707c588e3eb;0xeda0485317a4];[0xa03588efa570c;0x6c4ab8f5a4c86;0x5e9a3bd772c30;0xfb398288528a6;0x7d6aa06c0589];[0x22891606b224e;0x9ce3fa352f099;0x9f1487cf187ac;0xb2d0aa15ab70;0x9e987018eba6];[0x22891606b224e;0x9ce3fa352f099;0x9f1487cf187ac;0xb2d0aa15ab70;0x9e987018eba6];[0xf396438ea1655;0x7170abcae708e;0xf2b4c8c9c46b4;0x5027d3963df19;0xbaae2282efbb];[0xac9f456103e4f;0xfada0d2abdbf7;0x6be5730dae57b;0xab11aef21498c;0xc2bc7de915ce];[0x0;0x8573afe05e13d;0xf9c1079fdaf06;0xc41d6b3e0c34b;0x42786d7e3dd0f;0x3bb44731895];[0x0;0x3b4f7976e004a;0xcfbfa0dce38b3;0x782424eefcd05;0x138352e611877;0x93366bdb7b55];[0x0;0xc9bbc808d2a91;0x2f9b7494a8ee9;0xe309609ecb82f;0x7857f1b02b8df;0x9777d4291b4];[0x0;0xc9bbc808d2a91;0x2f9b7494a8ee9;0xe309609ecb82f;0x7857f1b02b8df;0x9777d4291b4];[0x0;0x3cecc88db8e2c;0x89fd1739b82b;0x4aa84ab1d20ce;0x396aa5f1815de;0x10ef3df4f890];[0x0;0xa6ed2d74a602e;0x179b9f324b555;0x3f9370e122415;0xcd7abe56bfa15;0x54ac7c01193];[0x0;0x244710bee6813;0x4c22f2470303c;0xfc9bc6c6f9b5b;0x6aee661085168;0x7d32a8477f02];[0x0;0x63fe1417b916d;0xc2ee7c745cd72;0xf4124f9b121db;0xdd2df16da2d7a;0xda2b6de051cc3];[0x0;0x293923a545445;0x6105785df54cc;0x9ecad4fd35716;0xa49745b9432b7;0xd30f80cfa9ef]].
Definition wit_256A_64_5 : colwit ept wit := mk_colwit (V [0x1abeda40a9742;0x1d13e53976ceb;0xa8588904b9df6;0xe2cc771cc79db;0xf17906475f2f] [0xb4a6e6f0ba73d;0x546726cfdf078;0xb51ddbdc6eac9;0xf968de8693777;0xf3ea06ae0db0] [0xf5cb0d9fee39b;0x7c994deb2994c;0x3433d7f403baf;0x983334390532;0x2f098eb2c72])
 [[0x1bf94d7619fc8;0xafa12be76a368;0x3b465ab29f0ef;0x4fe4e99d8c184;0xbaacea6f91e2];[0x93765ed02031d;0x7fc1e692bcb2b;0xfcc0b152142b7;0x5f245e393b144;0x39c81018613d];[0xf673ed008533f;0x85983ae2e9902;0x74b090602a300;0x8b74430874d99;0x6ca16c6d07e4];[0xf673ed008533f;0x85983ae2e9902;0x74b090602a300;0x8b74430874d99;0x6ca16c6d07e4];[0xe37a449dc4965;0xdd678e1f483da;0x803f3ebfe699;0x49a9d4d4d66f;0x417b677e9bee];[0xaffc1a325b750;0xa25a587374750;0xf4bcbd6615c1d;0x5a89c0ebedad5;0xf84ca899c54f];[0x0;0xecd2462c098b;0xaabc850c49182;0x9c8f66b87bf6f;0x7de6ea5788aa1;0x28e5062c403];[0x0;0x32a917ab89b1d;0x62b32f67ddd7c;0x8fd36227c3e3f;0x7e2feb7752af3;0x4f36a8b6f5fe];[0x0;0x293923a545445;0x6105785df54cc;0x9ecad4fd35716;0xa49745b9432b7;0xd30f80cfa9ef];[0x0;0x293923a545445;0x6105785df54cc;0x9ecad4fd35716;0xa49745b9432b7;0xd30f80cfa9ef];[0x0;0x3292dc2ddfc59;0x8f1f81cb376f2;0x3683c89d52a74;0x8d401adb5b3eb;0xae9e46d7c64a];[0x0;0x968bcdb3ab27f;0x47faf7bb59ba0;0xed997a47080e2;0xdcd57cf75a328;0xff1bb5d0b4c9];[0x0;0xb7d465adcf472;0xbd8b265e9caec;0xcb19be89e1862;0xd28262391f3a5;0x3680a8215b69];[0x0;0xedcc0863dc695;0x8ddb91dcc7b6d;0x76b8f3f4731a8;0xcf0d3174bc24a;0xffb7cb7e714b7];[0x0;0xfbb5968105b9;0x11e2e546041e8;0xe389a26dceb5e;0x7a92c8e4df75b;0xe6129fe27fe9]]
 [[[0x5b95e1a994ad1;0x5439a3ebedfb5;0x383368377b168;0xe15446d5c3169;0xf40a7a90e87e];[0xcfd3909c25ec9;0xeb0d70c3ac5b5;0x210e089c516d0;0x12cc34748ad4;0x4c9939d8f37d];[0x2a5772d0d340b;0xbea1e436868d9;0xc94fb45efdb75;0x8688fd96c7b5b;0x6d3f36020fe6];[0x727e0f19c418a;0x873d13c313d05;0xce675fdb6b3cd;0xa1fdda5dec5d4;0x9ed00cd27691];[0x43cef6bea5863;0xa06176e3566af;0xe4e2cd9850ef2;0x40b0cea1cd762;0xa73f24c37d5c];[0x38333c1c38949;0xd78767d7290b1;0xeb2736d27ccba;0x1326593b8e263;0x75a8c68d2bfb];[0x0;0xa7346f691cb18;0xa8c1953fb5dea;0x6bf06bcb86f0b;0xbe8d9bda4409e;0x11b51dceca];[0x0;0x33f97f57a804a;0xc9412c960523b;0x79b3fd0967427;0x38436d95c85db;0x678e4da892e9];[0x0;0x8c54b5990d5ba;0xd57a251853755;0xcfa7e7774feca;0x4fc445881b619;0xf37d2cd5ea1b];[0x0;0x5ccf5a2176046;0xd02c608cdf69;0xf51f23c1ab34a;0xddf24b95d1162;0xc76e5fac6c11];[0x0;0xd067b28a54339;0x46e4f490f015c;0x3c77a3013d98f;0xb0e63f3a698a3;0xc9728f35eb63];[0x0;0x671d21797a087;0xf01cc0da6b5cf;0x89621c17b2627;0x7777128de9f80;0xf10d435a3487];[0x0;0x5f1d24e8da5c3;0xa9b1a1130a3b6;0xa72e30ddb1ca4;0x38e296992e433;0x35efc70a7c35];[0x0;0x249deaaab031a;0x4645a654cc275;0x73a5d7919cabe;0xf6717b2fb8acb;0x2db5dbd12caf1];[0x0;0x9eb3aa5c49e7e;0xa578f51961399;0xb5b07783b442b;0xdf3e77719234c;0x1ed613165f2a]];
 [[0x5b95e1a994ad1;0x5439a3ebedfb5;0x383368377b168;0xe15446d5c3169;0xf40a7a90e87e];[0x4ed581e085179;0xb4196f3ebaa9b;0x17ea5a3eb7ee9;0x5b02bfd382df4;0xa87bdad6e1f2];[0xd266a0bcc005c;0x21a075e53f70d;0xba8fb323c8b5e;0x182eeeb4c1e25;0xefd3d440cc6c];[0xb1f5ae7169447;0xad2f127aad65a;0xec3d0fe6f9d6e;0x26f770c5a7ad3;0x5ea4df6840ec];[0x65bea931f956e;0x547c5136444d3;0x7679e8c4027ed;0x1af62fb4d7eb5;0x20518bee76e7];[0x9453bdf29ae9d;0xe109e6b756bcd;0xe85dc23f2fb6;0x58769c33e834;0x92425142ec2c];[0x0;0xa7346f691cb18;0xa8c1953fb5dea;0x6bf06bcb86f0b;0xbe8d9bda4409e;0x11b51dceca];[0x0;0x37d8e8405d13a;0x10b6d2079ad83;0x995e719dea7f1;0x38646cd87798d;0x972689f2b24];[0x0;0xff67d397165df;0xa9aa00d7fd73e;0xe31720be2324f;0xae50a97a0516a;0xabc05d6ba916];[0x0;0x7a8411971732d;0xa49c7ed7f1220;0x3304a6693ea23;0x766df2da18a12;0x294ea6c51c12];[0x0;0x9bc30fef6fe21;0x8bcaf6b5fe582;0xa58f76febe1fc;0x40e1ca9aa42d9;0x29b991097cd8];[0x0;0x774bbc2937013;0xa568eb8929eb1;0x43a28c64ca370;0xb2e41157c387e;0xaa08459e83ed];[0x0;0x19e105c6724b3;0x5bf7ab8b1983f;0x61511d68fb8e5;0xe5a9d7c5e4194;0x6b688dd97efd];[0x0;0xc4b9ca7a72498;0x673b63d2dbb3b;0x5a0e0d272312c;0x6eb438dec698c;0x8e5807a56e75a];[0x0;0x2d91d2e155062;0xb5f6b5f3909b;0x374fc53dba0f9;0xc0fa5a0014177;0x58d88cdee085]];
 [[0x5b95e1a994ad1;0x5439a3ebedfb5;0x383368377b168;0xe15446d5c3169;0xf40a7a90e87e];[0x867fc3726f951;0x67f76d4968808;0x4a2261901825;0x66175093d1346;0xdf13fb39180b];[0x191aafa9f0f55;0x5b10846a65726;0x6816ddf0a57c2;0xf6828cd1ccc43;0x533d1d1bf3a7];[0x4b29005aaff7e;0x49c570b55a55e;0xce3f4b150fa1c;0xe9c8db8e2ff90;0x59da1ffa9304];[0x5438380db71e0;0x90a064cd31c9e;0xa1dfc8efbcdd1;0xcdd9d4c51ea2f;0x753a4d84de39];[0xdbd3fb5ec486b;0xccbd2ee7782f8;0x1a7d5f8bc37e;0xdeed7e5a29519;0x3b448cf5e876];[0x0;0xa7346f691cb18;0xa8c1953fb5dea;0x6bf06bcb86f0b;0xbe8d9bda4409e;0x11b51dceca];[0x0;0x86a1ba4de78a7;0x8f11f8c76db3;0xd9400d5db3ca;0xf52a89629ea53;0x93cd995fc78d];[0x0;0x211a13daad1d1;0x82610d663d12a;0x7781dce260cef;0xdbe6740c44c24;0x9b7ec969a48a];[0x0;0x26c3bf1d006ce;0x17bc180557a39;0x788fcb291fc48;0xc4d092870e555;0x83751fb80a9e];[0x0;0x11ff86782e060;0x75d68eed47657;0xb258090e8f43e;0xb89e15f92b2fa;0x84c95fc55e77];[0x0;0x37940d65e0cdb;0xd36342d3c1264;0xd4899fb2041b4;0xf568f304aa080;0x99f0592b6014];[0x0;0x95909f76f32e3;0x1729771826b54;0x6c3a590d102cf;0x15b0176d28882;0x90e87d6baa3b];[0x0;0xb2e7a9a03b7a5;0x3591c005de00e;0x20f12dc640417;0xeb5c0c40679a1;0xfb7175d5bbe84];[0x0;0x83bcb1bce503;0xb1e271787b6b4;0x710a909c35900;0x1e0698bbf05b7;0xa20809e3dc73]];
 [[0x5b95e1a994ad1;0x5439a3ebedfb5;0x383368377b168;0xe15446d5c3169;0xf40a7a90e87e];[0xaae5825faad5;0x3726df70b6069;0x38c76daa65b46;0x4bbd807d55247;0xbeafb09236e5];[0xd6ac42c6c522b;0x89695710b6cd7;0x20a2edbf60a3a;0x783648d6e58f0;0x32d413e9f104];[0xb4088b21546db;0x6cc3ffba866d7;0xe5ed54d46eb1e;0xb65e2b71f6037;0xac54cab1c3b];[0x2a6ba9242d1d6;0x98a9fdb2c0160;0x8ad4f3f06cc7;0x1590dd0705e1c;0x13d725a85d46];[0x6aad948030755;0x7ada5857123cd;0x2c556de3efabe;0x82101fee8f378;0x86d1901cbde6];[0x0;0xa7346f691cb18;0xa8c1953fb5dea;0x6bf06bcb86f0b;0xbe8d9bda4409e;0x11b51dceca];[0x0;0xd0c4e6eb8ade;0x2b70cc5d89f5;0x25dfabfbe381c;0xad322135d24b5;0xc567900549d7];[0x0;0x7237716b7b2c7;0xc2b625f0970bf;0x25135546788fa;0xcd1301f817c2d;0x9e7167d2beb9];[0x0;0x772365fb6ae1;0x8cd3ac9938171;0xcfffca7f3ed3e;0x87c2a17f01;0xeb488ee760f5];[0x0;0xb620993439fe9;0xf37f0126035e;0x39c8a659f7548;0x342e17253d504;0xeda98a3f09ef];[0x0;0x2fc6891dfecd5;0xc6caf3d634a3b;0x59bd158a777b5;0x16d7c8a5b3464;0x9cdb69f51b4c];[0x0;0x66f2a4dfbbb3a;0x7c3d7d83e2cbf;0x501dd50096fe3;0x4f3b7856500e2;0x79db36e4cab1];[0x0;0xab70386661397;0x33486e2612aa5;0x2d5f530fb5a26;0x2243ac726751f;0x827b6e20451a9];[0x0;0x9e38487b81999;0xc49fbb01e6f9d;0x35aef9446cd0a;0x3e41cba894037;0x52131d788b9b]];
 [[0x5b95e1a994ad1;0x5439a3ebedfb5;0x383368377b168;0xe15446d5c3169;0xf40a7a90e87e];[0xc740e6bc72afb;0xf49f7258c4;0xe34c6c96cede5;0xbf724ae7069c3;0xeb5fbab2bc92];[0xd21d760891e82;0x855620624cbde;0x348533ba8e4ef;0x966bf52ef9edf;0x7aea5c8908ba];[0xf35cd9b103eec;0xbbce6a64fa2a5;0x4cb7c915c224d;0x4d60de3835151;0x7768c277604f];[0xf3777bc1e0ad;0xe7c2963849ff1;0x68b27460bd070;0x26b45cff299b4;0x652388fff667];[0x92e70fa6b7c48;0x37673f628e208;0xab69f93952ac6;0x8643624e2bf60;0x6c95aa461550];[0x0;0xa7346f691cb18;0xa8c1953fb5dea;0x6bf06bcb86f0b;0xbe8d9bda4409e;0x11b51dceca];[0x0;0x31a4eca8a911c;0x23a4494c8b5ef;0x5ff417ee65a7d;0x144d775aa8230;0x143d04ab17ff];[0x0;0xea7e754a4e10;0xf5f716c45d1a4;0x92d841fe77033;0x6b9ec7425702;0x9bdeff9ca6f3];[0x0;0x9a30c1ac87b36;0xba9cf15f35479;0x533d6873dce14;0xe082ffbeeeae9;0x79255a63547b];[0x0;0x6c9e69e817e86;0x5055bbdb166f4;0x2b35d01cc88f9;0xb9a7f3a6f68e;0x7a5ee9f26f9e];[0x0;0xc4f7e410a72f4;0x5ed59fb44a2c8;0x5d4b34d383000;0xafb465fca9158;0x9a4f98d65ffd];[0x0;0xc7dda90f482b2;0xf5caba9883dd8;0x39d383cdea50c;0x594653a040ca;0xe0912f825ecf];[0x0;0x646dd0984123;0x95cfccba4f476;0x74405017cd10;0x94592e55a163b;0x9c4a0960390fb];[0x0;0xfeb284e2e0c8f;0x473f38212df8c;0x44cd9974abf32;0xb70152ddfd3d6;0x945dc71564bb]];
 [[0x5b95e1a994ad1;0x5439a3ebedfb5;0x383368377b168;0xe15446d5c3169;0xf40a7a90e87e];[0xb5f5af726d271;0xa6d9240fa0596;0x648920a838de9;0xad9a0eb488f73;0x5bc1d202151a];[0x3dfc0fd539c73;0x1619f587bbad8;0x3a499af6ee523;0x8aca4ba46d3c6;0x85ce98e59afd];[0x7c8c498b3eb9b;0x976b8d1741961;0xe714bb011dbc8;0x93adbbf7a39f7;0x8eb88306a588];[0x813d2298814c7;0xc706287c207a1;0xc38b764b7099f;0x206d0775a10b3;0x3fb9946726d0];[0x9acfa88399121;0x8c81a3cb69ec8;0x594ea44324b6a;0x8ef8229c35c2a;0x7f884cf6745c];[0x0;0xa7346f691cb18;0xa8c1953fb5dea;0x6bf06bcb86f0b;0xbe8d9bda4409e;0x11b51dceca];[0x0;0xd1f2c6020a499;0x2f01eb1bfee01;0x27389d0c3f5b0;0xc53f35ca509b8;0xaf7eba04d72d];[0x0;0xb4037ebec552;0x8593e8050efbb;0xa6b0b2eca1ebd;0x33486655c126a;0xe8b71a25164d];[0x0;0x5ad9d0d95d789;0x3b6a0ffa3114c;0x3f1b9b1d19b16;0x530cb9f89ce8c;0x92ae7e3d4345];[0x0;0xf0105cee108d6;0xe95a88595693a;0x60da36a475090;0x45cef96b55e6f;0x942a25d06721];[0x0;0xf321b423412ff;0x7d27dc7c23155;0xdc85ef2e96e41;0x13cf9ea6e361a;0xe662cbe6d505];[0x0;0xaf30adceff0b4;0x8fb9f4b1aa692;0xff0afba5aa80c;0x60b7ef56f977d;0x5a8c1cb821e6];[0x0;0xc615c8f6be417;0xbe564d2e790d7;0xaa645c5baf478;0xe98b013d3337d;0x846cf6ae8d2d9];[0x0;0x376539496a634;0xf97a0c50edd80;0xdc5eb89c587db;0x4fad3ddcdf8f7;0x7da440c0bfe4]];
 [[0x5b95e1a994ad1;0x5439a3ebedfb5;0x383368377b168;0xe15446d5c3169;0xf40a7a90e87e];[0x459cc17fde55b;0x26cc73b32620d;0xff84166524d8c;0xc0d1175d17d79;0x2a6cdaa4b1f0];[0x8c1e2eb33ee3c;0x1106ade212113;0x5dae4721f3dfc;0x99364320b78aa;0x32c57d21b791];[0xa40129ceced4a;0x5a1917b9174e0;0xed521158941b1;0x6714f89837df3;0x4678c84c7669];[0x35af61ee83024;0xa03a91a68addc;0x67eb3f9222e06;0x52af45adf531c;0xed7e8b52daaa];[0x840270602bbd7;0x818a0d8b145ab;0xaf6ca09877121;0x65a5ee0ead85a;0xb3f2199b4c6c];[0x0;0xa7346f691cb18;0xa8c1953fb5dea;0x6bf06bcb86f0b;0xbe8d9bda4409e;0x11b51dceca];[0x0;0x8dc601254cf65;0x36e7b343bb6f3;0x27acb485289c2;0xf2a166ae07fd7;0x1ce65bbf31ee];[0x0;0x21dcb612153;0xc0657efbe8ea3;0xf61fe0a2beb95;0x183c9ec280e9d;0xf0b2bdd9182c];[0x0;0xc37098a38c1f6;0xae48d817190c6;0x7f9a1f891a403;0xf395315f618ad;0x78186252dfb6];[0x0;0xcd7ae17ef0fea;0x79211018695cc;0x87ee983d2f293;0xa2875a2fb26b5;0x794f39b6803a];[0x0;0xedf460292a585;0x5f3d41359672c;0x58fb79993cb66;0x781ca3c1f6156;0xee49fb046f96];[0x0;0x4143396cb15b6;0x3701c01b1d371;0xbef90a70e6ad8;0x53a90937d4b70;0x13d3695dc18e];[0x0;0x446e7ffa5639f;0x37bdd71b74fdb;0x216ac900d2dd3;0x46f21906957e1;0xd15e5288b003;0x1];[0x0;0x94e0eac69a3c7;0x154c1076fb05c;0xeaea4f3132688;0x55e38dd363a29;0x7783e4601ba8]];
 [[0x5b95e1a994ad1;0x5439a3ebedfb5;0x383368377b168;0xe15446d5c3169;0xf40a7a90e87e];[0x3b2da9540a1f7;0x46d88cbeecad9;0x5bf5750d9ca92;0xa5575d91e1418;0xc7243b5e0bd7];[0x284a8c4d52d5b;0x811ed47f078c0;0xaf9f0983b908;0x156a38446ddb3;0xa981aa33e80b];[0x26f53624d1e96;0xbca5760079faa;0x9a0e268eb49d2;0xbf16250c237d;0x9369803807bc];[0xf827f836e3685;0x21c2a0b026013;0xf1972ce036b0d;0x8bf1c50f35a31;0xa15df1479601];[0xcbbfb81e44396;0xadf63da672a40;0x11992cded3af3;0x8985b8e640da9;0x9eaa320f69f];[0x0;0xa7346f691cb18;0xa8c1953fb5dea;0x6bf06bcb86f0b;0xbe8d9bda4409e;0x11b51dceca];[0x0;0x7039f486bf660;0xaa2064b42a21;0xa52a4f2d915a2;0x3c8fb921f39cc;0xc97a99358f1e];[0x0;0x6b7bf2235a9bb;0x9c22d437f02b4;0xa28c8e54050ec;0xbc26e2665b74a;0x71fbee93a80e];[0x0;0x42b88531e6d4;0x5e38ea89f8ec9;0x1d954a84affe8;0xc661423de50ea;0xf13cb03385cb];[0x0;0xe18886a4ca318;0x245967b739c1a;0x538604218d5d1;0x44929db9e8b7b;0xf3ad146f45c9];[0x0;0x378b12d7d5716;0xbd7700a6c7380;0x2ecbb045a0c01;0x6824cc6a9b8c1;0x70d7dc68830d];[0x0;0xf88add229c0a9;0x327ef380508d4;0xda9d5f86e43b3;0x1d34ae5169330;0x866b1bc27ed1];[0x0;0xfb775371daf9;0x783d848bc9c;0x1ca9f15262a4f;0x398071c2bdcb6;0xa9e11272fb342];[0x0;0xf99ec144a5acd;0x9dc5eea9db89d;0x56f272017e569;0x498d7ccdd9d0a;0x7118bfe4ee2f]];
 [[0x5b95e1a994ad1;0x5439a3ebedfb5;0x383368377b168;0xe15446d5c3169;0xf40a7a90e87e];[0x2909264c626b8;0x7f214c3add408;0xf3a5c54cca72;0x35a14b4e4399e;0xe228879cae29];[0xd4d8841b0bcb;0xdb2614bfe97fa;0x4033948e31b70;0xe265cca95396;0x6045ee52c250];[0xd046e983d5bbe;0x4064d435c7709;0xe186324bde238;0xb21a01e043b8b;0x80df30a4667c];[0xec011813de304;0xf78da9b8aceee;0x6afb70d6fba04;0xb1ae24b3085b9;0xafef38604ed4];[0xef905110637e7;0x5cced774c953e;0x3fb1f6e4936ac;0x10be877720a8e;0xd11465ee94ed];[0x0;0xa7346f691cb18;0xa8c1953fb5dea;0x6bf06bcb86f0b;0xbe8d9bda4409e;0x11b51dceca];[0x0;0xf2da21989661f;0xf75581d8c419a;0xfc57b24a6939;0x1d237806d9ff5;0x2aab03ae94f3];[0x0;0x316fcd6d6a1b7;0xa089b324183ce;0xf7925ccc09fb8;0xa4a5fa4adb035;0xa4a3b23fd448];[0x0;0x56ebdcb49d054;0xb3bc5bce33ea;0xdcd5ab6c7eda0;0xc72afe0b8563f;0x9e0b8ea2e219];[0x0;0xb36203e0ecf5b;0x5e369b8d37076;0xb2cd4f4fb8b71;0xbaa8fc38c441b;0x9fa49fb68e74];[0x0;0xc7bd1e3473fb7;0xc52ae74bb66d7;0x954b9b75316e;0xf0ba94a0c7c1b;0xa2fdd3b2e3a6];[0x0;0x6573a05708493;0xf887cfed66f1c;0xca4799f936881;0x1575182ff49b;0x6c5f69543e87];[0x0;0xffd80196de684;0x5b36c120410ed;0xfbb2ea4d125b9;0x6968a6a6a6ca8;0xedd3636198b4f];[0x0;0x5595af9e2ba1e;0xdbfc4bade27ce;0x23a3771564c3;0xe722c9a9f32c;0x7123aa83031f]];
 [[0x5b95e1a994ad1;0x5439a3ebedfb5;0x383368377b168;0xe15446d5c3169;0xf40a7a90e87e];[0x7003080fe4efb;0x5bda91f07d128;0x56f69033b1e61;0x66ba3de714584;0x469d18528f69];[0xdd680203765b3;0xcb573ea6ac25;0x5351fe6a1de29;0x437f91491ebb0;0xc913a1baa6b5];[0x56ac664dc73a1;0xadc94aa19edb;0xb7996416bdd6f;0xb1ab2045ead1d;0x14e4e4a5ed66];[0xf255544bec5b0;0xc9d9f1764baf1;0xdfe03b80aa557;0xe6cfd1162c153;0x7382fd197d1e];[0xdd9fe9de0aa0a;0x2d2d6a427b60e;0x8c51d5d740796;0xf3cc8183764ca;0x5947a18e64be];[0x0;0xa7346f691cb18;0xa8c1953fb5dea;0x6bf06bcb86f0b;0xbe8d9bda4409e;0x11b51dceca];[0x0;0xb79743656a205;0x40c729d42e7f4;0x6cc055bd7948f;0xd45190ed57f9a;0xe572318fff9];[0x0;0xb494ce91e3535;0xe529b3723409a;0x22b714b572cb7;0x31481fa743a3f;0x74e190d50216];[0x0;0xb5a1c3bc6b3b9;0x5f0dae762b12;0xa9e191c88b096;0xaf1a0b85a618d;0xdeb50ff4765f];[0x0;0x5fe5ec7efa150;0xd2ead4350051e;0xb13d00d5d541f;0x195ded97f8cdc;0xe0f57e4ebc4b];[0x0;0xb9680730580fe;0xe615d69b67145;0xadff42c199bd4;0xf3bb6296bb098;0x73b61250409c];[0x0;0x757dcb27d3f8c;0xe3bbcfcb2be0e;0x2931ab3b2df68;0x9a00f608edfa5;0xb736d4169a8];[0x0;0xe78b3c1ca640b;0xe7e8aca26ffee;0xda7937a087e8c;0x4bfa0b86f6201;0x14dfb822a4508];[0x0;0x5c8c140b03ac9;0x2364baa3ef542;0xe2029eeba356e;0x1112910ef2e38;0x33d0759e73c]];
 [[0x5b95e1a994ad1;0x5439a3ebedfb5;0x383368377b168;0xe15446d5c3169;0xf40a7a90e87e];[0x53fccfa0f51c3;0xfb4457651c5ce;0x9326127223b84;0xb3d8399c64754;0x7e6988396f96];[0x3a0faabe3968d;0x61e3c540aba35;0x2fac53669bea1;0xf987af4030c46;0x954d791847b];[0xae0d1818a9dea;0x38f84b7705fc9;0x47fd5bb5a9f55;0xf25cf5ec5bbe3;0xdf05fe7afdcf];[0x1c300f0608c9a;0xeb026599b756e;0x534efa7d09845;0xe1e3af6157fb3;0xd3ad39895731];[0xe1cefa86035ea;0x5e26618c1224;0x19a2034393bf6;0xcfac55f39f342;0xe3e131df4c10];[0x0;0xa7346f691cb18;0xa8c1953fb5dea;0x6bf06bcb86f0b;0xbe8d9bda4409e;0x11b51dceca];[0x0;0xf598f722ad1e6;0x99cff56d756aa;0xf87eb33bd6270;0x8fe302623910;0x4ca777e8019a];[0x0;0xc1e5f260bd107;0x70450f542d458;0xcfebce8a59bd5;0x6d643ff6c9ba1;0x278dc12ba58f];[0x0;0x3436e02af8fd6;0x12cdd4ebea5e8;0x65354943b1d47;0xd35fde24b3e64;0x12d6393372e8];[0x0;0xe98cc76436090;0xc4207af32b5b7;0xbe9c4ef83314e;0x4a2ca0cd29ee3;0x1306fa83cbd2];[0x0;0x41ef01c645f2e;0xb3c1d07b5eda3;0xb2f45551a6f3;0xfc85955ec292e;0x2728671b502b];[0x0;0x4cd657a26b06f;0xcf7530b0412a8;0x515a86a12610b;0x795272d79ad85;0x60115d1df06f];[0x0;0xab6f68737adc6;0x951ce3bbfd313;0x6c01ea9c2cb5c;0x41cecb4c7a463;0x31c3384dab4ac];[0x0;0x5c3d5151d16d4;0x1f0c8ee741d6a;0xa6912c8054db1;0xabd6604c726af;0x24a85b5cbaae]];
 [[0x5b95e1a994ad1;0x5439a3ebedfb5;0x383368377b168;0xe15446d5c3169;0xf40a7a90e87e];[0x43f564accf757;0xf957962c8ba75;0x82c83707a6f51;0x8e5a17922553;0x8a2ed0d20b1c];[0x3e9c954646502;0x6084cdf8caff5;0xca0bfb65c635b;0xd27d838fa8fd5;0xdea83bc8552a];[0x84c09b72aa246;0x5eb13dfd7945;0xa9b129d5ba0f6;0xbb5e14c2e0f;0xb2941a9988ed];[0xab25e4a8c6b66;0x2e82d70b1bc0f;0x400d8e3a526fe;0x2420048da3b7c;0xa38f1901621e];[0xaad3a9f38def4;0x74c7fcf50a5aa;0x7e6eb8278ea80;0xc755762d3cff2;0x749fb6dbef4f];[0x0;0xa7346f691cb18;0xa8c1953fb5dea;0x6bf06bcb86f0b;0xbe8d9bda4409e;0x11b51dceca];[0x0;0x3687db815ecff;0x7c72395c0afe7;0x602acec36db41;0xf8bd8434205b6;0x3a771ab6c948];[0x0;0x463d67f3e9786;0x3cb8d8d655b5f;0x5f23b7abae729;0x8c1e423fac605;0xb95d3cb95b2a];[0x0;0x2a17b8236990c;0x8b4bec6457009;0x7937c221fc147;0x14afa4a0603fb;0x2d7fcc3dc5f8];[0x0;0xe61d3801ec845;0xe643f2d973de7;0x9dec085754436;0x3b917a403df03;0x2df5901f6826];[0x0;0xd7bb4bc5c049c;0xe55968ca0988;0xdb048b3fb5261;0x6db10cb192e93;0xb78243582937];[0x0;0xfd8403f0d0908;0xacba0db708984;0xecfb9b373bf33;0x61198bc4bda59;0x69793c102361];[0x0;0xba8f7cb1dccc2;0x5996a25b83c62;0x1ed48879a0d19;0x5e7fc27aa4ea0;0x87bc42af876fc];[0x0;0xd8de7f8a223c6;0x7cc88ccc68007;0xb77ff41dc298;0xd851eca20b0ac;0x64b56a895c85]];
 [[0x5b95e1a994ad1;0x5439a3ebedfb5;0x383368377b168;0xe15446d5c3169;0xf40a7a90e87e];[0x7333a5f25e80e;0xca5272a4dff6d;0xdf7d9f5620414;0x35f4e810ba12c;0x5d0149406f61];[0x90d803a3af788;0xa71a035bc72d8;0x79b66d17fd7ce;0xa5db0c730e84b;0x7998edb260c8];[0xc5d42a797d82f;0x3635bbc080dad;0x6234a0068d5da;0x17030a9b72101;0x62fafb28c84e];[0xaf70107fe0a0e;0xac734db860f85;0x8d4d35e39814e;0x40b7b17543f25;0xcd89804f3e49];[0x10290fb68b292;0x8240ae29f354d;0xf57b360d10616;0xdf086c261df2;0x115c39aad637];[0x0;0xa7346f691cb18;0xa8c1953fb5dea;0x6bf06bcb86f0b;0xbe8d9bda4409e;0x11b51dceca];[0x0;0x7ff03c9b57458;0x63e496483740;0x15469f42bd467;0x92d26326e750b;0x8ed16055d359];[0x0;0x6a07218b94ea8;0x6d3817c2031d0;0x7fa4db89939ef;0xb11aeb4a17b71;0xba2d5bf2597e];[0x0;0x2bd0cb8ef7719;0x477ade8e2b394;0xcfecd09dde37a;0x84fd413dbac9e;0x7c73fae27565];[0x0;0x6ef886fb6a79b;0x9fe6ad380f888;0x5b68218c5765b;0x16b3641e663dd;0x7db619c285d9];[0x0;0x7cc2424a47782;0x601e3debdbadd;0x88bbe5a0f6f1;0x6d2b33c63d2b6;0xb8504d475e0d];[0x0;0xcff8c684ef780;0xeae0e3b282f83;0x9cea1636abfc5;0x7420aa8f5bf7d;0x49de25271ff9];[0x0;0xa41c503a65dc3;0x99bbe6d51e376;0x35686fad6c662;0x3049f1bfd7a86;0x7421710ac811c];[0x0;0x80160c51c3cd9;0x4e2f3a41d1e3d;0xd0ff456a0ce89;0x25e5ccc7faaf6;0x58b47acbfdd4]];
 [[0x5b95e1a994ad1;0x5439a3ebedfb5;0x383368377b168;0xe15446d5c3169;0xf40a7a90e87e];[0xb9e723ab001cd;0x5c5d5d69438f2;0x694d69e020a33;0xe47b9ac6daae2;0x1182434b2dfe];[0xdfe998c9276b;0xf4482d9a3978d;0xf719b99bd2e83;0x325c471fc7f2a;0x6ae11d8713e9];[0x55252088e7bc4;0xa0faed7554d39;0x4e2bfb175d1e5;0x5f0e0710f56b9;0x424b91e77a30];[0x728f9105cb6ee;0xf357fc9f00bfe;0xe46779b8dd933;0x7aac08da2db97;0xf868c5e91ba4];[0x703f242d313e9;0x21352d13bf15f;0x5cd6985916fd0;0xe670cdee7f734;0x94277330b58f];[0x0;0xa7346f691cb18;0xa8c1953fb5dea;0x6bf06bcb86f0b;0xbe8d9bda4409e;0x11b51dceca];[0x0;0xde51bc6b4e388;0x5b0020d2b736d;0x4a89470a9a6b1;0xe2bdfea774dfe;0x2be84f33ae1c];[0x0;0x1611b23d151c6;0x450725bb4ee39;0xaeb262766add4;0x35373a76a4511;0xc1b994e533ff];[0x0;0x3647d3030223c;0x7be80ec68af9b;0xbab782598d84;0x951963d32678e;0x69592e05c4cb];[0x0;0xbc454b660979a;0xde1ec1447a8ca;0x7177808c673a4;0x1d8667a59e539;0x6a69da1656e6];[0x0;0x5a8d8135edf5f;0xcd1e96ae69bf2;0x6938be1a8a78e;0xb0f0d771b071d;0xbfc92f220ba4];[0x0;0xa2bb2900207ef;0x83fc6915915ed;0xfd7e06ab07884;0xf604d772cbed1;0xa65b499804];[0x0;0xeb7449ec0500e;0x216a1146c2c28;0xac60bc4c5036a;0x75063fc8bc931;0x2806e8769c4e8];[0x0;0x3dd5baf5e11d2;0x1765db6a69b04;0xf6c578722e553;0xc4628a0160383;0x1676202f13a]];
 [[0x5b95e1a994ad1;0x5439a3ebedfb5;0x383368377b168;0xe15446d5c3169;0xf40a7a90e87e];[0x786b6d3023474;0xa386962db3020;0xd2c82931f645a;0x3928cf2c50fb4;0xcd991b0731af];[0x4cc5fe6c66a39;0xf37c47c288cfb;0xc77504c1ca1d0;0x4c7bf6b97ba27;0xe70c01888cdc];[0xc4cff8ae1abf2;0x6e84659caf341;0xabc7d8c0519d3;0xc886030b36538;0x66cfab7ba05f];[0x8ebf204748f21;0xdaa51d22d5619;0x372bdf55e8cdc;0xa18c273dbe95;0xc6ce3a447473];[0xd6d53d9901f3;0xe07e2c5b9e6cf;0xd578f2ee436c5;0x2daf29699ec7a;0x98245f6d86f7];[0x0;0xa7346f691cb18;0xa8c1953fb5dea;0x6bf06bcb86f0b;0xbe8d9bda4409e;0x11b51dceca];[0x0;0xa7a85e663672a;0x44e561e7e6e5;0xdc39ae0b2b1f3;0x4e3f17556602f;0x6e53adc28296];[0x0;0x823ef99215d15;0x2c310dcb3d013;0x9ccb343ca81f0;0x451eceac20009;0x90d7fe94f79];[0x0;0xff66e27c428ae;0x6226cc5057112;0xc385bc6856528;0x4abf924c53064;0x23ad9e25427d];[0x0;0xba90eb803bee7;0x5627d4fd4422d;0x9d15c682b4133;0xd6d854443aa99;0x2409f6996656];[0x0;0xa899468a0f123;0xaf0815ae25fac;0xb31e55b5a4d11;0x2e5c07954f2ea;0x8f64d96cf2a];[0x0;0x3abc449b8f242;0x5a88770c00bb3;0x51db694fedb7f;0x18dd1e56c36c1;0xc59e761db092];[0x0;0x5f85b5ced883d;0xa9e7c01f48168;0xeaf1c3e02dec3;0xfaedf881af911;0x7ea7ff342d762];[0x0;0x1034ed59e7b94;0x7fe4702c0a53b;0x41cc504afba1a;0xa384f81b05434;0x7842d04c5217]]]
 (V [0x80594c02340ca;0x6aa8081829cdf;0x20c878d0dd5bc;0x11e1332a8f99;0x2be174276a9e] [0x4b213ce8ecd2f;0x5ec6ac4be9aee;0xa69b32bbda824;0x77a1c404d11;0xadd296d23e12] [0xcd644939e0fff;0x87bd65004ef17;0x29de1f18694bd;0x7b44b36dccc03;0x304e5b72e2d5]) [[0x1bf94d7619fc8;0xafa12be76a368;0x3b465ab29f0ef;0x4fe4e99d8c184;0xbaacea6f91e2];[0x655efab538fb5;0x2f0b9a1d99a92;0x7dfda011141dc;0x244774899fb33;0x9f47e6e8b7b4];[0x3200cf2ddd39b;0xa3eab21602eba;0x3bb1c4493bb60;0x22e780774ef25;0xaa1335b37160];[0xd893a0a6844e7;0x6adc3a3ff67c5;0xb74cab5105639;0x1f793022864cb;0x373de832da4b];[0x25c8a5f6a5ffc;0x79191cfe48d5d;0xa6f4b78a6db4a;0x3200eeef4a30e;0xb2b1463acdde];[0x27db710d883af;0x8483826d200cd;0x737c678392d1b;0x72662d17007fd;0x6690cd56db82];[0x0;0xecd2462c098b;0xaabc850c49182;0x9c8f66b87bf6f;0x7de6ea5788aa1;0x28e5062c403];[0x0;0x507b618eaff6d;0x23a8a8d2865cd;0x4322631cc9a0c;0x6d23ff7ce8fd3;0x4fbbfdf2bd1e];[0x0;0x864dd2941acc1;0x19bca01a6a648;0xf8c594163358f;0xeb2793b659c9e;0xcb3947d291de];[0x0;0xcac431e19b923;0xd512bf1f306ce;0xcb133cd44d859;0xa0df7a43bd176;0x7ce60760f93c];[0x0;0x92307070f3744;0xf6ec2a64cac0d;0x25ddfa63fb374;0x51a78a750e47;0x67554e533277];[0x0;0x1a9778fd84146;0xccd7817d11b21;0x2254ae1829f00;0xa1cf44c84c5f;0xf5a2cb904818];[0x0;0x70f6f925d92f6;0x2d33d13be54e1;0x440e1035818e;0x6ccc5e3a3dfba;0x1b4d5a402450];[0x0;0x2393e9d06227f;0x46d2da3cfea10;0x757399be5e08e;0x35d86ab10745c;0xb1ed566187f40];[0x0;0x65ecd8dba6281;0x22c6279dbe52f;0x4d5b725f9ee8a;0x4d3c8008aadbb;0x1dcb744a0f06]]
 [((V [0x262a3d2cbcd57;0x348c3a0de3be7;0xa6331c7c5f16d;0xdb1a53aa2a3b9;0x7fd83d0e07dc] [0x416a21ecbc0ce;0xd0ea278c0441c;0x8163493c49464;0x5b92865b696c5;0x2c3e2f077577] [0x7f9be43b61c2;0x5f963f045436e;0xb3386f679d5a5;0xe5e99eccd49b2;0x15be66e26dce]),[[0x139d6125cf1a;0x91944d1f1e56;0xd77b935b145b2;0xe62386cea9121;0x5a084db7596f];[0x3cc849e7bac34;0x44c8c11c2170e;0x89bcd8ee8fcd1;0x7df355551d1e;0x491bb9483e3b];[0xcd644939e0fff;0x87bd65004ef17;0x29de1f18694bd;0x7b44b36dccc03;0x304e5b72e2d5];[0xcd644939e0fff;0x87bd65004ef17;0x29de1f18694bd;0x7b44b36dccc03;0x304e5b72e2d5];[0x4a35d48bcbb02;0x28b7ff437d700;0x921c575166d5b;0x26d534c26c6e8;0x81f265d49125];[0xf292755beeeca;0x1c10c1d8a400d;0xf7a0819d28f76;0xe10a0092e5635;0xc7295373ad15];[0x0;0x8520a438249cd;0x22b8311e4b9f9;0xfc53a71a6a271;0x2e77a5b78297e;0x122f63a72f7];[0x0;0x8444df5fe9b1e;0xd55abdd3d5a9f;0x599d33cbc07f3;0x6c8e0fe54b3d4;0x10fd1d4369bb];[0x0;0x65ecd8dba6281;0x22c6279dbe52f;0x4d5b725f9ee8a;0x4d3c8008aadbb;0x1dcb744a0f06];[0x0;0x65ecd8dba6281;0x22c6279dbe52f;0x4d5b725f9ee8a;0x4d3c8008aadbb;0x1dcb744a0f06];[0x0;0x917ef9dd26b39;0x3b4a46d65a65b;0x32d0d64062127;0x3791720a036fa;0x76064d13f1ad];[0x0;0xbfacbf35e3b76;0xfae4128628a22;0x95b7e1baae604;0x3cceeadf96d2e;0x78583929fce];[0x0;0xcb8994cda5bc3;0x29a5558142933;0x2b3fc33bb6790;0xf7f447e43d8e2;0x248281bec8bc];[0x0;0x77241e46db48f;0x72d92c1052a60;0x29b4bcc57e28b;0xc6f644b85a44b;0x2e37e99814a69];[0x0;0xa8940b57a7fc0;0xd95d245ead49a;0x80dd8e0416c0e;0x8b202f42929eb;0x161838599f88]]);
 ((V [0x8dcba9a954cf1;0x6295a2993d66e;0x34ead8d8472af;0x5a9049862d590;0xa3638c551459] [0x3c551996fa7fb;0x490814d90f5f;0xe9576e6ca6d33;0x42034102d3083;0x6f38cacf389] [0x4c50738bb17f;0x5edfb70c5be42;0xcbcd7b38513c5;0x7b4b547c27ee3;0xae283a08930b]),[[0x98ea158c70ef6;0x8c68efbd3305f;0x4018fe167b74;0xa132fcb208506;0xbc4458f30cb8];[0x88d4ac3b7e084;0x1b131f71bdb97;0x40bfe117f30a2;0xfa1df1acdfd2c;0x6882435e7c50];[0x7f9be43b61c2;0x5f963f045436e;0xb3386f679d5a5;0xe5e99eccd49b2;0x15be66e26dce];[0x7f9be43b61c2;0x5f963f045436e;0xb3386f679d5a5;0xe5e99eccd49b2;0x15be66e26dce];[0xfc55f994b7721;0x8497bddca0b60;0x96339e3dc3919;0xbfd8d1a9ec663;0x6162a1182c33];[0x8c7eb2a6c6964;0x967b61951d036;0xaa8c42da2f788;0x3a452002f36c8;0x71fa246501d];[0x0;0x1c39ec06241c0;0x5553958f0e236;0x9c6f78a9523e5;0xe1158e9f77157;0x82f815e367];[0x0;0xb03ef806c8058;0xaabcedabe2bdd;0xb3d1f4d2b5e0f;0x35d7a058d1068;0xffda1afb4f7];[0x0;0xa8940b57a7fc0;0xd95d245ead49a;0x80dd8e0416c0e;0x8b202f42929eb;0x161838599f88];[0x0;0xa8940b57a7fc0;0xd95d245ead49a;0x80dd8e0416c0e;0x8b202f42929eb;0x161838599f88];[0x0;0x5cbb431c750d5;0xb5a33e960bc07;0xa41cfd4caa4a6;0xaaa42f35a1376;0x7a56f4560a1];[0x0;0x4a283f0b3f6db;0xe773ff870cfaf;0x7d92182772355;0x1699f8405a536;0x3fd8433b020a];[0x0;0xd81cc8e6bfff7;0x175ff7601b99f;0xc4b9cbc647df5;0x5472daa988eda;0x42b3948f2f18];[0x0;0xb4309995a8f98;0xc5df4bb9632c8;0xc67b84ecdf14b;0xdd69bce85dbcf;0x7355dcd42aba];[0x0;0x9c6c7cbc2ca14;0x55a01ca3f191c;0xe78f5cc9d3ec3;0x51d77bee0db39;0x46fc691064c]]);
 ((V [0xb8da9771371ee;0x9118f198bd09b;0x6526d00009151;0x1c6a626e4ef82;0x51e66b8126fe] [0x2ec42731c421c;0x966344758b93c;0x3975a4f4bf386;0x2cde5c90c0f2;0x957d80d71e3f] [0x76fdaf9fcc63a;0xc288a59d92fb8;0xf29877b455892;0xf300f091efda;0x163f83385200]),[[0x4e8053c7589fb;0x1d9811d5fd6ed;0x44479b31f6c16;0x70347c0909510;0xa7645d073bcd];[0xd805588b55a71;0x165b1a084d53f;0xd020c0925b91b;0x32307773585ad;0x740a2bd52501];[0x4c50738bb17f;0x5edfb70c5be42;0xcbcd7b38513c5;0x7b4b547c27ee3;0xae283a08930b];[0x4c50738bb17f;0x5edfb70c5be42;0xcbcd7b38513c5;0x7b4b547c27ee3;0xae283a08930b];[0x9d4211cd259db;0x4491d83371e68;0x79ddd3374a008;0xc3cc44ca4abb2;0x9e8c2e220517];[0x3ac346be2fe2e;0xd1c941d4db6d7;0x5642ed5b11912;0x6e6432a90d9fb;0xd57dfdb31fe9];[0x0;0xb3999494dbb06;0x56164931220d5;0xd9e8166888274;0xfa4cc1e25ac81;0x418fffcffc8];[0x0;0x991d8df0e670c;0xa80beeb45e125;0x1d96e5629f888;0xa97d3f574cd82;0x71e084dbcc23];[0x0;0x9c6c7cbc2ca14;0x55a01ca3f191c;0xe78f5cc9d3ec3;0x51d77bee0db39;0x46fc691064c];[0x0;0x9c6c7cbc2ca14;0x55a01ca3f191c;0xe78f5cc9d3ec3;0x51d77bee0db39;0x46fc691064c];[0x0;0x20caf02e63f72;0x969df92af5627;0xd1f0811af8bfa;0x64e1c18bada55;0x30524c790e];[0x0;0x68ceff79fd545;0x5cad8698f845d;0x59c13fd468c83;0xb0f8093bc518a;0x6847eb6a2ea4];[0x0;0x50b721a291eb2;0xec06f1b4c0cf9;0xcc011288049fa;0x7e4e09839cd1f;0x251fa9bc9d53];[0x0;0x851e88ca59cb0;0xff6b4351e5852;0x7d17f9c29c02;0x4874b1a0b7054;0x9a992bf67f467];[0x0;0x9b31f83c2c862;0x7dc512c160d63;0x3c0572ef1303;0xf6c7dc143aeb1;0x2fd3434cb1b3]]);
 ((V [0xc1abebf72508b;0x78c24d81daeb;0xff3f0b480adab;0xbfb3e59d41793;0x715990e6ff14] [0x2bf120a01e96d;0xcf75f4ea358ca;0xc4961ad3845ae;0x6093aff182601;0xc7f30733e5c] [0x6b9b11c1ba94a;0x9e2a73ebab4e5;0xbcc1e61fb8ca1;0xb7ba7f92010c0;0xbfa02e402cc5]),[[0x19e603dd06e9b;0xe885b00d9ffe7;0x66d1bbf4e88a0;0x84be192e7c267;0x3e216c531087];[0x3f213f1c838c1;0x41181366fb89d;0x1edfcf02dde23;0xe25f7a4c16450;0x161cefb0d87];[0x76fdaf9fcc63a;0xc288a59d92fb8;0xf29877b455892;0xf300f091efda;0x163f83385200];[0x76fdaf9fcc63a;0xc288a59d92fb8;0xf29877b455892;0xf300f091efda;0x163f83385200];[0x40aaf4947032a;0xc73468b28df1e;0x73bd87aefe053;0x62428dfd825ca;0x23a3acc0ac92];[0xfe764a881332f;0x79e3aab46d97e;0xab224753dfdcf;0x801cec4e93e85;0xddbe223a60f5];[0x0;0x8ef3c31461e35;0x907fed239719e;0xb0d6da3a531db;0xe09cf85367b9d;0x8601c1e255];[0x0;0xb7a92a5be02b;0xa205029b223e5;0xeb883fd78143a;0xa2c5321343af3;0x56649619181];[0x0;0x9b31f83c2c862;0x7dc512c160d63;0x3c0572ef1303;0xf6c7dc143aeb1;0x2fd3434cb1b3];[0x0;0x9b31f83c2c862;0x7dc512c160d63;0x3c0572ef1303;0xf6c7dc143aeb1;0x2fd3434cb1b3];[0x0;0xeb9054871b80a;0x8f04b5829e75c;0xd326aec149c7b;0xb5cf3ec5de2b0;0x574b55817c20];[0x0;0x2643f26ce733;0x2725feebe8ad;0x2cf8f498cd1ab;0x16571f3caa5a5;0x1a339f6d13e4];[0x0;0x1ac521532426e;0xc8a081deb378b;0x31d389c5ec5f0;0x662d9fbdfa158;0x9ca82609ee];[0x0;0xe13edee644eaf;0xa90c266ba2c4b;0x7d06f0e1a63c6;0x17abb038e49b8;0xd460f22abadf];[0x0;0xdbac5068ef8e3;0xb1601f0580f48;0xea8b2e8e9c5e1;0x83eb02bcd03ad;0x58883ad8891]]);
 ((V [0x744cc9c7fe9ad;0x21111395c88be;0x2c4faf49ad5fa;0xa91ceb26ad45d;0xbb11df88f46] [0x4bbc8bbf44abd;0x9b231d2a3a623;0x952fc54a78e19;0x2f8a8b3a0dea8;0x8f2212943345] [0x3cca5ebd2666c;0x14849fcfbfa13;0xeaf32069124dc;0x7ef032f5d2a1b;0x1c6d41ccbec5]),[[0x43c46bcba2d1b;0x49815e69ff5f6;0xc7349fdda43e5;0xa98f514276f83;0xe7079ec5a048];[0x2570ecf803882;0xa3a8c463d378c;0x8b6848deb941;0x50eae8004fb63;0x251403c23a3f];[0x6b9b11c1ba94a;0x9e2a73ebab4e5;0xbcc1e61fb8ca1;0xb7ba7f92010c0;0xbfa02e402cc5];[0x6b9b11c1ba94a;0x9e2a73ebab4e5;0xbcc1e61fb8ca1;0xb7ba7f92010c0;0xbfa02e402cc5];[0xa099ec0fe8f50;0x185a369fff36c;0xa59802f33478f;0x443856da4739a;0x59d4f46e29c];[0x84d700e81a933;0x8b4e8dc3d441f;0x631e819ab71b2;0xcb29126087c8;0x1f76b47b57a3];[0x0;0x36272f4fa8385;0xda6f94bcb76a6;0x35e82c7f9d21;0xca6a408777a58;0x48237e3e11a];[0x0;0x3fe7202c15f94;0xb3887e97fbf4e;0x358f4c12b5dc8;0x5616ee9f8603d;0xacef3df5f6f1];[0x0;0xdbac5068ef8e3;0xb1601f0580f48;0xea8b2e8e9c5e1;0x83eb02bcd03ad;0x58883ad8891];[0x0;0xdbac5068ef8e3;0xb1601f0580f48;0xea8b2e8e9c5e1;0x83eb02bcd03ad;0x58883ad8891];[0x0;0x19a1a924a64cf;0xfd586079feba0;0x9b0a8d1028ad7;0xf3f9656e3ca01;0x9c2bbbe95b];[0x0;0x8ba2f3fd144aa;0x371e2f7bac291;0x816f7fb68238b;0x5d10cae7ac4cf;0x32303141ffd2];[0x0;0xa64817c3ca305;0x64d83237304ce;0xb50ef7883a779;0xd1390435236b;0x1b18357365c];[0x0;0x66dff934de3c6;0xaccdcfdbfc7;0xfe2992e5bbeb8;0x372db52b5db7a;0x96c881e648a00];[0x0;0x374d4fa95bb;0xc6d889d5f6c5f;0x2115d68af138;0xbf80dacff13eb;0x6897e1d0be3]]);
 ((V [0xb2e6efe9582e2;0x4bde511aac1ad;0x863bd8c121448;0xf3a1b30cf82b0;0x7aa0e853d53] [0x82fbc2bbba043;0x2d7c58efb1219;0xa7b0296f91581;0x6c1398fe49852;0x5c8d818d30a6] [0x7e1c3a7a26b99;0x6d6a10156ce76;0x4dc2c8280cb13;0x92ffa4df3f1da;0xf3201ee8cd0e]),[[0x39df55a9a4778;0x5c65c3f0393f9;0x2b597375cd55;0x21f2344985ebe;0x2b622aaada41];[0x219aba4dfafbf;0x7edacabb9a1c6;0x17a66406940cb;0x978bdae2b5b0d;0xf9e6ba276f12];[0x3cca5ebd2666c;0x14849fcfbfa13;0xeaf32069124dc;0x7ef032f5d2a1b;0x1c6d41ccbec5];[0x3cca5ebd2666c;0x14849fcfbfa13;0xeaf32069124dc;0x7ef032f5d2a1b;0x1c6d41ccbec5];[0xdda8ff5752d93;0x3960700cde2c0;0xa855746e2a87a;0x135e2c5ef263;0x4a27a9a205e7];[0x43f1baf6a822d;0x457a5aaebbf05;0x6f50ef9869851;0x9655f81cc68a9;0xafbf1085692b];[0x0;0x798b06a08b074;0x226afbcd7a069;0xf20e122907c9d;0x29d859ac950d8;0xab39127a4a];[0x0;0x74977b988de47;0x4054548df77be;0x9b1c4996cdcba;0xc2bb107f121fd;0x4d1409d7a01];[0x0;0x374d4fa95bb;0xc6d889d5f6c5f;0x2115d68af138;0xbf80dacff13eb;0x6897e1d0be3];[0x0;0x374d4fa95bb;0xc6d889d5f6c5f;0x2115d68af138;0xbf80dacff13eb;0x6897e1d0be3];[0x0;0xb34c1bd51787a;0xa11d0367459c6;0x9c89b60b7ad3a;0x167e754aee60b;0x5007154a81fe];[0x0;0x906f5e93ed8a4;0xfdfa96a76b1b3;0x318eb7526f197;0x740a419ab81d3;0x88b31dd188];[0x0;0xa1f0eece01f98;0x4a82b47335e37;0x3b3d10df0a3b1;0x110acaa5dec06;0x77b507b6124];[0x0;0xf3cbcabed3982;0xe57fd870c571a;0xd89cf9baa3612;0x32e4502fb8dfe;0x5cb0c8cee700a];[0x0;0x384a268fa727b;0x70a7b9a9fe263;0x1b97c4a975bd1;0xf4501ba3540b9;0x2c559c2ccdc]]);
 ((V [0x94082066561;0xc4abd2402469c;0x3a9af373f4912;0x1c51903a7df3a;0x5c470aba5333] [0x2ec83de800ef6;0x32cee326c8f7d;0x4de36989c6dba;0xf23c6f4e004d2;0xd943e6ad454b] [0xd9a0044fb35ea;0x173f54b7667ed;0xd4f0f06617ab6;0x5c9e89d715916;0x366121cc122a]),[[0xa4ff3703b8a7b;0x5a74702aec2c;0xba8415812e6b9;0xdad894b85ea46;0xdbee833127f7];[0x6254e6e21c7de;0x2d03987805ed7;0xe34a297307a09;0xff29b44a6744d;0x8340071ee2ab];[0x7e1c3a7a26b99;0x6d6a10156ce76;0x4dc2c8280cb13;0x92ffa4df3f1da;0xf3201ee8cd0e];[0x7e1c3a7a26b99;0x6d6a10156ce76;0x4dc2c8280cb13;0x92ffa4df3f1da;0xf3201ee8cd0e];[0x46c715dc56f01;0x710c7684f259d;0x260c6063a3baf;0x3e3c3e90ef63a;0x9d5017580813];[0x1b8dd105c5675;0xbbf721f31393a;0xbd3dc90f63e59;0xc0ed75b977e13;0xe5efefc6da98];[0x0;0x587490efbc1b8;0x8449e911a369e;0x71e964f1fa9ad;0xb4d6fbc4ae944;0x5b86aa970cc];[0x0;0x4263d12eb2f23;0x4f9b37f18efd;0x9e9fedd6df33f;0x6f55653e462ec;0xd0defee602c6];[0x0;0x384a268fa727b;0x70a7b9a9fe263;0x1b97c4a975bd1;0xf4501ba3540b9;0x2c559c2ccdc];[0x0;0x384a268fa727b;0x70a7b9a9fe263;0x1b97c4a975bd1;0xf4501ba3540b9;0x2c559c2ccdc];[0x0;0x24ec770fe92b8;0xdf38cf7d3f665;0x1d8b6ce094a49;0xcde77d0aef733;0x21760355720e];[0x0;0x579fbafe9bf49;0x2d1efc8257b49;0xc45d331c7f759;0xe2e0611e76085;0x3abdc29322];[0x0;0xb441ab00eaebb;0xfa06a0e59c073;0x6cd4f17e30c29;0x5476aeb51bc5;0x2f4f6ed11a7b];[0x0;0xde4f911d5c29f;0x4093f1cba5267;0x92160ac8bdc38;0x3650a1037a858;0xdfe1e3b7232a0];[0x0;0x9d56621ad5894;0x55ac68d39faf5;0x73443d9ec53be;0x4610ff82771a7;0x4e50b1d607ea]]);
 ((V [0xd2070217eba5;0xffbbf49974dd9;0x4bd91f12416d1;0x14e10f7f90158;0x307786b6e362] [0x5fb5e5387d2ff;0xcf385be15a327;0x9229e8dd26ef8;0x1fb4b88a63325;0x3b4010cb15f5] [0x546342969d69b;0x7934449cb5143;0xff00e86daf52;0x3ade7637b3800;0x9f49625feb96]),[[0xc42742c87612b;0x5ab3415d7d4ff;0x83d6f9a115cbc;0xc27410f99c0db;0x2e4470f30720];[0x29af25bf968e9;0xec21fecb3badf;0x4ce26dc268836;0x546c26cf8b7d9;0xb004cf808617];[0xd9a0044fb35ea;0x173f54b7667ed;0xd4f0f06617ab6;0x5c9e89d715916;0x366121cc122a];[0xd9a0044fb35ea;0x173f54b7667ed;0xd4f0f06617ab6;0x5c9e89d715916;0x366121cc122a];[0xad15d55cc776;0x85dbeb650eebc;0x76dd965ed449c;0x5bd78a2f83070;0xc031bafabb1f];[0x1eddc869c9f0b;0x664613662cc23;0xd604d7639439a;0xf8949ca008768;0xefd31485caf7];[0x0;0x4253e62921735;0x819ec99644467;0x5e9c151d21935;0xdebab14789588;0x1478b18d06d];[0x0;0x5140cdbe07263;0x1affcd00a4f09;0x720cfe6e9aa5e;0x69ebeed90599c;0x9d3fdddc3f8];[0x0;0x9d56621ad5894;0x55ac68d39faf5;0x73443d9ec53be;0x4610ff82771a7;0x4e50b1d607ea];[0x0;0x9d56621ad5894;0x55ac68d39faf5;0x73443d9ec53be;0x4610ff82771a7;0x4e50b1d607ea];[0x0;0xe6ba618273442;0xf8ee528706de6;0x1789ff4041e07;0xd43673008421f;0xb8642f144e08];[0x0;0x76c427c19b0ba;0x832b7b83bc42f;0xc42365876aa5;0xf8d1546dbf545;0x2143236cdf99];[0x0;0x7c7e9e6b682b2;0x312cdf9d1b406;0xbc24be4740632;0x346d958602ac7;0x215315c4d243];[0x0;0x9e254106657e9;0xa496755fe49fa;0xeddf9383dd820;0xb1fd77090852d;0x3c683f4ea065c];[0x0;0xc64791d54c140;0xc770effb4652b;0x49eebab9f852a;0xeb0324e488474;0xb37ad1bbf7b]]);
 ((V [0xef97a0887f1a6;0x12eee97e27e6;0x7c14bf90f1a42;0xd94f79436fce0;0x8c0806d4bb3d] [0x596d8d1d066ad;0xca5741511123a;0xe8d1f410fcdb6;0x8939f08d8b783;0x4c921fac18a1] [0x8d97f0bda66f0;0x456440e4c0e20;0xa8a394b902b0d;0x7e96054540816;0x4996ad808074]),[[0x9318fe3d2470d;0xb5268d9c7eff4;0x3ed528fc80515;0xc6bc94351290f;0xb15c1bd63f15];[0x8d64242fde098;0xfcfb0d6882e24;0xf8fd145144795;0xdf83b6bc0696e;0x4204996e893];[0x546342969d69b;0x7934449cb5143;0xff00e86daf52;0x3ade7637b3800;0x9f49625feb96];[0x546342969d69b;0x7934449cb5143;0xff00e86daf52;0x3ade7637b3800;0x9f49625feb96];[0xcff0d4e6778ad;0xf01c881533484;0x8f1a7d8ba5139;0x4689d2acd8072;0x3f190291799];[0xbd734f49667ec;0xcde85534f99f;0x69e296c59f65c;0x98f9e40f2e8fc;0x2eb96dd0fa];[0x0;0xd4fd3dd5b0cf4;0xcc0042c99cf3c;0x2d9f36c6eeb89;0xfd9ee4a6d916;0x3bf6e4005cb];[0x0;0x41a52545c16d1;0x5b68d1fafacbd;0x868f244d989e0;0x7e9b8483d8a3a;0x6e5b0cb5b854];[0x0;0xc64791d54c140;0xc770effb4652b;0x49eebab9f852a;0xeb0324e488474;0xb37ad1bbf7b];[0x0;0xc64791d54c140;0xc770effb4652b;0x49eebab9f852a;0xeb0324e488474;0xb37ad1bbf7b];[0x0;0x66a7cd94e3bcc;0x777a992d36ad0;0x3f54d00348c1;0xfb07a00510822;0xdb697c602c3];[0x0;0x35e214daa8a9b;0x97792f3b147dd;0x97febfff59cb7;0x25b69654a176b;0x92d0a531a30];[0x0;0x661f8597ad900;0x6f9d5a04e6ade;0xafe0de8c5e7f8;0x323a80e42217f;0x241c95d0363];[0x0;0xf5b1f8b7b5a58;0x77a162cc5f2ab;0xa46fca54727ad;0x392f96744621b;0x5147829a82e9d];[0x0;0xff7ef55296b72;0xb31a74956104c;0xe7655fdff3663;0x9c240c8fadafc;0x29e24fee289a]]);
 ((V [0xe3d62ae854c8d;0xc194518b6afe;0x302edbd063270;0xac043614ad9b4;0xf6d8d8921c93] [0x11f9beddbd1e;0x751ab7bdcb4d4;0x16aa0741d5a61;0xe4defb51fe31f;0x327559fdad1e] [0xe58949daefd14;0x3a03f6bb8031a;0xe9a4c853b6093;0x8a2ffa41dbfdd;0xbaf8ad141451]),[[0x66916b005334f;0xe1148dd3af668;0xa310f07e34427;0x394b31c326231;0x75390bd6d3d0];[0xa5951352e8207;0x40a06bde222f7;0x9be4fe9063d98;0xc4e60d08e3457;0xd83227c6e07b];[0x8d97f0bda66f0;0x456440e4c0e20;0xa8a394b902b0d;0x7e96054540816;0x4996ad808074];[0x8d97f0bda66f0;0x456440e4c0e20;0xa8a394b902b0d;0x7e96054540816;0x4996ad808074];[0x5da046e510e50;0x7c85274a43c1f;0x775637c4c572b;0x7120d1a93fe3a;0x524a51bf5fdc];[0x47f4cc6dd73b8;0xc41b4493de6d8;0x248ec6cb9e66c;0x53c53b5fa361d;0x85e7d607809f];[0x0;0x11a3f6f931827;0x47f88bb65c49f;0x11656e4f32a19;0x4874bf193c6bc;0x1bb3eee0395];[0x0;0x602984f42a15f;0x1940fa3f8adf3;0xd1292aaae97dc;0x72a12efedab72;0x21b2433f969e];[0x0;0xff7ef55296b72;0xb31a74956104c;0xe7655fdff3663;0x9c240c8fadafc;0x29e24fee289a];[0x0;0xff7ef55296b72;0xb31a74956104c;0xe7655fdff3663;0x9c240c8fadafc;0x29e24fee289a];[0x0;0xfc362a804274f;0xe7e1e3f09270;0x1cfd904fc1d92;0x236327958a08c;0x16e7163652d7];[0x0;0x40ec693db0f4;0xeab0d90cfe77d;0x9cae081bbea5d;0x31a0f2c663bb;0x4c98c7b91a46];[0x0;0xdb5830eeff4b8;0x9332925aa7ee1;0xaeaa8ea86bb91;0x6e38048a98d6;0xd077537061d1];[0x0;0x6b58e331fa859;0x5d25ad08cf1ea;0x95254ace7362f;0xfe26d8d0a17aa;0x32f2e1327cdb6];[0x0;0x9becf831ea15e;0x56c887692c154;0x38f3028a8ca85;0xfe046edf916b;0x30a7822d82e3]]);
 ((V [0xce9514ded3947;0x42c2dbe42031c;0xc1223139458db;0x47750fddc1b90;0x45aa6a5f6b1d] [0xbc2293e7ebc89;0x5ef07bacee358;0x151ebf2f95e8d;0x95db271c806d7;0x23ecd9b9ddfa] [0x27934fea71cc5;0x19f567d6444b4;0x9681ab8f06c4f;0xf2432849963ce;0xb658bdad74ca]),[[0x8f991790f79fd;0x505ab5a9ec667;0xa554ae20056c2;0x69092d5b7ec2b;0xf98f93ed57ab];[0x9015a124155f4;0x9bcccb3584292;0xe9ec74e31ccfe;0xd711269ff0b06;0x57d04e4a1efe];[0xe58949daefd14;0x3a03f6bb8031a;0xe9a4c853b6093;0x8a2ffa41dbfdd;0xbaf8ad141451];[0xe58949daefd14;0x3a03f6bb8031a;0xe9a4c853b6093;0x8a2ffa41dbfdd;0xbaf8ad141451];[0x6a08227f8b6d6;0xe24c1ceae16c2;0xcdb632bd6dd13;0x7fe751a181831;0x3eb15055b2a0];[0x260d7ea489f1f;0xb980ae4aa2bd0;0x1c364225aefea;0x5729d4fe6f2d5;0x191efdf46c5e];[0x0;0xb9a1d6be79239;0x876fdc5ce271a;0xd4a5dc629b694;0x3267b8be99cc0;0x4662f1b0549];[0x0;0xe265e146e95b0;0x8044e9640110;0xb2850f22d443;0x1fda9f3a78c0c;0xb644bd4b599d];[0x0;0x9becf831ea15e;0x56c887692c154;0x38f3028a8ca85;0xfe046edf916b;0x30a7822d82e3];[0x0;0x9becf831ea15e;0x56c887692c154;0x38f3028a8ca85;0xfe046edf916b;0x30a7822d82e3];[0x0;0x9eeede542fe82;0xd1a4eb679f9af;0xf5125614fa26d;0xad636d43f0c96;0x9f20cf27922];[0x0;0x94341baf6d306;0xb201d828b2970;0xb97067cb3bbed;0xeb682cf2f36bd;0xee0577e6fcb2];[0x0;0xb533323d423ed;0x80d3c0fd3da36;0x4b208959bf488;0x1f5e3d214e89c;0x17e599eaf309];[0x0;0x8e72982963d7a;0x5f6693d8971db;0xf4014054ebd53;0x58f7b7033409c;0x25667bbec1b08];[0x0;0xa640afb4f1ed6;0x7ed0e091794d6;0xb25900e940a5;0xcf8b2ecef2020;0x9c6c0e52455]]);
 ((V [0xa6afadf07ac6e;0x1de2316fd8c3f;0x1de5a120d98d5;0xf01241cf0e9b8;0xbcde6f7af6ca] [0xf02d52ef07db9;0x37f44eb7e21b2;0x805d170a0de7f;0xff34fa394c774;0x57bca5824ff9] [0x3f3b22da79bcb;0xc3dabd72ffdea;0x267268864b122;0x5f7314410b78f;0xa6f0eb903c99]),[[0xfc7dbdcbb0756;0xc4b9afbab4c8c;0x7c67626260926;0xa8b575fd29303;0xfef7376311c9];[0xae6832bc6caca;0xd5f357b8af263;0x4f542a6f3e293;0x22d93814da446;0x33207b195c22];[0x27934fea71cc5;0x19f567d6444b4;0x9681ab8f06c4f;0xf2432849963ce;0xb658bdad74ca];[0x27934fea71cc5;0x19f567d6444b4;0x9681ab8f06c4f;0xf2432849963ce;0xb658bdad74ca];[0x6fc15d0e2b4a;0x1ded4fe0479af;0x4e7757a405354;0x50077ba6bbb98;0x49da0873c822];[0xa76c1ceb89d18;0xb80607d8678b4;0xdcd2cb38f3f;0xd2d1bc6e1e8ae;0xe94672a593ff];[0x0;0x5c8e4406b29d7;0xc2d97fff6f9eb;0xd5139000373f4;0x37b56f3fac9cd;0x44a53e9eeab];[0x0;0x4a89a1bb1253c;0xd3fba4c0f571b;0x83816540823a;0x32cb1481ff228;0xb59c2344bdfa];[0x0;0xa640afb4f1ed6;0x7ed0e091794d6;0xb25900e940a5;0xcf8b2ecef2020;0x9c6c0e52455];[0x0;0xa640afb4f1ed6;0x7ed0e091794d6;0xb25900e940a5;0xcf8b2ecef2020;0x9c6c0e52455];[0x0;0xd04e276325911;0xc49bf4b0e53bb;0x8f8ee650c3a29;0x6c439f76a2bcf;0x50a9eaafa90];[0x0;0x74589a58254f;0xa80537aaec137;0x503f0d835a285;0x33acedc0140d9;0x12f54ec8e2ab];[0x0;0x5d13e5d7435d0;0xb252efd36c524;0xb9f9413d6e34f;0x5e180c4f4539c;0x25b846d503cb];[0x0;0x3fbbc53b1ffb3;0xd26a1481ee0c9;0xbb32a6eafdc4f;0xe0cbec2487610;0x5c20146e954db];[0x0;0xdf981c8c00445;0x30ec526ba83e1;0xe55c0020e8c34;0x272aa927aacbc;0x40bac55829fc]]);
 ((V [0x78596d2f3a49f;0x7192271fd5fe8;0x47cb21230802f;0xf50a4f6da7ffb;0x5164a20e4c38] [0xa31860239d300;0x92e5e10023314;0x353f722fc07c6;0x80b9c7e7e45d9;0xf22b3afa5255] [0x3a91cc0c7b235;0x1a2716fd8c365;0x7c06b20c54ba8;0x6ccb0f5335e3b;0xfa2ee61c6492]),[[0x5894c9e504b54;0xb8356a905ae21;0x2a290ad75d431;0x282f4bbe0c599;0x2b1885898292];[0x26d96c49117a9;0x5d0f81d668bb;0xf2ea7338608f2;0x6f3a3b0e8f86b;0xba4a9752f117];[0x3f3b22da79bcb;0xc3dabd72ffdea;0x267268864b122;0x5f7314410b78f;0xa6f0eb903c99];[0x3f3b22da79bcb;0xc3dabd72ffdea;0x267268864b122;0x5f7314410b78f;0xa6f0eb903c99];[0x674763da27421;0x737f1e5a121be;0x5de85c80ff33c;0x86f360e0a66ef;0x9884778b4805];[0xbf92086eea389;0x9251d9c3546fc;0x950216b7615b5;0xe846da2de917c;0x21c61fc7a911];[0x0;0x835da56d39493;0xdb75b25296063;0x2f221f9c28a08;0x77ce2a1bf2ffc;0x3ed891d5203];[0x0;0xce8a022bb5405;0x7775b4f3ab9ac;0x80a16f273da98;0x184f77526fe5c;0x1c1a753c2629];[0x0;0xdf981c8c00445;0x30ec526ba83e1;0xe55c0020e8c34;0x272aa927aacbc;0x40bac55829fc];[0x0;0xdf981c8c00445;0x30ec526ba83e1;0xe55c0020e8c34;0x272aa927aacbc;0x40bac55829fc];[0x0;0x6276f680db2f0;0xb6fad1ddeeb76;0x6d1defff155c1;0xa0126dc032228;0x1e11c38214c2];[0x0;0x4bdeb1bccdf7d;0x589d91f772b7f;0x8e4a04ccdbe45;0xf5a753d98d4cd;0x8b5775022449];[0x0;0x3d00fccb81500;0x4fee4a8adb3c;0xe73c95fb76c6c;0xf201805a687c5;0x3b3ad4f1f5fc];[0x0;0xaeeb230fe43c7;0xb58280c6080a2;0x5832bab2c809;0x37b97ee78dd54;0xf64a4f22095cc];[0x0;0x7cce9cb52daed;0xa7d5917fc761b;0xc250f7b0a36d9;0x8fb0046d66864;0x4cfedfd91f9f]]);
 ((V [0xf3989f72d065b;0xf1b14dcf7f34;0x5e07859a38d65;0x482b2268389c9;0x411220e6d5eb] [0x98eeeaff49e82;0x50261faf88c6e;0x6cac49b3f88ae;0xe8052a4b218fa;0xfd69cce47f78] [0x252c7db73cdc3;0xf0677bd52064d;0x48ebac440c324;0x2659e4d883289;0xab257d4fa52d]),[[0xf212380b800f8;0x45f719ce412c2;0x4129355109874;0xb0f30a7a57bfc;0x3b8b2f7f01e9];[0xdeca83f0cc389;0x4562459091f8b;0xa92dd24a3481;0x739ebcd2befc8;0x5ed4b1691fac];[0x3a91cc0c7b235;0x1a2716fd8c365;0x7c06b20c54ba8;0x6ccb0f5335e3b;0xfa2ee61c6492];[0x3a91cc0c7b235;0x1a2716fd8c365;0x7c06b20c54ba8;0x6ccb0f5335e3b;0xfa2ee61c6492];[0x38501d3ff5334;0x8e73d78f93fca;0x7f8b17519dc25;0x34053233694e5;0xe1a8cc649e74];[0xa67a66b0d6ded;0xb6ee6e00fdfc1;0x8b07c5d30585b;0x3f998a9f55ae2;0x7d2be5048138];[0x0;0x6b50543cc09d9;0x59ab4aee98c98;0x71969c692738f;0x82a4d7cc36137;0x5e2ed6bcead];[0x0;0xc94bdff216689;0x6e513c3706dad;0xf18d8f473e8f7;0x49a3f4983308a;0x3a30d4ea37fa];[0x0;0x7cce9cb52daed;0xa7d5917fc761b;0xc250f7b0a36d9;0x8fb0046d66864;0x4cfedfd91f9f];[0x0;0x7cce9cb52daed;0xa7d5917fc761b;0xc250f7b0a36d9;0x8fb0046d66864;0x4cfedfd91f9f];[0x0;0x13c7d76aab14;0x5109f2c645dc2;0x68847fcfc5f82;0xb22c242a101ce;0xe515c2ce2157];[0x0;0x7adb363d63c4c;0xec44023197bd8;0x6d282abb3b7ed;0xb0d4795f29ccc;0x19e0d61c0dfd];[0x0;0x203ef7a832ffc;0xe4039e26b1886;0xcbb8f4285bb0;0xab7a91b7498a2;0x181ab83042f1];[0x0;0xab4b0991abb50;0xc99baa8a622ed;0x32b597962906e;0xe7d1e5f52db46;0x762736b4ac95;0x1];[0x0;0x759b432bcc185;0x39700ea10a343;0x80d8bc3ad8055;0x3dacec00aa3ba;0x4069cf0826db]])]
 [[0x54d821a07f23b;0x91602439009b5;0xfbe6d237956e8;0xdcbdc3fcf09bf;0x48cfc339afde];[0x8312538df3029;0xf9818f53af257;0xb755ee0676a48;0x56ebcf7937670;0x218594e3b005];[0x252c7db73cdc3;0xf0677bd52064d;0x48ebac440c324;0x2659e4d883289;0xab257d4fa52d];[0x252c7db73cdc3;0xf0677bd52064d;0x48ebac440c324;0x2659e4d883289;0xab257d4fa52d];[0xf90d9cf7c5dc7;0x8f29ebfc327ab;0x2a263aef4e9aa;0xd4673b8a8170c;0x95d5a331ca1b];[0x8a04b6962cffa;0x6a57a3577caab;0x8d2fb3172809e;0x828493eeb5f64;0x8baff1b1e5e9];[0x0;0xbb300cb89e97a;0xd0e7140194b46;0xd2e93f1da5f26;0xe491915301a47;0x406dd9c3003];[0x0;0x63113ba304578;0x8547a5a7971ea;0x1c394ec16978b;0x7297a8b0ab9f4;0x30ad7112d93b];[0x0;0x759b432bcc185;0x39700ea10a343;0x80d8bc3ad8055;0x3dacec00aa3ba;0x4069cf0826db];[0x0;0x759b432bcc185;0x39700ea10a343;0x80d8bc3ad8055;0x3dacec00aa3ba;0x4069cf0826db];[0x0;0x211899de3974b;0x9a9e86fdb6158;0x1ebe3233e5de0;0x82e48a73e5e20;0xfada4ab55b62];[0x0;0xbc67cc4e80879;0xeb7c9a76a0d28;0x658d3af93751b;0x155bf51b97d8b;0x108a35fddd52];[0x0;0xf4ce6c83c2d1e;0x1b10e15879042;0xafa66bf03ced7;0x727e5fc588758;0x70c8e7d6cb4];[0x0;0x2bdd45b9c17ee;0x4927d8e52a87c;0xfd2d29df14d1b;0xf74a33406e38;0xa8a90c49816bd];[0x0;0x819d9052ac37a;0xc964785056419;0x441ed894b6789;0xeeff61b818ab1;0x21a3a124f680]].
Definition wit_256A_64_6 : colwit ept wit := mk_colwit (V [0x70aaade9b8798;0xea805e278934b;0xad26ca3bd1f13;0x210ec57abf400;0x14434b89336e] [0xc525425b0dfb1;0xea24197c390cd;0x2f1cdabd7fecc;0xe30a036d15da1;0x879dc3a0cae6] [0xa452a328f66ae;0x2dcd020f48473;0xf546fd589864;0x8f8b68c04633d;0x1f32a0f57f09])
 [[0x17d04117d5987;0x5b213c545ac5f;0xe929711bc901b;0x5dfb8b2be61eb;0xd658aba9b741];[0xc8a34199e6c7e;0x8132d6ecaa6b7;0x7386cb5d2c43b;0x31b5642f2a98c;0x1939a4900093];[0x1401b07fd2fc2;0x9363a97814a08;0xe051285d86c19;0xcff71fab6c03f;0xda18be002bad];[0x1401b07fd2fc2;0x9363a97814a08;0xe051285d86c19;0xcff71fab6c03f;0xda18be002bad];[0xaf6e5261879ce;0xfd8eef79e2f27;0xd3783bb85e54e;0x5bdf5a1b094cf;0xc5c0caa8e6bc];[0x1934ef385f048;0x83a3e772c7790;0xa00e8fa4cdeec;0xd5d60a14214bc;0x5378d9e719d6];[0x0;0x278072de489a9;0x1c9210eeaa376;0x9d01a296c671b;0xaecf468c17d;0x521a9200a28];[0x0;0x1ee3891e8abb0;0xc158528070cc;0xc172c4985593c;0x3b0da83211b6b;0xb69c399491f1];[0x0;0x819d9052ac37a;0xc964785056419;0x441ed894b6789;0xeeff61b818ab1;0x21a3a124f680];[0x0;0x819d9052ac37a;0xc964785056419;0x441ed894b6789;0xeeff61b818ab1;0x21a3a124f680];[0x0;0xb29310b85a2da;0xb9cb119767bd8;0x45b702aed6c54;0x67aca7974b35d;0x63f6d4d6be63];[0x0;0x7b152e5c4d7f8;0x99cb94ebcc300;0x7d0966050a941;0x2dd6980167744;0xb51eb51e514];[0x0;0xe934de97c6bc;0x671bf3fa16e60;0x2f3c23868d6fa;0x3d72e5733c259;0x1ff2262b9dc];[0x0;0xe98fa4df21dab;0xf97ab1180923a;0x8c1eb4dbf1eb6;0x53bb07f7b22eb;0x8f41d0c44dc58];[0x0;0x7a82f2e4f6b26;0x5f0450556a95b;0xe1c38c2434911;0xb5eeaeefe40c8;0xabbf996a9eb]]
 [[[0xd0b63f97012fc;0x511dbd3f391d7;0xc025a37d65543;0xba2abb3890621;0x39248d9131a9];[0x2f82fe343578c;0xc3cd87bee487f;0xed587c050f6ac;0x346a24454fad;0x617cf0fe7602];[0xdcdf6d06bd8e3;0xdd6a471a2bc1a;0x2e36390ff535c;0x39629e522f919;0xd69048e5d40d];[0x21a5f8de2d6ad;0xae0b7960e3bfb;0x6eccfea134e1a;0x58cdab31ce22;0xe5d0c27745e0];[0x9823daee2dc41;0xd5812352fad96;0x296bd4ac169fc;0x103f701cc72cc;0xb66a895ffa7a];[0xfcc5d70831d2e;0x33b601d01cdd7;0xfac69dabbd5b0;0xa5620a04d6252;0x5de136c64dd0];[0x0;0x477d367860112;0x1d6a624ccf5b2;0x89e8fbcb203f4;0xece6b8b76e9fa;0xbbe9d3f137];[0x0;0x7fb3008f9b174;0xb9ca6cad88a93;0x9adadce2a2551;0xe33495e03017a;0x30aea66414b8];[0x0;0x682ed4002dc5f;0x9c9fe6bdabe29;0x908028ac8d527;0xda6fe0490984b;0x1c8489f71e8a];[0x0;0xf53fbe528c735;0x74c764c4cc99;0xde7b84b87e94b;0x78c3840c3dd17;0xca97a9229e1];[0x0;0xd510a7847bb3f;0xcd0d919c424ec;0x676b882d72880;0x2913be56240a6;0x54beb7731ac4];[0x0;0xd2ad68f4094de;0x5dbe28ca4cac9;0x76b96f39b48dc;0x602aaf8c6801a;0x442cc276162];[0x0;0x6530eeba6bc00;0x121568f8ca13b;0xbcab68ab1a57a;0x9d626eb1895dd;0x55c253d7422b];[0x0;0xbea62eb859796;0xc3d6b47653852;0x8163de715d528;0x4132bed98d6d8;0xdd8387b43e215];[0x0;0x7f7a29f497a22;0x195414e1a0d98;0x28b8de5a9eaf4;0xa1a4dcebc9a78;0xbb9a5d49cd57]];
 [[0xd0b63f97012fc;0x511dbd3f391d7;0xc025a37d65543;0xba2abb3890621;0x39248d9131a9];[0xa859b898e6a60;0x678dbfcb7240e;0xb1d1f21a7f6ee;0x2c7f440ef7a1e;0xab1cf9950de4];[0xc74dd68c5bb4f;0xbf25967d5d0c0;0x366ab86865fb7;0x9420490617d7e;0x5b615c3a3879];[0xacecfa47d0808;0xc69dd65a38702;0x61adce54119ef;0x7ba84402d6b6;0xfb3749dd16c4];[0x630b73c5f32cf;0x678d8fa70f638;0x891966dfcbc35;0x856a420119114;0xd583a5e09c61];[0xf107cdf33b2ba;0x3e8a6c12db18d;0x2437426a01a78;0x3c484f4b0d099;0xa7c8861b02d6];[0x0;0x477d367860112;0x1d6a624ccf5b2;0x89e8fbcb203f4;0xece6b8b76e9fa;0xbbe9d3f137];[0x0;0x71337a83923a8;0x4c4b63c58fe79;0x9ca639f8a0ae8;0xe8b1ac4669188;0x29866b11d04];[0x0;0xbf09af6e0e4a7;0xd96f977043b29;0x588590de11b7f;0x6623d4015c699;0x774ccef2c6f5];[0x0;0xa0af30d9f000;0x6191353d86a3;0x37dd901b2d813;0x8366fa4a01d4a;0x10e1468626b2];[0x0;0x1dec312e76364;0x5cdee5578193c;0x4f98d5767661c;0xb440b94ca0362;0x70f9a104be5e];[0x0;0xd528c11761a2a;0xfaf4eb22256cb;0x5b25904c85a65;0x5c853045e1c27;0x11d333d01048];[0x0;0x9a519cf12bc94;0x5ae4f94ea8b91;0xa05b22ea793f1;0xb5ce9e9efe053;0x5497fd4d4fb8];[0x0;0x73a96583f0a04;0x7e6537c2e94bd;0x49fd9228d52e8;0x95fa6c78e4895;0xe5ee8f02f7587];[0x0;0xa8c88b8e1061b;0x2ede94efb9691;0x62f6529befb99;0x4868ad0e41c8b;0x6f5d3733145b]];
 [[0xd0b63f97012fc;0x511dbd3f391d7;0xc025a37d65543;0xba2abb3890621;0x39248d9131a9];[0x95a3079971282;0xfb04c58f61ab;0x5826d5f1f5a0c;0xba5a98833d1d2;0x18e7f663e068];[0x4c1ba491858bf;0xde48b934827b4;0x8f19736ff025e;0xc21434855e048;0x7a342a7fe49d];[0xc06bae8cbc753;0xe03e3a9d60916;0x752ca65294782;0xa61bd86790aa9;0x5d31a0e5b3bd];[0xe1b0dfbde8b64;0x198c54328df7d;0x34e4725664540;0x699623f6b8f1c;0xb9bc14fb6aa9];[0x39bd47821fe5b;0x893238a50465d;0x89405b394f6b1;0x971b002a086c2;0x88f483d99562];[0x0;0x477d367860112;0x1d6a624ccf5b2;0x89e8fbcb203f4;0xece6b8b76e9fa;0xbbe9d3f137];[0x0;0x7541f4ef16c62;0x3ce101a486c18;0xe2b774f7bd8f8;0xdf071388025df;0x238a83844cb9];[0x0;0xed10ca6a64f4c;0xb86aba8234843;0x7a1e32e2b3f3d;0x48455bb77d7db;0x430b84f46162];[0x0;0x9e92123aeca53;0x8c36910686272;0x26ad43eea3b7c;0x44be917e52f51;0x11d47beb6edd];[0x0;0x34e1027be1b39;0x51b43f40a547f;0x61fd2e2586105;0x8e4b502f2a2a7;0x775562eacdc3];[0x0;0x248ac742c2e9b;0xc5d9909dc0eec;0xca164442b89ce;0xfe7eee1c2b081;0xa04752ebacc];[0x0;0x7a3c5dd9c20c6;0xecc9582f33a3;0x3098213acf032;0xecc381a63328b;0x12e6d933d4d5];[0x0;0x287ac01911e42;0xc638664af07b2;0x3647fcdc17ffe;0xa7e8249b5fddc;0x25bf730887e69];[0x0;0x6451eb040156c;0x1141f4f8a4da;0xccf0d84bab66f;0x633a6d84fdc7d;0x1b1e1e89a49d]];
 [[0xd0b63f97012fc;0x511dbd3f391d7;0xc025a37d65543;0xba2abb3890621;0x39248d9131a9];[0xe4e28c1178785;0xc3e5695d621d5;0x4e47f579a969f;0x254ab105f559a;0x79bfd92f0b53];[0x2b7c05cedf040;0x6de574c6a6aa4;0xecec94f60810a;0xe96c66e78b258;0xab521e3117bd];[0x6015d41669f5c;0x7c9f0046c440d;0xe5dd4654f0b19;0x67eb5b9e55668;0x304e287dd447];[0x7f6cc518e14e5;0x19ba033890fbf;0xec42a1e7ed378;0x1aa70bab3cf31;0xe3f5591127d3];[0x28851a0627d45;0x16c24bddd55c8;0x5a77a6db1d2b5;0xeba1025bbe0de;0xc5e3cee0d14f];[0x0;0x477d367860112;0x1d6a624ccf5b2;0x89e8fbcb203f4;0xece6b8b76e9fa;0xbbe9d3f137];[0x0;0x723f1c7c31bfd;0x525df422339ec;0xc247bd98e76b7;0x4fe2a6cdd47df;0x220dba3f6586];[0x0;0x3cff4e8351bac;0xd7dbb37fd2ab4;0xeb1aa1b3354a5;0xfcff98c396878;0x66ec05a2444e];[0x0;0x855020fc91c44;0x90c88da1cd075;0x1115e7a7b80ff;0x6cac0df972fb2;0x2d407cad874];[0x0;0x7c56d4f193060;0xcbac14de1a256;0x17a17915ac25a;0x2f6a171b92d7;0x12edd2e699f5];[0x0;0xc13afb887669d;0xf8de8f1928175;0xad4595432e171;0x7ae38ad95d8ac;0xf60be927533];[0x0;0x163a0319bfe1a;0x5781d97b9ca5;0x7efe5d987329b;0x6c34a9bd1e193;0x192a02dc6d6f];[0x0;0xa9985aacf2d6;0x98ee1a69f3bf9;0x3f8223441dbe4;0x311f61b8960ca;0xda4531e0a1973];[0x0;0x130e15a66454c;0x295c100d624eb;0x609c988e7f9f5;0x7ba8278fcac19;0x2bae9ba3a6e1]];
 [[0xd0b63f97012fc;0x511dbd3f391d7;0xc025a37d65543;0xba2abb3890621;0x39248d9131a9];[0xe7a0688dd7c95;0xb3bc7afc99584;0x59c4e39a1d4ff;0x9822f62552e90;0xdc1b736259d1];[0x792567a06682c;0xfb9cafc2d836b;0xc77f36b1465e6;0xc5c11ac0c9c0;0x149827463e16];[0x6460541b24b1c;0x7e482752d7764;0xd9016582df706;0x652c3f96c177c;0x40daaab95fa0];[0x30836daf7528;0xbcc633897a403;0x11cfcaed11ee4;0xfcb9f8190fbef;0x456c796c080b];[0xc2b7bc9c1ae2b;0x53b4bb9febfd0;0x510857ed00ae3;0xd532ccd265737;0x879ad937f780];[0x0;0x477d367860112;0x1d6a624ccf5b2;0x89e8fbcb203f4;0xece6b8b76e9fa;0xbbe9d3f137];[0x0;0x1ca6b9dc39321;0xe055e9a8fbc47;0x33f34ef97fa3c;0xafe348c5d1fdc;0x1f67da10a79b];[0x0;0x9c940e4311ca1;0x9277815c247f0;0x9781da4d7705e;0x27062f457c39a;0x1c07bc321ae2];[0x0;0x3a25b41a99e74;0x1010680ff6a7a;0xf56e5989fde20;0x8326448fdda09;0x10ba6c0da342];[0x0;0x9a5ab964dfdc5;0xf6ba8ff90c7b8;0x4b15fb2cac767;0xaeed34394d1d3;0x6ff596d3b379];[0x0;0x3482ac0246c6b;0x1b215ad0bc461;0xbba2c9645a39e;0x26eb42c2b0cc6;0x430266f1570];[0x0;0xfeab31f1b4312;0xf76fc7397ee2f;0x1e1a1540ea59c;0xaabe361dab11;0x2fa5f4ac5faa];[0x0;0x7786c404f7836;0x4e0503c4e9d6b;0xeb9cd3a3566a8;0xa3def84dc81e2;0x4895f2f555b58];[0x0;0xe37288cb532a2;0xcfb4d6609e0f1;0x6a6fa4c88a1d3;0x4cab975466fe4;0xf93a1824969]];
 [[0xd0b63f97012fc;0x511dbd3f391d7;0xc025a37d65543;0xba2abb3890621;0x39248d9131a9];[0xd669cd530b49d;0x83b6f7d97bc32;0xcb22c58a87a3b;0xdcc852a94ff67;0x9e0d817137a7];[0x63a4e35ef1f43;0x9042f00916e2f;0x5c5b7b1cbeacb;0x457d2851f34f6;0x48056504bd3f];[0xbd2c99e5640c6;0x277f49a472fbc;0x39dcdd3a800e2;0x45672482fd054;0x270affe05e42];[0x12e08c03a4bec;0x3717b1079805e;0x8e6bad1d84316;0x6b145e0423fb4;0x539e80389313];[0x4513df7843b60;0xdd6f8a9763a8e;0xe2e6be7536db4;0xe061ca16bb507;0x1c9c926f8c1a];[0x0;0x477d367860112;0x1d6a624ccf5b2;0x89e8fbcb203f4;0xece6b8b76e9fa;0xbbe9d3f137];[0x0;0x50fd0abbce3c5;0x5c80297be308e;0x7b107482fbf0f;0xc8ad26e099ad5;0x23a3525ec562];[0x0;0x37dab5b94418a;0x783f7b7752e7;0x7108cce39489d;0x543045bd86b7;0x1d5b9d76fbc5];[0x0;0x1aee62eb30466;0x10965f7d2e20a;0x5b4eb7978e673;0x716acf85b8dfc;0x5b204df1aab];[0x0;0xc986e29a5da92;0xa1e81ada7aad8;0x5c41e46283ca3;0xe14ac9dc4202e;0x261e4bc8b05e];[0x0;0xc68a9ae04b748;0xe63287fcbe085;0xa93ccaf6896fc;0x99b3f14871bf4;0x462eec6391a];[0x0;0xc9ed99831c939;0x64963147e833e;0xf3748dd9e5a27;0xb4fbceba037d9;0x5fa4a3572451];[0x0;0x6a210787a901e;0x2a0170ab4414c;0x48f3e78ea60ec;0x181fb6bdc7965;0x8aac9f5bb5c4d];[0x0;0xada3af6f94bf5;0xf7b1e07f22f6b;0xe50f9349d7fb5;0x89e78d9c91eeb;0x51f4ec702251]];
 [[0xd0b63f97012fc;0x511dbd3f391d7;0xc025a37d65543;0xba2abb3890621;0x39248d9131a9];[0x102ba40c571eb;0x958ba967b7230;0x59bf34986c5e7;0x2a041263c1d4d;0x9e9f918121ad];[0x312bc390f5cb8;0xca59fa2647963;0x67acafeefd503;0xa7548c0d60ce4;0xf7b5795939d5];[0x4c54f07690574;0x808f76056a66f;0x21d171e14d990;0xe02343b09a26a;0xf888aa7c9675];[0x18108baee8951;0x3222eb143a6e6;0xea1f1408b9a93;0xc49eaa2fc1fc3;0x5854ac5f7590];[0x625fa279f771d;0x4af5ec36959f;0x18c288ef668fa;0x5c864598bb737;0x75b243afe873];[0x0;0x477d367860112;0x1d6a624ccf5b2;0x89e8fbcb203f4;0xece6b8b76e9fa;0xbbe9d3f137];[0x0;0xb892c8dedaed7;0xb330d6980509d;0x20b6a2c42a293;0x482cd8ff5ffc7;0x13af39470057];[0x0;0xb8b40fb6311ac;0x62788576bee00;0x89b1fec29c6e1;0x175bf55aa7be9;0x5210e76fde28];[0x0;0x4f24694fd55ac;0x8d8abb44a9e79;0xe5fcfcc1b87f0;0xbbb83c8bfaabf;0xab850aa2d3b];[0x0;0x438447d7e5322;0xb7f04d52375d4;0x4d88c4f311101;0x89ef52453f1a5;0x47bf46dd7e14];[0x0;0x6e553981a0575;0x272315fe0b0f2;0x46f14fa49bb9c;0x99a96a24bcc26;0xc430260cb47];[0x0;0x1e0f1c189bb0c;0x215d20218d0bb;0xff46af730a110;0xe02fbd164c83b;0x4206068a0343];[0x0;0xde7836e70325a;0x996f7b5cc535a;0xc13023106c370;0x2716287e3ba4d;0xe2961c0ca7c89];[0x0;0xfd43c41be7065;0x163f07785251c;0x405c67c25cbe5;0xc432d963e3b09;0x5c1f2326f7e3]];
 [[0xd0b63f97012fc;0x511dbd3f391d7;0xc025a37d65543;0xba2abb3890621;0x39248d9131a9];[0x610f48a88fd6a;0xad45b767c6d3f;0x549447c7d5540;0x35cf988435c49;0x7642a3aab36f];[0x36984397e2b92;0xe86982191dbf;0x68205bc6ca19b;0xcf73488119bf8;0xd183ffc034a];[0xc88740dc97610;0x78fff7ded82c6;0x4f0e8ad10eda2;0xcdc162ed1e438;0x6a961e79c9e8];[0x4f05dcd2768f4;0x6fe92b0ee04f5;0x51a775b158f8e;0xd5a5c523af37c;0xacf304e259b0];[0xb1db2e74493db;0xdc3c242203fc2;0xa3588effef3e1;0x9c73d5cc71bd4;0x7b4658852495];[0x0;0x477d367860112;0x1d6a624ccf5b2;0x89e8fbcb203f4;0xece6b8b76e9fa;0xbbe9d3f137];[0x0;0xcd3d2e8b8db2e;0xabad2d95461d2;0xc090f7da3fdc3;0x3fdae451bc1b1;0x2772ce1d36ba];[0x0;0xa6b1ebda18292;0xbb29afd6935e8;0x96bf8122cb7bd;0x1a3800c6c49e;0x3872857c1e27];[0x0;0xbc9daa877258;0x206d15b4de043;0x2f8b0fe3ab078;0xbd85e51a389f2;0x1184ac6b6da6];[0x0;0x21edec9254ee7;0xabcd2ba712653;0x63a99cca4ac19;0x957faab285f93;0x753f3a0b9239];[0x0;0xadfe93e336f23;0x1037089ff5521;0x2f345796cdde7;0x5e6376a49d16;0x86f198deb0c];[0x0;0xe670dd4ab8cd5;0xa3bcb1dff9d64;0x1fc3360702563;0x37114d501d63a;0x435383e02970];[0x0;0x258eb53d2f994;0xebe9f94f092ae;0xecc709860b096;0x521c2b101ae94;0x7edb670f14804];[0x0;0x4ead63fbfe10f;0x38268e9ae6462;0x38bf7133393a1;0xbedbaaba5b79b;0x45deec34ba88]];
 [[0xd0b63f97012fc;0x511dbd3f391d7;0xc025a37d65543;0xba2abb3890621;0x39248d9131a9];[0x15e9aea0a1a26;0xcf6ae2d501d6;0xdc232a8ece7f9;0x9a7a6fec521c4;0x3c289a96f12e];[0x13b0819ce56e8;0xa52e19c095027;0xfb588708ba433;0xec4a2721e540a;0x4305568b4aba];[0x2ab6614213b3;0xdf620705e885f;0x6adabba7e22e8;0xcf32371498b31;0xa4d87eb40817];[0x65c749133c651;0xd9066442c1df1;0xc9324beaec58a;0x82bdf98c6c550;0xff058dd0be1f];[0xd71026c0c087b;0x7b3f28a227d71;0x7ac93bdd05eaa;0x648aae78f8bc9;0x98740223445d];[0x0;0x477d367860112;0x1d6a624ccf5b2;0x89e8fbcb203f4;0xece6b8b76e9fa;0xbbe9d3f137];[0x0;0x1f890c6b5228a;0x2029094381eb6;0xdb249f0884088;0x26f058b8e38b4;0x3639650ec8cc];[0x0;0xa907e6710b321;0x78d78c4c6f41f;0xaae80d950baca;0xa8b4fdc84b885;0x4d3502918ee0];[0x0;0xa62cd914e8e4b;0xbe9dd9106e4d4;0xc8211f950deb5;0x3b96112f8d584;0x9b6dc31e710];[0x0;0xa0e7d196396f;0x8b87dd725fdbd;0xf2c7a63d2ad35;0x20d1f9c64f612;0x41042ba9a261];[0x0;0xe4b693403219b;0x6ee2fdd93a3d8;0x792a953d1aaa3;0xd61422b99e5ce;0xb8927ae441f];[0x0;0x147ecd7ceef79;0x88f6fe51538c8;0xd2a578eff4c9f;0x5ffcdf8f39be5;0x1676bbe41d7];[0x0;0x46f91869540f;0xdea96d5d1f351;0xb36512b6393ad;0x9f416fadc167;0xf59f146fd95d];[0x0;0x4b911c3581fed;0x63a55e4c132c1;0x5f8d5a6028467;0x774179e3c3039;0x5788409d6d]];
 [[0xd0b63f97012fc;0x511dbd3f391d7;0xc025a37d65543;0xba2abb3890621;0x39248d9131a9];[0x5696dc079bc54;0xc62c6d7829bc9;0x5901f8a1148b5;0x6f9976713a567;0xba462e34a1c4];[0xe72d98809cb89;0xea2b387efd03f;0x9ea8273c864d0;0xceb875d29d926;0xc3967ebfa26a];[0xfe3e51885ab68;0x8bb2531eabb0b;0x2bda96f898662;0x8facbd938ba79;0xacb8b669ae6d];[0xfe960a8234b00;0x632c4f19c2baf;0xc229d77a33b7d;0x9fc7c56fa5f39;0x13d55a788af6];[0xe2da5169be93d;0x3fa67490e016f;0x7717c5fd8c8d0;0x310b02d61512f;0x5699fa26856b];[0x0;0x477d367860112;0x1d6a624ccf5b2;0x89e8fbcb203f4;0xece6b8b76e9fa;0xbbe9d3f137];[0x0;0x6b4916e5c5ef0;0x7e5a8f8dc2e4b;0x35d37078cd00d;0xfa0269ca4107a;0x138c40a7a47c];[0x0;0xd4cbad9f6edfb;0xef298f799beb;0x5e91fa43ccd72;0x7b7a093ceff4a;0x32a3f2a508b];[0x0;0xfd20883d988e0;0x5381ea4a7406f;0x8ab547b945f0;0x53ceaba9caa0f;0x128de3a5a56];[0x0;0xec6a05677b11d;0xd904ef37c5443;0x9dcf86a9e5b35;0xd391aad0abcc;0x7c2e464f2da];[0x0;0x6f9d84c644025;0xb9293838e7004;0x5fb1a4df9c17b;0xd730d6ab2222e;0x790fc69652];[0x0;0x90b8b427ebb46;0xc55d831df6348;0xd5c6784a2dff3;0x15108f3ae9fe3;0x510820641a3];[0x0;0x414e9ceed7566;0x3c7d81bbefebc;0x16a1b3cecf3d1;0xc4e32de154be9;0x2601d4c8d7cb4];[0x0;0x334129a89afaf;0x6b39526227be0;0x1feef5eaa81cf;0x9cdc3ba714ee1;0x1041c2ed9ef]];
 [[0xd0b63f97012fc;0x511dbd3f391d7;0xc025a37d65543;0xba2abb3890621;0x39248d9131a9];[0x36299c74fea51;0x226aaec0138f3;0x3318577093756;0x4a278558130f8;0xaa91ca828a0];[0x7aa7240d8d77e;0xca10d0cfac6d;0x600b0237b5eba;0xe91433b2351f4;0x9eb93d4cc7bd];[0x181d98f28ecbd;0x4ba9aeff4a3ae;0xe1d3201998979;0x17867ffbc605;0xb07398b46a45];[0xe02efc5933301;0x4d354d2b62eea;0x3707576981ee7;0x49b2040059448;0xf8b2f65d43af];[0x32ff8f93a76fe;0xff342f6daf92e;0x25e1afaf1d71;0xb7badea2a6c3a;0x99237de4144a];[0x0;0x477d367860112;0x1d6a624ccf5b2;0x89e8fbcb203f4;0xece6b8b76e9fa;0xbbe9d3f137];[0x0;0xb9b0aae43d201;0x74f8140ae7a4a;0xd7ef2f9a6ba7b;0x3e97695f2ae52;0x2b35c783d4de];[0x0;0x9efde208f9607;0x5246108f41af9;0xbddad4190c653;0xb8c654fd19de2;0x3afeb12198f];[0x0;0x2ed268fea3fdd;0x6462785d0dd6a;0x3004aa9217990;0x38f8cd36dac73;0x2f53e59fb4d];[0x0;0x560e71d27ae40;0x615e2306e3b52;0x614be206cc78b;0x233ee9aaa8be2;0x13cc1d370852];[0x0;0xa945ff2e31fa6;0x76015e3acc8ce;0xdb31aed519062;0x76108ec0b2324;0x8d08af2006];[0x0;0x6bccdcbbc0f7f;0x452b4f2ed3fbd;0x8ad568944b2ec;0x6bf5fb19765a7;0x5bf226932e3];[0x0;0xe77ea452646b9;0x677ae1ef2b418;0x536c159fa4adc;0x8ba1cf454b3fc;0x44ecd0649d0eb];[0x0;0x8c303571e9ab1;0xb03901e751108;0x5aa13d9e791f7;0xc0c57b66988db;0x230df6a902f1]];
 [[0xd0b63f97012fc;0x511dbd3f391d7;0xc025a37d65543;0xba2abb3890621;0x39248d9131a9];[0x3d44d6926a9f;0xe89734c7ea2d3;0xddac9d42c33e4;0xeb6d8a3225b20;0x66e9e7060852];[0x7216b8ff01d54;0x28228e948fb89;0xa39f92b28884d;0x83e15ce647f89;0x6dbf110f1e02];[0x92d725be7a92c;0xdc5413ae0133a;0xe1a2e1c236e70;0x612f2f4a5b622;0x64c2f9a43746];[0x6abd23c1eb5be;0x2e600faa437d1;0xfb61d6905ed1b;0xdb30c063cc21d;0xa75a5c919188];[0xbe74dc137f63;0x6aba8ab38ba8a;0x20f96ab01becd;0x7d5a42d87d90c;0xb7c8bde5989b];[0x0;0x477d367860112;0x1d6a624ccf5b2;0x89e8fbcb203f4;0xece6b8b76e9fa;0xbbe9d3f137];[0x0;0xc4feb699996c3;0xfc0b511ec1971;0x25133999f8824;0xa4b8f707643ef;0x4dab3f1b6ed];[0x0;0xe52135928c8e2;0x79c070165cedb;0x3df2ba26b59f5;0xed40905a9fd5f;0x491ab1eff561];[0x0;0xe58261507c724;0x743e4ee3d9d45;0xf293aec413250;0x80c214a132464;0x525b177852a];[0x0;0xe36cdd637a1f7;0x7f273b01272ea;0x37996b3e6535d;0x7b37d45fc8dad;0x22731dfd16ec];[0x0;0xaa66b79e843b;0x8f2c635654c6;0x49e7b8c4e014;0xeff1829990ccb;0xaec3957e5d0];[0x0;0xcc936c8f71ec0;0x5eb84e1b9cb9f;0xfeff072a517a2;0x1718fc5735ffe;0x54e0559c5d46];[0x0;0xaea836305b776;0xfa335e54d85e0;0x1685e211f9c5f;0x2c5602521af5;0x7ffa5cc121469];[0x0;0x22aeea1e71dc1;0x56c5abc7fb630;0x2faf4dc377c27;0x894fd33d537b2;0x65beb714db0d]];
 [[0xd0b63f97012fc;0x511dbd3f391d7;0xc025a37d65543;0xba2abb3890621;0x39248d9131a9];[0xe3f446240b831;0xe9e8021abb58a;0x72013277de860;0x73d9e7434b026;0xb1b8e7d5cb9e];[0xe53f9446e6eaa;0xb151bccc0f9f4;0xca9853c602066;0x8dcfc39d4e34b;0x3ffbe7a2e3f4];[0xcb50edd3ea763;0xd9db49870a3d8;0xde9173ded2fb;0xbfded0d558d07;0x8c46697218b4];[0x8e77c0eab788;0x880b595b1290f;0x7344e60d54b2e;0x51c4620e92d99;0xfaafdcedd504];[0x2f3729b688843;0x8ed1a29f8e44a;0xbc74ba2a4fa7a;0x1ae17658b5123;0x43ba836b5951];[0x0;0x477d367860112;0x1d6a624ccf5b2;0x89e8fbcb203f4;0xece6b8b76e9fa;0xbbe9d3f137];[0x0;0xb19ac1f7d6f2d;0x1fc9b1fc8d0ca;0xd16b070755a75;0x498fe7cb43e4f;0x139a1d19935c];[0x0;0x381545f1ab754;0x4b718facda5ee;0xaf08173974edc;0x1b323b4856af3;0x6fd8e28421a1];[0x0;0x139ff4886d24b;0xeecb4b78b22fa;0xf09f8cbbb9c58;0xa820e0ccabf39;0x9c3c5f6d638];[0x0;0x60dd932040acc;0x31e461922638e;0x1b469d71034dd;0xcc9ed444648fc;0x415a98aa5d99];[0x0;0x199321c7bbb3b;0x5d9d632130df7;0xa2aca80e1370c;0xff0145aa72b57;0x10b6221e37f4];[0x0;0x8cd56f251b94d;0x951e4e589c9c7;0x8745fb6081449;0x55125554dac98;0x7cde8865fb78];[0x0;0x5e4fb7e0a0a3a;0x6c649338f2673;0xe4c8751bf70de;0x21f852e582927;0x66cf8bbd09fd8];[0x0;0xda541703d577e;0x9a082c6b06ff7;0xcdd8cd13da958;0x3d2377a397187;0x46e1928d0d08]];
 [[0xd0b63f97012fc;0x511dbd3f391d7;0xc025a37d65543;0xba2abb3890621;0x39248d9131a9];[0xd0d2afc18b088;0x70e6f25749822;0x2e80649d5d899;0x6b1ccf906df7c;0x75c153322e38];[0x80c3ee6b1c786;0x449e8c2ac7df9;0x25fcb700ba069;0xfd3ba5db86453;0x7807a9d4c00c];[0x4fac0f04d8ff;0x3ffaf0a7b608f;0x3ea71a3a2472f;0xa4529f118468a;0x4d63e0eaed0e];[0xcffaf2db4c615;0xdebf09968447a;0x6b36b9aaf130c;0x78983dd4f522f;0x493b00216917];[0xc60fe26f52d78;0x34887649369ec;0xdce18f7d283bd;0x6d6799447503d;0xebe0a1d152b8];[0x0;0x477d367860112;0x1d6a624ccf5b2;0x89e8fbcb203f4;0xece6b8b76e9fa;0xbbe9d3f137];[0x0;0x76ab056e25c60;0x471da5a3e726a;0xf86fff9ef6773;0xe4dad5bf4edde;0x3442a2e44901];[0x0;0x1fbccdbdeda9a;0xd43e97fe10f2;0xf4de00943f99a;0x20b9ee6a78e;0x5f4902f9e208];[0x0;0x325d57969a757;0x4b05a74777cc5;0xf7b65aac50691;0xee60952956004;0x7fc2cbd0f65];[0x0;0x815c47b38050f;0xbd36400dfee08;0x8e49f78cdfd43;0x4488c5cae8140;0x35715882e012];[0x0;0xdca66cfebf18;0x53c6b251f938;0xbd915fd8af9c3;0x272bee4c51158;0xe3ca3d0e594];[0x0;0x59bc9b62aa202;0xfb1ea6951ad69;0xc50d42f954844;0x4c0fa8191f67a;0x15c9d4d0d171];[0x0;0x3fa74818f6b04;0x7a734fe5a9c5a;0x61f4b275b6c35;0xc729cefb8e642;0xd0737c9aefd0d];[0x0;0x720c7b7e9bdde;0x7e96f314f8ba2;0x334880b2c2056;0xa3bc0e18fbd7f;0x254f8b4c5a2c]];
 [[0xd0b63f97012fc;0x511dbd3f391d7;0xc025a37d65543;0xba2abb3890621;0x39248d9131a9];[0x5e31f8c99247c;0x5c2af9e61c739;0xb963155721ee9;0x212eac796d790;0xcc454418de9];[0xaf8e1c57e063;0x5970a7555db96;0x11c2949093a74;0xc7c0f07d1c3f6;0xa67ec2d023ba];[0x9033b933d0376;0x1c31d1a9e206f;0x7c429a7f5066b;0x875cce65c5118;0xd200148b7172];[0xd1cde017cba4c;0xc46cd9c931d91;0xf0a21a14e9ff4;0xddb31e28e1109;0x96523a82b8da];[0x5c52d409d68ad;0x837fe1d8e5e31;0x7d01d00972be7;0xbb115b4eeee7;0xdd15f0c0e00e];[0x0;0x477d367860112;0x1d6a624ccf5b2;0x89e8fbcb203f4;0xece6b8b76e9fa;0xbbe9d3f137];[0x0;0xed48a2c51b0fc;0x55b66d1b56f36;0x9dc09d068fefd;0x5ca745851599a;0x197bb1642bf6];[0x0;0xd715bb2d290b8;0xe452192d05c55;0x83786b8ca674d;0x89e9f683ca5cd;0x1917e046b534];[0x0;0x27a446a9701b6;0x4b40a36cc2623;0x15a92824f046a;0x52e9cdedaea5b;0xff5e9f040e3];[0x0;0x5f875a228795e;0xe6d280f9955cc;0xe46bd2f8d6c90;0x9bba4d33c9286;0x6ad263c67e57];[0x0;0x40ddbf1be21dd;0x9e1a3c99024c1;0xb54abd22fe8a0;0xbfd4d79422cb6;0x3bfcff9a865];[0x0;0x9f480e0684985;0xc5a2abfb7a9bc;0xc952796fdcccf;0x974f4c5728880;0x2784e0a4973];[0x0;0xa01ff772e3daa;0x8597b347a9693;0x7e161e07a07b1;0x3adc55a15c7e5;0x57622a76a8d84];[0x0;0xf5874d47f2347;0xbd01a6f2ae212;0x19e28511ca3d2;0x5b8366c39cd16;0xff53bcecedb]]]
 (V [0x9953bc59ece83;0xda79f8e78d930;0x5dcb488f8e152;0x345e30fd22ebe;0x39d7af354fe4] [0x2fecf0b732c61;0x3932272cbfa70;0x2980c30013bf7;0x7c8342a1cc0e0;0xa86f9d514c37] [0xae998a982a235;0x9ec9a53d7e551;0x8a8512bb5b6f2;0xe778e98dac704;0xb2d22254b0ea]) [[0x17d04117d5987;0x5b213c545ac5f;0xe929711bc901b;0x5dfb8b2be61eb;0xd658aba9b741];[0xede1543608d3d;0xb435120af70a;0x57a63136a21a6;0x30655c147f24f;0x27151c20d3de];[0x1b47e792e7c80;0x87078802bb311;0xf4c3b65f13f6e;0x6367a32726814;0x633492d3a4a2];[0x1eb75e29d2e2e;0x40d55c2eea52e;0x882066d4df856;0x4736ddfcd5796;0xbe00571c1e7a];[0x65fd58565d8d3;0x4a7dcc64b24ab;0xd1961e2573db8;0x3b48e2c77a5a6;0x7ce53e0f6e3c];[0xc7bcb905ea64e;0x49314bfa751fb;0xf463419f71819;0xf8172f19ba097;0x7b5a5bde7e97];[0x0;0x278072de489a9;0x1c9210eeaa376;0x9d01a296c671b;0xaecf468c17d;0x521a9200a28];[0x0;0x9951c2bdcf620;0x3ad939854f4cc;0xa6a22f6fddcb8;0x6a1b1c00263f;0x1eb0d453c00a];[0x0;0xd958700b14be8;0xf1b27e60fa83f;0x95f32e5812977;0x519b380ebbba7;0x1ef2e06495c9];[0x0;0x219da01cc0ed2;0x3bd7cc5865f09;0xacb1c376652f3;0x24f5875597216;0x11585f34585a];[0x0;0xe6ba3ae23c891;0x8b9c3d38db88e;0x379c10fa42431;0xa422dd1561d34;0x338b4615c170];[0x0;0xcd437deefda4e;0x5c54046b7aff0;0xa9d8b26352c1a;0xe4aedf2b5057b;0xa6a2537fe41];[0x0;0x5a33465c759d4;0x46ac876cbc9f1;0xa557f83c1926f;0x67bd04610d52;0x8d4a0bd808a];[0x0;0xf6753bb392c79;0xca8b137816262;0x107d3c9d4b9d4;0xd26691d5c7db7;0xb15b28dc4f6d8];[0x0;0x8b945a3ed53c2;0x66826ce859852;0xcb0813f4eede6;0x19aa59c640ff4;0x260ec30b9976]]
 [((V [0xedc9550d0e9b7;0xff6f91811d6e9;0xb8030bf7ac946;0xaf0486e49acda;0xeb450f763e78] [0xb9bec26c4866b;0xed9492f692b18;0x448fccfe889d2;0x39f2948b69a1a;0xd8e097b8ebfe] [0x32211688b2305;0xf8c9bea177b21;0x6d79c7144cd0b;0xafd1717ed1f7d;0x7e40a9a07532]),[[0x10bb7c0307528;0x29e0fe5b73b09;0x3a1d392767f28;0x925cefc354533;0x7d8f03f32317];[0xc8aa500421c86;0xec743e445f3a4;0x2b12e1c2ed00a;0x98ec5d5b13476;0xd12081c5c5e3];[0xae998a982a235;0x9ec9a53d7e551;0x8a8512bb5b6f2;0xe778e98dac704;0xb2d22254b0ea];[0xae998a982a235;0x9ec9a53d7e551;0x8a8512bb5b6f2;0xe778e98dac704;0xb2d22254b0ea];[0x933e7ac6aaf62;0x4c9621aacd3e3;0xfe3dfddcdb9f6;0x20a77360ceaa4;0x3e0b8ed49e67];[0x356bd53d76d25;0x9fde1c9991fc1;0x2cd4e3e611614;0x7844e9fa449d1;0x9314f2f1277c];[0x0;0x7c00964962689;0xb0a4fdb86805;0x2c2f38b197552;0x7ef48678363c6;0x435173ef02d];[0x0;0x7fe8e1faed8e;0x1ec7273f5c030;0xa10275dcdd1f5;0x4c8372a40af2a;0x57b480e6d412];[0x0;0x8b945a3ed53c2;0x66826ce859852;0xcb0813f4eede6;0x19aa59c640ff4;0x260ec30b9976];[0x0;0x8b945a3ed53c2;0x66826ce859852;0xcb0813f4eede6;0x19aa59c640ff4;0x260ec30b9976];[0x0;0x66e4dc1f1b779;0x4500fe9dba5f6;0x2c03e6db695ff;0xbcd7a1ceece0a;0x6ed2af248135];[0x0;0xa05c01b71e9bc;0xeca819f0fa2a1;0x7e1400fcea170;0xbef6150c1c778;0xd11c1bd8109];[0x0;0xdea07cd373a81;0x405031c889a2d;0xd5dcd91057e07;0x211e6451f9175;0xc03141850695];[0x0;0x89ff9f961f7be;0x885c2ac78523e;0xd3358ba2a1478;0x36576f077da45;0xdb5bf2d66032b];[0x0;0x475af18f79c48;0x66d79dce1c983;0x5bb2de27d4693;0x62133ea924112;0xc750ace8fad0]]);
 ((V [0x4ca16efbab6e7;0x1413ee4536bd4;0xafe7dc61c89af;0x61338338a1e2f;0xc01621bdef44] [0x5065ab348623f;0x790b9b2c85a7f;0x255fa7b51c6e0;0x2a475c2ae20bb;0x6afc19464b9c] [0xed20f632402be;0x5ef708ed82d49;0xe0906e42902e7;0xb3f65013cd42d;0x6e971bcee5b7]),[[0xbf4979c0bb739;0xc26f69999ecbc;0x969d4bc15ecb9;0x2fd58c4f553fb;0xf1e3a003eebd];[0x4aa070ea0c38f;0x78ad154654459;0xe542d40115fe3;0x5f66c026049b6;0xa206e5fe489d];[0x32211688b2305;0xf8c9bea177b21;0x6d79c7144cd0b;0xafd1717ed1f7d;0x7e40a9a07532];[0x32211688b2305;0xf8c9bea177b21;0x6d79c7144cd0b;0xafd1717ed1f7d;0x7e40a9a07532];[0x155d027303183;0xd6d09c13307a7;0xa237f25de0840;0x9a3c229631800;0x1422a05dc265];[0x35436e770920d;0xa1dc793323cb2;0x430ae1a3357a2;0xc52a9d8fd31b6;0x8de445a08637];[0x0;0xbcf7e5f686582;0xf2f3bb6be26ad;0x38c02b5d34df4;0xc2f288cf6533a;0x2f874e9d58a];[0x0;0x163f759862ea2;0xc1f7d41eac7ac;0xc9d1aca131e51;0x549eb89ab82b6;0x774b21f0d220];[0x0;0x475af18f79c48;0x66d79dce1c983;0x5bb2de27d4693;0x62133ea924112;0xc750ace8fad0];[0x0;0x475af18f79c48;0x66d79dce1c983;0x5bb2de27d4693;0x62133ea924112;0xc750ace8fad0];[0x0;0x309f51cbf2d3a;0x202a934fd89c7;0x653d71b2a9764;0xaaa8c28b69060;0xb7bbc511ebc5];[0x0;0xeaabca1c707dc;0xa6818a5bec7b8;0xddafe1abc4a1e;0x5050731af916e;0xd837dd046d5e];[0x0;0x8ee70b1e9bf0a;0x145ba9b24bf4f;0x652b54510c3c9;0x913ddd55750d8;0x79932e71947d];[0x0;0x13269d1af0946;0xb0e6aa315c45a;0x3f323e682ae62;0x955b7e958571e;0x6d70743a62aca];[0x0;0x5c20493b06c1d;0xffee465f0ae26;0x319b337ac8ced;0x46f47ee6b71fc;0x504652b8c41e]]);
 ((V [0x5127970517db0;0x573645b9fda7e;0x52db7d27e6022;0xb437a909cc99;0x23ca14a08197] [0x6c707c77c76eb;0xcd909ce27e1e1;0x4a360ecd43e1a;0x9c9550843e73b;0xd94ef740ab7b] [0x23d1723f262a7;0x8ffef03d090ad;0xc81da28463e85;0x5436a8cb004f7;0x576db9ed0d7d]),[[0x6f598c6bde441;0xa64f77d9300ed;0xb888f2871a0a6;0x4feb68435b753;0xddcbc40f1b26];[0xbd278f9132b45;0xc011207ea56e8;0x46aec4cd78c59;0x1ec6bd18d616e;0xbd5c71502a3a];[0xed20f632402be;0x5ef708ed82d49;0xe0906e42902e7;0xb3f65013cd42d;0x6e971bcee5b7];[0xed20f632402be;0x5ef708ed82d49;0xe0906e42902e7;0xb3f65013cd42d;0x6e971bcee5b7];[0xf9f84a20843d2;0x7e2b8075177d3;0xc786ec0b8a49a;0xa7dbda982e109;0x251b4f8399bf];[0xc32f4570ae774;0x41e5a0098df14;0x7f27d8c1ee7bf;0x76eae280a8064;0x984121cc907a];[0x0;0xe3d5f01f0855f;0x183cde7d17e64;0xda9fcf1fba74e;0x6bf4ae1e337e1;0x29a1e2efac3];[0x0;0x31dfc939ad9ef;0xceb5cb6b759ac;0x954175c480248;0x44eab9450e0f4;0x5fd07986e13f];[0x0;0x5c20493b06c1d;0xffee465f0ae26;0x319b337ac8ced;0x46f47ee6b71fc;0x504652b8c41e];[0x0;0x5c20493b06c1d;0xffee465f0ae26;0x319b337ac8ced;0x46f47ee6b71fc;0x504652b8c41e];[0x0;0x20a7dde7139a9;0xdc23a51a18d3;0xc4526c640568f;0xfc8844cee6aed;0x2cb5bd2ffb80];[0x0;0x52d3f4c3b348b;0xef5948f2f13e;0xe25f66d48cc43;0x3628c5570e369;0x90213486b7fe];[0x0;0x6cb6e7843f8fc;0x32e863b01230;0xac7fcb466f82d;0xa86d81afaf696;0x1a791db15183];[0x0;0x75a5c7f67c5c4;0xae58dee56bf29;0x2fc07d7f63734;0x68681a94695d2;0xdcd80a62fe1b4];[0x0;0xa54c49b80307f;0xed2b5952eb757;0xda725dcd9f317;0xcd7de73474f2a;0x1e61559f5b25]]);
 ((V [0xbf83ccc809c89;0xc75cbe2587d66;0xa5461d888e076;0xb4277ba32b638;0x13fd38aa4dea] [0xb5db976216871;0x47eca9a9749e;0x7aa40f04b6e7e;0x6c14d52baedde;0x1a51bf71aae9] [0xb50dd5bc7cc2e;0xc523f64005da9;0xad35851ae6638;0x76cc3ef531693;0x4216e269f9d0]),[[0xeaeeec8d4e2a4;0x26af63f761639;0x6c9a0c6a24e0e;0xc7c3b9c47f433;0xe224fcd19ec2];[0xaa28617c5ab5b;0x44d733a21f413;0xe66693db31489;0x2a78ebc50f877;0x26d8426f3400];[0x23d1723f262a7;0x8ffef03d090ad;0xc81da28463e85;0x5436a8cb004f7;0x576db9ed0d7d];[0x23d1723f262a7;0x8ffef03d090ad;0xc81da28463e85;0x5436a8cb004f7;0x576db9ed0d7d];[0xfdacfd9ecc2ca;0x31f7a050a0993;0x410e37da9e60e;0xcaedd71c43a0e;0xe9edc813ae8c];[0xac7b63dd8e629;0x12df93517ea7f;0xa5585c0092e7b;0x5f8b14a8cbe69;0x3cea7a5b8573];[0x0;0xe14423d5e15cf;0x60d5d16c3a14c;0xbf3061762787b;0xb2b62fc5600fc;0x20e9bc26222];[0x0;0x229c99bf8fd87;0xa99a857a8f223;0x590a501744383;0xebe7d26f60702;0x4d3b7fe90510];[0x0;0xa54c49b80307f;0xed2b5952eb757;0xda725dcd9f317;0xcd7de73474f2a;0x1e61559f5b25];[0x0;0xa54c49b80307f;0xed2b5952eb757;0xda725dcd9f317;0xcd7de73474f2a;0x1e61559f5b25];[0x0;0x17e3da456ba69;0xee7e17321ce72;0xa33ea08bcbe91;0xea0746520d5cf;0xb876f7873ced];[0x0;0xabb7602445cc1;0x9eee673ea12b4;0x5cc9aa1329bfe;0x4854122b290ea;0x500e1287265];[0x0;0xe9acd5fe41242;0xbbaa15c337274;0x772af832c81b0;0x8187bd1bd8687;0x30879410eb9];[0x0;0xe4bfb8f2f7293;0x269d1b619c3b4;0xe87690cd7a467;0x62c9a6ebed692;0x1bb6f58537013];[0x0;0x2622147fe3d6d;0x21edd18561743;0x8f53300539719;0xf267a323d1781;0x20e19d30731]]);
 ((V [0xed83dc396e683;0xab59979b9b188;0x7a2a4c4d28a32;0xba1508b24ac8f;0x1d923a89a36] [0x5b1f6802bba75;0xb7f1941e45140;0x7fe616fceb6c4;0x6e3a7f62c8a9c;0x7c6b5bc81359] [0xc5f5c54b3f259;0x5d30dc63c5ba7;0xcbca810c8bf2e;0xe121ff7c92a94;0x45dc625248db]),[[0x97c3f6ade8cf9;0x7c47aa45e4e56;0xf601b86a785f7;0x95b4f9147d7e1;0xb15dcf3c87f5];[0xa46fc49b057b9;0x8a53273fd37ca;0x11b4b79b7ed40;0x3fb9cb799cfaf;0x22759eb37b31];[0xb50dd5bc7cc2e;0xc523f64005da9;0xad35851ae6638;0x76cc3ef531693;0x4216e269f9d0];[0xb50dd5bc7cc2e;0xc523f64005da9;0xad35851ae6638;0x76cc3ef531693;0x4216e269f9d0];[0x605ca3056e456;0xd3dfbc88d74ce;0x7e0dd8a664d1d;0x9ab1d53c34177;0x7b51fc54c9f];[0x4413219597364;0xb6736ab6fc2fc;0x93a6def51a022;0xa507f63d68e37;0x1ac07eee2e91];[0x0;0x90e65d1f81107;0x36aba2fd5dfa9;0x1d579dd79c5cd;0xc6be80729aeb3;0x18e137255cf];[0x0;0xc62a1f72399c3;0xf54ea96052f2a;0xbe42c1e98fe40;0x1ca718fad57d9;0x2dca0a5ba7c3];[0x0;0x2622147fe3d6d;0x21edd18561743;0x8f53300539719;0xf267a323d1781;0x20e19d30731];[0x0;0x2622147fe3d6d;0x21edd18561743;0x8f53300539719;0xf267a323d1781;0x20e19d30731];[0x0;0x4da4ec2fa062d;0xf4ccabd6fe1c9;0x1a651d65c142a;0x612b43ef1e06b;0x2b4b4fdcbd0];[0x0;0xb18919622491b;0x703c6fe9ac711;0x84ed861bcd198;0xcc0834a42b09b;0x18f90e254b9];[0x0;0x27eac2b5b14fe;0x2386c0cf859d2;0xe9a8c0992124e;0x6cf30e68e2354;0x3fb01f0043];[0x0;0x306b73098a42e;0x3b16afd1bb48;0xecc57dea2b6c5;0x6bea2bb055b55;0x83261abe64657];[0x0;0xfe312e510b36a;0xa134b234771d3;0x3d4acc5bbd816;0x847a88677bd4a;0xe5f3b1339f]]);
 ((V [0x744420a7b13ee;0x466d1476eb36f;0xdd6068bbf52e4;0xcb59cce2747d;0xf96603e65cf8] [0x1e5621ba0df28;0x5edc77c693c8e;0xc0a5953f71372;0x378a6fcc00d6c;0x4cbb3452c9ab] [0xe9ffdc3dcc97d;0x5243f89f2186e;0x207f6d4c3b6e8;0x359145c13b0e7;0x731a75faaad6]),[[0xbcac891822a63;0xd4fb28a265cb6;0x6f3630f81c769;0xdccd95a00df5d;0xf97238a9e2ce];[0x69a8147d62b93;0x11fdcf42ccf9d;0x6e82afb363df9;0xc0f0277f3f2c6;0xce9b5f8258e];[0xc5f5c54b3f259;0x5d30dc63c5ba7;0xcbca810c8bf2e;0xe121ff7c92a94;0x45dc625248db];[0xc5f5c54b3f259;0x5d30dc63c5ba7;0xcbca810c8bf2e;0xe121ff7c92a94;0x45dc625248db];[0x25c48d8e90ad7;0xeea1722222847;0x1d5075cbae393;0xd5eede6a7b3db;0x76f87f7615e8];[0x43e386eed1e54;0x235c5d20aa756;0x513239e7b5a65;0xeb014914c3eeb;0x95f136820fa5];[0x0;0x68fc9ca77f120;0x9d1ef930d4c4a;0x1d4fed2a1bb07;0x18aa6e2a80ff8;0x1a4caefc525];[0x0;0xb0929607a1ae8;0x4d2196ebf67fa;0xe3404db2cfc97;0x3a8bc662226bf;0x4412873c6366];[0x0;0xfe312e510b36a;0xa134b234771d3;0x3d4acc5bbd816;0x847a88677bd4a;0xe5f3b1339f];[0x0;0xfe312e510b36a;0xa134b234771d3;0x3d4acc5bbd816;0x847a88677bd4a;0xe5f3b1339f];[0x0;0x641bfe54ffeae;0x5dd85be96a7ac;0xfb969d0b0ca66;0xa9aaa1de6689f;0x3c782deface6];[0x0;0x6cf7e695acd93;0x1949ade48846d;0xbb0f20f36c82b;0x67715d560268d;0x36a74ca01];[0x0;0xc8b073c45450a;0x675df5b58744;0xaf6ccce50d78c;0xb65e74307424a;0xc94774f3932];[0x0;0x89779f3e6aff2;0xa9fb0797f1b43;0xf97fd11030342;0xbbc9684a4c0e;0x5148fa61e26f6];[0x0;0xb00fc05209445;0x27f98b4a1c805;0xf2d825bdcccac;0x7df39fdd21e5d;0x4ac0a9a69ccf]]);
 ((V [0x38bafe3bdc359;0x85a0801264721;0xd21fd9a031717;0xedd5b5b48a26f;0x68aae38416b3] [0x9d35574b89033;0xd8c6396c66387;0xd045004e48f41;0x42fc21bf4a950;0x41c0a460543d] [0xab7c7f3bb211c;0x87fff1a89909d;0x6cd79eb3ebf1;0x94372670a23df;0x9ac6faad8c30]),[[0x87b03e059a21f;0xdd3232fce799a;0x4b75dfb9aaaf4;0xee99d02774187;0xa18a8f527c9d];[0x692969e1e0d6;0x4b75c537dbb60;0xa28d014738ece;0x6ec3a64c22370;0x74d1ae3c17ee];[0xe9ffdc3dcc97d;0x5243f89f2186e;0x207f6d4c3b6e8;0x359145c13b0e7;0x731a75faaad6];[0xe9ffdc3dcc97d;0x5243f89f2186e;0x207f6d4c3b6e8;0x359145c13b0e7;0x731a75faaad6];[0x108474f24588d;0xbbc19caad58b3;0xe618b3ec1a5a3;0x8c4a26fc432d0;0x6a521ce2a60e];[0xf60e21abd884a;0x8fb4288d062ac;0xbc744d5b1e92a;0xe2797f4fdf09f;0xa7f915971df];[0x0;0xd99adb77ff310;0x8316bf5f65fa0;0xaf2c904b7fb20;0xdbe8c30cc5983;0x2b54d363a31];[0x0;0x7733dce70eebb;0xcae7bb204fc6e;0xb80105552cc24;0x72892548c0d84;0x48a1f0e71cf9];[0x0;0xb00fc05209445;0x27f98b4a1c805;0xf2d825bdcccac;0x7df39fdd21e5d;0x4ac0a9a69ccf];[0x0;0xb00fc05209445;0x27f98b4a1c805;0xf2d825bdcccac;0x7df39fdd21e5d;0x4ac0a9a69ccf];[0x0;0x204aee15d9c45;0x20d162e1ad2fa;0x488836812c66d;0x5d0b5be965de;0x16ffaff6a362];[0x0;0x9d45be032d216;0x6658320728e46;0xb5ee6d0e43491;0xd3dc6b884e2ed;0xf2f79c3d3c7b];[0x0;0xfb926ee2b3c03;0x4be3f183edc05;0x10647ab0fd6cc;0x1a76e656bda1;0x2fc329d8519a];[0x0;0xf024516564e34;0x22ac153a94883;0xb3e2c322fa29e;0x5e3a6c79c2ca1;0x43fc9c4e3603b];[0x0;0xe14c527e01539;0x745fb17e0854c;0x4ba318503f799;0xc52c1dd9eb23f;0x1ae22724091b]]);
 ((V [0x332b451116515;0x8859afda929e1;0x6b4b70eb6cff3;0x132ccd37d10d3;0xdd3c18fa0aaa] [0xfaf2e294a8147;0x6f53f779330d3;0xc34d02bea2a33;0x4cf0abc09acc8;0x1f728ebc2057] [0x74ad8008c1114;0x1355659ee3bba;0x153d4d81f9f19;0x621b39a97cfdd;0x439c41c85ebf]),[[0xbf1197b849298;0x47d18e6827782;0x9573d81522cb;0xa8332e030b5c9;0x60e5005dece3];[0x85d05cd43663b;0xc33f95c060e09;0x9bb83cc6a3ecb;0xed057296b9ce8;0x5e0fdb024f6e];[0xab7c7f3bb211c;0x87fff1a89909d;0x6cd79eb3ebf1;0x94372670a23df;0x9ac6faad8c30];[0xab7c7f3bb211c;0x87fff1a89909d;0x6cd79eb3ebf1;0x94372670a23df;0x9ac6faad8c30];[0x55a61f03707a;0x2be547ea3cd66;0xc94152f9f144d;0xcae3de3bfc13b;0x4f1173c7cc16];[0x8075fae3ff5c2;0x975a4dd6240a3;0xd276e9ccb2a7e;0x2221945abdbac;0xefe673a8358];[0x0;0x7ea9ffaeea84;0x31ce6b1f85446;0x7699af96aeb5f;0xa575b6a09ed16;0x3a444ed44cc];[0x0;0x700d7d2b53f63;0x950f00aa80e13;0x8afa9d3eff953;0xc34efc7cfc290;0x3a9512381b52];[0x0;0xe14c527e01539;0x745fb17e0854c;0x4ba318503f799;0xc52c1dd9eb23f;0x1ae22724091b];[0x0;0xe14c527e01539;0x745fb17e0854c;0x4ba318503f799;0xc52c1dd9eb23f;0x1ae22724091b];[0x0;0x3cf57901917a9;0xb9d133aa138b8;0xb0b3766403f77;0x8164ad34dc46;0x10e3646fe4d1];[0x0;0x80bb58fe62e29;0x74eec403139ff;0x9aff36153163b;0xdca006d1b3ffe;0x2acb4aee4813];[0x0;0xe13e5e626d76c;0x808f1b15bfeff;0x47bbe55e06165;0x947263c40d9a1;0x5149c4f5af0c];[0x0;0x3b3905dc25844;0xc933dbbbe2bf8;0xce0802e9c0f54;0x21177ad9b044a;0x20b0d77776c24];[0x0;0x7f291a1789f19;0xb87a8720cfa82;0x435858415c7a2;0x56a2b4d43336a;0x1b2d47235093]]);
 ((V [0xda99d4917b0fa;0xf6a1c164cef3a;0x1c795a6cd62e7;0x70134e90c5589;0xeaa6c206365a] [0xb0d87ab487205;0x35a7a50b6e339;0x38024f4a59bac;0x6e8714a8db307;0x6e83ff388264] [0xce9caab926834;0xdd5ee07f95f6a;0x107d2da884b77;0x20e08ab397241;0x5fe6c4a2ad37]),[[0x73a65f43b6d72;0xd6fb6d95da42e;0x1ce7c694aedf7;0xb3f1e99ba8434;0x5c698dbd04b0];[0x128b24fa07873;0xadc8abb68b916;0x580d426dfaf93;0xbc03d350a3efb;0xf1911a0274f2];[0x74ad8008c1114;0x1355659ee3bba;0x153d4d81f9f19;0x621b39a97cfdd;0x439c41c85ebf];[0x74ad8008c1114;0x1355659ee3bba;0x153d4d81f9f19;0x621b39a97cfdd;0x439c41c85ebf];[0x713e46ccbf31a;0x4d96f2c608466;0x496136b93dff4;0xe5ca5a1395d68;0x823bbd73d2d2];[0xa14cde2d4855a;0x6031b8f0834af;0xeac0bb4bcf9f;0xd639793d0e193;0x6f555c8ea21f];[0x0;0xcacc3a599c566;0xf70eda5f1b6b9;0x458af5875d723;0x9007ab07ff5d2;0x1973cc0aa27];[0x0;0x54dfd05fcd5d3;0xfb623e1afc56c;0xbb03811405349;0xacd8e33f7933c;0x18680829f910];[0x0;0x7f291a1789f19;0xb87a8720cfa82;0x435858415c7a2;0x56a2b4d43336a;0x1b2d47235093];[0x0;0x7f291a1789f19;0xb87a8720cfa82;0x435858415c7a2;0x56a2b4d43336a;0x1b2d47235093];[0x0;0xd643df084f701;0xbe0f4778c94d0;0x4649d45c0b050;0x30832d9b8e0ee;0x3dcf1d4fef7];[0x0;0x16589632b9e79;0xec2db48b2d71e;0xfd5099a185e10;0x7b0d0f8a25930;0xbf30d13b6e0e];[0x0;0x2d60c6890dde0;0xd77c010368351;0xf1ff7b0859236;0x2031769f2e78d;0xdd6bfcf2eee4];[0x0;0xee6759bcc2b2e;0x89b05d78bfac1;0x32181c538b00e;0x9ac1ed8a7141c;0x6ee7b0b7e6f78];[0x0;0x4a10ca3077682;0xe9dc23d1cbcf3;0xbef26e7c34a15;0xaea09551abc6;0x654ca4a3dbcc]]);
 ((V [0xa2c312696b1f6;0xcbecf86bfbf70;0xad5c2f38bf246;0xc4fa9fb04a355;0xa8b15a59250d] [0xe63dc6cf304d5;0x900b006b214f2;0x3668cde491c5e;0x2f547327b2d61;0x33f9aa9168f2] [0x44cac3cc56d59;0x51a276d210c90;0x3a5589c796971;0xd97b6180f502;0x399c5d567c43]),[[0x43b3fff86beed;0x8c7a4546068ce;0x2e4f630f1a863;0x2a2a08c937d02;0x1a3ef38eada3];[0xebe13f00b622b;0xdb028d52e027b;0xfbf0cf268ab26;0x2d453bf7695c4;0x955db2706dd2];[0xce9caab926834;0xdd5ee07f95f6a;0x107d2da884b77;0x20e08ab397241;0x5fe6c4a2ad37];[0xce9caab926834;0xdd5ee07f95f6a;0x107d2da884b77;0x20e08ab397241;0x5fe6c4a2ad37];[0x20ff211223d9e;0xabd1269d14afe;0xc231ff1932d34;0xb13f604e3dc71;0xcbd94f19d86];[0xcae21dee9248e;0x2f3166b5cb77d;0x39bed00d57df2;0x7c05dba92b953;0x88a01d7ed04b];[0x0;0x742de10c35849;0xa886f075c7ec5;0x3a424eabb2a4d;0xfac2c7941f606;0x241a48a3ea5];[0x0;0xe067a59a942ef;0x7572750cc47c0;0x5a4c322321e7d;0x1bf4eb4d4ab8d;0x9d50519a4b1];[0x0;0x4a10ca3077682;0xe9dc23d1cbcf3;0xbef26e7c34a15;0xaea09551abc6;0x654ca4a3dbcc];[0x0;0x4a10ca3077682;0xe9dc23d1cbcf3;0xbef26e7c34a15;0xaea09551abc6;0x654ca4a3dbcc];[0x0;0x770350ba3b2bd;0xe635b5e5cd84d;0xf9ebfc43daad5;0x6202968bdf171;0x2fb5b363c255];[0x0;0x21381308cebda;0xbbaedf5c6daa6;0x70aa0c3e60507;0x3cb44e4f57bc1;0xd71547538e79];[0x0;0x3aca63e39920;0x628c9e17a2340;0x1c9c31b502afe;0xff3315143efd7;0x626cf7991bba];[0x0;0x163076bd9ebc6;0x325abc53c2a71;0xec5b73c6a2870;0x5adf37a6ffa3d;0x35540fd73f30d];[0x0;0x4ced449e22af3;0xf85995e99f7d5;0x9aeb2b55a26fc;0xcb477c2ce7cb3;0x223fd9e63ab1]]);
 ((V [0xfeba8d501254d;0xbdbf2149ef8da;0x7df2d086494df;0x5507fba8e1bb2;0x24e2bb5f729d] [0xe5a1fb190702a;0x9cdd4b2bdafe5;0xdcbc64e1c34f7;0x89ce5b0b1ab8c;0x31426c0cdb48] [0x704c62f9b41cd;0x88a271aa48c7c;0x2dd2d5ab3487;0x77b650cd4e84f;0x1307ded94233]),[[0x92f1e03eb0ab3;0x4b9a3254364b9;0xcf52dd4f005f9;0x72a01e44c73ca;0xe1361fe0ff89];[0xb48cc181cc70f;0x716fdbb9fbd80;0xc4b4976663fd8;0x845f8d923fa9f;0xfab88bc98ef4];[0x44cac3cc56d59;0x51a276d210c90;0x3a5589c796971;0xd97b6180f502;0x399c5d567c43];[0x44cac3cc56d59;0x51a276d210c90;0x3a5589c796971;0xd97b6180f502;0x399c5d567c43];[0x21443e654a6c9;0xf817ec5d69fa2;0x4f2447d5571a;0x1b30ab928df93;0xf631dec69705];[0x9348831c82047;0x7957ef5c91dde;0xbfc252e90e8bd;0x692ee1ffb1b0c;0x486ad02f7ef];[0x0;0xe8969e5f573f0;0x5ef5672cf5c21;0x64f85071a2908;0x699ddaced8646;0x15b01c3759e];[0x0;0xf185a0e4d36b4;0xe3536a0a9c96f;0x5559e2c737683;0xf942d186c373f;0x32ae9c314515];[0x0;0x4ced449e22af3;0xf85995e99f7d5;0x9aeb2b55a26fc;0xcb477c2ce7cb3;0x223fd9e63ab1];[0x0;0x4ced449e22af3;0xf85995e99f7d5;0x9aeb2b55a26fc;0xcb477c2ce7cb3;0x223fd9e63ab1];[0x0;0xfa39d6830f10;0x8d7a97c84695f;0xea398652cd2fc;0x17f56c6546a87;0xa8d6d733054];[0x0;0xb84f37a74166b;0xa08a2b9c6cd44;0xcef2fabe1666a;0x1cabcb985d65a;0x6f2941730fca];[0x0;0x93a4d11a9392;0x5e234158e024d;0x7c0e91d50e8df;0xf66789e61d0f2;0x2420021608e2];[0x0;0x4bcdebe847557;0xe424228d5f8cf;0x140139e739c47;0xfe1e2b3d8eae2;0x3152accb27f1a];[0x0;0xf86f82b5dae73;0xdd6fce0f8ae6a;0xe28a018326000;0x20949e35709ed;0x718f7e314d1]]);
 ((V [0x42807e01447e1;0xbc39da4c2eb89;0x71925c981dfb2;0x9923ec01988ad;0x9dc1b9dcf498] [0x9fc205bb2dc2;0xbe82ca6f1673f;0x20a23c81d6f27;0x5d0f992abd992;0x6011c9fef6e9] [0xa264069e9fbe7;0x779e9f475ae9b;0xdd5a77c169a59;0x7ded028f7ee47;0xf9350e541692]),[[0xa640ab66c1744;0x98267bc1f7dde;0xfafa428146149;0xbe28489b321fe;0x9762318c2771];[0x7c61fc21b4173;0x7f2fd5f54cf03;0xfef0ee37c17fd;0x53329198a507e;0x74b90bdbd202];[0x704c62f9b41cd;0x88a271aa48c7c;0x2dd2d5ab3487;0x77b650cd4e84f;0x1307ded94233];[0x704c62f9b41cd;0x88a271aa48c7c;0x2dd2d5ab3487;0x77b650cd4e84f;0x1307ded94233];[0xd0b65b25a6444;0x7be09c7e8f2f4;0x7371a7f3baab0;0x9601c5891888a;0x743c0595691e];[0xababa0fc0dd30;0x34f3976bdc0e;0x8b7f464406d4d;0xbd30cc0f8c7f4;0x7d064668e3];[0x0;0xf53d14f267b7d;0xd206fc733337d;0x625631bb6e93b;0x516385775d168;0x72a0b7aaf3];[0x0;0x1d15c135c4e27;0x76736f8904127;0xeffb351ca5f93;0xcf5bb88546480;0xb40f124621b];[0x0;0xf86f82b5dae73;0xdd6fce0f8ae6a;0xe28a018326000;0x20949e35709ed;0x718f7e314d1];[0x0;0xf86f82b5dae73;0xdd6fce0f8ae6a;0xe28a018326000;0x20949e35709ed;0x718f7e314d1];[0x0;0xa755516c4660;0x4c3edc4e04d0e;0xbaf47b322676c;0xafd28c296a734;0x97a7e98d02d];[0x0;0x10f24c19aa4ef;0x91b2fe92e354e;0x6f3836af2220b;0x32bc7f2f1bad3;0x5508d8235e7];[0x0;0xa38b81490ab6;0x7ceb5804bf2d3;0x8bc57954cd705;0xbf726c36a56a4;0x47edd08638a2];[0x0;0x2230ba3374889;0xaa295b98264a8;0xa66f58dc8f6b8;0xc87120636b86c;0x63560e918a2a7];[0x0;0x2d6263de11c9d;0x4e30e67532808;0x7b3f3dbbf7eee;0x541b9deff4ce3;0x3b339c0a6cb2]]);
 ((V [0x8d020343e9bbd;0x50376a04c7c37;0xe5de577e3325;0xe1744159b8db;0xa97b47e9d5e8] [0x1d25a0865008;0xb71b401fb4c3b;0xa52a2743bba3f;0xfc39b9ce49a47;0xc3de5ac5e15] [0x3250138d3894c;0x5fdd6b8d3a1df;0x8b9158fd26a5b;0xf878ea9704daa;0xe6e2e2e93aab]),[[0x618f155485619;0xfc0508c02e1d8;0xd4297fa7cf820;0x4205d2fdf5cd9;0x67851d53df];[0x113b516f5b635;0xf162c77f938cd;0xbba504e8fe3c6;0x8f57506208f4;0x358b7752a55];[0xa264069e9fbe7;0x779e9f475ae9b;0xdd5a77c169a59;0x7ded028f7ee47;0xf9350e541692];[0xa264069e9fbe7;0x779e9f475ae9b;0xdd5a77c169a59;0x7ded028f7ee47;0xf9350e541692];[0xe4b5a1019d62a;0xef0b17928dddc;0x63624eab0ffc9;0xe7bd0251f0753;0x853250d49e24];[0x2c85b06dbdda3;0x257afed05af0;0x5842b63dee3fd;0x213872b4301a1;0x7e2666a08c30];[0x0;0xc28632bdfc93c;0x5cccd7c00a1dd;0x1ae37b8fe2377;0x656c5e699913b;0x5dd0c8b1d3f];[0x0;0x413ad66baecb6;0x3e7a93700003e;0x6a1d212d91735;0xed536c114a47b;0x64c5ede0ee];[0x0;0x2d6263de11c9d;0x4e30e67532808;0x7b3f3dbbf7eee;0x541b9deff4ce3;0x3b339c0a6cb2];[0x0;0x2d6263de11c9d;0x4e30e67532808;0x7b3f3dbbf7eee;0x541b9deff4ce3;0x3b339c0a6cb2];[0x0;0x73e4879678536;0x9001c2c725547;0x9001dee198991;0x2e73684ee2ed9;0x240d58bbac6e];[0x0;0x1ed58a5f35a92;0xcd4f0d4b035e8;0xe8b479a48385e;0x1226d4f42f3ce;0x61373092ca1d];[0x0;0xd90cbfc44e270;0x461683cb7e65e;0xd802df71a112f;0xcb605b5d5ab2f;0x2372dad27a9];[0x0;0xe0832d57c2686;0xce21a75a01641;0xd12ac3c030489;0xbea008a67162c;0xcff348b46d9c];[0x0;0x7b9f47c374bc4;0x99a518cd24486;0xe60c6bf91f697;0x28e9143a1fbd6;0x81ac1cc7d31]]);
 ((V [0x831e476b2dec1;0xe9641be15384b;0x44a7156d0cce1;0x9e30f3ae98fb5;0x2338f12d9409] [0x9bb4836637433;0x7e8665f7585e7;0x395366cfb8fd2;0x24b076b12ead3;0x81b4c6be5f77] [0xe777a575aff42;0x30ca8edeb4339;0x7fa16718c2153;0x31ff6872b7402;0xeace7aae442c]),[[0x537721575d5f8;0xb3029ee65a590;0x47b47d5f270b3;0x27ac17adf28fb;0xf1a0b10b7049];[0xd6d921358b42b;0xd5a46d634a173;0x973b7cf507f4e;0x5b5f70152a95d;0x50d50afc7e9d];[0x3250138d3894c;0x5fdd6b8d3a1df;0x8b9158fd26a5b;0xf878ea9704daa;0xe6e2e2e93aab];[0x3250138d3894c;0x5fdd6b8d3a1df;0x8b9158fd26a5b;0xf878ea9704daa;0xe6e2e2e93aab];[0xbfc878f5d00ff;0x91d90a32b22e9;0x790d6d33feb93;0xb18d5f049be7a;0x9928f2cfcef7];[0x1710a83fbb0c4;0x43cb633097e8a;0x1e2e0fc1093bb;0xa9d211108eae3;0xb7ac182cafa5];[0x0;0x971959d70aa54;0xfb1291bd8ef24;0x7c9653c26f053;0x95630d04decdb;0x56eb243a6b2];[0x0;0x4d31832a26ad3;0x460ae51072c0e;0x1c073d2c59f92;0xcfbc11244a362;0xd9ec851891e8];[0x0;0x7b9f47c374bc4;0x99a518cd24486;0xe60c6bf91f697;0x28e9143a1fbd6;0x81ac1cc7d31];[0x0;0x7b9f47c374bc4;0x99a518cd24486;0xe60c6bf91f697;0x28e9143a1fbd6;0x81ac1cc7d31];[0x0;0xccefcf9a4b4e7;0x5e7e5378411e2;0xf3aef37cb3155;0xba81824c3e50f;0x95dc7f6b04];[0x0;0x6d111837f4003;0x9389ff09bb10a;0xb93261214a623;0x79d60d367c0eb;0x70340050eb53];[0x0;0xa5c6f46b1248c;0xa02be1f9e1170;0xb31ae54aaa532;0xb48bb9ffe1fa;0xb1f1b41e014];[0x0;0x2e18684cc7a03;0x4734c5fb98911;0x62a48299e0fb5;0xff0361e08a166;0x8740cc38e7ed0];[0x0;0x9b8f15e832c77;0x8b4d3b3da0c4;0x2cd3fae34725d;0xb5d18437d0f1c;0x11d890e9c793]])]
 [[0x7590f0cae2e58;0x8fdb58c4f3a6a;0xeb434bf7eee5f;0x81c00ef1f79a8;0x4f146ed67f95];[0x7312711f84d48;0x6db4c1387d7f6;0xd6be054f60775;0x4c6ccfcc8ef7b;0xd5158792c1fe];[0xe777a575aff42;0x30ca8edeb4339;0x7fa16718c2153;0x31ff6872b7402;0xeace7aae442c];[0xe777a575aff42;0x30ca8edeb4339;0x7fa16718c2153;0x31ff6872b7402;0xeace7aae442c];[0x1c91e411b4583;0x1f91bfe26b538;0xbbfe69813646f;0xa10456badd4b3;0xbe8af894e4f6];[0x56808d0dd07c6;0x4e230156122be;0x1abf9bce2a306;0xab687911b1ac8;0x168a8efddd07];[0x0;0xc1ec224171d52;0x642183b6397cf;0xaf3770a252a45;0x3e0898cb7866b;0x5864f336ffc];[0x0;0x86fdbc9461ad8;0x770312a6f812c;0xe0c4eb27e16a2;0xf5e5c33fc1abe;0x488875a6d2fd];[0x0;0x9b8f15e832c77;0x8b4d3b3da0c4;0x2cd3fae34725d;0xb5d18437d0f1c;0x11d890e9c793];[0x0;0x9b8f15e832c77;0x8b4d3b3da0c4;0x2cd3fae34725d;0xb5d18437d0f1c;0x11d890e9c793];[0x0;0x4feacec5ba94a;0xbb08899f242c0;0xe2a13f4f18d7c;0x5bc394fa8c6c8;0x41b7aff3f237];[0x0;0x60eabbdc4857d;0x251d4cd775bb7;0x95fb1f0480b35;0x3e4e14e141812;0x4d89e9cdda2];[0x0;0x7962477c9523f;0xeac245c62525;0x717e1da35f8a7;0x9b8566d7acb12;0x4b4da21de424];[0x0;0x237f230cd59e4;0x69448d98ac67c;0x894710023d144;0xe35b6e4ffcdf0;0x4b885c3aeef26];[0x0;0xd9ff510182928;0x1c9d63b6b7879;0x701d5cffa2df1;0x98c02b9d5646;0x1a6a8df547f5]].
Definition wit_256A_64_7 : colwit ept wit := mk_colwit (V [0x9e74316ba1e45;0xda32a3726846b;0x574ed4398104f;0x95b9564b34ebb;0x3eef390851e2] [0x837471aeb82c3;0x86eeedfcdee1c;0x37e010c0e6101;0xd202653f1cf4c;0xbe427d95d2ac] [0x650f80acf9a06;0x28c4d75468354;0x7a97bc8c45dfe;0xf859cece2c979;0x5ab43b2cd360])
 [[0xaaee6a02389e3;0xb3abdc6b363ce;0xd563cc1b0f805;0x25cee6dec3131;0xb68611857340];[0x1fb9944628e8b;0xb1063996f9138;0x8f1cd08add97c;0x7324a7e6a3ff;0x1e893cf4c4c1];[0xd53d8c21d2ac3;0x73d8bc6569d5d;0xb088b8f98f60f;0xdefce70fec216;0xf19ba32d8909];[0xd53d8c21d2ac3;0x73d8bc6569d5d;0xb088b8f98f60f;0xdefce70fec216;0xf19ba32d8909];[0xb519956a2162a;0x2ce230403e43;0xbb7d4785579d;0x9101a979b8e76;0xfe82a28f1928];[0x6a9ffedc075f9;0xae381692f52f4;0x8364fc12881df;0x7630a104b1589;0x20069a65ab98];[0x0;0x982dba67e27e2;0x2574db1b7dad3;0xdf6c546cb7600;0x34bd9eb55f2e1;0x5af46b63ccc];[0x0;0x2a93ee7070b52;0xd444cfbe72508;0x5e06ce520e946;0x159623e8fb58;0xac432e0311ba];[0x0;0xd9ff510182928;0x1c9d63b6b7879;0x701d5cffa2df1;0x98c02b9d5646;0x1a6a8df547f5];[0x0;0xd9ff510182928;0x1c9d63b6b7879;0x701d5cffa2df1;0x98c02b9d5646;0x1a6a8df547f5];[0x0;0xe8743bd5a1a01;0x7ebc2bcf1fc58;0xb26d7294f2452;0x4fd16abc82348;0x15d37baa3707];[0x0;0xa2cc08f3abc60;0x7b1adf28c40d9;0x4ccf8399e1cb4;0x230fd12ca2350;0x1ff8bf9e3bed];[0x0;0x14ccbaaea863a;0xc5be8e801fb84;0xa15e9f535c757;0x4ab644e9f1fe0;0x781c5b0bccb];[0x0;0xa25bf222f83d9;0xaf9fd52208349;0x7b146a4deb90a;0xc5422b11acfa4;0xc8bb88d58ba92];[0x0;0x116730a2228df;0xd6730df41e883;0x39e585e6cd86d;0x42816c1ec2755;0x2ec5e4e084cb]]
 [[[0xfc588994e05c9;0x73ca754d9beed;0x2526e7ae53a6a;0x5cb3e5ddbf3d0;0x589d1129fc7c];[0xa34c201d8b724;0x6061d841daa7a;0x6b1b3e0b98df0;0xd8e598f974c2;0xeb4f256a0837];[0xc16fadb0e198a;0x41367c47dbce0;0x440608b5a5d6b;0x36af193f454fc;0x7f1072b2199a];[0x65a8f2f7fa1f3;0x2fbb91c70048;0x8169970cf4862;0x63f42f48a8384;0x8097995f4139];[0xae3de8019219e;0x583589bd30139;0x1f6f2ebf1d3f6;0xdf7bdc4469ef5;0x2335f9415596];[0x41eae7ef44283;0xdcb8b5c329e8d;0xd082987d9ddd;0x26a4603ca4c69;0xaa60fe83778b];[0x0;0x79edc6ca24dcf;0xf38f092761542;0x6f6084dcc62d9;0x6a7a267e5724a;0x22256528118];[0x0;0x674164c1e29a1;0x890e9835f3406;0xe6d042e73d8d8;0x2b9adf47bef7f;0x53a1bcbdb016];[0x0;0xc0d3a81c06dc3;0x5d66135746f84;0x52da129c9cc89;0x6ae37137e2ccb;0x433cb8b6f934];[0x0;0x41287866d5ed8;0x56b4351bccc39;0x97f0b083d66e0;0x8112a13e24afe;0x12605157b61e];[0x0;0x9f92f1c292ad9;0xdfc4a42332606;0x58e8f771854ae;0xfce760d9039b5;0x378dd04a61b0];[0x0;0x9c498b174695a;0x90ae2ca468627;0x7ef67a4436abd;0x72f49bcccf6a2;0x163da7e118f2];[0x0;0x10e2b5f407d81;0xcdc2dc57edac7;0xc1f6f845a3add;0xc090358224bd2;0x7d4ccf4a8ab6];[0x0;0x60a5a818353fe;0x790d3e1f40deb;0x7a3d47d810f9a;0xd351bece10c4f;0x3e4a308469466];[0x0;0x2500e9bbcf9e;0x1c398337ae5a9;0x1fa82ab767534;0xac3d9f27f12d4;0x210086d15b16]];
 [[0xfc588994e05c9;0x73ca754d9beed;0x2526e7ae53a6a;0x5cb3e5ddbf3d0;0x589d1129fc7c];[0xd739fdf3d8bf9;0xab4d714bd2d31;0x24402e7be410;0x2b1f1807ecd4b;0xa4c3b8d4cf2c];[0x8babe3389181e;0xe68553afbe721;0x59f9f49a5ae6f;0x362d4cd7fd575;0xcc2c217dd827];[0xdad3b5ae90517;0x65fa88afe06db;0xc05883aab09a6;0xce112db194228;0xf0d8f246fee5];[0x7a3299267ba86;0x29fe62da2dec0;0x45fb91cf5bf4b;0xd8b5cf053acbf;0x26cf8d6c48b0];[0x2c0d2353e5432;0x6ec70444df90b;0x3111db5c5b8fe;0xfd6c435378d21;0x3d632d0916fa];[0x0;0x79edc6ca24dcf;0xf38f092761542;0x6f6084dcc62d9;0x6a7a267e5724a;0x22256528118];[0x0;0x698d9680643ef;0xd20f7d3584957;0x40cb1359b3c6b;0x4d4171cecf6ae;0x12c9e26b000f];[0x0;0x19e5471419142;0x5f0ee5dc78c07;0xf237c9775d343;0xfd190fa5e78d8;0x654fc5ee9a58];[0x0;0x9da1db1f46eae;0x63826ac090ac;0xa0b59d9858f58;0x9df70c537acc7;0xf3c78e37354];[0x0;0x5caee3a92407f;0xf13205490e4c9;0x1522507b477da;0xe643709c15761;0x2e0facf78d03];[0x0;0x6eea5add6376e;0x8958ea1e77277;0x584a46e976f33;0xc858a400f9f;0x21831537f884];[0x0;0x946fe6385ed8d;0xb3e8c074d3459;0x5c4b01da5f391;0x823212b09df46;0x5470990d30d9];[0x0;0xf1d4e439fda60;0x4046fc4a78139;0x280947c942c2c;0xab0fa7c1cdf55;0x486af80881cec];[0x0;0x4b8cbb68811db;0x9f8b207ef4508;0x212ebbb9075e7;0x80d4008d58b31;0x244dfb14e55d]];
 [[0xfc588994e05c9;0x73ca754d9beed;0x2526e7ae53a6a;0x5cb3e5ddbf3d0;0x589d1129fc7c];[0xc5ddc0bc12ca5;0xc4cbf133fb70f;0xc3845d50e66b4;0xc36d85b5d33b3;0x7527fdee3fab];[0x8c6f6fe85aab8;0x4fbb0c7b83599;0x1bf4c76b78068;0x6f09d1f205a4b;0xb1433ae17b3];[0x9860656b44754;0x760febc25c06d;0xaac17c0a42dc0;0x7ef6ab57485c4;0xfbd8082e4cb0];[0x1db37f57e846a;0x83411db5b7966;0xa844a0e847b74;0x49d88b47a32a3;0x7e6bbb17501e];[0x35892b6795228;0xeaadec72f459c;0xf86e0b3f86987;0x20e40ad3be7e8;0x2470044a695c];[0x0;0x79edc6ca24dcf;0xf38f092761542;0x6f6084dcc62d9;0x6a7a267e5724a;0x22256528118];[0x0;0xe3e6cb50d363a;0x5b1af7fab3392;0x84a2dd5133341;0x907f101600306;0x4f6c238e1496];[0x0;0x74c830568ca8;0x93b6bb3a1c584;0x70ddf3bd44d6c;0xc03adb028103e;0x61817ce61003];[0x0;0x4d59b9a87d3b3;0x22435eed01c39;0x529b303a1e0a5;0x1c2e8820466c0;0x116a4607832d];[0x0;0x264b6223c50f3;0x22899ca7e3fbd;0xffbcf8a68b8c;0x3c1ce246c3b72;0x34a5fcca7d30];[0x0;0x70425f4e899b8;0x1a98a5942dd73;0x88ab9feccda24;0xcb8f8b2472f9a;0x2040ce97a253];[0x0;0x1240c3da14654;0x518bbf6ecccb2;0x9d7e7ebe8e6d0;0x29b626255c9db;0x22e1175d39fb];[0x0;0x7596b6011cc15;0x8426d38eb8b94;0xf13134cc5037e;0xaf9c5b0024eed;0xdfe8a9e99af65];[0x0;0x65c8388f905a0;0x420a3b7d89f12;0xc61e55ce5d89a;0x5514746cc6a56;0x4079c467f4e7]];
 [[0xfc588994e05c9;0x73ca754d9beed;0x2526e7ae53a6a;0x5cb3e5ddbf3d0;0x589d1129fc7c];[0xbc61c5539457;0x2010b9f4f5f36;0xa5f222e27f0e4;0x4d244850b48a2;0xa9fc253c5f09];[0x6f0563bc650e0;0x8fc53bc2138ad;0x860b1264ffca2;0xba919bc897b70;0x36cfb866d164];[0xb18da9745ad3f;0x42c941b20e8d9;0x829ee5e5f7374;0x9ef7cfeff644b;0xe6541be50f79];[0xb959250bd9eff;0x521a2ec16b8eb;0x41a2d42aca7e5;0x14a1b06cc72ae;0x278902cf830];[0xd2a21ee173352;0x99bae08f75c48;0xffa1529ddc698;0x5dc84b0422e43;0xc303682459cd];[0x0;0x79edc6ca24dcf;0xf38f092761542;0x6f6084dcc62d9;0x6a7a267e5724a;0x22256528118];[0x0;0x80f525ef65c8f;0x4e52f5e9890a6;0xf344fb192d5e1;0x1ca1e3c7199d;0x46774c52a77f];[0x0;0x2102bac43a934;0xc402d848a12c4;0x3c153187f3e0b;0xcf4d90fc7ec06;0x38a4b1af03c5];[0x0;0xe3d6e76b9d493;0xeae25d542e73d;0xdf6dd0c5c7ba2;0x2dd363e910675;0x353d9361f411];[0x0;0xdd323e57e87db;0xc64820d98e274;0x348b060f4b2f5;0xe41b52675529b;0xa0f41f6b5d9b];[0x0;0xed9a225489c0e;0xb827261fa97f3;0x4a4b42a98bb55;0x51ecf5d6600c8;0x12bc90fb1a2f];[0x0;0x81edd9d93de17;0xb26a6e15bc71d;0x93454f6da10cb;0x5288cf4d236eb;0xa05b260b548c];[0x0;0x511b9df29334;0x8abb2880c53d6;0x86bf150405016;0x89c40d2e14a3b;0x57f2ed58f21d5];[0x0;0xa598db6410b3;0xdfa1fe8513da;0xc759d388ae07b;0x637a559fea3ab;0x5142b44af4cd]];
 [[0xfc588994e05c9;0x73ca754d9beed;0x2526e7ae53a6a;0x5cb3e5ddbf3d0;0x589d1129fc7c];[0xff4dace849115;0xf5887b9d93ce8;0x4cfec6a333eef;0x17348f532db8f;0xd1a8742b93f6];[0x80cad2b69632d;0x609c6974269b9;0x32af6d66b62b5;0x2da42f34a37bf;0x33870c757cc4];[0xb3c9b3fb375d3;0x3742f0e4e683c;0x7a1fc31e87c2d;0xc432327bd8740;0xbae17d403ca6];[0xb80c3a0725057;0xcb63ef974f606;0x46745b7ba0274;0x4897f3d54b296;0x99a6f6a5fc7f];[0xa754ee31de17f;0xc3d1326714f93;0x521e47f404711;0xe078611c6f69a;0x714244c0c37e];[0x0;0x79edc6ca24dcf;0xf38f092761542;0x6f6084dcc62d9;0x6a7a267e5724a;0x22256528118];[0x0;0x8bbe4a2951782;0x143e673f8f324;0xdd30f1729f53b;0x626b9097af05;0x77e54cc89fa];[0x0;0xb32c6e5736b8f;0x23f2812a6f47e;0xd2d6ac7d4ff86;0x4414f4ee528e3;0xb37b7bd1d16e];[0x0;0x98a1243b7cffb;0x1a4b330257d5e;0x6ec6cfd1a27f1;0xcca1060f1e8e6;0x152d2cf373d2];[0x0;0x36cbf7a00e09f;0xbf4b0e7fc5efe;0xe266a4e0677a5;0x8cf48a20b75ff;0x4004f9c38ec9];[0x0;0x6d56cdc2e06ad;0xa862f0d599c66;0xe688fdad23c89;0x5d48f5c25997b;0x3b5e97e89cd0];[0x0;0x1313fed30d24e;0xad48074f2b44b;0x8778f45e612b1;0xfa2ca8e4876ce;0xc87560f13f8d];[0x0;0x9607e6f606bc8;0xbd945d9bbd59f;0x10423812688d5;0x37043671fa77f;0x7cf267f5c4ea1];[0x0;0xaf9cc6d61608b;0xcc99fb3aad7a4;0xcfb75413bc87c;0x6ca3a47b02257;0x7620be396ed1]];
 [[0xfc588994e05c9;0x73ca754d9beed;0x2526e7ae53a6a;0x5cb3e5ddbf3d0;0x589d1129fc7c];[0xae7c4f35e4a9c;0x9d70676baf36b;0xef5c47eb751e8;0x10700a739a0a2;0x88fd36fd5923];[0xfae0a2f224398;0xcdf85399df8a9;0xe28b384bb10cc;0x9ba912e67d2a9;0x8aaf56dd0db8];[0x73d65839e207e;0xc17176b2d724a;0x500792520f59;0xfed1b279e6d4a;0x8bda4a18e3f9];[0xb53fef30a84df;0xcbba5809f9e4d;0xdad5528b20d9c;0x7b7ca0902fa31;0xe9e38433215b];[0x6eee1eba75764;0x70a9896cfae65;0x95e8c1b80ddc0;0x1a23ec1edf9bb;0x2fa05b4e6b53];[0x0;0x79edc6ca24dcf;0xf38f092761542;0x6f6084dcc62d9;0x6a7a267e5724a;0x22256528118];[0x0;0x928683caa8b2;0x12aa820394244;0x299713ce7c2c8;0xea7c98f6d1e76;0x1b2626a4503c];[0x0;0xbe2a72b52d17;0xaf5c1445398d3;0xaf5004fcbf811;0xad9f53200ee4c;0xb5e950b41727];[0x0;0xe27207e5310f5;0xf98129cd3ff5c;0x4cf2f95ec0480;0x52ea339cd6db2;0x1e5f7e95fc74];[0x0;0x4170ab179dab8;0xba4737516247e;0xab7b748150b31;0xe1a1f55836183;0x5bd269988679];[0x0;0x3f43c3c98722d;0x9d49a3143d000;0x1bf3104913f40;0xe0b88f79c000b;0x3c2c48b38589];[0x0;0xed8803e1f2e00;0xde55e50bc4a1f;0xf24581c3af3a4;0x27ab1554c479;0x1ab30940cff3];[0x0;0x8b3136bdcc492;0x6f272de8199d8;0xbde3d8170da89;0x652ebfcd498b5;0x924e685add734];[0x0;0xfc032089a5fda;0x39683d4293f92;0x440c83a5a4b09;0xc8affa99041fd;0x1bb5ccdc12de]];
 [[0xfc588994e05c9;0x73ca754d9beed;0x2526e7ae53a6a;0x5cb3e5ddbf3d0;0x589d1129fc7c];[0xa2fee8d84bf93;0x8a0244ef69705;0xa1ed13d231d04;0xd604691d03c37;0xef8851eafd3];[0x3423e2e9a0b80;0x2d557716ec8ab;0x28b38b9f633ab;0x914bb7c2bcd0;0xdf8258ae8852];[0xa8ba84d215efc;0xd023e0ec02063;0xf1f35b975ef79;0x1a4339d096f19;0xd9bf41c1396];[0x731fd1670fe37;0xdfb0e543f7b4;0x99b0834d35fde;0x941132c61b8c4;0xe585e40564f];[0xc9ae7cec5d404;0xa7bbfd15ea025;0xa9669dc15d0fa;0xb5fab7c8c2bc2;0xa636928e0d8];[0x0;0x79edc6ca24dcf;0xf38f092761542;0x6f6084dcc62d9;0x6a7a267e5724a;0x22256528118];[0x0;0x725a390aac2e1;0xd2fcbf364666b;0xa48d5e75b00f0;0xf869745172e1a;0x10192fe6d777];[0x0;0x1edcc25957ce6;0x614c03fd03a21;0x5368527d7ccdf;0xbed1efbb40b8;0x2514f58ad30f];[0x0;0x29e8142a9fc84;0x85989a13094b8;0xb42d50e56864a;0xbce5924aa8a7b;0x22f3ba42c18b];[0x0;0x87216200520f7;0x57d3aa1481b17;0x5327b8c481035;0x6a08ef65c9d90;0x69aa3ce68a64];[0x0;0x959e27f9e650e;0x93881de69cdd9;0xbe94e99398a17;0x55ff8b203f1d1;0xc441939a9c3];[0x0;0xebb734d993d94;0xb11d651b43fe7;0x4ad99e6eabd01;0x5022805821708;0xe262b42bfd2];[0x0;0xcbeac4306ee0f;0xf76f7c10cf509;0xb1534a2ff1c24;0xf00bc4cdbb1df;0xaf9d6d384838e];[0x0;0x4676c3d32a198;0xc949f69a99d0e;0xef19d7e4bbdb0;0x1271263d20901;0x9cc0895e9d4a]];
 [[0xfc588994e05c9;0x73ca754d9beed;0x2526e7ae53a6a;0x5cb3e5ddbf3d0;0x589d1129fc7c];[0x37bc7e678edc0;0x686424186ecaa;0xdfd324313eace;0x2d229189861ca;0x41478a3ad22];[0xd335b6986a61f;0x5a54036d48b52;0xe0ed0c3d46f80;0xca72eed4187d5;0x1859761937ad];[0x4f4e39ffaabfd;0xa20b0b6ec148e;0xcb6ce92344aeb;0x6d0d2914b6215;0x7ea645b7b124];[0xc552a7223eb82;0xe852c62f35e58;0x7b25acb65da65;0x2d42b048f9ae8;0x8cff63241bfe];[0xda8d1c7b6ded6;0x9f38b0bd4c680;0xeb88c297a767d;0x1e8ca7876994d;0xe106eac2e471];[0x0;0x79edc6ca24dcf;0xf38f092761542;0x6f6084dcc62d9;0x6a7a267e5724a;0x22256528118];[0x0;0xe3edc93c00962;0xcb72150d3225;0xb1af630b339c1;0x2821e1aacf676;0x1e017cfb7474];[0x0;0x71c7d6ccf2999;0x7b6dcb3790c04;0x942e3f7711aa4;0x21de454523482;0xb3d131dcb3c4];[0x0;0x38a6caad5ca2a;0x120991a8807e8;0xbad4aaa4a0cb6;0x7f6d544f47eda;0x28c601fe8c73];[0x0;0x7f5d51d6d5a05;0x4a7524265cd0a;0xcf58b870ddcbd;0xd762ecae15d47;0x7b43907c0ce1];[0x0;0xf2a7d43addb44;0xffaa529ee7fb9;0xbd128f0d89815;0xbffe5ac849711;0x3b7af1f01c8e];[0x0;0x3827b3a307c0b;0x1ad0f8e917b38;0x2aed2f5b985f5;0xf84cba651508d;0x2c4cb9142f];[0x0;0x77e95e2f39473;0x55de50e9525df;0x598e8aa5eed13;0x4b67d7600a5ea;0x2db34da0232d3];[0x0;0xc37b63bf08017;0xffdf85c4f2fbf;0xc5401bae79967;0xc6097fe5e4742;0x1d37545aa50]];
 [[0xfc588994e05c9;0x73ca754d9beed;0x2526e7ae53a6a;0x5cb3e5ddbf3d0;0x589d1129fc7c];[0x2fc560f73375c;0x7db0b1f1c8a5e;0x6d17087d91824;0xe94e60f991e6d;0xb494dec4a754];[0x52faec08c426e;0x551dcfd17b42e;0x4b65d1a44b019;0x7014cdad2b6fb;0x48462e90009e];[0xf2cf44468f61a;0x9ca43c71915f5;0xfff5cdae7a03d;0x1d447c1c0f385;0xfe5fdff82d5f];[0x89e67d935fbcf;0x81e46620a863e;0x1ce53e4bd8dcd;0xbaa3ae16ced3b;0x6ab63792d1f0];[0x909195b933088;0xc832cf7f7787f;0xcb57e04d85497;0x8ba3e590842b4;0x88eddc4765fb];[0x0;0x79edc6ca24dcf;0xf38f092761542;0x6f6084dcc62d9;0x6a7a267e5724a;0x22256528118];[0x0;0x32660ccee4e0c;0xe3bf39a23151e;0x28cb11fb7ad9a;0xc16259f1fc084;0x2360a13b9d40];[0x0;0xf4c43fe8066ab;0xcffe0bcd726a1;0x82adf1cccc6fc;0xd7574decbbe04;0x811d0460bf2];[0x0;0x1831560387e45;0xa21fa7d93175;0x5135432de9321;0x75a434063374e;0xa957c824e44];[0x0;0x1bc4e0a57c834;0xea84109f3c1f2;0x8d90e9cda3e79;0xf026b98cf13b6;0x1fff287527a6];[0x0;0x21e7fcc6af953;0x9b4ccea35005b;0xebc6245e02b88;0xa2953db412eac;0x2ab556847ce];[0x0;0x6e10b4cde6b60;0xfd45160dfb0ad;0xfca727057a3d1;0x7417d813915a5;0xb0dbc5992ac7];[0x0;0xffa8c6ed20dbe;0xf5ea7ff44f301;0x67b4856f754ad;0xc8b0e95256f63;0x214ba56529707];[0x0;0x7a2b556f8d3e3;0xfbea52ee38f87;0xefe9d4d3f04ae;0xe914300708f09;0x2004fc591b6c]];
 [[0xfc588994e05c9;0x73ca754d9beed;0x2526e7ae53a6a;0x5cb3e5ddbf3d0;0x589d1129fc7c];[0x5479842ca1de0;0x9bc7544343bb3;0xa312f948f3190;0x460df698f3c97;0x7f25ca7fa90f];[0x1e227f08ed5bd;0xd46c51242261e;0xc7bbc5ceeaca6;0x56059b3f7caf5;0x89835548b5b1];[0x9b3e650e075af;0xc797bfe41b6a7;0xdf89768778b31;0x39631a6791e3e;0x7d12853873a6];[0x5a90e59735b21;0xdf2ca94cf9c44;0x46843b584b5dc;0x2d2a7277dc10f;0xcf3053c8ba35];[0xd6c43e8c6ce97;0xfbe02d9d26b4a;0x92f8f29a0519e;0x29c05d961da6d;0xccd090c5a7e9];[0x0;0x79edc6ca24dcf;0xf38f092761542;0x6f6084dcc62d9;0x6a7a267e5724a;0x22256528118];[0x0;0xe990a958ee865;0x8545c67bbb0ae;0x9e674a51dc4a0;0xa78347d339591;0x1c412c24ea86];[0x0;0x8fedd7c9d5d1d;0xe5e06244bdcdc;0xe8e140a5a79a7;0xaaf2e607d17a5;0xba564faf79f5];[0x0;0x1bd2ea3405ef;0xd7a69a8d61d24;0xa007f3f4c6938;0xd8bc68a131606;0x8098c8596df];[0x0;0xc51aefeaa4821;0x809d5321b2868;0xd1f50dffa3e9;0x29dfe5149a640;0x184c426f47b5];[0x0;0xa8a95c74121d7;0xb4ea3f2cd38c4;0x35e36bf878ae8;0x6ed8d5dd9d1ec;0x3da30efa16e2];[0x0;0xeb9da7842a5c9;0x408be65e79e48;0xec0199d6645fe;0x3a5c7f40cf713;0xc712e30d3aa];[0x0;0x52f3bad8f7da9;0xb1c979dc67605;0x95e7455cf8586;0x9ed02c43adf70;0x179a8414c91f9];[0x0;0x952bb362cb3e4;0x94afcf7b76d12;0xe3f488db9af33;0x7edf98974cc5b;0x23d42b2c471]];
 [[0xfc588994e05c9;0x73ca754d9beed;0x2526e7ae53a6a;0x5cb3e5ddbf3d0;0x589d1129fc7c];[0x575019c94348f;0x6673872ce7db3;0xb334f48bb5842;0x958afa1a30908;0x4fe6a2d677ec];[0xfe7002dc20cf7;0x54d7783e11f5b;0xe73b6be7ea121;0x14fb2d559eed2;0x2490d6b46c77];[0x44bbd2468ef36;0x873e7e176061a;0x35b6a30c2c8f3;0x4093b89c2a789;0x10a303dadb63];[0x9a8387093dca8;0xd0c19a09d16e8;0x1df175d5885d5;0x640ee67366331;0xce6c89cb840b];[0x58fe2cd943aec;0x761fbf05e4520;0x98eed1074bc66;0x183d1388779e;0xf5dcea2af4f7];[0x0;0x79edc6ca24dcf;0xf38f092761542;0x6f6084dcc62d9;0x6a7a267e5724a;0x22256528118];[0x0;0x55560b76121b;0x4d71f18fbae07;0xdd4c63f057f7a;0x2e4e307820031;0x4945836583ae];[0x0;0xbf1ad35949ab6;0x3b12114f81b;0x9ae708378eb5d;0x56978c597c87b;0x129e345ab9bf];[0x0;0x259f19fdefd1e;0x80b9861fbfb74;0xe1bf6f0d601a;0x1080fa5489d53;0x5a02c6435b1];[0x0;0x6937ef42a63d0;0x5ef433beb1c1f;0x8d86ffa887f41;0x511cc3e90f87d;0x1101d8b9e6d6];[0x0;0xb5030c5bd3f9d;0xb0d91d89d69b9;0x8c9e2cf5895c1;0xb67133d4af7ab;0x62892ec4f5a];[0x0;0x8583ef3bfedd5;0xe67e834d9b15a;0x3fa0614e8d1e5;0x5f9dcda9298e1;0x35d4c68f9841];[0x0;0x2d42843e79179;0x5dbe7f21650ef;0x56ebb321e95fe;0xad464d679b552;0xee3d985bfedd8];[0x0;0x5d216fbd2d951;0xa172335bd89cb;0x4454e9bc2686;0xaf528896daaed;0x99e4608fc677]];
 [[0xfc588994e05c9;0x73ca754d9beed;0x2526e7ae53a6a;0x5cb3e5ddbf3d0;0x589d1129fc7c];[0x6d2a31631e6d6;0x7fc0fda2bce7b;0xe467363aeb28a;0xc9a72efc7f982;0x15b0fd7180db];[0x2bfe913cfb41d;0xa7b7ed38d2f68;0xd7f0e76a3fa43;0xa22305496f7b1;0xf5fef3190ac2];[0x7963cb12d10ca;0x93dc6279cb3a4;0x814ec6f7f6a94;0xdb5a8419a37c1;0x45faa679262a];[0x615d4a58992ff;0x4fadb2254398a;0xe23e758e6e196;0x98d818ead2a9f;0x636fddffa34];[0xd373fd4c25b6;0xda2656d863668;0xed90d1ea979a0;0xae150ec059ca1;0x80cf80eec6aa];[0x0;0x79edc6ca24dcf;0xf38f092761542;0x6f6084dcc62d9;0x6a7a267e5724a;0x22256528118];[0x0;0xed3fe8896fcb3;0xf3a922cfa5b8a;0xabcd9146d5f42;0xea6d45be4427e;0x1db028db1099];[0x0;0xb3c90f4cfa94e;0xe5a8e8f54feae;0xdac058e56aedd;0x90db6de8bf9f0;0x802eb919a18b];[0x0;0x7d57531adb050;0x85c596b705816;0x2bc6768776eb5;0x1c5d78253058e;0x38277ff6b1bb];[0x0;0x4a5ec8fb8b101;0x99905c172cb8d;0xab9d96276159d;0x1280cd69c39fb;0xa9c327ffae32];[0x0;0x22d8f49ca4325;0x5d745d194e62f;0x4db0fe6245080;0x7c199c9d98efb;0x2a6683bda44f];[0x0;0x6021c5b5f3b3d;0xf52b56c6a93c9;0x5ea713487d1ae;0xa76dd5ce89d69;0xe28b31cc19b];[0x0;0x4d404a91128bc;0x40d9a3b5f2740;0xa9c4a01d41b1f;0x7191d5d78555c;0x95701b082fd4b];[0x0;0xe79137c7bc62a;0x323c57822c49c;0xe0156752e982a;0x49cedea61cb9;0x5c4462cbb4b7]];
 [[0xfc588994e05c9;0x73ca754d9beed;0x2526e7ae53a6a;0x5cb3e5ddbf3d0;0x589d1129fc7c];[0x1440423df45db;0xcc21a043895a4;0x43987989e1b7;0x890db55a42335;0x183bc1e65aa2];[0x1a34553388d60;0x80858436fa023;0x6caac3b980b1a;0x6a26d04e031be;0xa07dc89ff1ea];[0x9159d7545af9f;0xd76c41ac07ed6;0xaadf2ace0dd3a;0xf2823ab16d34b;0x21f0d2d64b39];[0x832a9c0bfd358;0xab05bd763bc35;0xbabb4bc5ac940;0xee040184d9858;0x86ef72205364];[0x7237796e236c7;0x5dd2667705d7c;0x33619e8533bb0;0x447c2d9802ba2;0xaba8e452df2e];[0x0;0x79edc6ca24dcf;0xf38f092761542;0x6f6084dcc62d9;0x6a7a267e5724a;0x22256528118];[0x0;0x7f7679aa95e1d;0x725db8f60f8be;0x62a45cc7832e;0x90c5c24a39e4b;0x259a8ddbda5b];[0x0;0xc98caffeaa5a6;0xe9d2f1dcca8a7;0xdf08c6e3f9d5f;0xbd8b00ee41201;0x7c3108ad02cc];[0x0;0x7258a7bcc0cc5;0xe058ad52d3a9;0x330130434e857;0xdce522229c036;0x22bfe9344f95];[0x0;0x5a082153c9eca;0xa2ad91960cb26;0x1ad8af1d82a3d;0xcca2afa5f0232;0x690d96c5563f];[0x0;0x77eaafe901679;0x9600a35be8da6;0xf27e56e2c1b4f;0x1db2c29fa84af;0x29148ef28ddb];[0x0;0xdae1239adc883;0x1a1952ba3f7aa;0xde29cc3b99e37;0xf495d8b7cedf5;0xf3a7e2a6f0e];[0x0;0x2610cc98077b0;0x8beaf3e2b2a4a;0xb44b793297592;0xafe5728936e06;0x434e01bcf7be9];[0x0;0xc6670b54a2ad2;0xa068aac59d0fb;0xa3b8ccb8d0949;0x8df2c5b08bfa4;0x2807a1abaa13]];
 [[0xfc588994e05c9;0x73ca754d9beed;0x2526e7ae53a6a;0x5cb3e5ddbf3d0;0x589d1129fc7c];[0x634cea771eafc;0xcca157c576efa;0x9cabdffaccb49;0x8b250c57d2f08;0x3425df122be];[0xfab3981c396c2;0xd2f2384135f98;0x5b14a6e8d93f7;0xe3a2370b669d4;0x49c26dc5ddcd];[0xb072a2a35094b;0x673276e2afa48;0x7903e1e936ed1;0x7dab3208b4f94;0x4169ac9e95dc];[0x70339b4c26543;0x3a408f6474582;0xa4fc6f56b9f29;0xb8206c5abcf17;0x617432b77f4f];[0x892a9732afdda;0xee1ad5cfffae1;0x506eddaba482d;0xcfc06898a1eaa;0x259213881458];[0x0;0x79edc6ca24dcf;0xf38f092761542;0x6f6084dcc62d9;0x6a7a267e5724a;0x22256528118];[0x0;0xd202e02b17102;0x8919c51f80f52;0x363533b82aff9;0x4768bb45406d4;0x1a4e74fcff7];[0x0;0x18bbdcd55af95;0x1a96d0ae71d8e;0x4459f66c2740f;0x971d05ea7a079;0x778f9079639a];[0x0;0xc16c56acf20ab;0xf4cea2857dbd8;0xa8eccdb47a086;0x7580da84e508e;0xfa8f205673d];[0x0;0xb8bd718191573;0x61180619789b3;0xd4455196a654f;0xfff9d8d60f9cb;0x2f579af51179];[0x0;0x7c9512633f6af;0x6a0150b0ce27a;0x433a378fef4d5;0x734fffa861548;0x278c6d34e68b];[0x0;0xa9e31a710c036;0x721233f466e5;0x1b583c6ed894e;0xd37e34a8c0786;0x31dbc02aaa1];[0x0;0x12846f8676208;0x8209669d9e80e;0xb78a0ea0c282f;0x41bb5d918b6a7;0x827fae732a892];[0x0;0x3ccda0721e63f;0x96829b32b84e6;0x3164885dec18b;0x30cf3ac74ad31;0x7584953cd8ef]];
 [[0xfc588994e05c9;0x73ca754d9beed;0x2526e7ae53a6a;0x5cb3e5ddbf3d0;0x589d1129fc7c];[0x96f3ab6b3dc8e;0x1d4968b1623ed;0xa4c1f16134480;0xc55ea5958c46a;0x94f604bff8b2];[0x8197e78df0505;0xb651c323282b7;0x3d4c766bc398a;0xabb4e0c6eeccf;0x78250a07a811];[0x63496d62de715;0x7f7f827a42a46;0xf5ee2795671e;0x35316ce63ff;0x4afbbc04313f];[0xa8154e824a02;0x9df92ddad6df0;0x872690d68c749;0x9bcd7f5acf99e;0x383f3c53a59];[0xeffd17cb00597;0x70730c86e7dfa;0x6ddf2730a30f5;0xe43041f47c9a7;0xb45e30aa0a95];[0x0;0x79edc6ca24dcf;0xf38f092761542;0x6f6084dcc62d9;0x6a7a267e5724a;0x22256528118];[0x0;0x3b9e148905e3d;0xccc922c98e03a;0x229cc958bc06a;0x77e28f21a77f5;0x4e276c4c431a];[0x0;0x2ce5584486acc;0x14b90c3be0e0;0xfb019dc2ebd18;0x6724be49e88da;0xb5e80d3ea209];[0x0;0x77c9d40a52117;0x2df88cc75969;0x8a615dc5b37;0xa67b82288be3b;0x1e378d707c71];[0x0;0x82fc02bfba678;0x565591ed2be9a;0xde1a32a7b9edb;0xb19eb80e37ba9;0x5b59a98a823c];[0x0;0xb7e8a103ed698;0xf79e2e8e9d8c9;0x6f8dd8bd3117;0x5a570c42f0fa3;0x3c2bddb4facc];[0x0;0xf314eeaf05b40;0x7cbe731e1a5ee;0x7518a0f0f6e96;0xb1349dec7d053;0x2c2eafa0d1ef];[0x0;0xaa091e6a41188;0x67b99d45f02b2;0x62a3b09d9418d;0xd53467a3e96b7;0xf602e49b25bd7];[0x0;0x482d18c548a15;0x94d36b099dd59;0xfb8fbd3e57d72;0xf682d5150bea5;0x471c0bcb616f]]]
 (V [0x26b8d1095ae39;0xdd2f3592b0097;0x55b8a85581630;0x3f29822ecddbd;0xef70c0f009f] [0x96426539d1310;0xd57607689b9ed;0x39408dedc2f8a;0xd7b2c43647e4c;0xb1826110cfd0] [0x28db8fe627555;0x1ebec754d934f;0xcfa8c48daa220;0xe759ae51d5b0a;0xdcecfe7382d8]) [[0xaaee6a02389e3;0xb3abdc6b363ce;0xd563cc1b0f805;0x25cee6dec3131;0xb68611857340];[0x5e4fddc11bccc;0xdd09152e4fc9e;0x2c74bdcf23e4;0x390dbbb751f94;0xfcbbff838e13];[0xa51a15342d58d;0xbe5a81eae66e2;0xf07b61cfef414;0xaa98dc292959f;0xb9e8dfb1ce97];[0xf0dc3deb76614;0x2c7f744d80cf3;0x96e32ca52e454;0x645e01d61b4c2;0x6f8c0966e6ac];[0x44f15439d1d51;0xffd3a7e14dc5b;0x2e66278e55be0;0xf3b6e6ab0837f;0x9a4cd529d17d];[0x6c6f47e2645f9;0x71db087245cdd;0xa2b92894f7545;0xa22ff121e9000;0x6a2ed5addb4a];[0x0;0x982dba67e27e2;0x2574db1b7dad3;0xdf6c546cb7600;0x34bd9eb55f2e1;0x5af46b63ccc];[0x0;0x72d5577cd6f5b;0x4fae76edb7a38;0x9765b97e199ef;0x8b0fd646dbb03;0x77048ceec3cd];[0x0;0x9cdc6bf27905b;0xd265717e70e96;0x719b8cb64ff49;0x3c34a98d17b6f;0x162bc3fcab3f];[0x0;0x479966302415f;0xb17f3dc2ef99;0x1a23cb2cdf721;0x2a12e615bc5b8;0x54b9bc4a5d31];[0x0;0x78cae098d089a;0x78f16c84c23e8;0x39e6dc5cbc1ea;0x99844a95e1f5;0x4600e521bd8d];[0x0;0x1e5b752542da3;0xbc1b0b4a7270f;0xb6ff955811151;0x49d173165d142;0x1ad567395e0e];[0x0;0x4c2ff4721c49c;0x67cff059b765a;0x716f50f622734;0x7c27f78957b38;0xec62d44594e];[0x0;0xbb919adfa1fc7;0xa98250dd99bd1;0x63ba7cd62980a;0xe04e0b3c47a1d;0xb1a69bf284219];[0x0;0xba060a559adfd;0xc952637997c2d;0x148fc885ecc1f;0xd3cc0309b7fb6;0xa606e771634]]
 [((V [0x4c4244d31df13;0x58bc52a39ef95;0xcde6e410cfe70;0x7b3f42892956f;0xca35986c858c] [0x7cfcca7124520;0xe4a0d4cf489bd;0xae4991665d938;0xd09618f93681c;0x8c175d02ba16] [0x68e9ee7ffc033;0xa84bc01499483;0xf08498b0da227;0x7c0750197d416;0xf4a15c7b77e6]),[[0x92e2b69488876;0x14ea3d7838e7;0xb34e1b681a830;0xa1722636e1633;0x3ad3371b98c4];[0xc035e755cc0df;0x1103289805b4b;0xba096a3344bb8;0x5d90bcecf8914;0x644a8adcc4b2];[0x28db8fe627555;0x1ebec754d934f;0xcfa8c48daa220;0xe759ae51d5b0a;0xdcecfe7382d8];[0x28db8fe627555;0x1ebec754d934f;0xcfa8c48daa220;0xe759ae51d5b0a;0xdcecfe7382d8];[0xe0d648bf26556;0x636786cc0f3cb;0x5a8ba1701ecd3;0x69965ecd781c4;0x7c8c28bb8591];[0xdf5f9e96a5921;0xad9ba1cbf677f;0x5f7dc8c325ee4;0xf3fa5e1f80750;0xe7be62213f20];[0x0;0x1ed65e2992847;0x41f1dbfdfb5cb;0x9c6fa017d8043;0x1941f06b8a96b;0x532b381fe40];[0x0;0xd226f1e83e09;0xb14f87ed13b88;0xdc6498642999d;0xc575ba95933e;0x32c3f88aa05a];[0x0;0xba060a559adfd;0xc952637997c2d;0x148fc885ecc1f;0xd3cc0309b7fb6;0xa606e771634];[0x0;0xba060a559adfd;0xc952637997c2d;0x148fc885ecc1f;0xd3cc0309b7fb6;0xa606e771634];[0x0;0xc4e47534ecae6;0x1de25478c8bc2;0x59a124d36b3f8;0x98f72b262cc75;0x7b158c9ff93f];[0x0;0x7cec49f8a5ef0;0xd23f884d77425;0x379a0812e3fe0;0x7246cec02f67;0xdff3b9e996];[0x0;0xd0f2e7159347a;0x9c17a284cdf77;0xaac473446900d;0xe3dfb2e4f14f3;0x4f37d0b7b920];[0x0;0xe3b57a7a46cbc;0x8f4de8f2e373c;0x8de08dd5db45d;0x40940fabe2456;0x916ab421b002e];[0x0;0x406b55c6a57db;0x630f393ff7469;0x5eae4bf49a28b;0x667ecc45d5c8d;0x6ea7c3a3aa90]]);
 ((V [0x1fdfb33090583;0xf1bb8239e38e;0x808ff5cbe70ca;0x9d8420999c666;0x7350e4afae8a] [0x3ba9765aee305;0x2087ebe4fcdcf;0x7c929164f74c4;0xed2c60f08f7ce;0xbfff0e93a3c5] [0x2a2f4aa4c66c;0xe931e2b493e26;0x32d11fa118355;0xc3bec69ddf64e;0xbbf31b9ef7d1]),[[0x3b90e4c5b4c12;0x4d72ac6d738fc;0x68ea500f177ea;0x14f1423aa49fa;0x86e6c468182b];[0x2e848b9cb6348;0x18c956d557c8b;0xd4fb4ab43d954;0x7a789cf15fc46;0xa76b78bd016d];[0x68e9ee7ffc033;0xa84bc01499483;0xf08498b0da227;0x7c0750197d416;0xf4a15c7b77e6];[0x68e9ee7ffc033;0xa84bc01499483;0xf08498b0da227;0x7c0750197d416;0xf4a15c7b77e6];[0x8c62bc020c5aa;0xfe8bf8b546ff9;0x5c2e2bde8cae8;0x4cf4870ec6315;0xaac31146d03a];[0xa221cf9aa9b36;0x1a3d5e2010c91;0x78cd1ed5b0e6b;0x2d8415e299931;0xfca867763133];[0x0;0xe98767ac55069;0x9469ffee71054;0xf1cab2e233ffa;0x448f5ed28a5b4;0x5c17b145a5c];[0x0;0x5dbe1145763e2;0x601ea6d8102ad;0x514518a416c65;0xc3bdb17d636af;0x80e8fb10bb24];[0x0;0x406b55c6a57db;0x630f393ff7469;0x5eae4bf49a28b;0x667ecc45d5c8d;0x6ea7c3a3aa90];[0x0;0x406b55c6a57db;0x630f393ff7469;0x5eae4bf49a28b;0x667ecc45d5c8d;0x6ea7c3a3aa90];[0x0;0x141fa0f05cb1a;0xfb365c2df0afe;0x6c652957c6a11;0x5f79a9768a05d;0x4ca98fdcd3d1];[0x0;0xcf0577d0cddc5;0x6c2c463df14e1;0xd8f0c510675d5;0xb42a3c063922;0x9fb89fc3ba72];[0x0;0x38e6f26e3f553;0x7ffae415f41b8;0xc9a84ad02a4c8;0x31b6cdbedbdf8;0x4b6a2e613eda];[0x0;0x81a569312cb83;0x19baab8087fde;0x28c7caa2a6494;0x1c39e02d07aab;0xc425ffb232964];[0x0;0x8e060720b6d55;0xaafc1b9c1e985;0x4f529a670ddc4;0xddb701c0f953b;0x567c3ec3cbf2]]);
 ((V [0x78f55685461b3;0xa1bcc09b7dd29;0x71136aefcd045;0x8906c0c8db14;0x21be9dab38c9] [0x5421f4f7f49bf;0xfcd511a40c3e2;0xe7277aa8b06e;0x523f26576251b;0x66b1ad7f0531] [0xb119649985437;0x8c950148dbeac;0xbceff4bd5c904;0x3ec27e2931acf;0x4588bf6f094b]),[[0xd961c5e1f0f16;0x48f64ffb559ce;0x2ad782598ef93;0x1f9a1f495da02;0xf503aa6f09c9];[0xe5a687471207f;0x29b4ff915e3c;0x5cbbcd65feda4;0xd093565645956;0xf0dcf8a354b7];[0x2a2f4aa4c66c;0xe931e2b493e26;0x32d11fa118355;0xc3bec69ddf64e;0xbbf31b9ef7d1];[0x2a2f4aa4c66c;0xe931e2b493e26;0x32d11fa118355;0xc3bec69ddf64e;0xbbf31b9ef7d1];[0x3bd1b204b7110;0x7b56d5417d277;0x4ca2de41346bc;0xe099a825f404f;0xf01a1b10d6b0];[0xa9d4d5425af70;0x87447ab798bc5;0x1018ef24ca6e7;0xeff9ae3051907;0xc2dd927e06];[0x0;0x335c75cf28b62;0xd53c11a55931f;0x5e95b008d56c9;0x6f9a5e5c2d959;0x46c1387c950];[0x0;0x1ba794c38409f;0xe285d2d4356b8;0x3d5bb06dbc3c8;0x67567d5818e20;0xb3e25a696bf8];[0x0;0x8e060720b6d55;0xaafc1b9c1e985;0x4f529a670ddc4;0xddb701c0f953b;0x567c3ec3cbf2];[0x0;0x8e060720b6d55;0xaafc1b9c1e985;0x4f529a670ddc4;0xddb701c0f953b;0x567c3ec3cbf2];[0x0;0x7acaf57757e5f;0x481a623e000fe;0x6251d001d00f3;0x1745db14f5f94;0x8ffe95de5956];[0x0;0x3e4bb801a104f;0x5ec3cd3cf9e27;0x1c2a2c51074bd;0x79e28f5d069c;0x33f1c70590e7];[0x0;0x85dcd8ad81d98;0x99c4583e4cf54;0xfc65f971eca13;0x4e4fd9ad9a66e;0x1fbfd46634a8];[0x0;0x441d4f11fcdf0;0x11e30502f5fcb;0x21e2c5548119e;0x342f686117844;0x6712d4e59850f];[0x0;0x5cf0a22b8361a;0x32ccc456b83b0;0x71791714a65b;0x832164c5ceea4;0xd895e7bcace]]);
 ((V [0x29e1d0da017cd;0x851015a79d943;0x92ff8d67f8bcd;0xf7606519f6a20;0xb2b3e8134351] [0xb1ca6e2ada878;0x7d1b2d529e6a4;0x33b6d2bbbbf76;0x31b11d6e836d;0xe652ed13ac98] [0x3be15c401d473;0xc139fc4c59813;0xfedda05a9e7b6;0x6aaee99a4bac;0x823278814b20]),[[0x3a6afebccc516;0x998e02684fde9;0xf6ea4494a6293;0x8e92bfb14a4d1;0x4ea89acdc345];[0xc4713bfc9f84f;0xbfe7a5279ce00;0xd05ffd454bc3b;0x3c29ada6072ca;0xc0d85aa00d10];[0xb119649985437;0x8c950148dbeac;0xbceff4bd5c904;0x3ec27e2931acf;0x4588bf6f094b];[0xb119649985437;0x8c950148dbeac;0xbceff4bd5c904;0x3ec27e2931acf;0x4588bf6f094b];[0x15a923269c1a6;0x1033f50907047;0xc8f8cbca2e7db;0x475bc554f1c45;0xc377ce9d3ff9];[0xaec818d603441;0xafb3b01e95db9;0x767317b1d460;0xf4cde85115685;0xfd608c02cd16];[0x0;0x37c457e3a71c1;0xe69dd6e717ad1;0xf08f49634f4ba;0x6e96145001852;0x1a2d32ba8a8];[0x0;0xa2230a48e574d;0xf3076f460510;0x51211f806c49e;0x2c690a555eeee;0x155d761d9c67];[0x0;0x5cf0a22b8361a;0x32ccc456b83b0;0x71791714a65b;0x832164c5ceea4;0xd895e7bcace];[0x0;0x5cf0a22b8361a;0x32ccc456b83b0;0x71791714a65b;0x832164c5ceea4;0xd895e7bcace];[0x0;0xc5f191afe9d5d;0xb210e1849beae;0x19d64aefaaa58;0x67c8de1492604;0x29321192975d];[0x0;0xb32c9005ab558;0xf8e191c28e45c;0x8612b94eb0cdb;0x94c96fe6c63f6;0x472b2948fe7];[0x0;0xfac86f07a75ae;0x56497b619277c;0x5d6ea4ab184a8;0x906ca766cdb7e;0x869df51d3be4];[0x0;0xf501ec8f78994;0xdcf23a37a2ea8;0x2d6ced86d9554;0xa9e232e13a42f;0xe9e00e4fe851e];[0x0;0xe3709ade5023;0x7a99c56833caf;0xa68f1e7f40634;0x402c76a0053f6;0xa0c7859fee56]]);
 ((V [0x577e9e26554b5;0x30d2f8bef63ce;0x6c081087b79df;0xebd5b3a61c559;0xb7251d503c27] [0x8a5713bc9edde;0xf9ef2d5ec0153;0x2343050c6d2c4;0x90baf970f9497;0xbedc362aa09d] [0x21e60a03ec8b8;0x5b3ff5c92f575;0x5125b611f27a9;0xfb82a2c86a6ab;0x945b974c401a]),[[0x44868037633c8;0x32e68183800f7;0x4680ee6579f41;0x79b76fed4aa49;0xdaee7d588d26];[0xe922928f4ebe3;0x20780de33080e;0x6b937211d5afc;0xd5d36088fa3db;0x7030fdc908e6];[0x3be15c401d473;0xc139fc4c59813;0xfedda05a9e7b6;0x6aaee99a4bac;0x823278814b20];[0x3be15c401d473;0xc139fc4c59813;0xfedda05a9e7b6;0x6aaee99a4bac;0x823278814b20];[0xcf55e58e3f37d;0xaee8bf0786dc1;0xe1da8d30180c5;0x744c69ba959da;0xe9bcc2cbb129];[0x19ccad010f5fe;0x718f4edba9a4d;0x89b8e4e1bda36;0x6186f6ce64a00;0x86743afd57bd];[0x0;0x761bf29a3caef;0xe547f87df661d;0xc7f60a4e3ede5;0xc679d2ab171ad;0x31037495694];[0x0;0x22f984bad1953;0xe69197ac90adf;0x8bd67ddf0b69e;0x95877e406ad2;0x6f584549d027];[0x0;0xe3709ade5023;0x7a99c56833caf;0xa68f1e7f40634;0x402c76a0053f6;0xa0c7859fee56];[0x0;0xe3709ade5023;0x7a99c56833caf;0xa68f1e7f40634;0x402c76a0053f6;0xa0c7859fee56];[0x0;0x7662165616fb5;0xb7c674d30a45b;0x6b1b201234cb2;0x260b2a12ca6be;0xcf391cdc1649];[0x0;0x95b7f4cdae88d;0x6deede2f41fd5;0xb3694bf8e2491;0xc199da2ee913;0x7cbead2926f1];[0x0;0xfa065563e70e2;0xe63bd884f7b0b;0x38a42148febf8;0x5b585816d9076;0x5043495819d7];[0x0;0x834c6c77c4ff0;0x180cc04a0ca00;0x81e8f3b1b660b;0xec64fcb4e5960;0xc58fabaa25921];[0x0;0xcf2e858123072;0xef5f89475f9d6;0x1151757ce7dfc;0xfad154fda2d74;0x888b166710c6]]);
 ((V [0xaec2b4de99749;0xb590acf1249;0x5a28b2c97d8e8;0xea776687b8305;0x6b292e11461c] [0x883edf703f0a5;0xc3e297e53eaf3;0xac8bea88f0d3a;0x296775cf28dd8;0x20e596727ae2] [0xe4f3012757ff1;0xf5c35d54dfc5e;0x9734d570324bb;0x506b9f69361c4;0xa032a43faf97]),[[0xf5d6798706786;0xc2f1aa93c345e;0xaacae073ee929;0xabb0a8999edfd;0x7e2fccab0568];[0x4f33b4486cee4;0x5226e3e06010f;0x8ad41db131386;0xff393b2fb3794;0x8084e75e568b];[0x21e60a03ec8b8;0x5b3ff5c92f575;0x5125b611f27a9;0xfb82a2c86a6ab;0x945b974c401a];[0x21e60a03ec8b8;0x5b3ff5c92f575;0x5125b611f27a9;0xfb82a2c86a6ab;0x945b974c401a];[0x2ed8fc656eeb8;0xb3577544b2bf0;0x11a845b19ae94;0x782b150ecc1e;0xea9839cd4eec];[0x205ab7e2fddc4;0x9ecf6e9bad51f;0x792bd7ff964f1;0xf7b689dec6b76;0x95ecad91079f];[0x0;0x5211706bfba6e;0x8d23b16282443;0xd3f79b0682ac6;0xd8a309542c2d2;0x37d9a503eff];[0x0;0xa44898b6fc774;0xf071f6099c3aa;0xab78e5ad640df;0x526c4e84485e0;0x4920c7e4676e];[0x0;0xcf2e858123072;0xef5f89475f9d6;0x1151757ce7dfc;0xfad154fda2d74;0x888b166710c6];[0x0;0xcf2e858123072;0xef5f89475f9d6;0x1151757ce7dfc;0xfad154fda2d74;0x888b166710c6];[0x0;0xf5d61c6c42214;0x708dd65438ea0;0xcf4970e85f9ab;0xf481dd2820af8;0x8e4b9dd46b23];[0x0;0xfe2094862813;0x57211fc17c55d;0x91689e16bc8ab;0xbd7c6521f7905;0x8306154a328d];[0x0;0x17bb3ac9b6bab;0x914b988c73bf9;0x677929682594c;0x8c6c39c843e41;0x35cc391e09e1];[0x0;0x1ec363e4ccbaf;0x67379fb8d3d69;0x64e28a3f899;0xa5a35b138eae3;0x21ebb1e440e5e];[0x0;0x610064ae5a44;0xa402b0485eb8f;0x89c85c5b2c6ea;0x4396a1ce91940;0xdc540926afc]]);
 ((V [0x441bc01c92bd5;0x2314bc8ea74f4;0xde953aa117042;0x21b588f50c02c;0xfa913f97774] [0x4224d608c983b;0xf8bfa554f2fd0;0xfbde1cad93f5d;0xa336f4758c994;0xe6f7ba061417] [0x804cdb50fb5d4;0x9976df90901cd;0xa0efbad96974d;0x840d4a615bd5b;0x667f91f4f7af]),[[0x68434be461b59;0x4168ae5d88ff1;0x53d33c8292fc2;0x29c830f1e71fe;0xbbeb15211d76];[0xc169ea7e123c1;0xe04ab72f8d0f8;0xbd1c13c116edd;0x88a8b3966c406;0x2a93e75acaf8];[0xe4f3012757ff1;0xf5c35d54dfc5e;0x9734d570324bb;0x506b9f69361c4;0xa032a43faf97];[0xe4f3012757ff1;0xf5c35d54dfc5e;0x9734d570324bb;0x506b9f69361c4;0xa032a43faf97];[0xb598412c84d29;0xb27f0dc2bb1b7;0xa437b9ae0e32c;0xbef43a7024331;0xdea40629c216];[0xbd1a9518d430;0x2dcba96cd1f41;0x18e45a1308bb1;0xc9b47926480d5;0x4befe13108e1];[0x0;0xbb2a599e524de;0x77c33603e10c5;0x2b4af0e0a36e6;0x5a9978f40bcaf;0x3c4eb3a5a7d];[0x0;0xa042410981f38;0x39be7d34b8ac5;0x90d0953280065;0xcb5acb15d9e46;0x759819b02c29];[0x0;0x610064ae5a44;0xa402b0485eb8f;0x89c85c5b2c6ea;0x4396a1ce91940;0xdc540926afc];[0x0;0x610064ae5a44;0xa402b0485eb8f;0x89c85c5b2c6ea;0x4396a1ce91940;0xdc540926afc];[0x0;0x275f6b2797250;0xffe5f7c3e579f;0xd184105c4fbcd;0xbe2aa57b044de;0x43a33831ff2];[0x0;0x3514f6d17fc87;0xcaea444632202;0x8384924f6301f;0xd79fb1422ba33;0x2cdb73223a6e];[0x0;0x8411dc991beb8;0x3ce1af6948acf;0x36accd60b28b1;0x639f436fec040;0x29ac98484ba];[0x0;0x4daa5406e172b;0x28cf81c25fd70;0xba63f7ba50586;0xd5f749645b784;0xf300944e711b5];[0x0;0x44782a7360435;0xaf60d3e467e0a;0x4dd34d8295513;0xf7b5197f30a57;0xe210f759eb8]]);
 ((V [0x5d3cca17f8a48;0x123b31f3adc7d;0x43c533d4f5e7e;0x7d37d443f46b7;0x63ae5f98eff1] [0x4b92304305ecb;0x53bf331ada1d8;0xcb15248a08f5d;0xd44319c69e917;0x9eaf99bdc058] [0x4f585b1d9b537;0xf442e5c7a4138;0xac07073d2c04d;0xe278593bf6408;0xeb26472cc571]),[[0xbe2ec5771351a;0x99edc1e97fee6;0x4ce9e74c74e45;0xd8bb19b547932;0x5b883af2d304];[0x514a5367111ff;0x858a939f0308f;0x99d5ad2ea55a1;0x7527c2072d9e1;0xf332dc023b22];[0x804cdb50fb5d4;0x9976df90901cd;0xa0efbad96974d;0x840d4a615bd5b;0x667f91f4f7af];[0x804cdb50fb5d4;0x9976df90901cd;0xa0efbad96974d;0x840d4a615bd5b;0x667f91f4f7af];[0x71a5d888cf47a;0x524f600d5139c;0x8e118cf57ffa1;0xa1b47fd18013f;0x14820db29e06];[0xdfa47ade41d86;0x333b3391b1cf2;0xbc4203925600;0xd3734235ad8a2;0xdeb0ce4f9d1b];[0x0;0x5fd0514f28c8e;0xe85e57efac55b;0xc2f90973635b9;0xb44358520ee8d;0x26960b1c084];[0x0;0xf33d974b315df;0xe415519f1d1bf;0x4852a44b6f021;0x88f084f0d8659;0x24a5e441be55];[0x0;0x44782a7360435;0xaf60d3e467e0a;0x4dd34d8295513;0xf7b5197f30a57;0xe210f759eb8];[0x0;0x44782a7360435;0xaf60d3e467e0a;0x4dd34d8295513;0xf7b5197f30a57;0xe210f759eb8];[0x0;0x34bf925ef31b9;0xf2594a2b230a1;0x313c362d0e343;0x143aff2a28f66;0xd06211fb6b02];[0x0;0x1139a59af7845;0x3f7ff607023;0x2973b2b35c0b1;0x4e1c9c633c705;0xf540029cee];[0x0;0x63ef20cf43968;0xaa744a2d509bf;0xfaa691a16ff45;0xdf3af94dd6ffe;0x5eb25277902b];[0x0;0xaa71529b4a818;0xc6f4398f659f2;0x58cd1a6ba078b;0x1c77abb0f48ee;0x9f2e8fffe571c];[0x0;0x8ddd61c1bfb47;0xb094c8d21284f;0x1c5821b9b9c91;0x6af79faa7dfc9;0x3dc9ff10d767]]);
 ((V [0x3087b6f89e247;0x787e9026b125f;0xb50e13c624185;0x8475058ff0fb8;0x7ce95089e5d9] [0xc0059db8f7c8c;0x438de3e3c8416;0xe71b816dbc27;0xbf8423a256dad;0x7758588f56ea] [0x74cca9cf0b0de;0x4a633c51e5443;0x501f2ac96eee7;0x55ea033bca5eb;0x82a518a719c6]),[[0x6e017b594432b;0xa0bc0da4e6159;0x21d00e2442b31;0x6abd6b95ff8e6;0x95f8eccd9b50];[0x4cac559f157bb;0x59fb8f91145a4;0x5714aa238ac38;0xa1399dce42369;0xf7300fe21f04];[0x4f585b1d9b537;0xf442e5c7a4138;0xac07073d2c04d;0xe278593bf6408;0xeb26472cc571];[0x4f585b1d9b537;0xf442e5c7a4138;0xac07073d2c04d;0xe278593bf6408;0xeb26472cc571];[0x4b3e9cb2bdff;0x45eb5f3403c75;0x7126b1a315377;0xc96bf30904ccc;0xe1c917ea54b9];[0x47f86bd3e99bd;0x1410305d1092f;0xe5edf880758c1;0xd7cdaac53d69c;0x1566f7f7ca4a];[0x0;0xa2deeae1a9f8e;0x49fa215bea84;0x5c54aef486084;0x839e2f738ec44;0x588600a0303];[0x0;0x9390340a9c2ce;0x897f8c9a333b9;0x9a339f3b83675;0xdf1cba972a567;0x89c1ee062838];[0x0;0x8ddd61c1bfb47;0xb094c8d21284f;0x1c5821b9b9c91;0x6af79faa7dfc9;0x3dc9ff10d767];[0x0;0x8ddd61c1bfb47;0xb094c8d21284f;0x1c5821b9b9c91;0x6af79faa7dfc9;0x3dc9ff10d767];[0x0;0x1b43fbeafb416;0x71f73e9cad771;0xe6e408cedeadb;0xfc04c8f566631;0x625d3a39c72e];[0x0;0x74e510894fff5;0x37bd4f9f3d4cf;0xcc6c60b776365;0xd09270aa08dd1;0x26d054b6612d];[0x0;0x7b382db09d5ba;0xb62c738ea5e4a;0xbd6379688f6a9;0xa8db34af08469;0x789c90342773];[0x0;0x4ff1ccfe4f825;0xb6209a620f3b5;0xe7a7017b75da3;0x7d135076a6d71;0x779a13c1a4635];[0x0;0x696970544287a;0x485ad5b15faf9;0x2a50bb5411bf8;0x6f2695e3baba8;0x3a3b8fd9edab]]);
 ((V [0x76133a2fae198;0x5f90a9973e736;0x9fed9a0414357;0x6bc27adf725f8;0xa651b53a4671] [0xde86deae8fbdc;0xe41e8b1489359;0x136d5a102cff7;0x76a476ed16d05;0xb22866d615ab] [0xa320df4911dd8;0x3a60eb5b1e01;0x8ed9ab01e4bac;0x83164a04d664c;0xb6e1f4382942]),[[0x6153d610c1ea5;0x24ccebd3a699;0x20728fa427ec2;0xdc924f2436343;0x4e1dc8b9bab5];[0xb11387da67a05;0xfcff0e5b1eac8;0x7dae560006c09;0x514dda8e733f;0x49ee33437dc6];[0x74cca9cf0b0de;0x4a633c51e5443;0x501f2ac96eee7;0x55ea033bca5eb;0x82a518a719c6];[0x74cca9cf0b0de;0x4a633c51e5443;0x501f2ac96eee7;0x55ea033bca5eb;0x82a518a719c6];[0x3d4686a7232bd;0xad0d53e01b96f;0x5c8b71a22499b;0xd64d6bd7dfa13;0x5e43a669eb9d];[0x73cd0133444e0;0x4ff1ba7b03159;0x2122e45de226e;0x2ec771d10792c;0xebaa8cd99228];[0x0;0x8dcb69629b5c3;0xfec867615a95e;0xb357badf0ab13;0x2b0400de81c90;0x312e9b5d255];[0x0;0x1ff22deb15397;0x8c218f6c494ab;0xca82595b6f3e3;0x79bdfe8be8a83;0x27dd80a678a2];[0x0;0x696970544287a;0x485ad5b15faf9;0x2a50bb5411bf8;0x6f2695e3baba8;0x3a3b8fd9edab];[0x0;0x696970544287a;0x485ad5b15faf9;0x2a50bb5411bf8;0x6f2695e3baba8;0x3a3b8fd9edab];[0x0;0x3d6aee7bae525;0xf126cb946efd8;0x4829b0c507520;0xdb741f68ca6a0;0x37a340d243fc];[0x0;0x78564dcf477d7;0xa15d298de0f3f;0x266ee1d4056a4;0x98343e5f59fd7;0x3cf2daa94b05];[0x0;0xa3ed2bb5494c;0x5eebd54a30973;0xb52ad5fbc4eb;0x6b72726554470;0x30080df23a77];[0x0;0xa807997b870d0;0x538f3481974cd;0x3b31f023f3436;0xbd567cd568496;0xba13b89a7c495];[0x0;0xd4f55b806a678;0x1bce11040b18a;0x2b2bf4aead929;0xaef47c6b255f6;0x73bf0f967aac]]);
 ((V [0xcd111ebe81368;0x42b2629ffc90e;0x6361da91b9f29;0x6305e69b9ae04;0xcdfc4137ba31] [0xe7690b2b08822;0x86da5d145ea36;0x3320202db0aa2;0xead6079629a3f;0x89aabdabd1c8] [0x119753fe20107;0x412f17b9591fe;0x2866fc116130;0x208225e5bead2;0x869f7c9c5b3a]),[[0x2ff6ff3aec126;0x5e2a83190eda6;0xf9e4b54ae3311;0x134c3dbcc2b9d;0x50ec2b0735bf];[0x1c67bc2825344;0x1eb96a5791f6d;0x2aeca8ea479f7;0x4a2e01790a3a6;0x7ab6bd497f55];[0xa320df4911dd8;0x3a60eb5b1e01;0x8ed9ab01e4bac;0x83164a04d664c;0xb6e1f4382942];[0xa320df4911dd8;0x3a60eb5b1e01;0x8ed9ab01e4bac;0x83164a04d664c;0xb6e1f4382942];[0xf5c6e005acb00;0xdb2ab814eed32;0x7b593a4a77617;0x82075e2f310f9;0x46823e11aae7];[0x26a0dc2278845;0x438eb242a323a;0xaf936e9fd03df;0xc826a349d92ac;0x34347f37d46d];[0x0;0xffa894106bbae;0x4f3a8407d297;0xf5171064bfdc1;0x8adddc6c7c0fa;0x44d8e637c82];[0x0;0xbf1ca3ba35514;0x8f7a04bd6e23f;0x3752cef5798cd;0x36ad2f44fd3c5;0x39cf535bcb43];[0x0;0xd4f55b806a678;0x1bce11040b18a;0x2b2bf4aead929;0xaef47c6b255f6;0x73bf0f967aac];[0x0;0xd4f55b806a678;0x1bce11040b18a;0x2b2bf4aead929;0xaef47c6b255f6;0x73bf0f967aac];[0x0;0x10af29088d870;0xd4d45e9714836;0x6cf94fbf3cfbd;0x82dea7d1dbdb4;0x7bfc35620258];[0x0;0xb99757713b33d;0x77e90fffb3d3;0x6a59432ea51ff;0x2066c99398c89;0x6c0e111bc287];[0x0;0xfa8620891e68;0x5c5a20394c917;0xaa611a62c5f3a;0x6a74008539710;0x62bd40b94be3];[0x0;0xe225561ae0aa;0xb9cc8070f0718;0x34c6d9f38a4e4;0x31e8161afefc1;0x8e258f4d7a005];[0x0;0xe600367b77e9f;0x5336704604cab;0xff390ecb2b898;0x62bffc8edfb4c;0x6ec561079e18]]);
 ((V [0x33a330a50513a;0xae6bc0b1fc211;0x308eea08c7849;0xaaef53768f1f6;0xbb3c3f58e7a5] [0xb488a3340c04d;0x5bde65e4dc90d;0xa08a6f2f66dd5;0x44605621f9a4f;0xeebc1dc569c0] [0xc1b21870f1bb5;0x4f47082fccf33;0x54acee0deb208;0xdd23c418d5d69;0xf0e3b8d4b7d3]),[[0x938019477b798;0x871312aaa9229;0x74eec3b2dbf60;0x8a62360bd7dff;0x954f08174ee6];[0xe4f824cc4ef1b;0x17aea6492ca2d;0xb8d578241daac;0x668ad4301a856;0x9e943e663fbb];[0x119753fe20107;0x412f17b9591fe;0x2866fc116130;0x208225e5bead2;0x869f7c9c5b3a];[0x119753fe20107;0x412f17b9591fe;0x2866fc116130;0x208225e5bead2;0x869f7c9c5b3a];[0xa2277c9cad27c;0x8495c7714989d;0x5a6ce97ff201;0x2120fd353f4c9;0x7347bf88517d];[0x42d0a82fa1ca0;0x9318ded7e3190;0xb32ea98c1e8aa;0x4569d6fadb38d;0x2b4c7eddee3e];[0x0;0x4efd863e1983;0xdcb5b6976216;0x6b673326f5a8e;0x1c9f2a1a1d59f;0x32adfc6fcb5];[0x0;0x69a8ce1d4adfb;0xb6e7239c8bc36;0xd970ef32ab2b4;0xe4c90260ee935;0x4e8462ffb30f];[0x0;0xe600367b77e9f;0x5336704604cab;0xff390ecb2b898;0x62bffc8edfb4c;0x6ec561079e18];[0x0;0xe600367b77e9f;0x5336704604cab;0xff390ecb2b898;0x62bffc8edfb4c;0x6ec561079e18];[0x0;0x6371c2320f38;0xcc209bbcd16be;0x25d3e1e6cadbd;0xd14591743a43e;0x4a0830e25b42];[0x0;0x6d7b4fd426360;0xe055b76a46efe;0x7294b2f3cf6e7;0x28103e09173d;0xa5bdf903b687];[0x0;0x45d3df36a946;0x4c60920c5f66;0xcd72a056098ff;0xd465a5231ee6e;0x73fb9b90de53];[0x0;0xd5ec18f240e8a;0xaa68fceb90ae4;0xcc83fa9ded160;0x26848dc53820;0xf469ba0ca0ec6];[0x0;0x4d08d48bea4cb;0xbd4915ca2c05a;0x9305b37449468;0x49697e4e4f9d7;0xae9b98e96288]]);
 ((V [0xff0763587f5ca;0xaa6a29f3bb41c;0x9cb76e9c55796;0xe57ab2329ebe8;0xef27d7db49be] [0x548ec9c534fe3;0x962789871a56;0x28dbc0cf9cde6;0xa5095714087ee;0xce7e0894d05c] [0x3a43ae5f3d7a9;0x22702d672df58;0xb3d92fa69324e;0xffbdb6ee6b574;0x44cf60da7bb5]),[[0xa10411efd6dbb;0x2e8838280cee8;0x6259f01d68f74;0xb1074ebb35ba4;0x9382e0126e76];[0xec4c3c290eb9f;0x2b5fa791de618;0x73e91813a3c55;0xb3eb7346501ce;0x5e967c1ebd95];[0xc1b21870f1bb5;0x4f47082fccf33;0x54acee0deb208;0xdd23c418d5d69;0xf0e3b8d4b7d3];[0xc1b21870f1bb5;0x4f47082fccf33;0x54acee0deb208;0xdd23c418d5d69;0xf0e3b8d4b7d3];[0x6b0db07e51864;0xd646d01292a60;0x64fc93a621799;0x750bc2cf3af5;0x75818d086ed6];[0x813e8baabd0d3;0x5518d77f4bbb8;0xeec846d824bb;0xac9ab7195c6d9;0xe914ef164ebf];[0x0;0x7779cf167a5a4;0x7ef2bfa61a340;0xa578a12b7f9e8;0xf59f32506ddeb;0x5aaf2ef54f3];[0x0;0xf7b431036b528;0x52401d0ffe343;0x31b3b37571d5e;0xaa57104d204f6;0x8acde99e9b42];[0x0;0x4d08d48bea4cb;0xbd4915ca2c05a;0x9305b37449468;0x49697e4e4f9d7;0xae9b98e96288];[0x0;0x4d08d48bea4cb;0xbd4915ca2c05a;0x9305b37449468;0x49697e4e4f9d7;0xae9b98e96288];[0x0;0x37792d0226a03;0x875993f0fe9e3;0x77d4f724dda06;0x23b90abc065b5;0xdea25196ce0b];[0x0;0x7f6700f78e57;0x8ddd60a51fb28;0x9d98d66feb73;0x7e4561c209fa6;0x88f112b9a3c5];[0x0;0x3fc6d6285f89a;0xbcdf68d4e51ed;0xfa95684488fb6;0x162af81f3ebca;0x585d368f03e7];[0x0;0xbb3d6a892f3f5;0xb4a9a71c10a4c;0xbf78345d36e49;0xf78e74f7634ba;0xd6a12e8c45299];[0x0;0x96a5b34269bd3;0xb3476952b5932;0x494e7f329a432;0x79936deabadc0;0xc0e7cd52f7b4]]);
 ((V [0x14d57071fb555;0x85365fd4cc627;0xc43fbd4423ef4;0x59644b2a31c30;0x6b7fd7ac1192] [0x453b527859539;0x666cca7906e83;0x5c8fcc407411d;0x8ff111a012574;0xb06e4f24e0d9] [0x41ae2a2e25c7e;0xc40db43465e9d;0x93248a2f120b3;0x789843635ab50;0xe7b2ffbbdb58]),[[0xb705b74c50d28;0x429b8529d9b12;0xdb49ecabbce20;0x6e662a006ff86;0x54b7850d4cbd];[0x674d625c28ba6;0xf612edefa6b66;0x5caea72872764;0xa3a87dccfe91a;0x39d36a7cc26d];[0x3a43ae5f3d7a9;0x22702d672df58;0xb3d92fa69324e;0xffbdb6ee6b574;0x44cf60da7bb5];[0x3a43ae5f3d7a9;0x22702d672df58;0xb3d92fa69324e;0xffbdb6ee6b574;0x44cf60da7bb5];[0xb07dc4a29bfd7;0xd1d1b3927a0ba;0x335b3a41b67be;0xa75f519b3babd;0xbe60139ffa4d];[0xb6cf9db98c967;0x24413a5d2caab;0x29536ce6bbfa6;0xfc492c31c2e5d;0x7b7356dcc81f];[0x0;0x66c660d787f2d;0x2c872e0df8515;0xabd483956a585;0xaf1453870182f;0x19e76a2ae7e];[0x0;0xa939bce55be8e;0xc9ba80cb94b69;0x16a4ed5084f20;0xfe9d64f85cfb;0x16c55fc93d40];[0x0;0x96a5b34269bd3;0xb3476952b5932;0x494e7f329a432;0x79936deabadc0;0xc0e7cd52f7b4];[0x0;0x96a5b34269bd3;0xb3476952b5932;0x494e7f329a432;0x79936deabadc0;0xc0e7cd52f7b4];[0x0;0xfa835768dea5e;0x45b3e392cac85;0x7d10dd429c373;0xd854dc5c0b58b;0xa68f13dbf21b];[0x0;0xd383994909f8b;0x2d67c9ac53285;0x60da8c36f42fc;0xfa5aeb6bf44b7;0xdf6b6b3eee84];[0x0;0xf938003002507;0xdcbcdbf64df59;0xcdf90827fbf30;0xb3be7eed28cdf;0x18483e1b659a];[0x0;0xb28069b9ef6dd;0xbd999e12b06bb;0xfe0f62b6ef867;0x7f0db7357a34;0xb8f78fd84d4ca];[0x0;0xddf9c134482e9;0x1d03ed887c9d6;0xfa5f588d7b212;0xd07c0364a2a3b;0x4a163670e7f7]])]
 [[0x78c054323f567;0x7693cb7957e0e;0xd630b1c69cd4b;0xb1b5fb54f7781;0xa8d136478fa];[0x8cd56720314d0;0xe94e2e287adb0;0x71434d951b717;0xc8e493b6cbfec;0xc6927b23d17f];[0x41ae2a2e25c7e;0xc40db43465e9d;0x93248a2f120b3;0x789843635ab50;0xe7b2ffbbdb58];[0x41ae2a2e25c7e;0xc40db43465e9d;0x93248a2f120b3;0x789843635ab50;0xe7b2ffbbdb58];[0x4daa390b50575;0x200ecedcf8e7c;0x62d2c4ccfefba;0x89b6283d9a9f7;0xe490dc6c5955];[0x3f2b2e14e0cf3;0xc93f5f4b81f34;0xe7088c81c75d;0x3f2e6b79315f5;0xe2019eb7782a];[0x0;0xb69548e5ddf55;0x8e992b8d494e;0x672c7bba86371;0x15be1859c1de3;0x57397c9b7a8];[0x0;0xd8c2ebd78676e;0x64dc09877e9c0;0x4c694ef19f17c;0xe89ee2202e99a;0x98cad21696e];[0x0;0xddf9c134482e9;0x1d03ed887c9d6;0xfa5f588d7b212;0xd07c0364a2a3b;0x4a163670e7f7];[0x0;0xddf9c134482e9;0x1d03ed887c9d6;0xfa5f588d7b212;0xd07c0364a2a3b;0x4a163670e7f7];[0x0;0x1645ef58c0824;0xe05992d9c3518;0x9c2900f46228f;0x28f974ebf840b;0x7997dc5ad154];[0x0;0xe02d40d9d5daa;0x5faaeabea4dca;0x3a7b6f4c8108b;0x3f19f85b3205b;0x2d241e21891c];[0x0;0x4c3444170b3ea;0x46820d610fbeb;0xcfb5fbdbaa80f;0x9b3c6c17a610b;0xb68a0a22e8c8];[0x0;0x693ecbe729a71;0xffba8227e076f;0x89cef57dbad67;0xb550c98553a73;0xd97cd72e70f0e];[0x0;0xeeea86f43552f;0x6e5100acb9d52;0x4143e3b4ba41c;0x74f8248a8aabd;0xc529c1665568]].
Definition wit_256A_64_8 : colwit ept wit := mk_colwit (V [0x43a56a1c6e552;0x4a078ee8324cc;0xf682eed0d9649;0x88aaabf64f66d;0x96cb8e05d842] [0xc8ff2846ee032;0x247b34676dc9b;0xecc16af806be6;0x8ba9e721f866f;0x4360ad9dfd8f] [0x1e013fbd54028;0x2b5fc487aae52;0x29b117b4b11d7;0xcc77f8b3ec7b1;0x98732a271f4b])
 [[0x793f20c5bf507;0xce215127450a7;0xf65c34127bc19;0xdc73a8c5654a5;0xb3c74a51cfd9];[0x4610285fcf077;0xb2db43b5af7de;0x4f83ae91950e7;0xff4ea7042d4df;0x8acb7083600c];[0x8f5698465745b;0x75be3eb74331d;0xb9beb4bc47743;0x988504ddf73a1;0xddf7de225079];[0x8f5698465745b;0x75be3eb74331d;0xb9beb4bc47743;0x988504ddf73a1;0xddf7de225079];[0xae938f70c17df;0xa0076d9584098;0xade6145d66677;0x4a68d6172c4fc;0x6e638c2dea86];[0x977c98ef0d899;0x12d3d6202b745;0xa19d9a342ea70;0xb4e5d0ed00fe2;0x1c67e4557586];[0x0;0xeaaa7c4ce9e;0x8e67043f367a1;0x8b1b17b57cffc;0x7d523729ddaac;0x538faf7a7fd];[0x0;0x32eba3e4fdfea;0x25c27d3ca7d63;0xcc6a0f0bf3e2f;0x1b27841a5337b;0x9be11c7040cd];[0x0;0xeeea86f43552f;0x6e5100acb9d52;0x4143e3b4ba41c;0x74f8248a8aabd;0xc529c1665568];[0x0;0xeeea86f43552f;0x6e5100acb9d52;0x4143e3b4ba41c;0x74f8248a8aabd;0xc529c1665568];[0x0;0x2ac241bab0fc3;0x207ae5d8c4689;0xe2648a25fe9b8;0x4f0179827359;0xb3b1e72d1258];[0x0;0x7798f93afb5cd;0x1351a6d724ae;0xd59d7b4b39631;0xe60cebcba3c84;0xd85451414f6c];[0x0;0x54d8d0fee8356;0x7cfd604a2513f;0xb54c921bbe73a;0x9339161d2bc47;0x51c1903f3616];[0x0;0x96c2d360598c3;0xad3374166fb82;0xf06d4962f5f7d;0x308e1287f26e7;0x454e3dea01fdb];[0x0;0x8fcb0e8fcb884;0xbaeeaa2d94f22;0x5d7f9b96c53ea;0x48c738cc463ff;0x27b038c568f6]]
 [[[0x4f15d9553971e;0x3ff0883e7faaf;0x813474619c227;0x7a259be529c63;0x2682c050abc6];[0x9cf418f4c42f5;0xb5c9f9f5d15d2;0xfb5bd2e7368a;0xa3682208127a6;0xa82485d31fce];[0x56cbfc5796974;0x6f0aa62b505ac;0x955e1969b0f35;0x9beb9bdfaa1e3;0x794c69929f71];[0x8213385738370;0xb6279f7c126e8;0x378477f07c572;0x25738a2af89d4;0xe285b9128387];[0x72c3ac6393d53;0x644cdb79a98f6;0xf81dbb549cbd0;0x5876c0eef13c6;0x17c595713bf7];[0xd8dd73a9499f8;0xd6dd55d151195;0x6c8618da6cd73;0xb29342c85940c;0x538b3ee1bd29];[0x0;0xf6ecacb2a6ff6;0xde8997272b667;0x100049f759c12;0x883391c87f5d7;0x3964028d591];[0x0;0x36ebd401be993;0x7b271c6fdc04d;0xc1c51aa056625;0xba7700cf8b4f9;0x21642997be5e];[0x0;0x1253645b2b5d0;0x7b567d486eb8e;0x2e3dfcc4d31d1;0x28b70e519d6b1;0x3defff6a520f];[0x0;0x62fa70bfdaa9c;0xcf61d2395bc88;0x83245cc05782c;0x91952c2daf910;0x7e569f5d1fe1];[0x0;0x88b3826407847;0xa2c61f87f9a68;0x6f54df5430e0f;0x911e3d9c6f4c4;0x387331da52c8];[0x0;0xa16d49278cd74;0xc1a32165bc8ac;0x7bdb896a723ec;0xb4ff03fe7fcf9;0x8a9ea771eb5f];[0x0;0x290fc91cfe7aa;0xa797020335825;0x23cf770569124;0x974f222167aa0;0x354b3eadd3cd];[0x0;0x6346bea81aff2;0x89af3c9a3ec3e;0x64c1e4181bdd;0x35955ae269b12;0x9c8fd80d0970];[0x0;0xad97aeccb4313;0xb112187eadef1;0xd445368968cbe;0x10290d0bb521c;0x3094ce79c55]];
 [[0x4f15d9553971e;0x3ff0883e7faaf;0x813474619c227;0x7a259be529c63;0x2682c050abc6];[0xeafc6073136f7;0xe4ec3786e6028;0x8beb186df93f1;0x2075a25b3ff81;0x53625898713f];[0x10730696cf08b;0x8ac36c6da5884;0x6dc0862b95fe;0xe4545b7b08ebe;0xc77404ac7aa8];[0xf643db7219fe1;0x93de608a7ad78;0xb8dbe4071ee5b;0xc8d046f859dcf;0x609a38ff44d1];[0x263b1a1a47b99;0xe02c83e4b9006;0xfc4306028bdf6;0x11db4608a5b52;0x75cb81019778];[0x3719737c32fe4;0x47b457a3f9cc9;0xf4e36e3119ee4;0x3adb0991d273b;0x3f8e54c86553];[0x0;0xf6ecacb2a6ff6;0xde8997272b667;0x100049f759c12;0x883391c87f5d7;0x3964028d591];[0x0;0xd796885d6a065;0x6c9b6093c0522;0x738e2f1f6283e;0xc04e7d0405291;0x561d7617bc4];[0x0;0xc67450627bbd5;0xb2d920df01e2;0x41447c31f75e3;0x30ee8ab57500d;0x155b150457da];[0x0;0xda7c5298e13f9;0x6e93cb806a756;0x403558c86892e;0x851a4e2b92;0x5a49020f68e];[0x0;0x655512fd796f1;0x6e90a2eab6e55;0xf6bb0e20fc7b6;0xdfefb434a02f7;0x285741d5e7e];[0x0;0xb7bc4409f5566;0xb54ba96a019f3;0x4b2c8c2204b2c;0x4dc87ce670293;0x2fcba69b36e5];[0x0;0x1de70b589a84c;0x4f714a461010c;0xbec483468c5ee;0x6520bbe44aca7;0x10b9c5262f3d];[0x0;0x83580fc1d7c11;0x6786793d053c7;0xca503e7ba9548;0xc6df78687df05;0xd4f48fd7ecb7a];[0x0;0x5f7db97591907;0xb767453bff04c;0xbb5265a79695e;0x3c6d1e082ad49;0x28fd090d26f8]];
 [[0x4f15d9553971e;0x3ff0883e7faaf;0x813474619c227;0x7a259be529c63;0x2682c050abc6];[0x3b41cf80e35b1;0xcb2b60cae1d0;0xd7385c8ae9232;0x1e9a1767e7d28;0xc5a2bc943ae1];[0xcc35f66f5965e;0xe33d7d7b1484a;0x4eb0ee90f1eff;0x437bcaf407ecf;0xa1c482c58fea];[0xea78e9e253c05;0x2ea8684cc7c29;0x16c14b1c8f3de;0x74465711ff1ba;0xc937500e8256];[0x9f25091945f18;0x2ed203afe725a;0xf9b8c20e1ce0a;0xfc8851cc282bd;0x245c6c0463c9];[0xaf95924463e88;0xde27ffc2cba5;0x2db3a2652e28f;0xafcda38b3daf5;0xd0c86eee8ef9];[0x0;0xf6ecacb2a6ff6;0xde8997272b667;0x100049f759c12;0x883391c87f5d7;0x3964028d591];[0x0;0x2c80f52d948c7;0x15c7436414415;0x5644509e223d2;0x60e2a9b2b0203;0x1782101973f2];[0x0;0xfabe95f976cfe;0x22c6fdbcd38c5;0x86c1ef281c4bb;0x98cd88df0758e;0xd83d63bdcd0];[0x0;0xb0e88e292ea97;0x3a9b7d783103e;0xfc9f2d7cab47;0x9c09f2ecdb513;0x785e0b5ad8b7];[0x0;0x82dde8eed7712;0x27d01ddc616a4;0xf4339a7a41e58;0x4dc83c8da4ce7;0x35c833ad6cee];[0x0;0x918ad3bf93f98;0xb71eef20ea49e;0xf49bc3fe8345f;0xb7c3ce4dda688;0x1e3f516c865c];[0x0;0xb55c7bd2fafb3;0xf85841da37acd;0xb14ae3bea757;0x756481c678cfb;0x16829c464b84];[0x0;0xbbd98f0e9d42e;0x8f3cd327a2dab;0xd6d275ae0bf15;0xf7e99d0c1a30d;0x610cf4cbfe259];[0x0;0xd9fb35d6651a5;0xbb425bb0bdc35;0xd3d9e3e16508c;0x7a551827ca94b;0xae60577d69e]];
 [[0x4f15d9553971e;0x3ff0883e7faaf;0x813474619c227;0x7a259be529c63;0x2682c050abc6];[0x33622c83d791f;0x54015b50e9181;0x7b753654a3356;0x5ff3c96556cd9;0x2d016fd51d9b];[0x69c8eba7ae599;0x814348d853cc3;0x4d22c2e570d3e;0xe05bb00d19ea;0xa111e42ebec];[0xf4551291aae96;0xf3fed3431a358;0x8ab3ddd86de0c;0x3948e246c8a24;0x5ccaeb2c2c49];[0x20fc847e0fcc7;0x74001a2a170ce;0x48f6f57942fc0;0x3be5a6349f30b;0x4ca24815d067];[0xc17d5c8d2187a;0x82510fa1386cc;0x20511e4a34ce6;0xa7ee444819233;0x5fd2eae6c19c];[0x0;0xf6ecacb2a6ff6;0xde8997272b667;0x100049f759c12;0x883391c87f5d7;0x3964028d591];[0x0;0xb893545a0cdf9;0x96841b729e9a1;0x8f0b6f76760fa;0x40bb45a51e69b;0x4617e6d240f];[0x0;0x3367c9f372079;0xb7079ca1687b9;0x7410983a03185;0x4c43721956c4d;0x7ac9481f218];[0x0;0x92c216e37eec8;0x8440b5e5d59a0;0xf6d6e0e553d70;0x7f2a9f3e4e74e;0x385d284fede5];[0x0;0xb5130b091e931;0x3ff6e1e2adc4e;0x6c511293a2232;0x97ffa394766b5;0x192f2cef9d89];[0x0;0xb32beb7ae22b2;0x3a6c1bf208fef;0x32e4dfff7617;0xd5c2551f7433;0x112cd87d01a8];[0x0;0xd44748f8c077;0x802dca317c067;0x5b3001abc7a93;0xfa8ffd8d25985;0x14af0d038292];[0x0;0x474c333a53732;0x9624091c4255;0xe0a4dc660133;0x92e375656a7f3;0xb898be708cc55];[0x0;0xdbdc65f56fc6d;0x5e8b55a0d3248;0x8c590f3bf4fb3;0xa168e22ead487;0x50ae6a94d9a3]];
 [[0x4f15d9553971e;0x3ff0883e7faaf;0x813474619c227;0x7a259be529c63;0x2682c050abc6];[0x5c9e1d86dcc8b;0x4e53f60934d06;0xe0a11f10b95e1;0xc6f99d78fa545;0xd61bf9396a95];[0xb933980354918;0x3b1e2bf31d7c0;0x46b91e3ad9d3d;0x27798b168150c;0xd297723145a6];[0x67eb203fff197;0xe1e9ef8cc1407;0xb5b6290ac1c8a;0xd94dcf97882ba;0x9be0bf14b78a];[0x9d289404880fa;0xbe17e5219cafc;0x8fea42cdc36cb;0xbf5c080a35d23;0x2d5f068073cf];[0xd2f85a4bbd6eb;0x995c913dfae4b;0x7448b65d5a565;0xd06ec34b95a26;0xd83bd7397395];[0x0;0xf6ecacb2a6ff6;0xde8997272b667;0x100049f759c12;0x883391c87f5d7;0x3964028d591];[0x0;0xf98c4bc1bf3b9;0x8e8c96961f6d8;0x639621cad082d;0xb0674fa59b001;0x132fdbbe8b30];[0x0;0xaf48690e4c292;0xecc8948dcaea;0xd7a0ffdc65148;0x655f7badd681;0x1ef730d687be];[0x0;0xfb9665c7dcafb;0xb0be3d02a0c17;0xafa2cc9adafe9;0x3c961590a7ac7;0x67689cd31772];[0x0;0x473e5cf912d26;0xd58b1160090f6;0x5e65a7d2f466e;0x1866d62edc09c;0x2e3461ae1576];[0x0;0x9970412d32f0d;0xeddd963be83f4;0x6846f7db12ab4;0x138ab0bcf2b35;0x454d84bc6f80];[0x0;0xab0571a58f80f;0xe90f59dc231e0;0x13ca97196a8ee;0xab1ae193ad7ce;0xb2b65e06a3b1];[0x0;0x9a18809793c72;0x600ad9d0cbd2b;0x4dd38be7e0d14;0xb97e02927c015;0xd209d593a14d9];[0x0;0xdec118bf3684f;0x178138d3591ba;0x117ad8b6f5a40;0xfe70c0a83e5df;0xad8a28e46484]];
 [[0x4f15d9553971e;0x3ff0883e7faaf;0x813474619c227;0x7a259be529c63;0x2682c050abc6];[0xd61301fda42f2;0x821c3b00fc405;0x3408d1ec5cbb7;0x1278ce594dbb0;0xb0f55ba86973];[0xb2d336460a570;0x7846aad0060bf;0xcc78ee05fb0ae;0xaf5730feae322;0xde6f5c3b8a36];[0x43c20491624e9;0xb58bf5431ad37;0x441001ec83d64;0xe953b325c11a2;0x4ccf613160de];[0xd3937acdab3c7;0x956cf18edee5c;0x4032e02e73081;0xad3cc5d257687;0x3cd63732191c];[0x2d1de352a8a56;0x75e5c5f40333d;0xe6366228ecdf9;0x1ced463a06f30;0x75a18374132c];[0x0;0xf6ecacb2a6ff6;0xde8997272b667;0x100049f759c12;0x883391c87f5d7;0x3964028d591];[0x0;0xda3ca8e713690;0x6622f4c2e8e69;0x96ad601a14db7;0xd3ae95c9cbb99;0xa116ba40b25];[0x0;0xe6f193ecdddc4;0x6db5d0d3410e5;0x28eb8f2f0b9c2;0x2d58692476086;0x383d19201b5f];[0x0;0xa306e9f456cb9;0xa9ec54ac3331d;0x6bcd89cdeda8a;0xd633471d12f88;0x7a782040cdee];[0x0;0x4a0d726dc6967;0x1991f015cb51c;0x119e64e056d6;0xc7dcc15bc0cf8;0x36b8a00fc24f];[0x0;0x3725283fc63fa;0xfa337295f448e;0x4a2eced5a3dac;0x8dc0658bcffdf;0x7ddd8d193880];[0x0;0x2f38bf6a4659a;0x1127447d95970;0x5b85b46d04ee0;0xec2c611f2ca07;0x23c8893f82bb];[0x0;0xbb78a75e67cc;0x5d5540ce8349b;0xe33d4d758e7b4;0xc0bad6b38f6a0;0xcea093e5a8c36];[0x0;0x932fb75d5183f;0x62a44f21a0ee;0x4d3fb1191e72f;0x24cf30fd1606e;0x28fde31c0c5a]];
 [[0x4f15d9553971e;0x3ff0883e7faaf;0x813474619c227;0x7a259be529c63;0x2682c050abc6];[0x699b497c172f8;0x3c45d8062d943;0x27411ebd743f3;0xbef9985862744;0xadff0af3c7c0];[0x1d074aa69ff25;0x236b3ca528e6f;0x605d73cc5234a;0xefa2ed5645ff0;0xed09339328f9];[0xed0675c780e21;0x770b51797143e;0x89189e7911a3;0xf7c8f23f21e1;0xd98beefb1ce0];[0x8285e41fd9c67;0x1e8dbcf063249;0xeb27c6495b643;0x7347df33a725a;0x66450011b619];[0x2f748cb37eccc;0xc3623b8828d4f;0x2d7c57a280999;0xfb6ae3b6fe9ae;0xb9f89d6c0006];[0x0;0xf6ecacb2a6ff6;0xde8997272b667;0x100049f759c12;0x883391c87f5d7;0x3964028d591];[0x0;0x7e5c6c2f0822a;0xf08998490c899;0x7c2a66cee205e;0x74071ada3722f;0x683e3226bde];[0x0;0xc9707c46eedd3;0x4b59214624d9c;0x8b007700fd619;0xead0cde6f1083;0xd9fe9697576];[0x0;0x54c4e80d0915;0xa1fe766787010;0xe0899061929b1;0x679969ab8bd3f;0x77687f3f8bab];[0x0;0x6432f00b2eab;0x2b6a1b9cd99d7;0x9bee004b40b50;0xec72763ca471d;0x355a7cc9e3fa];[0x0;0x16a5cb2a388c2;0x1d24dccd38913;0xcea0dd102ecb8;0xca1777a63ce3c;0x1e7e26c02909];[0x0;0xed305726f7406;0xb423f4abaddde;0x6447ea76fdafa;0xc0b8a13b5c097;0x632af4bd6cc3];[0x0;0xbe147f2d1d7d2;0x91cb2a682f9db;0xae31bf3caa7bc;0x281a3f31c4646;0x50588f470eac7];[0x0;0xb0a5bc56a939a;0xd915adacdf836;0xc13f1a02bef0d;0xb6f91f6fc5672;0x2ce4cc28c1a1]];
 [[0x4f15d9553971e;0x3ff0883e7faaf;0x813474619c227;0x7a259be529c63;0x2682c050abc6];[0xbbb7bafd1b8b5;0xaa0a786e40b32;0x356c6fc8851ab;0xb365b3f47255c;0x548d0e593191];[0xe375a6fe2374e;0xea6901bc90525;0xfb6b1b82c4963;0x14c47e2fe109d;0xa5d87cf6d999];[0x5677f093a6565;0xc54e7bc3add2;0x3923e44b4a208;0x7586f93d66f0;0xd2cc1e5df411];[0xe62d54ea26723;0x58daa63095d01;0x66dcf18df5e0f;0xaffd96acc1524;0x79d970622f35];[0x3e5dd03aa25d;0x949f5efa3d04f;0x9051963515460;0xee2f7d4b618dd;0x6452519ebb6f];[0x0;0xf6ecacb2a6ff6;0xde8997272b667;0x100049f759c12;0x883391c87f5d7;0x3964028d591];[0x0;0x7f83366ae0f61;0x9bb17de15d7b3;0xbd5b739f2d0a7;0xbffd06eccb630;0x5285c419bf4];[0x0;0x48f4e38970e7e;0x945ff5cfa08ba;0x2ba2558ef2a42;0x42cf46e27bb67;0x2666bf85846b];[0x0;0xf54e22625a7ed;0x7b56760b334b7;0xfe43d3e97f6b;0xe699d5c02dea0;0x2e65f95ba27a];[0x0;0x5ab799723c2fb;0xd13ef9c5b9e16;0x84db67e9eac16;0x4693a21043603;0x14bb4437a1bd];[0x0;0x4260534e3c735;0x6f14adb5ce7b4;0x781f06cdf0dcf;0xf365dfb3f24cd;0x55f1caaa29e5];[0x0;0x9053585da5597;0xbe96be18bb78c;0xc5b8aa9dd7138;0x304b4439c0f6e;0x1c2d49927f1d];[0x0;0x13dfcbe3745e6;0xd449bc4761df;0x37509e73adcfc;0x501091ead36be;0x75735f8722361];[0x0;0x301f306f66906;0x738dd5ec3ffad;0x89e47c319a071;0x71763434015d9;0x25917cb8f68a]];
 [[0x4f15d9553971e;0x3ff0883e7faaf;0x813474619c227;0x7a259be529c63;0x2682c050abc6];[0xb6c186de89d68;0xd52194f30f89e;0x4682c38586a42;0xad74f358bff78;0x630c477e3250];[0x503e5fb9e076c;0x39be58c11baf5;0x7ac2871f10c73;0x79ac2abe60da5;0x9ff6baa4e40e];[0x80d3ac7056765;0xe7faf898e1be2;0x830252f09b2a8;0xd8d5c87144e09;0x8f94a614a58d];[0xe86474707e1ab;0x7f7700547e383;0xc085242ffb264;0x4f6eb03b5b4ad;0x79503ddc18a2];[0xd2472dd562c34;0x142d86926c130;0x80417c283ac25;0xb45da610a38b;0x6e39cb3ef040];[0x0;0xf6ecacb2a6ff6;0xde8997272b667;0x100049f759c12;0x883391c87f5d7;0x3964028d591];[0x0;0xa412b52ba070;0xac6335ff938f2;0x42e3a1b941196;0xbfe6dcf4cd862;0x1014cbf32ec1];[0x0;0xa095fb0dbfdc0;0x6d41c68abe14b;0x2c56a4b4536d4;0xbd2a4ac27f0c6;0x16742e044615];[0x0;0xb4d162f46b983;0xadd4a575a62fd;0x9c0e01ab3b145;0xe0e7f4ad92c85;0x42676f1f1d20];[0x0;0x8340dc56de79;0x5717740d1a087;0x44c14b71f721e;0xa1c2ff5cfe185;0x1dab9da0236c];[0x0;0xec5785a5d1a88;0xca93cd95b6871;0x28046a042e83d;0xf5009b7a97c20;0x3240c38cc210];[0x0;0xa843c9a3d8484;0x2a999dc72a096;0x5be97e4721cb0;0xb4b40638cc773;0x16fc18e3b267];[0x0;0x7075727d91bee;0x69c9afa2578c;0x4c8b34f2c84d7;0xa10f391226627;0x589e61e4bb0ee];[0x0;0x8598f4dd2dd13;0xf8482d625637a;0xc46edc917c409;0x488a92d392f41;0x13ce3ef555e9]];
 [[0x4f15d9553971e;0x3ff0883e7faaf;0x813474619c227;0x7a259be529c63;0x2682c050abc6];[0xd8788653f53c3;0xec64cf4fb2aa;0xe061b69ffd13f;0xd71c51cfb2f9d;0x1680719075e7];[0xc8a2752732281;0x273f952a7c58;0x51785fc0d2fa4;0x8a9c0333df95b;0xe7bc59ce9ef9];[0x6f387cee6b968;0x71854c25dddd3;0x6beb9f10d9230;0x3f1d458e8d7fe;0xa0cd4deb4e1f];[0xddb2dda5bb747;0x4e6c426f8d362;0x5028ae523e0ea;0xf98e586a6e28a;0xbaeea2f26157];[0xf72dbffc440a;0xd27662a3910e2;0x4809e66767810;0xe00cf7b001e0b;0xbebf9c5cf45e];[0x0;0xf6ecacb2a6ff6;0xde8997272b667;0x100049f759c12;0x883391c87f5d7;0x3964028d591];[0x0;0xc3505d13ff04f;0x6baa8a82eb55b;0xe7ff3bf69b6c1;0x742f8e4d6f965;0xe6821f6b248];[0x0;0xf303dec5dd92f;0xffaee63e0ebd4;0x1454c05498acb;0xec1ef48140960;0xfa2ac56cf8d];[0x0;0xd32a1f02b12f2;0xf6e8e265215c8;0xae168c7c2f4c;0x1b036b3b7b45;0x32461acbce1c];[0x0;0xe3a262379eb59;0x1a2388476a65f;0xc24c420df1b7a;0x3f7a44d45b541;0x167690ec86e0];[0x0;0xd93d1036ceeb0;0xf36d383e7aeba;0xd96ec8b70bde4;0xa21481aebbe6b;0x22fe37ba8e50];[0x0;0xecdd382ca0bd9;0x25cb5a8afe5ca;0x3ce2571a344c7;0x4b37e7dae576b;0xa5d4fda57dc];[0x0;0x7f938cd7ba66f;0xe50a4f7fa17c4;0x621c5a6c134ce;0xa4c15b82aa39d;0x36e6eff1cf169];[0x0;0x9c787103302d9;0x9dc3a6ecca12c;0xa35a178e5e6a7;0xaedb3e5193baf;0x17ecaf0ab20a]];
 [[0x4f15d9553971e;0x3ff0883e7faaf;0x813474619c227;0x7a259be529c63;0x2682c050abc6];[0x5028dcee35dc9;0xec5f09e178e93;0x2d5cbece38d38;0xceb0db09c8101;0xbf0231037e94];[0x5e290a22219e9;0xe6d55f44cdc80;0xd1a124a1a2f9;0x1e36e9690a91c;0xad182fdf7583];[0x3e1035c2f61a5;0x2498f3a8e66f1;0x3ed753fa090a0;0x21de3dadd1193;0xf06423b0902];[0x5e9a7e79e8115;0xb39c665d24ad;0x5ca5c7bfeced5;0xde136e609a962;0x4a50aaa48dec];[0xf12ceeaa2f388;0x41f8a6fbb2ec5;0x5aec0d535a766;0xe2fe878b5a68e;0x8e2837e49e63];[0x0;0xf6ecacb2a6ff6;0xde8997272b667;0x100049f759c12;0x883391c87f5d7;0x3964028d591];[0x0;0x95bad0e205ea7;0x92071635827a7;0xdaf10b53a1f6e;0xabf82f0564136;0x2633b9a7c469];[0x0;0xc9dc5f371f38d;0x32b8f44a15d19;0x59ccc738449cb;0x43781b7be478c;0x1f08e54b25c5];[0x0;0xebd871779f72b;0x751786add1f7c;0x9bb3daf7aaf73;0xbd5afc3831622;0x1e9877f01edc];[0x0;0x363d76919e83b;0xab05b6fb74e00;0x69083985c1246;0x15caef9c8c64b;0xdababb1963b];[0x0;0x88b9267644b14;0x856a6e5d708c5;0x4c5e7ebaa5d39;0x2ad1dbf068140;0x457524a3438b];[0x0;0xa3c199e04ca9e;0xd732b8ca940ca;0x742ae4c91d3c;0x73914afb87e81;0xaeaeb4fc717c];[0x0;0x6ea726a0b554d;0x75365fbe5eb53;0x1b3849e077006;0xfe8f8671f36a0;0xc52580d45d3b1];[0x0;0xcc9c1721cb964;0x822c8ee91687e;0xa05df36793ba2;0xf8ec1217737c3;0xb17acc285451]];
 [[0x4f15d9553971e;0x3ff0883e7faaf;0x813474619c227;0x7a259be529c63;0x2682c050abc6];[0xe617cfa46ade2;0xfe7f3571e4cd7;0x6841e23e07da4;0xa69df3c4b5ef8;0x79fbabdb939f];[0x463df9a5d0ebe;0xb282164a6382d;0xfafe15099cc6c;0xc2b1351d5d47;0x1c46add3292a];[0x529c45255f627;0xdf70ab987f247;0xfb5a668b3d572;0x63b36c7c13a33;0x8e70ac6da035];[0xa950a0ba3ada7;0x299a65cfe25e3;0x9424f6c920ae8;0xe01f519e956cb;0xed8cf0967744];[0x521dab6b21466;0x566f4be3dfa9f;0x58ed92917dd3;0x916612f6d1052;0xa3a00e142fa9];[0x0;0xf6ecacb2a6ff6;0xde8997272b667;0x100049f759c12;0x883391c87f5d7;0x3964028d591];[0x0;0x94370362d9c9a;0xba8f3f0fa47f;0x9e8f664b47ef;0xebecc8a50715b;0x3537b020dc6];[0x0;0x1f2767c61cb4e;0xdcd70efb0d81f;0xccef9df8c76a9;0x7f979b72a56df;0x3d9e60ed1845];[0x0;0x682bb02861f0d;0x5613c83467de3;0x719eab3c051e7;0x8042f7d6a01ee;0x725064a8352b];[0x0;0x9f72132b88aad;0x72eeb7945139c;0x563fbee653416;0xe247fc37edcd1;0x3313cb11dfe7];[0x0;0x5c5bad96cc2b6;0x4e87022b9cf51;0x21f7d8d9f283;0x241507450fea2;0x89e7fc59e55f];[0x0;0x8fd5a8a014e4d;0xee4e739720d86;0x846751fb9c0a9;0xf5dba6f7a7f32;0x553026f914a8];[0x0;0x27bb2840dd6c6;0x875d2752ff21e;0xa42055d865d80;0x52b0df392070e;0xb051fa89e9fa4];[0x0;0xf9bcfa0317a9f;0x600b52ae7dee;0xa465bf054e278;0xa9e9c8d22e8ec;0x773bd8018861]];
 [[0x4f15d9553971e;0x3ff0883e7faaf;0x813474619c227;0x7a259be529c63;0x2682c050abc6];[0xf7b03871a25f;0xf84d474c322e;0xd7f2d2e72c7ff;0xc98ab4d32ae1f;0xe9dc5572a416];[0xad93ecc7f82fb;0xa230eeda4c1d7;0x60ab89b76953e;0xb003bdd58dc1f;0x9ff713dd2442];[0xabfda346f672b;0x8f3721af2e41d;0xe3da80a09b0c9;0x5b136fcfb08e1;0x92eb3c7d6d75];[0x4365f129888e2;0xbf5a25c4c9cb6;0x42a5836ee36c3;0x57b5bbf42b5e4;0x9c3b8f5b0121];[0x502872cd920d3;0xf506a128cd616;0x78ec83190dee5;0x58293e8798a39;0xeae3c8809527];[0x0;0xf6ecacb2a6ff6;0xde8997272b667;0x100049f759c12;0x883391c87f5d7;0x3964028d591];[0x0;0x5a88cf48dd385;0x36586fe8b497d;0xfa58cecc96556;0x9580f61454bd4;0x1a5e25619a07];[0x0;0x495de4dce7ee3;0xaa324ab726b15;0x9a4f4025ffe2b;0xebe3b56dcc56c;0x2f0dc8d69ba1];[0x0;0x9acb54df1d90d;0x730a1cce50044;0x99144b402b5ae;0x90c36428f706e;0x6491dae18003];[0x0;0xe8912ed653e8c;0xb0f937e584582;0x55f29cb90fe9d;0x10e7be887275b;0x2cefa7a02b5f];[0x0;0x632f131ebf4fb;0x3046d1ed3c81;0x3d682ef7e6e73;0x3ca7d068c74f2;0x694f2c565de9];[0x0;0xda21551440996;0x979dfcc408a16;0x41558dc67add5;0x4fb4482b39610;0xcb9575fbe387];[0x0;0xe7b855bb2210c;0xe52c392454856;0x2e7e8965d688c;0x86453c2a4f4c3;0xaeadafa722b23];[0x0;0x1c4840a19ed3c;0x355bb65c641d3;0x18d998b508410;0x3d2cc5b7cf2;0x973f04263a0d]];
 [[0x4f15d9553971e;0x3ff0883e7faaf;0x813474619c227;0x7a259be529c63;0x2682c050abc6];[0x90c1487566e2e;0x10ca65d94332b;0xd78e1084fb6d9;0x61d07cabcf6a0;0x38d5f1d1008e];[0xfa7a0486fc12e;0xf3c053f7f2ab;0x509d76ca76b63;0x5ce0594968cfb;0x594fcbf11e9d];[0xffb83e7d1d377;0x49959c0b747e3;0x28c36c73eed2e;0x5565eb0e900c0;0x684ae983487c];[0x30d5dedfb8cfe;0xda450de884af5;0xdddbe954cccd5;0xddf925b7b2df6;0xad46001430f7];[0x61739a1decb9e;0xb097bd884e955;0xa2991060a8b10;0x65a7843e2dc3e;0xd4466edc696a];[0x0;0xf6ecacb2a6ff6;0xde8997272b667;0x100049f759c12;0x883391c87f5d7;0x3964028d591];[0x0;0x9a6f5e89128e2;0xf8c413fad2b41;0x6ea14f6056158;0x577ed7f11f9dc;0x11a86199aca0];[0x0;0x38183b79f0800;0xdf9890642ae00;0x63463643e6058;0xcdb3e0e5824a0;0x3aa7929442bd];[0x0;0x63e90fa0965ab;0x306397d1d1993;0xc2af0c129d49;0x463713d21ed88;0x66570dba58e1];[0x0;0x4771c5290175a;0xede813b664d3f;0x8e448a58b3829;0xd235abd843ea3;0x2dba26adf851];[0x0;0x6d04e9df40310;0x6077f139fd062;0xf68ba153babeb;0xd922647bcb570;0x8345bbb6dfd4];[0x0;0xf506c039feeb;0x21d0a7676dbf1;0xd9e9bd3df7275;0x1ab7dd4dc429d;0x476eca927d2];[0x0;0x4987319998bc3;0x8cc816ad46af7;0xcac27c222eee6;0x50d3e07a59911;0x463d4389266d1];[0x0;0x532cb58df7900;0x510362e0f996;0xf4a725330985;0x442f949c9b4d3;0x542f73e724b]];
 [[0x4f15d9553971e;0x3ff0883e7faaf;0x813474619c227;0x7a259be529c63;0x2682c050abc6];[0x3266f143d3128;0xee85716a0303c;0x4c394f8e4dbb6;0x7ef580bf06483;0xedd1f3857801];[0xd8e3d3c68cd4c;0xc01a8cde8c85c;0x57dfcf6c98779;0xefc02ce9016c2;0x6801b2661214];[0x63118ec1f4cec;0xfa7e26bb52b85;0xc26a71399815e;0xd76d20ce85048;0xa0e85db50a7d];[0xc8c2b561aec19;0xc4118f14aa1dd;0x614cb2b5d47a0;0xbe507f91eb1f3;0x94d0a1236149];[0x46fb1f7c96ff6;0x75efd8ae619e9;0x5fd7765c607e;0x92f6f40cba46;0xc58b8a925ea0];[0x0;0xf6ecacb2a6ff6;0xde8997272b667;0x100049f759c12;0x883391c87f5d7;0x3964028d591];[0x0;0x33cae2563b870;0x98d8c7e3d55e4;0xe81050e7b0af9;0x8c374cfb5bab3;0x365d1a2f6b];[0x0;0xafda348721b70;0x72c4e01a01752;0xcc4e531752b55;0x33c5ce4a54987;0x54aea344011];[0x0;0x22054bd593f70;0xa7118ab662919;0xbe44453a93f64;0xd96c54cbcaa64;0x27749d08529b];[0x0;0x5a34936073f55;0xb61f1fbad36cf;0x94eb85432ffe;0xea2555e9d256b;0x11a11d1889ee];[0x0;0x2cdd0836523ca;0xef9123305c53b;0x16c464952ba93;0xde71379d3f2e2;0xbd86107f7ae];[0x0;0xe954d0a87488f;0x1cc27fdaaccdf;0x8a868d40cafa9;0xe57ac81eb182c;0xd9ed7fd744b9];[0x0;0xd7ea7d5f6ad9a;0xe9fa24fafbce4;0x8fb7a9a009546;0xfba27eb6e30be;0x728acb1e96fc4];[0x0;0xfc4a58f6d8fcb;0xb4eef210533b6;0xfa372a0b222c3;0x254bf56b86255;0x687f5ced77de]]]
 (V [0x718c7207fb88a;0xa8e4afdf51a76;0x3d76324e96b57;0xfc3e354f104ea;0x8641890a89b6] [0xd7b938ed23eb6;0x861c6f9a2137a;0xf0df31b937d8a;0x40c3a8452a005;0xe1ed767dd097] [0x2decde608990e;0xadd92bd0267f8;0xa09cb20d29563;0xc1ce89ba9803b;0x62431a78d2b7]) [[0x793f20c5bf507;0xce215127450a7;0xf65c34127bc19;0xdc73a8c5654a5;0xb3c74a51cfd9];[0xf02ea76f6559d;0xb2259eab34d1b;0x745f6531f2a5c;0x46ee58386777c;0x949d496d510f];[0xfa4233da1f46a;0xa9b4a0db7ce1;0xb51915ce135bc;0xab4db83fb188a;0xf570235ebf83];[0x8d2338831cae3;0x6868963f95665;0xc102724c2f7;0xdac8268bd910c;0xb30d4b1d22c6];[0x725d9874e4b59;0x896b45b689b7d;0x3db430d030d6d;0x978f7b4a84d1c;0xb8fc406139ca];[0xb365aea6e474b;0xc0cd30b99ec1e;0x6694240b44e82;0x8d041b7b5b474;0xa9a461bcd61d];[0x0;0xeaaa7c4ce9e;0x8e67043f367a1;0x8b1b17b57cffc;0x7d523729ddaac;0x538faf7a7fd];[0x0;0x7f2e0c5be0a70;0xb31fb45941764;0x697d00dd7350;0xe2917b4fb66a9;0x2582a0b930fc];[0x0;0x7e75e56a07530;0x2eab3d119165d;0xc7bbdeaf7648;0x55e05fec056b3;0xc48a569c205d];[0x0;0x4397a921bf69b;0x20c876a7aecbb;0xd80abc88b4dfa;0x1e9a16b28e2c8;0x68d41f664398];[0x0;0x6cda28779eb61;0x6259d11ed5abc;0x28c4d270cf163;0x2cfac30dd2630;0x5f8a81d8960a];[0x0;0x27b0eebf4fb1;0xbc1d702a9a3d9;0xed277f0fa7bc0;0x7d391b4f5bf9c;0xd7a5673de3fe];[0x0;0xcc380eb6830f9;0x10dc9250bc9c6;0x59ea13c3ca08e;0x5934c1aae74c0;0x4df05fed2792];[0x0;0x7ccb5b7f5a08b;0x4687a13ff3b20;0x123aef3da95fe;0xfcbc5e0e30af9;0xe7d9cc66b41db];[0x0;0xcde7f5fd14122;0x52e0d41f63cd1;0x5ed232ec41edf;0xa9b12c98e36f7;0x767c2242525a]]
 [((V [0x4f55111f8a0;0xf951b48b53290;0x9872436cc39ba;0x61daddba4d524;0x47f2135a3470] [0xffc4f783dfc8a;0x30fc26a4cc83f;0xbeb45167a9aea;0x1ccba9b0443b9;0x49dfa626876d] [0x37b054efe8ba5;0x85372cb726954;0x4c9d65c832c6e;0xe0aa0ab4fc442;0x12b00e52c591]),[[0x74d861014c568;0x72baf270a9a72;0xe8e80b1f85b14;0xed07aa9301007;0xe21f27a556e3];[0xaf723c27ee8ba;0x9747b168074cd;0xa735e0813046a;0x8a32a7015f1d1;0x6583d0c6252];[0x2decde608990e;0xadd92bd0267f8;0xa09cb20d29563;0xc1ce89ba9803b;0x62431a78d2b7];[0x2decde608990e;0xadd92bd0267f8;0xa09cb20d29563;0xc1ce89ba9803b;0x62431a78d2b7];[0x20debe9f38e96;0xfec41a9df2af;0x20ca77055cc05;0x5ebe4faf07791;0xb155ce2ee87e];[0x8e937d88b57bc;0x875b6fbe2821e;0x866b697bd3865;0x2b74575257a40;0x55026edd79d4];[0x0;0x1ee3c74a91b7e;0x7d6231e676560;0x2d3f8bfd279c5;0xb26fa5d038852;0x24fdca15cfb];[0x0;0x5413650d9777a;0xc549c85e7a4bf;0x5f5429eb447f9;0x3cb2bd4cedd2e;0x56cb32b68e4a];[0x0;0xcde7f5fd14122;0x52e0d41f63cd1;0x5ed232ec41edf;0xa9b12c98e36f7;0x767c2242525a];[0x0;0xcde7f5fd14122;0x52e0d41f63cd1;0x5ed232ec41edf;0xa9b12c98e36f7;0x767c2242525a];[0x0;0x4d9ec5c8d1162;0x4189758d7f30e;0xaad30accdee6c;0x5206a56ee4b1e;0xc763468dc476];[0x0;0x5aea8cac76798;0x2ff6a1918e70e;0xb23149d32ba35;0xc6d21dc17de99;0x4668ac3de8e1];[0x0;0xb905a5f4b0bdc;0x3b4e243ad0dbe;0xd734d513290aa;0xed6f76a1d9972;0x1c878d2edd3];[0x0;0x8d55433b81c8d;0xc006d628a493;0x9ceffe9db1f18;0x66251a1e8793e;0x4e605542b1c61];[0x0;0xa6d45327bd39d;0x85ff6bb50f8f2;0x6c1f5c6e04854;0x698fd4d6ddb26;0x14c2e2156112]]);
 ((V [0xf4b24add75f79;0x5a24f95101872;0xffa166170fe53;0x3245a241492ef;0xe1ee6bf7a64e] [0xe7fe3cc21d1a8;0x3b65a4ffe9de8;0xf5d8d72118f81;0x2d7aac6e8621d;0xa7230daac9ed] [0xc5beaf550a994;0x75ab502a125f9;0xa3cb977d479e9;0xc75e7c7adf454;0x1cb9a115650b]),[[0xed49318d481ea;0x521b655acdfbf;0xfa1d0ee78f49;0x5fa5a64f2358c;0xeef63c107642];[0x7ba308fdf6e5;0x9846f84b97eb9;0x8d73a78dafa9a;0x5da5ec08ced21;0x1401546b39da];[0x37b054efe8ba5;0x85372cb726954;0x4c9d65c832c6e;0xe0aa0ab4fc442;0x12b00e52c591];[0x37b054efe8ba5;0x85372cb726954;0x4c9d65c832c6e;0xe0aa0ab4fc442;0x12b00e52c591];[0x3825856216bd1;0xe4b72fb55a539;0xb6bf551f6b73e;0x5abfa657bc889;0x9eafe697ec51];[0xcf94ab2dc88ac;0xb38fc8963d97f;0xd6b4526e4435b;0x2e645b112497;0x75516dd34d89];[0x0;0x99fd68d09e0ab;0x5b7f26ed7cc89;0xd9090b025b3e9;0x6b4fe3239cb3b;0x708fc8cffd];[0x0;0xe79421d3b0c1b;0x37ca07ac0ec83;0x481ec96a8efce;0xc37fc876819c4;0x1171a6e12e35];[0x0;0xa6d45327bd39d;0x85ff6bb50f8f2;0x6c1f5c6e04854;0x698fd4d6ddb26;0x14c2e2156112];[0x0;0xa6d45327bd39d;0x85ff6bb50f8f2;0x6c1f5c6e04854;0x698fd4d6ddb26;0x14c2e2156112];[0x0;0xf5eed156cce65;0x711f8d67ad0c3;0xd3af866acaffa;0x27f24ef917682;0x15515024dc32];[0x0;0xb0120223951cc;0x9c116f3a33f6a;0x1d1d7ef451635;0xfe520111af021;0x14382ba4a117];[0x0;0x61364e3ecfb74;0x1873963fa3d8f;0xf0162cd832cfe;0xf307ef3fbfa50;0x11a7ccdea218];[0x0;0x6aaaa523ee014;0x2833512dc088b;0x9b74e323fd845;0x93fdbd46a83ab;0xb0c444d058166];[0x0;0x5e45c0586324c;0xb1ce18c455b5d;0xaf897747503a5;0x8a054778c4a16;0x93817817265d]]);
 ((V [0x1d451e18bd2ff;0x3c1f3836cb4a9;0x577498ad97775;0x641c513a629d0;0x9f54d75ffd63] [0x84883bec46fc0;0x40c28672e7ad2;0x2eb9e24f0c073;0x29bce28eeccc6;0x8b38f4558276] [0x11d05a2f1629c;0x80af37c5e6b76;0xd920c22be279;0xb9739f074a6dd;0xafea701710ba]),[[0xdf6974dc60731;0x540f1996ced06;0xaba239190700e;0x9c3283fb40587;0xa9f66f74feb2];[0x7774ad621fced;0xd3b77c6340693;0x161b54e0a0d83;0x37bcbb29af9c6;0x7830f4050f07];[0xc5beaf550a994;0x75ab502a125f9;0xa3cb977d479e9;0xc75e7c7adf454;0x1cb9a115650b];[0xc5beaf550a994;0x75ab502a125f9;0xa3cb977d479e9;0xc75e7c7adf454;0x1cb9a115650b];[0xec0091673f92d;0xe12dbf71b48a4;0xc2cabcb511bde;0x6573f5901d1ff;0x47a990e64aa];[0x8b741bfae03c1;0xf289bcf18bdee;0x5350982b8f1a4;0xd248c599927c6;0x73b65af6aa5c];[0x0;0x7439cf30a01cd;0x119c6689d7827;0x639a464713aee;0xb6d602900b117;0xad0515a4fc];[0x0;0xa5bc7f46229b1;0xf73524ac0f59c;0xa9bca75ed8a9d;0x5cdcde1caaa97;0x1312323987cd];[0x0;0x5e45c0586324c;0xb1ce18c455b5d;0xaf897747503a5;0x8a054778c4a16;0x93817817265d];[0x0;0x5e45c0586324c;0xb1ce18c455b5d;0xaf897747503a5;0x8a054778c4a16;0x93817817265d];[0x0;0x5b222a4251be5;0x3a97c8a888b7f;0xb15e678dcd469;0x72a3616882d0f;0x6d1ec0a190e1];[0x0;0x924ff2b076610;0xe97f485a8154e;0x93ce409d4549d;0xa25b95a52d1f5;0xc764f7d64057];[0x0;0x9f68e8d9426a6;0x52f8bbe6568e4;0x92bc7165fb5bf;0x4293ee4800df1;0x4ace3cbd6410];[0x0;0xc00043c0bad3b;0x185ec83fa4627;0xc99013c5ac2c2;0x629ef0b2d58ab;0x8fd6ae7c2bb7e];[0x0;0xa1cb8803a3bfc;0x4b681b083c93c;0x9ae0c8410b2d5;0x5ef4e715c709;0x56a68392513a]]);
 ((V [0xc7b3ba96b1078;0xb3f4a00a4b725;0xa4194cf168324;0x6e5192139962e;0x4acc3abc48ad] [0x9a69b57a6a941;0x5f86a4435020;0xef76742458644;0x3f8f2b27b737a;0xf9ccb0a51374] [0x4ad7bd3148117;0xe260b830cd8a1;0x2da54336c8dd2;0x53a9ddb26a723;0x4fda50a4e394]),[[0xc8be882e98166;0x393350e75687d;0x46d60df46cdbd;0xc1c62b873396c;0xdcf16467518d];[0xbc1ee21e2a52e;0xdf857b85d42bb;0xce4aaceec8d1c;0x6f0c29f45c9a0;0xe7f65894d203];[0x11d05a2f1629c;0x80af37c5e6b76;0xd920c22be279;0xb9739f074a6dd;0xafea701710ba];[0x11d05a2f1629c;0x80af37c5e6b76;0xd920c22be279;0xb9739f074a6dd;0xafea701710ba];[0xdabfef334f844;0x6ea7d4bfb96a8;0x5deb4ced8ae86;0xb989fbfeec2dc;0xaa63f76e5a46];[0xe15ef2eadaceb;0x70dda6c61ac12;0x705f60013de96;0xb5822df5706c4;0x3d92612677bc];[0x0;0x884e3b029a8a2;0xafc2aacc80dbf;0x4d7ece19dcc0f;0x6e2b4ad8017bb;0x42397be481e];[0x0;0xa4ada017efa16;0x45a94d9dec0f6;0xbfa8e0bb8db2;0xe9b792d16b590;0x97d35905eb3d];[0x0;0xa1cb8803a3bfc;0x4b681b083c93c;0x9ae0c8410b2d5;0x5ef4e715c709;0x56a68392513a];[0x0;0xa1cb8803a3bfc;0x4b681b083c93c;0x9ae0c8410b2d5;0x5ef4e715c709;0x56a68392513a];[0x0;0xf9c0f4ddad5a4;0x69f8cbd36f7be;0xa2e114d56b02c;0x8246852e53eac;0x4bb6e600aa48];[0x0;0xe9c7a867c6a5a;0x4f952fbf7cb4f;0xc691005472728;0x1f2fdc354cbaa;0x632a7fa748f2];[0x0;0x78a2a9ba7e7b0;0xef09a396900b9;0x110b82097cd82;0x8c0e7e817d993;0x43c643220621];[0x0;0x58ef3fae42316;0xd96e233497b37;0x65cce706f943b;0x80aa4a0c3b2f8;0xfb43fa670038d];[0x0;0x5c2ff822503c7;0x390189baa13a6;0x8772f149f248d;0x74c019082283;0x48fc737c946d]]);
 ((V [0x4de4920be6e1;0xb534ebc1d07e0;0xd2a457d41abe6;0xf72d0850b84db;0xf7481bc8bc6b] [0x89a516b0ec702;0x5c3f008ec3d17;0x10c0edf19cd0f;0xa9eee35046f06;0x79d01e5cccfa] [0xaf74fd0d8b1df;0x807ef38fa650a;0x8033b878fd605;0x4d815aca19deb;0xbc243204c376]),[[0x91bbfc20ea56a;0x7d7a2668cdec6;0xd7cbb7ff6eddb;0xddcc03bd10479;0x4ab3f8328aad];[0xc9c94063fcef9;0xd1acdb3e45b7a;0x3716665491ece;0x49c9d360cbc07;0xef2368da5692];[0x4ad7bd3148117;0xe260b830cd8a1;0x2da54336c8dd2;0x53a9ddb26a723;0x4fda50a4e394];[0x4ad7bd3148117;0xe260b830cd8a1;0x2da54336c8dd2;0x53a9ddb26a723;0x4fda50a4e394];[0xc5dedd4dc9516;0xcf0181620a332;0x2bcc3e827db35;0xb55a3d156a445;0x7d20df267ded];[0x3ea6316339e4;0x2ab59dc3b848;0xb4a27d214399;0x946f964b617c2;0x720289b3d8a4];[0x0;0x8e0b7c4d16e55;0x887ff397a54ab;0xb555317e7a8cd;0xc611f3f647b72;0x1e0fa1c8b78];[0x0;0x15c9642c4607b;0x5da1307e66ef7;0xa5a9e66143fd9;0x68c23abd60dd8;0x174d3e614f19];[0x0;0x5c2ff822503c7;0x390189baa13a6;0x8772f149f248d;0x74c019082283;0x48fc737c946d];[0x0;0x5c2ff822503c7;0x390189baa13a6;0x8772f149f248d;0x74c019082283;0x48fc737c946d];[0x0;0xb51143280114d;0xe8f5d685ac880;0xa29a8064e05f8;0x8a1bbad949d37;0xf3bfd34b20d2];[0x0;0xbe919a5f53804;0x4c2f3322287e4;0xf52064639d807;0xf39863cd25753;0x15dab4e28391];[0x0;0x6842be740e254;0x51f0b03dad629;0xac637c7369828;0x4bbdf1c5fe876;0xe6fe861466ab];[0x0;0xcce974f1fe6e3;0x496c76011c757;0x46ff7baf208c7;0x29a49487ec9b1;0x7a507de7861d6];[0x0;0xfbefd5e152695;0x8c8d5ad540418;0xe14833eb2d398;0x3879ee6ae2f63;0x75aa1d0c8b53]]);
 ((V [0x321bc1f1f62f9;0xf82b4ca040fcf;0x5789cdea83ad0;0xd935a25544010;0xba01ee29caae] [0x94a8a75f78ac3;0x41bf378c72c6e;0x43fc841434cfb;0xe4ba503b9973c;0xa9851e12ac06] [0xbb7579ee1fbd2;0xdd5c1d3d3040e;0x27acc662eaa97;0x989e58fa8474b;0xff1a57181fb3]),[[0x735a03eb9b4bd;0x3777bae9f0e0;0x4fa253006ce4c;0x42973438d5a6b;0xf95176f24f84];[0xe1885b4374b38;0xecdd9075dbb34;0xe617b5be432b6;0xebeb8b42c86c3;0x1fdab965ee8b];[0xaf74fd0d8b1df;0x807ef38fa650a;0x8033b878fd605;0x4d815aca19deb;0xbc243204c376];[0xaf74fd0d8b1df;0x807ef38fa650a;0x8033b878fd605;0x4d815aca19deb;0xbc243204c376];[0x3fd8d27402f91;0x7b517850a0292;0x5a8df8e6599e1;0x8f8995dd5561c;0xefec9d2ed5ed];[0xa1af88cf7193f;0x718c18253b8a2;0x8b89bcd7e98d5;0x5c61f565730a7;0x2fee1c37189e];[0x0;0x33aaf29bc0a58;0xb5a57213599f7;0x172c84743d402;0x34b18aec4cedc;0x46d3b32ead5];[0x0;0x132e33f51544d;0x94363e8a31383;0x2bd335dfbd562;0xc3745c3156740;0xb73b13853955];[0x0;0xfbefd5e152695;0x8c8d5ad540418;0xe14833eb2d398;0x3879ee6ae2f63;0x75aa1d0c8b53];[0x0;0xfbefd5e152695;0x8c8d5ad540418;0xe14833eb2d398;0x3879ee6ae2f63;0x75aa1d0c8b53];[0x0;0x304af89cbdb85;0x76755d5d81e6f;0x6579e10be0241;0xeda6af31dac1c;0x39f665e5142b];[0x0;0xea79790147fce;0x2f0485a284eff;0x645c9613701d2;0x48d9a8e4e7be6;0xeedc39ecff86];[0x0;0x3b5a4affd9945;0xf38b0f1740dda;0xf487bde5089c6;0x6509ddfd2f0c4;0x172528315454];[0x0;0x20f81797d7f81;0x9869bde5cba74;0x64120eb64cf24;0x17a9477bb50e6;0xb2cbf0a78db83];[0x0;0xc2f855c32a0f;0x7c8c972bcb465;0xdb12e93132fd4;0xad2cbfbf9444b;0x7b2bff141d8d]]);
 ((V [0xc2abdd231783f;0xb0aa44fee3b3d;0x55105498af284;0xcd2b38ddbaaff;0xbddf6c05a116] [0x1294f8f012b58;0x5c8085eaaddcb;0xaa5ae9a44c4a9;0xee75b4f405966;0x8e6d085931aa] [0xff2b6d5de9d38;0xcb7f084897695;0xae2c24b7eab3d;0x996814486a43;0x401e133ef266]),[[0x4e84ea5a6eb4;0x32f158b17395d;0xe46028d81b029;0xe1ad55752ca95;0xa96b634303cd];[0x9d58162a2fd72;0x9841dcb49412a;0x977784fa24978;0x4d7c549171c29;0x2e31a5ef8f6];[0xbb7579ee1fbd2;0xdd5c1d3d3040e;0x27acc662eaa97;0x989e58fa8474b;0xff1a57181fb3];[0xbb7579ee1fbd2;0xdd5c1d3d3040e;0x27acc662eaa97;0x989e58fa8474b;0xff1a57181fb3];[0x94d3403a458bc;0x3eb1e0941ea4f;0x4fc934a47ae5f;0xbd8d415ec9769;0x7b01c60cd1d8];[0x884d5efea24e;0x598ffc20756db;0x47ae5055a9b19;0x8fef1332a84c0;0x87e15452271d];[0x0;0x902feddb6d59e;0x6f9692ab81130;0xab1e50b9cac38;0xa48f4d0729997;0x6008f68b092];[0x0;0xd31cc6f3b363a;0xd70bb0436b8af;0x697280dd950f9;0x6763fa24cf3c0;0xa8d3666b4b60];[0x0;0xc2f855c32a0f;0x7c8c972bcb465;0xdb12e93132fd4;0xad2cbfbf9444b;0x7b2bff141d8d];[0x0;0xc2f855c32a0f;0x7c8c972bcb465;0xdb12e93132fd4;0xad2cbfbf9444b;0x7b2bff141d8d];[0x0;0x1f7300897ea3b;0x55b36084a7ab5;0xca7167464cc6e;0x3ad5e9b327136;0x704106ecea10];[0x0;0x214e484bfdd95;0xec63f6d224341;0xf1a31100410b9;0x64af4aa8deb52;0x8726ce18746b];[0x0;0xbffdd658944bf;0xdf472f17c7cfa;0x58f9ca08fb1f7;0x600f66e0f7ee3;0x2242f83f5e9];[0x0;0xa7802cd18ba1d;0x250ab1bb35703;0x12fab600a9849;0xad9ea83c9cc6b;0x973a25a81497a];[0x0;0xdfcfac0c5ac10;0xff8cddbae5de1;0x86a5188a61f96;0x8268df9ae78ef;0x69a2cc3d40a3]]);
 ((V [0xf236b011e3fd5;0xfcab6555fe6ff;0xacda8831baf27;0x9865ff2d0c31b;0x35afece806d4] [0x69ed89199fa67;0x5466bbe2ced3e;0xd70df2d331d0b;0xa7a5a6fb2c166;0x1d6fd1a285d7] [0xe22c4f106988e;0x1488f1bf609fa;0x8b1e371f18305;0x1372ca892a5d2;0x8f3895ad212d]),[[0xdc36f0a4afa4d;0xdc41b12f31afa;0xfa34a0141c308;0x2269499a39c50;0xe8ebfc06d92a];[0xe899ca884aea6;0x796ea0974d3bb;0xe7d964d380a84;0x705d2ffa407a2;0x22b0297eabe4];[0xff2b6d5de9d38;0xcb7f084897695;0xae2c24b7eab3d;0x996814486a43;0x401e133ef266];[0xff2b6d5de9d38;0xcb7f084897695;0xae2c24b7eab3d;0x996814486a43;0x401e133ef266];[0x95f962fe26972;0x331c5103c065e;0xa6c66f1dd717d;0x9656dfc9d335c;0x3cd386b65608];[0x52a0678a242cc;0x46524f938cd5d;0x4112f5b5a9907;0xda0650306d446;0xe5dca2c855db];[0x0;0xaa8e3b0d5c29d;0x6460a59b5a69d;0x792db2039e179;0x19c91cf4f90af;0x18232d4c65f];[0x0;0x56ea1cf94789e;0xcf7d9abb9476f;0xdfdfda9ae0182;0x724f3342dca09;0x3a565c2c087f];[0x0;0xdfcfac0c5ac10;0xff8cddbae5de1;0x86a5188a61f96;0x8268df9ae78ef;0x69a2cc3d40a3];[0x0;0xdfcfac0c5ac10;0xff8cddbae5de1;0x86a5188a61f96;0x8268df9ae78ef;0x69a2cc3d40a3];[0x0;0x32ef02b5c7762;0xd9ed01d8cb99;0x424b8d9f7b7b2;0x9e47e65ed8915;0x4f3d23b30f53];[0x0;0x85cd554ff9993;0xd880fe689199d;0x257b21e6bd4c6;0x10b630a2a3b6a;0x8cd3a87daf3f];[0x0;0x54d11aad032f5;0x4dae1f0d3887e;0x4fa9bfd3baa31;0x1d3038e334e5b;0x7464f1d6e01];[0x0;0x8611315694267;0xcfc5a97075c42;0x1c40ff86dba6e;0x4e81839ee7ee1;0x1f06fd04db46f];[0x0;0x817c2df4987a3;0xf5dc7a9aea59;0xb9273a0d0defd;0x3d6887372dde;0x62c6114b730]]);
 ((V [0x703001100287a;0xff3d812fc4fdf;0x115f33034d298;0xe24416b00be27;0x7ac9c9705c98] [0xbf04094f4c38b;0x48bb7a62cc56f;0x8333586bd8024;0x87fb7fbb78a2c;0x7e183a5dcd74] [0x379e3e7b5a67a;0x787aa47c9d2d7;0x3d0cd97a55097;0x5eff3941d31b6;0xe166ffcc7677]),[[0xe5ec9fab45fb0;0x6114822df46f1;0xfb73f492d0583;0xcb2d251edda4a;0x9feb4e6e2b96];[0x492b2852a7913;0xcc73b4a933099;0x3e4890deb1265;0x70adf7b7fd696;0xf057fcd14746];[0xe22c4f106988e;0x1488f1bf609fa;0x8b1e371f18305;0x1372ca892a5d2;0x8f3895ad212d];[0xe22c4f106988e;0x1488f1bf609fa;0x8b1e371f18305;0x1372ca892a5d2;0x8f3895ad212d];[0xd3477105f1ced;0xf9d4a678451d7;0x435d9b8db5b11;0x379beb7338178;0xd73ceee74000];[0x75e3b74cb5c27;0xd29f0e30edec1;0xfaeaf550fb753;0x39120c44c551d;0x191b0dea0746];[0x0;0xf1ec8be50ec06;0x8221ec561b1d9;0xcc69cd6d2f8d7;0x8febd62a41bfd;0x35ea9a428b3];[0x0;0x79b7d32cc357b;0x99dfd1a99fa07;0xe1d8913547287;0x61ec0be17ff15;0x5977c9c8cdd6];[0x0;0x817c2df4987a3;0xf5dc7a9aea59;0xb9273a0d0defd;0x3d6887372dde;0x62c6114b730];[0x0;0x817c2df4987a3;0xf5dc7a9aea59;0xb9273a0d0defd;0x3d6887372dde;0x62c6114b730];[0x0;0xe62a1f8fee41c;0x35ccef34bee80;0x9a7e64651a311;0xb2b6b42227f7e;0x362865648ed];[0x0;0xf008577353be;0x83a2a76d9d16c;0xf165e57cdaa04;0xfca6f19a75ae5;0xb4250fdd349];[0x0;0x2a68ce8f45674;0xd238df5b52053;0xe085b8f3539ab;0x9c0dc9ab740ab;0x734760afcf36];[0x0;0x73bb1072249d6;0xf9c8a6fa5240e;0x60b0e275f9ad3;0x8e79c7ae47a20;0x7e939d2bfefe7];[0x0;0x91f89464dccdc;0x4f5877abd4e51;0x4edde54035fcb;0xb764bc190e2b;0x3c7af00ee599]]);
 ((V [0xbc1e0baaf9628;0x191fc8d00192c;0x58067a5d644d3;0x5e545356ab08a;0x66d5a4662291] [0x4f612fc1a33bc;0xacff493dfb64c;0xe415376c94769;0x9a6495566e3c2;0x52e0ddbc359e] [0xba2ce1fb337f3;0xfa72bd489aee4;0x28b736a15f4ee;0x495b7f8860c8a;0x191664ae655c]),[[0xf64a7c8245e8b;0xd05d9d0ed489d;0x48a99e85521f8;0x55856637e68ea;0xc812c894373a];[0xb80f6548e4525;0xa64e72f84ee94;0x7152094c678b5;0x7c87208577aa3;0xd8fe16a40dbe];[0x379e3e7b5a67a;0x787aa47c9d2d7;0x3d0cd97a55097;0x5eff3941d31b6;0xe166ffcc7677];[0x379e3e7b5a67a;0x787aa47c9d2d7;0x3d0cd97a55097;0x5eff3941d31b6;0xe166ffcc7677];[0x45182b4bc63a9;0xf1510efd11f0;0x8731e0fb5ea2e;0x17df89c527b17;0xf3e00f18e8ed];[0x72f739fd1df14;0x973962087dca4;0xea20285108e87;0x64a796c04ff8b;0xe51e078b24d1];[0x0;0xfd2da92585fe5;0x604d8157e13a5;0xb38d462da3bdc;0x4cacbdac12364;0x54daa3c8e97];[0x0;0xdc14cbc68d2cf;0x87577d47b8bf5;0xc876b3e229725;0xb2f55b204ae6d;0xb02901b0b0f1];[0x0;0x91f89464dccdc;0x4f5877abd4e51;0x4edde54035fcb;0xb764bc190e2b;0x3c7af00ee599];[0x0;0x91f89464dccdc;0x4f5877abd4e51;0x4edde54035fcb;0xb764bc190e2b;0x3c7af00ee599];[0x0;0x4906388c67eb0;0xfa0381476f57c;0xb30942cd000d8;0xdf2cca111756e;0x3e1bdbbf5523];[0x0;0xdeff1eca9df70;0x95fb8d4d3ae7b;0x3383fbd01d515;0xc2756f1e90e93;0x3ae4f30d0934];[0x0;0x994991a49ba64;0x4f23a4c3b84de;0x68de9a1a11a0;0x6a2858220361a;0x572a53c78d04];[0x0;0x8a6829294b3a8;0xe9780a7b3c57d;0xb62cec2941996;0xeb66172468e6a;0x53aaebbf851fd];[0x0;0x4cb977e4ebd9b;0x680f29941252a;0x86d3b97a7118d;0xa72bf632e82ab;0x214ac2aa99cb]]);
 ((V [0x115ef017c5c24;0xe9f17892b39ed;0x1efc7f3f9b05d;0xc45c10adc97d;0xecb82c594c32] [0x7363bf4967155;0xec018b74596ad;0xa28c2d0d48bef;0xe99e1b812cccb;0xc8303014c37b] [0x83b54c4955929;0x76258a05bbeee;0x78c3dae07b20;0xd5db7fd2fb3e8;0xc98eed06eabe]),[[0xfe13152546eb2;0x5a1ff1adb9a78;0x83cc3fba9d6da;0x3287aebd8d738;0xe252d2fa8a65];[0x89b1a22fcaa4;0xb4f0c682bb878;0xa6a31ed53ae0b;0x2862e3912eebf;0xcc9d4c6a8938];[0xba2ce1fb337f3;0xfa72bd489aee4;0x28b736a15f4ee;0x495b7f8860c8a;0x191664ae655c];[0xba2ce1fb337f3;0xfa72bd489aee4;0x28b736a15f4ee;0x495b7f8860c8a;0x191664ae655c];[0x6f5164ebf52dd;0x15faf55c42718;0x758d03d00262;0x42c5145bba83c;0xa98476f066e4];[0x9949b537077c8;0x9ef5d1267915f;0x9f4a4e983aba9;0xe59dcf3574683;0x2318d57a2253];[0x0;0x4c5bd71ec12c9;0x1288fd6fb87d;0x7632a48373a24;0x83804214d7d3e;0x971bf99480];[0x0;0xb77c68a53ba7e;0x495afa4e791d;0xdb05a11a7ede6;0x4ed65d3ca1a3c;0x162de2bb215d];[0x0;0x4cb977e4ebd9b;0x680f29941252a;0x86d3b97a7118d;0xa72bf632e82ab;0x214ac2aa99cb];[0x0;0x4cb977e4ebd9b;0x680f29941252a;0x86d3b97a7118d;0xa72bf632e82ab;0x214ac2aa99cb];[0x0;0x4dc394e4416c5;0x5eecc9c8e601;0xf53e790df9410;0xef69427031a29;0x1ad4d3915bc5];[0x0;0x223372ca14448;0xe1910125c2731;0x8e48fcb8531f7;0x621bfc19e4175;0x294ef14c5f14];[0x0;0x36fdc77afe4e2;0x59451bfe452f2;0x6c3388045034d;0xf96f3a25c6460;0xbd3436f38bca];[0x0;0xb3466304e7ca8;0xe82a82edb9712;0x2fb1c0fbddb95;0x1bdb57f683cd4;0xcab31c9c15530];[0x0;0x7f760cfe752ed;0xb92dd5085a105;0xcdd584e75f9e3;0x76874983f7c96;0xb91c71a3cfbc]]);
 ((V [0x334b6f534d4ef;0x94f2de19cec08;0x3cd372039f7bc;0xcea0d34877d2e;0xe2639572c5a0] [0xc4674e1e0b54f;0x67f77ea9d9d13;0xe86d097161822;0xefad44d0221f4;0x5a351d166ae2] [0x9c0db35ff323b;0xb74240fa08735;0x4bc1eec71bde4;0x53a812faa8e20;0x1312a004869e]),[[0x4505f65d35b75;0xf84ed7672e02;0x8cd0f3f1c750b;0xa72f8d2e4a534;0x256a0e75ad9f];[0x82782531effda;0xc5881d8d6aba5;0x182a34fd3e7ab;0x6c547f7ab4724;0xb2a65848cbce];[0x83b54c4955929;0x76258a05bbeee;0x78c3dae07b20;0xd5db7fd2fb3e8;0xc98eed06eabe];[0x83b54c4955929;0x76258a05bbeee;0x78c3dae07b20;0xd5db7fd2fb3e8;0xc98eed06eabe];[0x95a7aba82a64d;0x4245e2eb8ce2d;0x703ebc3462c23;0x976be017b3d1a;0xf0afd36723f9];[0xecd07989c5725;0x83423aa1ddd77;0xa7eb78c8dbb88;0xd4e89f6300a09;0xc1f684e1a7d4];[0x0;0xcbf1ab08742f2;0x3cc9a1ac09b14;0x1d7f68f8f8ef2;0xce536d240b879;0x4be0b98cfef];[0x0;0x2d5499b105695;0x6927437a0cb45;0xe9419b5d8cfa9;0xc681903a1f2f0;0x1d7528d29cc6];[0x0;0x7f760cfe752ed;0xb92dd5085a105;0xcdd584e75f9e3;0x76874983f7c96;0xb91c71a3cfbc];[0x0;0x7f760cfe752ed;0xb92dd5085a105;0xcdd584e75f9e3;0x76874983f7c96;0xb91c71a3cfbc];[0x0;0x8fdfa8b4814f4;0xdb1d99bc16af1;0xda7ad93c4208f;0xb67c3e81f3569;0x9c8b54328242];[0x0;0xa10dd03b3e4cd;0x2214774a25122;0x125eb669e97e7;0x9fe985e3ca433;0xdae416446c88];[0x0;0x277cb0470cc55;0x601b445f58e7c;0xfb3bf66ada2d2;0xf599acf9b49f5;0x9dfc588f5172];[0x0;0xafa28f7544775;0xcb41b8238574a;0x250ec434f1ae8;0x12ad3dfd678fc;0x5be9362b6bd76];[0x0;0x425e1dbd3326a;0x5b00d6b0de115;0x3afff21b7f977;0x36ef2ca0e740d;0x4fc5fae16540]]);
 ((V [0xff779c7ea9535;0x235712a4fd934;0x7150ddd4a77ba;0x57357b128d757;0x4841b279c35f] [0x82141cff59bbd;0x1d11db8ce296e;0xcd6e0946338f3;0x54293e87f7bb2;0x6430f2efd36a] [0x1d8c154e2ca98;0xd25b9e94624e1;0x4b12af3c5cb1a;0x7c131f60efd4b;0xc143faa59ac4]),[[0x49aa196238137;0x47d61e3333498;0x1d43bd9fc01d4;0x657143f0cf139;0x3f8565075f12];[0x57f46f42b33a5;0xe1ed44b0f41b0;0xb8e8a629884f4;0xb35dd4fe182ec;0x456f91cb90e1];[0x9c0db35ff323b;0xb74240fa08735;0x4bc1eec71bde4;0x53a812faa8e20;0x1312a004869e];[0x9c0db35ff323b;0xb74240fa08735;0x4bc1eec71bde4;0x53a812faa8e20;0x1312a004869e];[0x7257181d2bf59;0x5a307169649ee;0xf43087bddc1c4;0xeaab3440059b4;0x78152b39dd4c];[0xe59d5725871e4;0x87bcd3478f7c1;0xc4b81e6bac330;0xc8b2a0be12937;0xcd5a6691b394];[0x0;0xb01e4515ab1ae;0xe11f65eb7e5cc;0xeeb509660b65e;0xf37b11469a234;0x72e17ed1bd];[0x0;0x90d1d45020f38;0x65aee4ff83000;0x1efac65a977a2;0x5853b00398eca;0x4bb85952534];[0x0;0x425e1dbd3326a;0x5b00d6b0de115;0x3afff21b7f977;0x36ef2ca0e740d;0x4fc5fae16540];[0x0;0x425e1dbd3326a;0x5b00d6b0de115;0x3afff21b7f977;0x36ef2ca0e740d;0x4fc5fae16540];[0x0;0x7de5642bcda38;0x35fae596f3a25;0xafd1b2984584c;0xe8ab08100132a;0x1fc96378d1bd];[0x0;0x2086f00be164b;0x61a32402056d2;0x455971f123b2a;0x94b591bf7dd20;0xc833fa9b92f3];[0x0;0xf49a721641958;0x9ce704a6025a8;0x4e4edbc09b8c;0x8fd1ee0d40cac;0x139932bddf88];[0x0;0xcd9eadf4a319d;0x2a7452b5ffaf8;0x5b9afb6a0fee5;0xea284d980a9fa;0x68c134629aaf8];[0x0;0x96e3bd40aa2df;0x14877eb95a62f;0xf6d56a670d555;0xc35e39bb99c36;0x1c477a9ad2de]]);
 ((V [0x4590d5e99e039;0xb4226a7bfa37c;0xc7bd6d32bbbde;0x6cc2b5abf13d1;0x6f2b7edf654b] [0x1fc16b6061d55;0x7a208818d6858;0x1d8621ac35210;0xb91af58404fc6;0xf8340e49578d] [0x148b2fb86f30e;0x2b41c29b92a6c;0x71b00bf64e0f1;0xa2cb7a355aa6d;0xd7bc8bfb9738]),[[0x75c77692b6d5f;0x64d4b5e889a5c;0x9b6a04917548c;0xcd0f6de1a4f36;0x6ead9c14b30e];[0x571b1ac0f643a;0x825708c5383a6;0x73f4effb14a85;0xc68e81a3f7abe;0xb256ba3d1964];[0x1d8c154e2ca98;0xd25b9e94624e1;0x4b12af3c5cb1a;0x7c131f60efd4b;0xc143faa59ac4];[0x1d8c154e2ca98;0xd25b9e94624e1;0x4b12af3c5cb1a;0x7c131f60efd4b;0xc143faa59ac4];[0xda0e85e9dde68;0x9c8354ad3abf1;0x2041aed17c291;0x3d490b28871b3;0x679aac692d];[0x7d0c94d7185d3;0xe5d3b417fd7b4;0x53b34129987f3;0x8945767b7090b;0xb1ef1f90b037];[0x0;0x4ee6e13d226bf;0x5fa0c1e52f56e;0xfdce027d22c9;0xd2b77555ecc7b;0x48c1875d367];[0x0;0x52880310e9102;0x25a42dfddd266;0xd501e27ea7965;0x38207949a54fa;0x538e467897a4];[0x0;0x96e3bd40aa2df;0x14877eb95a62f;0xf6d56a670d555;0xc35e39bb99c36;0x1c477a9ad2de];[0x0;0x96e3bd40aa2df;0x14877eb95a62f;0xf6d56a670d555;0xc35e39bb99c36;0x1c477a9ad2de];[0x0;0xc4a251b7dc407;0xb0a85693ca9c2;0xe5e22f2234b3f;0xa6013e913ea8b;0x273647275da4];[0x0;0x10c0337ed92ca;0xd965e534ccb64;0xdc8633a1b09b3;0x651338e4210f5;0x146505409c28];[0x0;0x3e0656771d805;0x146b0522e35f1;0xd81c5be9cbdee;0x664c26e2e69b;0x4d71e7b4160d];[0x0;0xf00782d902ec6;0x8cb8b7d5b78a4;0x99b7c77db4985;0xdb255eec77d3d;0xfce8caae1f57d];[0x0;0x7ee3ee9bebbf9;0x999d635e98d12;0x5e360d6ba57ad;0x5d61aa2fd67dc;0x6bc8bdf269de]])]
 [[0xd75e3c2086429;0xabe2a0fc80d63;0x8bace5cebb5c8;0x3da707f1c7646;0xe2659ede016e];[0x57394aea98483;0x813dff0c1d249;0x61ae49bdddac;0x222aa3d75a22c;0x6dc79a3f963a];[0x148b2fb86f30e;0x2b41c29b92a6c;0x71b00bf64e0f1;0xa2cb7a355aa6d;0xd7bc8bfb9738];[0x148b2fb86f30e;0x2b41c29b92a6c;0x71b00bf64e0f1;0xa2cb7a355aa6d;0xd7bc8bfb9738];[0x9b4127e38fb0a;0x5cd6e8412f366;0x6df65dce321aa;0x19073103b4d;0x26aec930d7ff];[0xbbf823070897a;0x246716caedee2;0x982486cdabc02;0x22119ca6566de;0x4718d10ebe3b];[0x0;0xce168ed258c17;0xb7a68d2839568;0x23a777ae67e4f;0x7a34e7ffb604f;0x51371e0aad5];[0x0;0xd6f8c2c98227d;0x14878b097a8c1;0x14ae0415c37c3;0xf816c57f7271b;0xbeca16d8cadd];[0x0;0x7ee3ee9bebbf9;0x999d635e98d12;0x5e360d6ba57ad;0x5d61aa2fd67dc;0x6bc8bdf269de];[0x0;0x7ee3ee9bebbf9;0x999d635e98d12;0x5e360d6ba57ad;0x5d61aa2fd67dc;0x6bc8bdf269de];[0x0;0x4150115432a29;0x3cc6e122c08b3;0xa5b991fcf71d3;0x42cdfba7adcb3;0xf0a4e643e83a];[0x0;0x660f2bcadb61;0x86e554233031f;0x7e662e1516fee;0x1a4f437fe30e5;0x3046bf6997c4];[0x0;0x53f15505cb7bc;0x29d20abaaf1f3;0x8b2c943897d25;0xcd1b027dd24d;0x3511c4feb445];[0x0;0x44353303ad258;0xa0ccd0017febc;0x548743d1be069;0x2d7a9356c7536;0x423465073e891];[0x0;0x6e971b4fd513e;0x37b9c01195611;0x352461c9e047f;0x1e08286187079;0x1ee6bf776ff3]].
Definition wit_256A_64_9 : colwit ept wit := mk_colwit (V [0xb33d1e3169217;0x1f77722a14019;0xd89f9ad460998;0x16a18557bfad8;0x9d18bb4cb967] [0xa8feceeb2ed1;0xeb7e9f40b8f4d;0x606c30980bcd;0x4ff2a7bbb28cc;0x180346f613fd] [0x6975a73272aa8;0xff6b690f513c8;0x455168b73af08;0x416c94a6bd64b;0xe1826593c217])
 [[0xbf4d3b3ad1871;0x979c809b53f5d;0xfdba58485af2c;0x2492b082379b3;0x45b7cb8da59b];[0x3e4638f52f61a;0xc60d74d299402;0x8d60dede016bd;0x78db658116342;0x61076069ffd1];[0x8d3ec31cfc3ee;0x46d8793eab63;0x460a1d285e66e;0x9baae146766eb;0xe90617a8dab6];[0x8d3ec31cfc3ee;0x46d8793eab63;0x460a1d285e66e;0x9baae146766eb;0xe90617a8dab6];[0xfccc01a43aedd;0x7a2dd8573ed01;0x45bc07df22038;0xbff926127b8bf;0x764a0b2daf06];[0x417a3750f44d5;0x4bdf9c7b5a700;0x47a4d6fedf685;0xb8e23f6e9aa83;0xeabd553c50ca];[0x0;0xd859dcc392a7f;0x9f7acd9758be4;0xf2503adc45eb;0x7310f4e63ba97;0x57b923f89a9];[0x0;0x3bed5388ac02c;0x7bde188cfa822;0xb2e44816042fe;0xa328238f58f8f;0x3f75f1043083];[0x0;0x6e971b4fd513e;0x37b9c01195611;0x352461c9e047f;0x1e08286187079;0x1ee6bf776ff3];[0x0;0x6e971b4fd513e;0x37b9c01195611;0x352461c9e047f;0x1e08286187079;0x1ee6bf776ff3];[0x0;0x71b7b4bff0494;0x2948da53b0c6b;0x8ea64bef1db09;0x6ae7e6d5d3914;0xff61da1cce5];[0x0;0xf9c25bf94098d;0x54f57a35b184d;0x519b20b73475d;0xe119d07509ac6;0x3bd343078019];[0x0;0xfe1c8b7d99e17;0x2157eacb13657;0xdb825c446ff86;0xe7501644f682a;0x3b8ae5cf83b6];[0x0;0x23eb6b095da99;0x4b06073ab9f54;0xae12b671ea979;0x7bc5a6ff44148;0x18f1dc751f991];[0x0;0xcec75e03616b9;0xb69ce5da956d0;0x2cbf25c5a717b;0x15281856a1ca8;0xebc54652887]]
 [[[0x45e06591f23ae;0xac691f2b7c259;0x885ec4c90f45;0xd2af179d6689b;0xa4e380a9c613];[0xdd412dfbb4d05;0x7ab6721781da8;0x6dacee8368e3;0x28132517601a0;0xb9a8c2092af0];[0xc1f9c84b86720;0xa42dcdb57077;0x5fd872fb1925d;0xc5e7925f3fef;0xee378a555d35];[0x9e4f7b0387dbb;0x8128dca541903;0xcd90add88a895;0xbe1583af20fab;0xab07e26554c5];[0xafe17d805970c;0x8ff3b5e0f5c08;0x58c42bc7cb05e;0xb4588ee85f88e;0x97173005106f];[0x91b85fbce91c6;0xe46da79f62494;0xba2f931856309;0x63171b5460693;0x2b5bbe5601b1];[0x0;0x1fc9c202b4686;0x70922ae15a42e;0x9a3e194af849;0x8018910eaf046;0x54e4f429eb9];[0x0;0xa030205742319;0xbdd89b9b46ef8;0x979fd4f9a6cc0;0xb8ffebfc13c95;0x9616fcacbbfd];[0x0;0xac9d3846321a0;0x7bfd1b5964804;0xd5ab9d082c45;0x9a86d85e0d627;0xb9bb35723be];[0x0;0x187a360c6b336;0x14364eb53cadf;0xf1087286c570d;0xa012aa8276472;0x273a0b62864e];[0x0;0x5c6d418600f01;0x96e86608859b0;0xd3460a03909ef;0x2fbecadb0f89b;0x5fef6c1aba2];[0x0;0xf6dd4437ad356;0x2d3e1db6e21c8;0x1c3d6d358ca63;0x375d5289c2d9c;0x4bf1776b1e69];[0x0;0x10d3d418d0073;0xc3bc4b9384611;0x1d9551d7aa51e;0x8d4491cd8e3aa;0x6440b2805f97];[0x0;0xbd4971c068518;0x984733f45913e;0xffb989947354e;0xc71c92df965a9;0x1a48bf3e282ca];[0x0;0xfeb6a377c7f14;0x5d97ffb417cbc;0xf95376ae53f85;0xd222378715029;0xdf40ffb1cee]];
 [[0x45e06591f23ae;0xac691f2b7c259;0x885ec4c90f45;0xd2af179d6689b;0xa4e380a9c613];[0x8ef4d48b3e87f;0x392919c608cf;0x3fbaa56886a0b;0xe33ddc566434a;0x3a087cc4595];[0x520be1f802cc5;0x66937127c2d0c;0x2301bc1c13084;0xeee2aa00ac201;0x58e5acc27ed];[0xe0152f5821473;0xd164a4577b050;0xea5feac8c9062;0x5203d80794160;0xff92aff8e449];[0xedffdc48d7459;0xee3e05ce831cf;0x6a6e923851b13;0xc757357bec4f6;0x5c13d4260832];[0x7bce68d2ba211;0xcc963fddd63bd;0x8ebabbd64713;0x2988a9a8ee617;0xde16245a753];[0x0;0x1fc9c202b4686;0x70922ae15a42e;0x9a3e194af849;0x8018910eaf046;0x54e4f429eb9];[0x0;0xa671cec6f42ff;0x7adece1f94c60;0xc169cb349dbfa;0xe066b2aa846f7;0x504ef6d5cf9a];[0x0;0x5b0c5d5b34f75;0xd00a84486dd05;0x58bc9a87513d4;0x70e202e1ea124;0xcf76c0ce306];[0x0;0x14be58bfde22;0x6130883fc3adc;0xf916205b30712;0xe46c72352dec2;0xfdb70d1dbf4];[0x0;0xc430c056efd32;0x1427d911c5c98;0x941194d72463a;0x58eb3643830f8;0x26c802929bb];[0x0;0xbfaf2f295eab1;0x77c9a0b13d56a;0xdb3d66d9190ad;0x7cba8c65c4462;0x54d454c0a140];[0x0;0xfe6f7d8618f8;0x1d1f904e2e5d4;0x8826708874018;0xeede21d0a722f;0xac7376d60c];[0x0;0xa7b89af71ea90;0x9b6b00858ba6;0xbcf2e018a20f5;0x36cae703c7711;0xe27fdde3d0a92];[0x0;0x8c3ac8773bbe2;0x9a32c654823dd;0x1c858d9da881a;0x5132623e43b2;0x27a0046d0c3c]];
 [[0x45e06591f23ae;0xac691f2b7c259;0x885ec4c90f45;0xd2af179d6689b;0xa4e380a9c613];[0x7fbbb4f4f1e60;0xbe4a21a7962c4;0xc352143ab5e7;0x566f7150923b2;0x9fd6c64a1e86];[0xc463a98036223;0x9803e222ccca4;0x2d6fe2cb4742;0x1004ff963df08;0x99b36c188bb2];[0x481a3d2a7ef95;0x9e0242b1a7fba;0x12faff0fd3f43;0xe9d84921eb18d;0x30b731b5a2ec];[0xcbce251706b58;0xf06591431badc;0xb03ddfabcdbe6;0xa6b577db6211f;0x41396bd7044a];[0xdab3b588ed593;0xaccc3be26e871;0x8078c574eb132;0x650159b8e392c;0x34a6fc5cb95d];[0x0;0x1fc9c202b4686;0x70922ae15a42e;0x9a3e194af849;0x8018910eaf046;0x54e4f429eb9];[0x0;0x1398d075b1ec6;0xc346ed55ed4d4;0xb5d9b489717cd;0x74af3c23c4068;0x6f96cde4d97f];[0x0;0xa2e4af529619c;0x99cea0204aff7;0x3eb6844b74760;0x8d45d316390e9;0x475b37ea8ae];[0x0;0x3d4f4f1ea9d54;0xcfd1f20e63985;0xbca7c4851fe60;0x46e45fcbea1a8;0x82ed2855cc9c];[0x0;0xacfd7c0b421f9;0xf44bd71fe5a7f;0xa9d5e1e072424;0x886ed97dd8de2;0x140338eba9ec];[0x0;0xbd1eba6ea8392;0x7d4db1013056f;0x75c69e7bd37ac;0xb50ffc4fc8771;0x1d2d3d71f262];[0x0;0x66389d035e332;0x281743cd5e994;0x5ceb6ec40f3ad;0x85ca9820873d4;0x347ca6fe841b];[0x0;0x56070940b7f94;0x43d9c4ca9c4e1;0x857550cc3b6dc;0x7e871796c3098;0x6b1a134fba495];[0x0;0xc8f14ee502705;0xb1eb1dd1b7540;0x16f9fa1d48155;0xf015ddd9c3b2f;0x225cdacd5b51]];
 [[0x45e06591f23ae;0xac691f2b7c259;0x885ec4c90f45;0xd2af179d6689b;0xa4e380a9c613];[0xe427308b9541b;0x4ddda56e69c0a;0x3fff56b4c41a7;0xeec6a27b2b8e0;0xb489f32fb110];[0x5a0125c5bd52d;0x6a72bec6282c9;0x7d4c4e027d5ed;0xe3071caf7d949;0xc8000120807f];[0x245aeab55e1c1;0x57bb9763bd292;0xf2796ead522f5;0x3cd24bc9f7f5b;0xf46ae9db75e1];[0x2e2935dcc844e;0x52df33d093771;0xd384fbef19ed2;0x86e3f3f19f839;0xb23a4c263b43];[0xc36122e554d5b;0x6e132fc9f841;0x9e6bdc0d499de;0x515e0665e280d;0xe238fb1f312f];[0x0;0x1fc9c202b4686;0x70922ae15a42e;0x9a3e194af849;0x8018910eaf046;0x54e4f429eb9];[0x0;0x518f29c6f25b1;0x52633d1db3cc4;0x2320382fb95e7;0x610ec22ffb78c;0x979925a1569];[0x0;0x1d0d6229577bf;0x15da79a57afae;0xfd4a74e19288b;0xd242d5cad337;0x7e29ac6b894];[0x0;0xc57d51bbdec70;0xa7d023f357c0e;0xd21c0c1183864;0x46a08f8686989;0x403764d35477];[0x0;0xa5c752e987c2f;0x7d247213c1861;0xe200e5dd7a263;0xdafd01347cc72;0x9d0d293ce26];[0x0;0xf96ad4e618419;0x5e8a5240eff4f;0xd2af57d4311a2;0x1987c140d0441;0x33961eada1c1];[0x0;0xfff2e4774e52;0x891affde73ff6;0xd2a4668aba514;0xff23d169b07d;0x944974e448fc];[0x0;0x1377b06812768;0xa4d057a78a908;0x2e1cdcad55303;0x10540af7e94eb;0x85b97c8b71df9];[0x0;0xc41583f3876be;0xe867bcd0b9179;0x19b5c171928f0;0x1394f2dc6a2a9;0x6bd9477ae5af]];
 [[0x45e06591f23ae;0xac691f2b7c259;0x885ec4c90f45;0xd2af179d6689b;0xa4e380a9c613];[0xa6fb70de6b4e1;0x9f64026af98bb;0xb93d14bf7815c;0x4729c8f96f67a;0x1aec0905bc7c];[0x64d468f05450f;0xd4faddfd1bdd5;0x319b997cc5520;0xf4956b73b6944;0x9c984747fa56];[0xd779b2de81c30;0x80e4550261d3d;0x9226cf208f8e7;0xf53e3af695853;0xa2ba28dab09f];[0x8b1d59b9a3fc8;0xd4a8382689db1;0x56176aadfbc78;0xe46968d282c43;0x77676d76823];[0x1baf24fcecb3;0x74c31976c04d5;0x46e7e8b90f09d;0x9b2f38362982e;0x789a011bfd42];[0x0;0x1fc9c202b4686;0x70922ae15a42e;0x9a3e194af849;0x8018910eaf046;0x54e4f429eb9];[0x0;0xca67fe5eebf59;0x3c40fabecbfd9;0x1576f7df2abf0;0x82cdb05c2e533;0x71d395a3a6ce];[0x0;0xb6c8373c28c9a;0xefca9a7a5298b;0xb140295ecf985;0x5dc058489b172;0x13b91c9edacb];[0x0;0x874bb8524890a;0x1892bee25dbd5;0x3800eb2aae130;0x5b7479c946c23;0x5093a60032d3];[0x0;0x408b3497f691e;0xc321df24a4636;0x5a71fe0cacfe1;0xef065299b9327;0xc51034c0158];[0x0;0xb690ead152310;0x50b7961004b0e;0x6cab9f2d3a379;0x8b362cb4848ad;0x81084fb54d36];[0x0;0xf27d6b0b05895;0xaf3cabad89e08;0x5379dc1d87152;0x432f713832cd1;0x6c270dd7fed];[0x0;0x700197ac46b68;0xc8d5246513185;0x2adb3d94c5dff;0xf373449038c68;0x9f05cb1cf7222];[0x0;0x5d55fa64d0691;0xd51d1fc5f205d;0x7c6c8ca9a1a63;0xbb67bcfd183e3;0x25cff948b0c9]];
 [[0x45e06591f23ae;0xac691f2b7c259;0x885ec4c90f45;0xd2af179d6689b;0xa4e380a9c613];[0x6ff5736a145e3;0x300c621b321bd;0x1d99c20261334;0xaa1ce565449a;0xd8aeda0ee1c0];[0xf1fda07695cea;0x35a832edb1823;0x289a2c074cdc1;0x986ef3bc4cab6;0x666f5312632f];[0xdee6b44d4d6f7;0xddcc745685a69;0x836f66bb17ba0;0xdb1a4bc83a809;0x10c246afefab];[0x671c06446c68e;0xcb4d661ac2f2b;0x30c283dad663c;0x13c4c202e3889;0x458f7a6436ec];[0xa207722c02f9a;0x5a81d04a2ae36;0xf612d4f1bce6f;0x3ca0e97d8ec76;0x6a65c97221d0];[0x0;0x1fc9c202b4686;0x70922ae15a42e;0x9a3e194af849;0x8018910eaf046;0x54e4f429eb9];[0x0;0x4c2e5fbeaf4b5;0x830262175037d;0xb9ef23cc3d08b;0xfb0a3c8a53c8a;0x8e3ca251d3da];[0x0;0x518ab56d9ce91;0x234db0f4ca77a;0xc3d10e4f6bbd7;0x6bd3e38e3bcf6;0x60772c0ad1c];[0x0;0x86a9661aae8cb;0xc7500dce8b53b;0xf98c4ce3ca46a;0xdd798fe7d1773;0x5c6abf512711];[0x0;0xde8ac8413c712;0xb77ea6e3ac4e2;0xaa8fa821fae8b;0x504f1471b8348;0xe2053dfa764];[0x0;0x3c8d2ed83cbab;0x8c6651afe8856;0x4ea46b2e6df83;0xfeb117d24bb91;0x27718d05e894];[0x0;0xef5d7bd9cc169;0xe5dfc52f24c25;0x37a962ad62a11;0x1d6ec98b3703;0x4698ce7961a8];[0x0;0x1c4df3d543512;0xc5a155251f940;0xf83c8fd412ec2;0x26b5fcfae5f5d;0xa00c0bea826ef];[0x0;0x91d3e11667b54;0xcce0c91f173d4;0x5c7e391494484;0xe59e829ef5051;0x33a612cd0fe5]];
 [[0x45e06591f23ae;0xac691f2b7c259;0x885ec4c90f45;0xd2af179d6689b;0xa4e380a9c613];[0x4975be87a7977;0x6c491dd4e8011;0xc72d32a59ec3;0xfa1ca967d9eea;0x2e335a7e20a1];[0x90ddc21526d6b;0x90fe8c639c67b;0x4bf1675ebc7f3;0xcccdc98b63558;0xed90aa924aa5];[0x6a5904d1a6628;0xb3e1d3ab6ddd6;0x97ce478151a9a;0x2285150ad5c36;0xb91194e60631];[0x57d0eec451f10;0xe17fbb4c734;0xd729cd93f424f;0x8ebf566add035;0x1f774275e19e];[0xa3968344415f1;0xcb5a9247049a4;0x9137515144d7b;0x4e7e61ce8fa29;0x9f4a0fbeb7a0];[0x0;0x1fc9c202b4686;0x70922ae15a42e;0x9a3e194af849;0x8018910eaf046;0x54e4f429eb9];[0x0;0xf8e8f27ff4b8f;0xa91fb87139287;0x5c49370029324;0x579a79028278b;0x4ba598afad51];[0x0;0x9aa5bbb9fd57f;0xfb4e05be50eea;0xb491f6569b5a7;0xda45610553507;0x7d2d3dbcd36];[0x0;0x765e2b70027cd;0xd4950bcfdeae0;0xadb602354b3a;0x1262ae9b73639;0x6147cd228185];[0x0;0x450307f7e4e63;0x80a8a937f5f8e;0x8eed8488246f9;0x1c57ef611ce2;0xedea3864d2b];[0x0;0x5c7751614425d;0xb2d7774e8108c;0x3967dadd495f7;0x194d94ecc89e6;0x332ee742eec4];[0x0;0x9d49e9b14c7c3;0xe24f385c867cb;0xe533955833120;0x9c08a4c2dce35;0x17fe82288289];[0x0;0x2e881633de60f;0xfe80f6c68b49;0x8b1d0751e3450;0xbc5bbff2bf68;0x32f60d14f1562];[0x0;0x7646bb42d607b;0xba6bf48b70a9;0x1563e87a84d6e;0xd206141dcee19;0x192d4ddb3994]];
 [[0x45e06591f23ae;0xac691f2b7c259;0x885ec4c90f45;0xd2af179d6689b;0xa4e380a9c613];[0x185577f9d998e;0xa51779df636c7;0x3a69db968dd0f;0xa9e526e46017d;0x1f7ddad60e3c];[0xe177389775d43;0xd72577aea9719;0x4302a0c1aeaa2;0x627bfb78320bc;0xb849204b03d4];[0x2b8ba792e90f7;0x53fb9b7748836;0x282cef8a8e174;0x72f7323b77bf2;0x69f36c94939f];[0x297974d7e8d7b;0x4b18065664e52;0x54687187f8d68;0x323e4448f8e83;0xc120bfc34160];[0xb17c6df06ebe8;0x998a4b3a289bc;0x84b4aef64e5a5;0xef5d39a71dc99;0x757f5678b48d];[0x0;0x1fc9c202b4686;0x70922ae15a42e;0x9a3e194af849;0x8018910eaf046;0x54e4f429eb9];[0x0;0x879d0f12b80aa;0xe65ef61fd88d;0xb8b09a8772775;0x205e71dcecc0a;0x26ef552b64e0];[0x0;0xe296806797ba6;0x58eda2909eaa7;0xf64201fff83c4;0x3668e369d0e41;0xc7892f5cee0];[0x0;0x815a67140e76e;0xab4fad67789b0;0x3c7273722445a;0x86e139818d25a;0x1dbfbd47390c];[0x0;0x539a70cdfcf5c;0x335d68b94f6da;0xe8d52cac8bfd4;0x3bc3ca70080e;0x48c1818664d];[0x0;0x601a81695f5c5;0x82a3859e2cf24;0x220b5c3886c19;0x3bbeb0f671721;0x5196773953e1];[0x0;0xe30da5641ed85;0xac3e1b67de3bc;0x84bac60390dc3;0x9e8b99ff6df75;0x13c0edd8f6bf];[0x0;0x618be9f21af1c;0xfae17cac6ce6a;0xf01fa1b924eea;0x4f0ddaaf33781;0x2fb1fdfb2adec];[0x0;0x83ea97177ffe4;0x12469c4a4bc14;0x58986e81e60b;0xd21836b683988;0x1c5cee984109]];
 [[0x45e06591f23ae;0xac691f2b7c259;0x885ec4c90f45;0xd2af179d6689b;0xa4e380a9c613];[0xbd81029d5f91d;0x169bc3fa87061;0x52443017dcfa6;0x35201f1d458c7;0x821a4c5b9802];[0x844ef676c059a;0xf1ec8b471ba40;0x6a04f97326ecd;0xf3fdb6966e0a6;0xb05ce7ad5293];[0xda9b93e7c2e86;0x8e295f4b82b68;0xae9bdccf00ccb;0xb92245c067794;0x4533e2250eb6];[0x38633aa96f3ef;0xbbd33ff0c6448;0x963e59c4c58db;0xd648c18da7004;0x2b167dab17a2];[0x6f29519fc33d0;0x49778ce17b9aa;0xcd90e3c816598;0xef5c3bb75e790;0xd9b87e045912];[0x0;0x1fc9c202b4686;0x70922ae15a42e;0x9a3e194af849;0x8018910eaf046;0x54e4f429eb9];[0x0;0x289230c5fb37f;0x45d601ced57d6;0xaad6a07e16e13;0x95267f0fa9249;0x1072844f154e];[0x0;0x2f71124a4590f;0x8b3b577cee01a;0xfb868774e0a36;0x44a2e52c992f6;0xf0ffaaf96a1];[0x0;0xdb450dbc17fd1;0x23109da211e91;0xa9f586de90fb9;0x286846a2a066c;0x1bbf6acd3880];[0x0;0x553aa64266fa4;0x8dd8ed4e90554;0x535d26bc90c90;0xf19cededc5bfb;0x43dc8a529a8];[0x0;0x893614ee5edd3;0xed35b015baba1;0x114d026e24150;0x762e89d40f44b;0x628a98bf9d05];[0x0;0x7230f3f21a45a;0xbfe5c8d744366;0x40fc15466bbd2;0xe738917667cc6;0x5f0b9f22686b];[0x0;0x3d8068ad1ee76;0x6b53632e75085;0x25c1038cac3aa;0xcb04bcd90eb74;0x5c28788297a4c];[0x0;0xb352dda6995be;0x3b25185976ab5;0x77fbfc8cd61ff;0xfbe42f34118f0;0x415150586cf4]];
 [[0x45e06591f23ae;0xac691f2b7c259;0x885ec4c90f45;0xd2af179d6689b;0xa4e380a9c613];[0x85a0c7972d368;0xde44d3ca3c7c6;0x331f3024cfc75;0xf2ff5ad88f421;0x1918305f60cc];[0xd262e0aa2c51d;0xe8420c5b874d7;0x8a1549c97bfa4;0x8e4f787795239;0x990b65d199e2];[0x9f8d2d4dd652d;0x9b26bbb18d6ca;0x99c1a2be3df2d;0xf6d882df891e2;0x83065fccc487];[0x60ce49772fde7;0x69d4671382063;0x3d0f44c0dacf6;0xf67fb9d55d06e;0x653dd7c12c8d];[0x7c004f10e7cbe;0x2deaaabf86593;0x7d1d102792b7c;0xb2e8388a22158;0x36dd33167679];[0x0;0x1fc9c202b4686;0x70922ae15a42e;0x9a3e194af849;0x8018910eaf046;0x54e4f429eb9];[0x0;0x3b0816aa6f084;0x4add105aaa886;0x80fad9f99aa63;0xd28fce6b46df1;0x8513be40dd6a];[0x0;0x93f6aac9d7c18;0x341ff34f376dd;0x744a1eb664c57;0xdaed2c9d5a08c;0x118ad6c786e3];[0x0;0x3b9c4b55fb265;0x227cc944b0c4c;0xfabfad5f98b3f;0xc094381593a6d;0x36ddff165921];[0x0;0x4bca8cf7cb38f;0x46696828f4fa3;0xb1cabb766b81d;0x5bc8ff8ac8611;0x862fb9cbb90];[0x0;0x537fadddec6c3;0x17c81026a9aed;0x348fb2faf9cb8;0x99d3f8d882373;0x72c3fa439d2e];[0x0;0xb48f16a92ca71;0xa3ccaac983286;0x2d3db8e2cea6d;0x369af07dd12a3;0x664aa5983b0];[0x0;0xf08da9ef4a2f0;0x9898fa979ebd9;0x8fc04562cfebb;0x717740c099a94;0x53c64f2267663];[0x0;0xb8594923925c1;0x9feff44992416;0xc2ca0f4d5018;0x1e5dcf2c0655c;0x143437706a73]];
 [[0x45e06591f23ae;0xac691f2b7c259;0x885ec4c90f45;0xd2af179d6689b;0xa4e380a9c613];[0xf21bb95ebac60;0x653134d8d2c6d;0xaf43430377649;0x70014c68a14f9;0x3c118948614c];[0x7e0ee50995abe;0xf9818e7cd7f16;0x4308690f51f2d;0xb243c8a26c348;0x712f9fe0c75d];[0x758ba1aedcb35;0xf8d22925d54d2;0xdde5f0a2f67ea;0xa2ff7b0f47d9c;0x39c556b00cde];[0x1540269fa9a6;0x8c7485ebd1e8c;0xc69bc79ea791c;0x524c88633f80a;0xdcf042a18be0];[0xd8381d8dcc78a;0x86832c0ffaa2f;0x950ebb4272996;0xaee107a3d4344;0x4e7f49283f21];[0x0;0x1fc9c202b4686;0x70922ae15a42e;0x9a3e194af849;0x8018910eaf046;0x54e4f429eb9];[0x0;0x30ccfdcf18efe;0x70a88924982a5;0xafe9237950157;0x23e4b264c803d;0xa3145d0cb314];[0x0;0xd887dd789c25d;0xb1784cf266d3;0x306469254588a;0xf0b5958906e40;0x61e1e21e02b];[0x0;0x16387287e923;0xee86b36cefe01;0xfe5a504442680;0xd77d01a3a041e;0x30aa63f9ccbd];[0x0;0x5c2b9148f8010;0xe5a36fee84f57;0x19e4d8f3ae845;0xc47810e984a6b;0x7704fb6fae9];[0x0;0x4252edc5ac0c3;0x430450c4ef3cd;0x2bfd82505916b;0x833631c21657;0x2805dbe859ea];[0x0;0x14b937962c3f1;0xfb94c32c388dc;0x8cc636d73d654;0x234fc16cca8;0x9c394fc57b];[0x0;0xa46a3630fc293;0x7f1ae114e76d4;0x516ad2f717d12;0x7b391a1d34da6;0x67ac708fcc70d];[0x0;0xf4d921279b4b3;0x44b0956ee0f7a;0x141d5738d03bf;0x3f7e61c7e8638;0x1015247e3b1]];
 [[0x45e06591f23ae;0xac691f2b7c259;0x885ec4c90f45;0xd2af179d6689b;0xa4e380a9c613];[0x420c00310bc29;0x6d55573b0a197;0xccd891ebc976c;0x165f422d59ad7;0xb7413b691ec];[0xf2b702826def7;0x821cb669a08a4;0x953e4f1e4e001;0x6727e280cc37b;0x5ca07ae41c41];[0xb59e7f3c8462e;0x410e1c9993faf;0xe016d0ea39f19;0x3b83668a33390;0x1f013831d816];[0x45538235ef06d;0xfdfc8703e14e3;0xaed281a2be657;0x6435754ec2462;0x567c74753c4b];[0xbf2314b43ea66;0x8fe6450a22108;0x571babba0bf31;0x4e0b907a491cd;0x2dc289dcff08];[0x0;0x1fc9c202b4686;0x70922ae15a42e;0x9a3e194af849;0x8018910eaf046;0x54e4f429eb9];[0x0;0xee447ee836f23;0x30756a4f53000;0xe0e82853da20d;0xe73256028d8b3;0x916a7af79ef7];[0x0;0x8dc4093fe37f5;0x1c71fb1953bea;0x7ff7fd4a27629;0x4bbdf787988b1;0x3e739ad321];[0x0;0x18ba9a348c1ad;0x92246b5fa4772;0x13cae053de64;0x583439c35a269;0x3cb742a7e827];[0x0;0xcb4ca54d643de;0x54b13d37d0daa;0x6e76adb605c84;0xf2c03af5e6132;0x947d860ef0c];[0x0;0xefbf922687dd0;0xa4d89ab89c8a3;0x3444d5eb8745c;0x7003ee9494006;0x1989225803d];[0x0;0x523885c9d83fd;0x428162714aedd;0x6b437e7350534;0x87ae827a3ddb1;0x624c40120d];[0x0;0x2340d674818a0;0xb9ad0aa519de6;0x1cdfceee68b29;0xeeadbfc598c5;0x2cacc261afdf3];[0x0;0x4b405fdc105db;0xfd29b8e8ae20a;0xd9491734423e5;0x300eb12318b1e;0x169d0c49148]];
 [[0x45e06591f23ae;0xac691f2b7c259;0x885ec4c90f45;0xd2af179d6689b;0xa4e380a9c613];[0xacc87a0808ce9;0x1e1e10ad45d3f;0x6b896dcbbdd1a;0xe9149d2e1352c;0x25f442a5af32];[0xb0b5c2751e1df;0x989835d757719;0x7b744f2da3728;0x11192961e04f0;0xfca97dde720c];[0xd3b32ab6a44f6;0x4ed77767a818;0xe3909c71b329b;0xe5231ef49fc8a;0x44e51c873938];[0x388906476ebff;0x6202013e4d5f7;0xdbdb4fd869d23;0x8ba51dc34a67e;0x12bfa5e2caf7];[0x2a43d4869a2b8;0x953e1686784da;0xe1b67f50a9ae6;0x1ef708ad1d4f5;0xc096a63942a6];[0x0;0x1fc9c202b4686;0x70922ae15a42e;0x9a3e194af849;0x8018910eaf046;0x54e4f429eb9];[0x0;0x28edf9b12ee67;0x169f4e24b14d0;0x90dd128463356;0x687297cb9471b;0x1a5af99ae31a];[0x0;0xc04e179a15017;0xb57ac3f6603cb;0x6d526d2d9faec;0xbe188e921defd;0xce1660517f];[0x0;0xab7986b19e1d8;0x765dea77ea597;0x26b3741768640;0xfae81587ec4fd;0x19dedb49784f];[0x0;0x5ee4ebbce105;0x467564a16ff1a;0x4860170d58e16;0x8b697179ea8b2;0x3f4540af6f5];[0x0;0x5513a1c32bd68;0x2840cc95b2baf;0x90a37cbbb4d52;0x99dc918c34636;0x54443f9dbb2];[0x0;0x92f7ca861298f;0x6f8f0696c7db8;0x89db3faee1f45;0xba6f555680258;0x52454ef5dfe];[0x0;0xc581d5d7abd99;0x20e728d66a92a;0x626ba47c7bf46;0xad60cb52188d7;0x83fd2b8a6088;0x1];[0x0;0x13cfa34548259;0xcdbe7923fab54;0x98c438a5833dd;0x98612871908d;0x21fd85b7b05b]];
 [[0x45e06591f23ae;0xac691f2b7c259;0x885ec4c90f45;0xd2af179d6689b;0xa4e380a9c613];[0x7d009665120df;0x47a52f2531c17;0xaff77d2ea3715;0x8d2a60d5cfebe;0xaa3749d6198d];[0x2b8929cdcb42c;0x12136d81319be;0x7d26fb8653beb;0xb57197e4d736a;0xbd125c0091f1];[0xcc1643644d274;0xb895d41bde1d5;0x6d9c35d916b8a;0x65c9162e663e0;0xbd439e25d6b1];[0xff0a1e02e4aa1;0x7d02b861c8076;0xea83af37176bd;0x362bdf3e24d64;0x5ec201209752];[0xab2df9271184d;0x947cae833892c;0xee7d82a881ff3;0x6ad3034ef74c1;0x6d22582edcbf];[0x0;0x1fc9c202b4686;0x70922ae15a42e;0x9a3e194af849;0x8018910eaf046;0x54e4f429eb9];[0x0;0x93ae571bb560b;0xd75ba7a3f82d8;0xf614f77861889;0xf75d21807ae4e;0x67fc867bb805];[0x0;0xfe666a5523b9;0xd71530b74efc3;0xdc63c20f98e18;0x9067236f8d609;0x340d0e0421e];[0x0;0xd706295a64ca7;0xdd8017aa3dc7c;0xe9ca7f718e17f;0x6b1e413502fe9;0x99f67c38c106];[0x0;0xc80b31d2ad4ae;0x4b6c81410d9a6;0xfe43ef8a31cdf;0xf31472ac3425a;0x1788a69da3e2];[0x0;0x41f0e6ff1c20;0xd5026b4791bd6;0xd12e2efd599b0;0xebf7f37679075;0x15487348b651];[0x0;0x8b85bd0c65160;0xbd365ba8914f9;0x161362bef0de5;0xa35cebcdabe91;0x57dbcd2f0ad8];[0x0;0x60b1f41d2a83a;0x9513248658c0f;0x69c120bb54be6;0x4dc2a1c297b8;0xbdb9c3d7c92c3];[0x0;0xbe5e3b91f25e3;0x1157f1fc4710e;0xda430e24ffcd2;0xddac73511ccf7;0x5feb79595d7d]];
 [[0x45e06591f23ae;0xac691f2b7c259;0x885ec4c90f45;0xd2af179d6689b;0xa4e380a9c613];[0x707e6576768cc;0x6fec6e6725a41;0x8f5004e1f5519;0x39b188d3b5d13;0x7ccfd49014df];[0xcfd2734ae2c3d;0x9edd4e59fab3a;0xabac73ffd657a;0x5a6cfa08d056e;0x47ecca579602];[0x59910f634c279;0x2b3fab9f0e3c3;0x99c507b10e5d3;0xc365a59f00cd6;0xc020819999ee];[0x41de7211911b5;0x5b0d02e0f2835;0x73a9854242e9e;0xac4f8b0f4b58b;0x9dec0d8340a1];[0xb03a0cf562202;0x12f085713d414;0xe4e5edc3f5691;0x819b1831e3d7;0x40f0926421d1];[0x0;0x1fc9c202b4686;0x70922ae15a42e;0x9a3e194af849;0x8018910eaf046;0x54e4f429eb9];[0x0;0x6d00489a6417e;0xab8c24037c89d;0xc22ae9c1b0d66;0xcf12f92f50376;0x5c53ddc92c08];[0x0;0x8e89312837a47;0x39f76616c31d6;0x9d536446bbce7;0xad53630c5059;0xc64f9d220b5];[0x0;0x2705e024dea3a;0x4e733749ec3fd;0xe0c49074c1876;0x913e19405f274;0x7209d6844e55];[0x0;0x666fd19b817dc;0x935d31e219ade;0x608bbe8f943c2;0xef68798c6ae13;0x116e63084a05];[0x0;0xf65630922c770;0xda778d6525ec5;0xe076c3587cf32;0x6c10c5fb3e7;0x5116401527a0];[0x0;0xd17dbf9f5aa47;0xaa5f8ed2806a5;0xb7503ab7a64d9;0xa6ada36bdc2f9;0x4cad3305a67b];[0x0;0xb3fe1d369b72;0xcb9898e5f3db1;0x5a1acb1d57153;0xc233a19dd462e;0xa6937e1d009b4];[0x0;0x47b62aa4c1679;0x6dd9f0ccc66c0;0x30054c9d39684;0x9928c469a1617;0x63287681aea8]]]
 (V [0xbedd56ca6da75;0x682dffead19ab;0x52087e53690d;0xbadaa5f74b161;0x48b7bad62c6b] [0x26b2c93fae3f3;0x55dc3be17ebf2;0x94479f689d057;0x53cda6b70dfc6;0xf4bc8516921c] [0x9663504d18827;0x2b49c97037f6a;0xc7f63cc348622;0xa6fa16f02348d;0x54af668bec87]) [[0xbf4d3b3ad1871;0x979c809b53f5d;0xfdba58485af2c;0x2492b082379b3;0x45b7cb8da59b];[0x309140bd2c382;0xf9d07f5a5d447;0xfbdca043e4b5;0x73ebf3583c34e;0x54d453a0a3dd];[0x1cb7cc187f163;0xc8a9ab5542444;0xf84f26e2a407f;0xa4dcfc3e9899a;0x926e5bc16a6b];[0xde3d341af4ecc;0x8026f0c709969;0x68c91c82f129d;0x6d8edd68850fe;0x1f46e2319e5];[0x6989580bc725d;0x5b8aa58385b3d;0x2460fb2e70c06;0xefee201549c0b;0x7ae6ffe7b7b6];[0x5eb0cd3e5cf48;0x37263ebeebb0b;0x797f291628690;0x91e733f8818ed;0x43f8339ead3d];[0x0;0xd859dcc392a7f;0x9f7acd9758be4;0xf2503adc45eb;0x7310f4e63ba97;0x57b923f89a9];[0x0;0x203eaa78fe93;0x9f9c18964592d;0x2d2e6ecf69777;0xc04c2dcef3eb7;0x3b1350a98b8b];[0x0;0x2dd07dcdd1eea;0x5a904c1ac1296;0xbd5e18faa444;0xc611fefe6d3cd;0x27452645fa0e];[0x0;0x8d713a9a435ec;0xd526b2b0933c2;0xf43da03426359;0xcd9cdd0f3a22d;0x4e06d7e98d2e];[0x0;0x9d81ad4efb9bf;0xe536bb69545f5;0xd460b3cdf109a;0xbcba36f7de52;0x284d8c5148bb];[0x0;0xe7d8f75f1e288;0xea167a6acb796;0x44eb80e80e2b2;0x6964743b8ca16;0x4c06f7451809];[0x0;0x5c4a3dd2f12d0;0x2caf78b8dff9a;0x97f9f7a518a7;0x3c4964536208a;0x1818993632e4];[0x0;0x1e816bb172f5a;0x754b5763d846f;0xdadead468718d;0x7ea2b46f822f;0xfef6bfec3639e];[0x0;0x4d120b017d858;0x269b9b8c5e3cf;0x29701d16e65e2;0x7525f8e8b8e80;0x4584aacf34fb]]
 [((V [0x3aa9c9e4957f2;0x83c32c41034c7;0x52eec973d721d;0xe4629f22fe7fe;0xdec712b16da1] [0xb7f587132e4e4;0xca69648b7d20c;0x90b7c761e9984;0x773986fd902b;0x4e540a07b6cc] [0x8c053e9deee81;0xe53dc35ce4182;0xb7499e965b8a2;0x61dcb7ab57930;0xfd4901b9f4e8]),[[0x661340a36ba9c;0x34099eb51f690;0xa8d5dce711271;0x8cda2586fc823;0x9cf243510f01];[0x25e148cdfb85;0xf9dbc3ce6aa85;0x544d9ed3e7a05;0xa26d1bb5ec8bf;0x84f353c532f0];[0x9663504d18827;0x2b49c97037f6a;0xc7f63cc348622;0xa6fa16f02348d;0x54af668bec87];[0x9663504d18827;0x2b49c97037f6a;0xc7f63cc348622;0xa6fa16f02348d;0x54af668bec87];[0x541a17cb3f66f;0xc416b2a90d312;0xfc281ab077bc5;0x1016694b3ba28;0x1fd8b0fb9745];[0xae43fcc1a0517;0x35c511255d772;0x582584236fe40;0x9256b26ab0e96;0x651aa2c99bab];[0x0;0x4056608f02e87;0x4d4564548fe20;0x82d0f95b21293;0x74cf994239ecf;0x1fe15719e37];[0x0;0x63acbfbcbb599;0x7113f6dccb6e6;0x96c266a896533;0x1d734547069f6;0x33eb0690ecb5];[0x0;0x4d120b017d858;0x269b9b8c5e3cf;0x29701d16e65e2;0x7525f8e8b8e80;0x4584aacf34fb];[0x0;0x4d120b017d858;0x269b9b8c5e3cf;0x29701d16e65e2;0x7525f8e8b8e80;0x4584aacf34fb];[0x0;0x470b8663d0ad6;0xb15683bc6e331;0x1f815226f67cf;0xf29fb3038d19;0xe9f7e886c4dd];[0x0;0xef499b7681eee;0x99d1e6907a3e7;0x97d451c78f29a;0x6daf94bb6137;0x14a7dcf51f8c];[0x0;0xf552c6d729c52;0xbaed1a8493335;0x2c877d63b31df;0xbd2498c0c5ce1;0x73b265806187];[0x0;0xcb587588df1bb;0x1c547f1db1d23;0xdf2ec6786972e;0x84852722ee319;0x50ae6e1f00e76];[0x0;0x47bf2f1bc5a11;0xd83e11ab0305b;0xbd87ee4e4cd77;0xd240621e37478;0x4429c9beaede]]);
 ((V [0x7762571dd4141;0xc9a5dfd57272;0xe667bde2c6e65;0x300ca69ada066;0xe664576cd74f] [0xe3c70e5b3a196;0xf175af78eb656;0x6eacc707bb31f;0x8092bb8cb91ed;0xf7d786fedde9] [0x56b178ce17d2a;0xb5cc45072159d;0x7ff807b6bd536;0xb30199c93dc5f;0x87b3761014bb]),[[0x180a0ba68a5f4;0x4d8e4b7c93613;0x7ca1e0fa3d94d;0xb5eeac0b74743;0x955af922b20];[0xc535b037d830e;0xb23ae56fc8ba8;0xc5984e9faed19;0x47f10b4264315;0x7935612cec18];[0x8c053e9deee81;0xe53dc35ce4182;0xb7499e965b8a2;0x61dcb7ab57930;0xfd4901b9f4e8];[0x8c053e9deee81;0xe53dc35ce4182;0xb7499e965b8a2;0x61dcb7ab57930;0xfd4901b9f4e8];[0xead486e58d0b2;0x33b6dfdc97449;0xcfdd579ce99c4;0x1779556d4ff67;0xf01de329d60e];[0xda6129524aff4;0x7e8405933175e;0xf5baf702c5355;0x3077b5d5143ad;0x89177e03160a];[0x0;0xd339f77d08991;0x7d8d8e6cc72b2;0xc08a8d880f9a5;0xc69ccda8bc00f;0x5f59c915aae];[0x0;0x6c042dde4fb0a;0xcd1c4b7fa37bb;0x157fb235c4e8;0x377cfdddd0718;0x93c5802a2d7];[0x0;0x47bf2f1bc5a11;0xd83e11ab0305b;0xbd87ee4e4cd77;0xd240621e37478;0x4429c9beaede];[0x0;0x47bf2f1bc5a11;0xd83e11ab0305b;0xbd87ee4e4cd77;0xd240621e37478;0x4429c9beaede];[0x0;0x6dfb07b342052;0xec7cc6910fd1d;0x2d00556d5170a;0xe4f2c7045f136;0x17f751b348d8];[0x0;0x8397117108fb0;0xf250e1bc2791a;0x1d162913aef41;0xa82faa430b6b8;0xc1dddf39cb5a];[0x0;0x70f559792513b;0x2d771eeca7dc1;0x52b1baa84f6d5;0xa0243bb7791b2;0x6d15778cfe26];[0x0;0x156906f6fb3e1;0xee716fbf8532c;0x686ca2e1f9ef6;0x42701dc2e1de1;0xffff76a6b2b16];[0x0;0xb71c39a2f4f4;0x76ac0cc8d5eea;0xb5e03f81173ef;0xb61164c12cca4;0xdf0cc81d552e]]);
 ((V [0x7aebd47bcc192;0x1ca1c338e5169;0x61129b8d52c75;0x3d6749797e956;0xf8dceb9f5201] [0x4b7507ceaa6f5;0x32a82910286f7;0x9a2da2e61fa9c;0xc7d590c2673f4;0x3a954a843d7] [0xad85cbd9daef2;0x82a6280aff9a9;0xd1cca8bdba9d2;0x87f3fbe48df0e;0x823fc1029a53]),[[0x5d92d5dcbe4e8;0x5df1c4c6fa395;0x1c259ee7f2966;0xbea9109b0fdff;0x76c70784ccf9];[0xa0fd61d056a5;0x17fed96fb5296;0x77584485d33ba;0x322d921b18147;0x372adb5de2c3];[0x56b178ce17d2a;0xb5cc45072159d;0x7ff807b6bd536;0xb30199c93dc5f;0x87b3761014bb];[0x56b178ce17d2a;0xb5cc45072159d;0x7ff807b6bd536;0xb30199c93dc5f;0x87b3761014bb];[0xea0a1c695fbd;0x3a30c3aca0584;0xae167e7017f23;0x684703190cfd1;0x4c4c1d4240eb];[0xfb6f34566f480;0xddce15c314d11;0xc941c615bb496;0xc9e68f020b175;0xeadebe1ba1d7];[0x0;0x8c6a4ba38b5aa;0xb81b8fc43fd7b;0x213db155a0c6c;0xe8e913d19be93;0x3315e0d8a1d];[0x0;0xdec3ccaa1af4d;0xccd52c7c11058;0x9f528b94f59b5;0x57fa2bdeac9b2;0x3ef638e87d79];[0x0;0xb71c39a2f4f4;0x76ac0cc8d5eea;0xb5e03f81173ef;0xb61164c12cca4;0xdf0cc81d552e];[0x0;0xb71c39a2f4f4;0x76ac0cc8d5eea;0xb5e03f81173ef;0xb61164c12cca4;0xdf0cc81d552e];[0x0;0x36d44517b7ff1;0x80edba3d76359;0x50f248423d45d;0x225eaab250149;0xeff19bf3d781];[0x0;0xce34fcc9de427;0x35e775c7b0d18;0x6ea67fe462eeb;0xa8d277cfa7dba;0xcf58746bfdc5];[0x0;0x6f702bce1768;0xbf34f2e4a6b1d;0xcaa0c8b2ed9a9;0x657eb1593fc46;0x35a1201e2505];[0x0;0x37a04c1e7dabd;0x3ef3dbec03f12;0x2eb0b9816e63d;0xcd3ef2fa2b9c9;0x3d74a11143f7];[0x0;0xe2d3ba7a37978;0xd12c4755977d3;0x770cb575f8c38;0xa377e4f87451c;0x38f32e67a61]]);
 ((V [0x966b987ce257;0xe93b35ce3e0a7;0x38122b09bc5ac;0x50f1c690af939;0xb4afb68a1fbd] [0x2be14c6d414a5;0xff06ca043cb99;0x202afc5ee4d6f;0xfa6757ac1ac15;0x64065323c930] [0xd3782e3b6458f;0xf0a3480c8d306;0xd90a7b3253ba5;0x1e1761fd01cae;0xd34deada9d00]),[[0x70b6e3929e6e8;0x59d136c1e584d;0x1423378b2fa05;0x6068026e326cb;0x6450e4b888aa];[0xa283ca3fac243;0xe9f0066ee3270;0x11ae7cf848a6c;0xfed74505feac6;0xce319d61a684];[0xad85cbd9daef2;0x82a6280aff9a9;0xd1cca8bdba9d2;0x87f3fbe48df0e;0x823fc1029a53];[0xad85cbd9daef2;0x82a6280aff9a9;0xd1cca8bdba9d2;0x87f3fbe48df0e;0x823fc1029a53];[0x7383a1f2c98c;0xf7a479629262c;0x4fa90b21240d7;0x36203df12dae6;0xc29f9dcc9440];[0x9b4b90207f8b8;0xf24b8d0c50c44;0xc20571d724994;0xc8b70714d0fdf;0xb91ff951244];[0x0;0x5d19165802c52;0x47001dd38d64a;0x300b9c3105c0f;0xa890c1db70401;0x310874b962b];[0x0;0x11c17ea853efb;0x1a9e8c3eb56c9;0x276047cb2fffc;0x74737cfdd1c1b;0x330a0fb0005a];[0x0;0xe2d3ba7a37978;0xd12c4755977d3;0x770cb575f8c38;0xa377e4f87451c;0x38f32e67a61];[0x0;0xe2d3ba7a37978;0xd12c4755977d3;0x770cb575f8c38;0xa377e4f87451c;0x38f32e67a61];[0x0;0x7b107b3ec921b;0xacc0cf8d4b6e;0xeaeb751ab2e73;0x7cb391b2c6e06;0xd67fcd3bf];[0x0;0x541a0d1971f54;0xdc5697cbb2b3f;0xe750008ec5b0f;0x3ccee66c609d0;0xf1ecc72a8195];[0x0;0x26ed550dea188;0x57cd50228d354;0x32227f730f6a7;0x190224a372582;0x91886999c509];[0x0;0xafc098da15992;0x9863e69d94601;0x83d11f155f17b;0x314d014a5f1a6;0x653db0bc59e0f];[0x0;0xa541e4700341c;0x51aa84853915;0xab8bfb7015ca2;0xf73c4503bd015;0x46991a1a75d7]]);
 ((V [0xa7c2f34664b3d;0xe20c388ad5696;0xb331a53691a22;0x4823502d4c003;0x7bf302ed295f] [0xcb019bb085dad;0x9e89641dfde1d;0xf68eeffd93b48;0x766e5e3aa4f55;0xcff3e3a380ee] [0xd5453a1631c37;0x25c3234a30b04;0xbb74c29c49299;0x4fd632e1d54f5;0x81fee0851787]),[[0x38273e57c2869;0x1d8ee98f86e62;0xed95924085c9e;0xec6d86a4afc9b;0x6be2c1ac2def];[0xb40b7f46c313c;0x42acc07cacafd;0x4401884a6d3ab;0xe9be383b028f7;0xb5d1da17e63e];[0xd3782e3b6458f;0xf0a3480c8d306;0xd90a7b3253ba5;0x1e1761fd01cae;0xd34deada9d00];[0xd3782e3b6458f;0xf0a3480c8d306;0xd90a7b3253ba5;0x1e1761fd01cae;0xd34deada9d00];[0x757d48192f1bc;0x5547efcaf8689;0xaebd5b05e95a6;0xa75d9ef503abc;0xa99757782466];[0x3e8e372d93f81;0xed64d0b1b4474;0x95442d4483e04;0x42609945fee3a;0xc3a829fc1d8];[0x0;0x431a575b3f414;0x50b26697cedc5;0x3de198bbb1e53;0xb48c52dbedaaf;0x4f8bfab420e];[0x0;0x7e633bdced84d;0x5b934e29b6f38;0xf1b69c6ed327c;0xfd19d4dff1d9c;0x590cbbce90f0];[0x0;0xa541e4700341c;0x51aa84853915;0xab8bfb7015ca2;0xf73c4503bd015;0x46991a1a75d7];[0x0;0xa541e4700341c;0x51aa84853915;0xab8bfb7015ca2;0xf73c4503bd015;0x46991a1a75d7];[0x0;0x1aedce7f721eb;0x6d3144fe41ff2;0xee5c0fe743696;0xeb62dd37fea8f;0x2714f11bf5db];[0x0;0xad55a3a1fb870;0xce190b088bb21;0xd82a0c74edb7b;0x4e5014eb61528;0x7f87914d4fa2];[0x0;0xf3740d6da9f4d;0x479341da90cf9;0x58e4bb10f4dd4;0x27fcc75d6a9c8;0x58086c0f94ad];[0x0;0x922944a6f5676;0x50b8ecd24bd51;0x8f343b8d49f6e;0x17f85c946ab08;0xd3b8036a30366];[0x0;0xd430e38e7874e;0x883b2bf890416;0xfea6c17cdab1;0x70319c8c47a83;0x64af95413152]]);
 ((V [0xb7981f36e958;0x89c4fe87b313c;0x8f18b87887946;0x2fd3fe6143571;0xa193154e22b6] [0xd9a1ed8bf8dbd;0x21d007a21cbf8;0x867e0dab36ab6;0x1c441f93acd88;0xbab7d7120fbb] [0xf7f65831273b2;0x630861b40b2cb;0x68bae37c961e2;0xf125973a3c7d4;0xec4e624ba993]),[[0xe275a7d499862;0xff6e2ead2621f;0xa02dcfd98c580;0xe145fea3d5eeb;0xcfc9f70c6de7];[0xdb8962e38567b;0xbf7322717828e;0xe2e03d84e461b;0x84dd80c11939f;0x5882e1d534ce];[0xd5453a1631c37;0x25c3234a30b04;0xbb74c29c49299;0x4fd632e1d54f5;0x81fee0851787];[0xd5453a1631c37;0x25c3234a30b04;0xbb74c29c49299;0x4fd632e1d54f5;0x81fee0851787];[0xa40f5d4374dd0;0x9ca1fa619ca91;0x2b441b9c40d1f;0x55655d11b16f;0x22de22344cea];[0x377a05a0108ac;0x22d1280fdb7fd;0xb79c21e8a38fc;0x7f872aeffe230;0x35a4bfa0e7e4];[0x0;0x8ba5a449912d;0x76234dddb630;0xe3399684a3208;0x31293ccff0ebb;0x30f0085bc5d];[0x0;0xe7a6db105be65;0xe43394fda290;0xcc1fbc9467817;0x17b65c246241b;0x6983a61d20e8];[0x0;0xd430e38e7874e;0x883b2bf890416;0xfea6c17cdab1;0x70319c8c47a83;0x64af95413152];[0x0;0xd430e38e7874e;0x883b2bf890416;0xfea6c17cdab1;0x70319c8c47a83;0x64af95413152];[0x0;0x28946f7be14cf;0x8c56706995501;0x393d3d6574bc6;0xc74fa88b9a50c;0xa8ec527c5d53];[0x0;0x81f2184fda0ab;0x7597d1098dac1;0x89a1d9985c240;0xaa900051843b9;0x3c036b7e7406];[0x0;0x3b7c9a3685d9e;0x18fe8e2cdd0a6;0x2a1f12e4cab1a;0xe004d2ddc3a1d;0x37dd2a8c840a];[0x0;0x194f94a9e0c42;0x217360ad4d4cd;0x81edd69a69761;0xc768b397e1feb;0xc25a6a0328957];[0x0;0x886f4af74bcaa;0xba4699a1761f3;0xdbdc94ff8e430;0x428e3c82a90a;0x75d8e55ced3d]]);
 ((V [0x2e688a537ba8b;0xfe639d7e28232;0xfe0cb3ac7408f;0x16bf67a63d078;0x9ef2997a90e5] [0xd3436075b255c;0xe89706196599f;0xbd467e016ac4;0x39352ee35a139;0x58fc781ecf1] [0xc54ef81ac2bbe;0x359f74f5ce973;0xae1a143ad44e6;0x165d841df35c3;0xc7c026937522]),[[0x8b9dcb8d9c896;0xc3ae961870c14;0x6c036a029f388;0x7c73d36f52fa7;0x11a6ee47b9f5];[0x60f1346aeca69;0xb7be4b3e6a831;0x73423cfaa6cfa;0x8f5c25f523287;0x2170dcfef760];[0xf7f65831273b2;0x630861b40b2cb;0x68bae37c961e2;0xf125973a3c7d4;0xec4e624ba993];[0xf7f65831273b2;0x630861b40b2cb;0x68bae37c961e2;0xf125973a3c7d4;0xec4e624ba993];[0x1c57014c8444b;0x95ab4d44ed88a;0x5e6c3c65a9e9a;0x7e7f6517026b4;0xfe1417f6f19b];[0x449a331e683b6;0x2212fdf97cfa7;0x14d60094fce60;0x10dcc0de20bd3;0x235cc50805c5];[0x0;0x84c199401b090;0xa2719e732afec;0xb08ec2c4b4604;0xac0841a034838;0x58f5792a291];[0x0;0x4a50097e12195;0xa8371e891f46;0x30ddcb02b9bce;0xa28311972160b;0x104b4b4dd819];[0x0;0x886f4af74bcaa;0xba4699a1761f3;0xdbdc94ff8e430;0x428e3c82a90a;0x75d8e55ced3d];[0x0;0x886f4af74bcaa;0xba4699a1761f3;0xdbdc94ff8e430;0x428e3c82a90a;0x75d8e55ced3d];[0x0;0xf6daeeff55472;0x5fb6e2538993d;0xb3a63dbec2a49;0xba47e80998fc8;0x882fa88b6f5d];[0x0;0x1c5830c490f06;0xce7f0eee965d1;0x5a6d93575b04c;0xeeeea2ff4dae3;0x65fa554dc12a];[0x0;0x17515d7b01666;0xc7cdad54c8231;0x333fdf35ddb24;0x8e5acd32179b8;0x14c35922bc7e];[0x0;0xda63a9b1198b8;0x48c826f4ee8f6;0xd9e08a8b67022;0x9d905902b841d;0x5dd243349a26];[0x0;0x146e83bbba73a;0x288cb5b6a85fb;0xe06a71f7e548c;0x72330d88cef81;0x374026260f6]]);
 ((V [0xd6c8052acde0a;0xe1e7eb7c2fece;0xe1dea8a3823ea;0xd11fb1c476f31;0x16490bceee84] [0x8b4be81e14ce7;0x707d4ea34d6fc;0x7ece352e3c57a;0xad8e3259a8962;0x970eb3844882] [0x5241a7d2c7c4f;0xa0f77579c68cf;0xd5a1fd7b719a0;0x22d25d19388c7;0x22cd54987f3]),[[0x42b52708a6533;0xef883d3c2ddd6;0xbe6047bb35fd6;0x2f29a2d0038cc;0x6d8da047cc2b];[0xa4f3b8ea4e0ca;0xf1b618251c0e4;0x38d41c20e13;0x8de114bd25079;0x4f475917010d];[0xc54ef81ac2bbe;0x359f74f5ce973;0xae1a143ad44e6;0x165d841df35c3;0xc7c026937522];[0xc54ef81ac2bbe;0x359f74f5ce973;0xae1a143ad44e6;0x165d841df35c3;0xc7c026937522];[0x15f3190b26669;0x456ed14c05e24;0x6b2acd96bbe44;0x264fd68833e50;0xa111619863c8];[0x8f009fdf277f9;0xac4746d9162c0;0x950e068564fcf;0x67913e34f1228;0xae35f77e9d45];[0x0;0x98e9839a62181;0xbebee2ceeecba;0xefcbe28de71fb;0x3407985a912a4;0x4b3282a3c0c];[0x0;0xff4b0fb0f3670;0x12521b22c5c8c;0xb64dc17ef0c42;0xb437ad322998b;0x557b525225cc];[0x0;0x146e83bbba73a;0x288cb5b6a85fb;0xe06a71f7e548c;0x72330d88cef81;0x374026260f6];[0x0;0x146e83bbba73a;0x288cb5b6a85fb;0xe06a71f7e548c;0x72330d88cef81;0x374026260f6];[0x0;0x39ba4ac2b1571;0x57a7824e27ece;0xe0c7b052bb6b1;0x6209aa993ec8e;0x1eee8b91e3];[0x0;0x21b6b5c299c80;0xdfab629c54a70;0x5a9e0ab62a39;0x7513875e288d4;0x62b05b59d298];[0x0;0xd90e682732b5e;0xc2c50f34018b4;0xb97f1845437d2;0x9afd9e3be4b9e;0x6e6c0a887c1];[0x0;0x179e5f151c4bd;0x946230b6bb056;0x595abba40103b;0xea61d6ddf28e5;0x9d93248bd8542];[0x0;0x3bdd6ba0953e1;0x94f310d534c05;0x32be50d29faad;0x159cec578927a;0xd265d964b3d]]);
 ((V [0x5ac0cbfb3a361;0x4178b55e0a66e;0x49dc0bbcbeb4b;0x8c1696b0b4b92;0x1e7cf22936da] [0x70aec14a8ac9d;0xabdddbcf5675f;0xc1eca88a43d49;0x9ba37056a7958;0x2cbe7eebf51] [0x32eff71279d;0x29272b5b508d6;0xe975645cde860;0x3e2b3ecb69a65;0x474566ec46df]),[[0x7fcd34efd3333;0x8a32a1c16121a;0x1c59f8ef3b9b8;0xbf6755d7282c;0x9d52815c39e2];[0xbe5405ac5c2d0;0x60cc0d7edae2c;0x6d8c13f904894;0x87858c67ca7d1;0x3d8068d02c7f];[0x5241a7d2c7c4f;0xa0f77579c68cf;0xd5a1fd7b719a0;0x22d25d19388c7;0x22cd54987f3];[0x5241a7d2c7c4f;0xa0f77579c68cf;0xd5a1fd7b719a0;0x22d25d19388c7;0x22cd54987f3];[0xde65495059224;0xc7f7a6553bf63;0xd1577055b4748;0x9cccb6e9abaf4;0x8e4c6e8b5632];[0xdfeebc5c02e44;0x98d467299eec8;0x9c34a3a35014b;0xeab8d57e1ecdc;0xaf33fa44d64c];[0x0;0xf35e3667670e;0xaeca4f0556d4b;0x273a3db5d09bc;0x66a2e44d06a1d;0xd19f88845];[0x0;0xe514c60efd91b;0xd6c09bfd03496;0x53fe2d46edb5a;0x435639d45be84;0x1563243ca02];[0x0;0x3bdd6ba0953e1;0x94f310d534c05;0x32be50d29faad;0x159cec578927a;0xd265d964b3d];[0x0;0x3bdd6ba0953e1;0x94f310d534c05;0x32be50d29faad;0x159cec578927a;0xd265d964b3d];[0x0;0x5caeb86a43fbb;0x4c6a5e65b5c9e;0x824b9afda2322;0x58ca54f4e0119;0x5922589e2de4];[0x0;0x4051c9b47aae0;0x63c701d8d717f;0xc4a093098bd40;0x4b74dc95a885d;0x1f0a2df4d8e];[0x0;0xe6816a76bf965;0xb709766ce7e52;0x933ac3a7bf1dd;0xaa2bcae475a44;0x75310a873df];[0x0;0x82edc8b553037;0x2fba6458a1b40;0x6065577614dd2;0x5ac203a179fc8;0x2ede697dbd13];[0x0;0x4fb4e9f4d1c20;0x7d42c51f026a0;0xd3a9bce28dd4a;0x77f3f33308826;0x5542978691]]);
 ((V [0xb6f33a3891120;0x68c79e2c3d766;0x9a9c3e236c685;0x3f49bf02d8ee9;0x3ee6aa753946] [0x44645e1ad0092;0xa7e65a0e2a783;0x12fd8f0d662a8;0xc81554665fe79;0xe58b907c4fcd] [0xded1b47f01258;0xa90a511d9c4d;0x5a56d5a0abdf0;0x88cfa2137e3d7;0x238ad4a8c578]),[[0x365d7d9080ff8;0x169ddfde826c2;0x40bd83999dd83;0x24da17c90fd15;0xa60cb9e1f116];[0xeec8dbdd9851;0xaa587f65b094d;0xaaaab273b821f;0xa36e33a1b98eb;0xd5ec63be2dc6];[0x32eff71279d;0x29272b5b508d6;0xe975645cde860;0x3e2b3ecb69a65;0x474566ec46df];[0x32eff71279d;0x29272b5b508d6;0xe975645cde860;0x3e2b3ecb69a65;0x474566ec46df];[0xaacc30b22a6c1;0xc15cb7e138ea5;0xa20579740a9c4;0x2595f338ec10e;0x8a6824ac6249];[0x64205d0baf191;0xe8fbc78477aa7;0x8a538ffad85a;0x7dd84068cd7dd;0x4b843f11cb7d];[0x0;0xf57829868c2a1;0xcd9ee8eb5ff5f;0x4f8faec0c5adf;0x4dabfed5a9343;0x1ad497465aa];[0x0;0x418794935f251;0x1b03d2d48c09a;0x3ea3514c59a27;0xc9c6541a12743;0x2e3a8bbe1786];[0x0;0x4fb4e9f4d1c20;0x7d42c51f026a0;0xd3a9bce28dd4a;0x77f3f33308826;0x5542978691];[0x0;0x4fb4e9f4d1c20;0x7d42c51f026a0;0xd3a9bce28dd4a;0x77f3f33308826;0x5542978691];[0x0;0x887d3ae789bb8;0x9b2bbebd7a0b3;0xe99e837d455aa;0x6dc8f48ebcef1;0x7d20961c1];[0x0;0x975db1b769650;0xe0b03684e228b;0xcec4688202582;0x4ee4cfcfe7593;0x3a185bd25da];[0x0;0xca2b8881ec7ea;0x1592e8ea394d6;0x10a5fea37faee;0x7217c4972aa1f;0x349000fa9b15];[0x0;0xb16e0c2580bf1;0xfbfd43227ff5c;0xa6598668a70b3;0x8c3a515eb03d0;0xe7e7382f12c29];[0x0;0xb5eaa42846a58;0x78a2e6f47e6cf;0xd2fd0e58814af;0x2f3ab5e8584f3;0x3866a139b51a]]);
 ((V [0xa748c45182d41;0x9671fce1fdcbe;0xc5b5f0f41989a;0x5861d9b2dbd97;0x39e1793eb452] [0x4bf87ca38d0f6;0xb13da90c9e8e9;0xdb26e02c0f13;0xc372d6805730e;0x1b8afb20124a] [0x2d9f3f1cbb80;0xfe407f0a51f0c;0xef56c5e74bb46;0x444790a42c11c;0x52f5979b7d4b]),[[0xb4e071440d828;0x2afd222dd799c;0x91886ae15bd10;0x6e5a8eb27c735;0x8597632bae2d];[0x5bafe44c50410;0xdc5f41921f05c;0xce2293ce897fc;0x8f1bcd59dc754;0x8cb03f76fd1b];[0xded1b47f01258;0xa90a511d9c4d;0x5a56d5a0abdf0;0x88cfa2137e3d7;0x238ad4a8c578];[0xded1b47f01258;0xa90a511d9c4d;0x5a56d5a0abdf0;0x88cfa2137e3d7;0x238ad4a8c578];[0xad4b42f1fd6ef;0xb257eee542598;0x3b6b010036d84;0xb3e28fdf19a4c;0x375ceb6b62ad];[0xae64a15a52d22;0x2a0752acdcac3;0x92b792ce52a78;0xdb393d7ac2d08;0x5553540b9a6d];[0x0;0x45f768b4958e0;0x6a373d3e59b29;0x244e9060a2ed;0xde1c1e826d07a;0xd614f30762];[0x0;0x8c12fc9a649d0;0x1020a459536e1;0x8e979e22c7b96;0xc127abb5b5c44;0x128c2523dee1];[0x0;0xb5eaa42846a58;0x78a2e6f47e6cf;0xd2fd0e58814af;0x2f3ab5e8584f3;0x3866a139b51a];[0x0;0xb5eaa42846a58;0x78a2e6f47e6cf;0xd2fd0e58814af;0x2f3ab5e8584f3;0x3866a139b51a];[0x0;0x1270ce5c42af3;0x9d6858753eab7;0x6ea608c5e7160;0xe792597b49449;0xcdd2fc949f50];[0x0;0xd8e84ea0297d2;0x5f65cb0d1f89e;0x2eaa186422c1c;0xd6a0241cc0bf4;0xf748a6783e0];[0x0;0x7d207582bca87;0x3509b8146c84d;0x36c071c4b0e67;0x622fa5ca62912;0x1fcf27ab09b7];[0x0;0xa4e3bf570f9e4;0xac71efb1e35f8;0x5ce8ce4aa33e2;0x8dd16f379ad4f;0x1c517b56b05d1];[0x0;0x4437d79fde17a;0xe9cdb3074ebeb;0x242aacf888b4a;0x483d68b85f613;0x63a341c4b04]]);
 ((V [0xc71a7a7230f43;0x50d5ca844ab67;0x8e17a0922c322;0x57e9ec9ac7149;0x700488b4c914] [0x681af7670801e;0xbb5d5ac86fd06;0x263ddbb0eea00;0xe4724bb1963e8;0xe0b9dfb1aee2] [0xde45c5254f881;0x46808d40a60fe;0x6acde31ad31f2;0x9ba17688ec2cb;0x2326810ffe07]),[[0x6640fd83a6030;0x3abb552ef7bc6;0x7bd5aaa8bcdcc;0xdf4cd8301f635;0xfaef650eb6ef];[0x3fe86b4f28b97;0xd5ee45998df1a;0x8d97af4a92568;0xf615e30f83ea8;0x17b0bec4305];[0x2d9f3f1cbb80;0xfe407f0a51f0c;0xef56c5e74bb46;0x444790a42c11c;0x52f5979b7d4b];[0x2d9f3f1cbb80;0xfe407f0a51f0c;0xef56c5e74bb46;0x444790a42c11c;0x52f5979b7d4b];[0x6a1d43d7bedf2;0x3daf7fe20d2d2;0x3ecbcaac25914;0xe5e6fbfb3d022;0xe8a15af5ad70];[0xd5cb277769b3d;0x983ec5b780c47;0x4ecbe49e6cc54;0x102ee71446e86;0x18d9b0f69595];[0x0;0x3e0174e1e2630;0xbada345e73cb9;0x19bd0f19940e6;0xecc575691b5a1;0x1f3b04d26ed];[0x0;0xa3035d9ab75ff;0x867680a8f47c3;0x733f7ab722586;0x72501964148a2;0x51516a160c0c];[0x0;0x4437d79fde17a;0xe9cdb3074ebeb;0x242aacf888b4a;0x483d68b85f613;0x63a341c4b04];[0x0;0x4437d79fde17a;0xe9cdb3074ebeb;0x242aacf888b4a;0x483d68b85f613;0x63a341c4b04];[0x0;0x89af3233d875e;0x36592fdab6308;0x4f6805fb2bdbd;0x65b82050fb695;0x2f69c6c78c7];[0x0;0x748fd7ac6db5c;0xaf57f2e358340;0xb79c4a8d82ab8;0xf9ec9d6588442;0xd162e9445f1];[0x0;0xc4384c6321d78;0x1a51e8f8389eb;0xf3fbc9ba3afb8;0x47f7511961a0b;0xa5dbedf707];[0x0;0xd5f6b470c92ce;0xb9f38868d02e2;0x7c17a5804d807;0x862b25d513b96;0xeeb0b1d270e36];[0x0;0xff482ebce68f;0xb21e0515910a6;0xeef39ba1ea5d;0x79a993e33c1f1;0x62554cc6ad55]]);
 ((V [0xff46644726b78;0x53c150f0f6e27;0x49afff90e29ec;0x5a440dbe03633;0x25542106d8b5] [0x6fcc72a89a48b;0x355bbd696b1a1;0x7cec444591299;0xd3689e9584532;0x1ddf2c1a559b] [0xbd67226e1dc26;0xfb5b472fe6922;0x46597beeb76e7;0x481fe4d15fcf7;0xb8793013f57f]),[[0xfbe87ac3a5fba;0x57397e239223a;0x691540689dcba;0xcf6907a48da3c;0xdf117ceff3b8];[0x54ecf0da924de;0x374f9142699c5;0xad02fd9a823c8;0xc8ca5e349eef0;0xcd2c6deeffd7];[0xde45c5254f881;0x46808d40a60fe;0x6acde31ad31f2;0x9ba17688ec2cb;0x2326810ffe07];[0xde45c5254f881;0x46808d40a60fe;0x6acde31ad31f2;0x9ba17688ec2cb;0x2326810ffe07];[0x1830acf12956;0x26ada35c76f4d;0x39c88def6cdd3;0x5cae3689daf1a;0x8dc9caa40a52];[0x5369e60b7fb89;0x10a1ede5f2a78;0x733a6fab155f5;0x6c1c27aac3fd6;0x3f62a34af585];[0x0;0xeae3239723267;0x305030dad37d8;0xb039af86cd159;0xeabc301496852;0xd3b8a72061];[0x0;0xab80daa6a6a84;0x4244094a46934;0x5e91651e2cd94;0xa8b65449f7c8e;0x1ea0f1231945];[0x0;0xff482ebce68f;0xb21e0515910a6;0xeef39ba1ea5d;0x79a993e33c1f1;0x62554cc6ad55];[0x0;0xff482ebce68f;0xb21e0515910a6;0xeef39ba1ea5d;0x79a993e33c1f1;0x62554cc6ad55];[0x0;0x11cf57903f902;0x8c47e791b608;0xe68b99e30a23b;0xddb8c8e06b281;0xc545ce6c0452];[0x0;0x43d279ed29000;0xcf1354eb29fd9;0xbe0c29990773a;0xaae06e4bf30c9;0x3103f7b2be98];[0x0;0x92062542e546a;0x3e60116fddab7;0xb331162255873;0x5aeb7d4508cef;0x1dead8efd44b];[0x0;0x66fd85d547316;0x188b7a00a93d4;0x7a67a6acf7316;0xd9263e2322e3e;0x1e3e1083f1b27];[0x0;0x35830ed87f64e;0x829b3b1508769;0x4f136d9aa62f6;0x80df626491fdf;0x45b1274d837]]);
 ((V [0xa664ce59bcac1;0x4ef5c206862cc;0xe3a89900fc7ac;0x7ab8878e9a7ca;0x1d33037a630d] [0xbe2d3f52d6a63;0xc9778deb3f8e6;0x9862abadae3ed;0x457679ae6fe8f;0x5570ee3170b2] [0xf05434e7ac8f5;0xb0b91e71f9435;0xa6e5c68286f9d;0x81a2f4986e84;0x4080182bdf9e]),[[0xc01a251a71a01;0xb52336f29e6ac;0xdb217a687ddee;0x8e46fd5bf411d;0x792f62353f1f];[0x39ecf1a209ee4;0xd4659473af67d;0x69222a9c6528;0xe8b05d12555b;0x8e207eeccef2];[0xbd67226e1dc26;0xfb5b472fe6922;0x46597beeb76e7;0x481fe4d15fcf7;0xb8793013f57f];[0xbd67226e1dc26;0xfb5b472fe6922;0x46597beeb76e7;0x481fe4d15fcf7;0xb8793013f57f];[0xd89dd112aa2d5;0xa96a68d5d4536;0xe0f70b6a7054e;0xedc9fc66ece75;0x71d2b3eddb5f];[0x614f208f5fc10;0x2afb2b9ddb146;0x259b173f55fda;0x20c1096a386e5;0x1c4dcafef392];[0x0;0xf8b38b99eaae7;0xafbff4bd6d0da;0x667e180b0882b;0xcb2028adc86bc;0x4572347466b];[0x0;0xc556e1b1ffd0e;0x2691e6f18cddd;0xd73831bc5eb20;0x6399fa2d692fa;0x57536cbe05ae];[0x0;0x35830ed87f64e;0x829b3b1508769;0x4f136d9aa62f6;0x80df626491fdf;0x45b1274d837];[0x0;0x35830ed87f64e;0x829b3b1508769;0x4f136d9aa62f6;0x80df626491fdf;0x45b1274d837];[0x0;0x73fbcafe4e0fc;0x2dadf7f9e48e9;0x4549c5dbdb3c2;0x83831525e9782;0x37c528bd4df];[0x0;0x3651de8edbb50;0x5b0cca1ca4905;0x357101581e9f9;0x672889da41342;0x5716d31ab65];[0x0;0xd93c1dff96b8f;0xb47e8a8d231dd;0x4b0b09b22d92b;0xf6041009eab00;0x103600c87095];[0x0;0x7c192208624e0;0xd5a518883a45c;0x89e5a557f5759;0xfba850a15bf0;0x57d1054aeaabc];[0x0;0x1c76ec2ddb582;0xfe0b2664e1412;0x36bed737493cc;0xe912ad2d1148c;0x9bed1a43948]])]
 [[0x86c186d1f801e;0x2452d42eedc89;0xcb4f618057c4e;0x6be5bf30bbbb0;0x9d86eb59e99a];[0x522fc309aeb60;0x2c472088b47e5;0xcdade075fc418;0xe898d9b9b3a11;0xa23d7246833d];[0xf05434e7ac8f5;0xb0b91e71f9435;0xa6e5c68286f9d;0x81a2f4986e84;0x4080182bdf9e];[0xf05434e7ac8f5;0xb0b91e71f9435;0xa6e5c68286f9d;0x81a2f4986e84;0x4080182bdf9e];[0xd83ee47b840ab;0x6b1e90afa4e04;0xdc89d09a09872;0xa144edc6f9b38;0x49917b0e0297];[0x79f0de8e2aab6;0xc1288fd90f9e0;0xf1240fdbf2ba5;0x4753ebf2b9ed8;0x58abf73880a6];[0x0;0x558b6c1e7aacf;0x12b9f198a6013;0x78f087b07d9d2;0x55689b9ef1449;0x184813ae3a6];[0x0;0x1c92f1310a01a;0xa9e2d586343f7;0x3ac7a0012a600;0x237501dcdc3cc;0x27b08d2bccaf];[0x0;0x1c76ec2ddb582;0xfe0b2664e1412;0x36bed737493cc;0xe912ad2d1148c;0x9bed1a43948];[0x0;0x1c76ec2ddb582;0xfe0b2664e1412;0x36bed737493cc;0xe912ad2d1148c;0x9bed1a43948];[0x0;0x1841a28bffb12;0xc546a85247976;0x47c61d65ef42f;0xf535437ba979e;0x1c842ffe1db8];[0x0;0xd5b6cab8dbaed;0x4726e451d9934;0x31b4f98116d9c;0x9e0194490a80c;0x35498f41d40];[0x0;0x30b743e4a6545;0x1872be8fce7;0x8528d900746c8;0x1da13c863fcbb;0x1d1fecde2f63];[0x0;0x3783880d4b5c;0x946089c29bcb2;0x2b4ce443b36e0;0xe6dc97fa2fafb;0xf65d1c6219d9];[0x0;0x7001661869ba3;0xc85539e896a6;0x573428f9118f1;0x92d63bfb41e80;0x2b3c8f22d2d]].
Definition wit_256A_64_10 : colwit ept wit := mk_colwit (V [0xc1b84fa0d78fe;0x499113e35e30;0x35caa81e02e44;0x10dd91371bd2d;0x4d43b1bfbcd6] [0x80adb9ed6c95;0x76e6d2ca7560c;0xaf3d217f4d164;0x75d09a4aa360d;0x38ecce090c14] [0x3a0a1d72d19c6;0x370264ab14a78;0x16494557810ac;0x4a13f77f8014b;0x9e0a64e19869])
 [[0x7dd58b8761de0;0xb10302a9de76b;0x8f07c5ec74174;0x35d2d012e0122;0x7ae1bcf15f68];[0xa7756a8adc034;0x1fcdaed3be03b;0x6716e8614812d;0xf60c70b162018;0xa905b0e60bb0];[0x8ef307292daa3;0x78a0b85552dda;0x95af10dd58a65;0x10bef8ae784c2;0xd43fec971bfc];[0x8ef307292daa3;0x78a0b85552dda;0x95af10dd58a65;0x10bef8ae784c2;0xd43fec971bfc];[0x3468c328736e3;0xc0fc7590746dd;0x9893055b6ed53;0x87e2149c1021f;0xe0fe9981fe07];[0x730ca762686e9;0x5ed139434995e;0xce83e305d93d9;0x6e2a5c1551df8;0xc80717640da9];[0x0;0xf8e525826dab7;0x9136268060a63;0x50b13d0022c9a;0x66ffae1a2c170;0x4fe7158f118];[0x0;0xdda6e687d6b74;0x2acdd9eeb7ab0;0xa28e9fd400ae4;0x8ab864a894f27;0x65e19f96052c];[0x0;0x7001661869ba3;0xc85539e896a6;0x573428f9118f1;0x92d63bfb41e80;0x2b3c8f22d2d];[0x0;0x7001661869ba3;0xc85539e896a6;0x573428f9118f1;0x92d63bfb41e80;0x2b3c8f22d2d];[0x0;0xe62d63ddebd2b;0xed79972fc7c0;0x215767b2aeb01;0x4a055118a086a;0xe298f64bd9];[0x0;0x4b9db7431c460;0xc0d528e49a898;0xb8855aa0b1b65;0x79e525da48f22;0x83ff77f2463];[0x0;0x3cbae0b706d30;0xcec5af1a883ac;0x72b20cf47d917;0xd6d7ac0973d5e;0x3303680e04f4];[0x0;0x4444237fd6315;0x1e2e59e73cbc;0x1ed55e8b58f0c;0x39dff4c2b7cde;0x3a224169fd934];[0x0;0x689f6f328b870;0x872c4a90f69db;0xe55f968dc1b25;0xcbe7aec1e5f13;0x112e4779021f]]
 [[[0xd44451bb62e58;0x163a6917d9310;0x8ac4e59a4f5df;0x8b79950526a53;0x3aed65874d17];[0x300a83a69f441;0xa66c40ae934be;0xd359b8bc54043;0x8bc4f98045615;0xb5bd6a8fa09e];[0x8d2eb3c80e5cc;0xf14a6d46efbfd;0xccc66b5a84397;0x2e0b159836891;0x3052de7d4fa5];[0xa7c902b75d9b7;0x955f43c7f9e4c;0xfe3cfa6adde63;0xb95e57e2689b1;0xdd81d369da04];[0x43630061abd66;0x3da939465c07a;0xf5559634a6e31;0xc8f6a5092d192;0x132b8f23fa94];[0x23adc67ca4e01;0xd307d7a89a78;0x1715e44aecf07;0xb1f4dafe7f5e3;0x5bdb9323da8];[0x0;0x89b42e36e82c6;0x8117eaebc82e2;0x84d6b32ddcfd9;0xa789bdc94a874;0x3b7ece0afd0];[0x0;0xadd860626e751;0xfefb4f975e2bb;0xe14d250b8757c;0x256c31e49be3a;0x30db4ef5aa34];[0x0;0xc1365885c0613;0x18136330c0467;0x54cc0e4aed2d6;0xf384893778393;0xa380ddb087a];[0x0;0x6f23612c4a36f;0x7e59cbbb4dd93;0xef94bf8537981;0x154f48abf2cc8;0x48b12d37d85];[0x0;0x5e8b8d385102e;0x7375e2f9a223;0xef0bc491ddc37;0xd21aab90d2001;0x358e6b4a687];[0x0;0xe0556e1f36143;0xd7c8ad9f50781;0x9d477df43f41c;0x69b787c696835;0xddec665c874];[0x0;0x687e535e0c39d;0x8d99e34388f12;0xc732fc0c4378f;0xb86f648f5971b;0x8ac83d0a7557];[0x0;0xc011b9a8623bd;0xc3d5e47f1de65;0x8803d1fab5f69;0x8a58f1e4dc738;0xd479f165a730];[0x0;0x669ac24ab1364;0x886f55f1954f2;0xb96fd335b2b13;0xa98d52e65db71;0x9f5d3cc11ca]];
 [[0xd44451bb62e58;0x163a6917d9310;0x8ac4e59a4f5df;0x8b79950526a53;0x3aed65874d17];[0xdaa6fdb6dd0e2;0x16dad073c0eee;0xdfe0196a6008b;0x6cc69675ce315;0xcd7f6259318e];[0x483a9dda573;0x86a1803cc37fb;0x9232645d5a6d8;0xb444cb0a43143;0x448fe14552ba];[0xfbf6979b0ba99;0x386af264398a2;0x6917be97652af;0x39c50315aa017;0x583c12717524];[0x9c31203b3a7b0;0xb5258e442223c;0xaa3b623821c7e;0x1ae7d6eff9ec5;0x8afa18f2c92d];[0x79d9aaadd7ee9;0xe9e76f1f25a72;0x68d78c7c7696a;0x98bc6f7e77a1c;0xee6a6b1ed1d0];[0x0;0x89b42e36e82c6;0x8117eaebc82e2;0x84d6b32ddcfd9;0xa789bdc94a874;0x3b7ece0afd0];[0x0;0x4fc18cbea804a;0x660bc27ccbe06;0xb28b371c74e74;0x401a1702746b6;0x2fe217f7c3c5];[0x0;0x6c8f335bd8d58;0x7e99a710f224e;0xf707c81df5fe3;0x6b19f59dbfb9b;0x2b783dea5ea2];[0x0;0x88037f8065123;0xdaf008e783a63;0x5c0b5384649a0;0x56dceeaa932d9;0x3efc86fee2c];[0x0;0x6dd7c1c5aa483;0xb0d7982096dbf;0x9744fad760e47;0xa6e236435a122;0x2e67d6daf10];[0x0;0xd7ac57360a12f;0xf5083bd47a07a;0x119293060ea7;0x88d458e932b8f;0x3b0061fe730b];[0x0;0x71bd150a44d43;0x329c9f07f3c15;0x9dd504040acef;0x8aad7d25f39a2;0x780bad361b09];[0x0;0x7b6915fabe84e;0x78bad82535c3a;0xdd79c7455515f;0x8d03daef14836;0x1a9ad092a2c51];[0x0;0x622d6c2468c4d;0xb3cfafc97c2e0;0xdf98fe790465d;0x786ba24bd0eb5;0xf5a37ceb9e7]];
 [[0xd44451bb62e58;0x163a6917d9310;0x8ac4e59a4f5df;0x8b79950526a53;0x3aed65874d17];[0xc94fcac0e43b6;0xa50a4a79b73a9;0x92abac792419f;0x4696db624e507;0xb84b1f3d2fb1];[0x554ce0e445f21;0xdf863a2e3c564;0x6d8f4ec6c1565;0x20166a94b66f0;0x4031ecdd3fb5];[0x4c57c6e1db288;0x53ad2fa4a87df;0xde53ad4580c22;0x8679c41e88ae;0xcc1bb1c3839c];[0x459033c2414f8;0x52ba136206360;0xa074ab65eaea;0x6878c8ccc7ae4;0x6ef6cde999bc];[0xce043b49dd2c4;0x85088e9f9ef21;0xb6a58e7ede82d;0xedc7d9647958;0x2af624bde223];[0x0;0x89b42e36e82c6;0x8117eaebc82e2;0x84d6b32ddcfd9;0xa789bdc94a874;0x3b7ece0afd0];[0x0;0xd352fe622bf0e;0x8c5ea87689b49;0xc44bd1cd2470b;0x735fb80928289;0x2df05c80418];[0x0;0xacc8b7e6df67a;0xce3cec05f49a0;0x7554cfbfbde37;0x831416040dd6f;0x2141004f55d6];[0x0;0x6be0ab905aeb8;0x89ba68670e566;0x2f1d2da9c183c;0xf4e7e0f5172ea;0x7ee90739445];[0x0;0x4a5e2eab20f20;0x5789a857e2348;0xb91a284b8f800;0x98229af078ba5;0x5d807b00703];[0x0;0x489be17c55aaa;0xd4c2e40a82574;0x632164bcaf1f0;0x3a092ce34ac56;0x2d22b641237f];[0x0;0x44e5b7eb4405f;0xd565195fe2703;0xda322716ca07c;0xd5418fc50088c;0x6d82d3b1b9be];[0x0;0x6b4d9e6748187;0xfa8b30216332e;0xaa13c7d183a8d;0x849e39863dda0;0xb0bdf6eccac11];[0x0;0xb5f4f95d944cb;0xd455338348fc6;0x649f7aaf7b18e;0xf4a6006f6af30;0x6737856abef5]];
 [[0xd44451bb62e58;0x163a6917d9310;0x8ac4e59a4f5df;0x8b79950526a53;0x3aed65874d17];[0xd78a8c1c88e45;0x601c9e9d79e6c;0x68107b6a860a3;0x8cc248944eab8;0x3a95644243d8];[0xf37f98150a352;0xb9e4dc9fb531a;0xb3f9f7de30eee;0x5fa38d9a23368;0x57d958e6d62d];[0x2931b84eb971a;0xee3c7ef250053;0x160bd9d10b855;0xf78eacd0a9409;0xd26fd5e4ade2];[0xa0e3b90e8949b;0x22df6ca338e8;0xc60f4c4497ac5;0xc782b2c811acf;0x454e78d36888];[0x5dad6731cf809;0xde870bff98559;0x4830d0dc86eee;0xbf32021871e5d;0x6110130aa65e];[0x0;0x89b42e36e82c6;0x8117eaebc82e2;0x84d6b32ddcfd9;0xa789bdc94a874;0x3b7ece0afd0];[0x0;0x82a8f08ee6555;0x4b8ef79b4d8ee;0x574d31a199e03;0xa661fb3234d0e;0xede83114d3b];[0x0;0x6321df16ef1bc;0x867bfc1fbfe94;0xff43504da55c2;0x8517db24f6af4;0x21d3779c7180];[0x0;0x5a9ec72e6b26;0x64e128352e4a5;0x77c44d1b6eb9e;0x454fbc04379d3;0x346cebb4cf87];[0x0;0x93e5cc920413d;0x5d7e849f1cbf3;0x76504e99f38f1;0xc9eeb811c065a;0x269ff0ff3142];[0x0;0x6d5af164232fd;0x17930d47afe8a;0xbacabba63cbba;0x36f0a53217d0d;0x2de982b1cdf3];[0x0;0xfe59bcd1609b8;0xda66c927e5f27;0xe0f8442ec4e86;0x968f89ebdb5ac;0x1e159c4133d7];[0x0;0x7bd2d9c30d1bb;0x921c2388c5c31;0x77b0529c0dff7;0x3aba5575a6123;0x91d1aed94f838];[0x0;0xfe45f6bb5dbbc;0x9f73c1aab30d8;0x45e04b70cf540;0x4bcff51dfb229;0x477074c853cd]];
 [[0xd44451bb62e58;0x163a6917d9310;0x8ac4e59a4f5df;0x8b79950526a53;0x3aed65874d17];[0x511e262fa6f54;0x12d969eb1742a;0xa312667be2bd5;0xa6d1034359ed0;0x211f02e4ee0];[0x74f2a452880e0;0xbadf9f017c203;0xa1db8bcb8fedc;0x9dc1d45f60575;0xb16284adf656];[0xd3abd9e261b37;0xb5dd017e0314e;0xa464a1f491a00;0xba8d6a31e5e6c;0x4f76a731e27a];[0x7414d817f4e00;0xa299ac968afd8;0xf5c34e69a26de;0xf5c8d511d7f94;0xf480b3a33873];[0xaa2512f623cc8;0x84c95d06414c5;0xfc467cf1bee3b;0xd5820325743c4;0x5fbcba00b438];[0x0;0x89b42e36e82c6;0x8117eaebc82e2;0x84d6b32ddcfd9;0xa789bdc94a874;0x3b7ece0afd0];[0x0;0x176f0110405f4;0x5b101edad6e3f;0x1ee4bd769cbad;0xd9feec7a9927a;0x2bfc6a62d678];[0x0;0xe0bbaded445ba;0x23ec77633cd8b;0x3eea7c63e55d8;0xda309c989d717;0x1d3b9282e074];[0x0;0x69ef717b03c43;0x36894a11a3df5;0xecfa60aa9b61c;0x24bb4b36a59b;0x29fc9321c19a];[0x0;0x5130c70faebc6;0x40668fb52f5bc;0xa08452d6b715f;0x83d426a199f13;0x1eef132f69ed];[0x0;0x4ab913b8d9fa4;0xcc824a44aceb5;0x8582eac078706;0xf3f0e87bd3ac6;0x27ad775a67da];[0x0;0xfb93c629bf86e;0xf5ddd4bdfb495;0x3e355f6a9621f;0x4d558abd27b47;0x9403c87425];[0x0;0x251b6055275ff;0xcc00296b1be9;0x6715db748f626;0x8ab25e5a0972c;0x34c0b9a772b8d];[0x0;0xfc6a28985961a;0x85e886a8578b4;0x601201edde773;0x970455ba23f8c;0xddfc1df44ce]];
 [[0xd44451bb62e58;0x163a6917d9310;0x8ac4e59a4f5df;0x8b79950526a53;0x3aed65874d17];[0xcb84aa1eb0e32;0x7796ebf7b19a;0xe8aa76e1da6dd;0xdc23094feeed0;0x49e81d00a28d];[0xa3e785c2601bb;0xeb5f3519da586;0xe09fe79b5641d;0xa650dc5c60f58;0x26ec8d1bb843];[0xcdb6ff5dcd7ef;0x277f4774df81e;0x7277c737c6656;0x76f9e3f78693b;0xd531b1322f50];[0x1b1fb9264c54a;0xb3070397bb980;0xc58eb4c4fdf12;0x98c11d4752588;0xf05eff92faa9];[0xf2b35543a81cb;0x4908fa8fed811;0xf5443bd30ba5c;0xf172841d45ccd;0x1836a64c91e5];[0x0;0x89b42e36e82c6;0x8117eaebc82e2;0x84d6b32ddcfd9;0xa789bdc94a874;0x3b7ece0afd0];[0x0;0x9819b5ffb4102;0xd8737e4d46d73;0x741063f0f4dce;0x1c2398fc8fbf5;0x39a0901be55d];[0x0;0x58dcfa5f96832;0x282c45ad670a4;0x215173a195626;0x10de4da0be9ac;0xfe6449409e3];[0x0;0x47e06f492161b;0x425608c02a044;0xe63bacfdeaefd;0x711bdd051cde2;0xefdfbbb6157];[0x0;0x56acfb2c213d0;0xd751c95e8b53a;0xf1b888dec4a1a;0xee76952bdfb10;0xb0ba812c1bf];[0x0;0x4f98221deead;0x6783e188688b1;0x5071987bfeb3c;0xc8ec5391cecb2;0x159494fb1726];[0x0;0x11ba18e6f784f;0xbecdd74fdad4;0xb44ca4013eb4f;0xe7e766300e0e;0x12034ace10c2];[0x0;0x81c69058f5636;0xbcc6d8c6ce0af;0xa78fd20e3aab7;0xbdce2064ad0f3;0x9b2819e696919];[0x0;0xc4e30d5e2b3cc;0x84b5c85c83676;0x1bcccce281c20;0xcfb84ab5df1;0x2434b3e45dfe]];
 [[0xd44451bb62e58;0x163a6917d9310;0x8ac4e59a4f5df;0x8b79950526a53;0x3aed65874d17];[0xd3a05cd4c51a0;0xab9047c5c6c05;0x9ff0913576024;0xa7f4f06240ed1;0x4ba1e11fca8d];[0xce0d0a58f7a3a;0xf549a53f4fd41;0x28ad173679293;0x5cc0c5ebe4c82;0x7b91476048e9];[0xe3be8efe65587;0x49ce152b3dae9;0xf4fd7b00ab7cb;0x6c2441439db6d;0xbf42fad42392];[0xea59f1501d327;0x1c44fb1bfa664;0xd081d1e196804;0x9102c9e7a7426;0xe59ec88c1668];[0xe8ff8dcaf9c15;0x5ad2a7ef40495;0x54a6d07a3a05c;0xf3347d5b30cd2;0xda2d5586acf4];[0x0;0x89b42e36e82c6;0x8117eaebc82e2;0x84d6b32ddcfd9;0xa789bdc94a874;0x3b7ece0afd0];[0x0;0x7f3b29a0c1500;0xf37957ab5a46a;0xd02c3fa13378e;0x1d23141a5dfc9;0x2738b2efef3a];[0x0;0xe5a4abaa5eed;0x532e5cd755cf2;0x3a49c8032996d;0xbf9fc988d0c57;0xddfbf4f251f];[0x0;0x1f20ad2cc1c8f;0xf5b950bbe0c0f;0xd6bf23dff74b5;0x3cb8acba93864;0x2cd5d3cb6f7c];[0x0;0xa1902683020bf;0xb38adf30f40fa;0x5208e7f11d2f;0xd6beffa3508c5;0x21085b24a8d2];[0x0;0xc0695b9e40fdf;0x8357cf66b24d6;0x2d18d8c8e0407;0x5ddc7296de238;0x12d4cb042c87];[0x0;0x6a1d160e21714;0x7888773abe3e4;0xd772f61ed33da;0xde8833327fc32;0x355896aad71b];[0x0;0xe4cf0e5717e39;0xb1322bbdb6ea0;0xbfac472f91c29;0x26ad1948e5a5b;0x4e4e7465201bd];[0x0;0xc37f6f791c8cc;0x369d0e9a470a9;0x799392e87a4b;0x9fbbb76b04ff8;0x34e7128ceba0]];
 [[0xd44451bb62e58;0x163a6917d9310;0x8ac4e59a4f5df;0x8b79950526a53;0x3aed65874d17];[0x67af30105a99;0x82d2121798c2e;0xfe5c4cb30496f;0x85e02c8749150;0x5f40e94c6d99];[0x6b039fb47adb;0xb2c866e94eb7a;0xffd3a7d8fa27d;0xae4f10f10de52;0x2ad5a088f18e];[0x22ee256700226;0xe92cfab20dbb3;0x11e4605f15cde;0xf150ccec420bb;0x2ae2a5909ba2];[0x5abaa5a591a14;0x55cc9b9b8b6c1;0xb0a746ac4c152;0x1667fa5f63aa2;0x631648fca938];[0x146145b9ec594;0x9a4c288be4837;0xa3782b01515ff;0x9221678576338;0x901f9e366549];[0x0;0x89b42e36e82c6;0x8117eaebc82e2;0x84d6b32ddcfd9;0xa789bdc94a874;0x3b7ece0afd0];[0x0;0xa3fd2697b6ce9;0x62041691b346;0x8e4023691ad64;0xc1b15e0a4b7bb;0x234964312852];[0x0;0x717b11a3cdfda;0x4bb73703cdd80;0xcb3c3de5fcfcd;0x939f94d2698a8;0x2826b136992c];[0x0;0xd21f86794976c;0x9712975eb0c30;0x4f926557635c5;0x48122c5e1cc9a;0x16a31db1b901];[0x0;0xce9d3543a3a3d;0x27dd81714f5a7;0xd0e300c64cd4d;0x383a33da7ef65;0x10ad95dd5895];[0x0;0xe36e7b1213a3e;0x18379049f837e;0xdaff4161a20c8;0xbd13cb6b280a8;0x367f499d4e0d];[0x0;0xa443d2b5555b7;0xea2c29ebba054;0x2bc418b4ed09e;0xf28d2c9fe3049;0x2a735fffadd9];[0x0;0x6e7ebf975e136;0xd03d2a2a3c733;0x31877da6d75bd;0x4a7b845c8805b;0x6944bb11d863e];[0x0;0xb125a946814a9;0xe7d629169f25f;0x78b4388fc8d5c;0xad8aeae367b0a;0x2d246fdc30d7]];
 [[0xd44451bb62e58;0x163a6917d9310;0x8ac4e59a4f5df;0x8b79950526a53;0x3aed65874d17];[0x1719a9e4b21b9;0xe5e0e7ec43517;0xfbc07532de2e5;0xdc739e35da819;0xeea62e55dc63];[0xd8ee4e6e26d80;0xaf51149382b67;0x54ac8cd412746;0x9dbd7bd6fc202;0x6de5bdffc27b];[0x2327283fbb914;0xb44325cacbc1d;0xbe3a5b20f02c7;0xc20d76aaa3728;0xd8bb4e98b991];[0x1e1ae853ce186;0xeeafe064bf672;0x9f0cd2c3eca1d;0x24fd4965cba24;0x62ed666c19d];[0x67d83a3149d1;0x20d9a43e196a1;0xc00f5693a1479;0xc13872846687;0xb5b8eb63bbf4];[0x0;0x89b42e36e82c6;0x8117eaebc82e2;0x84d6b32ddcfd9;0xa789bdc94a874;0x3b7ece0afd0];[0x0;0xedcd85f45cb71;0xbdf36cbc07f0;0x8da31e854e3a1;0xd3ebc2869ab83;0x2d433fa0bcd4];[0x0;0xf3e59591d4807;0x1b676be129f9c;0xcd358a388bda7;0xf73816a595d15;0x195e83720556];[0x0;0x711e90d980ca2;0x4ac48de7c2228;0x623e85cebb371;0x88eab695a68e2;0x1e925d925c0d];[0x0;0xd20ba8854bd73;0x136b6b5503f27;0x27f3cd8509238;0xe2e8c763f84b;0x16861ecc6203];[0x0;0xa77e4288bbad3;0xe64fa818a4654;0xf9b2d768aff91;0xde355d5143b53;0x226f03cdaad6];[0x0;0x242aaecc2bea4;0xa4e7732694e38;0xe9bb5e94685b6;0x7f98b201122cd;0x488012df2f11];[0x0;0xe47e4f59dc33;0x9e4ca65a796da;0x1d0cdcdcc8b12;0x124e9ed15e6ae;0x83b8fe31bd352];[0x0;0xc89c653ea50d1;0x43a5cc3411156;0xddad8b52bc764;0x226ddcab42052;0x27d909eafd20]];
 [[0xd44451bb62e58;0x163a6917d9310;0x8ac4e59a4f5df;0x8b79950526a53;0x3aed65874d17];[0x95dfa0dedadd5;0x32d6cbf25f23d;0x992371193fa64;0x1bfbe42db95da;0x9f463ca6cd39];[0xbeb1fe61e2d3c;0xeced9097bf3a2;0xf774910be607d;0x27eb508d971bf;0x7efa7821f156];[0xd5b990b87125a;0x714be93dcce0c;0x63d9a7250848f;0x9ecb065ec4c36;0xa4f8e3f65c71];[0x21f1345433599;0xc9b951e9cfc48;0x992bdfaf4e0b9;0x73c6af5cf51f9;0x7abb52e57fff];[0x41fb248c81958;0xb0be4e3857a86;0xfe095d311f036;0xa32a05a7f49ca;0x7dc463ca29a0];[0x0;0x89b42e36e82c6;0x8117eaebc82e2;0x84d6b32ddcfd9;0xa789bdc94a874;0x3b7ece0afd0];[0x0;0x19f47194b3375;0xd511d1b4d9399;0xb6dcff71b7009;0x8493cbabc535b;0xe164dbcfbc6];[0x0;0x7498b6f3e85b4;0xf5aa0b1b71beb;0xcb6f05c7d3d11;0xbc902a193ece0;0x114b232abd9d];[0x0;0x3b77a57e3e158;0x67006ee6339eb;0x1c66b4a6c2e4b;0x6f29c65e022fe;0x27968b250c11];[0x0;0xafdcc2bbe539e;0x4a48d5aa4a578;0x7a91f069eb52f;0xaecd99b6efd2e;0x1d2aaf1315ab];[0x0;0xef396b45312a8;0x31f1316e15e2a;0xcd3ba68584f8f;0x4f5884e0f1b56;0x1778f6288b92];[0x0;0x2a2b7fcaf4818;0xf3e10ffdfe7e;0x439385257b296;0x2d8af98a56940;0x373a7adb3105];[0x0;0x55291dd5a1be7;0x774e8c1e47b1f;0x5ef14dd62b803;0xe54dd6dcf0d55;0xd53a7422346b6];[0x0;0x8f5fd9e7896d;0x858d45a6b7f69;0x9c0da6db0f749;0xd2188f3a555f4;0x483b34ffb73b]];
 [[0xd44451bb62e58;0x163a6917d9310;0x8ac4e59a4f5df;0x8b79950526a53;0x3aed65874d17];[0xd7e686ec5310c;0x43d87f9a9f58a;0x6b9715167d45c;0x8b563156c20d0;0x78c7eb5b485f];[0x9e2f73be6af90;0x34d451152731f;0xe01472abdf384;0x574009fea8e5c;0x6094dae1adf9];[0xf13f3f6cfaf5b;0x17e637d8ab7a5;0x4efe14c30fc32;0xf57c220feae71;0xfa23c7f8f2b2];[0xc7238f8f26f1;0x6b7edcd316c3b;0x300eb2983b8c2;0xca4b573b8b0c9;0x69476e481964];[0xc006331bc025;0xfe8db3c0d11cb;0x9d31f44ffd263;0xac548aa8a9793;0x453a06451a82];[0x0;0x89b42e36e82c6;0x8117eaebc82e2;0x84d6b32ddcfd9;0xa789bdc94a874;0x3b7ece0afd0];[0x0;0x3ff68d5e7c08c;0x9807ea6d93f9c;0xcd28ae6942f8;0xb64940873f03e;0x2fe7bf249df5];[0x0;0xaaab52164b597;0x9f77b2fb01980;0xef939759c7605;0x1da8e0509aa7d;0x13bd1ff396f5];[0x0;0x860e1530cead9;0x921d5c5f0c249;0xaae3580fa8fba;0xc869c321bd7bc;0x3edee3ff0b75];[0x0;0x5177c4297d52;0x714eac92fd56f;0x6672cf42222e;0xbb5d67bfddeb3;0x2e520116de1b];[0x0;0x6c86efa6d8007;0xd99763e24c07d;0xcf96d81b42a94;0xc7ba39afc99db;0x1aca9d8d73db];[0x0;0x97c370e505d8f;0x1f5bbada39ec0;0xfadf8f73eb07e;0x5593e99be9401;0x6bad6914e194];[0x0;0xfc042195138ab;0x6c08276ede3ba;0x143d581f2763c;0xc0355a438b0dd;0xe0efeeee6182a];[0x0;0x85ae733aa583d;0x6ca16223b83b0;0xcc8e88e1197ff;0x9e03c078847f1;0xc2200ce9bf50]];
 [[0xd44451bb62e58;0x163a6917d9310;0x8ac4e59a4f5df;0x8b79950526a53;0x3aed65874d17];[0x9f77889537269;0x98fc0d9856891;0x3cfa17dc55d0;0x7b8bf3f84ce8a;0x86ed834cacce];[0x2bdd51055e31c;0x3cb16dca307d;0x1f1446229d242;0xd8096c8611f84;0x7d384c9e2356];[0x5e68834fbfaa0;0x243dd7b255ecf;0xbc5e9a9f2f9b2;0xd101db25cb84b;0x7bb9c8208312];[0x4576e5ce92d49;0x343d5d07fcfe5;0x25dd738a6032c;0x3e9f0570e4be6;0xc6d2a57b8b86];[0xa0ac429a0f992;0xd5770b4bb00c4;0x4215f67cf021a;0xaa35f0011df3e;0x76d1d587b5c8];[0x0;0x89b42e36e82c6;0x8117eaebc82e2;0x84d6b32ddcfd9;0xa789bdc94a874;0x3b7ece0afd0];[0x0;0x77ede771bcf89;0x44fe7a4ac027d;0x3a0678e774058;0x7f30a9a15670a;0xcfc10a791f5];[0x0;0x12d7a5a4ff078;0xd16837deb1f1a;0xd9c884354eed8;0xdbb6e372203a0;0x32bfcc4a49a7];[0x0;0x59369f2c1f688;0x5e2be305facaa;0x873cefade037f;0x1bdef4ef44f2c;0x41b83cfb6f12];[0x0;0xdb1b2d969b85d;0x310250ba2c5b4;0x9e00333bb6272;0xc38fbe7105e2d;0x306b5af7ad91];[0x0;0xf7f0cc3d8032a;0xe00be4e43d3f7;0xae1dc1b7a228b;0x85350da51b8ef;0x44e1ca79d216];[0x0;0xb57ee3c957efe;0x2c630c83871c0;0x9865baad82357;0x1df6eb4048bc4;0x738b3552ac06];[0x0;0xd46dc2a6a6e88;0xdb65c47421a0a;0xc2e97afcd76f8;0xe8fc27ee14736;0xe49502aefcba8];[0x0;0x939fa18fe72b2;0x96c0e5ab8ed22;0xeb721c0d5b00f;0x897b29c214d0c;0xbe1fab088c17]];
 [[0xd44451bb62e58;0x163a6917d9310;0x8ac4e59a4f5df;0x8b79950526a53;0x3aed65874d17];[0xb5c62f7b15bc8;0x448f5a21a21b4;0xd8188ed5af4c;0xfa0e7da14ceaf;0x7735115bd03f];[0xb820e1eb47753;0x1aee47dba8578;0x4e678b17c782a;0x6bc7687407d7f;0x2f42a220f558];[0xc734f1d6aa2d0;0xe3441a47e84d;0x634a11ccd0ec9;0xe96ddec8c2e26;0xa00cf90387d9];[0x2a1cbb834401c;0x76a3703f2c53b;0xba599a65fcdae;0x7648002e52a7c;0xea9a84c1304d];[0x796810f03239b;0x9db2d4dcd83c1;0x27d6a903235f;0xcb452d5d05f83;0x7e24482f243a];[0x0;0x89b42e36e82c6;0x8117eaebc82e2;0x84d6b32ddcfd9;0xa789bdc94a874;0x3b7ece0afd0];[0x0;0xa02852fb80808;0x54e9b00f5d0e0;0x83f7561b03d51;0x37c7aabb71dd0;0xb77e2fccd23];[0x0;0xd6de5e983e38c;0x4e47966e45f4b;0x51844fd9f9cd8;0x718996e049639;0x30bf3eec2eed];[0x0;0x3d749b0eefbc4;0x2588e39f3f819;0xbf6d117083f66;0xc66fb7279a0f5;0x430235640f8b];[0x0;0xe561b4ff027a;0xf59e80cd45bc0;0x16a5fe7cc6aa;0xc6fd20a660201;0x315e76817ec0];[0x0;0x1472598491809;0x81133777494a2;0xb1b0096ce6195;0x20ea49f2f6e46;0x422a1a55b80f];[0x0;0x961ce0714a421;0x8f0cdef1a66d7;0x1956b8a058cc7;0x5c19f5a2fbce7;0x42e42e69cde];[0x0;0xb80bd0e3a4488;0x87c55e5902004;0x15732f0b62c6e;0x19407be770e14;0xafa6178f5bbef];[0x0;0xccc0d900d38c9;0x4815fe68e4b45;0x6bd0b4a4644e9;0x8a59cb1c9d3e0;0x5f60986fa67]];
 [[0xd44451bb62e58;0x163a6917d9310;0x8ac4e59a4f5df;0x8b79950526a53;0x3aed65874d17];[0x698fd8779d5bb;0xf0a9f61dfbecb;0xa8610ebfb5dc4;0x50bb420fad631;0x457b3bcb1178];[0x52102e0123eea;0xc6538ab12825b;0xc76af2a2956ad;0xcb12ae5299b56;0xe95e3523e534];[0x64498ae853076;0x9a1a2b312600a;0x9c6f8c6615f0e;0x778366f572b87;0xd9df3165e169];[0xdea8ab3dc55df;0x5e464b2314d7;0x9d5a12971b3c2;0x26f5b44ab1b15;0x3b8453c49de5];[0x68cf269b936cb;0xe504de03833b9;0x3ec624120137f;0xf8cf1da6875c3;0x2820e94d38e4];[0x0;0x89b42e36e82c6;0x8117eaebc82e2;0x84d6b32ddcfd9;0xa789bdc94a874;0x3b7ece0afd0];[0x0;0xc95b73513ab1b;0xe5ca93320fcae;0x4e05e01e40413;0x36c4112fd7036;0x2fe157afd0be];[0x0;0x60ce1e9186998;0x30d7b84ffc6d3;0x1b3047f2c6bf6;0x31accf04d29a3;0x1ff14deb215];[0x0;0x61f1c1e42580c;0x81e20135e0207;0x2bdf333d785d6;0x94d948ac9efe3;0x334ccff523bb];[0x0;0x6a9af2a44d4c8;0x670822af052f6;0x4c277069bdb0f;0xeeaa72e534661;0x25cbad0522c1];[0x0;0xc6eb789d30587;0xe9c6265c97bd7;0xc2c8fc8dea195;0xa5185c75a028d;0x2b5b11eba0a];[0x0;0xa23fdfce78ce4;0x4b1458f50a9f5;0x4c12ae614956a;0xd6ac792aaf98d;0x195792981655];[0x0;0x4c89b70c29cbc;0x47db0a132748f;0x94bd9034f5ddd;0xe3b233267de9c;0xa368ccd1d349];[0x0;0x53566aa6f7967;0x91d68235a3a50;0x9dab1ff908f17;0xdc7975b79b4b3;0x39013b0fc4f]];
 [[0xd44451bb62e58;0x163a6917d9310;0x8ac4e59a4f5df;0x8b79950526a53;0x3aed65874d17];[0x865a3e6c574cd;0xa1cba0bdf3102;0xb66bb47592b9;0x15b0e0bb75318;0xcce3ce358af4];[0x45629593d72b3;0xbecf5ff942024;0xfe210ee997f8a;0xa1a60bc190bb7;0x520501058fb4];[0xabcb1fd476959;0xa275ada64194d;0x819e0aab9c2e2;0x7188dbba6b294;0x3f32eeecd348];[0x17bf4ccf9edf3;0x22fdc32bdfeaf;0x369b49a537f82;0xe400b3626bc86;0xdaceb0c050f9];[0x3c1e77d63ba3c;0xb743da44fa8da;0x6900963ed0e8c;0x4bc29dba3eaea;0xda681cc1a7a8];[0x0;0x89b42e36e82c6;0x8117eaebc82e2;0x84d6b32ddcfd9;0xa789bdc94a874;0x3b7ece0afd0];[0x0;0x8ce7d26dda095;0xf559d6e07e2e1;0xc550547f8fab5;0x1fcd1fa4d7512;0x6c45ae62814];[0x0;0xfa5787c048756;0x18ce1aadb291b;0x17d4ac69d021b;0xac9579abdd8;0x14c32af00727];[0x0;0x9c75dfae0d6f7;0x710d87f145783;0x75a590066355b;0x6a86fcc1bc49;0x2f2bd6755e1];[0x0;0xccf11618056fc;0xdc53c7810a2a2;0x1f80f0c07d299;0xcf4a46c107364;0x22c0f1947d1];[0x0;0x5057c36f36afe;0xe7c5e1862ab63;0x1d112585611;0x68edfc7878e5d;0x1c2e49692be5];[0x0;0xbf5b4b092ce36;0x2c87934f2d58d;0x4c97031b1843b;0x12f331ffae1bd;0x375b930aa001];[0x0;0x591d51e346019;0x1ebca3e59c2da;0x48bbb673fb11e;0x187328c2fc49;0xc3ab1af35bae2];[0x0;0x225a5a9a66b00;0xfb807b9af0be;0x4d377889a8867;0x58727eda42cfe;0x3436f5c9a2cd]]]
 (V [0x2b7a2749d90d9;0x7bfc43b95c15d;0xa3ca67b65afc2;0x9700969defc3b;0xe064d58d14e9] [0x5b4663737df2c;0x52f70a796d2f5;0x2eea4fc0dfa1b;0x4a20654557372;0x642fc5c2b13a] [0xb34be7943555;0x4c468169f6510;0x330c193ef40af;0x3a202e5e17a14;0xfb1587e21a11]) [[0x7dd58b8761de0;0xb10302a9de76b;0x8f07c5ec74174;0x35d2d012e0122;0x7ae1bcf15f68];[0x5852a2bede9a8;0xa7ca39be7b52c;0xa5d36da0b1b19;0x62b9ca4aebb31;0x4841b26f070d];[0xb973d6cf24c1e;0xe3865291da6de;0x861d1682a6234;0x9ead180136384;0xdd8a8c656a57];[0x56312b0164a04;0x8205a98e1790f;0x6a5f601d90d63;0x4cc48e8eff773;0xcc8bf6d8d66a];[0x456f81fada5c3;0x9d8edff19d80c;0x49662d2ffbfce;0xc21b951c5a480;0x672fc147cf63];[0xbcb359a766e06;0x72cdb9e760b5d;0x2b2d513f8fe5d;0x9174e0cd2d3b0;0xbf131d63218a];[0x0;0xf8e525826dab7;0x9136268060a63;0x50b13d0022c9a;0x66ffae1a2c170;0x4fe7158f118];[0x0;0x98a3bb14234c8;0x3680f96b97bf6;0x37c9280ebbce9;0x1155a91dff04b;0x431f5b2f4b39];[0x0;0x2b3755955c226;0xa4ca7c49e77e2;0x92bf991d0c678;0xc4b50eabd7e1c;0x4112db1b95f];[0x0;0x97f66a029b1d1;0x914b8ae2a5e11;0x52c4b4efd60da;0xa6f7cfb6c6c9d;0x22b1576d06c4];[0x0;0x5b04606ac9933;0x91995610b69c0;0x206c462bb11b1;0x5dcb72abccf76;0xb5d205c7213];[0x0;0xf7df9be59bd3d;0x3abf8516afa08;0x36195e05568ca;0xed2baeb9ba4e6;0xc6aa3814a2d];[0x0;0x8ddf61822f8b9;0x76ba7b23aa9eb;0xef4d92831ebd9;0x2ffd25758fb7d;0x3f55f2115517];[0x0;0x13e1a36487fa4;0x8821c44b1797f;0x5054064f5b0b4;0xdd630df3db70c;0x68ae4fc59219c];[0x0;0xccfa1f6d0fda1;0x62ef32d0bdc4d;0x920c2a650f314;0x4b5906af82e3b;0x57d14346912a]]
 [((V [0x36419a8e29b8f;0xb7f33242af213;0x7b68bbde7e829;0xb6eed0ee70fb;0xc4c313d223c5] [0xc9b11c8ba4db1;0x39a782d36b4f6;0xf5906a9fce8e2;0x920e5b2835e67;0xb2bba149b912] [0x9dcc4764184a2;0x624ff9b9cab35;0xa38b010979d02;0x823201ad5f6fe;0x5f6be068cd2]),[[0x13191882dedbd;0xe610307f4a27e;0x8855bce4727e0;0xc7b70c741fc5f;0x62b89a2cabe0];[0x41b164125082e;0xb2d9eddeca015;0x732f0197dfdfe;0x20c3a1457127a;0xb1f807161742];[0xb34be7943555;0x4c468169f6510;0x330c193ef40af;0x3a202e5e17a14;0xfb1587e21a11];[0xb34be7943555;0x4c468169f6510;0x330c193ef40af;0x3a202e5e17a14;0xfb1587e21a11];[0x397d3f135483e;0xb6926b92d6a2b;0x286145a6ba814;0x194dbdab672f3;0xa998ddab79f3];[0x83424fefbff1;0xfc47824bf35ea;0x4acdbbf1255e9;0x775e39a09f87;0x85f296a9d4f];[0x0;0xf50b5f12abc76;0xa02b1dfc648a7;0xd3c1c33cbbad;0xfe87f4a695b4c;0x5e85a95deca];[0x0;0x1842ac9df6465;0x8f106aa325e17;0xe173cfdeb8cac;0x8ba9234acf2d9;0x60d34cb4fc82];[0x0;0xccfa1f6d0fda1;0x62ef32d0bdc4d;0x920c2a650f314;0x4b5906af82e3b;0x57d14346912a];[0x0;0xccfa1f6d0fda1;0x62ef32d0bdc4d;0x920c2a650f314;0x4b5906af82e3b;0x57d14346912a];[0x0;0x4fd6fe45c017e;0x929a2acd51adb;0x70ad4850e31ce;0xd62554233855c;0x27355b6a50b7];[0x0;0xa2f34d8dca800;0x549d5ad6ce94f;0x175fee1c70c99;0x314bc056b4fee;0xc4b09d6e6cf5];[0x0;0x513d7c7f53901;0x119c026958d25;0xd60403c938307;0xb115f80651975;0x88c98321ce7c];[0x0;0xd76511cbc1c8a;0x75f39c6e4d204;0xb91c95447bc8e;0xaad7fad596265;0xb6234d0aa8414];[0x0;0xa8e03f733674b;0x2b135cb93a702;0x2fd5ea5e4cc57;0x319a24e5a33a5;0x895fda3ef0b6]]);
 ((V [0x68360d12c1852;0x30a3b9a5b6171;0x1fce062c0db21;0x54534043f7132;0xb589645e4446] [0xe45bc44918b9b;0x91c02acb8ff4a;0x1325e05d5d91a;0xa7e8eef51c5aa;0x1b37121afc40] [0x92636485ae082;0xa2d561ecab676;0x6b1f4497674bb;0xc04dcd08a9af2;0xacb0f0a8abdb]),[[0x349ef9c7a200d;0xb2d81874b47be;0x39eca81544324;0x8836ce1bd3506;0x73aced2815d2];[0x6f772812868e7;0xbe6b53b6f16d6;0x520f4463525ef;0x22c255a3ec6ad;0xbdb0c2f97920];[0x9dcc4764184a2;0x624ff9b9cab35;0xa38b010979d02;0x823201ad5f6fe;0x5f6be068cd2];[0x9dcc4764184a2;0x624ff9b9cab35;0xa38b010979d02;0x823201ad5f6fe;0x5f6be068cd2];[0x48f4e2f9cc761;0x8c14555dd284d;0x7c8a2c352a631;0x148a7eef54a9;0x2053f76529fe];[0x26824518ba187;0x3256fe591ee89;0xd585182e27fbe;0x2179adb4f7203;0x9d5ccb944f22];[0x0;0x88e9ceb8bf89f;0xd291bfa17a69d;0x7c1630c074a43;0xe986d1123eca2;0x23ec053feb];[0x0;0x16b00feea07a5;0x102bf0c627018;0x8a42090c1dc00;0x147b9a8032232;0x2b1deaafaa5];[0x0;0xa8e03f733674b;0x2b135cb93a702;0x2fd5ea5e4cc57;0x319a24e5a33a5;0x895fda3ef0b6];[0x0;0xa8e03f733674b;0x2b135cb93a702;0x2fd5ea5e4cc57;0x319a24e5a33a5;0x895fda3ef0b6];[0x0;0xc2c1867fddb00;0x22b13b4e517e7;0x5a9d34d6a01f3;0x441c5d64afd7;0x7cc975cf8cb0];[0x0;0x92fc1892bc9b6;0xb3eab779a35a4;0x40e75aff5416c;0x157f39f4a87c2;0x973b4b00fa71];[0x0;0xca7689f7630d4;0x8333f0da4b452;0x81bf66facc4d7;0xa64c4c38af6b9;0x8683c7d19fcd];[0x0;0xf5f8ec6b91bf6;0x3cb32d5c55a3c;0xeaf4b2f4ccfe1;0x7c821dbdb150a;0x1ba7dc0d62058];[0x0;0xe7eea2922067c;0x50673887cacef;0xe118dd84dedf1;0x9877f2b1192;0x134c8af14d58]]);
 ((V [0xa5ec778dc68b2;0x6566816fa5993;0xe20852ef03006;0xc46745afb2b61;0x2c20645d6671] [0x2b70ccdb00cb5;0x3dfe96e30cc;0x97f311fe30283;0xd00e63f981749;0x3f4900064985] [0x1a1d0b0e573d2;0x5d3a823ca9c80;0xcf8bfcf0fe358;0x12aec8d6e1b6e;0x238cbbdc5e9f]),[[0xbea782967fc47;0x434c0856356fa;0x6747c23b0cadd;0x68abfee169da1;0x4e0e380fc9b1];[0x1dc7839b69f70;0x38d32ef5ff60a;0xc7a56190c31ba;0x194dd4d95451b;0xa4ace3ada34a];[0x92636485ae082;0xa2d561ecab676;0x6b1f4497674bb;0xc04dcd08a9af2;0xacb0f0a8abdb];[0x92636485ae082;0xa2d561ecab676;0x6b1f4497674bb;0xc04dcd08a9af2;0xacb0f0a8abdb];[0xaf2789e7bb0c0;0x707150a3fd216;0x9870bf7a9e75a;0x556eb0c4d24c7;0x6546e18f307e];[0x6e9ff9b3aeeb1;0xc861de52023f3;0x2f34a21624a5f;0xc3df241482054;0x3f66021e72cb];[0x0;0x5c8345a431c29;0x83df39389ee9e;0xcd3883941a40b;0xc7af45173db3;0x4102b86a39b];[0x0;0x6ef71931b7812;0x61e8afaa6aeb9;0xaf933094536ba;0xf3fd181e64b13;0x34a780d1e8a7];[0x0;0xe7eea2922067c;0x50673887cacef;0xe118dd84dedf1;0x9877f2b1192;0x134c8af14d58];[0x0;0xe7eea2922067c;0x50673887cacef;0xe118dd84dedf1;0x9877f2b1192;0x134c8af14d58];[0x0;0xeea4d21f3decf;0x6c4f3a02f98a6;0x7c42aa3d60baa;0xd58495cc991f4;0x2e4a9aa7a15];[0x0;0x3a7ec94445965;0x731d96784bd5f;0xeec583af247f6;0x4e9121b74b963;0x80bb91a9e0ca];[0x0;0x5703e986106a2;0x715c551c0fbc2;0x828d5a1da04f4;0xc0d8498652423;0x1c628d4deb69];[0x0;0x27c32499fe5ee;0x842ee70880968;0x812f7b73cef5c;0x4df2e9baf8d4d;0x40b237f122ed7];[0x0;0x564a0bcf23738;0x29fa73f76ff6d;0x8f633e69b03dd;0xdd46658d49971;0xae88df0b046]]);
 ((V [0x477bd4b835d0;0x73f5fd233064c;0xafbd058669a70;0xa1f84dd703ee1;0xb20cbdbd9d] [0xe706b241f2102;0xc2c7600fe2177;0x2f7c08493e060;0x2ed9424715073;0x7445d9310eed] [0x7185c80136a5e;0x53ae72f53a128;0xb9ad1f28ec5f2;0x7bfdd9d83161f;0x2437fb6b7e0d]),[[0x5bc3231e626a8;0x5fea6e41a766e;0xe258564fd0276;0x75fd687b44da5;0xf99dc97083f4];[0x5389630462b8c;0xa39b3621aa3d9;0x537883a5b61c0;0xaa3a1b54a7154;0x11a5a0783cb];[0x1a1d0b0e573d2;0x5d3a823ca9c80;0xcf8bfcf0fe358;0x12aec8d6e1b6e;0x238cbbdc5e9f];[0x1a1d0b0e573d2;0x5d3a823ca9c80;0xcf8bfcf0fe358;0x12aec8d6e1b6e;0x238cbbdc5e9f];[0x7a9caa25acb25;0x75bbbb56f5baf;0xeeb5e725877af;0x21fd8c5564cdf;0xe04973980d8d];[0xd8ecb8deb5dff;0x2ddf7acab4829;0x64c29c802ea11;0x883c8eff42474;0x20d0e66f763e];[0x0;0x8261c37a53f72;0x860961b43147;0x6344253ab5bf;0xe6ea06bb8c80;0xd620699685];[0x0;0x988a80e6f205c;0x2ec678068535f;0x328ddb3784cb4;0xee1616b6d630e;0x22a9cc01ad93];[0x0;0x564a0bcf23738;0x29fa73f76ff6d;0x8f633e69b03dd;0xdd46658d49971;0xae88df0b046];[0x0;0x564a0bcf23738;0x29fa73f76ff6d;0x8f633e69b03dd;0xdd46658d49971;0xae88df0b046];[0x0;0x200f13b083c4c;0x11721cfe65c0e;0x4cdc688734599;0xcadf44cd2949f;0xfa502d41bc5];[0x0;0xf7832adab0303;0x657f67d341299;0x28aa9a7cec35c;0xd21112de0de67;0x79b269959e9];[0x0;0x347190b6fc8f4;0xa57d68b4f56d3;0x5e9aef77ef503;0x97a99d2363039;0xc460a6b7];[0x0;0x87b1c9d6246ed;0x4f3fadefcf883;0xa9eef76f1f878;0x3cb8e56eeb248;0x7b8232e6cc595];[0x0;0xe98722adf050e;0xa3a6d289d6555;0x44e487b686598;0x3095d6160aa9c;0x50de5a77fb]]);
 ((V [0xf0a7f7c58db56;0x3204961870305;0x1f8cd0b7067c3;0xa09fb226ae559;0xbd5805fd5f77] [0x2239290118cbb;0xb06be2cdd1ab8;0xf294489dda9c5;0xfd99ba00a2992;0x91dd3874f60e] [0xcf5258961654c;0xd6b61cfa6ee5d;0x2e36dac6b3a3e;0x5dcca26b064e4;0xb90f497c9efd]),[[0x1170385396d44;0xc7772576b4157;0x54becda938b62;0xa1aef1b38beea;0x5906b2f914af];[0x928ed287dda1c;0x35d798b80403c;0x17818477dd4fb;0xbe744f49be309;0xed9a5f2a1820];[0x7185c80136a5e;0x53ae72f53a128;0xb9ad1f28ec5f2;0x7bfdd9d83161f;0x2437fb6b7e0d];[0x7185c80136a5e;0x53ae72f53a128;0xb9ad1f28ec5f2;0x7bfdd9d83161f;0x2437fb6b7e0d];[0xff12914651990;0x66edb85a1df94;0x9d7f07eed5aa3;0x96ccec50e2703;0xe0eb5af7de02];[0x937c41418c08d;0xcee9e05de60a7;0x7a027c8907a57;0x27a762f8dbc05;0xcaf04323a1e];[0x0;0x3b05d4bd3810a;0x141554a780a1;0x523c6c54174d8;0xacc61a0306562;0xda27e4390c];[0x0;0x344840750d84;0x7168fae765a5a;0x4da608bb905ef;0x26685db5307c5;0xc98690a6d89];[0x0;0xe98722adf050e;0xa3a6d289d6555;0x44e487b686598;0x3095d6160aa9c;0x50de5a77fb];[0x0;0xe98722adf050e;0xa3a6d289d6555;0x44e487b686598;0x3095d6160aa9c;0x50de5a77fb];[0x0;0xe0ab790995fac;0xfa767859f00d8;0x7058b4c26d3f2;0x3304f64533c74;0x34cf5fe3423d];[0x0;0x4a8ab07f51f85;0xa449f3fe814ea;0x2f0de90ef61ad;0x59d8baed1294;0x7bd5b87e];[0x0;0x417caf087644e;0xaa6c40820eec;0xafdb31eae3173;0xa81761d33644e;0xafbcaae1f84f];[0x0;0x6be99a23541b6;0x6408e0f9c9f6e;0x745399f29955e;0xe17310cad3dff;0x9284efd3304d8];[0x0;0x7795abd45366a;0xe4be8a20779a7;0x504e73622d285;0xfc1509ce00c0c;0x6be27a2371fd]]);
 ((V [0x8090f3dbd3b3;0xf3168e8ef7d60;0xd26e863281e89;0x1397a9358fb2b;0xd3e653127300] [0x130c08636bb59;0x71bf2efef616c;0xc69135d0e83ef;0x148c29cb05561;0x604adf5ae58] [0x1607e1785125a;0x2f540f9748a4f;0x84dcc8a4651da;0x7747447762a14;0xe7876faa25d3]),[[0xfb70cec48d83a;0xef294041ad34a;0x44f2447288d93;0xe795161b4c641;0x74f9d3dc978f];[0xae8be079a0b07;0x16aa58182c025;0x8c249f00d7eaa;0x6a62d74d92e83;0x328d99842f18];[0xcf5258961654c;0xd6b61cfa6ee5d;0x2e36dac6b3a3e;0x5dcca26b064e4;0xb90f497c9efd];[0xcf5258961654c;0xd6b61cfa6ee5d;0x2e36dac6b3a3e;0x5dcca26b064e4;0xb90f497c9efd];[0xab6f6fb73a3ee;0xf56f8d1d82ac8;0x3bec5fd158105;0xe5a56dcecb345;0x240c0b37d09e];[0x31c70c26671a;0x213acafaa955d;0x50383f2f7fda4;0x84bd697ec7b3e;0xe818e4c5e79];[0x0;0x760d652579a46;0x9ec745857a79d;0x9695cdc9e1108;0x4252bc71b4b41;0x45aab5ee198];[0x0;0x8f97143b3f177;0x938ed9b1dc1a3;0xd17c8cd546910;0x5c5f8b4345aef;0x548f86520286];[0x0;0x7795abd45366a;0xe4be8a20779a7;0x504e73622d285;0xfc1509ce00c0c;0x6be27a2371fd];[0x0;0x7795abd45366a;0xe4be8a20779a7;0x504e73622d285;0xfc1509ce00c0c;0x6be27a2371fd];[0x0;0xfc8f25e06540d;0xd1badab0330d0;0x52152de9b33fd;0x32407929c23f4;0x531c591f0521];[0x0;0xe18c027eae1c6;0x14f06ad2688fd;0x719fe4ed173eb;0x25eabd2b51bb1;0x8c0b171c3d4c];[0x0;0xcff037cca1c00;0x7786dc398b569;0xb895b4047c804;0xb6041cf448d31;0x29d831276d03];[0x0;0x301666657d432;0x80dc13de5b1b5;0x5fc0900a04680;0x2c06de7fba609;0x651f4f26dffe];[0x0;0xb123cccb60547;0x5237c97b4265f;0x2def3678c0f98;0x397a14328779e;0x4fb4589bcdc]]);
 ((V [0x5baf0caf21779;0x56040cb1ba51b;0x3e11d3da24ef0;0xa153b960afccb;0x67337a185a0] [0x7311fb560174;0x78ab1e3b84da7;0xe5bc7e9363c02;0xb51412df68b85;0x97c6a608f369] [0x1daa2a0259717;0x525759a461bea;0xb1e1d062f20d;0x276ee48bc3c0e;0xbdfce471c1bb]),[[0xd12c76762be9e;0xcb2656c4a8af1;0xa591e7885ce32;0x3e645d3d2b3aa;0x7db1da09b77b];[0xc00f9bd9b7564;0xe61e1d02dd99a;0x81353a3cd98eb;0xd9d5aa3475be5;0x94f9d8059a10];[0x1607e1785125a;0x2f540f9748a4f;0x84dcc8a4651da;0x7747447762a14;0xe7876faa25d3];[0x1607e1785125a;0x2f540f9748a4f;0x84dcc8a4651da;0x7747447762a14;0xe7876faa25d3];[0xa8b3a18ddd93a;0xe57a2f4db7066;0x77b2fad79b533;0xb721f4665dba0;0x703c0dfbcff3];[0x175bfa4bd9c2b;0xa3edb526934;0x9823f653e3b8;0x22b3b5ce18045;0x24bdca09ca1d];[0x0;0x1e2671da7bb60;0xff07951754e91;0xcc681ab0c30c8;0x7cf3e6d686984;0x57291658158];[0x0;0xa7192a252bc18;0xc0be2e52927a4;0xc78219c2735db;0x80f786c733f07;0x71adfb5c67e7];[0x0;0xb123cccb60547;0x5237c97b4265f;0x2def3678c0f98;0x397a14328779e;0x4fb4589bcdc];[0x0;0xb123cccb60547;0x5237c97b4265f;0x2def3678c0f98;0x397a14328779e;0x4fb4589bcdc];[0x0;0xa73adcdf126e1;0xfb441c76b469d;0x2a753838c69ca;0x8d216d6f71994;0x24383d6a0f];[0x0;0x26b8f063260b2;0xe2d893b88f812;0x3361cd870c42c;0xbc55a1d281c5a;0xaf657c29c9ad];[0x0;0x203f227cd305f;0x5edd120db348;0x72b37b8f1e06f;0xf19026a703c95;0x3c0e7abd86d];[0x0;0xb910fc824fed6;0x9a76ae86450fc;0xe72dfc0840600;0xded4c0a1695b1;0x9bbde0e509046];[0x0;0xdb7b3cde0c2cb;0x5744f0e239319;0xf3eaa9a0fdfa3;0x9ab799a14c541;0x3d2f71c3c8d]]);
 ((V [0xc54a2424f76c5;0xdd4f644e1cda3;0xfd9735728e813;0x7b9114fed4b2b;0xe8321cb80268] [0x2f3199c6e3d74;0xb296bbc306ab3;0xe20af6139e88f;0x9d70972ae598a;0x5047a58a6cea] [0x3375546736eda;0x60b3050f8394e;0x921d954dfe15e;0x110d339ab1c50;0x9623e060a369]),[[0x53eea26e56845;0x68ebc08cdf4d9;0xc08d4c2af5dc;0x3bd2f7307b4f0;0xe516e9ef5df3];[0x631cd6a6270a6;0x34afa72ffc5d4;0xf5aefc25b0ad1;0xf27c86c23bd55;0xea6dd365025e];[0x1daa2a0259717;0x525759a461bea;0xb1e1d062f20d;0x276ee48bc3c0e;0xbdfce471c1bb];[0x1daa2a0259717;0x525759a461bea;0xb1e1d062f20d;0x276ee48bc3c0e;0xbdfce471c1bb];[0x378ce0de227a5;0x10bb35bb0aa65;0x2cbf2051fb323;0x90a571239df60;0x3f1ee2851110];[0x2b8ff5c804902;0x23f47174f1b6f;0xc8efdbd3b57ae;0x61d7159e9ddf5;0xab4ef0dff14e];[0x0;0xa9209b401d6f8;0x80db05d297c7;0x6ca1502e597bc;0x639b50f698570;0x4785a6483ad];[0x0;0x5dbc5d7ec9f7b;0x3cfc4af301502;0xebb4e234d9853;0x4252cf7ee2f16;0xaa0439b234d1];[0x0;0xdb7b3cde0c2cb;0x5744f0e239319;0xf3eaa9a0fdfa3;0x9ab799a14c541;0x3d2f71c3c8d];[0x0;0xdb7b3cde0c2cb;0x5744f0e239319;0xf3eaa9a0fdfa3;0x9ab799a14c541;0x3d2f71c3c8d];[0x0;0xea9d2376f95cd;0x642e160cf2900;0xca8e208107a85;0xd71efe33f2448;0x59fbf203d0ae];[0x0;0xb18743bc19729;0xd298b4a8e540b;0xe6fd877ef89e6;0x63353d06467d4;0x299a769978];[0x0;0xc09b62ba52af3;0xf584ab6e7a5b9;0xfae4a455f4961;0x8949844297ad;0xd4a16b535824];[0x0;0xd4835ca5830f2;0x86b1dcd99904f;0x4395350d0265;0xe3a519467ae5b;0x50b3e10147da1];[0x0;0x33a5ff2cfa926;0xf4e8508b73368;0x1f125aaf04ffb;0x570efb9fbce84;0x48d0a5055219]]);
 ((V [0xc62e3b02ad45;0x447759c3ff7d6;0x673f17099788a;0xa4050655f56c3;0x5ec674aa5846] [0xedcf786de7644;0x17ffbaf746436;0xd276d7dc14f44;0xc6acb31d65b9a;0xd6c999c21ab2] [0x59d8431b39dc5;0xba4a22866fc2d;0x492a2f1d23e52;0x6074aaeaeb103;0xe4c03b2af4cd]),[[0x218a3765473a6;0xee035b3af22ea;0x15e4ed0405c52;0xa928dc006a65e;0x50ff5a0a1b45];[0x9d2710e2c1fc6;0x13510b5e7b226;0xa5fd8928a3d5c;0x5e5e84db6c016;0x3d6d735e134e];[0x3375546736eda;0x60b3050f8394e;0x921d954dfe15e;0x110d339ab1c50;0x9623e060a369];[0x3375546736eda;0x60b3050f8394e;0x921d954dfe15e;0x110d339ab1c50;0x9623e060a369];[0x3e425a1c98a82;0xf1c5484706993;0xd897f8f8db1c2;0x3e221408c0f5b;0xb27923b82046];[0x5ee4b6c6292dc;0x218bc31774893;0xcd65902fc8b99;0x203c70d2ab0ba;0x8af44fa5f308];[0x0;0x9cb359cf321a8;0x2d836c8f8c510;0x29db0e6e631bf;0x5cfefc25f0915;0x38856a7e478];[0x0;0x4d13c761bcbda;0xb5c586c14cded;0x6002a28db0efd;0xfbc0bf6a1b9e9;0x2f80f8a93d9a];[0x0;0x33a5ff2cfa926;0xf4e8508b73368;0x1f125aaf04ffb;0x570efb9fbce84;0x48d0a5055219];[0x0;0x33a5ff2cfa926;0xf4e8508b73368;0x1f125aaf04ffb;0x570efb9fbce84;0x48d0a5055219];[0x0;0xc707e99435c22;0x38e6fb1996272;0xfef33e3b3e397;0xc7c9bd2a55663;0x192cdb83c1e6];[0x0;0xd34c5e5206cb;0x2082544743d3b;0x43fb3afa90649;0x15918bf93ec7e;0xd29adddcbf77];[0x0;0x79a19cdb68d69;0x55346a223426f;0xea4d6b5fbd5d2;0x856d3b9dc057c;0x16bdcf023dfd];[0x0;0x7d539c2f98d5d;0xdbd55df631841;0xf94de3c9c08d7;0xdbba74c5c60b4;0xe0fd9579e8f91];[0x0;0x238aedcb21dc9;0x7b424b66a269d;0x1542c9b54b6ba;0xebcff21777763;0x4f848844778a]]);
 ((V [0x4054edeebee70;0xf6e94352b3204;0x58dc7562cb045;0x5f6c8783af444;0x348f2021b360] [0xaa25d67227d49;0x2ce2fcaafbeb1;0x5301eb37df47;0x471706be72c5b;0x618ee0c0fe40] [0x861c7f41c771d;0x5a0ec6be65000;0x772e22871a4b2;0xf47e422eba49b;0xdda8cc272e71]),[[0x8c521dcfe6f34;0x99d7a5cf34767;0x881729af36a24;0x47e607e181bf1;0x98bc658e53da];[0xdf1149775b176;0xfc738d1a8cec;0x89adee033a9a9;0x8a3c2719f3ee4;0xa6c0b0a51045];[0x59d8431b39dc5;0xba4a22866fc2d;0x492a2f1d23e52;0x6074aaeaeb103;0xe4c03b2af4cd];[0x59d8431b39dc5;0xba4a22866fc2d;0x492a2f1d23e52;0x6074aaeaeb103;0xe4c03b2af4cd];[0x4f3976b18138c;0xf29dbc0c21dc2;0x84645e1fa3031;0x3fd0b3be2203b;0x2cef848044c3];[0x8fd7d2c5d9deb;0x1d297cc586f2a;0x5498fe397977;0x4a6b735bd1ea9;0x79d12c24cb82];[0x0;0xb2b7b3b94f805;0x29e21d00c157c;0xc76ce17598f89;0x608ee32fd898;0x561d59914c4];[0x0;0x606a5c06d94a2;0xbb9bd53d48965;0x5c7700466473b;0xdba1183e6a646;0x887a7b0bf9cb];[0x0;0x238aedcb21dc9;0x7b424b66a269d;0x1542c9b54b6ba;0xebcff21777763;0x4f848844778a];[0x0;0x238aedcb21dc9;0x7b424b66a269d;0x1542c9b54b6ba;0xebcff21777763;0x4f848844778a];[0x0;0xaa33f73ede1c;0x81de5087a488;0xdf0987992db2e;0x67fae1dec348b;0xb435abd353ca];[0x0;0xee344ca8f9082;0x63539ca02d50f;0xc2665ad8e407e;0x3f12c953f5def;0x23165785c57f];[0x0;0xa1749088c866a;0x8c04dfa8d9507;0x482bcc9fcf8c1;0x202a152d58042;0x223c5e723d45];[0x0;0xb4778804f7f16;0xbcd2c537b1da;0xad168f9d5d320;0x60cc8d3f812e8;0x63af0d89a0ad9];[0x0;0x4c8f42b56f025;0xd5c8f0fb26b6;0x9ec42da739d48;0xce19cde0bf844;0x140790b57351]]);
 ((V [0xfe529e32b38e9;0x1313293a345aa;0x88eec4a4751a9;0x2eb43d3a77369;0x343dbdaaa8cd] [0xedaf4fcc97b2d;0x1470c00ffa0aa;0xd5ff962df76c1;0xedc79dc2cc183;0xfe9cc4cab94d] [0xe7415de5e7aaa;0xe7f0887334916;0x5b45c998fdc5a;0x48dcd0aa6b111;0xce1cb667974a]),[[0x115b118371ccd;0x55989bdc785f7;0x6643d567b515;0xfe36013ee2f56;0xc064fbe0ca73];[0xab2719ff8ce49;0xf0e8ccb2d843e;0x5ba8ca11702ec;0x901bf8cdff0b3;0xe1b6fdc685df];[0x861c7f41c771d;0x5a0ec6be65000;0x772e22871a4b2;0xf47e422eba49b;0xdda8cc272e71];[0x861c7f41c771d;0x5a0ec6be65000;0x772e22871a4b2;0xf47e422eba49b;0xdda8cc272e71];[0x565b61bb7dbd2;0x9051e8dcb9983;0x44997ced42efa;0xf7e3b4760ada5;0xc10c6d7a6b11];[0x54cbb8440f278;0x6096e3d61eabb;0x170f4d242d3f2;0x98384457f430e;0x20aa904c1acd];[0x0;0xd405cc33f05ae;0xeb0f470598376;0xa746c021881cf;0xb2c947b6af463;0x5371eb43740];[0x0;0xdf79157041d90;0xa49cb27dd925c;0xc640ebec149ac;0x48bb6ee073fc2;0xa6960924454c];[0x0;0x4c8f42b56f025;0xd5c8f0fb26b6;0x9ec42da739d48;0xce19cde0bf844;0x140790b57351];[0x0;0x4c8f42b56f025;0xd5c8f0fb26b6;0x9ec42da739d48;0xce19cde0bf844;0x140790b57351];[0x0;0x2fd98c643a2d9;0xf0cce8b592710;0xa17b36da7f455;0x139d29fe59cdd;0x252d96105c19];[0x0;0x430aff6fd6b8;0xa6d57703582f6;0xc512d05c359b;0xfdb686b089e6e;0xaca75129a8d];[0x0;0xb00bc32dfb9e0;0xb9781e01baec0;0x96431727bc528;0x65774522a76e6;0x2e0f9b615d34];[0x0;0x84109ce65ad9e;0xff23661aaca0d;0x4f782ac748301;0x34cfe68c8f90a;0x7eb48a5d84d;0x1];[0x0;0x1af4a7e2f806d;0x1ed5a484111b5;0x68a4c97100d98;0x486dd9564329e;0x33f53ff78b39]]);
 ((V [0x1e9bbba1ebca3;0x5e4d8fd3061bc;0x6d66a09e12f1;0x979978bdb0080;0xcede711dc2de] [0xd6c31c45328f6;0x522cbbfe41c99;0xbba0267f695c2;0x92645885607ee;0x3a8f61870ddf] [0xdc0ba7967d775;0xa215adb430390;0xa3a0298085cc4;0x1d038e964226b;0xde93bcd7adb5]),[[0xe29e198775a04;0x741ba9add8e71;0xb85308e057ca3;0x21e785df3c16;0x433b13a577e8];[0x4842bc483c15d;0x5f336b776c29c;0x81e1278a404b1;0x4b42264f08429;0xfa0313127410];[0xe7415de5e7aaa;0xe7f0887334916;0x5b45c998fdc5a;0x48dcd0aa6b111;0xce1cb667974a];[0xe7415de5e7aaa;0xe7f0887334916;0x5b45c998fdc5a;0x48dcd0aa6b111;0xce1cb667974a];[0x5b11791428700;0x8cf69ae1bf4b7;0xda14363803ac5;0x7a3b2934c9b71;0x69c24850289d];[0xed31433413a5e;0xd23cd095acde4;0xa7ccf1523c9eb;0xd106fd1a3e8b7;0x9040cac24b72];[0x0;0x3abba492acde6;0xcec9457d5ac9;0x57f4698eaaef0;0x897cbe7921297;0x4d97979872d];[0x0;0xbaa5399912c6d;0x7c19ec9d28bbd;0x3b1ee3d00567a;0xb4b3d2b1f7ce1;0x3621142c810d];[0x0;0x1af4a7e2f806d;0x1ed5a484111b5;0x68a4c97100d98;0x486dd9564329e;0x33f53ff78b39];[0x0;0x1af4a7e2f806d;0x1ed5a484111b5;0x68a4c97100d98;0x486dd9564329e;0x33f53ff78b39];[0x0;0xf180c8b8ab77f;0x261ddcc61e70f;0x381bff18854a;0x871a318d74638;0xfd3b7682b60f];[0x0;0xb418fc9b5045;0x5bb268048ad85;0x937c6e23076c2;0x3bc5118b09d50;0xaa923f1446d];[0x0;0xe8ffe8094776a;0x83cf414c0ef51;0xef00c5591785;0xc82f0d37835c0;0xca07b67bcf79];[0x0;0xa0c16e9f4c5bf;0x2f19f0f9e93d;0x6aa972e124a4c;0xa6302b9f2233e;0x3aa54c0af06d8];[0x0;0xf1a953a7253db;0x32305d0b10bf0;0x55c899ba4635b;0x2c068da9f94e9;0x2f5242b15926]]);
 ((V [0x991490a066510;0x7b4243bd5b786;0x192dedd0a7309;0xee1b572080f15;0x7ba41db537f8] [0xee1bbbfb0b1e8;0xdb53c6e11b9ee;0xd0cf9f55aee48;0x987621af896a4;0x4a85b4daed7c] [0xce0b2891c272;0x9198086f53141;0x5a0456f12fcca;0x4fc99f4c5f7ab;0x335817d3f698]),[[0x5c352be87a939;0x9dfbdc3958680;0x287d43ec85e6c;0xd0a6535d7891;0xdffb4c2d4a1f];[0x45f2e3ba98646;0xecc9a8b8fc62b;0x44ff83a1603d4;0xf29fb8d5d073e;0xaa9517a2277d];[0xdc0ba7967d775;0xa215adb430390;0xa3a0298085cc4;0x1d038e964226b;0xde93bcd7adb5];[0xdc0ba7967d775;0xa215adb430390;0xa3a0298085cc4;0x1d038e964226b;0xde93bcd7adb5];[0xb95999b7b94e4;0xc22faf84d5485;0xb95929f41549c;0x6601c647bd07;0x990a6de995dc];[0x8c994a02df163;0x2a99f934271a5;0x8ba659ad4af38;0xec3f9c7154a36;0x118aa9b891a1];[0x0;0x262c92f45b632;0xa967baaf9427f;0xc1c9dd8273121;0x315d41067624;0x53ca5d1799c];[0x0;0x64c65ce4a8551;0xe8141d67531c2;0xb655be67fabfb;0x22599d4a9f43;0xc2bd2e954442];[0x0;0xf1a953a7253db;0x32305d0b10bf0;0x55c899ba4635b;0x2c068da9f94e9;0x2f5242b15926];[0x0;0xf1a953a7253db;0x32305d0b10bf0;0x55c899ba4635b;0x2c068da9f94e9;0x2f5242b15926];[0x0;0xdb5b035a97480;0xba1d3e7943ba;0xfedf7ddc9d25c;0x6dde13b43dc44;0xd65487f4c52];[0x0;0x24c43e5dd8d8a;0x2ed30124a1c7f;0x1e51153ea3a7a;0x7f882918a4f6e;0xa72abf544737];[0x0;0xf30d18a7086a;0xff72eb2c9a5b9;0x63c6081a5eb05;0xcb8cebfcaa8a2;0x5262fda9b13d];[0x0;0x48395b9ecdbf8;0x892928901125d;0x7c1708da4136f;0x2bd06184a668;0x4c138d1bce8ca];[0x0;0x78c47214a3a22;0x5ef136082fba3;0x79db3b733407;0xdd75f4f070dce;0x23fe0432f2ab]]);
 ((V [0x72230d3850362;0xb98a7cd3e2243;0xed27c3730f3b1;0x42c964e7c01d3;0xa4617844974e] [0x658b7183661c6;0xaf563d616be13;0xc26b5f9691c43;0x9d9fd860bd413;0xe14711efd423] [0xd2b8255c3643;0x26ff1b35f92fb;0xfe3c1478179d2;0x43aefcfcc43df;0xa9f3c13d7c3c]),[[0xc73082c09281b;0x675a882bba115;0xb7255e40033bb;0xce65b4eb480cc;0x35e942614c8c];[0xb71e3fd74bec4;0x4cec1ef13da9;0x9be7c0485e8f7;0x95ab043d401cd;0xae515fa89439];[0xce0b2891c272;0x9198086f53141;0x5a0456f12fcca;0x4fc99f4c5f7ab;0x335817d3f698];[0xce0b2891c272;0x9198086f53141;0x5a0456f12fcca;0x4fc99f4c5f7ab;0x335817d3f698];[0x623f7f22f96d7;0x9d3f4eb4a7668;0xcc85a6acf2304;0xdf2c320ba66d5;0x51afdb09289f];[0x54dec0b4527ee;0x678f733a6c741;0xcf62199b6c5f2;0xb67ed23199af7;0x5ca1849f6b99];[0x0;0x1d2fa79f70d0d;0xe8d4939ffda87;0x5f81172154010;0xfc9ce2d0abd06;0x13542c2f099];[0x0;0xc758125f7930e;0x35c1bf5a3c5c6;0x349caf85aa7d3;0xaae4f1c2ddaf;0xad0056ccbd9];[0x0;0x78c47214a3a22;0x5ef136082fba3;0x79db3b733407;0xdd75f4f070dce;0x23fe0432f2ab];[0x0;0x78c47214a3a22;0x5ef136082fba3;0x79db3b733407;0xdd75f4f070dce;0x23fe0432f2ab];[0x0;0xea67ecc685eff;0x1fe66940d679f;0xccf3a6282314a;0x64cb412233553;0x15b19263fc8b];[0x0;0x69c70556e35be;0x1b03437052828;0xca0475c064b52;0x7ab5f0f0aa519;0x3bb71dc2376b];[0x0;0x2b3dd9166d76a;0x77531565b1fe;0xce8a864d1286e;0xc5a754060db46;0x6fee80021750];[0x0;0x6d82c79dff798;0x5f94fdce7eeb9;0x2c803882d499b;0x9b32ea3a3088c;0xe5c524711ae8f];[0x0;0x1e2d358e4d5df;0xf37a1001e2808;0x8a8131907aef8;0x2b9fa4f403cc4;0x90a74d411c35]])]
 [[0xc3ce3a976c241;0x45bd5ecaf6d0;0xed0fe365257e;0x73ca522b7ae16;0x59b78f100fcc];[0x975c9e45bbb3b;0x9fdb5d352e665;0x7a1b41afc81b9;0xbdc1dd0fc57b8;0x755159cf9dc2];[0xd2b8255c3643;0x26ff1b35f92fb;0xfe3c1478179d2;0x43aefcfcc43df;0xa9f3c13d7c3c];[0xd2b8255c3643;0x26ff1b35f92fb;0xfe3c1478179d2;0x43aefcfcc43df;0xa9f3c13d7c3c];[0x3e3f73ff9386f;0xfef40889ad6eb;0x1cf664f92d9d;0x8fb0549987c1f;0xdc96ec5826d8];[0x591d2a4628064;0xa0e754ab80f7a;0x784bdb603541b;0x2e1188763db99;0x98ba6d7776ea];[0x0;0x43d8f1ac5b310;0x5339b253f135c;0xf123f0cf38a48;0x71d24a4073c9b;0x3ffac147085];[0x0;0x5facfdd440578;0x6804cb97791bb;0x2b8862ff41ad9;0x32490d9645e61;0x3b8f9a6755cf];[0x0;0x1e2d358e4d5df;0xf37a1001e2808;0x8a8131907aef8;0x2b9fa4f403cc4;0x90a74d411c35];[0x0;0x1e2d358e4d5df;0xf37a1001e2808;0x8a8131907aef8;0x2b9fa4f403cc4;0x90a74d411c35];[0x0;0x87193b59e8993;0x76288be431d1;0xcd24a41c235f3;0x1aeee3e9f8db;0xc63e01428730];[0x0;0x158443484fbe0;0x99fa1bc504ecc;0x7101d6a398048;0x4f1abf851a124;0x698d07343e57];[0x0;0x94c8d90760e1e;0x9abcfebea2b9e;0xed25dd32d8c0f;0xf85b88a7bcbc6;0x4ff056c27170];[0x0;0xf2430fdfc88fb;0x60c5a6ca03d0;0xe75548e507670;0x7308b2a831227;0xf789a4a74c601];[0x0;0x827491353bf48;0x7d7b7849aff4;0x5d51e585c38b0;0xd19ea4c23a625;0xa3252d0330d9]].
Definition wit_256A_64_11 : colwit ept wit := mk_colwit (V [0xd25615f31b00;0xa86e9d305beff;0x4aea031881357;0xb3e949a1a26cf;0xe624a1a848e] [0x4225cfca05952;0xecaeea9c4e341;0x6a793e10fdaa1;0x51e4d21afce0a;0x4347aa86f670] [0x7343c504789eb;0x967763bba43df;0x19cd96f2df933;0xa2cfa4af260ed;0x825161346c6b])
 [[0x12545ab3bf2e0;0x4e2ffd636f52f;0xb84c06d5ee1b1;0xd7865902ec77;0x84b5fbae1321];[0xfab5cc9004f7f;0xeb6714a11f81c;0xf41867a33bbcd;0x55d10bde3f986;0xb62ca3bf7367];[0xdd166d7288c6e;0x9c67a51da413c;0x74b9e37d68870;0x4c779797b6a4e;0x727ee3da5112];[0xdd166d7288c6e;0x9c67a51da413c;0x74b9e37d68870;0x4c779797b6a4e;0x727ee3da5112];[0x63ea33baaa1b5;0x1df9453088ecc;0xf6dd023aa1e27;0x65a4444e98b8d;0x13c411627f67];[0x96cb98d55adcb;0xcd6dcf7096950;0xfd3b656899da6;0xf02cc78fa6df8;0xa268925cf3ff];[0x0;0xf84d1a3aa9c16;0x94c341a62f4;0xf2430877cbcd0;0x5eddc8e5076b5;0x2b1a429af5f];[0x0;0x2f3817614367;0x62cf7de9b5422;0xec9937a855aac;0xe088a3c3e309e;0x3b5ad1c3ef5c];[0x0;0x827491353bf48;0x7d7b7849aff4;0x5d51e585c38b0;0xd19ea4c23a625;0xa3252d0330d9];[0x0;0x827491353bf48;0x7d7b7849aff4;0x5d51e585c38b0;0xd19ea4c23a625;0xa3252d0330d9];[0x0;0xed0bdde45fb7c;0xb8230d4207b9e;0x3ddec5a182433;0x63e72a02cfdc6;0xdfef36cf3c5e];[0x0;0xf6bcd621ff56f;0x9a6245e14152d;0xa80b0bb5b5264;0xf3e40a4990bb2;0x76db9b434953];[0x0;0xea9d52d183e7c;0xd52d0fdecd1bd;0xb693e610f66c2;0x5e46a532ca152;0xa3c62c6edcc];[0x0;0xcb7743d43efb7;0xcbe4ccb253958;0x82a8b142db278;0xb711d7e491d25;0x447e1a46028ae];[0x0;0x244884d8b0133;0xf795caa3062ce;0x14e22fba26b12;0x4561f5e978333;0x3c7c03c588d]]
 [[[0x99f0940446246;0xc0b5fe0978785;0x4105e0ded0b74;0xab3ab7fad96a3;0xe60e4084557d];[0x2c6e8863d844a;0x7d3661e953df4;0x8da142c907cde;0x3a89a09f5970c;0x1ea7c80301b3];[0x1048f54c2f781;0xad2252fb59df8;0xdec04737e5563;0x99b12d1cae260;0x4e68eea1e368];[0x67a3b25e32949;0x782765cceac62;0x740999802dfde;0x49a10b004ae2;0xe879c77cc70e];[0xa83b2f31b733c;0x74c44e5c8904a;0xa1d80cdebb14a;0x54cef9a35d4d1;0xc9b9c593d1c1];[0x358f99849ad0e;0x6a03807f663c2;0x43e18cd6db56f;0x687c52246adce;0x8a0036ce6b75];[0x0;0x8193076cef55;0x3ee093556c0ee;0x840ea26938505;0xa068f5fd8ea3;0x310f175dea8];[0x0;0x32b66c3935dc6;0x413a066011e4b;0x1c8572441d212;0x46bbc509eeed8;0x66e460818367];[0x0;0xcc1ae52a52e35;0x72d8c8e96898d;0xf58cf3e1d957e;0x829b03c4af7d1;0x2dd7fc0a3dc3];[0x0;0xd8ce3149ce2e1;0xdab34f8748eff;0x3cefab2daae80;0xb3470f6c56469;0xd73f6543321];[0x0;0xc6e47cef43926;0xf5b543576b058;0x6dbce436c4cfb;0x3bbb48801d004;0x3eece7f99f2a];[0x0;0x592e8aff930de;0x2b01423d3586a;0x43c77017c8edd;0xb3356631cd3c4;0x9cd108e7c56];[0x0;0x89aa9560cefc9;0x574dab65e4cf8;0x696b1a69f8a93;0x8ab4397351c63;0x7038ada9ce3];[0x0;0x769355406b80f;0x2d909c622d917;0xc2038d6f936a4;0xeb094481da462;0xf7b795892b7bb];[0x0;0x43ed10527df66;0xbae30846fc77e;0xc629e73d1de30;0x7f35d938e2623;0x35b8a1c1ec7d]];
 [[0x99f0940446246;0xc0b5fe0978785;0x4105e0ded0b74;0xab3ab7fad96a3;0xe60e4084557d];[0x229b47dc0f314;0x3a19ae4762d04;0x1a0444a01ccea;0x48102b1cae27b;0xfbb9a7af680a];[0xa48ecc71cdb64;0x5151a3124fc0a;0xc90ce2e547966;0x9ed3c04363ea5;0x65feabab7adb];[0xca6b7e6737fe7;0x4280b1bb72358;0x1b6b090f238fa;0x91e69865ae44f;0xbb942b711098];[0x5c25a54cba26c;0x18f0639da42a2;0xc6611cafb7ff5;0x3e4061abc009;0xfc014153d5af];[0x41ea9abd0ca0a;0xe5ea86d89bce4;0x46060db0262d8;0x6953db349ae46;0x839cb209326d];[0x0;0x8193076cef55;0x3ee093556c0ee;0x840ea26938505;0xa068f5fd8ea3;0x310f175dea8];[0x0;0x4105f9b418eee;0xf5bfcff3b220e;0x5e996c2012af6;0x11f3d0eee2783;0x409058b752cf];[0x0;0x4f92c56af96e;0x8ae0182b0f1ed;0x2342fa885fba6;0xa37cec195bc55;0xf64b5844db3];[0x0;0x90176dac61acf;0x4f5c7ed0e4be4;0xdb6b426347c6a;0x8daeb6a8f5e35;0xd31578cc1e2];[0x0;0xb656aad36b95a;0x9136068151696;0x9789f9fd568a3;0xdcbe97d552a10;0x3db54b5eeceb];[0x0;0xb9fcde14d237a;0x4f474993aebdc;0xdc36b237cda8c;0xfcbef3ff769b6;0x34a7e67cd15];[0x0;0x2ab8fc4f95245;0xc119f66069746;0x338edc5682592;0x2e6f732d30a8a;0xcf265ab24962];[0x0;0xfd8b386e2693d;0xde23fd7512a17;0x379a6458d1356;0xc558b573465d8;0x1fb9ddf0e63c6];[0x0;0xa71135a3e063;0xec3270b537a2;0x3e2500e06a873;0x80b09998edb27;0x1a14ae9f25cc]];
 [[0x99f0940446246;0xc0b5fe0978785;0x4105e0ded0b74;0xab3ab7fad96a3;0xe60e4084557d];[0x168cdb80b7da6;0x2d2fc5fd49eda;0xe51c93d9d399b;0xcad27f5871b47;0xcff32f4f79f0];[0xafa261028d922;0x1b81ac6ce8997;0xda8e6e5645217;0xefad7ab59fbf4;0x8a285333734];[0xf3ae1ccada979;0x44d5468f68d9d;0xe541d8585cf56;0x57974d8eb7102;0xa8eb93a72904];[0x38435c93b6850;0xbf29a43b0f448;0x5805381215e32;0xb90fa64af18a5;0x6534acce4a18];[0x7ecaad35a5f0c;0x445b8c2e539cf;0x181a86d7fed81;0xaf97e159274ab;0x1a6547b2e2eb];[0x0;0x8193076cef55;0x3ee093556c0ee;0x840ea26938505;0xa068f5fd8ea3;0x310f175dea8];[0x0;0xdadda3c2e4f70;0x22e2b2b8e0280;0xb3f36c0261f69;0xa0e0e460e4b7d;0xb185c699103b];[0x0;0x51e90cc2a07c6;0x8df90328d1152;0xff51b8f8a2a63;0xd1846912a0ec;0x375db4e93f7a];[0x0;0xf8e49176ae591;0x75176d44b53b1;0xe1675776911a9;0x30f3c5c3429d0;0x1c7dead3880];[0x0;0x961fdffc86936;0x776e8cb543e3c;0x486723eb64c3e;0x95db8c4adce0a;0x8544d12b1cd];[0x0;0xa4707b040db2c;0x6a6919257ecb2;0x148d4e9d882e1;0x9aadab7b00adb;0xbd63b3156ce];[0x0;0x19ad4c5671815;0xa15e73d18c91e;0x33d8917cea6d7;0x8451b35c3ef19;0x9af536fa3dea];[0x0;0x29a25c37e7b2b;0x9b171cab79712;0x23e10860ed049;0xc5b263a79ed1b;0x1280bbba8a9ec];[0x0;0xa522d2be47545;0xee00d41d46e27;0xbbf88c18b598c;0x9ededf745e918;0xda0bdb0ea78]];
 [[0x99f0940446246;0xc0b5fe0978785;0x4105e0ded0b74;0xab3ab7fad96a3;0xe60e4084557d];[0x9292482f29562;0x8439ebb1f2508;0x678d410d9a4c5;0x361881e397063;0xf53bf196d8e3];[0x8c08e0bb88537;0xc0c9c00efe528;0x4272399c5428d;0x782c8194a13e3;0x967bf6d47a85];[0x32241487c8467;0x2e143d14be7e;0x23997788a0a7c;0x810f8ee577cc6;0x6098e6295f97];[0xfc714a93a7b90;0xf57f0ec61d42d;0x6e8a2d5ceac64;0x8e5a5ed76f06b;0x26f40dffc361];[0xafa77b7223b48;0x25106e8942eff;0x70f519b401ea3;0xf8549b6cbe98c;0xa2e6bce0ce39];[0x0;0x8193076cef55;0x3ee093556c0ee;0x840ea26938505;0xa068f5fd8ea3;0x310f175dea8];[0x0;0xfc2cd00e7c044;0xbec750860e2fa;0x277e39dd39acd;0xe4c783bad67b4;0xc6d827d84d70];[0x0;0x2f498a53c5fb;0xb97c89387e759;0x14e46ec318823;0x52068873e52e3;0x32228b35753d];[0x0;0x8ecf271c81a4f;0xeee7ec7d97a89;0xe482444bef768;0xb2a820c58a5f2;0x1070ee7c84a];[0x0;0x158559b8fd8e8;0xa7146a89403ff;0xf6c9da8e956da;0x3db0d0910e356;0x4ce6fff9d51];[0x0;0x2132bec8b208;0xd1e815b7332b7;0x1b80076bf47d4;0x1aea8da6ac916;0xab7eda6f03e];[0x0;0x51114b97ee5f3;0x64ad4dac78231;0xb519823b37dd9;0xc6d45cc3f60c0;0x134dfc1042f3];[0x0;0xc7f71a476a733;0xc2e7bc6b672eb;0xed8b1c8ed1f02;0xeb3c3d4a52bad;0x71c863680ec7d];[0x0;0x16cc508395791;0x17d49e746f078;0x7111409e2fe46;0x6b642a222065b;0x8eef38cfe51]];
 [[0x99f0940446246;0xc0b5fe0978785;0x4105e0ded0b74;0xab3ab7fad96a3;0xe60e4084557d];[0x73e5dc657ac04;0x369b362c1cc5e;0xadad1eedc4c90;0x2af707310d4e9;0xd8154fce7c47];[0xfde05857bfeed;0xdf0d000c8c3fb;0xdc24302a47eef;0x8dc013b551496;0x4679e6e41562];[0xcc02647bd5dbd;0xc57ed82effa8a;0x1eb0c553faeeb;0x9fd1fbe3330f5;0xff491c4dd491];[0xad3ce6fc5ebb;0x158d098fb068e;0xed8cbc8c269cd;0xb85f73d1df85f;0xcc63fa747b35];[0xd01cf406037e6;0xe0d4ae79a983e;0x726630a4753e8;0xa0ad213256d4b;0x71b7c78925ee];[0x0;0x8193076cef55;0x3ee093556c0ee;0x840ea26938505;0xa068f5fd8ea3;0x310f175dea8];[0x0;0x521b758434f7a;0xd1d4a97bc32;0xa0723b5f62318;0x136ebb0a5fa0a;0xe3ecf004ef14];[0x0;0xb300ca916f503;0xd172b7d01e89f;0xb0c9161a885d5;0x271c715191a39;0x54bd5240b6f];[0x0;0xbc63c4ffb1c35;0xc589ec7f18063;0x4bce942be9db0;0x1b103abbef528;0x6605abaaa55];[0x0;0x6529f1d5d59f7;0xf6dd987671956;0xe05543d32c628;0x45c343f7ac1;0x1dd33ae79cfc];[0x0;0xfec46d77d5cf6;0x15e1e2b70187d;0x8ae3eb22aa684;0xa5051f636fb85;0x121dde2fd8e];[0x0;0x5ac8ab2c46ba3;0xcb18230150107;0xcc3ecd74d6850;0xb98117cc3eea;0xd25c0ae8c38c];[0x0;0x750061824430c;0x9f4686f059633;0x69b2e5a54b3f7;0x15c7a01cca24c;0xd68c90c71e388];[0x0;0xcb835600ad1ae;0x4b5bcf6dd22a7;0x2ebc07908028f;0xef299461432a6;0xced9a680d7e1]];
 [[0x99f0940446246;0xc0b5fe0978785;0x4105e0ded0b74;0xab3ab7fad96a3;0xe60e4084557d];[0x16266d2fb45e6;0xa658bc310ad2;0x2bb97818a55d5;0x30babe18a2b83;0x6236fbc8d7ec];[0xb795840c49c2a;0x54986b4c7dbba;0xaaaa59e2b1f25;0x1b7124feabe1c;0x40ad5a83923d];[0xf25893925975f;0x2239bd969c9e1;0x3f601bebe3245;0x4b264553eaf3c;0x10b4c71fd88c];[0x8c0b77bfc74db;0x12492129df271;0x78b74c2c529cc;0xf222c4104dfde;0x31f8188b3b00];[0xce87bf402cc04;0x907ccfeee4704;0x594d9d0773c6d;0xc8222df59f729;0x7ce470712d41];[0x0;0x8193076cef55;0x3ee093556c0ee;0x840ea26938505;0xa068f5fd8ea3;0x310f175dea8];[0x0;0xd9ae7b57356a;0x86a83c988bc36;0x85089fd5b8fae;0xb153905690e8f;0xb3c9c9579420];[0x0;0xb2b47123a5494;0xfa51e2932bc23;0xa86fd544a7957;0x4fda0def7489b;0x417f70290524];[0x0;0xd65108a598e87;0xb52e86a6251ca;0xea444cf476b7d;0x5c33520f3b491;0xbf0470a7a95];[0x0;0xd92ec51f985ab;0xab49324620121;0xf924863668939;0xe8f0b6ec52c62;0x37d78954d175];[0x0;0x6b90efdd5ba64;0x7690ca564ca3b;0x8a58d79cf06f4;0x4bba6d6a5a27;0xe00c05a11de];[0x0;0xd38f9eb476077;0x43df15de20f0d;0xc38702161f8c9;0x58c028505a31e;0x54fae1868d1f];[0x0;0xb72f9e4475b7e;0x91693246b7a39;0x323b9738d7067;0x96b3de5af0115;0x64e8658b2e3a1];[0x0;0x8eb1f91e3fcdc;0x2c843236fe7c9;0xedc9ca8a863ba;0xb19d06a376086;0x541250bbfefc]];
 [[0x99f0940446246;0xc0b5fe0978785;0x4105e0ded0b74;0xab3ab7fad96a3;0xe60e4084557d];[0x8679db4251117;0x371970efab92c;0x9abc24028f104;0x65fcd5a0d1d32;0xc326f722a81f];[0x66494552bc0e3;0x1f5cf910dd76;0x49b94fa5d30c;0x4be837ed399cd;0x60bcc9f19117];[0xe50ccc65348f7;0x9685a8f8be86c;0x4e2b71dfe4042;0x772a380bc2d17;0x6b9ad12b763e];[0x6aa4c226aec2a;0xc80193bfee3d3;0xb1e3c87a67142;0x5c5874841ecb8;0xe3bfb8c089a0];[0x77305c258d777;0x530bba16544b;0xb2183bc25c8d9;0x1481ce0fef140;0x80fc3d576ef4];[0x0;0x8193076cef55;0x3ee093556c0ee;0x840ea26938505;0xa068f5fd8ea3;0x310f175dea8];[0x0;0x921687d3103f7;0x3273a05369ea8;0xf51899657b80a;0x48ade6b67645c;0x5cf661f81a2f];[0x0;0x5a7ab6307d7ff;0x17aba4ad3aee6;0x760d97c13dbca;0x90e84446cf822;0x3a36b7f070eb];[0x0;0x2c30130127c5f;0x1d552b950b34b;0x6e2edd85202b5;0x8007ad9073c6e;0x5759d0e0de1];[0x0;0x5b2e9595dc36a;0xc759d1e735835;0x708391b4f7e7;0xba8c83221e07b;0x19893eb4ef64];[0x0;0x89833b4f2cdf;0x74f858ba8b077;0x7cd63418f8f1f;0x8c9e970ea2abc;0xc7216a3912a];[0x0;0x6efb09b3ac282;0xca66e098f872b;0x378830a798945;0x5ce5e240f6435;0x95ebf90fda6e];[0x0;0x607ac96445b87;0x4683e7236f48e;0x97ed4ad73d173;0x5b21e99ad2e09;0x27affc158a6ba];[0x0;0x87350763711c;0xcb4cdb5ab1cb0;0x8949d5d77afae;0x816496a1d25da;0x1e0af3bdf40d]];
 [[0x99f0940446246;0xc0b5fe0978785;0x4105e0ded0b74;0xab3ab7fad96a3;0xe60e4084557d];[0x71fa001bc632a;0xca1849d6be35f;0x1679c3d6c5d7c;0xe45c60484a3;0xe9bf5a1db6c6];[0x46f568e0d046c;0xfc85f334e82cd;0x5ddb75337c3a2;0x5a91ef8a15adf;0xf6d5f5f147f6];[0xd32f233e32f93;0xfdc24e6751a6c;0x6230c3be119cb;0xa09a3fee6c46b;0x6d459d33c15c];[0x14fb3502e12ad;0xbe29ab8ee2527;0xd892e488ba156;0xfa0844a786162;0x4446479dfc89];[0x1777d016eff94;0xd384a16ac57ba;0xcb214e4d595b0;0x3b1ac63ba4cbd;0x6970d7182a7c];[0x0;0x8193076cef55;0x3ee093556c0ee;0x840ea26938505;0xa068f5fd8ea3;0x310f175dea8];[0x0;0xe55933625e76c;0x28c4f53bc1952;0xca84080d9c839;0xb388463ce31b;0xa62c1cc2829e];[0x0;0x7172243fcc716;0x4992d0521492;0x5f1492f4a09de;0xf03d2edbb71c6;0x33afbc684b27];[0x0;0x48382acf8e99b;0xa00465257b391;0xb618bf4c9d89a;0x8d830945e3ced;0x23281710df3];[0x0;0xcb642a591740f;0x522aee28bc5b0;0x9c0fd92fe4531;0xeeed316ffed57;0xa47153ee923];[0x0;0xa2c4297b39774;0xe24d2fda01341;0x1a8bb72dc19d5;0xdb4eea1c70e87;0xb0cd852a4f6];[0x0;0xebc5bb5451439;0x67583edc38626;0xc4dacfe786985;0x8b0cf7d3ff9b3;0xa8b513747474];[0x0;0x151333b20474e;0x51fba9a262976;0x97454d5bc24d6;0x9a8115e71cd76;0xd2ca155e1b9e9];[0x0;0xd2bf5c09bdc88;0xe1ab291233717;0x4aa1c6defe4ed;0x92f5777d8a752;0x9750b55755fe]];
 [[0x99f0940446246;0xc0b5fe0978785;0x4105e0ded0b74;0xab3ab7fad96a3;0xe60e4084557d];[0x76709b0825cfa;0xdcc58cc3f9dd1;0x914caaca6a83d;0x31032d6de5fa6;0x3bca22e6f0b6];[0xf84efc61dbfde;0xae94d249796e1;0x9ecb3eaa20f5;0x8c8704e33b1c5;0x631533829b98];[0x36f4a29d325cc;0xfe23322ac917e;0xf32b4d0bb04f8;0x2228a92ab37bf;0x27284187ba5f];[0xa48f965f95b1d;0xb91c6bc3be934;0x57597d05eb09b;0xbea28584c410a;0xcc1b2c9e0594];[0x19c1398e231ef;0x6c3978916708b;0xd07ee0b946436;0xe42e6a97a39a0;0x415b34f7eb04];[0x0;0x8193076cef55;0x3ee093556c0ee;0x840ea26938505;0xa068f5fd8ea3;0x310f175dea8];[0x0;0x4cdfc975fedf6;0x2ee6a0f74ade4;0xcfe5b95b77f4d;0x9c2dacfd68809;0x6d1778eecc80];[0x0;0xf51dbb100e27a;0xebfd4f4e4735;0x7eb6810bd446;0xafeb43b679bbc;0x308f30163436];[0x0;0x2d23931df48ec;0x8554f3bdd24cd;0x5fb6aadf35386;0xe0e9e4af3391;0xbc7997ffc6f];[0x0;0xe37c713280817;0x402266fad2c85;0x40fd3919780b3;0xba968281b8ee9;0x371944ae1f3d];[0x0;0xbe4bf4cd08897;0xec53e7081c02b;0x392c8992f48de;0x4208beba29905;0xa61b1a21e25];[0x0;0xbdaf41b35b092;0x39608725e1adf;0x42c5f7243eb2;0xf12d8eb3beba4;0x1b4e8103acca];[0x0;0xaee7f7eb8ae13;0x5f0d19684d997;0xb7d0bc8093538;0x71a5af8b1b3ef;0x9cfb557c25e8b];[0x0;0xcaff3abfae5a8;0xecd51067d42fa;0x3705e0c8639e1;0x93b0ba1412bdd;0x446b095f0006]];
 [[0x99f0940446246;0xc0b5fe0978785;0x4105e0ded0b74;0xab3ab7fad96a3;0xe60e4084557d];[0x85759b26ff6fb;0xd029764637283;0x108c8cb4b50ba;0xd505094f8997d;0x32152c3e27bd];[0x3e64651d4fa46;0x15ac44449162f;0x65cd068c14d5b;0x50f4f8619d345;0x8599bfdddfe];[0xa682719779a7b;0x2fe5abc3e1946;0x6a2318fdb9b56;0x63afaa9a69ef2;0x82e3cb7c8e45];[0xcdae7dad464ae;0xadacab38ea2a4;0x5a43e58bf73fb;0x5ed7c48e0d647;0xc426a03b0e5];[0x9797e1db59e63;0x253b174b9f6f9;0xebd065b92100b;0x94cd8cf0cc5f3;0x518709c01531];[0x0;0x8193076cef55;0x3ee093556c0ee;0x840ea26938505;0xa068f5fd8ea3;0x310f175dea8];[0x0;0xca56f9717223;0x9cd4b9c3a898;0x2d278aeaeede5;0xa911821889684;0x43760a1a3146];[0x0;0x4c5555de4f9a6;0xe53935f599b2d;0xcfb69dc0ab86d;0xb64dc943401bd;0x1eba4388c845];[0x0;0x866c53293c843;0xe85b32612120;0xf09d36fcaef50;0x248fbc5c21460;0x86acbbe7c76];[0x0;0x51f5bd0c72438;0x598bf2cc01084;0x7d1a6fb8d8c68;0x1f420b69c70a4;0x275eea641d4a];[0x0;0x889812c9a0eb;0x4936b15e67411;0x45ed013c722d0;0x6e4b6d57351df;0x691bf674222];[0x0;0xf184c71d9ce9;0x50c1ced286457;0x3a3e968e01b2;0xbc20dbe041818;0x29cac712ea7e];[0x0;0x269acbcd8c5f8;0xcea4a5c8539b9;0x55ef98e1016bc;0x31cb909e659f5;0xf5347337fbd3e];[0x0;0xcc2f8bcc054f;0x5d96c3d718dd1;0x33dee49c25f6f;0x948fc0a56c193;0xc2d1e7ceb747]];
 [[0x99f0940446246;0xc0b5fe0978785;0x4105e0ded0b74;0xab3ab7fad96a3;0xe60e4084557d];[0x5bf8007ab52f9;0x9dee128c6aad4;0xee3827f311bb;0x3d60b5b8ab8f4;0x82d5b29f0505];[0xc316b95d1b4ee;0xb30b7de1dbd96;0x4f7eb2e1a70d7;0x676818fd02a28;0x5a8a67df5c66];[0x17cdf566f882b;0x91e182b8d653c;0x105a0d4564249;0x512f45a425ba0;0xbec4ba743a64];[0xa9e52ccd6926e;0xf5094ea7d31af;0x16a37813c62fc;0xee54a29968304;0xd744c2c90630];[0xb43bfc2e7f17a;0x7c9f17fb39001;0x4873153ff1916;0x13d60dcb2b1b2;0xf20e00ef9163];[0x0;0x8193076cef55;0x3ee093556c0ee;0x840ea26938505;0xa068f5fd8ea3;0x310f175dea8];[0x0;0xbff15d7944587;0xc45f111750d0c;0x61c1a7a2df322;0x2315da016cfa;0x8dc52ca7800c];[0x0;0x4a4bed25a3756;0x30561081d98fd;0xc703b7a3ee862;0x2553e2639b511;0x38247d5a7412];[0x0;0x1407485373573;0xaa531cdd0283f;0xf7ce82c140b2a;0xa2d4c94b56bc4;0xd1e300cf8d4];[0x0;0xa2a6a84c6eb3a;0xf52e8bd6fb0f1;0x12af6e86cc014;0x33bcaf59007a1;0x3d5bb393ae4a];[0x0;0x72fa4502c066a;0x712834fa1da01;0x302f05dbcc60c;0x6c97bf8e1b0df;0xc00bac1ad26];[0x0;0x7199087d7a9e9;0x2cd0370cd8841;0x2c3429af23111;0xc27e8c3d1ba83;0x353be769ff98];[0x0;0xa74dbb22738d1;0xfbb842d21e123;0x9b05c0ff38124;0xcfe0bc9341659;0xc7082690b1c1];[0x0;0xc3da2cf559f2f;0x699082b64cc64;0xb92303177a316;0xbb8749f9c675c;0x4e94ab67935]];
 [[0x99f0940446246;0xc0b5fe0978785;0x4105e0ded0b74;0xab3ab7fad96a3;0xe60e4084557d];[0x4e19023a22f7b;0xdb3f0e045d07b;0xd8d49ed0939d8;0xf8191572f9e17;0x53e8e4bb52a7];[0x2b39cf53d1c08;0x87e36c601d624;0x86fba44ab8e5f;0x8d8540b6e6303;0xa01268a2637a];[0x3855b30afbdda;0x5599d5fc9f907;0xa27249fc925f;0x730e32e481ba0;0xa554849ed51];[0x96aecb402edf6;0x4777af4d5facc;0x5f42eef3df561;0xe01669a1a80a2;0x3234c1c407e0];[0x603b7dbd2d909;0xaecb54b0f8103;0x8cb21c2025b7;0x9d053b893040;0xec00bde01bfb];[0x0;0x8193076cef55;0x3ee093556c0ee;0x840ea26938505;0xa068f5fd8ea3;0x310f175dea8];[0x0;0x6692124da45d9;0x8857281413988;0x5e7db4ec2045d;0xee371874c3767;0x1aa824a9f485];[0x0;0x412f5714575a0;0x6513feee813a3;0x1f3ab0e980f18;0x5cc3f75f07008;0x1b5ff58f382d];[0x0;0x9ee9cbe3f25ca;0x3b4fa53ccd105;0x70ec53eeff01c;0xf40571c13f9ba;0xad9f93bd98];[0x0;0x30a36a105514a;0xe37cd5baa068f;0xa9337201eee9;0x335e2ade5fe1e;0x32c1c9c46f9];[0x0;0x22e72099fd1a1;0x301689eb8ff94;0x80774856a6588;0xc8f0e08935f27;0x5da3fa71fbd];[0x0;0xa33147a6bdd76;0x949dba8729bea;0xa81c3b8e01254;0x2c85e1a8201c1;0x4a076aa39571];[0x0;0xe8bfd9a4fc371;0xa04b0444ba832;0xd49f0bbb0ba0c;0xc941ebac9c854;0x5b9560d90efac];[0x0;0x189148b6851c3;0x863c5ae56182;0xac4cf412063fb;0x406ce93759e1a;0x4d8a915b7f10]];
 [[0x99f0940446246;0xc0b5fe0978785;0x4105e0ded0b74;0xab3ab7fad96a3;0xe60e4084557d];[0x8a92a17a49425;0x8081b1ea1df9e;0x97184084cd2e0;0x3a769f2df3eb7;0xaf765955f342];[0xee499bf5b3c83;0xcda3b6c5a2796;0x6c5dc8cf55cad;0xfdc508e5c7140;0xe16abf46ede7];[0x504cbced933c3;0xd1a67ae03dc20;0xf275bc5934fde;0xe82e67b6934c9;0x41d99292da46];[0x2b468a1d694a2;0xff23962d7e01f;0x7044c9f1e1c0b;0x1568b1d948c3a;0x74ddaa66225e];[0xfe63cf119ac0;0x754eec743b7a3;0x37fa2ceac707e;0xfe07a4b020dad;0x73511d2f4ffb];[0x0;0x8193076cef55;0x3ee093556c0ee;0x840ea26938505;0xa068f5fd8ea3;0x310f175dea8];[0x0;0x10d44993a41b1;0xd679e964e148e;0xc0ada5eec60b;0xe0da64567a3d6;0xce10001c6942];[0x0;0x3f06c2aeb3609;0x45637ec84bc7a;0x55db7ed53c92c;0x1c4194c7db51b;0x3b5b7f74ed5e];[0x0;0x18a564cb8324b;0x14612472590f9;0x53fc5df06767c;0x300d1410cd7c2;0x4f03786f73c];[0x0;0xb9b996297de44;0x323589424c267;0x8ec629e24ded5;0x334be8a8ddf74;0x17194a8b15a5];[0x0;0xec95b4d7dc9c0;0x67141b7b85d93;0xa8de45658a7b0;0xf2fafbaf27f53;0xcb0aeb4c5c7];[0x0;0xe5f15c72d54ce;0x158bbb401e8a3;0x6911853823f86;0x190a1f6ec037;0xae9445ab3ae4];[0x0;0x6d07c9884a487;0x442f87aaa0924;0xe09cd642dba27;0xf59f6008a4775;0xc8eafd97bd14e];[0x0;0x329086002238;0x305351ef4ec21;0x113b3ed3e38;0x3bf2207228efa;0xc40d4475f97e]];
 [[0x99f0940446246;0xc0b5fe0978785;0x4105e0ded0b74;0xab3ab7fad96a3;0xe60e4084557d];[0xda5c76aa8f08;0x96d62dcde653e;0xaa80b275e319f;0x886b37c9fc5e3;0x6055744d11ab];[0xda378f1ad5f3c;0x24043361d0a97;0x8459cc033f1d0;0xf17429700bf7b;0x4d2721c5c58d];[0x45aab48280a00;0xc1d5e80dfc94f;0x9cfd69f247e89;0x36583601c36f7;0xd5a47cdefc36];[0xac974b7d012;0x1f46262331a38;0xa52cdb4d7112c;0x574a927a3284b;0x3a5180f07884];[0xd085b2b7a1e2;0x63f6160d3ec91;0xa4950e028dbbd;0x4fc6c1c08c238;0xb93ffdfc94d6];[0x0;0x8193076cef55;0x3ee093556c0ee;0x840ea26938505;0xa068f5fd8ea3;0x310f175dea8];[0x0;0xbee329677eb08;0x7f10593ebbe03;0x8f59e5b38b4c7;0xa54a5f4bcdfcd;0xd833300413d9];[0x0;0xbd5bb949d81c4;0xd62feb8293c2b;0xa75a19a9e6551;0xc3acd193a8a10;0x42f0fa74f042];[0x0;0xf6e786c66f000;0x76beac17f7721;0x38139a0b1e019;0xecb455e679a46;0xb12436b50a1];[0x0;0x5ba2fe3c3b566;0x3a36811ab7eaf;0xe9532515bacc9;0x8a52f0c724ef8;0x33c914758cde];[0x0;0x30641b4104e92;0xb94964d4ab08e;0xf4ae49769f688;0xe5363efffc5fe;0xe4fc19b5cb0];[0x0;0x64f97b989a19;0xaf0eee4d7b483;0x5356ccffc2136;0xaef6bec1b1cc3;0x3c4672eee5d3];[0x0;0x51a1efef26e9f;0x8ceb2d364aa1e;0x326a4addc2486;0xd66cf551744d5;0x374b849b90833];[0x0;0x20dab5cbd6b94;0x22eda20606412;0xdfb79ab6ff2f9;0xcc0bb9f909c23;0x214cadd6e02e]];
 [[0x99f0940446246;0xc0b5fe0978785;0x4105e0ded0b74;0xab3ab7fad96a3;0xe60e4084557d];[0x5fcc41c3e4e42;0x2817a3560993b;0x7c50950ade328;0xe8b6dffb4b25;0x8f04f89fd07];[0x47a87f7125718;0x770bc00537d1d;0x88e3473d8a2df;0xebd1d0f46df4a;0xa8ed34bba186];[0x3c0a4ba9efdf7;0x931cf7e066ff9;0x68e3835fa130b;0x7588c398015d0;0x7e709bb64d76];[0x15ae33f8b3ea5;0x122b3ce3e4023;0xfe5bfcf2644b7;0xee1d1ff2de13b;0x106fd7ea934d];[0x3ecf5456aae9;0xf2f01de7a52a2;0x210819215b7d3;0xad0bc627d73df;0x1fd3fdc8d488];[0x0;0x8193076cef55;0x3ee093556c0ee;0x840ea26938505;0xa068f5fd8ea3;0x310f175dea8];[0x0;0x804a6ae9006f0;0x194bbbfe07a8;0xf8c7f6c080bf1;0x15b57ebfe551a;0xb0b9855c1894];[0x0;0xaad64cb5abc12;0x9cd65222d9c62;0x805622bd50d17;0xd6763cf0c9bb9;0x2a18b130b4e4];[0x0;0x4a0defc73625f;0xfe631b5e0f32d;0x41fa0b5beb850;0xf01da9d038976;0x2fd84f1ef6c];[0x0;0x95c37ecb31013;0xc9a99a42b13a6;0xaa6b058ecc397;0xc0109e52d0022;0xdfcaa867ef1];[0x0;0xe9c6aed200b81;0x6e40fc370a67f;0x4faa0c9b94aaa;0xd40407ee0c1d;0x8fff9a83563];[0x0;0x6f53f04e6331;0xa8e7ab1ab757e;0x7d2c2a26063ba;0x754277486f88f;0xc7b5643475];[0x0;0x8f277e0c2b6e9;0xb34ad63bcfef7;0x27364d2e8ca4a;0xf6b95c4c65da7;0xa1a12301a9f1;0x1];[0x0;0xef798e2a92cfd;0x62d8d8e15fb6e;0xe07d636552d86;0xf5f2bc6a66398;0x15e709cdf4c6]]]
 (V [0x4a1441b88cf89;0xc12a617f1380c;0xa1b4d6d210b4e;0x7c333898ae81e;0xc2e691365189] [0xa38c66e17374c;0xf28e7fbd45e89;0xc01582470b9d5;0x52a7a2e40bbb2;0x62cb2bc8df8] [0x1fecf4e4bd1fb;0xff71de1b433e;0xa451d9a438612;0x97fed91e1c798;0x5f1a9650abe7]) [[0x12545ab3bf2e0;0x4e2ffd636f52f;0xb84c06d5ee1b1;0xd7865902ec77;0x84b5fbae1321];[0xd425e6a3904e6;0xba2633735ef85;0x1a37cb16f212;0x7ae53f123f0ab;0x3b07230ec719];[0x4f37e9b8750aa;0xded0297c378f2;0xc0ff708750bfd;0x5450240701030;0x6987b7772e2c];[0xc538228cd8d3;0x63e258b772f86;0x85432b54bfbc4;0xe30165284e219;0x2df41c6abb4a];[0xa9aca455e1a60;0x9fbf85698b4fc;0x668e0691f6160;0x93ef2701b3860;0xc5587678a378];[0x5622c31a1d662;0x76442312193b8;0xb0204d0fb5d0;0xc569b9ebd086;0xa92faa2e2c02];[0x0;0xf84d1a3aa9c16;0x94c341a62f4;0xf2430877cbcd0;0x5eddc8e5076b5;0x2b1a429af5f];[0x0;0xa7e252e425056;0xe3434fa5fd28d;0xa02a43285da76;0x364af41f0d3fc;0x2d1b5b184f1b];[0x0;0x183860c5589e4;0xcfd8fa0f49919;0x7eb95b017b654;0xbfd2aa9696300;0x14e55cf0beb0];[0x0;0xa50893ad48d75;0x271d48af5cb5c;0x24daab42ff11c;0x56f7e1f72127a;0xab00f9fb9a0c];[0x0;0xa404426ef44c7;0x6b1d6912f053b;0x90c9598961037;0x5bd024c0f393f;0xeab8a0b58644];[0x0;0xbbcdbc3ec02ee;0x7076d1412aec5;0x7f70c2f6a55fd;0x20d8c2e8da86f;0xf3939c3214c];[0x0;0xe8483f68822e;0xd2c3be6b14e2d;0xa95ce33d3a081;0xe9764619c84b8;0x2cf092764351];[0x0;0x257b200ffcbe5;0x93755351e1b18;0xe1043f90c1a56;0x764d59ae3f936;0x678b65429dee];[0x0;0xc4e4fc3ee7bf7;0x9586d07897f9a;0x1ae64729b4c4f;0xb16517eb7e9ea;0x4b36f1c199f]]
 [((V [0xfdb24c6d31f9f;0x85110c6019fc9;0x53a520f1f63a3;0x1683384047815;0x186716f37266] [0xcec1817c035bf;0x1ba6871a5f0b1;0xc6e6e922a5be3;0x26c3e1af1fd1;0x651ba897accf] [0xc215df6afe97e;0xe9f6819ccd5e9;0xb938375c1f9ff;0xec53b9cad5d9b;0xd66c2a1cce48]),[[0x30a1c292782a1;0x77a69113f1c17;0xdeb97d907538d;0xd27764206755e;0x80cecc2b8446];[0x427aa44f64c27;0x494b411f7a634;0x54fb5f30acb06;0x684105abb98e;0xeab1d93479b3];[0x1fecf4e4bd1fb;0xff71de1b433e;0xa451d9a438612;0x97fed91e1c798;0x5f1a9650abe7];[0x1fecf4e4bd1fb;0xff71de1b433e;0xa451d9a438612;0x97fed91e1c798;0x5f1a9650abe7];[0x65b69e9b665e5;0xd74b109601c5c;0xec23761ee9f0b;0x17f21bc3099ed;0x41fda8b04a80];[0xdcc405b3fe643;0x72003089789d7;0x68d7e911c2bfa;0xee91f497b1fa0;0xa8b430842f32];[0x0;0x106c22a9f5748;0x19a174f0580db;0x8d6f57b3a32b1;0xd4ef20458ae2d;0x23cd6b2a3f1];[0x0;0x3b3e9bbb4b6c;0xf45c2ef037ab5;0xc9684c01ed188;0xaddc053645eee;0x2fda1e66a541];[0x0;0xc4e4fc3ee7bf7;0x9586d07897f9a;0x1ae64729b4c4f;0xb16517eb7e9ea;0x4b36f1c199f];[0x0;0xc4e4fc3ee7bf7;0x9586d07897f9a;0x1ae64729b4c4f;0xb16517eb7e9ea;0x4b36f1c199f];[0x0;0x214957617480d;0x45e327ad45aae;0x6935595702af6;0x318a6ba8af9a1;0x26202ec443];[0x0;0xf27dd63493522;0x55368fdd2f728;0x33faf56b6ff2f;0x772d0c7bd0fde;0x946243bf938d];[0x0;0x2b3da3cae066e;0x352549b902cb5;0x11a8a9775d40;0x3922668252ede;0x165f2ef5c7e2];[0x0;0x2f0939a9ed83a;0x6fd6dec728fa;0xba547dc327599;0xddf48dac87da9;0x65a24ac0f1953];[0x0;0xce5ee1428a55;0xed8adb931b864;0x2e041040f97f8;0xa353dd52e5abd;0x9a34eff9426]]);
 ((V [0x27a83d820e7bd;0x7c8b1ad0b4c61;0x98ae1a7ef8d07;0x64eb7a4a3091b;0xb2c6cb89de6f] [0x78d54db7ed02d;0xcfb0d74a1b99b;0x4c6085e7d09fc;0xed2cd1fb7b7d9;0x8d124e083879] [0x498e4eb3b1d45;0x4a31b71409a56;0x9a67d9fe9b702;0x3f2e0f0d01084;0xf822ef63d940]),[[0xa531fc11539c8;0xf29ff01badaf4;0xe0caa99c6176f;0x43ab15a84533f;0x6dba34d225e1];[0x6570ffb75017b;0x1cfa896b7e50f;0x93a50a9b798ee;0x93bf669e0ee86;0x81ff16eb65c2];[0xc215df6afe97e;0xe9f6819ccd5e9;0xb938375c1f9ff;0xec53b9cad5d9b;0xd66c2a1cce48];[0xc215df6afe97e;0xe9f6819ccd5e9;0xb938375c1f9ff;0xec53b9cad5d9b;0xd66c2a1cce48];[0xb8bfe8c141c4b;0x76eff7148df45;0xec9e5c30942f5;0x428e2fa3f3ee7;0xbbd45645bf3];[0xacb116f60e531;0xa60a9256f05c9;0xa706ae6ae55f8;0x513136fa1af9e;0x7641d18709cf];[0x0;0xefa885aa6fb8e;0xd3fa7b1f514ba;0x6b9161d77b1d;0x9cb3586e7cb1c;0x50b87bf5945];[0x0;0x30feb41f29953;0x59d931ce735d9;0x46790ebfdc1f9;0xa2f82b4e8cba1;0x5be804c2d9c5];[0x0;0xce5ee1428a55;0xed8adb931b864;0x2e041040f97f8;0xa353dd52e5abd;0x9a34eff9426];[0x0;0xce5ee1428a55;0xed8adb931b864;0x2e041040f97f8;0xa353dd52e5abd;0x9a34eff9426];[0x0;0x3221c4cfe0c3a;0xd5e1d74c08543;0x3bf53ef7ac549;0x3840efe01c7bc;0x27eed604ad61];[0x0;0xd26d5d0030ef0;0xefc542cd1bc38;0x10462548647c6;0xf18aa4efb0ac7;0x2537dd11f67];[0x0;0xa88bc3f0574f0;0xbe285d09731f7;0xa2d49fae2cd62;0xb39e663433117;0x5ac85096b075];[0x0;0x947e840389698;0x1c49b9e3ab7df;0x53d23872e29d9;0x45896d6982492;0x91694635c96dd];[0x0;0x99b4a8ac44f2c;0x39ef7982c37e2;0x1b6b796aa867d;0xfe9d633467420;0x628446938edf]]);
 ((V [0x351fa32c0bbe5;0xcb5d8d2a548f1;0xa387aacc757d2;0xa2adbc7ab3de;0x95f18b8b69aa] [0x37ae34ef3b540;0x59f3caec1fc31;0xea335a58ff517;0xa7dbd5223b7dd;0xc08d8363446d] [0xa737674fedefe;0xf00beae3ab718;0x4f54a266e3204;0x6cbe8eb779108;0x6e29eae83be0]),[[0xd7ef2e35c9e38;0xf3a855281a4c8;0x2515aa31ced55;0xda87daaf0ec4d;0xb36f34a67fa1];[0x6e9f0a80c4c0f;0x262147fa2b8bc;0x12a3a53c25721;0x26279d2b43ef5;0x2f38383f8f87];[0x498e4eb3b1d45;0x4a31b71409a56;0x9a67d9fe9b702;0x3f2e0f0d01084;0xf822ef63d940];[0x498e4eb3b1d45;0x4a31b71409a56;0x9a67d9fe9b702;0x3f2e0f0d01084;0xf822ef63d940];[0x3eaafbb83671f;0xc68c29f7a3ab3;0xad37d35f84676;0xb42cadd08d8;0x7d9649767531];[0x2ff40ec88e288;0x5f951e0287e09;0x656bd1dca10aa;0x2573707d7361c;0xb1a1eec91a56];[0x0;0xbdb83b6fb67e9;0xa3e7c88bbd94d;0xbf9c219b99bec;0x160a9d031c936;0x5d6996eb2a0];[0x0;0x1d2317b3bda5f;0x98ccc8bcc0fe;0xccda27cece9d9;0xd8750ace24bdd;0xadec37911830];[0x0;0x99b4a8ac44f2c;0x39ef7982c37e2;0x1b6b796aa867d;0xfe9d633467420;0x628446938edf];[0x0;0x99b4a8ac44f2c;0x39ef7982c37e2;0x1b6b796aa867d;0xfe9d633467420;0x628446938edf];[0x0;0x61f551f9912c6;0x2bbd07c942026;0xe7bd9f967a386;0x43169a3841fdb;0x4dbd2b441f27];[0x0;0x3e15b16806b27;0x51ef986e466ea;0x7f4c594022a1e;0xedac10dd31c96;0x7cd90d6b346a];[0x0;0x3b011dd4be32a;0x24b7ba4ce7a58;0xeb597007de82e;0x4128cfe7bef48;0x1ba846672fee];[0x0;0x2f32067a9e5ae;0xf28f34118b89a;0x73213bf143d7e;0x4badb58039e8b;0xca5e17534d07b];[0x0;0x1ad30ddb7a30e;0xde58419f844bd;0xf456125c6994e;0x6b7e65542ac4d;0x70c80ba729ee]]);
 ((V [0xc190ebee71bcb;0x3b39465d2b1dc;0xec3a5bcce9215;0x86f7178c8b41f;0x891069b8b21a] [0x2c6eb1bcb6764;0x9d33ec420ec1d;0x308488f80c3e9;0xffe108374a069;0xb90a6c4f8a38] [0xbc2a3a55c7f83;0xbfe59a805349f;0xe739a62a345e6;0x65c4abb8bb5dc;0x8f7a17bf4015]),[[0x54729820e0442;0xc759ce24e3012;0x34af6321fc36d;0x1bafd24f721f3;0xbf6021cbdaf0];[0xa1477c716be0f;0xf1799ed4b4256;0x3a6bdd60f4bbf;0xcb9dfca491fa6;0xed189f70a591];[0xa737674fedefe;0xf00beae3ab718;0x4f54a266e3204;0x6cbe8eb779108;0x6e29eae83be0];[0xa737674fedefe;0xf00beae3ab718;0x4f54a266e3204;0x6cbe8eb779108;0x6e29eae83be0];[0xbfdf63efb8df7;0x28d5b2188ed95;0x2fdedd5c72188;0x17455b6d897c1;0x17ff2e90faed];[0xe1681881b3019;0xc8a3ecbc254c0;0xa8d000482a37;0xb458a137087e5;0xd51970dfaaa4];[0x0;0x1ab9633ed0e78;0x80f5eaf65eff7;0xd2e763b4176d3;0xe8d3ef2b52dfa;0x2978c7e62e8];[0x0;0x14e9dc470db9b;0x251d1c3179398;0x417841116b73b;0x206a6e8f18717;0x525aa4867c7f];[0x0;0x1ad30ddb7a30e;0xde58419f844bd;0xf456125c6994e;0x6b7e65542ac4d;0x70c80ba729ee];[0x0;0x1ad30ddb7a30e;0xde58419f844bd;0xf456125c6994e;0x6b7e65542ac4d;0x70c80ba729ee];[0x0;0x43950e909315f;0x47a2ada221e36;0x772111368b6f;0x9b1ae0c1613f6;0x90d4934ee56c];[0x0;0xb87d101f30340;0xcefebb4ee551e;0x59efeba73da0f;0x92a799d6bdc4a;0x57d31058518d];[0x0;0xf718069155b6c;0x31857effef1cb;0xb5a3eb7f61ab6;0xdc5053f860159;0x7ef160c767b0];[0x0;0xb94118ceaf979;0xaa25b978d6418;0xa75339b41f3a2;0x602c471281c34;0xb9e50bec97ddb];[0x0;0xbbe589889b89f;0x8d06fa70a6dee;0xf37a27f2c4db3;0x9488256a5121;0x631271081c98]]);
 ((V [0x7946d465d5204;0x7e8cb8e533573;0x689e8ba9084f6;0x3b05e59f09cd1;0x777f01efa586] [0xe3722fa7ab6ed;0xabc140c81c1d5;0x1302862c87b64;0xa4acdf54d9ef6;0x838fb9e143e9] [0x159a3dfe5f112;0x45ab6966f8b10;0x4a3cd4a5d65ab;0xce27f14dea226;0x50a74aff9f46]),[[0x189bac4ee40e5;0x59c9a72f0ea34;0x207e8d5d3cb87;0xb1cf2a6651cc6;0xf3d85c54b4ea];[0x729b0970fbee5;0xaf1165935afbb;0x1a491a4a4e2c1;0x93add6883e4e0;0x63c1325aae52];[0xbc2a3a55c7f83;0xbfe59a805349f;0xe739a62a345e6;0x65c4abb8bb5dc;0x8f7a17bf4015];[0xbc2a3a55c7f83;0xbfe59a805349f;0xe739a62a345e6;0x65c4abb8bb5dc;0x8f7a17bf4015];[0x8f0560f95ff1b;0x6eb4cf9289543;0x23580a18e3ae7;0x2085e4fe1048c;0xa2552654db60];[0xe395a8779bd62;0x405c9600d1a77;0xf6f110316a7da;0x7327f18a2e053;0xc16c0c05d2f2];[0x0;0x8436a15e09454;0x7468d9da4a54e;0x8bb2fbcb09995;0x85e006e9e7398;0x360343741ca];[0x0;0x6c716e33f5646;0x422a3f24bb249;0xdb4e43cfacd59;0x4963f850be6ac;0x88aa274ded30];[0x0;0xbbe589889b89f;0x8d06fa70a6dee;0xf37a27f2c4db3;0x9488256a5121;0x631271081c98];[0x0;0xbbe589889b89f;0x8d06fa70a6dee;0xf37a27f2c4db3;0x9488256a5121;0x631271081c98];[0x0;0xeb6847d3bd853;0xef37ed4625dd;0xabf9cfdff90f;0x639ded29d9b09;0x85c010f799d0];[0x0;0x6210e36c80801;0x4df27cb1dd172;0xd49670d28bd7e;0xaf1f9ad8f9907;0x49629235115f];[0x0;0xb33cf92bb723e;0xa30e42c8a7a65;0xe55d506b07711;0xe88c44f74e4d;0x2e904c014515];[0x0;0xba4fd9a599e71;0x7f4c1426b208a;0xc07f09caee26b;0xe8ebcd34f1803;0x8894779d79600];[0x0;0xf7b93066348ae;0x251c22e20eef;0xbd1d1f1a2b69a;0x556602aea2bb6;0x3d6914b3a54b]]);
 ((V [0x814f61fe72121;0xf55396e5e99e6;0x3f6441bb94126;0x822321a07ac5c;0x517f752de53d] [0x120e15b94dc95;0x7170682a1cf17;0xcb410ec3f88b4;0xc329bdefc0aa1;0xfd1c71d1970] [0xd8b6711de4dc8;0xac8a06f978a61;0x7b248cf5783c1;0xca135c9cfd5ba;0xea82df76abf7]),[[0xf010eb00bceaf;0x883cac9e50afb;0x697e9e01b3d55;0xf95a42ac0a69;0x639b83310972];[0x590a3e3f8f05a;0x55570d101dd1a;0xcb6c6d1a64188;0xa3d9bad981368;0xabae4b2ef208];[0x159a3dfe5f112;0x45ab6966f8b10;0x4a3cd4a5d65ab;0xce27f14dea226;0x50a74aff9f46];[0x159a3dfe5f112;0x45ab6966f8b10;0x4a3cd4a5d65ab;0xce27f14dea226;0x50a74aff9f46];[0x606e1da4d39a4;0x57c03199849cc;0x1afb019037e0e;0xc7b3a88d675f7;0xec7c2369c5b5];[0xf89c209abb44e;0xfd96db769934d;0xb0716b8a2c379;0xdc26124c19d71;0xbf3227c52c52];[0x0;0x811c3554880a1;0x4e9979950337;0xd19cd15c7ad98;0xb91213297c663;0x1e5ccc11b59];[0x0;0x22c2beade672c;0x7637b781c879f;0x22cf12a4d76e6;0xcc125176d1ec3;0x1f61b0a051bd];[0x0;0xf7b93066348ae;0x251c22e20eef;0xbd1d1f1a2b69a;0x556602aea2bb6;0x3d6914b3a54b];[0x0;0xf7b93066348ae;0x251c22e20eef;0xbd1d1f1a2b69a;0x556602aea2bb6;0x3d6914b3a54b];[0x0;0xb98f9b4872303;0x154f3923e12c8;0x68bd3cc3f42a3;0x57ef086bcbef5;0x439c68edbc22];[0x0;0x36de961279e8e;0xadc64d52551f4;0x33f976a3b3b35;0xc5af93723e2dd;0x37c752cfb7ac];[0x0;0xa3f10d713c101;0xe8a5bc61920e;0x131ddf78ecb40;0xa30ea5ca6f5ea;0x36a79fd6969a];[0x0;0x39cfce459877f;0x113f7da45f607;0x8811e6ce3bf32;0x342db822b2260;0x1025253b38ebb];[0x0;0xbb68e098a149b;0x1466cb74245a5;0x6f0f7f2e4acbf;0xd9335625bc15;0x509404fb287]]);
 ((V [0xfdb48cf97e3b8;0x331d4f8e835fe;0x68c14d93ff383;0xfd5f65957818c;0x73090b5c5f1a] [0x82a8583c62e73;0x8d9bd247c80ad;0x152b45f4ac130;0xf868cc9076307;0x595c9a6b1350] [0x87a0c3bca509f;0x2f1c202f5fec1;0xa5def19f998a6;0xbf62e67228a64;0xb98cd509e1cb]),[[0xb23702af005f3;0x8d2f53e8be1f4;0xc93c2cc488187;0xe88f60320d7cf;0xaaa115e3ea8a];[0xbcda5dd1a72fb;0x85ce80a3b8813;0xa05998fd7459b;0xb99d828efdeb;0x6d0c861da0d1];[0xd8b6711de4dc8;0xac8a06f978a61;0x7b248cf5783c1;0xca135c9cfd5ba;0xea82df76abf7];[0xd8b6711de4dc8;0xac8a06f978a61;0x7b248cf5783c1;0xca135c9cfd5ba;0xea82df76abf7];[0x9c076923fd595;0xd71c5fa09632c;0x6719265ba95e1;0x932b940ba8271;0x650d69d104b7];[0x20d2f4ada9d67;0xaeb22103224e7;0x394072a1cafb9;0x786e441d47b7a;0x7ff1c4c9c19];[0x0;0xf3a809c13b2a3;0xeade643519e30;0x3f54916b19278;0x82938c9b5beaf;0x58487cd3ce8];[0x0;0x1a08445380aab;0x26bb3dd027c68;0xd68d76b37d702;0x7535a2dfc3e0b;0x9c4e78c0dd10];[0x0;0xbb68e098a149b;0x1466cb74245a5;0x6f0f7f2e4acbf;0xd9335625bc15;0x509404fb287];[0x0;0xbb68e098a149b;0x1466cb74245a5;0x6f0f7f2e4acbf;0xd9335625bc15;0x509404fb287];[0x0;0x48e8f36b4dc7c;0xc1cd7fb218e33;0xb61babd35fbec;0x1d9a3e88e95c;0xfa413c215d];[0x0;0xfba0f60e14d36;0xf104958749c16;0x9ed0930a3657c;0x5b25f7fde19b9;0x19f1e79c843d];[0x0;0xcb089c8e440f0;0x442b89e7501aa;0x49a36f9170de9;0x2d16ec495697a;0x31007a86e90f];[0x0;0x2dd50236984ae;0x29fc0a6522632;0x1d4fedf9f9096;0xb9fe1375107f9;0x5c9157434a3ad];[0x0;0xa66870738905f;0x2c835ead51335;0x535611de7f9;0xeee677d3b4992;0x2827c196c08d]]);
 ((V [0x392f9b8fb9e8d;0x816a239e51b4e;0xc162c60013a55;0xf7bdac676025d;0x168fada4f3f4] [0x5d8fdc164baa4;0xe44efc618f95;0x5ef2860d857c0;0xe07db80a0e0da;0x33940929cdeb] [0x1e651926f24f4;0xff99a3b2f338;0xba87f1e5337ed;0xaad613aebffc;0xd79f1d9eb9ed]),[[0xa971a8ae4435f;0x9b5a07057d204;0xdab7122060b9d;0xb26cdc5ddaa4c;0x30c68421db04];[0x6265847250383;0xfc79d685636bf;0x7ff160aba3b6;0x7221ceddff659;0x244eec74da94];[0x87a0c3bca509f;0x2f1c202f5fec1;0xa5def19f998a6;0xbf62e67228a64;0xb98cd509e1cb];[0x87a0c3bca509f;0x2f1c202f5fec1;0xa5def19f998a6;0xbf62e67228a64;0xb98cd509e1cb];[0x90eaf4576ed46;0x24666970dbd26;0xb75c70a9fa19b;0x1e3fdf99a31c6;0x5cb65d658a8e];[0xd17a901ae13d5;0xd8136d1487998;0x50a2a560c021b;0x53e1ef445c492;0xc7988f0f5006];[0x0;0xe062e0960ff6a;0x89505574256d6;0x592b112cd5eb0;0xcdbfffa457017;0x45d9f90e922];[0x0;0xa3df9ed2c8b32;0xc2b9fadaf4429;0x949ef8c05ef2e;0x47f1573aef47f;0x235a4aa3c7ba];[0x0;0xa66870738905f;0x2c835ead51335;0x535611de7f9;0xeee677d3b4992;0x2827c196c08d];[0x0;0xa66870738905f;0x2c835ead51335;0x535611de7f9;0xeee677d3b4992;0x2827c196c08d];[0x0;0xcb91baff3b15;0x7bdb07bd4211f;0x17a8cc5ef8b07;0x2ef1fb9256373;0x1f3184ddcd89];[0x0;0x486ee1104964d;0x6e52d7b96c2c3;0xf6b87482a389d;0x10a567ac899c;0x33b12086ca72];[0x0;0x5de83426f07fa;0x1987e3dc15249;0x66d620bbd40e1;0xf61c589bd7a90;0x3332908db02];[0x0;0x914d6e008b2a4;0x9974223110fbc;0x2a9c7adc5f72e;0x55c0c14843fd4;0x36583e3bdfd67];[0x0;0xbeab5a2a6c7a0;0xf3d315edd1787;0xc6e7ac83a1629;0x4ab2fc08ff478;0x48bab76fc3a]]);
 ((V [0xe24e8b7d6f2ff;0x82e9a62a5f2ea;0x6534c27a1ff9a;0x956d16a6e59f6;0xdd55581dedbc] [0xedda9229cac17;0xa80d4f40228d9;0x27604fe537c80;0x69d3b7efc7f19;0x6dd11d170c5] [0x780f59dce62ff;0xa478f7b655fc1;0xf427e44cac73f;0x53c03b2f27d9b;0x9e7b529480e]),[[0x9390d6da753a5;0xc23375f2e2644;0xe7357e7c383bc;0x46e7bb5ce61a6;0xbf84f105e450];[0xbd3fd09be0b52;0x68e9e730887d1;0x86632fa059754;0x25b9b3f529618;0x280da5d8fe88];[0x1e651926f24f4;0xff99a3b2f338;0xba87f1e5337ed;0xaad613aebffc;0xd79f1d9eb9ed];[0x1e651926f24f4;0xff99a3b2f338;0xba87f1e5337ed;0xaad613aebffc;0xd79f1d9eb9ed];[0xd6d9f49c1c3c9;0xe726cae3d375f;0xb2edd73339888;0x1edcc3f6fb9e2;0xba87bed0bf02];[0xe665dbffc4521;0x81c31c4cb5071;0xd375586d1fecb;0x6dceffe2dc35;0x6d85e7083f86];[0x0;0x8515637ba7a01;0xcca7e7105c1db;0x6baa37e217556;0x1c11c9c182c8;0x512c09af8a8];[0x0;0x6ab4ef5e2efde;0xff95899de1d8a;0xc692679503750;0xe25f54d58a80;0xa14fb02673db];[0x0;0xbeab5a2a6c7a0;0xf3d315edd1787;0xc6e7ac83a1629;0x4ab2fc08ff478;0x48bab76fc3a];[0x0;0xbeab5a2a6c7a0;0xf3d315edd1787;0xc6e7ac83a1629;0x4ab2fc08ff478;0x48bab76fc3a];[0x0;0xab534dd6c1bd1;0x45be72a70f082;0xc86d96dbd2696;0xb7bd9ab2b4e9;0xa64514140b6];[0x0;0xebbbc4e52b0b8;0x962d28580ecf1;0xf22812cb01fbe;0x243f0b71ec7c;0x1fd027bcdff];[0x0;0xc3e51bbbd03;0x3bc777b7f1559;0xd7555711feeb9;0x90ca2b48aa7f2;0x22a1227dc488];[0x0;0xfc8af9b22790d;0x89e00cd5c29aa;0xffe94783d237;0x6ff72b57a4c44;0x739b46738e04];[0x0;0x2754be6ff1aa6;0x1ec80fa11572f;0x971607c1895bc;0x993f1f24603b6;0x5ef2225846f]]);
 ((V [0x20015216cedbb;0x284d7dfc6a261;0x68f605c8b495b;0xcda473bdd1b63;0xcd01b74cd44e] [0x64c08dbf5a714;0xa6faf16a3ae9a;0x8be84c473075f;0xe24a9dea4bbbf;0xd9ac582dd23c] [0x6dd4ef175c4e5;0xf0971be90f1e3;0xc037a87782e60;0x2b3f63208fc25;0xbf70fc186f38]),[[0xc1e2d88417d73;0x9c8a640228ed6;0xec7f8368f032a;0x6f98ea834ac67;0xf74bf0770b];[0x5d4c49442c726;0xc97b45d40083c;0x68611eb978441;0x6a065b68a1692;0xf7d7c31edf91];[0x780f59dce62ff;0xa478f7b655fc1;0xf427e44cac73f;0x53c03b2f27d9b;0x9e7b529480e];[0x780f59dce62ff;0xa478f7b655fc1;0xf427e44cac73f;0x53c03b2f27d9b;0x9e7b529480e];[0x6fabe7332c3bf;0xb927e0ddfe081;0x5b7e16a39ff77;0x6b69ba5ff6e2c;0x428d9f400606];[0xeda0621100368;0x105364f6027ba;0xce30815d84ca;0xfe9ca108aa866;0xb54a23ded98a];[0x0;0x719d2dcdaff3e;0x174b0de3502a6;0xc88247541dba3;0xb4d5865f47ba8;0x3ba95145b3];[0x0;0xccbb5f695f9b1;0xaf8f8a0206e0c;0xc0a07344b76ef;0x9b1ee9e90868c;0x9917ffabc];[0x0;0x2754be6ff1aa6;0x1ec80fa11572f;0x971607c1895bc;0x993f1f24603b6;0x5ef2225846f];[0x0;0x2754be6ff1aa6;0x1ec80fa11572f;0x971607c1895bc;0x993f1f24603b6;0x5ef2225846f];[0x0;0x68d18cddc1a7e;0x29a4e30914eb4;0x49137dde1c70a;0x7222303d10540;0x2f1bbd9623];[0x0;0xb85e2ef27734f;0x56647ed50f56d;0xd95d6686c401d;0x102af3c8c52b5;0xbf5c76974eac];[0x0;0xff25a0ba52359;0x801786b50bfc0;0xb22bae068bf15;0x48ddd5421ec87;0xc679708d1a3a];[0x0;0x6e11c4cc5cb46;0xae3ef466eaefe;0xc71ade6453d9c;0xb564cda89b455;0xda1b51c502a40];[0x0;0xe8d773dbb7fe1;0x548cae16b52ea;0xf852daa63ca8a;0x3cba3a153c6ba;0xae5078249041]]);
 ((V [0xbb0b626f6aefe;0x43081d0c3228;0x323458185f889;0x800871474e720;0x7127277f4081] [0xb7a8e38c37f97;0x2abb45668d68c;0xbaef08f66b705;0xccd6e05bb534e;0xedc5aa40b209] [0x61dadcb7549ff;0x2ffcc0f59afce;0xe1612a8b91439;0x19b3d9546041;0x62ee0a9bcfbe]),[[0xc1d39ff8df38d;0x113003ed5c2ca;0x8ba88a46a25a;0x5ad167b669db6;0xf35e15baeba3];[0xb7e169d3a7411;0x369ab94390a09;0xd68ebd6d22bb2;0x52807a06296e3;0x1142a42e8da5];[0x6dd4ef175c4e5;0xf0971be90f1e3;0xc037a87782e60;0x2b3f63208fc25;0xbf70fc186f38];[0x6dd4ef175c4e5;0xf0971be90f1e3;0xc037a87782e60;0x2b3f63208fc25;0xbf70fc186f38];[0x1af3097a283;0xa06d0ba5547b9;0x56a373bc6e4e2;0x8a466910ac77a;0x918ddaa95856];[0xb7c676ca2cf26;0x962dad9e3c250;0x7feb49b0b46cf;0xc83a10f57cf69;0x7fb4c985354e];[0x0;0x6f2735c743f16;0xcf64a6d2afbc;0x798c815a72c2d;0xda84b369825f;0x4811b9d7bd0];[0x0;0xd11ab1f3c4d70;0x9538198dd167f;0xf23d6b129e05;0x32d2b9ce9407b;0xb5fe9b07cf87];[0x0;0xe8d773dbb7fe1;0x548cae16b52ea;0xf852daa63ca8a;0x3cba3a153c6ba;0xae5078249041];[0x0;0xe8d773dbb7fe1;0x548cae16b52ea;0xf852daa63ca8a;0x3cba3a153c6ba;0xae5078249041];[0x0;0x9a6fd72d34cfb;0x86f2aaa1afc65;0xecf56d52008dc;0x4230059e33c44;0xb915a1844a5d];[0x0;0xc7a7d569e8885;0x9f6548945982f;0x66ec9a86f7f6b;0xcc8e6584bd51e;0xa42bbf93fdde];[0x0;0x30f9990c84abe;0x945ee1dd06c1e;0xd47937f426e07;0x7c88feb326014;0x7a10e494b09];[0x0;0x13312825a27bb;0x1407c5dd41e40;0x393dba888984e;0x97a88a58b7bbf;0xfba184889c400];[0x0;0x35dac1e871f25;0xbbf4c7bd0ad45;0x9a1362b76efd9;0x7636827653c18;0x69189df2cc5a]]);
 ((V [0xb69e8c7bde050;0x708565f3b4fa6;0x472fe76daf6a8;0xa9c62dd0801fb;0x54569dccddaa] [0x7980824c5a1b5;0x56d62a1ec253a;0xc553daf51ba49;0xd88a1a57f350e;0x5e9f00b6a5f8] [0x3b0a59a58aead;0xe7474b94f6715;0x7b7069cbcf63f;0x75b0b663f31d8;0xc5f2d4c192a]),[[0x1920200bfeb0;0x8aa63051caf05;0xecec6c414935a;0x592c0a0faf86d;0x83ca6db97097];[0x5840a71f64d4e;0xf5075788ecc2c;0x5d5946e0bf045;0x4d2f47660d507;0x6af7f597ead2];[0x61dadcb7549ff;0x2ffcc0f59afce;0xe1612a8b91439;0x19b3d9546041;0x62ee0a9bcfbe];[0x61dadcb7549ff;0x2ffcc0f59afce;0xe1612a8b91439;0x19b3d9546041;0x62ee0a9bcfbe];[0x48a2a04d61866;0xb0abd5e63f895;0xa2c5652ef6176;0x65965e1d8ea8a;0x480e6397b534];[0xf9e06d2034e9;0x445b81a2ad397;0xba93e1b1c8ecf;0xe798e9487ea7c;0x22e99200359d];[0x0;0x76e5cb341cff3;0xf65dfe3f78729;0x839e7e270fc1d;0x485f1955fdfbb;0x253e23d9d0d];[0x0;0x8195be9a7304e;0xe7b45dddf8202;0x84141d91b5217;0xca4eef4840fe9;0x32ee09a91e4c];[0x0;0x35dac1e871f25;0xbbf4c7bd0ad45;0x9a1362b76efd9;0x7636827653c18;0x69189df2cc5a];[0x0;0x35dac1e871f25;0xbbf4c7bd0ad45;0x9a1362b76efd9;0x7636827653c18;0x69189df2cc5a];[0x0;0x4013a4ef89e0d;0x419e0219d89e2;0x55c00804c1174;0x2529a2e4894db;0xdcd795db4272];[0x0;0xf60fbe090f31d;0xb1a1b84f73d54;0xd56ecd4076865;0xff64fc5413652;0x320396db65cf];[0x0;0x2893d57f38b1e;0x14b8df7865b5b;0xac1e5793a3b30;0x22a946e268175;0x233d8dd205eb];[0x0;0x6f3d557bbbb2;0x5da46a5e9e28b;0x6b842ebbc42fb;0xea39c055ef1bc;0x621058fa5624f];[0x0;0x8813df0b08795;0xa70ddb32fddfc;0xaca42ace51687;0x55f04c172447c;0x1f2c2ff967e4]]);
 ((V [0xc33a08766f5a3;0xafd1b9ba4aca7;0xfde43cc01afdc;0x4cab8ba5c776d;0xeb0683900ff1] [0x2f5476348fa98;0xf42739e154809;0x4ff750f21fb8;0x6038cca44ab11;0xd11d96fc439] [0x9d73b401530af;0x86719290f0548;0x1f1c977653b2a;0x7df511a80e0b;0x66dceb95fc57]),[[0x75c5f3c188c78;0xb68d891b152ed;0xcfd133177e5c;0x6caaac611e480;0xcc73d2cfa5c3];[0xa948bb46db536;0x5d519b3cbc404;0xef275af83034c;0xd443ce04dffa4;0x6cebc42fc4a9];[0x3b0a59a58aead;0xe7474b94f6715;0x7b7069cbcf63f;0x75b0b663f31d8;0xc5f2d4c192a];[0x3b0a59a58aead;0xe7474b94f6715;0x7b7069cbcf63f;0x75b0b663f31d8;0xc5f2d4c192a];[0x8e7c99bc09b12;0x852337a74c77f;0xadf1fb983d787;0x7d5972edc5947;0xcd13e9fe915];[0x1acc218ad1a25;0xd82e63956fc85;0x41355f5ff2bc4;0x56ea5b171a65d;0x601a858fdb94];[0x0;0xc5d19c6dd49f1;0xa2b125f662c02;0x9493075da76c;0x2020fa82f9240;0x4a84d801fe];[0x0;0x3d32cd5a6d76e;0x8d2aa90a742e1;0xe8770666d2782;0xfafad16e10724;0x9e1710a195d];[0x0;0x8813df0b08795;0xa70ddb32fddfc;0xaca42ace51687;0x55f04c172447c;0x1f2c2ff967e4];[0x0;0x8813df0b08795;0xa70ddb32fddfc;0xaca42ace51687;0x55f04c172447c;0x1f2c2ff967e4];[0x0;0x39ec7553bc331;0xe8f350c17ddbf;0x9d3e341fa90ac;0x6c72d053ed536;0x22f9274804c5];[0x0;0xc5ee79968f95d;0x7c41b39b7400a;0xc11e226b27d8a;0xd9e97b635f1bb;0x1bc8f4dcd861];[0x0;0x2f5af195c510d;0x6da9f347f2cdc;0x90d1de178869a;0xc968377e443d3;0x63ff32986371];[0x0;0xbe3ad552504a4;0x6c4fa0550a6ac;0xc26951faa463e;0x3aa8fcf61958e;0xd89fdf4a2ca3];[0x0;0x25def9fd19fcf;0xdc1a93464bd51;0x35f7335444b26;0x22696f0477654;0xbffb7bc2ede]]);
 ((V [0x58b45fe4708b0;0xb6e0b1e75bd44;0x6953db3efe5f1;0x4b53378cd402e;0x8b1e25bcb5ca] [0xb3f391329094c;0x6c76b73b92785;0x6d3d11c164a59;0xeb83c43540836;0x7550a1a40f60] [0xb16e08dba86f;0x474826121fae;0x42d41e04bebc4;0x477c6ebecf8c9;0xd4a917b04764]),[[0x76c73a63a1a52;0x3ba8c0b19290d;0x483a66edcad3d;0x55602b6e76f3a;0xa68e38890304];[0x82f30f59c724;0xc375ce9308c0b;0x1e283f23f23a3;0x125517ced527c;0x616a5844b24e];[0x9d73b401530af;0x86719290f0548;0x1f1c977653b2a;0x7df511a80e0b;0x66dceb95fc57];[0x9d73b401530af;0x86719290f0548;0x1f1c977653b2a;0x7df511a80e0b;0x66dceb95fc57];[0x8eae592e2bdc4;0xb1805d4613c4d;0x94caeed7b52e6;0x516f589859a52;0x58e3e33cd456];[0x7980d7c770961;0x11f5714cf4fbd;0x895d504c3d0bd;0xc0e5bf367b829;0x8867507ddf7];[0x0;0x1d3cf48771e35;0x4bd663fe0181d;0x15d7b9b818fd7;0x15e5be9896330;0x26b92f83de8];[0x0;0x4171135e2f1a6;0x516c9a1382b65;0xd5083c51f3e89;0x9e5caf93d64bc;0x42ec66054fcb];[0x0;0x25def9fd19fcf;0xdc1a93464bd51;0x35f7335444b26;0x22696f0477654;0xbffb7bc2ede];[0x0;0x25def9fd19fcf;0xdc1a93464bd51;0x35f7335444b26;0x22696f0477654;0xbffb7bc2ede];[0x0;0xe73f2b4f0aee4;0x284765e3a8440;0xb16968e8f4684;0x8ed9919d81cad;0xaad153f374];[0x0;0x34b09784963d8;0xc3703c7d107b5;0x989471cd23a0e;0x83756f58e44fe;0xd7c4f5b4eba2];[0x0;0x5c2293ffa96be;0x123a1fe029d75;0x4d71663fe596b;0x344e9ea1edc77;0x34f036bfd2e5];[0x0;0x6ac489c25c6aa;0xb85002076a299;0xd09ab9938494f;0x60283233b3db7;0x79db672cfbafc];[0x0;0xd7aaa52662ed7;0x82a9c8cad68a4;0x1f60d9b8bdd69;0x8e5dbe78e60fd;0x3fc098822775]])]
 [[0x31dced26194d6;0xd0691956bb62c;0xf00db654a8016;0x1268f632f7378;0xe1d80ea45d98];[0xa3f3a24abcdcb;0xf839b5011179b;0x143c7152ce51c;0xf0201e043d6a3;0x22d8a3a063f4];[0xb16e08dba86f;0x474826121fae;0x42d41e04bebc4;0x477c6ebecf8c9;0xd4a917b04764];[0xb16e08dba86f;0x474826121fae;0x42d41e04bebc4;0x477c6ebecf8c9;0xd4a917b04764];[0xc838a5bfd11a8;0x3233136dd1d07;0xd632f0133d732;0x9a8084823020e;0x2a79aa883ec];[0xdbbafc8aebc24;0xc606a1933fa93;0x3e09813f90dea;0x559f99820d494;0x203108f7e008];[0x0;0x980f138674d9;0x5dc4785f79273;0x3ff2ba3ea7301;0x2fbb4d7f18132;0x500eaceba82];[0x0;0xcda19e4903ad9;0x933fde59c7c90;0x452f4cbb7f736;0xf19215f4687b1;0xbb9c18a7b4d9];[0x0;0xd7aaa52662ed7;0x82a9c8cad68a4;0x1f60d9b8bdd69;0x8e5dbe78e60fd;0x3fc098822775];[0x0;0xd7aaa52662ed7;0x82a9c8cad68a4;0x1f60d9b8bdd69;0x8e5dbe78e60fd;0x3fc098822775];[0x0;0xef4bc42d77758;0xba568893f0af2;0x9fa64c47c43f0;0xf85541094c29b;0x35c2cd2562a7];[0x0;0x25d4f30d73d84;0x56aa6c0e18236;0x53f0289eff47c;0x60de01d051e3c;0x4b99c087cb34];[0x0;0x7771a302d1f92;0xf8eea7c561655;0xea42d541e144a;0x69488d40a8368;0x25ba5347d2c];[0x0;0xd8597aedb1c86;0x589c34b53b74e;0x407cad77db32a;0x57795756f5a4e;0x187a8b0679b;0x1];[0x0;0x59e0374b717eb;0x7e037e161fb10;0xcfe3166601014;0x29f73c866fd58;0x10711c85ab97]].
Definition wit_256A_64_12 : colwit ept wit := mk_colwit (V [0x549d2efcfb12d;0x8fcb1309a8d04;0xc9a5e1a0529aa;0xdf895bf443dcc;0x7f3100f1c6b5] [0x8a3de6f820928;0x356a7a74bbad;0xfb2830b7720d9;0x4d739ee7225e6;0x301a89652a7e] [0x9601ca7cb43ae;0x50b5b8b46d1c8;0x427feb63fb1c0;0x8f3fa21830ab0;0xe583e6a23e6a])
 [[0x6bd20f52fceef;0xa351cadde2fcb;0x7a96547b31c57;0x81a17ab19e0fe;0xc5a5da9bf85d];[0xa7bcffe935682;0x6940bccafcefd;0x1008a870e1ad5;0x77aa432929ef5;0x83b43a0a144d];[0xd4ca0ad220d40;0xa8cd933850d3b;0x66bf71dce199d;0x8a59b504c001b;0x1f7ac3a3d1f3];[0xd4ca0ad220d40;0xa8cd933850d3b;0x66bf71dce199d;0x8a59b504c001b;0x1f7ac3a3d1f3];[0x92d43c0a4bc1b;0x38bf5f5d0f89a;0x1e06d8700b53e;0xca4fdf711dd1f;0xba41e7ff4743];[0x14e8c3dee97ff;0x30815d6ded663;0xf201d000d6597;0xad5a63b80c1d5;0xc972520acd09];[0x0;0x130c7986053d7;0x7e9d4de7bff3e;0x66461bfc18711;0xdcf952d4435f8;0xbd9c5239ab];[0x0;0x4d0da79449d72;0xa657b1d501d32;0x47159067e807f;0x1d79342b9f27b;0x184ddd8ee19f];[0x0;0x59e0374b717eb;0x7e037e161fb10;0xcfe3166601014;0x29f73c866fd58;0x10711c85ab97];[0x0;0x59e0374b717eb;0x7e037e161fb10;0xcfe3166601014;0x29f73c866fd58;0x10711c85ab97];[0x0;0x34d22e7b3dcda;0x702a154e1b71c;0x1387a6ee5a34e;0xcfed8654bf974;0xe69da9fa58f2];[0x0;0xb370082bb5276;0x95c6283c91815;0xf1444f33a70df;0xb97d42e676495;0x12c171140f4];[0x0;0xfac50354ead91;0x876992fe7eeb0;0x7ec5db520548f;0xeafff9fac5b24;0x416f9ec67ee5];[0x0;0xe54a2b3b3523b;0x98e3886c9d3ff;0x51737162952a5;0xb775186676966;0x31903add88a87];[0x0;0x9c74788abe1b6;0x2b8e84e40b851;0x186ad7c097841;0xd5de806bb5615;0x17e65f6aeac3]]
 [[[0x99ba1a454e1b3;0xa1f28637e76d1;0xfa4024f38e082;0x5737d1773d602;0x529546b2d0a1];[0xf93fa9a6f8685;0xc63af76cee394;0x94d387fd6cb29;0xcb1148a0557dc;0x1befa9c94197];[0xb38818a95e41a;0xc1e929d0d631;0xabf350f305323;0xcfc33b7646604;0xa85293b93e2c];[0x28da4fdbe6b52;0xae732b92c321f;0xe1ab79d84845;0x561b04150e40b;0x6236a92d865c];[0x52b658c8dfc35;0xc0ae08072ad11;0x5197269871276;0x1ffdbada898ed;0xb9c11d9398d5];[0xd84595cfa5a79;0x5799d8e559e7;0xbaf1e33fa6161;0xfb81f73ecd22b;0xde592b2af027];[0x0;0x5e5af7b228e31;0xe269232a156e6;0x117bdef48ea85;0x415b692158787;0x566702ccd0a];[0x0;0x5f9ce708d79fd;0x29633d967a32e;0x232c50cf4006;0x9e448f981d980;0xa27adcfe61b];[0x0;0x5faa25501ff82;0xf80af14665af5;0xf1a5021d96fdd;0xe606342c56059;0x3414e0fe60f];[0x0;0x8da291a1c2b45;0x46ee8a8c51a8c;0x5f0c9e1a27c4a;0x247dcd00eba3d;0x78b88c5ea2cf];[0x0;0x1fcfbfff7445;0xa73ce1b27ca15;0xdad3a82818417;0x6b82d2adbb4cd;0x2da8112a758f];[0x0;0x25b053533e018;0x5df1867b9205e;0xefd4af092bf7a;0x76d27ac77ad01;0x89b59d14b67];[0x0;0x553d2aba9b072;0xa7e5271ea65b8;0x67eae10bedd23;0xcb4be6a229ac8;0xf18e664b1b7];[0x0;0x1fa21f6a70984;0x8dbd78f0b5317;0x520fcdea0e6ed;0x37274fb957bbc;0x8724c11ae2105];[0x0;0xdfcf296c97832;0xc66b6a5d02c48;0xe517b94f5be87;0x66fde8233345b;0x452ea57f2668]];
 [[0x99ba1a454e1b3;0xa1f28637e76d1;0xfa4024f38e082;0x5737d1773d602;0x529546b2d0a1];[0x71e6124ced8f1;0xa15fb2c65fb81;0x4ba058ac1e58;0x28be1b60901f2;0xd06f706e461f];[0xbb8068b09199d;0x4e91d7fc8b7f;0xc615d67ea03f4;0xe117ddf4bef;0x2fb17960e78b];[0xc674dd87b2fa5;0xb034271bd438e;0x261dccd4f9d16;0xef4d1cc3be36b;0x638da29136d9];[0x481f68160e334;0xa2d718bbfffe9;0xf87a78cbf8979;0x75038492dd728;0x2e1cb3386971];[0xb833aef7920f1;0xbeba73a8d8577;0x53c9ce2f0faf5;0xef9cc08242bbe;0x6e2c228dc21d];[0x0;0x5e5af7b228e31;0xe269232a156e6;0x117bdef48ea85;0x415b692158787;0x566702ccd0a];[0x0;0xae57a4e940d52;0x2defcd8bb5271;0x735560c63a807;0x7074a2e0d667d;0x4d737164ea00];[0x0;0x293a93a0b3ebd;0x7322584aaeda0;0xab8372b894481;0x69610b68dc60b;0x19ff04ca0e16];[0x0;0xfec4d996c96b4;0x936bee00735da;0x5439868e8d53d;0x16f1a79f2b0dd;0x3f9a7fc6e4bc];[0x0;0xfd928e08e2d0c;0x5823e6ef892d7;0x21dc3885c6d55;0xd8d3dadb4fb6d;0x180e06128e38];[0x0;0xfab8aa7f40bc6;0xf464e7481c5d3;0x17c14cce17ad8;0x48b49ee9c2e1c;0x44bc9beec773];[0x0;0xe6199667e57ae;0x2251a3a86bcc4;0x45cfdf7ffbcd2;0x3d60ab9d800b5;0x50b023c2d9b4];[0x0;0xc48c8fe75d1ca;0xb3246645e8d2c;0x60aa95d057ae6;0x30c1871ceb71f;0xc7f45db3ef50f];[0x0;0xee0e88a170f5f;0x163c051534ff8;0x8fd7b991aadd8;0xe54d5e2c6543b;0x4c843897c1ba]];
 [[0x99ba1a454e1b3;0xa1f28637e76d1;0xfa4024f38e082;0x5737d1773d602;0x529546b2d0a1];[0x2d9cce3787ca6;0x8ec938715dcc4;0x6e51548b6546b;0x95ef8de61ccef;0xddfac1e4334d];[0x2eb2d8adb561b;0xabe75c49b0c43;0xfef68a17b02c8;0xfdfcdec072876;0x39585bc437e2];[0xacf47110f97f0;0x105fde5e86121;0xa15dfe04b1f43;0x863b147f3a98f;0x4c50621907fc];[0x3ddd357d8033f;0x364d8c77f840c;0xbad72f7575dba;0xe9a3ccebebcfc;0x27ddf546654c];[0xc32f69e35d7bd;0x33d932867836;0x8f328dec1c438;0xcb26678c525ba;0xb7634b2f810f];[0x0;0x5e5af7b228e31;0xe269232a156e6;0x117bdef48ea85;0x415b692158787;0x566702ccd0a];[0x0;0x5a6b5446038e9;0x40c66cb024aeb;0x6412c3f1dba03;0x1a8a62f79e530;0x23a7c8bd91ff];[0x0;0x281d9564a4213;0x9bc2ebda2874b;0xa7547589bc133;0xe460758fc3228;0x129f1e6f5cfe];[0x0;0xa4f67127d3020;0x5f8177edee2f4;0x3a31a97eb9eb9;0x237b310b367c1;0x62348f4fd2ef];[0x0;0x7443f00c264e7;0x45783c139b729;0x1ecf3ec29bbec;0x9e979e825b309;0x252421fdbb6b];[0x0;0xb5450c6bb276b;0x83d12639aed40;0x456c38bda6142;0x263c32ab4402b;0x313ccacb0cc5];[0x0;0x968b9799e9684;0xebbacdea5c1f5;0x286c3575dfffd;0x2c1efd964cd0c;0x27b6cb7cfe7f];[0x0;0x1dc26305c9fb7;0xeafe183f0a785;0xf639da1152244;0xb8b2e5d3dc87e;0xcfd6b2823da81];[0x0;0x5ec4e32acd538;0xb43cc4e23d4fe;0x615ddb27cbf11;0x9a0ada335498e;0x24e0b8f3989f]];
 [[0x99ba1a454e1b3;0xa1f28637e76d1;0xfa4024f38e082;0x5737d1773d602;0x529546b2d0a1];[0xb63407480b1b4;0xd56bc91afcbf0;0xcff0b96c3bf9e;0x437693a4afaa2;0xbb590a1d2116];[0xffcfdcbf4e8a4;0x48a5d61e6020e;0xdfcfac4d35676;0xe4b493a62b17c;0x9a7ef88799b8];[0xee148ad669ab;0x884f18c33bdc7;0x21e82f9dfa824;0x9edd592056994;0x642f0efcfe62];[0x2f891c2805e85;0xb65738dbcbd0b;0xbfc5b6161135e;0x8af2da8baf7c;0x3a4fc73875b0];[0x6ad77054bab6c;0x728aefc6b820c;0xcd34101402c6c;0x7e97a2bb140b5;0x8c27c50c44bc];[0x0;0x5e5af7b228e31;0xe269232a156e6;0x117bdef48ea85;0x415b692158787;0x566702ccd0a];[0x0;0x4a45268c9146d;0xfcf909f0685d5;0xc35279b24341b;0x570e3ff295508;0x276784d2dd16];[0x0;0xbf608cc118e1c;0xd5ff3a660d269;0x9d740d211efe2;0xeb353f0783f0d;0x89b2d26138a];[0x0;0x1d1ad0ade5e52;0xb267682cad520;0xb1675e8e51f5a;0x5fa07baacbc7d;0x6669899828ba];[0x0;0x6a7c64dda5bf5;0xcfc7df0f196fb;0xefc50619bca2d;0xb44e50900ceff;0x26bb71cfcdba];[0x0;0x963c0c4a906a7;0xa6c241461cb7a;0x2c16087c20169;0x42287975ff7a1;0x16c171735133];[0x0;0x3b30462c69cae;0x72f8999384da0;0x39080d8380053;0xba1ced924495b;0x4982c421382];[0x0;0xad261efa5f15c;0x4d92eac760d7c;0x7ea54feac32d1;0x7ab042ecc2e0e;0x22d9150c6136a];[0x0;0xbecb0e9be3189;0xb749e56cf1685;0x55118db24ac95;0x502733e417b78;0xd72b786449]];
 [[0x99ba1a454e1b3;0xa1f28637e76d1;0xfa4024f38e082;0x5737d1773d602;0x529546b2d0a1];[0xdb9df0ba7246f;0xc4d354f81f8ee;0xb2c6ff4818e2;0x9f2c9fa05c0ae;0x13c3958b106f];[0xa4a8a1627d86a;0x802d837e56e5c;0xb4f7ed5a80865;0x64157d48a1bff;0x62e13e085569];[0x434cbca26704e;0x9abb1e50bad5a;0x87a3cf8eb55ff;0x4a9e897caa04c;0x85739abb1cd6];[0x8d0a838c4e7cf;0xeb05db2d61d72;0x81586df014592;0xc060da856872c;0x7d3961ebc2];[0x9b893654f7c24;0x1c9c2e21636e2;0xa645cb349f9e2;0xb70f1d2ef01a;0xaf03ffbd24d5];[0x0;0x5e5af7b228e31;0xe269232a156e6;0x117bdef48ea85;0x415b692158787;0x566702ccd0a];[0x0;0xf29a981863801;0xefc117710a712;0xfe804d579fda6;0xdae1cc8d50113;0x32d455f60b5a];[0x0;0x28cf18b443012;0xb2d1e2d05626e;0xe8042811f2ad7;0x7b28d2359ed4b;0x12dfee153c7];[0x0;0xf00563d15e35;0x47ea5546763eb;0x5b5637ed71949;0x848bf71c2d440;0x11074c68ed1b];[0x0;0x62bbe25d1dd6f;0xe2ab4093dc9cf;0x48a58efb9bde;0x4c1b4b080e72c;0x670ae98539b];[0x0;0x7180228bce3e3;0xe773dfff051b7;0x149884c53f9af;0xaac4c9d0c128e;0x31e828f44f8];[0x0;0x1288c4d7a538;0xdaf0b313c6d1;0xfa0b724222b91;0x62b22e0e9416d;0x76c988d0b61];[0x0;0x1c4d5c8f67ba2;0xd33500b26d9a4;0x36c92e5019367;0xf53933a059058;0x6bc29501e5cad];[0x0;0x85011b310a2b6;0xe177c0a68645d;0x49e70fdae6d3a;0x788c17f30e69;0x26459f5ad786]];
 [[0x99ba1a454e1b3;0xa1f28637e76d1;0xfa4024f38e082;0x5737d1773d602;0x529546b2d0a1];[0xc30b3f60a34ff;0x54690ca2841e6;0x35e61b8a74eaf;0x77898ec908aaf;0xe5a55583edb8];[0xc8fb64f84ff54;0xacac15845bf92;0xa48c705daf53;0xa5f6de4319dc8;0x8701397185e0];[0xc327845128ab;0xdae9fa8d2cc4c;0xf9f8fb1de3ade;0x11389fe10ad0c;0x7a9af5d26cc];[0xd26f597c7e654;0x3c3e64273d914;0x63eb713362bbb;0xafbbb098bd290;0x74470aa70b40];[0x927b4ef2b3861;0xae06a1b3c338;0x149396505d01f;0x3bc801a098234;0x746813b1a6ef];[0x0;0x5e5af7b228e31;0xe269232a156e6;0x117bdef48ea85;0x415b692158787;0x566702ccd0a];[0x0;0x6978a6d18f8e5;0xc0fe8bd0fb339;0xaa13befc31c43;0xe9b3a05dcc4bd;0x4072172091b1];[0x0;0x704b27d306e14;0x509d35e8404fa;0xb9d15f59cf6c2;0x313fab5d1d08;0x1211ddae09b6];[0x0;0x60b4476ab97b3;0x91714ea3805cc;0xdecd879e449e7;0x9e1e8c8f89096;0x329ec3a63cbb];[0x0;0x8ae6e073fcf34;0xacd39e2c42770;0x874be8e271ae1;0xe3fe84b18da54;0x1324fda206af];[0x0;0x9756adc355515;0x103716ceb8e6d;0xf674321061e3c;0xd3371f555705a;0x2fc74dbcce0d];[0x0;0xec9c615b4e627;0xaf48b19f5f75c;0x18819f8cec3b2;0xcacb1caa38c32;0xc84941829d6e];[0x0;0xd096ecd3bc689;0x60a5e22ebf379;0x9af7f7105a100;0x5f49a8cf0b7b;0x17df66bb0a3d8];[0x0;0x330b8138be624;0x9839251a231f6;0x9861624b81302;0x84989750c601c;0x14afff76da1e]];
 [[0x99ba1a454e1b3;0xa1f28637e76d1;0xfa4024f38e082;0x5737d1773d602;0x529546b2d0a1];[0xc0cce66f6ee6d;0x944f2a74eb2e4;0x1eb9d18537952;0xc1f9817b2b767;0x86b414d7a906];[0x7a03736ed8384;0x46c13327f2d2c;0x6754d32d81c7b;0xc8d0455ece7f4;0xbe80777d8f55];[0xbab6238d711df;0x9cd6bd1bb8254;0x202db0266e7dc;0x8095adeb2186d;0xb48867b65c5f];[0xb4e647e0c914c;0xdc1e1d310218f;0x40c1df39588ef;0x3b7647b1dfbba;0x5ebad37d38eb];[0x5e4cdc93686bd;0xa854b68836d0d;0xc13b1ce589f4a;0x142a3a1d12f83;0xdb1c14d867b9];[0x0;0x5e5af7b228e31;0xe269232a156e6;0x117bdef48ea85;0x415b692158787;0x566702ccd0a];[0x0;0x8b6bab8db7ced;0xd051427f21a30;0xaa41cec6277c0;0x2c283d5c623e0;0x290ae12fd439];[0x0;0x7a7956302e644;0xee169b209d52c;0x2dc28b5e7f3ec;0x9ea75bcfa8675;0x29f426f241fa];[0x0;0x402ccb8db922;0x744b143b7ce;0x11f5d2809fd89;0xe55201ccd6c7e;0xbc8fc6daeb6];[0x0;0x54db36b952c84;0x6eb9b4cdb7c1e;0x8fdee6a344d10;0xbc6d302dd86d2;0x47505591144];[0x0;0x9781aafa0a201;0x7a0e4550433c8;0xcf7d12a1b1457;0xe06f977c9d38b;0x6eee27ea3a9c];[0x0;0xa98f32b779509;0xd6668badf2431;0x52d8acf898a97;0x542a563d7fad6;0x3fcfd11fa7a6];[0x0;0x7224def06fb0e;0xea6eca8a2f0ce;0xb3a89836e1a06;0x693253dc0b1b3;0xdc56a95ee75e7];[0x0;0x83cd5742f557a;0xe6c4753bf0e88;0x2020a93590921;0x314014d526794;0x656073be7d90]];
 [[0x99ba1a454e1b3;0xa1f28637e76d1;0xfa4024f38e082;0x5737d1773d602;0x529546b2d0a1];[0xc2a500f109526;0x7aadd49070a98;0x1599a33d0f3d1;0xc81e0e8bb58d4;0xa8a5ca3a9014];[0x20dc2a448f793;0xf10c6a08625a9;0xbb1c5cb77bb2e;0x51f2fed983c5a;0x2a18e4e3f335];[0xd1d7dfa39a961;0xe992ba7a127e4;0x38dc04b17b39b;0x7891afc14abed;0xaa82ec0b9a25];[0xac662c23796cf;0xcbe6cb943a49c;0x16181ff5a80d4;0xff8840f277866;0x9c9d1a7d7eac];[0xb8b8f507372dc;0x3dea94170286f;0x6f5be3c6101e6;0xce4cb9bad51cc;0xc53a81250819];[0x0;0x5e5af7b228e31;0xe269232a156e6;0x117bdef48ea85;0x415b692158787;0x566702ccd0a];[0x0;0xc6bb727f1e040;0x881e998db26e8;0x4ad53fd93fa5f;0xf0ec7fb107bc0;0x261e2803b21a];[0x0;0x92a4be30c0c03;0xe0e6022e466c4;0x9e7301ddbab7f;0x72435c2c5e1;0x16c9a610fbdb];[0x0;0x8aba532a8e711;0xa56fd74a66c8b;0xe16c4228af557;0xf104f4f7026f2;0x6a531e56d8b1];[0x0;0xae7aa8bd7a137;0x27c4a6f010e1;0xee8a1f0dedca5;0xddab7111de903;0x28363dcfbba5];[0x0;0x12f0af41cef1;0xfcaab94c21146;0xc4c621a03ef3c;0x2d7eca779b9b1;0x3c40d0c581e9];[0x0;0x16abfea0828a7;0xe0fdf953b6880;0x2385d04293ad0;0x92f8bb61d4fdd;0x4d14929b6427];[0x0;0xe9bd47f9ac3a;0x1415adc65a331;0xb66a740175c14;0x66bc1686f2300;0xfd1ec0f3e9096];[0x0;0xf3b1b114b0999;0x34c77b20102fb;0x8304d77063626;0xdadcdab71af3d;0x7145d7b9313c]];
 [[0x99ba1a454e1b3;0xa1f28637e76d1;0xfa4024f38e082;0x5737d1773d602;0x529546b2d0a1];[0x4f41e1f1bfeeb;0x9c7d7d1a47111;0xdf30cacd27e9b;0x64802b5fbb62c;0xbab922cb5ba5];[0xba9a3d2cdc091;0x849926585904b;0x1a68abfc55f4;0x6db72b7cb0611;0x35510a0636e9];[0x86fe7fcff999c;0xfbb2b22337210;0xf1f6534e4f222;0x22975ae1f8dd7;0x86fbb5410588];[0x6b39df0118555;0x6b1853dbdbeb6;0xcd09a68d9da84;0xf4c017e196f2f;0x1dbdc5fd84c1];[0xb566ce707d92;0x357bc8df959d5;0x1410a632c29b6;0xcd0100b8150ee;0xa4434657b2bd];[0x0;0x5e5af7b228e31;0xe269232a156e6;0x117bdef48ea85;0x415b692158787;0x566702ccd0a];[0x0;0xb99bf56b365a0;0x5775cef81cd80;0xb1b62296a29d0;0xf756054fc94aa;0x94d7b76bb7d];[0x0;0x823d020d4ef31;0x73e913b1d9694;0x85799043635d5;0xb4b8eb8c13797;0x15fc5b517fb0];[0x0;0x6ea2613946c4;0x14ce3b3cd19f;0x8e150ab525e20;0xde8d38efe44c9;0x7b2273f4dc72];[0x0;0xd9c0d1696784d;0x9b9aa8cfb0b2;0x47b79a0cc588f;0xabebe9a6bba13;0x2e91c20763cc];[0x0;0x1e5964b89ed53;0x7b6c106bf4856;0x2d11165cde5f7;0x50c184f7f8bad;0x3a22002d4467];[0x0;0xdb95b351223d;0x75f6151032dff;0xfbf0b18a721ad;0x9f67378c4035;0x3e2fedf3934a];[0x0;0x7b56c2ae1f9cd;0x60cba08af21bb;0x46f4d299184fe;0xbbb56071d0bc2;0xfe248d2e49cc2];[0x0;0x5fbfbc6d37109;0xbddb405b87bf6;0x51a1466793890;0xac1193a0e6c05;0x533bb552cce5]];
 [[0x99ba1a454e1b3;0xa1f28637e76d1;0xfa4024f38e082;0x5737d1773d602;0x529546b2d0a1];[0xbf8c3cf5f7b46;0x36bb340a4db49;0x7c75f401a6bb3;0x73a18130a240e;0x245125337876];[0xa1385a86cb493;0x6605728940d7d;0x23234237f2f2b;0x716346388cb08;0x9b13f8d7fcf7];[0x85948065a4acb;0x9e91dbca3bdf;0xd62d746a88806;0x2ed6d983e63a2;0x80981956985f];[0xd83911f7254cb;0x1dc8a38a787e4;0xd3ee9a6265263;0x568396da63106;0x50352a0dd439];[0x12bb3d552dbdb;0x91651634e7435;0x65c653d690665;0x1122bdef60705;0xc7c969eeea96];[0x0;0x5e5af7b228e31;0xe269232a156e6;0x117bdef48ea85;0x415b692158787;0x566702ccd0a];[0x0;0xe1e5fd04d0611;0x2b808d64592ae;0x8e6d48de57ff3;0xc7deb40489a0b;0x2993ca28972f];[0x0;0xf7adbe72af36b;0x6ab1cc32cd4ef;0x767b91d4808ee;0x7c6678402612f;0x10054b801951];[0x0;0xb373c8fdc7196;0x38fd62a2bb281;0x7497093defc38;0x16ca88c19fb6;0x7c2b27eb5fd4];[0x0;0xcf35247bbd76b;0x86e68373be03f;0x8eaf752e5781f;0x13a5911d6949;0x2ef5de497ac0];[0x0;0x6e042030848ad;0x78aadf0f5693e;0x75cd22d8ba36d;0xcc576f76d4897;0x2a5c4793ee90];[0x0;0x3eeedd07f4517;0x1e2bfa4a9c332;0xb456c7b3b25e3;0xaf0fb3826fc54;0x1eafc2a1b6db];[0x0;0xb0d68536daf61;0x1d9468a70eeb4;0x9b2f9d083e5ea;0x91b0270fa9002;0x504af83b7f3aa];[0x0;0x1a40d7b0f7b58;0x9916780501a35;0x7bf99cfa5c2a6;0xc5391cee02caf;0x40641f8a003f]];
 [[0x99ba1a454e1b3;0xa1f28637e76d1;0xfa4024f38e082;0x5737d1773d602;0x529546b2d0a1];[0x129f56ddd212c;0xea5a7b7ed137d;0x31330d97a09da;0xc498045f91807;0x4a2affec931b];[0x5fc424702f90b;0x6512727d2efb2;0x2c36130ff790f;0x8d01e68d754b3;0xb484fccacf82];[0xec1aa34704306;0xb59b8f07c86d7;0x1b43e44726869;0x4173eea7f35c4;0x9707e3a12bb6];[0xd516827604822;0xc51245a61a1c4;0x26371a02af531;0x35758bf8eb73c;0xa56383425287];[0x7a93f47c1cc92;0x311dc13e66ded;0xba3ac2240c849;0xa437d5d4784a;0x5bb7caa0055a];[0x0;0x5e5af7b228e31;0xe269232a156e6;0x117bdef48ea85;0x415b692158787;0x566702ccd0a];[0x0;0xbc4a2b965be9f;0x97a49a7c933a8;0xaa9b8b7df0ca8;0x4328eb85ee302;0x5c107ac841];[0x0;0x13af5a6bb60ab;0xf3e9cfb236064;0xe644902e3c65a;0x9da7b2a2665e7;0x28a559863ebd];[0x0;0x9aab3f1e8b8e3;0x509a392422b72;0x66b6c6e67bf8b;0x9e68aa3631999;0x25dcb5164707];[0x0;0x607ce1b0c6cfa;0x54a89650b4a7d;0xe1363afac781;0x7519a2dc6aa18;0xe51c583a86d];[0x0;0xcf01ced47b325;0x2c3946ea05280;0xcd7d2b488014d;0xb86bed31111d2;0x6b78e6ad7249];[0x0;0x97118014c95f8;0x309f84550a97b;0x4ff7c3b628cd9;0x5fee905689752;0x1fa5d4c89038];[0x0;0x592c3b3680efb;0x8b82411acb0c9;0x486ca8ed751f8;0xdcc5ed5f47c6a;0xa90db40079cfb];[0x0;0x403702bceffd8;0x483a21453ccf7;0xd34f75dfb6dfb;0xcc84ee5177394;0x4511d5175be7]];
 [[0x99ba1a454e1b3;0xa1f28637e76d1;0xfa4024f38e082;0x5737d1773d602;0x529546b2d0a1];[0x2e9417443f6d6;0x235088190aeeb;0xe022aee018949;0x6f6c8dc8d75d5;0x33563b547308];[0xd5d382612864a;0x36e218dd0002;0x53e93dd422381;0xca88e598fa2f0;0x2db806e7eea5];[0x44c5ffd563888;0x3bf5fcc81bd34;0xc8e5039b15675;0x1f2823d4ad6f9;0x48718509daa];[0x22e7bd6f4ef23;0x138c2cc87ce86;0x4bf2d17360021;0x107ab8532cc25;0xc9610a3b31c6];[0x7bb3073b1cb89;0x18e956fb94670;0xb4300d7c974cd;0x702b4b246d514;0xb3be2e048a97];[0x0;0x5e5af7b228e31;0xe269232a156e6;0x117bdef48ea85;0x415b692158787;0x566702ccd0a];[0x0;0xd622dca18e1ed;0xab91581c2db8d;0x656b8dcc5bd2d;0x1f105652c61a6;0x4935850e5238];[0x0;0x6fdf025674072;0x437a116574e26;0x50386b169f91e;0x14cb992991bb5;0x1486a9e603a4];[0x0;0x6deef4987a14d;0x887a7486f43a6;0xc594d8545210f;0x85271d5abcac7;0x506c31f57624];[0x0;0x8db0309d7d93;0xa16683c7fc1f7;0x5bf149ed7e10c;0x8395603bdfc6f;0x1e6a6eef836e];[0x0;0xfa96eb69e7ab0;0x5b200f8249cea;0x6ab35747891b2;0xc5b9e1f86240d;0x3645ea2ca07f];[0x0;0xd9b1f231bc774;0x748f8ac2cf902;0xee430963e6355;0x1abac745a44e7;0x24128207d750];[0x0;0x27fe79b39042f;0x52b8a57dc3af8;0xbce093a725aa2;0x1dcac0feb2a5f;0x11a66fd245277];[0x0;0x112dcfb638848;0xa98773ffe5182;0x3150804282636;0x883782b26af1c;0xbcfd479c7b5]];
 [[0x99ba1a454e1b3;0xa1f28637e76d1;0xfa4024f38e082;0x5737d1773d602;0x529546b2d0a1];[0x9d1861518d232;0x9d0e30e33a2d;0xbbbed2c0e9903;0x60b81464ea6d4;0x186ad8bfb4e6];[0x996d5de88ae68;0x32a4218406b11;0x98cb661149c56;0xfa79926b95812;0x5565f1b5bfbf];[0xe0780bb5e3b72;0xda9e63f02a369;0xfff3010426068;0xdbf4342d513d;0x6d368e57a778];[0x2c1d721d912a9;0xa8d3f73adb233;0xc2627e53101f6;0x9a190a730ed94;0x66159fcc3d7c];[0xc91f093e30556;0x47df1ed2efd94;0xe4d023069aed9;0xd3ba24d702b65;0x82f20c5a4c58];[0x0;0x5e5af7b228e31;0xe269232a156e6;0x117bdef48ea85;0x415b692158787;0x566702ccd0a];[0x0;0x3b7626a220b0c;0x78a91877f300d;0x55c26692552e;0x593d091844890;0x3288b9673d43];[0x0;0x6e6a7257276d8;0x6efed82ad34dd;0x6897abdb9ef9c;0x643c2cb5ae2d;0x21cceba71ef0];[0x0;0x624ffa3ea7e79;0x3d08ba8409d04;0x47c1580c80030;0x5b00587a0e49b;0x85a1cd7312e];[0x0;0xea7c5e126e839;0xfcb0672e94e92;0x29c6f86a7c733;0xa0254d46fd029;0x328a1c5407c];[0x0;0xe1355ce5e5dec;0x223d28bac6c65;0xf13a6277f043b;0xc2dfd04c2e4aa;0x595f4896af82];[0x0;0xd70c6df205bf5;0x863955baf192b;0x488229b2e0ed9;0x18735dd6ec1e7;0x3a01e2b6c8d];[0x0;0x662f9b8f7d696;0x4977d2a3ec47c;0x73b677a7eae37;0xfc009cd887920;0x6ddf16ca111d7];[0x0;0xa558e17b1f9af;0xdbda39417f4b7;0x4b57fdd093ff1;0x605718aebe99a;0xf70ca03e02e]];
 [[0x99ba1a454e1b3;0xa1f28637e76d1;0xfa4024f38e082;0x5737d1773d602;0x529546b2d0a1];[0xe40c9be12088f;0x20b7249e55e5;0xaaf2f6c9105df;0xdb104ad033367;0x55ab96f4b90a];[0xcf1036d986863;0xc2bde0865b1c6;0x38f52a4f0ed45;0xc10091e067776;0x8cfe3f785d37];[0x7c013111e93cd;0x4152c8abd33de;0x5fd0dad948c22;0x2587b51369ec6;0x2e5c27be6a4c];[0x68b1ade9bdd30;0xad009932617c;0x372ee201fa757;0x45b7e2cab849e;0x9ac0b00b48f4];[0xc185b046403d2;0x53dc51e2b1fd0;0x669ebb6f52244;0x5e5ce8852e290;0x319e41683c6];[0x0;0x5e5af7b228e31;0xe269232a156e6;0x117bdef48ea85;0x415b692158787;0x566702ccd0a];[0x0;0xc578d64acf7c4;0x2f81b3f32994b;0x1facd05ff4187;0xdbe1290b19dcc;0x46b548a3994a];[0x0;0x5dd4e63922a53;0xfb73463d46ab8;0x5f58caec7616c;0x4b389e515b3eb;0x72472691980];[0x0;0xae503a96da54f;0x13a248f5f45a1;0x95aaf696190e4;0x6ec0e6b463322;0x33aadfc4b39f];[0x0;0xf5d07a2c28d80;0xdf7d1e426836d;0xefb5556b8fe48;0xc54a42274e7f4;0x138a63bd5414];[0x0;0xbb8e2c3182137;0xf875055868d36;0x99d25da3b3733;0xb82db263bf568;0x12e29deab3e9];[0x0;0xea6b5666ba200;0x7778ea8c1f4c7;0xe344012537f4d;0x79a85c904b1cd;0x2fd4dcc35323];[0x0;0xad697c432c352;0x26af0adff55d1;0x90fcfc4c2ee84;0xd9be2b28bdbe3;0x5559e3b9da5dd];[0x0;0x262cada10f4f5;0x1d5774f621b72;0x3e0787a6e2e54;0x884ff8d9cb790;0x2dc033d6c2d9]];
 [[0x99ba1a454e1b3;0xa1f28637e76d1;0xfa4024f38e082;0x5737d1773d602;0x529546b2d0a1];[0xedbb57bf4a0c;0x370291f03009;0x82edbcb894a2f;0xc99e2451f0fe7;0x98fd9494612d];[0xd809c19fd1816;0xab7fd3f0f0865;0x5b70d9b03c90b;0x98038e6666392;0x9387a3ca9f6d];[0x11a8bcf02b2a9;0xea622b346a4bd;0xe439364d05fd7;0x1b658da0447e0;0x39a9ab5101fd];[0x1184c03766db6;0xa9ca79daeefef;0xdaf1c32250ad0;0x5ff9fe66291b3;0x714814065a88];[0x6f0bb8384510f;0xdaf09fb25f70;0xdf2881125bf92;0x426d02a3c9bc5;0xb75f9bd532be];[0x0;0x5e5af7b228e31;0xe269232a156e6;0x117bdef48ea85;0x415b692158787;0x566702ccd0a];[0x0;0xed228b7b13c2a;0x389d774442c96;0xaa6d2144bc819;0x59866b32103d8;0x33b7da87f006];[0x0;0xd01421aae82ae;0xa89f6faa6d768;0x23902ac95490e;0x30a89be226369;0x1adb76381b92];[0x0;0x7bd06fdef855a;0x1104086939172;0xda4c9b2aa0118;0x54b0f055c7968;0x28b684758353];[0x0;0x4e8ccff962ece;0x3c7cf95b1297d;0xf10c98b82c083;0x3c8dfce863bfe;0xf65c8f05f9b];[0x0;0x2435ac7625760;0x7f680ce4543f5;0x8b69cf487b03;0x1f98b47b7347d;0x47037c318676];[0x0;0xb13c90ffc518;0x52e1764a2a32;0x22ea9657456f7;0x32cc289990244;0x964500305900];[0x0;0xe1913a29092ae;0x49d9d656d61eb;0xec67b97044565;0xacc4937d3229c;0xec38d6e6e67fe];[0x0;0xb191947a1e539;0x67378eeb02201;0xbd5a51ef00ea1;0xaaaf8c3c0c6c1;0xe2542c8ebe30]]]
 (V [0x5368ad76e98ee;0x6806ec2b19a9e;0x76919b59e2bdb;0xf34f8538ea3c2;0x3cdcd4b18b75] [0x23360da8bb39a;0x8dc28f98163ff;0x17970bbb5d764;0xae8d3da5a64f2;0x1c5231fb5430] [0x69e1371dcbfc5;0xf46301acdb782;0xaa20e8bd25dde;0x6ffffd6c0970a;0x4d689cbce1ae]) [[0x6bd20f52fceef;0xa351cadde2fcb;0x7a96547b31c57;0x81a17ab19e0fe;0xc5a5da9bf85d];[0x2a0aff2ccefdb;0xb119a962efead;0xaf4a845a0cfc2;0x18a635fd41658;0x53d1ab877241];[0x82e2cb02f7614;0xf66b26c3e9006;0x2fd2a5c6f4601;0x1a0232dea242c;0x7130d07d6b80];[0xd756e0c5c96fd;0xeca8ccfc739e9;0x14c41844d264;0xe2a3649ec3bba;0x9fbc5d73b0ec];[0x97e023501e194;0x5910c6c958f95;0xb5f6f90c8091;0x4472ee4569fc5;0x8bb8afe1c92d];[0x9ecfbaca02dd;0x8978e7c71ef2b;0x7c2c47854eecc;0xa21550632fc50;0xc87edfd401b5];[0x0;0x130c7986053d7;0x7e9d4de7bff3e;0x66461bfc18711;0xdcf952d4435f8;0xbd9c5239ab];[0x0;0xa80310ce28050;0x54aab45a76a96;0xaa6e5359c36cc;0xaf14363e1acc6;0xb0a42da2448f];[0x0;0x3d2a70abe7941;0x6ade902802390;0xab378993511bb;0xd94480028da91;0xeea7bbe3db0f];[0x0;0xe304f2f3483b9;0x357947c19bc1a;0x8de722cf45f30;0x9f48f935cef2e;0xf97b6949e21];[0x0;0x71a3a8e2b4548;0xb1657e7c806e6;0x3869c80b677da;0xd04e25d4f3abb;0xdab466f8521f];[0x0;0x7a8147d84a59e;0xf3c4fe3fe9cc;0xc77a8160b0400;0x2b080f5fcd4e2;0x1103d79dbfa4];[0x0;0xa27adc04f4721;0xe27e448af7607;0xaaccc89a40ef2;0xab9c09fe11a7d;0x13ed7206eada];[0x0;0x9795116dcf2cc;0xc9256431bbb68;0xa9d30835a3384;0x86a2d2c8daab;0x1d82f79676961];[0x0;0x5cdb78d67ccb1;0x71dd0cccefdc6;0x7de19b185ddc9;0x20dbc2295a663;0x6bbb1e1915e]]
 [((V [0x663b8295f8668;0xf9a1341edca4;0xe4bd2a311f176;0x8f3261a0f9c9;0xed6400dbb887] [0xbfa41deae47d9;0xda665bba3cb70;0x1771ad5c8560;0x70376e941df6e;0xbda9b08c3869] [0x3e1f89f196ee7;0xe6e7a925f1b13;0x68500a699ccba;0xcf026897f1175;0xb8d296cf6d0d]),[[0x496741adca9e6;0x121c10874d509;0xadcb30db69eb2;0xc8d8013d566f4;0x13ebaa2b92be];[0x6cabc0bd129da;0xc988aa07f44fd;0x6e7ca7a8a7d86;0xb2aafb291c92e;0xd4309fa6fb99];[0x69e1371dcbfc5;0xf46301acdb782;0xaa20e8bd25dde;0x6ffffd6c0970a;0x4d689cbce1ae];[0x69e1371dcbfc5;0xf46301acdb782;0xaa20e8bd25dde;0x6ffffd6c0970a;0x4d689cbce1ae];[0x9f08dd0b59ecb;0xb2c002c9a2c4f;0x233db1f766fea;0xa6f3f29c6804c;0x7e52c360db4];[0xcda2e3b1b8b10;0x16c8a73e518ad;0x4b3ef5b140d9c;0xbb7088cb48e2;0xcc4b7370ede5];[0x0;0x985f14b701ce7;0xf6d4ee09d970b;0xf10810eea5cb2;0xd15d034ec7559;0x1d2415193e3];[0x0;0xc91c62e8e8f7c;0x445e25f201327;0x93f1ab03a3d8b;0x38cba67634dc0;0x606061e8b2a];[0x0;0x5cdb78d67ccb1;0x71dd0cccefdc6;0x7de19b185ddc9;0x20dbc2295a663;0x6bbb1e1915e];[0x0;0x5cdb78d67ccb1;0x71dd0cccefdc6;0x7de19b185ddc9;0x20dbc2295a663;0x6bbb1e1915e];[0x0;0xff6ba4476720f;0x5164fc229694f;0x2f28d6dda5be8;0xc2578df010dec;0x3221553092e];[0x0;0xd48dd1e928dec;0x4f9f1da107d40;0xf202d26dd21e1;0x86e4f72f1ccbe;0xe7842317b3d];[0x0;0x987962205a1c2;0xa406a4d5bd1de;0xcfb7607267ead;0x61a9669bf316;0xc4c3e78212b3];[0x0;0x3d8e539481624;0x31badd1c8dec4;0x7855c5104c7e5;0xbe22ac2bbd5bc;0xbfb102d026ae7];[0x0;0x2afc4e0441ce7;0xdfb525ddc4c46;0xf8bfb28e52517;0xb009bd884f256;0xafe02f5d8fdf]]);
 ((V [0x3abcc038f6e7d;0xefa65ee00d29d;0x7ca6aec0ebfb1;0x99f718e3ff1d;0x6190b40c2196] [0x8cf46df190160;0xfe40e0788953;0xf1d77b6b67334;0x964319046e9ea;0x7e7f7486d775] [0xfea573c003728;0x419bcb02042ba;0x99eeb50809fa2;0xe7f1fc7489adf;0x741eab8f03fb]),[[0xa1026b8708021;0x323e511c7ee5e;0xc2f07344f288b;0xfbd04a2a69cdc;0xa29337f499e7];[0x2f609d2b9e8e6;0x2b12aa207ba0e;0xd6b4bf8efa35b;0x4137f5ba3e268;0x9979ae436f28];[0x3e1f89f196ee7;0xe6e7a925f1b13;0x68500a699ccba;0xcf026897f1175;0xb8d296cf6d0d];[0x3e1f89f196ee7;0xe6e7a925f1b13;0x68500a699ccba;0xcf026897f1175;0xb8d296cf6d0d];[0x48b9f186e2ca3;0xe0c196ee402ac;0x424e3e3010688;0xd30c024ae1743;0xeb33685091b5];[0xe6a6aba4bb9db;0x4a5113323b761;0x9466815ee9cd2;0x6e2bf36f5cb25;0xae4645f2dd72];[0x0;0x75dcaed683904;0x1a7101a85ec59;0x5f49e7e7106de;0xa181e94024d25;0x4593dc4d5c6];[0x0;0xee7691a28a247;0xdbe62670a211d;0x318e34b722109;0x204351117bf9;0x755f8cc1b25a];[0x0;0x2afc4e0441ce7;0xdfb525ddc4c46;0xf8bfb28e52517;0xb009bd884f256;0xafe02f5d8fdf];[0x0;0x2afc4e0441ce7;0xdfb525ddc4c46;0xf8bfb28e52517;0xb009bd884f256;0xafe02f5d8fdf];[0x0;0x5be3ca58b86e2;0x83aa50b89841c;0x114c6524ba266;0x4546bc83f5003;0x8c83ff299e2f];[0x0;0x3483533319963;0x83513e8330e46;0x7928475eb349b;0xeca66e8db95f5;0xdc2250a77f52];[0x0;0xefb47c19f748b;0xc9ab6b90b3313;0x7bc4e57272448;0xff3411f31c3f4;0x3a7ddb6a676a];[0x0;0x5795b57a5d2b7;0xd6520c6c49b17;0x9025c3fb6cfc2;0x8fab89d702ba9;0x81aa06ff5b0d1];[0x0;0x85c28d2a27808;0x4a7de2921c901;0xfa5b4b1cffa91;0x9759a68a0a774;0x3035cbd03ffd]]);
 ((V [0x5503b1d2c9fa4;0x73f08255d5bd;0x8aabaaf79158f;0x48d79573707d1;0xb7fb706eca2f] [0xdcf6f29f2d36c;0xeba839a73f81d;0x8269261c528f4;0xaa2d5704e86ec;0xbd320a4920d] [0x829dd39550384;0x4eb824da98d2c;0x56eea70d88d84;0xb4adb87fc4b1b;0xe75da90173bb]),[[0xcd5740c0581e7;0x4992653ca0c8f;0x9bb4bf1ccb152;0xd93d67fa26848;0x8c76c032e88b];[0x2d3bddc87f6e7;0x20f9b481f4ac8;0xd08ae9d41d7da;0x7b7c5f63d52fd;0xcab1c12060e7];[0xfea573c003728;0x419bcb02042ba;0x99eeb50809fa2;0xe7f1fc7489adf;0x741eab8f03fb];[0xfea573c003728;0x419bcb02042ba;0x99eeb50809fa2;0xe7f1fc7489adf;0x741eab8f03fb];[0xe871448db7904;0x13156b91da0e3;0x5b0851e488f5f;0x659ff8b4d9bc6;0xf24a0b6b8c56];[0x44ca993ac7b7b;0xde448f01a9e4;0x758297ef9487b;0x15dc66aefb737;0xd867b5b4d491];[0x0;0xdc5f2eb512457;0x6df508456004c;0xc9c4c86bb1a40;0x914587de27da;0x2bb6c878672];[0x0;0xb7c749f2f3377;0xb99be6baf9c72;0x88eb828a0eab2;0x988b90eb417ec;0x3fb6a323623d];[0x0;0x85c28d2a27808;0x4a7de2921c901;0xfa5b4b1cffa91;0x9759a68a0a774;0x3035cbd03ffd];[0x0;0x85c28d2a27808;0x4a7de2921c901;0xfa5b4b1cffa91;0x9759a68a0a774;0x3035cbd03ffd];[0x0;0x3d4d453b70464;0x25dc3005ff8b3;0x4360a99dcea0;0xddf7d0049b9;0x3e81b6298eec];[0x0;0xeffcf3ea96ca2;0x39b009e35bcb5;0x758975998b03b;0x8be3cf6eb18a4;0x252efa3c3dba];[0x0;0xf71ea1f8b4630;0x4890116e1a33;0xe1b03744f1bf9;0x553d95f6f9289;0x91ac265bfcf9];[0x0;0xfb516b8217a04;0x983e332183757;0x7499d332d6e7c;0x85256daf2fa52;0xbfa85d469b66];[0x0;0x85d5f05cad934;0x1e7c31e0bb527;0xe43dbcf93eea0;0xc58b2fd74ca2b;0x87f89882219]]);
 ((V [0xc8cf1ff7716f2;0xea1e4e626a9d;0xa2e7ca264c7a9;0x30c74290f4ea9;0x8b4979b225bb] [0x88a204ce2e6c4;0x262bbf2420c27;0xa54b163b66b63;0x8088aeecf2cd6;0x4bbc648925a2] [0xef31b830f707a;0xe1a906479b863;0xe534fa17f7a48;0x564ce929338c7;0xb8896a5ff1d4]),[[0x55b309e385842;0xf68bcee6d03b1;0x97a86f443f8b6;0x43a3c91d5ab42;0xdb58af6ca5f7];[0x52610e7121352;0xd68180d00a823;0x5589ab8544629;0xf8ceaa16cdc6;0x6c51c540eb8d];[0x829dd39550384;0x4eb824da98d2c;0x56eea70d88d84;0xb4adb87fc4b1b;0xe75da90173bb];[0x829dd39550384;0x4eb824da98d2c;0x56eea70d88d84;0xb4adb87fc4b1b;0xe75da90173bb];[0x51b60b973b681;0x7e69fd4ac2963;0xc2540169f445c;0xedc644c5dce78;0xc79d30679194];[0xab02d9e5a69;0x5817838547ec0;0x9335aa1b501cd;0x21c6a5db8ff4d;0xa4b494d959f8];[0x0;0x1243ba23f5466;0x5ab142093084d;0x2b6b984a9847e;0xc1e4a4e026ae3;0x57195c468fd];[0x0;0x761cd4d0853ba;0xd2dbc3e28f01a;0x6c8272282c386;0x7d3e65df67a6f;0xc63d46518e8b];[0x0;0x85d5f05cad934;0x1e7c31e0bb527;0xe43dbcf93eea0;0xc58b2fd74ca2b;0x87f89882219];[0x0;0x85d5f05cad934;0x1e7c31e0bb527;0xe43dbcf93eea0;0xc58b2fd74ca2b;0x87f89882219];[0x0;0xa87da857d2949;0xda33f47c900b0;0x5336f5bfbae06;0x7d754b98d4bfd;0x8bd2ecf7ff];[0x0;0x95b345707c171;0xce8fd5dcabf9e;0xbf19e4d908f9d;0x33b8ce77feeae;0x843971b40fb1];[0x0;0x10ee43e91c5c2;0x776919cb931c1;0x33801e63b679c;0x9f058431586b5;0x3aef7ce98676];[0x0;0xcb77c41fc62af;0x7e0c9f5eab4ff;0xe7b78cc1ed93f;0xba88d3bc9f2bd;0x4e77701baa65e];[0x0;0x545e083746f62;0xf1a8317425eee;0x3db8cc1d46370;0x4cda604ecf69a;0x2935074fe237]]);
 ((V [0x8469f5993be51;0x40bcb9e7d9e64;0x37027e3a36ef4;0x9a5bd549e40b0;0xef0e1068184b] [0x64237552084b5;0x234dee565eed0;0xe9dddbef2aa8c;0xf76a196cf4628;0x6b5545ae234a] [0x37789f1e116a8;0xb667dc2d4e412;0x5737a79c6558a;0xa8f31f905615;0x191bad36eb0f]),[[0xce34a0ebbb12e;0xf82c8f716ae08;0xbdabac4a1308e;0xb771cdaf02267;0xa661a1e46d70];[0xb922b40ecfd7f;0xc0a91a080ee72;0x508c87af76c7d;0xf97b4a6cf2b73;0xad70f4a82171];[0xef31b830f707a;0xe1a906479b863;0xe534fa17f7a48;0x564ce929338c7;0xb8896a5ff1d4];[0xef31b830f707a;0xe1a906479b863;0xe534fa17f7a48;0x564ce929338c7;0xb8896a5ff1d4];[0xb0ff3cb319799;0xcd507e24b6ce2;0x1ea4b59fadacd;0x22c4ff8861326;0x36b2540ea91];[0x823775bb65e7;0xf3589be358190;0x31e7d20fc91af;0xd6b64ae49184d;0xaa05cf6736e0];[0x0;0x7b82853abb510;0x8d7e701ecb6c9;0xff66b93bb2e47;0xac3a9954b20b1;0x4578505d57c];[0x0;0xf568c345c389b;0x1f3f51abb657a;0xa5a5c85f17c55;0x289a25a03cb49;0x77ef7bbe9a57];[0x0;0x545e083746f62;0xf1a8317425eee;0x3db8cc1d46370;0x4cda604ecf69a;0x2935074fe237];[0x0;0x545e083746f62;0xf1a8317425eee;0x3db8cc1d46370;0x4cda604ecf69a;0x2935074fe237];[0x0;0x3d5e847043221;0x7beff67b06561;0x165013ce36005;0xecdd21207d8bc;0x1667ed8c2cf7];[0x0;0x3aebdcea145ab;0x68c4beea26507;0xff9407a52579f;0xaf5da5e937a1e;0x4bc8df3e166c];[0x0;0xd24b098e7b954;0x82a037b39bd3a;0xd80f40f3f7acf;0xf22610587a3b2;0xa1f5fbb3ee0e];[0x0;0x6777edebd8c7c;0x8bf76d107ba26;0xcabb6afc2c4;0xd8e94b418f018;0x6d7f1a497698b];[0x0;0x7a6f013cf85eb;0x45a712ca03db5;0x9359b71b04ebb;0xcd44257012ffe;0x643a81985ba7]]);
 ((V [0xebc8ff8f40651;0xb62c39984edac;0xed6a119a9dc65;0xf24c497337ca8;0xa453e4d03b06] [0xcd6ac5026b3fb;0x2b0acfe1448b2;0xbd5a1918060ce;0xf3ba4578b2a;0x10d068ff1346] [0x84b146074fa95;0x128461d15c30;0xe390113f146fc;0xc7e0aedc59d58;0x957df4f54cf4]),[[0xb51f565c2809d;0x671a0bf1a2227;0x7426e72cc6ef2;0x905b158217a5a;0xff0be8ce8633];[0x389d864151d8d;0xadb9fc08db43e;0x9a356ae9db56c;0x92713e78c779d;0xb0974648cd3e];[0x37789f1e116a8;0xb667dc2d4e412;0x5737a79c6558a;0xa8f31f905615;0x191bad36eb0f];[0x37789f1e116a8;0xb667dc2d4e412;0x5737a79c6558a;0xa8f31f905615;0x191bad36eb0f];[0xed35b85be072b;0x17509b3452b11;0xefe4d9b1979d7;0x2cad7b111683f;0xf28469e95f57];[0x4b67cde5713fa;0x966960d48892c;0xaa50913843b95;0x65c3c367b0f5d;0xbe12dc5f6de7];[0x0;0x75462c9b6cc1d;0xfeeb9b2f44158;0x70947131dfdad;0x58feccde9d551;0x973bcc49cb];[0x0;0x6c8881880c9bd;0xf5485e3eb2ecc;0x88196246e2254;0xc7b79ff6a86c5;0x1903bc8f7be8];[0x0;0x7a6f013cf85eb;0x45a712ca03db5;0x9359b71b04ebb;0xcd44257012ffe;0x643a81985ba7];[0x0;0x7a6f013cf85eb;0x45a712ca03db5;0x9359b71b04ebb;0xcd44257012ffe;0x643a81985ba7];[0x0;0xf4bdc00dfb62;0x9be3a8bc1aaea;0x3ec69e7641ab9;0x701565db122ef;0x2d0064a6ea1b];[0x0;0xf4d90eb047e71;0x8ddd0b53a65c6;0x109e5bc21de5f;0xffd98d52746d1;0xdf3b436829cc];[0x0;0x710050e853412;0xb292dddd5e5d9;0xc02bac8325eaa;0x3aee910700ee3;0x715ac7e8cb50];[0x0;0xb56fad79fdec7;0x1ae55f79c0470;0x8d5400fbf7ce1;0x4a0eb2a784e72;0x1123dc1353723];[0x0;0xbe470f34ebb9a;0xe1013d5ebfde8;0x2becb08a4e7c4;0x11b7b9729ecde;0xacb05dcbdc5]]);
 ((V [0x90795c33f34c3;0x27a2238a44930;0x2c3c2577b820b;0xedf9809d59194;0xd1580730ac5f] [0x50adceedc8d22;0xdaca343c637ce;0xd0813bdf793bd;0x3e49f11ddc1d0;0x27506710e455] [0x1fc00e56a712c;0x53dccd86bafa3;0xcc9fbf43822d0;0xd16a0e7d43301;0x28b21cd59ab]),[[0x83a7b0acca8d0;0xae5de57e09e10;0xfeae00820e8c;0x98a8407482ca6;0xdcd6c4bd042];[0x98d25239c2399;0x5fde5e92caf99;0xc2b46024ec827;0x7cf695873e859;0x6ffc4f0b5bb5];[0x84b146074fa95;0x128461d15c30;0xe390113f146fc;0xc7e0aedc59d58;0x957df4f54cf4];[0x84b146074fa95;0x128461d15c30;0xe390113f146fc;0xc7e0aedc59d58;0x957df4f54cf4];[0x115580d0a0bef;0xd1967ee6b185;0xe2151827f6d6e;0x737c7f357bb7e;0xccbe376e7b21];[0x877cd16921542;0x52c4f6a45fe14;0xe09f47fcf5ab9;0x97a1651c2cda;0xa33e179ce094];[0x0;0xf9c74792366d1;0x95dcf83870232;0x9d9d1f0cdf74e;0x182e37e3b2a0f;0x3846f45e007];[0x0;0x73703312a7b21;0x62bc60594fff1;0xcd0c34d8ecabf;0x8924c759367a5;0x80f5a8b0632];[0x0;0xbe470f34ebb9a;0xe1013d5ebfde8;0x2becb08a4e7c4;0x11b7b9729ecde;0xacb05dcbdc5];[0x0;0xbe470f34ebb9a;0xe1013d5ebfde8;0x2becb08a4e7c4;0x11b7b9729ecde;0xacb05dcbdc5];[0x0;0xe74bf92fb6e66;0x80e6c59c0023b;0x33aa4dc51fea7;0x4fb04b06c428b;0x11ab6caabf8];[0x0;0x488656dff2c79;0xd0a33b5f3fdc0;0x5b9f3e3464ea7;0xbf77341112ddb;0x697b98a8f72a];[0x0;0x5df2e3f00c47c;0x3c8b1c2d53ddc;0xed2e92d9f33b2;0x4ee21df757597;0x5b937e68a2a6];[0x0;0x14771c4d39b86;0x7ac99d4d10922;0x17c7e4a5ef3f0;0x5120d4824c47d;0x28b243c25d3af];[0x0;0xd79252fee5156;0xff9a71cdc083d;0x1b919ec3dd9ca;0x9f324501383fb;0x202628e2e495]]);
 ((V [0x4dd566b02d2ea;0x9a80487eb0008;0xc12814a9d3484;0xcaaca093b14ea;0x48eb9fba3a45] [0xa2502fd425996;0x6a76da0de5e0e;0xa7572cd8a04c6;0x6f7069a07de61;0x38c611de7607] [0x100d8b35b0e9e;0x25ba4e53f55d2;0x48dbc317051c1;0xc85ee8322fbe5;0x8075a118f1bd]),[[0x59a4d8fb5d9f3;0x9915c8d72d4c0;0xb55ff34d4b7e5;0xb4e695237be19;0xd39a599b92f6];[0xdd2ff0000caf;0x93d5717e4b8f1;0x7b21c0eb42a2a;0x31288ace0ee45;0x4c7d0e7bdc70];[0x1fc00e56a712c;0x53dccd86bafa3;0xcc9fbf43822d0;0xd16a0e7d43301;0x28b21cd59ab];[0x1fc00e56a712c;0x53dccd86bafa3;0xcc9fbf43822d0;0xd16a0e7d43301;0x28b21cd59ab];[0x76589513ac875;0x4508b1399afa1;0xd410a1e4d425d;0xb5a277334b823;0x7ae201b01935];[0x977a69ec541d2;0x4eccc044b094f;0xa7111f066e7cd;0x7b86139ac3621;0xd19b0ccbc33a];[0x0;0xe481b37644977;0xd364ed55f203f;0xff9729c3b97b;0x79650d247e94f;0xf51f5fef9];[0x0;0xfe3a278ff133;0x4d3a1d95cbb1e;0x7ff039cff9622;0x373e214bdefdb;0x21a357280e4];[0x0;0xd79252fee5156;0xff9a71cdc083d;0x1b919ec3dd9ca;0x9f324501383fb;0x202628e2e495];[0x0;0xd79252fee5156;0xff9a71cdc083d;0x1b919ec3dd9ca;0x9f324501383fb;0x202628e2e495];[0x0;0x61621786aa049;0x7a4b490859e6a;0x8bab33c204ef6;0x471b641d0854b;0x60998a7b99f];[0x0;0xe735bf995bfe1;0x2f9baa85aa6e9;0x77b24d90dfd56;0xd733569745fb1;0xab30da026b1e];[0x0;0x6be2ed663feb8;0xe6a21a754914e;0xe35a7e4ae0d4c;0x8c43980edb627;0x15c9929871f7];[0x0;0x39e6d73751fe4;0xf190d13909512;0x2add25e280b4f;0xb67f36d5940f7;0x3b430a68ac4cc];[0x0;0xe6d4beebb8f32;0x4b3a3495f3fe2;0x400f949774452;0xf17d140179171;0x102bf6454a56]]);
 ((V [0xcd71314c73dfa;0x3f3513053e49d;0x1a75842f6c8be;0x96e4fc05c7308;0xc53c3759d80c] [0x43c8bc4fbbaf2;0x7c1b7534791c2;0xe8e9369b11600;0xe9528f91c6a28;0x3b34b1570362] [0x227ca52524b6d;0x699c55eff31da;0xf5e1b1874adef;0xc550341e18e8a;0x3ab6fdf86354]),[[0x6108b7b0b9442;0x20f0e2b4502c9;0x7bbb733e9473b;0xe0eec75ec36ab;0x680aa4245994];[0xa168b472f5047;0x3ae235b99a288;0x44ce66e5bbcc1;0xefafea8b2122b;0x64c1d895c548];[0x100d8b35b0e9e;0x25ba4e53f55d2;0x48dbc317051c1;0xc85ee8322fbe5;0x8075a118f1bd];[0x100d8b35b0e9e;0x25ba4e53f55d2;0x48dbc317051c1;0xc85ee8322fbe5;0x8075a118f1bd];[0xac51ced5cba41;0x4c2b12bf29c0c;0x3ce08c04b19b2;0xd449090781579;0x43a076c582b1];[0xf516e59d29607;0xeeb722fa7067b;0x7eddae10a30e;0x1b66e1839fcb2;0x212161d04297];[0x0;0x89874ca159798;0x46f3ce1b11647;0x856077e611482;0x34e1550b92aa2;0x305bfdff926];[0x0;0x74fcbd45f9fd3;0x219038ece6188;0x278d0dd542654;0xc71181e9c2065;0x3435206805e0];[0x0;0xe6d4beebb8f32;0x4b3a3495f3fe2;0x400f949774452;0xf17d140179171;0x102bf6454a56];[0x0;0xe6d4beebb8f32;0x4b3a3495f3fe2;0x400f949774452;0xf17d140179171;0x102bf6454a56];[0x0;0xff5f56b83cdd5;0x70a55e182d6da;0x89fa24dc77077;0x213f7836ab48d;0xc974110f901];[0x0;0xd715e2182dcab;0x6169738ff4514;0xe5e108ad84939;0x19fe9fb28811a;0x14c562b76457];[0x0;0x52b4b3b92a20c;0x785a2bb8b8d77;0x2c691deaac409;0x5a3708cab0ae7;0x4da0dee305e0];[0x0;0x743eb85cc4077;0x518c03d6e0b51;0x2bddd1fd30d73;0x408c3d03acba3;0x3d7325cb070b8];[0x0;0x5639b81d6331;0x6c34f2277e23d;0xeb897c94f5980;0xa0b535686e37b;0x2d9d799e9f62]]);
 ((V [0xf48f9cec779fe;0x8f202bb70ee4a;0xfbad2c029844a;0xfcd584a7a359b;0x1bbbdbf99939] [0x5e4f53ca4d14e;0xef68ca965711d;0xb05f2c657fa0b;0x4d7154712a7fd;0xd96933bdbf2b] [0xad5ab8672f1d9;0x36758d8e6217f;0xb50fcb405ec02;0xae05c645a0221;0x92896a700637]),[[0x702b3c41797a7;0x46bb3e784dd83;0x402584abeb7bc;0x20a2f718f9fc7;0xdaa230a1fc47];[0xb5ba2fe8255c3;0xcfce62c194e04;0xe2eb824976987;0xdb5e68659e2d8;0x63eb02dabfeb];[0x227ca52524b6d;0x699c55eff31da;0xf5e1b1874adef;0xc550341e18e8a;0x3ab6fdf86354];[0x227ca52524b6d;0x699c55eff31da;0xf5e1b1874adef;0xc550341e18e8a;0x3ab6fdf86354];[0xc0fb9c409894f;0xe468050c0f236;0xe673de1aaff;0xb122c5cb6ac38;0x20c17664e398];[0xf4be93a78cc75;0xeb665db585bcd;0xe2050e6b5be87;0x2a3ba29a336a0;0x43298c75dc53];[0x0;0xc377c55b9a188;0x650072356aa16;0x7f66db7a39215;0x63daca4a5e6c1;0x161a81cc56c];[0x0;0xaa2467877c68;0x236b08c4f6263;0xfed882f4d7ace;0xc9beb854c957c;0x32250739b255];[0x0;0x5639b81d6331;0x6c34f2277e23d;0xeb897c94f5980;0xa0b535686e37b;0x2d9d799e9f62];[0x0;0x5639b81d6331;0x6c34f2277e23d;0xeb897c94f5980;0xa0b535686e37b;0x2d9d799e9f62];[0x0;0x6fe6ab05f00d3;0xc9cfaaefb007;0xbc27b8309841;0x67fceba1bd1c3;0xdb15496a1c2];[0x0;0x9148321eb95a9;0xc1850425250e7;0x596308daca65a;0x60807f239608a;0x97f5bb5a4498];[0x0;0x289c9103c5712;0x430bc1892c9e3;0x4096353b71052;0x1116b0931e224;0xad31bd39edd];[0x0;0xc28561ad15ba3;0x77e8d7654c54f;0xbbdfdeb56ba05;0x924651fb8e674;0xe1b212a9838c8];[0x0;0x1e2bc116b9c2d;0x9df19d1888f89;0xd95c0948eed5e;0xfaf752aec8a1e;0x178da31ec77b]]);
 ((V [0x3940f2db75476;0xa346a14f33edc;0x2dcbc725a144d;0xebb078b823c8b;0xa832476f5edb] [0xa1f0ee6a28e48;0x7475729ed1bef;0x22e48575f99d5;0x54e2b71d8f244;0xca19d9428613] [0x5e7e7290cbc45;0x212bbe85d7b6c;0x99e320311416;0xbb70634413254;0x227015e1d0b2]),[[0xc1a2384e744b6;0xbfcd510358f68;0xf59cacaee0b3d;0x90a0a928f25ed;0x1a19248b9fe9];[0xcb51be811350;0xa92a7a37ae1ac;0x3b52909767b78;0x799c33dc6c0fa;0x91173b1e6693];[0xad5ab8672f1d9;0x36758d8e6217f;0xb50fcb405ec02;0xae05c645a0221;0x92896a700637];[0xad5ab8672f1d9;0x36758d8e6217f;0xb50fcb405ec02;0xae05c645a0221;0x92896a700637];[0x77dd548ff4628;0x2231a9cae0961;0x4917ff169eb3b;0xf5c8ec9ac7b54;0xc36d152b0a01];[0x94d7c7581cac0;0x86f8d06ccd84a;0xf23a9180c903d;0x83d34741a45a5;0xcdaa25f35c91];[0x0;0xcc8242c34b9fb;0xdb1cd8cf0b1c1;0xeb89e74885186;0x4e2ca31958bbd;0x372a266ef9d];[0x0;0x404699ff3717a;0xca5f48aace407;0x50c29104b1209;0xd9c67fcfaad38;0xef0592604af];[0x0;0x1e2bc116b9c2d;0x9df19d1888f89;0xd95c0948eed5e;0xfaf752aec8a1e;0x178da31ec77b];[0x0;0x1e2bc116b9c2d;0x9df19d1888f89;0xd95c0948eed5e;0xfaf752aec8a1e;0x178da31ec77b];[0x0;0x2e1d1a8d1eac4;0x141ae03271353;0xbba0ce9f876ec;0x619ebdac44bf9;0xb8a384f32a33];[0x0;0x13a48dd0f8d5c;0xffb4d8002faec;0xc81592d1df1d3;0x15910f04af0a3;0x3012a41c1fd];[0x0;0xe95e83e2ba1fc;0x4e360298240fe;0x142ce635f71c8;0xd66b78b89a4f;0x5f53bdd20f7c];[0x0;0x4471cff239d57;0x291cea9f7abd3;0x98a5b77095c5f;0x2021290b6c449;0xcf92c725dbf49];[0x0;0x216f17293b1cd;0x45b08b82a175f;0x330e46eb009b1;0xa27730068ffc7;0x84c8a8052e54]]);
 ((V [0x16b0fdd770db0;0xf6cdffe907ec0;0x614a7cc3a6469;0x30f597e88f8a3;0x8ea30ad28fcc] [0x69452d3a1d2c5;0xdab7ce2831ef9;0xb1cbeaffbc6ed;0xd2d88f821fdd2;0x10775b4ef44e] [0xd776778c6f7b8;0xa2c4d191604d0;0x56f66ccc10027;0x22951f14ceceb;0x3d2adb3a952f]),[[0x60814cefe1454;0xd7bb358026f22;0xd10a3b593beee;0x6a786e194b13e;0x6907f9574257];[0x23f9d5f871297;0x719f0a313bbe1;0x20b588d0cbdf3;0xbef735554a7c8;0x79868e80e4f];[0x5e7e7290cbc45;0x212bbe85d7b6c;0x99e320311416;0xbb70634413254;0x227015e1d0b2];[0x5e7e7290cbc45;0x212bbe85d7b6c;0x99e320311416;0xbb70634413254;0x227015e1d0b2];[0xfdd140c1c9fe6;0xbe3afd80108f9;0xd817be53bddaf;0xdf5bbf05e9934;0x5a12f769f0df];[0x26289536a7049;0xb3640cb12b2e7;0x489dca7d0e043;0xdf9b764f60e93;0xad85717e1d6f];[0x0;0xbffab9d6354a5;0x19cb0cb708c3b;0x8023310bb2ebe;0x286787ec817c1;0xcf6de4257c];[0x0;0x4b2845ed7d3fb;0xc95ac3c436aab;0x1cc45e58a8fb2;0xbf8e41ccfa3cf;0xe210b94fa12];[0x0;0x216f17293b1cd;0x45b08b82a175f;0x330e46eb009b1;0xa27730068ffc7;0x84c8a8052e54];[0x0;0x216f17293b1cd;0x45b08b82a175f;0x330e46eb009b1;0xa27730068ffc7;0x84c8a8052e54];[0x0;0xdaed49156adb6;0x2494665077f20;0x2eeef490836f2;0x8a528b5ac754c;0x9f8ccd7922f6];[0x0;0x2d3a3c6bbe41d;0x5b35a1d6541c1;0xa432d6e2365a1;0xaa5111f95ae6e;0x6e8207a227f0];[0x0;0x29ddaaa15027a;0xba0e2aa365111;0xb4d42ba720352;0xa91fa7d03bbda;0x43b608db714];[0x0;0xdce8ca26e9857;0x48b68dc481436;0xcf52938e35db4;0x4ee702f5b250a;0x1176fff216f7e];[0x0;0x6e75290af9c08;0xa2ffc670b63b5;0xae8560c85e13e;0x11b7e6e43bff3;0x92cb1572383]]);
 ((V [0xa3c1df4c68e5f;0x26bc9111140ac;0xfd7b14f3230af;0xfe3f6569f0f2a;0xf64463d3d179] [0x530799ee542e1;0x2a4771b1c4a2c;0x2e1f91270cbbf;0x483707a592f64;0x93f31f630a14] [0x9beb0610d9396;0x948f259a6a60c;0xdcec192cbe6f5;0x81d94b2ffaa24;0x209903909d49]),[[0x6b2a4e1211a2b;0xd8a20367ccdf1;0xe6c1e0b9adb06;0x9a0453486c5b9;0x6e12ba18c518];[0x576635f310e01;0x53ffc7b454dd3;0x6236c9647473b;0x6383798ed1ca6;0xa037159f8f6b];[0xd776778c6f7b8;0xa2c4d191604d0;0x56f66ccc10027;0x22951f14ceceb;0x3d2adb3a952f];[0xd776778c6f7b8;0xa2c4d191604d0;0x56f66ccc10027;0x22951f14ceceb;0x3d2adb3a952f];[0xb89799166a322;0x55a51bc7a6629;0x2fe20235830a1;0x79dc486a00542;0xa2bdad0b61e3];[0x9ece9cdca6877;0xfe5aabecae7a9;0x3254c72ef1699;0xe9a73124d1764;0xfd7968942d87];[0x0;0x4508b3e47dc4b;0xfc477f180202f;0x4b445efaf2163;0xdf07369ea0a18;0x1706decbe2d];[0x0;0x219a695e06c31;0xd21ac4e583e3c;0x28f8a200be079;0xb7943020d699b;0x1a4ce3ada49d];[0x0;0x6e75290af9c08;0xa2ffc670b63b5;0xae8560c85e13e;0x11b7e6e43bff3;0x92cb1572383];[0x0;0x6e75290af9c08;0xa2ffc670b63b5;0xae8560c85e13e;0x11b7e6e43bff3;0x92cb1572383];[0x0;0xf3e0f934f4821;0x9e5def710fff3;0x623d6a8f96e93;0x35acea5a7b253;0x10f230fe282];[0x0;0x6b6bce79a86df;0xdac1d0730e039;0x33f030315a504;0xc4c2fcdeb5bff;0x4f7947d8601e];[0x0;0x47248dd0280e2;0x47d8ca8ec964e;0x3b9366cfa0d41;0x22ef53b686643;0x9a1fbbe2f010];[0x0;0xf63c7315cd8d3;0x2b53032e32094;0x4a265e4b2e4a7;0x77293b0be8cb0;0x9768d4c3ade4e];[0x0;0x7a277daaf727f;0xb4b7aa4daed0a;0xe5af191deaf33;0x53c8c43b65c8c;0x8e53266ef194]]);
 ((V [0xd2b1b9e006e42;0x29133367168f3;0xc906a2815df7d;0x9da4e8ed8a35c;0x493c91f78451] [0x5947af7971ca7;0x381a643dbd974;0xb4b564e009c5a;0x5dce6b9f67039;0xda42012219fb] [0x677a6d3fb5fe5;0x449c92d606693;0x92d19e11e00a;0xadf35a02cd74a;0xbd269330d392]),[[0xf18412c27f5f2;0xecee3831e03f8;0xe773b93503d62;0xddd4e9d71730c;0x274e217e6466];[0x67faf8a32912b;0xd3492ebc6ac0f;0xffab241d752fa;0x663fe584cf2a6;0x622f3c139cf6];[0x9beb0610d9396;0x948f259a6a60c;0xdcec192cbe6f5;0x81d94b2ffaa24;0x209903909d49];[0x9beb0610d9396;0x948f259a6a60c;0xdcec192cbe6f5;0x81d94b2ffaa24;0x209903909d49];[0x662fcf51c245b;0xf999cb47e1fd5;0xbf552cbc499c0;0x4cb8f31197bde;0xef4bbc3fb76b];[0x1cb295166a68;0xd9af637488c3a;0x4055f7612b939;0x1986f273376c8;0x72e37fd3e58b];[0x0;0xa74a2b505dce0;0xc9e9a54d12332;0xbbb0ba00b8361;0x78e272a4f1937;0xc4587ce4f5];[0x0;0xd4e540a2e2a87;0xeadc86aa30699;0xe460534bbe6;0x633cac34f8b33;0x501426def94];[0x0;0x7a277daaf727f;0xb4b7aa4daed0a;0xe5af191deaf33;0x53c8c43b65c8c;0x8e53266ef194];[0x0;0x7a277daaf727f;0xb4b7aa4daed0a;0xe5af191deaf33;0x53c8c43b65c8c;0x8e53266ef194];[0x0;0xa1ca054d9de8a;0x40808fa03cc84;0xd8aed301b637b;0x903200d370c57;0x55811cf05771];[0x0;0xe28c14188e70f;0x9c682366ca0d5;0xfe58dec6c351d;0x40b83dbc0b915;0xece78220460b];[0x0;0xcb671b1220b4;0x6bba25029ee2c;0x8811819c0060b;0xc81e87a7a68bc;0x1c16b32f5bb4];[0x0;0x34630974abb77;0xc25915ad27a43;0xdb3a2f683257c;0xdcbc6ade6fde8;0xe2aac897e457f];[0x0;0x2f463461e2b3f;0x12c8bf586e9c0;0xe7070d33f1854;0xcb274f7be9819;0x3e70763d6689]])]
 [[0xdc93dbd754f7b;0x3587c8fbc9168;0x3aa98bab084b6;0x2a1b32189223e;0x8b2881c4b28f];[0x59a8214441bb5;0x89a45a4f2ebc3;0xf9b52b5e32a11;0xff7d9ab5ed3ba;0x5354ec38c6ae];[0x677a6d3fb5fe5;0x449c92d606693;0x92d19e11e00a;0xadf35a02cd74a;0xbd269330d392];[0x677a6d3fb5fe5;0x449c92d606693;0x92d19e11e00a;0xadf35a02cd74a;0xbd269330d392];[0x26fa94b2da903;0xdac6d34e58c4c;0x75529bf219662;0x738ae4898c472;0x7de68a8e7000];[0x32ad8c916704a;0xaedd8700d5f77;0x84628f6c193ae;0x8bf2b62c60f48;0xd56e61aa56ae];[0x0;0x26de8c673f0d4;0x5d2446cc1fddf;0x4b99a8f69c8;0x4df3a93a183e0;0x4734f7edbe9];[0x0;0x31b2ec13ffe7e;0x78f4c0dc89381;0xbf315dc9cc4ca;0x995dcd77c9c15;0x66d1dfd44824];[0x0;0x2f463461e2b3f;0x12c8bf586e9c0;0xe7070d33f1854;0xcb274f7be9819;0x3e70763d6689];[0x0;0x2f463461e2b3f;0x12c8bf586e9c0;0xe7070d33f1854;0xcb274f7be9819;0x3e70763d6689];[0x0;0xc3d070dc8cd42;0x96bae3d2e305a;0xda9935717fa6b;0xca1ecdde90727;0xba147af2a9d6];[0x0;0x7a38f7c871856;0xe3ed6a6c3d6d7;0xc77f2908700d1;0xe55f009bf0d93;0x14f39993e8b6];[0x0;0x782c40b326d22;0x1d11f6b8db5c;0xf5bb5cf397524;0x3627776f0bfd4;0x3d8d8f768385];[0x0;0xe2ab347705174;0xe39f5710eb050;0x6970579fae68a;0x549f4782e2398;0x6c1f9320c81c5];[0x0;0x6d7aae427fa0c;0xa3fdc91c48bb0;0x5449230187781;0x2a560aafe0e54;0x4ca27d69dff8]].
Definition wit_256A_64_13 : colwit ept wit := mk_colwit (V [0xb082d2278ec8;0xee40fdcf71a8b;0x41a82a0b19c5e;0xdd088fb0d5180;0xcc755c898986] [0x2caa6af386288;0x309c3e716c49f;0xadc60eb008028;0xa4710a585c1b1;0xb3e1d2753879] [0x92fc5d219365e;0xcda90f9f6dda6;0x3aef0a3cb0421;0x665fcfd31feaf;0xfe91f9cfd7e4])
 [[0xd236fdfe282af;0xd1499cb256b76;0xd839e85485b18;0xddd2bac837900;0xe6f90edef293];[0x520e1bd3f916;0x66c54914ec811;0xa5e9f68959d13;0x4ebc8e979c705;0x81a5610f538f];[0x852e6a6e72d7c;0xc2b699fef3bf1;0xac83f712034c8;0x734d9887f7e45;0xdaf22380236f];[0x852e6a6e72d7c;0xc2b699fef3bf1;0xac83f712034c8;0x734d9887f7e45;0xdaf22380236f];[0x500f19dc75720;0xb92ed8dfa8b77;0xdf6743e0848bf;0xf6677d2761a02;0x2f9164205434];[0xb511c7e0ca1f7;0xad96703543c99;0xc682b2a8d5453;0x585511703ad02;0x5213fceeff5a];[0x0;0x26a5ebeacbe3;0x457b83db98374;0xb319ce5188066;0x3d725a67287a9;0x526c691890b];[0x0;0xfe6be17d63082;0x96d0bd78ab6ac;0x31761532d70ad;0xc05e77915cc7e;0xc58a8e2192db];[0x0;0x6d7aae427fa0c;0xa3fdc91c48bb0;0x5449230187781;0x2a560aafe0e54;0x4ca27d69dff8];[0x0;0x6d7aae427fa0c;0xa3fdc91c48bb0;0x5449230187781;0x2a560aafe0e54;0x4ca27d69dff8];[0x0;0xaa932843c4b90;0x59d0199507bf7;0xb91957e2704f1;0x9f447eaf28114;0x2a0c01d80e72];[0x0;0x2c2102cdb1fcf;0xf9ec6d1db391d;0x8618600ab1e81;0x1c1bab4634cac;0x8bacadb7a7ef];[0x0;0xdbdbbf89a2700;0xb170a0d61f62;0x2ba2be0e698f5;0xa3ea924282b35;0x678b38caa89f];[0x0;0xd8451a174cea0;0xa913216fb962;0xa9b9afe8d0923;0x9045796a6879e;0xb96e5f9fbb360];[0x0;0x764cad75f4b6e;0xe41fae4766138;0x3f18a96f3b998;0x1cce076397a14;0x8faa6af064b2]]
 [[[0xa3f4f8ed215f2;0xfb599746f8a6e;0x4c55a2035625f;0x9e2f1553f84f4;0x870ae593b6ba];[0x9de1bef181873;0x280cf2dbefcb2;0xfcb0aedba556b;0x3c0476ea27ae4;0x23c8788b5f34];[0x5fcb3b5020e60;0x30478d9bfa964;0xd22414423ce25;0x33f4d85bf0eff;0xb6c8ee131615];[0x43a0476c9548f;0xf0fdf845d015a;0xff3b1e60294db;0x19bd5b207a8cb;0xde70f50942d2];[0x6f99d986df6d5;0x66fe2a7db098b;0x1b7b9d905b9ca;0x364fa07c931b9;0x570f5ec9de3d];[0x8123a357656b2;0x8b661756b6f75;0xdcad98e845ec3;0x66183916fed4;0xba1a36c6def1];[0x0;0xd5cc676dbae88;0x7767c3c28c896;0x88ff7c575f4d9;0x2a08c1145f5e9;0x5fd5a0bc0f5];[0x0;0x2fd765a13f603;0x60ccaf83deb18;0x71225472bd79;0xeae412818b2af;0x737f0286e4c4];[0x0;0x2fc244bd0a240;0x165a874aeb4ea;0x788f4416c786;0x404d9f47b1ec5;0x84deb1d547f2];[0x0;0xf3cb5ed68d17;0xbee95181b1576;0x14ae31be948ef;0x45233da7ae532;0x52dc824de984];[0x0;0x8271782ea596d;0xe6fb60ec3cc62;0xf31303de10442;0x72073c85b4d6c;0x48e6b8c56636];[0x0;0x28ae04f4e90c2;0x290b549a4b5ab;0x41525abb03784;0xf3a19bbf74b6f;0x9705f0788681];[0x0;0x37aeea05d35af;0xbc30b83784249;0x5171da5dbd20b;0xc222c412f60dd;0x1adb2ab374fe];[0x0;0xc590c9cca9412;0xbc6bc46b5174a;0xec7d42fbc70d9;0x3fc0740ba1465;0xd72af2c314e75];[0x0;0xcf59c5229ff16;0x3cbc37daef2cc;0x6373e1295b3d8;0x2aa0d006f067e;0x993fe58b5f06]];
 [[0xa3f4f8ed215f2;0xfb599746f8a6e;0x4c55a2035625f;0x9e2f1553f84f4;0x870ae593b6ba];[0x1a87793c2727e;0xca2e96cb0c528;0x8dbc245b57d80;0x829ce827ae493;0x6804428c1fa1];[0x615f91bcfd705;0xa94e322da63ff;0x52010d45ce233;0x5ae90ae4049bf;0xe87e8458a0ef];[0xd525c7199323c;0x57c34a031fc02;0x7ee18dcdb9f56;0x7fc05cc5eadc0;0xdab0eac4e03a];[0x9879257910a;0x78911fc378b64;0x2abe3be9fbe4d;0xe34c3c62c9155;0x2c4034cef559];[0x3cb6de1ad420d;0x208b5c96ce14a;0x74eac7ca4449;0x88819cffeb8f9;0x9633d957f83d];[0x0;0xd5cc676dbae88;0x7767c3c28c896;0x88ff7c575f4d9;0x2a08c1145f5e9;0x5fd5a0bc0f5];[0x0;0x1614398ca5862;0xce69097c1bd47;0x43a63b86097ea;0x6532dba209141;0x2b5293d367c4];[0x0;0x4170026aea52d;0x827b913d14b2a;0xceb20d8bd68d9;0xf91b75f8c1c39;0x87019098cfee];[0x0;0x7b0c1fd5a7f9c;0x2a7a5f0f76ebf;0xa374d2264d5f;0x243d27b96f607;0xa314508d6382];[0x0;0x8a05eca7f0c3a;0x793349e42252f;0xf5dfa0b9ba1ba;0xbb386558e6259;0x8f7a14d0f974];[0x0;0x45cb3ee049e75;0xeb22ee2158fe6;0xae9798e45ac1;0x97fbe656e90b9;0x9973868324a0];[0x0;0xbbca91ea56d0a;0xbfacc5bff953f;0x3eb1fcdbcc576;0x42666c373fdef;0xc2f3397fc36];[0x0;0x4a6ae69647ec4;0x8b6acf0087757;0xdc3022178e1f0;0x9af541e4decbd;0x365b31f669a88];[0x0;0x5e5a2d358ec5c;0x2d0f846aed8ef;0xe2b61abe9478f;0xf43e748b4a57;0x623b0d39a39]];
 [[0xa3f4f8ed215f2;0xfb599746f8a6e;0x4c55a2035625f;0x9e2f1553f84f4;0x870ae593b6ba];[0xd03b625efbb53;0x76107066deaa4;0xf3007b5b38008;0x28c7e02e00c3;0x181a1b046729];[0xd77e13368c3de;0xc84ffa6a5eea5;0x58f2d03563ee4;0xdd564a69d6b48;0x623b7825c371];[0x45efcf921e8f9;0x92b5ed7d2c4dc;0xb8704f9a020ab;0x9502598154bac;0x95bceb9aa469];[0x901af6fd70918;0xbfda8e7c45742;0xf83e65b7ed42;0x158413bc49e42;0x57d53537deb8];[0x17f63b7c03658;0x1bfa729a9dbcd;0x2d27bc6498ee;0x144b31502c41c;0x5c7a61c6150c];[0x0;0xd5cc676dbae88;0x7767c3c28c896;0x88ff7c575f4d9;0x2a08c1145f5e9;0x5fd5a0bc0f5];[0x0;0x13ccb080bc543;0xb10c74598c113;0x9534c4e2285f5;0x647f430ea06b1;0x55d17f78660d];[0x0;0x19d3362feff26;0x4febf8289f18;0xf80efd9a51dd6;0x435d8a92e3893;0x151238295f90];[0x0;0x611f398e3db91;0xe85452b65eeb;0x925975e645196;0x5b962ef19ffae;0x29dbf88fec9b];[0x0;0x4e84b85708cd8;0xbda8d6deb038f;0x2d2306fb293e6;0x317cb05d4dc99;0x24d3e3a18ec9];[0x0;0xffb26cac67250;0xf230633194d98;0x83d8b8d201bc8;0x7350f23591e9c;0x17f333da0c71];[0x0;0xfc09aed7bda97;0x2b6f8859c27a0;0x558891ab88748;0x16d4db48d8473;0x4f6fdd009c];[0x0;0xd965a0088357f;0x4e22f64278de4;0x842b470a49976;0x9112bc72ba1c7;0x2d16712670087];[0x0;0x4e9b58fb081dc;0x96c76286f680f;0xb709e8d3e760a;0x6e62ac9aca457;0x8ca3fdd31f]];
 [[0xa3f4f8ed215f2;0xfb599746f8a6e;0x4c55a2035625f;0x9e2f1553f84f4;0x870ae593b6ba];[0x7bc7930b3061a;0xe9a8984f0f02a;0x609eee3bb4c51;0x1bd27cb93c377;0xbf237d98fa26];[0x6476c9b555c2c;0x5ff4a99fb1b28;0xd5d9eeb776d56;0x3f1e3888cfe52;0xbd35c0e3d29c];[0xeb0117f4b6380;0x1b92026f4505d;0x6973e075c0eef;0xb57b4dc36800d;0x9b5be2d68b42];[0x6dca8e38f7b69;0x3251b1284b051;0x8182c915c8d7;0x7543f0e64e6f6;0x2540848f95f0];[0xbb2ef2c26186e;0x6c032821288da;0x4b54282c485c1;0xa6fc0fa653f6e;0x53cccfcbe901];[0x0;0xd5cc676dbae88;0x7767c3c28c896;0x88ff7c575f4d9;0x2a08c1145f5e9;0x5fd5a0bc0f5];[0x0;0x898d5d7e65652;0xff7961b1ec34f;0x14cc065263954;0x536b88c3a2490;0x760df1d53947];[0x0;0x773eb6155803c;0x8740a2970c037;0x721e7a04077d4;0xc7295566a9f8;0x250de357d34];[0x0;0xed16eedcbe000;0x36a0f98a6f708;0xbcf29e1d7285b;0x7e47078ec8b52;0x22149a925eb3];[0x0;0xc71773060f581;0x1d0e55d278890;0xe84015ee189ce;0x7e9d914bfd13d;0x1dfbe37259f5];[0x0;0x86a324f6c95ae;0xb55969de49ee4;0x155c2e9012038;0x8ccd256a39464;0x2a1de4d650c];[0x0;0x8ed36522771e1;0x9a4b8fb530dcc;0x9221cc28258b;0xb779b0b4720a6;0x4797714687d3];[0x0;0xb957a6e9a25a4;0x697d358a7e93;0xad20db800f360;0x44cd2cb93f121;0xe69a0f9e5909d];[0x0;0xeaaffb546e0f0;0x1f874d700d03c;0xd31683f50c3cb;0xcf57c7c829a01;0x5506b5a1a470]];
 [[0xa3f4f8ed215f2;0xfb599746f8a6e;0x4c55a2035625f;0x9e2f1553f84f4;0x870ae593b6ba];[0xfc39875ae5b96;0x642acac760787;0x10130d0908506;0x4b610cca673dd;0x114213d0dbcb];[0xc5cc303583da4;0x897fcf2ef6742;0x8f95ab1624a6e;0xbedc58dceef3b;0x34100faee9d1];[0x206b684c121c2;0x9184a9956c055;0x6a454feb6c9f6;0xfa0a8fe21fcd7;0x798b89e596e2];[0x1f384cef1a818;0xef921f42f593c;0x3cdc7a474d3b8;0x4b10877273ed8;0xba4412f45fda];[0xa7d470a8797cd;0x1ced5a806f9da;0x66458c953a752;0x28ce021d912f;0x7236bc9194a7];[0x0;0xd5cc676dbae88;0x7767c3c28c896;0x88ff7c575f4d9;0x2a08c1145f5e9;0x5fd5a0bc0f5];[0x0;0xa2989328c2644;0x3f2c3077b6713;0xa49a70affc093;0x6855396129690;0x3058e5198098];[0x0;0xc2d120046fdfc;0xc67601348d0f8;0xb3eb76946dc6c;0x3c2d864df3d59;0x43601ac3bd34];[0x0;0x8d0e08cc10d2a;0x93107796f66a2;0x65221a1f13d8e;0xba0f3edc102ec;0xb54d83793a65];[0x0;0x9a7bd3edbb250;0xee9d846947644;0x806d9be1633cc;0xa21ffd7111574;0x9f828382c7a2];[0x0;0xa2afae0add77d;0x9eb2653a41aea;0xa272ea3f7cdb9;0x6ace3000382b5;0x4c949ec8cf3f];[0x0;0xd7c552f69d37a;0x47deec932954d;0xf87046ff851eb;0xb62598e726308;0x454fcc1706a];[0x0;0xbd09296efe36;0x328b0e8dc37a9;0xba4f105a52d17;0x363724c699215;0xeac7294714a5d];[0x0;0x5b7f38b85a7b0;0x3c7ded9f2ab87;0x304844cc0f26f;0xb18c7dd1fefb9;0x37afa8942d82]];
 [[0xa3f4f8ed215f2;0xfb599746f8a6e;0x4c55a2035625f;0x9e2f1553f84f4;0x870ae593b6ba];[0x3b0c3db82d048;0x3557553153125;0x9c356dbe4b0;0xc6de7e2df6db3;0x2b537e26cbdf];[0x5787f1853f57d;0x65aec7b69bd8c;0xdab0233ddcedd;0x39390f098e7be;0x36e9329436bf];[0xe1606ea313f11;0x2ca5833c44c0b;0xb1654a673a643;0x88d591262c09f;0x850a9bad58f5];[0xbaf152b1ed24d;0xb0ad3aedbb2c9;0xe04459ea55e1a;0x61839c1cd8040;0x28f48e3443e5];[0x7b0c8ae1db5bd;0x458e695f66761;0x57ef11a47428;0xd4706ca68aa32;0xd2436de4cb55];[0x0;0xd5cc676dbae88;0x7767c3c28c896;0x88ff7c575f4d9;0x2a08c1145f5e9;0x5fd5a0bc0f5];[0x0;0x8eca496d6a378;0xfae059b4a7e00;0x750da6028799a;0xf473d04d5a58c;0x6f6b6dd5dec9];[0x0;0xd162d0ef5dad5;0x96bc2313493b2;0x69f8dff8a3dc3;0x5ba5b3ade25dc;0x2d270682e2ae];[0x0;0x7979f9807db39;0x195bd2e11aff9;0xf5912681c01ca;0xa88a3ca787750;0xb12e8b43673f];[0x0;0xd9d42ff471295;0x42d20aaea20d2;0x2a6b13eb0ef85;0xc45510967a0cb;0x9be25a893e9c];[0x0;0xe6bb72de60815;0xbe36200230798;0xea3ab435c1497;0x4043b9cbeb2be;0x335245db0ffb];[0x0;0x8d7978b7a312c;0x4ec02c4608f88;0x9873834476db7;0xfb7d01ec13c48;0x2572abc7ce5];[0x0;0x994e0ba66a13f;0x6f0ada5619663;0xd309c77bad09a;0xde82ac85a3289;0xea5b093b8b517];[0x0;0x4cfe6aa4e4af7;0x1d7d830141c0d;0x2a6aafe199abf;0x137400826a811;0xc08fbfb5348]];
 [[0xa3f4f8ed215f2;0xfb599746f8a6e;0x4c55a2035625f;0x9e2f1553f84f4;0x870ae593b6ba];[0xc6c06b6bbf869;0xc03111eec127e;0x80dcb29ab455;0x8561d3ec14537;0x9e9762707244];[0xb30c3d49b29df;0x20b4aef091655;0xfe9dc70a1d9a1;0x3ea118cf75b4b;0x53ede52e6354];[0x86825b73afc9a;0x367e8fa64850;0xc53c6b92f8ebc;0xccfff0ad0ca2b;0xaf98d821ebfc];[0x3910dcb51b4bc;0xc6dff438576b2;0x778cfdbe3fddb;0xd14549dfff314;0x649b4e3c4832];[0x258385b0bcdba;0x4a70c891cc467;0x27fe9ef9f87a4;0x1ad0bcba227cb;0x16c9fa3b1c88];[0x0;0xd5cc676dbae88;0x7767c3c28c896;0x88ff7c575f4d9;0x2a08c1145f5e9;0x5fd5a0bc0f5];[0x0;0xb873db6d5701f;0x26d1924b1c469;0x810610df61244;0xc7ab969156949;0x5ebcb623cc2];[0x0;0x5187904a7fef7;0x66a1b85f33849;0xdecce87db4a38;0x52314f72f6338;0x9b7a14c19e2];[0x0;0x8e8b584343482;0x6d48bb1566ba9;0x2eb57074e78f6;0x48caafcd2cd36;0xb1eee027530d];[0x0;0x7e675aa4cc994;0x9ca0336bf8ddb;0x4eab7b980e81;0x2182d55c56829;0x9c8b910d065c];[0x0;0xdf47d837c221a;0x902aac7189670;0x7bff2d980a23b;0xa1d99677b9d18;0xb0b80674bdf];[0x0;0xdcdc570bfb597;0x661b858f71573;0xc964885250eb6;0x633ccf7c1e92b;0x93fe868b5f20];[0x0;0x7e1b79d324a39;0xf2b634f774fa3;0x9936e56c8b6c6;0xb0bd1cbed79f8;0x591047b54534f];[0x0;0x5cb3ebd0f45c4;0x3a20d8b047538;0x39deeb03ceb65;0xdea2f153eb3fb;0x512e85ed42fa]];
 [[0xa3f4f8ed215f2;0xfb599746f8a6e;0x4c55a2035625f;0x9e2f1553f84f4;0x870ae593b6ba];[0x61d8270e8c345;0xf95a949bab6d9;0x4c9b855b39040;0xec43b021521a5;0xb529cc57ded8];[0x1826f2f27a8e0;0xdffbf9bb6f7a9;0x799569d5675bb;0xd14c49d1e1a6e;0x45f10521baa8];[0x1de12ab93c41d;0xe3a7b3ecd9e87;0x88d6e4aaa46e4;0x2a8640770c195;0x7776cf28f68d];[0xefc0300c9b84c;0xafa43d61bfd12;0xae0e17f0c4b1a;0xe1e0e647d03ce;0xe29be3f5448a];[0xa08ddf541e93d;0xfaba89afa3a99;0xecc59cd0c9545;0x32bf6bdf795fd;0xce331b2c88b9];[0x0;0xd5cc676dbae88;0x7767c3c28c896;0x88ff7c575f4d9;0x2a08c1145f5e9;0x5fd5a0bc0f5];[0x0;0x652ca84c6d485;0xeedd06c46a52f;0xcf87c14db277d;0x7e1e82b5774df;0x420a597f10ea];[0x0;0x1b4eb22522218;0x9d8461efc2180;0xf023a570b8d8;0x9e6dba78628c6;0xa7dcc38933f1];[0x0;0x432c89b7e1ed5;0x6d3cca2ad4039;0x8a43b14d37351;0x494feb50dd1f8;0x457acef5c4ad];[0x0;0xc5112bdc6a3ac;0x59275689ec141;0x7ae4bbc9666d7;0xe491cbe393259;0x3d20cc261c55];[0x0;0x6cc3ed7393ad;0x5684f088ad2e9;0x4f7e4371d18a9;0xb53d69d0c921a;0xbecbe6b9a5dd];[0x0;0x52e2109e47a15;0x1fdb352e5ea;0xa2eebff7be914;0x5a09452a8d891;0x452716489b44];[0x0;0xffe03e889d293;0x359ac3a3e3cca;0x3c1acc74bf041;0x8140dcf253947;0xcdeb1bf5375c3];[0x0;0xdb6a6e9f1fff4;0x352a337e2b705;0x1b700d35cf425;0x63afab3461647;0x4d31154f7ed0]];
 [[0xa3f4f8ed215f2;0xfb599746f8a6e;0x4c55a2035625f;0x9e2f1553f84f4;0x870ae593b6ba];[0x8b8ae0b96e65f;0x8559b1ed12f6;0x6957c9bddc14f;0xe95c08ec483e8;0x4d1d5041bb3c];[0x9fa1fdf14bde1;0x580c0fa986e9d;0x1d229f9f88ab1;0xeec2854ebde2d;0xcd3edf9eb628];[0x1ceb5101f3655;0xd9326ce407880;0x59c5efcb97cc9;0xabfdd62f38743;0xe453d6a1e77c];[0xd1e3473cc5d7e;0x36f95eea1b87;0x6adb7a5e4d6be;0x43ba203803803;0x68bc88a5f63];[0x1b85e90bd5a1e;0xb8b1ad88d0410;0x434db22577974;0x15e8d11693df8;0xdb2f3a6b4997];[0x0;0xd5cc676dbae88;0x7767c3c28c896;0x88ff7c575f4d9;0x2a08c1145f5e9;0x5fd5a0bc0f5];[0x0;0x6b291c44d6fbf;0x24f509f92d880;0x51d5cc53f640b;0xd1f06dac09384;0x3a67b5f12ed0];[0x0;0x6c7e4284c5c39;0x86f2369ee67a6;0x5c16bc94ec12b;0xcdc05a0648a4a;0x44a9e4cc5ad3];[0x0;0xf365df0fc70c5;0x1a04ac5ae7c0;0x37a8494f2e635;0x810bac1aa402a;0xa182542c6ad9];[0x0;0x65c227e671fc6;0xb884960a75534;0x1d924c209ce04;0xff948ebffe6fb;0x8e186a3c8736];[0x0;0x53bdc3d2460ee;0x5e4d51c20f98;0xc7a31ef890e69;0x9569ceae7fe48;0x4e0b777e2190];[0x0;0x1bd22464f4066;0x39dd9d8c7629f;0xaaaf0bdf3c514;0x6cf0bf476b6d2;0x281085400d88];[0x0;0x3d0b71c6f7c89;0x9523038e2e221;0x94a78e859a3d5;0xccda2805f259d;0x458757ad7f2c0];[0x0;0xbae437c596bdd;0x34c0309e96695;0x355e6ff5d2cb8;0x22621a587eaeb;0x229c9b273a7b]];
 [[0xa3f4f8ed215f2;0xfb599746f8a6e;0x4c55a2035625f;0x9e2f1553f84f4;0x870ae593b6ba];[0x734f489d62c22;0x2452c73747268;0xe97f12933bb06;0x3032b5a402f91;0xb8e50c6bf391];[0x22532ccea9fcf;0xfb71419294aed;0x3d7954ac9efb1;0x9b3dbdf93587c;0xa64d6e785889];[0xc3929718c0477;0x64871cfa7e6cb;0x11a8ac0d2111;0xa6d6146592250;0xf0df999236b9];[0x508ccbd5e2116;0xa1bb2f5a1e48e;0x3c0695e30d152;0xd8b1f966d242d;0x71bdaa50364f];[0xf968c70727e6;0x2c0f309838487;0x8ece6c3f237e0;0x468b19f6a0bf4;0xaa3eff44959f];[0x0;0xd5cc676dbae88;0x7767c3c28c896;0x88ff7c575f4d9;0x2a08c1145f5e9;0x5fd5a0bc0f5];[0x0;0x2d853d5bb429c;0x8a3da0000c736;0x9aeed6e7f5384;0xc11040970c887;0x80d5737b73b];[0x0;0xe57f2a7a6aa2f;0x42937b075fcb;0x64e1db672d062;0x9f4e39a532671;0x5d75003fdf04];[0x0;0x75214701384af;0xb3adceed9688e;0x3cc5c44dbe28a;0x3fc860a14725b;0x3534dbf91112];[0x0;0x9d25a0aa0d7f6;0xa2c306adfd8c2;0x585bf8e6077d;0xa8da5c9548d57;0x2ecf9a9c9a1a];[0x0;0xf2d6c0cccbe6e;0xf334db8a3a213;0x6a19e3677966a;0xfbd64108ec8ac;0x6a39bebf1645];[0x0;0xd9f3ca20432fd;0xde13eb11c2811;0xbafcea3578c40;0xe33994d898274;0x488ef3a1f679];[0x0;0xd1ba08179bd37;0x991a9f0e59bf;0xb2e14e5b66dec;0xd2f4091790dbd;0x5375d6bcf5fa6];[0x0;0xaa258bb17341b;0x25b2c72f39979;0xe4f8c0838707d;0x552a700a1a661;0x20318b8ba423]];
 [[0xa3f4f8ed215f2;0xfb599746f8a6e;0x4c55a2035625f;0x9e2f1553f84f4;0x870ae593b6ba];[0x81adf31f3d18e;0xf969421bd4ae5;0xcdb0b95149efd;0x905ac1fdbc9a3;0x8c3321bfcda1];[0xff6781d22a6b;0xd2031fc720eb9;0xb0c1416a9e07b;0xf1402faa0db3;0x1472133aa4f6];[0x1ff1da8461ff;0xf431398cddb58;0x3168777c9a0ad;0x922417737b8f7;0x61afca7607fe];[0x998d359d4ee19;0x366a356d89beb;0xcc72ec33d75ca;0x54dc19ff54cf1;0x20138c494f78];[0xe81ef81a982e6;0x7c98642074a8f;0x95cb815e82783;0x4ed8034e789d0;0x9aad5b772c80];[0x0;0xd5cc676dbae88;0x7767c3c28c896;0x88ff7c575f4d9;0x2a08c1145f5e9;0x5fd5a0bc0f5];[0x0;0xddb1ce0f75470;0x780c59a684d29;0xe0c9f968bafbc;0x8cdc5ca4a0ded;0x6c9bef4f5266];[0x0;0x60e1f6e39099b;0xa5b1519246e9e;0xa0d7d30380c9;0xe74453bc3e999;0x46975fbc558e];[0x0;0xd2487c43e7f47;0xcf4f92c1623b9;0x16dd569777faf;0x7d71df77af8e6;0x4184fda1dbfd];[0x0;0x14c7a28c92251;0xa1a06c119e755;0x89d8b5314d077;0xe707b24bbc710;0x39a4d7bdf702];[0x0;0x68ba5be4f901e;0xce136b2c27ab5;0xd882bf12cb197;0xea8a0eb91dff7;0x503c5e58a30a];[0x0;0x9e6fd6fcd65ab;0x5cc9e6ca070e8;0x2bcd4dc85a1fe;0xb451f44174751;0x73caa021145f];[0x0;0x91bb111f64a56;0x8f7dbe091c6b9;0xb1f8a11a14464;0x2356a773f9c50;0xa51875f1f454];[0x0;0xb76dab238e8d0;0x18a1610c3b205;0x27ae54a20ff87;0xaa9ee235139f1;0x849aa874807]];
 [[0xa3f4f8ed215f2;0xfb599746f8a6e;0x4c55a2035625f;0x9e2f1553f84f4;0x870ae593b6ba];[0x84183ee27c3db;0x644d5b66930e2;0xc9b7124aa476e;0x209b4e0b64154;0x626b9293c6ba];[0xd84dfc84f1b61;0xff0966421c9de;0x346b8d6c4e050;0x54f8d0dc9deee;0x548db8d32a6a];[0x5af91aaf143c5;0x9a64b84ce9caa;0xf7a123e554bde;0x10614c75bd688;0xa2c374013e12];[0x7026ff2c8f6f9;0xd944fd48e90e2;0x3695d9ee35888;0x6ccd0c23f85f9;0x58d13443e15b];[0xde45bfd61b7ef;0x555b00466a12b;0xc6a2b44bf08fa;0xce47ccd29f095;0x21ec90ef421a];[0x0;0xd5cc676dbae88;0x7767c3c28c896;0x88ff7c575f4d9;0x2a08c1145f5e9;0x5fd5a0bc0f5];[0x0;0x731b35b2ad39f;0x7dacee7484ede;0x6042297bf7f9e;0x32f538016554e;0x35408da505c7];[0x0;0xf6dfcb4244b1;0x7a09d1ce4b6a3;0x133b8df6e6ca5;0x9318404c231c8;0x9490ba3347d9];[0x0;0x27baddc6e1bed;0xef5a168da748b;0xa9d53af3fb50b;0x6d93799fa5913;0x803b1b1e781];[0x0;0xb7fa193156b81;0x11f34a1d6d1da;0xf56ffb188946d;0xaf72e7278b699;0x70d1386198e];[0x0;0x6cae1f41eacf;0x1225387ecca37;0x3846b3af9309;0x5e4c4b9148005;0xa8dcef281a0d];[0x0;0x3e6ad771662e2;0x2ccbc722a4445;0xe1c3544af994f;0xe88c9b2afdb59;0x5aabc14b3718];[0x0;0xfdff2c383d61d;0x8b6ac32aa0971;0xfa39d7f380c13;0x8b4c50b2ebe36;0xeed06602aec27];[0x0;0xa66ae6e24fd65;0xffc55b8af59c3;0xf8161bf28461e;0x199b146997830;0xd3dc29dcead5]];
 [[0xa3f4f8ed215f2;0xfb599746f8a6e;0x4c55a2035625f;0x9e2f1553f84f4;0x870ae593b6ba];[0xd6e6be091946a;0xc162f8d430656;0xe18f8e3f9f975;0x1e9672c735d63;0x52004b8edf96];[0x97e101ddfa99;0x884369739f9a1;0x5fe35c4d51633;0x16c3e421f4590;0x39a890131579];[0xf0f25a07bcc4e;0x49c095c93eba2;0x65bcfa853fdf1;0x5602557b45603;0x6433f7a6fbe6];[0x257e5c969a8c1;0x41b1aa83474ed;0x1f57cf85236ad;0xb1e40f77ea44;0x470b1ea6e64c];[0xd5febfac6f93b;0xb1dafcabd68f4;0x109b94df0908d;0xd623134b24167;0xfc77fc0d68cd];[0x0;0xd5cc676dbae88;0x7767c3c28c896;0x88ff7c575f4d9;0x2a08c1145f5e9;0x5fd5a0bc0f5];[0x0;0x604fcbcfdaef8;0xbd291b8ae743c;0x4f400260c5579;0xdfbf1ab71d16;0x4f39bf00025a];[0x0;0x7d4e0c363e299;0x5d7b803723dce;0xe40cd84da572f;0x3377a98415d1c;0xa5b8023cff00];[0x0;0xc1f7c731cdf3e;0x59da22cf12352;0xed8c99c9fb555;0x3dfc6e97edaa2;0xb7aaaa615c9c];[0x0;0x31a5c981ac2b9;0xd67f0e27c6071;0x697e2d1d837c9;0xed0325f3a4f13;0xa196ecd8a083];[0x0;0xa9e2b1161fb2b;0xd300e276351ba;0x5f27b1072e81b;0x45f5d5c00204d;0xbc5c2c394be6];[0x0;0xa123b0e75cb5a;0x338ce1e213f40;0x951a838262de1;0x8b8628bcbf513;0x4d969c7a63c7];[0x0;0xbac8e85712781;0x9aefdf049678;0x1d14fe839aabc;0x4f6d0d6e1737b;0x5c1a7b9020a6c];[0x0;0xb9987607939a7;0x8c73ddcfbe0a6;0xbb9f31974db18;0xc653d3a4dd646;0x539886d76ee7]];
 [[0xa3f4f8ed215f2;0xfb599746f8a6e;0x4c55a2035625f;0x9e2f1553f84f4;0x870ae593b6ba];[0xc3a22a585a8c4;0xcf6021a27898e;0xd773946241b9b;0x7017afba0dcf;0x1c2f47a048b6];[0x97dfb0f24dee3;0xd71c63314360d;0x1baec5beea8e;0x1ee5938b8db82;0xbe1ce87904ba];[0xe5f76edf5a2a2;0xe00dea8a245a5;0xfc3f0b280244c;0x37fc40888d57d;0xd0b91b607af3];[0x26fa5454402b1;0x485709cdff545;0x57e4807afef70;0xc10b9269b657e;0x4cbc692b6241];[0x674f03fa34be;0x84d3cb1ed3e01;0xda10bd64f6367;0x3931edd52e335;0xf08d1a43ecfa];[0x0;0xd5cc676dbae88;0x7767c3c28c896;0x88ff7c575f4d9;0x2a08c1145f5e9;0x5fd5a0bc0f5];[0x0;0x10fe8669b7502;0x95c1683cd9a16;0x426d361a1d480;0xce24345fcf319;0x3cb4940ce147];[0x0;0xdf7a17bc01af3;0x77cbf27e0b385;0x7a615b8f0faa1;0x9fa8079c14c85;0xaa33afe0efc3];[0x0;0x7629e22b66be2;0xe64c97319dad8;0x3ecc86328a1b6;0xeec0d221f5c4;0x468ff785bd76];[0x0;0xfb1ca7a061b19;0xc36e4419bc40d;0xecba32a27a581;0xb99492b471a25;0x3e14a4113637];[0x0;0x72d0640dd24d6;0x41ab69a5626a3;0xd144fa54b0ec1;0x470687a1ace53;0xc174a6f29d4e];[0x0;0x2e06270b5f89d;0x82b66bc751b43;0x54d390440f4dc;0x969b34ef7f92e;0x9db3593031d];[0x0;0x1dd2be8f59186;0x49ad44b78c009;0x59fcf5e6866e4;0xba3d975254d55;0x48cb3b7b5cee4];[0x0;0x722a1b77789ab;0x3845bd65f571b;0x93f91e4645497;0xe86b8eb220842;0x181d726b5211]];
 [[0xa3f4f8ed215f2;0xfb599746f8a6e;0x4c55a2035625f;0x9e2f1553f84f4;0x870ae593b6ba];[0x5daefae61ec7b;0x27f8469656aa3;0x988ffdd4fd1e2;0x9fd18c37e2e9a;0xc8c66bcc4ed0];[0xef2a49cf32549;0x77aec5d045598;0x3ca2c1d271cdb;0x83f298f41b9c3;0x6f9f3229e05e];[0x13eac0aedaa45;0x37101960f7b14;0xc530e7c109d86;0x58ca04be1336f;0x816292746a0c];[0x77fccca8d4439;0x3416a6eb0532b;0xb2183b2aa0a7e;0xe02e1155d1b8e;0x916391476580];[0x93cdbb1bf3c83;0x86031d15d930e;0xe966da0368e2b;0x59355898a5fa3;0xfe17c7d6d4ba];[0x0;0xd5cc676dbae88;0x7767c3c28c896;0x88ff7c575f4d9;0x2a08c1145f5e9;0x5fd5a0bc0f5];[0x0;0xad498e47bef5d;0x5160dca23886;0xccc1a587e26e8;0xc8762fe8066b9;0x17655082c63b];[0x0;0xbcc3b3d8a82e1;0x1f3d46d8e649c;0xf2097aaa9eef1;0xfa1112bc2c846;0x3ee7c9cda6ba];[0x0;0xf4f9c0d384075;0x5639e5c6cdbd6;0x409a972fc4f9b;0xa25bacc178812;0x3713248e7c50];[0x0;0xd78c97b51b289;0x7bfa3dfa0a053;0xa6438d0d4e911;0x333bae06d1527;0x30746595d27f];[0x0;0x62b0690ebfd0b;0x8c54c8298bf59;0x311cbf8a0184f;0x789e92ccc3883;0x477ff6545f70];[0x0;0xaf374765e9e8e;0xbc6ec2d981501;0x8ad79660c6c0e;0x37cacc0f2321c;0x456539a0bbca];[0x0;0xb001f7bb044cd;0x9772ae8e8d773;0x1ca814ac43526;0xf5c29bdd1feea;0x851e1ca1675dd];[0x0;0x854bc5285a4e5;0x480171a7f17e3;0x66941473a4b99;0x386db1fafe737;0x2d65fb051dcf]]]
 (V [0xb082d2278ec8;0xee40fdcf71a8b;0x41a82a0b19c5e;0xdd088fb0d5180;0xcc755c898986] [0x2caa6af386288;0x309c3e716c49f;0xadc60eb008028;0xa4710a585c1b1;0xb3e1d2753879] [0x92fc5d219365e;0xcda90f9f6dda6;0x3aef0a3cb0421;0x665fcfd31feaf;0xfe91f9cfd7e4]) []
 []
 [].
Definition wit_256A_64 : list (colwit ept wit) := [wit_256A_64_0; wit_256A_64_1; wit_256A_64_2; wit_256A_64_3; wit_256A_64_4; wit_256A_64_5; wit_256A_64_6; wit_256A_64_7; wit_256A_64_8; wit_256A_64_9; wit_256A_64_10; wit_256A_64_11; wit_256A_64_12; wit_256A_64_13].
