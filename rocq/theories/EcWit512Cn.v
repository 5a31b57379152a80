(** Witnesses for checking the table of ecp_id_tc26_gost_3410_2012_512_paramSetC.c (EcTableCheck.v): slopes, quotients and intermediate points. *)
From Coq Require Import List Uint63.
From Verif Require Import IntPoly EcTableCheck.
Import ListNotations.
Local Open Scope uint63_scope.
Local Notation V := unp3.
Definition wit_512C_32_0 : colwit ept wit := mk_colwit (V [0xe2fbb886a0e93;0xf1f64e6973982;0x4558a339f36e7;0x8f67e028808b8;0xab780f81cc96d;0x49481b9350349;0xd2a12f7532a8f;0x536d228031f60;0xb53acb75439c8;0xc2c8a102654] [0x9728c3513f962;0xe8750fb512eb2;0xc20f4b05f78e;0xbef9a693e1f36;0xc91d4aa78634d;0xb2c41bd6527c;0x5a0135e556f76;0xb17eb6d9af628;0x645f7078485ae;0x778dafd5d6f] [0xa7504a761b7c6;0x622450479c4ea;0xef31be40ea73;0x5bb0fbde74300;0xbf55ba1a8c449;0xcde2219173f20;0xb895ac7a14221;0x8a8395d659b36;0x89b149c3bbf3a;0xadbb7c2ebc5])
 [[0xb09bcdc4e60f3;0xad1b9322b1ca0;0xdc3ef47743562;0x9ac665efef6ed;0xc60678a7cce3a;0xb429e84c1b862;0x5122c7cc4f44b;0x949a57155af6f;0xca36be6540f1c;0x249bf2fb9e5];[0x65b017b1cf54a;0x4a3155b893f8a;0x3444a4aca889a;0x41cdf05f8acfe;0xa106974d7b7d6;0x182a0c4ce6022;0x952d4e48f3d68;0x823e950591523;0xda4c6c5177439;0xd653c745b09];[0x646c41601e12e;0x8549120444c03;0xa194ea260e71;0xb2c96e75de8b6;0xc738f4d1ae967;0xd3af6a9f7367;0xea1a86bd5f4da;0x69421ef51dba6;0x349d990c8450e;0xf6e5690c3a8];[0x646c41601e12e;0x8549120444c03;0xa194ea260e71;0xb2c96e75de8b6;0xc738f4d1ae967;0xd3af6a9f7367;0xea1a86bd5f4da;0x69421ef51dba6;0x349d990c8450e;0xf6e5690c3a8];[0x65b017b1cf407;0x4a3155b893f8a;0x3444a4aca889a;0x41cdf05f8acfe;0xa106974d7b7d6;0x182a0c4ce6022;0x952d4e48f3d68;0x823e950591523;0xda4c6c5177439;0xd653c745b09];[0x144;0x0;0x0;0x0;0x0;0x0;0x0;0x0;0x0;0x0];[0x0;0x3d04392f2852b;0xf91afd34eff30;0xc23dbd985c47c;0xb17818f4cdd43;0x69deb1d2ca216;0xef977597a67b;0x23ab6864df0c7;0x8562fe278f6e2;0x1f60ce09db5be;0x98ae21d954f];[0x0;0x530bf1a6e2ba0;0xa7170e4840222;0x7e2cf57038ff9;0x1804efc9d8b79;0xbb88b3527364f;0xdbc9acd97cb51;0xb1cba4ea18ebb;0x70c13aa64716e;0x86111380ad481;0x234eaa03db9];[0x0;0x4];[0x0;0x4];[0x0;0x6c732ea3f56e;0x7fed1e1a99e05;0x4721d06d1e8b9;0x3db6886c50a3b;0xcba64a2cfad8a;0x241e4003a79b5;0x88a59099884e9;0x77cfe962aa6d4;0x82c66ba7aa5;0x13791d38c5e];[0x0];[0x0;0xf84ae80e484a3;0x526f2ef89f80c;0x80f519e2abd1e;0x542872b6f1390;0x779ec3b26b867;0x68d8dfbb20955;0x93a7ff7a544d;0xb706c6ceea6fc;0x1f2dd85fcde7f;0xa3137543301];[0x0;0x29536570abdbe;0x16116f21e135b;0x7bf46deb70f96;0x2923df2c3a4de;0x300057f402599;0xef7f42435b8dd;0xf676e36038388;0x96ea204c98af4;0xb063189b1fbad;0x77a125f4b059d];[0x0;0x32c361bc96c80;0x5381db548362d;0x444e730315e00;0x6b2be1165b7a1;0xf8341365db81d;0xe4e72059fac04;0xb18c2250218f8;0x1e37a8ba333b0;0x5813de6e46eca;0x5af71122a5f]]
 [[[0x4a13cb7ad9b51;0x2e5aec06bf1a3;0x8c8f38437d91b;0xc986074c8526d;0x78d727355822f;0xa65896261cc9a;0xf43c1c090897d;0x67133077611c4;0xcee2dca049d3d;0x56dee7cd3df];[0x913627a7ab3fa;0x7018016c37feb;0x337dde1a4d61f;0x94b1a245b8109;0xd5bc9886565e;0x11fed5f5dd97c;0x1df053a1fed7c;0xd88b1320ebd8a;0xd4edf3459b564;0x54e404f0fb1];[0xa0ddbbb679aac;0x583b1abb5488e;0xda513466b680c;0x6d8db665e31cc;0x240f3fc76fb77;0xc91c9f511ccc6;0x5415ca201d64c;0x7ae8db4e54ed6;0xeb5e87516648;0x67f65d091d5];[0x6b0ef1ec6e5d4;0x768b011f649fe;0x3b77968d459d6;0xf9104d7ef1f27;0x339b14304e8d0;0x853194078820d;0x392fe8bc32393;0x412182fdbfb20;0x15facd902a531;0x6fee0417754];[0x2414f9f88af27;0x3a413fc333c96;0xc40eb024fcc16;0x495aa00983e6a;0xaa72b04f1996b;0x3ffec8132aa0d;0x21ea668f2825e;0x6dbe48f394dac;0x5f4e10f3996df;0xae0ac5025f6];[0xf5b2f9775233b;0x351836a20b33;0xe03b7a131dc4f;0x154dc2d909cf4;0xe711720629b4;0x2711f05ba3b2e;0xcf55563d8fe13;0xddac6d03834ce;0xbe224e3ec1015;0xb21b522b1f4];[0x0;0x873fdd65cb6f9;0xa618727f3e71b;0x237abd480bb4a;0x9080daf73cd98;0xaa4fe4fc43e08;0xe6fea9262146f;0xdff29a278a83a;0x4adb9b757d022;0x2a32dce5001d2;0x6b6f92fc4a5];[0x0;0x28ea3c44e7dcc;0x4bdc28b55c6f6;0x998ee3e5b3d3b;0xa0205f35f3cf7;0x5150ec53ba177;0x821da95a233e9;0xd82001d640c3c;0x75cd21db57c31;0xa99d136e1793d;0x53c80bca278];[0x0;0x8];[0x0;0xb2cb398e25135;0xd49fba692ffbf;0xe9ef87c989c7b;0x34d8bfbfa514a;0x2fe11f6b44873;0xa62525e4217a6;0xe30a38c7e834f;0x2c1787b7dff86;0x549b1802cc596;0x35b8c51ea3a];[0x0;0x8aadad36ca135;0x5e8bafe63a942;0x74aec6d51e96;0x875a4b2eb1a1a;0xe6d344c8c2956;0x6fde471b31c75;0x1e30cc28b5ee7;0x98710932fd0a6;0x413e96c237d42;0x20f91cf354c];[0x0;0xd];[0x0;0x2695e549af658;0x832295bb5a218;0x8e3b9b8290197;0x183f4831b8e3a;0x6fd19857f0525;0x5047f5957c181;0xf558c96dd2617;0x5bf175479c47e;0xfd19ea8ccc599;0x4964520e72];[0x0;0x223cd9d24163;0xf70b0aa2f4fff;0x94a6b0ce97f43;0x57e7e1e6bef4;0x8d6011c050766;0x937a115a66c54;0xb7b59e98669b;0x5e3089650d322;0xb42e053ca681b;0x22a8bd6b0a03];[0x0;0x54895911e58ad;0xaeb63a925198c;0xc71d364149df5;0x5dd4f831a301f;0xbb8183baa91f0;0x8ceadcd11fa3a;0x6c1c819f7018e;0x7b8c8495f0de6;0xbc4511e0faf3c;0x1de2e9700]];
 [[0x4a13cb7ad9b51;0x2e5aec06bf1a3;0x8c8f38437d91b;0xc986074c8526d;0x78d727355822f;0xa65896261cc9a;0xf43c1c090897d;0x67133077611c4;0xcee2dca049d3d;0x56dee7cd3df];[0x425c83d1dbc81;0x39b6dfad549f3;0x7c1030cb5cac3;0x4a0254b5ef4ca;0xbb1388266b2f3;0xc7cd6ab084bf5;0x74108068a5cb5;0x70b7d15865f17;0x3bcb244039c13;0xe44ed8190a0];[0xa226f91c6dea3;0xde1b78f139d07;0x61c92fa249a03;0x43fd8cd4c0a4d;0xb6a50d60e9a9a;0xc4f3db078660a;0x306cfcf8075a;0x125ec3b8cdbb8;0x8e98ef0659034;0xb7d196a8947];[0x4ca83ddde4333;0xecf733212d022;0x1aec9deecdbbd;0x7827819f9408a;0xde04a01472fb5;0xd1655b70dbd51;0x2c2fd72b28c22;0xff4b7beff8b5e;0xc2e17b8a68991;0xc55cc86b48b];[0xbf41082740174;0xae222de59a950;0x708fefb2173d4;0x46f63128a172d;0x7647a59b300c;0xb4316e489711c;0xe0b5a688beaf4;0x8fb353b82a33b;0x2f389f6c6f763;0xc47b7248f19];[0x74f2323f788cc;0x39cb03739d8cd;0xab0b4d84d448b;0x4418431e707c8;0xf9fd45f7e57a1;0x77814787dbe18;0x32252d3c8e03e;0x889d454ccf500;0x115f853174e1e;0x5cca9ca3344];[0x0;0x873fdd65cb6f9;0xa618727f3e71b;0x237abd480bb4a;0x9080daf73cd98;0xaa4fe4fc43e08;0xe6fea9262146f;0xdff29a278a83a;0x4adb9b757d022;0x2a32dce5001d2;0x6b6f92fc4a5];[0x0;0xcee7ea6475d2c;0x35ac65599cd73;0xb1bb81b0e7a3b;0x4ca267498c773;0x182ac1b4c4525;0x81487c3724815;0xf02e01e622e06;0xc19d7a28288d0;0x8b999a8c1c664;0x54365d2fd0f];[0x0;0xca5943970eecb;0x1e43791a66670;0x81ad723aa702e;0x48c6c3b3d809e;0x3b043648a1eb6;0x857e6d37de34;0x537cdef8d9662;0x172da28e18eed;0x23d5bc7fa4a5d;0x675c02a3b1];[0x0;0xbe8517c0d5c7;0x14959505a221;0xc33e7768b998c;0x90c7338856172;0x7b98249a55c88;0xe6db0a7c2dc8;0xa8d0ad7ec4493;0xdeec6155d771d;0x42141f0d9fbb0;0x1a4d748eb9];[0x0;0x6ead23e5299bc;0xe65ad2beca565;0x10de13028479f;0xd14bd7dc6d490;0xe038f8f2fe6b1;0x429d2d8276e79;0xa8f453e308c2;0xb4f2c9ac27347;0xcef49d50f95f6;0x1024d46dc5];[0x0;0x859c38354b5c4;0xe57e5a6f466b3;0xaa9a8a65151eb;0x6f3c754507321;0xeea7f9cc1175f;0x118ca36c710d2;0xd5b0d2356f324;0x2b136563c2a2a;0x9ff3c2ccc901e;0xa8663e31c1];[0x0;0xeb3bc9cf60476;0x803f70d9cf4ba;0x4fbde754e282d;0xbfb5697aa84bc;0x2d89e6ddc95a1;0x3e0185e5b1450;0xfa5652a32b2e1;0xacb8a33abd22a;0x462345a58cc05;0x899166cdb39];[0x0;0x2763d95610c88;0xc6671891740cd;0x7e06245c923ef;0x9dfd044e97021;0xd19e3492f41c;0x4de9aec8fbf9a;0xa115aa5c21307;0xc5180df5176e1;0x33a4647331e7a;0x9c8523c622cb4];[0x0;0x4bdedb6e80406;0xd0b12dadd0023;0x1885d3874f07a;0xc16b4dfeec362;0x38658c5df1ea8;0x3bdfb0c4e4307;0xb9f40d4f1b55b;0x3f4c2ac836203;0xed61abe0cb603;0x5e45a34889a]];
 [[0x4a13cb7ad9b51;0x2e5aec06bf1a3;0x8c8f38437d91b;0xc986074c8526d;0x78d727355822f;0xa65896261cc9a;0xf43c1c090897d;0x67133077611c4;0xcee2dca049d3d;0x56dee7cd3df];[0x7fb11ba678d09;0x63f184ec8a72d;0x92f86e7288c8;0x65c00515bfd6b;0x1567016056189;0x8d26d4136eccb;0xd1695269f04e6;0x6f2afa7f97ba7;0x7073de871ff4b;0x3b42dfe7187];[0x6dc8ef23e2c66;0x439d84c1dc6c2;0x1687c9d1ab7fb;0x404d2651fa728;0xd909879183683;0x14458e657fb7a;0x45b2ecf7e0f72;0xbcd8ad393ba5d;0xb04a74c5aab95;0x7a05f21d2d6];[0xad85940aefc34;0xe550964e27ec4;0x7ac48bbe3c4fc;0xca3c57b7a0e02;0xc520d70bdad07;0xca06e51936689;0xeb17e6f9ca610;0x164216cb3a714;0xeef0307b0653b;0xeb2d0627574];[0x9c2c243480780;0xfe21ed6241430;0x78cd15e4f8cd2;0x8833722d37d71;0x90a834dee9af0;0x5643b68cc49eb;0x66ff83ba67528;0xbced38b33ea74;0xfe24f0ffb2132;0x620a00903da];[0x4540f95b85c24;0x30bb6d49ceeaf;0x60458e1cda348;0xc971bf02799b2;0x79c2fb55f4ed1;0xa3792d7cc8753;0xa4266c4274001;0xb9e519135553;0xaf943dffe2050;0xddcabb6f9b];[0x0;0x873fdd65cb6f9;0xa618727f3e71b;0x237abd480bb4a;0x9080daf73cd98;0xaa4fe4fc43e08;0xe6fea9262146f;0xdff29a278a83a;0x4adb9b757d022;0x2a32dce5001d2;0x6b6f92fc4a5];[0x0;0x76d787bfb35e3;0xac3d79659be4;0x11298256ac457;0x506df5080a669;0x9572f43d302ff;0x79b1597eec318;0xab9b59f3481d1;0x6be60d7cc3c7a;0x8a2f4c226fd60;0x3167d364171];[0x0;0xacd7aecad3c86;0xef013753ae306;0xa0fa5289043fb;0xe366a61f8faae;0x38db122051893;0x1d6fd02fd9aad;0x8026f6c1a478e;0x5cbc29d2f0ac0;0xd73269cae20b3;0x48099729f0c];[0x0;0xffa46b52f3749;0x242681c98c0d1;0xb6298e1b5e39f;0x7915400722972;0xf55b41d4196ec;0x474c10b2ec7f6;0x194295cd722b7;0x1a0c8b346b93a;0x4039bd3adb5e5;0x770aaf0fe3e];[0x0;0xc9cd1466e7cce;0xfd385a9157cb1;0x30e269853e2ec;0xb73b20637b865;0xf611d20d226b;0x59d217776b6a8;0xbffdd2a759b2e;0x1088c775b2dc;0xb94c4136debe7;0x49109d271cb];[0x0;0x16912c5dd40ac;0xe1fcbe7653fb9;0x89a5e45079089;0xd048c9ab7cb71;0x5f1cee73280ef;0x3b1eafa4eeed0;0x4b8c1a3c9818f;0x5fe17460761df;0x738c8c0b5bb72;0x755e2678771];[0x0;0x68543cb28d04e;0x5d6b213d7cba1;0x239638d04579a;0xd2e97d46a38e6;0x774426645721e;0xf3d6b2c1caaa;0xaa2ca42436c05;0xc6a67747fbf4;0xb63d38bf279e3;0x197452ca68c];[0x0;0xa4338107eeb60;0x2c0716066458b;0x7336ae576ec0c;0xd241a524db077;0x2dd55feed1f3a;0x1fe48b8d839e5;0xff45ec7a8c005;0x5739f1614bcf8;0x97a66c293f37;0x7cddbb0d0e485];[0x0;0xfef44b6bb162;0x5b5a31c078258;0x299d02b0c6e0a;0xeaa4c2868abc;0xba5f8eb6fc856;0x3522ba68d442c;0x42052d21d8d7e;0xd0fd72846f9e4;0x928050fc2dd93;0x35791939d61]];
 [[0x4a13cb7ad9b51;0x2e5aec06bf1a3;0x8c8f38437d91b;0xc986074c8526d;0x78d727355822f;0xa65896261cc9a;0xf43c1c090897d;0x67133077611c4;0xcee2dca049d3d;0x56dee7cd3df];[0x42de4654817aa;0x3f6ef8e6b83c2;0x5f36556eae21;0xa95bfb5340419;0x2bfc5a6d5e6a8;0xed972f1d1dc32;0x821f5d3bc9b91;0x826a4b2a81071;0x8b1ff1251eaf8;0xd1927e1c4c1];[0xa03243d032a00;0x9765888dd4154;0x4bf32c6470c38;0xd3dd5337dc334;0xe977d23f4f828;0x1bc5d0dd61d72;0x68079f2e040f0;0x8bb7250f315dd;0xa8d3ebdeceb0;0xc29221c6015];[0xb96550c3305dc;0xee0186e2f6da0;0x1f5d27491f729;0x983e515b16167;0xdcd80bdf90b35;0xf48497004c35e;0x44de4f08bf50d;0x23f4bd63685dd;0x4e578489866e7;0x8197fa8912c];[0x61037fe868a68;0x712463709f501;0x460177aa53d28;0x90dc344e011a2;0x1a7f311b1f635;0x70de0fb2701d8;0xabcf07d70b734;0x1b3e3dfc517a8;0xa77ac78f9e5f3;0xdee60d0cc69];[0xe997e721e7f29;0x2b0af73c1b816;0x87ef542d07890;0xa971beccb992b;0xa4ff9617ce380;0x6c5dce5cf4f05;0x266a6c593a896;0x66d52e1ca384e;0x4fcd47a54efa3;0x839c4b0ba45];[0x0;0x873fdd65cb6f9;0xa618727f3e71b;0x237abd480bb4a;0x9080daf73cd98;0xaa4fe4fc43e08;0xe6fea9262146f;0xdff29a278a83a;0x4adb9b757d022;0x2a32dce5001d2;0x6b6f92fc4a5];[0x0;0x28605a084dbba;0x4f9e309ca422d;0xfe07935a2ba56;0xf955667b7f2da;0x46d1f8ff31d8f;0x341d7d52ca64e;0x87e2512c4c018;0x46c2633667f7;0xbee75f762551d;0x1cd6455ca3e];[0x0;0x408934f565e54;0x8ff36f38899c9;0xcbde38a0f76ed;0x61a3e56d0a7f9;0xb1ca9c6c6bbb6;0x58d41c9e94aaf;0xf84e33ded83a7;0x9e0019bb370b5;0xe5d73a721ece8;0x335a03fa405];[0x0;0xa127d69afdf3d;0xbf076f2b0af0d;0x139505e81264f;0x62b8b94574374;0x249320a0c6c2f;0xbfb094216a4a2;0x5b4d396271621;0x1147244cf3a11;0xc80be71a69301;0x5eb917d1e12];[0x0;0x60b3bc58940fe;0xd42948bb21f9f;0xbbeb7efa5a0ad;0x39f68ffd0f744;0x1789958097710;0x890cb4175e8d6;0xe5a63e930764c;0x972cfb0896a4;0xb90b8743a7df0;0x3a237fb5b18];[0x0;0x4cb330e0f0fef;0xf9d43d47a3ec6;0x7cb001d247ba;0x5da848e2eefff;0x86198b2815023;0x5fc0f614c0289;0xb0bce085f912d;0x89e26d2bbec9e;0xa33197fa16bb3;0x53aa47d0abc];[0x0;0x23f7f1654e989;0xaab7677e772d1;0xc16dd8777c44e;0x2e851ba1ad59f;0x24f0ef6b11ef;0x5c8e061efc039;0x98a7e2ee9f280;0x1836bfe6b0a23;0x997006a51ad85;0x7d10e79a0f4];[0x0;0x5704f1d98b7da;0xa0bacfbd1b0b0;0x1845a58653c3d;0x5ab04a436d253;0xa52b876317f33;0x75a2a8a88db9e;0xfdd30f69ac1fe;0x71a97f5ade6dc;0xaf3f5c5755bb7;0x9c50b59f922bb];[0x0;0xb98eb49d2f75d;0xb4b49dada6ee2;0xb8d611da03c6e;0x249f42db9e977;0x35518b5ffdb9e;0x62c2947bf59a6;0x9e1b1d51fb818;0xb17a964003a3;0xdad541593a59e;0x5d37ca9a7c4]];
 [[0x4a13cb7ad9b51;0x2e5aec06bf1a3;0x8c8f38437d91b;0xc986074c8526d;0x78d727355822f;0xa65896261cc9a;0xf43c1c090897d;0x67133077611c4;0xcee2dca049d3d;0x56dee7cd3df];[0xff4b706447ce2;0x9a9af186293de;0xb5823f42f7605;0x6106f76aa57f2;0xd700efe77517b;0xa76a6260c1fe0;0xe693899869959;0x36a98587e37a9;0x16c3bca82cde2;0x931af2e88e6];[0x4a994a89e010d;0xd28a390bb788d;0x3538b0fbf832;0xc539d762ca6a0;0xe9c9aaf9ae56e;0xcf6a4b788e106;0x51cfc75dec791;0x3e5b98a5e70fb;0x71ecfb2c9da49;0x6f0b90a4242];[0x3c4bd46abb7ae;0x2cad75ce5149b;0xcc8916c977444;0x63ba7834fc063;0x15b78fb5eca90;0xbb691c00130ca;0x262350573839f;0x6e0b2bc3d49da;0x1589ba5cd0a90;0x7f121ec0b07];[0x1421a483ce281;0x611aa225df9cb;0x50dda6dfab94f;0x6943eb906b2c1;0x3d63b7511ee31;0xc3fa2d285987a;0xe3f41b4e39ba3;0x627de04d6749a;0x4aad65e885f8e;0x248e8dad226];[0xee0a8c5e4a924;0xfd87b778821bd;0xb6a9fcc243be0;0xbbc8e6471fc35;0xd00e35eb0fa74;0x35eb4d401e800;0xea259b1132fba;0xb42fe4aa64469;0xe1c55c931c51c;0x235406fce11];[0x0;0x873fdd65cb6f9;0xa618727f3e71b;0x237abd480bb4a;0x9080daf73cd98;0xaa4fe4fc43e08;0xe6fea9262146f;0xdff29a278a83a;0x4adb9b757d022;0x2a32dce5001d2;0x6b6f92fc4a5];[0x0;0xbc7a842b471d3;0xbcc98526b8e63;0x36c8aa76fc5c1;0x2e3f0cd931a4c;0x6a861604adacb;0xa13434650051b;0xd524afe2771a8;0x7559466f730da;0x3b70574870c87;0xc392acf827];[0x0;0xcf72e168f39e3;0x33e2762d1b5d;0x28f341944192f;0x3b7ef3b871f8c;0x6ba4a85288a9;0x1c4eb101a896e;0xd696b31e3f534;0xbc472cccccc26;0x1e4b299c39e0a;0x47587fb2beb];[0x0;0xeff4d9ebd2d28;0x128a7f175f29a;0xd20d671b62199;0xb23f1dee3412f;0xc512948fd844f;0x4c3d68e90953b;0x1d5b609fbcf4d;0x4f2edb43d35e2;0x1655a1981956;0x76da1cf8a98];[0x0;0xee46c30adbde5;0x186ae6157b4d2;0x1034f2fdcfc71;0xd48b511f881c3;0x3fddc77d895ef;0xa1b416ec8b239;0x7c451c80787a8;0x6b43097063580;0x8dd833d622f8f;0x48f2cd69a6b];[0x0;0xeb0ebea5f7c69;0x61ddac06d76da;0x6555913c9194;0xec1d16e7b870e;0xfa542e09de9d8;0xd572f6386a45b;0xc3966c9d2fcc5;0x1d627656d9916;0x930151d9d4907;0x743d9f32dab];[0x0;0x4ebe97390dde8;0x6131336d42374;0xe79f3513dcb78;0x4554ffef62fd5;0xab61c733d5bd6;0x4aeb5d3b502;0x927713d07cd4e;0x737ca0d1b18e9;0x45319efe22b28;0x617745f1f52];[0x0;0xf82ec4c9d5a5c;0x3a4683b058d0;0x64cdeed67f51;0x3c7733cd07ed0;0x8cd6e81e91bbd;0x54615368e71f1;0x74b5ee12d7912;0x9035f6a7de0e9;0x4ab81a7150f15;0xbd3ec761d4394];[0x0;0x2ae59cbb90276;0x69d33a5d2bc14;0xa2ce2e7919b75;0x82d1a31f297d3;0xff071c75726f;0xa3b2c68e4d5f;0x8647e3e8105e6;0x552f0a4c5f2f2;0xc537400f83b13;0x7d2d99718b5]];
 [[0x4a13cb7ad9b51;0x2e5aec06bf1a3;0x8c8f38437d91b;0xc986074c8526d;0x78d727355822f;0xa65896261cc9a;0xf43c1c090897d;0x67133077611c4;0xcee2dca049d3d;0x56dee7cd3df];[0x1f95cf83790b;0x8109a90a67c10;0x253485809c4b5;0xf768eaad46ff8;0xe575f4ddc92f8;0x85486da620db5;0x3160a6e414483;0xff55b4fa801d7;0xe09b953a4f234;0x316b035fc1b];[0x51f58ac7eb69b;0x55fa8bb76f36f;0x3f7265059ca0e;0x7f7bf587f2109;0xee6f8695336e3;0x94a164c34445d;0x263406cbc9a77;0x143c5049b692a;0x938cdf302cf89;0xa902f86d3f6];[0xe3d809b17af29;0xed15ef0046fd1;0xe729ef0ab1ec3;0xf55f00038a689;0x645c70dc1ec62;0x502ab145b6001;0x6edbadcd21c0e;0x2bfca511b34a6;0xbb69fb78e4e72;0xe252a3f84d2];[0x3d73c88d0331c;0xd2c2b7a6fe56e;0x93c4b11070213;0xe842bb3dd5d93;0xdce318c451497;0x4a9172f13ada7;0xa3e2e3ebc26e3;0xc20ec8bb0d539;0xcdd319504b687;0xbbf313fa3e2];[0x4784b72241747;0xeec2db14129ac;0x8753cd383456d;0xcb7b430267109;0xb2ee018401cbc;0x810920dd6d6;0xcc6ae1e3f18a0;0x1b28966024f55;0xf37bf5c85fde2;0x9600e26cff2];[0x0;0x873fdd65cb6f9;0xa618727f3e71b;0x237abd480bb4a;0x9080daf73cd98;0xaa4fe4fc43e08;0xe6fea9262146f;0xdff29a278a83a;0x4adb9b757d022;0x2a32dce5001d2;0x6b6f92fc4a5];[0x0;0x8db941ef48cd1;0x26ce5d2a080b2;0xf46a12e1062f;0x80019ae7c48d5;0x640c489f98fe8;0x6c7c56f2892b7;0x2ed30370249a6;0x3283cca5662b2;0x3a03cea97cea7;0x17111787828];[0x0;0x300744d4bade1;0x5c5acb1eb62e2;0xb49c4ff4cc790;0xf4857f988bb96;0xd87fcd2ec8a94;0x93ca32b513260;0xb8e9770307e10;0x277494903dc8f;0x682a41f82fbb;0x4f3612492c2];[0x0;0x11aefaad9e47d;0x3f15a21f8c3cb;0x23b87de100ae7;0xafd1252c10153;0x62871bede34c1;0xc9b8dfe5c064f;0x68ca2da2a4c9c;0xd85e7a88b85e1;0xa1e7e2f9ea7e4;0x8fc0bd3b8fa];[0x0;0xca00112fdd004;0x6d246ae8f4ff0;0x1d270f2a4e752;0x33806ad20c73f;0x3cba9638d2884;0x727e3deb0a26b;0x9fd1f50a4c548;0xdbd275f9af076;0x61939a7be4f9c;0x583b643e5ae];[0x0;0xc01e2e9811ea4;0x7d1b42653e7de;0x76176ce166911;0xd1549b8f5103e;0xe5095596b5a66;0xe7e42b99fb21e;0x64828f3c83c56;0x5b24933f9a72f;0xebe5e7f68d84e;0x810e4173ecb];[0x0;0x58330611bac10;0xb99471a61d523;0x517388ba83cd6;0x8cc81946ddc41;0xa59c29ffae0a9;0x32ec2f814ebff;0x9607b7bba950b;0xe104b3914be9;0x2e47c02da679e;0x6690b1d263];[0x0;0xe28f59cd426cd;0xa2dd859edf381;0xc5c877e9762b6;0x9680b2cbcba3d;0x55d6cf50c2316;0x732ae39f72b2a;0xd598d94718154;0x1f31cf2188ecf;0x4e96d14028d59;0x4660db5e4f70e];[0x0;0xdfbf019deae1c;0x1c03552f1e93;0x1b6dc7b3021d6;0x3b817f840dabd;0xbe414d8afa39c;0xba00cf71cb757;0x6c77ba082091b;0xcd14b99fe176b;0x43963df5de183;0x919bcc4204]];
 [[0x4a13cb7ad9b51;0x2e5aec06bf1a3;0x8c8f38437d91b;0xc986074c8526d;0x78d727355822f;0xa65896261cc9a;0xf43c1c090897d;0x67133077611c4;0xcee2dca049d3d;0x56dee7cd3df];[0x94a10f08df41c;0x6be12ebe2e8d8;0x78644b0381448;0xd8508ed95de4b;0x5c70c3a6994e;0xa66e8f0eeaa63;0x55ed667fd42f;0xa7af318230c5e;0xa5f1f244f3c10;0x4abfa5b0946];[0xac7c5240b5f3a;0x5c60d2d318626;0xca57911f48c1b;0xecab697323a36;0x8d13645601906;0x439bccf9fd387;0x5dc389f9da32c;0xe9d0a8f5f09a2;0xb4ceca86e6bf7;0x8c7f4aad005];[0xcb7fb5e5e6244;0xb2d43291c9947;0x47d930b61f1c6;0x565a532d7ee04;0x92e1971aa62b1;0x7bda66db44a6c;0x21b98d9906603;0xb85aba4c72ee2;0x3809094b62aac;0xcbde2aedc];[0x77b902193440c;0x6f2e2b64d95a7;0xb9927fdbfd2f2;0x61f290a813eca;0x155518d3c8fa3;0xf2fdc6fd1ebf7;0xa30fe8d6e038b;0x91a5cd7945f8f;0x50b929b40f65f;0x74ff9244bcb];[0xa21d128b28899;0x23107ec17b621;0x4f2580901f265;0xef2a0af05f0ee;0xfebf3c1ab0b05;0x33ca892b5f1ea;0x2d1917ba8a654;0x3e31cad58e4a6;0xb6d3052cd83a8;0xdfee2fac7f0];[0x0;0x873fdd65cb6f9;0xa618727f3e71b;0x237abd480bb4a;0x9080daf73cd98;0xaa4fe4fc43e08;0xe6fea9262146f;0xdff29a278a83a;0x4adb9b757d022;0x2a32dce5001d2;0x6b6f92fc4a5];[0x0;0x6393a43ceb11b;0x4b28b0f28982d;0xb64934d0164d3;0x60a0362a8c2b8;0x27e5463a9f615;0xdaff9cdcfae5d;0xb84d6814ae68a;0x78fba0b3a7396;0xe94f87f5bc0f4;0x2e24e72cea3];[0x0;0xc9ec46f82349c;0x4fdc9c5db2c5b;0xc8945e741f28a;0x3ff6ced9061c6;0xcc2e7ffd3c814;0xf06a48a4698a6;0x9b2b5df295d23;0xf0fd43b3b4dd3;0xb035ac7f56779;0xf820ef1b19];[0x0;0xdc2593f7130a3;0xa49a10511017a;0x576be107c2ee2;0xbe7eb7675414c;0x1aff853842ebd;0xaeb685baf58b1;0x551314765f752;0xd0728b5569499;0x8f5c34e9a513;0x35617aaaaed];[0x0;0x99d75513bf596;0xf457af5d3fb0d;0x78fa65285326e;0x3ec5a6dc20ca3;0xcb81af69f36ac;0x33581b468e10a;0x8e3ff6ce859c0;0x8885e4a342aa8;0xbfadd8f1cc46e;0x20c3893ed89];[0x0;0xfc27ad494d33c;0x3628fd3b07bfe;0xc58cff0dc2764;0x359a032f718cf;0xd16680f1d3dd6;0xd465ff56eb30e;0xa6ea5af970e97;0xf2e1fbbdc566c;0x1c3cb41372f50;0x1944421f61d];[0x0;0x3b22fdf8122d;0x2a489b5058c51;0x664e100a871c2;0x8a25397f47bcd;0x3a7f45a3ba235;0x395ceb8724bb5;0x15c013c5c5b4;0xa874fc8d36eaf;0x4c5a882d655ba;0x30367de66ff];[0x0;0xcbf1994a2372e;0xa6d96c6a08783;0x32b6276d390bb;0x499b44bfb3192;0xf421b93b03393;0xe77328c87c49;0x42750c7a5523b;0x46e5fac02c207;0x808787b7a9689;0x3960a423bfee9];[0x0;0x36163eb24ef6c;0x1adce63763940;0xbcc811d761af4;0x1d6c3fd72cc68;0xa778db2428c84;0x20a11cb34ff00;0xf5729661943b8;0xc43afae7467a;0x7dfd9ecc4060f;0x24e80af5f60]];
 [[0x4a13cb7ad9b51;0x2e5aec06bf1a3;0x8c8f38437d91b;0xc986074c8526d;0x78d727355822f;0xa65896261cc9a;0xf43c1c090897d;0x67133077611c4;0xcee2dca049d3d;0x56dee7cd3df];[0x92f91ec34c014;0xc5a6ebd86ec58;0x3780a08948326;0x977f8635609d7;0x968cb4e3c7254;0xf9a4f3b79d523;0xccbfc8260ccfa;0xba48912d0707c;0xace576e397141;0x9c2e98d754a];[0x351fa5bb8599b;0xb834795bc0810;0x7350907bf660c;0x2953c6b4f8ab6;0x8682a73c3b1c3;0xadac3d0dd65fb;0x804a51aaaa985;0xd26978e78c3c6;0xf684e9af49255;0xc410c3512b];[0x1257c40d525f0;0x652f5ed2171a2;0xc180c7cbc558f;0x425b47388a518;0x7312f7698278a;0x2d804eed50ee3;0x5d183547e2167;0x82ced8c8a177d;0x9612632c9e57d;0x5ac063f3fb9];[0x784680cfacc43;0xfb62189b33aa1;0xeccadac1b93ac;0xbf3e485374fb7;0xbb6c24dad1e3c;0xa91da5d16de03;0xba53edab20383;0xa869d61ae505b;0xc5a06c7ac4478;0x30d63cf515d];[0x11750bd58086c;0x97cca101af500;0xefb548ab78cf0;0x96896e113f0c1;0x2348a9351d315;0x20bc1edabbd33;0x1e91b8d03886e;0x7407b2e5bddea;0x49330cfd895d9;0x578f736522d];[0x0;0x873fdd65cb6f9;0xa618727f3e71b;0x237abd480bb4a;0x9080daf73cd98;0xaa4fe4fc43e08;0xe6fea9262146f;0xdff29a278a83a;0x4adb9b757d022;0x2a32dce5001d2;0x6b6f92fc4a5];[0x0;0x8b1146a018cd7;0x90250be8b2e32;0x267e7706ab18f;0xe0eee865a7413;0x49438a2b53d97;0x96fa6f244777;0xfd40364d672f5;0xb6a2eb272e23;0x594e1f13b3028;0x1485ff4dc28];[0x0;0x4e006d2a0fca9;0x4071b53d5bf11;0x9d03f8a799987;0xc8142df9ccf76;0x6ac11cf6d3f62;0x4a2476c4c2125;0x253e2d2d5a9d7;0x8be2fff6f765b;0x4d06a1eab815c;0x4d1caabe059];[0x0;0x3cef5f2c977b1;0xa1a7e2a4e5350;0x80c15b3cb8833;0x4cef6cd6d89ab;0xa47f8563b3c02;0x5d29126b101a1;0x3e6714d5a7ff8;0x1a4c3b6daab3;0xe05248daa2fb4;0x2b8960e66d1];[0x0;0x8826236403031;0x2388c616706a6;0x202654383f5cb;0xe6d57279ceab4;0xd6c585adb7c85;0x5c82b20588998;0x445c9bb07956c;0xfb9cb91d8fafe;0xd5b83b657d54c;0x1ab8c296d12];[0x0;0x3714e9aca649d;0x53d04b8f2b174;0x95f7155a21897;0xb550dc857c048;0xfbf0336d9e4a4;0x933326c674a3b;0x8636ecba6d565;0x7e19af3c06bc8;0xc7e0054f1321a;0x7da2af16b42];[0x0;0xe3fd4931323c0;0xfc69360c34112;0x6f30d65ff2c02;0x1bfcd7e0274ea;0xe6d9ff340ce7a;0xb315578382995;0x9eb78251cb6ca;0xf7b33557b0827;0x9c05e54b03270;0x75ee7894670];[0x0;0x10e077adb3f0e;0xd766fe7fea408;0x60e3770407af6;0xc2a961536fb04;0x6f46c8ccd32a8;0xb93b7ec446d86;0xe5071cfcaaacd;0x2ad8a72d04652;0x3fe388cb51e1e;0x228323709e7cb];[0x0;0x2095d92f0a297;0xa16badd11adc;0x837889614db7a;0xe312ce4d0ab8b;0xf35a207a7948a;0xa38a4c2c008b7;0xd899c866d354c;0xd9d46a0e6f899;0xf2bd7db2fb319;0x1a052e7fda7]];
 [[0x4a13cb7ad9b51;0x2e5aec06bf1a3;0x8c8f38437d91b;0xc986074c8526d;0x78d727355822f;0xa65896261cc9a;0xf43c1c090897d;0x67133077611c4;0xcee2dca049d3d;0x56dee7cd3df];[0x12172b044d583;0xb751febf9cb5c;0xc632d5c2bfac9;0x6ee207cfde061;0x93072ae645065;0x1bcca67d1985d;0x78e8188a1d180;0xd2306388924e7;0xe60dc1fe8d59c;0xa601a3e341c];[0xc1a001e723d84;0xa5e8444265d99;0x589c07397db97;0x9243b262f4eda;0x6595b2abaa628;0xca810542edcf4;0x948e6545cd2c3;0x8c20cc7304897;0xe401f22a18446;0x81bda8f2ac];[0x1bee0cd577d95;0xfe55574189963;0xf29763fbb0e00;0x5147cb7d0bae9;0x1f675bb0cda1d;0x8994c82f7b82d;0x359886451835f;0xd6a1468f7a6b2;0x4c614d3d57d58;0xa41199ab23d];[0x335a4c7f551d4;0x6edd659ba5289;0x973731024c121;0xd3c67e1515ea0;0xb49d358bd4ba;0xada13881debd7;0xdc7d56d7821a5;0xdb59feea23d80;0xd5cb0a1415310;0x1362d2e9326];[0x47d7d0dfabc67;0xd51f683da11ae;0x3bd9d8c929324;0xc180e8e77c81e;0xbc5041c4960e3;0xd3c4f6a7be8c6;0xa5588478539b4;0x469d40f8ab0cf;0x16e8ce049f7ff;0xd4f1e9ce8df];[0x0;0x873fdd65cb6f9;0xa618727f3e71b;0x237abd480bb4a;0x9080daf73cd98;0xaa4fe4fc43e08;0xe6fea9262146f;0xdff29a278a83a;0x4adb9b757d022;0x2a32dce5001d2;0x6b6f92fc4a5];[0x0;0x88e5122a1bcf4;0x8864bc7b1a405;0x282bb32a41c60;0x1f0d51070e7dc;0xf58dd7e7a716c;0xccd2fc73f54b;0x5aeb5f68906f0;0xbf95b9062bc1d;0xbe8e22571905;0x3a52452dc1b];[0x0;0xc0e4453ebb756;0x46e855bae647f;0xfc5ecd32fb254;0xc776a18103914;0x85e0242e872d7;0x7e77c12151b2c;0x35f17ca91a82d;0xb3ab020223a53;0x39d85d6d485ac;0x5a460ea0701];[0x0;0xb676980c94bdd;0x40fea174cff8c;0x19ab53e722add;0xf4c5eebfa483a;0xcae2f020d0378;0xf40eed754d64b;0x77485b9a6f199;0x6d6c2e4d84493;0x5ea7d83f738d7;0x1a3833d5557];[0x0;0xfa2f2017f434;0xec4cbadc04b4c;0x6c682b6a3e5cb;0xf282ddd1eb44d;0xcdb303e3cec6;0xe5877eab2093b;0x67638c5f7aaa7;0x75e7b860c6503;0xc182c6968f9bb;0x1017c90bb13];[0x0;0xaae56c28fecaa;0xda376bb6d6c85;0x527d97ec8eb21;0xf7d47dcc43a42;0x4e8097edb5278;0xc9a30e896d5a3;0xada17e3cc1696;0xe54acef560bce;0x5c17fe2f93282;0x93144c22f33];[0x0;0x4e84965129fd9;0x733abf7ce8152;0x5b7915ac8dea6;0x19577c7bb5d0e;0x23566a46ac488;0x8aef3224f3e52;0xa0e7797309a0f;0xe9118df49bb60;0xdee14fb4054d6;0x45fa30ed2bb];[0x0;0x654e8760cbe5d;0x128c7f179003d;0x9a10289528f92;0xc409e7e9bf059;0xe3ceee648e5bd;0x81eb58d3e3dd7;0x279878af940fa;0x2eef12a2b7ae8;0xfe4377203616d;0xb40707da8e382];[0x0;0xde188c1ab4ee1;0x394d88c643139;0xeb02eb2b21378;0x857d7911c806a;0xd4cdaf289ba12;0xbd0031f430de5;0x238774e8be03f;0x60ed12e54abe;0x934163e8d5518;0x4bc89986579]];
 [[0x4a13cb7ad9b51;0x2e5aec06bf1a3;0x8c8f38437d91b;0xc986074c8526d;0x78d727355822f;0xa65896261cc9a;0xf43c1c090897d;0x67133077611c4;0xcee2dca049d3d;0x56dee7cd3df];[0x4299e1e17e39a;0xd4fb5d0363a60;0x6517f344b1f9e;0xc434b90823691;0x94ed1a8779526;0x8fb55e1fbe3b5;0xb1c9d115fb76b;0x78ab9db9c1598;0x1f725203d4f5f;0x7e1ebd0a341];[0x79f9970fee20a;0x15c36d3f3a47d;0x5b95ad1804948;0xd38ba45d94dd6;0xe13611eb0fb36;0xc47a5e4edda2f;0x4e354c0a5ab0b;0x7f080cae76d89;0xcb9adeb9d8622;0xd2661f855ff];[0xcce5517c81f66;0xe9103aed5de10;0xd29dbac3c5abc;0x8ae257e8fea7c;0x2c7733725f311;0x1c3af7f8640b8;0x556a9fe474446;0x826a7dd2f68b0;0x97595aabec18;0xdb9e2acaafe];[0x9e0cdad18354;0xf0cf9b6eee9ce;0xbfcb095adc198;0x991b4bf9a3d9e;0x36f70920fe08b;0xf4f3ba65e34d;0x6d2b96f6dd32e;0x615d9a8fa408;0xdf572bc0b8061;0x88095b897d8];[0xc0daf23f395c1;0x672843dc0d3cb;0xd855bc29b1be1;0x513ecbf70629d;0xb76645760dfa5;0x2d62978d1f479;0x430713558cf22;0x76edba9a6f386;0x9cb1b8afe524e;0xf7ccd9f226e];[0x0;0x873fdd65cb6f9;0xa618727f3e71b;0x237abd480bb4a;0x9080daf73cd98;0xaa4fe4fc43e08;0xe6fea9262146f;0xdff29a278a83a;0x4adb9b757d022;0x2a32dce5001d2;0x6b6f92fc4a5];[0x0;0x7e2e2c20e6eb3;0xda593da6146e7;0x869ce7ff19e8;0xb4ef074609120;0x165fb3b596de2;0x276616fbb6627;0xebb035169e22d;0x95f6f19918368;0x4a715597469be;0x1877256307c];[0x0;0xc3c9912355516;0x587e43f2f745d;0x96eb31fc44b50;0xa23bccd3863d6;0xddc458dd90807;0x786ca83deb519;0xcdee7cd229c63;0xf2c094242ffa2;0x3d81f30c7287c;0x326554bdd30];[0x0;0x9b82d8ccf03c5;0x9e3ffb2976a8b;0x83b8c269ddd28;0xb14aa0fc2ff6f;0x49183b0a9a569;0x2894a6ca03bf1;0x8434c9bccab94;0xeefef7499ada2;0x128140c11f123;0x88ca546a8ce];[0x0;0x2c4f01fdad7be;0x595cd33563a8f;0xaf3fdd3c7873;0x9323047a804d8;0x95d4e0bec5881;0x99badf19ff613;0x455bffb08d4c6;0x28b36bed1cab6;0x3f9f949c6e131;0x53f56471802];[0x0;0xaa6150d795ee3;0x44e1adf397b9c;0x292190b4c2f6d;0xd4938448edd11;0x556dd41f452be;0x6e7ee21e619bd;0x5155755b6c6fb;0x946f4c81ddcd5;0x7280c38fec53b;0x521ba032a9b];[0x0;0xfb2c1cc662f2f;0x86020bcb9da7a;0x1dcdd4e413a6b;0x753bc3d6f8ab2;0xddde9197bec4e;0x11941311c1b2f;0x717c0c9904c9;0x58ee82b3c8004;0x41649925a09a3;0xe219389bce];[0x0;0xea25099c4c2f0;0x4eac4c4ea5e4d;0xd0f224c9b8ef1;0x7f79c7812b404;0xaa8878cd1417c;0x74e531e641543;0x622c1ecc1b984;0x9d17b366822c2;0xc4e535bfd7d22;0x620fe753187b4];[0x0;0x250edb4a6b96;0x961b5ec349c45;0xf286b43b6ba72;0xf858653034bd;0x9fe0afe7a44d3;0xca7576777be43;0x767c6a7451d22;0x137fe7f98d2e8;0x1a3a2d7a47099;0xaf735d5eef]];
 [[0x4a13cb7ad9b51;0x2e5aec06bf1a3;0x8c8f38437d91b;0xc986074c8526d;0x78d727355822f;0xa65896261cc9a;0xf43c1c090897d;0x67133077611c4;0xcee2dca049d3d;0x56dee7cd3df];[0xe9bfa18992650;0x4e415a7b95467;0xd6ab1dc2bac59;0x7d910f00c9d0d;0x2623ed8d798c4;0x9e983c7bebb3b;0xc1a0b78f7c35b;0x6e5e648b9442;0x46ddd73b55686;0x4923d1c3ef4];[0x2060a69cc8078;0x4a79129754dfb;0xc2d3d5f6ef5bb;0xa352a514f00f0;0x85d379ef8d41a;0x9ae20421f15a;0x46a5e4678c9ae;0x66204be1bc808;0x86f8e3be5a23a;0x27f0c1dba4c];[0x541d09d28f653;0x6d2f019247f9e;0x1b78cac620441;0x1ae74b8e10dfe;0x1d250658d58c7;0xeef953133a56a;0x3901ad0ab1a78;0x25b0fa214e9b0;0xfc02185bab814;0x910a160c890];[0x6df0d62a01241;0x43bb5d6a7e7f3;0xe31e7b6a66d47;0xd3a3f4df24e4d;0x8926ef0ebe98;0xda70ca6aad363;0x754ed12aebf9a;0xc45cd2f79ec82;0x7b1aa82f15ad6;0x1a4ba321];[0x248d0c7426106;0xe1dfc6995414c;0x9658408f49b61;0x9b6f2e96a00ad;0xca614e067168b;0xdaa70a105da92;0xaff6dc5e231fd;0x122499198cc1;0x675463f3d243e;0xd4b2bf00630];[0x0;0x873fdd65cb6f9;0xa618727f3e71b;0x237abd480bb4a;0x9080daf73cd98;0xaa4fe4fc43e08;0xe6fea9262146f;0xdff29a278a83a;0x4adb9b757d022;0x2a32dce5001d2;0x6b6f92fc4a5];[0x0;0x1e79aed2508a1;0x5af2c4815871d;0x2b71d921d1c3a;0xd922e5f35047c;0x46c60ea25eebc;0x879ce019c7945;0xbcd8fa3381bdf;0x93b77e67a9088;0xb4cae651ba683;0xdef6575ec1];[0x0;0x1b457af003a72;0xcacf4f0a306a3;0x8ec5ce4eded59;0x4fbe0e0fab717;0x863a605f5d8f3;0xce67b19673b17;0x40e0208355a5e;0x4d9c1e0e968f6;0x8bff3e03dada4;0xd6538f1fe7];[0x0;0x82896ae32af7a;0x37cea2dcd6860;0x59a76732d5166;0x2a0cdeee335c4;0xa42ada09713fc;0x7031e333876dc;0x3c8f63f17c57a;0x90b5bdbe03eac;0x23494d4f1dc61;0x4a771fd9632];[0x0;0xbca6aa912b053;0xf7918f0e17634;0xc65f5fbc13f28;0x4ccc1797c492a;0xb599396b2c2f0;0x3bbf770a32a05;0x76729e70558cb;0x79d01213d85d7;0xc220b4c708c9f;0x2db47a7b858];[0x0;0x6c7115423a10d;0x7862b31279923;0x879528826770c;0xa9240f10641cf;0xbf0266dbeecc5;0x5bfb58976c25a;0x887c2b79ca06e;0x1c90c917e4a62;0x3116e1e09bc9a;0x15d31886b47];[0x0;0x941d37494e025;0x881b2efa8068f;0x7a54390021ffd;0xd36bcf287c7e;0xf11d16343d8de;0x654f5ee6107e6;0x2dac7e811baa;0x89fca08f38cc3;0xffaaa117109af;0x21cc368b3d0];[0x0;0x7309c356632f2;0x479b79907310b;0x4612b72099eed;0x2dc3c42fd8aa9;0x466bc40c5f083;0xd55c500dc0576;0xb049eed9c65a8;0xf5cba02e5d8ba;0xf89af7da6fd23;0xf66874e708ef3];[0x0;0x293547127d4b;0xe58838dff96a4;0x2c51523426b6a;0xd76dd3b8540fe;0x8599f62cb3df4;0x7628d7badf3f;0xaa287b2f86774;0xb5f652e41edf0;0x95826266e64df;0x718c283b1c1]];
 [[0x4a13cb7ad9b51;0x2e5aec06bf1a3;0x8c8f38437d91b;0xc986074c8526d;0x78d727355822f;0xa65896261cc9a;0xf43c1c090897d;0x67133077611c4;0xcee2dca049d3d;0x56dee7cd3df];[0xfc2176bd2bd52;0x2a6e713d7f58f;0x3eae53f51c389;0xabdc65b60fd4f;0x9d682623928f0;0x96d409f7777dd;0x9b1a6bdc308df;0xb6dca9dcce108;0x287ed162f6161;0x2e75ed17096];[0x5872fcae7bcda;0xfdff2ae1cbfb2;0xaae43395dddd6;0x78335655c4218;0xa2ae45d68de56;0xbaf87174c93fc;0xfa4f16cf5c915;0x94e455f32dea4;0x9a92deb0f531d;0x624ff155c9d];[0x634f91a7904a8;0x4cf3560f23f09;0x55dd5671a221c;0x197fdb0b8b3ed;0xd7b0431974bd4;0xb3457b42f4a1e;0x111472192a21b;0x661585e302785;0xbba6d078651fa;0x41200b9a6c2];[0x1f6ace2f2dbb0;0xb6bcbf7c47c57;0xd00331da0fed3;0x165122894d80c;0x10bfe290725a0;0x2c592b4d6ba99;0xa5be3f2694a4a;0xeb1be692ea870;0x35e38b6d8722b;0x43cfe1a8ca5];[0xddc4de4ae5a2;0x60a8ecbb7632b;0xc17c70c3cf72b;0x2f5585addb277;0x303684790483f;0x7f513f4a00a29;0xfb42549ceef60;0xe23c81f1e5051;0x54cd46ff0f193;0xd44c27c2b1a];[0x0;0x873fdd65cb6f9;0xa618727f3e71b;0x237abd480bb4a;0x9080daf73cd98;0xaa4fe4fc43e08;0xe6fea9262146f;0xdff29a278a83a;0x4adb9b757d022;0x2a32dce5001d2;0x6b6f92fc4a5];[0x0;0x3f7d7fc64511f;0x696620235ed25;0x71ec482c085a;0xcd37a597c359a;0xf7f74a5e94239;0x238dbfdee6409;0xd885c3d1fbd0c;0xbe5fd7f12448b;0xddb26032d6ea6;0x23605f9b81e];[0x0;0x8017120085b2e;0x6934be587036a;0x7c54025b2016c;0xa6307339d9ac7;0x53b785b3e3da4;0x7f72af44bb7;0x97daa8abf54f8;0xd26f19fad54a6;0x3bdf2a473f347;0x373ec89201b];[0x0;0x42dd6d1694614;0xa905df93d2b89;0x5e4e67e6e96b1;0x5badbeeef3b37;0x946c6af8fe49c;0x848d9c9b5c5f4;0xe80a8ca8971d9;0x14caf928620c6;0x30ce95b80dc71;0xbaf6b8f71e4];[0x0;0x82ad519fafff8;0xf29b44cffb821;0x83bde89ccdbbd;0x6d1fa35a63f13;0xc12eb163602a6;0x7003542e9bd12;0xdf64434c1c308;0xb303d3355ab9f;0xb9c8caba3effe;0x72c0f73cb0e];[0x0;0x2c39c9ba18af8;0x1db5662626cc0;0x730c3eea317ae;0x3c6bf3f6b7fd9;0x5fa0f383ee6ef;0x3f1087de77f23;0xc02832d38aa2a;0x862951f45187b;0xc452046107ab9;0x5a024660769];[0x0;0x62770f187059f;0xce05d039aaeb6;0xc0ced624f06da;0x9d8edb9ce1abd;0xf297916b80795;0xa5529594d54ad;0x813e6f691bd1a;0x48ebfc9daf52c;0x8f0f3fc18f0a5;0x278a31bda3f];[0x0;0x79f0eb93b3619;0xe8f89368865e7;0x3d3b8d494240;0xd791602930702;0x897601a5d0f4f;0x476bcd2457ceb;0x3c79ce43ab42d;0x4740cc1854dbe;0x32e5039375fa2;0xa374836f6359e];[0x0;0xe3c7f93418922;0x327d31c0393b4;0xa59cf27d1766a;0xed0d6c22645c9;0x61818131645e6;0xb8ca5a18a9e42;0xd9f306cd9cc66;0xab660f8373df9;0x576f2c22ed07c;0x8aa9d008c0d]];
 [[0x4a13cb7ad9b51;0x2e5aec06bf1a3;0x8c8f38437d91b;0xc986074c8526d;0x78d727355822f;0xa65896261cc9a;0xf43c1c090897d;0x67133077611c4;0xcee2dca049d3d;0x56dee7cd3df];[0x3ed1a4887e17d;0xc8794b560da9;0xdbba9b153dbbc;0x3362577172e4f;0xf35bdb86888bb;0xe8ba8514e3663;0x550a99d2c33d5;0x5299e90a10092;0x4a3d334b982b6;0x69d0b0d2290];[0xbfe7976fc54a3;0x62ba1c1907d1d;0xe8a7340ddba1a;0xc305271deef20;0x3348476b73f1b;0xeb3782c93a53;0xda141cc0d5b73;0x136ea89ec701;0x6f5abbbe285c0;0xe01dcea2c10];[0x15b9dc0d11be;0x133bea289934d;0xb75f32b363e3e;0x9085df79bf9ea;0x1e32fa51765ae;0x5790c5bb44731;0x988fdc0661399;0xe88ac34a36102;0x97a5280c2212f;0x1a735ead5da];[0x3c172ae388e5c;0xfde692935931d;0x58d55afa82a72;0xb4f551f29ef29;0xf9d5b0e7aa0df;0xb5c855f679fb6;0xe46da11096ada;0x3586613ee9520;0xd67c9b2a9072e;0x71597daf715];[0xa66164f893188;0xd87ab06d9f04c;0xbf8b81138f20a;0x6a1205859e07b;0x3d4d4bfb5857a;0xc2c445742e96e;0xc7c3eec6e3d9d;0x758a28df91d47;0xc1698d37351fa;0x3954b7cf296];[0x0;0x873fdd65cb6f9;0xa618727f3e71b;0x237abd480bb4a;0x9080daf73cd98;0xaa4fe4fc43e08;0xe6fea9262146f;0xdff29a278a83a;0x4adb9b757d022;0x2a32dce5001d2;0x6b6f92fc4a5];[0x0;0x73447f9be55bd;0xb1496c72782a4;0xb5009588078c1;0xbd9e07bccad94;0x509c7348fa807;0x198ba484483c;0x2eb904dc985d8;0xf52c5fc7c5ec9;0x2ec11e5569618;0x87e8f1036b];[0x0;0x61047535f3299;0xa1d3dd20597b0;0xcb504e4cba458;0xef8d1625949f5;0xc9882912ce3f7;0x394a136bc43d6;0x6dce8a0d2ce6a;0x73338eed66107;0xeef61780b4be;0x65bea19ed7d];[0x0;0xa3bc285f9a06c;0xf821bcb5bbc88;0x6862736e8e458;0x91c930f92dc92;0xb9bf30491c1c0;0x52627320198a3;0x27ae47e8d6481;0x873ac14f51750;0xf5a062adf9b06;0x7bf8ec589a7];[0x0;0xff42189d86910;0xdfdeb61cb820d;0x9173a64e49ec5;0xaf2d49266e553;0x521e96d1090f7;0x5d6c9ab8b6f51;0x235ab4edd25a7;0x6901f075849b0;0xeaccd78b6b993;0x4c175870f1c];[0x0;0xa7849479ad495;0x4d1a5ddbf76f6;0x1399f5c3e7343;0xc76b8d2bd15e6;0x9fa8d6e8f5055;0xfb5949592e395;0xca145021e5457;0x13de2ec9e4208;0xa6b38caf576c3;0xa5c4bdb2a3a];[0x0;0x9755fc988b2c5;0xa1f0d85c36428;0xaf95dafcd1529;0x1fde47ac5751a;0xf34ccfac45bb6;0xd15f4d71060d6;0xf6533d97b7fe9;0x8d33cc7349256;0xb6b3d7b60f4f7;0x2697c349869];[0x0;0x6540eaeeda17d;0x413ea973f87fb;0x5686888493ff2;0xda52c2cc579d5;0x75fde17b114f;0x3c52954e7509d;0xe15d811577bfe;0x4d09170fad0ec;0x296a73e43b6a;0x7c0c8540e7081];[0x0;0xb26f052e7c0ee;0x1d9d51c442e29;0xabaeb1d374e67;0xd5b5fc9b2a281;0x671858a222d9a;0x9740d9dce0aea;0x83c1c889ae591;0xd5d2e02263203;0x97db0c66ebb6f;0x2d23ba5c68a]];
 [[0x4a13cb7ad9b51;0x2e5aec06bf1a3;0x8c8f38437d91b;0xc986074c8526d;0x78d727355822f;0xa65896261cc9a;0xf43c1c090897d;0x67133077611c4;0xcee2dca049d3d;0x56dee7cd3df];[0xdda6113fe9e3e;0x14da07af43881;0x310729ca0ad95;0xe9897f6c28f5e;0xb1fcf1815d214;0x798429e26b04;0x2f0ee90171280;0xc5cbd64310b54;0xd1f9b630c7a4e;0x1421941da6e];[0x2cc49c9f1f276;0xdeb05c143f0e5;0x939014b88e095;0x61fcfefd9ca06;0x3616be0783616;0x54e756d82a1e;0x5f05e70b0d646;0x4a55cc3ffe71d;0x429f919171a3a;0xef2451f0f31];[0x8e89e8e260a7b;0xd6bc776993986;0xb0dd4add25e76;0x466f1897dda9c;0x61cc3eb26cca9;0x552d522e60e1;0x6c3436e74b6e2;0x4ea3f97dfd688;0x732925a779b0c;0x24b6c7d77ba];[0xc08bb2c08a087;0x7ba05c1b58eab;0x3c85f9d84b3d3;0x58f2b1aca6bb2;0xcc141cddf16bb;0xd2154bb82c81c;0x711c0a81fa23;0xd50464a137358;0xcf4fcb6c16362;0xe4624160e8e];[0x7001809de351;0x5e42c45e04edb;0xdbfa55be0c123;0xb3ee3017a1917;0x4d14b25d86c7e;0x81bec49f5c825;0xecfc441af629f;0x8aadb53c180c7;0x440784b9200a8;0xa85176d4fd1];[0x0;0x873fdd65cb6f9;0xa618727f3e71b;0x237abd480bb4a;0x9080daf73cd98;0xaa4fe4fc43e08;0xe6fea9262146f;0xdff29a278a83a;0x4adb9b757d022;0x2a32dce5001d2;0x6b6f92fc4a5];[0x0;0xc4790dc19bbe4;0xd50ff150b2314;0x814d2a533fcdf;0xc8987c18ba7ae;0xe7044cb95186b;0x97fedb51b260b;0xa29a153d0f76f;0x9e7fbdc0abfc0;0x693fe2df0bae7;0x1b716755348];[0x0;0xa08cc26b70c8a;0xb64df6988c19e;0xb6261b1345f91;0x2f54d53df4316;0x404d6d04ccd86;0xc9399b72e33c2;0xfb5920bdd0c88;0x5f123359d4356;0x8b303044cbce7;0x2b9a7a7f3f3];[0x0;0xa672c1bdcb9cd;0x4a2919dec3ad0;0x719261bad5fac;0xd594b6db06aba;0x6d904f8e47ea1;0x4f44f2f1733f0;0x7fd9eb5fbdc8b;0x8c2549edae174;0x9abf40ec588ba;0x5e2b75ea20a];[0x0;0xc9bacdf1a73bb;0x2a5b6e27aee2c;0xf1eead592fff;0xab8ff166423e2;0x67243d989f31b;0x847af011ea978;0x6329b09dbeadd;0x97be83133afee;0xd01b24b877050;0x39cc917f0e2];[0x0;0x488eb4ea7e06f;0xe953bc9c9dc3a;0xc1a0cc7d8ee88;0xf95990cd40e7a;0x36d226f3e67c4;0x5e414f107ea02;0xde731fa41d87c;0xe462163a92e76;0x4f46aa6e8a2aa;0x470a951e153];[0x0;0x2c33384b547e0;0x4600d6b8d1c53;0x87ac5e4f35081;0x4037177a0847b;0x20abe07891574;0x59efaafd8bf98;0x8cdb7db05eadf;0x7ec48b14f82f0;0x19223349067ca;0x499cd8aabd];[0x0;0xc208b81157c23;0xfcd0c04007c24;0x804f77345cab7;0x493284a3fe219;0xe10466be045e4;0xac630ef3e7f54;0x37bf899d0bbd7;0x32a250f52f421;0xec928a70dd7fb;0x670171d47d5];[0x0;0xb11fc37740095;0xd7f08b4388894;0x191c89791ebc2;0x6d5a9bb8eb21e;0xc161d57903f08;0xb23872daec539;0x13bd4abc6a5b7;0x25c87406e19a0;0x87336c2290aa2;0x1774e1b00]];
 [[0x4a13cb7ad9b51;0x2e5aec06bf1a3;0x8c8f38437d91b;0xc986074c8526d;0x78d727355822f;0xa65896261cc9a;0xf43c1c090897d;0x67133077611c4;0xcee2dca049d3d;0x56dee7cd3df];[0x53163ff720161;0x50ede04b56a1a;0x547e2cf1f5df4;0x9e17e063a1d6b;0x86956f7473d39;0x4ecafd5e56eff;0x4e2b7131a409e;0xb9fe87ac63e02;0x2894c51d2785d;0xd9e2dcdf651];[0x84925d4b132f6;0x90cf7b1da5656;0x570b8d0a78766;0xfe5cd8fba1ff8;0x5187cb434103c;0x343519aaacfae;0x2a15b49263971;0x9ad812e2906ec;0x48d52a7838dd8;0x47cee382463];[0x7eb21cd2a31d1;0x211fb5ab349eb;0x98ea978bbdadb;0x76f4a6a137ba;0xb7d8d982b76c7;0xe0f873bc41697;0x6beb8e33a64e2;0x41b0aae4a6fbc;0xbe860adabf9a2;0x7ef963186e5];[0x13bfd30b90bee;0xeb479dbd4f303;0xd743039c763cb;0xfb51db4bd9bdc;0x2f0d4f5330e36;0x5c809a28fbcb5;0x7f88a2cc109e8;0xec5b19938adab;0x5b9c0cbb439f5;0xa06aaea69a0];[0x672acd172cf3f;0x773f62c911a62;0x976533da18a5d;0xef5189a3f00ed;0xfe5c5df2d74bc;0x1acc1a6c76b9e;0x8e09046e1891c;0x949f4a83966a8;0xf9fc7cbcc9719;0x893b73b6414];[0x0;0x873fdd65cb6f9;0xa618727f3e71b;0x237abd480bb4a;0x9080daf73cd98;0xaa4fe4fc43e08;0xe6fea9262146f;0xdff29a278a83a;0x4adb9b757d022;0x2a32dce5001d2;0x6b6f92fc4a5];[0x0;0x293023e258b51;0x1d48af1270bc7;0xa83004a2bf97;0x9287a88a959cf;0x989c76e90a971;0x10b2aa8284976;0xfd9d174e2be82;0x7d80bc9168dc3;0xa56dd466230b0;0x4dabf3a8ebe];[0x0;0x58bd7770d4eb8;0xc5ff27231bd3a;0xa8b3332e15b45;0xf253588033d9f;0x3c7f3890695d;0x149d221b65bca;0x535102f1da18f;0x720634a175d79;0xac6c6d7760e9f;0x1b52a5d107a];[0x0;0xfa5a3dccca042;0xbf0f9c95dfbd4;0xa365ea2407dd6;0x706918211bad1;0xccc0c269ab469;0x646c6cf10f422;0xa264ed6f6d344;0xa039c26bcd548;0xd1ef6770a58a6;0x4e17de6a0];[0x0;0x86d9bd08dbfa4;0x7edca340e0aa7;0x1a547ec578bd;0xc6f6368b4c214;0xafe389e515be9;0x6b4f4a45ee163;0x46bfd964a58ec;0xd7e6ef25f0f1b;0xf1fb1aa412396;0x2fee84dc7];[0x0;0xe70210372fbd2;0x29e1490baad1e;0x4cf97b9e69c50;0x9e4454f017b87;0xde6de9223c131;0xe542e958fbe05;0x7819af8d1dd8f;0x97bab980535a7;0x7d7b264fa27a8;0x2c8419fa609];[0x0;0x98c3bea638109;0x643cabc4c56e6;0xcef4001698366;0xe81595fddd163;0x758e199a27d01;0xe60379cb7d440;0x39171f2a8b26b;0xa7246d332c900;0x5b61547ed6845;0x156b175affa];[0x0;0xbd33a7b1a98d0;0x5249afdc49759;0x2443b09ffb971;0x38a141dc03a61;0x78167ffede01d;0x815ac2621cd1e;0x854cc8a36d4fe;0x2922373ec2f6c;0x8cffd56aad69e;0x5a1a14a48c68];[0x0;0xac0c216984e6a;0x4abcd449417c9;0x913c19ee76778;0xf49321c13e32f;0xa6d8cc9c3cb7;0xa5ea29e635746;0xde4bb19c78af1;0xd0ae349c45156;0xee05ae5b22220;0x8da16ff7b]]]
 (V [0xc319a29b10d8c;0xc309d65536795;0xd2779512d0d7c;0x1058a593ea239;0xa1346574620fc;0x9df2a912b8bd0;0xf595b3755d794;0x5037a8ddb9b40;0xd084f1c39aabd;0xf3a0e96f998] [0xa5d90cb442b9e;0x806e754cef5fa;0x715e6cffd47fe;0xb8ed4100370d4;0x890a692bc8e0b;0x5909802fc4c52;0x42f45ca05f9fb;0xa852cffa7b07f;0x8de9a0f7c9dde;0x34a2f6ea581] [0x70c6458d6884a;0x144dc9841921a;0xa7a3144eddb42;0xef844d135d46f;0x9a878c6e51cf6;0x423d5bc9c9464;0xe33c5081f3f89;0x5bcd0a4d50d10;0x2caa7972f3df1;0xcbcf885447a]) [[0xb09bcdc4e60f3;0xad1b9322b1ca0;0xdc3ef47743562;0x9ac665efef6ed;0xc60678a7cce3a;0xb429e84c1b862;0x5122c7cc4f44b;0x949a57155af6f;0xca36be6540f1c;0x249bf2fb9e5];[0xe1d3ab3388467;0x533573541b640;0x24327003bf98d;0xf90bce03381dc;0x38565850df447;0xdb5f88f8e3aa9;0xaa0ee24a77cf3;0xb144c9df91e7e;0xe5017d985d157;0xc19b2eb5c99];[0x97743f345c009;0xe40a9d9520cd0;0x5e398841d33a0;0xd3b572ea3ef4;0x5313766835ab3;0xe9681e2fad7a3;0x851cee773f8a7;0xa392fc273bf9d;0x52cbd7df18b52;0x2b578aece93];[0x231d256967274;0x2efffb805d3c9;0x1d870b6d40a1b;0x4d815afe63d0e;0x91cc35b299301;0x6711d45571e60;0xa010578f3c5a3;0x8c077bfd98236;0x8a6fe3df74e12;0x654e42138af];[0x3df2a1d64f05a;0xc039aeb60c6f;0xec79d856b49d5;0x28d584dcec7;0xeed33dcf9663;0xef1c68b722005;0xaed59ced76d3e;0x18ced17b9978c;0xbe8f3ddccd48a;0x24a7e6f4a88];[0x9f66cf394650f;0x1db6c74c7f24b;0xad3f887258c4d;0xf4aa6ae7a1667;0x2044c906238f2;0xbcbb8aca285b1;0x4c28c8464d8ce;0x59fe108547279;0xed18bf354e00b;0xc4f8031c191];[0x0;0x3d04392f2852b;0xf91afd34eff30;0xc23dbd985c47c;0xb17818f4cdd43;0x69deb1d2ca216;0xef977597a67b;0x23ab6864df0c7;0x8562fe278f6e2;0x1f60ce09db5be;0x98ae21d954f];[0x0;0xae1486fd80777;0x5741554de1a74;0x9ccec12876c47;0x1b0d4099cce7e;0x650d859108d;0xc5ef402c8e183;0x4e7e37a24b293;0x2b77f1bc66e0;0x6318161d7873a;0x15b6cac306c];[0x0;0xad618d034b3d2;0xaa6cfb7657c56;0x253c1e115ca2b;0x48d25b588047c;0x8ac2183ad5c1f;0xe5eb9b7924684;0x77acf47b4385;0xe5913e3a919b0;0x2ea4a4a6c5333;0x6f0c757d36];[0x0];[0x0;0x8fc9410d90c58;0x88003a36f25b2;0xa8b48d12e3e84;0x76822e3b6703c;0x3d5366ad9d32c;0xecd87c0b64680;0x5cbbdaa666c83;0x112a45ea2dd9;0xb537c120646e1;0x18d5f9e522];[0x0;0x1];[0x0;0x9f71443942a85;0x4fb087af66d34;0xbf26ead2582;0x24e25761d08f6;0x3f6507e18ae81;0x23f1a994caeee;0x40c8ddc495daa;0x3ae8eab5ab2a3;0xc65f8423dc0eb;0xb83ffede63e];[0x0;0xe4f6eb52602d4;0x1783d1bfed330;0x159d89cb2a607;0x98eafe0423fce;0x9f26766514901;0x6f4182488efd6;0x6cddfe9ca2455;0x28115e9e40342;0xe3159a53c1fa1;0x34afcb1cd59b9];[0x0;0xd770aabfbfef2;0xc593de76be5c0;0x58b669d2ffb2c;0xdd177aabdce5;0x663fa9ba661cb;0xf524b993c1c4;0x375c5a9177273;0x8cfc0c39961ea;0xd69ab9be84ad6;0x3217c63a090]]
 [((V [0x9ab1600d3676a;0x4909abf9ffc24;0xc178ea95ce662;0x543550148076a;0x56e891d0d6a5d;0x6d8b47e72737c;0x3f09c356e66c;0xd457234f559ab;0xe058fb7d47fed;0x533de30ae8] [0xf3f085a4e65bf;0xff72ed6236b9a;0x627abc918146b;0x470d20d91fc54;0x915dcc396909b;0xb4534ea91fa12;0x8b40d57929829;0x5cfb0cd618b19;0xd228ea2d8ebf8;0x1f90a8e816e] [0x47a81f2b68e90;0xe0870bf5c65d5;0x6908c6d162c3a;0x2081a6a1e456;0x255351d7c5cba;0x4a8d83b4ae948;0x50c7c8ad31c88;0xb4faf2f715263;0xb0c4f71dc7f22;0x2bd16222e6d]),[[0xaf318570e3e20;0xa7bf58e0e3d3b;0xe7db35c2eefe7;0x530d585eb273e;0xcf93238393f1e;0x9ca12e5901b67;0x93555393fac1;0xe7bfe9f3be2dc;0xa65b233eff9b9;0x44b6a0978f5];[0x784efdd0b5700;0x594e1f7097663;0x2bdbf4e6cd049;0x47923f20cbe1a;0xa2f65e25e79d7;0x71e685318167;0xa199b963b9ad5;0xce9a7d5f578e6;0xa69665557b316;0x60270fbb3cc];[0x70c6458d6884a;0x144dc9841921a;0xa7a3144eddb42;0xef844d135d46f;0x9a878c6e51cf6;0x423d5bc9c9464;0xe33c5081f3f89;0x5bcd0a4d50d10;0x2caa7972f3df1;0xcbcf885447a];[0x70c6458d6884a;0x144dc9841921a;0xa7a3144eddb42;0xef844d135d46f;0x9a878c6e51cf6;0x423d5bc9c9464;0xe33c5081f3f89;0x5bcd0a4d50d10;0x2caa7972f3df1;0xcbcf885447a];[0xdc40f86a80c5;0xfd58bbb69f6ca;0x1ba51c8c0ca31;0xdb3d9d8f31df7;0x3c24178852b68;0x76ede46fad5c7;0x3d8b6d42a5e68;0x6c5c077407d50;0x255f0d806498e;0xd152dc9c1fe];[0x6a8aee4a0d403;0x5bf563b9f7f99;0x1036d85ac0617;0x6c54a1919a023;0x66d2469d94e6e;0x903083e36aba0;0x640e4c2113c6c;0x623e75eb4fb96;0x813757d516988;0x8ed4331f1ce];[0x0;0xa69dfd2987d00;0xe1dbbe312891b;0x9540c8778f725;0xf639e98e746b2;0x15b968a6d5a4d;0x9d65be965fd9b;0xbfa225383b66b;0x13f6fc45cbec4;0xd850b22bba355;0x7e0945a8f16];[0x0;0xc78f933d46fc0;0xf7caec7fb50b3;0x8498861ba15f6;0xea42013fc6170;0xcd313ab231b08;0x1ed014a69ff0a;0x87ee10d93587f;0xad1a8aade9926;0x127205910de67;0x36b4859badb];[0x0;0xd770aabfbfef2;0xc593de76be5c0;0x58b669d2ffb2c;0xdd177aabdce5;0x663fa9ba661cb;0xf524b993c1c4;0x375c5a9177273;0x8cfc0c39961ea;0xd69ab9be84ad6;0x3217c63a090];[0x0;0xd770aabfbfef2;0xc593de76be5c0;0x58b669d2ffb2c;0xdd177aabdce5;0x663fa9ba661cb;0xf524b993c1c4;0x375c5a9177273;0x8cfc0c39961ea;0xd69ab9be84ad6;0x3217c63a090];[0x0;0xe174f4392b149;0xa0b9dd007b33;0xaedf916a50c24;0x54e240a94831b;0x405fdeaad7d4f;0xb23febedf446d;0xd1f34b0777bd7;0x7a7f57514c3cf;0x8d1bd48de5cb6;0xad29c0ca28];[0x0;0xe2ff3282eef0b;0xbe72acae4381f;0x152a88048b7f9;0xe4e4fa20ac425;0x16e24c7cb1b24;0x5ee936feef702;0x7e28dccc91326;0xfce3ac2b4d28c;0xe0439cfffd9d4;0xe7dae04e7dd];[0x0;0x2ed32e242347a;0x4471c8647bd04;0x349dbef820b25;0xdacedf5ea3a68;0xaccda7e546fa7;0xa23e3fad4ce04;0x3bc9cd830ffff;0xaf73eae571b70;0x446a7a7c1b27f;0x1f43e8af30];[0x0;0x4e706c387b7d9;0xeac6c67878af8;0xfe45d0dbe4d5b;0x7943e480d8003;0x1afd8c0be8f7a;0x97217750dd33a;0x3b40861453518;0x132d447904318;0xb6e8076c821a6;0x1fa45e80adb00];[0x0;0x2dc1fcd3a704a;0xb88a3f3836fc0;0xaa999fa50afda;0x715077ae2c89e;0x9ef3cda55f9a6;0xce6447808e849;0x267a44c0068b0;0xef0674bd63702;0xdf80b981e3d36;0xa43883a1c]]);
 ((V [0x29f7c40edd443;0x526696bc2436e;0x4af290c538d2f;0xc805ba779d5c3;0x31126331afe12;0x80033e61ded22;0xa6b4fe0454e09;0xe1b3fd6f55f7e;0xdc3b4187ca2dc;0x8820ab7bff6] [0x1940f72a45eed;0x5b0e054b096e2;0x8cfebac0903cc;0x94ba88104cb5f;0x6019590d12808;0x1a1b7881aa368;0xe1100188c505c;0xf3ca06bf068fa;0x859bac62a04b7;0x9576e248f4c] [0x680b1c3118a93;0x9b7b698b91084;0x4d0d29639337b;0xaa6c4eab4b322;0x48c28d5bab8cf;0x8e856a58ff643;0xd4262ff2f2830;0x897e63941202a;0x1c7ec189c9681;0xd7eab34d7b9]),[[0xf871401cf666;0x360efbcdc651;0x4876a3b7a51db;0x6d2abfe103d0d;0xf51b1661ddb57;0xa2f2a0001ffb6;0x2ccb2a359207c;0x5924cc0b80c8d;0x13e61e2fd36f8;0xcebd5eeaad5];[0xf3fef844e6189;0x873df6d022aa6;0x154f16c25864;0x89a59ff3a4a99;0x635dbb79c597f;0xb8fff75459a21;0xcff2680288e45;0x1882b7d9017b3;0x2fea57280c30f;0x90bf095248f];[0x47a81f2b68e90;0xe0870bf5c65d5;0x6908c6d162c3a;0x2081a6a1e456;0x255351d7c5cba;0x4a8d83b4ae948;0x50c7c8ad31c88;0xb4faf2f715263;0xb0c4f71dc7f22;0x2bd16222e6d];[0x47a81f2b68e90;0xe0870bf5c65d5;0x6908c6d162c3a;0x2081a6a1e456;0x255351d7c5cba;0x4a8d83b4ae948;0x50c7c8ad31c88;0xb4faf2f715263;0xb0c4f71dc7f22;0x2bd16222e6d];[0x1642d5191e4d4;0xacc0c7e80dc8c;0x7a06bea8cd405;0x9fffc538bf7c1;0x9efc5cf6906c1;0xd3a386d62d817;0x3a427e602eda3;0x53ea2efcc50f8;0xce6b37109fde2;0xc5eb5846734];[0xddbc232bc7a7d;0xda7d2ee814e1a;0x874e32c35845e;0xe9a5dabae52d7;0xc4615e83352bd;0xe55c707e2c209;0x95afe9a25a0a1;0xc49888dc3c6bb;0x617f20176c52c;0xcad3b10bd5a];[0x0;0x51b5e4cd1ac96;0x6a90ed78c47bc;0x17940d9589a03;0xd61fe36c93310;0xbeec2507634a9;0x7e5f2f580fac2;0x917a55c7db6d6;0xf18823ba608ae;0xa170243757ddc;0x1b18d031daa];[0x0;0xc5c35e1500171;0x1400cb6b50610;0xf29ac3b80323e;0xd2ff6daa4ce2e;0xd6e778f9e69c1;0x668829d229dc5;0xd7d9d56cb2145;0x68a47ea9e6e52;0xf9f8a9106d041;0x2362e6cc969];[0x0;0x2dc1fcd3a704a;0xb88a3f3836fc0;0xaa999fa50afda;0x715077ae2c89e;0x9ef3cda55f9a6;0xce6447808e849;0x267a44c0068b0;0xef0674bd63702;0xdf80b981e3d36;0xa43883a1c];[0x0;0x2dc1fcd3a704a;0xb88a3f3836fc0;0xaa999fa50afda;0x715077ae2c89e;0x9ef3cda55f9a6;0xce6447808e849;0x267a44c0068b0;0xef0674bd63702;0xdf80b981e3d36;0xa43883a1c];[0x0;0x36b713d2046eb;0x721fdd38a066b;0x8072e78991116;0xb37429564c663;0x89fe709a8fd2b;0xf4c6bc3406094;0xf708fb3a94f7;0x19014aa9b796;0x8a9a6391f330d;0x3e45aa6aa1];[0x0;0x56b6f8fc68361;0xabc2a4441df83;0x55bc3199cf09f;0x5650d6d4a9a31;0xa0018e1c2d75b;0x34e9578f31596;0x6b0dfb4d7662f;0x4a12331255c4b;0xf90ce125e42bd;0x1b11302f0];[0x0;0xf07931bb25612;0x8b9f589e60470;0x4326daa2bac69;0x292cb35a81f65;0x9ce7d85b5f1bf;0xccbec161bf5f7;0x8e11450fc83ec;0xbc643d1f09fd;0xa01325d534cba;0x4cf7f5ca987];[0x0;0xe2d08c5c5ce23;0x87d32d9a5e3ba;0xc64648776dfae;0x1964e0dfafbb2;0xb4647d85f3bc3;0xa35196f489250;0x89f4f805ef50f;0xe33c10ebe0be8;0x265e0803ad941;0x95b7d6c2d0a66];[0x0;0x307e5e94872ec;0x11a8f766a6c26;0x1cca08e1fa9e9;0xee805b93f2c10;0x1047b6e818f33;0x246c254331613;0x48b2bc4492e2;0x346815f4f1c46;0xffe8d99f65930;0x4f7a3b31d98]]);
 ((V [0xbf8f9b674be9e;0x8479894229958;0xe45aeeddb6a9c;0xe4f52d4f801fa;0x6d337e169cb27;0x618ef7fc38487;0x8f3b09e3865cb;0x3fc6822dc8d15;0x85768758aaf9d;0xf8fb44f5027] [0x4170844aa348b;0xcb1f383096c48;0x9d37c684faa96;0x2da5fbea20a4b;0x2d931a5299308;0x9bf481537836a;0x2d52189954f43;0x4a8782b4abb41;0xff9cd1b09eb62;0x2b675c1e41a] [0xfc3c931696a2d;0x62a598a9c04a2;0xd720fd5c46de2;0x758b409b1a263;0x95396a1cb62cc;0x3630148ea4b8;0x777ce7802fae2;0x4dd6b2f2e67c6;0x3d5351a52fb1a;0x8b7689091ec]),[[0x5d626616597d3;0xd22c03e4c3d1f;0x4daefe950e8eb;0xacee97e6bfa5f;0xa5467f5e6501f;0x1e44eea3ddba0;0x9e57088237c7e;0xd83e09ef36634;0x269967087dce8;0x9f687c19fcd];[0x65539f39f7ec0;0x5112ef18fb5d4;0x8247238eec99d;0xc95e1beacdc40;0x6c2c54164010e;0x976d287a492a9;0x123a2f3a50eff;0xf58dc3b2430a8;0xfbab5ac36c2f3;0x97d3b08ed6a];[0x680b1c3118a93;0x9b7b698b91084;0x4d0d29639337b;0xaa6c4eab4b322;0x48c28d5bab8cf;0x8e856a58ff643;0xd4262ff2f2830;0x897e63941202a;0x1c7ec189c9681;0xd7eab34d7b9];[0x680b1c3118a93;0x9b7b698b91084;0x4d0d29639337b;0xaa6c4eab4b322;0x48c28d5bab8cf;0x8e856a58ff643;0xd4262ff2f2830;0x897e63941202a;0x1c7ec189c9681;0xd7eab34d7b9];[0x664973b4b36df;0xd083f742af2e2;0xd46d2fceb3b31;0x5a45ccee5454f;0x56fb5d41dfd75;0xb455ac9ffb527;0xf688b0b7dc611;0xc86dd4a91497c;0x28ae0b0ed0878;0x6edf3ce3bdc];[0xff0a2b85447e2;0x808ef7d64c2f1;0xadd9f3c038e6b;0x6f184efc796f0;0x1530f6d460399;0xe3177bda4dd82;0x1bb17e82748ed;0x2d1fef092e72b;0xd2fd4fb49ba7b;0x28f473ab18e];[0x0;0xa8baea28c55fb;0x94d4ade7fc8e5;0x5a6e4ebeca642;0xdc53f186fa0ab;0xa14635afd22fb;0xbc55761fe1c63;0x873c85e3f8328;0xc1aad07892fac;0xc1f633cd08dc8;0x8585cafd7fe];[0x0;0xa0c4e0440fb4f;0x2d7e3697546bc;0x60730d3c04d40;0x47cc15cac72d9;0x674e6268995be;0x6e427c1501531;0xdfeab895967b9;0xfc9f7bbd7b83c;0xb48e60a721e11;0x8672e561913];[0x0;0x307e5e94872ec;0x11a8f766a6c26;0x1cca08e1fa9e9;0xee805b93f2c10;0x1047b6e818f33;0x246c254331613;0x48b2bc4492e2;0x346815f4f1c46;0xffe8d99f65930;0x4f7a3b31d98];[0x0;0x307e5e94872ec;0x11a8f766a6c26;0x1cca08e1fa9e9;0xee805b93f2c10;0x1047b6e818f33;0x246c254331613;0x48b2bc4492e2;0x346815f4f1c46;0xffe8d99f65930;0x4f7a3b31d98];[0x0;0x852fa7b73d326;0xbbe3fc20dcb7b;0xa24f909690c19;0xf254c3129d9a8;0xa19f3ade9476c;0x70fe6bb8435e8;0x1a724be20ae95;0x805e7cb6392c3;0x7c6227c0a5f04;0x57439a9e503];[0x0;0x52a6e123a9d21;0x8d0e268b1a1b5;0xb117699a4075b;0x77ae2e5871544;0xff9217894242b;0xb55188cb48c3;0x4b93e48af4f7d;0x762042a40a2b1;0x35eac5cd30eea;0x4862ba5f114];[0x0;0x97c55cc52dc48;0x5aa90cf08a69a;0x7a1bc31a3d3c4;0x822f2d542551e;0x79e9919edec99;0x4e1d71f12c5b;0x39ee93d4f906c;0x2513019aea7ad;0xbab58f8131ef1;0x93aa187e05f];[0x0;0xa82a05f6388cc;0xe3e53ad24f9c0;0xaa6ea31225fd1;0x36319788c2882;0x97cbc78c65fa3;0x2cd39bd35bb1c;0x41abf645d7e49;0xcf0e3e65253f;0xabe42b0cebe52;0x2b79059ee9e4e];[0x0;0x92cc7c7b2c97b;0x7adc9da508753;0x8b8f12e2bfcb9;0x59322213926dc;0xe8367727ce19b;0xf46f447715703;0x4008e271aef37;0x81d4c585e1bc5;0xb49ed7afb4ae0;0x2a36bb45a01]]);
 ((V [0x3e2d48c8dd95;0xf8427b699b791;0xe1220de96c22a;0x14164f076e;0xdc831ed9c26f7;0xd239d9219e766;0x2dc6cc07be5ca;0xc65adf28ffe24;0xcca68fae9a367;0xafd28dce00c] [0x9fc058e4d36bc;0x2c1ea0e98ea56;0x64841bfb99ccc;0x333d46aa6c182;0x2c415bc45f148;0x8428e8eb5d413;0x64e89f1c9604b;0xa114bfbdf48bb;0x2f545941a78d4;0x1c10933e6b8] [0x489150ef2f414;0xaaf3f82e7ffaf;0x5b9f79f3000cc;0x4965c70fa72aa;0xf9370632866c3;0x4bcb2338b0adc;0xd29d4e40171f3;0x43b971dfd7e26;0xab23fe0ef0945;0x35212ae4831]),[[0xdbb69e2ee87bd;0x7d5cb3e1270bf;0xb60adbde08aaf;0xfac2a6a047a57;0xdbb42158dfdd;0xa36cde929021e;0x4a17bb0b6944c;0xaf7f6664e483f;0xef7b645caacdb;0x2965211de7c];[0xd48d3ee748d00;0x9888b1b2804f9;0xda086bb5dddcc;0x13ac193d1afc1;0xae7e05785c904;0x4b7420b16a318;0x2dab70a5ed988;0x61703c6ea068c;0x52336cb3ea465;0xf0870ca6eb1];[0xfc3c931696a2d;0x62a598a9c04a2;0xd720fd5c46de2;0x758b409b1a263;0x95396a1cb62cc;0x3630148ea4b8;0x777ce7802fae2;0x4dd6b2f2e67c6;0x3d5351a52fb1a;0x8b7689091ec];[0xfc3c931696a2d;0x62a598a9c04a2;0xd720fd5c46de2;0x758b409b1a263;0x95396a1cb62cc;0x3630148ea4b8;0x777ce7802fae2;0x4dd6b2f2e67c6;0x3d5351a52fb1a;0x8b7689091ec];[0xd30ed8a2b08b5;0xbf74ac78dcffe;0x13aa2c8bdb4ef;0x4f6b20a8f66da;0xf1fc04519e5d5;0xe40b89c51d57e;0xeba71690a2058;0xdee0c9304d72b;0x9d3f8c3f667ba;0x2555a37931f];[0x17e66449844c;0xd9140539a34fb;0xc65e3f2a028dc;0xc440f894248e7;0xbc820126be32e;0x676896ec4cd99;0x42045a154b92f;0x828f733e52f60;0xb4f3e07483caa;0xcb31692db91];[0x0;0x607bc085d6a15;0x2a6ac6ce1d0b;0x798fa5ff526d9;0x8d8f664e95de9;0x9faaa3f35669a;0xd98daa58f2c0a;0x4e0b4a4a48cf2;0x8e487b71f70d4;0x879c06e8f46b8;0x563e651e403];[0x0;0x850a26fc4f8ff;0xec3b0228b4d83;0xf9b44175ec6f;0xf2efa5a879d16;0xf2d4b176bb2d;0x4cdb7f0558abb;0xae2a2536700ef;0x2b9aa79c6b87a;0x6e9648471b923;0x168d13c118e];[0x0;0x92cc7c7b2c97b;0x7adc9da508753;0x8b8f12e2bfcb9;0x59322213926dc;0xe8367727ce19b;0xf46f447715703;0x4008e271aef37;0x81d4c585e1bc5;0xb49ed7afb4ae0;0x2a36bb45a01];[0x0;0x92cc7c7b2c97b;0x7adc9da508753;0x8b8f12e2bfcb9;0x59322213926dc;0xe8367727ce19b;0xf46f447715703;0x4008e271aef37;0x81d4c585e1bc5;0xb49ed7afb4ae0;0x2a36bb45a01];[0x0;0x1b9d8080a3f1c;0xb7ad41aae6144;0x3bbbe4d5a9325;0x87b71f40fce0b;0xd9f0d0bb05ba7;0xd9b2cdc8f50bd;0x510f91139ba07;0x8789f39413a32;0xfbc4fdbc5e461;0x75be2ad6b8];[0x0;0xdbb24902ad108;0x1f32de0ac03c2;0x477c6961e9d99;0x83ae290b207b9;0x19f84bf4cd9bb;0x83422cc98fc25;0xa1536259bef78;0x6447dfa094696;0xf152373601887;0xf227cc3affc];[0x0;0x5a68157138fed;0x17962d672d139;0x8991acdce77c5;0x22792d12c0e08;0x34d3a693c953d;0xa647c604169af;0x233fc5c9bc1b0;0x77041694bc47e;0x4d2006ee5a4c0;0xa53225aa6b0];[0x0;0xcfe2b927ef4d0;0xae52cd2fb3cfa;0xa54407fa1a3f6;0x965251989c59;0xe5088288f8907;0x246c6dab5ca25;0xc1a7c7b0b1d69;0xe91e872cf39e6;0x6d2f29ae6709a;0x1c1245797eb05];[0x0;0x4fb81ae8a11e8;0xcbe6c3ad1db53;0x3b3a5bb0e7d7;0x7cb08fe66bb6e;0xccf9326686e47;0xdbc35cafa6d6e;0xaf629867bf324;0x978abc9954a7a;0x907ef53f4d237;0x134669cc2b3]]);
 ((V [0xcdfdec7436071;0x69e1d6203ec1b;0xc28d04118751d;0x3559935c3c47;0xf04cade4ca076;0x377083d6d1dc3;0x27c3688c41059;0x7a942d82184f7;0x4f642aa7a8a87;0x6171c68446b] [0xba1b1bfc1c396;0x6cbb0f818af82;0x34d098e6ed119;0xad45a9adc82a8;0xbce65b078e841;0xbfeb9bdde1d44;0x125bc0221b7dc;0xc1314397d71f1;0x6748feb2aa954;0x46f0bbc7502] [0x408b65c8ee36a;0xd0058d0afa323;0x7c5761812b216;0x68e0841f6f07d;0x310ba625b5805;0xda20651c17da7;0xf3cfc4ef046;0xe25f39321c41a;0x3b268989591bd;0x7ee0f7f458f]),[[0x99400895feecd;0x248c8cadfaca7;0xefc41e069c8e2;0x5135cfd72a058;0x29f2e3d66e99f;0x63a647157b92d;0xa0671e6c8f21c;0x1b47e78f0aae3;0xb496608cf4383;0x830559566f4];[0xc7f8ea16f6055;0xe6a8ab2a08fec;0x1cdbd96e461b5;0x13be7869df6b2;0xb105934f30d19;0xe9c5b6df70efc;0xab00affd1da66;0x915bbc138df0b;0x65771b728c0c3;0x7de306e511a];[0x489150ef2f414;0xaaf3f82e7ffaf;0x5b9f79f3000cc;0x4965c70fa72aa;0xf9370632866c3;0x4bcb2338b0adc;0xd29d4e40171f3;0x43b971dfd7e26;0xab23fe0ef0945;0x35212ae4831];[0x489150ef2f414;0xaaf3f82e7ffaf;0x5b9f79f3000cc;0x4965c70fa72aa;0xf9370632866c3;0x4bcb2338b0adc;0xd29d4e40171f3;0x43b971dfd7e26;0xab23fe0ef0945;0x35212ae4831];[0xe9efed990c523;0xb2ee9eac6e9a8;0xc7427a8c9f0f;0x7477bedeba0c;0x8083eb9e65720;0xb5066f54166c3;0x6de563e13239e;0x265150e946ec1;0xc39b5a0491323;0x6aeb2825eaa];[0xde08fc7de9b33;0x33ba0c7d9a643;0x1067b1c57c2a6;0xc76fc7bf3ca6;0x3081a7b0cb5f9;0x34bf478b5a839;0x3d1b4c1beb6c8;0x6b0a6b2a4704a;0xa1dbc16dfada0;0x12f7debf26f];[0x0;0xb18bfe15f84f5;0xf333c075e20b9;0x4744c0d17addb;0xa09bf6b9d6533;0x58c9c243702d0;0xbbbe70e084a3d;0x4ef31f9fe81ed;0xeeea893e2184c;0x69799f2491f92;0x20daf11f607];[0x0;0x72fb312ad02d9;0x11581bca123cb;0xe33c0596e7954;0x961fa170ab4d6;0xdf4bd08592d80;0x8fa24dd1cce43;0xbb0d0f45fe0a3;0xc5f9368856eae;0x414a0c65b16c8;0x1b3115233db];[0x0;0x4fb81ae8a11e8;0xcbe6c3ad1db53;0x3b3a5bb0e7d7;0x7cb08fe66bb6e;0xccf9326686e47;0xdbc35cafa6d6e;0xaf629867bf324;0x978abc9954a7a;0x907ef53f4d237;0x134669cc2b3];[0x0;0x4fb81ae8a11e8;0xcbe6c3ad1db53;0x3b3a5bb0e7d7;0x7cb08fe66bb6e;0xccf9326686e47;0xdbc35cafa6d6e;0xaf629867bf324;0x978abc9954a7a;0x907ef53f4d237;0x134669cc2b3];[0x0;0xcf9865cd2e7ab;0x67d4e1f570caa;0x2792c1a0c2249;0x65c23b82e6a77;0x46bfaa809a71c;0x194703e4f5464;0x6f1910b7b0a01;0xf0de30cdad53d;0x2d4b6875bbf8d;0x313a148640];[0x0;0x865c57b464e4a;0x9f386de9f400d;0x7bde9a152a8c0;0xe7a946bbef28;0xfe8b743601887;0x9c637ab2716b4;0x907e213b36542;0x5cceb11578334;0xddf5e7bd51de4;0x78c18b0c999];[0x0;0x98a923f000bc2;0x175d0f05fe4f2;0xc0c22c66db224;0x39e507723ce9;0xd479df9b1c3b7;0xa42802b6a8f30;0xd49b8879cbfe1;0x870f5e45eb263;0x69beedde0241a;0x2feaf87179f];[0x0;0x92710b9aa88fd;0x6ffe02fabd2b0;0x338ead64a0a27;0x46c959684a5fb;0xc236f621d3e5b;0xcc408fe129873;0x4b132964dede6;0xe6640bbb59095;0x9717e88db772a;0x4714ca0e07841];[0x0;0x5fb04481b2fd4;0x52b859365a12e;0x32894f9428fbb;0x89286e1fb2a61;0x42943c81892ba;0xdb1c0dc6e8df2;0x4a5b0862ed390;0x3259282df9a18;0xde6c1636c0336;0x1b00be6c414]]);
 ((V [0xd20e4e9fbd27b;0x6658bd267405;0xf53a1cd360294;0x58b1e8af8434c;0x55dd0d7952420;0xaff01566a3dda;0x3712ea4cf7450;0x2a7bf22a31657;0x16f0d3f1c68bb;0x5356229ac3e] [0x83ab909cdbf8f;0x9c16360670d3e;0xaff82b27ce3e1;0x81d73096e97ec;0x203d6a8f80a55;0x4508f289206c8;0xeebfb1337af33;0x7fa92776858b5;0xc678a513437af;0x12c29ce6b15] [0x3f2aa8a48b564;0xef2d6d8744290;0x9ead622276807;0xbe3f3304405bb;0x3cd62bc7269b9;0x8ab3175a1c7ff;0xfdf436df7ef71;0x89ad33747ab37;0xa0c45423b5df3;0xd5597709308]),[[0x88a1d1dc1a2b6;0x6f082df7eb82c;0x240150ecbf18a;0xd747a12018243;0x52dd49bbdc56f;0xe29a01d5cbb19;0xfb2b15abf8cb6;0x59727f8ce57d5;0x9bd5479d0d17f;0xaa630d3801b];[0xdd1151fb07ae4;0xac34f20e65425;0xc4e87c8dae7d6;0x567183b3d0277;0x1e78525dc25a0;0x4a2c8ccab82d1;0x6c6bce094edf6;0xc654fe4322a27;0x6dbc8fd62d87e;0xe279bdb4914];[0x408b65c8ee36a;0xd0058d0afa323;0x7c5761812b216;0x68e0841f6f07d;0x310ba625b5805;0xda20651c17da7;0xf3cfc4ef046;0xe25f39321c41a;0x3b268989591bd;0x7ee0f7f458f];[0x408b65c8ee36a;0xd0058d0afa323;0x7c5761812b216;0x68e0841f6f07d;0x310ba625b5805;0xda20651c17da7;0xf3cfc4ef046;0xe25f39321c41a;0x3b268989591bd;0x7ee0f7f458f];[0xe1eb5ba89d24b;0x5fcfe9f6bae88;0x701b0f6a24ffb;0xd2d8ebe4498c8;0x5fe92900e5f35;0xd4ae43603d287;0x70815e5fcf240;0xd24ff3075fe57;0x61a107368f746;0xe9a5bd9483];[0xfb25f6526a89a;0x4c650817aa59c;0x54cd6d23897db;0x839897cf869af;0xbe8f295cdc66a;0x757e496a7b049;0xfbea6fa97fbb5;0xf4050b3bc2bcf;0xc1b889f9e137;0xd3df61db491];[0x0;0x6fc0ae8c2a446;0xc4a4522d48a15;0x392a986dc1584;0x3004566b143ed;0xb4861cf8bb04;0x11e7a432fecc9;0xd4780ac333793;0xf85b7de05e8b8;0x654439039cf4b;0x4e762ed2712];[0x0;0x779a29591e5c8;0x54ba517e6b553;0x21eafd425ca0d;0x17abab4ce001b;0xe22214b09709f;0xc5b403450582e;0x2c9a8c10d511c;0x9baed33c95d3a;0x8d01062527cb8;0x54727c35553];[0x0;0x5fb04481b2fd4;0x52b859365a12e;0x32894f9428fbb;0x89286e1fb2a61;0x42943c81892ba;0xdb1c0dc6e8df2;0x4a5b0862ed390;0x3259282df9a18;0xde6c1636c0336;0x1b00be6c414];[0x0;0x5fb04481b2fd4;0x52b859365a12e;0x32894f9428fbb;0x89286e1fb2a61;0x42943c81892ba;0xdb1c0dc6e8df2;0x4a5b0862ed390;0x3259282df9a18;0xde6c1636c0336;0x1b00be6c414];[0x0;0xdc20a3f9f3d9f;0x15efa2d86c240;0x99421d84f0504;0xf95e93feff461;0x652fcee50b6d3;0x222c0a789605b;0xc99ab3eb7b1af;0x8b0d79de92bcb;0x81a1f259fcc88;0x13a889119f4];[0x0;0xb94ce621f5881;0x3166e2b9cf332;0xdc080891d880c;0x8b03c3b12161c;0x22ca0408473a8;0x2dffd0a73c0e0;0x8008d01176dd8;0x305dfb522fa0;0xc7018d71fe836;0x25176b01184];[0x0;0xfa63f2f9ac335;0x4fa4b69a420fc;0x39deb4124055b;0x582aadb36583;0x60ac6537e6cda;0xf470a271fea4;0xb4206160137a1;0xfabe710ef10cb;0xb0bb9951ec176;0x49b9ac045b7];[0x0;0xe188f4fb83cfc;0x22ac9d0adc2ca;0x13a98e89d62da;0xeda88ac003764;0xfe9897f6fe441;0x1abf097eda279;0xc4fabb427fe66;0x71746376e122c;0x47a6fc39229d7;0x12c4c6c93152d];[0x0;0x720a864d13f27;0x3411da565b487;0x10d4207b2c925;0x9ec6160b39de0;0xfe31c839420ef;0x41444d80edb07;0x3b82ae6e5527;0x890e64d716e0f;0x453a492871adc;0x61b68c8b14]]);
 ((V [0x7d8909cf85a0;0xe939c9e294f8e;0xbbaa644bc461f;0xc10c3362c4cf5;0x5d71de92e7900;0x95f636040c7c2;0xc923a6f3528f5;0x3c6af54823aa3;0x5aafd37d44b49;0x936a3c137d7] [0x56b86d300ba02;0x629b293c270c5;0xca22eabdbccc4;0x8ba1421875863;0x7515b9c5ee2b5;0xefa2e8d66c522;0xb4574505c3fa9;0xf03a4d213f9ec;0xf21bec53fd91a;0x1daa8afa82a] [0x7bb9063908455;0xdbe4e1ad2bb49;0x7307189ad40c6;0x9f8a5858d7c24;0x644033d1c4bc5;0x724a596b0e8c3;0xfe8f91beec3a8;0xa42d37973a56c;0x65999bcbf711b;0x64274008577]),[[0xf72e8b9554859;0xa6384e37e9c77;0x16f1c6df8aa68;0x3fb94eee7af2;0x1d24a868be857;0x20c61a7c4b523;0x528b6a25e97b5;0xf836050c309a0;0xe9329fde2dd5a;0x4af051c9182];[0x60356420e8d46;0xe60971bb6c55c;0x5b5d64fd5d840;0x3e3feb57f2b89;0xcafaaa4298f84;0xf7322cd3b7929;0xdc32f4288bb5e;0xc15c38eaad15f;0x4ccef55e861d9;0xd6d176aa5a4];[0x3f2aa8a48b564;0xef2d6d8744290;0x9ead622276807;0xbe3f3304405bb;0x3cd62bc7269b9;0x8ab3175a1c7ff;0xfdf436df7ef71;0x89ad33747ab37;0xa0c45423b5df3;0xd5597709308];[0x3f2aa8a48b564;0xef2d6d8744290;0x9ead622276807;0xbe3f3304405bb;0x3cd62bc7269b9;0x8ab3175a1c7ff;0xfdf436df7ef71;0x89ad33747ab37;0xa0c45423b5df3;0xd5597709308];[0x219f74fa08244;0xa03dba5eff6c9;0x14b089420c199;0x2892ccaf8e084;0x6399f3bcdba0d;0xe480270075d5c;0xe13edc935cf94;0x4ed898aee7e87;0xbfce0e6af37dd;0xd4e7436aa56];[0x3e95ef26e0b03;0x45cbb75c6ce93;0x46acdbbb516a7;0x15ad1ea864b05;0x6760b685bd577;0x12b205d341bcd;0xfaf417952ebca;0x7283a03bc52d7;0x8d00e6f3929fc;0x1ea333fb4d];[0x0;0x1d581692779e1;0x8fa85d57dedf;0xb336638d2c7ef;0x3211d06c6b8;0x134d3576aa788;0x3a9c459954b80;0x3d02ec6e81423;0x23108f981462;0x49a023c620259;0x83ef5c09963];[0x0;0xe6d77d06ae192;0x268584967f754;0xbb079e8369fa4;0x8d4c3e1b4df1d;0xbec79343a884b;0x1daf9e716f2f1;0x7230b9339dc49;0x386aea26a7c52;0x4fb6beed14a8c;0x3e74247126b];[0x0;0x720a864d13f27;0x3411da565b487;0x10d4207b2c925;0x9ec6160b39de0;0xfe31c839420ef;0x41444d80edb07;0x3b82ae6e5527;0x890e64d716e0f;0x453a492871adc;0x61b68c8b14];[0x0;0x720a864d13f27;0x3411da565b487;0x10d4207b2c925;0x9ec6160b39de0;0xfe31c839420ef;0x41444d80edb07;0x3b82ae6e5527;0x890e64d716e0f;0x453a492871adc;0x61b68c8b14];[0x0;0xd895f230cb77b;0xa0f8da609ed0c;0xca0e98a7ab09e;0x257f35a1d7c4d;0x79f3da70626cf;0x20db7d7554a6c;0xe489b41d083c7;0x7b38637865fe5;0xfc6a82c29f302;0x15ff2029eb];[0x0;0xdff0be37d9b3a;0x68c16c9ac573;0xa2320d0f154e5;0x7b861d038d678;0x15ba6a32de1ae;0xb7713683f60ac;0xa4049b8a2cc96;0xc8e757ad70d0f;0xd4311566d2965;0x1b20f76b9fa];[0x0;0x1c6c53ab6f6a8;0xb92eddbc22a1a;0x767d377137ebe;0x72f7ccc793e0e;0x93b9c28f99249;0x4116f0cf6b8c6;0x1338e0f60cf46;0x8273a44ea3bb4;0x1a21f1b28b53f;0x7bb36c48670];[0x0;0xb74acfa915124;0x67e140032514c;0x8be8c75881d5b;0xd9aa2ca37be16;0x8c0f02f13b5e9;0xda59b0250e556;0x6eabf9ed127bc;0x68cb0cac2c14e;0x818d3de33fd64;0x1daf50af53f84];[0x0;0x6291642e23dbd;0x1ebb53420d334;0x29b803c84156d;0x673ceba92dbeb;0xb69cbdbcd5a07;0x24d7a81f22f2e;0xd3ba267c842e3;0x5a96f80e933b5;0x99cbbb1c4bd2e;0x11153d619f8]]);
 ((V [0x23a06cd11a278;0xfd015bfc229fa;0x9e330834276a8;0x81464655fe21d;0xcdfd8da05368a;0xf9b495902a6e4;0x8ce1bf273be0c;0x84781c62ebe2b;0x121f38d622f4d;0x40c5b8dee25] [0x4669b45c0c3df;0xf253a3a4b337c;0xccc6110530266;0x356d01461cb15;0xe4849d9196664;0x57971945784d6;0x91ead93754ba7;0x41a864dd553b4;0x43334c049126;0xde1a6eb2d8f] [0xe24e6a49f50f4;0x20de909e05029;0x6a85042a38412;0x8e3b4874009b4;0x2f3999f695a28;0x1fbaa527a0fac;0x67c4338d969aa;0x85892ab3d202b;0x52c7e8183c889;0x870ed5ea9cc]),[[0x6d3a9303fca4e;0x8aecb8e19fbb5;0xb4cd2832b9d89;0x73bb5b494ff7b;0xc169fb1a8dc4a;0x252aa2154ec50;0x1bb59bee9cd83;0xa5918bcced1b2;0xeaa6fa27bc9e6;0xc8ef46ba831];[0xc4fca501ab31d;0x5221dd479e2cc;0xb2a066520a723;0x1a9197021ce11;0x2388aa7484b97;0xbbfb11653c5bf;0x465b3895ea0da;0x5a4695b493c9e;0xff352e6981544;0xde6ee3988f0];[0x7bb9063908455;0xdbe4e1ad2bb49;0x7307189ad40c6;0x9f8a5858d7c24;0x644033d1c4bc5;0x724a596b0e8c3;0xfe8f91beec3a8;0xa42d37973a56c;0x65999bcbf711b;0x64274008577];[0x7bb9063908455;0xdbe4e1ad2bb49;0x7307189ad40c6;0x9f8a5858d7c24;0x644033d1c4bc5;0x724a596b0e8c3;0xfe8f91beec3a8;0xa42d37973a56c;0x65999bcbf711b;0x64274008577];[0x1fe201c860d5b;0xa17db08bea4a4;0x787fba70fab1c;0xe7c7298f283c9;0x472d17c4d1a2c;0xb652614974320;0x51acba7807277;0x1725291d9e416;0xb8121f19504e6;0xeb43b227a0d];[0xa51aa3394a38a;0xb0a42cbbb3e28;0x3a20abe10fc06;0x32ca6d72f4a48;0xdc5b92afb316a;0x5a8b01bc829e;0xf4ae7e1de2e63;0x43216c96f5887;0x47230f503105e;0xf32b3170ee3];[0x0;0xb2bbb724b4ae;0xf1ef9802ced85;0x5d64e705074b7;0x8dda4869435d6;0xeaa2b79961d78;0xf9c8c53e05f2e;0x50edef354d81b;0x887cb366cb5f;0xd5afa82f49126;0x3def463af0d];[0x0;0xcd55ac45c1cef;0x4401fd291f005;0x52ee9ee7d828b;0x765efd3f7384c;0xe5bb8bc19217e;0x30c162f494c20;0xc79b4b2e8820b;0x752d98dc08142;0x100832d514c30;0x4e9c4656ff7];[0x0;0x6291642e23dbd;0x1ebb53420d334;0x29b803c84156d;0x673ceba92dbeb;0xb69cbdbcd5a07;0x24d7a81f22f2e;0xd3ba267c842e3;0x5a96f80e933b5;0x99cbbb1c4bd2e;0x11153d619f8];[0x0;0x6291642e23dbd;0x1ebb53420d334;0x29b803c84156d;0x673ceba92dbeb;0xb69cbdbcd5a07;0x24d7a81f22f2e;0xd3ba267c842e3;0x5a96f80e933b5;0x99cbbb1c4bd2e;0x11153d619f8];[0x0;0x9e03c0587240f;0x4a426c801e975;0x422f17d803c02;0x1f0c1868d9150;0xf66c8e789d8cb;0xfa2ee1fbd9244;0x682097e8b7c3a;0x709299520d232;0x448465b345b53;0x3701519a1c];[0x0;0xc01427eaff3da;0x27af2ea37c7de;0x5d128bbe54b6c;0xf28e2b0d1c3e9;0x9de40ec1dce45;0xd3520790153e1;0xca98f3521da0c;0x470601a4c345e;0x22c1b6cea3d17;0x54e32d14305];[0x0;0xc4570ca32836a;0x6ad814523eb3e;0xb650391d41eb3;0xf495804fed971;0xa0d76ed9d7083;0x725c8fe31b995;0x4e12a693bd27f;0xa0151e7d1eef0;0xd7cbd1a2c7ffe;0x384784dca48];[0x0;0xf018047433abb;0xe1352d109c990;0x726f93da44948;0x3579b0a6f6533;0xf6b05ccef78ed;0x74aa1352f0159;0x75757a1c83b96;0x29856a23e86d2;0xf9f0b31cde48;0xde378e00bb544];[0x0;0x21ca6831885cc;0xe6b10a116dcc;0x5bfce8d005299;0x2c7f127410903;0xec44f311f62b6;0x61e0e2b069f5c;0x509229931c6ef;0xe55bd2f387f3d;0x34640fa426820;0x3832266844b]]);
 ((V [0x328fe42d14746;0xf240352b62aa6;0x81583e58ddd9d;0x50e3187e68b83;0x6ad861d9e9d01;0xca37b98e9478a;0x28e1fd7384828;0x4aac0b259cf84;0x3633019846c7b;0xc99612399f8] [0x213ffc1e8ccf1;0xa928ecd84114f;0x7764f8f98560a;0x8dd886ba528c;0x6fd8ec0288578;0xc44b57b640001;0x7e15a8c677721;0x889b33acd9c7c;0x72ce8da000bbe;0x504b1b08286] [0x371d43c719188;0x604de9a33a64;0xb86e0dc3c1d91;0x8f9da7ccba27a;0x703e6f00ab03f;0x5b0c0d36405b6;0x937a5629ceba;0x73dfde0da5bd3;0x203d8fa64f5a4;0xb5c3fa5ba86]),[[0xf043cf3340936;0x3e8669ea46707;0xca6ff1723d015;0x5516a5d9c0729;0x6225325c69b92;0xdadc13a60bc6f;0xdb93035024742;0x41cbc62fe84de;0x9e751cc4ecd3c;0x16405189932];[0x5075c66e623f4;0x33b38dbefb83b;0x158f8f06f6b84;0x22ed73c1bb97f;0x607a8d8744eae;0x81c029ff2e6e3;0xa75ccc7622888;0xf303d2b8bfa3c;0xd71869c494b12;0x91f9646d67];[0xe24e6a49f50f4;0x20de909e05029;0x6a85042a38412;0x8e3b4874009b4;0x2f3999f695a28;0x1fbaa527a0fac;0x67c4338d969aa;0x85892ab3d202b;0x52c7e8183c889;0x870ed5ea9cc];[0xe24e6a49f50f4;0x20de909e05029;0x6a85042a38412;0x8e3b4874009b4;0x2f3999f695a28;0x1fbaa527a0fac;0x67c4338d969aa;0x85892ab3d202b;0x52c7e8183c889;0x870ed5ea9cc];[0x3c56e007bf8c9;0xc3b17b73b55ae;0xc86d7358a9a46;0x2e0240609eaa2;0x4db0ec46276e6;0x5bba78cabd589;0x529c6dee2e45f;0x1a404ebd017c;0x2d1255f6e5476;0xeee1db0d8f];[0x141ee666a28f3;0x7002124b4628d;0x4d221bae4d13d;0xf4eb33611cedc;0x12c9a1411d7c7;0x2605b1347115a;0x54c05e87f4429;0xf15fcdccef8c0;0xaa0613cdaf69c;0xfa317895fd8];[0x0;0x7cb07668008a6;0xd2111589a140d;0x2d8d19e161148;0x4e31bae5516fb;0x9e249b075a4a3;0xa8e92649a62c3;0xbdf3a19de60ad;0xd28895ad8f58;0x4955ba28991f4;0x538506f510c];[0x0;0xba160852f305c;0x772f38cf5247f;0x6911e49ebd8c1;0x503d69fdba3a7;0x5307da2ba23e9;0x23e7046658e82;0xd9251ca4cc6ce;0xde5d1a7eb720;0x37985cc74a6f1;0xbbd351bea6];[0x0;0x21ca6831885cc;0xe6b10a116dcc;0x5bfce8d005299;0x2c7f127410903;0xec44f311f62b6;0x61e0e2b069f5c;0x509229931c6ef;0xe55bd2f387f3d;0x34640fa426820;0x3832266844b];[0x0;0x21ca6831885cc;0xe6b10a116dcc;0x5bfce8d005299;0x2c7f127410903;0xec44f311f62b6;0x61e0e2b069f5c;0x509229931c6ef;0xe55bd2f387f3d;0x34640fa426820;0x3832266844b];[0x0;0xaec626002c0c8;0x5c68e49bb4c1a;0x5f16136b6d4f8;0x5470a5c032c32;0x6c2dd021f1f3e;0x66ffe257a3956;0x3b807c157cfe2;0x1ad64056dc887;0x2f4bb7df7383a;0xc0b1dab8dc7];[0x0;0x6836207c0ba4b;0x4ebef586af89c;0x71ff45f2d1e7f;0x7f5426e75f707;0xd3dbd886ceea2;0x82560eda372e6;0x33338814c630a;0x7014edbb62eed;0x20939f5210812;0x106375257db];[0x0;0x4a62ce151213a;0x9bde8d0299b33;0xa27d9a4c23b47;0x7fd63a154d1fb;0x7ad4d5caa1e7;0x5fb858a75d06f;0xdbe08071e274f;0x5e967a2889d73;0x2e9869ce8e89c;0x72f2625f23];[0x0;0xa6d97ea6fd151;0xe2495368e314a;0xff414c727a0c3;0x6e3d7a095589;0x8259707208f0;0x586e42a6a1bf2;0x863e556a303f4;0x7ce913fe7b74a;0x543e855a330fe;0x5098899702c68];[0x0;0x23bb642ad4db2;0x17c4e3bbe0ac1;0x70ce82b4d95c1;0xc2fe0aecfc49a;0x4ee5a9a07d414;0xbeb347d615d88;0x4344d7a0202cf;0x310ff924f1a36;0x821b46b89fda8;0x3f3a09f2992]]);
 ((V [0xaac104e1dd1d8;0x6418f3b277891;0xb842986dde2be;0x69c27c8c5a3b6;0x1ca431153223;0x68aef404df0dd;0x74574fee5ee81;0x7d6ca7274cc56;0xe0c8001aac79c;0x43c3ab16d56] [0x18f8741779fc5;0x4174e8952f221;0x3dbe92fdab925;0x1e4096ad723bb;0x5d6e750daa539;0x2a947a60d7d7f;0x38437a50497e5;0x71b8de998e858;0xe88f4f02141ac;0x5ff4182e101] [0xb3b34e46f6b06;0xa9ccf42a10713;0x15359a7b3c635;0x34c89ba11b5f2;0xa952dba58ef84;0xd5cfd50bac0f0;0xec56a6f84be0e;0xe071670ff171e;0x4dbbf8264ec2d;0x41914c46e9e]),[[0xe9bcba68e9c42;0xf5aa068564415;0xf7979682bfa53;0x99a3590e76250;0x70e41081d3510;0x89cfa26e30b11;0x7d5539dfa65bb;0x26f308bb1bd08;0x2c6908f54f03c;0x92c02f0906c];[0x2afb2507c24ad;0xd7b51121ebd82;0xa26cee37ac295;0x744cfbfaf5a4e;0x5b3b7452cf2fa;0xcdc4b818af186;0xd4b7915376dcd;0x63a2ff0f20fd8;0x6a99967a5a41;0xa3f658a3419];[0x371d43c719188;0x604de9a33a64;0xb86e0dc3c1d91;0x8f9da7ccba27a;0x703e6f00ab03f;0x5b0c0d36405b6;0x937a5629ceba;0x73dfde0da5bd3;0x203d8fa64f5a4;0xb5c3fa5ba86];[0x371d43c719188;0x604de9a33a64;0xb86e0dc3c1d91;0x8f9da7ccba27a;0x703e6f00ab03f;0x5b0c0d36405b6;0x937a5629ceba;0x73dfde0da5bd3;0x203d8fa64f5a4;0xb5c3fa5ba86];[0xeb08cb35e0f2;0x26adb87e37c3d;0x45c5793ed324f;0xe0a095e97a80e;0xee1654ffb261e;0xd9d724b9f233d;0xbdff74b57d8d7;0x1d8ddd980089c;0x2d6df9a90de86;0x1e72b3f55bf];[0x1c4a9854643bc;0xb10758a3b4145;0x5ca774f8d9046;0x93ac66117b240;0x6d251f531ccdb;0xf3ed935ebce48;0x16b81c9df94f5;0x461521772073c;0xd93b9fbe97bbb;0x8583a4ade59];[0x0;0x13cbdd4915fd2;0x7bb2c0d3e0452;0xafe658526e79f;0x2eeef9d51b828;0x40ce5cba0e7c5;0xa6e6f2ee55749;0x60a3a0e56bdad;0xf2b2f8016111;0x4942449795cf8;0x70674e6a6e6];[0x0;0x79c9c8ad95885;0xfda933ecf1c7f;0xb699e7033bfa0;0x9c830b7950dc0;0x19220cc1e074f;0x21fa24e3868fc;0xb54a403be0507;0xabe8c49d7ae2a;0xdb435a2bcbe4b;0x683239296e6];[0x0;0x23bb642ad4db2;0x17c4e3bbe0ac1;0x70ce82b4d95c1;0xc2fe0aecfc49a;0x4ee5a9a07d414;0xbeb347d615d88;0x4344d7a0202cf;0x310ff924f1a36;0x821b46b89fda8;0x3f3a09f2992];[0x0;0x23bb642ad4db2;0x17c4e3bbe0ac1;0x70ce82b4d95c1;0xc2fe0aecfc49a;0x4ee5a9a07d414;0xbeb347d615d88;0x4344d7a0202cf;0x310ff924f1a36;0x821b46b89fda8;0x3f3a09f2992];[0x0;0xf820830482299;0x7f9267714827a;0x403337430fd75;0xc073d82f1f6f1;0xbd873a57dba95;0x93a246dd007ec;0x210c4b1d90dce;0x88e0466671c37;0x2e14e28fc1785;0x192f06edf2e];[0x0;0xa1757b29a6158;0xa3cecb768b8cc;0xa5c51b68c659a;0xd08987a36b120;0x2baa494978b0b;0xe8181e5944726;0x9dd50c8129a17;0x21522993bfcb5;0xf6720aa49412f;0x9ebd0097d94];[0x0;0xf79e4ba483440;0x9e12bad34234a;0xc864aafd3472e;0x819dd3f7ab7ab;0x7932825e7cf1b;0x37888d9f335d;0x2e2a92eca7379;0xe41bd8a26dcca;0x6db55f3160ac3;0x2b66cb6c6b9];[0x0;0xc828478c4b1e6;0x70739ea929e84;0xa2b3a028e774d;0x80e3e43e147a0;0x4604376191c07;0xfd45a74ff2da6;0x212cd91063788;0x96cc331ae4175;0x23914cf4c605d;0x601697851084d];[0x0;0x233103d212e3e;0xe0e76ec4fdcb4;0xdfe0ba63d6427;0xc8546cc395c15;0xcc38d294e1ac;0x8c85c9e3c1f05;0x7fde57d2f3f42;0xc7c6ed5d72f82;0xe758458898ad5;0x19663963146]]);
 ((V [0xf2dc534d8027d;0x3bdb504cbf079;0x9d5c19219978f;0xbdf3e8ce5effd;0xde52a02d95db9;0x8a8335612cf0e;0x3c36852a612d;0xca0f2d9b4bcd8;0x3897774f42c7;0xb2a74f6c0cb] [0x71bbe7a2927f1;0x7e19d249399f;0xd2c7a8b9db646;0xeeefcece24cdb;0xbf693f1a61eef;0x652e8c9bcc31;0x948b27d7bb8cc;0x4b90350535fa2;0xb6994bde63df0;0x8c1b0ed5363] [0xced9bf4a205de;0x8a653ff8410c2;0x595da71119b4f;0x5ed49f1369e81;0x771c82959fee5;0x5d5e17dd7560c;0x59fc04cffa3c5;0x919dea06a360c;0x56750848d9d8;0x25679a8ab24]),[[0x4b2695fe09f81;0x6f5d3da4e2a6a;0x5263ca1f0deae;0xd26db33ceb4a9;0x147ec722b2441;0x29682454b2d2f;0xc43558c2f56b9;0x2c23c2a8fc203;0x7835db37d1768;0x20f1b116679];[0xc5be761549f35;0x49bdc29b2d4ae;0x33b38fe2ca354;0x72ead750eb875;0x9ded4a47b5bba;0x6ea98df590796;0x52cf882594eb4;0x11778ebe3e5a;0x9b9b48239821e;0xa1029ef4da2];[0xb3b34e46f6b06;0xa9ccf42a10713;0x15359a7b3c635;0x34c89ba11b5f2;0xa952dba58ef84;0xd5cfd50bac0f0;0xec56a6f84be0e;0xe071670ff171e;0x4dbbf8264ec2d;0x41914c46e9e];[0xb3b34e46f6b06;0xa9ccf42a10713;0x15359a7b3c635;0x34c89ba11b5f2;0xa952dba58ef84;0xd5cfd50bac0f0;0xec56a6f84be0e;0xe071670ff171e;0x4dbbf8264ec2d;0x41914c46e9e];[0xf55e65ac0d9c2;0xc2fe19ee4eccf;0x190e11cc5db9d;0xf07357ce51bf6;0x7dafe0a19e73c;0x9964458da26d4;0x21a1c27a654ac;0xe2bd1ce5c1957;0xed367f76d459f;0x229851e419c];[0xd06010693c574;0x86bfa8acde7de;0x1aa57e166c7b6;0x82777f8299c7f;0x203d69a61747d;0xd5454867ee0c2;0x312dc5ab2fa07;0x1e5a5c0622503;0xae64c8acc3c7e;0x7e6a4d10c05];[0x0;0x4e51aa1afb8a9;0xb60d0c5e4a23b;0xfb4fb1ded4c6c;0xe34c20b0a8059;0xb8a1b9f3f2edc;0x78ba6ef864901;0x7cbdf8f723187;0xadf30fb52122;0xaa0845a640ee0;0x288c00dff2c];[0x0;0x6026b6551a4a7;0x108b254a8577;0x176e4ae21934b;0xcfac9d18c5290;0x7412570aecf4e;0x59e71f818bd05;0xbeb74cb9144e;0x5f948cab491ad;0xa5c404e95646;0x87010acdec];[0x0;0x233103d212e3e;0xe0e76ec4fdcb4;0xdfe0ba63d6427;0xc8546cc395c15;0xcc38d294e1ac;0x8c85c9e3c1f05;0x7fde57d2f3f42;0xc7c6ed5d72f82;0xe758458898ad5;0x19663963146];[0x0;0x233103d212e3e;0xe0e76ec4fdcb4;0xdfe0ba63d6427;0xc8546cc395c15;0xcc38d294e1ac;0x8c85c9e3c1f05;0x7fde57d2f3f42;0xc7c6ed5d72f82;0xe758458898ad5;0x19663963146];[0x0;0xa7c86910c1971;0xfb02d40c30292;0x95e0603fcf41;0x517a9ecac2c25;0xb290c96919b66;0xc857151ab955d;0xc30fd3d26bf84;0xb6158668bdb81;0xe0f2a62cd67f2;0x23f712b04a0];[0x0;0x480d600fbc8d4;0x76d12d36386a8;0xe7129b5a4b83f;0xab55d3dacc11b;0x38c646a3b502e;0x12309dbc5b03b;0xb5e3141992bb4;0x337730918ebd2;0x8435c716f66fe;0x11f0011c0ad];[0x0;0x5e85c6729ba1e;0x72cd284a3c461;0xc0b95303f55c9;0xa1f3886c6ecf0;0x277f9a478f74b;0x3d6675f9b50a4;0x24319c2e584dd;0x9342750611de2;0xee7cf2a215190;0x705d0d2fb58];[0x0;0x741fd0d8d9242;0x1febe6e7495e1;0xfbe4af2800ba6;0xf62cca17c8f9d;0x9fbce634576ce;0xef8b144906d0b;0x4bdf6404cfc02;0xc6c6309e807c6;0x7992ba16a7635;0x8c4f0b7082888];[0x0;0x17feff64048b9;0x53444b1333709;0x75cfaae2ebb0e;0xdc3a1c35ec1fc;0xf51f691c14dd8;0x348742699d34a;0x5aeb51c9da2cf;0x334a847bdd91e;0xb741f8457d3d4;0x61c6616e68b]]);
 ((V [0x49cdb9e2a8c5a;0xe718c6720aad0;0x4ce5dda4ec36e;0x456d44463050;0xd621a897555b2;0x4c9ed514b5f47;0x938f7a08c4b43;0x66106bc1487f7;0xf183be13f7ad1;0x45a74432477] [0x454bd74dc0539;0x86822e0c24b57;0x9bdd732f700f7;0x37b7050b3138e;0xc7278822e48e9;0x99cc392bcca09;0x4ebf5fff15eb9;0x2cd37510f63f8;0x22f1ff0ebc3fe;0x37007089d51] [0x572c3923a24b1;0xf399d3e0b6f25;0x7349adeeed98b;0x8f85a3e5c5a0b;0xc3115f4a8c7f8;0x610ecbb09e836;0x7b7dcd86e54ec;0xddfa044ff8b92;0xf13ee271a5c95;0xed42954696a]),[[0x8b74ad6a353b2;0x931028b9ece6b;0xb0f0858ef413e;0x9464435b6dbb3;0x5bdd22dfef81c;0xa6ca437f4b7c7;0xac8d0b18dc444;0x98af339c417cc;0x84e2ed7030fe0;0xc2fa9c3213b];[0x5922d62dfdd64;0x8b297dc04f9ea;0x30938cd0de8c2;0xd3a7c934241d1;0x8792743174209;0x49c52f71f1144;0x712090a03d09d;0xb77877d48ca5;0xbbd3bddd11015;0x8b75bad2541];[0xced9bf4a205de;0x8a653ff8410c2;0x595da71119b4f;0x5ed49f1369e81;0x771c82959fee5;0x5d5e17dd7560c;0x59fc04cffa3c5;0x919dea06a360c;0x56750848d9d8;0x25679a8ab24];[0xced9bf4a205de;0x8a653ff8410c2;0x595da71119b4f;0x5ed49f1369e81;0x771c82959fee5;0x5d5e17dd7560c;0x59fc04cffa3c5;0x919dea06a360c;0x56750848d9d8;0x25679a8ab24];[0xacc4a761436a1;0xd6caa2ee9f938;0xfda4f605761c3;0x1236cc16ccf04;0x2d2c29136780b;0x4e4b31b017460;0x53e0825e96fa6;0x50537c49259a7;0x31ba888689316;0x3d55135ed00];[0xac5e2eccba6c4;0xb45edad1b00b1;0x32ee96cb686fe;0xc170fd1d572cc;0x5a664b1e0c9fe;0xfb79fdc1d9ce4;0x1d400e41a60f6;0xbb240b34232fe;0x8a19355687cfe;0x4e20a773841];[0x0;0xb359d5fada2e2;0x4a5ce8fa14a6f;0xa018fb6ba4440;0x3add120e8a54b;0xf001e75244a92;0x2733fba18fba9;0x15009c1ef2927;0x45f16b4ee8ef9;0x55db41293e58b;0x17218a0562d];[0x0;0x9e3bed89ba748;0xed36477f79bb0;0xefbc537efe7c1;0xb327dd75a6439;0x956606a829066;0xf5682c73f64d5;0x55e0f264d12ed;0x82cd88f815815;0x1266aebdae15a;0x1c7d211c79d];[0x0;0x17feff64048b9;0x53444b1333709;0x75cfaae2ebb0e;0xdc3a1c35ec1fc;0xf51f691c14dd8;0x348742699d34a;0x5aeb51c9da2cf;0x334a847bdd91e;0xb741f8457d3d4;0x61c6616e68b];[0x0;0x17feff64048b9;0x53444b1333709;0x75cfaae2ebb0e;0xdc3a1c35ec1fc;0xf51f691c14dd8;0x348742699d34a;0x5aeb51c9da2cf;0x334a847bdd91e;0xb741f8457d3d4;0x61c6616e68b];[0x0;0x40b6ff85313c0;0x3cd0ca6fdba53;0x7b38143560906;0xf9ebf11293b1c;0x106f292726c60;0x6cb49d4c8e513;0x9b1df1aa649bd;0xa97708ff506ff;0x66f84befaf6ed;0x4cad9b15552];[0x0;0x721153f69a793;0x315af52678abc;0xb67fca7b21127;0xc542e8938f4fa;0x1bba969810e76;0xfb9cafad9010a;0xa1e21fd5bf407;0x9bb47b9082f53;0x17a0befc61c52;0x7cad17caf94];[0x0;0xd7604aff2040a;0x6e4b19656a495;0xc6d8e610eea1a;0xf037ab8ce12a1;0x6d6515347ae9d;0x682c50f5ead69;0x213d01f562f2c;0x7fb55ddabb814;0x196f10c8c2902;0x25f1da4e397];[0x0;0xdd8f77b303660;0xb50b517e3aae;0xe3e956bb0a890;0x135aa28a8cbde;0x6e346026387d4;0x62305ed262b68;0xa432777e03d3b;0x17925d0b6251f;0xf7da9b3d35755;0x37197a71ed1f5];[0x0;0x79b2a5e16cbdf;0x382936d7062b3;0x42310e7b36a;0x77e9639acec6d;0xf984bbf3cb2c1;0x759ecd20db6f1;0xd1ad662d85c31;0x20617a4b2a6fb;0xeeab7c25c0719;0xef70e457ba]]);
 ((V [0x2aabce5d67fc;0x490935de96eb7;0x2ffc9936c9788;0xe072a18b03185;0x407f45e481228;0x893a720c5a8d1;0x2eb203329d844;0xcfa366b8484e5;0xa1f9abfbd4b7a;0x25295121dc1] [0x4ccfa551bcafa;0xb5354674dbfb2;0x8e09bd41975aa;0x48518cd0e37f9;0x5dfda5a0a9d1c;0x2f3232d4124b1;0x126bd8a0ad16b;0xfc27af77caa75;0x1000585ecf8c;0xd0160820757] [0x81f592eb0b631;0x2ec028b51b7c1;0x436f9937273b8;0x159d988f83486;0xf8c7b760837bf;0xdc7af73aa9a51;0xdf27c1cc8a1b0;0xf9ba66cc354cb;0xc0ba46e5f3a09;0x3b34bc484d7]),[[0x9ba52079b27fe;0xb93078efea127;0x9576f39d9b61c;0x7ccf44859686c;0xc9bc181d8c2f5;0xeaae01ba80f1b;0xac8bc3caa2edc;0x6754fb0745ad3;0xb1441dce8a10f;0x7f1fc7a75be];[0x39c04698e39b8;0xd6262a7b63417;0xc16150605bffa;0x473df60824b6a;0xda96a80211075;0x1b1eaab96dc44;0x3acfb8a6a7b9e;0x7a355b37b0c3c;0x99a96cb5aabd5;0x36b082b8beb];[0x572c3923a24b1;0xf399d3e0b6f25;0x7349adeeed98b;0x8f85a3e5c5a0b;0xc3115f4a8c7f8;0x610ecbb09e836;0x7b7dcd86e54ec;0xddfa044ff8b92;0xf13ee271a5c95;0xed42954696a];[0x572c3923a24b1;0xf399d3e0b6f25;0x7349adeeed98b;0x8f85a3e5c5a0b;0xc3115f4a8c7f8;0x610ecbb09e836;0x7b7dcd86e54ec;0xddfa044ff8b92;0xf13ee271a5c95;0xed42954696a];[0x6fec352cd097e;0x477aca189ad28;0x75746b891a931;0xbb0267fd2d7d3;0x8e7198e4cb79a;0x88e69ebf9cfdd;0x12802b6a8cb1b;0xf5065cd8779c1;0x9ee53a33ee502;0x46ee968332];[0xc9d4116c1303b;0x8eab6062c86ee;0x4bece4d7416c9;0x8c3b8e0af7397;0x4c250f1d458da;0x92380bf9d0c67;0x284f8d3c1b082;0x852efe5f3927b;0xfac43281bc6d2;0x324199508b8];[0x0;0xfa3c8fbacd11e;0x42387791c2478;0x3416f552ceb2c;0x526622defc179;0xe679db6d4260f;0xa305159198cc8;0x72df9be17ed08;0x6a74113282a53;0xe75056973382f;0x92b8a66093c];[0x0;0x62af3c28c6bea;0x3e750be8f0db2;0x438eb6128a188;0x3277201de2fe3;0xcaec31c59bd9f;0x4836241bc5746;0x3ec384b5dba39;0x8afa719eaab28;0x6e43a519bbc44;0x75d17c27f5f];[0x0;0x79b2a5e16cbdf;0x382936d7062b3;0x42310e7b36a;0x77e9639acec6d;0xf984bbf3cb2c1;0x759ecd20db6f1;0xd1ad662d85c31;0x20617a4b2a6fb;0xeeab7c25c0719;0xef70e457ba];[0x0;0x79b2a5e16cbdf;0x382936d7062b3;0x42310e7b36a;0x77e9639acec6d;0xf984bbf3cb2c1;0x759ecd20db6f1;0xd1ad662d85c31;0x20617a4b2a6fb;0xeeab7c25c0719;0xef70e457ba];[0x0;0xbbe32bc5fb535;0xc489ecb14a62;0x6259c075ffdd7;0x300757ac9634b;0x93d3e07f89524;0x475a36d00ed72;0x1e9b7199a8a1c;0x2f2bfd519eb35;0x6b4e5618ef4eb;0xbd1305b6b0];[0x0;0xf95ca901794f;0x96647934f6f6;0x818203eaef718;0x5a8fe82932e1e;0x8b328ea6f1695;0xdc35fb9e14829;0x906eb29235b13;0x18e936e0e1c4f;0xe8abd6c091e9f;0x12f3980d264];[0x0;0x60d6ce3bc1276;0x5c289653f6fd3;0x3c617b11702c5;0xb624c690df386;0x5eff99a958eab;0x180e70caea45e;0xe91bb67fc9e71;0x11d22672bb4d8;0x9f23f5705540a;0x7f0567eb84];[0x0;0xa2eafb6d02bba;0xcedb143eae68;0x7e1512565e2c;0x8c9b928f2f48e;0x31b1ef23b4ea5;0x69ea8658530ae;0xc554dcf1dd689;0x2b6d618bffafb;0xc255a89ec6f10;0xd0b9aa09781b6];[0x0;0x35644f4714ee1;0x6e1471c3a524d;0x39d60a8354d53;0xd97b5dd2d5090;0x9cba5a6e7f14b;0xb46fa44c78814;0x7f88902825fa3;0xa47bee37370b8;0xd7d8361a561bf;0x1e34c4a67c7]]);
 ((V [0x5c92018805197;0x92b95216dce10;0x75c95cf3e5c02;0x5549b3309bc54;0x2b65d4067610e;0xdc3e0e8f7f819;0xc9de272196793;0x140dcf878d124;0xa2a1730e6f8cb;0x3fefbd8950d] [0x8db01f345a8b1;0xd5f2dbe9c8cb3;0x913c1ef87456c;0x8c2386074e9bd;0xd90aead5c7262;0x2a1acbc88eae1;0x6da697f158aa2;0x2b95dd28eb3eb;0x4b4128a0d9f1e;0x71da363d601] [0x7559f4a733951;0xdbd6836529226;0xbf10eeed35512;0xf0541d5721b12;0x50cb3692df732;0x5dc7f9fd5fc12;0xcb2916374d729;0xabaad7502c692;0x45079a21c28b3;0x4ba08fefd00]),[[0xdd3319e81c39a;0x1a4e4dd04b61a;0x7edf97458bc08;0xf7d3fe4723546;0xf2f2a824fdf13;0x1c490a1731ed9;0xcf8086d4f2c6f;0x5293c3b62c38d;0x810dd000fd364;0xa64b4fb1160];[0xff9db5878df21;0xabe1600ff659e;0xc82c2c98e687f;0x3b8207678e8b9;0x50aad3668fd25;0x6336fec938cac;0x3efee356754f9;0xe52e0bfb56db2;0xca548a6f3a95;0xc3b9ce3956];[0x81f592eb0b631;0x2ec028b51b7c1;0x436f9937273b8;0x159d988f83486;0xf8c7b760837bf;0xdc7af73aa9a51;0xdf27c1cc8a1b0;0xf9ba66cc354cb;0xc0ba46e5f3a09;0x3b34bc484d7];[0x81f592eb0b631;0x2ec028b51b7c1;0x436f9937273b8;0x159d988f83486;0xf8c7b760837bf;0xdc7af73aa9a51;0xdf27c1cc8a1b0;0xf9ba66cc354cb;0xc0ba46e5f3a09;0x3b34bc484d7];[0x797e685616d68;0xcb561ad75b9c7;0x41e7400cd1db1;0x82b02cb6e8c76;0x5967474402e35;0xef0527eb8c5bc;0xebe9db7aa26b;0x2d214c5e12f13;0x5253f95985a1b;0xba1d548fe6e];[0x861f4d3176f81;0xe08b45389abd7;0x8644ec8c14acd;0xb8d1dab0a5c43;0xf7438c228ceef;0x7431d6ddac6ef;0x3040459ecb28d;0xb80cbf9d43e9f;0xba514f4d6e07a;0x521e4853ae7];[0x0;0x183ce5589e19a;0xa90ff80fcb307;0xb227b623a090b;0x7b5ccc46a55ca;0x48ae3bc1b0fad;0x9ff2329ce406e;0x9e0ec86ba89e3;0x3c287cc5ca4a5;0x7f26491894751;0x249ce71d43b];[0x0;0x5e0a82a1d1bdf;0x1880e13316f6a;0xeec52b935395a;0xa4a18ac3ead46;0x2908d93b85baa;0x8d7c2c1c9f213;0xf55a4ec9e2316;0x229f24563c1e;0x606856453ad66;0x26759cf8461];[0x0;0x35644f4714ee1;0x6e1471c3a524d;0x39d60a8354d53;0xd97b5dd2d5090;0x9cba5a6e7f14b;0xb46fa44c78814;0x7f88902825fa3;0xa47bee37370b8;0xd7d8361a561bf;0x1e34c4a67c7];[0x0;0x35644f4714ee1;0x6e1471c3a524d;0x39d60a8354d53;0xd97b5dd2d5090;0x9cba5a6e7f14b;0xb46fa44c78814;0x7f88902825fa3;0xa47bee37370b8;0xd7d8361a561bf;0x1e34c4a67c7];[0x0;0x9b5e06c01ab64;0xa787cceb24268;0x475a04f4b5372;0x5f39ce077341d;0x5253a23f253c0;0x7b6e205998a94;0xdae04b699f3ab;0x1cbc8eaec915e;0xc54b7e28ce6db;0xa923cf1a24a];[0x0;0x8726beb8cb6f9;0x855e8bd572907;0x2a9aac4d08741;0x35fb2f45fb0ac;0x27c755802cb1b;0x83a0c79f2aad3;0xcb583e466427c;0x4ed00f409c847;0xe7f43def71eab;0x564f81ee02];[0x0;0xa0cbcd63d67f4;0xa75cd209ab9fd;0xdf708f775f493;0x616f7a954b343;0xd06d6cc11aa0c;0xe21a0dc4dd751;0x3ef90494fe52a;0xe1f48df660509;0x35008b515682c;0x30e20520cd];[0x0;0xc7b15b70c7ef;0x2ef76581d0b1c;0x8a26b8cf84fa9;0x4dc04b47d15e7;0x3e2f4b35c9901;0xb1c84a716e4c4;0x4a9200a463380;0x119a178789f33;0x81d0b90efe8b1;0x72469fb601e42];[0x0;0x1e84b76b1ef3a;0x884c2753aabb7;0x35cf290849228;0xf0359d6a5732d;0xb71409cb56e1a;0x151433145e9f9;0x4b22ce21779eb;0x6a4e606dbe93;0x959e9dcd928c4;0x1c6f525ce9b]]);
 ((V [0x6e48d859f492c;0x3c8ae73eb25be;0xbd51ea66fcc86;0x202e17f6d270c;0xa89254495889;0xd094ef907c43a;0x2b0e1909adb81;0xe2e9a96a98;0x502830236d240;0xa6bf295c53a] [0xf9ca868405afb;0xb431140b82700;0xd801f7f2344cc;0xcea8668dbc049;0x77e127c33b81b;0x430dc9c3236e9;0x9e54cf398bcaf;0xb1a9bc37ccd07;0x8c1ae716ee1e2;0xdc487691e2] [0x44b1ead1364a;0xbf78ae4d29450;0x10a552a1e7622;0xe9e1eb74633fa;0x941f1403714ab;0xc0d88b73b48d3;0x9688fe763e19a;0xdfeb39efd4749;0x3a71a1e3759f;0xe93e1701055]),[[0x37d6ccb83704a;0x171d8c4c954f1;0x4e2fbdecdaea6;0x6ccea920bbaa0;0xe9ee14bc1e6ff;0x910a51a0ef982;0x97a722afb2838;0x4361b1f53e47d;0x387416e8aecd4;0xec4c821bb19];[0x437f80677312a;0xee6d4ccbecb21;0x75c9bc44cb257;0x669a6561302ba;0x549f68ec23fd3;0xc5e1e13aad5d8;0x8c9c3d651c7c3;0xa08dac47bcaa7;0x522403d6f2ff0;0x1155f632c03];[0x7559f4a733951;0xdbd6836529226;0xbf10eeed35512;0xf0541d5721b12;0x50cb3692df732;0x5dc7f9fd5fc12;0xcb2916374d729;0xabaad7502c692;0x45079a21c28b3;0x4ba08fefd00];[0x7559f4a733951;0xdbd6836529226;0xbf10eeed35512;0xf0541d5721b12;0x50cb3692df732;0x5dc7f9fd5fc12;0xcb2916374d729;0xabaad7502c692;0x45079a21c28b3;0x4ba08fefd00];[0x53d6dc6bda63d;0xa639a32398d8d;0x1c23ad3f6513a;0xcb7fad8c1b8a1;0x8bf9557fc619a;0x7cd9118e9e836;0x4d18e741ab062;0xe526748e887db;0x4819d5c18136f;0x62b2ef5813c];[0xefa8a3fb988b5;0x4833a9a853d93;0x59a60f056611d;0x9b1ab7d514a19;0xc8a6136c5de38;0x4908cfac0eda1;0x3f83562371761;0xbb6737b9342cc;0xa0a2e1571c80;0xaea306daac7];[0x0;0x316573e49c9ca;0x5baa9c295146f;0xe1a40f31b7dcd;0x673b995f03a15;0xe6bcde669aab7;0xff78a7186e8b8;0x704a4b2b0eb5a;0xf9e44b718c32;0xd6883e0e5928d;0x2ec48b051de];[0x0;0xe3de64020adc0;0x21d9c2e1af967;0xd53ebaf6df130;0xd7cdc2505c335;0x3d127d6c0cf66;0xb43e40f8034e0;0x90fbd626a6142;0xdfea445cf3733;0x24a119cbbd019;0x45ce9ecb867];[0x0;0x1e84b76b1ef3a;0x884c2753aabb7;0x35cf290849228;0xf0359d6a5732d;0xb71409cb56e1a;0x151433145e9f9;0x4b22ce21779eb;0x6a4e606dbe93;0x959e9dcd928c4;0x1c6f525ce9b];[0x0;0x1e84b76b1ef3a;0x884c2753aabb7;0x35cf290849228;0xf0359d6a5732d;0xb71409cb56e1a;0x151433145e9f9;0x4b22ce21779eb;0x6a4e606dbe93;0x959e9dcd928c4;0x1c6f525ce9b];[0x0;0x7e5cd16ab0abc;0x8b8b3506cd838;0x30e4c32364da2;0x6cacd9a3f88ab;0x88e03d0fa93c7;0x2c9e457e6ba62;0x13000212e999;0xb494f431219d6;0x7dd7ab7585179;0x32a25de29ad];[0x0;0x2376875165ec4;0xd9b3598ad0b2e;0x6c67877d61676;0xd312584bfb3f6;0x274031bb71819;0xb16eec9af569c;0xd3f3acae12f14;0x169ba5ea54a03;0x4631bc68f5cfa;0xff7dfcd088];[0x0;0x8b0687b2062e;0x22227cb321e3;0x15c7527f7b086;0xa33c49524c24c;0x43a9198aa2208;0x1209817f2d01d;0x32d1eaaa6bf41;0x89b731da681f3;0xc8245796f6815;0xb4aaf949d7];[0x0;0x83e24e9b7698d;0x6826b4f3d931e;0xc8d1ca5ed1f25;0x39e383003572c;0x96d95fbcd6858;0x2ab3d123cf1d6;0x2f73d21e3b31b;0xee010411416e8;0xb01217ffbd9a5;0xdd15d440ac12];[0x0;0x82af4fe884956;0x1083afe69af4c;0x3aa1a2d8a087c;0xbaaa3add8d28c;0x142d331f21842;0xe3cb0272bed56;0xd105c46517eb6;0x3c9128d8ddf60;0xc054feca552f8;0x8f7b7a8a1c]]);
 ((V [0xb75f4dc405e1d;0x3af45468a188a;0x73db5d0858007;0xaf04d85da7223;0xa995e1e04e0ef;0xe863b417eadd9;0x40bc102354f2e;0xa59d7e9b463e2;0x61b4660042344;0x9b67dcc5274] [0x3d9199a367085;0xe6692b899b6c1;0x6cbfd80345257;0xb6453d3f429e7;0x1b3275c3cf21a;0x33dce9141e24a;0x3271e3f2000b;0x8c1dfd5392f86;0x6a17e09dbe52a;0xcf3bd16615c] [0x8595f83d5d13c;0x179342a48d99;0xf2cf5d740ca1;0xd7eb9b2d37c2f;0xc50e02a6158df;0x37b9363d1ea65;0xe2c137683f58c;0x7448722430c23;0x8e8e80f51eacf;0xcad07019463]),[[0x30399e80a424b;0xcbb3f045fe630;0xa6d865aad5f37;0x69daa7602cac7;0x58c2cae343978;0x531b49f76b667;0x2c10e88e6a63d;0x2cee1b8404d28;0x66414a4d58214;0x95dc462d513];[0x3e7d071a7a5f8;0x3230bc9ed24ac;0xd02b4f183aa2d;0x5eeeb09bf962;0x85585085ff17f;0xd14870d43352a;0x1d5b10fea15ef;0xa603cfd2ee6d5;0xc424911213864;0x405391ae51c];[0x44b1ead1364a;0xbf78ae4d29450;0x10a552a1e7622;0xe9e1eb74633fa;0x941f1403714ab;0xc0d88b73b48d3;0x9688fe763e19a;0xdfeb39efd4749;0x3a71a1e3759f;0xe93e1701055];[0x44b1ead1364a;0xbf78ae4d29450;0x10a552a1e7622;0xe9e1eb74633fa;0x941f1403714ab;0xc0d88b73b48d3;0x9688fe763e19a;0xdfeb39efd4749;0x3a71a1e3759f;0xe93e1701055];[0xc13e8a4e67b45;0x30fb2e7f67135;0x4a5f2cc25fabf;0xe874f900327cd;0xe12a09902a6c1;0xa3becfd9a24d6;0xf83837abd7db6;0x3bec2cfc9c131;0xe2137458e50a3;0xfd517298ee9];[0x7d3e7ccc1287b;0x1358e1f6b376;0x85cc2255daf6e;0x1d79f2098d195;0xa42e46f5d4abd;0x2d89a0fa91053;0x2522d952c9839;0x6a17a2d6525a3;0xe2111cb92e7c1;0x43021f15632];[0x0;0x38895f5f70683;0x99599be8d674;0x7b1c0233cf112;0xc97ed1d60d4fa;0xf239100f6c860;0xdb8253b25ecd9;0x8c6c0a4441c97;0x2c8100c759a72;0x3bdc196be053f;0x903ca196d84];[0x0;0x8afd6682af49a;0x4436b81991326;0xee010bedbd14e;0x59a82048662ae;0x9f9f1b1df7825;0x5b732c07ca012;0x77c398083895f;0x87e08c3aed23a;0xac92778dfdca8;0x8889d4afa12];[0x0;0x82af4fe884956;0x1083afe69af4c;0x3aa1a2d8a087c;0xbaaa3add8d28c;0x142d331f21842;0xe3cb0272bed56;0xd105c46517eb6;0x3c9128d8ddf60;0xc054feca552f8;0x8f7b7a8a1c];[0x0;0x82af4fe884956;0x1083afe69af4c;0x3aa1a2d8a087c;0xbaaa3add8d28c;0x142d331f21842;0xe3cb0272bed56;0xd105c46517eb6;0x3c9128d8ddf60;0xc054feca552f8;0x8f7b7a8a1c];[0x0;0x9a719cfe6628c;0xe9a532d2b3bc3;0xce684d6b4bd34;0x5de8a3c363c35;0x8e24d5d1991ec;0x20ad7c6e6b4cd;0xc0a31740f3d39;0xe3ff99dbf00f4;0x65b0d07e56558;0xbd8ca04da];[0x0;0xf5fcf8b121443;0x4b7b1efabea5a;0xeea08c6b5f0b9;0x1f5672bb4945c;0x1f98c84bd2945;0x5c03ee92bc67b;0x2d3f60e429d92;0x12a8cdb341220;0xd8392bb189555;0x6c9c78627ae];[0x0;0xeee91d945f057;0x3bbcf5347771c;0x121668c77301d;0xd302217ea928;0x5149495f5c74f;0x581a646e7fbef;0xed3aa442f3439;0xd89969713c10e;0x8d7a74762e37f;0x270cb24d840];[0x0;0xd1e05674c0d89;0x25e3d212e2596;0x78ca4960140f9;0xcd681461fc8d8;0xbccf5fa16c903;0x1f46115fe3b0;0x6f79176e9f1d6;0x28058da7cd14d;0x2fb74fccca481;0xcfd6fa9ccf746];[0x0;0xf365944de183;0x358dc6868f6df;0xcc9a4a0fa40ba;0xe5a03ddc205;0xcc49caf9fb8e;0x347e816eff9e2;0xf8d4480dcb49b;0x16c48c0a3cf61;0x8c24dd4b6b6d3;0x7dcd4b91100]]);
 ((V [0xaf5a590dc1861;0x20fae07b2077a;0x9449c546fff3e;0x15747e31ebd35;0x7cd8bd4267cd;0x1ea404fc42a71;0x4272b82756951;0x81ab5dc15bbc7;0x47e897b19a77e;0x286f74d402f] [0xbb1f5b8c06b3d;0xa0b3456ec41bf;0xf107081bd818f;0x5751b787559d3;0xc2a0485eaacc0;0x7a47a477ab201;0xc5cdcfe2e7d1a;0xf10b5cd457875;0xfa59bd7fff2a2;0x5f17d1093ca] [0xa8f45a1bc8f2a;0xc10792477f98f;0x3eda6b6a081a9;0x92efeed546633;0x576a53bb8bf39;0x1852ecbf77b8f;0xbf2c52c5ac9e7;0xf6260baa8a44;0x8680225b46494;0x5fe35d995fc]),[[0xa23ba53ff8fe4;0x89622319e9a4c;0x78d24989baa1f;0xa709f60751f9f;0x680d60f1b2a32;0x420d69edda05c;0x3e5cbb618a1f;0x9aa8d9d3514f9;0x28883f85ff6a7;0x56b1976a070];[0x72b12bebd0e0a;0x47b7b1ca67780;0x65d15136a2de6;0x72657738d56d6;0x9a8bad34b4d1f;0xe8e07939a07ba;0x501fc827e9dfa;0xb1fb0ce317daf;0x5ed83e0a1ac7e;0x8d6ff830c09];[0x8595f83d5d13c;0x179342a48d99;0xf2cf5d740ca1;0xd7eb9b2d37c2f;0xc50e02a6158df;0x37b9363d1ea65;0xe2c137683f58c;0x7448722430c23;0x8e8e80f51eacf;0xcad07019463];[0x8595f83d5d13c;0x179342a48d99;0xf2cf5d740ca1;0xd7eb9b2d37c2f;0xc50e02a6158df;0x37b9363d1ea65;0xe2c137683f58c;0x7448722430c23;0x8e8e80f51eacf;0xcad07019463];[0x404f6d59394c2;0x474f314802592;0x4412946f2a58a;0x2772ae729e443;0x5b37091cdfb5d;0xc5e3176487e42;0x40bacf0049db5;0x7faf172ae75a0;0x5422e0321f9b2;0x3708eaff80];[0x3261be9297949;0x688082651ee;0x21bebcc77885c;0x4af2c8c637293;0x3f54a417d51c2;0x22fd61d518978;0xf64f927a0045;0x324bf5b83080f;0xab55dd7fb2cc;0x89ff6980c89];[0x0;0x5ad3863667a44;0x400a202e7fbef;0xf6ab7aa1c4aec;0x24abbee99428d;0x70d745e8ea099;0xf599d6685552b;0xfd2e22a91a39b;0x1ed649dd966b3;0x8900dd72ed898;0x7d6b859ed50];[0x0;0xceaa7e6f6d6a;0x4560322cfe67f;0xdc390a86f5a0c;0x42d926e3aa929;0x46fc8695b260;0xe573ed5562ce7;0xc680d019b220e;0x32a1ea606c24e;0xbb3527ca4460d;0x44aeb7baf10];[0x0;0xf365944de183;0x358dc6868f6df;0xcc9a4a0fa40ba;0xe5a03ddc205;0xcc49caf9fb8e;0x347e816eff9e2;0xf8d4480dcb49b;0x16c48c0a3cf61;0x8c24dd4b6b6d3;0x7dcd4b91100];[0x0;0xf365944de183;0x358dc6868f6df;0xcc9a4a0fa40ba;0xe5a03ddc205;0xcc49caf9fb8e;0x347e816eff9e2;0xf8d4480dcb49b;0x16c48c0a3cf61;0x8c24dd4b6b6d3;0x7dcd4b91100];[0x0;0x4040f502798f1;0x3f67dcf732cfb;0x208b721c7160d;0xaaaef875b27fa;0x99d07e33f2b7d;0x340b5f0af6b2e;0x5b2b1c5b893f6;0x3a1446644f9fb;0xd1afbf3dcd51c;0xa7c1ca9d478];[0x0;0x1b3d23097a00;0xae9d0d4c20933;0x8b91e10b976de;0xe4de2fd32bfa2;0xef2ffe480b290;0x54a1962a907b5;0xf0f1924246c53;0xc36bf0f537b8e;0x7f2c721b3a4e2;0x5e56ef7a229];[0x0;0xe0140796066b5;0x7fd5d67616c9d;0xda3afd59b5514;0x1005c733634ec;0x7ef30dd80e220;0xb0ad503335ce1;0x129dd64570ff2;0xbc53f00e68e9e;0xc8254041fa067;0x165712e01a0];[0x0;0xb13034c5a7aca;0x8e92d07b63297;0x3eae9919457f2;0x36e12bfbd5b1b;0x7f1078bea8a17;0x68e84bbf0c47b;0xe5afb0aa784c8;0x9dab40757ce0;0x580b108ff762f;0x5f425f249f046];[0x0;0x554c6aaeb975;0x3011782768417;0x800f2bad87067;0x1b5b76f808a79;0x448895288d04e;0xc6d31d98276d5;0x7f036f5b5e5d1;0xe34326138f01c;0x70e851a750251;0xf051f62a00]]);
 ((V [0x4c46efde802fc;0xd66f96edc38ee;0x56e0152a681ef;0xbcc4e288dcd35;0x3db0452f1a9d7;0x16df7437c79d6;0x1e4f5e968b99e;0xea1c5699311ea;0xcf92f7505dac6;0x666adc2457c] [0x28f322137770d;0xeeec0b5980be7;0x21b6d1060f1c6;0xe87fd1b21d05c;0xe330e2449b463;0xa74e3d8ba29b7;0x982fddc51df92;0x5c3529d607008;0x2d129886c6b08;0x3fa45271246] [0x67280674e22bf;0xcb1abd08eed91;0xa879ea4dab1c9;0x817a1a70221c0;0x64ea4f37928cc;0xb2bd3e9f76f8b;0x6b0beb119bac5;0x1f211266cdc6;0xd6a0b45be31af;0xfd2e3cdbfc0]),[[0xf06f9bca1f96;0xfeeba5210ada6;0x21cf466a929d3;0xca74596556148;0x364b5b678a57c;0x8e8e121739219;0x5507ce2709cdc;0x6d3112819cbd7;0xea04495500a8;0x4c619a4516b];[0x89250d488215f;0xb5c6a7aa6e2b3;0xd7e4368ca55d6;0x2934d4706c659;0xe343322cbaa0d;0xd16b1a976bf23;0x1bd85501dfff5;0x37a0d8c17351;0x3d9d7b1293661;0xbdb72e2df59];[0xa8f45a1bc8f2a;0xc10792477f98f;0x3eda6b6a081a9;0x92efeed546633;0x576a53bb8bf39;0x1852ecbf77b8f;0xbf2c52c5ac9e7;0xf6260baa8a44;0x8680225b46494;0x5fe35d995fc];[0xa8f45a1bc8f2a;0xc10792477f98f;0x3eda6b6a081a9;0x92efeed546633;0x576a53bb8bf39;0x1852ecbf77b8f;0xbf2c52c5ac9e7;0xf6260baa8a44;0x8680225b46494;0x5fe35d995fc];[0x34c8f4c52b4e3;0xd1e1bbd948637;0xe5edd96f33d06;0x52313e9940e30;0x2b57fd93f24d0;0xab30add325483;0x6ff1295018f55;0xb8a1852846a12;0x864794faf088c;0x78732b7e202];[0x545c188356c7d;0xe3e4ebd125c7c;0xf1f65d1d718cf;0xd70395d72b828;0xb7eb3498c853c;0x263a6cc446aa0;0xabe72bb1c70a0;0x4ad88863d093e;0xb755e617a2dd4;0x454402afd56];[0x0;0xf114d0cc9bc26;0xa7256521c80a6;0x23a12f8a81e7;0x21e56efbdba54;0x38dea9947d86b;0x9242f246206c9;0xad635713cab18;0x97ed3b15eb06b;0x91123b8b4c601;0x3b4c0df8955];[0x0;0x1ba3e33aa52db;0x48eb6a4f4f01a;0xcbc984a23350d;0xea0947099fdc9;0xb3cd8fc99eb5f;0xa339cf05b214d;0x5f022b76213d;0x40ec97880585;0x315c861d79191;0x1c9c0eb8a6a];[0x0;0x554c6aaeb975;0x3011782768417;0x800f2bad87067;0x1b5b76f808a79;0x448895288d04e;0xc6d31d98276d5;0x7f036f5b5e5d1;0xe34326138f01c;0x70e851a750251;0xf051f62a00];[0x0;0x554c6aaeb975;0x3011782768417;0x800f2bad87067;0x1b5b76f808a79;0x448895288d04e;0xc6d31d98276d5;0x7f036f5b5e5d1;0xe34326138f01c;0x70e851a750251;0xf051f62a00];[0x0;0x665e9f65ca32a;0x89273e5311d13;0xa9bd2fc9ca61c;0xbe40832ec7880;0xf65f3cfecc584;0x54f81f83f8884;0x540a5417ddd1a;0x85ce68f318361;0x359e58b75afdc;0x2352af5c156];[0x0;0x943dcef93a59c;0x40366d13e0500;0xfa9d6deac2a1f;0x6b53e2fe1d7d4;0x22887009118da;0x2768b21f660d9;0x7ce9d952bb257;0x850cbd794bd84;0x7c9d32957ab55;0x6630508c61];[0x0;0x7a31504709274;0x4452376947fdd;0xdc71b4ecd01b1;0x464001df61acd;0xc8579c16418fb;0x495be564463b1;0x8a183f6611732;0x98d4b85884f0e;0x3bcda7e3ff346;0x4be62d63c96];[0x0;0x67f4eabf8a098;0x3e0ea7e4b47ee;0x1efc14c9a852e;0xc79733c50114c;0xc1d56339f5016;0x46550f0467dae;0xbfc552d8fcf77;0x9890817c7fae;0x62ccc17c23070;0x3fb4cce8c61cb];[0x0;0xec431aa4ebb8b;0x918cff15a84c1;0x4c54c3594fdbc;0xd4307d8146cf7;0xd7ca497b56b6a;0xcdc9db6244e71;0x362677273f1ad;0x4acf2f0ff74d4;0x11057f72c1be2;0x1976099d772]]);
 ((V [0x22a8a92e94adb;0xba8caea0e6adb;0x354a7fbf80984;0x3fb3bb485522c;0x99214643cf631;0xefa77a4cc8534;0xb63674e214fef;0x5b5f04327d1a4;0xfb153a6ac5d79;0xb737590f051] [0x2efed0644438d;0x6ac1fc2b8f734;0x9bc136f5be9cc;0xc432b6e2adb0;0xebf1149edf678;0x9cb167cbd58e0;0xd452233b60df9;0xded74280df8be;0x676de62160ad9;0x84001e7122e] [0x27444b156561d;0xdffcd22dc4077;0x2c66ce6a848a6;0xfd19454e22487;0x186051f12ea6d;0x713778c097922;0x7a76bf74d1a60;0xf03a8f1202206;0x82f672976807c;0xfac113270d0]),[[0xadcc52fad5980;0x280ee83a4cf05;0xa8000385969fb;0xe2fb21c57d285;0x54d33df41b80e;0xd926e34b4f760;0x424557edb36f9;0x68085a3f9abb1;0x82044b07771c4;0x7a0261f77c5];[0x317867afd0908;0x62a3c52d2c121;0x3a065f1083eb9;0x1f7c145f8b256;0x56dac5072893f;0xae3832563b30a;0x6947dd4aa6424;0x93aeba8ea55de;0xea4920ff7bb77;0x142945d7389];[0x67280674e22bf;0xcb1abd08eed91;0xa879ea4dab1c9;0x817a1a70221c0;0x64ea4f37928cc;0xb2bd3e9f76f8b;0x6b0beb119bac5;0x1f211266cdc6;0xd6a0b45be31af;0xfd2e3cdbfc0];[0x67280674e22bf;0xcb1abd08eed91;0xa879ea4dab1c9;0x817a1a70221c0;0x64ea4f37928cc;0xb2bd3e9f76f8b;0x6b0beb119bac5;0x1f211266cdc6;0xd6a0b45be31af;0xfd2e3cdbfc0];[0x8be820fe558b3;0xe0faf96df8596;0xd0a4f4ad88888;0x78edf49185050;0x75497b1db03fe;0xfe5d8a8442ba8;0xe3b151783d2a6;0x82af0e2c1c114;0xf2097c946fd05;0xfa22d1e0eb2];[0xa59046b17ae1d;0x81a8cbbf33b8a;0x69616a62fb630;0xa68e1fce06205;0xe19149e978540;0xafdaa7d1f8761;0x85968bd26917d;0x10ffac62894c9;0xf83fa46b0be72;0x1a0673f64d6];[0x0;0x987cc6a8e8950;0x75479845433ce;0xc43d35f59dab8;0xdf5a35c5c41ba;0xc0a65b9e3891a;0x178dda66240c0;0x9baad42074e07;0x7b397803155b5;0x19c55c3737f8d;0x9c910758d05];[0x0;0x2e347a59eb6c8;0x9f0844dc8f68c;0xfc581adc4cafb;0xe035e8f24bdef;0xec34169e9dd83;0x2cd22b8842536;0xdc498d55650be;0xdecc6e0f9067c;0xbfcaea9917e3a;0x78aa6440977];[0x0;0xec431aa4ebb8b;0x918cff15a84c1;0x4c54c3594fdbc;0xd4307d8146cf7;0xd7ca497b56b6a;0xcdc9db6244e71;0x362677273f1ad;0x4acf2f0ff74d4;0x11057f72c1be2;0x1976099d772];[0x0;0xec431aa4ebb8b;0x918cff15a84c1;0x4c54c3594fdbc;0xd4307d8146cf7;0xd7ca497b56b6a;0xcdc9db6244e71;0x362677273f1ad;0x4acf2f0ff74d4;0x11057f72c1be2;0x1976099d772];[0x0;0x9129ce4b54a5a;0x639b8d86b2223;0xa857adace0f08;0x645c35b6ff38c;0x9c83a8ecf265c;0x82454413cdf95;0x3251e4baa9679;0xa16fefc2b5ee2;0xbeedee0c35a9f;0xfd24a0d6b6];[0x0;0xdc0c9b053d275;0xe2601c125bb0f;0xe3f7758649d7c;0x95de8dbeca334;0xa57b9350f415a;0xdda3cdb954427;0x7a4f920a00e3;0xadb545c830c;0xe8861489a2f27;0x28f95408015];[0x0;0x1d9716c78bb23;0x903cc21d66bc4;0x6c3291c4c19ac;0x6fdfb476e5b3b;0x4d7ba1dc978ca;0x8b3a6ae4376b2;0x5e5c1742dddf0;0xac8f915faa82c;0xc9590644af12;0xe6ddcce62d];[0x0;0xf7e09a1709785;0xcdb00267e5e12;0x924092b3f9ad9;0xd843293398302;0x909c12327a502;0xee347eb7185dd;0x90f5ee173e09d;0x556babdb87433;0x4da0ab3fe2774;0x8479b9452b510];[0x0;0xa570fc23a866e;0x1c23a86b01f8a;0x16066edba8086;0x67b7e04ceade5;0xbc16def55e96;0xd1d31fea6ba0e;0x7c6edff8dafd7;0x50cb26edc0217;0xcb44ac921e1ae;0x5e789fb5337]]);
 ((V [0x497e08e5723d5;0x5c775a659f889;0xfdb9caca75ed6;0x548846e774208;0xa6f1fb08ef375;0x219af9829a364;0x4e5e8577e753a;0x8aa9137cfe66c;0x4db4c10e7040e;0xc4c0a9b0289] [0xfcf6f67015970;0x635ab4592b06a;0xc8278ce6e646;0x38993a18827b2;0x2e69dc8047597;0x64ec551cba6a6;0x5477fd653de31;0xc6c8d80d77ef6;0x48e6e0dbf33a1;0x1920b86dce8] [0x339a16938eff8;0x4d51b792d78f8;0x8c765807a83f0;0x2649f109a7c2f;0xe9d5addd1f4b9;0xac51462939cb9;0x468b6f16c4213;0xb930aae852621;0x8222f6d6f0a2b;0xa6c1589d38e]),[[0x7c37c09740f58;0x58fca804a0048;0xe031f13d29116;0xdf0ef75dd1525;0x43314376f02f6;0x22e964082549e;0x8bd3b26cb26cf;0xda4bf4ccac924;0xad24c4c63a441;0x3d97d09b1be];[0xc36727ef84ca9;0x9e198984ba962;0xa43ee0f4b89d8;0xe8ec8e12712cb;0xe7dd586110c48;0xe73077965808d;0x9a6e693cd353;0x195616a6b888b;0xea24bb7b10d4f;0x2b7bd71b6a9];[0x27444b156561d;0xdffcd22dc4077;0x2c66ce6a848a6;0xfd19454e22487;0x186051f12ea6d;0x713778c097922;0x7a76bf74d1a60;0xf03a8f1202206;0x82f672976807c;0xfac113270d0];[0x27444b156561d;0xdffcd22dc4077;0x2c66ce6a848a6;0xfd19454e22487;0x186051f12ea6d;0x713778c097922;0x7a76bf74d1a60;0xf03a8f1202206;0x82f672976807c;0xfac113270d0];[0xe1aed1fb457af;0x3cf0fccf0a8c6;0x305124849b50c;0x5efb768e0ec61;0x5b679a99f3ab9;0xca838856cc99b;0xe9e781bc8053b;0x1c809bfa8accb;0x45309aa95c9c8;0xad40145917b];[0xe1b855f43f2c2;0x61288cb5b009b;0x73edbc701d4cc;0x89f117846266a;0x8c75bdc71d18f;0x1cacef3f8b6f2;0x1fbf64d74ce18;0xfcd57aac2dbbf;0xa4f420d1b4386;0x7e3bc2c252e];[0x0;0xcd77e23b06f88;0x34e5d6428b94;0xddd176ef8ca8b;0x26f5113a1fd1b;0xae377da47c4a0;0x3a1001dcf5508;0xa9e352d4f0e0d;0x9fb04422830cb;0x977f10ff3dfd1;0x9b10e7084a1];[0x0;0x5e1de5e3a8939;0xdcefb9e5824be;0x5c8a1013d79cf;0x8ef55d03f8465;0x23944a0504a74;0xc81a46dcbcc19;0xe79a3eaaaa61e;0xee273821bb483;0x255d8d31fa0ab;0x3c54b5c767f];[0x0;0xa570fc23a866e;0x1c23a86b01f8a;0x16066edba8086;0x67b7e04ceade5;0xbc16def55e96;0xd1d31fea6ba0e;0x7c6edff8dafd7;0x50cb26edc0217;0xcb44ac921e1ae;0x5e789fb5337];[0x0;0xa570fc23a866e;0x1c23a86b01f8a;0x16066edba8086;0x67b7e04ceade5;0xbc16def55e96;0xd1d31fea6ba0e;0x7c6edff8dafd7;0x50cb26edc0217;0xcb44ac921e1ae;0x5e789fb5337];[0x0;0xa011e5ceee436;0x1ce8ff6dc5b95;0x8d890cad20ff7;0xbd27fa6a1fcc4;0x5d724ca9def4e;0xde707fde53f1c;0xcd0c686d99699;0x50a67f3e08a55;0xc60c32d39d18d;0x44101f64af9];[0x0;0xacba30fd9a2b1;0x71d4b773370d5;0x6c9cf05fe8360;0xae899d814e7d;0x4fb1538b0c9bf;0xad2c1f5ffa754;0x37a34234ec24e;0xbd9251c9fd1b3;0x2f5956d593e3e;0x83202d4adcc];[0x0;0x9e5c76d142b08;0x27f3bc5fafbb1;0xc704cbccecf79;0xf02bb8d0d1ab3;0x9ee83d0044f1;0xf5ff93fc3bcf0;0xcdc0574a89d4e;0xf2bae38ba0d9b;0xb09ec38ca9b98;0x216b8a64ff3];[0x0;0x1aee96fc92e44;0x90dde47e1e849;0x2f76fb5f85fdf;0x86db81e224f8e;0x4a64e86978082;0x8b96df825cbcf;0x18ef452fef354;0x40e6a25459f16;0x1b45b578e074e;0x1935947f6c18d];[0x0;0xefd72a1f84408;0x53a62d23502fe;0xf3d2589e61844;0xd4583c9692166;0x8d3a3f665832d;0xa138471b281a0;0x19ebf5ce18b6f;0xb94e1436c91e6;0x3628ccf1ec946;0x134ff66648b]]);
 ((V [0x8b80596ad839f;0xf489da157327d;0xd1c4217efb241;0x47d4a3441f604;0x5e0efe6b9f0bf;0x26e7b1aab9eb0;0x3905d9de7eb7c;0x4b43556b9abd;0xb8bed64fe1a7e;0x5e59c27964b] [0x363421cde7537;0xe3cd74c937478;0x3c1f8f15d3362;0xe6a75cd03dfbe;0x62d345cd7ba06;0x9201383b1c144;0x59abd56576db0;0x8d2281263630b;0x175809e009cb6;0xe9c28455ce4] [0x4e035470cda89;0xe795c4c87cc3c;0x340488c1bd49a;0xa94913414eb2b;0x85e2e4652799c;0x250040eb5e762;0xc51258c197bb7;0x8dc6b937799cc;0x3f77a370cb7e0;0xb78d45015bf]),[[0x269b2caa0c8ea;0xdd9e978eb4266;0xb15c4ca91a58;0x89fefdabb9eac;0x3512e57c6e933;0x1e5d1b5d5e1f0;0x68aa7383f38a6;0x354541c51e83c;0xbdfd728e21bb2;0x3a8d427675f];[0xc694b27c8c3c7;0x17bddefd1c8c3;0x857f5e73dad72;0xa1bea13005164;0xe2bc7af8cccc8;0x7a469bac3ed5e;0x8069b547094dd;0x4060d15aa7f06;0xba820cca2ba7b;0x4730efe45b5];[0x339a16938eff8;0x4d51b792d78f8;0x8c765807a83f0;0x2649f109a7c2f;0xe9d5addd1f4b9;0xac51462939cb9;0x468b6f16c4213;0xb930aae852621;0x8222f6d6f0a2b;0xa6c1589d38e];[0x339a16938eff8;0x4d51b792d78f8;0x8c765807a83f0;0x2649f109a7c2f;0xe9d5addd1f4b9;0xac51462939cb9;0x468b6f16c4213;0xb930aae852621;0x8222f6d6f0a2b;0xa6c1589d38e];[0x414a03d62e781;0x959763b124964;0xafbd287c6dbef;0x6aa7ac64f74a2;0x6ce3f32756c18;0xe283bdadc9642;0xdc368f4fb1eed;0xf76392b26eb76;0x8526f0e54bc92;0xd08e157faa5];[0x854aaea65da0e;0x82267b4bf7f5f;0xd5c235f76d182;0x3716f4cb0dcc1;0x75d887d1760b0;0x97c2ddfe7571c;0xa43325f7575ef;0x48fd3ea83938f;0x355b1be4dfde8;0x76a2da64b10];[0x0;0x611cf14de86ba;0xd438f71d26e74;0xedd4b98fd5b89;0xa8e9650d7fc8c;0x50b84df9aae21;0xc117c9754fbd8;0x274df7a8ec74e;0x28d20143d2b50;0x9f2644439e8e5;0x671f074ad18];[0x0;0xe5a990c84d7cf;0xd937c55d805a8;0x603967ac1d7ca;0x79bc61d78acb;0x5e4915e6ca4d4;0xf469f91194d92;0x2b3e728710fa1;0xb43e6fed50a7;0xebf9df7172cf3;0x2623d1dc704];[0x0;0xefd72a1f84408;0x53a62d23502fe;0xf3d2589e61844;0xd4583c9692166;0x8d3a3f665832d;0xa138471b281a0;0x19ebf5ce18b6f;0xb94e1436c91e6;0x3628ccf1ec946;0x134ff66648b];[0x0;0xefd72a1f84408;0x53a62d23502fe;0xf3d2589e61844;0xd4583c9692166;0x8d3a3f665832d;0xa138471b281a0;0x19ebf5ce18b6f;0xb94e1436c91e6;0x3628ccf1ec946;0x134ff66648b];[0x0;0x2d88c289fd689;0xffd9c753060a1;0x696b187decb2;0xc0ce292bbef5f;0x996cf081a39a7;0x2bb2e25077f85;0x1f02f7d4c30e7;0x5f2b9cc22b7b2;0x78ced2a6bdf39;0x277683412a];[0x0;0xc1399a5ad7d7d;0xa83f5a1430707;0xe942c26c4d736;0x9096549497c37;0xf51eee98734f6;0xa48bdef3b5f2;0xfd8394e4c541c;0xac3aa26d0c9ee;0xadde1c8a1eaba;0x973794d4b6d];[0x0;0x3d42229570478;0x661b1f856fd2a;0xac016428d01aa;0x40372fe54f310;0x275da828616d8;0x53ff7c7de5e23;0x64337169ac594;0x54c6920a6e131;0xf202228699ce5;0x1a3cee2e17d];[0x0;0x2eac1e4db3a1b;0xdc2fff6ffd0de;0x8f72c7b254a15;0x3bc84fbb56b80;0xf2d8dbc4d298c;0xb90a0b615c63a;0xb975458f5b280;0x292f7fb2c1c90;0x65391f6d7c4ae;0xea6b4537ea553];[0x0;0xde0614f37ab60;0x57705b1fa5417;0x7e5fdddbf211c;0x26b5736cbd038;0x43d3d2adf0f9;0xc5160763ea73f;0x357ca2507c4e0;0xdd9612c004d22;0x58d50be1d824e;0x562762cbc4c]]);
 ((V [0xe41c5a2cb25d5;0x92cd6663ba5f1;0xc034090660bcf;0x1a0e95045ce7c;0x57c018b1b25fc;0xb3092c0975780;0x53004c6bf4efc;0x4cae8a693c4a4;0xd458edb6045fc;0x72681e5551a] [0x5b7acfd8964f8;0x5145df77be32;0x38e39a4bd5af;0xab0a25b6a9f2f;0x4d131a7525ede;0x4a59fc5979d2c;0x6556be13bfd8;0x2168111d95f1d;0x325e99ede6e98;0x2fcb2a8391f] [0x31785ef1c4115;0xfdd36cd95700e;0x3a7bbc0e23525;0xb2614d47d8fbb;0xe7d2243d6ec73;0x91fe23b52a8f7;0xe1b7a3d3d6684;0xf6fd3a9ad019e;0xf276a154e7046;0x2a363800d1]),[[0x67d9edcde47e2;0xf59e6d285bc30;0x5c7b92f3bbb99;0xdaaaeafcac031;0x44ac0a6ad80a5;0xe011448c98e96;0x7570b7ddc2116;0x4ff2a51139022;0xcd075d8eba2f4;0xafbc396a641];[0xb2fdfbfb123b1;0x920969c5aa2a2;0x2a45433c8b2d;0x2a1167900a913;0x1534fa91c57ee;0x324d8c592e803;0xed39c5605062e;0xd465d4808c31e;0xb2fb6ded8c83f;0xd9ce792ed46];[0x4e035470cda89;0xe795c4c87cc3c;0x340488c1bd49a;0xa94913414eb2b;0x85e2e4652799c;0x250040eb5e762;0xc51258c197bb7;0x8dc6b937799cc;0x3f77a370cb7e0;0xb78d45015bf];[0x4e035470cda89;0xe795c4c87cc3c;0x340488c1bd49a;0xa94913414eb2b;0x85e2e4652799c;0x250040eb5e762;0xc51258c197bb7;0x8dc6b937799cc;0x3f77a370cb7e0;0xb78d45015bf];[0x9476c9b585430;0xe643e7e8eb262;0xa62b3c617eb4b;0x1cc6350bb8c89;0x3f0032d83572f;0xb78a12dc9303e;0x28885f7f5b495;0xd1b181c47f5cc;0xe962e4b662ab5;0x891dc70e153];[0x1e8732458cf82;0xabc581dcbf040;0x5c7917d249fe1;0xd4b328451c89;0xd634c7b9900bf;0x7ac3797c9b7c4;0xc4b165e0f5198;0x2b452bc0cd52;0xc998893729d8a;0x50b0b220bf2];[0x0;0x99b8e2509b8a2;0x88937d4c650e8;0x244477c0b46c6;0xd7aba535dd8a7;0x50cff490c157a;0x469f2346bac6e;0x22c92ff93c04f;0x5008260bf1fc9;0xc0f747df6797;0x71821841d69];[0x0;0xa8c649d1da9b7;0x543383efede7a;0xab945eb848151;0x10528783617d9;0x42400b8c3afbd;0xd51f86510af38;0xef18845a4742d;0x47f2f35696b84;0xf053f09bbf354;0x7e008715577];[0x0;0xde0614f37ab60;0x57705b1fa5417;0x7e5fdddbf211c;0x26b5736cbd038;0x43d3d2adf0f9;0xc5160763ea73f;0x357ca2507c4e0;0xdd9612c004d22;0x58d50be1d824e;0x562762cbc4c];[0x0;0xde0614f37ab60;0x57705b1fa5417;0x7e5fdddbf211c;0x26b5736cbd038;0x43d3d2adf0f9;0xc5160763ea73f;0x357ca2507c4e0;0xdd9612c004d22;0x58d50be1d824e;0x562762cbc4c];[0x0;0x430fce6d64957;0x817c17820a6f7;0x8c7f0f6e9083b;0xb1c817076727;0x394e78f470345;0x5212414a76ccf;0x89a1fe05f1e;0x3f2313b8ebdf8;0x85c90555eaa63;0xd573a8b107e];[0x0;0xdca31aa5c94c9;0x1c4dc1bbc5a16;0xc778a838212e8;0x49dc8d88c11dc;0xb2e4b71b699cd;0x1698ad8cb2a96;0x6882e0a3f3f17;0xbfa35e7798ba3;0xdfb66423bf654;0x22c60a49f21];[0x0;0x8ed785b9027b8;0x924719455716e;0xc952d890e78b1;0x20fc0b98a10c0;0xb64ded6b6accd;0xa20dd136fb14f;0x9d0d30b38b3ef;0xcecb9ae104b5d;0xd8049d0672f79;0x615687a6ded];[0x0;0xe31a432139495;0xfe3dc15cebe56;0xe003e943ebf4a;0x799d2eb099d35;0xd7fed6cf962ca;0x147ca849b1b9;0x47664ca1a145c;0x96055a0b104a7;0x6d14a25402e3;0x2fd24beaf0034];[0x0;0xbc5559979b8a5;0xda631d85259c;0x9ae8610a77751;0x7e44146b251c6;0xb8b9e86b5c11d;0xe9eb6b83160f7;0xa25487a1399b6;0xe1b0260ec341f;0x1bc2f2e07f10c;0x155be921992]]);
 ((V [0xefa91f0036ff9;0x2e42bbe7017c3;0xd1e789eb80a97;0x4ff4d8072577f;0x601bdb1e8c0de;0xb6fa3c37a5ebb;0x201d0ef16fbfd;0xadea8643360e;0x596e63ea3322a;0xceba72787cd] [0xdc85ca59eba8;0x653793d1773d6;0x8ca5e636ff9c0;0x14de1f912ea54;0x5ed0b509273fd;0x9688bea5bb8e4;0x3a9828da45993;0x4ffa6dbf28d0b;0x4a3eab48d196c;0xc8750144608] [0xdb8510b8ff68c;0xc192ad906011f;0x5374f4a4ed56f;0x32d144117735c;0x945b528bdc0f;0x9071385ccc75b;0xaf2d48ddc19cb;0xc2784a7ed7a3f;0x419b62dd9c5cd;0xc4df4110d4c]),[[0x720a9a6398e00;0x2ccc78cf70b47;0xaffa623cd4286;0xa4791175c3c7;0x6c7512a50828c;0xb0d4c20464cce;0x85ed2922b37f2;0xe99603916d97b;0xc302aecf16a13;0xa25e2071e35];[0xfcb685938ad56;0x825738c1f7d85;0x9fd19563d6429;0xab88c73b35b65;0x1c5c69f360b8e;0xb87fce16e95b0;0x4e8d561c71720;0x20e9a681c229d;0xcd7b62a5450cb;0x52da7495d];[0x31785ef1c4115;0xfdd36cd95700e;0x3a7bbc0e23525;0xb2614d47d8fbb;0xe7d2243d6ec73;0x91fe23b52a8f7;0xe1b7a3d3d6684;0xf6fd3a9ad019e;0xf276a154e7046;0x2a363800d1];[0x31785ef1c4115;0xfdd36cd95700e;0x3a7bbc0e23525;0xb2614d47d8fbb;0xe7d2243d6ec73;0x91fe23b52a8f7;0xe1b7a3d3d6684;0xf6fd3a9ad019e;0xf276a154e7046;0x2a363800d1];[0x17749b0d4267;0xfd20e753630f6;0xd9aee95b1395;0x5ca524f563d6c;0x99d48a4377690;0xcdc83803cc0b9;0x75e937997c2b;0xbfbe56fc87c4a;0x1c629731d1bb2;0x5382e8aa081];[0xfb3f3be2b68b7;0x8536516e94c8f;0x9236a6ce25093;0x4ee3a245d1df9;0x8287dfafe94fe;0xeab796131d4f6;0x472ec2a2d9af4;0x612b4f853a653;0xb118cb7373518;0xaccff1ca8dc];[0x0;0x5b74c03bed1f0;0x73006dea4039e;0x3d873b54bc7b;0xc16abac698f0;0x1a186797bac7c;0x43e4e3b5fd955;0x2e915b27588fd;0xf08537369ade1;0x1245cd84dc535;0x1a1a8cb892];[0x0;0x6f5cf9939ca06;0x73f885775d40f;0xfa06a96127b16;0xbfa3ca9b964c3;0x45476948579c0;0xb3343eeabda47;0x2f6809dd4ead7;0x24e8ab58ad065;0x949fcababe797;0x1ac5d4b2a3];[0x0;0xbc5559979b8a5;0xda631d85259c;0x9ae8610a77751;0x7e44146b251c6;0xb8b9e86b5c11d;0xe9eb6b83160f7;0xa25487a1399b6;0xe1b0260ec341f;0x1bc2f2e07f10c;0x155be921992];[0x0;0xbc5559979b8a5;0xda631d85259c;0x9ae8610a77751;0x7e44146b251c6;0xb8b9e86b5c11d;0xe9eb6b83160f7;0xa25487a1399b6;0xe1b0260ec341f;0x1bc2f2e07f10c;0x155be921992];[0x0;0x9dd5ad5cbb75f;0xfe2aaddc031d3;0xe8405eeb482f;0xfdacaf44eb36d;0x247f7aa3de0f9;0xcc6a60b888858;0xcd133b3adf380;0x7a913ca98235b;0x2f0c63566e7c;0x8ec3ad8c35];[0x0;0x2554ab47ab96e;0xfd92429fa4468;0x1acf2038277ff;0x6f7ae3db28b52;0x7a3ef227f6273;0xf4cdc922e9c53;0xea57afcf7fd5c;0x4c6d1afc43974;0x8ca4fb2e0c421;0x3320e55ca5a];[0x0;0xcb85c6b7defe3;0x71f19bdcdee5;0xbc87ae5c6a8dd;0xf56e15fe6747a;0xe963a90f45366;0xe86c53ddead8b;0x1f48c2d832be4;0xde3fe43998952;0x3505cfa1b5a06;0x42e821959];[0x0;0xc72bc5a9bd6df;0x61afcdd97bdb3;0xb88d82ebddfff;0x7a886d87b477c;0x92516215b87f6;0x36f0c1e087ebd;0x402c3058bd354;0x70287b201ee7b;0xfcfc34573db82;0xc93d35651b8fc];[0x0;0x2b46ac499d944;0xe13b0ab465a72;0x7710773d1b00f;0xe731ea03c032f;0x81d05c4a2b484;0x69da5d90bb98c;0xa07faa28029bb;0xbd55329e0b4b9;0x1d36e4a89f539;0xa1e025aa648]]);
 ((V [0xc78545fd3790e;0x8874bf3141819;0x1df72cbacaf7a;0xf9f9962926299;0xc90203d0738e2;0x52cc8e3a04a8;0x40f7282e4d1b5;0x5155623485196;0x56efeca708ffb;0x274eab1c3f] [0x5258c28180516;0x84a64f5ebe88e;0xcc8d6ee888a8;0xddc88686c5c74;0x15de0efc6ae05;0x444749d64362d;0xbe8a9d0f44e6c;0x7755d24d0453e;0xc9020d4c2bb26;0xb76c0ba4b7f] [0xed0b9033c8a34;0x26b9b92afdd30;0xc881a670e84d2;0xadc41da9c8b58;0x8625bc0919b89;0x5c7936f06052b;0x78fbf5118c48;0x735cc75b3e1c3;0xe2778f4fd6299;0xa97fd6b72e9]),[[0x7d07f80aee051;0xf2b9ecd8c307d;0x77cd0203d1220;0x3b2576f03737d;0x5b5b128eacf34;0x6e14485a7ed61;0x21847fa53df1e;0x927891027deee;0x81229e50fbd1e;0x68f199481a0];[0x553a4370970c3;0xb39467c8cbbc4;0x67ba04360be5d;0xc48d1600a8e19;0xb4136f29f12d;0xc8f80a607ba3;0xb9cf6ece04bb4;0x3149677cd0b0e;0xef51983eb4d86;0xd6f58db3db8];[0xdb8510b8ff68c;0xc192ad906011f;0x5374f4a4ed56f;0x32d144117735c;0x945b528bdc0f;0x9071385ccc75b;0xaf2d48ddc19cb;0xc2784a7ed7a3f;0x419b62dd9c5cd;0xc4df4110d4c];[0xdb8510b8ff68c;0xc192ad906011f;0x5374f4a4ed56f;0x32d144117735c;0x945b528bdc0f;0x9071385ccc75b;0xaf2d48ddc19cb;0xc2784a7ed7a3f;0x419b62dd9c5cd;0xc4df4110d4c];[0xc7100a70ee478;0x6d6abec83db46;0x3acd627f948ad;0x7ef46c5d81660;0xab15547972ddc;0xf5ada7ec8c82d;0xe39fde0a4373d;0x572e5c3fa750d;0x8631de870e1c3;0x92fc7b8358c];[0x8e2a38ffa8c4c;0x4629a9008e07d;0x2ceca1b6775b0;0x4598a9a3277b9;0x602be2792c351;0x16e1d8b97b375;0xd62f90c3c1476;0xda1b0b3d29600;0x691fb9b7a6bc2;0x43f9123082c];[0x0;0x418c38f84a919;0xe54d221bdfed5;0x3012ec1615cbc;0x41d30aaf5b4aa;0x599b9381add5f;0x7bbff1ca0628c;0xf582562cd7a4b;0x29e97eacb0d06;0x2d00f1ac23829;0x79bed2fe3d6];[0x0;0xd08a28e2db62f;0x7f4007b31b841;0xc69e3e65d4d88;0xf623285a37326;0xd5d1dd0f5c077;0x49d1553adb850;0x92851e4cae21f;0x39e401b7a1aa2;0xa3480ea45ba21;0x50b47e7bf7f];[0x0;0x2b46ac499d944;0xe13b0ab465a72;0x7710773d1b00f;0xe731ea03c032f;0x81d05c4a2b484;0x69da5d90bb98c;0xa07faa28029bb;0xbd55329e0b4b9;0x1d36e4a89f539;0xa1e025aa648];[0x0;0x2b46ac499d944;0xe13b0ab465a72;0x7710773d1b00f;0xe731ea03c032f;0x81d05c4a2b484;0x69da5d90bb98c;0xa07faa28029bb;0xbd55329e0b4b9;0x1d36e4a89f539;0xa1e025aa648];[0x0;0x86270e8f9d7f8;0x7ba41b4e14106;0xd8ec00d895ab3;0x6fe1839e06c;0xc53affbf1442c;0xc031fe2aa6dd7;0x14d62d4b263a5;0xf9897e3b25bea;0x1146102c82a74;0x9cf70774ff5];[0x0;0x41aaa532d10f3;0x7d4e04324e828;0x57ac790a45235;0xafeb8ef36c322;0x32e3be2dad336;0x4391a9094943a;0x678d19362e0fb;0x2107904c82da5;0xcad1d52e3cde8;0xa6f09804732];[0x0;0xfb6e46b809160;0xfbb9e1dc7e9d1;0x31149ac5a4d53;0xd80c7674001d9;0x4295a53359e77;0x332b9e979894e;0xb8115abb45e80;0xd8f173e7feaed;0xf1be0ce5991e5;0x2101771550];[0x0;0xb7f71bae3a3ad;0x950e436ba0c06;0xe7e38f198fe6;0x94b5bfacbd9a0;0x5fc62606638e5;0x5c2ef0fbf0854;0x3a99e47077f78;0x2eccfb7a013dd;0x5c2c06742d86c;0xb789736eb27dd];[0x0;0x86ae34c15c500;0x49ead3d9c2960;0xeac5026cef0ea;0x1db5b6e4a3af8;0xa227014cfc10d;0xf82e601e18dd9;0xa6485af4ae12e;0xb506ee8a70e55;0x31b6e39f1497a;0x1c29d34b0d]]);
 ((V [0x2ca41a16db00e;0xfc6c2a64d84fc;0x230c48341b4ff;0x24ca935a6122f;0x8edd79eb26c8c;0xad716cc341f4f;0xb97ad8c2cb41e;0x15a9197b097e0;0xf633b4ab7d5d0;0xa9f9eaa7382] [0xae2714c2eb12f;0xdd15bd7c7ca2;0x7d52c02965168;0x19b2941b7f21e;0xb42896f8fc4df;0x4edb4b72c1778;0x1582e15a3983d;0x54bc333b8ea02;0x9f6b13c323516;0x165b702f7b9] [0x2b01e21352034;0xbc64f925c636d;0xdc5e88cb4b6ab;0x555f8041b5fa9;0x5330f14f6a70e;0x7f1048bf5baca;0xcee3e2b9c4a8a;0x8ebe59ed1b4b1;0x2a3fb2a7e228a;0xd4ec8a0e2e3]),[[0xf7f973f2dbea7;0x787580fbd2963;0xe7f0102ab5e17;0xcb16ca1a50ab8;0x87d298be5aa46;0xe4509868abec9;0x124cc1b275819;0xe165505163901;0x2e8d8ca83f2c8;0xe733befc72b];[0x9e2455c5335b5;0x781e1144ecc79;0x9b794a33e0511;0x9355e736bee96;0xd06d8b9eb9d4a;0xa445806b02feb;0xa0f2d128c8a46;0x985ef53502479;0x3c5a9c3b616a1;0xdfada96795d];[0xed0b9033c8a34;0x26b9b92afdd30;0xc881a670e84d2;0xadc41da9c8b58;0x8625bc0919b89;0x5c7936f06052b;0x78fbf5118c48;0x735cc75b3e1c3;0xe2778f4fd6299;0xa97fd6b72e9];[0xed0b9033c8a34;0x26b9b92afdd30;0xc881a670e84d2;0xadc41da9c8b58;0x8625bc0919b89;0x5c7936f06052b;0x78fbf5118c48;0x735cc75b3e1c3;0xe2778f4fd6299;0xa97fd6b72e9];[0x2fee1516ad0ae;0x7d3e56846d2ec;0xc53e021939d5a;0x66b846404c03f;0x853c5ed706e09;0xd855fc9d2bcca;0xf0463ff566555;0x9b23240b5959f;0x8359629d9eade;0xc46957d6b7f];[0x6e3640ae86508;0xfadfbac07f98d;0xd63b481aa67b6;0x2c9da0f672e56;0x4b312cc7b2f41;0xcbef83cdd7321;0xb0ac9133624f0;0xfd3bd129a8ed9;0xb901399dc2bc2;0x1b445190ddd];[0x0;0xbc80278e6b19f;0x943852398ea02;0xf9f2e2eca7d77;0xe4d62632e73c7;0x8c099b905924b;0x79fd9cd0ee0bd;0x16f0f59ae6194;0xa1ecc7047a708;0x3984f13a86b91;0x68d172e8753];[0x0;0xb1d13bad0d011;0x56e336dbd0847;0xb53896dbd6912;0x74d24ad4eb112;0x5b3c32b362d11;0x109a67390c88;0x10a8acf0b1a4b;0x914abfccd0857;0x3b2b789ce5449;0x99149dab18b];[0x0;0x86ae34c15c500;0x49ead3d9c2960;0xeac5026cef0ea;0x1db5b6e4a3af8;0xa227014cfc10d;0xf82e601e18dd9;0xa6485af4ae12e;0xb506ee8a70e55;0x31b6e39f1497a;0x1c29d34b0d];[0x0;0x86ae34c15c500;0x49ead3d9c2960;0xeac5026cef0ea;0x1db5b6e4a3af8;0xa227014cfc10d;0xf82e601e18dd9;0xa6485af4ae12e;0xb506ee8a70e55;0x31b6e39f1497a;0x1c29d34b0d];[0x0;0xd8a8b4a2811a;0xe88ddc3d12ed8;0xea9026444b57b;0x2caa5f9db57b5;0x6e9c420b5a9ae;0x21ea92a3e19eb;0xb8db843967af;0x3e9cb52039988;0xde4f480187773;0x836ba63f528];[0x0;0x9adf98d379a64;0x64f6907c88c72;0x8a4b17867ebe4;0x3a77e48daaf48;0x6ebf0d97908ce;0x9142ed90c58ee;0xae10e2e85d011;0xec1c7f7be9681;0x2e1d5d05e5111;0x609104f5];[0x0;0xa3398dca79814;0x982ea7d76886f;0xdeaa09443818e;0xa9352dcc0980d;0xa6080b17a6c47;0xc91ac4d42356e;0x4b4c119d7ab2f;0xffcb7944d143c;0x31ea35dc2718b;0x948401c5ffe];[0x0;0x47c76205f5070;0xece0459500c55;0x4f7c826f25f93;0x9ce03f283817d;0x855fd577d63c3;0xeb9f233553557;0x5acac8561bedd;0xead4adff57cd3;0xfd05dab87fbd0;0x165e42ce5b7fd];[0x0;0xc00b0f35734b2;0xc0d29dfb12b63;0x80b6b148d0391;0xcfac8c8640ebd;0x6b1d11c54f147;0x20186d9d24735;0x3b4c3816448b5;0xccb9eb6f1c125;0x1968ed5cbb3f5;0xed8307da5e]]);
 ((V [0x777baeea3b94e;0xa18235f9225f3;0x14f7f95bd1657;0xe0bc5d2e5aedf;0xa8c949e008518;0x2e47388952a9b;0x546220938f3bc;0x3c4bccd600d27;0xdf5ad33bc736a;0xd5b13ac50a3] [0xa877da38968ed;0xe320799db9af3;0xc085d30c9e819;0x36bb2bfbb8624;0xf96f6e0775dc0;0x83eb61d4ef31b;0xe73b8f4b39b87;0x7ac3725df0d90;0x1b1a7ca0501d2;0xea3b5db8cd3] [0xcc5f24e18a7f1;0xfce162a2226d8;0x2f92fcf9f4947;0xf3dcf777e70ec;0xab0202a503651;0x13c0b653a1a4a;0x9d962f0652d7b;0x8337f21d3c581;0x9500bd214f57c;0xc5bb0943550]),[[0xf801621cdac6d;0x17fd938b51f19;0x5d82d8fe8f37c;0x38267ffddc310;0x9523f0656fbb7;0x9665e97fa5d92;0x6739cbd763b2a;0xc669e41ee13d1;0xcbb644db73c08;0x72ffec68c55];[0xc0340e2e07fd4;0x35db0d22fd1dc;0x743a63459d1f1;0x21f5aea43d6d1;0xe1c8d4ed2c01b;0x39a30a6cfa14c;0x5876261a01982;0x8f6b4a91e39ed;0xe2dcddaad4576;0x63a1ebd11f7];[0x2b01e21352034;0xbc64f925c636d;0xdc5e88cb4b6ab;0x555f8041b5fa9;0x5330f14f6a70e;0x7f1048bf5baca;0xcee3e2b9c4a8a;0x8ebe59ed1b4b1;0x2a3fb2a7e228a;0xd4ec8a0e2e3];[0x2b01e21352034;0xbc64f925c636d;0xdc5e88cb4b6ab;0x555f8041b5fa9;0x5330f14f6a70e;0x7f1048bf5baca;0xcee3e2b9c4a8a;0x8ebe59ed1b4b1;0x2a3fb2a7e228a;0xd4ec8a0e2e3];[0xaf2522006e41c;0x273697ba550fc;0x4fb3ba33561c2;0x2cfc4fef7def8;0x8a6cd6cd5094f;0x2dbc3679d7e74;0x250deebb166b3;0x7a2c356c31d84;0x6e093b99a1517;0xa61973aca80];[0x110eec2d99980;0xea47568a80e0;0x2486a9124702f;0xf4f95eb4bf7d9;0x575bfe1fdb6cb;0xbe6d3f3222d8;0x3368375eeb2cf;0x153f1525b1c69;0x74d3a2113305f;0xbd887824777];[0x0;0xac6381b12f595;0x40a19cbdab3a8;0x6f7dd2c39cc70;0x7a4de9146a3fb;0x412be692c4783;0x94937cfd3cc86;0x6adbf46d7f289;0xcc601a5766b41;0x383335665a8b9;0x83ac0001bba];[0x0;0xa284ce9c1e730;0xa2770f12b2565;0x88339a5cc0860;0xb911f2525fe8f;0x7337da6cb78f;0x64242ccf43eaf;0xb55f6cae336a8;0x97007deb6d9c2;0x6e0eb60611073;0x5fa631b9083];[0x0;0xc00b0f35734b2;0xc0d29dfb12b63;0x80b6b148d0391;0xcfac8c8640ebd;0x6b1d11c54f147;0x20186d9d24735;0x3b4c3816448b5;0xccb9eb6f1c125;0x1968ed5cbb3f5;0xed8307da5e];[0x0;0xc00b0f35734b2;0xc0d29dfb12b63;0x80b6b148d0391;0xcfac8c8640ebd;0x6b1d11c54f147;0x20186d9d24735;0x3b4c3816448b5;0xccb9eb6f1c125;0x1968ed5cbb3f5;0xed8307da5e];[0x0;0x6ba2aca7d4d53;0xfda18de6f6e3;0x269a7e3d5cd3;0x6339e026e49d8;0xb25047db1b81b;0xca2a53161efaa;0xe3eefd1eae6c;0xbabeec5e2683e;0x9ead12e6a6638;0x1f3d7f11c2];[0x0;0x5f8171e08ee9c;0x26b6576df2bfb;0x7ca3bccc3f10b;0x4de6a4dbdcbc0;0xe4f188352f675;0x99c1ed3f9bab7;0x7e9436b47f218;0xc1098a3eaae14;0xffd244d8eb20d;0x70dbebcb188];[0x0;0xb6edf9762fc92;0xba75af5123b9b;0x2aad8b411e32;0xbc92ad7d9db7f;0xa848ddc0640ad;0x7d6237cfde561;0x5ceca90679a5c;0x205ee24d30f0c;0xf0bd2800dc7ad;0x532ab30869c];[0x0;0x3c9df92569977;0x259dd0ad9935;0x56c706b83f3c5;0x3da5731813f2d;0x8fe28ca7bda37;0xa35b998404b14;0xd4825802304ba;0x2e103452e54a0;0xf49c6c2d32381;0xeaca6ffa2dbff];[0x0;0xcee3127284493;0xea2d252fae528;0x2593114f54d8f;0x48662c2c0306d;0x4d5ce2e3d4c04;0x25decf1a17acb;0x12e93de955343;0x9adb3c6d04e13;0xa387770c9dac7;0xc3858dcc4bc]]);
 ((V [0xee1731cb9546f;0xd0579a882ddb7;0x5d5754bfaeabc;0x8131001990dd5;0xdbea66f291c08;0x8f9a89c710488;0x91c34af02d590;0x7aee84beb381b;0x32d11f4520be0;0x8d94f0fdd7c] [0x63a1c18bfcdad;0x9ac95543ee705;0xa0f72233b21c6;0x296218b01cea7;0xaa48dc2e86b0a;0xca33f5cca1814;0x9902ae69a2f1b;0x59f8ae7491ed3;0x5bc086b123bf8;0x14c7b01318c] [0xf9668aa579330;0x3ae76f6b0503a;0x22e64bb7b9e9e;0x90c365dfee577;0x63e7dd75026bc;0xf5fb868d7c94e;0xa583652189bac;0x81ebdf823a663;0x4e6add39cc381;0x1a9169df680]),[[0x496b1b7bfae70;0xcd3c3e6c7f824;0xf07b8b37c87a2;0xfb56e9063f3c4;0x6d6321f2b7f41;0xd79b06c36fec8;0x90280873be59f;0x23477ccfbb914;0xc3f3b9a3251c3;0xf3c2a34df9a];[0xb853ae7be5522;0x741b1f3678e9;0x927d5b0f0e0cd;0x42ac14bc28cf8;0x403d582ec5b81;0x76e2c623ce043;0x77deb7cb575cb;0x2788ce86e2803;0x661f53cc21a42;0x5591eaeee8e];[0xcc5f24e18a7f1;0xfce162a2226d8;0x2f92fcf9f4947;0xf3dcf777e70ec;0xab0202a503651;0x13c0b653a1a4a;0x9d962f0652d7b;0x8337f21d3c581;0x9500bd214f57c;0xc5bb0943550];[0xcc5f24e18a7f1;0xfce162a2226d8;0x2f92fcf9f4947;0xf3dcf777e70ec;0xab0202a503651;0x13c0b653a1a4a;0x9d962f0652d7b;0x8337f21d3c581;0x9500bd214f57c;0xc5bb0943550];[0x801e4f98de2bf;0x60ce52e69302c;0xba7defb770d0d;0x7ee3c81a5b805;0x5a6ce78accd69;0xb5dcb9780f434;0xc351d1ebba68f;0xed47463c93cdb;0x835beeabc9041;0x58f7aacc9c9];[0x38355ee30702b;0xa6735f0cd48bd;0xd7ff6b579d3bf;0xc3c84ca1cd4f2;0xe5d070a3f8e17;0xc1060cabbec0e;0xb48ce5df9cf3b;0x3a41884a4eb27;0xe2c3652058a00;0xfc9a40224c4];[0x0;0x48fb7802dff20;0xadad5d6a11912;0xd15b50514618;0x4b3ad6221e355;0x757579537b58a;0x788aeaa36e574;0x3e924876d9e44;0x67127d28a9331;0x38bd8e222e95;0x7a46bcb0801];[0x0;0x91119ac7f5342;0x5bee65ee86d34;0x70e5c09dcdaf7;0xe193d87299aae;0x6d81973ea4679;0x84c4d1e8ceb71;0xf1696400c3208;0x2399e93438f4b;0xde6f32a92fa09;0xbc46dfaa3fb];[0x0;0xcee3127284493;0xea2d252fae528;0x2593114f54d8f;0x48662c2c0306d;0x4d5ce2e3d4c04;0x25decf1a17acb;0x12e93de955343;0x9adb3c6d04e13;0xa387770c9dac7;0xc3858dcc4bc];[0x0;0xcee3127284493;0xea2d252fae528;0x2593114f54d8f;0x48662c2c0306d;0x4d5ce2e3d4c04;0x25decf1a17acb;0x12e93de955343;0x9adb3c6d04e13;0xa387770c9dac7;0xc3858dcc4bc];[0x0;0x895cb76dba06;0x6fa52049431de;0x99c5675a8be4;0x304521fe0c49a;0xf66ea3b542226;0x8d96ba859b080;0x3d40acaf3d9e9;0xe1083d16d74fd;0xd382c57a42fc9;0xd650951a2c9];[0x0;0x5c16a0f07139f;0xbe376fe1baa7e;0x9a6ddb8344d40;0xfa76d86c807fb;0xad4279708b910;0xd595f0ec6a2a9;0x1be77535c5c6c;0xededa3897c2e3;0x124ccc8b0a0d9;0xb260667e350];[0x0;0xe804b76ebf35d;0xb5047e2445334;0x24e3c00e1ca80;0xf23b30fe1194c;0x58528fa377c24;0x5650f459e8099;0xbad9f764e4bc8;0x712f5e5bca737;0x97b1e1bfebe31;0x2f53274f0df];[0x0;0x666f53349e395;0xd27b714b9807b;0x4a3c3e626e8f0;0xb1964cb05627b;0x36be8fcc49695;0xc1fb8b4487e79;0xcddfed2f1985d;0xee6900bbad1ca;0x843b259eb3df0;0x14d5859d88e0f];[0x0;0xc93829a850695;0x1ffaf6e00d7bb;0xaade9f79443fc;0x230c452bf11ac;0xc9d7c31bc0f29;0x67cc8ce1f8f11;0x13a009e0212bd;0x78e4baf15a8b4;0xdb19deaeea32d;0xb7e12fc1f9]]);
 ((V [0xdad8f6de16dcf;0xdd4986acd9d06;0xc01a62e04d9eb;0x8c67438f5e9b4;0x976f7cbf01c85;0x2ba77cec0ba7c;0xb53dc54234f7;0x4dc2084b6c07b;0x7d9a3876fdf26;0x72dd107e54a] [0xaaf96a2c04b2b;0xf12bc0d7c175f;0xf48a8bc48dab3;0x647bd8252865c;0x19732368c0758;0x7314cc1a2b428;0x379b8706b0d02;0xcd049bf1b1751;0x711d24945ae38;0xe9e6df54c33] [0x88a6f784e5361;0x35e8b57c65e48;0xd4c16bcbeec2c;0x65cad8671d447;0xa90816850d01b;0xf7c341408bce2;0xaa260865c66a9;0xc4a3ec6edad91;0xab555c8f7142a;0xfe1e4ad99d6]),[[0x91c2a005f0cfb;0x16f078a5c03f3;0x9b45c44b951b8;0xe72f43e26d5f6;0x5ebeccfd948e0;0xedc357bfacffc;0xea1177c35b75c;0x271c56698bb12;0xe63192c2dd381;0xef44e6fc3a4];[0x64f8fa6df9ed2;0xe4067adccdf9d;0x6cd50e2fca706;0x86c0b76d0a59;0x103502767550b;0xfd1d0450b8164;0x31df89e27e745;0xd358edaeebb46;0x6da1e6dcd6ffe;0xe1fd4c4cfe4];[0xf9668aa579330;0x3ae76f6b0503a;0x22e64bb7b9e9e;0x90c365dfee577;0x63e7dd75026bc;0xf5fb868d7c94e;0xa583652189bac;0x81ebdf823a663;0x4e6add39cc381;0x1a9169df680];[0xf9668aa579330;0x3ae76f6b0503a;0x22e64bb7b9e9e;0x90c365dfee577;0x63e7dd75026bc;0xf5fb868d7c94e;0xa583652189bac;0x81ebdf823a663;0x4e6add39cc381;0x1a9169df680];[0x6e166868412ad;0xaa556a3adeea4;0x401820993c8af;0x299f63049a8ef;0xcfc74b24677ad;0xdb435830415af;0xec27a36c1dac1;0x2c1a93f3f9429;0xa13702662d7c4;0xb35945e778b];[0xf6e29205b8c26;0x39b110a1ef0f8;0x2cbced968de57;0xdecca8723616a;0x406db7520dd5d;0x21d9ac2076bb4;0x45b7e67660c84;0xa73e59baf271c;0xcc6ae476a983a;0x2ea40665858];[0x0;0xd6ca82d9891d3;0xcb60c1497bfd3;0x3805168906f1;0xf65abb9895b12;0xe60ca5caa829f;0x20accc236871;0x64b4dfe8210a4;0x4649aba35534f;0x7c7f64de2f868;0x106dfbece94];[0x0;0x26c1fc16c1cd2;0x1f1cc24910a94;0x3a92559582f38;0xf94647a8f3183;0xfca8d0d5ee9ba;0x1ab58a10f4d04;0x3f78869d6f9e3;0xf8fef938416ec;0x4389c132c18e6;0x18d4e87083c];[0x0;0xc93829a850695;0x1ffaf6e00d7bb;0xaade9f79443fc;0x230c452bf11ac;0xc9d7c31bc0f29;0x67cc8ce1f8f11;0x13a009e0212bd;0x78e4baf15a8b4;0xdb19deaeea32d;0xb7e12fc1f9];[0x0;0xc93829a850695;0x1ffaf6e00d7bb;0xaade9f79443fc;0x230c452bf11ac;0xc9d7c31bc0f29;0x67cc8ce1f8f11;0x13a009e0212bd;0x78e4baf15a8b4;0xdb19deaeea32d;0xb7e12fc1f9];[0x0;0x4b1b4181619e4;0x6f9ed0fdc58a9;0x285a62c8a5066;0x32aa88a115fb3;0xd306adede47d2;0x587cff10a7b35;0xa4d2feda3b6bb;0x8479b14d3debf;0x9ac48381c782d;0x1afcf4632a];[0x0;0xd7a8d2e35202d;0x462231551423b;0xf94c502f055ab;0x9f06bebac2ec4;0x284ab7d237b80;0x6146f98087261;0xfb76536fe400f;0x9d14984e1d4b4;0xb699406070a0b;0x4e4d681f280];[0x0;0xc020535e0dcdb;0xb5d5f053bb0d2;0xde5b3d84360b4;0x45a05c76f0e30;0x85e221705d59f;0x462136ec44b14;0x54da6387a42d3;0x6c474c5af3515;0xeb77b88d8d578;0x6565f23481d];[0x0;0x2adecdf5c70dc;0xf4898012d0391;0xd10f189af1bf2;0xddae28fd8de;0x36809e2107a00;0x5b6d446df9991;0x774dce29a12e2;0x200f514ee3891;0x54ae53faa26a5;0xea024adaece0c];[0x0;0x7ab2c3a51717c;0x6c53c55186935;0x24024fbf9dce0;0xb9fc2f23312b8;0x48af0d6623300;0xb15c534378fce;0xe0f14e4c12138;0x5c76ff6fe3d9d;0xb62232ac9a0cc;0x68f2cad4660]]);
 ((V [0xd18b2094e10d4;0x224159154655b;0x3e10fcc52c7f1;0x9ace5cc89f078;0x5671ad8733af8;0x2cdc0eb82f9b1;0x190c830c678f0;0x9a96612bef27a;0x98a378fa2630a;0x6cff952e8da] [0xc13d3e315dc3d;0xef504b6bd5c8a;0x1890e1cdfb407;0x2181a24fff064;0xd0dac8183bef4;0xe2d504c672aed;0xd3763ba36a345;0x78027d8855938;0x18191fb36efc;0xa79586387ec] [0x6a9b206b4240b;0x40e3244cc8eaf;0xc1c61bfa9f116;0xb64caad6e1cb1;0xc547f4f8397ac;0x5d69a322a4640;0xca7396d3bdcce;0xa1ae8da3bf556;0x2472bb86d7526;0x56c13790100]),[[0xef9f87a24450;0x938b73cd2cf42;0x8a75c9feb64da;0xb7f947fb7767e;0x5fe3313303984;0x14885ed526d87;0x3cbe5a781b4c7;0xdb28c96f4827;0x61daf55b3b065;0x7fca0d1297d];[0xb9a4a86460863;0xc9e7b020b46da;0xb2369f6392df9;0x59a1c0ca11b9a;0x2748bc04aaee1;0x5b44ff60e76da;0xfd4eca46c88b2;0xe6357a9a3f54;0xadd394457e71d;0x56d52569b8e];[0x88a6f784e5361;0x35e8b57c65e48;0xd4c16bcbeec2c;0x65cad8671d447;0xa90816850d01b;0xf7c341408bce2;0xaa260865c66a9;0xc4a3ec6edad91;0xab555c8f7142a;0xfe1e4ad99d6];[0x88a6f784e5361;0x35e8b57c65e48;0xd4c16bcbeec2c;0x65cad8671d447;0xa90816850d01b;0xf7c341408bce2;0xaa260865c66a9;0xc4a3ec6edad91;0xab555c8f7142a;0xfe1e4ad99d6];[0x8bdce6f4b1dac;0x396eb2e6b9b27;0x6ac190d2f1f3;0x6c58b7cb4d290;0xc7b51bcc96ce4;0x2b68c3f05ceeb;0x406691a55eab8;0x5181defe3afd7;0xc45a2206066a3;0xead983caef3];[0x2dc7c16fae87f;0x9078fd39fabb3;0xab8a865663c06;0xed4908fec490a;0x5f93a038141fc;0x2fdc3b708a7ee;0xbce838a169dfa;0xbce178ab68f7d;0xe979723f78079;0x6bfba19ec9a];[0x0;0xc6a5304a1e900;0xa3fc7a39a2eb7;0xe440e323ef2c6;0x75d69b3e9c2ec;0xdeaceab39546d;0x3acc3bf953f5a;0x8d8a210f839a2;0x41df9f421b9d;0xc2cb4bf274f15;0x9d257a67638];[0x0;0xc2dde94908aab;0xbc3af48517841;0x898e99b0fc651;0x51d18cf8821f3;0xafbd44b1456be;0x146075146e324;0x590ec76f9e2fa;0x6adde5cc68ac8;0x4df64891f0816;0x7ed99803037];[0x0;0x7ab2c3a51717c;0x6c53c55186935;0x24024fbf9dce0;0xb9fc2f23312b8;0x48af0d6623300;0xb15c534378fce;0xe0f14e4c12138;0x5c76ff6fe3d9d;0xb62232ac9a0cc;0x68f2cad4660];[0x0;0x7ab2c3a51717c;0x6c53c55186935;0x24024fbf9dce0;0xb9fc2f23312b8;0x48af0d6623300;0xb15c534378fce;0xe0f14e4c12138;0x5c76ff6fe3d9d;0xb62232ac9a0cc;0x68f2cad4660];[0x0;0x6d8d3630f2c0b;0x8f8fda78c1ab3;0x6286ae65e14f9;0x5235edbe064;0xeaccf53161dc6;0xbf060f615ddea;0x3e4f1cbdadded;0xf3bd506daf32b;0xdcd8f71497efe;0xd5b612be5a7];[0x0;0xe08663969bc0e;0xf42c0f6276acd;0x7c7f9d207c7ac;0xd99d42697fffb;0xf492f1640bc54;0x6bb5993898a29;0x7d7c5c92f12ff;0xb0aa4649f9e60;0x3b08fd564bcad;0x3389a195fe9];[0x0;0x687e78634eb82;0xe342141c59ca9;0x8d759b7face6e;0x8a1bb38652736;0xafd1e1f1cdc9b;0xde3650933cd1e;0xeb5d9bab7ab6;0x95e8663227056;0x270191e28d8ca;0x24f89cb2b77];[0x0;0x9852d7d44fcfb;0x2fc216446e0c8;0x6ce01e7bef297;0xdf1e0ac126431;0x3d4a8751e28b6;0x75ab8a9bbfd5a;0x31618d771546b;0xaed2d4f9cb16b;0xac3d7b8aa6852;0xa80443fbb9c57];[0x0;0xd2e6cf9dc91bf;0x3671b2b036388;0xc0d914b587c27;0xcfd6a1e828c41;0xa17ac1b0fc8f5;0x1bc6018d76b6c;0x2c794b88b5215;0xfbc0f2eeffdf3;0x8a28ce18dd27f;0x475a6439087]]);
 ((V [0xd5d0b881a556a;0x6b9efb40a89cb;0x1153ed990f7c7;0xa6df3de8c1ca2;0x12a573a8c538b;0xe0c5a12b244f2;0x6f51556d0adb2;0x6694150a73b;0xda89a40429ec8;0x351c4b626e9] [0x8889e885807bf;0x29c79937091f7;0x31d9a4054c1a5;0xeb35b72b31a75;0x621354df41cad;0x64969fccc879f;0xf8108970874f2;0x76eb626525e8e;0xa59a6746e91ed;0xaa71578292b] [0x60497640c8edf;0xc37195e64c18e;0xb87c7c06a44d2;0x39c9ec895822a;0xc7a3cbe85f591;0xdb69b17dbfe1c;0xa73f992c967f3;0x8212f249db408;0x5a47cb50bc974;0x7b6462a1e79]),[[0xdf3a19fe9ab65;0x4644ce294509c;0x99a091f68ba66;0x98ffff84c598b;0xaecc440f51636;0x3812a67794809;0x845e1c89d5d94;0xde27eeff4ce0;0xee0e760c4bb0a;0x7d66bebb727];[0xa8fee265bbebf;0x99b97f0f7ea90;0x763f9d24ba348;0x2a3d9ec0d1aef;0xfe07213636cf9;0x72fc66cd2294e;0x43d582d073ff;0xf98eb9f639fd9;0xb18064b1d3c23;0x9e8cfab231];[0x6a9b206b4240b;0x40e3244cc8eaf;0xc1c61bfa9f116;0xb64caad6e1cb1;0xc547f4f8397ac;0x5d69a322a4640;0xca7396d3bdcce;0xa1ae8da3bf556;0x2472bb86d7526;0x56c13790100];[0x6a9b206b4240b;0x40e3244cc8eaf;0xc1c61bfa9f116;0xb64caad6e1cb1;0xc547f4f8397ac;0x5d69a322a4640;0xca7396d3bdcce;0xa1ae8da3bf556;0x2472bb86d7526;0x56c13790100];[0x5d1dd00ad40b2;0x832ae5f0b67f2;0xa9f6d7f4fe591;0xcfdecb7401115;0x462b363a5dc5e;0xbd3b749faa133;0x6a14a62b7f1d;0xac92f949fc96e;0x1c2db4f3a2a93;0x251e4130c42];[0x4be1125ae7bd5;0x168e991ec829e;0xcc48c52fbbdb7;0x5a5ed34cd09d9;0xb7dbeafbd909a;0xb5c0f22d7881b;0xfd9c0dca4f4e1;0x4cfbc0ac3d66a;0x9552afbe31190;0xe4ca8e7a5ef];[0x0;0x98b1a346a249d;0xc46325b8269a2;0xcd3b97ce34e3f;0x94ad37aa6daa2;0xd7abf88a9bf10;0xd1f61e7f35689;0xab9eaace9cdbc;0x1ac1f981c5eb8;0x15ec88d177c90;0x35a6259eb2b];[0x0;0xa6d99665f78a8;0x375f2dd922e63;0xc1b8ad99fa786;0xe17ced08cc5b9;0x9cf4def4b6135;0x7a6689e4dc704;0xc6d90a3b5c7b2;0x8b5bf8f60efbb;0x509d510c09399;0x2a7f29c0686];[0x0;0xd2e6cf9dc91bf;0x3671b2b036388;0xc0d914b587c27;0xcfd6a1e828c41;0xa17ac1b0fc8f5;0x1bc6018d76b6c;0x2c794b88b5215;0xfbc0f2eeffdf3;0x8a28ce18dd27f;0x475a6439087];[0x0;0xd2e6cf9dc91bf;0x3671b2b036388;0xc0d914b587c27;0xcfd6a1e828c41;0xa17ac1b0fc8f5;0x1bc6018d76b6c;0x2c794b88b5215;0xfbc0f2eeffdf3;0x8a28ce18dd27f;0x475a6439087];[0x0;0xd644dc5f05771;0x6d5e1569bccb4;0x99b63e2617d0d;0x930d6cbcf2292;0xcd39c189af32b;0xe1096380687fa;0x30081fcddb31e;0x3050b594f77a3;0x15c35a0a181b7;0x6db46c73398];[0x0;0xafe344f2d2a6d;0x6dc5552a9a3f6;0x3e16bb38cccb9;0xb26231ecdc193;0x262822e5737de;0x13c975a93e3b2;0x1eab2edf59944;0xe36941bfcfe68;0x47dbece17b4c5;0x2e68a509d13];[0x0;0xbd95758c87946;0x589dd4423f21e;0x14002f23e0e98;0x650c96e3bb8eb;0x4593da1f01766;0x281163e2311ed;0x744289f3d5f2;0x6f9446b2718c3;0xb3945f4827f13;0x20e4b60293];[0x0;0x74a7f5b6b7555;0x948466782f793;0xa84b37ef19b12;0x3817837d47b07;0x45a4a6fb210e3;0xbe4abc6be8f9;0x8dd994996ade1;0xcde21725921df;0xee84c3363b37a;0xab152fdd06d0b];[0x0;0x3a63b93531111;0x2011f5cb063b6;0xc6103afd43b2e;0xb1092b2435ab5;0x2522132cb2bfc;0xb6b9500e3e42b;0x53d53d68593a6;0x77e3ebb117ab6;0x50d47e26eca98;0x235c4db4585]]);
 ((V [0x93051145b658e;0x84590dc89823b;0xd4468ec7c89f9;0xf912d7ab5b6ba;0xb6cc2044d58c3;0x8706f4aa20d2a;0x7a883623b9b;0xbd99937b9fa7b;0x3e5587b469bf1;0x5df80b30422] [0x85416966cc784;0xd04510b4d42e1;0x549217b98d417;0xc12e5c4262c59;0xdd3ba9ea5c32c;0x54a5d4c6d4f9d;0xe4e59f0462e51;0x195ade7268041;0x332c8f69f639c;0xf2db79d227b] [0xa93b30322172;0x86cb83f56b052;0xcb2f65d40c972;0xe37d6382a2393;0x81f7b81a6d48b;0x2faed4a721edc;0xa05d7b6e2de05;0x45c2ef31a94ff;0x9cf7edfae3925;0xae9947b57f2]),[[0xbe7438dd0eb41;0xfce57596cec0b;0xf479ce0f205f7;0x3023922e6fb80;0x46106f01c1dbb;0x6f43f60b644be;0xcfaabfdf20d72;0x8bba59aeba456;0x5384dbdeda298;0xac132530632];[0x1064f21274fa;0xd47881597ac50;0xf25bb46e344fa;0x471ca954f6d10;0x92e2d9a4e62f8;0xe0982e64aa856;0x4f2ae2b8b1ad3;0x296552da9a646;0x631a64f844fc;0xc08ac352682];[0x60497640c8edf;0xc37195e64c18e;0xb87c7c06a44d2;0x39c9ec895822a;0xc7a3cbe85f591;0xdb69b17dbfe1c;0xa73f992c967f3;0x8212f249db408;0x5a47cb50bc974;0x7b6462a1e79];[0x60497640c8edf;0xc37195e64c18e;0xb87c7c06a44d2;0x39c9ec895822a;0xc7a3cbe85f591;0xdb69b17dbfe1c;0xa73f992c967f3;0x8212f249db408;0x5a47cb50bc974;0x7b6462a1e79];[0xa0c29e484510;0x8ba45757f720f;0xadc5dce5ba14b;0xb13a657377989;0xa2d39da099efb;0xfe808e2667a49;0xb54d50243bbdd;0x44cf4dd493354;0xd1884614040c6;0x5fec3ddb3a0];[0xf6fa253ca2feb;0x48d42a0183a40;0x4495d7887a3af;0x95e243e17f387;0xf00f3c044c3fc;0xe217a03e42e0c;0x99dd929475ef5;0xe4960506072f1;0x34a9603b80435;0x609e85772e1];[0x0;0xa15af8ddb3b19;0x2e7e2fbd095f1;0xe48947fa3e64f;0xa29803a1a0aaf;0x82356790e7fde;0x1b17dc554237;0x8f24f7725dbe;0x867bd01acff0a;0x77d087eeadeac;0x4c4e35f1505];[0x0;0x7ab76b6434833;0xceeffa0eeb662;0xaf5d3d863e37c;0xa003f36813de3;0xc8c3ab62db13;0x2e6dba82c4775;0x361002f9e0ccb;0x2aa0b1ef2cda1;0xa623d58004c7f;0x52f0aca4ee7];[0x0;0x3a63b93531111;0x2011f5cb063b6;0xc6103afd43b2e;0xb1092b2435ab5;0x2522132cb2bfc;0xb6b9500e3e42b;0x53d53d68593a6;0x77e3ebb117ab6;0x50d47e26eca98;0x235c4db4585];[0x0;0x3a63b93531111;0x2011f5cb063b6;0xc6103afd43b2e;0xb1092b2435ab5;0x2522132cb2bfc;0xb6b9500e3e42b;0x53d53d68593a6;0x77e3ebb117ab6;0x50d47e26eca98;0x235c4db4585];[0x0;0x5330e2b59dd07;0x8c93aec18c95;0x379a300489cfe;0xb5573c1de5c83;0xa6fdd81eaf712;0xb05657581b22;0xf26cf9c3718c6;0xdf23aecaf61b8;0xf09e839e0e985;0x717aba67ca0];[0x0;0xe645ef5c2b43f;0x246b21e2835fe;0xfdc0f07a7f0fe;0xe1e54010ccfff;0x5be058e2c335f;0x3f1383da3b4d1;0x642649d516a60;0x936c3490f6937;0x84cf601a4fa0e;0xb04ba57558];[0x0;0x814f16864ffa4;0x48e3539e2d576;0xc8fc1b7159fd6;0xb2b4e6b88c3f6;0x798a5f0e05594;0xd8cbfc635018c;0xa04388de3be3;0xfd50ed97addfd;0x932022d4f162;0x46acf7cc69d];[0x0;0x56c63b5af8f54;0x51d0e6debcccd;0x96e40b043d484;0xb5c217608d019;0x59290bfff5b95;0x6681a6ec564e;0x80c3e9ce6ea5;0x5635c2fe08d11;0x63290c10b817a;0xf317ad0d0136f];[0x0;0x84df38d8aac0a;0x40712293c280;0x58c4eb60ec437;0xa38219573becf;0x9b7f9f4e32456;0xa11fddf198522;0x92d2b5dfa7e4f;0x7e7699a983a6c;0x411247363e7b3;0x59250a7c922]]);
 ((V [0x5470b60615a26;0xe1fcfff4cd25d;0xcc8697e622e3;0xc1fa8e456490a;0xb9591aa26a5c7;0xe0b3cb10630f0;0x751e6902ef1ed;0x53585f28dd7a1;0x788ad7de527c5;0x52a7be06508] [0x599ab23f1ecc2;0x3d26242262a0d;0x105e3e09116eb;0xe36dd168f3392;0x55c4e573304e9;0x6713020af3267;0x757347fd68051;0x57b24feace49b;0x9c33b21876e6d;0xbf55dbca3f5] [0x8de97c7f3949f;0x4962ee49eae1b;0x659e9facf0f08;0x4e88586e9b1da;0x5e57766e89de7;0x8838136af250c;0x85617752d4e60;0x9dcd634e3c040;0x3651b42d5785a;0x3289057ae4a]),[[0x58b0aa124bf6e;0xfa0bba047ea93;0xd44be4e5f61da;0x7b73d7899b983;0x33fae37d0d21b;0x93f690cfbc24a;0x44bb0dca8423a;0x772239f085ead;0xf2d6b0726c9ef;0xa4656cdb4f8];[0x9f2f31118d85;0x360520444fa76;0x4d63709bf500c;0xca7670560f5f9;0x788921bacf47e;0x7a613b8851864;0xae5dcb021fcac;0xf4e73a75bb076;0x11edf6c7fba54;0xdc3024df232];[0xa93b30322172;0x86cb83f56b052;0xcb2f65d40c972;0xe37d6382a2393;0x81f7b81a6d48b;0x2faed4a721edc;0xa05d7b6e2de05;0x45c2ef31a94ff;0x9cf7edfae3925;0xae9947b57f2];[0xa93b30322172;0x86cb83f56b052;0xcb2f65d40c972;0xe37d6382a2393;0x81f7b81a6d48b;0x2faed4a721edc;0xa05d7b6e2de05;0x45c2ef31a94ff;0x9cf7edfae3925;0xae9947b57f2];[0x9ce1b672b72eb;0xfc8f0df6e9958;0xfaef72d34701b;0xe6f22539d9392;0x2063e41f6cb6f;0x7a06b4d96493;0x2db195765d109;0x81fafaf4bd0c5;0xbdb44fc25087f;0xa432799cf1b];[0x6d113c9e61a9b;0x3976124d6611d;0x5273fdc8adff0;0xe3844b1c36266;0x58253d9b6290e;0x72c0d03abb3d1;0x80ac358bc2ba3;0x72ec3f80fdfb1;0x5439a705ab1d5;0x37fdab42316];[0x0;0xa5cd625b9e83e;0x2018bcd20c962;0xc68687b2f8ef6;0xe4552c9182dd5;0x8ca5132a26786;0x61dae005d26d0;0xdfd7683d484e9;0x39562ce7c6c50;0x26d21b5aa5720;0x6bf8bb5c516];[0x0;0x9368b9693d0d1;0x46a6444a86444;0x4498f96043b61;0xb194ea640fb51;0x548c55d8fe2aa;0xb5439fa1c74f3;0x94de7f87e9ecb;0x1c77d122850f3;0x5d20f91d45949;0x701f5ea7cdb];[0x0;0x84df38d8aac0a;0x40712293c280;0x58c4eb60ec437;0xa38219573becf;0x9b7f9f4e32456;0xa11fddf198522;0x92d2b5dfa7e4f;0x7e7699a983a6c;0x411247363e7b3;0x59250a7c922];[0x0;0x84df38d8aac0a;0x40712293c280;0x58c4eb60ec437;0xa38219573becf;0x9b7f9f4e32456;0xa11fddf198522;0x92d2b5dfa7e4f;0x7e7699a983a6c;0x411247363e7b3;0x59250a7c922];[0x0;0xd39b170d2b1b3;0xdf8b2f32bbd46;0x9b934c0c47f12;0x9091015b1d003;0xf84bb59bcd8ff;0x20a51dcaaeed9;0x3b4777326ea1c;0x20ecbb71c9535;0x70ea96444aec8;0xe663ae7afa9];[0x0;0x1ff808c7b928f;0x78688e6d4a0da;0xb94077ac80cf;0x9afef2ce5bca0;0x660ae6769d227;0x97e68f1cec30e;0x1a4083d3219ea;0x373bb880768cc;0xb68f69942492c;0x227e2876be0];[0x0;0xc8fd43c4f4d00;0xa593614530144;0x89b0b5e6e05e3;0x8792707aee9fc;0xa325cca10e634;0x9f6f5270d3e64;0x33320628d8b95;0x88c584a602f9c;0x29e44153f2d9d;0x4717b2a8b09];[0x0;0xe2bacec9746d9;0x6d161910574bc;0xfe440b85ef9f6;0x480cd8a258b9e;0x7dad5f04ec65d;0x14575764f761e;0x8fd68ab698387;0xec66221940a7a;0xb957a660a85ce;0xbf709fe17fbbc];[0x0;0x4061b56cdbe6b;0xb4adb536e7404;0x18ef407ee639a;0x40052d827f818;0xd3f8da19dd6e;0xc3c4aef769854;0x4eff4671c771e;0x3748bf1337a70;0xd76f6caa55783;0x3dc6df6f9a8]]);
 ((V [0xa2c5d4e64b240;0xc9ec74e5d6bcc;0x253c6089d3e2a;0x31f186532dd98;0x62ec223a6dd05;0xad664e5c7499e;0x9892b76f935ae;0xe48833dadfd10;0xb97187fefb779;0x8af92155e62] [0x4fd9c5161b44f;0xabc3f0d676780;0x6fd440c98d187;0xec8b51c5daed;0xd7df625dbbb0f;0x9528bace8ebc9;0xb9cf74ffcf477;0x76e9faba819a1;0xb73e1f7161a05;0xdbfae0ce3d0] [0x4cd5711edd554;0x16cc3c5b557e1;0x40a3485ac369f;0xff79a0710c361;0xcabad41239c49;0x5eafe5c097ece;0x19f68304b8e1e;0x3a24bfbaeb358;0x69f41bde283be;0xf070d2961c7]),[[0xd64f4bff89e1b;0x2343eacdffe81;0xf73127ce395af;0xe82f8ecd7f8f8;0xd577f8dede287;0x3cbb5e56e200;0xa5ef9246cb668;0x8bda340ed5e0a;0xd92350177ebe4;0x5c8ed810049];[0xb1795873838c4;0x79703dac547a3;0xe3bacdf621732;0x4809b0ae01301;0xf7fb4caeccf34;0xde5774d0007a6;0x8f1cffb181c12;0x219b754b600d5;0x9dad9310c5cf4;0x5b52ceaeab1];[0x8de97c7f3949f;0x4962ee49eae1b;0x659e9facf0f08;0x4e88586e9b1da;0x5e57766e89de7;0x8838136af250c;0x85617752d4e60;0x9dcd634e3c040;0x3651b42d5785a;0x3289057ae4a];[0x8de97c7f3949f;0x4962ee49eae1b;0x659e9facf0f08;0x4e88586e9b1da;0x5e57766e89de7;0x8838136af250c;0x85617752d4e60;0x9dcd634e3c040;0x3651b42d5785a;0x3289057ae4a];[0x9be442b9d8dbc;0x606c1d79a34c1;0xad819c80a5eb8;0xf4647cadf31c2;0x9ea65e68b488a;0xa2870dbe19436;0x74eddd48df3c7;0x3894bdbc77924;0xa35794d66df3b;0x5be80345796];[0x159515b9aa8d0;0x19042032b12e2;0x363931757b87a;0x53a534000e13f;0x5954ee46186a9;0x3bd06711e7370;0x1a2f2268a284b;0xe906b78ee87b1;0xfa55fe3a57db8;0xff6acb6931a];[0x0;0x8da72b2a850c3;0xc486b01d7442;0xc670d5faeffca;0xbe6a6d38c6f9a;0x757e6249f21bd;0x29b1234961b84;0xba2373a3c7c35;0x1b61242d3a344;0x15cf972a5d769;0x1f403c21f44];[0x0;0xc94cd81596df7;0x767fe5e833947;0xe0b4992d3386d;0xc3e305ab366e9;0x7adf3f5662da3;0xa61ed8450f933;0xca5cec2d735cb;0x7ecf35990c5a8;0xed28aec624fa9;0x1245709ffa6];[0x0;0x4061b56cdbe6b;0xb4adb536e7404;0x18ef407ee639a;0x40052d827f818;0xd3f8da19dd6e;0xc3c4aef769854;0x4eff4671c771e;0x3748bf1337a70;0xd76f6caa55783;0x3dc6df6f9a8];[0x0;0x4061b56cdbe6b;0xb4adb536e7404;0x18ef407ee639a;0x40052d827f818;0xd3f8da19dd6e;0xc3c4aef769854;0x4eff4671c771e;0x3748bf1337a70;0xd76f6caa55783;0x3dc6df6f9a8];[0x0;0x251aa65744078;0x484e0a902bbbe;0xdbc73a80e652a;0xab30251e52df6;0x1b17d16afe36;0x93cbfd6f66685;0x1769891092322;0x8ca2c384501d4;0x9ab197ea8ecf5;0x8f013ac37b8];[0x0;0x6ff43acf4548c;0x9863eb5fa0883;0x320c194b8f59;0xaa1881b9ffd2b;0xe65456488e23d;0x483da6b73571d;0xccbd390e6b05e;0x3940eb1b90b06;0x144148591faa4;0x1aafe3a584e];[0x0;0xd01ff881555ee;0x106ab099e7542;0xd9e94e431302c;0x898658bc09571;0x10d8628798dbf;0x79a5134f5d6af;0xc6ff239e409ab;0x5d143fda1d7e5;0xf72ac50dd0020;0x319382d9815];[0x0;0xdfe52257d1c2f;0xb4fbcc4a1359d;0x8a698cd340be2;0x5018cfed057a9;0x73d88745c14d1;0x9f11683d9bc84;0xe45858febd25a;0xab45745fd448b;0xb28f7eac916c0;0xdc8862592bfe4];[0x0;0x748eacbf06034;0x89f69f2c5d01a;0xebc21671019d4;0x7a327898c3593;0x89c874b0519d2;0xb18b9f8b65861;0x985c075801d74;0x5ff77a4107ec8;0x1a1e75a43902f;0x776b50d8fc9]]);
 ((V [0xe9ef59c63b081;0x4cf99f53bae90;0x2382302338263;0x69bf10d4c3e7b;0x292485c91fdf1;0xb58be05a18760;0x4643511ba2679;0xb842fe4656026;0x9bbcf8d8d73bf;0xfd97d9dda4] [0x76ccf1485834e;0xe1c9e7a38c70f;0x70e416906f4b4;0x30d7bad2da3f2;0xb98d6af5bb2e6;0x8cebf6646a311;0xc960219ac3899;0x6ef0b7cfa9805;0x306aa672652d;0xe49356431c3] [0xfd782dd87f34b;0x90f27aa6b8628;0x565251da881da;0x21b309f846e09;0x4b35795d94675;0x9baf881899633;0x51d38867e689c;0xea51c3b2e7556;0x405ea56e9b8e0;0xd9a7b479b87]),[[0x1715f1cfa2e36;0x21908b72c1f04;0xd9c249e56ab4b;0x4d3e0b6e244a7;0x9235464361b11;0x1701875209319;0x3492bb13a1a40;0x4b1854ae8e1ea;0x39c12ed61ba3c;0x133d21b4f8f];[0xba5b70dc6f29b;0xa0fbc7566b6a0;0xac32d6b36ea1a;0xc4f35a79157f2;0xeb70351f47faf;0xd8cd5d9382d27;0x985a8229b9396;0x5c5ebf03a0fed;0x2701392f33a7;0x5dada074f78];[0x4cd5711edd554;0x16cc3c5b557e1;0x40a3485ac369f;0xff79a0710c361;0xcabad41239c49;0x5eafe5c097ece;0x19f68304b8e1e;0x3a24bfbaeb358;0x69f41bde283be;0xf070d2961c7];[0x4cd5711edd554;0x16cc3c5b557e1;0x40a3485ac369f;0xff79a0710c361;0xcabad41239c49;0x5eafe5c097ece;0x19f68304b8e1e;0x3a24bfbaeb358;0x69f41bde283be;0xf070d2961c7];[0x13271ce2b99a6;0xcf75de72b6dfe;0xd8ce3cad900ac;0xcd06f29a74bf9;0xf1442500283c6;0xb3c166db78379;0x15ecb3468daed;0x21f6eb831c97b;0x44a588f986e3;0x5ce6eb8ab05];[0xa73453f9b58f6;0xd185e8e3b48a2;0xd3649a05de96d;0xf7ec67dea0bf8;0xfa2c101f1fbe8;0x250bf6b80a9ad;0x826dcee32b8a9;0x3a67d38084672;0xfe25bb035acc4;0xc6b4ea472];[0x0;0x9beb05d7827a6;0xa1e9abf93fa1c;0x22019f1fd3f55;0x132bf8be37459;0xc681ecb674ade;0xc8d2f2f48bc76;0xb7fb80c1821b9;0x7eed113a10df8;0xe0e4157215096;0x94b02ca61d7];[0x0;0x7c97557e15fb;0xa5c3622874897;0xe28bb2691c07c;0x6ff58cfdefe52;0x1487eab82616b;0x8d361cea6a9c9;0xe3f9ed0dfa7f0;0xbad79a42a58ac;0xd1afcf8f7f5da;0x1211ca2bd62];[0x0;0x748eacbf06034;0x89f69f2c5d01a;0xebc21671019d4;0x7a327898c3593;0x89c874b0519d2;0xb18b9f8b65861;0x985c075801d74;0x5ff77a4107ec8;0x1a1e75a43902f;0x776b50d8fc9];[0x0;0x748eacbf06034;0x89f69f2c5d01a;0xebc21671019d4;0x7a327898c3593;0x89c874b0519d2;0xb18b9f8b65861;0x985c075801d74;0x5ff77a4107ec8;0x1a1e75a43902f;0x776b50d8fc9];[0x0;0xaffb2100d2f6d;0x21e83ee54d9aa;0x5c1d17152544c;0x1a16f9e5a2c5b;0xa7aaac01f42ef;0xfa7ba1c9d85c3;0xb5b7572f36e25;0x5adc949c9b32b;0xa639d49decd7d;0xbd07327cb4a];[0x0;0xb70458398a6;0x82a0ecea34a7a;0x4c6882ac68824;0xba7e53546c837;0x2f5eb62c9be25;0x48368e3a0f6f7;0xdde3b389760fe;0x394a4e3569d10;0x801dc3c70544f;0x4b718a62799];[0x0;0x22bbdd08d0a6c;0x9ad98b3179373;0x6909253692a8d;0x4e3a3794aa8bc;0x8e232bb2f9362;0xaa8aa58d75e93;0xdc1258a5c6c09;0x9065a71bd5ab8;0xba85fa28b0a33;0x5ccc28b685];[0x0;0xcf849a843e6c9;0x80646f6357e70;0x4eaa2516ed462;0x6cbe9bf92bf24;0xc08778769665;0xc8877954bd681;0x7e66dceb8e533;0x73b9bdd5b40c6;0xf702952add673;0xe524450c331a1];[0x0;0x33faee8588ce5;0xdb2bc272b4d9b;0x28a33fdd47059;0x180dc13a7dad0;0xd471346589c8e;0xd0df480738730;0xeadeb93b2d96e;0xd2be9969ca865;0xbb0c4cc06db69;0xe26d31aefe]]);
 ((V [0x66427a86846e2;0x20c231cdfa916;0x73f6e846fd341;0xfc444c523f318;0x57c637a975857;0x9d41bd3134d40;0x2d6091388ca1d;0x5dc1d33be6f75;0x3e04be6ba3df;0x866712dc37f] [0xe38729770c4d;0x3e0c5f840f383;0x3eaa9ce36e9e6;0x773a1b8f2f996;0x968d33caaec0d;0xcd845e3e9ca52;0x16a97aedc00ba;0x48caf7de3678b;0x9e7957aaf3937;0x1807b94e3a9] [0x854cec028e878;0xdc3403521874d;0xe8939bb947d63;0x827c69e7c7401;0xb37683cdeb720;0x8657345de99d9;0x18ef33d092c8a;0xdddff66945907;0xe2d4f1374b9f;0x8786462c67f]),[[0xb84e5d94771a4;0xa45920af9a70d;0x5a99091db4b84;0x3f65e38495d22;0x39b7c1e6764e;0x19815ba7744be;0x2867551e98150;0x4a13a3204cc4b;0x6821e743cfcc8;0x1eaa4a659fe];[0x6298df9a71899;0xf1c5474988b1a;0x9351513c337d0;0xee46ae4a798d0;0x395a913a4916c;0x17ba7056af5e2;0x352f301b2351c;0x6f18f18f62dda;0xb6473805398ba;0xf09e84c5db1];[0xfd782dd87f34b;0x90f27aa6b8628;0x565251da881da;0x21b309f846e09;0x4b35795d94675;0x9baf881899633;0x51d38867e689c;0xea51c3b2e7556;0x405ea56e9b8e0;0xd9a7b479b87];[0xfd782dd87f34b;0x90f27aa6b8628;0x565251da881da;0x21b309f846e09;0x4b35795d94675;0x9baf881899633;0x51d38867e689c;0xea51c3b2e7556;0x405ea56e9b8e0;0xd9a7b479b87];[0x95cd24f4c6bb3;0xc51a03edc4f5c;0xc43e172caea46;0xac17ce58902b9;0x81ea94399cfb5;0x8a4d2cd95a3a8;0x5271738b3dd03;0xd419732eb508a;0x651612dee881e;0x3886122cfbb];[0xcccbbaa5aace7;0x2cab435bc3bbd;0xcf133a0f84d8a;0x422edff1e9616;0xb76ffd00ac1b7;0x8d6d437d55239;0xe2bdbc8fe5818;0x9aff7e60add4f;0x513125265109b;0xb8187298df6];[0x0;0x8c373ad60acd4;0xbc10a849ade90;0xe592107a6f9b0;0x147801e3ea6b9;0xa96192fce66f6;0xf76346007faa2;0xead0ab04e533a;0x4a5f3355620a0;0x2d907b1fa8282;0x8698fbacc6f];[0x0;0x23a32598809f5;0x191f1953a9b32;0x607dc4e5b5c06;0x7a6f337b1860d;0x59df2e3b49612;0x83c98d0623df1;0xf4b018d1e3761;0x335adff460e39;0xa9d798055c34c;0x1a126fc4fdb];[0x0;0x33faee8588ce5;0xdb2bc272b4d9b;0x28a33fdd47059;0x180dc13a7dad0;0xd471346589c8e;0xd0df480738730;0xeadeb93b2d96e;0xd2be9969ca865;0xbb0c4cc06db69;0xe26d31aefe];[0x0;0x33faee8588ce5;0xdb2bc272b4d9b;0x28a33fdd47059;0x180dc13a7dad0;0xd471346589c8e;0xd0df480738730;0xeadeb93b2d96e;0xd2be9969ca865;0xbb0c4cc06db69;0xe26d31aefe];[0x0;0x95b5d5f1f7367;0x78d2f058b7292;0x962c7d58c350d;0x4d400287320f4;0xb37c88339b3cb;0xe886b6c24e8a6;0xef42ef6fe7a23;0xa135480fd61ca;0x95e1db7d27eea;0xcc16c673b85];[0x0;0x1152e49fdb316;0x44c96ee301fe2;0xd5f1890185ac7;0xb9736a7b02433;0x8f39d580dbc69;0x5b1574151b619;0x4255feb75f3e;0x9863f35a29184;0x43d84326f4348;0xfb357eb2d];[0x0;0x39a685958bfb2;0x78a2bb94b7472;0xcdeda7715f147;0x30fca958664d4;0x2d0619a9d09f4;0x9a673e87bf808;0xffb85a820659f;0x756a3cb8e7f6e;0xf5f77ed6bf31a;0x7e53db011e6];[0x0;0xb9e1aecb3f0f0;0xe6b304841a825;0xeb47c4c861aca;0xb154e9bb708ff;0x2d8d71bc803f3;0x9f578b659847;0xddf561f7ad1ba;0x27021aca03ded;0x9ebc85181cf8e;0x18092ae894913];[0x0;0xc14f5a4b25a6e;0xd929e5e8ddafe;0x45cdf162113c9;0x31cdc587890a0;0xb06cd77343eae;0x3fc38e277942f;0x67b294eeb1f8b;0x85a50447a1588;0x1185d72b54a21;0xc9db7dfb81]]);
 ((V [0xedea7ac20f255;0xc51f5c6b2a0db;0xd83023d907876;0x65309b7bc6c0b;0xf586583a25d9f;0xb709492b9d78d;0x49846c9ae34d5;0xe583a4c6379a8;0x2e039763da80b;0xfa9c7a0bebd] [0x5215c579e7ed;0xb24d90050b87b;0x9cf5d5466c832;0xcb04fc2f1466c;0x7a75aaff20ce5;0xb583e55f1269a;0x12c33dd3a0b98;0x8247267a782d5;0x36d02dc6d0448;0xae34340a33b] [0xb27520cc43fb1;0x9257891e0a66d;0xc170781767129;0xfb38cfede8a16;0x1dc60a2a7275d;0x8c6c4a43b77ea;0x5f97aa9d5f770;0xa2a71739b2f5f;0x29cd12766ae5d;0x6f4ede310b7]),[[0xfa714ba7b1283;0x348eac54f7e0f;0x304d0a922e386;0x8d0b8843e5ecb;0x8db2d8bbc2f9e;0x8860e96075d22;0x753a353d43633;0x4ba6429041b25;0xe4342ef85a80;0xce5260fa1c2];[0x5297847abbf50;0x302427c228d0d;0x22dc92e594dd6;0x669590a5e877d;0x90e28ec959e90;0xa367380edc6bb;0xfbcfc3e45e55a;0x23402f7a6686e;0x26b0ae05c73ad;0x265744c74ac];[0x854cec028e878;0xdc3403521874d;0xe8939bb947d63;0x827c69e7c7401;0xb37683cdeb720;0x8657345de99d9;0x18ef33d092c8a;0xdddff66945907;0xe2d4f1374b9f;0x8786462c67f];[0x854cec028e878;0xdc3403521874d;0xe8939bb947d63;0x827c69e7c7401;0xb37683cdeb720;0x8657345de99d9;0x18ef33d092c8a;0xdddff66945907;0xe2d4f1374b9f;0x8786462c67f];[0xf3b9ddbe973d6;0xf6d2a0618c0c2;0x4b99ced6a117;0x80a50d49cc7bf;0x50e951003283f;0x15f8503a4187a;0x5dd43ec581e08;0x32db8ddb4b2b4;0x59f0efc28aa0e;0xa42915aa636];[0x5edda6bc24942;0x395187609cc4a;0x1e22f5f82acbe;0xe5f0835c1bfbe;0x3ff93dc927650;0x8d6ee7d49ae41;0x9dfb851edc752;0xf064a19f1b5ba;0xccbfbe433c99e;0x822e2f1ce75];[0x0;0x9102d486a211b;0xf537806dadf2c;0xd010b76166e35;0x430d738f20508;0xd1274a9bba8a5;0xd60844490cb35;0x2ab40607879cb;0x273e2faaa65c6;0x13f306243739e;0x53cee344f59];[0x0;0xdee5595e80928;0x8811ef8386b6e;0xd4ff9e93c6920;0xcc8c92b5cf772;0x16b86924b4673;0xe1ab2cad4d446;0x3d568b24a1530;0x8b9c0c57a51de;0x2694cb02be015;0x6d39a8d0f83];[0x0;0xc14f5a4b25a6e;0xd929e5e8ddafe;0x45cdf162113c9;0x31cdc587890a0;0xb06cd77343eae;0x3fc38e277942f;0x67b294eeb1f8b;0x85a50447a1588;0x1185d72b54a21;0xc9db7dfb81];[0x0;0xc14f5a4b25a6e;0xd929e5e8ddafe;0x45cdf162113c9;0x31cdc587890a0;0xb06cd77343eae;0x3fc38e277942f;0x67b294eeb1f8b;0x85a50447a1588;0x1185d72b54a21;0xc9db7dfb81];[0x0;0x6c36c06a3a615;0x8bc721a66e7fb;0x58c5a99aaaf5f;0x1d24a91d86f83;0xe82303a1cc61d;0x6d1135a007a56;0x71f49e140ba56;0xdfe7f488a362a;0x63870e516d42d;0x24172fa536];[0x0;0x476b4c179fae;0x47e47b65127e0;0xec365ed48d58f;0x35256c05407f;0x171462e549059;0x728bd10b08fa0;0xa430d3177011b;0x81af02c2f8509;0x8398cd9064934;0x4690113eb92];[0x0;0x1833c66ac563;0xd724ea4446784;0x3ce450fdde3ee;0xcd08b7edcf5b5;0x115294e8f6b41;0x83124b53fd162;0x38e3a53c93069;0x2010dba19fa27;0xc0a810b86bce4;0x2588a89fe84];[0x0;0x8463bd3d8355b;0x7c3d7f6da4c47;0xf66b74a3c8fe6;0xf69d790a1048f;0x2048d148976c8;0x336dc1677593e;0x7494aa504e859;0xea900d8856e86;0x5ae9b5c2dc6d4;0xaec8511bf938b];[0x0;0x7f036533dd400;0xc3bc29c4fb932;0xd2d223df9a2e8;0x2d45fb4cddaeb;0x13065ff54f822;0x4fb51268d4dbd;0x72068d38065b4;0xdbff82c371078;0x93e0bc91c7b53;0xaa8975aeaa3]]);
 ((V [0x93acaa8307f69;0x61cb6e7185cc9;0x9456d88176df8;0x64260c7dc23a7;0x909c7bf91e823;0x4c7530a73fbf1;0x2d21fe425d98d;0xfad1f636325c4;0xc197d9d4687c0;0x39730aa33df] [0x5e560bdfbbc8c;0x1a990c3e11c38;0x7f871f627c10;0x52acc6cc899f;0x53b1f70db3ec4;0xa37fb59d54279;0x244f82f99a7fd;0x7db3a9fbfe87a;0x825767ea7c6dc;0x49cf8a60983] [0x1d83a31c71db;0xb200285a8c759;0x2ffa2f8213f9b;0xa42bf4a04ac11;0x736da70d9baef;0xabecf15977874;0x586e60c327a97;0x4d74c87f8fed9;0x8ce15d9a6f1f7;0xcbd3ddfce1a]),[[0xa9ef823f653a0;0xe492b9bf1e1f0;0x5775192ff6a07;0x348fffc58c4d7;0xb8be12c2a6d39;0xb9f7c04629f9e;0x8759627fdff0;0x4d6cd89f87bf0;0x1a8ba1c3a5b42;0x33e7cdf43c1];[0x913533ae3caa;0xb46e413dd491b;0xdd838274bf860;0xa9144b36e18da;0x5b34d25b37690;0xe0547d17a6924;0x7a37bdeebbc4;0x2fe09fbffdb28;0x2e7e630f425e8;0x9c835867c78];[0xb27520cc43fb1;0x9257891e0a66d;0xc170781767129;0xfb38cfede8a16;0x1dc60a2a7275d;0x8c6c4a43b77ea;0x5f97aa9d5f770;0xa2a71739b2f5f;0x29cd12766ae5d;0x6f4ede310b7];[0xb27520cc43fb1;0x9257891e0a66d;0xc170781767129;0xfb38cfede8a16;0x1dc60a2a7275d;0x8c6c4a43b77ea;0x5f97aa9d5f770;0xa2a71739b2f5f;0x29cd12766ae5d;0x6f4ede310b7];[0x9f8fbbe9eef3f;0x78325a021c5bb;0x62cec42c6ea99;0xadb3d27147f67;0x55fac8f9e21;0x6cd7657e377cd;0x25562709592c7;0xf6ea989f60e2;0x42f241828e0de;0xef20d352d03];[0x69839750f4b33;0x3c3be73bb835f;0x7ab4be4850dc7;0xfb6078c599973;0x5aded7923d86e;0x737d17996f157;0xe24d54d5928fd;0x2071f63607a45;0xeb8c218cb450a;0xad628514f74];[0x0;0xa54aff19881d0;0x9e8d68d998569;0x89b7aeb168194;0xae02cec1c6ffc;0x7f9b861f2cab4;0xdd125f3dd0b62;0x300272cccdc7c;0x29573f08a4ad8;0x27f16aa6845c5;0x44d52f255cb];[0x0;0x74d1768775b5a;0xc6f1eca82a875;0xe9fa7ae061bae;0x226c02bf8b1fa;0x9555b4f93d64b;0x464619d268b03;0xeb4db81279d32;0x4e0b0086508c2;0x603fc9b934a7;0x16917ffa9cc];[0x0;0x7f036533dd400;0xc3bc29c4fb932;0xd2d223df9a2e8;0x2d45fb4cddaeb;0x13065ff54f822;0x4fb51268d4dbd;0x72068d38065b4;0xdbff82c371078;0x93e0bc91c7b53;0xaa8975aeaa3];[0x0;0x7f036533dd400;0xc3bc29c4fb932;0xd2d223df9a2e8;0x2d45fb4cddaeb;0x13065ff54f822;0x4fb51268d4dbd;0x72068d38065b4;0xdbff82c371078;0x93e0bc91c7b53;0xaa8975aeaa3];[0x0;0x19ae17397d486;0xa15a00bf1b106;0x525bc86b175b;0xb47ad2b022a11;0xe1d42cb5e6e4a;0xd7a6f0e8b682b;0x5d55dbcae99e3;0x950e8fb318c31;0x10e7d258c6712;0x768b01630d0];[0x0;0x89697d2e68aca;0xd6b47cce51dd3;0xad7785ab68893;0xee09291107c2b;0x31d1e40d5ae30;0xe3463a2632cb8;0xe8861543b8ba8;0x19fc698a77956;0xea4449c0b665d;0xf555fe04414];[0x0;0x3e8795f52be37;0xea999e01bd824;0x7e2f1c840d5af;0xa133a3415448c;0xedf9f21fa676c;0x5267f57c42beb;0x8e8572616c548;0xd3ee4de146525;0x58a40f3558eff;0x231f9430c10];[0x0;0xf99d7ffcb37c3;0x564a4b93144ff;0xa9dbc100de4b8;0x95a941ea619db;0x82d4f5cd32f3f;0x567d35bf86fa6;0xe8f38e7c80539;0xefb3dfdd05244;0x58c633a540ba4;0x49ec3993f4e09];[0x0;0xdcfbc2529dfe7;0x183b7b97810ad;0xe30c063584c17;0xacd1f9e1030c2;0x84a5aef315261;0x27f6f8a11e7e1;0x83206e392ae47;0xb53d363b17f92;0x4e6a20b329205;0x1090611bd7b]]);
 ((V [0xfc9e2b50ff6b6;0x96ceb07d2edf1;0x4c91d7d9464cf;0x3ce25edea87a5;0x56c9608dc4002;0xe693841e686dc;0xb26c6c4b32ddb;0x9ac921ec2d35b;0x8dbb9b122d549;0xb527427ea6e] [0xe9dc8253b2cd2;0xb5e607d664966;0xb243183661cdd;0xd73d866ac84c5;0x1db8f0f6429f9;0xd8c098298f9a6;0xaf5deafd77fb2;0x79e0e18a15db3;0xa7f17931e5c2e;0xe6812d3850f] [0x78fbb28b73b4b;0xff3483ba88592;0x3a3650a64b696;0xc17641f55c7d7;0xcd25c989276e7;0x94e5e9cc07fb0;0x1ebe5bb3e7769;0x57a828b0a4c90;0x9068383a54b98;0xc15d459da2e]),[[0xc31f305fe2770;0x6b97c37249121;0xa1d859a6c637b;0xfb137b695fe40;0x70be1e83bad41;0x991c7a8e7132d;0x768c09b134d37;0xcdf3b8c114c6d;0x83997a3284554;0xb48177f836];[0xa1d834f30cf5;0xa322c8df20271;0xc41be7fab70eb;0xa0d4cb9438629;0x438c5a29372d3;0x5817e440e8472;0x22c72d6f97315;0x84718767e88e0;0x16bb18f3677d0;0xb89f53658b6];[0x1d83a31c71db;0xb200285a8c759;0x2ffa2f8213f9b;0xa42bf4a04ac11;0x736da70d9baef;0xabecf15977874;0x586e60c327a97;0x4d74c87f8fed9;0x8ce15d9a6f1f7;0xcbd3ddfce1a];[0x1d83a31c71db;0xb200285a8c759;0x2ffa2f8213f9b;0xa42bf4a04ac11;0x736da70d9baef;0xabecf15977874;0x586e60c327a97;0x4d74c87f8fed9;0x8ce15d9a6f1f7;0xcbd3ddfce1a];[0xffa70c6ce2707;0x6fd711d3d958d;0x1e9a3a86c7cae;0x57c4a3adfcb7d;0xb613d05495b64;0x4839b56a0aa58;0x803e7fd49319d;0xafab8d22a2b92;0x34a5b1eea55de;0x7b00285c6d7];[0xa7676e24e5ef;0x334bb70b46ce3;0xa581ad73ef43d;0x491027e63baac;0x8d7889d4a176f;0xfde2ed6dda19;0xa288ad9b04178;0xd4c5fa4545d4d;0xe2156704c21f1;0x3d9f2b091de];[0x0;0xe4dc2e3035c00;0x8aa1ad2814299;0x4e39725499c37;0x8f779082da103;0x8757a808eadb3;0xd3da2bd1b4fd3;0x135d40c633119;0x72ec6311b6250;0x1e1a28b1d967d;0x7e0bf3df050];[0x0;0x402d37e8bdd4d;0x705b994d18809;0xf228434476aa2;0x40938aac9af06;0x7d31c98c0d304;0x65d45315a1e5d;0xe6c0f92c3a24f;0x92acc87612f5c;0xef7948243d9d5;0x8fb80d5dc7];[0x0;0xdcfbc2529dfe7;0x183b7b97810ad;0xe30c063584c17;0xacd1f9e1030c2;0x84a5aef315261;0x27f6f8a11e7e1;0x83206e392ae47;0xb53d363b17f92;0x4e6a20b329205;0x1090611bd7b];[0x0;0xdcfbc2529dfe7;0x183b7b97810ad;0xe30c063584c17;0xacd1f9e1030c2;0x84a5aef315261;0x27f6f8a11e7e1;0x83206e392ae47;0xb53d363b17f92;0x4e6a20b329205;0x1090611bd7b];[0x0;0x3815134fe622f;0x5414be7a26a8;0x56099cf2a47e3;0xbc3b42ec21ea7;0xef9392f1fcb70;0x50ecee00fcabe;0x31268e735ea8b;0x5838b964ed3f2;0x278b936df14f6;0x1548052c29d];[0x0;0x2ffb1650bdbce;0xaa416a18d2c94;0xcad413683d6c9;0x909ef6cbe280d;0xfbb0fc8d03e79;0xabef7fad17833;0xfaeacb1b2f9f7;0xc049d1871f33c;0x51cc886ed1879;0xce46e6f40b];[0x0;0x560ac40f5e762;0x8ea3465e723eb;0xa1708800df76c;0x105a9b9814ab7;0x5c9255adfb448;0x2a062455e5d3c;0x446df7256c77b;0xf0b809bdbb8ac;0xe95d34da702b3;0x82a4f630ea4];[0x0;0xb1aa57c55911;0x389135956745d;0xc052c575f65fe;0x3c94e5a5ff253;0xea82bb0e6e4ef;0x4e694dcb2ae03;0x77caf287a3375;0x5ef4f12926dfe;0xb4acc1196dc73;0xe6c17217b66b2];[0x0;0x62db4eabad5f7;0xbc04ef292f7e4;0xd0b57f74d9c18;0xe6e5833a1f061;0xf01d01ea641fb;0xd7f54b619dfe4;0x72b85f60259ab;0x1cc473f24cd84;0xba6d8abbddc32;0xa31cae860c5]]);
 ((V [0x231890af45514;0x912ab5e92ac2c;0x614f9ba0fd1ec;0xed2333be51777;0x6247c5c1d445c;0x1f93583f0b463;0xc986527d8ad1f;0x367bd8d338e4a;0x39c47311569cf;0x5c49032473e] [0x869daa73f8ed1;0x848c2031764f7;0xc41eb8864f655;0x86839a3e471dc;0x3ce8f5d499766;0x8570802c84527;0x61b4a2940e155;0xf25c95d6c5cb9;0x5e51ba0aff35e;0xae2812d5f92] [0xe5ed198eea139;0x4b9f88a3fa986;0x196b024a3e53c;0x4fbee77e8383;0xd4d649942178b;0x27a93ff645796;0xa9fb0271e96e4;0xbe3613c09a0a6;0x95ee9cc54e9f4;0x3bd95e955a8]),[[0xc051ad8144a24;0x916fed37c7d04;0x29cb0b9b5cc9e;0x47db3bcffdd26;0x70ced0495bd12;0x7d10bb8fb5835;0x93e7b55adc53f;0xd9aa69c893289;0xe6bc7b168e35f;0xa658498c488];[0xd05a11bb534a0;0x61f27cbe8bf4e;0x89a9ed340e761;0x94d4c91cac561;0x5f5b504c9f8d;0x546d5de2a0b06;0x582b28e89b379;0xca4e92068eb7f;0xad3f3dc66f5a9;0xa5074284973];[0x78fbb28b73b4b;0xff3483ba88592;0x3a3650a64b696;0xc17641f55c7d7;0xcd25c989276e7;0x94e5e9cc07fb0;0x1ebe5bb3e7769;0x57a828b0a4c90;0x9068383a54b98;0xc15d459da2e];[0x78fbb28b73b4b;0xff3483ba88592;0x3a3650a64b696;0xc17641f55c7d7;0xcd25c989276e7;0x94e5e9cc07fb0;0x1ebe5bb3e7769;0x57a828b0a4c90;0x9068383a54b98;0xc15d459da2e];[0xbdbcb0933b352;0x56e2d1c6ba76d;0x8cd03b09cd16f;0xc0db0b9f2c327;0x32d6b73f6d850;0x36aed46324145;0x58564996d871e;0x700b63afd6fd5;0x7a8ac84497e47;0xd3c2db04453];[0x129d612817f16;0xb0faaf7d17e1;0xfcd9b22a415f2;0xd3f9bd7d80239;0xd31efdc55c73c;0x1dbe897f7c9c0;0xffd4df51c2c5b;0x5a432e56b7ba9;0x32b47581d7762;0xd1446780520];[0x0;0x98e7e7437c954;0xd58c4433c76e1;0x5c34c49ddcadc;0x5a17344922d55;0x45d304ee4058f;0x3c6c8fc50ee4d;0x7e22fde92687e;0x9592bc96c0d3a;0xda11b0f5ba9ab;0x77938368689];[0x0;0xc2c4a0beca0b4;0x3cee74bbc50c;0xe92dc1bb8514c;0xd2410b79be35a;0x9654d3aa92670;0xe36c44d359c90;0xd3430a08c44dd;0xe96d30ace26db;0xceeb6d3ba1ec8;0x7da52ac1b47];[0x0;0x62db4eabad5f7;0xbc04ef292f7e4;0xd0b57f74d9c18;0xe6e5833a1f061;0xf01d01ea641fb;0xd7f54b619dfe4;0x72b85f60259ab;0x1cc473f24cd84;0xba6d8abbddc32;0xa31cae860c5];[0x0;0x62db4eabad5f7;0xbc04ef292f7e4;0xd0b57f74d9c18;0xe6e5833a1f061;0xf01d01ea641fb;0xd7f54b619dfe4;0x72b85f60259ab;0x1cc473f24cd84;0xba6d8abbddc32;0xa31cae860c5];[0x0;0xfae280eafb77e;0x336d93b410b63;0xd2102e84098af;0x5dca7c91eed2c;0x4ab803f2bb920;0x73d3b0c4b76ed;0x3e8cc2c219742;0xa89e4c22c8865;0x91ae0a003ad0;0xcf8c5e6fcc4];[0x0;0xd1c6e1023bb42;0xb4c6509edfe4b;0x5edce4f399970;0x482035c30415a;0xe7966cc56397;0xdc8c3a2671bc8;0x43ecf0279d53c;0x3472f3058359b;0x1ae605266151b;0x80308a0c6be];[0x0;0xc9dcb3f3aa512;0xaf1ea06e417ab;0x5f4c96cc390f9;0x20a195a7d508c;0x8c31b3a499324;0x89847a27163ae;0xa1ba3e98dd4aa;0xf14bbca708b1a;0xa296ce5327a5c;0x3b7dad0033a];[0x0;0xb9ac25154df33;0x8873517925a33;0x597626180e0b1;0x989b27e84d0eb;0xd15a93d683d51;0xab1a3e8e73e2a;0x47c78a0e0699;0xf5999e1d9a41;0x53b1699c4be83;0xae65f62452293];[0x0;0x997fdd6baf0d;0xd3e42f6bf8aee;0xeead5a33cf327;0x8baca7b30268b;0x633ec3e7ad826;0x227c61dfc0f6a;0xd8d716c87c53d;0xd702034517e48;0xfaa766a4764f7;0x3ec81255893]]);
 ((V [0xb63ef7482c8b6;0x3dd46000107c4;0x245ced4db1c49;0x890c39d57ded3;0xac8b752343f84;0x488732b0e62d0;0x9f2529b40d01f;0xba9fb3d6ba09a;0x90c21e2ce9609;0x712cf21d47b] [0xb530c6e3e9f7;0x350616cf0c092;0x36b8fb4ddc6d;0xe52817ed02252;0xf8661018e3141;0x5d9e7007bdab7;0xecd228d9b225f;0x872033629b919;0x30ee98176763b;0x7b6b84164a6] [0xf00ae9940020e;0xcdb0ed56682cb;0xe12eca6813a73;0x27de26f523db8;0xcf229bde38268;0x48560972af94;0xed18720fa047a;0x809d0b987ba3e;0xa9ec4a087f466;0x14dbaca73e3]),[[0x464c9c4e96764;0x31e48e0b5864a;0xd9784562e9e1b;0x8ea04eb3acb7c;0x6f05aa017f67b;0xee8bb35552dab;0xf6d894fd251cf;0xffc5ee745632;0x8bf0033ef423a;0xfb590ae9a70];[0x917e141d73f1a;0x4c5dead2eb9f6;0x2e7ed3e572d8a;0x40fcc9683577a;0x3341010ef1c4f;0x65d2538bc3ab;0x21118c0f2ae91;0x262d3a80965c1;0x4d15e1e7ee7c0;0xe4ac35cd272];[0xe5ed198eea139;0x4b9f88a3fa986;0x196b024a3e53c;0x4fbee77e8383;0xd4d649942178b;0x27a93ff645796;0xa9fb0271e96e4;0xbe3613c09a0a6;0x95ee9cc54e9f4;0x3bd95e955a8];[0xe5ed198eea139;0x4b9f88a3fa986;0x196b024a3e53c;0x4fbee77e8383;0xd4d649942178b;0x27a93ff645796;0xa9fb0271e96e4;0xbe3613c09a0a6;0x95ee9cc54e9f4;0x3bd95e955a8];[0xc0cdbf258a63e;0x574c7ee77e2da;0x1cba877d67c67;0xd08d9fd3cafb4;0x18929f0e626a;0x1c15624705192;0xd143f8659e357;0xd04799d00654d;0x15276b5329456;0x85d4971fdcf];[0xd0b054f7e98dd;0xf5116beb6d71b;0x11c44c680b122;0x706f29946a7c6;0x31b7d71e0b9e4;0xea47c2f1b7219;0x4fcd93a98cb39;0x55e5a0b090073;0x37ee7694c5369;0x5ed79ead4a3];[0x0;0x114e3071ad34;0xbd095885e0e30;0xa3a6df228dd3a;0x1656b389a1b70;0xe4c581aead6d8;0x47342207e9e83;0x80e85cf0be929;0x88817dbe11de;0xce827aed6f355;0x2502b653108];[0x0;0x4d62648f18c86;0x716fd16ed36a3;0xc6bb325bed3bf;0xe110535961704;0xe7c04dd554afa;0xc42dddebab3d8;0xef0d428f79bcb;0x3c436c1d1e41a;0x6ed6f9bcbecb3;0x3ac2f0db6f4];[0x0;0x997fdd6baf0d;0xd3e42f6bf8aee;0xeead5a33cf327;0x8baca7b30268b;0x633ec3e7ad826;0x227c61dfc0f6a;0xd8d716c87c53d;0xd702034517e48;0xfaa766a4764f7;0x3ec81255893];[0x0;0x997fdd6baf0d;0xd3e42f6bf8aee;0xeead5a33cf327;0x8baca7b30268b;0x633ec3e7ad826;0x227c61dfc0f6a;0xd8d716c87c53d;0xd702034517e48;0xfaa766a4764f7;0x3ec81255893];[0x0;0x1a22459d4b885;0x73b1c5f6281af;0x93b3f0e1895;0x48232109da1ab;0x36a0862ca8b3f;0xdfcc2c333bedd;0x1e6f9d06a2832;0x7c319743b6de;0x292b06d345af;0x767a7fe0c2f];[0x0;0x4871ef0e8a5b5;0x22e89d8ff0b95;0x3017f85ffb5be;0x5f0dc6bba85c1;0x8409e928c9b04;0xe75fb6dade8d4;0x148a3387889d3;0x1197d4afdff11;0xf900a6e054a36;0x21448f14fe1];[0x0;0x9760421cb740;0xa4f47f9d5ec53;0x6ee57b6c5f056;0x5869552c09596;0xba3528468388b;0x10923f6d03a8d;0xfa939af02bdf9;0x3e48ee4bbecef;0x91031e3278fa5;0x6518299dbff];[0x0;0x32d3fdb8e0b76;0x22b0812572d9b;0x21c253dc79d6b;0x2481d861d617f;0xdee654c7b9846;0x7184f858cda1c;0x97c01efc0ebd8;0xde9e96ca40fef;0x74026c8d6e3d5;0x7b78b0d28fe9e];[0x0;0xa1e14d164c814;0xbe2ef33993947;0x3ecc1bb8fa612;0xa2a6565e3a51d;0x1545a7dc64332;0xcbb346e4fb53;0x757318945e320;0xabef81f5075fb;0x993a1b6bbc7ec;0x369020824b4]]);
 ((V [0xae8633b873bc9;0x9530c2f22b3ab;0x4760e3c68c4de;0x4c5cf4c0a61b4;0x3e803aba7d240;0xf22bdd9a3cee8;0x35c290551b05f;0xe6254815f043e;0xc00c63faa395b;0xb70acc41a7a] [0x1c476dfb3ed25;0xb7531c924477f;0xa7eefd146ad98;0x61d91817a4d44;0x9951f36647c79;0xcac698bae39e;0xe67b2c3205738;0x2621d63e7fdf5;0x41a5970785d46;0x6b93ea38c2a] [0xbb21b25578e5b;0xf36b720109fd1;0xbbd8bfe8ae650;0xc35b2983ca60d;0x8a667ed8098a6;0x716f7c315ce5c;0xfb88aa0923f6a;0xcc2572330c8d7;0x1967dd41ad02b;0xead7e382c81]),[[0xcdc53292ff79e;0xf2b614dc76149;0xb8a7b39c6dbb9;0x6a50bab4d5a77;0x64ffda5d3d227;0x9cbef7d5f309a;0xd1f04e5ba3f44;0x5f1336f9c4828;0xbd370094a86be;0xb35147bc395];[0x63ce12e9f37ad;0xc293d02b4e680;0xe12c8bdc35db2;0x38ede538d2db9;0x455c8ece57974;0x9a089a82d44a7;0x4ccc7894e16d5;0x8df81423cbcbc;0x7e08a14e88567;0x6b556bfb65c];[0xf00ae9940020e;0xcdb0ed56682cb;0xe12eca6813a73;0x27de26f523db8;0xcf229bde38268;0x48560972af94;0xed18720fa047a;0x809d0b987ba3e;0xa9ec4a087f466;0x14dbaca73e3];[0xf00ae9940020e;0xcdb0ed56682cb;0xe12eca6813a73;0x27de26f523db8;0xcf229bde38268;0x48560972af94;0xed18720fa047a;0x809d0b987ba3e;0xa9ec4a087f466;0x14dbaca73e3];[0x10d6d98258a84;0x23a9c50806f7b;0xa40abe37beec0;0xa452cd1322a6c;0x284d80ac69e47;0x7135b33c26a03;0x2c959fb735626;0xc2564325dedb1;0x94d59404c2c4a;0xfc181b96052];[0x52f739679aaf1;0x9eea0b2347705;0x3d21cda476ef2;0x949b1825b034d;0x1d0f0e21edb2c;0x28d2e746adaa4;0x2036d8ddac0af;0xcba1d0fdecf0b;0xe9330d49c591c;0x6f3d5065609];[0x0;0x623642422bf2e;0x1eff06a667d76;0xbf2520453de64;0x4890c2155fa8c;0x823ef95c79e0;0x696723d79c6f1;0x24c7335d3fcb1;0x5f575790a6d18;0xea59f96877b52;0xce60bf8b5f];[0x0;0xeb009bc29a551;0x869670383078b;0x5f4accc26f94a;0x8c645ad2c1b51;0x6fe5e94e39676;0x9119ac2ff5b41;0xe8a8eb92cfe8c;0xa3d216e785eef;0xf3f657a045505;0xe9c3912d44];[0x0;0xa1e14d164c814;0xbe2ef33993947;0x3ecc1bb8fa612;0xa2a6565e3a51d;0x1545a7dc64332;0xcbb346e4fb53;0x757318945e320;0xabef81f5075fb;0x993a1b6bbc7ec;0x369020824b4];[0x0;0xa1e14d164c814;0xbe2ef33993947;0x3ecc1bb8fa612;0xa2a6565e3a51d;0x1545a7dc64332;0xcbb346e4fb53;0x757318945e320;0xabef81f5075fb;0x993a1b6bbc7ec;0x369020824b4];[0x0;0x49b1522fc13cb;0x3d744402a6dfe;0x5d1e5ca098494;0xa9dec63770711;0xfa72b426b193b;0xffa08f3f8350b;0x56e3994952b34;0xfc3698ffe0a5f;0x45dc9df9ed73b;0x3b807e151a4];[0x0;0xaa756383f1f5;0x4e79ca76c779c;0x8303bf3466ee6;0x9140e1045156c;0x87814808eab01;0x6c30d314f8409;0x1edde64905185;0x75ed1e417a168;0xd634544d55271;0x3208b5a1f85];[0x0;0xb94d596772e6e;0xa01703333feee;0xc2e3e00e2952d;0x73306fa6dc17e;0x3d4999b6f6e56;0xbd032de18fa2a;0x9cd91482c9294;0x9ec63028eeecb;0xd726a4415c2b9;0x4cbe972a869];[0x0;0x8e6a7773d680b;0xad18eca1b7c9e;0xa1c86e8b52f4c;0xdd0d02569f056;0xcbc91006cd361;0x8893809569477;0x6c89e9dada823;0x10d277c241566;0x983896ed6877f;0x6bd2636a9870d];[0x0;0xc9a092a0ba7be;0xe07b5ceaac166;0x56285841e07a4;0x41f47bfa69839;0x42683391a0884;0xa26816e89d0aa;0xd132824c1ad95;0xe94ed1a403973;0x46242dbd25006;0x4ceb460b2f0]]);
 ((V [0xc3186d2db7234;0xb448f9be8eda4;0x710220e0530e5;0x94fa5c5d0b4c0;0xfea05990bc1b;0xbd61d07cc6797;0x62cd6e8382b8f;0x75c8d70b2a059;0x39b6b35faa271;0x20f0a4ddbda] [0x32b2b24e095ed;0x7a3ea9e0a70e1;0xcd62232a15f48;0xb0ba10a860ade;0x660bd8f23ebbc;0xf08f314d8fd3e;0xa45b9837c6a4;0x3613a6484665c;0xdd3424cef395b;0x58f52786908] [0x84200550c6da4;0xdb3f0878f941a;0x6f429a5942684;0xbd77e0dc42f2f;0x600887c114f5c;0x335a1326ad47a;0xdb07ba44d5780;0x2e0323a498b41;0x435238b2006e;0xaa14d5596e5]),[[0x877509c2685e5;0x190315a1b0ce6;0xdf49887537e08;0x3c080e5799df4;0x117e22d2e087f;0x44ba5c7087c38;0x570885f45c520;0xccead49541742;0xb5ec10d764781;0xcd5aa95cdd5];[0xd9365feb31c71;0xc0af497fcdcc1;0xa4a9a5192c52d;0x3117d111d940c;0x67c0404582d84;0xd04a02dc8f98f;0xe4ca9ff08925e;0x521143c98fcc4;0x7eb614e018986;0x35d74de6652];[0xbb21b25578e5b;0xf36b720109fd1;0xbbd8bfe8ae650;0xc35b2983ca60d;0x8a667ed8098a6;0x716f7c315ce5c;0xfb88aa0923f6a;0xcc2572330c8d7;0x1967dd41ad02b;0xead7e382c81];[0xbb21b25578e5b;0xf36b720109fd1;0xbbd8bfe8ae650;0xc35b2983ca60d;0x8a667ed8098a6;0x716f7c315ce5c;0xfb88aa0923f6a;0xcc2572330c8d7;0x1967dd41ad02b;0xead7e382c81];[0xf1715ff40d107;0xa6f6ca80d3cc2;0xbdcfeaa62f589;0x2ed25957368c0;0xb725dff4c8093;0x167af18bba837;0xa5cf9eb1225d7;0xfd33161e8e8a7;0x27e462ee8d103;0xcc23e7cf095];[0xe7c4fff724932;0x19b87efef9ffe;0xe6d9ba72fcfa4;0x24577baa2b4b;0xb09a6050bacf1;0xb9cf1150d5157;0x3efb013f66c87;0x54de2dab0141d;0x56d1b1f18b882;0x69b366175bd];[0x0;0x26c1888f9c21d;0xdbb0b2842be24;0x26325a20319d5;0xa5d27c629a329;0x21ce0c6f9c3fc;0x38bb2e934ff8;0xec8d71ddb2e61;0xae7c162d0324d;0xb8bbb57163d5c;0x913a0cdac9e];[0x0;0xe4b586c36665a;0x14dfcf1c502cc;0x86a77bca7ce64;0x99e853ac46546;0x16c393e200340;0x3e11c3a46ee23;0x76dfd653b609e;0xd992be500c03;0x7b5d7529b8042;0xbc620c736c0];[0x0;0xc9a092a0ba7be;0xe07b5ceaac166;0x56285841e07a4;0x41f47bfa69839;0x42683391a0884;0xa26816e89d0aa;0xd132824c1ad95;0xe94ed1a403973;0x46242dbd25006;0x4ceb460b2f0];[0x0;0xc9a092a0ba7be;0xe07b5ceaac166;0x56285841e07a4;0x41f47bfa69839;0x42683391a0884;0xa26816e89d0aa;0xd132824c1ad95;0xe94ed1a403973;0x46242dbd25006;0x4ceb460b2f0];[0x0;0xf08ef11913f1e;0xe034a59771e9a;0x24a0c0677d972;0x6cc982a53ad59;0x6ba7f3d9ce4a9;0x2001ea6f68ca1;0x958f6e0ba1c62;0x5561f20880dc5;0x86e6c2aff212;0x2d34fb42463];[0x0;0xc65d2f1b5fc69;0xb881d64795978;0xd9cdb2575d5f7;0xb798590c196ac;0x6c7367c797092;0x1e9c03f9976dd;0x24af7a25a5d5;0x2f891c88cdf14;0x1b69c32e88e05;0x82e0707a75d];[0x0;0x2a0d8c98945fe;0x230e87942aeb8;0x5e6f55bc7624e;0x661bb90ffd027;0xa7470e988450a;0x418dff43edc71;0x2cb644c5ba411;0x1666d7102ac76;0xc08d5561d14e5;0x6ed8642654];[0x0;0x1fe72e426599;0x16275a907bd07;0xfa0a0573fc577;0x2c6fd70569e33;0xac4fc5fb68149;0x734a0ac7373ab;0x73fb84538257f;0xd410776291a72;0x4bd9995c5fca5;0x593b671bf2442];[0x0;0xfc881dde0eb80;0x416739a8864e3;0xc1837012b3c18;0x66b635f9f6fd8;0x7a30362bf4538;0x8a602e3fd07a5;0x18ad2a02bbd20;0x9d3a1af9cb403;0x46b6c311a780a;0xb72440ffb1]]);
 ((V [0x509f7b69f3513;0xdec9e6d72a863;0x3d97dd9a7c902;0x6742804291193;0x49a9c0f4ab007;0x6edd25d37f5f4;0x22620836f81eb;0x178334dc861ec;0xbdc0ac43f04d1;0xe17a5b33d79] [0xd58e52274e681;0x15f0c52ceb791;0x1eedbf43c1b83;0xe7814eaf90d64;0xf6a8058f959cb;0xc011cc6ab487b;0xdd1a9415d2d36;0x9537666837b25;0x926998ab469dd;0xab397667c23] [0xeb5bbf9b23298;0x3663000ac6885;0x9691bdd791a1a;0x50df29e05d31;0xc80376f9fe5e6;0x409b1b0f55f98;0x2cb77dc95e75e;0xb9245e41ba514;0x4324c381c38d6;0xef9d77546ca]),[[0xc8344ade7373d;0x6cdebd3d7e1d;0xb901888c84cc0;0x5d5f7c62db629;0x6eb06b11376cf;0xcc9c8318d088e;0xe0af7b54bec9c;0xb5cf92466f8d0;0x26c848d8184b2;0xc02e1759f3b];[0x272d254299fbc;0x5482a78649af4;0x46559c9007b16;0x7b3e84aec0424;0x4e148569623bf;0xea89edc593306;0x90fb01e5100e5;0x97f592f96e3e7;0xfe0be877c788d;0x8b648411450];[0x84200550c6da4;0xdb3f0878f941a;0x6f429a5942684;0xbd77e0dc42f2f;0x600887c114f5c;0x335a1326ad47a;0xdb07ba44d5780;0x2e0323a498b41;0x435238b2006e;0xaa14d5596e5];[0x84200550c6da4;0xdb3f0878f941a;0x6f429a5942684;0xbd77e0dc42f2f;0x600887c114f5c;0x335a1326ad47a;0xdb07ba44d5780;0x2e0323a498b41;0x435238b2006e;0xaa14d5596e5];[0x1d858a9afa5d9;0xa7d6a1e295a01;0xdfa30b499716d;0xf6bc8fd5c6a08;0x3d9e4f9dc7c0a;0x48639b84d0119;0xebb9ff2516a79;0x6280012900e03;0x41cdc9aca63c2;0xca607950142];[0x9a79aa79f7ab;0xacac05a3b40f3;0x66b29146709a8;0x8481f4d8f9a1b;0x107635cb9a7b4;0xa2265240c31ed;0xa54102bff966c;0x357591d06d5e3;0xbc3e1ecb214cb;0xc1040ac130e];[0x0;0x96d007ecb1be5;0x30a4b1d83fe55;0x90f4fef113a7d;0x109cd86543fec;0xa5adcedc9850b;0xad704519b4654;0xc13090382ec8a;0x27d1843e0b889;0x23d65b150b176;0x692d96419e9];[0x0;0x55b115e140e8;0x7d36d495eca42;0xfd73ac416c421;0xfff2e76f681de;0x7675fd2783851;0xcca98ad0e6378;0xb535caef13f84;0x401c57af0f9e3;0xf8b0369e7a184;0x7fae3f450b1];[0x0;0xfc881dde0eb80;0x416739a8864e3;0xc1837012b3c18;0x66b635f9f6fd8;0x7a30362bf4538;0x8a602e3fd07a5;0x18ad2a02bbd20;0x9d3a1af9cb403;0x46b6c311a780a;0xb72440ffb1];[0x0;0xfc881dde0eb80;0x416739a8864e3;0xc1837012b3c18;0x66b635f9f6fd8;0x7a30362bf4538;0x8a602e3fd07a5;0x18ad2a02bbd20;0x9d3a1af9cb403;0x46b6c311a780a;0xb72440ffb1];[0x0;0x3b0c873c26bf0;0x7f29c063ddcc1;0xbabbbf4d0486f;0xfb71cf201f7a2;0xc599bea02e19f;0x44f8063fcb89a;0xcd7b18ffca5e;0xe79915ee764d5;0xc777ace42f268;0x1ee975f1310];[0x0;0x13ce8684589f3;0x8e8bb6bb2183f;0x454cf2d6e562e;0x2b537eeee22e;0xc991c22ff50d2;0x5599900251b3d;0xe8925ddc9f624;0xdba2b66ebfbb3;0x954a8ce9a8edc;0x43d0b6cf95];[0x0;0xa3adb320a2549;0xc7b1df2014518;0xe700e1566cc1f;0x31b8455b2fa84;0xd74bc8bd300ab;0xdb4771a68d049;0x3b3e0cb36214d;0xb6a56728711e4;0xc99acacaae340;0x7ac5f7a3134];[0x0;0xa30094fd42b31;0xf663c123f988;0x7a87cb2cd502e;0xbeb1eb1b10fc2;0xd503e66661124;0xeda174be91f0;0x2a36dacc43e6a;0x626e30ee90c9f;0x36138d0d4662a;0xab87747018365];[0x0;0xef5c14dfcee2d;0xd6fffa35cb212;0xc332da6f1bbbf;0x6d0ff2b005711;0x9ca07b67f9e98;0x6c7067f22ac87;0xe548323f63474;0x50e760b2117d5;0x5c447c46277eb;0x96cf5773b8e]]);
 ((V [0x28f7e0425ea02;0xaa2e360518bca;0x4244218f88413;0xafaa0143edb7b;0x97583ad9b1c00;0x37e058bcba1a9;0x42e5509d57a75;0x1836dfb20ca78;0x540337be09afd;0x3a7a2d49e05] [0x20b003c5b2922;0x8d9a1aaadbf61;0x70a65055dd7fc;0xc7b2c6275dcbd;0x918c83cb585a6;0x666de76d96934;0x90835bb13887a;0x73fc102c93fe0;0x8820541c502df;0xf2098483cdc] [0x78296f2cb1085;0x3c48f5043c520;0x6666b4059bdb5;0x62ecb93b1ab99;0xd18f123733604;0x5d9ebf17944e;0x7b656ec1a9cb8;0xcf9ef93ef2690;0x1f03ce5f0bba0;0xf600025c03]),[[0xdf0f6923f38af;0x8037c3300064c;0xae47bb9eaf881;0xc0c8fbde4d572;0x8815f657ae6e9;0xadbd8dff464e9;0x9555c95fca725;0xc3c6a532ee8c5;0xe6fdab075e9cc;0x3fa3d768411];[0x110975a8fd2a5;0x54130fb856ecf;0xb7c260d32821f;0x7efc50a1cf0e8;0xf103e8986cc72;0xd9150ca24bfb1;0xe58b45d5d700f;0xd6cdc26a651e9;0x88922c689756e;0x93be388b6ae];[0xeb5bbf9b23298;0x3663000ac6885;0x9691bdd791a1a;0x50df29e05d31;0xc80376f9fe5e6;0x409b1b0f55f98;0x2cb77dc95e75e;0xb9245e41ba514;0x4324c381c38d6;0xef9d77546ca];[0xeb5bbf9b23298;0x3663000ac6885;0x9691bdd791a1a;0x50df29e05d31;0xc80376f9fe5e6;0x409b1b0f55f98;0x2cb77dc95e75e;0xb9245e41ba514;0x4324c381c38d6;0xef9d77546ca];[0x880ee07c8ef76;0x3d75a2992f5ea;0x326c491bdc91f;0x30f79d2ddb8b5;0x682e551135fd8;0x24e83fcf67a54;0x775a3329fc0c7;0xd4ec3a4268821;0xec8a6621047fa;0x3e53abfc6ab];[0x88fa952c6e330;0x169d6d1f278e4;0x855617b74b900;0x4e04b373f3833;0x88d5938736c9a;0xb42cccd2e455d;0x6e3112abdaf48;0x1e18827fc9c8;0x9c07c64792d74;0x556a8c8f002];[0x0;0x7597f787a6ea7;0xcbd0b364fbefc;0xdcc4434b3c7b7;0xa3f0b16bfb26;0x3cb1618314171;0x2d47353fde09b;0xbe7ef022c9087;0x40ab1c794cf36;0x6ed42d8c81dd2;0x942d78cd2df];[0x0;0xddef09190fea5;0xa5c6034bc7281;0xb29e17d65a7;0xa03ea281b9cc2;0xa6984dabbbafa;0x1851a5bb4eca0;0x2f3196e0d7e10;0xae739235184a;0x16ee934c362e6;0x3b911b3f95a];[0x0;0xef5c14dfcee2d;0xd6fffa35cb212;0xc332da6f1bbbf;0x6d0ff2b005711;0x9ca07b67f9e98;0x6c7067f22ac87;0xe548323f63474;0x50e760b2117d5;0x5c447c46277eb;0x96cf5773b8e];[0x0;0xef5c14dfcee2d;0xd6fffa35cb212;0xc332da6f1bbbf;0x6d0ff2b005711;0x9ca07b67f9e98;0x6c7067f22ac87;0xe548323f63474;0x50e760b2117d5;0x5c447c46277eb;0x96cf5773b8e];[0x0;0x278a72811b21d;0x628d0de531933;0x889dc22a7ed53;0x4ddc0b3c67b15;0x81a5df502eef6;0xf4ec26ce44fb4;0x4b6d33099235;0x53511679add5;0xa81edc9a1074;0x7285d1148e7];[0x0;0x6e3ad735435ff;0xb5ddbe5f934e;0xd69a01d76b53;0x6ed0156ec8b7b;0x458ded287d738;0x28104e4178645;0x91eb03567babc;0x68f59e27f222e;0x75f21135a50d5;0xc6984ecc2ee];[0x0;0xc0bc9e316d304;0x24ddb3a6436a2;0x9e03ebc25e8d7;0x60967b1613387;0xce1fd6b643dfe;0x9b2539b1d8e9e;0x74ae44008286b;0x348ab067c456a;0xfe81fa05414b1;0x21bf9b999b4];[0x0;0x2751db6990c9f;0xfd30da5048b9c;0xa73fd6d02abf7;0x1efd44910ebf8;0x232a43529b7df;0xe1944dd1c927c;0xe3594eca6f7e8;0x8b5bd64dc088a;0x216124642396c;0xf26fdeb8b3a81];[0x0;0xe39f597794849;0xf0501841f18ee;0x58109a5aeb37c;0x1c2d4bb5c125;0x54755ff969c58;0xc397b1b93375b;0x17ee85cd90de2;0x916957343dd2e;0xa61947668072d;0x3749ab60888]]);
 ((V [0x4e1705e561aee;0x60596f72019dc;0x2851f9dd5a8c7;0xdd7171081534b;0x10d11a187793f;0x312329f073e25;0xd2a0b09f815b4;0x830b69bb92b52;0x876f97b0c4f85;0x90f3643e7aa] [0x2dec4d44546bb;0x6df90c015c22e;0x40b406235216;0xa7c4f9849cbef;0x80ab9c5daf248;0x3c1c27b64b53;0xd0e5b39c48f81;0x7bb45684ca1df;0xc89e8f2d12470;0x476e4a746aa] [0x1c0c294376465;0x205f01607f6b0;0x6d6c450c95fbd;0x567faca651a44;0x51bda9c93d1ce;0x74991e76d6075;0x15a50b63c9334;0x6129ace32651;0x1b194d09af9d0;0x451ef395244]),[[0xf95ee5066a433;0x9007a31c1d286;0xa0f556867b50d;0x3d9bfeef34168;0x2a7311ca2b8ea;0x2423b70a915e8;0xa0249b7c45923;0x83404abb7b520;0x9d14fa4d31d7;0x436b039fdb8];[0x4cd834ea22f71;0xc2b02a74e6fa5;0x38bd9def20c01;0x1fb6ac0c88d9a;0x7ad5df75b61a0;0x45178b517f53d;0xa8ab98d5bc423;0x9ae943f29bea0;0x9dd4049cd2ddb;0x8521818a600];[0x78296f2cb1085;0x3c48f5043c520;0x6666b4059bdb5;0x62ecb93b1ab99;0xd18f123733604;0x5d9ebf17944e;0x7b656ec1a9cb8;0xcf9ef93ef2690;0x1f03ce5f0bba0;0xf600025c03];[0x78296f2cb1085;0x3c48f5043c520;0x6666b4059bdb5;0x62ecb93b1ab99;0xd18f123733604;0x5d9ebf17944e;0x7b656ec1a9cb8;0xcf9ef93ef2690;0x1f03ce5f0bba0;0xf600025c03];[0xd1dd985698732;0xd058635491fd4;0x6b61b8c6d4a81;0x7a22393a3361c;0x99ee7d02f5ff2;0x622e582d9e928;0x2c4c32e5c704a;0xe2e63d88f1345;0x4407f9aa17d68;0x844dceccedc];[0x7afa9c938a840;0xf257c72054fd0;0xcd5be5284c17f;0xa59472d25577d;0xe0e76272c01ad;0xe2e93323e0c14;0x7c5f65eff53d8;0xb8030669aab5b;0x59cc0af2bb072;0xd3b2bd724];[0x0;0x57ef334fda2bb;0x70910cdd9503d;0x7fb0d9570c033;0x13c7b3afcbc57;0x5c3950f41c58c;0x2b73ae0e8ad4d;0x3aa7f41ffe756;0xf32d79ce5922d;0x9d7879e5d0be2;0x9820455a0e];[0x0;0x97d2160261082;0x767df2ffaa270;0x131b132f79906;0xddfc63fb919b0;0x110be01719ca;0xa5c95c63a917a;0x939b70e717675;0x3b3dbe538475c;0x3c901cf61678f;0x40c8d61aae];[0x0;0xe39f597794849;0xf0501841f18ee;0x58109a5aeb37c;0x1c2d4bb5c125;0x54755ff969c58;0xc397b1b93375b;0x17ee85cd90de2;0x916957343dd2e;0xa61947668072d;0x3749ab60888];[0x0;0xe39f597794849;0xf0501841f18ee;0x58109a5aeb37c;0x1c2d4bb5c125;0x54755ff969c58;0xc397b1b93375b;0x17ee85cd90de2;0x916957343dd2e;0xa61947668072d;0x3749ab60888];[0x0;0x45c6220fc3c1e;0x370f2e82f7279;0x81ac3ac0e103f;0x7cc5077968d72;0xd319a6fb78615;0x4b55a12270f41;0x487af3ff0591a;0xfb2bb7f025fed;0xbbdfe1b6c53c4;0xe4d5fee3c6e];[0x0;0x72ab19c3ad21c;0xa173b3dbb6fc;0xb0730f828899d;0x787b776da6291;0x3ef360e10cc93;0x8b2c164fd4f71;0x6671ccf7a9806;0xcfdc6b31b8c02;0x3808832f9dbf5;0xd5b96d4ac1];[0x0;0xde29ef896217e;0xdb3977d92e611;0x6d0c18d42f021;0xf7a9b14111a4;0xfe286b7b6ed1c;0xe46bc5255a88a;0xc34d024f7d29b;0x334b8465928a3;0xfb6706e382be4;0x4b616bcd60d];[0x0;0x915285482ec8c;0x4e81c5199c39d;0xa7c8daecd122f;0xf4da45105f6ca;0xa6e1a642581be;0x9935f0cb70fdc;0x8510abce9c872;0x776e234db014d;0x425ed17bda1c7;0x47909318d3d30];[0x0;0x71d84cb420ce3;0xfef9b816d1dd7;0x86be8edd94e53;0xbc1a5082def70;0x4553f99993d09;0xb56349f1fbf62;0x403deb01fed0b;0xe1c5499eb89bd;0x76245f68642c5;0x2871f38aac8]]);
 ((V [0x330a09b4a55d4;0xad2a887f83cf8;0xa87defe22ac07;0xf3e6002e2729;0x5280f9c301068;0x7c0bda2afd57d;0x656e40500c9a4;0x4e6419386ceb9;0x956f23ea0fbba;0x3f6219787f6] [0xb2ab7ab1f13ac;0x6cbbc79f7de0e;0x9cf7e93fd64dc;0x27c356b8eedbe;0x7c8a8336e8f8b;0x316a6c6ec4baa;0xa795c0f5ae86;0xfc1a9b976a2f6;0x5d2fda7890632;0xa7f03c0170b] [0xe2acb77f1bbab;0x62b5d39bc9b50;0x68afff6d44499;0xcb45f7faf7afa;0x57f654af51b10;0x6ef5886bebc93;0xa45026ab2fcd4;0x9f202b01d8080;0xd0ebe67e9001f;0x4b8712975e9]),[[0x786d5dcbcf240;0xff077001c5c31;0x8b17c55c7a7e4;0x6a410005c01c9;0x1837ef023423;0xd257539b37a47;0xe770b8cb45717;0x275ab2cee7082;0xdce3a1b160a45;0x8d986bcf85e];[0x880a058c3ae3c;0xe0eecd0a564a7;0x93417af16e7d8;0xf3d8182e6a9f5;0xc08404ea5edb2;0xd78ef49a2c122;0x5d635206e10e3;0xc9c4841e5374e;0x74ae1643d5af8;0x2183aa3ecf6];[0x1c0c294376465;0x205f01607f6b0;0x6d6c450c95fbd;0x567faca651a44;0x51bda9c93d1ce;0x74991e76d6075;0x15a50b63c9334;0x6129ace32651;0x1b194d09af9d0;0x451ef395244];[0x1c0c294376465;0x205f01607f6b0;0x6d6c450c95fbd;0x567faca651a44;0x51bda9c93d1ce;0x74991e76d6075;0x15a50b63c9334;0x6129ace32651;0x1b194d09af9d0;0x451ef395244];[0xc3984fef88e7c;0x5191640296c3f;0xf9d8365951cee;0xfb559e781148;0xa1b244455bbdc;0x1d08fbb79e244;0x67c39bb033ab;0x8606f1ca6e1a0;0xaef7e70f7306e;0xb4a43ec18a2];[0xc471b59cb1d88;0x8f5d6907bf867;0x996944981caea;0xe422be46e98ac;0x1ed1c0a5031d6;0xba85f8e28dede;0x56e7184bddd38;0x43bd9253e55ae;0xc5b62f3462a8a;0x6cdf6b7d453];[0x0;0xb8babdf80f730;0x6595eec20917d;0x4b0ad29c6a190;0x9645782e9d538;0x50b1f10496f00;0xb3e07c4f599c2;0x7bef2c02bf246;0x61dffede20cd8;0x824e8dbc3a886;0x2abe8825433];[0x0;0x83879df56c2dc;0x80bb32486da91;0x1e9fe80a764f5;0x6094805e92b69;0x1affd96531763;0x9acc6b321efe0;0x6a15d0c40f824;0xb0a3252685d8c;0x54b72c2d71e4b;0x263b33a5bd8];[0x0;0x71d84cb420ce3;0xfef9b816d1dd7;0x86be8edd94e53;0xbc1a5082def70;0x4553f99993d09;0xb56349f1fbf62;0x403deb01fed0b;0xe1c5499eb89bd;0x76245f68642c5;0x2871f38aac8];[0x0;0x71d84cb420ce3;0xfef9b816d1dd7;0x86be8edd94e53;0xbc1a5082def70;0x4553f99993d09;0xb56349f1fbf62;0x403deb01fed0b;0xe1c5499eb89bd;0x76245f68642c5;0x2871f38aac8];[0x0;0xf43631b7a34fb;0x794f7e50554c2;0xbf146c733a944;0x9500d44add2e9;0x7564b4dbf2360;0xc51004a1486e8;0x756946c358a79;0x3049077f57a79;0xee362536babed;0x13ee5cd0a4d];[0x0;0x69239a46d5a64;0xe7a21a1f86760;0xc5d6f1329cce1;0x2b701cccd1add;0x4b720c2d9e358;0x1b422fb057868;0x3867e1da92aeb;0x8afe9e2db5cf9;0xb40bdc95efc10;0x5212b82dbfd];[0x0;0x7c122ad62ef76;0x994e4750c5830;0xf86b78848dd1d;0x4a76c7bdeefd2;0x81e8b7c1aa2fe;0x7d20686be9f31;0x5bbffed1f4a32;0x6ad7bc6326e49;0xbdc825f30e45b;0x84c3ea2431];[0x0;0xd0335579ccd03;0xe992f2c81e6d9;0xa13db97447aed;0xfaafca7334b5c;0x9d96a6c5c85a6;0xfee45b62e9604;0xd3631e9a443fe;0xa2f26195da65c;0xe32e8e00dab9c;0xa8822fe618862];[0x0;0x1a6e8d2628313;0xba54181ea45ca;0x4eecd48355e1e;0x42d8d3d1d52e6;0xbd3114195ba05;0x467370df23be9;0xa0eb23d86971a;0x734ea64ca8351;0x7718cba02f487;0x29947970d55]]);
 ((V [0x47682a23f4ed6;0x4a58dc7aa1bcf;0x21d91c0d69ff0;0xabbfd5ba02ccb;0x53434f9af84c1;0x40dfca3fe1f23;0x1e15452aaa494;0x52af0bf2248de;0x7408c9605379d;0xa232ce386df] [0xb821426485035;0x8473bf7961960;0xbe541f65f7e70;0xa142d9651c8aa;0x83703e34dc369;0x1b38a0f9aa988;0xef545f3605ce1;0x390dce1bd978e;0xdb270c72f9243;0xc42ca792206] [0x1d5101bf65f9;0x41dce3afed044;0x364e71b3e5b55;0xe8e902827e1c1;0xaa90123997a79;0xeb7b9db479b8c;0xbb0ff303d1153;0x50625285d3604;0x8d0a12ae6530a;0x7611ffef22b]),[[0x99a798819c23c;0xae6c2764dfb05;0x452370630e24c;0xe2f84c82561aa;0xa8f036837b634;0x1a54fa4ad854f;0x1492a082d2910;0x734b98f62f539;0x387eccd066c8c;0x824363cdd40];[0x2fe9892e9499e;0x8dec77d5bb9ec;0xe92183206fa24;0x8746cc51c544e;0x21ef8f7f68541;0x4aad699a90258;0xcf4e880766279;0x925a2ec2675fc;0x99c9d02e64ff9;0x5c26b2a00ff];[0xe2acb77f1bbab;0x62b5d39bc9b50;0x68afff6d44499;0xcb45f7faf7afa;0x57f654af51b10;0x6ef5886bebc93;0xa45026ab2fcd4;0x9f202b01d8080;0xd0ebe67e9001f;0x4b8712975e9];[0xe2acb77f1bbab;0x62b5d39bc9b50;0x68afff6d44499;0xcb45f7faf7afa;0x57f654af51b10;0x6ef5886bebc93;0xa45026ab2fcd4;0x9f202b01d8080;0xd0ebe67e9001f;0x4b8712975e9];[0x6fc8ba42eef8a;0xba288914f1a45;0xb513cbbb95660;0xfe1d8cc4be0e2;0x592d0a3b1fe88;0xd00e190e8fae9;0x4ee2dd84d0e83;0xd219629b854eb;0xaa95d6e3ab0d;0xa0619f3f18d];[0xc020ceeba57dc;0xd3c3eec0c9fa6;0x340db764da3c3;0x89293f8d0736c;0xc8c28544486b8;0x7a9f508c0076e;0x806baa82953f5;0xc040cc26e2111;0x8f2072c02a4eb;0xbbc51360f72];[0x0;0x245ed923c342c;0xb3a89a25ff1ea;0xc96a0119dcad0;0xd7c4138e2c96c;0x695b4b15e78d7;0xe40ecd11058e9;0x2ef4476be4b7e;0xa1a7625f5ff33;0xadb86dc58c74e;0x2eb4c7c1892];[0x0;0xc1f86789f6bda;0x10c5fed011e6e;0xcfc3b926c0db4;0x10e04933dba1d;0x2aea06ccfc984;0xb018be6c5c7be;0x142e7a0e2cf8e;0x5f9879830103f;0xd779b7022644;0x266e793cb19];[0x0;0x1a6e8d2628313;0xba54181ea45ca;0x4eecd48355e1e;0x42d8d3d1d52e6;0xbd3114195ba05;0x467370df23be9;0xa0eb23d86971a;0x734ea64ca8351;0x7718cba02f487;0x29947970d55];[0x0;0x1a6e8d2628313;0xba54181ea45ca;0x4eecd48355e1e;0x42d8d3d1d52e6;0xbd3114195ba05;0x467370df23be9;0xa0eb23d86971a;0x734ea64ca8351;0x7718cba02f487;0x29947970d55];[0x0;0x388467337cbca;0x4d4f8078f90ef;0x1c168abb5741a;0x8a8a64fb03c7a;0x1388f9858e59a;0xc4228dc8f024e;0x57985cc6259ab;0xa9a94ad67aead;0x13b09da210d47;0x6e2b4fba71d];[0x0;0xe120d498d72ac;0x930c0dd0abd7e;0xef985c8d9d2af;0x50b43f851981b;0xa81d5bfc087f3;0x5271ba6a8b52c;0x9bdffe8fb237e;0x5fb26c2618ff1;0x270c1171b219;0xfb16e20d18];[0x0;0x318ffcb805dcc;0x6f48873d961db;0x3116cbd509b49;0x5bf547ca23def;0xfb8433527544c;0xd75fbf2d2c17d;0xeec6f364273d2;0xd5d6a5a1033e1;0x86e5b142fdcc1;0x3a62c6d3a12];[0x0;0x47666e9c86db;0x1fe89d94b0d0;0x37dbeb221d8ca;0xdb3e1df99ee59;0x5019e95d6847a;0x5ad2c0c9a5fd7;0x94c2aedc164ed;0x36bbfe954678b;0xdabaa530c9ba2;0xc4aa3685f7761];[0x0;0xb4456fcb69503;0xd809140696791;0xa3a89698a536d;0x177e7f6cbf079;0xf24f36941c0ff;0x30d809b296c6b;0x48b003e95097f;0x5929b305e2e4a;0x7a4d60bb1f50;0x7c4b30ca5ff]]);
 ((V [0x9b268114cb9e6;0x3184a9e70532a;0xe0bca39eb8b16;0x293d1699eff64;0xc4d79eb910081;0x337074f1a40d6;0x31c9d7928330c;0xd6aee171d75ea;0x79a281cb8b82a;0xdfc3bc5aee3] [0xb7fe3d219a904;0xc40b8a5787d8d;0x1310269ae666;0xa3955192e34b1;0x69167bb7bfc1b;0xf046bb5ea37cd;0xcce38c634d52e;0x3b92216ec467;0x567982db05e22;0xf2b119e7fd6] [0x8931868cb1639;0x95caad1babc1f;0x3b022c35afdf3;0xb6146e07e28a2;0xd5992d30ef789;0x563c4a8b84ffb;0x7ee037ae95af9;0xea8ad83050b8b;0x46b952982c196;0xa3c2c2975d1]),[[0xbcb23c29552f3;0x785cd3814c7aa;0xf48c4e9dfbd5b;0x36b30c688e6f3;0x25ce8f285ed93;0x8f9cb00c1b474;0x3d8981c8f4215;0xd9fa4dcbc1e3f;0x544fc969bcc5f;0xe58dd8fc3ee];[0x2a2c1e18fa97e;0xa710d05f6142a;0x889dc616002e0;0xc69fa883a2edd;0x52529d5d16c71;0x9c036baa2d672;0x831836eb9b426;0x61a02e1d2351;0xc88bc059e4416;0x770152d5221];[0x1d5101bf65f9;0x41dce3afed044;0x364e71b3e5b55;0xe8e902827e1c1;0xaa90123997a79;0xeb7b9db479b8c;0xbb0ff303d1153;0x50625285d3604;0x8d0a12ae6530a;0x7611ffef22b];[0x1d5101bf65f9;0x41dce3afed044;0x364e71b3e5b55;0xe8e902827e1c1;0xaa90123997a79;0xeb7b9db479b8c;0xbb0ff303d1153;0x50625285d3604;0x8d0a12ae6530a;0x7611ffef22b];[0xadf286e7a5434;0xc6701c61cb2e0;0x108cc4c1d4f46;0xae54d60019e79;0xade6fb9fe2723;0x7dcae36387e6;0x6ed6f34a619f;0x58a345cd2db9d;0xf6466560f766d;0x67a18912c20];[0x7c3997315554b;0xe0a0b3fd96149;0x781101542b399;0x184ad28389064;0xa46ba1bd3454e;0x9426bd73f4e8b;0x7c2ac7b6f5287;0xad76bd14a47b4;0xd2455af8ecda8;0xf5fc9c2600];[0x0;0x94af440094d3b;0xa92af4190fb78;0xda0520be43451;0x8ecf0348f8392;0xdc0876e667328;0xf8501d9b89608;0x6aab19db43a39;0x515e64fcce4d7;0xb984b2a2e30ef;0x4903b6a8aeb];[0x0;0x3aebfed0b613b;0x391a403c4d3d6;0xb8c630766432c;0xad811b1302df;0xe59792e1bc813;0x270d2d06deacc;0x727489403c7b2;0x16938f1861e0d;0x141045496b194;0x69df85ee677];[0x0;0xb4456fcb69503;0xd809140696791;0xa3a89698a536d;0x177e7f6cbf079;0xf24f36941c0ff;0x30d809b296c6b;0x48b003e95097f;0x5929b305e2e4a;0x7a4d60bb1f50;0x7c4b30ca5ff];[0x0;0xb4456fcb69503;0xd809140696791;0xa3a89698a536d;0x177e7f6cbf079;0xf24f36941c0ff;0x30d809b296c6b;0x48b003e95097f;0x5929b305e2e4a;0x7a4d60bb1f50;0x7c4b30ca5ff];[0x0;0xbc8a4f484f713;0xd8bdbc6287675;0x8633fe0ac49ea;0x71fc1f5fc7748;0x55cfd7396e7de;0xc76800fd2f504;0xaa6b0dceffd91;0x1bc5d336fcbdd;0x318aa27cf9872;0x96546861c99];[0x0;0x475faf8aba19f;0xf98f56ce045e7;0xad3ccf65d41e;0xbe5e12ee89b75;0xb2ae35188039f;0x4d60eccbb432a;0xeb88b47dcdb88;0x3533e5095814f;0x6bfb15c142f24;0x66c457149f5];[0x0;0x18306b8d1c398;0x31958ac8aa9b5;0xcde4dcdac5a37;0x792858e2c9a6f;0x204163fd4a23b;0xb9abda4ff9a06;0xd60710a998e77;0xa2890d7fd7128;0x88ec7457351c9;0x680524b8ff1];[0x0;0xbaab6ffc0c0c8;0xfa00e22ba8940;0xbd6fd0205273b;0xdb574ca6c0f96;0x59dace55593f9;0x3e2666dbf596c;0xde348b25eab50;0x1bdd8ef2cb756;0xd6f986e7e7342;0xf332f96da2aa1];[0x0;0x31d79fa72e9a9;0x545a638795a24;0xf7a327254cc5;0x8bdc49ad9c8e5;0x4cf4216da3206;0x321b93802d855;0x1ec9907a3af4f;0x2446bd3bf5719;0x2f67d5596ae4;0xd421d508149]]);
 ((V [0xe87630a762cdd;0x9ab13f6eaa671;0x9a2b5a49201b4;0x5665895651063;0xc33b860e0f29c;0xe5dbd8096ce71;0xf57630c588a09;0x4820363626ba4;0x63c053afc1336;0x9719ec321ca] [0xd6a0869c0c31e;0x20fbe6f8c61e3;0xe55b49a8e23f4;0x9defdde67e07f;0xc4a3e22a803c6;0xacdf595a6b451;0x59eda804ac54f;0x8f26a43d893aa;0x5e0def9461561;0xe016b182e7f] [0x4aa6129de9584;0x8fe2eb09f9321;0xb8c2f9eec027e;0x8f909e065634d;0x4fb6218791431;0xae83b250346ea;0x140c35d81099a;0x5bbe088bfcbcb;0xec68ba662e3a8;0x62acedfc586]),[[0xa6d6f45081786;0x8ead5b5c646d4;0x4486efc178f57;0xa90e00f4313f1;0x64b93cc583940;0xe0b66b723bfe6;0x6ca626642313;0x86a3e3128c16e;0x901d52bd57395;0xcd4083e4a26];[0xba5524b7650a4;0xd771a5bd82658;0x9ae8491a4e600;0x54c50e523e9b5;0x168d58f139202;0xae1e3b147ef15;0xd5a147df983fa;0x9a23a4a030a18;0x3802db45d37d4;0xea62d13b846];[0x8931868cb1639;0x95caad1babc1f;0x3b022c35afdf3;0xb6146e07e28a2;0xd5992d30ef789;0x563c4a8b84ffb;0x7ee037ae95af9;0xea8ad83050b8b;0x46b952982c196;0xa3c2c2975d1];[0x8931868cb1639;0x95caad1babc1f;0x3b022c35afdf3;0xb6146e07e28a2;0xd5992d30ef789;0x563c4a8b84ffb;0x7ee037ae95af9;0xea8ad83050b8b;0x46b952982c196;0xa3c2c2975d1];[0xc320c6108f79;0x563bb615bf872;0xf45bf9dad9b14;0xc2b9783218e0;0xe6164d3460942;0x4fe7e99934a15;0x7b3b052c6b4a7;0x4d9f22e3e019;0xfd33e8d09d8ff;0xa3b20109e1a];[0xae2318565c12c;0x8135efa7c2de6;0xa68c4f3f74aec;0x489976cf1d0d4;0x30770bbcd88c0;0x5e36517b4a4ff;0x5a6642b32cf53;0x9549b271f29ff;0x3acef27535ed5;0x46b0d031a2b];[0x0;0xc016ce5c3e666;0x40922cc38019b;0x8701534b28af9;0xd36438b686e7e;0x40f6179e62a17;0xe17284b750353;0x383750c3e7288;0x556f876bd6b92;0xfcebe37e1cfb1;0x6544f90ac84];[0x0;0x45eb96631363e;0xb9b8377220738;0x7479fd8f445d3;0x90edc2dd0700d;0xbc29e3d3484f2;0x5f1574535bf69;0x606e56228fba0;0xa4653cc23c1f3;0xdcde3699a153a;0x834c3ae2c64];[0x0;0x31d79fa72e9a9;0x545a638795a24;0xf7a327254cc5;0x8bdc49ad9c8e5;0x4cf4216da3206;0x321b93802d855;0x1ec9907a3af4f;0x2446bd3bf5719;0x2f67d5596ae4;0xd421d508149];[0x0;0x31d79fa72e9a9;0x545a638795a24;0xf7a327254cc5;0x8bdc49ad9c8e5;0x4cf4216da3206;0x321b93802d855;0x1ec9907a3af4f;0x2446bd3bf5719;0x2f67d5596ae4;0xd421d508149];[0x0;0x8e5e17b9eaeb1;0xa26223a63ea1e;0x7b20d0ea83ac6;0x33a434fa1352c;0xde5fd8c096982;0x7a4a5d1f70083;0xc65c528a4ac8b;0x130e270512b57;0xf3fce0cdee457;0xe6134f7f707];[0x0;0x52210ee7c1ac8;0x324544350c1d;0x43f7def979093;0x89ef18f081fc6;0xc012e08927ddd;0x6c8c5b5dcb758;0x24b70581724d2;0xe3203b459ad62;0x17574c2544f5c;0xc39697cee82];[0x0;0xa4f0aa7b10e09;0xc2440eac30231;0x5d246a6db8bc3;0xe2307b2a74a0b;0x53ae5a2328e6e;0xb6eee1ec3ea12;0x3923d6cac6d72;0x84b20a1f83253;0x15be8317eb63b;0x8a580551845];[0x0;0xdbc43cefb31bc;0x1dd3dee06694;0x1c08315a1af23;0x72b29d32e7125;0xba7cfc22910ed;0x45364e2d86fb7;0x7c5c3a8579eb7;0x881081e0823b2;0x99f1fa80a6bb7;0xe0299cf652a1a];[0x0;0xaf0500621c98e;0xed737400ea851;0x4a7a9a2fb614d;0xc77ab4b7d812a;0x83698d0a54573;0x974312f3c852f;0x899458aecbebe;0xe23a9f42fe760;0x206b9c6116721;0x844413ac55c]]);
 ((V [0x52011f5523aef;0x9e626f1beff68;0x6f1a301f93eb2;0xc0ccd08d27c4b;0xd21b0f15c510a;0xdab228a2a4ddf;0x3c2abfaffbcb9;0xce8114345b91b;0xa9d3cd284b311;0xcd87a3b909e] [0x553cb949645d8;0x5648d184d65cf;0x7a2f512d72dd4;0x50cf7a63b6677;0xc2d3347bd43c6;0xdd3147f2a0b93;0x205aca54f6f74;0x62f89478b0659;0x57ae6084bd1e;0x667bc32ba28] [0x9ee4a4c2bc1ff;0x7de432516af18;0x691703af04c98;0x8a36401269ee8;0x10056f5b95371;0x6dcc384152295;0x65466db282968;0xe2a776a0ad087;0x9324c869f84e0;0x6472ef13ac3]),[[0x163782d6a8cd3;0xbce994e251646;0xde0cf596d9a0d;0x52143b838e473;0xc7c717329341a;0xf4dc7650c8b7a;0x4a6cd6a7bca5a;0x16079a944635c;0xe0c15b8abe6c;0x542c02c9939];[0x7b47c3e072942;0xf7f9ce90ffa39;0xc88fe91dd5a19;0x8f0edff3431de;0x4faf624d000a9;0x2474e3976802c;0xe1cfcaab15916;0x268197a377a98;0xdd29c11fd5c3f;0xda9cccea114];[0x4aa6129de9584;0x8fe2eb09f9321;0xb8c2f9eec027e;0x8f909e065634d;0x4fb6218791431;0xae83b250346ea;0x140c35d81099a;0x5bbe088bfcbcb;0xec68ba662e3a8;0x62acedfc586];[0x4aa6129de9584;0x8fe2eb09f9321;0xb8c2f9eec027e;0x8f909e065634d;0x4fb6218791431;0xae83b250346ea;0x140c35d81099a;0x5bbe088bfcbcb;0xec68ba662e3a8;0x62acedfc586];[0x882a6dd37a09f;0x3e1370be5f65b;0xe431e0d5c8f0f;0xd32e8d5361a95;0xca47517117b32;0xfdd3ce4168b2e;0x6363d6a0bb563;0x96708333d7fd;0x7927d132e939;0x5b2f7ccd71c];[0xf31d560cf88a4;0xb9e65dd2a03dd;0xe45e08480cb0a;0xbbe0529fe1748;0x856810dbe8576;0x26a11555ff4fd;0x7e6bf40a5a3b2;0x1d1a8f703a29b;0xd597440ca7306;0x7f6d501c9f8];[0x0;0x50245a8bf202b;0x6803c3888edda;0xd8e981bfe66c2;0x197def2dce6aa;0x48a4563202576;0x4f62a8f32e8c6;0x7697478d3d23;0xeb9f42746e55d;0xd8cced11cd924;0x3d05524df90];[0x0;0x3ae5c507cb126;0x5a16924b6896f;0x38d942479c7b8;0x7e21134a9bd1a;0x73e7993a33dfb;0xa05ad497e9e1b;0xaf893fade889f;0x4056f7bd2f9d6;0x78491dbbe8ccd;0x2071b4e2c0e];[0x0;0xaf0500621c98e;0xed737400ea851;0x4a7a9a2fb614d;0xc77ab4b7d812a;0x83698d0a54573;0x974312f3c852f;0x899458aecbebe;0xe23a9f42fe760;0x206b9c6116721;0x844413ac55c];[0x0;0xaf0500621c98e;0xed737400ea851;0x4a7a9a2fb614d;0xc77ab4b7d812a;0x83698d0a54573;0x974312f3c852f;0x899458aecbebe;0xe23a9f42fe760;0x206b9c6116721;0x844413ac55c];[0x0;0x5d768a35135f3;0xccd4514159c42;0x5b377f84f32b6;0x1bdbdf08039ee;0xad78e93928391;0xd9e2408750e9a;0x309bbc197b373;0x12336a43a7db1;0x46f7b4367dc99;0xc427b8a8138];[0x0;0x8d3714f0f64b3;0xa9669b27aa7fd;0x30dc342a307b7;0xc7ae3ebec693c;0x3cf8727dcdc12;0x491d85fdb632e;0x705b756330f00;0xa155c34c576a5;0x221e79768c3c4;0x592f9743198];[0x0;0x36b75a4dfb753;0xa4f2b69477a9f;0x17e91973a62ff;0xb40478cf4fc9a;0x1e1ff3bedbd57;0xf6e0b4b5b52eb;0x8bd9e2f11af65;0xd394d10f19d94;0xb6ca9bbcd0496;0xaf836497598];[0x0;0x3a84f801e8b42;0xd9150416648c5;0xb128264bbb3a9;0xe2f0751dbd625;0x69f018a04d246;0x599a03766f56c;0xa4270d60b10a9;0x70cc93d9112b7;0xb2a4e8efc21bf;0x668abac527b84];[0x0;0xc8975fc995c0f;0xd7b3273fb265d;0xdf979af88496e;0xaf68130584198;0x48a4ab4670249;0x7516ed9d776ad;0xa2805660aa23e;0x7f69742093229;0x90d43565c8cb;0x52476818bdd]]);
 ((V [0x721d6e2172838;0xdbf7c17aee87;0x5d17bbb521637;0xf6838779dc0dc;0x9c9fa29cd2f0a;0x2e878b9d1ef63;0x103d5cb03c6a3;0x795bf22472b2e;0x7ef5024ac5adf;0x8ceeb81c91b] [0x87b722c84d066;0x409c69034ee39;0x3d91e22b1eae8;0xbb2a35816c7df;0x3bfa992f9eddb;0xc424b865239e1;0x7a11c031820b1;0xeba633e5e2458;0xd07f71f4ae545;0xbb99b7a0e14] [0x95aefcb4b6120;0x37a8c597adb29;0x8830579a40038;0x27ce319e4890;0x10c76eb472e85;0x6ba2512b7ad47;0x359f810264820;0x253601f915a0e;0x87e15763127c;0xdba659ededc]),[[0x5dc60ec1aecda;0x6a50b0984299c;0xd8607f78101cd;0xb5b53ff15ec40;0x7757b644e7570;0x75cfabd4b1a16;0x41cdc91d663ad;0x18cdb2744e234;0x20bec9a5db0fe;0x24c7cd4f73e];[0xd612c62e700f1;0xfae6ac550ad27;0x96e6c4269694d;0xfd755471e1ff5;0xa42b93e2c85f0;0x77eb196f5455e;0x2542d84e89dab;0x495397d1b74bc;0x176a5ef93b388;0x824e02e0b29];[0x9ee4a4c2bc1ff;0x7de432516af18;0x691703af04c98;0x8a36401269ee8;0x10056f5b95371;0x6dcc384152295;0x65466db282968;0xe2a776a0ad087;0x9324c869f84e0;0x6472ef13ac3];[0x9ee4a4c2bc1ff;0x7de432516af18;0x691703af04c98;0x8a36401269ee8;0x10056f5b95371;0x6dcc384152295;0x65466db282968;0xe2a776a0ad087;0x9324c869f84e0;0x6472ef13ac3];[0x6b62a2e6ff02d;0x3b22612fb713d;0x240f66d98df6c;0x2ad06a0eac78b;0x3b5b2a27ad45f;0x62855cb0e6e06;0xd3eb51e912595;0x79170c0cae339;0xd99f42e9a586b;0xca87e9ca3d6];[0x6ab0234770e8c;0xbfc44b2553bea;0x72d75d4d089e1;0xd2a4ea633586a;0x68d069bb1b191;0x1565bcbe6d758;0x5157866577816;0xd03c8bc509182;0x3dcb1c0f95b1c;0xb7c61916752];[0x0;0x99f6fea634b7a;0xb472877fcab04;0x896ef89a9f701;0x424009ead6d9c;0x9d7a1db2b42aa;0x51993b48ad689;0x8bdf2869fb534;0x1345d0ab24644;0x80da4404e8955;0x3e1e13ba9ba];[0x0;0x667ee5a29cc23;0x1ab19c3bfc600;0x5077e0a1e3ba5;0x19feb6d9f0ad2;0xa06e731c02258;0xd5cc5eec510b;0xa60a9be53f471;0x9d202f097f01f;0x5c70f7be0c3c0;0xe6e8f85d2e];[0x0;0xc8975fc995c0f;0xd7b3273fb265d;0xdf979af88496e;0xaf68130584198;0x48a4ab4670249;0x7516ed9d776ad;0xa2805660aa23e;0x7f69742093229;0x90d43565c8cb;0x52476818bdd];[0x0;0xc8975fc995c0f;0xd7b3273fb265d;0xdf979af88496e;0xaf68130584198;0x48a4ab4670249;0x7516ed9d776ad;0xa2805660aa23e;0x7f69742093229;0x90d43565c8cb;0x52476818bdd];[0x0;0xcf4a7a7257555;0x62c53c148567c;0x5a2724aaacd26;0xece5cec3d718;0xc78a41444e258;0xc99e4307afde1;0x2f7e9a684db08;0x155584a3ef415;0x7ee32ba525131;0x2906db5be63];[0x0;0xb409acae1c2c3;0x990afc5c58fb1;0x48e83de5db7a6;0x19c3bc1616ac4;0x23c2e5d7d8022;0x1aae3fad1795f;0x7735e1d0ed072;0xbbe7db0cbc322;0xf5da559039ace;0xa50284146fb];[0x0;0x87810e2d19f7e;0x7ca3a1d54c03a;0x785f29d47db4b;0x80d0e5265896e;0x31ad37209d300;0xd4c35d588ec0d;0xaaeae387a7f7d;0xeb5bff6a7e258;0x3304015f92a07;0x47bc2bd02b5];[0x0;0xb10d3f03bccae;0x359d46157c088;0x635d27e74a147;0x93b2c4a543549;0x2c78828def9bd;0xa963c790313e4;0x672664aa9d252;0x2ffe7a1957788;0xbd2596e7a457e;0xbbf5d41e50ac1];[0x0;0xd9fad23c87150;0x46ee0bbb07ae5;0xa259b772de966;0xf8ca414874513;0x9535f29f4751e;0xcbc42c221476b;0xec5df15c2eed6;0x6fe90ddd2d1f1;0xc28c42ff8ba6b;0x674700401e5]]);
 ((V [0x1a5951ff1b123;0x682d414355f92;0xebfbbae805625;0x124ba51933452;0x5bffa5bab6d5b;0xfa0ed8d80016d;0x74c3f578f6676;0x37253f2663005;0x2e555e6878cb5;0xb1bb61704d1] [0x1506a8916d9c3;0xb3de73b0ead17;0x36f185e843270;0xe815393f3fdde;0xd4fd83393b159;0xb2edb368e4c7e;0xeceed6ab42a86;0x53752bc4b7d53;0x4e8f8b67126b6;0x9a4861858d3] [0xb1bcad8ffc86;0xb7b6ef47859ea;0xd93eff8652211;0xe5706cb97651b;0xc2b868eb59581;0xd1ca836c2efcf;0x6472b38eaf0d1;0xbdd481de0c9e6;0xd0cb040ed9415;0xd3ee8a89705]),[[0xee02b8c5dac71;0xedccb040da491;0x3004e54e05463;0x109569fb9d592;0x711a001075ae5;0xf6b5e0606c1e6;0x2fef488cda1a8;0x8adc4f002fe9b;0x6c711eeb7d760;0xe934b365265];[0x839020150e3c6;0x764c71ea6947f;0x3bcb95bb80b90;0xc8837b075ce74;0xb515193603567;0x3cfc50e4dfd2b;0x667ebe3829150;0x3427d07923e7b;0x2884c393a1bff;0x7cbcc5b1c32];[0x95aefcb4b6120;0x37a8c597adb29;0x8830579a40038;0x27ce319e4890;0x10c76eb472e85;0x6ba2512b7ad47;0x359f810264820;0x253601f915a0e;0x87e15763127c;0xdba659ededc];[0x95aefcb4b6120;0x37a8c597adb29;0x8830579a40038;0x27ce319e4890;0x10c76eb472e85;0x6ba2512b7ad47;0x359f810264820;0x253601f915a0e;0x87e15763127c;0xdba659ededc];[0x2becf3cb0f06;0x7eff36bb70b52;0x8e75e06e32595;0x6b749a5e71842;0xbdb1499072c8d;0xa568a73393ef6;0x7213b41c6cb7;0x6f67d5493a0b9;0x2f540b2392fd2;0xfcc8c3efb3c];[0x80d150d85d288;0xf74d3b2ef892d;0xad55b54d4e5fa;0x5d0ee0a8eb631;0xf763cfa5908da;0x9793a9b14be34;0x5f5d82f662498;0xc4bffb2fe9dc2;0xf930b8700ec2c;0x7ff401c20f5];[0x0;0x2e6076ea1d1f9;0x1b83677d9902a;0xad2821b8182b4;0xf60eae2a68f56;0xb512f8d9560e5;0xa163c363dbb43;0x9896b4a499564;0x674f6bae498b0;0x52fdaecf0a3ee;0x87d4c41a281];[0x0;0x5ad7a3d90f1d6;0x21fd85ed47b2e;0xbf7233b5187e;0xd50ac08d43637;0x5282bec779b75;0x8a312f14d44fa;0x21366cdf99ec3;0x125942c186486;0x84ed5845dbbc;0xc8179f8fec2];[0x0;0xd9fad23c87150;0x46ee0bbb07ae5;0xa259b772de966;0xf8ca414874513;0x9535f29f4751e;0xcbc42c221476b;0xec5df15c2eed6;0x6fe90ddd2d1f1;0xc28c42ff8ba6b;0x674700401e5];[0x0;0xd9fad23c87150;0x46ee0bbb07ae5;0xa259b772de966;0xf8ca414874513;0x9535f29f4751e;0xcbc42c221476b;0xec5df15c2eed6;0x6fe90ddd2d1f1;0xc28c42ff8ba6b;0x674700401e5];[0x0;0xfc231bbc17172;0x4e5f77135c5c3;0xf607bb05dc3ed;0x5f0cb8b3bf348;0x19cee84c7e51b;0xf43ac75169505;0x69126bd95f12b;0x952af720627af;0xb3eed1510954c;0x8979ee920b2];[0x0;0xab1ee295bd888;0xb48faa9fcc9a4;0x417641653715e;0x1e7a5eb699b26;0xb1ff40fb35db4;0x7c12a1f5c248f;0xf30e7df256d8c;0xfa6dc210a70ae;0x934693c52235d;0x4d95f7fa18e];[0x0;0x21ca447108363;0xde5d2b5542631;0xf3a9225416316;0x5220d3483d10f;0xde0d3827c9c6f;0xa6e3190fc105f;0x68780e28c5912;0xa3fb233bc9c91;0x13fa6ce09e68f;0x5699d20e8fd];[0x0;0xa231d6bf5f4b7;0x9d364c78205b4;0xbd70fa4003ed5;0xaf4aff2a1fadd;0x4b5f38b06870;0x813634d8f0ff;0x3d0fcd5ab5bde;0x234b6a6bc2923;0x368f12da182b3;0x9a977d13899ef];[0x0;0x9e31c59511ec5;0x53a8ddff9cb7e;0x98751bcc5a8fe;0xbbfd809a2fb0e;0x864d020e9b23b;0xf7abb55869393;0x32e539fdd8ca1;0xa56cadf410b36;0x1284b824e1365;0x6b1cf905ae4]]);
 ((V [0x7e9aa1b1af5b6;0x6bfc77ce6d029;0x2574a4ae85e9c;0xc7984f8c3f402;0x844e1d2659184;0xddf9856ac01fe;0x7324295da87a8;0xcf5725fad7241;0x15f6dd706a7d9;0x11a55f71fec] [0xe9bd4b31e464e;0xfea8a3c135e2e;0x2df9c883034;0x69b534f1e8db9;0x4b485a83fd032;0x2b38b7600650a;0x5a6a7bc23f970;0x50dce8cc7be90;0x4524a7fbffa59;0xf8f80d2c724] [0xe390d18d24532;0xcb890aab661be;0x91ca0c850929f;0xfbf855359c62c;0xa84209bbbaef1;0xe2343ec011149;0x4639153885a87;0x721614148d6;0x32e2f52e2553d;0x486c9cb8621]),[[0xa76417bc14abd;0xff3139e0a2011;0xd44a2d331c917;0xedd06bb3ce101;0x9136335c85e30;0xfd8d31a8f9209;0x69de690558764;0xbcd0f8f6b3987;0x1835ccc5f458b;0xf9055ed906e];[0xccde4969a8571;0xad540a09997e;0x9e4052b334152;0x28b5de6799e05;0x995b63a3af865;0x99148f029da77;0x20c5042934eae;0xea4ff2cf16644;0x5e6f84db97b17;0xe8a33cbe5f9];[0xb1bcad8ffc86;0xb7b6ef47859ea;0xd93eff8652211;0xe5706cb97651b;0xc2b868eb59581;0xd1ca836c2efcf;0x6472b38eaf0d1;0xbdd481de0c9e6;0xd0cb040ed9415;0xd3ee8a89705];[0xb1bcad8ffc86;0xb7b6ef47859ea;0xd93eff8652211;0xe5706cb97651b;0xc2b868eb59581;0xd1ca836c2efcf;0x6472b38eaf0d1;0xbdd481de0c9e6;0xd0cb040ed9415;0xd3ee8a89705];[0xdce51c34e05a;0xe4697de84b59f;0x1f56968786aff;0x6fa8e11ae8837;0x9920f606ba250;0x7c4cf4add6535;0x341fbe0e39b19;0xaac60c996f892;0xfdb52a03d729f;0xcff15d39027];[0xbf0ff7a65a518;0x266bc2b84e3df;0x7ee9bc2bad652;0xb90cfd4cb15ce;0x3a6d9cf5614;0x1cc79a54c7542;0xeca5461afb395;0x3f89e635a6db1;0x60ba5ad7c0878;0x18b1df855d1];[0x0;0xb3c922f3ad5c5;0x591e3ffc9c040;0x6652110b88698;0x191ca91ff8933;0x9bb6929eae095;0x14491e1ce11b0;0x8eeb1ea01a267;0x9f7316617c614;0x6aac9353b9403;0x830eed8f23c];[0x0;0xea193ce17129b;0xb7d2dae0fc0eb;0x5f427ebe17562;0x368f0f5fe5d39;0xb2a7e8b0c108e;0x6b6d73bc4a0a3;0x11cd8933eb81a;0x7fe796a81687d;0xde191f75dd661;0xce2776eda4b];[0x0;0x9e31c59511ec5;0x53a8ddff9cb7e;0x98751bcc5a8fe;0xbbfd809a2fb0e;0x864d020e9b23b;0xf7abb55869393;0x32e539fdd8ca1;0xa56cadf410b36;0x1284b824e1365;0x6b1cf905ae4];[0x0;0x9e31c59511ec5;0x53a8ddff9cb7e;0x98751bcc5a8fe;0xbbfd809a2fb0e;0x864d020e9b23b;0xf7abb55869393;0x32e539fdd8ca1;0xa56cadf410b36;0x1284b824e1365;0x6b1cf905ae4];[0x0;0xbf86fb6537059;0xb7af3bd09398c;0x1938bcc5115ae;0x7ec0e9e49905d;0x9d5b98c74b200;0xd687cd82b935d;0xc9fe575da2c1b;0xe5e6ce2e742a0;0x990bc66d0a279;0x5cfb29cbae2];[0x0;0x848f9c75080c7;0xc4cd446c566fe;0xb1194a9ecd40d;0x9d4b70338b8de;0x7514d28e99564;0xbc068aeba05d5;0xaa869a85174ce;0x5071450e056d1;0xb0667adce5dd1;0x7b64a5e4c9b];[0x0;0xb2addf7d30000;0x90f9bea9e498a;0xf6bd38e1e6b8f;0x5b919c5884a2;0x6c2448101e4c5;0xbf25ad5f3aa91;0x76e554971cd30;0x9c87a804ae0a2;0x6b5833fe3f43f;0x10091efaf62];[0x0;0xc129303a849bf;0x9485b643fc8d4;0x3a040a8559f3f;0x5c41190439411;0xef41e9ef7f16;0x11b7826343a56;0x13d21ddb99ef5;0x1397e2136c1fa;0x5e90e0386eb5d;0xf90ec5acaac39];[0x0;0xd9c7c3b9329ae;0x530009a5f4e8d;0xc5e58cf449607;0x679bac042b9a7;0xf69540c75acf7;0x765c24254437b;0xbcb18f1f1cbfc;0x29a275586ea43;0xfab68aeb3e441;0x11294d935b5]]);
 ((V [0x55a40a8f80759;0xf1e2ec0baab78;0x20e81f4487d9b;0x768892b77bee5;0x487bdd47d10c0;0x372db0b11f12b;0x7fbe3a5c8e445;0xd399cb99e0e34;0xa66b6f8f40e89;0xabe3ced18a7] [0x17f54764351ae;0x65ed034e47ee7;0xb5a7ed138e752;0x78ea32f11ae29;0xfb47baa304da0;0xce62b570b566a;0xfb49a20af2301;0x78dc518817c17;0xfa632c9a495d0;0x48e91aaaf59] [0x25b692cc69d21;0x5fb261e7b195b;0x1ef0d275c168f;0x38e9d9c9f33f9;0xdbb96951de2f2;0x6d1a042f856d5;0x82deb239167d5;0xb61f39d1f73d3;0x57de5c70558f5;0x1ace2de8f5]),[[0xfdda8bd06bf5f;0x509852b70060d;0x7b2371d4a7bf3;0x3fe1f88b3f67e;0xa58c2fe0c49e9;0xd79155502d9eb;0x27a4b0a246c9;0xfafc9a2664ae0;0x213de11f5d58;0x9c79c64454a];[0xa6e6349fc4b66;0x2cdabad6340b1;0x5137e20fdae04;0xf3ccbba5a51ff;0x1ed3b96ac268f;0x65b215eaba066;0x6794eae8d2e98;0xa04007068a2bc;0xa0b88ca1bd910;0x3297b9988b];[0xe390d18d24532;0xcb890aab661be;0x91ca0c850929f;0xfbf855359c62c;0xa84209bbbaef1;0xe2343ec011149;0x4639153885a87;0x721614148d6;0x32e2f52e2553d;0x486c9cb8621];[0xe390d18d24532;0xcb890aab661be;0x91ca0c850929f;0xfbf855359c62c;0xa84209bbbaef1;0xe2343ec011149;0x4639153885a87;0x721614148d6;0x32e2f52e2553d;0x486c9cb8621];[0xdd10b690ee4a;0x4cbbf8441facb;0x600d20cf8b6d5;0xd6ec6fcec268f;0xb9779b4be6e61;0x5e5b321b7c07f;0x6fe8cfcc83e75;0x300e47055af93;0xc9abb2f1ce40f;0xc58ced02aaa];[0x99152936b5ae4;0xe01ec292145e6;0xf12ac1404f72e;0x1ce04bd6e2b6f;0x655c1e1edb82e;0x756e3cf3dfe6;0xf7ac1b1c4f023;0x7031c0012f328;0xd70cd9afef501;0x3d9c8e96de0];[0x0;0x7f996e9c527b7;0x78a1b7f0cd546;0xafa8640261598;0x4bfd156d9d5c;0x49bb818bfb355;0x1ad1a86f6f221;0x8c24f135b76fe;0x751c869fbaaed;0xebc9921c68aca;0x2cc97cb53a2];[0x0;0x3318867c6ee98;0x842c09f0f4232;0x1280623abcc6;0x5aa00521f897c;0xc3b1daa03dd32;0xe97031e6586d2;0xb83539ea995a8;0x6e3fd8cfa4b24;0xb38c082e2009e;0x2c44a2edc4e];[0x0;0xd9c7c3b9329ae;0x530009a5f4e8d;0xc5e58cf449607;0x679bac042b9a7;0xf69540c75acf7;0x765c24254437b;0xbcb18f1f1cbfc;0x29a275586ea43;0xfab68aeb3e441;0x11294d935b5];[0x0;0xd9c7c3b9329ae;0x530009a5f4e8d;0xc5e58cf449607;0x679bac042b9a7;0xf69540c75acf7;0x765c24254437b;0xbcb18f1f1cbfc;0x29a275586ea43;0xfab68aeb3e441;0x11294d935b5];[0x0;0xba8a90756ab6;0xcd298c98dff4f;0xb19c0ee8af5a0;0xe47154ea4a036;0x32f33ae6d1ec;0x19a232b4f358b;0xbcc4eb9bcaf27;0xaef278731a6e0;0xf4f2232b43f1d;0xf22189dfa42];[0x0;0xa7e884b4b6980;0x5cf997f9399ff;0xcdf9c83a7fac3;0xf586867665fd6;0x93a125b9b8e9c;0xffffdfa27517c;0x8f7b6c8096c65;0xea4d1630dc22;0xde1c8033420dd;0x1376181505];[0x0;0xc6780a349d33d;0xe633f12117e94;0x25bad7d01e654;0x15369c6e4e05b;0x4bfb1251971b6;0x7b571703d5fe1;0x1aa7a90a162dd;0x128dab5f3402a;0x1d6b56326fff6;0x21f85e61f8];[0x0;0x4047d97a18e19;0xe6a68a39a0c56;0x24ba279268e66;0x82d4677a273a9;0xa744c0c3ddf30;0xa9d5b40f94a72;0xd807a0d529edb;0x2f64681746a96;0x1bc768a37cad2;0x49311d39c794f];[0x0;0x5d9f4f9a886bb;0xa99786dca7d76;0xdf0c4a5471120;0x94dbb06376a91;0x5d3e3182993e8;0x2adbcd5e6ada8;0x381c5b8d8ca80;0x27eee4b2ba24;0xe4c8525eecff8;0x30f4966a18d]]);
 ((V [0x228cb45417510;0xec6ec7eabbeb6;0x984df50f98090;0xd14b904412e52;0x1007e07cbc547;0xe83d7bfabb786;0xc348dc58ef92d;0x97143a895a9cf;0x43ff15e451743;0xfe24321b1a1] [0xf3bb9203b7981;0x4b6f79d42dcb9;0x5cd73dd8a5533;0x5192eb2e00159;0xd5dc5c52b6bf2;0xe6d798c379619;0x5ab079843d000;0x842175341777d;0x583b60a819a7;0x9e728a9ea87] [0xceaebcc7f61ab;0xa66b6f0c77e5;0x9f51d46d9bf95;0x31097f38e56e;0x9fc4980bffb6c;0xc9db6bd92d7b4;0xd8000fbc4800d;0x54948db31708d;0x2947890c33e60;0x5b8813ae48c]),[[0xe956a99d8ffe5;0xd36859d5cf38b;0x56948b724a816;0x1067987379f19;0x370f374d3cf4b;0xf9d5e4594aac1;0x775c4f7df59cd;0xb9494becf6690;0x17434b343181c;0x6be6a37b901];[0x19c32f05d252c;0xba08899a22580;0x572f8c8adcff9;0x63bab936d3f77;0x5bc572d79c951;0x7b5d2816edabc;0x52bf4a40c2814;0x5d853df84a541;0x47edd255dc074;0xadfed834e73];[0x25b692cc69d21;0x5fb261e7b195b;0x1ef0d275c168f;0x38e9d9c9f33f9;0xdbb96951de2f2;0x6d1a042f856d5;0x82deb239167d5;0xb61f39d1f73d3;0x57de5c70558f5;0x1ace2de8f5];[0x25b692cc69d21;0x5fb261e7b195b;0x1ef0d275c168f;0x38e9d9c9f33f9;0xdbb96951de2f2;0x6d1a042f856d5;0x82deb239167d5;0xb61f39d1f73d3;0x57de5c70558f5;0x1ace2de8f5];[0x8f48d9765eebc;0xb067a7b45a720;0x80d97a05852c4;0xc02ca868e3a36;0xc41e35148288c;0xd13183d2b83fb;0x48982dd01d54e;0xe9ebacce22109;0xe0ec9aacc2773;0xa7658997c33];[0x8a7a558f73671;0x9a0e1e5c7e5f;0xd656128557d35;0xa38e10cdf0540;0x97a73dc31a0c4;0xaa2ba444356c0;0xa271c70a52c5;0x7399912a28438;0x670137a919900;0x6994e9d23f];[0x0;0x4fc07a93f913d;0x37a1eddf4301;0x2ef8c6598135d;0x82f85ee23ef60;0xf1fff657cfc06;0x8e383a40215f1;0x8b433d03d4232;0x4d656665ce5ef;0xe6a1904ecc48d;0x10938fc181];[0x0;0x395f79d5b08df;0x9558b6bb4c05c;0x72236e85ea1cd;0x48ee9973d70bd;0x7b97fcaca4082;0x43582f9009003;0x6b36e6c0dffb5;0x81922b6b18e83;0x3957b645bb2cb;0xb4c538bd5];[0x0;0x5d9f4f9a886bb;0xa99786dca7d76;0xdf0c4a5471120;0x94dbb06376a91;0x5d3e3182993e8;0x2adbcd5e6ada8;0x381c5b8d8ca80;0x27eee4b2ba24;0xe4c8525eecff8;0x30f4966a18d];[0x0;0x5d9f4f9a886bb;0xa99786dca7d76;0xdf0c4a5471120;0x94dbb06376a91;0x5d3e3182993e8;0x2adbcd5e6ada8;0x381c5b8d8ca80;0x27eee4b2ba24;0xe4c8525eecff8;0x30f4966a18d];[0x0;0x32767a4d0e038;0x952fb037bc361;0x7fcd6fbeddf47;0xf2823e01b203f;0xef12dd340b04;0xefb3a21b5670a;0x89d45449eb7a1;0x4b6ea91e31f89;0x41628ab55a5f4;0x14c3f341b82];[0x0;0x443742a6d0580;0x7842870c80c5d;0x4ee43088805b7;0xff45d4ad4daac;0x94ef9c8b6aeb4;0x2b5335be8c3a7;0xff1495e534808;0x8304ffc986524;0x100aafd25ecec;0x736a21045db];[0x0;0x12e8592ae202;0x1a14b5f77c222;0x43b601ebec93b;0x5bec6be0ab6a0;0x2834b727c112d;0x76e85feed5128;0x35173b3ebc742;0x414dab96ddf42;0xb6151ed4b5555;0xacbb746916a];[0x0;0x1ef673f82f726;0x2be4509930f6f;0xab16ac8484220;0x5e8034a2d5e89;0x775dbbb8759f8;0x3eb9038a99a90;0xca31e1f76f04d;0x18e0603f9cd65;0x5a94cc9ce4e5d;0x9ea54c0622f43];[0x0;0x949b8ada87d73;0xe0a323717c9b4;0x33de4c9235849;0x7edcdefef470a;0xd9a5e5efa2a9a;0x223ca982cb20e;0x5228dd91e4c4b;0xb9e0c42b27760;0xaed938d2036f4;0x9d4c0ca80eb]]);
 ((V [0xa6ce127579e4c;0x604ce576b767b;0xbbd00e02d951e;0xcc327e1deb59e;0x3713cdd75a8b3;0x87eea652fca76;0x6cdc1fd820a5d;0x472a4ea4275f1;0x4d2fe77baf4cb;0x1e1795381c3] [0x69d748e1fdd0d;0x1bedcfef83a4d;0xa3997ce4bfaa4;0xdd65f5acf2ed5;0x80ea03f516387;0x3ca8f7cad83ee;0x9a5985956ea2e;0x26a17975ce73d;0x7f4b53c4d4b70;0xafe568ef33d] [0xec0bba8b1c1e2;0x9239017420493;0xa9c1bc6bae114;0x3f61137a5f043;0xde6ff1e86a28e;0x1b5f658698ef8;0xbbdadefbf5cbd;0x2c67a46409591;0xdb99bfe1ad7a2;0x6092ba148b5]),[[0xa83d138690bed;0x56106dbcd365;0x4762ed7dfe906;0x7d4244ce9213b;0xda2cbe245bafb;0xa04d4a7acc79e;0xc5a7c90175a3c;0x4f8856d025558;0x4d073194b4094;0x21b7129c14a];[0x57d3c8de14748;0xca717dbbd4f56;0x4ebea78ad2cea;0x48ddfe46ba18f;0x551c7b0600522;0x898cec3d675a1;0x2ddef6b96f3ad;0xdb9980afc06b1;0x761ff6039652a;0x6aa2a48365f];[0xceaebcc7f61ab;0xa66b6f0c77e5;0x9f51d46d9bf95;0x31097f38e56e;0x9fc4980bffb6c;0xc9db6bd92d7b4;0xd8000fbc4800d;0x54948db31708d;0x2947890c33e60;0x5b8813ae48c];[0xceaebcc7f61ab;0xa66b6f0c77e5;0x9f51d46d9bf95;0x31097f38e56e;0x9fc4980bffb6c;0xc9db6bd92d7b4;0xd8000fbc4800d;0x54948db31708d;0x2947890c33e60;0x5b8813ae48c];[0x4e4a13e977bb3;0x5f652c68a2e09;0x3e4d1eaa6195c;0xfdab5e784017f;0xbc0b235f65fec;0x8130b8189976a;0x879272b967196;0x51273d208011d;0xdb1d89b33e2de;0x779554de2d4];[0x989b4f49c95d;0x6b0c51533214d;0x107188e07138e;0x4b329fce7a010;0x991157a69a535;0x85c3424cde36;0xa64c840008217;0x8a72438f40593;0x9b026c505824c;0xf30d4fa538a];[0x0;0xe3d6279947765;0x1e184ea9b06e9;0x948b78dc4aaf1;0x9daf0094dbbb4;0x74c330b0f38b1;0xd986e32892995;0xf85a40c825b78;0x8ad343736450e;0xa0b94d2aa0e72;0x389a5c9621c];[0x0;0x7f440c20b86c1;0xd38c08639aa79;0xbf3abfb1a7f1b;0xb1c523275e02a;0x794681e6f37eb;0x97ee3e51d3dc8;0x381342b69d687;0x18e80cb1ded19;0x6e6cba25b0ecc;0xc0dff76e8a];[0x0;0x949b8ada87d73;0xe0a323717c9b4;0x33de4c9235849;0x7edcdefef470a;0xd9a5e5efa2a9a;0x223ca982cb20e;0x5228dd91e4c4b;0xb9e0c42b27760;0xaed938d2036f4;0x9d4c0ca80eb];[0x0;0x949b8ada87d73;0xe0a323717c9b4;0x33de4c9235849;0x7edcdefef470a;0xd9a5e5efa2a9a;0x223ca982cb20e;0x5228dd91e4c4b;0xb9e0c42b27760;0xaed938d2036f4;0x9d4c0ca80eb];[0x0;0x21c4c7b2b6642;0x4f2ba3590070a;0x1a1effc3b8c89;0x692786bd92148;0xccd7ad454cff1;0xe48f0efa4367f;0xedbb9e52b4c69;0x6cad54af6ea2a;0x820e558d227fd;0x6211965b984];[0x0;0xdf2519c220745;0x337d87a97b9bf;0xbaa20078aad1a;0xe2a7a1b067670;0x269a02ecb8cfe;0x44952041b0f38;0x9644c01019832;0x9f4d649ccb129;0xe1da35edb81ec;0xfc4bd88be92];[0x0;0x2312c6a3860fa;0x47ff67fa189b2;0x7157bb379694f;0xf122b2f0ecd77;0x46cf60d4b0110;0x2f586a5371e47;0x11011921cf7f6;0xce8ad6d73fe11;0x568b83969b579;0xc88e20c36d];[0x0;0x7914bd243f085;0x4d1f41d9c1bb6;0xf1d0290f7173a;0x319b489615ffa;0xcfd0992274162;0x3f86f622794a2;0x3c79e8be3980d;0x22253d180e0ce;0x90443c107654e;0xb04c099a7a594];[0x0;0x63f0e2a27c436;0x2796d41493648;0x17d6029ed5974;0xaeb2368603635;0x70254af770300;0xc330cb1c2933c;0xf6e38c9ece822;0xfa8e4985352de;0x487a0c43d12ac;0x14ad166f893]]);
 ((V [0xfe1c0dfa7ee99;0xbae6ff67c3c12;0x76f1c4b40cc4c;0x3e3cb4071d84d;0x96dd55a3b81b;0xd0d06a3a1a24d;0xc88139a350288;0x4afa034d6db46;0xc90bb27ab2e75;0xe34b8a2529d] [0x8511e893b026c;0x7a317613d6582;0xfa141716387f0;0x49fba0785f1a0;0x3b465c55d4bde;0x872b288650018;0x8d688b9153ac7;0x4e4c81d832ab9;0xcfbcf7eab4adb;0x4a310008bba] [0xca36af6c86fc;0x559760a15a257;0xe462e8b03e2c9;0xc1b8ed782911;0x351f459a1c6b1;0x5c39bc8946602;0x7b9ace5fce6e0;0x60463c328480d;0xcbf75c853ce36;0xba70d0aa063]),[[0x98e0725edb95e;0x39a233aaa83ea;0x7b7fa78f4bde2;0x3a455e3341f50;0x3c7428ea4ccb6;0xdd705501d4360;0x83cca6d1b4992;0x42c2ca380c772;0x238cad0342a55;0x707389ef2d1];[0x9ec4278725981;0x53ad2568666b1;0x486cba2a84bfe;0x3ec02739be769;0xedd4a405b9073;0x89c0f8fd8941;0x9b073f0080299;0x375e1025d4e4e;0x7e7bf4e20f5c0;0xf8ab024677f];[0xec0bba8b1c1e2;0x9239017420493;0xa9c1bc6bae114;0x3f61137a5f043;0xde6ff1e86a28e;0x1b5f658698ef8;0xbbdadefbf5cbd;0x2c67a46409591;0xdb99bfe1ad7a2;0x6092ba148b5];[0xec0bba8b1c1e2;0x9239017420493;0xa9c1bc6bae114;0x3f61137a5f043;0xde6ff1e86a28e;0x1b5f658698ef8;0xbbdadefbf5cbd;0x2c67a46409591;0xdb99bfe1ad7a2;0x6092ba148b5];[0x13f83ddda95d0;0x6ed086f833ec;0x884c105f4a4af;0x1bd64d81ecfd7;0x30731d9b43be1;0xc5cd02cbfc262;0x1fa336c97de31;0xf1bb3f957a666;0x11f218b0c0599;0xb8dc9ae4635];[0x8acbe9a97c3b2;0x4cc01cf8e32c5;0xc020a9cb3a74f;0x22e9d9b7d1791;0xbd61866a75492;0x42cf0cc3dc6df;0x7b64083702467;0x45a2d0905a7e8;0x6c89dc314f026;0x3fce676214a];[0x0;0x95983f76a06ae;0x1321c0383f9e5;0xc6a2a4f73bee1;0x8c44b6aa33a55;0x106c57c78be33;0xda99944a53c21;0x53fd6374957;0xd5c468ed845aa;0x204239542e68e;0x3bb87f6a38c];[0x0;0x653c980806ad;0xdb99b50e9b5fb;0xee5c7a06fc64e;0xe75650b73e888;0xe598287e6f272;0x8fc1ca3334dd0;0x302b0a9e47a5c;0x14c47c17e82a5;0x4fe85320b25e5;0x2a6bc75b53c];[0x0;0x63f0e2a27c436;0x2796d41493648;0x17d6029ed5974;0xaeb2368603635;0x70254af770300;0xc330cb1c2933c;0xf6e38c9ece822;0xfa8e4985352de;0x487a0c43d12ac;0x14ad166f893];[0x0;0x63f0e2a27c436;0x2796d41493648;0x17d6029ed5974;0xaeb2368603635;0x70254af770300;0xc330cb1c2933c;0xf6e38c9ece822;0xfa8e4985352de;0x487a0c43d12ac;0x14ad166f893];[0x0;0x2b1173036d05f;0xfa378c4dfabf2;0xedd9b260cd367;0x2007591d987a0;0x8523f37bf5cfe;0x19474dc600293;0x315d382baedc7;0xd96fece2c24a4;0x73a8ce33d7c7e;0x78db730befd];[0x0;0xfd89fb020de32;0xce84324d76779;0xd09a447652c35;0x32c78f1bea1f2;0xf47a64b2ba6c8;0x2075260f2901e;0xb8567ccd7ba6;0xb36c70af6f87a;0xbd013659d74b9;0x38989254da];[0x0;0x8469b887fc9a2;0x7c3ba3ab28496;0xef3bdd418b9a7;0x39d820f1a21a3;0x45071c8294b18;0xb065347cf63b0;0x1bafc2ca94b8a;0x4abff767b2ad4;0xebe3bb952b27;0xdcc9034e6fa];[0x0;0x218b0c4488a79;0x9146bb1155eb7;0x63a9c10529eaa;0x27e0edd0dcef8;0xb0d66bc9ac7f;0xf24e586084c1a;0xda7d280db560b;0x6293783586ec4;0x92781887c3f53;0x4a332001581ed];[0x0;0xbc193ebd24ff0;0xf725148951d52;0x702d8274dd0a5;0x838fc85c911fb;0x8ec684a6a6d76;0xbac4d46b7c964;0x4059244ffa08b;0x36f2aee8e1128;0x4da745db93ef7;0x41df576bf03]]);
 ((V [0x10f879aaf9267;0x223266316da67;0xe6923dd3e1854;0x978e1e3e54b6c;0x8a3345ac12c6e;0xbfba2a2def001;0xa545ed47bdf8a;0xe58f40e4564c7;0x35c55137ac569;0x74b2a4ec57d] [0xade00132768df;0x7d9e5744b501d;0xe6ca913a5f52b;0x8ce8c3556a9c1;0x15aa846f22ed3;0x5bbf0b1fec618;0xf7f141ff148d8;0xa44e2fccfa12f;0xdcd968881dd70;0x1ef28769440] [0x4a9f2e65f6207;0x347365f8c72d;0x42b64b9a73ee0;0xf4c73b7ff6207;0x2c0f2ee59da6e;0xbc5c169ae5f0f;0xa32f45dbb8c11;0x4c10585acfb3b;0x8ca6fa0285660;0x7d33cdbe224]),[[0x6b0ffce6d4789;0x2d614e61632cc;0x5e36783b2f932;0x7b71c32bd2963;0x49d9ba93e67c7;0xb12bec8d83b0e;0x60a4ad491eb44;0x3261afa1f2584;0xb8f3755b42b67;0xb0c1fb9c824];[0x68817a0fc1b73;0x757a60f863a4f;0x8b95c6759a733;0xf27476b9ababd;0x662aaca66c2dc;0x39c8eaa31040c;0x5f4a229e55dd7;0xc44f506a9ea37;0xca8eed7fbacf0;0x722c6ee9217];[0xca36af6c86fc;0x559760a15a257;0xe462e8b03e2c9;0xc1b8ed782911;0x351f459a1c6b1;0x5c39bc8946602;0x7b9ace5fce6e0;0x60463c328480d;0xcbf75c853ce36;0xba70d0aa063];[0xca36af6c86fc;0x559760a15a257;0xe462e8b03e2c9;0xc1b8ed782911;0x351f459a1c6b1;0x5c39bc8946602;0x7b9ace5fce6e0;0x60463c328480d;0xcbf75c853ce36;0xba70d0aa063];[0xe4d01c85ce35a;0x2e7962aa842e1;0xa02f391229e2a;0x1e986ea8aca47;0xd4e386f3d2c0b;0x141a61264b4f3;0x1d3afd65c9c1a;0x2f223bfdaa23a;0xe734ce8cf8d0c;0x100897a7b80];[0x83b15d89f381a;0x4700fe4ddf76d;0xeb668d6370909;0xd3dc0810ff075;0x914725b2996d1;0x25ae897cc4f18;0x420f25388c1bd;0x952d146cf47fd;0xe35a1ef2c1fe4;0x6223d741696];[0x0;0x43171c4ebff11;0xb261102827a6c;0xa1d39bfcdb643;0x79544efe46eb8;0x122e3df029f6d;0x23b39e4dd8e4a;0x133caf76fbbed;0x234db315e8982;0x72d33cc1cb1e5;0x734b6dba46e];[0x0;0x8f9e3cdc9a34f;0x66989e3ae276d;0x915cdb24ac33b;0xe7e6c4030b4d0;0xc3cf93a9b38ba;0xba97262f4bded;0xad5166051ca09;0x8b6c437e4cad5;0x2a4777873f364;0x80bad5c0ccb];[0x0;0xbc193ebd24ff0;0xf725148951d52;0x702d8274dd0a5;0x838fc85c911fb;0x8ec684a6a6d76;0xbac4d46b7c964;0x4059244ffa08b;0x36f2aee8e1128;0x4da745db93ef7;0x41df576bf03];[0x0;0xbc193ebd24ff0;0xf725148951d52;0x702d8274dd0a5;0x838fc85c911fb;0x8ec684a6a6d76;0xbac4d46b7c964;0x4059244ffa08b;0x36f2aee8e1128;0x4da745db93ef7;0x41df576bf03];[0x0;0xbe588ff952c1a;0x8064e6005b7f0;0x66b91ae889d37;0x776a4bb860484;0x727d01a4764db;0x464a0339482bf;0xe8fa6b90a8f75;0xd57de22a8e65d;0x7da189f0f6e95;0x15805d660fd];[0x0;0x4d1626a3c91f1;0xb07614854174;0x59da9ae90e166;0x3a824f56fb81b;0x27c037d7920b0;0x3b237401d245f;0xff142d205ee52;0x47774ba371dd0;0xfc66fa2a6d3f4;0xc9cf0d48248];[0x0;0x4fb3760673cac;0xb519f300d4414;0x6f5a2f685bc37;0xdcfdccd7e7de2;0xe18e3ae3308a7;0x537950b01d16e;0x5eba08b824370;0x971151bedf7a8;0x4bb16f8e995f4;0x340bceb4a07];[0x0;0xaa260c53d6edc;0x33ffef5165ee0;0x9548ad8494f4d;0xe8dbd655bad81;0x8eb6e4635afb3;0xac6f5ec210c04;0x58e0a894c50;0x23e8f01b5f2c4;0xcbccb9b99635a;0x1f03ac9148c67];[0x0;0x8982102a53cbe;0x8f525ce5f8cc2;0x49bf37d7e6add;0xf3c9878799db7;0x3518955882fc0;0xbe4e63009c5ce;0x90e5ddc76f253;0xfded3f492f9eb;0x9d07890632301;0xe1b7dedcaf]]);
 ((V [0x81cdc0243c488;0x39adb8ff8a9b1;0x22aef5de8d16a;0x739b4f311f274;0xd049859e39ae6;0x2d9e7733597fc;0x8c7cf46ea223f;0xb12e5373b7018;0xb1d968f9e45f1;0xad9b94a4817] [0xe6e45bd6c4438;0x600f7c8ff9fd;0x4402737bb6d79;0x1d54cca7a956e;0xe10709b51bb71;0xdf612b9906575;0xc5a79ea1675c0;0x77e99f76bf1c6;0x9313ecb66970d;0x3a6af037d6c] [0x9a013a3980b67;0x6eb440cab23be;0x570f3e0ca135;0x973b3cd29bbc6;0x1e858aab78ffd;0xdde4b0ec4201c;0x3bfd704f4a224;0x4bc87a14137aa;0x23ae698b129c;0xbc7aff2d7ba]),[[0x4b07e455b7409;0xe3ffaed46cdb4;0x42dab75f8d54f;0x6d9b0fce61a4a;0x93cfc879f2c63;0x4cc4983aed27b;0x6e2f4b1f233c0;0xc999c2357ec96;0xcb6d2f04f6a3f;0xc359ef4b782];[0x5edf768793c15;0x45a206a88b094;0x4b0eb42fd87af;0x2fc17a02a3897;0xb848d1edd31cd;0x632f52e612bf4;0x2589fe2f86f86;0x2951a0c878c55;0xb421ee7c8d59c;0xa80c8a28d77];[0x4a9f2e65f6207;0x347365f8c72d;0x42b64b9a73ee0;0xf4c73b7ff6207;0x2c0f2ee59da6e;0xbc5c169ae5f0f;0xa32f45dbb8c11;0x4c10585acfb3b;0x8ca6fa0285660;0x7d33cdbe224];[0x4a9f2e65f6207;0x347365f8c72d;0x42b64b9a73ee0;0xf4c73b7ff6207;0x2c0f2ee59da6e;0xbc5c169ae5f0f;0xa32f45dbb8c11;0x4c10585acfb3b;0x8ca6fa0285660;0x7d33cdbe224];[0x44b4bf94117c7;0x91383d49d5313;0x63670eb802642;0x5ab84bdb331a6;0x283b176bbc4d3;0xab3bfddac6cdd;0x5b5075a53b2b8;0x208bd99850625;0xf9ce3415ad84f;0x8c0845933a];[0x1a2ab6f38244f;0xb469c95eb5d81;0xe7a7a577d616c;0xd5092e27706f0;0x900dba8216cf9;0xb7f3550b4bf17;0xca39888a4bccd;0x8c5c7302862f;0xba53ba66dfd4d;0x9f4c05cfa3c];[0x0;0x1952ba20a01a1;0x79c5403f37123;0xd77e8fa90392a;0x589361a57e992;0xfb95dbd7f1dd;0xe0ed99f2bb6e0;0x392e87d65e7d0;0x5fc5eeade3b34;0x2b33317b80c4e;0x4d6cc9b821a];[0x0;0x1f3f4df511486;0x77a4c5ceee7e5;0x35cc60da119ff;0x4b22c3ac703ec;0xd7528800b314a;0xb157cebd7b101;0xd62a8bbd0fcca;0x571e02c6d74a6;0xf4cf9e32a4a9f;0x5f8a71c2a13];[0x0;0x8982102a53cbe;0x8f525ce5f8cc2;0x49bf37d7e6add;0xf3c9878799db7;0x3518955882fc0;0xbe4e63009c5ce;0x90e5ddc76f253;0xfded3f492f9eb;0x9d07890632301;0xe1b7dedcaf];[0x0;0x8982102a53cbe;0x8f525ce5f8cc2;0x49bf37d7e6add;0xf3c9878799db7;0x3518955882fc0;0xbe4e63009c5ce;0x90e5ddc76f253;0xfded3f492f9eb;0x9d07890632301;0xe1b7dedcaf];[0x0;0xe4be1412019b6;0x9af5909e20fed;0x147032ec294ad;0xca6ddcff64b56;0xe47905a2cb8b7;0xd9799de8eb2a9;0x3561f85479f86;0x8076b4b03b0d0;0x817576cd744d8;0x3bdbd80f69];[0x0;0xf40fd84bc5dce;0xbbd4cf5c2978f;0x1ca25fba27192;0x27626e26caffe;0x9bd443ae1180;0x1fd5818ae0b0;0x687b913bef58b;0xdf6188398c7ff;0x158525a16eeb6;0x3532621ff28];[0x0;0xa49dad2d1eb4e;0x2a298a07f8f29;0xbf9c1a5d78524;0x30ea42847903b;0x317cf9469fe93;0x85b351cfbb67b;0xd4de511cded8e;0x24e91c999c413;0x51e70046876;0x71f69a887d4];[0x0;0xa91faebb41cf;0x1051e025c9650;0x64e09857e86ed;0x995953ce773ea;0x3b4279a565fa4;0x5eea57e7e68a;0xa19f6b0ff61ba;0x45967f90a8769;0x8c391ba033322;0x3a7f021ddfc10];[0x0;0xf38e7420eeedf;0x197b2be61cda0;0xcc030c709d094;0xabf4d9a550e97;0x824ad88f185d4;0x1993e61a15528;0xbf8eaf9c5897a;0x8ba913e5974ab;0x329383089d7b0;0x279dc5008ae]]);
 ((V [0xb00b344fc946b;0xa03ad2ce5e378;0xac25699cb13b;0xafebd95f0f9c9;0x63e0aeb61484a;0x80f43982e1585;0xd4e109a18a88f;0x4c6607bce0e83;0xa46bf8031b015;0xd4ea00e4337] [0x70de22224936d;0xe921245b82d8;0xb511fcb7c031;0x1d111409c9eb5;0x7142d87788c88;0x3ba2c00c54cbe;0x6a5a291443847;0x559abc370da26;0x300b0c7a94f6c;0x929abcffa2d] [0x8971942f591a6;0x9b8f98439a771;0x4e816725dbd28;0x74960e73bff2c;0x1fca153312617;0xc4821ccb43607;0xf51c2f7eb226d;0x5ce161ac4e0a2;0xf9a885e857e9d;0xb41da9a043d]),[[0xafb7d5cab91a0;0x9c1a695ba7088;0x24c924431f76f;0xc4f4993d0df68;0xcbd7c143ec4d1;0x3ba4520e19859;0xbe0c2368a66da;0xe58c6cde2bb8d;0xed641085a4f10;0xc966a2182e3];[0x41efc36ae9968;0x878aa69f83b5d;0xce75c4ac5ecee;0x99e15513ebb5e;0xc3907835f145c;0xa8fbd36a134be;0x1490d3d542304;0x3367699ca2113;0xa060cfbd345c0;0xe837c45ab5];[0x9a013a3980b67;0x6eb440cab23be;0x570f3e0ca135;0x973b3cd29bbc6;0x1e858aab78ffd;0xdde4b0ec4201c;0x3bfd704f4a224;0x4bc87a14137aa;0x23ae698b129c;0xbc7aff2d7ba];[0x9a013a3980b67;0x6eb440cab23be;0x570f3e0ca135;0x973b3cd29bbc6;0x1e858aab78ffd;0xdde4b0ec4201c;0x3bfd704f4a224;0x4bc87a14137aa;0x23ae698b129c;0xbc7aff2d7ba];[0xab8da81608029;0x5449084a3249;0xad4649a75f5e;0x46493ebdf57a3;0x9f7fea89426d9;0xd73ce737027fe;0x39750c9ed78dc;0x307e50e2ba6f;0xe14011ab3c0fb;0x67ddc9eb3bd];[0x96621b54e1707;0x8246161ae0913;0xc3a16011e8d90;0x53981655f63bb;0x24108dacaed83;0xd1beec3310cc0;0xdb1bc7366aa27;0x305f848e766a3;0xbf20be11f84c5;0xa6a5b25a6f7];[0x0;0x19ca4fe08a1f0;0x1290eee7f81b1;0xb77da5d21270;0x21cfa34966861;0x85083be0e7b47;0xbb856579a2ba6;0x84d7f95bcb129;0xa79c66602331a;0x5fa8c14990397;0x748e5852946];[0x0;0x5b2d467209248;0x46b523cabac2a;0x1b17799b4afdf;0x7fceec034c367;0x8ae4d7d2d819d;0xc7a326a5c6f6e;0xe5a49871a676e;0xcc9385f6db478;0xf0fb3c1dfd2ad;0x944822b4053];[0x0;0xf38e7420eeedf;0x197b2be61cda0;0xcc030c709d094;0xabf4d9a550e97;0x824ad88f185d4;0x1993e61a15528;0xbf8eaf9c5897a;0x8ba913e5974ab;0x329383089d7b0;0x279dc5008ae];[0x0;0xf38e7420eeedf;0x197b2be61cda0;0xcc030c709d094;0xabf4d9a550e97;0x824ad88f185d4;0x1993e61a15528;0xbf8eaf9c5897a;0x8ba913e5974ab;0x329383089d7b0;0x279dc5008ae];[0x0;0x4ede7c5987f31;0x9f6a30cd33306;0x4b755ac362085;0x591d90728679f;0x79b139ce0f79e;0x7bfc57924a8cb;0x28eabc4833284;0x4cef574193116;0x9c7d47728d036;0xd54a1851cf];[0x0;0x78e7df3618ff;0xef5807893108b;0xe86bd55637de0;0xce6c6264c1bc9;0x80c7cf6b67197;0x402892bad546e;0x6934e712e7d54;0x8ea537174c064;0x3d07fd3df222f;0x75bba573ac8];[0x0;0x531f28a622743;0x46de996a839b5;0xe8f757a99150f;0xa35b2d36cb60c;0xb0326d142e8c8;0xed9966cc43062;0x6344fafcf3242;0x5c28a1c9504dc;0xafbc6ce4674ab;0xc122726399];[0x0;0x694a10298f251;0x9d59e0ddb07ae;0x89eaeef5c4706;0xff226aad4f8fb;0xc831e641dd4a3;0xcfb89ef5ae5a5;0x2669a4ae75ced;0x72ea8dfeb45c0;0xa279410dabf2f;0x932507f9f2eab];[0x0;0xc58ec69a03bcf;0xb6dbef01cd9bc;0x3604dfc6c3f0d;0x930937bb768ee;0x60941c7d25bc5;0xaad12968d3506;0xe03c41327c22a;0x6f1225a01a643;0xcbf0704a9b1e0;0x79ee267723c]]);
 ((V [0xfb9bf774a72eb;0xae571b8df1186;0x30994149803fe;0x9694a1cd17a1c;0xd9bb255239094;0x319e00a4fac7d;0xb9514702ad9aa;0x3e4274edc4175;0xd73fab97aa5bf;0x27b5a537338] [0x4f9cd0b58faa4;0x507b42c0c74f9;0x9c20fbf172870;0xe7b40417ca8fe;0xe18d522ad183c;0x6eedbfaff38e3;0x83334adb9075d;0x7ca7398a997d2;0xbb69fb574cb07;0x46071a7d0c1] [0x48e278142cd60;0xbce49bedf089b;0x2beba2e2f5ef0;0x377011eee4681;0x273168725aa27;0xbc386b468b692;0xcb62d2ba720ff;0x263ccf32592e7;0xc72c8d1fa6b8e;0xd458112fefd]),[[0x392988887ddd;0xee8594feaaf94;0xf21e56567cc91;0xe509c262721ec;0x8c538393a2ebe;0x74203726ea534;0x92afda8365722;0x3fbecc291998b;0xe372c6a1459da;0x6aceeac7d04];[0x7299ea50c21c7;0xada704ca766fd;0x1a5c09566d7c5;0x90bb9c2f4528d;0xb7d7eb6d0b664;0x2f3731b304b23;0xa1c7f57409c2b;0xe3917e6b4be1;0xcd7f853e7d426;0xf0f93959da8];[0x8971942f591a6;0x9b8f98439a771;0x4e816725dbd28;0x74960e73bff2c;0x1fca153312617;0xc4821ccb43607;0xf51c2f7eb226d;0x5ce161ac4e0a2;0xf9a885e857e9d;0xb41da9a043d];[0x8971942f591a6;0x9b8f98439a771;0x4e816725dbd28;0x74960e73bff2c;0x1fca153312617;0xc4821ccb43607;0xf51c2f7eb226d;0x5ce161ac4e0a2;0xf9a885e857e9d;0xb41da9a043d];[0x18eec2f84c1c8;0xb8be07d5c6b52;0xec0bcaeb549fb;0x9e233f51cf945;0x6bfc0206bc862;0x6225f27fe0551;0x8258b4d7ffc12;0x8a8dd25f0601;0x21b95f82d9b31;0xa2621af8d6e];[0x59ab275876000;0xf4e8fcf4afbab;0x2e503e6b18dc9;0xf2985cdd75947;0x4bdbe9664ee01;0xcd113f33245d2;0x1f6f409c0a018;0x5903ac0c45e0;0xabc625bba38f5;0x4e971e6103a];[0x0;0xe1f5d9f3917e5;0xe61141e1e1e5b;0xca792589d777a;0xee0a3ad722e97;0x15c085280623e;0x25526cc72d8c;0x556d9dac02864;0xb86e30543e002;0xd6377ea091c7a;0x6f6225a98a3];[0x0;0x76eb5a0c8ff41;0xb0541823eb069;0x7aab5f499bc24;0xad304f2d1dff2;0x25d82f1484107;0x89a1967a11e98;0x9225ae5e5d6c9;0x9c470a407a82b;0xbaf377c18a7d6;0x4b25dd4a8db];[0x0;0xc58ec69a03bcf;0xb6dbef01cd9bc;0x3604dfc6c3f0d;0x930937bb768ee;0x60941c7d25bc5;0xaad12968d3506;0xe03c41327c22a;0x6f1225a01a643;0xcbf0704a9b1e0;0x79ee267723c];[0x0;0xc58ec69a03bcf;0xb6dbef01cd9bc;0x3604dfc6c3f0d;0x930937bb768ee;0x60941c7d25bc5;0xaad12968d3506;0xe03c41327c22a;0x6f1225a01a643;0xcbf0704a9b1e0;0x79ee267723c];[0x0;0x1035a7852c457;0x6d48519ccf9e5;0x3e1750e4b826c;0xac757d86dec2d;0x68fdba3e1047c;0xe0a70fe51d085;0x7de24897e3f03;0x700ab81839f04;0x10912295c1683;0x53f4dd1b84d];[0x0;0x29fabdf31697f;0xcf02b0b69599e;0x7ebb19776fd38;0x995bdbedb8751;0x56c17405538ce;0xcb4a7520097d5;0xe2897ab13d5ba;0x5521922716e92;0x16c223e909e2d;0xb114675f967];[0x0;0x479961bd70654;0xfcabb580c737f;0x379c92c8db33f;0xeb1c640bc9b43;0x89de48cb3de36;0xf2740dcde0ac4;0x5b14994a313df;0x46f045cde976d;0xc0383b695736b;0x2560f376d4d];[0x0;0xe70a7e5a48343;0x96f2c867e9d65;0x268eae61650ad;0x69f71b56c2db6;0xc2779b1f40593;0x37667c260ea65;0xc68b4dde5ac0c;0xf0325aef88171;0xf37a8fb829a3;0x460b36c21affb];[0x0;0xca504a0f82774;0xbf725fe3977cf;0xbd6fd5ef3f793;0xde9b5d0015192;0x84470c7df14e7;0xf7b21a9c9bec1;0xd48cdebc012c4;0x823268b80f9fc;0x52e0031152cd7;0xadcc54074f]]);
 ((V [0xc0886d60adf83;0xf4c61d04c9293;0x5468dfa60f706;0x1b4f90a49ac76;0xfdd0a2cdce40b;0x45751d4579a25;0x3bb43116502d5;0x2fe18f60f6e4a;0xbef944a5d1127;0x9c2e9b9a93a] [0x829a1c866452f;0x2d788a6baa9ad;0xc1350eaf0322e;0xa7234a6a0a061;0x6091034e43db;0x66c9c7047705;0xe18657cdd4618;0xa264c6daf4dcb;0xdaf8c37d41d08;0xf616d302b6e] [0x23d5a6135a242;0x44f15fc26ad6b;0x11765221753d8;0xa6d0a20bab492;0xf3189f42bf17f;0xbf63cb5c2cfe2;0xdd721f4687e1c;0xa37dddff6fc1a;0x61406bcbbdc38;0xd34a8de51fc]),[[0xbe997f72f7dc5;0xac30868e631fe;0xcff11b18721c5;0xa2a86e856365b;0x4350098f3f599;0x5e9c2af88a743;0xb4f8a0eab1856;0x969a364250691;0x830dc7f29749f;0x24237f09383];[0xb90a8475deed0;0xe2ca4cce6154f;0xf29f223095d97;0x92274dbcdd4b2;0x65ef283998d26;0x28ef57784f865;0xdbfcc34c57760;0xbd8cfff457c0c;0xd103768f670ea;0x300f45d13c];[0x48e278142cd60;0xbce49bedf089b;0x2beba2e2f5ef0;0x377011eee4681;0x273168725aa27;0xbc386b468b692;0xcb62d2ba720ff;0x263ccf32592e7;0xc72c8d1fa6b8e;0xd458112fefd];[0x48e278142cd60;0xbce49bedf089b;0x2beba2e2f5ef0;0x377011eee4681;0x273168725aa27;0xbc386b468b692;0xcb62d2ba720ff;0x263ccf32592e7;0xc72c8d1fa6b8e;0xd458112fefd];[0xa3349e32ea358;0x616a4a8edac6c;0x243b0e8c847;0xb0f904c336a08;0x6b1b3d000c74f;0xff5e53f990fb3;0xdbf3f213ff01d;0xfe01755c90e4e;0xfd7ab0ee2baa;0x970ebf2ac07];[0x15d5e642f4940;0x8160023f868e3;0xf27ae72209550;0xe12e48f9a6aaa;0xfad3eb398c5d6;0x2991037ebe8b1;0x8d13858742;0xbf8b8a97c6dbe;0xc12bcb808453f;0x6bf23532535];[0x0;0xd65b4e07f69ed;0x441c01ac0a8c6;0xfaab06c19143;0x5f0ce0d5eb105;0x15bc316fbceb1;0x6dfb227b2d0b1;0xc30ed931b1a34;0x4b02f75a75821;0x960c3a8a135ac;0x83502f61037];[0x0;0x64ed140b96370;0xcdb5f10e3ddb;0xfe310ecdb81d8;0x3decc2ecd6c9d;0xee09c213b7a90;0x88434251bec52;0x92b736806f989;0x9fe1c770d4da9;0xa0d8362041c75;0x1df9d3d46d8];[0x0;0xca504a0f82774;0xbf725fe3977cf;0xbd6fd5ef3f793;0xde9b5d0015192;0x84470c7df14e7;0xf7b21a9c9bec1;0xd48cdebc012c4;0x823268b80f9fc;0x52e0031152cd7;0xadcc54074f];[0x0;0xca504a0f82774;0xbf725fe3977cf;0xbd6fd5ef3f793;0xde9b5d0015192;0x84470c7df14e7;0xf7b21a9c9bec1;0xd48cdebc012c4;0x823268b80f9fc;0x52e0031152cd7;0xadcc54074f];[0x0;0x137c8491e9c88;0xd2534bda5bc8e;0x1fdca1a62199c;0xfe2b088854005;0x710ee9c6a88dd;0xd99101e479aac;0xcf2793c82cc2c;0x20dac28f24285;0x374edc8b3305d;0x1327e2aed83];[0x0;0x72c8378b365bf;0x9eb4fedfbfd13;0x75cd6116ce8a1;0x9ebdcecceafdc;0x162c8a6c2570d;0x6aaf7878dc1cb;0xd70f199625144;0x4e646f5ff7903;0x433b7edb85921;0x628d939dc6];[0x0;0x7426e601ce935;0x8a314791053a3;0xda5d95d2b38fe;0xc4f171818b60b;0xf7231dae186dd;0x1a6f732e49741;0xb506193034441;0x6ec076d455b0f;0xd707a0e32dabe;0x1d520e8050];[0x0;0xb6f97ba0bc50f;0xc95675fa304c2;0xb7690115fa848;0xfb45e22059f66;0xf6d25c8125554;0x8fba58e91ecb;0x4a7de8791aa31;0xd3c1f26531ebf;0x662d789e17098;0xf70a06a659620];[0x0;0x9fd4da41b57dd;0x662981caef649;0xaa643aebde7c4;0x22e703d0c0a96;0x24fb3fee6c3bf;0x746129fa3566b;0x3eb9f965095bf;0x8d1746a065025;0x7acca4f050ca7;0x9622b643fb6]]);
 ((V [0x482bc1e856ec5;0x87d26c3129188;0x5901c80445ec;0xfe040f9b76ce3;0xf9f705dd354c2;0x7bb99738ae305;0x837b8ad80b14b;0xed9bbdade1339;0x83cb7ef8296a5;0x44bc114cbd8] [0xe8a379fb25b0;0xff38933d3504d;0x61c2135c1bfa4;0x281d67d0f83e4;0xd20fe7d075ac3;0xcdb4ddae5bc3d;0xcb7b4bed85fcc;0x95ef0c4842010;0xebac6535720e6;0xa9e71ff7c39] [0x95fdeaf12efe6;0xb60330aa1676c;0xb01b252922f3f;0xbefe336b46acd;0x5093a89f3b8c8;0x586628e9644b9;0xf1e1fe90ea259;0x6cc5c4524c286;0x8f9454ee5a215;0x2c53095fdc7]),[[0xd22e51f926386;0x5648c83e9e68f;0x5f369493404b1;0x5466619598c05;0xc2603147d5e04;0x541ee5e1fccb8;0x3abd614fbad44;0x7bd70eed0b1f8;0x9ea6ecddb7501;0x9060d6dff6d];[0x800ef6bed68d2;0xfff0071e6d0b3;0x1dcccd551d6fb;0x2ec34bc2a655d;0x720ccd2b195aa;0xdf017d5acfb08;0xfd74d5ceee12a;0x53c4ca0555f01;0x258bf05066e0f;0x4b3b89aea11];[0x23d5a6135a242;0x44f15fc26ad6b;0x11765221753d8;0xa6d0a20bab492;0xf3189f42bf17f;0xbf63cb5c2cfe2;0xdd721f4687e1c;0xa37dddff6fc1a;0x61406bcbbdc38;0xd34a8de51fc];[0x23d5a6135a242;0x44f15fc26ad6b;0x11765221753d8;0xa6d0a20bab492;0xf3189f42bf17f;0xbf63cb5c2cfe2;0xdd721f4687e1c;0xa37dddff6fc1a;0x61406bcbbdc38;0xd34a8de51fc];[0x4df5a18190952;0xa0bbbdb9b68f5;0x8e73877af3969;0x533fb3441673c;0xb9b5e610185e1;0x3af797ea4030c;0xa693378be9d03;0xe57129f5478e9;0x406eb9be15d10;0xf64fec1f3b8];[0x3219553d45d48;0x5f344964b67be;0x8f5945da29d92;0xdb83987e8fe20;0xb856e71b00fc8;0xa409e5708f7fb;0x56e19e4304427;0x6e53a0100e618;0xe51d3692510fe;0x54eb9d8f658];[0x0;0x993556795f416;0xe38241c4d01e8;0x2e2a93ac1e8cd;0xe585b793e244b;0x2922e4e4b2625;0x69cf3c279d389;0xea58f03be66f1;0xffccc27ddc31d;0xdcf2d35d6965e;0x82a984cad6d];[0x0;0xd3e945ccd5e76;0x1d57e4bf462d3;0x86c211a8945ee;0x6542f7067973c;0x74e74b95345bd;0xb684b906f0a24;0x51e0b814e31f6;0x353bf25ca27bb;0x7f8bb9c5e0894;0x7729dd1f441];[0x0;0x9fd4da41b57dd;0x662981caef649;0xaa643aebde7c4;0x22e703d0c0a96;0x24fb3fee6c3bf;0x746129fa3566b;0x3eb9f965095bf;0x8d1746a065025;0x7acca4f050ca7;0x9622b643fb6];[0x0;0x9fd4da41b57dd;0x662981caef649;0xaa643aebde7c4;0x22e703d0c0a96;0x24fb3fee6c3bf;0x746129fa3566b;0x3eb9f965095bf;0x8d1746a065025;0x7acca4f050ca7;0x9622b643fb6];[0x0;0xcfa878c938c39;0xff179ff45a738;0x38f453dfb869c;0x5964e6b95e662;0xdec8e4c47ae6a;0xf657971728e4f;0xb5fff17ed1b41;0xfe24407aca5cb;0x5b7ced533f4c3;0xec8fdf9229f];[0x0;0x6921eba4d9637;0x6b2cab30f2ea1;0x2a08e1b4ca913;0x413e3e56338ed;0x4d109d268e21;0x5f86da73a7495;0xfce8749b7997f;0x54e6a5b635533;0xb29ef0814df6e;0x5f48d620ae1];[0x0;0xa659e26056d4d;0x40597bb4a4c56;0xfd862819690d;0x54cc567048fcb;0xf197cac7873eb;0x76c172729cc34;0xd401c6247b04a;0x6c1fb0ba664e;0xb9fb506dbdae5;0x14331561008];[0x0;0x9c4e0e17b8339;0x264baa1fdef38;0xe42f6d54e3c6;0xc1d03c19f626b;0x9449e6a9327ed;0x60d562cbd1c7e;0x116da24dcf056;0xa9983d1c54774;0x61074514ad48e;0xaa5f18ddb8d7d];[0x0;0x3361a5318d326;0x8b1e545c94906;0x20178cdaef6fa;0xa1f379990f9e;0x87f0d3d537bf5;0x652cd29c7ac34;0xae0b591311a2;0xb72febd12b327;0xd1689b067182;0x2d9e35b4917]]);
 ((V [0x808a133027817;0xfa350864e5459;0xc55e3653b6be7;0x2b6841fa5b7e6;0xf8d29e58bf62c;0xabe137d60630b;0xdb2f5abb6fe1f;0xa10b8f30569fe;0xa6036fea022c1;0x9047f2748a0] [0xcd7f96e03509f;0xe9466247f15be;0x6593fdcde7887;0x7b6bfc09b0e0f;0x3a38717f84053;0x88e8b6ae39019;0x1cb564489523;0x24dc3ae1b801e;0x62688ba9bc495;0xd72bed83b48] [0x598c341d35519;0x470ef2e312bb0;0xa76e8f8bf720f;0x8a24d257da701;0x5af17510a045;0x5f43db5efd3fb;0xad211eb73326e;0xf4e9bdd114aed;0x30ede69808fb3;0x182a7861455]),[[0x76fa7490c5db;0xd329b71944c79;0x3d22c1e9a5cb;0x81a91e64122ce;0x8f29199b111ff;0x1bf5283bb27c8;0x48086ea823643;0x9a6121062621f;0x67c3da282cdef;0x7cd0b7e6c95];[0x2dfb13927523d;0x9a3d06531bbfd;0x47d7ecd6ce593;0xae8afd16df591;0x3a690327b0c06;0x248b505964758;0x35699a2f28de2;0xdb792d1d9dd2a;0x93e43206a6541;0x11cca4edafc];[0x95fdeaf12efe6;0xb60330aa1676c;0xb01b252922f3f;0xbefe336b46acd;0x5093a89f3b8c8;0x586628e9644b9;0xf1e1fe90ea259;0x6cc5c4524c286;0x8f9454ee5a215;0x2c53095fdc7];[0x95fdeaf12efe6;0xb60330aa1676c;0xb01b252922f3f;0xbefe336b46acd;0x5093a89f3b8c8;0x586628e9644b9;0xf1e1fe90ea259;0x6cc5c4524c286;0x8f9454ee5a215;0x2c53095fdc7];[0xb7124b30191d0;0xc897f6f634d19;0x9f1a51c5dd7a7;0xde131bc82bfba;0x156906200cf64;0x374d93e5db7f8;0x46884d7247d46;0x80f63297f939f;0x6e816ad54b121;0x739a152f206];[0x76e8c8625be35;0xd1a50f5ce6ee3;0xa8bd9b10f0deb;0xd077e14eb35d6;0x24fffd07a3ca1;0xed3dbc7388f60;0xeee14cbce109b;0x5a82fa85a498a;0x2562c7315b420;0x9e328fbe8f6];[0x0;0x12af008eb3d3;0x949688fb7b90a;0x1da7206271b00;0xb38494c9a9fe0;0x77ee02fd201ad;0xeefe5fa8f0dd7;0xf2f94d80ca30;0x32a6839d6226b;0xab6cc729a3093;0x1b68fd9b76b];[0x0;0x56c7ea6ca7253;0xd7d67650e6f93;0x23aa299f8f2c1;0xc9585d00ce1c2;0x4911fcaca2f2b;0xf69c160943d1a;0xf60a1d453be38;0xcc05acf4e7fc2;0x7d986f82dbd7f;0x159c5bd95dd];[0x0;0x3361a5318d326;0x8b1e545c94906;0x20178cdaef6fa;0xa1f379990f9e;0x87f0d3d537bf5;0x652cd29c7ac34;0xae0b591311a2;0xb72febd12b327;0xd1689b067182;0x2d9e35b4917];[0x0;0x3361a5318d326;0x8b1e545c94906;0x20178cdaef6fa;0xa1f379990f9e;0x87f0d3d537bf5;0x652cd29c7ac34;0xae0b591311a2;0xb72febd12b327;0xd1689b067182;0x2d9e35b4917];[0x0;0x763039a0cbf50;0x11d95f63bf767;0x865ad219d57bf;0xc6cbe555b9a45;0xd5e93e27b6103;0x863956be63521;0x7708ed3a457e2;0xf63bef5050928;0x88c3a6ef71686;0x70c2f8dfd56];[0x0;0xe915fb1beff7c;0x3bb283051e3b1;0xfa3a3c8e68f30;0x6b5bf764c1fc1;0x7fcbce7a5f00b;0x49c4d4a4eb88e;0xfd9e47a54e208;0x20f73f354f3a8;0x2088812ac1503;0x1274735a2e9];[0x0;0xe8b4f56bf060a;0x8e0f28eac4501;0x24a565d764346;0xa12c097821b37;0xaadf77cae0a3b;0x8bf02c21ce16;0xa1c11abd3b0c;0x1be50beb603c0;0x9694d0da8f4f7;0xa081d62ff0];[0x0;0xc4f0cde130075;0xf39410cf8542a;0x4bd044b340ea3;0x9eeaadabf8b57;0x5ae645c87992a;0x8451835da8de1;0x70d14f5555c5e;0xf2dc29f2623e7;0x87c09e8119d91;0xd7f42384d14b2];[0x0;0x28f8ef008c550;0xe301e3cc67907;0x19b34fd2a2a25;0xcc59582067305;0xf1a712f8d6b17;0x3711e03e6524f;0xf1849da72a5e7;0x85a5a775e69a7;0x70dd52ee91ff4;0x79452e926f8]]);
 ((V [0xbed904aee157c;0xe6ab3e21eb5ee;0xa76d555b496e0;0xd24618106d59d;0xfa87ce7c26a0c;0x4b109f7d5e1ac;0x326cb3759c829;0x7032862bfa536;0x89bd0d22d1e82;0xa952518328a] [0x89bd666cee448;0x5c56931f75b5a;0xf16bab9375778;0x5c6aa7255131b;0x1956e5481525a;0x95fdfc2ea2fc5;0x593df7eeef978;0x7983c816500d;0x9a60cc0d51675;0x70ba0599e91] [0xaf0f02a2f6206;0xa896d571f0c4d;0x2e1e802d7bd4f;0xa65bd56fda1d9;0x94419eb26c6eb;0x395025f3134cc;0x821543d5c67af;0x12c838685ff8f;0x3b2fa5a97decf;0x9e4b5cce3e0]),[[0xf972819e8f8c2;0x6da2e9cd1a6b0;0xc30b5af1e3ccd;0xb59e7aae49f52;0xe2916b52e6956;0x794e2845ebfe2;0x5204aa2903173;0xef5c00a194b85;0xf62af0fd9b5a9;0xfeeb42cf259];[0xe9e6964be7a03;0x1919fdb583fe4;0x4fb5a10e47bd3;0xc183e1f36a9a6;0x70d7303219a0;0x5b6b7f4748f3a;0x531d9c3e85577;0x32cb8e29e7c0;0x37cf1b301c89;0xfdde746661f];[0x598c341d35519;0x470ef2e312bb0;0xa76e8f8bf720f;0x8a24d257da701;0x5af17510a045;0x5f43db5efd3fb;0xad211eb73326e;0xf4e9bdd114aed;0x30ede69808fb3;0x182a7861455];[0x598c341d35519;0x470ef2e312bb0;0xa76e8f8bf720f;0x8a24d257da701;0x5af17510a045;0x5f43db5efd3fb;0xad211eb73326e;0xf4e9bdd114aed;0x30ede69808fb3;0x182a7861455];[0x748c45cb5f0dc;0x516ad4c3d4c96;0x4fe49c08ca3bc;0x3d8ccc60c32c7;0x4b4358a82ff23;0x6add5bbac9dcb;0x2e4a4ee3fe462;0x76b8ce8b450d1;0xfbbbf4d3c2d38;0xe828d814115];[0x755a508088928;0xc7af28f1af34e;0xffd105057d816;0x83f71592a76de;0xbbca1a5af1a7d;0xf08e238c7f16e;0x24d34d5a87114;0x8c73ea57596ef;0x7c0fcdf3ef50;0x15b59c52509];[0x0;0xa5bac7b356b82;0x68678a9ad42c5;0x5a7b88b84bc0c;0xe5a89a809253a;0xf10d0e75fee3d;0xd955d96a93cba;0x30c938acdd84;0xa434f2b52ae8f;0x6d7c382e02767;0xef1b43bd3e];[0x0;0x8298e24fdf999;0x68aed48bb982e;0x4bf646f4433bb;0xa2df9c663a0c6;0x64539e6f0818b;0xe1b2bfb6704a9;0x846820e9231c7;0x4b4ff3d009ef0;0xa59d66e2659b;0x181058bb850];[0x0;0x28f8ef008c550;0xe301e3cc67907;0x19b34fd2a2a25;0xcc59582067305;0xf1a712f8d6b17;0x3711e03e6524f;0xf1849da72a5e7;0x85a5a775e69a7;0x70dd52ee91ff4;0x79452e926f8];[0x0;0x28f8ef008c550;0xe301e3cc67907;0x19b34fd2a2a25;0xcc59582067305;0xf1a712f8d6b17;0x3711e03e6524f;0xf1849da72a5e7;0x85a5a775e69a7;0x70dd52ee91ff4;0x79452e926f8];[0x0;0x70530339ea2f3;0x82e623eab4838;0xba5cfe6a39e0;0xb2a0549594da2;0xbb1e954d1e067;0x6492e0229e1a;0xffb44dc1dffb9;0x96c6ebb6fd2d4;0x519cd3f51da76;0xb4dad07cdfd];[0x0;0x88cc2bdc283cf;0x294c2e037cb45;0x6d634868e00ff;0x5d81348e4d55c;0x61c9e24899cec;0xdbf775ddb0583;0x697a7bf4fb6e1;0x9263be3797183;0xc8083eb3bf51;0x515104fb7d9];[0x0;0xb7c115eb4b652;0x2ad09c686571;0x1b7061425ac3a;0xa9a4eaf8e467a;0x98149f3b2b456;0xc678e65b5913b;0x1e3155cc2c8a4;0x98f7662a1efd5;0xedfdbe1022785;0xa7e97cee536];[0x0;0x56654a074ddab;0x1b8dfc790310b;0xdcd17e224233e;0x25ad07dbf76de;0x818c1bdfd7d27;0x4ceb4d812f06d;0x9908ad55b2be7;0xa552155ca72de;0xf96ac19f2484;0x70baf5d367ac2];[0x0;0x5bf8b89f6856;0x5d3bc3132a90c;0xf737832161084;0xf75ac4d87bcfe;0x2c3bf1bb02832;0x9938066e274fb;0x364d27507a676;0xe9517584c43ed;0xc78e94f8ea04f;0x4a8f0d2d030]]);
 ((V [0x364c4f6d7134a;0xa2c0489dc71ac;0x8d68e01e978a4;0xd29fcf4761d57;0x2e1792defd5f5;0xe93ed617a67c6;0x52771278f8f82;0x5f05f03e8a5d2;0x84c8b221ec1e3;0x76855540c66] [0x9876021db9503;0x37ece68d0e534;0xa0907c636245e;0xfe5f967983d80;0xa3e6e87ed4295;0x9c798f9e90e2d;0xecc44e0925d56;0x14e492263c717;0xea684c93ac770;0x9905ddebb44] [0x1df0cd2288c88;0x266f8d311167d;0xfc46b40b82b31;0x1fb31c6eee8c8;0xaa1e659c6583c;0x87d4fef569319;0xb5912f59b1976;0x5b8c915cee026;0xfb40896a6378c;0x22030760d8e]),[[0x48e3a4c90ccf1;0x214473ad0ccdd;0x82d2604f385e9;0x3daea2b1c7813;0xe7f34372ea310;0x2d057064356a7;0x3c633e0dd93fa;0x7f62a7a195ebb;0x11e10e1b9b9a3;0xdb88a4dee45];[0x26d54cd8f178d;0x2d5f4e5b63996;0xaff404956db80;0x1ff058bde13a2;0x79e404c37d14d;0xfb7bfef098e05;0xac21df0aa7330;0x3724ebe449825;0x65652d3f59fcc;0xb4d90813d86];[0xaf0f02a2f6206;0xa896d571f0c4d;0x2e1e802d7bd4f;0xa65bd56fda1d9;0x94419eb26c6eb;0x395025f3134cc;0x821543d5c67af;0x12c838685ff8f;0x3b2fa5a97decf;0x9e4b5cce3e0];[0xaf0f02a2f6206;0xa896d571f0c4d;0x2e1e802d7bd4f;0xa65bd56fda1d9;0x94419eb26c6eb;0x395025f3134cc;0x821543d5c67af;0x12c838685ff8f;0x3b2fa5a97decf;0x9e4b5cce3e0];[0x57c9a9863f495;0xb23078e99dd82;0xd605e2b45ba48;0xace86554f536;0xac64d458ce854;0x93595ca80b8dd;0x14a3e4fdcba82;0x91a81528940b7;0x95da82a763f48;0xeaf743604b7];[0xcf0ba352b20c0;0x7b2ed571c5c13;0xd9ee21e112137;0x1521d26891e6b;0xcd7f306aae8f9;0x6822a2488d527;0x977dfa0cdb8ae;0xa57cd6bbb576e;0xcf8aaa97f6083;0xc9e1c4b38ce];[0x0;0xf725c33cce199;0xc830b76ddaa7d;0xd999618aaf5e1;0x9583f064c02b9;0x19308e81bf48;0x5dbb20d2c0340;0xfdb37615804ab;0xe64f9e1c424d4;0x506a6ff3b2a90;0x61e39660e0c];[0x0;0xcb0c46410db1f;0x92e8b1feb9f86;0xbc119a7c77dae;0x5966defdb26f9;0x5df7fc77730d8;0x8670f1777f7f2;0xf6f8da8b6d825;0x2afb2ba2a5c21;0x9fdbeb80399f9;0x87bef65fd69];[0x0;0x5bf8b89f6856;0x5d3bc3132a90c;0xf737832161084;0xf75ac4d87bcfe;0x2c3bf1bb02832;0x9938066e274fb;0x364d27507a676;0xe9517584c43ed;0xc78e94f8ea04f;0x4a8f0d2d030];[0x0;0x5bf8b89f6856;0x5d3bc3132a90c;0xf737832161084;0xf75ac4d87bcfe;0x2c3bf1bb02832;0x9938066e274fb;0x364d27507a676;0xe9517584c43ed;0xc78e94f8ea04f;0x4a8f0d2d030];[0x0;0xd57566f24defd;0x87ba7b28effb6;0xcef23ab13a0a;0x9ad93827fce75;0x5a950a654e14a;0x76ebd6c0c830f;0xe73edc0f1fdfa;0xeb7fbf8e93c5a;0xc8a33e8a756e6;0x31a34c12cfb];[0x0;0x362d4fb4e3230;0x65ea7ddab8168;0x722a5d4a44a28;0x70d4d0537f2ed;0x63450456f12e7;0x49dd8a14d34bf;0xdd2c95659f81e;0x8dc6d79c78603;0x8ecaadce4f3a5;0x6ffdca177da];[0x0;0x2527ce2c7c300;0x81590a5dbc0ed;0xc9ef241d67f48;0x95f8ecf4e78a4;0x8a0ea64bfcced;0xf3d2a8cdf21b2;0x8253297a93c3d;0x887cc6b505b66;0x8bf4274c1502f;0x53ba3ab42a2];[0x0;0x2148fb186cd43;0x6b00f1e4f593f;0x2e7097d21924f;0xaf00e47db7c61;0xe196c1cdad8c9;0xbb176ceffda0e;0x753175bfcd3e;0x68af523bf3957;0x9123de1beae5e;0x9932c9eec91fa];[0x0;0x725c00b1dbdfa;0xd9c927de2919c;0xd1d77dfedda3;0xb25a7df29453f;0xd3431bb19cb94;0xf39ce4f1fc5dc;0x43e035e953a0f;0x58601d631a783;0x8d30465e12c9;0x46d8674c9b5]]);
 ((V [0x84a75cf8c6203;0xdaa2c014cfb8e;0xcceb5ec8ace3f;0x7cdddc998b455;0x1c594041cdf3f;0xa447e65e428f8;0xf2feadfb49439;0xe5addddb6e3a5;0xe84c822d3820d;0xaad56e06c1a] [0x7f7214ea75a10;0x8b22305f481ec;0x5dd073548d546;0x6149587bf6d4a;0xb96f7eb902fee;0xced241f2adcda;0x83c3d669c0c5;0xf00f28d595d33;0xcd51de4d844f5;0x6bf455a5ce9] [0x12521016608cc;0xef88efc94b7b3;0xe76b872ca1a2a;0xa284f18623606;0x55add026a25d1;0xb7ea985c6d03d;0xe685e6cfef545;0x77401e07511ee;0xdb7a77b73471b;0x2f59f0b9c97]),[[0xa3de7ae266070;0x1d5499f230d30;0x9e78e97979657;0x5f2e299d67fc9;0x93219b224114c;0x790ffbf67967f;0xc4f76e7f68057;0xeb63aff4f03ae;0xd8d11740089ce;0xc44f600e8d];[0x4968913a20def;0x132d70983a446;0x5ce88b3e53171;0x7c903e6ed5b63;0xd366410c42a32;0xfc264329e2d7a;0x11dce6a0eb3b;0xba8ef39ff52f8;0x248bc32358b5e;0x9baa5726d69];[0x1df0cd2288c88;0x266f8d311167d;0xfc46b40b82b31;0x1fb31c6eee8c8;0xaa1e659c6583c;0x87d4fef569319;0xb5912f59b1976;0x5b8c915cee026;0xfb40896a6378c;0x22030760d8e];[0x1df0cd2288c88;0x266f8d311167d;0xfc46b40b82b31;0x1fb31c6eee8c8;0xaa1e659c6583c;0x87d4fef569319;0xb5912f59b1976;0x5b8c915cee026;0xfb40896a6378c;0x22030760d8e];[0x7ef9be8e5b832;0x341c8a08363d3;0xd09907179a166;0x82884d1fae267;0xbd8f26877697c;0x7d9bee2fa6f4e;0xd894ae55b4821;0x54163e38415c9;0x5f1c85f2b3b9c;0x3c35ce592a];[0xca6ed2abc55be;0xdf10e69004072;0x8c4f8426b900a;0xfa07f14f278fb;0x15d71a84cc0b5;0x7e8a54fa3be2c;0x288920145a31a;0x6678b567b3d2e;0xc56f3d30a4fc2;0x97e6fa4143e];[0x0;0xac14f1985fd70;0xda9f50f6f14d0;0xc64753966fe14;0xfd12bceea83dd;0x36cd516be6fc8;0x5a892a607126c;0xb487f21237e92;0xb896a50ec8d49;0xfcc2e5bcfb16a;0x150869eac04];[0x0;0x9e435070819e7;0xc7ad36816df15;0x44c62744f7662;0xb5df378d40a45;0xd8a99a4a2b2d5;0xec215ac59d5f2;0xc7bf2fd19747f;0xafed8f6ddb3aa;0xc1a9db039d82c;0x1a14dd587e];[0x0;0x725c00b1dbdfa;0xd9c927de2919c;0xd1d77dfedda3;0xb25a7df29453f;0xd3431bb19cb94;0xf39ce4f1fc5dc;0x43e035e953a0f;0x58601d631a783;0x8d30465e12c9;0x46d8674c9b5];[0x0;0x725c00b1dbdfa;0xd9c927de2919c;0xd1d77dfedda3;0xb25a7df29453f;0xd3431bb19cb94;0xf39ce4f1fc5dc;0x43e035e953a0f;0x58601d631a783;0x8d30465e12c9;0x46d8674c9b5];[0x0;0x6b7dd2cec3771;0xd2838fcccd424;0x929afe63d17a7;0xfcf228443a41f;0xd1e7cc476dae;0x292fda8088bf3;0x6b7d41f2d956e;0x51d17597ecd6e;0xbdc718c9dcc3d;0x5b780366291];[0x0;0xe368d346f1f2a;0xf752c5adf041f;0x4b88e26154227;0xc0ca242dd35e9;0x66fb1dc35af4f;0xa9f6e2b3042a9;0xb2b11dbcff69a;0xeb2593851d76;0xa6314dcc5f9d2;0x36df3009689];[0x0;0x5253dcc48940;0xc02e37f761c13;0x7b8dbc9fd006b;0x9fd06828cbe30;0x785e154dcb26;0x29248616bfb18;0xcb3895ef53d7c;0x5f7a01a0f1fca;0x3f1586bf76062;0x67e0e5819b0];[0x0;0x4cd132f63b103;0x256f842c13009;0x5752003371615;0x7462c2aaabea2;0xb10d79b48c8f7;0x899aa0bc9832e;0x1e33414175654;0xb9faad950c763;0x1ca629e06c1c3;0x6c1ea53697bd6];[0x0;0xf8f8c9eeff7c;0x3d8d4e95845c4;0x9c618460e0be4;0x585a23d9fc6af;0x26caa0222d675;0x6a1bf3681cd1c;0xf98a42dc9dfb2;0x35dc272df44c2;0xd1b50004994b6;0x480a4191345]]);
 ((V [0xd7369ac4d536f;0x2a66fe6f4c341;0xb48a9adc0a8f6;0x368c19457d9b4;0x892cce0a4286b;0x5238bf1871c69;0x206d9623dc19e;0xf32f6fd6ba1e0;0x30cfb5d4c8cfa;0xac511aea7ed] [0x87cb6e669cfc6;0xdec407f0ff86f;0x95a473297a51;0x7aa323561e89a;0x6c5fec50aa50e;0x639114b484cd8;0x51485414fbe1;0xdcf0441abb400;0x359efcfcc366b;0x2cafbdeea54] [0x5e80c2560965b;0x4ff848962d4ef;0xea5fd85e2dc5e;0xaba571d81402b;0xf43a873e520b7;0xcb3d7cd0c04ea;0x357b4604cf105;0x158cd5d67bfb4;0x97085b745ffbc;0xa50946e79d6]),[[0x45e38a2dd742b;0xad7c27c125b00;0x71cd6adcb5cb0;0xd507319ec0044;0xe1e6f5bd3c6e4;0x598e760b127d3;0xb9ed44e76efca;0xe7ad7054c0bef;0x3881fb35a3b52;0xe25173cbb79];[0x952dc4b402b96;0x9c7a7a5b7c699;0xf04df198d1dac;0x40769ee3e98a2;0x8939bb4fd2719;0x5fc17bdd82562;0xc914f97d2f62e;0x4afb3f77f846;0x214a06f00b342;0xb3427b69905];[0x12521016608cc;0xef88efc94b7b3;0xe76b872ca1a2a;0xa284f18623606;0x55add026a25d1;0xb7ea985c6d03d;0xe685e6cfef545;0x77401e07511ee;0xdb7a77b73471b;0x2f59f0b9c97];[0x12521016608cc;0xef88efc94b7b3;0xe76b872ca1a2a;0xa284f18623606;0x55add026a25d1;0xb7ea985c6d03d;0xe685e6cfef545;0x77401e07511ee;0xdb7a77b73471b;0x2f59f0b9c97];[0x8732de033f7ec;0xf8b55ab4a1329;0x59e7482f32777;0x81a33c821faab;0x9de3a577ced56;0x739afd26ded98;0x906c019226aa9;0x59bc39c25af3d;0x8042f72070eb7;0x36164873dfb];[0xdfae6b0c33ab;0xa3c51fa6db370;0x9666a9699f634;0xbed36261c9df7;0xeb5615d8039c2;0xec267eb6a37c9;0x38a8f7eb08b84;0xaaf37a3524909;0xa1070fcf9a48a;0x7d2c32f5b09];[0x0;0x1801ee1bdffc3;0x189e9841432c9;0x85b8e61b34775;0x34c1aafc46c5;0x59a5d9bf1433a;0x9b8bfafb05da;0x41bd60666f172;0xee307c12fa256;0xa7bff21ee9589;0x1d4830a1859];[0x0;0xceb8a4e58a3e2;0xe124537b766b3;0xa48162a211641;0xc3b0444eacf5;0x2801f318a2c77;0x2b868e00d2f01;0xb6f0040a6c8c6;0x63df785e83a7a;0x3aaa6e5d5b170;0x29dc7764441];[0x0;0xf8f8c9eeff7c;0x3d8d4e95845c4;0x9c618460e0be4;0x585a23d9fc6af;0x26caa0222d675;0x6a1bf3681cd1c;0xf98a42dc9dfb2;0x35dc272df44c2;0xd1b50004994b6;0x480a4191345];[0x0;0xf8f8c9eeff7c;0x3d8d4e95845c4;0x9c618460e0be4;0x585a23d9fc6af;0x26caa0222d675;0x6a1bf3681cd1c;0xf98a42dc9dfb2;0x35dc272df44c2;0xd1b50004994b6;0x480a4191345];[0x0;0xf3cb702ec7e4c;0xf5f63b345be2c;0x37eee31627aa0;0xa7788ab797dd;0xd18bc62b9b979;0xe95dca624fa3d;0x8e1a55b6c52e8;0x3238385749746;0x7bb560ba5f7a;0x2d8628cbfb7];[0x0;0x80b59496f3cb2;0x13dc729cbd2bf;0xe73461b3d5fa2;0xf13b1050e7f09;0xa6357093488c2;0x93cd8e70389ba;0x54d53274d2667;0xcf4a6a0118e4b;0x3e362641daf2e;0x720028113fc];[0x0;0xf7a245cb01b17;0x3c14d34f209f5;0x9cd81448c76a2;0xb9051023f0bc1;0xf0ab33411c527;0x7a7cb9aa46b71;0x66bbc5a298563;0xfda9e82dbed9e;0x9d89b60cdcbf0;0x78a975cced7];[0x0;0x50bc81d83e13c;0x59ba125ff5418;0x99135a6f53c74;0xced2756707095;0x4ac50f14fc206;0xb62ac7755e75b;0xc3bb2f3de20ed;0xde98702468c14;0xd77bc998aa82;0x2cbd232fec360];[0x0;0x6fea30cc80589;0x5b19086ecaba4;0x64dd294e5e954;0xac881a2215efc;0xf0044a4f6d69e;0x55e29dca8d924;0x8a33570af5cf2;0xb7c5daf43d4c4;0xcba4199b97ec6;0x1e143bea379]]);
 ((V [0x52bb5837c4bf4;0xcc26c45c7cbc;0x47da4437e1185;0xf60ef7ef5527e;0x5dddfe867f097;0x548f965c69123;0xc159bb544e90d;0x8e3e04a469787;0xc65b6c920c7a4;0xfb03ae11934] [0x5f3e278727d58;0xef1163bb28309;0x74969dbe5970b;0xd6c64485093f4;0x9f10250cbdf64;0x7d35cbc038029;0xbf3b113112f40;0x7c2a9cda162b0;0x68b87ea00c5ba;0x5dc6c64988a] [0x5d9446714f09e;0x1d69594803e3d;0xb840be1457871;0x6730036afeec4;0x1649cb0fc2309;0x8c7b5b163f184;0xf2d3a7d3d3f56;0x2f6f0fbdd88;0x157eee5c86b8f;0x47e3c043006]),[[0xe6225541f18c6;0x55769b401645c;0x52b8580ce7d0e;0x42086f4a363cc;0x8ffb3f1a9712e;0x31250b87164ba;0x89d1b5753b725;0xe92cfbb59e883;0x11ffa954d3046;0x3bd4823024a];[0x87ebbc684825b;0x9a08bb4a84c60;0xa4931f556e57;0xd6b9ade3a1b90;0x1199ae68c40d1;0x5c91ba3ca862d;0xd9b7508aad69a;0x47209d11952f4;0x98af5a0fdeda2;0xeb71bff7485];[0x5e80c2560965b;0x4ff848962d4ef;0xea5fd85e2dc5e;0xaba571d81402b;0xf43a873e520b7;0xcb3d7cd0c04ea;0x357b4604cf105;0x158cd5d67bfb4;0x97085b745ffbc;0xa50946e79d6];[0x5e80c2560965b;0x4ff848962d4ef;0xea5fd85e2dc5e;0xaba571d81402b;0xf43a873e520b7;0xcb3d7cd0c04ea;0x357b4604cf105;0x158cd5d67bfb4;0x97085b745ffbc;0xa50946e79d6];[0x27747d86597c4;0xd9f2727df2fcc;0xed3f9d2470340;0xf17b8832093a;0x972c25e209373;0x5b0249312c424;0x1b3cf029c1efa;0x556a3c6538c66;0x5f11cf91e52dc;0x7bff6f72d9b];[0x60773ee1eea98;0xc01648cc91c94;0x1d0994d0e6b16;0xc7a1f56081255;0x7a6d8886bad5e;0x18f710b7c208;0xbe7a6060eb7a0;0xf1b660ac5c68e;0x399d8a7df9ac5;0x6f7250846ea];[0x0;0x6284468323806;0x2ccaaa4348cdf;0x8edda7df1cd77;0xe13da236156c5;0x13cfebfd7784c;0x68b271e9947e4;0x49b4450987428;0x99769f2e24240;0xb8bf0d41b5576;0x660ee3ee756];[0x0;0xaad426e1d1bc1;0x93f0d19e38b2e;0xa192de7b0df86;0x69702a1088fc2;0x4853b588afd9;0xe7666d33bc435;0x658d8287b577d;0xaf9cec557802f;0x1bf08e3942e9c;0x269222f3d87];[0x0;0x6fea30cc80589;0x5b19086ecaba4;0x64dd294e5e954;0xac881a2215efc;0xf0044a4f6d69e;0x55e29dca8d924;0x8a33570af5cf2;0xb7c5daf43d4c4;0xcba4199b97ec6;0x1e143bea379];[0x0;0x6fea30cc80589;0x5b19086ecaba4;0x64dd294e5e954;0xac881a2215efc;0xf0044a4f6d69e;0x55e29dca8d924;0x8a33570af5cf2;0xb7c5daf43d4c4;0xcba4199b97ec6;0x1e143bea379];[0x0;0xbee6b619d9fa0;0x400bfb0270f78;0x3df645df3138b;0xa513c83377da0;0x35af85fb1c029;0x5aa4abf3e88aa;0x949f59505d68e;0xb877bedd0d4bf;0xf577c8c038248;0x7cce1ef41f];[0x0;0x25bb2182182f;0x321efb49cf0f;0x397264cb96e27;0x4858426e26b67;0xd25a1236de2f3;0x6d424d1eef33c;0xe9237b8bf36a6;0x610604fe35ce6;0x4538ef3bb2122;0x73fd15dd25a];[0x0;0x1806a309b8936;0x7c83ddfdb04cf;0x4b465b235bacd;0xf9f806752dda2;0x15b66cb27aaa5;0xdd7b28257bf35;0x5d43875119952;0x277fe0bd2a154;0x60b7018a96cfb;0xe6dbe9a42e5];[0x0;0xc973cb73d0353;0x4e360a2826b7f;0xbfb1c5af9ee5f;0xb1c2175da9254;0x702be133bf728;0x8bfff5b478a9c;0xfda9152559bd4;0x270d7c42a5b14;0xfd2ab6167709;0x5dce4decbd451];[0x0;0x9e9d3991c9eae;0x7d6eec6844bd6;0xceeef26022d9;0xb3c17c4722313;0x86881ac52ad26;0xb89f914e1a2eb;0xd4df599467625;0xdd9bdc50a081c;0x62aa6a371675e;0x5bf33d81f6c]]);
 ((V [0x9e2e990726798;0x9676b8e190dc;0xe464cb2f51506;0x13bc6078c5775;0xe074d41fc5621;0x24b4b789b5786;0xe1839d83e4bc5;0x5ddce84df2567;0xb580ea000c9a4;0xf8f24da8cec] [0xbde461c54bbe9;0xb0c12c7be3000;0xb46a4f269c028;0x40090937fd8fb;0x5ce91a1f02f4f;0x4daaac34bf589;0x4cbf755438f5f;0x98e0084d053c;0x70095c2111e2a;0x1d5bdb80391] [0xba95d208fc8c9;0x171fb35aeda7d;0x10845b466b0ef;0xccbd38752f1cc;0xe1ff68c556f04;0x1a3e9f4b3f7b0;0x39e70db7658f1;0x39461779f75c0;0xd5d4ef54b28a7;0xa8fca0ce724]),[[0x656ae761b41e7;0xb4c942dde481a;0x9ec04f809e037;0x3d160cb664966;0x239135b8a008e;0x3e8d2359f39f9;0xd931b9ed039b9;0xbfb5bc113ca51;0xdbec131bf993;0xfdff8f4b052];[0xf135aeb89d587;0xc971334f15c4d;0x206706f9d4548;0xfb5f874baf204;0xd631232b49ce4;0x67e78e783f3c4;0x7efb005924738;0x51925ace1a7d4;0xf35205c37da8;0x475af94c574];[0x5d9446714f09e;0x1d69594803e3d;0xb840be1457871;0x6730036afeec4;0x1649cb0fc2309;0x8c7b5b163f184;0xf2d3a7d3d3f56;0x2f6f0fbdd88;0x157eee5c86b8f;0x47e3c043006];[0x5d9446714f09e;0x1d69594803e3d;0xb840be1457871;0x6730036afeec4;0x1649cb0fc2309;0x8c7b5b163f184;0xf2d3a7d3d3f56;0x2f6f0fbdd88;0x157eee5c86b8f;0x47e3c043006];[0x7cf916a8d492a;0x4980c7dc94adf;0x59562893d4594;0xb53e93faf5ce;0x8e9147f7e5921;0x4e08605fa4a;0x9221d4292be37;0x157dd4aeded54;0xb79fa1c445290;0x9abfeeabb77];[0x743c980fc8a25;0x7ff06b728116e;0xc710de65fffb4;0xf00b9e0bffc35;0x479fdb33643c3;0x67998617df97a;0xecd92c2ff8901;0x3c14861f3ba7f;0x57957e97f2b18;0xac9b0aa09fc];[0x0;0x93f465b1bc2bf;0x9abd56f4f078a;0x7caf3015d6b4e;0xbef01a9d43939;0xc6d21243d0ba3;0x98b9b5d020b9d;0xf8100a5957b;0xc92336cd334fb;0x9d3d1674dd44f;0x2c74da36bcb];[0x0;0x8be17d2bb1c9d;0x3f8ab565ad609;0x62d1c20042d53;0x6e17ab037a7;0x806a8d66c4da6;0x7336d6185355;0xa1357776445f5;0x487350e32e917;0xd02b0a4df6ea2;0x4753d91c03a];[0x0;0x9e9d3991c9eae;0x7d6eec6844bd6;0xceeef26022d9;0xb3c17c4722313;0x86881ac52ad26;0xb89f914e1a2eb;0xd4df599467625;0xdd9bdc50a081c;0x62aa6a371675e;0x5bf33d81f6c];[0x0;0x9e9d3991c9eae;0x7d6eec6844bd6;0xceeef26022d9;0xb3c17c4722313;0x86881ac52ad26;0xb89f914e1a2eb;0xd4df599467625;0xdd9bdc50a081c;0x62aa6a371675e;0x5bf33d81f6c];[0x0;0xbf4425a738a3a;0xd524ffdbad1fb;0xd2f913571eb05;0x48495d22c068b;0xba380d93aa9fc;0xa57b0bfd4c60;0x4daa806bb2ce2;0xa9ed6fa9db992;0xe37816e05baf1;0x225a0668c09];[0x0;0xdd575bac4323d;0xa7896ce1cb265;0x9c9f7ef4ce595;0x5a066e9815988;0x46d7b38fe04f0;0xaa2ebff8e106f;0xb6cc14e7aa98c;0x1a73f5b9b070b;0xd28af8fd9cd8d;0xf6203764019];[0x0;0x2e883278d345c;0x534ecd0dc38c4;0x505c1f7b1d06a;0xc25480c1f6900;0x95ff93a63032d;0x2672901d2003b;0xcefb8e8878ed4;0x6dcf39e5f53e7;0x4d9bfbbf29693;0x4563ab27090];[0x0;0x3b497e500dfbb;0x7b71a049dcb0a;0x3efc0ac411ccb;0x247f275492b3f;0x5566a25a22b4b;0x4dd2ab6072a4;0x2d8ae1a8c3497;0xbcad1f92d88a;0x79708b66b25b8;0x1d710872f67b6];[0x0;0x16a64b513bef9;0x4bfd4f266fa72;0xe18c09bf3c110;0xc38d9b0d8f272;0xec677c4b0f281;0x9407259d084af;0xe860f130638ea;0xdb4f959a02cd5;0x91a328148d3b6;0x1c8cc661b38]]);
 ((V [0xb5ed6f297fb6b;0x4de723bab268d;0x91fa714392236;0x75d987835f13b;0x3a937fd6a7091;0x6a46e86da8268;0xdf5631bd65e73;0x6a009bf9f7b38;0x3bd4bafced895;0xf869bc955eb] [0x554b0d224d275;0x2c708e58b58f3;0x3b302f8fcab1e;0x9cfd9ab1bb4e3;0xa008662c26d17;0xc4f767525c216;0x9ea2e43f57a75;0x1f50785bccfd0;0x25014795afa38;0x516ae35c1d] [0xd3585e4714f99;0x21e1ffb620fc3;0x96145009193ff;0xe8ea6bc00de14;0x434d52ae0d8cc;0xef09f5ba21f1b;0x672933557cec8;0x83292b21bc240;0x3400be71913e2;0x2c36f08c215]),[[0x869a833725d98;0x7731758c720e4;0x7a9db6a20f55f;0x412a70d0a4845;0xe6207c20d8a06;0x7f823fdfbba1c;0xeb850aeb2e3c5;0xea7e0d75830af;0x7a7f04119359d;0xda2c90eb55d];[0x69c311c38379d;0xeb52757578369;0xcfc7b0ee6be4a;0x6c6c6cf0b1557;0x7fb6aacf3eeb8;0x37600d370de77;0xcf1932b328b15;0x11393a7697fc3;0x9439746c599f2;0xfac998d9920];[0xba95d208fc8c9;0x171fb35aeda7d;0x10845b466b0ef;0xccbd38752f1cc;0xe1ff68c556f04;0x1a3e9f4b3f7b0;0x39e70db7658f1;0x39461779f75c0;0xd5d4ef54b28a7;0xa8fca0ce724];[0xba95d208fc8c9;0x171fb35aeda7d;0x10845b466b0ef;0xccbd38752f1cc;0xe1ff68c556f04;0x1a3e9f4b3f7b0;0x39e70db7658f1;0x39461779f75c0;0xd5d4ef54b28a7;0xa8fca0ce724];[0x94e1cd0fa8aa7;0xc012c1d5de659;0x5b939519a0474;0x3e3561bc29821;0x18f0f1f3fcfa;0xde76da4e9f150;0x1a0c2c9e8c6b6;0x54cb27809783;0x64df7ae5ba913;0x3b206ce337d];[0xd4e144b3dacf7;0x2b3fb39f99d0f;0x74341bd4cb9d6;0x2e370b3487d36;0x7e279bafff1be;0x58e932e86ed27;0xb50d06149c45e;0xbec87fe8e840;0x2f59f9869f0df;0xbfa92bf65a3];[0x0;0x21119b92f3008;0xddb6db431e9c1;0xf3bbc572f690d;0xf87ded3f8b30c;0x3d24e930c5956;0x400f01809d550;0x6ffb6447c50e5;0x19003eb8d2529;0xfd35a9da8b174;0x68804ef53bc];[0x0;0xaa1024f39516d;0x8170437c1a75;0x1e1e1bce8f1b8;0xcb1db9d333ee6;0x4a129f3aadf0;0x726146df07744;0x17befec5b222a;0xb5ba27271590b;0x780fab60120f3;0x90048c04e3d];[0x0;0x16a64b513bef9;0x4bfd4f266fa72;0xe18c09bf3c110;0xc38d9b0d8f272;0xec677c4b0f281;0x9407259d084af;0xe860f130638ea;0xdb4f959a02cd5;0x91a328148d3b6;0x1c8cc661b38];[0x0;0x16a64b513bef9;0x4bfd4f266fa72;0xe18c09bf3c110;0xc38d9b0d8f272;0xec677c4b0f281;0x9407259d084af;0xe860f130638ea;0xdb4f959a02cd5;0x91a328148d3b6;0x1c8cc661b38];[0x0;0x34b0a23fd5d46;0x540b88afba47e;0x6a35d27ed5b41;0xaf8339e9aea24;0x2e9efcf013143;0x22edc19d103db;0xaeedd12a32435;0x1e1be392975cd;0xc6e62d72be920;0x35df0b0d64];[0x0;0xbb42b11096c6f;0x50b2c90571a6a;0xc392274881f45;0x8716cb6dd491b;0x6bab8c39ae318;0x57caa52a9ad40;0x6b184e896ac3f;0x79f0148b0f09f;0xfeec536904ada;0xf2165bcdfb5];[0x0;0x72e9b8b1a0cc8;0x1c3de2367f29f;0xfe081f0b284db;0xb2fd90781775f;0x9f6b0932545da;0xa47e9a365cf63;0x6ca39d309f570;0x9376db82b4895;0x1b7aed18640f0;0xf35ae180d71];[0x0;0x26e6b4c985650;0x871fc8de510eb;0x2666527cdecf5;0x309e80a05c185;0xe951f5a66a03b;0x459d39dde4232;0x6ff5e59a3fae6;0x4c3f605c20b6e;0x51f14111e517f;0x516c8bbfe821];[0x0;0x86fef66ad8742;0x3bf1d64375df9;0x127a065b3f06c;0x828b1ac08d2a8;0x757fdbd86c4ad;0x55aa3ff68718c;0xe83017b176b1b;0xbb960628fb61;0x5030dbcb0a4b3;0x4f012d127d]]);
 ((V [0xe0f1b022ff112;0x641eb5d832ac0;0x6d01f2b2e28d6;0x8a482a493f9f8;0x876ad8e0a2dfb;0x17c9faf8cbf59;0x7b80d14360a49;0x502d6f8b210fb;0xb5cfb844c89e9;0xba45317eace] [0xfa1e510f27098;0xf63645e5240f6;0x9000bf7cf7641;0x6b5e313b0a7a1;0x46ac6bb5fe7e5;0xb17e6a4fd04de;0xedcabc85b26bc;0xa43b54552743d;0x53399c2a0132c;0xeab4d24cf5c] [0x47f73ffc2a6e5;0xfaa2f68ff6050;0x144235427b263;0xbca5c5501abc6;0x64d6471b1b1ec;0x50ec0e79b1e97;0x2b4c96e3bfce5;0x62b49e0d9c313;0x69ee4dc122015;0x54c933cb493]),[[0xdb83edcc45009;0xa9151351907a4;0x2d529ad83f990;0x5c41cda0f6d8f;0x51662f5e193e;0x173e4aa113eb8;0x45671e0ddd432;0x296d1814ac22f;0x1968b26dd0f3a;0x79d44224447];[0x2598e14042210;0xd4e7110f9e60c;0xf8928dacfe8a8;0x1d13c1c426d17;0x8cfa8da643d40;0xe3e251e0f5ed0;0x3924df4c70d01;0xd4b7b5cb3fb82;0xaacab0bb9c1a9;0xa87c55a429];[0xd3585e4714f99;0x21e1ffb620fc3;0x96145009193ff;0xe8ea6bc00de14;0x434d52ae0d8cc;0xef09f5ba21f1b;0x672933557cec8;0x83292b21bc240;0x3400be71913e2;0x2c36f08c215];[0xd3585e4714f99;0x21e1ffb620fc3;0x96145009193ff;0xe8ea6bc00de14;0x434d52ae0d8cc;0xef09f5ba21f1b;0x672933557cec8;0x83292b21bc240;0x3400be71913e2;0x2c36f08c215];[0x6e58e6fe41fe2;0xeeb90960f3858;0xfc83a33f22060;0x4d32449c728e;0xcb1ad198a186e;0xfd2521f7cf2d8;0xddd3a6109cf75;0x7b9c97ce5b676;0x903428357b203;0xfe8bb389d68];[0xb73ffa41ffff6;0xe62e07aeaadb3;0xfc0eea6ddc847;0x18409d7a5fa88;0xc1dfbc0da24d2;0xe6bd2fe926bf7;0x5b51393bd3d8b;0x591b1dfce450b;0x1a96888620fa6;0xbfc11d06c1];[0x0;0xafd45fec8901;0x637fbbb26032c;0x22489436c32c5;0x9f4b0659b907a;0xe61e068e0efdb;0x5cf43df495fae;0xe38c29dc6fde6;0xad3c69098b166;0x52f50a809d1;0x1b579d92db8];[0x0;0xb7252e519a727;0x55ec6905a3cd7;0x45018d3dd217b;0xdbde3a2722077;0xccb838de63378;0x8acb97a211839;0x7542b86d5ce6d;0x86362a85e8a1c;0xc1ca870802e8e;0x150aa09ddd5];[0x0;0x86fef66ad8742;0x3bf1d64375df9;0x127a065b3f06c;0x828b1ac08d2a8;0x757fdbd86c4ad;0x55aa3ff68718c;0xe83017b176b1b;0xbb960628fb61;0x5030dbcb0a4b3;0x4f012d127d];[0x0;0x86fef66ad8742;0x3bf1d64375df9;0x127a065b3f06c;0x828b1ac08d2a8;0x757fdbd86c4ad;0x55aa3ff68718c;0xe83017b176b1b;0xbb960628fb61;0x5030dbcb0a4b3;0x4f012d127d];[0x0;0x520fb1905d5b1;0x2435657221c9f;0x249c2ceb7c109;0x8f38e3b4f8cb5;0xb446c585fedf1;0x9e35b81571d51;0x140b76ed38059;0x784d805dd023c;0xca60a48f23061;0x19e4d0815];[0x0;0xc810dbdc42725;0xb5367982aefbc;0xf2699d2286489;0x4e61d5e831329;0xe9d9961b81061;0xdf6bb3edd06cf;0x1d435978b4275;0x75c24e9b0f4c7;0xfa8734b00fcd7;0xf10d090da4e];[0x0;0xf6c02e08d0100;0x534ce721e16ea;0x672f3de4db2d8;0x5fb79ff57cc4c;0xc2375d926411e;0xd1368b50d6308;0x46584d1db1d4e;0x9e0bb855022d6;0xea55f25e40060;0x7a97e04f86];[0x0;0xdddbaaea2270b;0xc8bb00a4a185b;0x199ed90370a89;0xd74bab78eceed;0x74381e0585e4f;0xb99927448b98d;0xdb99a84f5b46c;0xc2636a368f564;0x1e8de5a7cf418;0xeb95df94c0ec5];[0x0;0x673ef572781dd;0x5bf00211a7fdc;0x6aefea7d7dcb;0x45a5777c00e65;0xdd83308e03ee9;0xed72b3c4b7464;0x659850b0b8b49;0x56d1d0b08917d;0x90918abb8f40a;0xaac6d0e9591]]);
 ((V [0xe2fd3da90cf9a;0x9bf5142fb81a2;0x89c1fbb174d33;0xd4ae254c315ec;0x6497bd736844c;0x31282d097f5c7;0x175b5c200995a;0x28c1b6da87fa3;0xf7d991c6a7dbf;0x336a9765ad3] [0xa9b507d078eb2;0xdee4b29cf17d2;0x8d19dfb2ceafe;0xd148831141f93;0xdbc42cbe2ade3;0x2c7337bac9c2;0x89142b8ed7ee3;0xc0279400afc23;0x8acf58f35077;0x9e931f2835e] [0x68f9815ca847a;0x704dfab30d18c;0xb010298ff9a01;0x97d935e3c2b36;0xd76f253417005;0x76123edb3a3;0xf179e86338779;0xc78a7edc236d8;0x7c06f34455ea3;0xec9ef49be17]),[[0xabf4a6ce74a49;0x4f7f28d4fa376;0xccfe3984ff7e2;0x2b9c3822dfb11;0xa006a69771f6a;0xb29f09fa3aa96;0xb52a097bc2f42;0x9ed375de191f4;0x550ae3fa20452;0x6027bf0fccc];[0xcf3f022c94290;0x63fe39fc642f2;0x82c5368d60616;0xbd0a47a9536c2;0x4adb5e2eaa00;0xa1473d4572e34;0x276f4e49c1b00;0xbcc6894807293;0x40511037503d1;0x2ab8bfb3a2];[0x47f73ffc2a6e5;0xfaa2f68ff6050;0x144235427b263;0xbca5c5501abc6;0x64d6471b1b1ec;0x50ec0e79b1e97;0x2b4c96e3bfce5;0x62b49e0d9c313;0x69ee4dc122015;0x54c933cb493];[0x47f73ffc2a6e5;0xfaa2f68ff6050;0x144235427b263;0xbca5c5501abc6;0x64d6471b1b1ec;0x50ec0e79b1e97;0x2b4c96e3bfce5;0x62b49e0d9c313;0x69ee4dc122015;0x54c933cb493];[0x72492a445203b;0xc307896324509;0x55881b783f611;0x26a6241d49d0a;0x5dcb965d48587;0x55aef2fcc7734;0xde03894d300f1;0xdea9464235b5d;0xc5b094ad4f2eb;0x5fac2a62483];[0x5cf5d7e84201d;0xa0f6b0993fde9;0x2d3d1b1521004;0x9664238c099b8;0xa6e21f85a2479;0x4b984a48ab6ff;0x496bc4fc91a0f;0xde1d4305d1735;0x7aa07b8a010e5;0xa2ff6198f1e];[0x0;0xb6b293d143381;0x8befc3988a462;0x246f611d2ce11;0xd6cf37f6c4959;0xda3c1eb85b9ae;0xbaba6b916c014;0x14b0bacb2e512;0x649b01dfc1559;0x2d90ac0971489;0x346e7709e94];[0x0;0x5988e0787275b;0x1888f589123af;0x89f0931ba3a3a;0x259d98f837a1c;0xf0f57e9b0c25b;0xf1045938c12e1;0xf79d308caef46;0x1d0dab498ac81;0xd064481ef2799;0x1fd89d5a78a];[0x0;0x673ef572781dd;0x5bf00211a7fdc;0x6aefea7d7dcb;0x45a5777c00e65;0xdd83308e03ee9;0xed72b3c4b7464;0x659850b0b8b49;0x56d1d0b08917d;0x90918abb8f40a;0xaac6d0e9591];[0x0;0x673ef572781dd;0x5bf00211a7fdc;0x6aefea7d7dcb;0x45a5777c00e65;0xdd83308e03ee9;0xed72b3c4b7464;0x659850b0b8b49;0x56d1d0b08917d;0x90918abb8f40a;0xaac6d0e9591];[0x0;0x4ccda30d979d3;0x4b9bb30c7c7aa;0xc378b0d68f135;0x6f58ea9a61eb3;0x31ac5e078f624;0x8357d6a4bddce;0xa85d72c25d734;0x85169884111d1;0x87a0009b8476f;0xd72f102d1a4];[0x0;0x4ff94643e7da1;0x85281c4ed53a2;0xec3b26020f93;0x35ebac97029be;0xdb9fe4eb3c55a;0x990baf1754564;0x9972a84860d0;0xb9bbccfb0a232;0xf6de61e9773a;0x87889e9fcb2];[0x0;0x297e8910ee010;0x8ac0f66c0df72;0x9aad3baf0ad41;0x1207666b7c60d;0x99dec61414bb2;0x2e57641161ef6;0xc3d05b56d56aa;0x68b254a9ad0c;0x940754138a171;0x89497f41a];[0x0;0xacc325f12359d;0x2153dc29dfb83;0x1afad56b499cb;0xd88f87ac7eb77;0x22dd57712a427;0x7cc7da187ceab;0xfdaab50d476aa;0x14a2e9fb1df90;0x595854f2945c0;0x9f300ade2475f];[0x0;0x69ed0946f0296;0x54314aa119503;0x1a72cbc09c3d4;0x4b8a37a622703;0x9bffa34933bc1;0x4e63daf9e6402;0xfb92c4f026dab;0x74351495fe887;0xecd550116aeab;0x1fd955e7ac1]]);
 ((V [0xf5bbc61deb623;0x333d9d4f49a5d;0xf59aec58054d8;0xb8bcc62b124f2;0xe8b86d5ea388f;0xcdf66a9feea53;0xc5afe2103df45;0xb937750c03907;0x6ff38b602a855;0x2cdb0731047] [0xd79872dd6974d;0x371f0c020eb3e;0xe6a7c56caf7c3;0xb444ced621827;0x5c68b65418f40;0xfb74c78fdb897;0x1a68ed414a71d;0xb64aa8aa4a464;0x49bff175dd867;0x64e87f868a8] [0x85e14ebb40ec2;0x923abd14fc80;0xb8a88a10035f4;0x5dfdc1fd79d73;0xd8646935f9d75;0xf1ad083b8bed3;0xa32add72321d9;0x70f2d6f3aa085;0x4ee2dad3b2a2e;0xd956566a1ac]),[[0xeb1387f642dcb;0x1914f79bb4b3c;0x2371121785d2d;0x5311cbc3e6e15;0xa3e050299e054;0x9c27f36e94456;0xf8241b3356714;0x7c04ab8d67647;0x30c736bf4fed2;0x5f35b37eb15];[0x7e71e120c33e2;0xfde847a1cfaff;0x5a00470e4c1e5;0xfeb821710d3df;0x9a72db440f454;0xd1bac619c03a8;0x470cec299144b;0xca5d32d534685;0x3328f8ee88db0;0x333f76bbc2f];[0x68f9815ca847a;0x704dfab30d18c;0xb010298ff9a01;0x97d935e3c2b36;0xd76f253417005;0x76123edb3a3;0xf179e86338779;0xc78a7edc236d8;0x7c06f34455ea3;0xec9ef49be17];[0x68f9815ca847a;0x704dfab30d18c;0xb010298ff9a01;0x97d935e3c2b36;0xd76f253417005;0x76123edb3a3;0xf179e86338779;0xc78a7edc236d8;0x7c06f34455ea3;0xec9ef49be17];[0x27e465ac26887;0x4272c7bc420d1;0xc256525158f54;0xf192de51c084b;0x2f443b3bc0b81;0xbe198d74d0d30;0x8961c054ce1d1;0xe0fd8debee6f2;0x15003d5d79645;0xba94bbc4e72];[0x568d7b749c923;0xbb757fe58da2e;0x97a9f4bcf3291;0xd25431f4cb93;0x6b2ea0084e8d3;0x13a138a4ef678;0xbdab2bd4c327a;0xe95fa4e945f92;0x1e28bb910f76a;0x78aabaf6dbd];[0x0;0x7b3494feef703;0xfe9c4eaf3cbb;0x5e86d9f95881f;0x8f91b801647c6;0xf5ae2ec75b604;0x5cb3218bcd2f7;0xa0248100c4cbf;0x7c94f3232c6ae;0xd8e597494fa00;0x9253767cd86];[0x0;0xf3c48f6840e44;0x23c55e02736e2;0x96e91ad223f6a;0xde2c30c8a0430;0xba1b2a6104489;0x985de997db722;0xa1cd3fccea826;0x56d0f3e487693;0xd2bbf08000282;0x58009f96bc1];[0x0;0x69ed0946f0296;0x54314aa119503;0x1a72cbc09c3d4;0x4b8a37a622703;0x9bffa34933bc1;0x4e63daf9e6402;0xfb92c4f026dab;0x74351495fe887;0xecd550116aeab;0x1fd955e7ac1];[0x0;0x69ed0946f0296;0x54314aa119503;0x1a72cbc09c3d4;0x4b8a37a622703;0x9bffa34933bc1;0x4e63daf9e6402;0xfb92c4f026dab;0x74351495fe887;0xecd550116aeab;0x1fd955e7ac1];[0x0;0x10d16976fedb;0x82c4574260d7;0x276149ef19a90;0x3a1d6acb0dbb7;0x22ef7dc18903f;0xd31ebcdf07f8b;0x59b21dce8002b;0x5324b10263a1;0x9ce949f0cd586;0x6239ef026e7];[0x0;0xabe9ff1411877;0x67aacdde79a72;0xd720b106baab2;0xd7f2e3c71dcc8;0x3958bb9cbdb51;0x80193a18991f7;0x453be1b1f266c;0x584c75e26820b;0x3df6213a09020;0xa53a4b43cc];[0x0;0xad7fde2c3ca43;0x7cce8658be33b;0xe5975c5cbf8d6;0x93ed6fe906b0;0x1adc2b8cb1134;0xca676e1e2d5d5;0x6ad111a44a36a;0xf981adfdc81c4;0xb3f351f7c236f;0x8fac123646];[0x0;0xdec22637168e5;0x4e1307412d4ca;0x6d1f48225f10c;0x341f77406cab2;0x19555e033e607;0x9d54c4071ed18;0x3c275bac64bbf;0x28d0647217db8;0x6e0fcf0382737;0x653934b0a4b1f];[0x0;0x135964a8e2f13;0x6f65b2012e88f;0xb65155143669;0x3eb1782efd846;0xf713a9f1330cc;0x3b5714f6f4c01;0xa121808edfe48;0x49b25c2aa8b03;0x6ea8e42b21fbe;0x11ae4ba5e5a]]);
 ((V [0x414ec4994414a;0x6f7f4f24bacf3;0xdfa7a8d9684ef;0xb507020bd6424;0x1050c782fd4f8;0x49526fe5794bb;0xdd25fb87fbb16;0x617199f2c8df5;0x735822f18a49f;0x8dff243d558] [0xeada10b5aa7ed;0x5a21b3ad4e27b;0x782d5c7bc4ae7;0x8a1a689e05720;0xb2c9edc8da44;0x288b4a432d91;0xabc7a9765dc53;0xddd18c76de338;0x271a2b44b0dd0;0x66ff5160f56] [0xb0b2d1a394889;0x3b9a7f8c2932f;0xf6dea4f7064d0;0x37e01756ce94e;0xb48d5502c1edc;0x1c5f8c1835c9f;0x4c83664c61d0e;0x57540a763befe;0x1df3695d498da;0xcbb204d2b44]),[[0xf389a3287d895;0x87fd26b085711;0xa29b905ce43bb;0xce7a19b57323f;0x4d8e9a61734ad;0x2037260e38094;0xc003f4df88c39;0xf5a2fe405ce94;0x8d1be6d8628cc;0x650d671cbe7];[0xdaf3a270e9311;0xa6c23d0094aa1;0x108756f772c52;0x2e8298cf2e915;0x6f79333405d4a;0x5a153c4727459;0x5574c93d987bf;0x8f6b03f55a749;0x95a4220cf856;0x61bd3ac6929];[0x85e14ebb40ec2;0x923abd14fc80;0xb8a88a10035f4;0x5dfdc1fd79d73;0xd8646935f9d75;0xf1ad083b8bed3;0xa32add72321d9;0x70f2d6f3aa085;0x4ee2dad3b2a2e;0xd956566a1ac];[0x85e14ebb40ec2;0x923abd14fc80;0xb8a88a10035f4;0x5dfdc1fd79d73;0xd8646935f9d75;0xf1ad083b8bed3;0xa32add72321d9;0x70f2d6f3aa085;0x4ee2dad3b2a2e;0xd956566a1ac];[0x8bd0446d96e66;0x4508dc5caa838;0x60853614dc036;0x6468d690f7945;0x7d779ab5f714;0x8d35a7f36323;0x695b9603f5854;0x4e8afdcfbd074;0xcb5ad519c1cd4;0x21bbad39691];[0x4f235e03524ac;0x61b960a3ea269;0xb00220e296c1c;0xca19c23e36fcf;0x67a1b988a6635;0x5141e1c7f1136;0xec193339a2f6b;0x40e006259d6d4;0x3dff6d070db82;0x40018d8d297];[0x0;0x9f96ba91cdd9d;0x18df684d19b2f;0x234a03621c3ff;0x5fd6e5849d1e0;0x5f9d4714377e3;0x17bcc1ac60099;0xb85f8b9a8ffa4;0x8a4ecdd9d34bd;0x38940160bf2ef;0x8666aa65612];[0x0;0x1c6a24167415f;0x41a6f7d0fc8c5;0xba0bc0c7c01fa;0x2d01cd6767ac;0x39e2aacc29b1f;0x9e680f93ff541;0xe528177e7366d;0x4fbb5371fa3a0;0xdd904b03fb1a7;0x55ca710463d];[0x0;0x135964a8e2f13;0x6f65b2012e88f;0xb65155143669;0x3eb1782efd846;0xf713a9f1330cc;0x3b5714f6f4c01;0xa121808edfe48;0x49b25c2aa8b03;0x6ea8e42b21fbe;0x11ae4ba5e5a];[0x0;0x135964a8e2f13;0x6f65b2012e88f;0xb65155143669;0x3eb1782efd846;0xf713a9f1330cc;0x3b5714f6f4c01;0xa121808edfe48;0x49b25c2aa8b03;0x6ea8e42b21fbe;0x11ae4ba5e5a];[0x0;0xf2b4b772ea725;0x4be45ac1b9313;0x612f95783767c;0xcff1a23e27cf6;0xaf6c5150d1b3b;0xa0903f4e909af;0xa1341de273795;0x18aa5919d6d03;0x96e5ee9295045;0x27c676c87f9];[0x0;0x57f557eda9efb;0x1fb760a2e97c6;0x21613fbb2e7c9;0x1505a35b9107f;0xed114e0c5c093;0x5719efefa6609;0x9660d2a0b1591;0x58f8fcef9e25e;0xa42f5612f0f5d;0x7dc05de279];[0x0;0xb993cf42a0ad0;0xfbf96ff3ba21e;0x8d9821d798fae;0x690157d64f121;0x767839895b603;0x68440b0bd085c;0x2ee8f28b75846;0xcb667417c4ba7;0x80219855d3417;0x3636a2b2f18];[0x0;0xb5e3e73b667c6;0xe318eb284b54c;0x925962b51ef9b;0x24caa0dfda2fd;0x5347cb5c47612;0xf70307ed7c262;0xb141840819bf5;0xd3f19b9398c2f;0x3ecc8a5e9b489;0x673efdd25bc96];[0x0;0x786a026c12d3f;0x4bc36ab61030e;0x8205419f3c9cb;0xd3a3e539ffb5c;0x34a78b4d60728;0x4f838bb97a681;0x9231b923f2aa8;0x5f499a285e1f0;0xcd87276dd2949;0x392146b90b6]]);
 ((V [0xa9a4140d86ef1;0x7a78a388f379b;0xcb0811668a502;0x34c2c3c2c0f91;0x6a446aef2f2f0;0x73aa09aae74b7;0x81fd8af8c52b5;0xb7fb40e37e7e9;0x900a8ee86fb31;0xd387106655a] [0xe6e09791c8c59;0x4d3057214f07f;0xc00a8dbf5c637;0xefd75796570ac;0x56c1b340f823b;0x9e0de3135f115;0xc97938c122e6;0x8f169e71a78d4;0xfa1e1503fd553;0x1808f7eeea3] [0x1c50353794a85;0x42bca8082f5d8;0x3a7184a600ec6;0x3a7e36b5bb163;0xccf4e43049265;0x83581d2f5627e;0x25ae5e273b7e0;0x256d74e1375ab;0xf96580eed9ca9;0x626076bc24d]),[[0x4739b90f0a390;0x1256bfd20c8ab;0xee458dbb029b8;0x486fd0315887e;0x1f825a8988534;0xab44f247aa3ec;0xe60c4f1df55de;0x38f974940fcd6;0xefae953a396b9;0x51a03a91708];[0x63869efcc0eec;0xff3331dc0adb2;0x9a17a3275e02e;0xe74331e31ee94;0xefe6e250650cc;0x8f1ff51fe96b8;0xe1e026abc7c2e;0x828070c23baf2;0x830066d416f71;0x9630ed5f049];[0xb0b2d1a394889;0x3b9a7f8c2932f;0xf6dea4f7064d0;0x37e01756ce94e;0xb48d5502c1edc;0x1c5f8c1835c9f;0x4c83664c61d0e;0x57540a763befe;0x1df3695d498da;0xcbb204d2b44];[0xb0b2d1a394889;0x3b9a7f8c2932f;0xf6dea4f7064d0;0x37e01756ce94e;0xb48d5502c1edc;0x1c5f8c1835c9f;0x4c83664c61d0e;0x57540a763befe;0x1df3695d498da;0xcbb204d2b44];[0x13c8b02d41ecd;0xe9ad02752e8a5;0xca17077a43068;0xb66b35e921153;0x56757aa1d1811;0x6fc323fa84595;0x7184d78ef82a2;0xdcff0c7fe1e88;0x2f94486408d14;0x48c71c2c89b];[0x4fbdeecf7f020;0x15862f66dc50d;0xd0009bad1afc6;0x30d7fbf9fdd40;0x997167ae938bb;0x1f5cd12565123;0x705b4f1ccf98c;0xa581644259c6a;0x536c1e700e25c;0x4d69d1327ae];[0x0;0x82a0fa22d39c0;0xf511d5ee2c451;0x135063c6b63f7;0x83b66b5d8d4b0;0xa4f118974071b;0xff9e7b6493306;0x2a3911882f4bc;0xaab143573f2a2;0x10f6ee1dfd067;0x7df705589a9];[0x0;0xcefc7b6818dbc;0x5ad9e870c574f;0x1dbc09ccc4a88;0x8be19f6310219;0x6acc5afe44349;0x6087bdf2cea73;0x3487d049380cf;0xce504e40afb12;0x59f7b296d8cf0;0x40f2d163bd3];[0x0;0x786a026c12d3f;0x4bc36ab61030e;0x8205419f3c9cb;0xd3a3e539ffb5c;0x34a78b4d60728;0x4f838bb97a681;0x9231b923f2aa8;0x5f499a285e1f0;0xcd87276dd2949;0x392146b90b6];[0x0;0x786a026c12d3f;0x4bc36ab61030e;0x8205419f3c9cb;0xd3a3e539ffb5c;0x34a78b4d60728;0x4f838bb97a681;0x9231b923f2aa8;0x5f499a285e1f0;0xcd87276dd2949;0x392146b90b6];[0x0;0xdb0235272884;0x9c79f132f6b82;0x2d33a13e71216;0xeb5190a71a9c0;0xecf73238290ab;0xd94e7b33b7a7f;0xbe576373695e6;0x4e0028e4d292b;0x1ccad4ac2c003;0x2970737c7c9];[0x0;0xa44e84ecf4c9c;0x5044d655d194;0x5a2b5c42c44be;0x2f3b48ccd5e3;0xf14bcb028382c;0xfdcb5f199d664;0x59e997b74faf6;0xd4a9be460f0b5;0x8a30de74a26aa;0x4ec30c34c78];[0x0;0x14206f9abd99d;0x42f3186fb1ea;0xe1544946f54e6;0xd4e9edd432f21;0xe00721fc0e05e;0x2860ccd04ab05;0x28d6bbc18938d;0x86e56b3219974;0xac57c53611a2e;0x7c199111967];[0x0;0x8f9864e7659b8;0xd083cd98201bf;0x68ee31d85675;0xbae2301bc495e;0x711d78135aeb6;0x85b01002dde1c;0xb6192089ccda1;0x88068ee591f5c;0x9b02e1fdd65e0;0x1812e70d9b768];[0x0;0x6ad7da716229c;0x3f393b904d8a4;0x38d922a0ab73e;0x750a2d6aab25b;0x36ea9798cf3b;0xe318c94d8b22d;0x3d0add6022fb6;0x16d433eacd774;0xc8a1e3f35ff9a;0x13dc129ed52]]);
 ((V [0xcc4a75f0809c5;0xe44c8104fa288;0xa657a7d4cd23e;0x83a261c1d3cdf;0xc250bab6965f3;0x7c315de3da68;0x464985dbcbf2d;0xdea13f0729c65;0xc2d2a1e65b486;0x814d9822c82] [0x368eeef59a6a2;0x2161f4700aef3;0x13b3174858931;0x1c99d92af2839;0xf1432f3991ca8;0xc843daa37467d;0x5914c37782178;0x4bc9f4a7108f8;0xb938c23dfbe4d;0x69c382a63c1] [0x860552e2dea71;0x5ae22be9c2377;0x1980e056d3035;0x304aa7adaf779;0xa494939a3f5e4;0x7dc697d9569ec;0x2ec3b33bb5ed5;0x3c562b44885b2;0xdbdab8f016d7b;0x8a625a43051]),[[0x7a9e2ec9f94c9;0x16ae2bbba2483;0x2a75ea03f6766;0x27fa304c63ab9;0xb31dac60f8dd0;0x69cbe75dc6187;0x4b17a0f812e8a;0xe6fee2048504;0xaaf2b0f2cf12a;0x1c2e90912cb];[0x4657cd120d946;0x9fcdd5f734e65;0x1ab1b4f521771;0xb91667b9c25f8;0x1a6f21c1a25a2;0x53766c05ac4ab;0x1f5442e267687;0xc04f63bebca2f;0x37767f4fddce2;0x6acc37e4910];[0x1c50353794a85;0x42bca8082f5d8;0x3a7184a600ec6;0x3a7e36b5bb163;0xccf4e43049265;0x83581d2f5627e;0x25ae5e273b7e0;0x256d74e1375ab;0xf96580eed9ca9;0x626076bc24d];[0x1c50353794a85;0x42bca8082f5d8;0x3a7184a600ec6;0x3a7e36b5bb163;0xccf4e43049265;0x83581d2f5627e;0x25ae5e273b7e0;0x256d74e1375ab;0xf96580eed9ca9;0x626076bc24d];[0xcccd6ce64ad68;0x43c85b000f035;0xb6817f97eedbd;0xcd891327d7385;0x8b9d0e004b593;0x2f376581b0044;0xd2f2e195cd458;0xb7e87f0c78985;0x23dcd84cea340;0x4a03903e2ff];[0x798a602bc2bdf;0x5c057af725e2f;0x6430355d329b4;0xeb8d5491eb272;0x8ed213c15700e;0x243f0683fc466;0x4c61614c9a22f;0x866e4b2440a9;0x1399a702f39a2;0x20c8a7a6611];[0x0;0x35a6e331f8001;0xbc4a034dc1ee5;0xa2d4d9446041d;0x950b0cd55024f;0x5d26b19136b39;0x7dbacf2a49f4f;0x3dcb6c4900eb4;0xe956062f200d0;0x748101b269824;0x3cd608ff9b4];[0x0;0x9800493b075a1;0x5ee0f13f6ca91;0x5a273ab514249;0x90bad6a605031;0x848d9a9991446;0x8824a19a61077;0x38a665bf06729;0x92b80984a1a6b;0x47bbc64e70f6a;0xad471dff67];[0x0;0x6ad7da716229c;0x3f393b904d8a4;0x38d922a0ab73e;0x750a2d6aab25b;0x36ea9798cf3b;0xe318c94d8b22d;0x3d0add6022fb6;0x16d433eacd774;0xc8a1e3f35ff9a;0x13dc129ed52];[0x0;0x6ad7da716229c;0x3f393b904d8a4;0x38d922a0ab73e;0x750a2d6aab25b;0x36ea9798cf3b;0xe318c94d8b22d;0x3d0add6022fb6;0x16d433eacd774;0xc8a1e3f35ff9a;0x13dc129ed52];[0x0;0x5210b92f93e2f;0x3651d0e9af2ef;0xd2f777dc17bd9;0x847f17073af4c;0x68e319d41d91f;0x2a1f92ad16645;0x484969a5854af;0x5e5c73411eb8b;0x979538c2b278a;0x241aecd3af];[0x0;0xbfc91aff6fcee;0xaf346f0472fed;0xd3e41b2cec9cf;0x344feb324d09f;0x5ed6488f4a5f3;0xe075859bda4c8;0x3b2296dadca8a;0xe41f9b141202f;0xfe2f2aac962e1;0xaec7ec4afe2];[0x0;0x8f95ab98e899f;0xadec3664bb60f;0x7bad08237f606;0xa32ecd1e4ab6b;0xe6de40594ad5c;0xb9a0d6eab6660;0x356295458d9fc;0xcd0b11ebf7a5f;0x3794742aa893c;0x35f1470ec0a];[0x0;0xc9df22b08126c;0x7d707fe16c5f4;0x1041ab6c86da5;0x1c27874611739;0xd48894fa6731f;0x17b7fb0608252;0x19b886ed9ee7;0xc10861099932;0x890076f39e844;0x6a0126d5e5f73];[0x0;0x6a5e7226cffff;0x4ac91fa043098;0x9eb58baa2dfd5;0xeccc470a6e0cf;0xc7bddab99f4f4;0xdb67420e302c5;0x122ae434cccd0;0x9186ea75f16f3;0x705be72a0ccfb;0x356b937e848]]);
 ((V [0x7412ecf034704;0x2a239e38e358b;0x9a3115037176c;0x13f619544d223;0x93dfb4099fb47;0x4e73849019782;0x484bb56b328aa;0x8a0eff82cb518;0xb8fd26609b2d4;0x156087adcf8] [0x4786216e0670;0x1d84430e1ae6a;0x44ef63e08e4aa;0x56e8af182e149;0x68d324924dd6f;0x2f7c2c56adb71;0x5d064a7d62a03;0xc6beaa4bc2afd;0x972a29ffdc0aa;0x3c62981e358] [0x210c12c17880;0x93e0376b59560;0x64e25708dc7b5;0xcf1b078abb193;0xae511778a2684;0x811a9d33f2858;0xcb613017fa33f;0xe78915345245f;0x764222072bca9;0xa3fe0a5e732]),[[0xb31748d17e95e;0x564d67f23ffb0;0x5a507087e973a;0x7c21e23985174;0xca646e686527e;0x3ba860ce65755;0x6ef75bcd50835;0xf8a6efdfe3502;0x7365bc76c207c;0x689f5d96bf6];[0xa78f007c5d775;0xf387b2bd21442;0xaa74825858f3e;0xd951797c71357;0xbf7e1f0ae9da0;0xee21e7f48d648;0x9137cbc13c3ec;0xb1221d367ddc2;0x52eab1f5d5703;0xbc93065895a];[0x860552e2dea71;0x5ae22be9c2377;0x1980e056d3035;0x304aa7adaf779;0xa494939a3f5e4;0x7dc697d9569ec;0x2ec3b33bb5ed5;0x3c562b44885b2;0xdbdab8f016d7b;0x8a625a43051];[0x860552e2dea71;0x5ae22be9c2377;0x1980e056d3035;0x304aa7adaf779;0xa494939a3f5e4;0x7dc697d9569ec;0x2ec3b33bb5ed5;0x3c562b44885b2;0xdbdab8f016d7b;0x8a625a43051];[0x2d6954871ccff;0xd547582504f70;0x24478c86386b3;0x58e2a8ab8fef0;0xf131f3eb2422e;0x2bc89b38ff582;0x49ceba315bf7a;0xb94cec09a1b40;0x2edb9e2c62ba2;0x9bddb40e55b];[0x7a25abf540a77;0x1e405a981c4d2;0x862cf5d22088b;0x806ed0d0e1467;0xce4c2b1fc5b72;0xc2594cbb8e0c5;0x4769118fe0472;0xf7d5312cdc282;0x240f13c972b60;0x20b5524a3ff];[0x0;0x6715c9705317e;0x7e4024e4c814c;0x2b4fb19794e40;0x5364ad1d05e03;0x95fb392f441cd;0x8a08cde6fbea5;0x501f5e49ec4ba;0xfe70d332c242c;0x8e5ae8389949a;0x55939aa0a13];[0x0;0x1f553501384af;0x248adae2ed45d;0xe04963ca415a9;0x43c95051d7831;0x487e322221b22;0xb48c7789db533;0xfa7584d589ff4;0xcd8c819a60420;0x6aaf3fa903b6f;0x388e1a58819];[0x0;0x6a5e7226cffff;0x4ac91fa043098;0x9eb58baa2dfd5;0xeccc470a6e0cf;0xc7bddab99f4f4;0xdb67420e302c5;0x122ae434cccd0;0x9186ea75f16f3;0x705be72a0ccfb;0x356b937e848];[0x0;0x6a5e7226cffff;0x4ac91fa043098;0x9eb58baa2dfd5;0xeccc470a6e0cf;0xc7bddab99f4f4;0xdb67420e302c5;0x122ae434cccd0;0x9186ea75f16f3;0x705be72a0ccfb;0x356b937e848];[0x0;0x649461c934653;0x38eeba8898fba;0x9e94d6c97309c;0xcf83f9c348b8f;0xa0b5d01bf9a6a;0x6e519c448ab5b;0xe24e35eb6193d;0x3ac91de3be9c6;0xb7209c0a6cf47;0x2bb1f67ca93];[0x0;0x26cfc82d47ce;0x9b608177b13a;0xed82c330ebf4a;0x85e0462a94201;0x304a465774c45;0x4f86a4ae6b6b1;0x104e9acd9799b;0xbcd5bd5e48c16;0x24285dbdbda98;0x414f4ad7ed1];[0x0;0xa8edeb6db9d5a;0x96133402e0c41;0x165710b4896ee;0x576836923d61b;0x99608d9a92f1a;0xfc22f729484dc;0xf1e018d2c2c6e;0x64539383b6a42;0x45b73f5656d6e;0xfbf2a99361];[0x0;0xf865b7df47cf7;0x60124b2ea6827;0x9c1219729aca4;0x573358ca2fef4;0xef25c320678ea;0x3c89d27d66fc4;0x66224651fbbfc;0x3c369f8f67e1c;0x10e6b07b67bb8;0x3c727fa081019];[0x0;0x2a7c10a13c4c0;0x34c420db60803;0x10e2d29442122;0xd667762fa9486;0xa2d5c4947f8e2;0xe066b9772156a;0xf56d6f7359a25;0xb341ab70034c7;0x5b90db70e7a7f;0x50adb74838]]);
 ((V [0xe2451a2fea67e;0xd595516fc08d3;0xbde5dca0021b7;0x86d7e549fd60e;0x84b291850368d;0x63c070e5d20e2;0xa99966897847e;0x4d8275bd504f4;0xf29ac31cacfa8;0xb8e5542b661] [0x9d5414f2f4ce5;0x978a2904f1a7f;0x975f25d751a43;0x213b1f184a91c;0xf7dcd37eec97a;0xa733e9c3a38b8;0x665b70bdf2472;0x50dc012ad2bfe;0xc4b7f15e4d0e1;0xe98fec87d44] [0xa42e90c69f44;0x6626db09c63a;0x8a3e2efd97142;0x89ea5f83084aa;0x17913fe4786a0;0x3cf16cfc77d52;0x46ee7a48ff48c;0x140dadcb9bce4;0xd9093d1f65efb;0xdd0952b7641]),[[0x301cbe621d9c0;0x8ddbe368470f0;0x3b8dd391ebf7;0x4857151540420;0x8e650714a4dca;0x52b254d60ce8a;0x90226dcc56109;0xe988cc32c8a5b;0x137c9b5c7f970;0x47e12817121];[0xfc64591e5f12a;0x865d6faa33f19;0xf9500bc322e8;0x3b8e353480f53;0x6d24cbb1c8a39;0x809e0c94a033;0xf11c702deab00;0x24ef0bc33a58d;0xddd96ad63276e;0x302ad9406e8];[0x210c12c17880;0x93e0376b59560;0x64e25708dc7b5;0xcf1b078abb193;0xae511778a2684;0x811a9d33f2858;0xcb613017fa33f;0xe78915345245f;0x764222072bca9;0xa3fe0a5e732];[0x210c12c17880;0x93e0376b59560;0x64e25708dc7b5;0xcf1b078abb193;0xae511778a2684;0x811a9d33f2858;0xcb613017fa33f;0xe78915345245f;0x764222072bca9;0xa3fe0a5e732];[0x6f7f7bea501f5;0x2cbebee411e07;0x960ea66f98b1a;0xa6bf2b672516a;0x200201561884c;0xbc2ed41c30c7a;0x55d50e63c9391;0xc225d5de9836d;0xe3fcdd41ccbe8;0x83b4de9269a];[0x8ce4dd340ecfd;0x599eb0c622112;0x79865a4c997ce;0x94cf09cd5bde8;0x4d22ca5bb01ec;0x4bdb0cad193b9;0x9b4761ca2176e;0x62c935e4a2220;0xf9dc8d9465b85;0xac75faae04d];[0x0;0xdaf4566c3fc0;0x871895f6802b8;0xb70b5f0043359;0x74a0dd3c82810;0xe81ef0ab9bc74;0x26b37c353fb76;0x8b17c800a1d65;0xdb74678f1285e;0xe403f811fe645;0x6569a1b877d];[0x0;0x50c5b28ee127a;0x8ef582b469c88;0x906fee22f7e0;0x5235e86727f74;0xac280f91e67f3;0x836f83d9b8de1;0xe986a5c225d82;0xf8fcce68131cb;0x7b73518af3c74;0x2e0bb0d5c7f];[0x0;0x2a7c10a13c4c0;0x34c420db60803;0x10e2d29442122;0xd667762fa9486;0xa2d5c4947f8e2;0xe066b9772156a;0xf56d6f7359a25;0xb341ab70034c7;0x5b90db70e7a7f;0x50adb74838];[0x0;0x2a7c10a13c4c0;0x34c420db60803;0x10e2d29442122;0xd667762fa9486;0xa2d5c4947f8e2;0xe066b9772156a;0xf56d6f7359a25;0xb341ab70034c7;0x5b90db70e7a7f;0x50adb74838];[0x0;0xd2cca5b7bd49d;0xb53963239e8c9;0xb0c5a59a7c0e4;0xd647ae5df3d00;0x8cadd82846af0;0x8ec120b2b0c6a;0x86153f5c9b5f7;0x9fd10b02b1fe2;0xd4e1bcf0b9ff5;0xe3e5d46fa9];[0x0;0x523f8cabcb855;0xe90de3ab71c26;0x31f7e7af2d4ea;0x2826b2236f3c1;0x45b16092382f0;0x4b7c5cfd59a5d;0x5659d01ad10e1;0xe21116afd1a5e;0x1552bbf1d6744;0x1c8faa88e5];[0x0;0xe5ca7506ac286;0xff3a711ac761f;0x7bfe32b996de2;0xfd511aeb16dc7;0x9c33fc29a0622;0xc66adb111f761;0x61f8331e67868;0x92c9feb5feff;0xb6ddbe0bf962b;0x22c9f250dfc];[0x0;0xb831cfb63fcb1;0x89df6a9756458;0x2a6202a293e60;0x57aeb071967dc;0x5aa2299212c9;0xb6f3fb4d11df9;0x7fadd9e5b53aa;0x1a9fcd1246f6a;0x91ceca8f0505d;0xea4d8a6030122];[0x0;0x9c4113aab4fe;0x49f7b2445c7be;0x5a5b0e7534039;0x320953e361934;0x335d089d157aa;0xfbff576f987d5;0xad401b1a69d42;0xc057dcf264dab;0xcd1ad7c0cca38;0xa8b0ac8b080]]);
 ((V [0x14a7b51406432;0x6b9e2017b4273;0x748a7a7c246;0x7c1888989f683;0x63a38ca702eed;0x19d3b275778e4;0x77194c02a3a82;0xd798c3e13c1a5;0xb761cadb13155;0xd7481f12e4c] [0x9eb5550a045e2;0x763bcbb5943b9;0xdea938f48f6e5;0xf46fd30b18d70;0xbd5b770a42b79;0x8fe9b8361cd6a;0x91a7f8a91f051;0x89bef3c1def1d;0xfb9638834ff90;0x71037071e8c] [0xefafda9cfe8c4;0x25b012c277783;0x6f57d9901ef16;0x6c30547e3ae00;0x8d5f4fca6b2;0x74b5b85a5e6b5;0x409f105c40a64;0xef124f6214ba2;0xc3b0d623f1adb;0xa2f41e5c3b9]),[[0x11e3761ca3101;0xa2984e5ca040d;0xad3481eaebf4a;0x2ab027ab91bc0;0x875c2b3df90c4;0x2cf6b5a8d30aa;0x8d58f196fc712;0x4c7cc47636e6d;0xc7ee51d8fb664;0xe9ad98ac07f];[0x654ecc5547974;0x7ca5ff05531ca;0xcb6a45eb4b10f;0x6627e639e0777;0xbeb9520815170;0x3ba1644282916;0xc35374bc670d;0xd7269bad2690d;0x6d3c822d775c2;0x966bbfd680d];[0xa42e90c69f44;0x6626db09c63a;0x8a3e2efd97142;0x89ea5f83084aa;0x17913fe4786a0;0x3cf16cfc77d52;0x46ee7a48ff48c;0x140dadcb9bce4;0xd9093d1f65efb;0xdd0952b7641];[0xa42e90c69f44;0x6626db09c63a;0x8a3e2efd97142;0x89ea5f83084aa;0x17913fe4786a0;0x3cf16cfc77d52;0x46ee7a48ff48c;0x140dadcb9bce4;0xd9093d1f65efb;0xdd0952b7641];[0x4f33d213b2f24;0xd23e5a3f0b964;0xdd91370dcc402;0x99fc4a71d112b;0xdb44e20c37f67;0xce503615c17b6;0x458e5cc8f8e4d;0xa660f5ef7bd6c;0x2d310a2e1d2c3;0x49d464dde66];[0x161afa4194a51;0xaa67a4c647866;0xedd90edd7ed0c;0xcc2b9bc80f64b;0xe3746ffbdd208;0x6d512e2cc115f;0xc6a6da82cd8bf;0x30c5a5bdaaba0;0x400b77ff5a2ff;0x4c975af89a7];[0x0;0xe239351c561c9;0x71d6ddc6e48bb;0x5d2aa62610eda;0xd1b217f339e73;0x2e073f45b7b6d;0xcab86b0cc753f;0xe1caa2131a82a;0x41a46ddcaf725;0x1712bee24dae4;0x88b047b2fbd];[0x0;0xeaff55c1ec7b0;0xf972b7d0783b8;0x4929fca833546;0xee76bc6dcc8ae;0xf6b99f04b20dd;0x1884cc1cbd7a2;0x18847fcc2d8ea;0xbbfadb1f25e53;0x34b3ae989c95c;0xc9c35f67e25];[0x0;0x9c4113aab4fe;0x49f7b2445c7be;0x5a5b0e7534039;0x320953e361934;0x335d089d157aa;0xfbff576f987d5;0xad401b1a69d42;0xc057dcf264dab;0xcd1ad7c0cca38;0xa8b0ac8b080];[0x0;0x9c4113aab4fe;0x49f7b2445c7be;0x5a5b0e7534039;0x320953e361934;0x335d089d157aa;0xfbff576f987d5;0xad401b1a69d42;0xc057dcf264dab;0xcd1ad7c0cca38;0xa8b0ac8b080];[0x0;0xa770c7c6300a3;0x6e49f7b12ed79;0x488db5dbeffd6;0xd5ac461ed80ac;0x1cf2526facd4;0x584d184da9974;0x3cd1884e5833d;0xdf583a5e2ca7f;0xcc627f18d5e09;0xd5174d795ab];[0x0;0x3de64bf60a2b5;0x480d4739b2e90;0x12d78f423c9d7;0x8aacf49be9628;0x15edd31032e7b;0x661888396f8ba;0x5f75f2aa6f18d;0x9b18b26cc07c6;0xe0208003278df;0x858a766e141];[0x0;0xcd9be6fac071e;0x9461b89e7f98d;0x58a685705d957;0xdadc217500ea3;0x2471656e64f7f;0x3ae4859c8a0c9;0x8b0b5abebe006;0x404d02c2161e0;0x6a2aa666928bc;0x7e7edead40c];[0x0;0xc4be2fe158902;0xc33d4bdc00756;0x881e4544dd96a;0xf5eb0695a4430;0xdc3073f821ca3;0x850b8c75c5ac1;0x99098a28aa42b;0x63a439cf90346;0xd8cf632758f5a;0x71320c4d57b7d];[0x0;0xa5ad8702d4fa0;0xc3936ae966797;0x59e3e5070de16;0xe5a27db051ec2;0x1cc1c8f4d5881;0x90187b66e296b;0xe0f00bd5d9162;0x6758c1cfe1489;0xc84561dffdfc7;0x5f09ba1f0c6]]);
 ((V [0x17194c1fcb505;0x8ed1b8e491842;0x36ebe45f348b2;0xd78f96a0a1453;0x80661f776251a;0x125c71b9f82a0;0xaf47651e86a99;0x84728bbd5d257;0x10ef878b6275f;0x6700c63d6a9] [0x731effa3a0f70;0xd448b08ad20;0x9947b2d33b492;0xfb1b12f0bbabb;0xa376889b916b0;0x1db6279316fff;0x3f486e36885d7;0xf0a9d1102b6aa;0x55bbe1e27db1f;0xa8142811ef4] [0x8ba71d885a3c4;0xd6e2c06e05db0;0x543999efc68c2;0xe61e156d25238;0x8e56d6ec86546;0xb21b9336e8695;0x6a3b360ef0122;0x861372a3862de;0xe877f1d001c69;0xe94c8ec94d9]),[[0x578e78e2013d9;0xd621d57b02a8;0x5f819075e5f65;0x53d210f22181d;0xed08de6d2b803;0x95ebaca83599a;0xd83cf0d68a64a;0xd00a228b40c73;0x95eff751cdc88;0x3b7338d9aff];[0x440d51cdeadd6;0xbde04ec9dd53d;0xa80510917ca54;0xcc75d79b5f390;0x54c72c346c27a;0x991834eea268;0xe65f697167b8f;0x1e5cc71c729be;0x394c261335392;0x6367dce153];[0xefafda9cfe8c4;0x25b012c277783;0x6f57d9901ef16;0x6c30547e3ae00;0x8d5f4fca6b2;0x74b5b85a5e6b5;0x409f105c40a64;0xef124f6214ba2;0xc3b0d623f1adb;0xa2f41e5c3b9];[0xefafda9cfe8c4;0x25b012c277783;0x6f57d9901ef16;0x6c30547e3ae00;0x8d5f4fca6b2;0x74b5b85a5e6b5;0x409f105c40a64;0xef124f6214ba2;0xc3b0d623f1adb;0xa2f41e5c3b9];[0x1296e76d76be;0xc8fd6e25a7075;0x725f95aebd5f9;0x6fe7106e3c580;0xcbe43da451e5f;0xee060250ef243;0x6aec50c04d23c;0xdbeee79de113;0x53dc98a58ab52;0xe475bfd007b];[0x42e3e357134e0;0xf4e2e0a4364c8;0x35a57ae2bf45a;0x5c8ec72d22e10;0x88e2ee901a41b;0x1b8b80fdfb024;0x7b7318b11a952;0x109dd8a2948ab;0xe56f8d6daa840;0x21c0bdfe0d7];[0x0;0x366baccb84361;0xd773258779956;0x270e9fd6d5d99;0xca2411a9b3e0c;0x6d914434c1b1f;0xbbeb54289c78;0x4a5d949bb69dc;0x31fad91b50c67;0xbcd37bcc67534;0x64c52f9e18b];[0x0;0xe97b73a014942;0xa07fb1403aff7;0x4086fe6b1c567;0x87a9009907287;0x16aa552c54c82;0x7543dbb8ccb87;0x4d6cb216543b7;0x844809e31dc0d;0x14eae24527d6a;0x25d79ad8dcc];[0x0;0xa5ad8702d4fa0;0xc3936ae966797;0x59e3e5070de16;0xe5a27db051ec2;0x1cc1c8f4d5881;0x90187b66e296b;0xe0f00bd5d9162;0x6758c1cfe1489;0xc84561dffdfc7;0x5f09ba1f0c6];[0x0;0xa5ad8702d4fa0;0xc3936ae966797;0x59e3e5070de16;0xe5a27db051ec2;0x1cc1c8f4d5881;0x90187b66e296b;0xe0f00bd5d9162;0x6758c1cfe1489;0xc84561dffdfc7;0x5f09ba1f0c6];[0x0;0x7b9e53a23ed0a;0x5cd99af2d9cce;0xfae9b5502d097;0x9706bb8801337;0x282d23b7bb1a0;0xb5a12bbf94aef;0x78f6c7fe87334;0xf17d3a460d775;0x6b4ed53e5e479;0x31e40950639];[0x0;0x9bed839bb43fc;0xe2637bcfa3792;0xeee5bd6d874da;0x2394fbaeffea1;0xc9e8501e6dfdd;0xd9ad2c3576e19;0x3f7ec7d8e8a8e;0xe4a72376c6d51;0x407a4db93eeba;0xb50a38833ab];[0x0;0xb0fe396c4effd;0x54f7141646d7b;0xfaea8fe879b39;0x5a3b7f145a621;0xf24dada8e1336;0x532eccdc53d59;0xf0bdbc3e03048;0x699583574fe83;0x734acc08ee966;0x27ff16d8d6];[0x0;0x4e109d9bfc0ed;0x42712c3f67019;0x55cdae124e087;0x90b96d636c53;0x9d0958a16ac02;0xba68e49333984;0xd3d6bbfe4363d;0x5d6e9bd341388;0x87bd855229a7b;0xa8b827fa372f8];[0x0;0xbdfe3ca224b34;0x51f9526f35188;0xf6c54f0333424;0xbf57aebf6086f;0x6ebb0f88aa4e1;0x6665ccc2cad5;0x2fe5fff419adc;0xcfa2eaccfd219;0x7e91582d2067b;0x43a09e47210]]);
 ((V [0xc481d2b7a058e;0x446babb050ff5;0x42e9b2df6b099;0x7d01703fa6f16;0x436c62029c96e;0xaacca442281;0xcf4281f989fcd;0x3472a9be60f44;0x913de984b3cb0;0x908e8c3a4f2] [0x4aaccf4308148;0x790aeed273b25;0x6ef188a11cddc;0x8c02397e539f4;0x8acda1c85a380;0x593186ea7ac64;0x6ed65a7a2f8ae;0xd5aa1e3c2f0d7;0x5d5aa244cab93;0x8d7ad6c0803] [0x962990a8665df;0x1c450d57fb1ef;0xa3ad742420b4b;0x3bb812a17763;0x18e164f0b752;0xc0a78dd0bd6ad;0x83ed6dcf6a3c0;0x9e171323d5b3c;0x7dbfd9dba1dc6;0x32939532ea7]),[[0x2e99e4976388e;0x38fec0a1821e9;0x621b4fad255d2;0x9e68bf243d56f;0x2241944eb5a8;0x2626cd61cd46e;0x42f3ca82ace21;0xf73f7111e54ca;0x953f8ae8a33eb;0xee815d41035];[0x7fbb00a2a79a6;0xc69386b4a5112;0xcb5c2f44f49ce;0xa8675b229e74a;0x49f55c52863ef;0xd97d066f82d01;0x124eaf50be9b7;0x7605a17e7c800;0x8f237c909be5a;0x10323cb1ecb];[0x8ba71d885a3c4;0xd6e2c06e05db0;0x543999efc68c2;0xe61e156d25238;0x8e56d6ec86546;0xb21b9336e8695;0x6a3b360ef0122;0x861372a3862de;0xe877f1d001c69;0xe94c8ec94d9];[0x8ba71d885a3c4;0xd6e2c06e05db0;0x543999efc68c2;0xe61e156d25238;0x8e56d6ec86546;0xb21b9336e8695;0x6a3b360ef0122;0x861372a3862de;0xe877f1d001c69;0xe94c8ec94d9];[0xeb6a96d0507bb;0x75f5adaeb8423;0x6122d99e99d91;0x5e26f82fbad27;0xb289a7a7063aa;0x5d517e18b4662;0xeaa13f58d52f6;0xe14c6b1d7bafc;0xd1f8fcde4421;0x449b6bf076d];[0x945069d256fb3;0x509dd905eccee;0x6a3955a65ac3d;0x4a4062f2e3a23;0x976bb4ab80045;0x7c2b8856ce69e;0x27ad6ff7e96c1;0x94b9366100d03;0x8203ecc2b7a38;0xcb96d0c175e];[0x0;0xfcde339b359be;0xa811d306a51e6;0x18672a1e5b1b5;0xe5077fa856d48;0x3c2f8ef93987d;0x33a3951fe67e4;0xf34aeeb779e41;0x536d22c80b0e5;0xfbad5f2bd2923;0x90459400b51];[0x0;0xd77ce04a5825e;0x52933948be529;0xdae4dcdaf122b;0xad62b3e308e84;0xd5837862ac585;0x9168760b8682a;0x3e87980f8aeee;0x1987333fe2908;0x62efa33e7b6cc;0xd95b114f28f];[0x0;0xbdfe3ca224b34;0x51f9526f35188;0xf6c54f0333424;0xbf57aebf6086f;0x6ebb0f88aa4e1;0x6665ccc2cad5;0x2fe5fff419adc;0xcfa2eaccfd219;0x7e91582d2067b;0x43a09e47210];[0x0;0xbdfe3ca224b34;0x51f9526f35188;0xf6c54f0333424;0xbf57aebf6086f;0x6ebb0f88aa4e1;0x6665ccc2cad5;0x2fe5fff419adc;0xcfa2eaccfd219;0x7e91582d2067b;0x43a09e47210];[0x0;0x5218c0540f093;0x8b0ac863bb65;0xffd13dde476ef;0xa4fbbb024ddb3;0x127b8de11856f;0xd23918a7bca07;0x78a7cd4e05266;0x304cf5a3ca79b;0xe074730cd3298;0x6e5a762dd31];[0x0;0xfe3731b88026a;0x6b3fa5a337abd;0xfbef34d245731;0x20b6f436b08ea;0x9a1df6df9ac9;0x6692a939d1cd9;0x4d2e62c9fc7db;0xe29a662a69bc9;0x3c9a049c88369;0x29719f86054];[0x0;0x88e7a941c2116;0xa4302b6f74b3d;0xab273400c9545;0xc9c62adae3768;0x5c8461006962b;0xef86c0d5ea65d;0x14295814f86a;0xb5f7acd890b45;0xe7ea2f2a4cae2;0x92546e0e96];[0x0;0x56d5503049737;0x1431f5e9438a;0xda8b90120f8c8;0x50bb743fffe83;0xcb2f2157c33d1;0xe0622f8f6ac05;0x59489209c303b;0xf7cd51bde00d2;0x80aaa0c1d0936;0x8dff5e264b9d5];[0x0;0xe663b75667b67;0x2a6b2691da104;0xd31c4ad7f5aea;0x48a8da686f91c;0xfc76c22768982;0xfdbc85284c3b8;0xb3580b08f1169;0xc4acec56c1896;0xaefb3a4dce57b;0x4fe3e06ecde]]);
 ((V [0x38696f32947a9;0x96543133ba32c;0xfed4bc620e187;0xf9de25716ab51;0x9aa8a756dbc4d;0x7a8f1547d929a;0xbd9019f47df43;0xac859ce679f75;0xf4ec515525dc6;0x536a280e47d] [0x682e7c1b80d9f;0x8a0bb5554d167;0x36c50edd2ac01;0x42a335ac18e6e;0x80be303d4638b;0x453720f87795a;0xf86dd2ef75f42;0x79cb8f92680a;0x1da0ea77ba3a2;0x8bdaf52b1cf] [0x12276e08ea360;0xebd8c94b65fde;0x45f85f7b2e079;0xd49919e9c7617;0x502787d049939;0x6e3c9cb35a13f;0xd783506e1ccf3;0xcbb9078a04d01;0xcf1f2265b0f35;0xf1c87e89340]),[[0x2b50fdb297c21;0xf52e34cced124;0x897ecef474a44;0xdc0b3d56351e9;0x123d26bd042d7;0x6769840a370bf;0x9fbef63d5580;0xe0aa7916132ae;0xf3f164ab7ab6;0xb0a8fc8fad0];[0xb926569534860;0xb8d73d8028048;0x1a41854d955bb;0x4f46f43c5079f;0xa6114d03be7ee;0x1a282a7f3ca02;0x2add6431a9792;0x9e6648d7b7c3b;0x751b6070597b1;0xc3f6c3c2026];[0x962990a8665df;0x1c450d57fb1ef;0xa3ad742420b4b;0x3bb812a17763;0x18e164f0b752;0xc0a78dd0bd6ad;0x83ed6dcf6a3c0;0x9e171323d5b3c;0x7dbfd9dba1dc6;0x32939532ea7];[0x962990a8665df;0x1c450d57fb1ef;0xa3ad742420b4b;0x3bb812a17763;0x18e164f0b752;0xc0a78dd0bd6ad;0x83ed6dcf6a3c0;0x9e171323d5b3c;0x7dbfd9dba1dc6;0x32939532ea7];[0xc5e67c3d4d28f;0x9bdb4b1f2e338;0xce5fc3e946e5c;0xcc5962a81e81e;0x9fb74f1858a31;0x9ab6865d26075;0x1fb8e46191c3a;0x3e7303c8830c5;0x9d5b455ad52b7;0x5e76f4e6cad];[0xf33fda57e75d2;0x1cfbf260f9d0f;0x4be1c1644e75f;0x82ed919431f80;0x659fdeb65dbc;0x7f71a4221698d;0xb247fd017b57;0x5ff3450f34b76;0xd7c01b15844fa;0x657fcedb378];[0x0;0xf11e595d322f9;0xb829f36ff7cd8;0xfec64bba2307d;0x584d09a0921ca;0x19d5c2b951ea7;0xea5e2622f799b;0x3ebf8a2f7091e;0xff1a6b244bdd1;0xcd68f2935c17;0x1f46c41bbda];[0x0;0x8ae50023103a9;0xdd0a2f231ef6f;0xd4440770da65;0x738b8ac0d0012;0x7c897cdbc4b9c;0x120f6f8077ffa;0xd60f723b9f52a;0x4e8ef4df2a822;0x8a82ae04650ce;0x22e6d952941];[0x0;0xe663b75667b67;0x2a6b2691da104;0xd31c4ad7f5aea;0x48a8da686f91c;0xfc76c22768982;0xfdbc85284c3b8;0xb3580b08f1169;0xc4acec56c1896;0xaefb3a4dce57b;0x4fe3e06ecde];[0x0;0xe663b75667b67;0x2a6b2691da104;0xd31c4ad7f5aea;0x48a8da686f91c;0xfc76c22768982;0xfdbc85284c3b8;0xb3580b08f1169;0xc4acec56c1896;0xaefb3a4dce57b;0x4fe3e06ecde];[0x0;0x30fd69e4514c7;0x5e0519830f101;0xbda053c2597cb;0xbb72350cb4b11;0x912c762853cd0;0xccbfb25252877;0x6916a5da268c7;0x5335d73ab849c;0xbe7c7a455e2f7;0x4e308b8170d];[0x0;0x67b35721e9b7e;0xbba5f73424bf6;0xc25d53f682f62;0x68edc468e3aa2;0xa2a10f3b58980;0xea8350ee482cc;0x2f6e5aa6e3907;0x9bc96b1582cbf;0xddbc95b187007;0x51a0ad21768];[0x0;0x70e17a47be5d;0x885bccf0ee2af;0x291d11e5e21dc;0xbe3ab0551743f;0x6c533b9859755;0xbc0163d087ea9;0x6903666346023;0xfe3303259a4b3;0x5e3cd81976d1f;0x3fda444e723];[0x0;0x86b3c8c664c4c;0x93150c3d5f91d;0x2031391dda9cb;0x75901cc8d9877;0x7e3964bdfa9dd;0xa4cfa8f2d3a55;0x607b04fb77ccb;0xc7306dafa1df0;0x415d6937139db;0x8bfbc1882eda5];[0x0;0x893cbe3221bb1;0xc420ac902926b;0xf7b84a369e6b5;0x7f802e6f2bc70;0x9365086ffbac;0x4068ee400bf29;0xfb67182dd260d;0xe3812eb747ad8;0x8437b5117b2d7;0x2d91fc0881c]]);
 ((V [0x38810c783056;0x419bb11037a8f;0x9e18b692c465b;0x79332876419e0;0xee474f71035de;0xd04b857c254ab;0xd0c8f6d406e72;0xf29100095b7ac;0xa52f3b7cbc989;0x623b143d3f8] [0x607b94a773526;0xfba27ef775e42;0x4a37fc31c80e8;0x3a99c32650fc0;0xb79603a4880dc;0xcef3281e55aa7;0x4a7eb0fb9dcb2;0xb3d5ca68cccf7;0x55d561549eabd;0xc2c37e63db5] [0x3328acf3f32b9;0xbae72c2c8fb3;0x6d44ed1804ec9;0xaad4842c64a13;0xb7a3d249309e2;0x8d5d71303cdf6;0xc7e62e136921;0xbb85cf673e755;0x331c0adf13d3b;0xc7753726d3f]),[[0x7ce48dba8d4e8;0xcae6892d8f22a;0x70e8b5d7053b2;0x4b751ac8719e;0x11e7175a9944b;0x93af13f9ad8fa;0xecf553c766b23;0xef6cae6d07b0;0x20af9e5d27ea9;0x4eb3c9740d5];[0xcc7849b92f229;0x7bca01545dee8;0xc2d7b45f5caeb;0x1cc57dc0fb4b4;0x4a47f3893edfc;0xc01eb55eacacb;0x1ad5bffd66ef1;0x278a7ea8fe20c;0x734709f58ee1d;0xe24486b8b3e];[0x12276e08ea360;0xebd8c94b65fde;0x45f85f7b2e079;0xd49919e9c7617;0x502787d049939;0x6e3c9cb35a13f;0xd783506e1ccf3;0xcbb9078a04d01;0xcf1f2265b0f35;0xf1c87e89340];[0x12276e08ea360;0xebd8c94b65fde;0x45f85f7b2e079;0xd49919e9c7617;0x502787d049939;0x6e3c9cb35a13f;0xd783506e1ccf3;0xcbb9078a04d01;0xcf1f2265b0f35;0xf1c87e89340];[0xe2c32ead34867;0xa690a226167d1;0x68846c62d10f5;0xc2332764bd9db;0x28e7649491d69;0x1a090bb4af80a;0x16b3e16d8335c;0xd7fd87419fdf1;0x493e4d0160e15;0x40d2818f78e];[0xe9b51b0bfa9c3;0xd5395f2e47716;0x5a5347fc8b9f5;0x5a92565c3dad9;0x21608ef4ad092;0xa615a9a9fd2c1;0x421de8fe3b95;0x4f8cf7675e41b;0x2a08bcf42e007;0xa17205293b0];[0x0;0x5da5848a6fe28;0xd9a7f53896476;0xa30902c3d24ca;0x7006a67f4136;0x54af49350067b;0xba25a49495e94;0x5f2fdee85fe15;0xd7e74b721cc7f;0xc756946586d57;0x9584b351cb7];[0x0;0x43b9e92f5a871;0x180cfd3953374;0xbd8b4ad616b9b;0x5992d6f67b263;0xf5bbcd6aa7d63;0xf8f90e1a3b70;0x9ed216a3234cc;0xb6530b6d7d9eb;0x311d20d703d58;0x4a54e4024e9];[0x0;0x893cbe3221bb1;0xc420ac902926b;0xf7b84a369e6b5;0x7f802e6f2bc70;0x9365086ffbac;0x4068ee400bf29;0xfb67182dd260d;0xe3812eb747ad8;0x8437b5117b2d7;0x2d91fc0881c];[0x0;0x893cbe3221bb1;0xc420ac902926b;0xf7b84a369e6b5;0x7f802e6f2bc70;0x9365086ffbac;0x4068ee400bf29;0xfb67182dd260d;0xe3812eb747ad8;0x8437b5117b2d7;0x2d91fc0881c];[0x0;0xb48eb077704d6;0x250fcbe07c1de;0x91080c7ed5193;0x3869b3964314c;0xfd0fd23ed9399;0x934bae0702a4f;0xc9b37018afa56;0xced9b74fb5d5;0x77b5cf2ba9bf3;0x4c67818349a];[0x0;0xd3ce136cf35c2;0x67d852fa7fe3b;0x22c5fea9785dc;0x435e4d06aedbc;0x8a97f20d7bf49;0xc4735b85da908;0x6525ae2808dce;0x34216043991b4;0x2c942c040e5b8;0x1b2e01fe74b];[0x0;0x1b252b34521c4;0xc93be0a9f253f;0x898b0c5dd0c79;0xfbe7737119c35;0x4296d39f1191b;0x2faa0f07e5396;0x2e5f5191209a5;0x5bbec50b7a52c;0x39fd691a21632;0x56d273413e7];[0x0;0xda4743a30e759;0x9882c8857347a;0x795fbd9043369;0x2bca8c64757d2;0xc53ceac8e5e81;0x133b1f36ed4e3;0xf54c076f5fa3c;0x9d52bee47bba2;0x16017fe6f582c;0xc2da1d2a3e9d0];[0x0;0x462a748c5b39d;0x34457ba31c3c1;0x59018b100a8b6;0x7d3c3c435843f;0xd229b89cd2b0f;0x722faecc113b5;0x98f39ac8f8b66;0xa774fc737bffb;0x67dee244f27cc;0x4abbc8d639c]])]
 [[0x89ec732330cd3;0x45c748f120877;0x69f5d68944234;0xf8b0a86ea4ade;0x1570325df409a;0xdcd49e819e1ca;0xf78ff40a2c3b3;0xeec20c982f115;0x519828f86a495;0xd4b783fcd0b];[0xb44d6fb24ed7c;0x37d5c1296b71b;0x3b1b78beb2f4d;0x5440467c405c8;0x6da56499429db;0x912bbb33ed17d;0xc6bd20b01c104;0x55dcb19b12f83;0x2cbe433c08cc5;0xc8fff899ad];[0x3328acf3f32b9;0xbae72c2c8fb3;0x6d44ed1804ec9;0xaad4842c64a13;0xb7a3d249309e2;0x8d5d71303cdf6;0xc7e62e136921;0xbb85cf673e755;0x331c0adf13d3b;0xc7753726d3f];[0x3328acf3f32b9;0xbae72c2c8fb3;0x6d44ed1804ec9;0xaad4842c64a13;0xb7a3d249309e2;0x8d5d71303cdf6;0xc7e62e136921;0xbb85cf673e755;0x331c0adf13d3b;0xc7753726d3f];[0x75bd38b084aa5;0x2d3541127b928;0x392607dc9cd89;0xb6e65f28ef4a3;0x4f36931bd493f;0xf34703ae032be;0x1fcf546fbd6a0;0xa0d131e5dbc4f;0xaa8dbb30e2f99;0x3e6381af49e];[0x3e903701ca09f;0xaa08016efdf3;0x1f570e2161c4;0x9d59e75351125;0x1e6ed17d6e09b;0x9de4b785e9ebf;0xa6edcc405ea63;0xb50b7fb537334;0x8230880b25d2b;0xce2c7dda50e];[0x0;0x5ff58f0f1ba1b;0x79ee678b1cd37;0x400385114ccb1;0xd104f2fc0a68f;0x7fe50096a49be;0xcab6220644d63;0x3cd14990d7d1d;0xcb674d5cda8cb;0x80cc71d28bdb3;0x7b582e18a61];[0x0;0xa0abcb2995709;0x90002b99115f1;0x2b4c4e4f9ee4;0x334e1fc08f6a8;0x44f72a150ca4f;0xc6ebaf905f529;0xf02772af7f7d2;0x7c01b3b254388;0xe6749ed085204;0xa5bc0d4c897];[0x0;0x462a748c5b39d;0x34457ba31c3c1;0x59018b100a8b6;0x7d3c3c435843f;0xd229b89cd2b0f;0x722faecc113b5;0x98f39ac8f8b66;0xa774fc737bffb;0x67dee244f27cc;0x4abbc8d639c];[0x0;0x462a748c5b39d;0x34457ba31c3c1;0x59018b100a8b6;0x7d3c3c435843f;0xd229b89cd2b0f;0x722faecc113b5;0x98f39ac8f8b66;0xa774fc737bffb;0x67dee244f27cc;0x4abbc8d639c];[0x0;0x3a950d5c31d09;0xd25ea3f77a9a4;0xc82c819f56290;0xd64391e13f758;0x8af416fab2f55;0x946ac8635e010;0xdc58f0587f687;0xc16c8d5934521;0x3f85e113a8e14;0x942ce0d922f];[0x0;0x1bf400f4ee593;0x2237bde7220cb;0x544104b8f79c3;0xa8801bf6009b;0x2df53a7a50ac2;0x49ed6901dea79;0x4556ace7b05ec;0x7001eb2d9b848;0xad1d9c9b5baab;0x25b149213a7];[0x0;0x56f84b9e02f9c;0xfa1bc08d658ac;0xa76dd4cabb95;0x7c8c1d23484ca;0x7fc0afcf4aede;0xbe3b682376f73;0xbc622224cd575;0xa11837aa65170;0x349c97b3d21d5;0x883894fff4];[0x0;0xa5da963ffa4ad;0x3c9330b2fa141;0x4df488d3ce536;0x8ae22bf18fec9;0xa6b78eaa6e06b;0x6d788c2761090;0x82b8fff485934;0x456f742070705;0xd642e8aa4fcfe;0xa90c849147d60];[0x0;0xc54a66f8ab0f4;0x4b16f928c7b86;0xaa2dbf87c6623;0x1fec20ddbec4c;0x28adba584d2e3;0x598ae8456178;0xfe4bedba894c3;0x66cd70a787b39;0x7a7016f8ff7f6;0x7224afa83e9]].
Definition wit_512C_32_1 : colwit ept wit := mk_colwit (V [0x8bcb067e16a32;0xa71f6e325ba93;0xf8229ecd11374;0xfc8f28e213c12;0xc99c595411113;0xbe18bd7e8105;0x7c66936f26c3;0xd527c4e44e3f;0x643088d1ef6d4;0xe366ea75a88] [0x3f13d347107e8;0xa791aa22e8367;0x851f00f699d3f;0x85e1a65883384;0xf2486b6318311;0x91f4e193ea1a6;0xa5305574a035;0x3c51779e0284a;0x7c40d9885b316;0xc5a06a7f29] [0xdbd3a8c0a1919;0xbbd26e7999c6e;0xb5302f615b649;0xa3bb232902234;0x8491dfd54f333;0xbcdb6e17a1c26;0xcd5cb747024e5;0x18588c98734e8;0x349e8333fa458;0x5ef0bc18a0c])
 [[0x5d69f2def986e;0x35788e65a14fa;0x40b0af08f6aaa;0xbf6295604ce58;0x1bd3143fede11;0x7692a2876daa1;0x4831ea0fcbef7;0x75a9b1412a761;0x3acdf9641229d;0x24351063c3c];[0x4b459d3cf729b;0x3706b984c866;0xc9be2aeca0519;0x48def3a83b4dc;0xabaf156bf831e;0x7732e064cd1db;0xfc39c23779e8f;0xd021c73376216;0x66c4fddc9d68d;0xc108cc4c1bf];[0x2915cd82a0728;0x74757a742401;0x8e249e767dbe8;0x3e1f50568635d;0x7f49e58e71fc8;0x357626b301026;0x5b751a84f339f;0x401efe2df521a;0xdf2ae716e4a87;0xaef1bea05e9];[0x2915cd82a0728;0x74757a742401;0x8e249e767dbe8;0x3e1f50568635d;0x7f49e58e71fc8;0x357626b301026;0x5b751a84f339f;0x401efe2df521a;0xdf2ae716e4a87;0xaef1bea05e9];[0x530f2c258cd5b;0x93f8fbea999fd;0xf727cb2cdc13;0xf07fb2ea6c70c;0xe7c313cdedcda;0xe2cf255ff6d4f;0xdf3a5a04c606e;0x7a2168e3106ef;0xd5fbcca07478c;0xae7beb4e9c4];[0xf83671176a541;0x6f776fadb2e68;0xba4bae39d2905;0x585f40bdcedd0;0xc3ec019e0a643;0x9463bb04d648b;0x1cff6832b3e20;0x56005e5065b27;0x90c9313c28f01;0x128ce0fd7fa];[0x0;0x2329003f55b5e;0x622ea9b63bd13;0x95b2ec6f09d99;0x770027f86cb44;0xb78f2b87ff33;0xf28f5de73487d;0xfeab9f5e9918e;0x59e8f057e4028;0xbef293d9ef502;0x6c2f702e4d5];[0x0;0x33bdb01065ec3;0xc112e9a33e936;0xb93291539a496;0x9c5c592fa0331;0x398892c4ea4aa;0x1797710bb258f;0xa3e80a055a661;0x8f63267b2c089;0x673dcfe21707;0x18be420e4db];[0x0;0xc54a66f8ab0f4;0x4b16f928c7b86;0xaa2dbf87c6623;0x1fec20ddbec4c;0x28adba584d2e3;0x598ae8456178;0xfe4bedba894c3;0x66cd70a787b39;0x7a7016f8ff7f6;0x7224afa83e9];[0x0;0xc54a66f8ab0f4;0x4b16f928c7b86;0xaa2dbf87c6623;0x1fec20ddbec4c;0x28adba584d2e3;0x598ae8456178;0xfe4bedba894c3;0x66cd70a787b39;0x7a7016f8ff7f6;0x7224afa83e9];[0x0;0x290fe595aec6f;0x7c2d6084e2d04;0xef1c5a3ef6b5;0x6dea0434fff07;0x2720e7ea64897;0xc9e5bf1e556b4;0x61771dac6e12b;0x7b2e3ae6c99e9;0x9de0a814f2897;0x6ece66a5ef8];[0x0;0xcd171e02ae1e5;0xddc413ab60ae9;0x3f68a5b117b7f;0x50b9d253c25d5;0x8d3a07fbfe66d;0xf06af86b4842;0x31bfdefd30388;0xf034560dedaba;0xc1227f87aca74;0x7594b2f7423];[0x0;0xc71420ac3d298;0x3ec538ac38b69;0x9a89a43bd5c8f;0xea1871f1a476c;0x2d3bc9ea910fc;0x6f1d8a1b06756;0xfe4d87f2bbda0;0xc6ca5d8058191;0x499caa274b255;0xab786773a5f];[0x0;0x180fff27d6de1;0x1a65f80d5163b;0x87c0474ce329;0xb4b5270b99891;0x34c6fd75944ef;0x6f5b5a5323393;0xcedfe71516062;0x5809aaffffe07;0x6a07cd742b315;0xc5d1062ea4dd];[0x0;0xd4457862b1811;0xce0e5456d3c9c;0x477356ac8df1b;0x11b7d0205e9b6;0xaaa9e970db6d5;0xfc5ee9e421ac7;0xb0139718d77e7;0xdb4c2cd022ccc;0x3588a70b42ca9;0xaf8cb158a6]]
 [[[0x31bedae2e8f1d;0x897b5410b1042;0x89d223a862053;0x8d688152024ba;0xf50c174ca6279;0x5c1c05e42831;0x78ce71265015e;0xb40747f6b0209;0xed3ed86dfc5c5;0xe38003eaf9b];[0x7e4aecc03fa37;0x5e7c303246369;0x7b0282434f427;0x793a689ca6933;0x4c295b8dbb0d;0xe0109ec02c29c;0x965f74079af3a;0x1f0f657678746;0xfb8853a1ddfe2;0xe03610505f0];[0x215c7c81f64b3;0xfecd203698d88;0x11ad489f5ec4a;0xafbcca42035f9;0xdea6c3be0854b;0xb54a0a1dff847;0x8189254bf05b6;0x24f46f78ea99c;0x47564fb56a72d;0x4d7e04d6e3c];[0x54ce148fa0c25;0xe4543e6d6b46e;0xdc25810584cf0;0xac2c5ae985128;0x62aece5e685d4;0x6ece4cae40bfc;0xeed541d7b623;0xf02a0a26b8222;0x8c6b76940bef2;0xa7166411565];[0x51bcf1b6b4177;0xba6a44f8e16ae;0xed752301c97dd;0x38120e205ab38;0x3702def43925e;0x9b9177be8d83d;0xcc82e95dbf7e3;0xbb070883419bb;0x58a2e49de0097;0x89c2d6f4900];[0xc566e0f9a426d;0x5265a4b9c912a;0xcf70860eebfb8;0xa3e0e0471965c;0xe75829c5e84f6;0xdd4b83075c085;0x229d8f509466c;0xb24a315376683;0x7c5b0efc64c77;0xcf6a825a0b8];[0x0;0x693b30e6478b5;0x643801a9f6b47;0x2ba1b5f132693;0x16995b654465e;0x18bfac1675a88;0x360e2693cee33;0xec2b7b4735555;0xee740a22dd33d;0xb748d81fde022;0x3ab603129f5];[0x0;0x269deb16d5c27;0xe010b1c8b2dfb;0x11b7507c3332a;0x193f02dbcd3e4;0xd69f5ca7e2001;0x931f6309e41fd;0x9b1fc5b41c1f0;0xde3050414300c;0x50785652a5a40;0x9b77d794ecf];[0x0;0x26e4c74299b1b;0x288a1fe822d8f;0x1841bb87d56b0;0xa845c00bbb416;0x4db1d9f2d9714;0x34beec394cbb7;0x4a821335046db;0xd0271752d5080;0x8d675fa7b8854;0x85ef560d11];[0x0;0x3375c7a771f01;0x437283ecbc95f;0xbd0d18ac724eb;0xcf01b52938877;0x6e41437cb1d4d;0xcb55c7f5584e6;0x81953cb8f3afd;0x5e06f31bcf443;0x3a3bb4e36f87a;0x959bcb06a27];[0x0;0x19f0af99fab3f;0x43a86d4aef1d1;0x431a63878cb5e;0x30fc3682a98af;0x877377bd4c250;0x4a686a28c9f64;0x2ea81fded1797;0x314600e55eb7c;0xf6ffdf00b74a8;0x8204ec9ad3];[0x0;0xf4c966515e479;0xf0f8a4408bc7e;0xc9d724445852d;0x17bed6a2eb91b;0xb570ecdc478a6;0xcbf09f97c21ef;0xe83422bbdb39b;0xe4e8c17aaa2c9;0xfa9ed0617bf99;0x9a1d3bb4ec1];[0x0;0x5a15ec42fa1b8;0x758f2aebcad8c;0xb30ac71b1747b;0x287af1a120fdc;0x9a0532e8a2496;0x86942150f4d17;0x6987b466fef25;0x43228eb8ec201;0x1e0cfbe9c5c5a;0xabee4286876];[0x0;0x98aad82571ab9;0x9d6a43dd78f49;0xe714adf5c27f2;0xdf28601cf13a8;0x9dd5625628d77;0x18b321e239acb;0xe7533312a8f9a;0x57d888127e63d;0x3950738b9384d;0xf5210f47c1d80];[0x0;0x344eae9c607f7;0x2758ac547dfc7;0x133cb6f2528b8;0xf5d39311ec7b;0xe1c5ee939a9b4;0xfec8137ca4e06;0x51ad4b3a9f219;0x448af82405722;0xb0553283d53e;0xbbe1460f64b]];
 [[0x31bedae2e8f1d;0x897b5410b1042;0x89d223a862053;0x8d688152024ba;0xf50c174ca6279;0x5c1c05e42831;0x78ce71265015e;0xb40747f6b0209;0xed3ed86dfc5c5;0xe38003eaf9b];[0x548f87e293033;0xdcde35ce54edc;0x74b2fbb0d1b68;0xc52861d3eafb2;0x1abd16e1b978b;0xa7cbc5d6cd34c;0xf84a0ecad1f0;0x21f4b8632b71d;0xaf9751de8daea;0xfa14c9e629f];[0x3625c15f1780f;0x5ae904a20b986;0x2f06fcc8322b0;0xa41633adc90f1;0xe0896e74712aa;0x8ab96b68180bb;0xe0c5bca0641d4;0x84ebae900fa3c;0xf840817100de7;0x51be511a8c2];[0x2575e8d4af0d1;0x9ed208752e75b;0xdc7236ffa9bd0;0xb9c0f3f07a889;0xc1e4f8535c01c;0x5fd7244f983b3;0x736e1ab605840;0x7eb5fdd2fb9c0;0x9e94906752bf1;0x1fffaab3aef];[0x25b8b5413000b;0x9d22d5be016e2;0xceb155ffadc8a;0xedc51a3d12f16;0x68eed13dbe585;0xdbbd73b615a70;0x93d7641fd9925;0x249888800cfc1;0xdba37071ee409;0x5ab5d35893f];[0x2a90d783acf74;0xf77564f400a63;0xe6c4ec8543585;0xf25a397e00cf3;0xc9d14cf2c4ace;0x968c46a4f8b4c;0x5492f07a30862;0xe52180a4230b4;0xf7e90cf70ea0a;0xa32e3109fc6];[0x0;0x693b30e6478b5;0x643801a9f6b47;0x2ba1b5f132693;0x16995b654465e;0x18bfac1675a88;0x360e2693cee33;0xec2b7b4735555;0xee740a22dd33d;0xb748d81fde022;0x3ab603129f5];[0x0;0xc985e0b46f150;0x62d7e5dcef3da;0x184115a75a2fd;0xb790681d5a051;0x93b421643134e;0x42fee44e2ce7b;0x93f66b211a088;0x31cf457d3b18d;0x64276450c2aeb;0xbee47cab6f1];[0x0;0xb504e8a8f2de7;0x104cfd276cb75;0x904822510567c;0x29c00c5ea43d;0x4861db17b8abf;0xe945887781bba;0x4a4f1b4407990;0x736a2163feaa2;0x695169bcb3dfe;0x978b8530e0];[0x0;0x38b64c30d2219;0xf761d18c1cd56;0xe8e2ca86f8419;0x30d56c540ff19;0xc8560509ada71;0x614773b1fe3d7;0xcc2d59e33b514;0xf9c06126a79ef;0x73cf921ae30e4;0xd9a3d5b54fe];[0x0;0x935b439d22b63;0x35f8d62075bc8;0x1f56754d851dc;0x22559ba515dda;0xbd24cd2a7617a;0x4a330789f3e1c;0xb8dcf6c721abe;0xf916e58e24725;0x9ba95aef00c28;0xbd248ec523];[0x0;0x3588042356d8c;0xb43f687c728ec;0x757542195257e;0xbf661a76581c4;0xc791496071e4f;0x5ea6fa2ee4440;0x6c88b87466ebf;0xa09107e3123de;0xa5c9a9619eb82;0xae60a471499];[0x0;0x67e48cb5a1230;0x6b895bd29493a;0x6296c73c26179;0xfd94dde9bd158;0xbc0a2d0ef2ca1;0x94c923a37a7d8;0xb6c03bc29c182;0xbd87482f48d98;0x3e109ff0fda04;0x8219e45b8f9];[0x0;0xd6c7e6e5947b1;0xd7f61069d0dd2;0x8d2dad598bf14;0xa677e63bfb0c4;0x95368fc18d648;0xddaa84eabe5f4;0x416579a01bf80;0xd316bd7387e20;0xf13f2e3141210;0x8af3a5c99edf5];[0x0;0x8728b9b5c4f65;0xc65e16ed5580f;0x92c7c5bea2437;0x633692bf36106;0xd0790f38b3da6;0xa925178b900be;0xbe4b6a435eb12;0x29a72944a7460;0x7de9873bb6e8f;0x4847f72b7c8]];
 [[0x31bedae2e8f1d;0x897b5410b1042;0x89d223a862053;0x8d688152024ba;0xf50c174ca6279;0x5c1c05e42831;0x78ce71265015e;0xb40747f6b0209;0xed3ed86dfc5c5;0xe38003eaf9b];[0xacac26331d81c;0x9f22d6dd5ae27;0x2b8ab6dcaa0bc;0xbc135435afea7;0xb80c579ba4460;0x7cd90fdc9ed6c;0xc1a1ef6fd7677;0xcbfae264c9204;0x74b76e629fd04;0xc7398441a81];[0xea529f1a36501;0x1ee03ec8f5539;0xd5069d50504cd;0xb9a22d7b7e4a2;0x41fe869a687fa;0x7636df4f7f290;0x242ae03b9a4fc;0x3e4061fccfd9a;0xf672c58a160a8;0x3f5a311182f];[0xebf611c2a76a0;0x56bb33f14795d;0xba7076308fb93;0x24d64d1bc65d4;0xf1897d047c06;0xb8dbec7883400;0x4994ea5a1b0a9;0xea3966f92442e;0xc9dbedbbe3370;0x47af9e0db77];[0x581a7c90cc88a;0xb5148bb4f31d4;0xa8e433964eb56;0x5a72f6ac3de66;0x96550faca5dbf;0x418b97cd18f9;0xaf7ec600c7e9a;0x6b9b49c463f77;0xd78f9dd66ec0f;0xa9d28a23d01];[0x46ed38625cb12;0x74e765b8161a;0x14a2c0126ea5b;0x7eb3e0369fa2f;0xdeea53d8d783d;0x87bcd83d4b42f;0x8bd73da34f7e5;0xc0163f32da413;0x5da0f5b10bbba;0xc49cde8e779];[0x0;0x693b30e6478b5;0x643801a9f6b47;0x2ba1b5f132693;0x16995b654465e;0x18bfac1675a88;0x360e2693cee33;0xec2b7b4735555;0xee740a22dd33d;0xb748d81fde022;0x3ab603129f5];[0x0;0x510f4ef01d3df;0x84c0bd123df32;0x77c243a6ac762;0xbd2fe0922d955;0x1fece25efa61d;0x1f792fd424681;0xcdf0dde6b00c3;0x9c9b0c8002118;0x53e16e9503f5b;0x4cc40d66037];[0x0;0x2094a43b64ba9;0x20792cf94bc54;0x69dc719ff99ad;0xa9327f7283b43;0x6edab06ee0c17;0xae6dcc3417cb0;0x176d4ba069ff;0x3a20c30956408;0x274859906a540;0x66cff98c99];[0x0;0xe92581c5f721e;0xa5950f3e4cf86;0xd2b60d663e54f;0xb487012b30ae1;0xb40c0113c3c56;0x756d3c53f7a6f;0xaf5f871189a5d;0x5c64e23f9d9f4;0x5f9126b68f062;0x7b6b0ddbc88];[0x0;0xaeb72513a6ab2;0x1916abc6c1a3e;0x636b1efda73fb;0xe436a757b4afa;0x1fa6588b02f00;0xc64f8e39b9109;0x769419d0d478a;0x424822c6f58e;0x63705aa84ce7d;0x6b4215d2eb];[0x0;0xf8e515e0b222a;0x56c17692e8b98;0x537376a19851c;0x5fe5f9ad7749a;0x26c117239e9e7;0x1203067091a38;0xf3f69408374f1;0x9dab1cf91506f;0x802a79eea58e4;0x764d786d9b8];[0x0;0x3ce7130dc45d0;0x2003e9de754d2;0x2e73156c7c9ea;0x558b1c145cacd;0x65e78b92f088;0xb6d8887ad7bd1;0xff20c27d84b88;0x9480a170c1bdd;0x5f5a7e4557a32;0x8961eb76411];[0x0;0xb4f316bdadcb7;0xdbfea7a639da8;0xa397d3b176f0;0x7db548b217d37;0x16f21476eee53;0x64224705fd65d;0x8a322840f4a60;0x9b9a37915ad56;0xa4d9b77b83ba6;0xfcf50b9f44c7b];[0x0;0xf5003b47eba88;0x3b31dd55b08e3;0xbf997ae5131e3;0xd4b6982055c33;0x4cdb2022a841;0xf7f94b089bbfd;0x389cb4ed561c9;0x5db340c597cb9;0xecf8699ff750f;0xae48e24b45b]];
 [[0x31bedae2e8f1d;0x897b5410b1042;0x89d223a862053;0x8d688152024ba;0xf50c174ca6279;0x5c1c05e42831;0x78ce71265015e;0xb40747f6b0209;0xed3ed86dfc5c5;0xe38003eaf9b];[0x155bbbb95a8f4;0x18113dce6b1;0xb71395bce1cac;0xf7be6da5da9b3;0xeef1dbfa14048;0xc138757df5888;0x3b1c111370b79;0x79f57d19ad677;0x15193c491835a;0x66f5931516d];[0xa368420387471;0xd4e7a44bc322b;0x32a76694d42f0;0xe882f587b1f9d;0x8c7859bc5779a;0x1c86e972626d9;0xdfc188c67eb90;0xadf88e48e944;0x9cc94a2450daf;0xc732942dc21];[0x3371837d43fbe;0x98c547a2d7908;0xc6b4e5b4df6e9;0x3b1739d625bbb;0xeaa87c389ad9d;0xfc09245dfb31f;0x6721851d68fd6;0xa6974ada175a7;0x9c4c6dc575272;0x3499c4f7287];[0xaf83952011af4;0x52a11ed11e05d;0x436b54ad72a8;0x4e27537222c64;0x86e4a3a97dd3f;0xda5ddf829e5d8;0x6bfccd1761a6b;0xc659d75b155ad;0x351cbeb0c0392;0x5b7ac598fca];[0x1b6a8961f70b9;0xc480d3d7cba6e;0x111875458e087;0x6dea35e7757d;0xf6fade0487986;0xb8c2168f048ed;0xeb8cd6e205057;0x4a79183a7ae48;0xbcb427dc9d2bf;0xe865d64d];[0x0;0x693b30e6478b5;0x643801a9f6b47;0x2ba1b5f132693;0x16995b654465e;0x18bfac1675a88;0x360e2693cee33;0xec2b7b4735555;0xee740a22dd33d;0xb748d81fde022;0x3ab603129f5];[0x0;0xb3f312d6d648c;0xc762b63e78c5f;0x7dcf0f7c7e686;0xd54df0e5ff810;0x98a50de1369be;0xc12cb984e3b16;0x535fc46c8a0d0;0xae0ec4453dc4c;0x5d89adc624204;0x32e38aa2e86];[0x0;0x6415418d2f231;0x1c5d8c3be578c;0x53270f04f4895;0xb5bf6b8185871;0xe7d705b6d4cb;0x49a3360c7e62d;0xa077840228aa9;0xb07fba0c57963;0x85d88a0a7cdfa;0x8847cf4f84];[0x0;0xb39885cf7a66e;0x89245bcfb84f3;0xf8d454f956f27;0xfbbb5235ca3a5;0x4b0ef322e94b4;0x135cd25b28db5;0xd77604c51cc1;0x5c3c3b011ae00;0x7b1542c6764f9;0xe081304a1a0];[0x0;0xb5bfed9cf194;0xd0192acb653b9;0x5e0914bb0d392;0xb219766eaf422;0xbb77a973d3b3c;0x130e9d62bc249;0xced41a6e7b374;0x39d194ec923fe;0xe56c66224fedb;0xc31bcef8d8];[0x0;0x9ec4be55e1a37;0x7794a94d8f1f6;0x5bb050800defe;0xd0cfc2f95a40;0x18e52a2643962;0x80180ea910536;0x9be219afd0ee5;0x355623198a4c1;0x145e9d5adccd0;0x9cd02d5c304];[0x0;0x91446db695a55;0xdc98ccee9c2eb;0xbeb10cef8f218;0x6ab61a65b3f77;0xde2d221a0fefd;0xdc7ad63c01f2e;0x5e1f68bfe1687;0x75e5b5e423280;0x46f439c09ac60;0x1a75d9c4ad5];[0x0;0x6356715c1e8e;0xf9728de2e8e8a;0xabac8d40967f3;0xbe3a6e4608ba;0xd1bc0cfd1dd9c;0xdd08803f5d200;0x4c8a75b906e6b;0x32ebf5bc8be9b;0x2364fe2e9b0ea;0x31b0b84252738];[0x0;0x77e6f2625b573;0xb5d598523f978;0x39f9dcf3a78bd;0xb587cf4ca10cf;0x4481d367fc6b8;0xe822b88c6fdbd;0xfe2b7ad7e9fd0;0xb1cd92e72f61e;0x29e2b3e032f28;0xcbd9615c35]];
 [[0x31bedae2e8f1d;0x897b5410b1042;0x89d223a862053;0x8d688152024ba;0xf50c174ca6279;0x5c1c05e42831;0x78ce71265015e;0xb40747f6b0209;0xed3ed86dfc5c5;0xe38003eaf9b];[0x8b0740b07b03b;0x1090d4cb5a36a;0x93097b11610ec;0x1f9bd234f39c3;0x640cb8da8ccf0;0xd4549028e91cf;0x2c89e4225ab41;0x116c4656e2ded;0x481cd2e1eb5c4;0x3bcfacf3a94];[0x8f364661853f0;0xdb2eb2a1d6107;0x212e863d884ad;0x738fe5b0975c2;0xe47cbb3140deb;0xe988cd86799c2;0x43cd56902173c;0xc38bd345f09e0;0x8cd25f66de4c;0xa1cf28df896];[0x4087aa934cb85;0x26218835f53eb;0x51b9ad52b361c;0x36d55b5fa599;0x59354e52fa87c;0xee653b8b0d551;0xa1582131090d2;0x53a1e9ec5350e;0x600a2681faff8;0xa45c3f2fae3];[0x6adfb5a04cf20;0xf33359588edfa;0xd54040a491b77;0xac985e0edc244;0x47d51f96ec139;0xff3af0d182099;0xd22a7fdf6a524;0x28966f558cc6e;0x5c016136136fa;0xef2a0cb06ba];[0x8f18fac53a8f2;0x16eedaefd3c7e;0x96c8572d60414;0x87669b9022bc8;0xde0b122d57800;0xf5aeff89d4325;0xf1cfbb28bd5e;0xc8171631a711f;0x9d882d78475a;0x6f6c6a47867];[0x0;0x693b30e6478b5;0x643801a9f6b47;0x2ba1b5f132693;0x16995b654465e;0x18bfac1675a88;0x360e2693cee33;0xec2b7b4735555;0xee740a22dd33d;0xb748d81fde022;0x3ab603129f5];[0x0;0x777a272724a02;0x7a9a5e64ef9f0;0x189fb7e6fdd2d;0x1a07ca3b30a7f;0x600ce475d3cc0;0x9524beef4ef11;0xea1ded566a6b0;0x5e3839f57691e;0xe3de74d430b4e;0x86100d036e0];[0x0;0xedfe780c78660;0x22f6f5d4ebc2c;0x528f622aeac6b;0x7bc5c8321d63e;0x224c023ebcda3;0x5ee5386066fae;0x8c2ee56179c68;0x995a064a8eb36;0x5a2f6465d2461;0x32ca29a157];[0x0;0xb9db1cb9a0043;0x145cb324f224e;0x31ec8f37daf69;0x31194e0c738cd;0x3d3a598f7d954;0x15575a3575da9;0x3d87e65d7a862;0x9b7dde224d03;0x380d1789e854b;0x2c0959ecc01];[0x0;0xd6443215237d8;0x8a77454f1b0c2;0x2fddf3a370925;0xc41119ec44b6f;0xe5858b17c91db;0xde8f8f66f56b4;0x18839003b34ec;0xab662e9a675d4;0xf7021dba5a5ba;0x26453ff7d5];[0x0;0x72d998283110e;0x6e05bbb8a1b2d;0xedbd191a26ec;0x1ed89c06f0f32;0xf189f083d837f;0x788c740499f00;0x7db3abb1fd89a;0x4967b7ebf3464;0xee767fc1190dd;0x3a7121bc333];[0x0;0xb0037ff6c21b5;0x736fb8bfc43c5;0xdaee8bc120130;0x737d3280f3f67;0x3e406b03a4180;0x7ef50badf95ad;0x2bcd772514d85;0xe412d0ebcaa44;0x2a3b28b3d742d;0x3a5c02de985];[0x0;0x4160741379e45;0x86d171bef1cdb;0xe841e7af93acc;0x5e2972bbfc46;0x78b8699be02d9;0x98bb79998bb23;0x13142489b0197;0x396f5853d58e7;0x9d001ce588216;0xb8915ba857111];[0x0;0xd86657d80349a;0xcf38a17f52d51;0xd65756315b117;0x4b83b0845cf5a;0x8cd39711b49d7;0x342c7622d83a7;0xf3fefd11eb7d5;0x81878eb880a1d;0x30235905cb74a;0xb38cdc7943f]];
 [[0x31bedae2e8f1d;0x897b5410b1042;0x89d223a862053;0x8d688152024ba;0xf50c174ca6279;0x5c1c05e42831;0x78ce71265015e;0xb40747f6b0209;0xed3ed86dfc5c5;0xe38003eaf9b];[0x291ca842957fd;0x2175cd67057cd;0x9bcc9658c6f57;0x522a7a92ba6f0;0xcb39f0f6a0176;0x3e08d9370ef16;0x291147a0ac36;0xe3aa01a3692c1;0xe0349943d1cce;0x6cb20b5e6e3];[0x24906d03c2033;0x8c736e4d90676;0xb981b96ccb466;0xb0ce9d73a3522;0x5defc3e5f8035;0x28a2ad1380e17;0x3b0fa0e6fcbf6;0x7e0de81895f20;0x3fbf68dff089a;0x283a5c7baf8];[0x4919544520811;0xa3cd3954823f5;0x945f0d5e02343;0x5fbf41e9353cb;0x75394db08ffc7;0xc73bffa354864;0xb6142348cce7e;0xaacbf2c742371;0x2103a9f2980fd;0x1d7eed0fd30];[0x89f33ca92427c;0x52e97d22d15c8;0xeff40bee8d80;0x7cffd8ab38d9e;0x2709a4a10a84;0x9b090304d64e5;0x8a8c03559a013;0xe13892abad5f4;0xcb94a13f36262;0x7606f44e29b];[0xd6ecab2db3752;0x72aa47ff88206;0xfe48a7e3ca40f;0x713b1c83fd745;0x70dbfa6657670;0x1cf6806a26558;0x265a6ef261c72;0x24290d3f03a64;0x3b7e96357e3f0;0xb2b2b8970f2];[0x0;0x693b30e6478b5;0x643801a9f6b47;0x2ba1b5f132693;0x16995b654465e;0x18bfac1675a88;0x360e2693cee33;0xec2b7b4735555;0xee740a22dd33d;0xb748d81fde022;0x3ab603129f5];[0x0;0xc5245f49555e3;0x8187a427ad91d;0x4a205338ce0ea;0x6a31c9b47c7e8;0xd2543447961ef;0xf977a6477ef27;0xd0791dd6c00d5;0xad4d7cc4d5078;0xbfa1f7c0c205c;0x9a99c62a868];[0x0;0xf0d7a302a1e5b;0x52aef9b6e4da3;0xc5dcfef029aea;0x5a0f7163357e2;0x8e39f3a7fe24e;0xa3f4f8a2f795d;0x3473b87d864c2;0x8dd264fbf6eb3;0x27600a1520049;0xc0d45f6fdd];[0x0;0x4f365b0e122a9;0xd1417e7e27c7a;0xc95e4ee85bac1;0xee84337d15d34;0xd5b8d1b8d6923;0xb94988507a1f7;0xe7e1d48e08ff;0xe24f0060fe033;0x39c35f39a93e;0xa375d22a750];[0x0;0x36e0185321f9c;0xb107e1f93f044;0x7ffe774a51b7;0xe4410343ae5a0;0xa3c8bed4cc449;0x114ad127936c2;0xd83ff8997e789;0x269a9037bfd19;0x439d75e1f80bd;0x8e0ea5226f];[0x0;0x2872ee65026b6;0xc9fcf15b3d067;0x81b4bbcb515ee;0xd766df3f1cc3f;0xac31552d81ace;0x2302d22a40104;0xdacf476b57b95;0x71b0b5b2ae4e7;0x85001a88d49db;0xdde1d984eae];[0x0;0x8f8e4ae73d97c;0x5153d047793ed;0x9d6de9bf6d989;0x9e317fde98d3b;0xabbdbfea91b13;0x7f4d4ffd819da;0x631c181017026;0x840fa4d1b2568;0xff44cca7b398b;0x388121233b];[0x0;0x457a1cc7a8cae;0x9e45e1b0c817;0x19d1c54294209;0xdf8a996ac121e;0xd420e29581a63;0xc39d4dd093cba;0x6b2ce929e0604;0x98cf45087e32b;0xbb5accdf5aa8a;0x7c97a4677d6b0];[0x0;0x53591d5fd3aa8;0xe0c3388267101;0xbbc9f92c2f9e3;0xf040abf54c707;0xeb3e194d69e1e;0xbd97c78ef5b98;0x9465332dee422;0x44d79600f31d;0xf43f23e0764f8;0x409f7d7c8f]];
 [[0x31bedae2e8f1d;0x897b5410b1042;0x89d223a862053;0x8d688152024ba;0xf50c174ca6279;0x5c1c05e42831;0x78ce71265015e;0xb40747f6b0209;0xed3ed86dfc5c5;0xe38003eaf9b];[0x274a91136eecb;0x3865c758321ae;0xae974b29621f;0xfd604795110a1;0x4ab96ff00cde7;0x8aec2ac0b75fa;0x19af9e7bd12b0;0xdefeff37f4b75;0x866d17dea5dd4;0x2c940f4771];[0xb08dd2c579af4;0xd9240fbb90ece;0x995abde11f7ad;0x246f9e60ff21a;0x93670ff47d460;0x39f8054394ae1;0x7e11bedd76aea;0xa9190a6d937fb;0xc286cd7a5f04c;0xb96ebea6a18];[0x73d89e601e06;0x31521253886d5;0xb3cb314b2b2a6;0x994aadaf7003a;0xeb0a81fcd62f3;0x7c4c45c9dc6d1;0xfbe0562bfc27b;0xb92f1ba1c628c;0xf5f9d6b78e5bf;0x84cb8afc34e];[0x60f79405cca21;0x8733447ec567b;0x2476d203eb020;0xd08b646c4a72d;0x98d2274658f40;0x36ba15d8327eb;0xebb09152c7311;0x3d1391a249bf9;0xe754014fb54fa;0x9fea8415469];[0x5df8f6474e137;0xdaee7ed8fd38f;0xc0c6d6c5f87e1;0xa3d7432d944e3;0x5f1c1273d3cd8;0x3a32a4c448958;0xf960fb1df720f;0xaee1e8d6fce4d;0x12babfb7e159d;0xe26e1e7bb03];[0x0;0x693b30e6478b5;0x643801a9f6b47;0x2ba1b5f132693;0x16995b654465e;0x18bfac1675a88;0x360e2693cee33;0xec2b7b4735555;0xee740a22dd33d;0xb748d81fde022;0x3ab603129f5];[0x0;0x8d1c0624751f;0x9a33311218ef9;0x9e56eff51249a;0x8a14d262df394;0xfc453c00005d;0xf82540d1f5213;0x6f965d87e1e4e;0xb96aa839517c1;0xd9952f047264c;0xdb8b7eed882];[0x0;0xa1b33767cf7b4;0xf771e10de1dc0;0xd474184ca8655;0x170774848496b;0x6ceef972e8ad2;0x99f8266349d26;0x6969f6389f98d;0x34c3508214;0x73b42f6a9bf69;0x66bc0814c];[0x0;0xba454e4bf8004;0x4d794af48bb40;0x404013b3c9e70;0x60c498ad4b2fa;0xd39cd77cc4e9e;0xe02264bbd3d3f;0xfcf5744b7247c;0x434deccea2bea;0xa5f4f68f9a162;0x6e6d03160fd];[0x0;0x8a351958c6f41;0xd383064be6264;0xca6ae0cc7bb6e;0xba3ea9b537d80;0xf49dae35d3789;0x397533aa24ca4;0xe7e4470e92416;0xd98b78e0ac3c3;0x83b1c5aaad395;0x5ff78bc0a8];[0x0;0x6ffc9b63fd97;0xfb8214d704e17;0x29b6b285d3177;0xafa574b64d9a5;0xc67c77dcc058a;0xd12d123496a3d;0xa7ae5aa2b0232;0x5d2cb25566301;0xdf8269f738b0d;0x763685bed3];[0x0;0xf492f6a2da0ea;0x536844fe2e7d4;0xddcf0cc131ed1;0xfddb4063b4be2;0x2226d3007d8cf;0xeceb799a266d2;0xb463cba774266;0x6a382a5e689c9;0x58db4fcb4288c;0x27996cd9b9];[0x0;0x24f377cc7d87b;0xdc4a03cbdb69b;0x26bb482bafc6c;0xdc8fb3109af50;0x5e7c48f512ab3;0x257740ff3a609;0x5da5add3e9fce;0x965735541fdbe;0x5588531089c89;0x67f5fd6c1579];[0x0;0xb2f80fc06e38d;0x26a228f9c7221;0x705d5c651a03e;0xf1611e78ce2ce;0x72d5a93615ae9;0xc3529f72ac895;0xb0be4724d7420;0xc0a1ed44e62d0;0xfe5bb84554bbf;0x5bfe6e3501]];
 [[0x31bedae2e8f1d;0x897b5410b1042;0x89d223a862053;0x8d688152024ba;0xf50c174ca6279;0x5c1c05e42831;0x78ce71265015e;0xb40747f6b0209;0xed3ed86dfc5c5;0xe38003eaf9b];[0x77d0fbf599dc5;0x7eeb3d80987a3;0x1fb07cc1661fc;0x174ac81a079ed;0xc7a74baa3cfae;0xf1c998755e465;0x80366d1bfb9be;0x646733e8e8eef;0x9335604d1eab1;0x1fcfd14c12f];[0xba68fbad5fe71;0x5ff7f6e25b840;0xc2f4f9fd96d56;0xa84d03c1f4e5f;0xe53b0a6954daf;0x7eb924b539d28;0xf2c2801b9d4f8;0x2824bddbd7b6f;0x2832c8a36304a;0xecf0e6d2ebc];[0xf0535ce045f2f;0xeb353c9a64b21;0x62777b150b3db;0xd4d7288dc470a;0x3701e4e2e5eef;0xb0667300920f9;0xb5862239db316;0xc6c136769a85;0xdb6e98337c05d;0x2b9ecdfa8e];[0x58d8f14acc4ac;0x6a18259a789eb;0xbc87e08f83dae;0x21fc31ff0edad;0x9df7d3b70120e;0xe8542c03457df;0xe338f7f1b446a;0x4b182e16695e1;0x53fa53a6826ee;0xc91e559f17c];[0x9aec694cf1603;0xa0555cb3c94c1;0x67ca3db6f4afc;0x84e18c0a0005d;0xbf861050c1086;0x41ca18acb5c7;0xea506e5507bd0;0xf2cc0f11c07fe;0x34869df8a4454;0x46392c3b8db];[0x0;0x693b30e6478b5;0x643801a9f6b47;0x2ba1b5f132693;0x16995b654465e;0x18bfac1675a88;0x360e2693cee33;0xec2b7b4735555;0xee740a22dd33d;0xb748d81fde022;0x3ab603129f5];[0x0;0x613e671e68fc4;0x97cce7fb9339f;0x5e70b93a8d639;0xceb92b361bcd8;0xcfb7d170061d8;0x881ce55d1c2a7;0x4459d8f8f48d7;0x7bb59d3296cf7;0x770096018d13d;0xc0ea878175b];[0x0;0x65ad0ebe9d1b9;0x8e16c1a6660ff;0x52cdb4518afe9;0xcf9b02c92d835;0xf591de5589d0f;0xef1b55acb06c8;0xf9f86b661c98f;0x7251b68880873;0x6c7e7449300f5;0xaf8da75006];[0x0;0x39a8f0c12ce5b;0x7097a919e83b1;0x934314253da06;0x62d53f1071d85;0x6e785f3cbc51e;0x9408fc74669d8;0x3eff1079d9618;0x90758d8d326ac;0x34699708d04d1;0x5bfded50b2];[0x0;0x38be0eb47f41c;0x5125a11c3c184;0x22ef9060bf7aa;0xfe846bc71465c;0x20775168dff52;0xcd0c9c5fdd62c;0x9db9032931799;0x2f04e1ad71155;0xaf165cb028da0;0x4ff25d62f];[0x0;0xc700549c8e64b;0x80f7bf40b9d9d;0xb83f75edb8d90;0xe880e271a1e7c;0x132b59ed27837;0x4b3d5c0a4c1a5;0x588bb0019ac26;0xe93e8e5308769;0xcab5e0f85829d;0xca00c832ae4];[0x0;0xcf0e70e74a58e;0x3d2d76ac0c7;0x4f9899453ac6e;0xac8cde8fe165c;0x9a6a4e4b98286;0x7ae4a80c4a43e;0xc8884f6017f95;0xaff32f0fe2906;0x4734b114121e9;0x67f0e3017e];[0x0;0x7d8da4cf2c715;0x5de374792d599;0x1bce8253747ae;0xfac7b8387616b;0xd78325f534f17;0xc035e439ab80a;0xe0da3c67ee7c9;0xfe242de6a666d;0x634a244422f7f;0x32003c699dc0a];[0x0;0x4867a1b9847ab;0xd3d18f6ea8df9;0x8e473083189bd;0x85ebadd866b25;0x47b0ca9adb5a;0x77beb959ddf47;0x9c795f009fd24;0x4e38218683f3d;0x6c4d93190feac;0xa2d08ef0a2]];
 [[0x31bedae2e8f1d;0x897b5410b1042;0x89d223a862053;0x8d688152024ba;0xf50c174ca6279;0x5c1c05e42831;0x78ce71265015e;0xb40747f6b0209;0xed3ed86dfc5c5;0xe38003eaf9b];[0x2b6575766a094;0x452494b33e56b;0x3c5331532c218;0x45242cf4fbb4a;0xdfea3fa40b90e;0x4854354a22983;0x672727d1da1ce;0xd958081d0b076;0x340071bd1e1af;0x73e1a7f3d67];[0x6ce43c69f4a5f;0x6dd4ca8a272e0;0xbd7efe026e9a5;0xdb5d3e0c37644;0x726a9aa1d28b6;0x1ecb70abae1c3;0xa1a9e35751876;0x9d65c9401dfe8;0xbe754eadc4c57;0xc67630dcfbc];[0x9b9090cc1321a;0x3a4c67a6eebac;0xd11de0eff2fd7;0x7aa538e03fc56;0x1e2546fd89139;0xd012a30c3c119;0x69329223754ec;0xd0741325cce6c;0xb72a87690a106;0x614b8fe9b22];[0x923581f2a59e3;0xec89aa5db481b;0x8d55a268882bd;0x8dd16ac7a8521;0xf09b6dbb63bb6;0x60a1a013c3358;0x4692a75769f21;0xea54ffd7508ff;0xad9181dfee276;0xb385889a8a7];[0x9d6a490fcf51c;0xe61becacace7f;0x85fc7ac0346fc;0x102feb1cbd6a4;0x6900016ffa923;0xe2ed4225d4e64;0xd655dc600d653;0x5aae930442ef0;0x6ac4fa62332b7;0x9111cd55076];[0x0;0x693b30e6478b5;0x643801a9f6b47;0x2ba1b5f132693;0x16995b654465e;0x18bfac1675a88;0x360e2693cee33;0xec2b7b4735555;0xee740a22dd33d;0xb748d81fde022;0x3ab603129f5];[0x0;0xd5de86942769e;0x524585e5e789b;0xd82857fc68ccc;0x4ade089cd833;0x9e525dcb48c07;0xc41b76c0a9f42;0x2158cc88bd9f;0x833e8da45b446;0xb6ea25a36e606;0x5ec9c8b2246];[0x0;0xd3a8ee461889f;0x1d7adcf923cc8;0x4da1209de7d38;0xf2d4d3e4cd8aa;0xb7bfb80213814;0xf8d91d842398;0xc4446e87cfeb;0x4443c23aff014;0xa10ad70b8ffba;0x285b846acc];[0x0;0x402afdbbbc2a8;0x49a518b4c72a7;0x829a25693b487;0xd957e9db487af;0xffb21c736caab;0x1a869f815f96b;0xc8b2c2064ec5e;0xff6887085fac8;0x11d3718e49a5e;0x2c438c05a8c];[0x0;0xd8b80bd918bd3;0xc922c4b808d73;0xceb5b2db884ca;0xa9dab547ce579;0x6ced8878aa5b4;0x4199cf67b18a4;0xf1425f4e2283e;0x1d229398288e9;0x163bbe7f18d0e;0x2677d3598d];[0x0;0xee4333ff94026;0x44129262dbf65;0x99ce8df96f3d3;0xd8269330552fc;0x5c5f333d6528c;0x9f36259db5643;0xa4cf2a3e06f;0x50c66b292b9cc;0xed78403c358b;0x2e701d2d667];[0x0;0xd159a5f4fbef1;0x5c99f3f587f12;0x900011d8960f3;0xeaa8e09503037;0x8147855f0bb92;0x7cdf331f0bd26;0xcec54213b0641;0x4a3b2c75d58d1;0x405b17d91c639;0x68eda478b43];[0x0;0x51e19c4fbb056;0x28ca6f2257440;0x58ba280477444;0xe63986c8b99b0;0xfc228b970afa5;0x1fc1c6569a616;0xc821feaa17e40;0xc44b37bf19435;0xc85f60cecc9e2;0x755c2cbce908a];[0x0;0x3e5598f9cecd6;0x31bdbe2980a9c;0xeeb920cd23ec;0xdd64145dde3ba;0x409a0020d969b;0xc657489727b81;0x35df8f0ca17bd;0xa5c9d8f97e2f2;0xe173660b5b276;0x6a0a57eae11]];
 [[0x31bedae2e8f1d;0x897b5410b1042;0x89d223a862053;0x8d688152024ba;0xf50c174ca6279;0x5c1c05e42831;0x78ce71265015e;0xb40747f6b0209;0xed3ed86dfc5c5;0xe38003eaf9b];[0xbb01f2b86736b;0x5219ba0d59e7b;0x7ba082ce05816;0x84f98e2d9e1cf;0x80d2d4d6cb53b;0x7f780d3d27e5;0xbc4695f875e82;0xc35ebeac0b170;0x3025669b30fef;0x880ddc938cb];[0x8e8bf3b1a2c20;0xdfe73453f1d9a;0x101ccb5336811;0x2788f45679e09;0x60ecc4f928b73;0x97cdcc89f29c7;0x911f3b7aef71d;0xaab615c14f313;0x3389cb23b1533;0x262548b2dc5];[0x1d338cd41ea84;0xb19a421bb3e0f;0x6c3f401d66a08;0x19e0cd8a50927;0xd54e61467d7d5;0x81cc01a9406db;0xe5c6f33c5695;0xe7fe13fcd49e;0xf61bbfb9a9013;0x78d8e3cd8f];[0xad1f3d7b25275;0xc1cce0ca5f173;0x195831f228cde;0x64840dce0671;0x92444e911186e;0x91cb09f082197;0x1b58c3051dcf8;0xb1747408e97af;0x49e6ed547dcb8;0xbba98692fa8];[0xa5d62e687b904;0xf51580695db32;0xfdc42effc67e2;0x6e108ce310efd;0x42873cce812d4;0xc421b224141bf;0x9dd893894f365;0xcaee064780b7b;0xe3ff7f35f1976;0x19b565b9905];[0x0;0x693b30e6478b5;0x643801a9f6b47;0x2ba1b5f132693;0x16995b654465e;0x18bfac1675a88;0x360e2693cee33;0xec2b7b4735555;0xee740a22dd33d;0xb748d81fde022;0x3ab603129f5];[0x0;0x935d04d2400e5;0xf147b345f1515;0xda129ecea6de4;0x5ecbb576ac6b5;0x9337bb656576d;0x31b130ec1a17d;0x4dd5b73b27d97;0x29ed2be866875;0xebf78cd0232b6;0x900c520229f];[0x0;0xc7978982f6ea0;0xa3538acc3a7fa;0xbcd845edaf782;0x936b38543f430;0xc9d7b87f3f1f3;0x8b30be79144b2;0x3ba8a6d7a85;0x626d542a81634;0x355b00bb9727a;0xb2f264d7ed];[0x0;0x3916a62e4a20;0x63b3b16eaeb34;0x894cf05e2d36c;0x39c1708ac53d7;0x8865b8dc767bb;0xad57fba028e00;0x13c3f3f7a01f1;0x58b87ec2acde9;0x17f0dbb85223d;0x6806f9bc5b9];[0x0;0xf1b085b548fcd;0xea4748d2f3129;0xe2c2c253a5676;0x81b6c8be6d08b;0x9467c59dcfaed;0xb796accf9a46d;0x145389147b071;0x5fb2ca91cabc8;0xa8bd29814f9ec;0x5a67fd4601];[0x0;0xa45140f856604;0x2b28e82f6476a;0xae1733bbc9f10;0x5b9457d0dec69;0x7f4eea9aea741;0xd9887db717d6;0xdd7fb2da5c5ed;0x6bc5c6f6ba6b8;0xae92ce5f9a622;0xcde8693967f];[0x0;0xd06935dcd4b50;0x9a05bcaf69df2;0x950d9315de10d;0x94b24d1ffc1b2;0xfa13e2bb23542;0xb1622dd367cab;0xecca4c3db5115;0xfdec02803b9ae;0x8a6d622473834;0x75d6d8a9767];[0x0;0xad8cadd3b8f50;0xec05c02ba3f31;0x4e53321134c58;0x4ade8c07d1b3f;0x818381fa6a6a8;0xc8dfe3e9c0387;0x76a8b34426b89;0x7ffecec177d77;0x8e916c097d0b6;0x23cc75cab5492];[0x0;0x5174f4a2d2792;0x8a808397a8c2e;0x5a2fd05289acb;0x9089ebccc2c18;0xf001093fdccc3;0xdf2b2311cd8ba;0xfa9b1d17f5076;0x8128ba4819138;0x8f478583e5bc;0x1ef305e2de8]];
 [[0x31bedae2e8f1d;0x897b5410b1042;0x89d223a862053;0x8d688152024ba;0xf50c174ca6279;0x5c1c05e42831;0x78ce71265015e;0xb40747f6b0209;0xed3ed86dfc5c5;0xe38003eaf9b];[0x3832bf425fdb5;0xb60ac60be5f45;0x16e21d6663908;0xa64ba69738af9;0x55743fe3b4c7e;0x1ef9442099ba9;0xb45f57ec034d6;0x41e43b9c8c71b;0x98e4019387964;0x886be33bf1];[0x5032d22241e25;0x6dea6b8f31a47;0xf5daee9cdf785;0x3cbe47610a1f8;0x869dde6937cd5;0xcf02ec730c495;0xcec73e2fdfb7b;0x40b4854d69f4e;0xcf9ffad062278;0x644f04289d8];[0xe6b09cffa7c91;0xe3777af9bdf0e;0x834c4738ffcab;0x71a4366dc8cc3;0x8d013175196d4;0xf9dee57bf7c8e;0xc9b5c6fcf19e5;0xf3c030ba5b8c7;0xd05a0cbdc789a;0x6eb1e6f5c85];[0x38adb28c97d27;0x14991a9fd71b0;0xb73184398ccb9;0xbeb91e4f9ccff;0x686528f20d756;0x69b9a76935f34;0x5196ce9961210;0xb4b6aac46c2a8;0x1eb32d5b984fb;0x6ef46aa6c24];[0x1da92c5566387;0xd641f9c9874d2;0x391600b8fec9a;0xf80d61100061b;0x95b0e84fc70b9;0x45cfdd38f5d84;0xf375aa738966f;0x68dddd2f4320d;0x1c13c4fd5a0b7;0x82ca6d6817];[0x0;0x693b30e6478b5;0x643801a9f6b47;0x2ba1b5f132693;0x16995b654465e;0x18bfac1675a88;0x360e2693cee33;0xec2b7b4735555;0xee740a22dd33d;0xb748d81fde022;0x3ab603129f5];[0x0;0xc10eab9245efb;0x365426d3503fd;0x7423c96d45ef0;0x9653a4b58e15c;0x8139dceac561f;0xab94eccd3f275;0xccd7af3b8ffda;0x78184c9d2199;0x8495b6aab5917;0xc0b479691d5];[0x0;0xd086ace045cf5;0xc3a92ce979830;0x4cc43bbb4fae;0x7871eef24f3b3;0x444e9313d9d52;0xd356e0c168646;0x5f03436da4c78;0xac02841bd6df4;0x59e4e3bbac565;0xab2b1ce7cb];[0x0;0xd1ac5d3bc5609;0x7e17fe61e4397;0x772e77848f5e9;0x232baf03ac339;0xc8045399ce19e;0xa8d2201050497;0xf20c6557534d8;0xe9be14ec99935;0xc534375b713df;0x1fbdd170d55];[0x0;0x647490aa14d1f;0xe1599f334c637;0xaaf72105ae93d;0xa766bbd0f2763;0x276cc66c7ed53;0x8de22269209e5;0x919e74a068986;0x885710e64fb82;0x8aed3254a629a;0x1b95d893e8];[0x0;0xd7d27557e39a1;0x48d65b7e17c9e;0xe054bfb6f4e66;0x3d7955a2ffc25;0x6d2cd33f6e226;0x3caed4e0e4091;0xcd51991027de6;0x606b291dbb467;0x50ff7cb43064c;0xc4f51d2a550];[0x0;0xdf423595f215e;0x916424b3d3f0d;0x9ed0784223b5f;0x11f62c984b37;0x330d5fafed6c8;0x3067d1c19a6a2;0x88df309bd4da1;0x5a727fbf8d60f;0x77a197b18af09;0x800618db3];[0x0;0xc2afbdc18535f;0x1431319e06c92;0x3b03c6d1eab95;0x5ff6d674509fd;0x531ff300fe3e2;0x9e37aa40ca0ac;0x7019314dd733a;0xffa5fcd668dbd;0xfa7e8de2f2d7a;0xf584eecc29a6a];[0x0;0x3cdc15cf48f5;0x3fa2a747fb6b7;0x7caebd05bb5d4;0x9f827b15b3f71;0x4e2f89c8b6001;0x49a33dc9e2fe8;0x420c19f1b27b;0x64d7808d133da;0x349ec410c4aa2;0xe58a0904ea]];
 [[0x31bedae2e8f1d;0x897b5410b1042;0x89d223a862053;0x8d688152024ba;0xf50c174ca6279;0x5c1c05e42831;0x78ce71265015e;0xb40747f6b0209;0xed3ed86dfc5c5;0xe38003eaf9b];[0xb93821c3ee755;0xf1f59f7d92d80;0x54db2cfbb96d6;0xc58295723446c;0x4b51c8f39b97d;0x58c98507e1622;0xa73d688565242;0x309bec05320f4;0xce86d1bd01109;0x35908a096f0];[0x17866a403ac;0x68ed9ec7a40cc;0x6c0551a51fda6;0x38b8e3abf54f0;0xc2eba6909dabd;0x3390c40a5a761;0x15571789d6730;0x9adca2db367a;0xec80e7b0ad718;0xbd1cb3adebb];[0x643492f433149;0x2d634fea2fce8;0x5a10bc151c6a;0x381a09b336e93;0xc46d20b072bc8;0x56e7e68e4e242;0xfc5bec6b18c0d;0x1cf1b47b619d2;0x553217257da2a;0x387adfa84e];[0x66a8a2c46e987;0xceb27ff931199;0xe88c1ad3e2f03;0xc0ed29b008389;0xaff9f1fe4acc6;0x36f4b9f9d20e3;0x81037894ef690;0xf540cdbbde2ca;0x34b1df0cdd28e;0xcc688bde405];[0xb1847ea0de0d1;0xcb5d5ea1ff4e8;0xefd691799c4b8;0xad83f314f9476;0xe9196830140af;0xcebd498aaba86;0xd317678ffd8a3;0xf3a9dcf5fdeae;0xbb449ca001e8a;0xf902392e97a];[0x0;0x693b30e6478b5;0x643801a9f6b47;0x2ba1b5f132693;0x16995b654465e;0x18bfac1675a88;0x360e2693cee33;0xec2b7b4735555;0xee740a22dd33d;0xb748d81fde022;0x3ab603129f5];[0x0;0x3402d876c23c;0xf5c2737b693f1;0x3e4c036e59de2;0xad5c0654b47c6;0x811e09bdfbe09;0xb3407fb6d2347;0x34756deaf29f4;0xddf7371ad7168;0x3d0ceed1aba5b;0x1a8e5eb8ee9];[0x0;0xfaaf77f84c2c;0x3943fb1d600f2;0x1512ff2bfe3fc;0x723dd44b91730;0xace5d1eba6d75;0xa44a071adac17;0x97782dc1b14b3;0x60198f8b10bf4;0x507a2fe17509d;0xb97620613];[0x0;0x59923c5862a11;0xdf1876aa4dd3e;0x5d59f8886fdd2;0x9b2442d4ec20c;0x97dda7d790acd;0xe5ceaa4414798;0xbcf5db24b88;0xf0ac8b8d22ac;0xf1f1391b88642;0xd9458a90205];[0x0;0xb6d76cfed7bbf;0x25678cb71279a;0x326ec12edb4a6;0x47acce7bfe8c4;0x54e858b86cfee;0xfb6de94133899;0x1eb60e307960e;0x8847dd6ade3e4;0xd799ac3f0393b;0xbcd29c566f];[0x0;0xdd939e05ae581;0xd7f6e80b8cdc6;0xbde649d7d8665;0x1ea9e21f5dd57;0xa297000826255;0x638d564bdda49;0xb8fd07041e4e9;0x5ed81e3c815a4;0xcf30e1b5654f7;0xd567698d04];[0x0;0x9722e813c874b;0x1f47be0449b45;0x5a7b7b3fc9dec;0x8e45810a4620c;0xb33e9dd89164b;0x308e505393d2c;0x472bc66604ae0;0xac032cfe24a09;0x9876fbf2de4bc;0x2a2f8c2bbb4];[0x0;0x239e27a83fa95;0x466f192cc958;0xf81490dae83fa;0xe54b6c2151664;0xa19a0c3ca8eb1;0x238350bfadbff;0xa6677e3debd67;0xdcfcaed8b0223;0xfcaee496e84c9;0xc49b86bc32b42];[0x0;0xfa7046c4c1e05;0x9eb24cf68d22c;0x549f8acf5685f;0xcbabf7b00ee69;0x4468062d6778;0x8ffb7b1323aa1;0x347143a67dde8;0xe61fe3279a072;0xbeee2c02bbf07;0x9a5d66022e5]];
 [[0x31bedae2e8f1d;0x897b5410b1042;0x89d223a862053;0x8d688152024ba;0xf50c174ca6279;0x5c1c05e42831;0x78ce71265015e;0xb40747f6b0209;0xed3ed86dfc5c5;0xe38003eaf9b];[0xa317df391587e;0x680cc29ba7d46;0x330014d6aeaaf;0x3d1cece11c2e8;0x75c889bca9b23;0xf770d84ccd074;0xa011b6cbef7cf;0x190ccb7946d50;0xb13f67f86b4a4;0x37523723aaf];[0xaf00a17290a40;0xfa5ccd1cc7971;0xf8b21e48480b5;0xf7c8f82782b1c;0xf07e015c91065;0xd56913aea7020;0x8b744842602f6;0x6acc9813d7b09;0xdce89661114dc;0xa82bbe54114];[0x29d9267bf4be0;0xf52fb7979cdb5;0x238dd14a6fc42;0x9e52427ef9af5;0x9dc627c97fcca;0xbbc1784452c9;0xa9e4ac1241458;0xadb454f1100b9;0x5c8d1bec8127d;0x51d7125cced];[0xfa782b0dfaaa1;0xc0ce2a688f33f;0xdeea09a9e5793;0x5cddf85fa273d;0xcd6cf942d8459;0x2fe4ea3fcf104;0xec729f626fb95;0x78c026b167501;0xc631ca0dd19d5;0x8a19a625f7c];[0xb013782d60652;0x169302379295f;0xd27222e25c65a;0x82276344139c7;0x5205650d96dca;0x6ddd5c06f7290;0x7dc9e0b9b07f8;0xdc9758db79bc8;0xa8bc4da5d9093;0xa32da020124];[0x0;0x693b30e6478b5;0x643801a9f6b47;0x2ba1b5f132693;0x16995b654465e;0x18bfac1675a88;0x360e2693cee33;0xec2b7b4735555;0xee740a22dd33d;0xb748d81fde022;0x3ab603129f5];[0x0;0xb21ef0208844d;0x8d31aee25853d;0xa2ed5a3ed4ce6;0x4fe7d43634344;0x25e5b2f783b72;0x2a2e41b5d489;0xd21a27f8fd569;0x8ec4b178f7e91;0xceb41396b8a6;0x43f1966d2d4];[0x0;0x1f180f2fe9bc8;0xeaa42d7287ab1;0x88985806919f2;0x48b708b74279a;0xa8a358a488f4;0x80b781e648310;0xb3f2258aac33b;0xea2edce3db2dd;0x1c5f1d0477992;0x9ba4eec5c9];[0x0;0x2aeac51daa200;0x8fddddf496bf3;0xb1549b3049263;0x598c66e4eb642;0x8e9288f0c7598;0x3817a5891dae1;0xf93de13e71f31;0xe55dbad49c2b2;0xf697589b2e580;0xae1b452e71c];[0x0;0x3a872a068da29;0xc1d1cac5dbd3;0x18b877dbb9a80;0x5f10ad18b9ddf;0x2c10ec2529b9a;0x5b94de04aaa97;0xf20d2d24d8f2d;0xfb66262ff0e3e;0x961095e6614c1;0x974f3b473d];[0x0;0xc26d40ca5b1dc;0x8f4a9ee0a2f3b;0x5466037fd512;0x319982d8ac8cb;0xc72a0abb0b934;0x3ef46f5ad6f96;0x5f86586a2fca6;0x8ca1b019a6cc7;0x64c69cac5def5;0xb3182a1432e];[0x0;0x654b6978f3295;0x8f58500ec8026;0xe28eeed6a5ff0;0xf6f4605ba57c2;0x560e0aba05dfe;0x291c5b058cfdd;0xa8aaca5a8f2ab;0x8fb77f19434da;0x6077ac279f00a;0x639da35d0f];[0x0;0x1ea65f7a2bff8;0x50ed0acf0f40f;0xf2031c5e5aaac;0xea225f0180902;0x56ae5b9dee7e8;0x14013a678d1f3;0xe7c7ad79e37f8;0x5d0e0ab6f522a;0x4afa71b5aa358;0xc7008d58e25b2];[0x0;0xfbf623d04ff2;0x207eb049ee83f;0x838d40892b430;0x48150a029ea46;0xe54eb7d7abbdc;0x771fc37fd8c09;0xd6733aab51d6d;0xd1be5e239f804;0xf07009078b9e8;0x1653edcf78e]];
 [[0x31bedae2e8f1d;0x897b5410b1042;0x89d223a862053;0x8d688152024ba;0xf50c174ca6279;0x5c1c05e42831;0x78ce71265015e;0xb40747f6b0209;0xed3ed86dfc5c5;0xe38003eaf9b];[0x8d00988331fe2;0x5c233e7223efb;0xf97e7eb646e11;0x882f5b4b133da;0x991f15276d22;0x270427c3d8c52;0xfe3730d1cab0;0x7658d643cf74d;0xd48b0aeee9880;0x9483f874e41];[0xf1541cd5ba3e4;0x16415fadf00e5;0xc285994350118;0xd0efaf82c2a1d;0x9596f47092fa4;0xdb712f2d40fda;0xcb3134008711f;0x4d784e70b34cf;0x3563af1113084;0x19493be250b];[0x97058a8581094;0x14b9ccb9a7caf;0xf4d3c6c554dbc;0xca090f8a5ba4b;0x211cd2cced3de;0xeb3538d038362;0x2db0b3dd50a77;0x8e83ab6ba3b79;0x36d879edcb2c2;0x8bb46cd4c65];[0xbfa333e7b8fe1;0xda91b449c0356;0x99675c02192e;0xe9c402a256c42;0x8bee6190debf2;0x592dd69da0d1;0x10a39e16fc861;0x4fcfd1346c321;0x40ff35b0c63ec;0x42fc1d17d41];[0xae4b825d8ddd2;0x334fbfa773b43;0xf19361c22c616;0xea71e2ca55acd;0x34dff4e5e8ef5;0xec9b07b57369;0x6a8ff6d15f04f;0x66ade4b840a9a;0x617fe5fd2f9ea;0xc05f7b77b19];[0x0;0x693b30e6478b5;0x643801a9f6b47;0x2ba1b5f132693;0x16995b654465e;0x18bfac1675a88;0x360e2693cee33;0xec2b7b4735555;0xee740a22dd33d;0xb748d81fde022;0x3ab603129f5];[0x0;0x5b1035dbd5c45;0xd4c56db889c1c;0xe30c90167dc5f;0x7a33441281666;0x3c7f4f5ee9bc0;0x38c6e737bf194;0x59596120e4cac;0x15b440965658c;0xb2cd72157f11f;0x4638fcfec69];[0x0;0x89a2975ec99fc;0x7ab400124074c;0x3182efb91523e;0xc4be2e6ec68da;0x65f35fa2473a;0x524792a6c9d2c;0xb5335e5f6f87b;0x3b9a8ca01e8b2;0x296e1b1888d40;0x163dcd2d5b];[0x0;0x105496d8cbee;0xbc8305a81efb7;0x529aca590f0df;0xb8f2f920b715d;0x3d6972f98caf;0x42372e57e8f9b;0x65de3f7887630;0xdb7f02820cf5c;0x3d4f223e0c903;0xb03b57d11dd];[0x0;0xb4b62d89f8d71;0x75fa22a066a45;0x9a7d542d84472;0x79cd97743bf11;0x567bc620cecf1;0xa31cd0218b656;0xdb4944ccf2391;0xcd89112fb318a;0x322b895f34df4;0x992810a195];[0x0;0x1742e341c5888;0xd7ed28a0d17b9;0xdfb79d3c61490;0x8984085a01859;0x3b0dba6030dfd;0x3f4a22bfc470e;0x9fdcbc6045b3b;0xa11b49df3f561;0x7bb22f65b5650;0x1997a847785];[0x0;0x8ed64d3a6042e;0x98032a542bfeb;0x9fe89ed740119;0x35218b80beb89;0xf0d293df72993;0x5680537a581aa;0xfc46d813f860e;0xaa6aa7d86bff5;0x6bce44dcc3aca;0x3518ab3003e];[0x0;0xa3de3e85c672c;0x3c517d8ba10d6;0x7b221de1c4fd0;0x426f7d2ec9917;0xf309e9f35be04;0xed9413d9f5dc2;0x252a8dd8a9389;0xd701abeb26e4d;0xd2e76ea3a4895;0x9412b75d82550];[0x0;0x7dc4943d90f2a;0x1ce4c9fde714e;0xa12aaea2dd6d0;0x51b070cfaa20e;0x79205b2ee5c8e;0x78e2b3229b90f;0xec0a3d6ab5f9a;0xa0ec4353d1bb3;0x2c473bc5bdb52;0x34d9fd0912a]];
 [[0x31bedae2e8f1d;0x897b5410b1042;0x89d223a862053;0x8d688152024ba;0xf50c174ca6279;0x5c1c05e42831;0x78ce71265015e;0xb40747f6b0209;0xed3ed86dfc5c5;0xe38003eaf9b];[0xe4716c7f7b143;0x9fd5176c9809d;0xffeeb8d4440fc;0x4d634e57d67e6;0x458819981943a;0xdaf6d81748c;0x3f8aef070ee51;0x2cebbf704b896;0x6767ffb217b41;0xea800b3f464];[0xd8c0f43e252bb;0x20f6e85dea579;0xfacf69a11fd6b;0x9cd05b062e383;0x7451fcdca92c0;0xb8e98ec36503;0x2f9fae38df1b6;0x95e94a13cdeab;0x924c694d368d3;0x8e28197ca5b];[0x3929567884ea1;0x5e3471a300c54;0x27988b3369d8e;0xad464d2532589;0x6ef84704290c0;0x1bb5ed8184f77;0xca0806c17e5eb;0x5413efa113db1;0xfb0adf44be69;0x997ef00008e];[0x410953610d67f;0x10154260f502a;0x6c09df2a54292;0x2ba9e9524c264;0x5a7b6e933fbdd;0x54e56c4a1f54b;0x7391ad86cee03;0x76c58218f5ac9;0xbb0376f8bac20;0xc083a52d86c];[0x15ad413b5f91b;0x2b9633c33676d;0x6851bc10137fb;0xdeb8fcde58a48;0x8656cee2825b7;0x74354fe528fc2;0x832cf21cef0ea;0xe01ed290c0153;0xe997ad011b374;0xdfe867f9e06];[0x0;0x693b30e6478b5;0x643801a9f6b47;0x2ba1b5f132693;0x16995b654465e;0x18bfac1675a88;0x360e2693cee33;0xec2b7b4735555;0xee740a22dd33d;0xb748d81fde022;0x3ab603129f5];[0x0;0x5706ebdda921f;0x6c7c552b35f09;0x8c226ab5e382b;0xa95ab9b4ce0d6;0x13bc78221f2bb;0xd1295528c1ec4;0xd6c747579fc80;0xb762720dea47e;0xf0239baa8625;0xc3b8b3078a];[0x0;0x26618adb8ae3;0x8b89d9324a38;0xed3d389a7c258;0x4c5317edc847d;0x9ba06db29d94a;0x68c7fdb8f8ee1;0x98755a921fd7;0xb9f54bb345e34;0xc80b2723aa549;0x46a77e32e8];[0x0;0x32fae26a2901b;0x8ef4071f11dfd;0xf665035c6317c;0x6d5c2a0052068;0x51555cceed1c1;0x411f979a507c0;0x5c92f440a67f4;0x579e244d7ed21;0xeab3257d4a0c9;0x8350fd3136a];[0x0;0x2818ed4d6835f;0xca54f0acfc3dd;0x8237ffdecc89a;0x13117e6734c7f;0x9628032c8da6c;0x5cce5cf9d54a7;0x697b04cc061eb;0x86b604b047830;0xefeafe00f59c4;0x721f460a13];[0x0;0x1a80b887fd177;0x10dd207686c9f;0xd9762905dcd1f;0xb39eb85dd1302;0x10fc9d8350e10;0xe9f78ce929b5f;0xd8e5842aee725;0x78c070cfbd84e;0xb9d7f76d3c4c2;0x514ca48c641];[0x0;0xcca9c52ffa348;0x22a078f34bbdc;0x7c840fb7222a6;0x61cfb13d49225;0x6ec7f491cd30;0xdff8122dbb923;0x60b0630785e30;0xeef8dcc1cc04e;0x89505424d2efd;0xc85aad13a5a];[0x0;0x2143e8f920cb8;0xbddd6e6fd0448;0x29fea5519940;0x7cc8d63c7e934;0x85f852d5b1590;0xe50387f42fb79;0xdab1b6fac9844;0xd48ee59cbe63c;0x7bfd12955383b;0x2a8b27e76a489];[0x0;0x56c191d04b3bf;0xb1e8bfe4bac62;0x92fede04dccf9;0xca7bc7aa732a3;0x55a5f1a61036b;0xcc69c9956bf3e;0x7a9b6e7272ec5;0xf69e7a184c19b;0xc652a93b57fdf;0x2456397723d]]]
 (V [0xba2c7f887a121;0x3e133934dd4f7;0x44f992bcaa48f;0x401893f7586c3;0xd6c4a67445ac6;0x8ce526c88ce41;0x51b13a63bbe2b;0xeca9ced919b57;0xc7a0d6110c165;0x78a29dd3b7] [0xdbbb67a7531f1;0xd9e14d67977c2;0x8e1850f55ba0b;0x9b9349ff26055;0x5fe72b3677168;0xb40b8f878267d;0xb9bbb109a9519;0x5be78ada04610;0x78c5e55339c44;0xe7b6db528b3] [0x2fed67c0b20ce;0x746cdc248f798;0x702bd53550d4;0x9f99e5a585f41;0xacce3a6861ca1;0x99e244a22e431;0x49ebdd7f27f9e;0x4442a46380f12;0x198b8ba2e25d6;0x29daa4e7ece]) [[0x5d69f2def986e;0x35788e65a14fa;0x40b0af08f6aaa;0xbf6295604ce58;0x1bd3143fede11;0x7692a2876daa1;0x4831ea0fcbef7;0x75a9b1412a761;0x3acdf9641229d;0x24351063c3c];[0x76e0959a84d0a;0x63f17705f540f;0x2eccc46909db7;0x664b07a3ebc4f;0xb85bfe994f23b;0xb7c7e7eaca089;0x6dda83267aad4;0xfb5f81ef6845c;0x595f2ceb26cc7;0x426dd4fa3a1];[0x86cb54061da56;0xbccd6b47d794c;0xfaa5c147f1ea0;0x49045b7880bc7;0xb84de0a834736;0x91227abf19765;0xc877747e6ed7b;0xa307c159f6f68;0x150e32d4a10f7;0x6bf4657916b];[0xb28f4fc1b5dde;0xf487c4516cb67;0xfb3c75b34154d;0x42ffac0447834;0xf5d02233fda92;0x15d55ab9cbd8b;0xf4d518fc26d8f;0xc8d98e3e514eb;0xf8d0017fd1378;0xc4375202bea];[0x633e08d1f1cf0;0x67ded9f3173c9;0x6f63efdc1801a;0xbcd2cf63d60b7;0x4e88195fd717c;0xa58dcd2c33d4b;0xb26729a5841a1;0x362ed930d3d82;0xc6eca34384fb0;0x54bfb2a53f0];[0x739e218f65a85;0xa1facff356aba;0xd0ade4b34f7df;0xca83cc4ebdd09;0xd7a0927111af;0x552930e0f01ed;0xafa7e4a1bc2b0;0xd15b10a49e474;0xd4a558e4fb59;0x8026de6c448];[0x0;0x2329003f55b5e;0x622ea9b63bd13;0x95b2ec6f09d99;0x770027f86cb44;0xb78f2b87ff33;0xf28f5de73487d;0xfeab9f5e9918e;0x59e8f057e4028;0xbef293d9ef502;0x6c2f702e4d5];[0x0;0x5057777ec2d0e;0x265c99c5ec76a;0xedecc014a9d49;0x409e8f8f20a73;0xed1695cfc2da3;0x10f4f136ba87b;0x221415e14d90f;0xd784ab26c0ce6;0x5af0a9a1fff2f;0x1703b4d40fb];[0x0;0xe32b265a50398;0xe69014c7b7dc;0x43ac1463c0777;0x82897bb161564;0x1ad5c9a753f6d;0xdbc8373478018;0x7a0b0f550ca02;0x2bf224915d6d;0xd6ef42d32d5a3;0x8fe61cf7b66];[0x0;0xcf71314fed25c;0x9dd66dadc912f;0x2e875db1ed265;0xa2f284b66d615;0xd400bb7c5aff;0x20e829c6c0838;0x223077418a3ea;0xb70c33138747a;0x674258ab0aa54;0x1cd2b32cd66];[0x0;0x3b9f839b237f6;0xb1000db9f7cc8;0xbb4be82017981;0x9e505787eb30;0x1312c0ffba00d;0xc81d9f44a9b5f;0x3bb6d5013deef;0xc308491de662a;0x504e4946bf185;0x1bfafa9cecc];[0x0;0x8b1ba4f2d6757;0xa993000e8958d;0x55da1c87d4b;0x6f7cb19196a62;0xaebfb28c74993;0x75c7dfbd196bb;0x9d6dca2f38746;0x15cde49b8ec84;0x249d4f4f54fc2;0x943b88816c2];[0x0;0xfe750c80111;0xb2783b1389086;0x3100a88ccec4b;0x58e40a433567e;0xc83affe9f84f;0x3e9094d4dea89;0x8c0287fccf9cf;0x52e36b76c0cfe;0x67302b70ac605;0x1f4dae4a5d];[0x0;0x1cbab4e63d9f4;0xf0eed9b67137d;0x7b29f32f46580;0xfb3bf05362f72;0x2e9b1039394fb;0x6c3cf1c816a92;0x42eb7fa3b1e15;0x43f8883d5ce78;0x4d08c9948142d;0xe862719fb12df];[0x0;0x3704bef7039a5;0xc2bb8298751;0x5a1fd2d3fec9b;0xcf50d31812991;0xe61884d0ec46d;0x66c524b140715;0xd9f16a1d2a5b8;0x4b99c00f73a91;0xeeedd658c98d;0x6d30e76042]]
 [((V [0x824f4103334dd;0x136bf04111633;0x882856b3db18c;0xab9f3a7c0ce2d;0x120acf06d53d9;0xcea1b2e12197d;0x5798c489d77ea;0x6020fdbaa79b2;0xafdab14b18587;0xc7873e9729d] [0xba558c2d446c9;0xea9c69723a893;0x4581156538325;0x4453a25bacf51;0xdbf38c7091b35;0xac7f5d0a369bd;0x2f445a6ffe7da;0xc47b6efce33bf;0x2c478c85397cb;0x2d730232acb] [0x30140877a3542;0x14ff628372abe;0xdd56bdd038e68;0xd0c1a42a58362;0x5e625fbe1ec75;0x9e6b50422dc79;0x946be21366bc3;0xac2b800d2ecc6;0x127e381cf64e0;0xe67b9860]),[[0x5aed0a7915db5;0xa42b5202b3053;0x5ebc30b5d3344;0xffed9acf40ed8;0x2e4e379bcc8e7;0x49e1cac663c4d;0x8e53223d72650;0x3fd0f04a672b4;0x54f1c0780a84a;0x44db088d5ab];[0x9165800b8f77a;0xa5b3731efb3;0x264e17b5d739f;0x2c8e0e65e3bed;0x4819fd4851f88;0x87816d4ca38b8;0x2443c3a110fe2;0x285ffd2c87c6a;0x91a7412ad76e6;0x782b51e95dc];[0x2fed67c0b20ce;0x746cdc248f798;0x702bd53550d4;0x9f99e5a585f41;0xacce3a6861ca1;0x99e244a22e431;0x49ebdd7f27f9e;0x4442a46380f12;0x198b8ba2e25d6;0x29daa4e7ece];[0x2fed67c0b20ce;0x746cdc248f798;0x702bd53550d4;0x9f99e5a585f41;0xacce3a6861ca1;0x99e244a22e431;0x49ebdd7f27f9e;0x4442a46380f12;0x198b8ba2e25d6;0x29daa4e7ece];[0x6232770a0c3ef;0x2a0a87e045c91;0xbd7dabffabee4;0xce0de3d3f2f4a;0xcb46e274bd9c;0xc64d7c118e0eb;0xf24529001d998;0xfcd94554075db;0xbce74e91f7b36;0x1d2eb34663d];[0x2f3309018338c;0xd69b2b92d9322;0x68d06bb62b4ba;0x5e802a91f0ca2;0x3b658f21061eb;0xc133f13b157cd;0x31fe9aa0f3649;0x2b86b7d88068e;0xd4bff298dfbaf;0x5afc9ea2f9e];[0x0;0xb122286a4edfd;0x9f7795abb3481;0x93d23a20357b6;0xef65674e41581;0x4e715ff1e48ab;0xbc4ab5ada41ea;0x5c401486bb5dd;0x6b8f848a68415;0xe27527fc69b90;0x19e1eb8b597];[0x0;0xbf4a9ddf05e74;0x822f221435549;0xca502b3663134;0x4bf57081b08c0;0x6194b6af7e82e;0x5751c79d1e886;0xf0a9c7d88ede;0x2330a5658fb8d;0xc27326bcbd519;0xb41e33e9eb];[0x0;0x3704bef7039a5;0xc2bb8298751;0x5a1fd2d3fec9b;0xcf50d31812991;0xe61884d0ec46d;0x66c524b140715;0xd9f16a1d2a5b8;0x4b99c00f73a91;0xeeedd658c98d;0x6d30e76042];[0x0;0x3704bef7039a5;0xc2bb8298751;0x5a1fd2d3fec9b;0xcf50d31812991;0xe61884d0ec46d;0x66c524b140715;0xd9f16a1d2a5b8;0x4b99c00f73a91;0xeeedd658c98d;0x6d30e76042];[0x0;0x1a8535667bf7e;0xa722531800a28;0xfee807a6e71f6;0x40b2dca025138;0x65bf6a3934f5f;0x86f5ff5cda59e;0x944950d4853d4;0x7f8192aa6c251;0x2871c5958fa16;0xd1bb826b8c8];[0x0;0x7d66f81b45ba3;0x5757f601aeb87;0x8993bfc8293cc;0x1242ff8bea4b6;0xa6b6125b65ce9;0x2ce4498cc6ba8;0x88891d4b9407c;0xab9982c331925;0xd8d1df391319d;0x38d8db429];[0x0;0xef52d71baffd5;0xaadbd9c57f716;0x471469859d5ee;0x8dc537ca1b321;0x341f719f369cd;0x7fef7d8490a68;0x9a76432e41d8c;0x116192d7aebed;0x15a0f731a89fa;0x5da928e60d0];[0x0;0x8b5f35a36564c;0x8f36b5f93cba0;0xa4a3f4a4e4774;0x3eed308eacb33;0x13ce586ac5beb;0x4244ab52b62f8;0xd535fb948d62c;0xfd035be9755a2;0xaea9252adf4d4;0x2d8b1f9afb6df];[0x0;0x10be318fe8fa5;0x39e4372261ee6;0x988e4ebf92689;0x6bb4329dcd606;0x2c424bcafc0e8;0x34de245bf10c5;0x582556b6adfe8;0xcc29dff0859e4;0x4e709adec8174;0x236c69783dc]]);
 ((V [0x4d3c70fd54315;0x6078a36804b03;0x916ed2030785f;0xe18e41764999;0x4266dbd861111;0x7e5941e65ef6d;0x81d5acfd385fd;0xdf4dbde7abd61;0xa1ffea6e37ce4;0x8dec0e94df3] [0xbfe9761636c31;0x562e820544de;0xb8525b5469631;0xfe84816a8dbff;0x5a0ecb16fedba;0xe241c330469c5;0x64dec7782e3de;0x6aea5d07bf69c;0x3a41413b70abb;0x6a276128550] [0x41b3f8bab549b;0x1194216bb0240;0x7154b0ce6896a;0x3879c80c4a744;0xab4898b953478;0x76620b48e12b8;0x6ca1c71438e94;0x3d2c0f00b501b;0x4977f17ec63d1;0xb8712c3713f]),[[0x3e13a419fc896;0xf27dde7df7709;0xc4131b6105034;0xb447849f46c65;0x27b908250e9c0;0x825517c6c8be9;0xbbebfdc746cb6;0x595659384a3f4;0x98e68a10be113;0x54d4f2c7508];[0x85ac7596772da;0x9370fbd16ee48;0x9e69f4ebc4e10;0x6b188c7daadb4;0xfd8783b55c43c;0xa3950fddcad7f;0x1f4eaa877e5ae;0xdc4bcd022cb15;0xf4bf40d8c29f4;0xeecee44a043];[0x30140877a3542;0x14ff628372abe;0xdd56bdd038e68;0xd0c1a42a58362;0x5e625fbe1ec75;0x9e6b50422dc79;0x946be21366bc3;0xac2b800d2ecc6;0x127e381cf64e0;0xe67b9860];[0x30140877a3542;0x14ff628372abe;0xdd56bdd038e68;0xd0c1a42a58362;0x5e625fbe1ec75;0x9e6b50422dc79;0x946be21366bc3;0xac2b800d2ecc6;0x127e381cf64e0;0xe67b9860];[0x4f876e3e7afed;0x9f8a3add825a2;0xc2fc1f33f453f;0x9e74753c3eb0a;0x7e969808ab0a;0x5c0510d143c5b;0x17146a4780886;0x834541ea6cdbc;0xadfe488c9b901;0xcdcf7945f1];[0x36250757fc2ee;0xf3e6c0f3ec8a6;0xdb6dd5b7d08d0;0xcca417416c2a9;0xf59e1a34d1931;0x478fff0c87124;0x83a403ffdd28;0x59068b17bfd59;0x46c0f84c270f3;0xe1f1ecb5a52];[0x0;0x6de580d3ad1a6;0x883e3944b1425;0xaa3566c7bcd8c;0xc9cd8f437d31f;0xce48723186fa1;0x437688e59c9eb;0x9a280de4882ae;0xa4c2636752c3f;0x44595c4a3ab9e;0x8e87bc68];[0x0;0x90c212e2fc79e;0x959383afe4041;0x233b8f84a68da;0x88543c85deead;0x64bd7b9c317d6;0x885a365304703;0xade5f1ff493e;0x8a8a99fc6a14e;0xfe417712fce18;0x4c6046ed];[0x0;0x10be318fe8fa5;0x39e4372261ee6;0x988e4ebf92689;0x6bb4329dcd606;0x2c424bcafc0e8;0x34de245bf10c5;0x582556b6adfe8;0xcc29dff0859e4;0x4e709adec8174;0x236c69783dc];[0x0;0x10be318fe8fa5;0x39e4372261ee6;0x988e4ebf92689;0x6bb4329dcd606;0x2c424bcafc0e8;0x34de245bf10c5;0x582556b6adfe8;0xcc29dff0859e4;0x4e709adec8174;0x236c69783dc];[0x0;0xa150c95caa6fc;0x798c29567c94a;0x27fa68046df91;0xfc44fa44024d5;0x6faba8360735c;0x746097153a700;0xec564fe22d216;0xaf1c7a8a9ffea;0x2d669b058b59f;0x811a270ca4];[0x0;0x2819500c7194d;0x74b62ed50411a;0x2180fbfa2a5a5;0x1d321796882bf;0xcf6852d0c22c2;0x938e4076de6ec;0xd8dfc81025b55;0x81af79df7d5e2;0xe2cdffea9cf41;0x9b838ac215c];[0x0;0x24401ab87f5f5;0xd60e18d034b72;0xf7d61bf2be178;0xd1a442f0911a1;0xe45c71c8422f1;0x2b18dad24da75;0x4291344bc106e;0xdc054916f4057;0x73fca2843e19a;0x8464281168e];[0x0;0xfa2f7368f14f8;0x3e36069672b17;0x8c326d48166ed;0x61ccce254b55b;0xcc310c076ed52;0xf9940fe307f38;0xea2bc49ea5171;0xecfe75c18dc0b;0xd0e9b0037e8d7;0x6a2e8222cfe77];[0x0;0x19509889d3646;0xbfec18fcee0f;0xcce1d53d0150b;0x2529db575220c;0x30c7a39a28be6;0xf4a5b71058bb9;0x168fd7625a1ea;0x43e497908ea9f;0x628842cad871c;0x3ad992dcaaa]]);
 ((V [0x95b1d98087d14;0x226f4bdf69619;0xb5c2b798b6342;0x275ffdcc378f2;0x92f06e07b02e9;0xfd02fbcddeb45;0x45630f4bf4575;0xf0c6a386f4c22;0x24268becbe056;0x1aa5150d95c] [0x1f3815011320a;0x45d1035f91754;0x43e9ea6ea1521;0x3ffd5d0854c8;0xd5784e4c73b62;0xef80a75fba19b;0x7f7fb550a5cc2;0xb4115aaeed19;0xd3d0a88034cbe;0x86d961a0115] [0x1a54065d776d4;0x440be1b05e68d;0x1aba800c8a6cd;0x298fd6e1c50a2;0xf310c6220c107;0x945383c53cfaf;0xa5bbda0d07725;0xbf1179fd6e4d1;0x7d415f66856d9;0x1727d4f402]),[[0xebc47863570b1;0xf6a9c6da2b8d3;0xff15d590b2937;0x8eeae3271867;0xcd75da31baf05;0xea2d9b5e917f6;0x301f5e6a5b18b;0xc8807fde4b6be;0xcd9c3f1398ae2;0xbf4ee3e7394];[0x4d49b64d5db9f;0x4e70ec6b47b4a;0x8111d3b951f69;0xa9c91a8bd2d35;0xebb0c911b6c1c;0xd3e52ca744ee7;0xee703195dd9b2;0xe2f7619dc1f87;0x625f1a40a0389;0xbd0e7d36c33];[0x41b3f8bab549b;0x1194216bb0240;0x7154b0ce6896a;0x3879c80c4a744;0xab4898b953478;0x76620b48e12b8;0x6ca1c71438e94;0x3d2c0f00b501b;0x4977f17ec63d1;0xb8712c3713f];[0x41b3f8bab549b;0x1194216bb0240;0x7154b0ce6896a;0x3879c80c4a744;0xab4898b953478;0x76620b48e12b8;0x6ca1c71438e94;0x3d2c0f00b501b;0x4977f17ec63d1;0xb8712c3713f];[0x37c925e91b5d5;0x85d5503788eb5;0xdd66410549bf4;0x5d81a41b87847;0x4e7a39a14ddda;0x4d44cc416b6b4;0xfe2a62128fbf5;0xb0c6706889609;0xb5960a9a92cdb;0xdc005327308];[0x1580906442392;0xc89b9c33bec95;0xa3ab92b408374;0x4c4776704b4ed;0x9d368f7068e42;0x86a06065d9833;0xf045cf834ddbd;0x3230f1353897d;0xacc90fa60d6ae;0xe10e2a0f92a];[0x0;0xd240f6625bf49;0xab70008350cbd;0x15dcdbc7552ff;0x3fa188138b38b;0x9c46f752f5758;0x5adc60747c291;0x55f89c79822f1;0x6f8d25559c73d;0x734d1b58da881;0x720f079c9f5];[0x0;0xc7b6932f06014;0xfdacd966e2713;0xf1d26dc71198d;0xa11eca003dce7;0xfc85526dd66e5;0xeade346afe95d;0x284b6130b789f;0x9f3e67df78b1b;0x7df495de3ce7e;0x89d546ab824];[0x0;0x19509889d3646;0xbfec18fcee0f;0xcce1d53d0150b;0x2529db575220c;0x30c7a39a28be6;0xf4a5b71058bb9;0x168fd7625a1ea;0x43e497908ea9f;0x628842cad871c;0x3ad992dcaaa];[0x0;0x19509889d3646;0xbfec18fcee0f;0xcce1d53d0150b;0x2529db575220c;0x30c7a39a28be6;0xf4a5b71058bb9;0x168fd7625a1ea;0x43e497908ea9f;0x628842cad871c;0x3ad992dcaaa];[0x0;0xa30a5a4636814;0xeda1f65468d33;0x3c9a41a17fbd1;0xf63f3e9d2e38f;0x6b51829b38ab1;0xcd64e8dabb4c3;0xbef66460d6ab5;0xefb3c84a17df7;0x81c40e277ee1;0x2c04a284259];[0x0;0x22f93f60aaea1;0x3050aae7fcff5;0xe2d21b93c5812;0x8d305b55d7b5d;0xfbc808627d05b;0xd99967a1432bb;0x86a0f5e9f854c;0x66cc67fc0e4d4;0x63966bab574a4;0x4eade1bae13];[0x0;0xae9e243e76e66;0xf49b0a34206df;0x279ccbd46b4a6;0xb260db3cb3471;0xce9ea2dbef98e;0xc0b0a5ae9cd60;0x8a398fa1840c0;0xeaa5ffc061b52;0xa107334753f54;0x13ad629a7cb];[0x0;0x77dcd37e044f0;0xe26dc01231a7d;0x81c517ae7520a;0x3fcba2401b921;0x79a87337e20d1;0x94f0f3df8db92;0xab4c2a2b411bc;0x3ca32ac8432c7;0xda2f604b1e40e;0x86fca4e2c5eda];[0x0;0x9ea33248d9c6c;0x592e2e982b7cf;0x696996603f2ec;0x2db2e2fbc4c89;0xfe9e6a0cdd436;0xf50191ad23b4b;0x210410fc9aa0f;0xa3f31c3bd1304;0xd99624ebc0c4e;0xe09091d2ad]]);
 ((V [0x3e3dc75c043c1;0xe7f7c7150cad;0x227aa183734b6;0x7dd0ddc9e09f2;0xeef79462eb515;0x5a09b48773682;0x2b05703a7eea7;0xf0b7c33f0e903;0xadd520036296b;0x38a9add9600] [0xca83e6a431513;0x2de84dae2de40;0xc0f17a0122016;0xe231d2a137d55;0x31cf5c86ce242;0x4ac404bc15514;0xdea3cd0659242;0xb9e7e30bed25;0xd263b82a2fe65;0x94ae6b43558] [0x1e22b59aa213c;0x7c6fb0c85f334;0x167325d36fb32;0xc4aa83d78c625;0xaa45fa071466c;0x910597d1261ea;0x17a6f6b1d01c3;0x45d4251eed7a8;0x109c9af9bf380;0x52487d2b435]),[[0x9dbeef4872684;0x27f1b769f568e;0xc54dcc022cb3f;0xf6b030efd86b9;0x5470d5728f21c;0x117d129463dd9;0xa37557aab90bd;0xdee8d2a69a4fc;0x773d2dc27ddb6;0x14d30847982];[0x6a273854f2a9d;0x9453bb5eb6f47;0x65aba80c95f4f;0x5cb33c84771c0;0x5e1ee25c13c7;0x77f60106918a2;0xef031b310c2b0;0xcb5d4e4395bb0;0xf9061708df68f;0xbffa81654ca];[0x1a54065d776d4;0x440be1b05e68d;0x1aba800c8a6cd;0x298fd6e1c50a2;0xf310c6220c107;0x945383c53cfaf;0xa5bbda0d07725;0xbf1179fd6e4d1;0x7d415f66856d9;0x1727d4f402];[0x1a54065d776d4;0x440be1b05e68d;0x1aba800c8a6cd;0x298fd6e1c50a2;0xf310c6220c107;0x945383c53cfaf;0xa5bbda0d07725;0xbf1179fd6e4d1;0x7d415f66856d9;0x1727d4f402];[0xace2c47225325;0x895f5318dec3;0x8d0b00a779cb1;0x4e2c6ebc5a934;0xc52f61cf3150e;0x3da865cc000c4;0x1eec0bf382ccb;0xf4151e047a9cf;0x3a1388b66eb79;0x9a853760337];[0xbd4473e2cd779;0x8bbdc62d29083;0xd8a0a7651c29e;0xe86cdc81c88b;0x40b28c568feb9;0x3a4d9b3a917dd;0xd0170f3d895e5;0xd748303f1b1e1;0xbef28e5270b15;0x25754a05193];[0x0;0x50fcc72b45264;0x473d0bceffccf;0x235a7093dba6f;0x27d19b6810bb9;0x6b304281ce746;0x3d20962426c10;0x44765c7a1ddf8;0xd83ae6f8d8ed5;0x1db0702decb6c;0xe51c32f73];[0x0;0x804eef8efb3b5;0xeebddb70cafa9;0x7fb6e4a346944;0xd0d40a7cf55a;0xdfd69a7d73cef;0x20ad4fd429b26;0x2a3aacba231c1;0x21af2d22ba407;0xc6be153a52ec8;0x1e233374d];[0x0;0x9ea33248d9c6c;0x592e2e982b7cf;0x696996603f2ec;0x2db2e2fbc4c89;0xfe9e6a0cdd436;0xf50191ad23b4b;0x210410fc9aa0f;0xa3f31c3bd1304;0xd99624ebc0c4e;0xe09091d2ad];[0x0;0x9ea33248d9c6c;0x592e2e982b7cf;0x696996603f2ec;0x2db2e2fbc4c89;0xfe9e6a0cdd436;0xf50191ad23b4b;0x210410fc9aa0f;0xa3f31c3bd1304;0xd99624ebc0c4e;0xe09091d2ad];[0x0;0x9c5cc8f3a0cc9;0xd4d53239926a9;0xf16b1848bb783;0x9384eb865c3a3;0x6e66293b285e3;0x8f03053111109;0xd05bf6a4f66a7;0x608470f28c3dc;0x5bd36e039d63c;0x47084aca38c];[0x0;0xdc7d8d41ae931;0xe8089ca4e67f1;0x62a51d43070c0;0x5498f70dbc0fb;0x5d83a54967e44;0x46d19d623ac03;0x714a9c7082e1d;0x529272fd2c423;0x9bd314e02ff08;0x2c5f2bae7a];[0x0;0x7fcb69d32feda;0x4eb5751b0796d;0x8c804f30a4a27;0xcaa4ae081cb33;0x22d6c4418c66;0xf82adb9d9e2d5;0x4bd44c502b31e;0x3b92f8df3e0cc;0x541741126efdd;0x2a7e0b0ce17];[0x0;0xef16656232252;0xb7e4fbf8ae01e;0x8f63696b965d0;0xd8f517d9a27c7;0x2bd5c1b21eadd;0xaeaa7bfb243d9;0x8fc037dd22b7d;0xe5b02825289bd;0x687c583df787c;0x94d39a0f162cb];[0x0;0xa9998fc099831;0xe4fe8e34bcf4c;0x341f69a0654e9;0x904f19a67cb0;0x367ac1c65f778;0xd22368476615e;0x6ac76e5816f14;0x3df2049904c50;0x77f02cca5bc19;0x20e8b393a84]]);
 ((V [0xfba260e56f5f5;0x18345c9ce3e6b;0xb3fe31953ec5c;0x519adec7e47f3;0x15adc519c781b;0x2efd3094b7b2e;0x591d958422660;0x811957908c227;0xf499d71f68552;0x2bb5232d79d] [0x70765c5c53436;0x1a62b05087f5a;0x829da933c5343;0x91fde0f5357dd;0x14eeaf7c0b9f9;0xa8c84c1f87c31;0xb6bea0492ad77;0x3ba9bd2251baf;0x230a6a210e52f;0xbaebe390027] [0x49ec6c82bb8d1;0xd2097c2f24fbb;0xe82536e11d1d9;0xf30d63515f6cb;0xcd7b9a440fc57;0x24f2b0cd6523d;0x579ab53adc6e9;0x9450e62ba1cce;0x2f798348c9a4;0xbacef280c1a]),[[0x51c4db7407715;0xde7527ae6fe3a;0x4a30d40837a;0xb04657acda2ee;0xefe7ab9e576a7;0xe48b6a839b58c;0x5fab4a9a13833;0x4a367262e62eb;0x3278f3381ce14;0x502f6409e48];[0x296ef9eab72f1;0x66fae320924c;0x446396897e9b8;0xf429cc10f6797;0x99df49ac62534;0x74c6bbfafc477;0xafc4751b720c7;0x3c88b9723e3b9;0x4c10db85190aa;0x533cb472d6c];[0x1e22b59aa213c;0x7c6fb0c85f334;0x167325d36fb32;0xc4aa83d78c625;0xaa45fa071466c;0x910597d1261ea;0x17a6f6b1d01c3;0x45d4251eed7a8;0x109c9af9bf380;0x52487d2b435];[0x1e22b59aa213c;0x7c6fb0c85f334;0x167325d36fb32;0xc4aa83d78c625;0xaa45fa071466c;0x910597d1261ea;0x17a6f6b1d01c3;0x45d4251eed7a8;0x109c9af9bf380;0x52487d2b435];[0xa0ac8c01d94f3;0x247e665bae1f8;0x7f561e9f54108;0xe90bbd028fc6a;0x9576fdf1b1039;0x682e5baa34f46;0xb0aeb35e92f76;0xc05e4782863ae;0xbeea03a4814ca;0x6402ab658c1];[0x88c26de8ddbc6;0xe1f147d65b053;0xc50d77ea2a8af;0xb1e0f0e66b2c;0x4684bbab14fb;0xc986050c7531;0xff15c1bcdf151;0x7c2a71efb800a;0x8d26d7e097bdf;0xef3a090d4aa];[0x0;0x38edde0ff26fd;0xeef586832ca34;0x25f986a0b3d7;0xe729d263605ee;0xda8b5806aa126;0xb81f1b3bd354c;0x50ddda7977d5e;0x1430330ccf7c8;0xd989118297eae;0x32e23fb0a97];[0x0;0xac4be79eaf92d;0x50af84c49ae3e;0x8b091029bbb2e;0xe69b80c5d91df;0x4dc9ff9e7bd1b;0x834df51d60c45;0x14ffba3fa1919;0x2c9d7fe0fc51;0xeb30a7fc965b9;0x19c5e293fed];[0x0;0xa9998fc099831;0xe4fe8e34bcf4c;0x341f69a0654e9;0x904f19a67cb0;0x367ac1c65f778;0xd22368476615e;0x6ac76e5816f14;0x3df2049904c50;0x77f02cca5bc19;0x20e8b393a84];[0x0;0xa9998fc099831;0xe4fe8e34bcf4c;0x341f69a0654e9;0x904f19a67cb0;0x367ac1c65f778;0xd22368476615e;0x6ac76e5816f14;0x3df2049904c50;0x77f02cca5bc19;0x20e8b393a84];[0x0;0x97266d3e619da;0xb39bdf2c66cc8;0x5f3ba5b8740b7;0x8cdbc55aecce5;0xc06f13743714e;0x36ab030598fb8;0x259ac5791688;0xf0c88b0fabb0b;0x4db4eaa60d747;0x565a22dbd76];[0x0;0xbf9089868e26d;0x396634507a033;0xabe149dc1e8b1;0x15411d6b58003;0x63b24b6098185;0x84b38c115be4f;0xe2930c74bd171;0x389a64fac3c1;0x5138ebbf02963;0xc8aac86191];[0x0;0xe6ede6b0ac5ce;0x4b968a794e899;0xf4dcc4ec86fcd;0xb55a8bf927bde;0x624749bf836d4;0x7cb1106a18653;0xc9fa3ff344cad;0x5ac168651e20f;0xc9c316bed4639;0xe3617aaf53];[0x0;0x295a3e265bb6a;0xe9135b9d38ba5;0x45ead44fbeefc;0xf8c402cd527da;0xe683a56ce031f;0x3d0b0bd9b36c9;0xf502123ffd947;0x909d330a3680d;0x9cd1b6ce13bea;0xbb6a08a5bfb83];[0x0;0xc04781eb9103b;0x52e67f304db21;0xe7c854bb0acf6;0xe57ade801fc79;0x8b8d46a8b4c89;0x800703b623018;0x6f8bd15f24ea2;0x1e3c8ef44e69;0xb2158f3219bd7;0x1fe9e1b089c]]);
 ((V [0x78885e58cb640;0xb549fd4e2c23f;0xff6a1c4f69cc2;0x55baf1326cbc3;0x1f8c11a5f230;0xf9261a6162c9e;0x63d15d63e2623;0xba40666ea46f5;0xe6082a7047a54;0xb617400ecd8] [0x7bca572ca4ca5;0x134f1b2e2617c;0x5738ec6ac005b;0x959831c5de5c3;0x83743d79c613c;0x5e76eb783572f;0x966cc24a61a13;0xd50b60d9835f2;0x8f40779d79b95;0xbda2f8f6b5a] [0x9fcce9dfd41e0;0xbc14972034a17;0xbd3d62680f10a;0x1c34831f14872;0xb2b7909e76c40;0x8be0b7cbb797;0x773fb74ba09a7;0xb50a4c922c662;0x9d3ae2f918632;0xaa1b1cdd0b3]),[[0xabacfdb2ecd1b;0x339dec6f7dc2b;0x4a995b9b0b2ad;0xb48108e469f36;0x2c8f95159b739;0x385c55156c715;0x3ce0907493950;0x4732ba35fbf26;0xf59e4e4eb139;0x616232293c5];[0x6c5da84871c3a;0x62489cfd4c4c3;0x89babb8f28a8;0xf0ef386bbc7bb;0xff454a5818062;0x28bdba4a10e6a;0x478c3ead3fa76;0x835aeb3c52bc1;0x7b2975b15888c;0x5de8cda76a3];[0x49ec6c82bb8d1;0xd2097c2f24fbb;0xe82536e11d1d9;0xf30d63515f6cb;0xcd7b9a440fc57;0x24f2b0cd6523d;0x579ab53adc6e9;0x9450e62ba1cce;0x2f798348c9a4;0xbacef280c1a];[0x49ec6c82bb8d1;0xd2097c2f24fbb;0xe82536e11d1d9;0xf30d63515f6cb;0xcd7b9a440fc57;0x24f2b0cd6523d;0x579ab53adc6e9;0x9450e62ba1cce;0x2f798348c9a4;0xbacef280c1a];[0x99297051a495f;0x48b6c3115c7da;0x8035202ce2566;0xab38ce55fa8c0;0x9bb53656e70aa;0xb6e08d6e67112;0xbfb7d12da5376;0x68303c98fbd8e;0x40c22eb1a0e72;0x64ea0f9a123];[0xd33437f6cd0a3;0x1991d9ebefce8;0x88668b8c10342;0x45b66a15c1efa;0x6390140130fb8;0x71dd2cdba9d58;0x87d46d7f9a6ff;0x1b2aaea356e32;0x3a6746ffb7a1a;0xf8febe0d580];[0x0;0x50e44dea50123;0x3dca823441acb;0xc0d906702516b;0x4dd1d4a79480f;0x129623043779d;0x92357291e7815;0x2422465700369;0xcbce98e714a44;0x86fd3b46f99ae;0x7385a3cba59];[0x0;0x6faaeda623ea7;0x314528fd7c679;0xe4a6e4117a149;0xe8dfe5590b216;0xb334047c37b80;0x9f20414c604ae;0x62e711c4c2618;0xea35c786a744c;0xd627d0bc19897;0x471011b6212];[0x0;0xc04781eb9103b;0x52e67f304db21;0xe7c854bb0acf6;0xe57ade801fc79;0x8b8d46a8b4c89;0x800703b623018;0x6f8bd15f24ea2;0x1e3c8ef44e69;0xb2158f3219bd7;0x1fe9e1b089c];[0x0;0xc04781eb9103b;0x52e67f304db21;0xe7c854bb0acf6;0xe57ade801fc79;0x8b8d46a8b4c89;0x800703b623018;0x6f8bd15f24ea2;0x1e3c8ef44e69;0xb2158f3219bd7;0x1fe9e1b089c];[0x0;0xc0bd760f641d3;0x392f5f16f682b;0x4dd90e207892b;0x282588866306a;0xb29fcd33c9d34;0x80027c76d2321;0x31f31e8339e2c;0xa90d4d4705998;0xb21b0b832529f;0x887ba008d83];[0x0;0x1e28c69840d7a;0xf836f67e0c40c;0x84f1f45c44727;0x342be4393d738;0xa3ecb19dcfe31;0x67996ba3ff781;0xe3344ce12dc66;0xe25b40e6893f0;0x4cfe01d91bc3d;0x77659fc0a1];[0x0;0x8d5be45cf0ff2;0x1e7be831f99c4;0x40b066718afba;0x47adf86d844e4;0x48c6e85e6d8cf;0xf2033f4a5672e;0x19941f8b3acf9;0x1219475bd7c71;0xae4e6bf93577c;0x42cc099f211];[0x0;0x15b257a981de5;0x60edf8c53f1b7;0xc781ff471a315;0xba4a4b876dce5;0xfe92a2eecc343;0xe87863161489e;0x983318c17a6d5;0x5f1c08abeb456;0xd43ef92da02dd;0xbe1b0b473199a];[0x0;0x548e15ebe9fa0;0xdf7cceae25b78;0xec56c22f9fa57;0x7fbec2d348c62;0x23a7df030e02b;0xa92eddb262e51;0xfead84c9d8bf1;0x471597de0b591;0xcb3d4f7b313f6;0x86e3161778b]]);
 ((V [0x6485a76e3c42;0x12c4b3f8a203c;0xddbed56179dc6;0x9c120513ef431;0x805e4ffae6a5c;0x9293679a6ca3d;0x853f590417b10;0x97499436ba215;0x2b80467bbc9c0;0xa785cd2ab97] [0x33470c8619ef7;0xc56be656cb0cf;0x63bd9ef36c732;0x93cb77322095a;0x20090a17e5a4;0xeccc9ec5ac57c;0x65d38c1be1f4a;0xcdac11e61551b;0xc2acdac5059c9;0xf8224adf609] [0x6286939c05c91;0x9fdd0d00da41d;0xf132397fe9a37;0xb70c44562c6c8;0x372c3d21fc0c8;0x7e28fcc767173;0xd6d373e3a143c;0x8a92da6af18e9;0xe11437f158d25;0xdbb645c5d85]),[[0xa9f9418a1af87;0x5998a12d66b68;0x940c549c0fb09;0xac8a88f5451d8;0x37062ec2007ad;0x438c78ea32890;0x4550ebc66084a;0x2bc8bee3c35d;0xbb596c2c6a2dd;0x482cdf2dda5];[0xd4251de74fa1c;0x6ff69bccdaba9;0xb2650fe9125d0;0x25dad4f2c1d75;0x3c334a11285a9;0x5549deb96d0df;0xe1ec44839467f;0x2511697dff8f1;0xc3b20c3e20dbd;0xfe0ef7a3293];[0x9fcce9dfd41e0;0xbc14972034a17;0xbd3d62680f10a;0x1c34831f14872;0xb2b7909e76c40;0x8be0b7cbb797;0x773fb74ba09a7;0xb50a4c922c662;0x9d3ae2f918632;0xaa1b1cdd0b3];[0x9fcce9dfd41e0;0xbc14972034a17;0xbd3d62680f10a;0x1c34831f14872;0xb2b7909e76c40;0x8be0b7cbb797;0x773fb74ba09a7;0xb50a4c922c662;0x9d3ae2f918632;0xaa1b1cdd0b3];[0xbcf509f273287;0x60dbeb7bca13d;0xbd84086438b83;0xe3fe12cefac4f;0x20614ee900bbb;0x6da5027d318b9;0xa249bf2ae273a;0xb8059d08b682e;0xc7d08fc6011c2;0xc02cbf61a1f];[0x173013f4dc796;0xf1ab05110a6c;0xf4e10784d9a4d;0x41dcc223c7125;0x1bd1fb28279ed;0xe7a4dc3c3b826;0x3fa28558b1f44;0x6d0bcc75490c3;0xfbe17c781fbfa;0x3de23841873];[0x0;0x5075c812c99bf;0x9ca087e6dbe11;0xe6ade34a8cae8;0x9adde3ec76200;0x16de385a7b1f1;0x2828e94fcd32;0xa458b86761702;0xd4e00387162d7;0x1c5e891671b20;0x69317857367];[0x0;0x6225e3756d4dc;0x9bea981888600;0x9ad7863d69b4a;0x146754d482549;0x793c62b76db40;0x86749eb6415dd;0x88305f6655773;0x570b96ceaa697;0x6d7fc8eba0324;0x2ff57113372];[0x0;0x548e15ebe9fa0;0xdf7cceae25b78;0xec56c22f9fa57;0x7fbec2d348c62;0x23a7df030e02b;0xa92eddb262e51;0xfead84c9d8bf1;0x471597de0b591;0xcb3d4f7b313f6;0x86e3161778b];[0x0;0x548e15ebe9fa0;0xdf7cceae25b78;0xec56c22f9fa57;0x7fbec2d348c62;0x23a7df030e02b;0xa92eddb262e51;0xfead84c9d8bf1;0x471597de0b591;0xcb3d4f7b313f6;0x86e3161778b];[0x0;0xb39fad2d6f99e;0xb12d396ec49c1;0x1434e5d4aa75b;0xee15f271c451e;0x46a5dd2ab45da;0xf06b78a637573;0x4ff6ac186d81e;0xd2becd9c350fb;0x84fe0ddca639f;0x8c7a0b5c529];[0x0;0x8628bf84efc46;0x59f0df8509587;0xe0c00810a4c42;0xb6c0fa2b61b6;0x779fae65959ea;0x660f1c548d5c0;0x5dce5c0fb029c;0x6a857c711d7ec;0x6c8716dd5984b;0x818511319ef];[0x0;0xfa640bba5e676;0x966b92400f4c1;0xb8d99e7b25120;0x957c8ed63049c;0x78c613fabf336;0x29cb2ef79200a;0x3c08e5c8c4ee2;0xbb26f6ec7298;0x7a9e567a9962b;0xa6408cee7a7];[0x0;0x884965a9f89e4;0xd81709e3c9626;0xd137fa5fba289;0xb8f21fed5d170;0x53f2cbb65f7bc;0x1860ae14585c7;0x92e7201e6cb38;0xbbd2699a953d8;0x9abaf677b92a1;0xf8242ca20f06a];[0x0;0x54dfdee1dc7fb;0xdf5c5cd9da6f5;0xd6d2214844450;0xe4488ab79ef57;0xc99e3c6479e7e;0x3af04e32e60a6;0x1540612fb6691;0x849937e542349;0x833ceff58132d;0xa2600f857d6]]);
 ((V [0x55cc669269a3d;0x781946a4d2db9;0x2b0b3cb13e124;0x108d51c280209;0x1e7d41d52bda9;0x5ccdff6947e95;0xf54f77c989633;0xb1ed8c335d787;0xbbad25fdf0145;0xd441b523ff0] [0x4b09730b9fd36;0xc6bf4244e00b;0xcd1ee7dbf354e;0xffc421a278f66;0x4f0e5d4ba83b;0x7863c6a474b6c;0xed922d5df443;0xf60ba6f60cc5e;0xefc4eb5154191;0x32e79f6bd39] [0xac4fbd87caf4d;0x5bab7c2b6b41d;0x92a43e406526e;0x9f83660b62535;0xa8e72fa98174b;0x1e4117b0b8c51;0x6751e9dc6ef47;0xe63fb60f74421;0x489090dbf0719;0xe8943fef5b0]),[[0x105a28b14b797;0xa6b606859e0dd;0xc0f8554a89864;0x872bb949936c9;0xb1e1b31e60fea;0x8851ca3a5a29e;0xf987fda8305a7;0xe74495ddf20f7;0xb35e51663549e;0xcbb5cc2f64e];[0xb5a359faec3a2;0x20b92aee5139c;0x719ff44b370f3;0x66b3904daa4a7;0x921661fcf6a66;0x107fdc6b71682;0xb5f8f77350b13;0x3ed8df4d3db5c;0xa9b380212512b;0x21d0ebbb222];[0x6286939c05c91;0x9fdd0d00da41d;0xf132397fe9a37;0xb70c44562c6c8;0x372c3d21fc0c8;0x7e28fcc767173;0xd6d373e3a143c;0x8a92da6af18e9;0xe11437f158d25;0xdbb645c5d85];[0x6286939c05c91;0x9fdd0d00da41d;0xf132397fe9a37;0xb70c44562c6c8;0x372c3d21fc0c8;0x7e28fcc767173;0xd6d373e3a143c;0x8a92da6af18e9;0xe11437f158d25;0xdbb645c5d85];[0xf1a0867e6c4;0x10e931adb2016;0xc8f6abafc0202;0x823709b317d0d;0x13ad022d38ed8;0x97cdd31e0d9e4;0xd0eb17b5ac821;0xb2b747cbff085;0x469741b87fff2;0x46770f5ddc4];[0xb4b1b9746daa6;0xfcff9409f386;0xa8a9489b76ef1;0xe47c869a92799;0x7e695fcfbdb8d;0x78b2094d63c9e;0xe50ddfbda42f1;0x8c2197813ead6;0x631c3e68a5138;0xdb59dc5d45e];[0x0;0x573b5d671c37f;0x822740f426490;0xc8abc08661fe9;0x1eda8fdf0d8c1;0xa28e68bbf4978;0xe25e107b82061;0xb4b0c6d7c0acc;0x39f8c20bf7848;0x6534d3eeda26a;0x87de9c9903e];[0x0;0xac8a0fbfd9ff3;0xd272ee54929f2;0xdbea1fa41a00d;0x94f0791bb2af;0xd8f0ae81fea10;0x8b9d472aefcef;0x2734e5d7ba740;0x7a29d2ea9582f;0x21bc5185d8ccd;0xaed59071242];[0x0;0x54dfdee1dc7fb;0xdf5c5cd9da6f5;0xd6d2214844450;0xe4488ab79ef57;0xc99e3c6479e7e;0x3af04e32e60a6;0x1540612fb6691;0x849937e542349;0x833ceff58132d;0xa2600f857d6];[0x0;0x54dfdee1dc7fb;0xdf5c5cd9da6f5;0xd6d2214844450;0xe4488ab79ef57;0xc99e3c6479e7e;0x3af04e32e60a6;0x1540612fb6691;0x849937e542349;0x833ceff58132d;0xa2600f857d6];[0x0;0x1bd632573dc0b;0x161dcda7d5ffc;0xc0a6b6abdb545;0x9c30fb75663b0;0xbf5e46c454079;0x276665253b415;0xbe7165d3093c4;0xf30b83eae8e1f;0xa232d99c46c9d;0xf08275a8c46];[0x0;0x755155878beb2;0x5bb7881d1b540;0xc4d3732a7e17b;0x51de4b7e7e35f;0x7959363939cae;0xa696705512085;0x348bd3e4e015d;0x785bf95a47541;0x5d16c0e9d3b4c;0x6d9fd79c90c];[0x0;0x85ccfbd21bba3;0xd06a6f90dccb1;0xe29f39701becf;0x254206f46dab7;0x1d6e1cf3810fa;0x1a85c332a31ce;0x2f3aadfaad7b0;0xe88a40a1311af;0xb2690b3e5bf66;0x1c09b1304ab];[0x0;0xdb4ac7f5df7e9;0xb3ba3b2fedc52;0xfd6e2f4394697;0x646aa7f913352;0x9fd38fdc87201;0xf52f81fd6591;0x8b62053649db;0xca15b2d271d00;0x3304043e6f51a;0x3313cda4a12f6];[0x0;0x4fffd09b9bce7;0x3f9afaac2d3cc;0xcf78053786f90;0xe1577ac21aa20;0xe6cf91f9becf2;0x4c95ab18cc7e9;0x7ea0b8058dc01;0x4e77820be6c68;0x97992f5649907;0x2a34e0d9b1b]]);
 ((V [0x896a50347bbe1;0x60c4eee481da5;0x4abf48c675f6d;0x60d2d01f8b4b4;0xa897ef66fb3b7;0xfcedad5668522;0x5a47d51d53bbd;0x32b4f2d0072d8;0x8789d09c34356;0x8e13d3682f] [0x43ab63589d4f6;0x7c003e761c6a2;0x34067f18ed5c4;0x98a6de1178beb;0xb7436de13e474;0x9eb9e3d7730c5;0x2b2ca36089c8d;0x6189a574811ac;0xb09d30fd47938;0xa5d941085ad] [0x742399b2221b6;0x9b7455935c428;0xb6b86d2235087;0xe20a65cc3adcf;0xa3e347203affc;0xfb841765360d;0x251d189a43247;0x59e24a4f7cd2b;0xe3e43f6f197ff;0x346fda1db93]),[[0xc56079224a886;0x558dd336f5ef8;0x767aa7eb94cb8;0xf43425fb966ab;0x9e0e5ebadcbeb;0xda3718a6bb85b;0xf1e2f0b719120;0xadedc12963578;0xef7806fc7f3f1;0x72fe6e46067];[0x95a37aaab8b7d;0x657905e3379de;0x6c2e11734c1e;0x89e18dd3c302d;0x2010431083c94;0x8fc9f83ee57c6;0x7f4d6a94895f5;0x16f99f1a32529;0x2dd4f22bcaa33;0x9790ca78535];[0xac4fbd87caf4d;0x5bab7c2b6b41d;0x92a43e406526e;0x9f83660b62535;0xa8e72fa98174b;0x1e4117b0b8c51;0x6751e9dc6ef47;0xe63fb60f74421;0x489090dbf0719;0xe8943fef5b0];[0xac4fbd87caf4d;0x5bab7c2b6b41d;0x92a43e406526e;0x9f83660b62535;0xa8e72fa98174b;0x1e4117b0b8c51;0x6751e9dc6ef47;0xe63fb60f74421;0x489090dbf0719;0xe8943fef5b0];[0x1309b0c8bff1a;0x2500fa4082107;0xae5ada97c7efb;0xda674d6887430;0x75a57c4f00e22;0x3664dc08de07d;0x34f0f57d66d81;0x38411ba7d7ef2;0xc4df0a60d0a12;0x8f7629dfcb7];[0x8299c9e1f8c64;0x40780ba2b58d7;0x5868067f6cd23;0xaf7a406b3bbfc;0xaa6ac6c182e71;0x59651c3607748;0x4a5c751722874;0xdeb883725a637;0x68f5e7cafa020;0x81aa09887d];[0x0;0x55013ee483326;0xd338c530ae0cc;0xe65c876a6c4e8;0xb423ce984ec6c;0x4352ff6c533ca;0xdc093cdd0b964;0x5c8d8bcfef15b;0x374f778cfb4f0;0x1733da0e90465;0x8fd39a3282b];[0x0;0x146fa04ee3ea7;0xd5ec6549c3150;0x105b1e84b60b2;0x20fcc30aaff79;0x8877d44bc3e0c;0x443f86b5fb88;0x283b606c6d7cc;0xbc92aee4e3e79;0xd7b67a288d19b;0x68792bbf57e];[0x0;0x4fffd09b9bce7;0x3f9afaac2d3cc;0xcf78053786f90;0xe1577ac21aa20;0xe6cf91f9becf2;0x4c95ab18cc7e9;0x7ea0b8058dc01;0x4e77820be6c68;0x97992f5649907;0x2a34e0d9b1b];[0x0;0x4fffd09b9bce7;0x3f9afaac2d3cc;0xcf78053786f90;0xe1577ac21aa20;0xe6cf91f9becf2;0x4c95ab18cc7e9;0x7ea0b8058dc01;0x4e77820be6c68;0x97992f5649907;0x2a34e0d9b1b];[0x0;0x7773502a1fd66;0xffc6940c99c39;0x8a75cc3589620;0x88d4308413f49;0xca92e45f0c79e;0x5324d3134d6b1;0xbf5fde70f0a08;0x491252edd210d;0x921c428073f5b;0xa1f4bd7368];[0x0;0x7176a2348ecb3;0x51c0d96afa5a7;0xeabd46c3550d9;0xf313a30b6b59a;0xd638cd4ed08bb;0xea5ce07aead0d;0xc1fc19da79467;0x54459363442d2;0xedd179f18f92a;0xaffce4e11ad];[0x0;0xbf70749fe1bc;0x149ee1d9f66b0;0x5ae55081a9f8c;0x61404b40ffcb2;0x31065e2cb85f0;0x5cac2281fd492;0xb131c4ee588c0;0x6011a5de7b3c0;0xfd679653708e4;0x541e0d37ca];[0x0;0xa8475b7a33cc3;0x2e42d91336963;0x36e236ec842eb;0x758d027256dfb;0x4ac57df1a6413;0xd18b10333c496;0xa2cbea3b45ed0;0x7552d64163f3b;0x85c3a16fed65a;0xa61ce956a7527];[0x0;0xf1bc1c6605f80;0x4776fd67a47ee;0x994a34dd829d;0xfbc3746829b59;0x964f12a177dcf;0x223132445802;0x6e9743aa1099e;0xe528d3130dea0;0xab3dc67d21a1d;0x5c0b5a2805]]);
 ((V [0x2f9c92409efd3;0x4da036a16895;0x96fd34df2cfd1;0xc15ed064b0ac;0x6bf33d89d6e1c;0x490683a760ea8;0xd59efd4205ccc;0x7ee137fe459fd;0xe3ad9321baaed;0x411b332c6a3] [0x6a46cb6521ee7;0xe6cd537f42f2e;0x8db88a2d35906;0x6f28f54d946a4;0x989561073d498;0x1079fe2c79f6e;0xb10354246c625;0xb660361a6083d;0x1620190e691cc;0xc58a2636042] [0x784708301ba33;0x7551bfc94e9b0;0xa2826ab031a35;0xb3d007830ac4e;0xd2c622318eaca;0xee36370b69d50;0x7f410abcf9353;0xa43732cd70c28;0x3c0fd07041bdf;0xdf735329df]),[[0x8c48be5c93cf5;0x980903aed8a8e;0x1e2d12044e99e;0x22b1e6870f82b;0xffba1f5bc12d7;0x3a793c74a036e;0x3ee40548887bb;0xba0863222f862;0x4a0ce7fa83f60;0xdb50adae520];[0xcafed6f3fec5e;0x31458646c6b5c;0xb1d1f079c9ef3;0xe6c21df63c807;0x74f096948b55f;0xadc02ea3fd865;0x8aea027fe4224;0x53a5877f5abfa;0x2a4a64c34801c;0xe84837a8cdb];[0x742399b2221b6;0x9b7455935c428;0xb6b86d2235087;0xe20a65cc3adcf;0xa3e347203affc;0xfb841765360d;0x251d189a43247;0x59e24a4f7cd2b;0xe3e43f6f197ff;0x346fda1db93];[0x742399b2221b6;0x9b7455935c428;0xb6b86d2235087;0xe20a65cc3adcf;0xa3e347203affc;0xfb841765360d;0x251d189a43247;0x59e24a4f7cd2b;0xe3e43f6f197ff;0x346fda1db93];[0x353554bee51d8;0xf8834833545f6;0x878286d8a06a1;0x8fdaad9214607;0xc115011e911d3;0x6e49240d70c54;0xef2f66a8408b3;0x33c0c1551e538;0x87ca6b6d2b4ed;0xa5cf4766319];[0x95c9823519a87;0x38c23e1372566;0x2a4f69a129851;0x56e7706428200;0xb3db9575fa38c;0x3f770a968cc10;0x9bba9bd7a3971;0x1fe4c62a3c6c1;0xa27ff9561cb2f;0x4278f0429c1];[0x0;0xe0e717d9ff2bd;0x3984573dc2f83;0x47700c23d81e5;0x52af0b1040a57;0x9ce6e93016270;0x1fd62c0ca8d92;0xf6c9e59830bd8;0x5f55d1e3e408;0x6d0a9e2e8db19;0x206d4a4bf73];[0x0;0xb539a9e3b4ab0;0xe3d393a20ebf6;0x60d21e3f65aed;0xd8740635aa527;0x380c53efaa8d;0x5be229370d27b;0xdb187e80a0000;0xfbe8e8d32510b;0xb3fa7b426f8cd;0x2cec361ee1f];[0x0;0xf1bc1c6605f80;0x4776fd67a47ee;0x994a34dd829d;0xfbc3746829b59;0x964f12a177dcf;0x223132445802;0x6e9743aa1099e;0xe528d3130dea0;0xab3dc67d21a1d;0x5c0b5a2805];[0x0;0xf1bc1c6605f80;0x4776fd67a47ee;0x994a34dd829d;0xfbc3746829b59;0x964f12a177dcf;0x223132445802;0x6e9743aa1099e;0xe528d3130dea0;0xab3dc67d21a1d;0x5c0b5a2805];[0x0;0x561f139f41114;0x35828825258b1;0xadbe31650219f;0x4c2ec6d5a08d1;0xd5ef41d639c09;0x794d683c75466;0x961452a165ca3;0x48c5ff93c15ae;0xda069c3254405;0x6b71c63415c];[0x0;0x3970df866dcf6;0xfcddbdf9948d9;0xcf3cac777144c;0x400cef638ccc9;0x1f54396dbfcec;0x459894fca4384;0x5af32635e6942;0x5428c1f97dafc;0x4c653c1f66202;0x4eda0010a];[0x0;0xdf52eb4f0f517;0x3ab3e7eaa80c1;0x66f983a331ea5;0x5686b8b033a98;0x673ef051f6bdf;0x544745bd522f1;0x4b65e6639754b;0x1e410eed5d799;0xe9d9257bd378a;0x3b13042e6ae];[0x0;0xf9fb7da09e402;0x91199fd744e1c;0x5976f27fb5464;0xdf79c9f652809;0x54c7331383b0;0x146e852a3e521;0xc241b0e24dc6d;0xbd95c51da992c;0xbd152f4057fbf;0xc59c736fcb82f];[0x0;0x906915495873e;0xca23d0987cf56;0xd7ecf83a2cdf6;0x3132cea3caa2;0x12486fc12c5d9;0x795514f0cbf08;0x2453dcca233df;0x39217b9dbf237;0x576339c6fc3ca;0x323d10c28a1]]);
 ((V [0xf963339fb6f5d;0x8cf750bfc6bb4;0x8e0ded4afe494;0x673f92f382a99;0x4782ed571ecb8;0x7c355b371762f;0x4e9871b1a2621;0x9c7f25375e87a;0x96b173d115bca;0xdfe15b7b103] [0x4c4d189e54444;0xa579a62dca191;0x7f6df6f599792;0x5f254f5ab0996;0x98179fd43cfc2;0x4bc53d47b3fa1;0x96399882c0b11;0x59ff67ea36036;0x5c3ab6bc51967;0x56b850b7704] [0x9efaa9b2193e3;0x657be7625527e;0xa851376881fdc;0xcd12a95c7dc14;0xeda0d6e9dd013;0x7678b5ae9fb4a;0x63901ee84d85d;0xd531a260fda26;0xe119ae129e89e;0x9fcc83f4ee8]),[[0xa47048c827dfd;0x9f10ffa1b363c;0x9f4f0f51dbc19;0x5404372453171;0x55e1938eceec1;0x3a0f458236b91;0x7197babcade67;0x10b4588b35dba;0xcedd1649351d0;0xa0e1b0864];[0xabfb5edbaa01f;0x46d63c14b45c5;0xa24289e695a1;0x2f7032014277b;0x7461c828b0531;0x2ab8a9d6b67fa;0x5e17079bdac2e;0xcb5fdbbc90d61;0x28f38a1735f7a;0x74fb9565610];[0x784708301ba33;0x7551bfc94e9b0;0xa2826ab031a35;0xb3d007830ac4e;0xd2c622318eaca;0xee36370b69d50;0x7f410abcf9353;0xa43732cd70c28;0x3c0fd07041bdf;0xdf735329df];[0x784708301ba33;0x7551bfc94e9b0;0xa2826ab031a35;0xb3d007830ac4e;0xd2c622318eaca;0xee36370b69d50;0x7f410abcf9353;0xa43732cd70c28;0x3c0fd07041bdf;0xdf735329df];[0x9e9125ba7e700;0xa89e3b38a84d3;0xacac6cdd44511;0xa63453d912291;0x46ab1d4846367;0x1101914f1d5a;0x4c10b54f170e0;0xec58978bf94dc;0x6fdb488cc310e;0xb40fecf6f73];[0xd6a39212b6e7;0x9e3800dc0c0f2;0x5d77bbc12508f;0x893bde28304e9;0x2db6aae06a1c9;0x29a890c1c4aa0;0x1206524cc3b4e;0xdf07443097885;0xb918418a72e6b;0xc0eba86e69c];[0x0;0xa88081c97d375;0x2262c54ebf7a4;0xf1df9e7181e1c;0x11cfeae695fb1;0x376438e7c26b1;0x63588a8bdefc2;0x5f4fb1ac280a0;0xcb7d8d953c3a2;0x47b08a9118d30;0x8a2e73919b];[0x0;0x30a13d148fa78;0xe282f606e355;0x114087a3f62f8;0x7a0c3fc3c801;0x4214354537a94;0xe8173a26925d;0x568533c89b58b;0x18ebd6e44a91a;0xc602e049ad3d2;0x8c6d126a];[0x0;0x906915495873e;0xca23d0987cf56;0xd7ecf83a2cdf6;0x3132cea3caa2;0x12486fc12c5d9;0x795514f0cbf08;0x2453dcca233df;0x39217b9dbf237;0x576339c6fc3ca;0x323d10c28a1];[0x0;0x906915495873e;0xca23d0987cf56;0xd7ecf83a2cdf6;0x3132cea3caa2;0x12486fc12c5d9;0x795514f0cbf08;0x2453dcca233df;0x39217b9dbf237;0x576339c6fc3ca;0x323d10c28a1];[0x0;0xe4dd5a7dbfb07;0x2dfe1499c2b8a;0xfdb7a71e0ad7e;0x983e9cba6b7d4;0xba95deb8abf97;0xc2bc260463ac9;0xe817425c20324;0x4c66be73658db;0xbe973b9f1f412;0x986de95c5a4];[0x0;0x3e0f2b66eeeee;0x460b0cdd7bfd2;0x1a69c1199d6c0;0xad0f4a4fbad38;0x30ffba02165e6;0xb51b699b414bf;0xa9d1bb3833b81;0x545ed61046fe9;0xcbd0c3230fb1f;0x108ed2e0638];[0x0;0x38eb8546976f6;0x949a29f76745e;0xe9a19edc7884e;0xd82879d02606e;0x2aa2d5bf3a2b1;0x2df6c7be566fd;0x8240513807c8a;0xc63ad9cedaccb;0x1457e1a23c799;0x664e220f480];[0x0;0x57c813d20c3dc;0x51645c1cdabe5;0x92b71fd4192d3;0xd85d077e48d69;0xe614eb6f4c4a8;0x9ebd01f79bfac;0x8e5bb4a0d0411;0xbe4f9d47f3a39;0xf6cc47d7b1f34;0x56e7684a41d4b];[0x0;0xdae83ec3798a7;0xfa6e8e6fbd755;0xab887e491fae7;0x2c8fa32f76ce4;0xa6789dd0c4bcd;0x4c9ce98ff1ac2;0xb16b5240c11e;0xf2fe6eb502e34;0x5682b637570c4;0x4bd6e54bf0c]]);
 ((V [0x272ad8cb966ef;0xc16bdbb5f9b43;0x388101063e33b;0x7b9a9dc93659f;0xeffb94b294e42;0xf212837852dc;0xaa423e01cb8d8;0xc9581bf4891c9;0xad73d065f259c;0xc0dbf813ad9] [0xb785a8beb18ca;0xf468b5fc712a6;0xe3e1c94aa3abf;0x99776e79aad1f;0xb7c058e74685;0x1c4f3cae6ce9c;0x39a68ae2ffaad;0x1c3b3fa5b2211;0xf9768627a9a38;0x2d774ce7235] [0x98ed4fc0d8a37;0xd82f13ab06874;0x5e4e347a607cf;0x347b9fbed32c7;0x1718a5e130eca;0x6315512884585;0x211aa90628049;0x4201ce150e848;0xf099eeaec3b83;0xe197c92d169]),[[0x21f77fa1b8e41;0x819c8909940cb;0xc23e9dd79f40c;0xc2b741eb54c77;0x596bf0395f660;0x2546084e16ded;0xc8ba0c851b703;0x3bc992d473603;0x899d3eea19501;0x99e2d2434e2];[0xa73a283057380;0x61da18c3c97be;0x6b015a20d972e;0x5a6e65c8b30af;0x893b8038ceebf;0x49759d8ff79c;0xad50ef7540744;0xe04bb818bcc0b;0x873f0c6218c13;0xc22c023578a];[0x9efaa9b2193e3;0x657be7625527e;0xa851376881fdc;0xcd12a95c7dc14;0xeda0d6e9dd013;0x7678b5ae9fb4a;0x63901ee84d85d;0xd531a260fda26;0xe119ae129e89e;0x9fcc83f4ee8];[0x9efaa9b2193e3;0x657be7625527e;0xa851376881fdc;0xcd12a95c7dc14;0xeda0d6e9dd013;0x7678b5ae9fb4a;0x63901ee84d85d;0xd531a260fda26;0xe119ae129e89e;0x9fcc83f4ee8];[0xfd559f902d8cc;0x55706df750fe7;0xabff34415a6d9;0x3d7d8c0bf9794;0xe278fd5bcb6ac;0xdfd392a9959ad;0xfd26faeaa1443;0x6f95652d921b6;0xdc0099b66a64;0x747a22bdbb2];[0xa9e488a029ab5;0xc69aacc787d6;0xbf0225df7f055;0x1cf0d9bcb991a;0xa6c282dd03813;0x24c3c72f69dee;0xb029f48a9f300;0x70b652eb2aa54;0x797f02c6b21af;0x4db1df77bd8];[0x0;0x5528510d866d9;0x23cc734bfe33a;0x3b785e6d4cdc3;0xd3112a2e7cc83;0x6e6d6ba1e05da;0xacc70be565664;0x1bd27af595a42;0x631689fd056b5;0x79d186c58d1ed;0x62d1c3f2948];[0x0;0xa82bc6aba7fc5;0x355a47205b326;0x2c8b51c98c80;0x47e0218e70c55;0xc0335ca78688;0x48470fde06f08;0xbff266ad1eef5;0x919737213136d;0xc9eead9442f96;0x600ed0a9a85];[0x0;0xdae83ec3798a7;0xfa6e8e6fbd755;0xab887e491fae7;0x2c8fa32f76ce4;0xa6789dd0c4bcd;0x4c9ce98ff1ac2;0xb16b5240c11e;0xf2fe6eb502e34;0x5682b637570c4;0x4bd6e54bf0c];[0x0;0xdae83ec3798a7;0xfa6e8e6fbd755;0xab887e491fae7;0x2c8fa32f76ce4;0xa6789dd0c4bcd;0x4c9ce98ff1ac2;0xb16b5240c11e;0xf2fe6eb502e34;0x5682b637570c4;0x4bd6e54bf0c];[0x0;0xe44dc6cdfac9c;0x1f487f85d6b10;0xb72b7daefb517;0x2ee9c4deff591;0x60e0aefaef2f3;0xf506676546461;0xf168cec362dd1;0x46f70a6a94e89;0x36d5dc219590e;0x1d605aef609];[0x0;0xd966b633b7a4c;0x9c46e65870b80;0x9e9f945a39090;0xcd59fdec4dae5;0xbc1f864d16225;0x4a63acc3c402a;0x593c84c45e190;0x2184a6a766dc5;0x7463225943e71;0xc3ca63c2554];[0x0;0xdfcd9d0a0230f;0x54b0b972ee466;0x2fec5741e483a;0x47698666a495d;0xadd3a7c8da453;0x345fbdc743363;0xec35e77844656;0xfa2f328a868d4;0x1b5239e45903c;0x9247d9778d5];[0x0;0x6dcd38b66487e;0xf81169eb2b3c8;0xd8741b4380931;0x5512e7525f7cb;0x642c71f319cfa;0x20e37015693f;0x95fc2755b4995;0x1da8676108886;0x3e9907fb1a4fc;0x2d8247faddb4b];[0x0;0xd7ec1473902a9;0xf5096d7a0aa63;0xae1b89d6ca0ff;0x7d11949ef5c79;0xadad1e11f29a5;0x409946d759ab6;0x8fcb0b5e5ca6a;0x78212ed3448ae;0x2b2b78905930e;0x22408acb357]]);
 ((V [0xe71e2c419ba74;0xe3e60010aee2;0xd822e720ff1fd;0x233269b2793f7;0x6f52cf0f1bf29;0x6dc3275e532fd;0x4c93ebe700dd7;0x84b903bc04e0f;0x1c5eee7ef6027;0x75f33921e00] [0xe9c4ba468136e;0xada545926f57;0xee05599780691;0x7b428d763e9a7;0xa426391e3a199;0x6397fb4637dfc;0x11b281d0b6034;0x5a1e9106935f5;0x6fc327b44deb;0xe5ee4dffb85] [0x824e007f01d6e;0x21a98d98d20d4;0x7ec158226ef62;0xe547f264b977d;0x431cb97b6e546;0x68a3bfbcaa03f;0x1929f994a348;0xbdd4748571250;0xad887994f02bd;0x5c16b6b5b95]),[[0xf8c7dd77ceeb9;0x14fc95e71133e;0xd15a10eda45fb;0xf23d67f71f28b;0x52efdd3aa4b01;0x60d0f9cc6bd64;0x80ce8c9722b58;0x7603e15db6b99;0x8dcf60b369f7e;0xf7d5792cf58];[0x5ae215826e24f;0x5d2630fab31c7;0x4b6ecf24b4dc;0xf13373559c596;0x896a5d92e647f;0x5246f7c992968;0x1da03e8e65fd3;0x838345e9c954c;0xc1d30ffa124a4;0xf5c81ca9d7b];[0x98ed4fc0d8a37;0xd82f13ab06874;0x5e4e347a607cf;0x347b9fbed32c7;0x1718a5e130eca;0x6315512884585;0x211aa90628049;0x4201ce150e848;0xf099eeaec3b83;0xe197c92d169];[0x98ed4fc0d8a37;0xd82f13ab06874;0x5e4e347a607cf;0x347b9fbed32c7;0x1718a5e130eca;0x6315512884585;0x211aa90628049;0x4201ce150e848;0xf099eeaec3b83;0xe197c92d169];[0xde87334143fd8;0xd39c11779a0d7;0x7731740819787;0xeb91392c4f044;0xfa8f905691db;0x23449af5f8c5;0x815286c6546f3;0xef86b3c98b9d4;0x12c49fe88cbbb;0x6a06fa452c5];[0x7c5ae2412a278;0x898a1f83190ef;0x8d8578ea31d54;0x5a23a294d551;0x79c1648d7d2a4;0x5012ae1a330a3;0x9c4db7c8118e0;0x93fc92203db77;0xaf0e7011858e8;0x8bc12264ab6];[0x0;0x8f9a9d0811ad1;0xa0282dc0f0cb0;0x308c9f43dfff9;0x711378e30a797;0xceb65c6367566;0x2ebfd8d4f1103;0x397a5f9115793;0x475208ea9fa9;0x7c49762ff1e6c;0x8b819e706d4];[0x0;0xefc249e949310;0x75eb442794735;0xccc66b5391d7;0x7fde5649fa4;0xe4939e2fc42bc;0x93d153161001a;0x80bd7efe6114d;0xe41ca374df17f;0x306eeadff19ff;0xda65912d3fe];[0x0;0xd7ec1473902a9;0xf5096d7a0aa63;0xae1b89d6ca0ff;0x7d11949ef5c79;0xadad1e11f29a5;0x409946d759ab6;0x8fcb0b5e5ca6a;0x78212ed3448ae;0x2b2b78905930e;0x22408acb357];[0x0;0xd7ec1473902a9;0xf5096d7a0aa63;0xae1b89d6ca0ff;0x7d11949ef5c79;0xadad1e11f29a5;0x409946d759ab6;0x8fcb0b5e5ca6a;0x78212ed3448ae;0x2b2b78905930e;0x22408acb357];[0x0;0xe9e59cd4e3414;0xf6a14dc976102;0x67eb3dcb4b504;0x900831eafaffe;0x93004d3465aca;0xe509ac2fec33c;0x97f4e97dfc2c3;0xe2dda162262d3;0xc8bcb12f72825;0x81328a1d86];[0x0;0xef4f842f29e0f;0xf53fbc7b8b06c;0x784c52738a96a;0x923dccd7bd5f6;0xc051e9b644c19;0x598ef96d93e33;0x2aef04e7996ec;0xf843d49e3ebca;0x96ba707b4732c;0x914ab11fe67];[0x0;0x1f24773d1519e;0xe40ce5a6147d9;0x457b57d74573b;0x24bbf13ccc6b7;0xdddb3ed74dceb;0xf10a94e9e80d8;0x7e4ba845fc65;0x1d4e0cb92b1ce;0xf10b9e24c2623;0x713df8e6e90];[0x0;0xdbb63cb92fc71;0xb0291f53d2fe0;0x6419defb3477b;0x6fbe24a8af3d2;0x35aa8c9b71a67;0xd3b6b252a8ef4;0xf32405db266ff;0xbb714974b7dd3;0x5aa694083e96c;0xe5f77b8126c0f];[0x0;0x3d2859fa10846;0xc1dc18dc7796;0x13167c0cf4724;0x124487ab78ee8;0xa038b55d0b856;0x32e248e5b0d4;0x3f0d780da5a08;0xaa48725f8e82f;0xd163f7ce62a9;0x69f05e2a654]]);
 ((V [0x4e95b33bc19e5;0xf2fd05e022733;0xe8d739eace322;0xb45fa6082c2ed;0xce1a0067edb7e;0x6a3e4987203ef;0x5a7bd69e8b9f2;0xd6c08dd25ca8d;0xc2682f3962d35;0x48a4c759e9d] [0x1b0ff18c2ddb9;0xdab4218133e90;0xecb5f14b3b1c3;0x7cccbf465613;0x58b53853c9ef4;0x616267cbf1faa;0xc4445afb1ccc1;0x398c06d59037f;0xa1edef7e797b6;0x28917a0b020] [0xa6b4ed2e9e69b;0x590b15aadecea;0x565a2deb73968;0x8af3d5c671ca4;0xe7b4cfc25055c;0xd675d54081e77;0x6c05435bd8594;0x5d0100c1df35d;0xbbe43d3ddb6d1;0x2de6e802f24]),[[0xc2dfdc89b1299;0xe19be8de63a4a;0x4bafe33dd0912;0xe671df11228e7;0xa015cb45fa700;0xb24e8ba3f448;0x889ff956f0645;0x5ff054eaeddfa;0x504886764618a;0xd9e2e7cbec6];[0x6011591a0da35;0x1ff142b4c38e7;0x73b50f2ee1b3d;0xc888e1779e676;0xbcc2abef06721;0xce5bde06f13e8;0x10011ba76772b;0xd0603258eed2b;0x1dfd3408d344a;0x49c41de7b9d];[0x824e007f01d6e;0x21a98d98d20d4;0x7ec158226ef62;0xe547f264b977d;0x431cb97b6e546;0x68a3bfbcaa03f;0x1929f994a348;0xbdd4748571250;0xad887994f02bd;0x5c16b6b5b95];[0x824e007f01d6e;0x21a98d98d20d4;0x7ec158226ef62;0xe547f264b977d;0x431cb97b6e546;0x68a3bfbcaa03f;0x1929f994a348;0xbdd4748571250;0xad887994f02bd;0x5c16b6b5b95];[0x451ab07afbcc0;0xa6442397f8fb8;0xe90510905f09f;0x29d20efcc601;0x4d2118da32cca;0xbdf41e4b3e31a;0xa0c540a51d7d3;0x6a5baa12ac597;0xd364631c81a3e;0xd2284950eb5];[0x1af6a89f11b3d;0x79ad1f1cca92f;0x8aaffe9e82a9d;0xc5ebc087d2074;0x6fa19314d3a57;0x1067bfbbb30ce;0x6f3bdb0249f58;0x6604884642793;0x4a98d0ec51a0c;0x779bd496ce7];[0x0;0x9b73665cf5801;0x30cad6005e50a;0xa2f980068c301;0xade69a578d416;0x7294a23828e0d;0x92ecc0445cdf6;0xa882ab4e7e7e6;0x6cb452415f6d4;0xf7523891282d5;0x38f2916d27c];[0x0;0xb74b4a940172f;0x233c723956f59;0xd74f652597174;0xe7e60f50ed911;0xeaffd0f3e26f6;0x5e142cf80641d;0xbd329fc94908b;0x4f90b7a7104c9;0x5c72015c4674d;0x4e60e04f307];[0x0;0x3d2859fa10846;0xc1dc18dc7796;0x13167c0cf4724;0x124487ab78ee8;0xa038b55d0b856;0x32e248e5b0d4;0x3f0d780da5a08;0xaa48725f8e82f;0xd163f7ce62a9;0x69f05e2a654];[0x0;0x3d2859fa10846;0xc1dc18dc7796;0x13167c0cf4724;0x124487ab78ee8;0xa038b55d0b856;0x32e248e5b0d4;0x3f0d780da5a08;0xaa48725f8e82f;0xd163f7ce62a9;0x69f05e2a654];[0x0;0xa171b72dcd55c;0xfe40c8334c771;0x2408614e08310;0xaf83a1a6d3d86;0x595767dfcaa18;0xba100549bda29;0xb17975db25276;0x14bfe1463b12e;0xe71d40c142d42;0xce8435609ef];[0x0;0xd3889e73d6815;0xdbe4b781bb86a;0x3091b8008efe7;0x50ffa568cd939;0xe7f4054ff65d7;0x6f8ce87dc7b56;0xe8caf9950dc80;0x49a9bffff48bd;0xfc867229a39a;0x3658394e79d];[0x0;0x3bb641447fefe;0xa30860990d6d0;0x261dca5b1bc97;0xeeea721d29c49;0x7bda74c9d0fa3;0x6c3610559c001;0xa264320f099fe;0x5a45569910299;0x68742ffecd172;0x14eea37db08];[0x0;0x5e1d7d6994787;0x809651790d42d;0xaf2e428a5b4dc;0x50cff30ccd1f;0xdbed7d4b88e2b;0xa2462297614f9;0xdea60070ad152;0x84a24c47a4982;0xbc8b0e08f71bd;0x28ae5af521449];[0x0;0xba58eeb49600e;0x67f24bf41dc99;0xe2dd86cb296ff;0xb80c5d96795d5;0x51da9579508c1;0x3a53934a828d1;0x3fc15018fa3ad;0xb8535f50ed276;0x16ec74efc7731;0xb83071c9d2]]);
 ((V [0xa7fae18af4ac6;0x736fadd65987f;0x55cf71cf4aba3;0x62e4f6d8ca420;0x644e6b153e594;0xbf5e5b6f023a9;0xc8e0c3fad95e0;0x6e4feff98be70;0x46a66c3f04623;0xbd1168950ce] [0xd070a2a805a5c;0xed6bc60a69ca4;0xd0f5ebf0e96d3;0xb6b7b5865c43c;0x2392e6db7025;0xe41848cfb2bcd;0xd85e3ddd188d5;0x9b5878ddef4e5;0xfdec951d88f67;0x4a981aad58c] [0x5b9076288565e;0xe0573edb4557;0xf919813429d8a;0x5ac07c02df005;0x7fa3934deb7a1;0xabb7c83110624;0x6b0e36893ceec;0x9f6a60ec72b96;0xcf434042e147b;0x1304417fd0]),[[0x3946d6b0345cb;0x910de9a98dd85;0x725ef637c654f;0x6f3c97ee1c458;0x4ffd0288a6147;0x1a2d1bb766df1;0xc27e312680ebc;0x42f3afa8babb3;0x68fa7c333e2c0;0x1ce2cbde3d7];[0x99a4326814bfa;0x2db82b95b9a90;0xef7618527b4a5;0x60336d0ff35ba;0xbc3839718542a;0x80ea843ddd495;0xef0cacb344149;0x2be040be4c9ca;0xc7f453b61d3dd;0xb1f1ebebc69];[0xa6b4ed2e9e69b;0x590b15aadecea;0x565a2deb73968;0x8af3d5c671ca4;0xe7b4cfc25055c;0xd675d54081e77;0x6c05435bd8594;0x5d0100c1df35d;0xbbe43d3ddb6d1;0x2de6e802f24];[0xa6b4ed2e9e69b;0x590b15aadecea;0x565a2deb73968;0x8af3d5c671ca4;0xe7b4cfc25055c;0xd675d54081e77;0x6c05435bd8594;0x5d0100c1df35d;0xbbe43d3ddb6d1;0x2de6e802f24];[0xf88ee55653036;0xd92f8c2c6bf40;0xefe70714540aa;0x3509f672147a3;0xe737e7d1176ba;0xa361e44aca2be;0xd6cbefb0a3e15;0xe76f0e776aa71;0x2da5df476491d;0xcff7a893cfb];[0xa1154d11c198c;0x54889f694db4f;0xff8f113e273fa;0x2b29769ddee16;0xd50051a06dd70;0xdd889ff3131d6;0x1840bd02a0333;0x44713246e1f59;0x9a4e746eb8abf;0xe1fa4357f6e];[0x0;0x81bbbf7275533;0x42359f1e44074;0xc5f6e5702530a;0xa9f8c992065bb;0x991b03d2e5fe;0x71d66dbbad46a;0xd7bbbeee7bb1e;0xcc1c632eabe93;0x7e27b99581b86;0x1c62be39674];[0x0;0xca5ac3867f499;0xd4afd4384322a;0x6303d8f3c1cb4;0x4283cc0fd93f7;0xc6cc57fb82c71;0x6b30b8fd5383d;0x32ff2144d22f0;0xd9d5103fc8017;0x6ffd745eefc73;0x52debc7185];[0x0;0xba58eeb49600e;0x67f24bf41dc99;0xe2dd86cb296ff;0xb80c5d96795d5;0x51da9579508c1;0x3a53934a828d1;0x3fc15018fa3ad;0xb8535f50ed276;0x16ec74efc7731;0xb83071c9d2];[0x0;0xba58eeb49600e;0x67f24bf41dc99;0xe2dd86cb296ff;0xb80c5d96795d5;0x51da9579508c1;0x3a53934a828d1;0x3fc15018fa3ad;0xb8535f50ed276;0x16ec74efc7731;0xb83071c9d2];[0x0;0x69d9e21acc0ad;0x69b3b1684163f;0xe70abce1eadb0;0xd8ed9b2eeb97;0x9f235b714ce91;0x67437d2bc26f4;0xeea23952ee261;0xc1edac08c3f83;0x9f787785c8816;0x66dc8ceeb4];[0x0;0x17678935c4c4b;0x98be0adda3606;0xd2280a3e6a9f2;0xc43d8db1b8c75;0xe21f7ddda1fb0;0x38acac78a7a21;0xe4c2fafddafcc;0xa4c1c5814f314;0xc60e3b5616b05;0x149d1a3299f];[0x0;0xd8bb3b63943b4;0xf3ccacf141330;0xc7cb89e74cd70;0xab3e6c0fa5eb6;0xa37fb18e733e2;0x62270dd79e9f7;0x24cc8e2f59ef;0xbd2c21831600f;0x5efbf82cc821d;0x836bb4ef9ee];[0x0;0x84fa20b6d5cb1;0x6eba52b99eba9;0xc487c947925f6;0xf7249bdff858d;0xccf2f6fe7082e;0x1ef425faf7411;0x8133242971378;0xfcac87186d9ed;0x97751ef1b39c5;0x4aaed91fa4dd1];[0x0;0xbd725677cbce6;0xd97db586b8f73;0x7483b84a6efc4;0x61584453f0181;0x31b3a3159547a;0x8d2ed31147920;0x9a8f17c1d0ee5;0xe879a81bb7eb6;0x3fffa5f94e473;0x37175e44f93]]);
 ((V [0x54f644a09a128;0xa3da183b0bec8;0xe24b7a26571f0;0xd697850bcd868;0x82c41df71dba3;0xdb5bcbd48d5c2;0xe464dbdb8c058;0x45dd72011d6bf;0x96e381dc89bc;0x7cddb14a435] [0xab21f0fe4b537;0x5614c7ec5beb1;0xbce9dba08ae18;0x6dc0f0594156d;0xb16af71ad6e1f;0xc582d244162be;0x29e327108c8aa;0x5976a2da3c27f;0x9eb68122e3ec5;0x86acbc34358] [0x94d5f406337f;0xfa2a797a441ab;0xb16f05791b0e;0xb1f3998ba5667;0xca3867cce3132;0x3bbf7bbf4d489;0xa60198f223f92;0x40d864f4bee1c;0xc737479d136de;0x37d4b971f42]),[[0xe4be5ee0aedbb;0xf260ad15458b7;0x3093ff4b4de64;0x544718ad3f9fe;0xba6560b2bfe0d;0xb38b2ed44ae5e;0xcee1ff9d3178a;0x5bc5a8cb6008b;0xe0678a0c16f5e;0xf6383cf2f15];[0xbc2e55de8048b;0x6330da94e2d10;0x52d3447f417cd;0xb7fe7f293d149;0xe3df9bc553081;0x43c6fd435eef3;0x87e52ececa11d;0x290fa69ee66aa;0xafbb52279f794;0xd861c3fe2d7];[0x5b9076288565e;0xe0573edb4557;0xf919813429d8a;0x5ac07c02df005;0x7fa3934deb7a1;0xabb7c83110624;0x6b0e36893ceec;0x9f6a60ec72b96;0xcf434042e147b;0x1304417fd0];[0x5b9076288565e;0xe0573edb4557;0xf919813429d8a;0x5ac07c02df005;0x7fa3934deb7a1;0xabb7c83110624;0x6b0e36893ceec;0x9f6a60ec72b96;0xcf434042e147b;0x1304417fd0];[0xc4f57dba6a855;0x836934416b54;0xaf036d21ddd32;0x35fba2952d320;0x5e22181bb2580;0x29dc5bbc4a62c;0x6c21cd0977d7d;0xb5f94ca052e87;0x24e9977f753b0;0x926772497f9];[0xf738d82415c37;0x5afa4750cc1bb;0xa3cfd75d63a9b;0x8202dc940fe28;0x85bd83a9a0b01;0x19eaa187148c7;0x1bc361c5523a0;0x731659fe93823;0x8ad1baa82a3e3;0x45fa51b4ade];[0x0;0x1cc95cad2d133;0xac3b2f1e09034;0x145127f7239fc;0x45ef30da59460;0xacd6bfdb05461;0x5b4f0b7ae37d4;0x3a76e2440d5c7;0x5ecb64b885364;0x8cf4138b4a481;0xbc285b00b];[0x0;0x3304e8b34f2e9;0xbcad794cf1e14;0x2bb08671e5021;0x68ca2f7b64cd4;0x5551326b74c1d;0x5a910f246e80;0xcde37dc4602b8;0x4756635eae13d;0xeab56eddfe434;0x124a446631];[0x0;0xbd725677cbce6;0xd97db586b8f73;0x7483b84a6efc4;0x61584453f0181;0x31b3a3159547a;0x8d2ed31147920;0x9a8f17c1d0ee5;0xe879a81bb7eb6;0x3fffa5f94e473;0x37175e44f93];[0x0;0xbd725677cbce6;0xd97db586b8f73;0x7483b84a6efc4;0x61584453f0181;0x31b3a3159547a;0x8d2ed31147920;0x9a8f17c1d0ee5;0xe879a81bb7eb6;0x3fffa5f94e473;0x37175e44f93];[0x0;0xa10215cc40d6d;0x268a492011221;0xc80d00c81fbc4;0xf75553354aa6b;0x4ae0244dbc4c4;0x65cfd28cf0a08;0xbef1f1b11a393;0x4063839a21539;0x94f105365f6bf;0x15bc49cbe7f];[0x0;0x91a8d6dcf47ab;0x68339fbb2a4b7;0x88c3193dc6d12;0x9535f95348b3c;0x5931bf3ecb98e;0x44df216242c5f;0xc3881dc70380b;0x45e9ebe7a8b8f;0xe6cb377f45e14;0x8ba2b59b238];[0x0;0xf9eff19e491bc;0x79ee741f8f435;0xd74cdb611dc88;0xe933725ff7f45;0xd3a9d9d3466b7;0x7a0c4f645216e;0x828709f3771b5;0x367a9846aa0a7;0xfee649047a1f3;0x698abd2fae1];[0x0;0xef9f5da5eb11a;0x7b84c90bd080e;0x1e99d0babe14f;0xa141e83ad8466;0x8ba7d061f9164;0x57f72a206f197;0xb53fa4b5f84d3;0x322fea1583ea1;0x51b318c692621;0x86c193c30f17d];[0x0;0xa8fe0178f3f1f;0xde2aab2d01808;0xbe39d83f4b6ef;0x4080b813e4b7c;0x3746253fa3fd9;0xb80654b334b53;0xd2944f329624b;0xa12681f9969fc;0x920cfd75d7618;0x41b04b8c427]]);
 ((V [0x58df49311096d;0xa07eebbd435fe;0x690687bbf80d7;0xf8374e619f88d;0x35798ce9c7792;0xd4ae85534990a;0x1b657c452649d;0xf0207e83c455f;0x91d65143a0683;0x65a1c57ff12] [0x4228ea446a2c7;0xcc3908c86fabf;0x75000cf20cf6b;0x103a95ff53730;0xab14e1ea48dff;0x6014693fcde58;0x3f6cc3c233878;0x68dc4ffe02095;0x4d44f37169d69;0x3f2c6417606] [0x116c3baa25d81;0x1904d27ed5576;0x2b7210e0e086f;0xc7cb527774d05;0xc9c94c24cc023;0x1337e157e0519;0x883b29661d7b3;0x8c52125e8b334;0x42e17dcfc2645;0x4fc32d86843]),[[0x90240478da8c0;0x8fb8235ed45e5;0x64e7c6cd4b64f;0x62259488b8a52;0x8866e4101e7dd;0xa02322d8e9be6;0x7a2cf20221d4;0x5d7a243175bfc;0xd38248bc05735;0x3688d2dae68];[0x225c0dced0df9;0xb87c144cd09c;0xa3627570e3382;0x78cc315205764;0x879de6027d7bf;0xfdd8c8905807d;0xa8cc07fc297f1;0xec031df61ef51;0x3d26138ebd793;0x91b6490ffd9];[0x94d5f406337f;0xfa2a797a441ab;0xb16f05791b0e;0xb1f3998ba5667;0xca3867cce3132;0x3bbf7bbf4d489;0xa60198f223f92;0x40d864f4bee1c;0xc737479d136de;0x37d4b971f42];[0x94d5f406337f;0xfa2a797a441ab;0xb16f05791b0e;0xb1f3998ba5667;0xca3867cce3132;0x3bbf7bbf4d489;0xa60198f223f92;0x40d864f4bee1c;0xc737479d136de;0x37d4b971f42];[0xff6def269ce48;0x81746403aa11a;0x740bdb6ca164;0x947612b04b26b;0xa15e151f6efea;0x893d8d550abe4;0xe5358e250c33e;0x3d3ad04c6cbce;0xfbc337d63cf4e;0x8bbe21f0d5e];[0x22ee1ea833fb2;0x8a135d4122f81;0x9c21b7ba1921d;0xe4561ea1ba4f9;0xe63fd0e30e7d4;0x749b3b3b4d498;0xc39679d71d4b3;0xaec84da9b2382;0x4162dbb880845;0x5f8271f27a];[0x0;0x47ced95d37690;0x356f444d61bf4;0x4d9136636e35f;0xaff9912e73f7c;0x5bdd29667d1a;0x14207f1ed11df;0xd26bb26126c5f;0xf5971efa3fb61;0x4cf7a0c8575dc;0x228699805ee];[0x0;0x7932d4e5eb881;0x81f74f8afdc4b;0xfb4112c100dbd;0xee9b038ef27e;0x87e50e1d0ecd6;0x5816d9be76bdb;0x1e698c8e57106;0x92843680c0e4c;0x86853523b96bc;0xbe4b61ccb9];[0x0;0xa8fe0178f3f1f;0xde2aab2d01808;0xbe39d83f4b6ef;0x4080b813e4b7c;0x3746253fa3fd9;0xb80654b334b53;0xd2944f329624b;0xa12681f9969fc;0x920cfd75d7618;0x41b04b8c427];[0x0;0xa8fe0178f3f1f;0xde2aab2d01808;0xbe39d83f4b6ef;0x4080b813e4b7c;0x3746253fa3fd9;0xb80654b334b53;0xd2944f329624b;0xa12681f9969fc;0x920cfd75d7618;0x41b04b8c427];[0x0;0xb8192376f342f;0x75313edfce4d1;0x220cd6aa68370;0x4c311eca9c68e;0xa498ecbd13bda;0xf6302a073700c;0x4de46b7f56b46;0x27369ca677fe1;0x10d0da3dbba9d;0x46d94994189];[0x0;0x10fc1f53b0d02;0xb61de3d81001c;0x83d08fb71e443;0xf725a98a15f0d;0xa132951093555;0x5f18d053c9cdf;0x8c17b44f27bd7;0xf9cf208928bb5;0x611f1578cf9a7;0x3ce783bb863];[0x0;0x6ebfa7bbc85ec;0x76d5c5e189499;0xef5f61ab7354f;0x5697dbcdeb288;0xa74f5b44f5ce3;0x8495adce667af;0xf7212dba31853;0xd872bda6b5b63;0x55abe27d0b4e2;0x39d8fee15b0];[0x0;0x55506d8ad7e14;0x97377b95d4c20;0xae9a9a751b42;0x908fb1b024fc8;0x3de38d1f79f25;0x347f168963ce2;0x496d49fe2e6a9;0xc3feefa99b4ed;0x99e681d1303bd;0x3f479b5b2fc44];[0x0;0xee58476e055f6;0xd2a131283d38d;0x500fc2ec4578b;0xf4b155bf009bf;0x237eb22236bb1;0xd195fa23a213d;0x8f1eb97cba37f;0x728a0aa9974c9;0x9fb8a324922a9;0x19146f24e74]]);
 ((V [0xa895aae21511b;0x20c4d79615ec0;0x7c197cc0291dc;0xf861d0ea91136;0x6809201447d8;0x4c63108b5d2ce;0xb93000af2ccfd;0xabb3fa46e6ffe;0x9ba417b7f18c4;0x8630e62752b] [0x1a9bf2454692d;0x7d2e31adfbd94;0xf487e7a45dd0f;0x953b60e01794a;0x9d2875a0ae40;0x73f7061cc6281;0x77f146960df6a;0xf1cf7694975c4;0xde22e4ba144a0;0xd447881f131] [0xf2b2b9ad428f7;0x57ab49bbdadd5;0xef30ea3e6f201;0x2470948b2f845;0x5341c41787bc5;0x3d7373560acc2;0xfe74dcfeab9cc;0xf3c16a82b8579;0x1bb80c1ec95f8;0x6f7c97978bb]),[[0xd0064eb733652;0xda3f21d977a5b;0xac2b86d7b658f;0xbfb5b0ed4c28a;0xaded61082385e;0x206d970db6031;0xaebb7b1ce75ea;0x834cb1f7a6f7c;0x6e6309cd88d1c;0x5b9a80b15e7];[0x7734a05718c1f;0xed742e454d408;0xf4a012e67da31;0x7493c3948d3e2;0xef797f7366458;0x76c5eb0969d87;0xd9410aeee91ee;0x88d14cdb4fc23;0x23366452616f;0x1a4623e2ed];[0x116c3baa25d81;0x1904d27ed5576;0x2b7210e0e086f;0xc7cb527774d05;0xc9c94c24cc023;0x1337e157e0519;0x883b29661d7b3;0x8c52125e8b334;0x42e17dcfc2645;0x4fc32d86843];[0x116c3baa25d81;0x1904d27ed5576;0x2b7210e0e086f;0xc7cb527774d05;0xc9c94c24cc023;0x1337e157e0519;0x883b29661d7b3;0x8c52125e8b334;0x42e17dcfc2645;0x4fc32d86843];[0x7396b5996112d;0x678d90d9385c4;0x61d2a7789cdb8;0x42a90907868ac;0xf5012c989da13;0x7938506f7c846;0x19b4ceed4f443;0xab4386c553cc0;0x8a9e3409044d6;0x9dabde7063];[0x39deabdb78ba;0x85e69d6c14e44;0x92cd6b6de0c79;0x31eaba8d06b36;0xfa7852dac8a45;0xfd8d9a99ed540;0xbf8c3c0199daa;0xdd8dc615fbf63;0x7795323c21c98;0xf7c9a457289];[0x0;0xbf2c59136e912;0x238e76c75c649;0x4921fb74e6aa4;0x69f4d383aea7;0x722e5348a7fa7;0x3764542280b09;0x1c712b0684f6f;0xbfd6033a88552;0x8a5bf06a6f687;0x3153307998d];[0x0;0xf64fce1365535;0x9ae1246296078;0xa3bc49464a6ed;0x3b56f901c51c9;0x35e89533deb78;0x201642e795fce;0xb02671201173c;0xdeb88c5f4d25;0xe864895f243a5;0x1c8a84b10e0];[0x0;0xee58476e055f6;0xd2a131283d38d;0x500fc2ec4578b;0xf4b155bf009bf;0x237eb22236bb1;0xd195fa23a213d;0x8f1eb97cba37f;0x728a0aa9974c9;0x9fb8a324922a9;0x19146f24e74];[0x0;0xee58476e055f6;0xd2a131283d38d;0x500fc2ec4578b;0xf4b155bf009bf;0x237eb22236bb1;0xd195fa23a213d;0x8f1eb97cba37f;0x728a0aa9974c9;0x9fb8a324922a9;0x19146f24e74];[0x0;0xc72d1ee6f3e5c;0x7c2af56ce5324;0x3e1fd5d979c25;0x2545922aa51dd;0x40ce349b32a65;0x1da26296aee71;0xa3f530782934a;0x862a697203ebb;0xd0899349fe177;0xf96e0f6109];[0x0;0x3219247a4aed9;0xf6b507c138307;0x6a528e547d7b4;0x815ec97a793c7;0x7dab52da50cea;0xbbb9da213a895;0x70801887cc677;0x6adcfc85fad95;0x5f0032c50657e;0x28590c10f79];[0x0;0xd17183ccd88b2;0x44e7897289b88;0x2c8a391bdbd00;0xc5c1e365ba9a9;0xc85542df715da;0x45e968e24b359;0x757599f6c13f3;0x36ffd62bbae72;0x6771f8e59545;0xdc5bb8e90];[0x0;0x6532b11e446ad;0x6a4da8e513f2b;0xec130422b0945;0x946f6787d7a00;0x5704686dcc0cc;0x994ba7e60edc2;0xd15fffbafacc2;0x91ff79b3dd4d7;0x464d3b68d32db;0xd51a73105febc];[0x0;0x1f7c128e815f8;0xef5a61eb3e24d;0xef1868feb1517;0x34fbd2abcebd4;0x654ce9e75a494;0xcd19b96fa1dac;0x25c4290a6db6d;0x9e165b863cbab;0xfcda4ff13ee69;0x6f45fd82a99]]);
 ((V [0x4ebaefecdd36f;0x97e3cb2c7a345;0x53be5cc49a495;0xcc678f97c54fb;0xd32c6a310ea1b;0x7fb940d5e99ff;0xab28b49fe21e4;0xf3c3d816a34e7;0x302721cdc0f12;0xc6624661e03] [0x1c09bf4a8589e;0xbe4ae18f6865a;0x13c5e1569918d;0x27906589f858;0x4f46aa41b7574;0xc9c1ea55301c8;0x7ba88db90dd06;0xd3b6502a23198;0x3d94758227880;0x492fc4bbe25] [0x3636bc38acc60;0x699fa981f1e17;0xd4b8445312720;0xb2678010f3b27;0xfeae20f65ab2b;0xebcb2a6cf3452;0x82648335d2f45;0xe49e2cf6c6acf;0x51623301184c5;0xb40a0d64116]),[[0xee88cf1ec3d5b;0x2f97ebd463258;0xe63413425485a;0xa0baf51dfbc0c;0xa390ef1ebf5b9;0x7193fdfb5a7d1;0x6740660058c5c;0xb8944653b52d0;0x1e65c3c5c08f8;0x8ef482fc026];[0x51a9948cc4f89;0xc0611b41aa577;0xdc2f1fc9e13c1;0x413dda047686d;0xed2e13ac67c7;0xaae77443870c0;0x4d6682f2be5a;0x33102dfc6a0aa;0x285694e254d77;0xe5bff7a5c54];[0xf2b2b9ad428f7;0x57ab49bbdadd5;0xef30ea3e6f201;0x2470948b2f845;0x5341c41787bc5;0x3d7373560acc2;0xfe74dcfeab9cc;0xf3c16a82b8579;0x1bb80c1ec95f8;0x6f7c97978bb];[0xf2b2b9ad428f7;0x57ab49bbdadd5;0xef30ea3e6f201;0x2470948b2f845;0x5341c41787bc5;0x3d7373560acc2;0xfe74dcfeab9cc;0xf3c16a82b8579;0x1bb80c1ec95f8;0x6f7c97978bb];[0x152b3f1126924;0xec92e48bd1548;0x6d6ad4fae353c;0x6009579275e09;0x4330e437cbaa9;0x17ffc41c018c7;0xc505f385daef6;0x3a55708255ca0;0x978e3f24617ff;0xccfeebcce4b];[0x3c7e557b9e666;0xd3ce36b5d902f;0x6ec44acefde84;0xe134827200a64;0xcba1fd02fad1d;0x92e7b027857f8;0x3fd074a950f64;0xf8babd7a14409;0x90c855bdf3577;0x18c10bd8e08];[0x0;0x8d77af9d6ba83;0xa72967dd652f1;0xd26744e3b5499;0xbf3776072eb4;0xf852645546905;0x20fa77c59702f;0x65de811846e75;0xd983ee0a454df;0x6ec4ccdb628d1;0x44f175bf8bd];[0x0;0xe3816092dda9c;0x328299a81640a;0xca80f75ee582b;0xbd646cd2fed77;0x30376e2317823;0x803a0e63c5abd;0x1cbffa2f6ac0c;0x3631a132bdd99;0x7853ca13b41e5;0x3e4197e1909];[0x0;0x1f7c128e815f8;0xef5a61eb3e24d;0xef1868feb1517;0x34fbd2abcebd4;0x654ce9e75a494;0xcd19b96fa1dac;0x25c4290a6db6d;0x9e165b863cbab;0xfcda4ff13ee69;0x6f45fd82a99];[0x0;0x1f7c128e815f8;0xef5a61eb3e24d;0xef1868feb1517;0x34fbd2abcebd4;0x654ce9e75a494;0xcd19b96fa1dac;0x25c4290a6db6d;0x9e165b863cbab;0xfcda4ff13ee69;0x6f45fd82a99];[0x0;0x2376464d2b513;0x1631ff73a164c;0x5b6bff07d3513;0xb04b9bfe52687;0x4b42be4b4948f;0x3a2e2402453c2;0x19aa930c39aa6;0x314c3602512db;0x7214585ec77c0;0xb0068d70414];[0x0;0x9f1d973e915f5;0x9f681d06ff009;0x4358d376a5681;0x6327568da8107;0xbdb3d5c4e9d9a;0x6f2b1872ae421;0x800ea821bfcbe;0xdc00dfb837536;0x423526fd74983;0x46573a48484];[0x0;0xbbd48af4cefd8;0x84a9abd177825;0x6d17b7390ca1;0x2820e9931ac9;0x653bcdd4c02df;0xd995bdd82cf0e;0x36be0e0ebd8d7;0xf34659cea40e0;0xe087bf62ae65;0xb20aac3158b];[0x0;0x473a681d1bbbb;0x465b6ba311eb1;0x5ed5b1b8242d6;0x52d0cdfec146f;0xe8e855e74886c;0xa9cb9518e8f1a;0xf789249a5323a;0xe475ac8a42d19;0xa67628c1b1b56;0x493745e431e18];[0x0;0xcf70d821d3cce;0xaea5c90be8ac8;0x22b9aeb3faf5e;0xe3dc86c68cd16;0x9c7d1ff00f53f;0x26784db9c4e09;0xe7b8ff659c58;0x943bd176eccbb;0x6ca95a12fe7aa;0x38b70a91abf]]);
 ((V [0xb17c64cda1fda;0x2d34c44e65f13;0x8b72d042c82d5;0x130f34c84b9e7;0xf112076a43324;0x7fc411d6112e3;0xc2458a07dccdd;0x8f6b61a964a21;0xbd0b7ca657ebc;0x205b9f5bafb] [0x4173ab7c8aaa3;0xe4559bcdc099;0xbc4cd8bae3015;0x325a48a6ec637;0x71e602e2a7bd;0x53d8e68b01152;0x420506db88afc;0x13598f8cce614;0x2308e61f6263;0xfe88dbf5231] [0x3369e3045a218;0x7989f643b67dd;0xa37b0d8a1b5d8;0x8adf2014f32c5;0x46a25c18abc97;0x866303434df7d;0x534a7dbb22b9;0x1c01f119105f1;0x69951c4f0ea8c;0x393c20b809c]),[[0x76ab9854e5a1a;0x3e6a797afa39a;0x659a32a3b4f86;0x2ebe0fd2d1eb;0xc1740ccb8567b;0xa2b6a41904d80;0x9d3145c18a0d3;0x15820378c54da;0x975eecdf1c41f;0xa7e77b42883];[0x91b5697cc42f9;0x4aee2117457d7;0x1512b56e3b72f;0xe293520f6737d;0x63574a9e4426a;0x5c7060bf44b9;0xb5fabbf2beca0;0x60e2c21b3eccb;0x45580e4659773;0x8b9dec8034e];[0x3636bc38acc60;0x699fa981f1e17;0xd4b8445312720;0xb2678010f3b27;0xfeae20f65ab2b;0xebcb2a6cf3452;0x82648335d2f45;0xe49e2cf6c6acf;0x51623301184c5;0xb40a0d64116];[0x3636bc38acc60;0x699fa981f1e17;0xd4b8445312720;0xb2678010f3b27;0xfeae20f65ab2b;0xebcb2a6cf3452;0x82648335d2f45;0xe49e2cf6c6acf;0x51623301184c5;0xb40a0d64116];[0x9aae60bded2ba;0x27e3f6f4772ee;0x66660a9b1ab79;0x617d7eb427785;0x72f58182650a5;0xf037a7728b746;0x198b60874a994;0x7636795fdd6e3;0x5d28137e7e8d3;0xa805493908d];[0xf70708bed6e07;0x230a2a22ce4e8;0xaeacaad320bb6;0x8115d35b3fbf7;0xf061c91bdf1c5;0x158f5e9968d72;0x9c6f5b6b7430b;0xeaac48bb615e8;0xe82ffac7dae9f;0xe398a3472c0];[0x0;0xb15d0ab5934ea;0x8ea38655465c9;0x21400273ce4b0;0xb1c4daa8299a3;0xee7f114a8cdfe;0xb1a1fed6cc1b4;0x61292631c48c6;0x2f6290a3ff735;0x6c57620373674;0x6f560528020];[0x0;0x53515f51bb701;0x6a8bdbdeaf034;0x227d1b5daee6;0xcb273cbc575d9;0x34a896de30a7c;0x97cbdc97431ed;0xa81711786672c;0x36480376d3e;0x8ec1aaaa140f4;0x76155a7dfb7];[0x0;0xcf70d821d3cce;0xaea5c90be8ac8;0x22b9aeb3faf5e;0xe3dc86c68cd16;0x9c7d1ff00f53f;0x26784db9c4e09;0xe7b8ff659c58;0x943bd176eccbb;0x6ca95a12fe7aa;0x38b70a91abf];[0x0;0xcf70d821d3cce;0xaea5c90be8ac8;0x22b9aeb3faf5e;0xe3dc86c68cd16;0x9c7d1ff00f53f;0x26784db9c4e09;0xe7b8ff659c58;0x943bd176eccbb;0x6ca95a12fe7aa;0x38b70a91abf];[0x0;0x7da36dca662e6;0x15b4e03318092;0x4e52fa55ca4f5;0x559f7d206fca0;0x4d2cb10e6272d;0x5c28bae84acbb;0x9b6487fbd3f16;0xd7371177f9af3;0x129294bc2d9a9;0x14ec471cfb4];[0x0;0x2bac7fc63ab16;0x2f045740bb709;0x63928db4f714d;0xfd88b0043e584;0x40d5664ef7afa;0xc6f680e78e2f9;0x3aebc1ff9c984;0xbe95f3409e270;0x83addf45a1080;0x99bc2a995d1];[0x0;0xb43dd9917e8bc;0xe33d395f038e0;0xb3c9387a28d77;0x313a2931be65d;0xc5614b8bac22;0x1319c09c7e4ea;0x69c7d2d1b4ff0;0x7a31029f589a9;0xd6d2311e0409e;0x11a5b59c2f0];[0x0;0xde2757154ce15;0x2a9dc1cdf90e6;0xb7a9cc862355d;0x5a13947b26940;0x4c03d0049bc05;0xc7ff72baf0e17;0x211d189fcacf9;0xd962e5a54c178;0x81d8a01bc1a05;0xfefc937c95900];[0x0;0xcee48c645409a;0xdc22846b9c248;0x7c06782092cca;0x2fa2310bf77cc;0x9891ae8d0c8bc;0xa7b64b1b56274;0x12c1c493eef06;0x8d755fff69cc4;0x337e33c3ea992;0x202c3496fe8]]);
 ((V [0x6701f8aacba12;0xf0e51620fa1a9;0x9efb47d7faf91;0x36213982daa35;0x420c428e97694;0x71afad291046f;0x1b7b5f7772182;0xd63ef4d74952f;0x6679e03f8cef5;0xddf5c3d5c6f] [0xf18491ee4902d;0x373820f6afbf0;0xeaa7f7fd633d8;0x16166ddb7989c;0x80ce6eecaf89f;0xe9544ab2b786b;0x7c75520b3869;0x1890f765f48e0;0xe289def5ab89a;0xcf843bcaaa7] [0x643db04685c10;0xfe043462a12ca;0xbd8067a0dd14e;0xe7bf551e1022c;0xa0f26f6b1474d;0x745a5911d945e;0x849e5a71ab459;0x3c167c820c031;0xc09dc9fb83808;0x7584ce3eaf3]),[[0x8664e351f792;0xafac81f7c20e9;0x4788ad9cb45bc;0x369f4eb9c5d4e;0x99786c9cde9d9;0x8e06540365d45;0x38b567af7a3c1;0x5502e328eb9e6;0xef26710983a88;0xa96fe364de4];[0x8a8cc18cd4307;0xd0d654773b9b2;0xf30ffa2fb1f3f;0x3c65b80f661a5;0x8cd4f2e36d5e;0x4b14e14303b83;0x815bf5218e39a;0x32e8869ded0a0;0x98c9cd6d5e1e5;0x721f38b58c];[0x3369e3045a218;0x7989f643b67dd;0xa37b0d8a1b5d8;0x8adf2014f32c5;0x46a25c18abc97;0x866303434df7d;0x534a7dbb22b9;0x1c01f119105f1;0x69951c4f0ea8c;0x393c20b809c];[0x3369e3045a218;0x7989f643b67dd;0xa37b0d8a1b5d8;0x8adf2014f32c5;0x46a25c18abc97;0x866303434df7d;0x534a7dbb22b9;0x1c01f119105f1;0x69951c4f0ea8c;0x393c20b809c];[0x33d5a9559c1ef;0xea64a0ae6544b;0xd6919d2847cd6;0xe2fda83db597a;0xaabff61338628;0x5adcf968e9a7b;0xef86c46f657f7;0xf3361f731f774;0x49985c8a0429f;0x51ed4ccd9e4];[0x56b7183737ee0;0xe671b3c8d6567;0x1c7e5d076a268;0x59680fd1b082b;0x5e0d591afe735;0xf037e7da1a107;0x91d530b228ba2;0x3fb2672acd92b;0x4f3170e359f45;0xb534a6bdba8];[0x0;0x4d59cb8b070a2;0x61fe49b3bc1cd;0x21707d51236c5;0xa4f103b33af61;0x5ae8a6d7e9929;0x62c301981e46b;0xb9f39c1c6dee;0xb0ccd728b56f8;0xda542a6bfc924;0x2364daa9d3e];[0x0;0xba182dd45c80f;0x6cb68224b482c;0xaaa1c34759854;0x3cb93d5860253;0x7aa63e143830f;0x4eb0430e0a33a;0xfddcbb3b786ef;0x131c190bd9b82;0x41bc5d360f675;0x25e1b5828c7];[0x0;0xcee48c645409a;0xdc22846b9c248;0x7c06782092cca;0x2fa2310bf77cc;0x9891ae8d0c8bc;0xa7b64b1b56274;0x12c1c493eef06;0x8d755fff69cc4;0x337e33c3ea992;0x202c3496fe8];[0x0;0xcee48c645409a;0xdc22846b9c248;0x7c06782092cca;0x2fa2310bf77cc;0x9891ae8d0c8bc;0xa7b64b1b56274;0x12c1c493eef06;0x8d755fff69cc4;0x337e33c3ea992;0x202c3496fe8];[0x0;0x7bd783c811756;0xa29bcb4b09538;0x85b74bc37db56;0xe6cc3e62b34de;0x5729415a136c3;0x74a8f526d6102;0x5b718205b0cb6;0x22e6e4d15d928;0x69b649fbc7bf0;0xfd13dda4e30];[0x0;0x84684ee5e931c;0x6b5a87e61d326;0xf3d9011a09bc7;0x5e770e4e07d5;0x305dd04344e14;0xd4176a64386d0;0x100a3589d6a2d;0x12e2c35bffde3;0xe8d60ab04511;0x41708a19a5];[0x0;0x6d1cfcafa2aa0;0xe8201eb728d2a;0xe8a82bcdb6504;0x2488fac9155ef;0xbe6fbc37f704a;0x9fe5d5b92a295;0x3edbfc79602d2;0xc5a3780aac70f;0xfdeba3bfe9e82;0x62f2832314];[0x0;0x8c1bd192e1c31;0xfa0f7f56b3a04;0xd201789037448;0x898fc0f1a2464;0xf816878596ff6;0x81f47d5394d69;0x19cf794d960cc;0x54e340644af58;0x6acf158f59b21;0xd04df7e35b6f5];[0x0;0xa64ec71ac0616;0xdeaf670d93b97;0x3cf44eeb1e65d;0x466a9a97689d8;0x15294798370b7;0xc743c9279e17d;0x66ffad5aeb6ae;0x1a8aef4ac769c;0xd3699aa3092ce;0xb3ec5fea31f]]);
 ((V [0x8c63117af6eef;0x19755200cf14d;0xf3de10af16559;0x5abac7ad8ec3f;0x93374604d5e8;0xfde47245fc678;0xcfca3ab5eadd4;0xbdce4cfceef69;0xcd7214ba709ef;0x8e10e4858e4] [0xf0070a17a902e;0x809e7da82d730;0x83433bff190bb;0xf69a1f18479c6;0xa6dca845e48ba;0x20e2bb7788a29;0xa6b1213b4365b;0xa4bfac9bdcac5;0x59d646f2e2766;0x9b7fbbf29e8] [0xf2d812a61d486;0xb66831f12d310;0x6b126e9b4b9fb;0xb7d634fcc868a;0x181bd2b76ae3e;0xf42ca6d2e2673;0x79d45b89b581;0xc618f184dfcc1;0xfce0677c1499b;0x6c22bd2df6d]),[[0xdf49a8810cad7;0xfa71ed153e2b6;0x75c0892906dd;0x795e4c09349d8;0x8625d15883773;0xafe2f3dd88ed4;0x72df8e5e31ae4;0xd4ece00b350b5;0xf3b289d01d115;0xe21592fd381];[0xf37fe277bc37b;0x44b6131c55fed;0x6e4ca693beacd;0xd3cbc89646cff;0xcc177ea5082b;0x9895a54ad5a28;0x37ad486019730;0x6a100896eca62;0x98e7a8fe9fd0a;0x8413246da19];[0x643db04685c10;0xfe043462a12ca;0xbd8067a0dd14e;0xe7bf551e1022c;0xa0f26f6b1474d;0x745a5911d945e;0x849e5a71ab459;0x3c167c820c031;0xc09dc9fb83808;0x7584ce3eaf3];[0x643db04685c10;0xfe043462a12ca;0xbd8067a0dd14e;0xe7bf551e1022c;0xa0f26f6b1474d;0x745a5911d945e;0x849e5a71ab459;0x3c167c820c031;0xc09dc9fb83808;0x7584ce3eaf3];[0xa8cbb36ce47e;0x42ebf31ae4f17;0x9c0643e1c412b;0x1bdd32cddb38d;0x2de077bb1fce1;0x86c352c8e028f;0x553733b969bc0;0x7641b6400331b;0xf4db95b19365c;0x7f72666f164];[0xe8f32740edefe;0x1ca2001710d6;0xd24662b1fa9a2;0xb7ee95c86b971;0xdee1002f30b4a;0x11d25281f5798;0xe27614a6afb70;0xf3ce5256e9746;0xa40c134d0c6ad;0x4a0bdfe8b4];[0x0;0x444b4021b388f;0x5aa26f524f69;0x1d85fe80115fb;0x83c5696eb73ad;0x5ff8acb10658c;0xb198f11d58338;0x74846151ef358;0x23a2beb475d40;0xbd937f977ebf3;0x48ac6637d9b];[0x0;0x638449ec0a663;0xbf31ff291eda8;0xde172ca7d117;0xe36d82f52465c;0x80bb2c1b866d;0xb4a180ef1b985;0xcb4aa9161c00d;0x24c732945a8ef;0xa57dff0579c4d;0x67c925723d7];[0x0;0xa64ec71ac0616;0xdeaf670d93b97;0x3cf44eeb1e65d;0x466a9a97689d8;0x15294798370b7;0xc743c9279e17d;0x66ffad5aeb6ae;0x1a8aef4ac769c;0xd3699aa3092ce;0xb3ec5fea31f];[0x0;0xa64ec71ac0616;0xdeaf670d93b97;0x3cf44eeb1e65d;0x466a9a97689d8;0x15294798370b7;0xc743c9279e17d;0x66ffad5aeb6ae;0x1a8aef4ac769c;0xd3699aa3092ce;0xb3ec5fea31f];[0x0;0x3adf3135b5d3d;0xd390bed4d2e7e;0xc0ce646f2542f;0xc26915e80dffc;0x34eb2420a60f2;0x7b05356336eab;0x3a59604451627;0xe2b3f6cdc8831;0xee2d0f3503dc6;0xa8371cff76a];[0x0;0x5ef6697f9b8a;0xbd83a2d4c0f1c;0x25a3f8ce3a0bd;0x45a591f0f5e8a;0xd2ab783c33cf8;0xc469bfefad60c;0xa5052a17eee30;0xf98cbbc3ec092;0x3a22939d46c03;0xc072400f868];[0x0;0xe55c29e04ba3c;0x3f79ecd03159b;0x5f907b77bff85;0xb5f9059e14adb;0x445915c084424;0x123e6f8c0dd74;0xb571a6fb5b29f;0x1303e917253b2;0xb1a637c6fab96;0x494b554d0a4];[0x0;0x26a74894cbdf9;0x99b1fd819a035;0xb7bb4b35a5f31;0x395cee2f53ac;0x696a776f87671;0xd28b21dd49a98;0x72cc58e90c5cc;0xac3528c81a6f6;0xa9912a649f790;0x9bcb02310c896];[0x0;0x93ad90c9f1234;0x47ba2f78efa99;0x78dabfc65b5d6;0xed84f4d02c78f;0xf3d401232ff17;0x5d33b3c22582d;0x6724531cca3d2;0x26a0ea51faabb;0x846bbc7c3d1be;0x564b1d0b364]]);
 ((V [0x90cbf5c329466;0x8aa5c8d7af5d4;0xa0190a686667e;0x87a97fb5f1c1f;0x72c0ad64c1b44;0x24d2da88cb6db;0x6af3abd6f9bc;0x56657ff5b37ff;0x82c3d10c90dc6;0xda450eb2f00] [0x3887171d06a85;0x7e5f41e0d4f24;0x47689833aeab2;0xf89bd577b3ab1;0xf56e3371c5dd4;0xd00c2c42cf58b;0xeda1469c2455f;0x36d81c7a90566;0x246d77ab7a44b;0xaf1851d9e34] [0x8c0ea6a1947a4;0x2c348f145e89e;0xaa15594326b48;0x68f08de0d867;0xfcd3b45ab0c72;0xe844eb39a39fc;0x9f5645dac05dd;0x15bc07970feec;0xaea7c0d1fe809;0x7ef19c92ab5]),[[0xb018c7ad9cc8d;0xa3127c1f7468;0x50855645d2560;0xc0be916f6a8a0;0xa3cc4ecbc41e3;0x9f013799ef11d;0xa21b7ebed3dda;0xdcf62af0b51d4;0xeb4b8c814e589;0x9b4ace8c440];[0xa2665d8c0e729;0x7c58ce468a6c4;0x1cd685f1d4d5e;0x7cf9a1fb3a97c;0x3e30a1d7a7e4c;0x5eb0922c5b54d;0xfb92d90bfb28b;0xa879d09540392;0xca91b7ac77e8d;0x678be64175];[0xf2d812a61d486;0xb66831f12d310;0x6b126e9b4b9fb;0xb7d634fcc868a;0x181bd2b76ae3e;0xf42ca6d2e2673;0x79d45b89b581;0xc618f184dfcc1;0xfce0677c1499b;0x6c22bd2df6d];[0xf2d812a61d486;0xb66831f12d310;0x6b126e9b4b9fb;0xb7d634fcc868a;0x181bd2b76ae3e;0xf42ca6d2e2673;0x79d45b89b581;0xc618f184dfcc1;0xfce0677c1499b;0x6c22bd2df6d];[0x966162cdb7c04;0x964ea183a316b;0xc311187bff9e8;0x74f69829243ea;0x3018bf5e652fe;0xa4be34b11051f;0xc190898b8e8f;0xa71b76ab5d792;0x573c9dca83b33;0x732d325cf6b];[0xc04fabe568ed;0xe60a2cc2e7559;0x59c56d75d5375;0x80309d216591;0xe17e27942b4e;0xb9f25d7b4b02e;0xef79d073423fb;0x15e59e9e2c00;0x735519e1f435a;0x934b8c0720a];[0x0;0xd8a26fb29a615;0x4255493dfe48f;0x8979a5fa24d0;0xc97657e52372a;0x557725014b06b;0xbd0a5a7975d60;0x77931a173ab7b;0xef4a7a0cfbea4;0x7a390c3a01eb1;0x42def6fe81e];[0x0;0xc6191c4daa033;0x2b12b7a716cd6;0x47a48562fe109;0xb0488e215a5a6;0xb7b7c16ed7e06;0x6b38e5e054130;0x63e5adc64aea;0x6867d0fc2f48f;0xcc0b79b25ba65;0x4198a1d4b7b];[0x0;0x93ad90c9f1234;0x47ba2f78efa99;0x78dabfc65b5d6;0xed84f4d02c78f;0xf3d401232ff17;0x5d33b3c22582d;0x6724531cca3d2;0x26a0ea51faabb;0x846bbc7c3d1be;0x564b1d0b364];[0x0;0x93ad90c9f1234;0x47ba2f78efa99;0x78dabfc65b5d6;0xed84f4d02c78f;0xf3d401232ff17;0x5d33b3c22582d;0x6724531cca3d2;0x26a0ea51faabb;0x846bbc7c3d1be;0x564b1d0b364];[0x0;0x98674e3ea51c0;0x39a3b31ce48f9;0x6b21d85f33934;0x513de7474758c;0x572b6d88ec325;0xab62495e4f867;0x88b1fb317aacc;0xe886da4ecd1b3;0xb6eb112ffb3d5;0x5e73ed53d0a];[0x0;0x461e54dc6e42c;0xd496f0df287a1;0x5f6044d0f263b;0x65b85cc877f0b;0xe26f758670cdc;0xee7ec1d574e94;0xac9ad331fce6c;0xba471ffff13c1;0xd3369de3af0fa;0x4ed6bea1868];[0x0;0xcd717dc1938d0;0x98467382a1bad;0x28e1a2037a9a6;0x7d2eab205c60c;0x6583f06cc1185;0x3d7712c128fc4;0x949c89bbb3b32;0x72ad5d728b121;0xe763c5f95dbb5;0x584910bad4];[0x0;0x7381daf50b45b;0x3e9f24efd09ec;0xc55656a042bbf;0xab62a601183c2;0x5555ff8024a84;0xb3c299e5ad781;0x485d399b663e6;0x2feea679d187a;0x8ca0e22b65faa;0xafc2fd043329d];[0x0;0xf96418d42cfd6;0xf992a13af05a0;0x78330a11cbb;0xdbba9215209a3;0x6b3029ce9fbc8;0xd5742d3d49818;0x4e73bff15274e;0x3ebc9e234834d;0xfe8df00beb909;0x9549f14f52c]]);
 ((V [0xb04c853c7afcb;0xe2823e3f31cec;0x10677496a8722;0x90606d1971699;0xa55db8ad8e328;0xd8eb802815e0f;0x26605a02c01e;0x66ef25e5e1112;0x9565f52de9e0f;0x9898c3701d3] [0x67ec3c31dd58b;0x69a772ec3b7e3;0x5a4bea6b77eac;0x86a9fa685f15e;0xcebaa2e5fb24c;0xf960190e58c4f;0x1e3a3a5b77f93;0x8c1b42c97cbbc;0xcbcfc3382a499;0x9068e4233c2] [0x9076c9ace9011;0x58db51299b540;0x47993c68e991a;0x4fde21cbac9de;0x94ce33652aa1b;0xd3cb6711f4259;0x850fd9b6065b3;0x83ef59f5e4c65;0xf5a9b7035f7a3;0xe805d7a2863]),[[0x2e7b04560fc6b;0xdac02f1e45e2f;0x5e9d509504477;0x194dca8d924be;0xa8e317d515730;0x6f8a17f4a5418;0xa51fa142d2d3d;0x5881d05577936;0x6cfeb1389cc47;0x9aae81c12de];[0xda6f67128a5c2;0x579da4b95a0c8;0xbf86f1ff0983;0x2b96c4d70e08c;0xb2d4c32aa4b03;0x35f476fe937d5;0x5334e6237b9bc;0xbbe512ff8f9c6;0xe1a40d43a47be;0xa2ef2d7ed66];[0x8c0ea6a1947a4;0x2c348f145e89e;0xaa15594326b48;0x68f08de0d867;0xfcd3b45ab0c72;0xe844eb39a39fc;0x9f5645dac05dd;0x15bc07970feec;0xaea7c0d1fe809;0x7ef19c92ab5];[0x8c0ea6a1947a4;0x2c348f145e89e;0xaa15594326b48;0x68f08de0d867;0xfcd3b45ab0c72;0xe844eb39a39fc;0x9f5645dac05dd;0x15bc07970feec;0xaea7c0d1fe809;0x7ef19c92ab5];[0x364483eb8a69;0xec068497db12d;0xa7806d52b5199;0x53ce6a5eef3b6;0xbb71e0c3fb4b9;0xd36c6f6d44cc4;0x10f0990d3e6e5;0x4267add1a30c1;0xa6b38d6618758;0xd2c7a4e4634];[0xd70b1ed3d1921;0x6b9720217ef9b;0x647801cd3b7e9;0xd7c85a781ecd5;0xf762e266a9649;0x628807914eb10;0x42444d163d2d6;0x797d652dec905;0x3af07fdd8c066;0xd027889a732];[0x0;0x28caa3bf79283;0x35e927978d028;0xbdb710b011cef;0x6ea945936958;0x913a33d8a5cfe;0xd2fbdfdfdac35;0x1d6251c99a5ea;0xd07103a5805bd;0x51a0ca49d3f8e;0x4e80799509c];[0x0;0x16edf288e6de6;0x5fa33d6902f3a;0xcc2d4444821d5;0x7f0a897f8e8db;0x2582a494cd329;0x3cad333bef240;0xa1d9562cc89e;0x6ec8745c0b5b;0x5087862e3ecb8;0x4cb3e0c0319];[0x0;0xf96418d42cfd6;0xf992a13af05a0;0x78330a11cbb;0xdbba9215209a3;0x6b3029ce9fbc8;0xd5742d3d49818;0x4e73bff15274e;0x3ebc9e234834d;0xfe8df00beb909;0x9549f14f52c];[0x0;0xf96418d42cfd6;0xf992a13af05a0;0x78330a11cbb;0xdbba9215209a3;0x6b3029ce9fbc8;0xd5742d3d49818;0x4e73bff15274e;0x3ebc9e234834d;0xfe8df00beb909;0x9549f14f52c];[0x0;0x69a69cad5ebd0;0xc2edea72c336c;0x499daec21843c;0x37e2c6c4f7fcf;0xd63c70f96e3f9;0x598ad9a46cb27;0x17aac77c48208;0xa2b9603687e54;0xad48ae31d24ce;0x77c2423757b];[0x0;0xb2e5c9bcf2065;0x59c579495fb12;0x44593efac9a2f;0xe8ecc4f0641c4;0x5958a86367fa3;0x2446d942629a0;0xdd98a22b189aa;0xd8175ca38b57a;0xb5f136ac4fdcd;0xba19afa9ae1];[0x0;0x4f2a025ae9df;0xed59f787320ef;0x93583044e9738;0x118cc50199b88;0x928b2119e884a;0xd21dad71c3087;0xd8afa1fda60a3;0x57654c8691a90;0x5cc2b46fc7d66;0x611f3d69dd8];[0x0;0x8e59f5b9d3a35;0xe0b33938bdbe6;0x98b4ee433d2f0;0x40b5fabfa9f26;0x143cffaf134b7;0xb310021128430;0xe1398a27bb67c;0x55632bac4b653;0xff6517e4f868c;0x909d63bb6a233];[0x0;0xd6fbb11bd0498;0x97024b0cd1080;0xf07ebe9e2719e;0x47ec258e72e1e;0x6725d811e9038;0x557af709eb569;0x3ed61f547ef7e;0x81d0cb1b106d7;0xd2af227d414bb;0x561473fb84c]]);
 ((V [0x59e5a93362c77;0xd305ee1e33cfc;0xaf7ed9c1360e0;0xea300ed7b4a88;0x820bbcb36a554;0x2d7d5daa23306;0xa4dc391cb8099;0x3b8039b370e03;0x77b46b467f009;0xd534e111328] [0x3244fd1336675;0x695af81192760;0x3e479826b58ce;0xba145b28db999;0xaced7e6d2325;0xe92632a98eb2c;0x906fc584a1b58;0xea5d533b8fc22;0x73994b6f672a3;0xe7160eb4753] [0xaeb8fb59e87ec;0x2124d7b95100a;0x6a07787a0d6e1;0xb19a38f7b0fc1;0xcf8d3f00bdebf;0xf241f11ffd300;0x3bed4ca69a7da;0x7477cbc5eeb88;0x2b51fff833353;0x3e90760fe9b]),[[0x377759668bf37;0x7de286e410c89;0x2aca5035ee060;0xe088d4d0e4ec0;0xd8a517ba134fe;0xa395a4e7787f3;0x75b342434d41;0x7b35089586636;0x9db0ab7665239;0x719b0210d0e];[0x9fa052f5150c4;0x25b4c0e62c719;0x53b6249a26cc0;0xb72449e03c43e;0x8edff3b181944;0xa87f856980d24;0x3af884f7e1602;0x28c600de41157;0xdd06be2b74f64;0x6e57c3ce57a];[0x9076c9ace9011;0x58db51299b540;0x47993c68e991a;0x4fde21cbac9de;0x94ce33652aa1b;0xd3cb6711f4259;0x850fd9b6065b3;0x83ef59f5e4c65;0xf5a9b7035f7a3;0xe805d7a2863];[0x9076c9ace9011;0x58db51299b540;0x47993c68e991a;0x4fde21cbac9de;0x94ce33652aa1b;0xd3cb6711f4259;0x850fd9b6065b3;0x83ef59f5e4c65;0xf5a9b7035f7a3;0xe805d7a2863];[0x5d5c0b73e9fe5;0x5d2044a1fe301;0x53b8e61811a58;0xce04d4af70a4b;0xe45728b546048;0xc67ce907c3d13;0xb77f1ff1c4093;0x57f1258062da0;0xf276241432f8e;0xacf10666c1f];[0x424447812aea7;0xc8947c442e418;0xfffd3e8215267;0xe91f7530cb9f2;0xaa88cafc3b8fb;0xe2029c61bd010;0x837965061d56e;0xd0d4db5dde3b6;0xea909a1741fd5;0xc166bd6795a];[0x0;0x3ebd99523301f;0x9352a080c4cf;0x925f7ba960f5f;0x17d8b88035aa4;0x2dc101bb21204;0xcdba65e5f52fd;0xb2f518cc08eec;0x5fd6cf00a52f1;0x4502ca5dee908;0x8f7b89acdde];[0x0;0xd6da2e84cbb05;0x75c5aa0927b5d;0x8e4db8aa717a3;0xe28fd42c7a388;0x87c9a71ee83e3;0xbbab50a40f4af;0xa7f5cc82f91e9;0xd0f08010c0dde;0xeb19b613aac0b;0x66f71197960];[0x0;0xd6fbb11bd0498;0x97024b0cd1080;0xf07ebe9e2719e;0x47ec258e72e1e;0x6725d811e9038;0x557af709eb569;0x3ed61f547ef7e;0x81d0cb1b106d7;0xd2af227d414bb;0x561473fb84c];[0x0;0xd6fbb11bd0498;0x97024b0cd1080;0xf07ebe9e2719e;0x47ec258e72e1e;0x6725d811e9038;0x557af709eb569;0x3ed61f547ef7e;0x81d0cb1b106d7;0xd2af227d414bb;0x561473fb84c];[0x0;0x61458b8dc49cc;0x9fa0b75f5bf21;0xb8707526ec740;0xa219f08c183cb;0xdef885551cee5;0xd9813e3272ab2;0xf638dc74090c;0xffa55b03b23b9;0x200fe79debc70;0x51762ba1cba];[0x0;0x50b42bc17491e;0x570c1c25c460f;0x13600b2c2df7a;0xd8b00c09931aa;0xf9fa3e04caaf5;0x738eeddb8f1f;0x50d3083544bd2;0xd07983666faa0;0xac846b2b19a1e;0x5af5c33dcd0];[0x0;0xca4595091f107;0x27eadbb04f1b2;0x909fad7a9f98b;0x5aa397f847fa2;0x5c88ff13301b7;0xa0ae9ded1df47;0x9622796192176;0x3907d4d86b93d;0x15324e40c9c15;0x5be5d0c1019];[0x0;0xd2bc697f965b9;0xcfa51589bb026;0x5187672cb75a8;0x4783705c19db6;0xdc6bfdf65ae7e;0x982effff80273;0xe948e16954926;0x94a9407566e69;0x68e3f3f59b58a;0xe7998a0f9912a];[0x0;0x85708dc61d3d1;0xec5db36539632;0x881b6e6786fbe;0x14c18de07d202;0xfa0ee405332f;0xc271e401aad09;0xdd1f9d9664355;0x3ba344726afab;0xef1ea2cb7670c;0xc07515e10b2]]);
 ((V [0x717a815d04f35;0x567f81a7f0a87;0xc7755f33d5366;0xa2f00fef902d5;0x8d40da06727c0;0x6fbde6c30bf38;0x4026f4e84444a;0x5611c7a1d68a7;0x783f9066091e2;0x32b102c6772] [0x7efd1ffe54a73;0x840db5e8750a7;0x13bcbc38cd8a6;0x6313364bca8e;0xfec55b8fddec1;0x3541fb73facf3;0x4a9ceb1323b4a;0xa2a5989920a84;0xa796ad0172181;0x87accb109b1] [0xae2c297368123;0x43ef8db0c4562;0x2854546906f9e;0x4b4fbcb57e85c;0xb05acd2619952;0xf322d0d07f4d1;0x5120c055a4f33;0x528fbe8a9a431;0x6a7e9888daa65;0x566bb4e8a87]),[[0x592cd9dabf558;0x23efcc1cc4220;0x7b3333c016163;0x638a295d35225;0x58e1a47843849;0x479f1df4394bf;0x697e712bc1257;0x97ae31ce459f4;0x8d4af5d3e7851;0x68616a732eb];[0x6933a3b22cdd4;0x2fb9f4887891e;0x73c9910800987;0x2746cf7157aa;0x52afe83b588a7;0x9ea6e5fc811f3;0x77aeafec4c3c4;0x7b2c13e712fb4;0xb20ffeb648bfd;0xd9d8dc3550c];[0xaeb8fb59e87ec;0x2124d7b95100a;0x6a07787a0d6e1;0xb19a38f7b0fc1;0xcf8d3f00bdebf;0xf241f11ffd300;0x3bed4ca69a7da;0x7477cbc5eeb88;0x2b51fff833353;0x3e90760fe9b];[0xaeb8fb59e87ec;0x2124d7b95100a;0x6a07787a0d6e1;0xb19a38f7b0fc1;0xcf8d3f00bdebf;0xf241f11ffd300;0x3bed4ca69a7da;0x7477cbc5eeb88;0x2b51fff833353;0x3e90760fe9b];[0xe6e9157432c46;0xbb6a4ff9f4bec;0xa7bdb94463af2;0x2d09e321e06c0;0x3ee0ee91a3d2e;0x33d92173c9ef;0x218fd94659207;0x5cc244afc4258;0xaa8a6558c6e6;0x54a0a6e0cbb];[0x824a8e3dfa18f;0x744fa48e83d31;0xcc0bd7c39ce94;0xd56a89d5350e9;0x13cef9a9b4b78;0x9b6953e544804;0x561ed6a5f31bd;0x1e69cf374ed5c;0xa7675860bc517;0x85383554851];[0x0;0x23c52ccb8bc58;0x8ac3afb06b4e4;0x2159ce729fecf;0x20d79a4d51f66;0xdcd4c5ca16d8f;0x211b7014c732a;0xafbcec8d4bf53;0xd8eb683823850;0x702258556a592;0x26b08e4ef36];[0x0;0xf53dfca66e54;0x60855bfffc562;0xc685caf40ec6f;0x993930a6b9b59;0x2f36c34e997fe;0x9eddcd62fd87d;0xb5d82db41a3c0;0x2b11108aa4cf5;0xae73bcff1716b;0x19827eb72a2];[0x0;0x85708dc61d3d1;0xec5db36539632;0x881b6e6786fbe;0x14c18de07d202;0xfa0ee405332f;0xc271e401aad09;0xdd1f9d9664355;0x3ba344726afab;0xef1ea2cb7670c;0xc07515e10b2];[0x0;0x85708dc61d3d1;0xec5db36539632;0x881b6e6786fbe;0x14c18de07d202;0xfa0ee405332f;0xc271e401aad09;0xdd1f9d9664355;0x3ba344726afab;0xef1ea2cb7670c;0xc07515e10b2];[0x0;0x7910462396d35;0x19ffe215ed9bc;0x69101960e63f7;0x4e110edadb8c7;0xf2f64939c190f;0x4110ddb205290;0x13965b2af8b5c;0x7e534af079719;0x60b6f5d60f8ef;0xd098d070336];[0x0;0xf51473d2fc2e;0xfb5175da964bb;0xe566bf977ad92;0xe6aca4562f7bb;0x710b948e82ed;0x71d8a81d7d17a;0x21cf462a20e6b;0x68e98c3324cd6;0x13627a3981c06;0xb1910972d2f];[0x0;0xf3a2955cf29b7;0x1fd0448c91365;0x65ae80408ff00;0xe8370818b7c32;0x26d319ae06a6f;0xe070f1549621e;0x1f78fd157dade;0xed59522da556e;0xcb37617015fbf;0x2b22fc4f3f7];[0x0;0x68bc34ea1aef2;0x866c109258681;0x2c1ea8d2fe3e8;0x133cad8a500c8;0xc1fa24966d1e6;0xf5afced9f5169;0x3c2f2475e4ad4;0xf8f6be94b0819;0xd9e469bfe0151;0x87c103750a8bf];[0x0;0x1ed5621b65cf4;0xd8deef51b5d25;0xf87f934282a1d;0xd7e1372896aa5;0x455ec131b8051;0x73bd0056da043;0xe7afdf02c6bf3;0x8878dd1638073;0x7dcbc08e84fa4;0x1add8f9a2d2]]);
 ((V [0xb73d5d07fa0a9;0x1d16377e2e988;0xd25ddce5fa6d5;0x8b1c71a5f056d;0x2300bb2b3fb32;0xeb1d097cc4860;0xdd7f7cb0fddeb;0x73f79e8c243bc;0x1fb59950ac255;0x82119a9d7b2] [0x37d1a1dfae71f;0xf27d0f16cf676;0x910dd3d4102b1;0x2d74ea7bcd53;0x7741842d3fa2f;0x743d953155edd;0xae35cdd46b514;0x61a0787003d14;0x9b3b7a45021d3;0x5db54f845d4] [0x458c9d183aed1;0xe4ad1231e4029;0x7d433f7e4eb96;0x24cb81ae62ff2;0xfb753837c7e7a;0x5fa423cbe4fa7;0xaccd139eaf189;0x7c2a9455641c3;0xbabde3d294823;0x870480ea2a9]),[[0xe7553d7c2acd8;0xfee3ff77b986a;0x1fce70d9ffbd5;0xfb4e1526ddc1a;0x30bb4c2932e8e;0x2e6c814984845;0x62a0b1014c8af;0xb2d51164bcf9;0xdf7a2524da211;0x891f9c75880];[0xa0bd72c44d730;0x180e90ade6e69;0xb1934063aee9f;0x56ab6e4cb8d17;0x661004ba073cb;0x1dff26b7c1a2b;0x183a08db5adb1;0xb27b0bbfb83cc;0x4198d4ba32440;0xe296999ba91];[0xae2c297368123;0x43ef8db0c4562;0x2854546906f9e;0x4b4fbcb57e85c;0xb05acd2619952;0xf322d0d07f4d1;0x5120c055a4f33;0x528fbe8a9a431;0x6a7e9888daa65;0x566bb4e8a87];[0xae2c297368123;0x43ef8db0c4562;0x2854546906f9e;0x4b4fbcb57e85c;0xb05acd2619952;0xf322d0d07f4d1;0x5120c055a4f33;0x528fbe8a9a431;0x6a7e9888daa65;0x566bb4e8a87];[0xb48e0a0d542a8;0x7c841043ac65c;0x3d65f33e5be33;0x3a7f62864c177;0x4c72bf48ffa2c;0x2d32e61c6b55b;0x5e0faf14c0fb8;0xb3fd0016cf59e;0xe3098d02bba5f;0x23d94ba527a];[0xec2f68b6f9489;0x9b8a806a3a80c;0x742d4d255306b;0x1c2c0bc66cba0;0x199d45710799f;0xf0cc409b564d0;0xba2a59c699df8;0xfe7e0ba8e8e2d;0x5e8f47b7769e0;0xbebd4df6816];[0x0;0xe54043fbaca28;0xef9fa43b06123;0x73e88949c3c96;0x856270e44fed8;0x523a04071cf0c;0x9150be26fe1f8;0x5a0c6f76b5df1;0xa7ba1fde31d5e;0x57aca73aa6ee4;0x35714478cfe];[0x0;0x5a6cd96972ae8;0x418a29c7bd161;0x56e3d8a6022c9;0xcda3fa4a235a8;0xa9d7cdbecb1a;0x83873c0fe7ab9;0x85093337cfaea;0x1fe129db238c2;0x94a641cb5a857;0x2e4a4facb9b];[0x0;0x1ed5621b65cf4;0xd8deef51b5d25;0xf87f934282a1d;0xd7e1372896aa5;0x455ec131b8051;0x73bd0056da043;0xe7afdf02c6bf3;0x8878dd1638073;0x7dcbc08e84fa4;0x1add8f9a2d2];[0x0;0x1ed5621b65cf4;0xd8deef51b5d25;0xf87f934282a1d;0xd7e1372896aa5;0x455ec131b8051;0x73bd0056da043;0xe7afdf02c6bf3;0x8878dd1638073;0x7dcbc08e84fa4;0x1add8f9a2d2];[0x0;0x3e1967589def7;0xdfca61a5329d9;0x4f8bab36affff;0xfe9345fffc5fd;0x4874998bd600f;0xf0b5e4b6fff10;0xb87a81f086cd6;0xad096a2a262eb;0x9aeb18cd7a98e;0x47e7b2cd02f];[0x0;0xd501c17b3010;0x8fb3e424a34bb;0x5a6d5595393e0;0x8c31465ca83b0;0x3644880e38679;0x3a7a75eb74c4f;0x120a969b47b2b;0x8219b1d7cc84f;0x3e7eaeb7e56a0;0xa099f7a5d0];[0x0;0x2db574d194655;0x72313a4c422aa;0xa4a172427725d;0x3dd04f0300db1;0x8557fbadcaa84;0x3f85f2008090e;0xb44690e122088;0xd1ee22065b219;0x2b72cc5ad3073;0x73200edb3af];[0x0;0x18e32d482196e;0x66d5a210116bf;0x6dbcb965bf55d;0x49d66f889c56a;0xcc076f3c03c42;0x555d8153aa7b0;0xbd52b4bc0fdd5;0xc2e7fa7eb834f;0x2639bfa82de93;0x5dc013a337dde];[0x0;0x8ef1e7c574e2a;0x47cdd6d57e7b2;0x298416f735fb8;0x49b8f7ee2e917;0xc619d15b8c7d2;0x2b1f3e821d6c4;0xf1d83a0addd34;0x7bee6e8704010;0x3910925629ecc;0x2f9c8404364]]);
 ((V [0x17ba5d706cc9f;0x82f886481c121;0x7566e88fb4e5;0xc63c86acb060d;0x9f7ace05ebbb1;0x260c1b505024e;0x6a6f462ccd769;0xc455d48e0c8;0x6b25b8d3076b4;0x9a48e98c86e] [0xcd7d72f39835c;0x6283538abebe2;0x70f9133b76bf1;0x723a2c91e6c79;0x96a0e2795a845;0x32ecbf9fc1241;0x8b43720f336f1;0xb62caffcd0a79;0xff598712163fe;0x5376f392443] [0x98f64bfcf200c;0xf0f4849b739ee;0x28f65a7dd7f9a;0xa30aaed2f6a1b;0xadbfc34c4c179;0x924a95121d294;0x4876dc7f41a8f;0xbc56830c8c82d;0x1c57ef7591990;0x3d4558db111]),[[0x92ee1bb757a8d;0x5246661d7177d;0x897be8392916a;0x930fbc639f115;0xa63dd211c8b45;0xc3b63b37982d6;0xb99cc17a8900b;0x94a17579ab5f3;0x8ea4b72de59d0;0xe035d14fb3d];[0x1189862992e47;0x72a48854501e7;0xe10d519ab95b;0x5849e9d18134d;0x90d04c9b9924a;0xb2885c4b1e577;0xe21ffcd11b6c5;0x97311939c18c4;0xd9b945b973b4d;0x1f74217d1da];[0x458c9d183aed1;0xe4ad1231e4029;0x7d433f7e4eb96;0x24cb81ae62ff2;0xfb753837c7e7a;0x5fa423cbe4fa7;0xaccd139eaf189;0x7c2a9455641c3;0xbabde3d294823;0x870480ea2a9];[0x458c9d183aed1;0xe4ad1231e4029;0x7d433f7e4eb96;0x24cb81ae62ff2;0xfb753837c7e7a;0x5fa423cbe4fa7;0xaccd139eaf189;0x7c2a9455641c3;0xbabde3d294823;0x870480ea2a9];[0x2ae869144838f;0xf7539ca0b0cb7;0x4d3ff9d8d1d1a;0x222b6d7396a8f;0xd0ddb9ba9a353;0x986e916a445bc;0xa5fad60a52b9c;0x19f2fe43f7b3b;0x9d0e90477b094;0xa2cd82990c2];[0xe6a11d154a880;0x7b50ebb39f52f;0xc0d0db40d9c40;0x361e7c5dea8bd;0xbff292e0feef7;0x1a19cae0d9fba;0x3c2526c6c8b29;0x7d3e1af5c9d89;0x3caab571f8ab9;0x7ca69ee4118];[0x0;0xaa0f45d8b1225;0xa2d5d14ba8f95;0x7521e5f7beda6;0xa7b9a8fa48dc1;0x489f98eadb4fe;0xfa96b5f96e1bc;0x9457bb43fc20d;0xd0a821ce4daac;0x4080c4b915160;0x537ea34ac8a];[0x0;0x799cf6aee1c7a;0x5ea2e8e46b627;0xbeeb139a7052d;0xeb941012d4cff;0xac67382f1d64b;0xb2988a303ec05;0x54d28a4ab0f7a;0x6384572343d55;0x8b2bb1fd24ef;0x764053204c4];[0x0;0x8ef1e7c574e2a;0x47cdd6d57e7b2;0x298416f735fb8;0x49b8f7ee2e917;0xc619d15b8c7d2;0x2b1f3e821d6c4;0xf1d83a0addd34;0x7bee6e8704010;0x3910925629ecc;0x2f9c8404364];[0x0;0x8ef1e7c574e2a;0x47cdd6d57e7b2;0x298416f735fb8;0x49b8f7ee2e917;0xc619d15b8c7d2;0x2b1f3e821d6c4;0xf1d83a0addd34;0x7bee6e8704010;0x3910925629ecc;0x2f9c8404364];[0x0;0xe381593b7243e;0x5f9e868a8ad53;0xb89ae08be516;0x1996097985623;0xbe201452c6d80;0x8bc3386f086bb;0xc6a3f3383a02b;0xbba23e74abcdc;0x66ccf61fbe079;0x224d3c2fb5a];[0x0;0xc019d1552b467;0xdec4f5b1a40a4;0x53727326e8883;0x65094901e23c2;0xdc8fb4763934a;0xa6c2a6fbb4d87;0x2c0c924003d6;0x333b9d5fd4aeb;0xab6cf82947809;0x4215e23dd75];[0x0;0x73a4f6847ae3a;0xeb4c15df82472;0x4a34b72cb0a3c;0x6c6207ffe8da0;0x24fdc2fd74f69;0x3fdadd39e3ccf;0x6ba522b3bd98b;0x9e908ab5e6e7f;0xb1aa1d1393307;0x12f4d180a59];[0x0;0xae6bada70f24a;0x1f4505b25e91f;0xba1a856577af2;0xe04f455a546de;0x4658436381d79;0x75a473f3ab1d0;0x7cb7abdb4500d;0x64f06774afb56;0x30565b22d2d71;0x53c02941864f8];[0x0;0x9d0a5a213e928;0xd9dfdc2104c64;0x85195314ec6a9;0x24ae727fdf973;0xb99f711e5cece;0x6eaf1f3996f20;0x4a64b0142c690;0x8859c3593c94b;0xa7a5a443f5b80;0x324d541f92e]]);
 ((V [0xcfcd31417e2bc;0x66009f3317d3e;0x11464e2289fdd;0x79efbb0bff5c5;0xc4b0654563e14;0x1fd7388c75887;0xdc02bb6d944f4;0x6e4fac1563ead;0xf98b9578f5829;0xfe1de242dd5] [0x8e7343146dadd;0x7ea68a0d3ac49;0x9e2cace424d37;0xa16362802d4e6;0xec0c07cf868f6;0x5a8ac4a985bef;0x95b9d8387e121;0x26ff55338ea19;0x2243a46b5cb20;0x314373ed49c] [0xe2e1edbe3a550;0x2a3c69a081689;0x4168cffaa26d3;0xa99e0cef5e9fb;0x29d5c3c1a2b86;0xc0823cdcf04ef;0x5c53ad7f1bcc;0x5a2494971e37;0x9d70f34f52828;0x8393955925a]),[[0x269ed7c4cb4d0;0xe017b40379ee8;0x3fbb8bd71a96d;0x8d14000b880fc;0x210d1e3e3fa2e;0x3b14f48f0c46;0x9188110eb7088;0xbe0b8a4b07636;0xc87f986dd7ae8;0x5a1f91d59f9];[0xfc6fa7b9af62b;0x8e32656208d21;0x645e0536b850b;0x2ef71dea3b5aa;0xc12c24beb0bf;0x40f725f21aef6;0x338c97314a7d8;0x827c64a54d136;0x843cfee6b9176;0xed1db80b789];[0x98f64bfcf200c;0xf0f4849b739ee;0x28f65a7dd7f9a;0xa30aaed2f6a1b;0xadbfc34c4c179;0x924a95121d294;0x4876dc7f41a8f;0xbc56830c8c82d;0x1c57ef7591990;0x3d4558db111];[0x98f64bfcf200c;0xf0f4849b739ee;0x28f65a7dd7f9a;0xa30aaed2f6a1b;0xadbfc34c4c179;0x924a95121d294;0x4876dc7f41a8f;0xbc56830c8c82d;0x1c57ef7591990;0x3d4558db111];[0x9e2e390d3b0ad;0x47b5af743d08;0xd7c354bbf8057;0x14e3c5f8b1118;0xd6ab2079d8c87;0x98c95f3b38567;0xed8fb40f37dcd;0xea895b67f7eda;0x8f6caaf57fee3;0xfff877eaf58];[0x5e416eac74346;0x89b70a6ac5019;0x8c9ab07ac04b4;0x1a1357f18a491;0x3567a1d212438;0xa82dc6b6e298e;0x45fce32212a0a;0x97f3093d5525b;0xf4d053f139292;0xed254020830];[0x0;0x29c52d09f9d90;0xe0a64474aea12;0x6087ad175421d;0xb37b222c53f19;0x4c6eadafde7f4;0xaa7d439fbbe5c;0x7a3df437ec8cd;0x58b7800641238;0x2bb7b9c0d885e;0x25e3cba153b];[0x0;0xac22b403123c3;0x1bf8d193a34e5;0xcca31cf58773a;0xc7e1cd52343b4;0x5fb3d2eebf745;0xc4ebf80e86860;0xd293b956ebaac;0x8e82c829aad03;0x1dc8351aa35e1;0x1591ef8a2ec];[0x0;0x9d0a5a213e928;0xd9dfdc2104c64;0x85195314ec6a9;0x24ae727fdf973;0xb99f711e5cece;0x6eaf1f3996f20;0x4a64b0142c690;0x8859c3593c94b;0xa7a5a443f5b80;0x324d541f92e];[0x0;0x9d0a5a213e928;0xd9dfdc2104c64;0x85195314ec6a9;0x24ae727fdf973;0xb99f711e5cece;0x6eaf1f3996f20;0x4a64b0142c690;0x8859c3593c94b;0xa7a5a443f5b80;0x324d541f92e];[0x0;0x4f4ff310d4085;0xb6c9e299e3177;0x5af9fc74b6680;0x978097343bd1f;0x447916383014d;0x7819184fff723;0x54a63b286b9df;0x8f9b168fc89fe;0x7655a994984b9;0x1b3659364ad];[0x0;0x3d61e4183b8ad;0x5808d1aa7b637;0x7b22573d38b46;0x9751dbe6efb03;0xaee805d3d4d1a;0x3d8f3e7b29cb;0xfb81bb77b0f14;0xcbd604690d15c;0xa8b0e3d71c7d4;0x5cfbcdc1466];[0x0;0xf4422c706fe08;0xabd09ce07b962;0x58abdc072ff40;0xe1d59fe57558e;0xf5d74c71ab3d5;0x10781c958920b;0x1123fa798f346;0x2ea390d05b7b;0x283520473aa58;0xeb5f2a8b662];[0x0;0x67112d3c333cd;0xaa68763d78f17;0xc8b9d8965bed0;0xe6783facd9c99;0xd7f356cbb31e8;0xea02439c81529;0x551b0563d0ce8;0x52f3cde01684f;0xed4527ed51deb;0x31471636d58c4];[0x0;0xfef16cc588924;0x31c7cd38ac453;0xeeadc319162b5;0xf4f0384e3d669;0x9ec810ff18082;0x896664fa04f67;0x43f795d63d95f;0x837f18f334ad4;0x4f9b9e9f35036;0x30e6ad33fb6]]);
 ((V [0xccb8a0baddbd;0x4f6ce81f3deaf;0xc4c49b6ebd8c8;0x3e065966f87e7;0xd66fd9b0e529c;0x8fb9ad78e576e;0x472320dd9798c;0x457b3ae04bb1a;0xb959d30b224c2;0xd7a56267f49] [0x3b95ac959b06c;0x5251b0fb3d3b;0xe128f1429edf4;0xfe326184235d6;0x8960d6ee5c0f;0xce5c30b3c2717;0x804b15f96b5f9;0xa1b02cd8b0cc2;0x89767c500b159;0x46bcf686dae] [0x9a9b30530bdd5;0x73c54fd834870;0x920eafbfec6bb;0xabdba486ef5a4;0x25edf5ee8548b;0xbe3227d65cb13;0xdb5ca3d23011a;0x8a8671ae8ebb8;0x2cd8bffbb0103;0xaeb14e74f3e]),[[0x9322283460b8c;0xa9408c4418e5e;0xc3ad942db5c27;0xcc77fb91beea1;0xc37ebdf922a37;0x4a776e8bf8726;0x921205e052daf;0xb436a57e95200;0xf570e29fa646c;0xa0a55b5eeed];[0x3e5e026845557;0x50e5ae2462083;0x15a07c31415a9;0x885c868b420bf;0xa3fd255a1cc42;0xaf149bfbd519d;0x426113c77c20c;0x9535ae7b2fb13;0x14ed6619b7e9e;0x4715ff02523];[0xe2e1edbe3a550;0x2a3c69a081689;0x4168cffaa26d3;0xa99e0cef5e9fb;0x29d5c3c1a2b86;0xc0823cdcf04ef;0x5c53ad7f1bcc;0x5a2494971e37;0x9d70f34f52828;0x8393955925a];[0xe2e1edbe3a550;0x2a3c69a081689;0x4168cffaa26d3;0xa99e0cef5e9fb;0x29d5c3c1a2b86;0xc0823cdcf04ef;0x5c53ad7f1bcc;0x5a2494971e37;0x9d70f34f52828;0x8393955925a];[0xf3b2c94c7d25;0xfbef20a5287ba;0x44473d0e055d1;0xdc952d683bb44;0xc4237f48aa5d7;0xab660468e3923;0x41e1ced04b56e;0xc89ed8fbad0c4;0xaec3f33e5d504;0x2abc7f8a520];[0x2f22d5d37d833;0x54f68d7f398c9;0xd1593f233bfd7;0xabc759230657a;0xdfd9a6117266a;0x3ae9792f1879;0x7f44f730c9e;0xcc96d57f82a4f;0x662972db5a999;0x1c597f78002];[0x0;0x74805d790f6ec;0xbe81a58abc136;0x6ae6e4895e586;0xe25a4bdfa285d;0x7a5d22095fc48;0x7187135d5b55e;0x2c89a33ff0619;0x9e75f8c2a8cbf;0xc9d035e14df98;0x515de0ccae7];[0x0;0xd526711893e4f;0x581ab41902175;0x7a3ca1f907278;0x9607378a9c22;0x8f1cd40e70ede;0x32708dac7d76c;0xe12ee9f0cd2a0;0x62c7ada459227;0xcf326bac83abc;0x52913a6d3b0];[0x0;0xfef16cc588924;0x31c7cd38ac453;0xeeadc319162b5;0xf4f0384e3d669;0x9ec810ff18082;0x896664fa04f67;0x43f795d63d95f;0x837f18f334ad4;0x4f9b9e9f35036;0x30e6ad33fb6];[0x0;0xfef16cc588924;0x31c7cd38ac453;0xeeadc319162b5;0xf4f0384e3d669;0x9ec810ff18082;0x896664fa04f67;0x43f795d63d95f;0x837f18f334ad4;0x4f9b9e9f35036;0x30e6ad33fb6];[0x0;0x231f0f0257d3c;0x8d5c7a8106d39;0x284b5c1e5f98e;0x200c657494dd2;0x6011ca69ac5a7;0x12e76ac8ec56e;0x433165b4b6947;0xca26f5d62e85;0xff9b358d6563d;0x97ae426b8e];[0x0;0x230492999b33b;0x675f6f4f44dbc;0xa609f65ed3dfa;0x947dccef283b8;0x9fd485f5a8af3;0x2c4b58fbc748;0xe00406e121b36;0x23b4cc6dd70ff;0x9fb0c121e78f9;0xfc3f5079ba6];[0x0;0xa1d3ca1fbb5e8;0x8214f12cbfcff;0xb26f73a210d74;0x440430d091d2c;0xb9e5d811a14a;0x696f3a3d5dc6d;0x1f491bbd0b10b;0x8c5d743653428;0xb0b4ede5962c1;0x3be165ab98e];[0x0;0x5075517454275;0x493fce173709c;0x14c3f2fd82485;0x25bf9d58cfc70;0x408d4d30d8079;0x58ab225a10639;0x3fb848283e4c0;0x6ab01a30d5206;0x92013fbf00170;0x46f00f010b45f];[0x0;0xa248bd4ecbee1;0x97b8d2a143b33;0x93f99d55c45e2;0xd3a710d2e4021;0xc7f887f029ee9;0x76767341d3b43;0xc18707872f417;0x44f99e8755c62;0x257da1100c394;0x3b96660736c]]);
 ((V [0xb2fb7d0caa14;0x50fcb7f326082;0xbf8970677c1bf;0x9d6ae9c3c105b;0xf93e41964e076;0xdd92827b9c4f9;0x9ad8f4553cb54;0xa06e9e5e7277c;0x602be2a66497a;0x2289de2f075] [0x3dd3967a80018;0x1e668f3824282;0xf17814a085791;0x5827a90471197;0x404213adad40c;0x40c429191ba92;0xccf3c441cc929;0xd8109fe78d478;0xda1835be00;0xe65b37b37b2] [0x18a77ca8edb7f;0xdce5e057e4523;0x3fb1d5d8f4f55;0x1ce63d171fd00;0xa1f6eeea16a0c;0xeac4d0ccd582;0xceec9cd6d847a;0x3cc40624b1f04;0x51fcda6905a6f;0xad2f8368365]),[[0xa2827eb64621b;0x757a61bbfaee;0x5f0ffed315a94;0x91bc0c3c68f56;0x46a7788512ce6;0x23035eb75b1f9;0x1e9a10edfe49e;0x2b094e86fe47b;0xa6b273479ddaf;0x934306b3d2e];[0xc526e4af6d498;0x9a54718e2452;0xb34e692ea9e8b;0xf3bc4010af8fe;0x10a3ce96be897;0x2f0dd67dd1ad6;0x7f163fdfacca7;0x8bc1ab0106f0b;0xd2352395714b3;0x2eaad8d1cd3];[0x9a9b30530bdd5;0x73c54fd834870;0x920eafbfec6bb;0xabdba486ef5a4;0x25edf5ee8548b;0xbe3227d65cb13;0xdb5ca3d23011a;0x8a8671ae8ebb8;0x2cd8bffbb0103;0xaeb14e74f3e];[0x9a9b30530bdd5;0x73c54fd834870;0x920eafbfec6bb;0xabdba486ef5a4;0x25edf5ee8548b;0xbe3227d65cb13;0xdb5ca3d23011a;0x8a8671ae8ebb8;0x2cd8bffbb0103;0xaeb14e74f3e];[0x17e2357f064a9;0x8d017b3330b09;0x64a686c3246d8;0xa56c960d03852;0xa4b1bae03fdb4;0x728043ec84452;0x8b2ae3227fb3c;0xca6e9b6b173ae;0x1dab15f4ac270;0xa66556a5440];[0xad44af3066db7;0x7ca3cbe5b1949;0x4ea7e26b857b2;0x4e4faa03ac0ac;0x6bf213b67eae3;0xbc8d92914d683;0xf3eb5cbd2d16a;0xc1530f95efb5c;0xb48a0da0c5242;0x8845822c893];[0x0;0x67542fbcaee3;0xccc8f054553c9;0xf9df8681f883f;0x98491bdc678ac;0xa3cd33d6da585;0x3e68ba6affc32;0x6ef2854def916;0xbf8e24fcdd635;0x900ee948b05d4;0x6c0796f9581];[0x0;0xff4b77b023a29;0x5cd14f9d5dd04;0x1c28f4f60ca69;0xbc03ea1c0e9df;0x447794ff4ed8b;0x42b80221c3d81;0xdf4d87ec334d8;0x9b954d9b99029;0x5136d8b774d1a;0x647d8d078e6];[0x0;0xa248bd4ecbee1;0x97b8d2a143b33;0x93f99d55c45e2;0xd3a710d2e4021;0xc7f887f029ee9;0x76767341d3b43;0xc18707872f417;0x44f99e8755c62;0x257da1100c394;0x3b96660736c];[0x0;0xa248bd4ecbee1;0x97b8d2a143b33;0x93f99d55c45e2;0xd3a710d2e4021;0xc7f887f029ee9;0x76767341d3b43;0xc18707872f417;0x44f99e8755c62;0x257da1100c394;0x3b96660736c];[0x0;0xc01866833dbe1;0x98956a6a3567f;0x603215e7976c9;0x41f033e1086d9;0xc0c7d0811d3e9;0x6d657373812bf;0x7e37ec5c7bad8;0x92c993a142c85;0x2c2c09d09e70;0x138be24cc33];[0x0;0xf675d9866b99e;0x8b831d438f19;0x77e07bf9673cf;0x76fcdaa7e1013;0xaaa0d8343c08f;0xee2b3d2cb6fa8;0x63b353195db;0x6f3dc843e0c4a;0x2675ac1e3b0e9;0xb5a736229cb];[0x0;0x3a9f7ba157b66;0xd5298ed31be50;0x403bc72e3816c;0xa45b8e3a1baf7;0x27fafa50b5bfe;0xdc7744346f48e;0xff5c0cb700e4b;0xc42f6b431d77c;0x30cbb18c9e507;0x64bd2baa04];[0x0;0xa7c3d986dd01;0x863f0bc5a7d2c;0xa4e73c8f66798;0x655bf055cbb7e;0x92e6a0be7a8c2;0xb1078e37c0cd3;0xd556452176a95;0x3b17997ed1d91;0xb5f00922248e0;0xe71794cb7f9da];[0x0;0xe35bff9e26a97;0xc744076fe8825;0xb9c2abaaa2988;0xd462a0944f668;0xe87077438e3bf;0xcc278b32d684e;0xe935ba4aa7cee;0xb7e5f902f845e;0xde6993a7e5d93;0x1f142c24110]]);
 ((V [0xcc858872fec3a;0x6ee28d59f20bd;0x2991461227ecd;0x80147c73913e3;0xddc22af93eba8;0xbcd37cba8180e;0x8db4014ac8157;0x46702e2bbc12f;0xb324f6c24db1a;0x56d351b29aa] [0xeb1bda73723ce;0x53dc3b566d686;0x6a198e39c4323;0x7b8ef1fffe0a5;0x613d29d5ba2c0;0x7221f977ed4da;0xe641907e97694;0x39d333812e543;0x65d0b60344bd3;0x3a166685f07] [0x67fd57258c8b9;0x7237659598052;0x93de544e01a5f;0x4c32260ab1f00;0x768e0feab1e48;0x1a169ca7ee7ef;0xa2b2ddf170797;0x195782bd700dc;0xcc4473e9b7855;0xdf3fe5ce95e]),[[0x3f1cea6845c55;0x95b5eb15c27ff;0x800a9d4b06975;0x3cc3a68e935a0;0x906bc5b7c1745;0x37037fe5630f8;0xfeeef67427a9f;0x31da730768dca;0xcede6c052d3fa;0xfc4f3b4887e];[0xf3ef98ba8856e;0x73f9ba90b79ed;0xce0d6a4ff84b1;0xbd447dacf44f9;0x65785c83326e7;0xe4948a099c40c;0x8e6ea171b9dee;0xa447a1f64e608;0x83548cdd77ed0;0x11727a9ab66];[0x18a77ca8edb7f;0xdce5e057e4523;0x3fb1d5d8f4f55;0x1ce63d171fd00;0xa1f6eeea16a0c;0xeac4d0ccd582;0xceec9cd6d847a;0x3cc40624b1f04;0x51fcda6905a6f;0xad2f8368365];[0x18a77ca8edb7f;0xdce5e057e4523;0x3fb1d5d8f4f55;0x1ce63d171fd00;0xa1f6eeea16a0c;0xeac4d0ccd582;0xceec9cd6d847a;0x3cc40624b1f04;0x51fcda6905a6f;0xad2f8368365];[0xe90ec499f12e4;0x12aad62e41dc7;0x65014aa4df57f;0x1183a5e9b8d5b;0x3c3419d0c6aa8;0xb2f7686e9f665;0x90bba716e7e81;0xd92b08c990dd6;0x80a6994527c91;0x7d4c43da32a];[0xae0d42097052;0x614ee46275c26;0x690c1fab18f32;0xabc0d7c33b79e;0x294442b26bc3f;0x319d219afcda7;0xfdb2fa5ad1f6d;0xcb1c992cbd831;0x2adf3985023e;0x942636c083c];[0x0;0x53e4ef42a82cd;0x189493e8198f9;0x886504a55c3ed;0x5c840f256d7ba;0xf8bd8fc454930;0x1a4d394add38f;0x2cfd62fddc28d;0x15c68a7a0a122;0xc2625bba52b40;0x6b19040cd86];[0x0;0x99a4d08bce65b;0x54befdea48889;0x1801c2124d1a3;0x5ad7a8dd72af;0xcb820ba36b622;0x82a746adbfd51;0x19be60a825487;0x947dc3a973960;0xee07256de0625;0xaab05f1f273];[0x0;0xe35bff9e26a97;0xc744076fe8825;0xb9c2abaaa2988;0xd462a0944f668;0xe87077438e3bf;0xcc278b32d684e;0xe935ba4aa7cee;0xb7e5f902f845e;0xde6993a7e5d93;0x1f142c24110];[0x0;0xe35bff9e26a97;0xc744076fe8825;0xb9c2abaaa2988;0xd462a0944f668;0xe87077438e3bf;0xcc278b32d684e;0xe935ba4aa7cee;0xb7e5f902f845e;0xde6993a7e5d93;0x1f142c24110];[0x0;0xe4e7ed5a445c4;0x79f0f9e9cbacb;0x5115baad476e5;0xf182ffc4a62f5;0x1f47554d9f190;0x6c69da747c4bb;0x48fa60770ff72;0x556df8fc9a17d;0x5a705a8e473d5;0xcf48089726f];[0x0;0xa7df7f4016cd2;0x395e539bc002a;0xda626ec95dde6;0xc5d91e832cc89;0x51545301b843f;0x7b07a3b62791d;0x77c0f6e2684e7;0x6efa5c67fdf2d;0xe4c2651593168;0x4a8e9440d1];[0x0;0xdb610bb698698;0x7adf8c1535284;0xb9e64bc98968a;0xf8a986bd2f2c1;0x7e62e17afacf1;0x51466a13eed65;0x4a043f45044f7;0x3028d10c54bce;0xa15baea3086c1;0x5eadc1c6bb];[0x0;0x2ec3d0be57255;0x251a64c20e97b;0xf276992cf7441;0x74fe41f802488;0xbd14030d85880;0xc76d2c441cb59;0xaf10b0f4b57f1;0xb6fa4e969a824;0xd64494ce72da9;0x3a4c8775dc127];[0x0;0x774b1ab33c075;0x3a860e667d123;0x378c5abee9890;0xa77e6ddd6e100;0x928ba45082c96;0x6ea2d0c66670e;0x278e7cf5d0cbf;0x424a24e87c05e;0x8f1149c079760;0x13b379711c4]]);
 ((V [0xe69657e5e73df;0xba3500891eeb1;0xbe1bfdcd7d438;0xc8b2eafc7601b;0x17f43e63da93e;0x1f5bcb7de3388;0x1d06c0caa3c3e;0xcad9333894d37;0x7981c7582b99c;0xd29b859f2fa] [0x22fc91bf3477;0x90319e8ff1f7f;0x426faa7059793;0x4724afcce9e7b;0x27c48a58c0c95;0xc538f3902d859;0x24ebe1df53623;0x5333c253fb299;0xae5e8e545d717;0xe81e28373e8] [0x692ea8a235dd7;0xcdbe52dd22f3;0xaa910e810c2ae;0xa6049eb515db9;0xa80e0bd575230;0xb17ad499010d2;0x8e35259a8e716;0x13acd8deffece;0x50e8fdfdfbc5b;0x82fc16ae00d]),[[0x27d97dc74900e;0xd03e4892ff16e;0xc3f4aed61a2cc;0x484b23dc65ac7;0xdbd660ac8b69d;0x2a346161e8354;0x319a11f8b3128;0xe1f9219761ba3;0x441d86ce913f6;0x5665029c7ad];[0xe72a67d04fe5c;0xab82d3d9692ca;0xcac734214dce;0xfe5f1b2ca1c87;0xa680752d955ad;0xfdbde25b96c5d;0xd2f012706363;0x534b6c194d166;0x4c56864a06a1f;0xbdb05c50a6c];[0x67fd57258c8b9;0x7237659598052;0x93de544e01a5f;0x4c32260ab1f00;0x768e0feab1e48;0x1a169ca7ee7ef;0xa2b2ddf170797;0x195782bd700dc;0xcc4473e9b7855;0xdf3fe5ce95e];[0x67fd57258c8b9;0x7237659598052;0x93de544e01a5f;0x4c32260ab1f00;0x768e0feab1e48;0x1a169ca7ee7ef;0xa2b2ddf170797;0x195782bd700dc;0xcc4473e9b7855;0xdf3fe5ce95e];[0xfa4c978854a07;0xb7aa81b7f54d0;0x39e37cef7703b;0x7c045b610d319;0x1c50d00e4ec8b;0xf69ea27ada610;0x34f764ac162d2;0x4700dd0c56992;0xa38bd7dcad3f1;0xb69725dd5da];[0xecddd047fb456;0xf3d8522173df9;0xd2c8f6529dd92;0x825abfcb9496d;0x8a2fa51f46922;0x71f3fe0bc64d;0xd8379c7af0091;0xc4a8f0cf67d3;0xa8caae6d5962e;0x7193673491];[0x0;0x22b938e35fb2e;0xbfb39f8261851;0x71eb270696f3b;0x8d7769faeb103;0x5baf2d2a31b14;0xb3ae625c75fd8;0x3e2f6a63f450d;0x37b0df0aacd58;0x2dc3f7b437b2d;0x8a0ea621ba0];[0x0;0x2a31e0f01fe2e;0xb212ef9243272;0x2774537730d86;0x43ca7fa5ece84;0x21001c1dd51e;0x43164a26dc83f;0xb1abcedb719ab;0xe501f2f88998f;0x7e5434db8a72a;0x4b578db006b];[0x0;0x774b1ab33c075;0x3a860e667d123;0x378c5abee9890;0xa77e6ddd6e100;0x928ba45082c96;0x6ea2d0c66670e;0x278e7cf5d0cbf;0x424a24e87c05e;0x8f1149c079760;0x13b379711c4];[0x0;0x774b1ab33c075;0x3a860e667d123;0x378c5abee9890;0xa77e6ddd6e100;0x928ba45082c96;0x6ea2d0c66670e;0x278e7cf5d0cbf;0x424a24e87c05e;0x8f1149c079760;0x13b379711c4];[0x0;0xbf3d21ebab65b;0x3a105936ac03d;0x17f2bb7f148de;0x144859d81124a;0xf74f3b518309d;0x4ea2a127a583f;0x6e2c6f6c51a7e;0x9df4c1fb20932;0x9f833348c1f03;0xd2e286a790];[0x0;0x652df194f48c2;0x6abbf2f4dfbbf;0xf21a5db81bb83;0x36bb2caf8ddfb;0xd647831253605;0x259aa59ea4b1a;0x5a132a86c5b65;0x58a4bcc9138a5;0x87e7e14efabdc;0x1d72a953c66];[0x0;0xe3ec07455e6e7;0xc241feb71613d;0xe39b1dd702003;0x3ead50da4c399;0x149a5b9ade61c;0x5d2f754aeebf1;0x740d9cfb64c1;0x2c076976159c6;0x12f83cbedba06;0x9c0de884a17];[0x0;0xc80f071ed064;0xabf4e5b6bffba;0x3bce4c756e26f;0xc3460bd742cec;0x4ef44e909bc01;0x90a3beca499f9;0x582678135e8bf;0xbe425ffb23733;0x2dfad3a692ba6;0xe85a483355633];[0x0;0xd3ec3ea56869e;0x82cfedac54bb8;0x7372513eff9f0;0x5ad4dff30676;0x5538413274169;0xb130e49aff180;0x99a3db226dda5;0xba38c352ed64f;0x5fb7a580bb67a;0xbef5c067ab9]]);
 ((V [0xdccca61586227;0xf075d5f678d27;0x24fc2574730f7;0x8e4a6c568448e;0xb02c5f090b46;0xc0989059c1639;0xe881f1ca0a5da;0xf6220d6db796a;0xd77f963a25ff3;0x81b80aefa67] [0xfd3427b70d3d9;0xeaccf4db085d;0x78ede724da5af;0x6915f234fed4a;0xe470cabb6946a;0x84e38571c8d4e;0xfeefd9a3a825e;0x2cbabecb22ec4;0xee27346b4259a;0xe2589969be4] [0x30ec6f40369af;0x3d4369b666dda;0x6f9803c8faf75;0x41d32909cfd24;0x426fe61511103;0x70b144838141e;0xdf605af9726e7;0xbac382396a99c;0x7ce1790b18664;0x878cdcbd008]),[[0x50f48c79bd2ec;0xdf956fcb25b20;0x840dd815f6ef1;0x2f8e82e8a9680;0x50342e71958d5;0x7e97f19224271;0xe876b0026de40;0x321e18c8249f0;0x9ff0a9c186db;0x7a140732922];[0xdcbaa72646163;0x3735bf7ca699a;0x6f69529803cbf;0x700bb90365a3e;0xd4bc8ea93ebb;0xb7ced3575fadb;0x7d958886be932;0xea886afcc80d5;0xc8c8bc3873469;0xd216b33a92b];[0x692ea8a235dd7;0xcdbe52dd22f3;0xaa910e810c2ae;0xa6049eb515db9;0xa80e0bd575230;0xb17ad499010d2;0x8e35259a8e716;0x13acd8deffece;0x50e8fdfdfbc5b;0x82fc16ae00d];[0x692ea8a235dd7;0xcdbe52dd22f3;0xaa910e810c2ae;0xa6049eb515db9;0xa80e0bd575230;0xb17ad499010d2;0x8e35259a8e716;0x13acd8deffece;0x50e8fdfdfbc5b;0x82fc16ae00d];[0xd0aa2354d620a;0xb981e32af3d89;0xb0fdcbb123779;0x7a40f2c443161;0x217e24f3ff297;0xcf50aa330a6ca;0x7dd5e0f2b0f66;0xfc29b80bdf601;0x4b6fbec8f0914;0xeea66ca0835];[0xc1083d16fd21;0x7db3dc51b2c11;0xbe6b86e6e0545;0xf5cac63f228dc;0xebcda3f694c23;0xe87e292455410;0xffbfa7940d9cb;0xee5eb2f0e8ad3;0x7d58fd6f82b54;0xe370469a0f6];[0x0;0xb7017f31ef29c;0xab166d3ca142b;0x70915f788c81;0x3b858d4b9e362;0x9fd5bf280b59a;0xbacd8fbd99756;0x74b4f41eec7b1;0x196c5821bdea7;0x297d623751d1f;0x510031a79b1];[0x0;0xe1752ebd17ea7;0x539ad179a9fe8;0xaa4b1c568a859;0x55c37cd3ab23b;0x8e42ac6c53ed0;0xdd5bcca7928a0;0xc3fe560ba3bad;0x4b02dadfced5;0xd3fdf78714712;0x3e76622f769];[0x0;0xd3ec3ea56869e;0x82cfedac54bb8;0x7372513eff9f0;0x5ad4dff30676;0x5538413274169;0xb130e49aff180;0x99a3db226dda5;0xba38c352ed64f;0x5fb7a580bb67a;0xbef5c067ab9];[0x0;0xd3ec3ea56869e;0x82cfedac54bb8;0x7372513eff9f0;0x5ad4dff30676;0x5538413274169;0xb130e49aff180;0x99a3db226dda5;0xba38c352ed64f;0x5fb7a580bb67a;0xbef5c067ab9];[0x0;0x9f61858375481;0x3f431cb2ad540;0xeb2bec0090774;0x6333dc30c2ff;0xec0e57fdab603;0x7a056abf4756c;0x66ce6735b6822;0x841e87ea30105;0xfb8bb58f376aa;0xd276ac71949];[0x0;0xa552903ca67e0;0x709e1ed3ed66e;0x3c18dfe54cb99;0x5ea0c78f2b62c;0x82dd51fd34dac;0x78ded7eb4ae18;0xd7a989c4f3089;0x1092960167b57;0x17501425c41d8;0xad4385b43eb];[0x0;0xc3efa7e5c6102;0x100522ac103cb;0xbd7930d43c9ea;0xc581035c28fd8;0x947d994d55aae;0xfc6b7ea8d08e4;0x8e3964bdeff97;0x323397d3641a9;0xdc7848368d683;0x6a74799ae4d];[0x0;0x1859355429eab;0x240725f590adf;0xc3653e057f5ce;0x7606f59e22d43;0xb53fb2d36428e;0xc4fe6b8177322;0x960f13f513bf4;0x9d2f1328388f3;0x95656afa91567;0xe28131433a62e];[0x0;0x7472817ce1ea0;0x3bb186853d1f9;0xd57c4c19b2058;0x7ed4679575e66;0xc332f40009c2d;0xdc6d4edf2631f;0x1a83b78c1f635;0x694b9aeeaf57e;0x46c7c397c9b7;0x72b15ea7e6d]]);
 ((V [0x96f7139e8c38;0x738c0995aeb9d;0xc9d28edf275e5;0xe62d60a991c12;0x995f928088d97;0x8ec274fce442e;0x40117c9c59b0b;0x86695c1ab0011;0x4d404a5c75115;0x13923bf8aa1] [0x623f6ff2d3931;0x7dacaf27f1ec0;0x1a9e90451ac55;0xd2fd7dcea2003;0x5a6bb6102d7d9;0xcb986bee42cde;0xeb2db32ed3244;0x69b96f56143f;0x85a616873562e;0x6a508651f1f] [0x991713b184595;0x33f3352e0973c;0x4cebfe7f3fdfe;0x21f788973c539;0x8c1188be2285;0x3fd869c036607;0xcfcfe1d7234b5;0xbb3ca47b302a1;0x3c90174c3e936;0xd4f4a6b3fb5]),[[0x2a3cd7b6d040e;0xaecae10689bae;0xcff1b64edbe10;0x9c9c8fa9839e1;0xa69761eca9865;0x7dddb08d20c12;0x74148aacc9e22;0xde743ed04f826;0x9b8b6bbb10c8d;0x9d6e45fe9e2];[0x8747e513639e3;0xb6dc45771eeb9;0xacc3b9b398dc6;0x216f3c2e2d0d6;0xac7b8cd330f29;0xe98d42d7f536f;0x5c46a8ccb9e07;0x481bb953feb25;0x841bd07ff6694;0x819329060e7];[0x30ec6f40369af;0x3d4369b666dda;0x6f9803c8faf75;0x41d32909cfd24;0x426fe61511103;0x70b144838141e;0xdf605af9726e7;0xbac382396a99c;0x7ce1790b18664;0x878cdcbd008];[0x30ec6f40369af;0x3d4369b666dda;0x6f9803c8faf75;0x41d32909cfd24;0x426fe61511103;0x70b144838141e;0xdf605af9726e7;0xbac382396a99c;0x7ce1790b18664;0x878cdcbd008];[0x33644bdc2d20c;0x9ad045b4c25c7;0xac960c6d5199f;0xb0ae44e102f87;0x1f91c1bb18df9;0x89e4e5fb00e9b;0xeb65a980ec5d9;0x858099f1b8597;0x3220a5ccf6aa7;0xf5e16ab793d];[0x53e399373659f;0x1c0bffc25c8f2;0x2dad4647427;0x70c0f74d2a14f;0x8ce9cb181812f;0x5fa85cdcf44d4;0x70e0ff4bcd82e;0xc29b1f624658d;0x51fb2ab2ffbec;0x8bb1be4e7aa];[0x0;0x80e375c7afd4e;0x9621cef512905;0x4e76aef976d28;0xc3a16a122a6a8;0x489aac04a45b3;0x955622890a04d;0x3dc07f01e564b;0x8bd11cbcf40a1;0xa634a1a78b8e1;0x53d2f63d12a];[0x0;0x49318f0a174d9;0x6bf59aeae6855;0xa1514f9242008;0xfff8f5973db8a;0x492170ff26cb6;0x6d9a0c1781af7;0x19483a651692d;0xdfb88d5b06e45;0xa800423ef330f;0x535bc6f68b8];[0x0;0x7472817ce1ea0;0x3bb186853d1f9;0xd57c4c19b2058;0x7ed4679575e66;0xc332f40009c2d;0xdc6d4edf2631f;0x1a83b78c1f635;0x694b9aeeaf57e;0x46c7c397c9b7;0x72b15ea7e6d];[0x0;0x7472817ce1ea0;0x3bb186853d1f9;0xd57c4c19b2058;0x7ed4679575e66;0xc332f40009c2d;0xdc6d4edf2631f;0x1a83b78c1f635;0x694b9aeeaf57e;0x46c7c397c9b7;0x72b15ea7e6d];[0x0;0x7f2cbd87b88f3;0x2b20ef818a8c5;0x7079e1b371a2a;0x8a3859f5c80db;0x787fe860f1a24;0xe408a6ccccefd;0x9cef488fe1216;0x4933d5882eae0;0x5af372cf36bc3;0xc8208d8888a];[0x0;0xea768bb57491e;0xf74243aed0741;0x3c624942bc945;0xce8f9d97cbfe0;0x1769b0454ce4d;0xa855fc5ed0bbf;0x4fcc713bde8ed;0x546a09d222ac6;0x1609fe4d552a4;0x41baff553ec];[0x0;0xad216d688ad6e;0x9eef91a036f33;0xd10975f321f56;0xd9ecadf689ab8;0x820959e7b97aa;0x19bbaef5258ac;0xe8c6b8ee4eea3;0xd87eebdbd960c;0x194b7b350253d;0x9e7f0539fa];[0x0;0x24cfe1eefc557;0x7d8b627db778d;0x1313efaaad5d9;0x94371d3fe2260;0x3f5dad617b891;0x660abe7068d31;0x8e5a3f53f45c6;0xf0fff3b41b6f7;0xe0692096774c2;0x6a8507274e14e];[0x0;0x486ebf26349c5;0x6cfc06ebd6536;0x51a1c08c13fc;0xb749c3d1827aa;0xbb5c8e81dbca6;0x7fbff6165de0e;0x510548128e835;0x2c9d417c7ba78;0xa9008f2269889;0x820b4cc834]]);
 ((V [0xd4dd4d5d47333;0x7bb5b4206c458;0x58c91eb7ccdac;0xf006fc5c35350;0xffaa6bc71bd54;0x8cb3509f3a0f2;0x6647315ae9103;0x3d1a6c26650db;0xd40d8a13358c5;0xfeea8c2ffd3] [0x41d9dd31d7b5b;0x9d512853c80a4;0x1adbcff023057;0x941524b9f6190;0xedf5188faab24;0x3b4c7a27365c2;0x3f46596ccb4be;0x7c2be864da816;0xf5bf761fd1ac6;0xc7f2d32a2c5] [0x5d7631a38bec9;0xd0e5a5fa57190;0xcd39c0d11d958;0x91b03d9c09c00;0x157cdb1bbf9b9;0xa05342fd33d07;0xda9d72fe70cf9;0xf717eca3be9f1;0x998d85eb0636b;0xeb267624315]),[[0xaac0b62cd0872;0xf22ee531b6f85;0x9fd0e73edc4a3;0xfe41e22718748;0xab007957e5aa0;0xc48982365beb6;0x64cc7fd5b9633;0x63d9f91791d50;0x7aff902c4c1ac;0xcec730ad45];[0x1d74530b0f5f8;0xfb886a0ba81e4;0x11f20b08000aa;0x8ea6c8303634a;0x3a72882567ef5;0x3cd8ffdd2d147;0x2d4cddc72dae1;0xde5de471ce841;0xfb8d1900d3039;0x89ddd8d452];[0x991713b184595;0x33f3352e0973c;0x4cebfe7f3fdfe;0x21f788973c539;0x8c1188be2285;0x3fd869c036607;0xcfcfe1d7234b5;0xbb3ca47b302a1;0x3c90174c3e936;0xd4f4a6b3fb5];[0x991713b184595;0x33f3352e0973c;0x4cebfe7f3fdfe;0x21f788973c539;0x8c1188be2285;0x3fd869c036607;0xcfcfe1d7234b5;0xbb3ca47b302a1;0x3c90174c3e936;0xd4f4a6b3fb5];[0x3a35fd1f8261a;0x7bd84dca7d654;0x884aff04a7a35;0x8090cdf5baa2c;0x4dbbfedefea90;0x97391409909b6;0x44e813f986045;0x33b90effaf512;0x437d0f6d24bc2;0x698a47e5faf];[0xe33e55eb8cda6;0x7fb01c412ab8f;0x89a70c0358675;0xe15fa3a7b91d;0xecb6894669465;0xa59febd39c790;0xe864c9cda7a9b;0xaaa4d5721f32e;0xb8100993ae477;0x9f1395a74a3];[0x0;0xb59e8ac6cff2;0x7e4710a156006;0x8e43823623b34;0xfe7cd786c2a1d;0xc9601b5ca0ced;0x48ee6f0df5a45;0x50fad4f848558;0x6fd281046e5e2;0x378ffd5533f7;0x83b10433de4];[0x0;0xa245ceb03c68e;0xabf4d54e2d937;0x18f7e63868ce5;0x28bfebe54d2a5;0x8947c9778ed47;0x424478fcbec89;0x31a453a11a46d;0x429e46fc72c39;0x8872be8e6e491;0xac0290d06c];[0x0;0x486ebf26349c5;0x6cfc06ebd6536;0x51a1c08c13fc;0xb749c3d1827aa;0xbb5c8e81dbca6;0x7fbff6165de0e;0x510548128e835;0x2c9d417c7ba78;0xa9008f2269889;0x820b4cc834];[0x0;0x486ebf26349c5;0x6cfc06ebd6536;0x51a1c08c13fc;0xb749c3d1827aa;0xbb5c8e81dbca6;0x7fbff6165de0e;0x510548128e835;0x2c9d417c7ba78;0xa9008f2269889;0x820b4cc834];[0x0;0xb37e114b78c81;0x1502769bd5f82;0x4dca3cfa294b;0x24a4af6cc528a;0x423c4abdd53bd;0xc9176fe488db6;0x7b6dd504db38f;0x74bddc87aaa2d;0x2c99c29dd818b;0x2c26c890161];[0x0;0x9206e268bd496;0x49409936ddef7;0x9750233915e0d;0x84e61180c0cf8;0x7f7f979754a88;0x651d5c6db26d;0x2d1ee43c508f6;0xbc8c4afefae95;0xda72a18fd4614;0x17f086f5ee];[0x0;0xe18c0eea1a007;0xc38cbd43920a7;0x224582a3b27ea;0xdae7cd57beec6;0x432cf2513f057;0xee9a58f104589;0xe25982599f683;0x7f70f60cbd90c;0x19985d35d3472;0x89486d6a07];[0x0;0x7cfddb1b637a3;0x7e59b6a589e37;0x26b4f9b43d918;0x8945dbe9533f2;0x36788463c3b4e;0x24d0b9a8d0674;0xbf86129fa69d5;0xfbadb6b091cb;0x7b29c222b36f5;0xc8b40b19c6c26];[0x0;0xa38c2ad2f7fe8;0x797d22197876f;0x2babb8752a755;0xe6a65e3989d13;0x185fb83c14cba;0x442168586aba6;0x218a6478b734f;0x9b75c30c8b378;0xdd39eb5a136b9;0xc71a1ef7236]]);
 ((V [0xdddc943b37a3d;0xe052f5f83be54;0x7731115940ac7;0xfcb470a6d8b1;0xbd9bd5b2b410f;0x99ef274b6bb5d;0x32ebeab5990b9;0xdb041e45ed079;0x5803a6363e8b9;0xc0fc5a29e37] [0xbc9eb84246aff;0x35399114f1370;0x93bb633146655;0xb7c8b16f96036;0x908d2187e3bb9;0x7ac3e0efa7ca2;0xf6e76e49452a8;0x12c02f7d65b27;0x1f4b6769cd36b;0xb2f6190ed2c] [0xb43ba1561e9ae;0xa25e3e6cd6509;0xfd62c3068ec9;0x7dd033dd2c5e2;0xcabb47e289d08;0x8a95c2b23046e;0x3f8540fa9468c;0x74fe189a20f2e;0x18bd4209b0a66;0x8f368acc573]),[[0x826a5897f542f;0x75282e3d1b71a;0x64c06b622c20;0x267eb98e0fe35;0xb3b1f8f59f2b7;0xe429aa561888d;0x7b2091e07a314;0x453e90683900e;0xcb3ab50865f6c;0xd81f454a65a];[0x7503860d123ec;0x23de0648794dd;0xb3e133c60cb70;0x77ad088c2d04a;0x53a66cbd7d89d;0x390a2ed5e3892;0x89869dbfbb0d;0xceb0968916527;0xdc5767e491df2;0x4ca2d46dba4];[0x5d7631a38bec9;0xd0e5a5fa57190;0xcd39c0d11d958;0x91b03d9c09c00;0x157cdb1bbf9b9;0xa05342fd33d07;0xda9d72fe70cf9;0xf717eca3be9f1;0x998d85eb0636b;0xeb267624315];[0x5d7631a38bec9;0xd0e5a5fa57190;0xcd39c0d11d958;0x91b03d9c09c00;0x157cdb1bbf9b9;0xa05342fd33d07;0xda9d72fe70cf9;0xf717eca3be9f1;0x998d85eb0636b;0xeb267624315];[0x610d628e8eae2;0xcbc4b36243208;0xa63ca18296c1a;0x87aa5267cdaaf;0x9c9430ae0cdac;0xca4641b018725;0x8e4a84423796f;0xc7f8f817665c4;0x3f01288f4b952;0x2564a1cbea];[0x13f6237e8390b;0x581952e6362d5;0xda4924375f55;0xf002b6245f59b;0xb7123c0f70af0;0x6ec3ed25cb16c;0x7a4de599c419d;0x6b79e71aff62;0x9d563f55464a0;0x4a4c8a50fba];[0x0;0x64390781fcf57;0xd63071864af4f;0x54069f1b3adc7;0xe47af3e9cd494;0xb52b85d1ce22b;0x955eb6f24fe6f;0x6510b70092226;0x7ff40df3733e7;0x2c308609b3171;0x916aa3b65ef];[0x0;0xc71dc4936ed2d;0xcd114457762ff;0xd8cb272d6d6ec;0x3ff005727d95c;0x55064966451fe;0xdddcd045c648;0xaa385d506e9e4;0x97d57ae417998;0x4a10653df832;0xc6852cfc8c6];[0x0;0xa38c2ad2f7fe8;0x797d22197876f;0x2babb8752a755;0xe6a65e3989d13;0x185fb83c14cba;0x442168586aba6;0x218a6478b734f;0x9b75c30c8b378;0xdd39eb5a136b9;0xc71a1ef7236];[0x0;0xa38c2ad2f7fe8;0x797d22197876f;0x2babb8752a755;0xe6a65e3989d13;0x185fb83c14cba;0x442168586aba6;0x218a6478b734f;0x9b75c30c8b378;0xdd39eb5a136b9;0xc71a1ef7236];[0x0;0x65052fffcc8d1;0xc3b2df5b595f7;0x12fa4e7248385;0x694e27ad7a0b3;0x54812e74def28;0xbb4e92a0873b1;0x79c405a9b60c5;0x1d289e790d49;0x6b15c42a1a5fd;0x9c2b6a9f7ae];[0x0;0x6188afb355bf2;0xf51025de53725;0x716aff43cac89;0x81832136bdf9f;0x8b7fde047c4e4;0xba1250460f94a;0xb553374fdb25c;0x2e0fce037e050;0x506a261d576b5;0xfdd64513cf0];[0x0;0xb7f888a4448e1;0x3119831875b53;0x3211ba5b90192;0x2559c5a067b22;0x86d366505e19f;0x7a80d0c0d98af;0xb8ea16b1ac59d;0xb6fc3325d8521;0x7e0e4b470693f;0x39c5aa99309];[0x0;0x17999a8a6774a;0x47ae076da7cac;0xe323e7a92242d;0x6a106b2455ac;0x490840cdf2e49;0xd540c7e27d388;0xa5e6357b37e27;0x3d0dd4a9f56e8;0xd99ad2befd1f8;0xb3737c4434d0f];[0x0;0xedb7c2773d043;0x628453a608d2a;0x94f11fe542758;0xdc4f686f04d05;0xfbcee2bb57992;0x6e0589de09248;0x5576c5a722808;0x49ab812049d9a;0x48443241720c9;0x86e8fc1395e]]);
 ((V [0x11721195e8a12;0x5c6aca13783bf;0xa6f1a511bae2e;0xe605e7e9d87f0;0x135318bd7557b;0xeca87105ac9a9;0x730144ad0251c;0x1d2ebaf9ada77;0xba4c167c6135e;0x244002dbe6c] [0xc5858c94fbf7;0x8585e511748;0x2673b1f455246;0x4a31c04bc1512;0x4c87a567913a0;0x3192dc4f619d7;0x232c6fd814ce0;0x7a0ac4b405c1e;0x9761541eeb375;0xda0301988e] [0x3b27acd008ca6;0xe7ea9f273c9d9;0x52b383150c6d5;0xbefb1f74a2bdd;0xc14b340bd1ec8;0x5ffc0d670743b;0xbe7df184174d9;0xfa7b1ebba2cb6;0xf5528009deaf8;0xbc45996439f]),[[0x7cf21f6cb9ee8;0xcf6c5491bdd47;0x144ec04337ff8;0x28722cc79a035;0x47312abcc1e23;0x711f0270004ae;0xf830c87bdafad;0xd1f52e719b92a;0x4f1f2120f11e1;0xd6e3eeb458c];[0xa8aeecba69a16;0xed130e656254e;0xdda2abc276d3b;0x38347be89823f;0x74db282e9e2d9;0x3eb4bbe2b513a;0x8747cfc03e98e;0x17cffcb86f5ba;0xfd4259b5aba6a;0xcc2fae6382f];[0xb43ba1561e9ae;0xa25e3e6cd6509;0xfd62c3068ec9;0x7dd033dd2c5e2;0xcabb47e289d08;0x8a95c2b23046e;0x3f8540fa9468c;0x74fe189a20f2e;0x18bd4209b0a66;0x8f368acc573];[0xb43ba1561e9ae;0xa25e3e6cd6509;0xfd62c3068ec9;0x7dd033dd2c5e2;0xcabb47e289d08;0x8a95c2b23046e;0x3f8540fa9468c;0x74fe189a20f2e;0x18bd4209b0a66;0x8f368acc573];[0x88718f1fcf6e9;0x7761479414598;0xdf1b299141396;0xa544435714e88;0x9f16ee84c580d;0xc20760485f3d4;0xe2c0836d5298e;0xda1d4bb610797;0x7bf847636d3e8;0xe87331377d3];[0x203d5d9a9a0f5;0x75b1c6d14dfb6;0xfe878231359a5;0x92f03891833b6;0xd5c439a9d8acb;0x7cad5b9a55d65;0xa4874c52ebfff;0x3db2b1025ee22;0x814a12523e681;0xe3bc7d2c05c];[0x0;0x9ee6c372b06c8;0xec1ca8d619c8f;0x73031df66e6e2;0x95e079f017468;0xc2668151db68f;0x83959ec4f2178;0x5081dbfa67408;0xee06a7d966a25;0x5136a5be89c2e;0x58900fd415f];[0x0;0x36ad578cb3b96;0xb6eadfb066544;0x9896552728760;0xde089acdad7e4;0x9632640d275db;0x239958ad0a051;0xf20f7d4147744;0x6e22b1cd281ac;0x13961f5efacd8;0x78371aed7d2];[0x0;0xedb7c2773d043;0x628453a608d2a;0x94f11fe542758;0xdc4f686f04d05;0xfbcee2bb57992;0x6e0589de09248;0x5576c5a722808;0x49ab812049d9a;0x48443241720c9;0x86e8fc1395e];[0x0;0xedb7c2773d043;0x628453a608d2a;0x94f11fe542758;0xdc4f686f04d05;0xfbcee2bb57992;0x6e0589de09248;0x5576c5a722808;0x49ab812049d9a;0x48443241720c9;0x86e8fc1395e];[0x0;0x9032fe0601428;0x3a4e43dda0068;0xe8cd15901c465;0xdd09ade01f5;0x62d1c0ad6e87;0x596c6cfec45c4;0xa7dea2454eeda;0x11f1cc3f7fe29;0x6ab15a8233af5;0x7d1b276cc80];[0x0;0xf14d55d04f1cc;0x55b01f1873cf6;0x68704c3364b12;0xaebdfda38d1e6;0x15d97fc172b97;0x481432a340842;0xc6bbf121fe2a0;0xded0fccf6b21;0x98a754bef41b5;0x917b8000776];[0x0;0xdcb62d80dbdae;0xe9814d38e35a;0x4d38f8bcbfbea;0xc403026e374d0;0x64a94b755f0c0;0x7a3c8c9205e4c;0x2f99c2c03f7d3;0x518494b931993;0x8f3d6e2cc7e2e;0x1ce9c2b95b8];[0x0;0x49ea4463b96e5;0xf0e4e3b02af93;0xcb71f4ffbe3e4;0x63870de64729e;0xcfab1962c92d7;0xf95f519a62289;0x261ce5f799e52;0x461a4220b0d21;0x8732b686ee120;0xda2f2199d17f];[0x0;0x96f9164508988;0xa70254261bc07;0xb3648efe53b34;0x19828c02d8c76;0x56ecd1c4445ba;0x48ec535e32122;0x8d9d21bac0fcb;0x8aa8dc6225d7e;0x529e474962a11;0x1edeef6925]]);
 ((V [0x3b26327b70912;0x52d121e4486f0;0x476b0ef6bb875;0x2f8311bfc7374;0x9a55ec28fe1ad;0xb854132bfc9c6;0x1abf8a199ad5a;0x12efc56d67816;0x8bc4022124945;0xe35eb9ad6a9] [0x67f8dfe02c815;0x6a824c25306b1;0x9237ecbbf4976;0x18610e0ce0ae8;0xe5717236685e7;0x4648f1cdb178b;0xa2858b18cd12c;0xbbc7d0fb87c73;0xfa255fe22fb40;0xffe5e0abb07] [0x95061e7f0a9ed;0xd3efe915deb31;0xb394d0cd9a1c5;0x961ce4dd36b01;0xb60e4073ebe19;0x670a74be4b39a;0xc9cc90871b237;0x1b3ec4fddd67f;0xca416db502cf1;0x33649f8fe97]),[[0xbf76618b886ee;0xe97f33450010a;0xfd7625c896a81;0xaa001a9e07cfa;0x6ac392285c577;0x964a5cf7ceb22;0x19ae458763010;0x7295fdd7ce96d;0x509079e30e8e7;0x272625f82b1];[0xf0ae38561d8dc;0x8c70cfd50a70c;0x6643aa7a7a594;0x47b60cb1dff3c;0x5e012bc4afc8e;0x4074b72b68b1a;0x28d212cd2a5c3;0x48d24200688da;0x4ca1e45adc04b;0x3182a5c2cab];[0x3b27acd008ca6;0xe7ea9f273c9d9;0x52b383150c6d5;0xbefb1f74a2bdd;0xc14b340bd1ec8;0x5ffc0d670743b;0xbe7df184174d9;0xfa7b1ebba2cb6;0xf5528009deaf8;0xbc45996439f];[0x3b27acd008ca6;0xe7ea9f273c9d9;0x52b383150c6d5;0xbefb1f74a2bdd;0xc14b340bd1ec8;0x5ffc0d670743b;0xbe7df184174d9;0xfa7b1ebba2cb6;0xf5528009deaf8;0xbc45996439f];[0x956e3e403d73f;0x7aea9a5ccc17d;0x8d495d162a94f;0xe58d04e506d3;0xd831933fda5f8;0xe1f64add2cf3b;0xb057a1e2568b0;0x7374ff3b5812a;0x36190ff86637;0x9aaa5724b2f];[0x5b3ffa15dff65;0x118635783e58f;0xd8fa4d644fc45;0x395d3c638f868;0x85cf9884d5696;0x5e7e6c4e3bbde;0x787a70ead3d12;0xd55d42c5107af;0x4940535b55a13;0x96d84e9e17c];[0x0;0x279ade908857e;0x4f440db1fd95b;0x85bbd0fbc9ad8;0x55356b0969b36;0x98fa945c4b4b5;0x3e364a2dd9e94;0x7e37fdb36c5bc;0x9fafaefcfbac5;0xb63f80e9fa7b5;0x746d52f2719];[0x0;0x7b891a26a26c8;0xeed4193d48a1a;0x9909984e2a2ef;0xa1cf3c1b382f1;0xf1a598496fff;0x4a08615bce2cd;0x27cbf8cc1cfc9;0x6817ded40d096;0xdc0774a4ab71d;0x1ccaa89f9bf];[0x0;0x96f9164508988;0xa70254261bc07;0xb3648efe53b34;0x19828c02d8c76;0x56ecd1c4445ba;0x48ec535e32122;0x8d9d21bac0fcb;0x8aa8dc6225d7e;0x529e474962a11;0x1edeef6925];[0x0;0x96f9164508988;0xa70254261bc07;0xb3648efe53b34;0x19828c02d8c76;0x56ecd1c4445ba;0x48ec535e32122;0x8d9d21bac0fcb;0x8aa8dc6225d7e;0x529e474962a11;0x1edeef6925];[0x0;0xec99a4c3aae5e;0x221f8a235b9db;0x6353d48f87a82;0xf5412263a1acf;0xd9772dd608b6e;0xcfd47e08d7323;0xcbad9804d25bf;0x645ffde176933;0xc6fb5565e93d9;0xb9a91ec0d];[0x0;0xe6c8d09a41329;0x34ae28c02297d;0x6ded4843bab83;0x6d62f98860bf;0x3c68c7769008f;0x3b05ca2cfa38d;0x15f96b1daeabd;0x7b135719dcac;0x4d8a8a4f50f0d;0x52210cf46e];[0x0;0x39633a93552d2;0xcf73511325d09;0x125171f822acb;0x87cca8261169a;0xd15d5788567c3;0x34f882841b72;0x491932b7c8936;0x23cfa76caf35a;0x629581db5b616;0x2bf92add8af];[0x0;0x75d66cc6f706d;0x4c2605816ab77;0xad6c36773da09;0x6ac30c9af8d52;0x472c6d02a027e;0xe36a57412dd8d;0x4892be057f8d6;0x3e0ccf153f757;0x6e3a01f98c8d2;0xb448f3ed5b8;0x1];[0x0;0x8f31efd2cdb0b;0x3dc6ef8d87db8;0xaabf7a494aaf4;0x60dde76e7e467;0x28ec4e738f42a;0xabc6161b617f7;0xceac7d71eb7ce;0xb95d87f529ae3;0xebe13c807e32e;0xe347863b34c]]);
 ((V [0xe3653ab61ae35;0x3e8ef84e5227b;0xde293ac8d61da;0xf65d9f71fc35c;0xa5f636d7cddb5;0x48522e0d3a2f5;0x47b33aaff8d9e;0x75d42d08c7ea5;0xf4ae7787a6016;0x1a7fe6970b5] [0xdbf2e30741667;0x8722ea0e326d8;0x328998e7f3351;0x87bddb37c78f3;0xd692b6ece28a;0x39e2ee813e218;0xcf6db06c5dad3;0xb5515249425c7;0x73be90d38f229;0x489625324b9] [0xfb0f2cacc1b63;0xfe2c5bcc654e4;0x9edba1899ce7;0xe2d1b85f2f472;0x49ba1925ac3ee;0xc95ec7d84701d;0xe25eb49944ca6;0x9a4aa0f023de;0xbb6911e81bc24;0xa7292bef225]),[[0x455cca68de461;0x2ab105f31bf5e;0xf40ccb18269f0;0xd933d35e982bc;0x4961e75cf67e8;0xeb0bcd231c1c2;0xeb956ef3ab6ab;0x7e6dc6eaabbbe;0x9d69dae8d5d70;0x49dd02215a3];[0x29f3678c53f29;0xb242cf7ee1f47;0x826b42ecd619a;0x17a77db81272a;0x9ab47cc184ee2;0xc0ae7ffd94322;0xe2b6b5d5d98f9;0x7c083f2d4c044;0x4b8f0b0b4abf8;0x55d73ead528];[0x95061e7f0a9ed;0xd3efe915deb31;0xb394d0cd9a1c5;0x961ce4dd36b01;0xb60e4073ebe19;0x670a74be4b39a;0xc9cc90871b237;0x1b3ec4fddd67f;0xca416db502cf1;0x33649f8fe97];[0x95061e7f0a9ed;0xd3efe915deb31;0xb394d0cd9a1c5;0x961ce4dd36b01;0xb60e4073ebe19;0x670a74be4b39a;0xc9cc90871b237;0x1b3ec4fddd67f;0xca416db502cf1;0x33649f8fe97];[0x3b13cc54b63ff;0xa419fb7ab4221;0x733b3b15944b6;0x9b36c479fe94f;0x44ae0eacf6fc2;0x1c42612ca0ee5;0xc87d5eccac536;0x7a6a8f90d612b;0xffece6c859578;0x3e389848a59];[0xeedf9b379db2b;0xe28d4042dd25;0xf3007d741ce4;0x7c70b93e13ddb;0x56066e148df1f;0xa46c1ed0f343d;0x1a3957092d3c3;0x19daf9c75f19;0x4ba22442f1680;0x179ea664ace];[0x0;0xfb4e9b8e84fd9;0xb91675ca3e140;0xe7457f227adf6;0x776f3272e7a1c;0x99a417ae32ede;0x7562a2e3db755;0x92c118e3d1f48;0xb9bad7dee8ac6;0xf1e728ab0d16f;0x1fc8094fb8c];[0x0;0xc471d383a5b3c;0x96cf532e199d6;0x30eaea59d601a;0x6cc70331d5461;0x2d07ff73f8f9a;0x68f206513dfc4;0x67b836acbe699;0x3dbad2edcbc6a;0x5c95a22e24233;0xed40fcb442];[0x0;0x8f31efd2cdb0b;0x3dc6ef8d87db8;0xaabf7a494aaf4;0x60dde76e7e467;0x28ec4e738f42a;0xabc6161b617f7;0xceac7d71eb7ce;0xb95d87f529ae3;0xebe13c807e32e;0xe347863b34c];[0x0;0x8f31efd2cdb0b;0x3dc6ef8d87db8;0xaabf7a494aaf4;0x60dde76e7e467;0x28ec4e738f42a;0xabc6161b617f7;0xceac7d71eb7ce;0xb95d87f529ae3;0xebe13c807e32e;0xe347863b34c];[0x0;0x3ba3bdad1ec76;0x9f2f9671f2f1;0x620d1f9766b25;0x699da49f13e94;0x16bfb51d54940;0xa3e26f6adce93;0x38b6aaadc2e3b;0xe808299ed7187;0x4f1c45e6b7597;0xffcbc401c1f];[0x0;0x26919d5d1d91f;0xab888193a4564;0x32efee5689bce;0xe9a41d667cd32;0xd6ad4d2016c84;0x1a9ab118ff1a3;0xb09027603d6db;0xfbb9d96f44506;0x13f8dfa6b6a4f;0xc9f120566d1];[0x0;0x29cec969c3568;0xc27d00775e393;0x46e5dea15ac00;0x182e665a1828c;0x6646cf3eff37e;0xff8e0b34cd6e0;0xcbffc301773a0;0x42dd48fc6669d;0x34eaea6664173;0x8e2bf77ba7];[0x0;0xf33497b06fdb2;0x9ce83170f946a;0x7dcd56b49bf8;0x7c9c9475d1656;0x97003b51e49f7;0x8f249969561b5;0x17dc46ef182b8;0x7c3b078b7f9ca;0xd66fd6a984663;0x48c6647545709];[0x0;0xf9f30a392e690;0x77332a64fc8ba;0xe54512dd242d6;0x5ba8cc54a543c;0x363cbce6d7d39;0xb1181b03e2874;0xf65eb56168535;0x7ac30dc9ff786;0x5753ed94bcb5a;0x78383a548d]]);
 ((V [0x81afb0b1ae447;0x3bf9e015fef92;0x2d3b9bd14dac0;0x15a15ef7a5d00;0x617853e323206;0x1df749145dca8;0x31d4d1fb0032f;0x496cb5a57ffe0;0x6293ec1d1beae;0x4263cfaedf4] [0x729359cf32ed6;0xe6f0271aa97d7;0xc33ffb0ea5efb;0x563e6960a6f38;0x232a726e9b625;0xb38130665abef;0x29123681bf610;0xdcdcabde3d150;0x8e854776dd639;0x32d59ec17a2] [0x78422a04b83de;0xb1b06b6366aa5;0x12d64344917dd;0xe27e123b375bb;0x24a6679760301;0x9ebc696655055;0xd752d36379da8;0x44c4b88f924c2;0xccae2bcb21ac7;0x7c314e52a92]),[[0xb7133d8a2889;0x53e84dd7a4e20;0x52929f8d2b098;0x66cdbf090c3be;0xc3e1c512ab89a;0x389416c7324d6;0x12e16dcfddacc;0xe37f35348cba2;0x6756988fb819f;0xa71ada71280];[0x91ea3874cd3e5;0x2b4521c809ecc;0xd2c0822463095;0xfa65465f1b01a;0x129527dddd4fb;0x2f8267e01d5f9;0x97cedba2866f5;0x70673eaebdf1b;0x1e6bc0a4e1dc7;0xe4e858e44d8];[0xfb0f2cacc1b63;0xfe2c5bcc654e4;0x9edba1899ce7;0xe2d1b85f2f472;0x49ba1925ac3ee;0xc95ec7d84701d;0xe25eb49944ca6;0x9a4aa0f023de;0xbb6911e81bc24;0xa7292bef225];[0xfb0f2cacc1b63;0xfe2c5bcc654e4;0x9edba1899ce7;0xe2d1b85f2f472;0x49ba1925ac3ee;0xc95ec7d84701d;0xe25eb49944ca6;0x9a4aa0f023de;0xbb6911e81bc24;0xa7292bef225];[0xd6b243298119a;0xd7c6764d46a79;0x2a9ba3ec42d01;0xb5e23b4ed7090;0xe615ff0efbb86;0xdb3de967f386c;0x2a4e256b6556e;0x36ce23b1667b0;0x5b4c2510c723b;0xa2c6452ed10];[0xbb37f54b4c24c;0x537eab7ac3452;0xa824de3820393;0x44830b1043f8a;0x2c7f28cee1975;0x54447e7829d8c;0x6d80b63721186;0x39991afd5776b;0xc31f9b941ab8c;0x422213b57c7];[0x0;0x12f9f43aa9b61;0x3d2ba68ad4860;0xd4277e87d9219;0x4c008facf315f;0x16050ad04f14;0xb9f6ef806e83f;0x606e597db334b;0xc890da736353d;0x33ffcf29680a8;0x675f3be7867];[0x0;0x7ede1e8f1cb3a;0x51f39b97875e7;0x5b73c5ce64572;0xe845d20bb257a;0x2ddd0b20bb9ba;0x4657965c1b3fe;0x521714591f733;0xc9a1178db6ef4;0xbffb898f970c0;0x6d1d647a686];[0x0;0xf9f30a392e690;0x77332a64fc8ba;0xe54512dd242d6;0x5ba8cc54a543c;0x363cbce6d7d39;0xb1181b03e2874;0xf65eb56168535;0x7ac30dc9ff786;0x5753ed94bcb5a;0x78383a548d];[0x0;0xf9f30a392e690;0x77332a64fc8ba;0xe54512dd242d6;0x5ba8cc54a543c;0x363cbce6d7d39;0xb1181b03e2874;0xf65eb56168535;0x7ac30dc9ff786;0x5753ed94bcb5a;0x78383a548d];[0x0;0xbcae1717f0171;0x1a473e4abaeaa;0x4621b5723350;0xcc7b827a35734;0xe00efea897aa;0x6da087689f281;0x76291bd26c6b9;0x27cf179d68238;0xd3aa8a1424241;0x1494ccfbe6d];[0x0;0xf1913daada9eb;0x9bc4775d24086;0x687a91bded2c5;0xbde9255e88a93;0xb66484272b22a;0x769806491d43a;0x3d2038df924d5;0x7d4e49e95c6fe;0x6550fba60264;0x2be3abd47e];[0x0;0x9939b805439dc;0x44b32cda30999;0xefd4d43c2ac50;0xc1c691b6d78e9;0xedbef2c62b10e;0xe5c595091741b;0xa70685a26cc51;0x8c75fc8525d60;0x79e69eeff2873;0x3b5d267979b];[0x0;0x73c5571eaf2eb;0x9dadc5b80f2d7;0xc73c415c3ba58;0xc23192691ae5e;0xee3d9f679972e;0x4170e800a49ae;0x346c514fb7629;0x409555dbb1c8b;0x62648cd42ebf0;0x32dafffb98aeb];[0x0;0x2d2b0cb2992a4;0xbee472a287998;0xbba5e36a5299a;0xd20a14e2e332d;0x9ec3d0e1b5cf;0x21efe95a2803a;0x7ce20388d62b5;0x9f1866f999cff;0x726e45a15e2a0;0xd2ee4c7bb3]]);
 ((V [0xb851fb2e20da;0x5998b7b8491db;0xec11c295c86e7;0xb187f0e9ee42d;0xfda91f3180786;0x93197b86e7be2;0xd827a461dc9a3;0x1ceed041d7c4f;0xae87efbb36394;0xe897a46b116] [0x4d05e1014e247;0x67fd31dc7e974;0x1bf1e15839b6c;0x6a1fb7d64798f;0xd379d9886bf69;0x8effdeb830ecb;0x728b1ce05b1a;0x97b0e60f8a0f7;0x61a135d4bbeec;0x44c0343328b] [0x8725859b452f4;0x9d2ced5ff218d;0x7c819a41110dd;0x477fe466f11f6;0x668e9104f0e2;0xed34812586d10;0xe31a977f89efa;0x9ba98b9ca559;0xcba8624da8133;0xdf92475273b]),[[0x1630c6358cae9;0x8af1066e9e061;0xb75bb92ddda2b;0x3946ef91b593e;0xbf1196f48fc68;0x774c4e0152b62;0x303a3e23922ca;0x788e4020520a6;0xb4dc8cf9c1110;0xfdca213dbef];[0x90f98a2ffb5f4;0x8c21366f748d;0x3aecc1eff595f;0x9b87fd195dc06;0xd86e2fd056a19;0xbb02178fcf59a;0xc70c33b88aa3b;0x6307eb05c5d40;0xb6e022423d891;0xfdda72c0f74];[0x78422a04b83de;0xb1b06b6366aa5;0x12d64344917dd;0xe27e123b375bb;0x24a6679760301;0x9ebc696655055;0xd752d36379da8;0x44c4b88f924c2;0xccae2bcb21ac7;0x7c314e52a92];[0x78422a04b83de;0xb1b06b6366aa5;0x12d64344917dd;0xe27e123b375bb;0x24a6679760301;0x9ebc696655055;0xd752d36379da8;0x44c4b88f924c2;0xccae2bcb21ac7;0x7c314e52a92];[0xfe8ad78041a5d;0xe634c14ac9c43;0x1ecd0923cd3ff;0xddd318a053881;0xba17b528107f6;0x3f71502fcf9c8;0x22deddac271da;0x91664bf2c3207;0xe8321cd6fcdb1;0xdcdde6c2987];[0x926eb2afb9b98;0x228d521c2d849;0x1c1fb8cc2855f;0xbdb4e4790a385;0x1e567aa846222;0x7b90c75fffbd2;0xa42d560c63861;0xd1a19f1302b39;0xceae056b40adf;0x20fc8bfe5ec];[0x0;0x324d39b33c7d1;0xc83a498eb5dd4;0x73900ccc585a7;0x264f523bc83eb;0x142360e5196c;0x6b97bb178ca88;0x22646700f56ab;0xdb28889db23a8;0xfd0ca3bf28758;0x4ccceef0050];[0x0;0xe997b6211f416;0x304933be32edd;0x600315a3c09c3;0x2df4a55dc099b;0xebca8d25c7f2a;0x21b35bd6e4a5;0xad55cf99a53fc;0xa96576491edd5;0x99590a59f3af7;0x7b1ec96fcde];[0x0;0x2d2b0cb2992a4;0xbee472a287998;0xbba5e36a5299a;0xd20a14e2e332d;0x9ec3d0e1b5cf;0x21efe95a2803a;0x7ce20388d62b5;0x9f1866f999cff;0x726e45a15e2a0;0xd2ee4c7bb3];[0x0;0x2d2b0cb2992a4;0xbee472a287998;0xbba5e36a5299a;0xd20a14e2e332d;0x9ec3d0e1b5cf;0x21efe95a2803a;0x7ce20388d62b5;0x9f1866f999cff;0x726e45a15e2a0;0xd2ee4c7bb3];[0x0;0xdeb9d02916741;0xae26dc1a42fff;0xfeb57fbd49c24;0xb97d6c405f846;0xdd8e98c21884a;0x3882651cf7716;0xdcd5c11584fd9;0xadaf610ffd3b6;0xa7d785f73b36;0xa182445242];[0x0;0x57639404b231f;0x57f7c452aa3c3;0x35427bc3b5857;0x528243cf5ff41;0xcf5277ea002c5;0x96584138cc709;0x33e0a6a1c5b5e;0xeec879c7002e3;0xd220fff48ec61;0x11379e0074d];[0x0;0x465ae22e6d5ea;0xc7bc71227911c;0x6e60d58f0452;0x2885a9cfe212a;0xadf3ca3ac4ec7;0x259d00b66269f;0x3642e2d5ea4d5;0x1e1436d7a66e6;0x552e1ba70fb14;0xe6a456e2ad0];[0x0;0x28a91f111f4c0;0xf7e160dc7595f;0x3585e9da72c85;0xeea82b22c3c0a;0xc92013065536a;0x4b1f6300e0ca9;0xfbf82e11571a7;0xbdd51b821b8b6;0x3e7e1e0418313;0x44c0c7c947723];[0x0;0xa320e78063e6e;0xab117b7ce7b65;0x363a991bef85c;0x48226db8d3c31;0xc2be9f1eb10ab;0xb6d5d029a30e4;0x41f451677a9e9;0x763a5490fd7f7;0x61bfee72d9c16;0x3e76e8d5098]]);
 ((V [0x82d67a0cd35b0;0x78659373afd4f;0x8186d3dcf6102;0xcac9cf47ed45d;0x86a278d13b0e;0x788cae3d5788f;0x9b32613d7e55c;0x3cd1fbb1fa758;0x881ed155ff57e;0x3613fa0db83] [0xbcc5e0ebd46b5;0x921fe10dbb1c4;0xed6b384fc216d;0xc38015dbb47d0;0x4898edb7c15ad;0x6bc3406f024a8;0x35247f50023c7;0x1597ee3fa2a58;0xc1996369f2e4e;0x621a524cf43] [0x57562b1f38c12;0xd9913c66903ec;0x643c7af2a5866;0xc52f026fb94ab;0xe0f0a5496ca4b;0xd7f8c393b4557;0xe755c0e943dc7;0x8ddf5a70a6e4;0xbd2a43765c3d3;0x76b700758d0]),[[0x221fa331acc7c;0xcbcf7e02badeb;0x5a996fb8976e9;0x7844b5531236c;0x489f1193d4ad9;0xee7f433c518d;0xdd6a51341706b;0xc9128c56810e;0x23bf6cce3e3d4;0xe2241c08360];[0xdfb21b392f6e1;0x4bdb91fdfd7d;0x462cf97d3f06;0x2b6c15d25fb6b;0x65abbbf8d8e69;0x8823813669a73;0x49c4ae0d8c6e3;0xbd62fa7b0d20d;0xd3f80427e11b8;0x6fd0c5f513b];[0x8725859b452f4;0x9d2ced5ff218d;0x7c819a41110dd;0x477fe466f11f6;0x668e9104f0e2;0xed34812586d10;0xe31a977f89efa;0x9ba98b9ca559;0xcba8624da8133;0xdf92475273b];[0x8725859b452f4;0x9d2ced5ff218d;0x7c819a41110dd;0x477fe466f11f6;0x668e9104f0e2;0xed34812586d10;0xe31a977f89efa;0x9ba98b9ca559;0xcba8624da8133;0xdf92475273b];[0xd45cd329109dc;0x11c40921e75a2;0xb1275d98c8c2f;0x241f20dd26737;0xda3256e4d7a2c;0x9dd5568b26ec7;0x66e32141e7d3c;0x481edbcc10a;0x867d25fa33b1c;0x16d6c641afe];[0xb5548101ed06;0xf2f9affdf87db;0x533b71ff0b2d6;0x74cf4f539433;0x8b7965140143d;0xea4e2aab42bab;0xe2e18ccba49a6;0xbd1adb9f41102;0x4d7ade2dad69c;0x58f9ffb363d];[0x0;0x2dc8db4e00e1c;0xed0ce7b97bfc6;0x7a1de0af84da7;0xc9d1b761f507a;0x4cc222cc33669;0x72d4d2b013eea;0x897016ce1e302;0xdd88b2b57a44d;0x55fe1d91e9750;0x8a4197db4f1];[0x0;0xc48bf8aceaa39;0xd739f8a59dbdd;0x671e91608af2e;0x38b3683326375;0x57e6a54a82fcc;0x6f2aa4b98d743;0x31156757a200c;0x959612c7c2341;0xef0ff1cb16c3e;0xc57eac03fd4];[0x0;0xa320e78063e6e;0xab117b7ce7b65;0x363a991bef85c;0x48226db8d3c31;0xc2be9f1eb10ab;0xb6d5d029a30e4;0x41f451677a9e9;0x763a5490fd7f7;0x61bfee72d9c16;0x3e76e8d5098];[0x0;0xa320e78063e6e;0xab117b7ce7b65;0x363a991bef85c;0x48226db8d3c31;0xc2be9f1eb10ab;0xb6d5d029a30e4;0x41f451677a9e9;0x763a5490fd7f7;0x61bfee72d9c16;0x3e76e8d5098];[0x0;0x11cd7cf7e2f83;0xef6bdf1621df7;0x749399e7f5ed6;0x6ee96404accd3;0x1415a1672920b;0xd681ead71ac77;0x1a88d033cba1b;0x288ff73d6c6ec;0x2a1c4a03bda59;0x1276ac09850];[0x0;0xd87e632076672;0x588ea3d4db4f0;0xe352f263d3cf0;0xb7e1b822fde9b;0x1e743acb158f6;0x7a4de292b2699;0x401b35a438de4;0x6672a90d32437;0x9ac9cf8727e46;0xd35333d56f7];[0x0;0xecd68922984c8;0x2392d93e86248;0xae07a49340b5f;0xf3b723d64448c;0xd83e3dab4edc5;0xb5e9e94560000;0x890e93b41043c;0xfec14bccf839b;0xc81dcca55255a;0x179ec37842b];[0x0;0x846d0858a359a;0xe8e7f4265badf;0x255fe0b3d2179;0x821f6da61e583;0x1235518a30387;0xce2d590786dc0;0x5b5a9b562a399;0x97a41fc108389;0x2ba67d3070b5e;0x6251933452c7d];[0x0;0xf144c85e843b2;0x7b25fba502f36;0xe105195d4b8d0;0xe98b4c2156719;0x6bc86064ddd2c;0x35e85bdc4cba3;0xad9aaca33dc6;0x81ec5a8662f1a;0x8b4fa1c1e25ff;0x14b935234d8]]);
 ((V [0xf9a231a368bcf;0xcf9d107dbfaa9;0x3195d056390b4;0x4c50dd16251d;0x1dba2fa9912be;0x2ec775e7de0f9;0x88ec61aaf0722;0x3921c62b10cae;0x88908bff0bc70;0x4f436e1e4f7] [0x39a13879340be;0x9445f80ea48da;0x9d96e6cc5ee0;0xa7d7ebf0982a8;0xfb50cd3877952;0xe004d5a61e2a1;0x42adca4c05588;0xaa11f7b3d18a5;0x8c74d70d006ce;0xdf6413f2a71] [0x45fb4738516ca;0xe0c50b6194039;0xb05b1a2befd7d;0xfa5d1ca3068c5;0xe51eafc57f8d1;0xfa938722509d1;0x19d9991cf41f4;0x8f3fecff623a3;0xe27e5bbcebbdd;0xe3d3e9f717b]),[[0xbb08cfe889aa3;0xbb8078e7e0484;0x9a713bbe2cd0d;0xf81b85824d11a;0x141c4ec298452;0x5b267efa97c0;0x9746429d3f6f7;0xe9c0ba05519df;0x15bf191a73427;0x6fe6f107f6d];[0xd5795977350de;0x38a645d35bb48;0xf32336f950e15;0xc974ba9a842d2;0xc23d894249c22;0x4f135968f6791;0xd9fec09687aed;0xbebe361d7dd32;0xd82a94fde956;0xbc5a0d4c7d5];[0x57562b1f38c12;0xd9913c66903ec;0x643c7af2a5866;0xc52f026fb94ab;0xe0f0a5496ca4b;0xd7f8c393b4557;0xe755c0e943dc7;0x8ddf5a70a6e4;0xbd2a43765c3d3;0x76b700758d0];[0x57562b1f38c12;0xd9913c66903ec;0x643c7af2a5866;0xc52f026fb94ab;0xe0f0a5496ca4b;0xd7f8c393b4557;0xe755c0e943dc7;0x8ddf5a70a6e4;0xbd2a43765c3d3;0x76b700758d0];[0x8fa4ecb1dc57a;0x8857898c474ff;0xf121ab50effe0;0x17cf66e84f422;0x9cfd8d2b88538;0x5c53183437de0;0x71b7302da4aaf;0xb56a6beb47332;0x8ae78c4bdbeb4;0xec73af048];[0x45d46cc558b65;0xb04ebc4714649;0x2018ba860e34;0xb1a553b234eb0;0x253ffc16c16ea;0xf2c04134be9b1;0x68479068e303d;0x953ca3236a00;0x829b1d0402aa2;0xbb6d999d78c];[0x0;0x7e2102743571b;0x2ee60b086c65d;0x2a7d3bd35f2e4;0x8fde2a1aa6121;0xd2fe29e0246f7;0x65d9ca28207fe;0xf5fcf413009b9;0xc63938ef015cf;0x3b73607d42c92;0x4969c023194];[0x0;0x6e5f0061398a8;0x679c83a75e4a2;0x5fbb23aedc53c;0xdb9877b1bb05;0x405a2ecce6266;0x80b3a9aafa150;0x995714546b03d;0x12d4821a64886;0x9766ed8ac2bac;0x33e471635aa];[0x0;0xf144c85e843b2;0x7b25fba502f36;0xe105195d4b8d0;0xe98b4c2156719;0x6bc86064ddd2c;0x35e85bdc4cba3;0xad9aaca33dc6;0x81ec5a8662f1a;0x8b4fa1c1e25ff;0x14b935234d8];[0x0;0xf144c85e843b2;0x7b25fba502f36;0xe105195d4b8d0;0xe98b4c2156719;0x6bc86064ddd2c;0x35e85bdc4cba3;0xad9aaca33dc6;0x81ec5a8662f1a;0x8b4fa1c1e25ff;0x14b935234d8];[0x0;0x2fba6c957e189;0xc0a557d11cfcc;0x1b1c7382b61f2;0xf12d3fed05886;0x9df56fe728bcb;0x8aef72ad4d4fe;0x7c1bb2353e4fe;0xf1a9f328f74ac;0x50364a16b02d9;0x259829b7bd1];[0x0;0x22b405badc18d;0xdfed11d76249c;0x7a95906b4a4cc;0xd1b44571f88cb;0x2a45fde4a1574;0x5bdee55e4bc7d;0xdc00cfc4db740;0x320330f2e8870;0xffbbde6472ee1;0xb6c6f0cdbf];[0x0;0xfad387ce6396b;0x21949c6528070;0x8e67c35c6536a;0x58b99b9e15edc;0x1b33ceac41ee4;0x876b6fdaad28f;0xe03fa0fc97faa;0x4922aaa2bc265;0xda4d09b285384;0x3a5166b1146];[0x0;0x6a5d7063970b0;0x5097c1ab5e0eb;0x6e8abe4a03908;0x8cf747c7642f2;0x533468bb198a8;0xe2435f893ef6;0xa4be093c20de7;0x523d0678956ef;0x77b80229b8cb5;0xdf9f1bf329b5c];[0x0;0x2afaee0050c68;0xf635d364b3133;0x2c76abf170553;0xda095e8d3c0f6;0x315972bb485e6;0x1f7baf36280f7;0x52ad52fa1caf1;0x21dd38e94c1d5;0x80bdeb6398b5c;0x452ab9708db]]);
 ((V [0xc1856f59f359f;0xbabe8e2fa902d;0xb9033ef8cd87b;0xd3bfb97313bae;0x7ce2e204c6a3f;0xd23d75b3324c1;0x9e915e911f5c5;0x71873e7f9961c;0xa2824da3502df;0xa4af8a793e9] [0x797e4e39d8374;0xa7dcb9e0d5fd2;0x708dd25a8dea8;0x453539f15aa7f;0xb4967c8d040de;0x91f58e7ef737f;0xc3ae02a160de5;0x6d0bc7bd18e0;0x3f7ddff58389b;0xe0b00bff7af] [0x4a422ef09ba62;0x71ea9d8b82d81;0xde05895571c5f;0x6c2895d49b2a0;0x529b49f5f9c63;0xf41864a30c5cd;0x91969e3ad1b81;0xc0832c1098cc3;0xb5306020fd99c;0xfc742ba24ee]),[[0xaf402ffeaf340;0x1ffa928b728e0;0x2db9bdc1d7866;0xbdc0d74373476;0x62232437941b3;0xb57f2b09b8974;0xc4cc1390b6a46;0xc0b3ceebabdb4;0x25c690a8eb3cd;0xa477948e982];[0xe24da6da839a6;0x18b4fed33026c;0x7463f4df1b208;0xa5d5259d7d0c3;0xe500e7adc6a3c;0xe868f264ead2a;0xf16d893eafd5b;0x9f34a488052c9;0xc643aee9cd623;0x177c734b378];[0x45fb4738516ca;0xe0c50b6194039;0xb05b1a2befd7d;0xfa5d1ca3068c5;0xe51eafc57f8d1;0xfa938722509d1;0x19d9991cf41f4;0x8f3fecff623a3;0xe27e5bbcebbdd;0xe3d3e9f717b];[0x45fb4738516ca;0xe0c50b6194039;0xb05b1a2befd7d;0xfa5d1ca3068c5;0xe51eafc57f8d1;0xfa938722509d1;0x19d9991cf41f4;0x8f3fecff623a3;0xe27e5bbcebbdd;0xe3d3e9f717b];[0x269ac3dcb2a8f;0xa091108291e89;0x1782a52c3fcd6;0x3adb474a6396d;0xf94e98ecad3dd;0x3a922e5f228b9;0x74ce14ed95ee6;0x7c229ac40e50f;0xfb46ee4a9ac84;0xcefc166b334];[0xbbb2e2fdd0cdf;0x7823ee509e3e3;0x5ce14fb2db531;0x6af9de5319756;0xebb24ec11965f;0xadd6c405c8470;0x7c9f745119e75;0x231209c3f6dba;0xcafcc09f3299f;0x48805ce0043];[0x0;0xbab31f08b1320;0x5890dd6df0e92;0xe7337ae14ea9b;0xc29d5bd2d819f;0x946b19c7dbb38;0xee996049ce427;0xf4bcc75419ae7;0xcba3a184dbe4;0xdf77ba900dc8a;0x8ce36c0c491];[0x0;0x2a67e7ef45a56;0xa6f83f21ba0cd;0xfeeac2d50e306;0x11feb13a12e25;0x7c68b767c5f8f;0xbbd2fe86ff05c;0x36c3a5adb36b9;0x732b224744291;0x4e30a3ef4c7fb;0x925e2d99774];[0x0;0x2afaee0050c68;0xf635d364b3133;0x2c76abf170553;0xda095e8d3c0f6;0x315972bb485e6;0x1f7baf36280f7;0x52ad52fa1caf1;0x21dd38e94c1d5;0x80bdeb6398b5c;0x452ab9708db];[0x0;0x2afaee0050c68;0xf635d364b3133;0x2c76abf170553;0xda095e8d3c0f6;0x315972bb485e6;0x1f7baf36280f7;0x52ad52fa1caf1;0x21dd38e94c1d5;0x80bdeb6398b5c;0x452ab9708db];[0x0;0x8044e80decde3;0xdc47e6ea24c14;0x85236b25f090f;0x91f8b6b5d8bd;0xe793604f9cc7;0x5b9e003274024;0xc0c4fbda8048c;0x8aedc440625b1;0xda162a48a31f6;0xc2ef81e0563];[0x0;0x10f72142edf6e;0x90f7df1d5fce7;0x324750455b14c;0x4c32dfc25f694;0xcba3717285127;0x606d287e63c4e;0x1f78fbd5c4338;0xec623f1cde3ce;0x80d8d6fba4ca3;0x188aafb9884];[0x0;0x9744e696e2eb3;0x6251f6c75c39f;0xbb4b3d9da905a;0x5263c6d3995ad;0xebc7363b7ea7c;0xc306b80532d48;0xa8d5477d397e1;0x3d26367402c32;0x83c259ac4f412;0xf1bd4a335b];[0x0;0x272179b716d87;0xe4aaa937fc027;0xc9b6bec13b39b;0x8ee849ea3e191;0xcdade80e63a34;0x467740e787dbb;0xd0d4c947cf28a;0x6563fae62664f;0x80984c724621b;0xe17c1effef916];[0x0;0xb62dfb7b22406;0x8db0a6e57d175;0x2d7c4866a6e80;0xfbc2b283c0064;0xd3f2cf3a55b11;0x77eaf4849e34c;0x50650d2f40d95;0x11a9495c4c07f;0x8aba43ae0fe43;0x908ad9912f0]]);
 ((V [0x280303de0dc12;0x7d5971fae4a55;0xa1f49f1198f7b;0xbae5e66248d09;0x7c0338ec13c98;0x6b547af4ce9fa;0xbbaab17b8cb89;0x341ff898abfbd;0x980e8c0dad182;0x901180940cd] [0x20c12769f590b;0xe2eba1a4f364f;0x24606b127e09e;0xd2edd71549795;0x65726c4d67b3c;0xde677a1897fb8;0x9f9247a9cd994;0x6ebb3b37e4de6;0xbc0505e014953;0xdd89e022931] [0x79eef5048a31e;0xcca5f024f4425;0x4ea60677128fb;0xcb18b6428f77a;0x3bb9332e2c9e8;0x79e2642adc25a;0xc403db6f3d1b4;0xb1e8fd2dfc8af;0xb6f162634f53c;0x39eb048aca1]),[[0x1571fea7db0bf;0xbb0472f39bf7c;0x408000faa5411;0xec8160594a574;0x3117c29d5eb96;0x7ac01ab0dfa42;0x379a8474d72cf;0x875aef7af292b;0xb3892ed357d5;0x680475bd08];[0x6c498b2674c98;0x9516bfbd67d58;0xdaa4f9bf7cc1f;0x642a9e45e7452;0xc3f08c205b2bb;0x81a30c0f63149;0xb2d01cd2990f2;0xc110b08591c29;0xe6cf3b21b7fe6;0x2d3d843e9b];[0x4a422ef09ba62;0x71ea9d8b82d81;0xde05895571c5f;0x6c2895d49b2a0;0x529b49f5f9c63;0xf41864a30c5cd;0x91969e3ad1b81;0xc0832c1098cc3;0xb5306020fd99c;0xfc742ba24ee];[0x4a422ef09ba62;0x71ea9d8b82d81;0xde05895571c5f;0x6c2895d49b2a0;0x529b49f5f9c63;0xf41864a30c5cd;0x91969e3ad1b81;0xc0832c1098cc3;0xb5306020fd99c;0xfc742ba24ee];[0x8e8a0a137ffdb;0x85bdc83034f4c;0x38e9539a4344e;0xc54b73f2e450a;0xbaf9c2d172180;0x2959c4c27d43;0xc00506f2d7c74;0x4ac3988123a8b;0xb0938050008e0;0x98679070405];[0xddbf8112f4a85;0xf58f78d32e0b;0xa1bba625397d1;0x9edf2a5302f48;0x8f6c94ee913a;0x7f0d6fc33b406;0xf2cb15dfc147e;0x764d18046e19d;0x363bbad1b7706;0x6a6c47d3a96];[0x0;0x733fb97281d17;0xb7687906476b7;0x2c6255dd9e54a;0x1472c744fa260;0xe48cbb15f8efd;0x369e9b917ca6c;0xee24b6df27c5d;0x1bfbf99124073;0x5afd8c61a1738;0x9c1df707e8a];[0x0;0x9420cb14d014a;0x24c89c34af88c;0x4712125d7dfa5;0x1a4f9935ecdb0;0x602554cd2ef6e;0x371d8e8d2f47d;0xa822b661a5667;0xf5776ee15d7ca;0x3cec72cdc5f19;0x669397a620];[0x0;0xb62dfb7b22406;0x8db0a6e57d175;0x2d7c4866a6e80;0xfbc2b283c0064;0xd3f2cf3a55b11;0x77eaf4849e34c;0x50650d2f40d95;0x11a9495c4c07f;0x8aba43ae0fe43;0x908ad9912f0];[0x0;0xb62dfb7b22406;0x8db0a6e57d175;0x2d7c4866a6e80;0xfbc2b283c0064;0xd3f2cf3a55b11;0x77eaf4849e34c;0x50650d2f40d95;0x11a9495c4c07f;0x8aba43ae0fe43;0x908ad9912f0];[0x0;0xbf870760ff1a3;0x15c3195caff5;0xdb975ea974625;0xeb34823029fb3;0xff0606399bcf1;0xe289a47ea24a1;0x14dbcdb985cea;0x7e85baf7b00e8;0x3f4c0747bcd51;0xc5348e0f970];[0x0;0x18e9357c4cfe4;0x60d0b5585185d;0x1187679ddf6e6;0x2048d065be65b;0xbe9f3d8f58482;0xd044ff18c9b52;0x38f0c27b22341;0xd07bdb4469d2b;0xb1c8a46f685;0x69f161c9f4e];[0x0;0x9ac9c85a7de12;0xd51e536eb051f;0x6cd982c13455c;0x9bd0ec6e06dcb;0xd101ffa9354d8;0x4d838ad6a2025;0x6eeb0ebb5a84;0x5197e510d0efc;0xcf432a7b47090;0x1975b231eb];[0x0;0x9370a5af27c75;0x85e22761eb05b;0x4d5e8f975f65;0xb3d9364aecf6f;0xa132ff5a5cc85;0xf6b68e15f4df2;0x9f60775a51c3d;0x645f0462e07da;0xc7c8571ac8931;0xde64f79b2a92b];[0x0;0x781a16b86f18;0x6d6f01ec43ad1;0xf1b2e1b27cdfb;0x5f5cee765576d;0x7ba5ce7120767;0x75f84df18e0;0x8bf7863d958fc;0xccf3cb9628faa;0xee7ede878209;0x7cacb38063f]]);
 ((V [0x8b5c408166daf;0xfec74060e7409;0xab3c5ec200d71;0xe53a2648a8416;0x7c86722b1fe00;0x75d11daa9911;0xc12ee4a6b7359;0xc3d55bfb911fc;0xe36e4e84bb0a3;0x1dea03c6184] [0x8c50b1941a5a4;0x9259446eb1fc0;0x57f7d373edb40;0xd940f4a163b4d;0x45519f3cb841f;0x8d5bf458f0269;0x63965d7544fbb;0xb1aa8c230e2f1;0xf0b66beaaf96c;0x9d18011adb9] [0xe0d637dc80602;0x3db514c313ed;0xf094eb8a2483;0xc99695f53555c;0x338f963f8c508;0x57e5187dfc5b2;0xea1a035a54b86;0x913d821f52cdd;0x2eefdf013cc31;0xd8f521cf032]),[[0xc11e760932264;0x6b5bce15a5568;0x1e1860de35ae7;0xee6c701339b33;0x5863f46c15107;0x53980eaff254e;0x4e95711e663;0x961bf2eef27b7;0x26d902fc70b96;0x253e4b4d512];[0x1a85890e082fe;0xebcbc1b9df153;0x5cd04f0d0d00b;0x98f0a2d640213;0xbde90db4e6a89;0x9ddfa89f7cfe;0x58df3a6482ef2;0xcf3460f746729;0x6747a76da124a;0x2d38685d2ee];[0x79eef5048a31e;0xcca5f024f4425;0x4ea60677128fb;0xcb18b6428f77a;0x3bb9332e2c9e8;0x79e2642adc25a;0xc403db6f3d1b4;0xb1e8fd2dfc8af;0xb6f162634f53c;0x39eb048aca1];[0x79eef5048a31e;0xcca5f024f4425;0x4ea60677128fb;0xcb18b6428f77a;0x3bb9332e2c9e8;0x79e2642adc25a;0xc403db6f3d1b4;0xb1e8fd2dfc8af;0xb6f162634f53c;0x39eb048aca1];[0xd79af298b44b8;0x3af3f9b98aa5;0xccbeef8ad297d;0xfcf56222e3890;0xabba4139c5701;0xd2f7c5966c8a5;0xa4b44c226f7c4;0x18849cecd3da1;0x8042343e1e54a;0xee4e6f1e67f];[0x42ea967553c0e;0xe81c821e466ad;0x90115f823a68e;0x9bfb40b35c982;0x122ecc7b21387;0x36e634f38b459;0xb42aee421372d;0xb6afc40a72987;0xe705732f82d00;0x3ee9f93ec6e];[0x0;0x645823e4c3b24;0x1d1d66777a9cc;0x28e370867210d;0xc27ddab42e9ff;0x797aee2a086e;0x48eb51afd664b;0x82a0935284999;0x45840b8263703;0x48729a33f48bd;0x23d1017e1d1];[0x0;0xb3702d0261176;0xab15e2cd7865a;0x8befd27a023f1;0x6b83d9cfd3a8;0x834c557f8ada7;0x3d2f40fba80e;0x150c8e4ac3f2a;0x7acdd9e3983c6;0x317182301292f;0x86d0f9c813];[0x0;0x781a16b86f18;0x6d6f01ec43ad1;0xf1b2e1b27cdfb;0x5f5cee765576d;0x7ba5ce7120767;0x75f84df18e0;0x8bf7863d958fc;0xccf3cb9628faa;0xee7ede878209;0x7cacb38063f];[0x0;0x781a16b86f18;0x6d6f01ec43ad1;0xf1b2e1b27cdfb;0x5f5cee765576d;0x7ba5ce7120767;0x75f84df18e0;0x8bf7863d958fc;0xccf3cb9628faa;0xee7ede878209;0x7cacb38063f];[0x0;0x1f496a8d94437;0x7db04f7bb6db8;0x626980a85c97f;0x560a349f1fa;0x8895bed2c97cb;0xf90d9aa3828da;0x1fd43a080363a;0x2e87394d0e6cd;0xbe3da90c771b4;0xbfb7573d5b3];[0x0;0x8f260f7e2991a;0xbdf2369ee7089;0x7b2526c16476f;0x3019574b091c1;0xeff27847490e2;0x90e06c456e2b4;0xe14e71b28ee3d;0xba0861ab56588;0x2c86154eab39d;0x5113b1d8e2b];[0x0;0xb4743f1f32243;0x865be587258d7;0x4c06b39ec3564;0xbbfc1c11efca4;0xc24981edc865b;0x8ffcb58027dc0;0x4c97ec1fbf556;0xc21157c6aaa5c;0x1e4222f15dad7;0x548ba0c9aa];[0x0;0xe78f91379d251;0x58eb7da633b22;0xf2c15a3dfbe57;0xf45446e748794;0xf70f2351ef178;0xb5d9772b1de9b;0x8f95d2ebd3606;0x9df6f7a137247;0xc67219dc647a8;0x9d99594679953];[0x0;0x9a3277156f616;0xa3e8c749b5929;0xfb080a5a8162a;0x930debe21a180;0xbd232ef13c8a0;0xf853b733a7eed;0xc08c37f273435;0xb0fdb665757a9;0xc2e1e2c975970;0x125b5261e4e]]);
 ((V [0xa08d406f17f31;0x6d91a9f748f48;0xf8b5680d3b387;0xf1ccf3b836506;0x696b9d2d76690;0x9e0243c9e99f6;0x34edd03da6b9;0x56ff0c6e578d7;0x349af18a69930;0xfdf7dec74aa] [0xe707d9c92ab55;0x266870684a875;0xac6de9e505a8;0x3c944033e8db1;0xeb7494b1bba1c;0x8ce9ef82ed47;0xdecdd0fca3c11;0xe4837e69a7434;0x55617642174d4;0x93cd5de1e4d] [0x34a1f605859a9;0x6571c9b65b8aa;0xf0381d24b2db9;0xf99596b71808a;0x51dc9e5a1fd06;0x51f132b669e97;0xe7bc5dae5b70c;0xf4a9e22d914d4;0x4eea4e4c5d469;0x105867e21ad]),[[0x23ee7e9fb3b78;0x2d89012acda17;0xf6085eda39ab;0x5c8e5f547e81d;0x1af2ed4cb082b;0x9b258ea17b965;0x3ae9d2589f595;0x365ceaece81dc;0x8dba3b863d620;0xbde2a3db267];[0x688792a529610;0xfc392968c0813;0x89911a6733c92;0x53f977c6dfe6b;0xdafcbd86702b5;0xd3eec4e5ac69a;0x6d19cfb01931a;0x515afedb5904;0xff64dad08ed9c;0x6b939bd3ba4];[0xe0d637dc80602;0x3db514c313ed;0xf094eb8a2483;0xc99695f53555c;0x338f963f8c508;0x57e5187dfc5b2;0xea1a035a54b86;0x913d821f52cdd;0x2eefdf013cc31;0xd8f521cf032];[0xe0d637dc80602;0x3db514c313ed;0xf094eb8a2483;0xc99695f53555c;0x338f963f8c508;0x57e5187dfc5b2;0xea1a035a54b86;0x913d821f52cdd;0x2eefdf013cc31;0xd8f521cf032];[0x13377d172cf2a;0x4c490573e8706;0xe0cb6e3482f71;0x1e8b98bec71ee;0x88a17db8aeec0;0xec76612a4479e;0x4e0569521bd39;0x409696d667340;0xd0fb1fd0e6ac0;0x47e3544984d];[0x5550158dfc6e7;0xaff023f4d810d;0xa8c5ac32b0d21;0x356ddf0818c7c;0x525b3fcdc13f5;0xe77863bb67efc;0x1f14665dfd5e0;0xc47f19174e5c4;0x2e69baffa82db;0x23b0478a357];[0x0;0xf900051fa1798;0xa379d237c92c4;0x89e3f99ce7550;0x5230e6dc006cb;0x79f36451005a1;0x85aa965858c3f;0xa49b118e8e5ca;0xebf27bfd6cdd3;0xb957b0813a7a6;0x862a8dcae76];[0x0;0x8a7d65d4f4820;0xcef0787cd7527;0x752e87fc2cf5f;0xdf67758f0f756;0xce9a8ba2ae8d3;0xf668668ed7376;0x65b17697a5dd8;0x8695ce0279e67;0x71a706b40c53c;0xa0ed0d3b7ce];[0x0;0x9a3277156f616;0xa3e8c749b5929;0xfb080a5a8162a;0x930debe21a180;0xbd232ef13c8a0;0xf853b733a7eed;0xc08c37f273435;0xb0fdb665757a9;0xc2e1e2c975970;0x125b5261e4e];[0x0;0x9a3277156f616;0xa3e8c749b5929;0xfb080a5a8162a;0x930debe21a180;0xbd232ef13c8a0;0xf853b733a7eed;0xc08c37f273435;0xb0fdb665757a9;0xc2e1e2c975970;0x125b5261e4e];[0x0;0xbf3b47fe3a6ea;0x41a530736e088;0xf9fb2e7840061;0xc19551514941e;0x36a88a479271d;0xca4f46225a4c8;0xb3faa46c83371;0x1b556015ae63f;0xb7a56bff014ab;0x6066739b266];[0x0;0xd3144ef125b76;0xbce6e9f5b8ea0;0xffc2c612bea03;0x214b7284c31b7;0xf588899f9add9;0xc6f2ce37966d;0x90874b605fef0;0x8bca8ab9f59d0;0x46547a7aeda1d;0x37edac5c7b];[0x0;0xf6d7589c7e5db;0x47b2a44b37bf0;0x6984cc3f769e1;0x8c76322eaac39;0xecd19c5acaba0;0x13725d2dab3b;0x8bf7389e7d56c;0x910c72e2ffada;0x6cfb6ac11158b;0x6ab90a0958a];[0x0;0x4c79888824982;0x8738034a70478;0xa9b174932801a;0xb434035995748;0x26279188f39cb;0x4d938666b23ce;0xdb249f3e672c6;0x5d5fc3d404c87;0x254783e7bd281;0x94230f30a4d12];[0x0;0x9159f2aa2e84;0x525237aab0f7;0xaf8e080be30db;0x6542f40df1431;0x8e8f6d6fd4268;0x772a9f9ae67ad;0xafab4f1e04738;0x83900de11ff60;0x2265cb634890;0x92a1118cfb4]]);
 ((V [0x9296f67fdc72a;0xdec1650a21445;0x10236fffa152a;0xb76268469bb6;0x827fb6573ca42;0x482877eca0d27;0x304e1a8316405;0x66dcd516ae065;0xd4a510079c83f;0x428a0cefe15] [0xb26aee6dfaf61;0xa6ea9f6a215a7;0xc6715640fd740;0xe61f7f14398ed;0x50c430be56ef1;0x2fe7ee662bb9a;0x8dd7171f3f41;0xaab6352011dfe;0xdd36f00d5ffa2;0xa324047d2b9] [0x39f25c3d33b1b;0x80805b11708eb;0x6872c565070fe;0x17add4ab62a19;0x95243b794ce66;0xb56e045401905;0x5b51a7513daae;0x4f9858a46cc4f;0x98718a0288361;0xaced35bb4c1]),[[0xbfe05b104b7d1;0x26f57ddf70a02;0x80050f872d535;0x21c4215b080ee;0x7aea07e3ebd0f;0x4f8a5fc806b0e;0xdec3abead7a19;0xa196d1c3e9eb2;0xd74f72c1d653b;0xaebb4e04e5d];[0x69fe819f755b;0xa66874a302604;0x12783c2ff0d0e;0x1cd470322fb55;0xfe89c6b6f35ca;0x3658b0559f736;0xd60aa1c332474;0x861dbed5abdbf;0x65884d8a1a6fd;0xbc4fb16821f];[0x34a1f605859a9;0x6571c9b65b8aa;0xf0381d24b2db9;0xf99596b71808a;0x51dc9e5a1fd06;0x51f132b669e97;0xe7bc5dae5b70c;0xf4a9e22d914d4;0x4eea4e4c5d469;0x105867e21ad];[0x34a1f605859a9;0x6571c9b65b8aa;0xf0381d24b2db9;0xf99596b71808a;0x51dc9e5a1fd06;0x51f132b669e97;0xe7bc5dae5b70c;0xf4a9e22d914d4;0x4eea4e4c5d469;0x105867e21ad];[0xaa4f184de8161;0xa599f6cecd1ef;0xab00cb5b57946;0xb902ffbdfc16c;0xcb1934705ccfe;0x573ca18fabb;0xc31a6229ead6a;0x789cc89f6d436;0x4e5766184f62d;0x79183243b25];[0x5c50cfcc0f3fb;0xce7dd435414;0x677770d4993c8;0x63d17074339e8;0x33709246968cb;0x360173b40fc7b;0x12f03f994770a;0xd80f6363e989;0x1730e771cb0d0;0x43377f246fa];[0x0;0x95aef3beb7209;0xdf2592dc52bd2;0xb883cc31a0d9a;0x96449995c2e51;0xcfd9efaef0b29;0xb84d208c6aaff;0xde45fa62614b5;0x24dbae7cb1d75;0x40302e61c3e78;0xa1ba15ea98];[0x0;0xfc29058d52672;0xc5c203b503dc;0x48411e702c202;0x8529beca99515;0xff19255e1df5b;0xbe0da984ab9b7;0xcabf92f64fe9b;0x3cfb3bf09dbd0;0xc102a795cf01b;0xb280c2ad01];[0x0;0x9159f2aa2e84;0x525237aab0f7;0xaf8e080be30db;0x6542f40df1431;0x8e8f6d6fd4268;0x772a9f9ae67ad;0xafab4f1e04738;0x83900de11ff60;0x2265cb634890;0x92a1118cfb4];[0x0;0x9159f2aa2e84;0x525237aab0f7;0xaf8e080be30db;0x6542f40df1431;0x8e8f6d6fd4268;0x772a9f9ae67ad;0xafab4f1e04738;0x83900de11ff60;0x2265cb634890;0x92a1118cfb4];[0x0;0xd079736767068;0x51aedbe818923;0xc765c442ad3b;0x321216cf20bd9;0x22ac4a5945ec1;0x10f877a896fc6;0x1f35b32717b5d;0xf752fb384544d;0x36621ca8fd0c1;0x55557e90eb0];[0x0;0xa86000d7b696a;0x16af5a9abf907;0x96de84b863beb;0x8e17d94591ab0;0x473f919ec7181;0x1f4e49049e5e7;0xceeac47666dab;0x905d074e6f6c1;0x707549a05e7fe;0xfbf3de558ff];[0x0;0xe703d3387980a;0x94a6e27c252ba;0x327b56ab484ff;0x4daa84820f1ac;0x3208d52f8f222;0x6b6749209f1d8;0x801351ec7fab3;0xd34631deeaa88;0x1fdf7d01ffd65;0x30f21836ab6];[0x0;0xd34353e90ede0;0x3831a2173e582;0x40a11f9e6a69c;0xa38712e7d61bc;0xe6ca103b3299f;0x6193b47dee4b6;0x7a5d6889f9e68;0x2756f30a0e040;0x7e5dabe97928d;0xa34f274531376];[0x0;0xf2200227d0bb9;0xb9f2190a4d3f4;0x1eb59d213a970;0xc4d7aec95ca9;0x6125655b765dc;0xa1d583b13f4b7;0x3e526b1851b98;0x2ab3f94e7661;0xc5de1631cfcf3;0x2a6742d13f2]]);
 ((V [0xa68648cfd48e3;0xfa21ab9f60e36;0x7acb1bf2d864e;0xf07b436e4074f;0x30febfd524ab6;0xf311db122164b;0x6573a8bfa41a5;0x10c1dc5b8b0c3;0x7b8f0d298f33b;0xb81fe56537a] [0xeb165af883300;0x8821bdf7df039;0xf85e045bd8128;0xd0565b2cc4cfe;0xd3ac16e9e40b7;0x8449e317dde6c;0x6039dae69678f;0xae44a17ae39eb;0x54e77948a67a9;0x2e59cf3c089] [0xfb4985156a263;0x1d4788025d5d3;0x21bb05bede510;0xa4044f3c21c74;0x9445708c0e321;0xf3a058b3de179;0x94057723c0b62;0x70e9145640250;0x5b755b70ab702;0x34e67f82238]),[[0x3ab7763d8ef4c;0x2773c822d7723;0x3618183f806e8;0xbe93124a99cb0;0xb45ede9e1b08e;0xddb7e408e9f43;0xf94ae0d1bfa09;0xf570f121e68cf;0x1a05bd32b7e16;0xe6225f39bb3];[0xd37caddf6fb6a;0xe8d76d3fdef3;0xd98de52561d9f;0x30bcc21263443;0xeb751994cf355;0x23f6e8d32583e;0x855d71f7d2022;0xaac8e6e713e14;0xfc5cdb502d921;0xbe8b3c68002];[0x39f25c3d33b1b;0x80805b11708eb;0x6872c565070fe;0x17add4ab62a19;0x95243b794ce66;0xb56e045401905;0x5b51a7513daae;0x4f9858a46cc4f;0x98718a0288361;0xaced35bb4c1];[0x39f25c3d33b1b;0x80805b11708eb;0x6872c565070fe;0x17add4ab62a19;0x95243b794ce66;0xb56e045401905;0x5b51a7513daae;0x4f9858a46cc4f;0x98718a0288361;0xaced35bb4c1];[0x865ce9c73beb2;0xce181a4f2a115;0x694c5e12e0af0;0x64971fe90241f;0x5431abb267628;0x95811dadc085f;0x610e0e9f65f98;0xdf20dbd0cfba5;0xf2737f77145;0x3fe001d2873];[0x4d1fc41833cb9;0x40755c84d3dde;0x70418712812ae;0xcc25a22961024;0x97436de267d2c;0x8e75cb2564fdf;0x244f63586c089;0xcba80b164426f;0xfb6a67d0b67db;0x7eab3a9578f];[0x0;0xf649bccdb6ebc;0xa96a5798af3f4;0xf6ee953c64216;0x74bdb9c6f8ef6;0x7a14645b6a5b;0x543a7fdb1f531;0x26bd6e24e4c56;0xc03d60797aece;0x46707da6ea756;0x6af0038ded0];[0x0;0x3d396c6f55596;0xad918eacda92b;0x85969453ed30f;0x47b7dce040e07;0xc0496ef0f04fd;0x8f6269e65820e;0xe0e19fb689e89;0x153b67ed4c278;0x34eaeddf72759;0x9b74561a6f7];[0x0;0xf2200227d0bb9;0xb9f2190a4d3f4;0x1eb59d213a970;0xc4d7aec95ca9;0x6125655b765dc;0xa1d583b13f4b7;0x3e526b1851b98;0x2ab3f94e7661;0xc5de1631cfcf3;0x2a6742d13f2];[0x0;0xf2200227d0bb9;0xb9f2190a4d3f4;0x1eb59d213a970;0xc4d7aec95ca9;0x6125655b765dc;0xa1d583b13f4b7;0x3e526b1851b98;0x2ab3f94e7661;0xc5de1631cfcf3;0x2a6742d13f2];[0x0;0xcf32d27ba6779;0xa33b60efe9710;0xa2d1cd106a213;0xca9760c82db09;0xab97458dee96f;0x8b560aa953862;0x17df453457fa2;0xdb2bdaf4df3a2;0x366336073187a;0x67f6e2c8a8d];[0x0;0x201acda747d;0x84b3357560b51;0xb003227baeeae;0xe2e4ff1ecbddd;0x91290fe71a64d;0xdb01d6db3f4c8;0x6d3e9195bbce3;0x5ad1f45ed8356;0xa70cd3520c878;0x114b791da37];[0x0;0xd380f91701cfd;0x6125d4efc9dc4;0xb7a760de794d2;0xcff99e2e9ac40;0x577ef1c6f7b25;0x1a6e43589e452;0xa8443c0060516;0x8106c8562d2ec;0xef99daf62d80b;0x890bd104f41];[0x0;0xe8da654edf2c0;0xbd51ea909b8d5;0xc3fc995e7668;0x9eed130b39ea5;0xbaad5f58eeb73;0xe7341a01facf5;0xec3dd30934e85;0x7b4e4bc2220a9;0x56409e18a0d3c;0x2e65a92dc2a8d];[0x0;0x42e4e8a1b187b;0x29fbf56535227;0xea2d88b26c6be;0x65aa8536d5847;0x406407e08f3db;0xd76e9d3379c0f;0x37540ee115ea1;0x658f4b31f8223;0x37a6fa29fdd63;0x2156535be85]]);
 ((V [0x4640b3cbc79ec;0x5ed1a9d3a7191;0x59dcb314e4ba4;0x9dda3842408bc;0xa5b3d3872bf0b;0x7bdc0ef88c2c4;0xc264bc27ac90d;0x70366484e34f4;0xaa432de1fa0cb;0x94a24ac4ae9] [0xbd3449dd136d5;0x1602d1eb7f5f5;0xfb6acbe7c322a;0x52a65328bd261;0xf4d65a522a88b;0x3222e3c8eb10b;0x5ede80f6382c9;0xb598c5fc8adf8;0x525a9d771a9dd;0xf04fb73a201] [0x77ad610d7f308;0x76438f966a46;0x408a7ba3c8073;0xb7a5c33e8de1d;0x182c841c2898b;0xf7fa942be7850;0x377da4b1ed3e3;0xe75b99c2f240d;0x16bc34d3d7af1;0x30a8fcd562f]),[[0x550c5abf30118;0x2c747f7c3aa73;0x6e224dfe2a33c;0x1780a2efeb0a5;0x6ca9d53e1f5a0;0xd68902fa174ae;0x2f180569aa46b;0xe6015d6b46cff;0x2459071603112;0xb6e5b85d8f];[0x411c370630aa8;0x8b8f6258b8585;0xeb5fbfda5e922;0x2bdb171d4e7ed;0x9031338e264b3;0xc008b0b19ecb5;0x7788c1c85a632;0xe9301eaeb7a9f;0x4bcc4d74f7ec4;0xb4e7ab38829];[0xfb4985156a263;0x1d4788025d5d3;0x21bb05bede510;0xa4044f3c21c74;0x9445708c0e321;0xf3a058b3de179;0x94057723c0b62;0x70e9145640250;0x5b755b70ab702;0x34e67f82238];[0xfb4985156a263;0x1d4788025d5d3;0x21bb05bede510;0xa4044f3c21c74;0x9445708c0e321;0xf3a058b3de179;0x94057723c0b62;0x70e9145640250;0x5b755b70ab702;0x34e67f82238];[0x61d7e379f2712;0x4b51e15aba32b;0x48fc04b1d1fa9;0xb964c58d71428;0xe5157c8c40abc;0xa17dd69ae45b0;0x11dc827ee79f7;0xbf662bc633220;0x9b03d1cd256db;0x59ddc138c];[0xdf44538c3e397;0x403d80fdfe259;0xa263bb288c979;0x7276518fdd3c5;0xab1bb701e59f6;0x1e8ada16ba704;0x65ac3f4972c3b;0x29c9f2e88487f;0xb0c87ba7d27e9;0xb48dcd7749c];[0x0;0xa266848defc68;0xd134125a75bc0;0x1f6585b82790a;0x5769d2d61cc1;0x35d4bcb51723a;0x8894b8703170b;0x49276d7dbf8bc;0x572ce4674bfe0;0x457cd13489be1;0x20b6a92855c];[0x0;0xea81292506160;0xbc3ab4fb82bb4;0xca4a2d450f9aa;0xa5a93a9ff2a07;0x603d9dbebd4c;0xcd62a7a889c4e;0x310d2fbe43d0b;0x953e5e4dde37e;0xa0f6cc2c7a6cb;0x25cb56ef95];[0x0;0x42e4e8a1b187b;0x29fbf56535227;0xea2d88b26c6be;0x65aa8536d5847;0x406407e08f3db;0xd76e9d3379c0f;0x37540ee115ea1;0x658f4b31f8223;0x37a6fa29fdd63;0x2156535be85];[0x0;0x42e4e8a1b187b;0x29fbf56535227;0xea2d88b26c6be;0x65aa8536d5847;0x406407e08f3db;0xd76e9d3379c0f;0x37540ee115ea1;0x658f4b31f8223;0x37a6fa29fdd63;0x2156535be85];[0x0;0x4f885c2ceb7a2;0x3ac5c1bdcdbdd;0xb8f800e2d6c88;0x6fc2d2d7090f9;0xb6a7d1b0d415b;0x30752022ac053;0xa16d3d29853df;0x6ba97b142b00f;0x5c3f903b2dbbe;0x86465fb529];[0x0;0x1bf778021e4be;0xb5ae954fe29d0;0xc0faa13a42053;0xc62c7358a82a0;0xb6c13ba8ee912;0x39a7471d8971a;0xcf3b04ee532e0;0xea87e1a525304;0x2d210005f24d5;0x846dddbadc1];[0x0;0xf51a1b36a47ca;0xfa81c8f17a4a9;0xd3eee917dcb9d;0xdfa5a0044d526;0xff368b0b63189;0x2cffaf8d7317c;0x8954e680f6d09;0x50c290a940a28;0xca09fe222d2b;0x69089e6cf98];[0x0;0xd5dae5ff6e0b2;0x92341118e88d3;0x2807ab61533ea;0x609142def8c17;0x2dede79e55db6;0x57f3faa7f4744;0x4c4321a2033af;0x88dc1c7a5dcd0;0xfb76f8fbb09d;0xf096356bdcb5d];[0x0;0xb5fbd1deb970c;0xdaecb54d73f2b;0x4255976842286;0x16ffbf073f0e1;0x88f65518222d7;0xc86b9c00e8f93;0x9e0c898ad39ee;0xc5332e19b92cf;0xaf58f3f577e27;0x8b866e8f393]]);
 ((V [0x721da6c91f5c9;0x6abdfb8dec5e5;0x527d48d8b9e64;0x83a45e7c42a8e;0x35c7d303915c4;0x4266d3e329d05;0xeffbe045ce948;0xc6e072a6c1aaa;0x1f29293365007;0x23c1fe20894] [0x51d9f94bbf417;0xb87173e814514;0x665aa08ee55f0;0xb42c7a2401096;0x44250354ccc2;0xa4e20919178fd;0xa3013895760cc;0xdbae1e48933b;0x142ec30879256;0x4899b0a54f9] [0xfe453b5457ace;0x89c1de6d38d62;0x2fabb4af6d382;0x5bf1069fb5d07;0xb74b955ece033;0x31d3ffdddc5ce;0x29c9f4fdfefd7;0xae1846b41d5bc;0xec39cbaac4b4;0x247baa4b6be]),[[0x7837901c732a6;0x6a2c155cb290f;0xc0f1b4ad39510;0x7e64d79c75b0f;0x9378d485456c8;0x15272b7a9ba96;0x39ba3c26b3273;0x3b74c99540852;0xdff8a0bce8ec;0xd6b0005382f];[0x564d9eaf6cecb;0x6ba960cb9fa7c;0x44df8222a21f3;0x33ac6e862e549;0xfc57ae2d1cf6a;0x259d10c45b62d;0xb2cf52440c452;0xb2c644049c298;0xf377e7af221c4;0xeada5fce9e5];[0x77ad610d7f308;0x76438f966a46;0x408a7ba3c8073;0xb7a5c33e8de1d;0x182c841c2898b;0xf7fa942be7850;0x377da4b1ed3e3;0xe75b99c2f240d;0x16bc34d3d7af1;0x30a8fcd562f];[0x77ad610d7f308;0x76438f966a46;0x408a7ba3c8073;0xb7a5c33e8de1d;0x182c841c2898b;0xf7fa942be7850;0x377da4b1ed3e3;0xe75b99c2f240d;0x16bc34d3d7af1;0x30a8fcd562f];[0x6ca7fbff7aff7;0x1054a12ecc98a;0x7ddc6688440e8;0x90fc6416e050e;0x1250901dab557;0x7114b6c341ce5;0x27bbe0320a08a;0xf9a9cf413f1;0xfc948244b3851;0x45245e96f86];[0xe9a5a2aff1ed5;0x5b54bf9cd30f1;0xc7031b9a5e10b;0xa2b00a6f4e03a;0xea071e0f71a12;0xb4885a0119948;0x8b137212023c7;0xb1cc9a355aea7;0xf6e3656a6e973;0xa5b60137a5e];[0x0;0x86bd5a472a156;0x67ce0fc84cc0f;0x84f7ca0a13662;0x3690209c083fd;0x8f01da5cf5732;0x41d8c3de66454;0xfe86c0adc41ee;0xa111ae1deb286;0x6d91234a48a1f;0x1e1761f9b97];[0x0;0x2803d4213e873;0x84f4c706235e8;0x33d5e5927dede;0x28b59c91bca72;0x230f853c9c615;0x6000634b27c61;0xa4cf4bac26185;0x3a78cdae2ab50;0x768a247e820b8;0x28ceb798131];[0x0;0xb5fbd1deb970c;0xdaecb54d73f2b;0x4255976842286;0x16ffbf073f0e1;0x88f65518222d7;0xc86b9c00e8f93;0x9e0c898ad39ee;0xc5332e19b92cf;0xaf58f3f577e27;0x8b866e8f393];[0x0;0xb5fbd1deb970c;0xdaecb54d73f2b;0x4255976842286;0x16ffbf073f0e1;0x88f65518222d7;0xc86b9c00e8f93;0x9e0c898ad39ee;0xc5332e19b92cf;0xaf58f3f577e27;0x8b866e8f393];[0x0;0x958c0295aa0ae;0xffbe4d885aa6a;0x369acab0705e3;0x4f11c882e79c8;0xca1124facd4b1;0x4a7aace4b4a84;0xd9e93435e96f0;0x54f4c5acbacc0;0xb9abc7c3b44ca;0xe195905f952];[0x0;0x37de9933b136d;0xa2f28c2c48c1a;0x813dcbf9d41ae;0xc21168b3539b5;0x9339a39a78770;0xf49b7532c4135;0x76ad950be1057;0x411430ca30d16;0x6159fdc051ce0;0x564c0d5620a];[0x0;0x2af4b1ce85b04;0x14f2eead00cfa;0xa8f09c47318b1;0x3becbc1f01bec;0x211bd5ed56438;0x2131fea904a0e;0x4a7f0e7d07618;0x4c0f5a181a29c;0x2c296328091e0;0x20cdd2ddfeb];[0x0;0x36b22c182819e;0xc7bc19c2a8cff;0xf51fddafb517b;0xf7ce32d885770;0x5fe89ba30329d;0xcb728920dbdcf;0x2d3b788417f47;0xcf951f257d167;0x4ce56ff89c66;0x489fafec71b83];[0x0;0xe37961f1613b7;0xf6bab818885b8;0xf82f4a52f7d58;0xf9880d0aa9aac;0x663fbbf472da9;0xc6d008fd74c33;0xd25fa28d48e66;0x2c4e188a3164e;0x8e59efd3270a1;0xa2407167de]]);
 ((V [0x85fe130978773;0xad8fd5acd2dfa;0x5ef0742306afe;0xc1e573f3b2f8;0x76cf94eddc713;0x3ef6b99286ed7;0x840af7b5267e8;0x6ffe0db7ff00d;0x526140fd0e2dd;0x13d314d4341] [0xb3a83040f8207;0x62b5490ee5281;0xc8e1cdc5146ed;0x4018022a10ae5;0x6260b92df4e7b;0x7238a68c15b04;0x254940d57474a;0x33c7e93b2ed4f;0x576274841215d;0x1949fa8ac58] [0xc8a9ab46feec9;0x689671c42938f;0x656cd1a5eb5d0;0x1c8a853f9a936;0x956bc29a63d1a;0xafa0883c22740;0xc5342880dc17b;0xf27b03a0fe9ed;0xb6d241929060d;0x2e2555a1a2e]),[[0x66dfac98ab374;0x81c5adcaf736d;0x5118917195508;0xd4d8e263d591;0x27fcabe374e9a;0x5d83e0ec5cfec;0x4504b9dfccc2f;0xfc7cb448bf3c8;0x9684b30d4701;0xe0fd91287e7];[0x768a47e803ce4;0x73aec2b8effe4;0xb24cccf6e3468;0x7249071bc8067;0x6855d2b801e1f;0x3490a4a71236e;0xefad686ae6e35;0xe75f87907c7b5;0xe9fa0760a971f;0x8a5c033a038];[0xfe453b5457ace;0x89c1de6d38d62;0x2fabb4af6d382;0x5bf1069fb5d07;0xb74b955ece033;0x31d3ffdddc5ce;0x29c9f4fdfefd7;0xae1846b41d5bc;0xec39cbaac4b4;0x247baa4b6be];[0xfe453b5457ace;0x89c1de6d38d62;0x2fabb4af6d382;0x5bf1069fb5d07;0xb74b955ece033;0x31d3ffdddc5ce;0x29c9f4fdfefd7;0xae1846b41d5bc;0xec39cbaac4b4;0x247baa4b6be];[0x7b7eda8e20965;0xec7410a3b239d;0x8f858ccdb5e8f;0xe0ca536fc9f9;0x56b2b98d97982;0x8497c89f149e9;0x18b59b78602f6;0xf33b67abafa27;0xceb95778d47b1;0x59a8cb57601];[0xfb0b6d59e3380;0x873ab2153dc46;0x22c740292d5d8;0x643c61e4cb66e;0x11a3192a6a49d;0xaff8dc07fd985;0xd6f7ccf286b3e;0xf4241fe4ccd8e;0x1b40afe7d4f6d;0x30b337e2a37];[0x0;0xa586ca03f85b4;0x7764b295d1e4a;0x9d3bfdcb3533a;0xfd99db4c089c2;0x8d807a0449dce;0xa5a7b7b5e306f;0x44d74220b96c4;0x1e028a5c0469b;0x3df81021996;0x168fa298fa9];[0x0;0xb6bc2532889ec;0x9c815862587ac;0x4e2a4e8520208;0x81f22118c7a89;0x7258ca2e3cd4c;0xe981d4959ef9f;0x4b3304decfa69;0x37de0765bfcff;0xaa93e476d9c84;0x201057e91bb];[0x0;0xe37961f1613b7;0xf6bab818885b8;0xf82f4a52f7d58;0xf9880d0aa9aac;0x663fbbf472da9;0xc6d008fd74c33;0xd25fa28d48e66;0x2c4e188a3164e;0x8e59efd3270a1;0xa2407167de];[0x0;0xe37961f1613b7;0xf6bab818885b8;0xf82f4a52f7d58;0xf9880d0aa9aac;0x663fbbf472da9;0xc6d008fd74c33;0xd25fa28d48e66;0x2c4e188a3164e;0x8e59efd3270a1;0xa2407167de];[0x0;0xef64cfee699f4;0xaf47f9b8fb910;0x81e2dba614735;0xe3ed766e2ba3a;0xb13501eb9d92d;0x5720693313eb0;0x758234f3a2b7c;0xf18fc715866cb;0xe896e3f9e4548;0x1496cfa19c3];[0x0;0x9ede881f9ad27;0xab76cfde05a9c;0xf5a3077238c25;0x13084dd306c2;0x976a19da37a4b;0xf3b7d84243620;0x23398f08c36de;0x565703d978bce;0xb92454cb1f929;0x4fe9e7e0ed];[0x0;0x2f764a7ddb1a5;0x6a0cf28ec11db;0x2544427660bac;0xf4eaec8b2074c;0xbcfe36908a6cd;0xb15ce17e6da25;0x4fa6292ee2c30;0x932d027bc019f;0xdd7811d4b37cb;0xab6e955d7a];[0x0;0x36bd59ed336f0;0xa42220f7026af;0x25b6c487d70dc;0x72c8db1c25d5d;0x96dbf3381b2a;0xb9802092b9f5c;0x2d081e910623e;0xbca46a452b0d2;0x657492fe6234c;0x1955998d59d99];[0x0;0x24f2d68b129c4;0x8b041d4048f94;0xdcbfdb8b4c025;0x1c5f83f69ebec;0x38c2b7d7e7d2a;0xf1ff59e1b65af;0xf4a05b5147325;0x2280ec256f086;0x524d80087c1a4;0x1f557a08b0]]);
 ((V [0x9c42d1302407b;0x9e47bb82bee57;0x9b8d9af353582;0x3aeb53a616f0c;0xf3838697dce98;0xead2a5d31c3a3;0x10edbbf3df888;0x2dc83cac342f2;0xcbed30a221bbe;0x5097bcd5a21] [0xc37d2e3f0067e;0x49e8880a44561;0x363d182bed96e;0xc09fdb50f9ef9;0x1c0b7ef8327ac;0xcacc706ffd37e;0xf1ee949e4b00c;0xda5cbd732a6de;0xb5f584536f783;0x45b765cc2ad] [0xbd8bed679f71d;0x487f596e2af0e;0xe59ea51a43db8;0xf28bf1b2322f4;0xf4fc94b774a47;0xa5075fcd3a949;0x6af77689bf503;0x712c69bc712a0;0xd25f2f03ff413;0x58a71d77f6d]),[[0x23eadef58f5e2;0x557abb07de2da;0x9f664ba5f32f3;0xefe8608e75e7;0x53b95782c599;0xf8ebb22a5b0ac;0xb2a8fbef31587;0x596fb7b73e24;0x950187fe5b5af;0xf6ea0a254b4];[0x3ea3bce9394c8;0xe6f2c8966a195;0x23f4e83b686ca;0x701c75d7105ed;0xa69305fc1e717;0x9c52ea5269afd;0xffe319dcf973;0x918d409685782;0x9849e6ac7af7;0x7ddbb3dc2f8];[0xc8a9ab46feec9;0x689671c42938f;0x656cd1a5eb5d0;0x1c8a853f9a936;0x956bc29a63d1a;0xafa0883c22740;0xc5342880dc17b;0xf27b03a0fe9ed;0xb6d241929060d;0x2e2555a1a2e];[0xc8a9ab46feec9;0x689671c42938f;0x656cd1a5eb5d0;0x1c8a853f9a936;0x956bc29a63d1a;0xafa0883c22740;0xc5342880dc17b;0xf27b03a0fe9ed;0xb6d241929060d;0x2e2555a1a2e];[0x354b21aec0b37;0x9ec2d54e01ea6;0x46ef142f99564;0x4d64a9cd40ee3;0xe059cd5b5d37b;0x5e81b0c02221b;0x90f8c196f447d;0x2b0e46f758a4f;0x423ae36b4a387;0xb75b95dce34];[0x9589b3a78759;0x482ff348682ef;0xdd05d40bcf166;0x22b7cc09cf709;0xc63938a0c139c;0x3dd13992478e1;0x7f057006db4f6;0x667ef99f2cd32;0xc749baff7d770;0xc6801dff4c3];[0x0;0x96977dc9da2a2;0x37f9d4ea24084;0xaf73354d17a0a;0x556702893d9;0x35dc3016578f0;0xe07d452aed76c;0x244072b52ea5c;0xc72d9869ddfe1;0x9e7af4385398e;0x1c89593bfc3];[0x0;0x6ff8427e34506;0xd636e571d8d1e;0x90e0e2805307f;0x60c00b53be77;0xce881248392c6;0x761bd3e7518d;0xcfbe5a4052e93;0x734045706b0f8;0xcfdf80c998051;0x2c82103dc69];[0x0;0x24f2d68b129c4;0x8b041d4048f94;0xdcbfdb8b4c025;0x1c5f83f69ebec;0x38c2b7d7e7d2a;0xf1ff59e1b65af;0xf4a05b5147325;0x2280ec256f086;0x524d80087c1a4;0x1f557a08b0];[0x0;0x24f2d68b129c4;0x8b041d4048f94;0xdcbfdb8b4c025;0x1c5f83f69ebec;0x38c2b7d7e7d2a;0xf1ff59e1b65af;0xf4a05b5147325;0x2280ec256f086;0x524d80087c1a4;0x1f557a08b0];[0x0;0xdf911c8d62f36;0x8e69036ae3f70;0x898ec532b4ace;0xc07f08e0d420e;0x8eb60f6060fbd;0x51d17993e4f43;0xc3302556c6dda;0xc73422d8197d9;0xc0c334592b68e;0x27f884ff2e];[0x0;0x3619d6d1b9730;0x5903738e8e7f6;0x4bf7767a350d1;0x45749f2eeb00f;0x678e136983f6c;0xda1f5e0f90c29;0xe35df6c483dff;0x187215c8c6ded;0xad68d5afde0ed;0x1890322d73];[0x0;0x63e13ee88dcf7;0x9dd1fc7750a81;0xa09b076482b61;0xc3ce19d19aa27;0x90f5fae17e88c;0xd56315ca5a59c;0xa239b9a678d8f;0xaa08f7b6872f1;0xdb730b4348711;0x279f41a2454];[0x0;0x77bfc188fe9cd;0x6e753fec9763f;0x7cf5cab4701d0;0x28702beb9622d;0x6f5c25078779b;0x30369dfb9ab9;0xdb669ab80895c;0x2d9727dca4bc2;0xc021c332c1336;0x45dad6d0630ce];[0x0;0xbb350ecec12b;0x1d70849b46398;0xfcdd432bd49de;0x4ad2b100b5692;0xb68f1577500ed;0x3552a63db745a;0xfd166b12f8f0b;0x35a71e583bb7c;0x159fb81298d59;0x15f2a269b55]]);
 ((V [0x49602e45d0a93;0xd9c589221a880;0x435fd99b76e57;0x36b51488f7766;0xaaff17f50958a;0x9ab4970bf8f60;0x567f4fb7299a6;0x17622e8ed2abb;0x8e77d41675bdd;0xea44a134fc9] [0x754184c1eac3e;0x9803402f7cd15;0x67b9fa4a25367;0x31b3b20ca963c;0x5b7ef92221d82;0x6bee5d06c0c1;0xc84d8b8b8f00b;0xf14626a10de9b;0x5fd41e105b854;0x6b3633829e2] [0x808ddf052f857;0x19692911893c;0x107c5610ac294;0xfafe16cb51974;0xd1c972cf5c677;0xf6b2c044aa16c;0x9d714242b5bb0;0xfeec94096d7db;0x11eb4b72c83b3;0xefdd83a7f44]),[[0x8c7af366ad955;0xc1bd0e6a0f476;0x93a99662c3996;0xedeee0d6c34a2;0xb8a146ba1d174;0xe84f30bd55930;0xe6ff778f2ff8d;0x7e54accad5494;0x44029a2104536;0xef20eedf7a8];[0xc031181919cbe;0x4640acbf1cf49;0x8139ed51fae5e;0x8d67a8254bcdb;0x67db31a1c585c;0x22c31696b034b;0x53e7700ce1533;0x330d785c6735a;0xe8d8048f7f526;0x8467f311c5d];[0xbd8bed679f71d;0x487f596e2af0e;0xe59ea51a43db8;0xf28bf1b2322f4;0xf4fc94b774a47;0xa5075fcd3a949;0x6af77689bf503;0x712c69bc712a0;0xd25f2f03ff413;0x58a71d77f6d];[0xbd8bed679f71d;0x487f596e2af0e;0xe59ea51a43db8;0xf28bf1b2322f4;0xf4fc94b774a47;0xa5075fcd3a949;0x6af77689bf503;0x712c69bc712a0;0xd25f2f03ff413;0x58a71d77f6d];[0x428794e1d5dbc;0xbc89643a180c5;0x76c0bf69e9e41;0x146b14e4a050f;0x4f556a1fb77a5;0x37a4154413a74;0x55ab300cf579;0x9c97c4866078b;0x7b35759b132fb;0x74cca001bf1];[0x7da9833743f03;0x89b7488504e84;0xa792de81101c;0x78fc9340ab7cc;0x1885c7820e0b7;0xeb1f01529c8d7;0x4e8cbd0c11fb9;0x9675b3d606bcf;0x6da28ef46c22a;0xf9b531006c];[0x0;0xef97d2cf5d56d;0x8832343d66034;0xff14ddc3affaf;0xe5a301577c375;0x9680b0ef59274;0x651670c16a806;0x127315f2e6063;0xa74bad538134f;0xe7fb5fb5838c8;0x36d2a02753f];[0x0;0x88cf2b4a07005;0x209a8a3946c59;0x5b53f315d78cf;0xadba1e0757e74;0x9a093423c14fe;0x3878be7523a69;0x119a1b1322b83;0x3c08f7899fe64;0xcf582c0576df2;0x52cf6c1f6fd];[0x0;0xbb350ecec12b;0x1d70849b46398;0xfcdd432bd49de;0x4ad2b100b5692;0xb68f1577500ed;0x3552a63db745a;0xfd166b12f8f0b;0x35a71e583bb7c;0x159fb81298d59;0x15f2a269b55];[0x0;0xbb350ecec12b;0x1d70849b46398;0xfcdd432bd49de;0x4ad2b100b5692;0xb68f1577500ed;0x3552a63db745a;0xfd166b12f8f0b;0x35a71e583bb7c;0x159fb81298d59;0x15f2a269b55];[0x0;0x315f6a39f9578;0x4604429b73016;0x4d103194359fd;0xb11ad27afc71d;0x89315510fdc8c;0x8115f3878f134;0x7e035d10e0429;0xdc5fca3954437;0xa43ad538ae893;0x12fc6042c17];[0x0;0xfbfe3ff7e1b3a;0xf65994d5a2609;0x80afc5e7c5d7b;0x2777b1b3a91e4;0x8bd10ef2e255c;0x2f09f7d671ca3;0xe387ecdc228d0;0xf1b3f970956f0;0x1ad8e660f2c61;0x195f2ff5d4a];[0x0;0x4f79c4aed06f5;0x307236c35d776;0x22a4703a7236b;0x9c3955075b4e7;0xaee92c06fe842;0xf70ede8028b55;0xbd64f7a94d9fe;0x245458596efaa;0x6f23a6737969a;0x792a832b973];[0x0;0x60a47d79431b4;0x6a9dd1e1641ad;0x3e65d1c2fdd90;0xee997188d0d2e;0x670a8c855ce4;0xdba05a6496cf;0xf32299ac8ff77;0x427cd9256fc88;0xdb592b64a0d42;0x6b69f63af6cca];[0x0;0x3db4d31de6a5;0xfe4b9ee046e29;0xec28ba341b340;0xd5ad210fe606e;0x9c5fbf87f4211;0x14693534a0931;0xa4bc492d08606;0x617d94705c52d;0x1bb6907be3b9b;0x621c48fe5a7]]);
 ((V [0x5bd3dd2df9869;0xe0ecd8b6f18b8;0xbb9407eea1159;0xec99cff4bf36d;0xb3843d92c64fc;0xe985bfc20ad97;0x7559d62f2bcc3;0x80353a391ed1f;0x9fddbcf5b1ce7;0x514aa297c17] [0x1617b91de1214;0x6d8c6147dc19d;0x4132587565fba;0x9551d86236101;0x92121259dda7b;0xd978a2577829b;0xf38b55f8d66dd;0xf7cdd704034;0x60e2d36a156a9;0x3bf40c28270] [0x66b632526d0f7;0x8eeb6a0b08404;0x651d3dd8ff83a;0xad01786fe8785;0x3977d789a003;0xdac925c000f79;0xb419846bdfd56;0x2858a04183d3c;0xca74cb47e8ea7;0xe1838085876]),[[0xfef3d24b9ee13;0x5052e8cbc3935;0x34ec9ffcf203b;0xdeedccee1ceba;0x67ead4c890ee;0x279c1e7760766;0x7cdf3029d233f;0x95ef8f9abbe6c;0x93a099c6c134a;0x1e194a93aa9];[0xc1adefa91ca44;0x5e82bb13add62;0xcc28cbc2471c8;0x8bdc7d8d9fac6;0x4227b9f5b2c62;0x33979263a1587;0xe0aee95b899e;0xb56dc808d652e;0x9337d463f3698;0x1d229549033];[0x808ddf052f857;0x19692911893c;0x107c5610ac294;0xfafe16cb51974;0xd1c972cf5c677;0xf6b2c044aa16c;0x9d714242b5bb0;0xfeec94096d7db;0x11eb4b72c83b3;0xefdd83a7f44];[0x808ddf052f857;0x19692911893c;0x107c5610ac294;0xfafe16cb51974;0xd1c972cf5c677;0xf6b2c044aa16c;0x9d714242b5bb0;0xfeec94096d7db;0x11eb4b72c83b3;0xefdd83a7f44];[0x10b8458ecd20e;0x39b52364ca685;0xcb06ff5ef6ad9;0xc89f06b61d196;0xdd629d30a66f;0xa16a4231639c4;0x46678ef0117ff;0xc4fae624bac08;0xc8e7e029e154c;0xb3b4437b8e1];[0xb0f5aa1a4f5fe;0x24cd97aee36dd;0x121cc63506ef;0xc33d76d782930;0x34519022a85f2;0x922d50323dbc3;0xc7a35fa5a719e;0xf072e1e41b925;0xca4ff43a1214b;0x696e51cd751];[0x0;0xac83eefc372fb;0xc0582abc6b6b9;0xa710e8670505e;0xabbbd2091530e;0x68b94bdd0438c;0x1040c97d3d6c7;0xe3606343fe8cd;0xd26b659dec0fa;0x216003e0e09e0;0x94551443f0f];[0x0;0x3ef85c93fbc47;0xcf854de676aa4;0x9d007a7be29ea;0xa55abe9eb1d48;0xb6c48443a31ea;0xd12d5d62f3fc4;0x74fa7ca8d1296;0xeaf5f942ff70b;0x4d33aa2420ce;0x1c33a7efee2];[0x0;0x3db4d31de6a5;0xfe4b9ee046e29;0xec28ba341b340;0xd5ad210fe606e;0x9c5fbf87f4211;0x14693534a0931;0xa4bc492d08606;0x617d94705c52d;0x1bb6907be3b9b;0x621c48fe5a7];[0x0;0x3db4d31de6a5;0xfe4b9ee046e29;0xec28ba341b340;0xd5ad210fe606e;0x9c5fbf87f4211;0x14693534a0931;0xa4bc492d08606;0x617d94705c52d;0x1bb6907be3b9b;0x621c48fe5a7];[0x0;0xf70daa24a035a;0x4e1f212e568df;0xcb89514c635ce;0x359690d623794;0x7d32ac1cd38ce;0xb82a45db1156a;0xd730593af029a;0x1820df3367a18;0xbc7640d161752;0x2ce65a88f5a];[0x0;0x5e2a6a6838e3d;0x2d2728e7c0aba;0xe4e546f386ec1;0x1208e2de0bc80;0x5a062e707f2da;0xfb4cd5e020321;0xe99cc07526471;0xde91c36aa777c;0x1691be0a2ad11;0xd661891ae77];[0x0;0x1f8a52e39e169;0x74c8cbdb3a50f;0xc7b198d3b61cd;0xbb9eb8a4e0c66;0x964021ce7763b;0xb0a50794b4314;0x56093b7e7d272;0xd70f2c2c1e092;0x33eb76b6bccaf;0x9406fbc690];[0x0;0xcb10cb5a00ebf;0x951314c8fb10d;0xaf97d197326e5;0xcfef85fd0ebdc;0x4a591b7643de9;0xfb0d88c929910;0x9744b2c1c9a78;0xacc62d2e23811;0x745470d5ce0aa;0x3c292d758edee];[0x0;0xddd3fe9a4a0db;0x8bd54a2ff3d0c;0xe307c6650a89b;0x186facb74902c;0xfb013ec71a96f;0x2a06136a6b4dd;0xb2494103867cc;0xb24ea2ac35846;0x85594efa5941c;0x1309b27831e]]);
 ((V [0x44480c6896eec;0x34ecfffec6c0e;0x82e5842b8759b;0xd0645b8c755d;0x814b2f054cd39;0xdbaaed7e0047;0xdfd4e1913b814;0xc59127062eb42;0x6590488a77a21;0xa6874a73fc3] [0x4a52c1c25d1f5;0x57e44e8266fe4;0x116699b34875e;0xf1acbc39f9292;0xdfba7a79fe10c;0x74a6b4b2f04ae;0xf4da47df7b2ba;0xe79aadd124794;0x44b2ffd3c30c9;0x5c2393c1112] [0xdbc7714b8c48c;0x76dd24faabe2f;0x852f256f4f05c;0xd948033416d30;0xa114b37bf609;0x8682726f8176b;0x1607cde84b71;0xff0e505bb224c;0xe91c45b3cef0c;0xe56027f21f9]),[[0xdacb3f35b8781;0xefd2bfe15376d;0xad59e85a418b0;0x7dd8bf6d5a9c2;0xc18f9fb8beb28;0xd0c4e044f3936;0xd1a8001ca5beb;0x6b4a19e9037a1;0xa486a9cb389d8;0xd8f0642b4fb];[0xc1030960df79d;0xdef2917efe8cf;0x2f24f6a46c9ad;0xaf28c30d886b4;0xe66eb8a2cebdc;0x1523a550f13c9;0x8435e34ef9243;0x6832591d9a2ea;0x83193c34a0bf4;0x79061c4778d];[0x66b632526d0f7;0x8eeb6a0b08404;0x651d3dd8ff83a;0xad01786fe8785;0x3977d789a003;0xdac925c000f79;0xb419846bdfd56;0x2858a04183d3c;0xca74cb47e8ea7;0xe1838085876];[0x66b632526d0f7;0x8eeb6a0b08404;0x651d3dd8ff83a;0xad01786fe8785;0x3977d789a003;0xdac925c000f79;0xb419846bdfd56;0x2858a04183d3c;0xca74cb47e8ea7;0xe1838085876];[0xea2f75533f6fd;0x5585041b3ea00;0xc68a9677d930;0x7bcf808623dc9;0x8d7cf97a4ada;0x967b5f1e88974;0xd663761e2fe73;0xeab1e21b0e283;0x525e701f14232;0xab174d1934d];[0xd6d3940d9fe68;0x896d8d63bfece;0x22bc4d3cef07d;0x33594287648eb;0xdd96e90b2a102;0x7ea8463268a55;0xadd26d30c93cf;0x7d8077028c066;0x30bacc158c9c1;0xcdeecf2e440];[0x0;0x5e704517d1dd9;0x31083539e4e13;0x9b5766aefd79e;0x887e30f87c49b;0x13dded8282685;0x406bd16c772c1;0x116f4b5a40451;0x84ecb3b34827d;0x4c27956c3e8b3;0x8b75134f2db];[0x0;0x2a8108c380356;0x9e9ae795ff003;0x7ee39d1030e2f;0xe8f8a4af8e36d;0xfc38767c56656;0x2910a82022979;0x3990755518409;0xa457f140ace4c;0x910593d400c0b;0xbf1ab7f6acf];[0x0;0xddd3fe9a4a0db;0x8bd54a2ff3d0c;0xe307c6650a89b;0x186facb74902c;0xfb013ec71a96f;0x2a06136a6b4dd;0xb2494103867cc;0xb24ea2ac35846;0x85594efa5941c;0x1309b27831e];[0x0;0xddd3fe9a4a0db;0x8bd54a2ff3d0c;0xe307c6650a89b;0x186facb74902c;0xfb013ec71a96f;0x2a06136a6b4dd;0xb2494103867cc;0xb24ea2ac35846;0x85594efa5941c;0x1309b27831e];[0x0;0xac56ae9a5acd5;0x9f1d10fe6eed4;0x1299caec92d64;0x46b33c4e9dfc4;0x5339e4a68b355;0xd6427aa2639e9;0xe7cbd6aaf1fc0;0xbcb3b0167a889;0xaf808a68a0535;0xe0a6641af1];[0x0;0xec608073f120f;0xfafc1d7d04033;0x11213c62939e4;0x8bc206b66dfe2;0x21b76d83098cf;0xdaf9c26776e72;0xf10ef9eaa755c;0x87367f4752229;0xf780011b85f9c;0x19d050a66f6];[0x0;0x797b099140276;0x3a1dd857350b5;0x149ae5ab5c9e4;0xa152e500c6cd4;0x9db5e4cf9a005;0x511bdfe183331;0x88b71863f5516;0x2cad8eaec60b0;0x3fc675390ffe9;0x4eb9ebc1db3];[0x0;0x5f7d5d3b645dd;0x3b595d466544e;0xb1296e93e6ae4;0xcf3b49008fa77;0x1c62bf820a49;0x2dd96ff9e925d;0x5e306fdd87a7a;0x1fffcd9a4bc1d;0x9573ee5627812;0x5c542850f8e04];[0x0;0x850260d82b630;0x6bb2c7a686e30;0xad326f2309e9;0x64537a7ef1334;0x162365794745a;0x48daa6c3dccb6;0xf036b15057edb;0xdb106102e830f;0x556912d422b70;0x3befc35e236]]);
 ((V [0xb4ab444c3c442;0x6949af7f9bb65;0xebde3c04cf548;0x49643aec4fdfc;0xc48a6b0a45937;0x7ba247cb9eabf;0x9ff8a1d2cea8a;0x90d5bffc6bc21;0xd70450c1d40d9;0x678b807050b] [0x1be0e8b43dd66;0xad6cf69dae744;0xd9536f8926630;0x54ec6a7a14d9d;0x66510913cbce4;0x7e1dec2ca7dce;0x331d222775e43;0xb52935aadd9f2;0x2d1f5c225b3f6;0x24e9a1103ed] [0x3b7c2eff85a6c;0x4e8c3923c7b7a;0x8827782f3bf90;0xbc31f1049f2f1;0x89fba52c627ec;0x41871ed06ba64;0x20b0a3b370a50;0xa0f4bb21df1e2;0x1b660b837fb5d;0x441a1fcd6f]),[[0x64c961f0f85fb;0x417570b61ebd0;0x9eb9a279cefa8;0xcd684359ab262;0xa6d749ccd069f;0x665748e9bd945;0x6051c0f7d11ac;0xd2adc317f605;0x31277ad45e75c;0xbbac6b7f7d9];[0xe2debac6340d6;0xeac0487a4fd96;0x274b25d5ee4a1;0xa23fbc76bdaa1;0xd7730e9ee327;0x19b3885c5a63b;0xf63ce825c912a;0x18a99ee323348;0x85223d3225e3a;0x27091bd7362];[0xdbc7714b8c48c;0x76dd24faabe2f;0x852f256f4f05c;0xd948033416d30;0xa114b37bf609;0x8682726f8176b;0x1607cde84b71;0xff0e505bb224c;0xe91c45b3cef0c;0xe56027f21f9];[0xdbc7714b8c48c;0x76dd24faabe2f;0x852f256f4f05c;0xd948033416d30;0xa114b37bf609;0x8682726f8176b;0x1607cde84b71;0xff0e505bb224c;0xe91c45b3cef0c;0xe56027f21f9];[0xab2fac982c22b;0xa4d51b892499d;0xc678da8282ae6;0x1af3567543984;0x60f7f1ac67453;0xa7ee79c04fb46;0xcb73c49143288;0xabe30ea388542;0x4ed56d3f2e30c;0x1d535d7ba74];[0x37af0e2e07eac;0x45eb2cf12b3f9;0x60d24b536b9bb;0x874c66017a11c;0xac7f3f3d86ed4;0x71c50e9c0aaf4;0x2ac9239485ea1;0x6cc6903f9ae06;0x364ccff2f7b2d;0x9b5be5b8ee];[0x0;0xb461010759413;0x5c91e5f9c70d7;0x298ff34db1a12;0x1d9b75806eba6;0xcc92ab7e264aa;0xc2aebdbf48a3f;0x4ce8b78a7e9f;0xbff7f1d75715c;0xa4ccc0340bd49;0x8dd8752523a];[0x0;0x236891b65a422;0x33aeebb40679f;0x4c570473264b7;0x110c1f78976bf;0xda272bed58027;0xcfc28b65e2019;0x6218ad1fd910b;0xe5795aa90ed98;0xfd19d7c64fc50;0xa827ba1a1fa];[0x0;0x850260d82b630;0x6bb2c7a686e30;0xad326f2309e9;0x64537a7ef1334;0x162365794745a;0x48daa6c3dccb6;0xf036b15057edb;0xdb106102e830f;0x556912d422b70;0x3befc35e236];[0x0;0x850260d82b630;0x6bb2c7a686e30;0xad326f2309e9;0x64537a7ef1334;0x162365794745a;0x48daa6c3dccb6;0xf036b15057edb;0xdb106102e830f;0x556912d422b70;0x3befc35e236];[0x0;0x8632a66f41342;0x2d126c3cf722d;0x1d6b8c04d43df;0x5d776079ca2bd;0x1fd28e51f0f8e;0xb7ef689b0102d;0xc6c1f79a16e57;0x5ac506d78fb5;0x41141955ad3d7;0x21299724806];[0x0;0x693b51fe7cdfc;0xba189fa0e2284;0xa7340ac5abce8;0x3497153a10459;0x77931c5ba92e1;0x160597dad807a;0xa0d5360cb9363;0xced164759c5e5;0x1bf1fc0c6f6e4;0x6c53bc0e071];[0x0;0x61d989adf5afa;0x4f9cc431981a1;0x52749749abadd;0xcbd8e1143c411;0x5f17dae79e0a9;0xcd7f0137446cb;0xa8196718f14d7;0xdc887b8466989;0xc25b83067722c;0xfc9efbb62d];[0x0;0x824283ea8a2aa;0xe6953a6f3abb;0xe0554b1e52ae8;0x8869548baaf51;0x2292637c5df3;0x39e06e0a926ae;0xe2c728d6f7840;0x38756eec6a614;0xe60ba7eaad11d;0x2508e9c98b427];[0x0;0x87f0506001f20;0xd0f302522e8d4;0xa8976a47f0def;0xaa9f3883bbe7;0xb0bdf3c62bbaf;0x4868c1cb00cde;0xd2213fd31ac7e;0x8715159aa620a;0xbd877ee9345f5;0xeee1d2cff7]]);
 ((V [0xfe94fbcaece1a;0xd8ecdf9b4ebcf;0xb2a71cc9140b9;0xf860f3c847d06;0x784d946db5a10;0x968c2f5e8d116;0xd55061dc3a875;0xc83596a1f8ef9;0x69682d33a6a53;0xe9c5f00e6c1] [0x792d1cea322ba;0x8c7ea410ddbfa;0x83a673138f0d8;0x1ccf0de3026a7;0xd2a4aef0e81bd;0xb363c4f514bbe;0xc5b0d5d248592;0xb4b99c4df2261;0x179e35df0641c;0x7c49eea39d2] [0x49644a03bf8e1;0xef8af20a55172;0x1be1897761e42;0x9947c2478e5d7;0x5dee1112c0c3a;0x4bc09c5790b08;0xccec63e02d5ca;0x3bf485f4f8ac6;0x51d5595c45827;0xc2d9bd1d23b]),[[0x1c2764f688b8f;0xe9cc2e7f0b6c5;0x63843d50ce8e;0xfbf7d445b32b;0xf36e59f344052;0x3c67502059f25;0xb2cd11ff4ff3f;0x9dbbb492824da;0x54c53e5ab1d05;0x96dc470a383];[0x23bee6a8f6114;0xa7c4566cffd17;0xf6b483f56f023;0x44af080652e0e;0x4cc9ded134280;0xa6da24bced485;0xdc5b0de81e6f8;0xaecd878134380;0x2cb52450b5a5b;0x65ab82cc171];[0x3b7c2eff85a6c;0x4e8c3923c7b7a;0x8827782f3bf90;0xbc31f1049f2f1;0x89fba52c627ec;0x41871ed06ba64;0x20b0a3b370a50;0xa0f4bb21df1e2;0x1b660b837fb5d;0x441a1fcd6f];[0x3b7c2eff85a6c;0x4e8c3923c7b7a;0x8827782f3bf90;0xbc31f1049f2f1;0x89fba52c627ec;0x41871ed06ba64;0x20b0a3b370a50;0xa0f4bb21df1e2;0x1b660b837fb5d;0x441a1fcd6f];[0xe5eadae2aa1a0;0x4753681e3be7d;0x5566ad9d3063f;0xc471e9f5c840a;0x684b93d1b9e46;0xe045113d8cc8a;0x54dff81261084;0x7d70982685c5a;0x968cf74075017;0x9379200dbda];[0x3dd40bc64bd3c;0x6070ee4ec3e99;0xa14dd6583e9e4;0x803d1e108aa04;0xe47e4aff7a439;0xc695137f607fa;0x877b15d5bd673;0x315cef5aae726;0x96282d1040a44;0xd23262be596];[0x0;0xbedd6a452d047;0x916dab38d4909;0x9bec890b348ee;0x84903ed10de08;0xe11c3589ce650;0x9282bc0c19663;0xc0d5716f4625;0xc0ae7f99ba18a;0x34b8b3597ab29;0x2a1d3c9357];[0x0;0x69329776f10c0;0x50482191e5a6b;0x968ba6db59aa5;0x96188a025d419;0x87be9deb5b448;0xc1bfb16d12cbc;0xe622ac97f99be;0xddecb50f9673e;0x70a5d8fa29336;0x2821e7fbaa];[0x0;0x87f0506001f20;0xd0f302522e8d4;0xa8976a47f0def;0xaa9f3883bbe7;0xb0bdf3c62bbaf;0x4868c1cb00cde;0xd2213fd31ac7e;0x8715159aa620a;0xbd877ee9345f5;0xeee1d2cff7];[0x0;0x87f0506001f20;0xd0f302522e8d4;0xa8976a47f0def;0xaa9f3883bbe7;0xb0bdf3c62bbaf;0x4868c1cb00cde;0xd2213fd31ac7e;0x8715159aa620a;0xbd877ee9345f5;0xeee1d2cff7];[0x0;0xa09e3b41714dc;0x5a325fc59d6f7;0x3d09a7c6b830a;0x47d3ad95b0aaf;0x45b9af658d3eb;0x589dabf368047;0xfa03a876c3e1c;0xd88c26c5b9c56;0x316dc65d22b7a;0x5528a83269];[0x0;0x930a6ae291df8;0x291ac031229b0;0xb522cd50d2e80;0xc853a095a9d3d;0x18a1b4a75b8bc;0x32f4fc4a53f5c;0x75ec10ce47e75;0x780440c2f2b32;0xa013aa38ecd5;0x29e18d5f1b6];[0x0;0x8190fe5939066;0x2d0ee00b3214a;0xa490fbaafc89;0x5770492dea854;0x5ff5e5dcbd73a;0x75d6af528c2;0xdbc12560c0aa2;0x72648ecac109a;0xbad0103b030a5;0x5cd7b65decf];[0x0;0xf08fac0a377b;0xa86fbdd5b37d;0x4b8bfb2cd6e5e;0x8957e8e7f95d;0x43f3fa47d2dc2;0x8d498e55a0826;0x5a214c37233fb;0x923ae9da2b9fe;0x62e47ecc3a62e;0x7c94dc2237290];[0x0;0x2f011804d11e5;0x2d10283a3f9be;0x97efe9f915484;0x4d70fcc259413;0x8b1c33c4e188d;0xee32de32f05e8;0x140f383225cb;0xaebb16856594d;0x9fb0f14d6e11f;0x717f63a3de2]]);
 ((V [0xd05e5a6f3e194;0x48bb512a65d1f;0x63bd60777493d;0xb9a87e61436f0;0xd8245533f04e3;0x1e9ea95fd0bb8;0xac50a57f04e0e;0xa7373f88caba6;0x6e7ed14432f53;0xea1f7ee0ee] [0x53be29f6f046b;0x42658fba00255;0x900e8787222b7;0x9db96cd247f18;0x614f4508d3692;0x515d8e8b2b24a;0x6192deaa0927f;0x2da63c770d02b;0xdac647e13ac7c;0xb39c9bc8811] [0xbd33e4ea02cf7;0x4aae9c5e44231;0x5c1beff6e9c71;0xd45590c43eea7;0x263c2fef3f7df;0x423febaf2436b;0x82dba2376fa46;0x884a5ecc669d1;0x45ec5c6b08d55;0xd42e3b446c8]),[[0xe040f3681e918;0x36b66adcda686;0xb5cded631018a;0x437174c7ef414;0x549a132b8dcc0;0x9b3124ccc9637;0x2d74489e2a2fe;0x2f2115366ffb7;0x82d01ba332baf;0x3167d803ca7];[0x88a63cb3c160a;0xc6fd49f27d48;0x474ac6971b38a;0x274abdad7cbd2;0x335be2c556191;0xb1815c50b46bd;0x794c0ed39dc91;0x6eb1f3bc90551;0xead78780adba4;0xd4ec13bc603];[0x49644a03bf8e1;0xef8af20a55172;0x1be1897761e42;0x9947c2478e5d7;0x5dee1112c0c3a;0x4bc09c5790b08;0xccec63e02d5ca;0x3bf485f4f8ac6;0x51d5595c45827;0xc2d9bd1d23b];[0x49644a03bf8e1;0xef8af20a55172;0x1be1897761e42;0x9947c2478e5d7;0x5dee1112c0c3a;0x4bc09c5790b08;0xccec63e02d5ca;0x3bf485f4f8ac6;0x51d5595c45827;0xc2d9bd1d23b];[0x582815d5dad3b;0xbf06ad132a17e;0x9faf4f64fa729;0xbdf58cfed5156;0xb12e5c450c39b;0x3d05f393a0124;0xe3fd960f0a2e2;0xa332739401218;0x260cba8cf286b;0x22332a4296b];[0x307e26dde68d0;0x4d69278bfdbca;0xa79b773220c60;0x695530aea7a7b;0x822d868049df5;0x747b68bd14598;0x954e78c4939af;0xcb7f80288f338;0xc4caccf3bb338;0xb2b8e979c98];[0x0;0xb442127611c08;0x84ef3e6e2b775;0x7ed2f60b7b12e;0x6e8e37aa5bb67;0x5ebc26561ea88;0x9e48af0b6b49;0x99e27000dcfc9;0xafeb2a8a58bcb;0x138c0a8448ba2;0x787ecb1d01f];[0x0;0xc25916b388f82;0xe6211b5947f9e;0xd3c234a249581;0x986aee8e37328;0x7fb04bc430cc6;0x7c694ce54a085;0x66e3c5cb939e2;0x6a546292109a7;0x81d7fa5a00db4;0x259ab73844c];[0x0;0x2f011804d11e5;0x2d10283a3f9be;0x97efe9f915484;0x4d70fcc259413;0x8b1c33c4e188d;0xee32de32f05e8;0x140f383225cb;0xaebb16856594d;0x9fb0f14d6e11f;0x717f63a3de2];[0x0;0x2f011804d11e5;0x2d10283a3f9be;0x97efe9f915484;0x4d70fcc259413;0x8b1c33c4e188d;0xee32de32f05e8;0x140f383225cb;0xaebb16856594d;0x9fb0f14d6e11f;0x717f63a3de2];[0x0;0xb977c27f182cf;0x5440082294583;0x6848979960851;0x5547eb2ca4d19;0xae0c2e2ca5332;0x74b76a0750bfe;0x88030717909a1;0x997895fe8867;0xcabe77e62822b;0x3c57b48877f];[0x0;0x5eafbd8260f8c;0x23feb761221;0x18a831cb17b72;0x202790fd874d0;0x4cc66aad12843;0xc13f3212f3c5c;0xe44922e86b3ba;0x6257915fae449;0xe8438242a40cd;0xd579e805980];[0x0;0xfb441b5b71396;0xa5737099b4354;0xd3840c5076a0c;0xd0364c8482dad;0xbc8498de1a704;0xb30827e9b91;0x813dde8c2d8d3;0x1ae5f7abfc573;0x604f9e0b21164;0xc2b9fc27da];[0x0;0x3f9ff37d3a608;0xd16b59886efb5;0x59a7eac51a056;0x8d0d785cb1c6d;0x563ba17355e36;0xd4d553db6b298;0x22bbdb76cf80f;0x82b703c360e31;0xd79e2213aa236;0xb3bad5110f2ce];[0x0;0x4546dd78038f3;0x42dc08e53bf47;0x6f9ed6fe88809;0xa1aee09d04f41;0x1e84966e3fe0c;0x34fb030374d1d;0xcf04aa5eaf6b;0x7c5f30ba8e2b;0x4ae0428fcbd75;0xa4433f6108]]);
 ((V [0x804aefc2ae0d6;0x4cb2c890146e4;0xe301fe90a5ed8;0x9093f019ad899;0xfa0d412b849e3;0x8e2c57daa1074;0xaea89c3c5ac1c;0x1038e50457b82;0x10625be798c33;0x9aacc57a6d3] [0x4c4eae83bb85b;0xc247974eb754;0xbafadf90d484a;0x1f788312393b;0xb9829fc43de50;0xa2668be72a056;0xf235d8d107b7e;0xeef1e72063c87;0xf5366ab7667eb;0xad2e12f92af] [0xb4911c8ea1993;0x6a8ec04fa06ef;0x1bc01cae8ace6;0xe268e5488e703;0xb1c8880663fba;0x3a036430c2d3f;0x7c15503bbd4b2;0xe7477db70806;0x80410ed0aa469;0x1a787a96bab]),[[0x5e9ac40c9639a;0xaf65c76497d93;0xcb3d6b234edd0;0x1126e40debb7d;0xf882a13d2fdbc;0xead47cbf8fd12;0xe7797cd2d742;0xd96b52041432d;0x2bb4413e708e;0x32b051d1043];[0xc4997434c12e8;0x2928ce5f39e04;0x415de491d34d2;0xf740e4838b420;0xaf7ecb9c94b7f;0xb5a1d6490ce75;0xa6a206b237e36;0x5b3bca194d049;0x167d9df18310b;0x3c80e3b916f];[0xbd33e4ea02cf7;0x4aae9c5e44231;0x5c1beff6e9c71;0xd45590c43eea7;0x263c2fef3f7df;0x423febaf2436b;0x82dba2376fa46;0x884a5ecc669d1;0x45ec5c6b08d55;0xd42e3b446c8];[0xbd33e4ea02cf7;0x4aae9c5e44231;0x5c1beff6e9c71;0xd45590c43eea7;0x263c2fef3f7df;0x423febaf2436b;0x82dba2376fa46;0x884a5ecc669d1;0x45ec5c6b08d55;0xd42e3b446c8];[0x9f37653e6ae2;0xb98c88fe7894f;0x98e099a88af20;0xa220255cd4e3b;0xc9fd57e279d65;0xb35bf1361460a;0xc1a63d5d50791;0x93684c9f97957;0x29deb720555e1;0x78272a00107];[0xbaa5fde0da5ce;0x6f9c4560c14b5;0xa87d4ae9485b1;0x5520bf26b65e4;0xe58173ba1ae1a;0x245e512f886a;0xe4fbc954e76a5;0xc7d37d79b56f1;0xec9ee6d12db29;0xc459b9b9067];[0x0;0xb1f8ff56986ba;0x50003bec9052f;0x8842ea77dc758;0xeb67815b5c74;0x12dcde07c0d36;0xc7890fc7743ea;0xb34a2ca8ab9b5;0xab3553bf18b06;0x3b25e42f4d148;0x833650615b2];[0x0;0x5ed3f52c4e3e2;0x49e5cf9d8332f;0x956cc32c054ab;0xb75eeb8c8c5ae;0x9922b41ffda20;0xea74dfed61028;0xf1869d6f271b1;0xb15c626f5396e;0x424879be51a7d;0x2a032b2bfa3];[0x0;0x4546dd78038f3;0x42dc08e53bf47;0x6f9ed6fe88809;0xa1aee09d04f41;0x1e84966e3fe0c;0x34fb030374d1d;0xcf04aa5eaf6b;0x7c5f30ba8e2b;0x4ae0428fcbd75;0xa4433f6108];[0x0;0x4546dd78038f3;0x42dc08e53bf47;0x6f9ed6fe88809;0xa1aee09d04f41;0x1e84966e3fe0c;0x34fb030374d1d;0xcf04aa5eaf6b;0x7c5f30ba8e2b;0x4ae0428fcbd75;0xa4433f6108];[0x0;0xc1c1418234371;0xdb69118ab57aa;0x807a00674c4b9;0x84083f8e75536;0x174d107b9d2d4;0x57391a62d9c15;0x7fcc66f7fd8ab;0x7ab5919e35a12;0x944a29107240e;0x7e0461a89fb];[0x0;0x72c253665d22e;0x61001c91b317e;0xc4bb5e003db45;0xeeffad55dbf90;0xf0fc4a785bf68;0xa3d64308cd66a;0x79dd7368897af;0x7e1742ae5d932;0xd3deef02ba13d;0xd61d97d32];[0x0;0xc9b617e1fe468;0x3aba3999726ef;0xf3ace3f950f7d;0xb51c293715aa0;0xb6bcc26b0b25c;0x6f43f3e30260b;0xfb5f465983306;0xe55b98bf9bd35;0x10e9ce0ba690b;0x248e5e4276a];[0x0;0x5c6f623e04d13;0x4a01566d433d8;0x4c410bf04f244;0xa79263e331908;0xecb4ede779c73;0x46fad66f1c0c4;0x35b7f6d659b7e;0xe0a52f005deab;0x57769b20247fe;0xadb2530e9b370];[0x0;0xe4568d149589;0xed67579b028b0;0x715be61197f3;0x6d014151ea645;0x48704f18dd642;0xbe480283a6313;0xc282ca965a2f9;0x1862129264dc7;0x30c9b1af1210c;0x68a297f5e9b]]);
 ((V [0x6a44e5557a3e9;0xdbb21443a3b74;0x4bec1bc93ae2a;0xa61b1884b9ead;0x4ef0858ae9851;0xd803c05d51c19;0xcf7f6c9733c5f;0xc6564ec05c6ee;0xb646861b7e6d;0x10060236a15] [0xb08d76f3bec3e;0x6800b1e5bd34;0xe68f070c10c41;0x81c36bbae927f;0x74f72b8123019;0xb8a6125cf2272;0xef985dfe4de0f;0xe340e9fe5edc8;0x7e9eb2919e2ca;0xc2af04f896e] [0x3b068ffd45845;0x8abed1270d3d3;0xa614848737721;0xfec1367560d11;0xfd9bd600bb141;0xfaeaf1fadedd6;0xca2970843058;0x290e24e89756a;0x327ba0a56caef;0x1675ff619c3]),[[0x82a6ea41ee72;0x42297ba67e9c5;0xa71a52c268f77;0xa63ba019a4ae;0x5be4dc29a4a10;0x81811bb533ca9;0x2434322cb417d;0x6fa8ba79e19e7;0x82c7e6b619606;0x88b8269062b];[0xcf71ee118613d;0x361e22e783671;0x277a74d870c5e;0x1d159a0fcdf7e;0x80ec09f234b2e;0x517c84be3f69f;0xfeba95167e26a;0x40ebe1c1550e6;0xb9add59cd182f;0x6e4b3deffa0];[0xb4911c8ea1993;0x6a8ec04fa06ef;0x1bc01cae8ace6;0xe268e5488e703;0xb1c8880663fba;0x3a036430c2d3f;0x7c15503bbd4b2;0xe7477db70806;0x80410ed0aa469;0x1a787a96bab];[0xb4911c8ea1993;0x6a8ec04fa06ef;0x1bc01cae8ace6;0xe268e5488e703;0xb1c8880663fba;0x3a036430c2d3f;0x7c15503bbd4b2;0xe7477db70806;0x80410ed0aa469;0x1a787a96bab];[0x2ec49107f397;0xe7a0dddc8ff2a;0x4b630c971377a;0x5223f6f928fd3;0x4edf82d738269;0x27695562b0268;0xd87d33c444a8a;0xb4dea1954da64;0xd6e333a2da994;0x708570ea7b1];[0xcc85a50106b6e;0x4e7d450af3747;0xdc1768415d4e3;0xcaf1a316a4faa;0x320c871afc8c4;0x2a132f5b8f437;0x263d6152397e0;0x8c0d402c07682;0xe2caa1f9f6e9a;0xfdc5cd057ee];[0x0;0x2100491ce6592;0xb94812270e45b;0xab1a131f86847;0x81926362cc75d;0x8f900124700ee;0x57601eac9afa2;0x307143807911e;0x5c1320a64aa12;0x47181ea5739a1;0x105e90831a5];[0x0;0x9e801064205ff;0x7f8b1583ac286;0x4ff31d4b06ecb;0xf3a41f1bc224f;0x8f3d7434bb8f5;0x50c46784e7e6b;0x9b79bea23b091;0x891c3c25c8bc5;0x4750bd97e2a32;0xe230bb4ffb];[0x0;0xe4568d149589;0xed67579b028b0;0x715be61197f3;0x6d014151ea645;0x48704f18dd642;0xbe480283a6313;0xc282ca965a2f9;0x1862129264dc7;0x30c9b1af1210c;0x68a297f5e9b];[0x0;0xe4568d149589;0xed67579b028b0;0x715be61197f3;0x6d014151ea645;0x48704f18dd642;0xbe480283a6313;0xc282ca965a2f9;0x1862129264dc7;0x30c9b1af1210c;0x68a297f5e9b];[0x0;0x8785bee83852e;0xe3983a4d9329d;0x249c6f11f9070;0x2b172306dbedd;0x2e391e83b5780;0xec410eb0e6852;0xb3b4bdd7a129f;0x5ea85439fc979;0x870b50471add;0x75274def971];[0x0;0xa2a4c5049f4da;0xd0e160bf00c25;0x91e0922877549;0x460ef222f5bf1;0xc57edf646cd25;0x4d06a92f2cd43;0x465412b068a15;0xf08eae0974dca;0x75bdf60a4ebc1;0x5d745231403];[0x0;0x99a57d8339578;0xb3e6dc838c4d0;0x7f75e9214b152;0xe769a3c3230da;0x2ff9264d96c10;0x1ca9fafedda22;0x4cfcdd34bb2fe;0xc3b3ce6d23e3f;0xb9e85741787f1;0x6e74a96931];[0x0;0xd8868ab753f76;0x1bf426351e6d2;0x8d7dcbaf5962b;0xb50e85d350f76;0x113dd61355015;0x3b71a34c6257a;0xcdb537169fb15;0xbf351680bc522;0x95a6ff1c17b40;0xc31dd3910c056];[0x0;0x6558430787c8f;0x5b3dcf1013498;0xb0db69811e727;0xd5a997f9c50a7;0x5cfe2c1179d61;0x9ca4f8cfada9d;0x73d1f473d24ac;0x453fdb82a68a7;0x4791bc6cb61c2;0xc2f821890e]]);
 ((V [0xfeff1543e3146;0xc6a32bfdad976;0x669a1f153372c;0xde9e15dff62a9;0xcc6316fe1180a;0x2ac6550868cbd;0x61bca409579a2;0x530154213e41a;0xafbacef67da3c;0xa4e56588e15] [0x87f3d7c63c3d9;0x2947f8674d924;0x4676c1b0c423a;0x1645db2deb8fc;0xfb8f0eba03010;0xd2ca0f7fd8921;0x6cbddd3cd5f20;0x95a0851670b19;0xfae80a0dbe96e;0xb6b4edf9ff1] [0x50529de941e20;0xd1322201a04a5;0x9b852f868fa09;0xfe0eca8c9b042;0x3c4a52e1c92d4;0x4f5c3996e430a;0x59ab599484e60;0x828e0dfa17aa9;0xc1500c70cc29f;0x543526b1070]),[[0xa9d192fcdf1c3;0xb7bf6f34fda33;0xd07f5bd6ff8d8;0xaf8b4c4f8f64c;0x27484b87a00c2;0x4c9475c2fd8c;0xf661c44d846de;0x37b50c3287165;0x6025b2d8250cf;0xf4e410b2f60];[0x4344c44717264;0xbcef7556a3fe3;0xb60ab17604682;0x914857be196bf;0x710028f747fb8;0x7ce5999ab1faf;0x20a5c04877b10;0x51507681d9072;0x3378e7a28df0e;0x164ee726264];[0x3b068ffd45845;0x8abed1270d3d3;0xa614848737721;0xfec1367560d11;0xfd9bd600bb141;0xfaeaf1fadedd6;0xca2970843058;0x290e24e89756a;0x327ba0a56caef;0x1675ff619c3];[0x3b068ffd45845;0x8abed1270d3d3;0xa614848737721;0xfec1367560d11;0xfd9bd600bb141;0xfaeaf1fadedd6;0xca2970843058;0x290e24e89756a;0x327ba0a56caef;0x1675ff619c3];[0xc427203b23b3a;0xbc8d94ca574aa;0xb7362420a1de9;0x85a5139d3a1a5;0xbdb65f069dc24;0x21de47250ffa8;0x580be8a2f31d2;0xb6624111f589f;0xe7f2d59f8ad18;0x598ee050126];[0x7f1da40bf34f2;0x61e08c4cb38;0xfed48d5562899;0xba34420df519;0xb349c9f0aa394;0x5b075275a2006;0xc899d7a58493e;0x9aee356fe37d2;0x4b861203031f5;0xbcc006d613d];[0x0;0xe8fdb8a4b90cb;0xda23d37c09037;0x8f8b260a0cbac;0x541517b77fa99;0x146cfd681696a;0x6ff162cada716;0x282142e5130e5;0x541ee714dd64c;0x65f781d243882;0xde3ca3d33f];[0x0;0x320eeacd4837d;0xb053946f65024;0x1169d8478ca07;0xd1307fcbcb810;0x56c077cb3e53a;0xd63b702f972d9;0x3674fec3be163;0xd415ddf3948af;0x7756f35eab7ea;0x157c79f78f6];[0x0;0x6558430787c8f;0x5b3dcf1013498;0xb0db69811e727;0xd5a997f9c50a7;0x5cfe2c1179d61;0x9ca4f8cfada9d;0x73d1f473d24ac;0x453fdb82a68a7;0x4791bc6cb61c2;0xc2f821890e];[0x0;0x6558430787c8f;0x5b3dcf1013498;0xb0db69811e727;0xd5a997f9c50a7;0x5cfe2c1179d61;0x9ca4f8cfada9d;0x73d1f473d24ac;0x453fdb82a68a7;0x4791bc6cb61c2;0xc2f821890e];[0x0;0x139632a84c5e6;0x61780af86e70e;0xa127005549f41;0x1779b09aca25b;0x13f03876ace81;0x26282da32f3f8;0xad52c87818f24;0x935b40ea6e0c7;0xe85b63366963f;0x940dbb3090a];[0x0;0x8a12a4ccdcde9;0x158ccc2755ef9;0xd3d030ad26a00;0x554825c9b5a2;0x75404ca1776ca;0x9c821b6f03f6d;0x7c405dce749ec;0xca0de39e8f58f;0xe8cbf129e57a7;0x100c06aeeb];[0x0;0xd683dfc46c34c;0xab20ea49f4d60;0x90994b631caa8;0x6fdc4a38e8280;0xdcfe76063b1e1;0x44b6c92483e8c;0x8edf820d52562;0x2856d483ebc7d;0x369e90ae32283;0xe5e8982446];[0x0;0x8ce0f77f24ea3;0xcb5c8ec81341e;0x62f8704253e94;0x755c5aa08c3cb;0x1379a8b49229f;0x8f8e181435364;0xbe8d6e6ea751f;0x9d63233f774a;0xefdd5db9ee228;0xb75bb70b6ca3c];[0x0;0x7eab0bd783e1a;0x67db886531cb0;0x1ca397c35de58;0x162dc66c969a;0xd90f1bc44c6f4;0x3d85d8d2aa188;0x8ec718de42cb;0x4bf02a9588d3;0x985fbbda9cd66;0x75afa0c41ae]]);
 ((V [0x16fc1af74ffdc;0x2254d84349c90;0x49218aeb8cdf7;0x35437e50208a4;0xba70535a934c7;0x24908a4fc062d;0x6c189034a97a1;0xcefbdbf38020e;0xd434c9d40484d;0xcb18bdc8472] [0xad681d258a1f8;0x4c72283a4d320;0xedda9e9337192;0x69d724b6e38d2;0x6b87777d67d27;0x630968b00136d;0xfe3357894febd;0xc7a4c1b993e9e;0x93f40c10fb80f;0x9525e177a52] [0x9bce28a679a1d;0x3886585f7b7cf;0xe4d56140443d8;0x44206905058a9;0x2c37886fcb32c;0x87166575e73df;0xee396406b5294;0x11f6c618372b8;0xb659f9f7e6eb1;0xb7441274d93]),[[0x3217d53523b27;0x3fe29925294dd;0x19c62e101d55f;0x504182f1b1cae;0x96e80c7a5655f;0x125ff365de7d1;0x13c14509eae4f;0x74b46f2f83a9b;0xc76484cd647a0;0x373452e2647];[0xf23e39c69a1aa;0xc9946569af537;0x2c101fbbcb93d;0xd0fee1cac940a;0x7c8584d0b8720;0x99165eadb33ba;0xe3e10d681c301;0xbc9ab49691a31;0xa5975c2c3a82b;0x41f5f3ff863];[0x50529de941e20;0xd1322201a04a5;0x9b852f868fa09;0xfe0eca8c9b042;0x3c4a52e1c92d4;0x4f5c3996e430a;0x59ab599484e60;0x828e0dfa17aa9;0xc1500c70cc29f;0x543526b1070];[0x50529de941e20;0xd1322201a04a5;0x9b852f868fa09;0xfe0eca8c9b042;0x3c4a52e1c92d4;0x4f5c3996e430a;0x59ab599484e60;0x828e0dfa17aa9;0xc1500c70cc29f;0x543526b1070];[0x5aacac3af183c;0x7f0b54b75cfdf;0xfe2e2dc566866;0x17a00fdeb536c;0x12b03e114c274;0xb25a22785c03;0x87c08fea76d33;0x891403698b5ea;0x391bab18dcf2;0x4fe98a6d3b2];[0x97918d8ba8736;0x4a8910b252558;0x2de1f1f6650d7;0xb95ed1ec1409d;0x69d546bf6c4ac;0x8df0bc862d7b7;0x5c207d7da55ce;0x3386b12d06447;0xa205a17aacb39;0xf20c69924b1];[0x0;0xd0670bf864e5f;0x136d7ea7e43ab;0x201aa96cbe622;0xa771a1d4e7f62;0x56156263d1180;0x32be240edc5f1;0x6691f352a2766;0x5d8c45033decd;0x79bc0639493e7;0x3412e90d8f9];[0x0;0x1044c346ef91a;0xd51132601b87;0xa45d70351afc6;0x5b815f9865175;0x698e768f34866;0x4de6d34f5ed91;0x95b1b36d80e94;0xfadce1368f4b;0x79745b2dfd76c;0x1228a15f62d];[0x0;0x7eab0bd783e1a;0x67db886531cb0;0x1ca397c35de58;0x162dc66c969a;0xd90f1bc44c6f4;0x3d85d8d2aa188;0x8ec718de42cb;0x4bf02a9588d3;0x985fbbda9cd66;0x75afa0c41ae];[0x0;0x7eab0bd783e1a;0x67db886531cb0;0x1ca397c35de58;0x162dc66c969a;0xd90f1bc44c6f4;0x3d85d8d2aa188;0x8ec718de42cb;0x4bf02a9588d3;0x985fbbda9cd66;0x75afa0c41ae];[0x0;0x1ed34fc9e60a3;0xd5d961703be5d;0xd920c3f6c4721;0xe30e972d476b7;0x3d4dbec06b2e8;0x8563bd06c8f33;0x728313dbb5d65;0x94d5acba61a6d;0x8a72f3c96a6c9;0x8265c23efb8];[0x0;0x50971aff40a2;0x141aba82d857d;0x224d675109f18;0x2deead55bdfeb;0x5a20c141b6730;0xc5c119074925c;0xefc70d07cd032;0xf4ab22ae0ebe6;0x50a3dd7c44acb;0x6a36b7a62fe];[0x0;0x7afd94e64aac;0xf65f918b50de2;0xd44ebd7d23d9c;0x3900b8b54a072;0xe7b5bf83bfe8d;0xca3c3ffea5c92;0xb129ed5e7ed49;0x7e42514ef93c9;0x6006194a6bb4d;0x34546870af0];[0x0;0xa00435c8124a5;0xcdecad3ca9c3d;0x5af3228b56159;0x3c65ccdf22aae;0xda60942729bb1;0x82ea88320dde1;0x4b940ee2e8e24;0x3c29782e23883;0x3fbccaeef340e;0x9594996f74d20];[0x0;0xb689f3e5784e5;0x67397a4449880;0xab87b9f514af8;0x62bba6d3880a6;0x95fb66e118e2;0xa84c03b76cd08;0x9a9004ccfde67;0xd6491a9b80e50;0x48bd520cb30f5;0x765373e8a9b]]);
 ((V [0x25555e6797a70;0x15e51cdf2c9f5;0x740f154afd25;0xd07d62b337e7a;0x89b4d8d143725;0x150607e95ca1a;0x4287824f203e8;0x16afbaee04b3d;0x205a37ad0dfa;0xbcac15335e9] [0xcd2e1122f9d12;0x9deb49cc3a0f1;0x6120d51e4c311;0x5a29532c56ba1;0xe3975feda4a45;0x617bfc580c719;0xd2e77514ad288;0x69a581825aa25;0x734ab09dbc776;0x94946072343] [0xa58e081ebc0e5;0xc756034999526;0x7610f34dba269;0xbb1f1eaa6a99b;0x726bf373432d5;0x1d16c5347f079;0xf7ad2333c5df0;0x8932331ddd860;0x36f5d0bb638f2;0x92cbb9ddaa5]),[[0x23535e34ed1e8;0x80d790bf60d68;0x54f45a3d828b4;0xb6920bb01a411;0x279e58764e2cf;0x77937064a887c;0x47c27aa468c7b;0xdf7934e747ed4;0xae012384fe497;0x55593d2f0a0];[0xd6c3108b30119;0xb039be6a07d9c;0x3ec50f2ed5efc;0x62f9ed688296d;0xe317cc7e3a62d;0xd1dca47cc4a11;0xc82b267f29f9d;0xb07d89c8c84b9;0xaf5fa47a47a13;0xad2277f05da];[0x9bce28a679a1d;0x3886585f7b7cf;0xe4d56140443d8;0x44206905058a9;0x2c37886fcb32c;0x87166575e73df;0xee396406b5294;0x11f6c618372b8;0xb659f9f7e6eb1;0xb7441274d93];[0x9bce28a679a1d;0x3886585f7b7cf;0xe4d56140443d8;0x44206905058a9;0x2c37886fcb32c;0x87166575e73df;0xee396406b5294;0x11f6c618372b8;0xb659f9f7e6eb1;0xb7441274d93];[0x871a8ba9ce7ae;0x24a5caa667710;0xc006f6ecbe320;0x3ed1c5b8529ce;0x770abf80c531c;0x3016f608edcb9;0x44067cc554e77;0x735af89195bee;0x5f1f61224d62d;0x21bf83b3d9e];[0x4fa884e16196c;0x8b93f3c3a068c;0x7ebe184217bdc;0x242827b02ff9e;0x6c0d0cfd75311;0xa1c5ae73d6d58;0x8424a9b9d5126;0x3d229137328cb;0x50404357fa3e6;0x8b62f43c83c];[0x0;0x980f8c850c698;0xa3f28a390f21a;0xa94054b0f0889;0x3f0c89c54c44f;0xbc3b721e36b56;0xe33211775a655;0xb40d4453c6116;0xaab9801ec36cf;0x162901882b0ca;0x7154d45dc52];[0x0;0x47189130e0459;0x9dbe97e0276e1;0x9e42403d6f80;0x46ec5bfd95e8f;0xa8f6998da4faf;0xd6b69817be1c2;0xd7bd0e30d69b0;0xbdd2bb7a4f6c5;0x5eb6541de8d4a;0x3d197c981bd];[0x0;0xb689f3e5784e5;0x67397a4449880;0xab87b9f514af8;0x62bba6d3880a6;0x95fb66e118e2;0xa84c03b76cd08;0x9a9004ccfde67;0xd6491a9b80e50;0x48bd520cb30f5;0x765373e8a9b];[0x0;0xb689f3e5784e5;0x67397a4449880;0xab87b9f514af8;0x62bba6d3880a6;0x95fb66e118e2;0xa84c03b76cd08;0x9a9004ccfde67;0xd6491a9b80e50;0x48bd520cb30f5;0x765373e8a9b];[0x0;0x726b74061eade;0xf3fabaf411c75;0x1bb38d8c6feb9;0xa65dca27a9b1b;0x89221ee45cde6;0x19c4a28af09fd;0x88ba023e0a475;0x7c5b64715ffc3;0xb49cb218aee8d;0x56e51e10396];[0x0;0x9074e865e073c;0xe0f037e421a3f;0x75ea952c91f95;0x24e5de8567e6c;0xc3bb104fd38dd;0x20f5eae9bfab7;0x5b5c644da9fa9;0xcde83d32afef7;0x77003fa3d9f4;0xa1203f5fc32];[0x0;0xd4f8ff217b3aa;0x1c512e2f49af5;0xb13cf822d494d;0x36a882b78f6d0;0xa3aed5eca7d5;0x73cd680830798;0x8c6bd0543db4d;0x63365560f0f87;0x13961cc5e931b;0x7f99b193abf];[0x0;0x6b716c663ef93;0x94e77d41feba6;0x13ea54e71b8ea;0xfdacf8bf9104;0xc40f7803b94f7;0x2538ebb77abd1;0x995282a13201e;0x9bbd5f4f6097f;0xb001ce86eb403;0x94c4788c27f4a];[0x0;0x476ec4496992d;0x56d26fc53ea57;0x72b54752035d3;0x66c0af376472a;0x467311fda5981;0xca3ecaeaf1223;0x4149c194a966e;0xc77fdcdceed8;0xe5675046bb033;0x6d80d6d2a76]]);
 ((V [0x7f53734fe3e73;0xf09ab6836d4f7;0x7e9be72ee5a37;0x2a43506d462c4;0x7587f1fe1a0fa;0xeeed1a25be038;0x549b6cf6e75d8;0x1272f85750133;0x2a46698c926d0;0xfb852b6e34a] [0x314428c83fa51;0x4801c7e3712b;0x9b697bdd6f260;0x139e71e8e39a0;0x609d3e660243;0xdcb645cddb649;0x4fa985fa7f067;0xd8d546e2fa6c5;0x9a83a3d3c0b89;0xe9e57479cc9] [0x74070eda298b9;0xe379ba918813e;0x5cf8c74b727d5;0x87bbcab85d599;0x47151446634e3;0x312b3401330c7;0xce11d7b91d2f5;0xd6f26729f01ac;0xca0214ef81b01;0x2795cd112b7]),[[0x133473af03f44;0x694f26e3e2798;0xe483e531c91e3;0x83497c5b647a1;0x20b5470ad0bb5;0x6f069022d06ca;0x96d444c0cede0;0x9e9d68538e13a;0x6a4f34c75d45e;0x142681fdfe6];[0x75b50923d4bc7;0x66048004c8182;0x2156f1b8901a2;0xc735c2c596550;0xee0cc6759657c;0x875f47e6cb427;0xf870143d4ef64;0x59d0e922bd9d0;0x16fa7751fefdb;0xcd3a3d84393];[0xa58e081ebc0e5;0xc756034999526;0x7610f34dba269;0xbb1f1eaa6a99b;0x726bf373432d5;0x1d16c5347f079;0xf7ad2333c5df0;0x8932331ddd860;0x36f5d0bb638f2;0x92cbb9ddaa5];[0xa58e081ebc0e5;0xc756034999526;0x7610f34dba269;0xbb1f1eaa6a99b;0x726bf373432d5;0x1d16c5347f079;0xf7ad2333c5df0;0x8932331ddd860;0x36f5d0bb638f2;0x92cbb9ddaa5];[0xc301a610af279;0xfbf7488461c94;0xb3d95f2589151;0x4f4ae2b784795;0xcfb49dc636719;0xeb99cfcdcbffd;0x5ccec8052c3ca;0xa9532396b62f6;0x83777c6308ceb;0xf08ec6a0fef];[0xb2b3631325716;0x6a0d3780664ed;0x6d7d929307050;0x77eae00e11dba;0x1e5828af5fe63;0x9bc57818ff42a;0x9ba14c3822b99;0xb07dc58c076da;0x9382faeef62ef;0xdcab76e33a3];[0x0;0x8b69fa7c93454;0xfb4c617a03cfa;0xc619e640981b7;0xa956b6a77c685;0x43c0dec9667e6;0x2598780900ef8;0x70260d77b4beb;0x3c2067d2c3f66;0x104fd4c19011e;0x5ac73f39755];[0x0;0x2fc3eccc778b;0x54a567921ca38;0x9a4cee50eb1c5;0xe08cbfab67231;0xf353b9a665523;0xbd6f3549c57b8;0x377bbcc5c5425;0x5649fd519e46c;0x62e272fe90bae;0xb8dff4d361];[0x0;0x476ec4496992d;0x56d26fc53ea57;0x72b54752035d3;0x66c0af376472a;0x467311fda5981;0xca3ecaeaf1223;0x4149c194a966e;0xc77fdcdceed8;0xe5675046bb033;0x6d80d6d2a76];[0x0;0x476ec4496992d;0x56d26fc53ea57;0x72b54752035d3;0x66c0af376472a;0x467311fda5981;0xca3ecaeaf1223;0x4149c194a966e;0xc77fdcdceed8;0xe5675046bb033;0x6d80d6d2a76];[0x0;0x875cc7e5582dd;0xd7b63a8127e6e;0x243948cc7cda6;0x7d91965aeee61;0x8e638c73caf08;0xc252679e98399;0x918242a5f42c1;0x50bd6d8df4e00;0x20ed69c7b2dc6;0x563be583b4c];[0x0;0xcd3e670771ec6;0xe159c741f3742;0x34d29708bba08;0x4113f9fb4aeaa;0x257213e0209e7;0xb8f6da15dfd1d;0x6563b56b2089f;0x571796b87cb8b;0xc390270aad70d;0x8b0d32cff1a];[0x0;0x276be4be21682;0x1950a80299394;0x3b82f68a16e8e;0xb25e755c2f75e;0xf256943868fcf;0x4280f9de24428;0xa7fd4066f0cbd;0xc208e6855790e;0x30ab96b388e0b;0xc9a2dc63bb5];[0x0;0x77408399a6fa1;0x3faa10f933ac7;0xd70a4f8991999;0x3af6da88ba764;0x1f54bdb9f7da2;0xbf7f6e2694d23;0xf9121449bce2c;0x23385ecc0abbd;0x2584b5aacab8;0xea13d7f9cffe8];[0x0;0xd7c679fbb5306;0x65bc278acabbf;0xb6112c3bfd612;0xa15aec02b663a;0x7ca1397de05d6;0x44e232fc4e45f;0x6c32ac1c4084e;0xb9ededdcbc192;0x1aa8a67d8e59a;0xe5cda5172a2]]);
 ((V [0x30adbe09e93e0;0x722fb920ff7f9;0x20a79e101a642;0xd84b97b3ffff9;0xbd41f3e1c36e1;0x1d27e8e17e969;0x46daa643d21ca;0x78df3579e966c;0x300920159ec6a;0x299026186e3] [0xe540199a3f3de;0xac1ec92674c63;0x7f114e25e1585;0xa410ed4424eac;0xfb37d34b9808b;0x2c2e5ed5624ce;0xe76d7ac07cd6e;0x5bbf36cc560a0;0x18cd454640310;0xf157fa31a49] [0xc622b28ba3f21;0xbcd64c1838162;0x519e4309ea6bb;0xe821c2693c392;0x4c8dc06df6a30;0xe477c78650c33;0x8b2658bf9c45d;0x3418e61406704;0xea1f1605aaf35;0x58b299f8d56]),[[0x73ffedc711843;0x96121d42b3788;0x38cd6d903341e;0x580a8c9d965af;0x60613c579456f;0xb61c736ffa165;0x5195b8d782094;0xf1eed04fb4dde;0x63099bef1ed2e;0xe7225717325];[0x494f78b261796;0x4cae895b2152e;0x1f4e39412b429;0x2caa875a1abe9;0xed1b5cab91cd3;0xe62cee776a3a8;0xf888dcd09eac0;0xf00686ae15f10;0xd20b4efea672;0xe1059db9935];[0x74070eda298b9;0xe379ba918813e;0x5cf8c74b727d5;0x87bbcab85d599;0x47151446634e3;0x312b3401330c7;0xce11d7b91d2f5;0xd6f26729f01ac;0xca0214ef81b01;0x2795cd112b7];[0x74070eda298b9;0xe379ba918813e;0x5cf8c74b727d5;0x87bbcab85d599;0x47151446634e3;0x312b3401330c7;0xce11d7b91d2f5;0xd6f26729f01ac;0xca0214ef81b01;0x2795cd112b7];[0x970f9ce9f5062;0x5e7533aa0ad12;0xcd498710581dc;0xc1130dd8e60eb;0x5836c70e4c3e6;0x8013224975ab4;0x27829523c4d6e;0xb85ab5bc69b9a;0xad52c4e35b776;0x69ddf906af2];[0xb23fdbc86c735;0xee3955b11681b;0x5204b230d324c;0x6b97798134afd;0x94e4959d458ec;0x6619cc2df48f4;0xd10647acd9d52;0x37abd0f1ac376;0x5fcdf00c8eefc;0x7727a4b2e42];[0x0;0x3fce59f78810b;0x709fe39fd8d1d;0xed6537fc91ee3;0x28170bc0763ef;0xde5e497b81e87;0xe7bc50ebd2be7;0x94a2a277f9628;0xbea7a59a5be37;0x9b85254ec780b;0x187aba41f2c];[0x0;0xb91d7f31c483;0xd95844ab143cb;0xb93a32763e3f0;0x8f775dbad6230;0x8a5b3ce264c43;0x8253451089b23;0x9a96314b3b174;0xd6764e0e4545;0x41341b010639b;0x23bd7b67397];[0x0;0xd7c679fbb5306;0x65bc278acabbf;0xb6112c3bfd612;0xa15aec02b663a;0x7ca1397de05d6;0x44e232fc4e45f;0x6c32ac1c4084e;0xb9ededdcbc192;0x1aa8a67d8e59a;0xe5cda5172a2];[0x0;0xd7c679fbb5306;0x65bc278acabbf;0xb6112c3bfd612;0xa15aec02b663a;0x7ca1397de05d6;0x44e232fc4e45f;0x6c32ac1c4084e;0xb9ededdcbc192;0x1aa8a67d8e59a;0xe5cda5172a2];[0x0;0x1df3376cf64c9;0xfd93e4142d16f;0x48e9d15e54e5c;0xf3241038e497f;0xb4351060347ca;0x8d309e8158b3b;0x88edbb098e2f0;0x344b5f325920d;0x65a7f48e3e951;0xd5b37baf4d5];[0x0;0x3db11dd5f6bec;0x755dee38a6e08;0xef6c7ce7d1caf;0x736ea16d8dfe4;0xfa67f09bc4289;0x6f6360e4122c8;0xe6006da1d123c;0x61c692ad3804a;0x7d47fec076cbb;0xf71e6870431];[0x0;0x51085a5cff2e2;0x445faaa5ef374;0x105f7479194de;0x4e799f0c9970;0x629971c7b0f95;0x15f3cf98360f6;0x197d28c91ce7d;0x49076bbdfbd17;0x862c2446dae40;0x24889ae7bfc];[0x0;0xaa7da13bbfb58;0xf450f8c1d4c26;0x1a5bdcac687d0;0x817aecc0c88fc;0xabb4cae4fff95;0xa9fca7a2f21b5;0x407d38023f72f;0x2d2b050e76aea;0xc478fa4082ea8;0xf1752e8d86c99];[0x0;0x967a6f18545e9;0xec0ac0e1903e5;0xc4f56ef99b96b;0x5a1a0fa5ab92f;0x3a0959da42c62;0x2ce966d3c9a59;0x4a7c72bfccd7e;0xe739dc91c58b8;0xe9714138d5771;0x272efc78c68]]);
 ((V [0xdd9a881c05b14;0xa99a271156696;0x5d8b3540c50dc;0x8ca2e485216cb;0xfabbb718bb927;0x5f3e06e2930ee;0x4e3e6bd365f16;0xfcae9bd50604f;0xb12c08279e719;0x45f20b3f715] [0x6f7212dacf37e;0xdb07815d8815f;0x98c9c5707c65;0x9a73d42851f57;0xbf9e1e96ae18f;0x23e75116d37d6;0xd537a28fa8e5e;0xe67c4923dbd5f;0xea26c0ff93c39;0x2e120c59b7f] [0xcf9d76a5eea19;0xbe1af028b8cc3;0x288ec18cc49a4;0xb06090e393491;0x8c2d1a6a1ca33;0x743c36c36726a;0x91b856a2c2e33;0x1c2faae3fb5d8;0x8b7581b81076f;0x579f40e9a21]),[[0x79eff511fd92;0xe3d9b571989a6;0x335da281e6624;0xfac0e15c56794;0xd00d6937fe9d9;0x30ee8cb4e35d3;0xadea70be8c19a;0x9a52127293bfa;0xa21f83eca4673;0x80738448202];[0x476ebca4bc48e;0xe0cc6081f9877;0x7981e17acafcb;0x39139977573a0;0x39f5c5998c4aa;0xf9d3d89afdef3;0x13efc20abbd1b;0x85336ff72f80;0x8cb110520f8ec;0xfc1d7d7abda];[0xc622b28ba3f21;0xbcd64c1838162;0x519e4309ea6bb;0xe821c2693c392;0x4c8dc06df6a30;0xe477c78650c33;0x8b2658bf9c45d;0x3418e61406704;0xea1f1605aaf35;0x58b299f8d56];[0xc622b28ba3f21;0xbcd64c1838162;0x519e4309ea6bb;0xe821c2693c392;0x4c8dc06df6a30;0xe477c78650c33;0x8b2658bf9c45d;0x3418e61406704;0xea1f1605aaf35;0x58b299f8d56];[0x8e7f0d52389f1;0x4e99e7a229247;0x725790c74e6ce;0xbff1d3777f74d;0xde708c424d93c;0xfef9e637ebfad;0x63a0ec8175dc9;0x27b8594b372a3;0xc656be67baa63;0xf70fc1d0db6];[0xb8efaf5283a9e;0x923278dfd062f;0x72a50b37c8fd;0x7921c5ffd7c53;0x5b8539573eb6d;0xfad9f26311f45;0xb04ed58945f51;0xe09addb43bcdc;0xc65a51ea54e88;0x50dbba9e23];[0x0;0x33cd302a13852;0x7d8b04c99db0e;0x9810cae2d400a;0xc5ddfad2cf25e;0x7de5cb8b9303f;0x8517e82f85fc8;0xcbf2899fd1235;0x44ee099ad327f;0x3f1958029fd3a;0x36d9ba8e7ba];[0x0;0xbb2c4d1fc2c9c;0x773ea500ae5b;0xea675b120fa01;0x270c7e286ce4e;0x9fb38279bfde6;0x6407b591527f7;0x1261d3ca911ee;0x9453fdf6ebf40;0x3ba05e85a0d80;0x2c81530caa4];[0x0;0x967a6f18545e9;0xec0ac0e1903e5;0xc4f56ef99b96b;0x5a1a0fa5ab92f;0x3a0959da42c62;0x2ce966d3c9a59;0x4a7c72bfccd7e;0xe739dc91c58b8;0xe9714138d5771;0x272efc78c68];[0x0;0x967a6f18545e9;0xec0ac0e1903e5;0xc4f56ef99b96b;0x5a1a0fa5ab92f;0x3a0959da42c62;0x2ce966d3c9a59;0x4a7c72bfccd7e;0xe739dc91c58b8;0xe9714138d5771;0x272efc78c68];[0x0;0xe462775e25cd5;0x4ed2c19a28433;0x69d64e62e96dc;0xeaf7298e61d29;0xf91ac7b0bcd8d;0xc1e97250d0790;0x9ae46514b59c9;0x68422a3a42012;0xce5222fc7170b;0xe386c34d7a1];[0x0;0x337dc549fd38e;0xb8155a6e41d5a;0x25cf04eee216e;0xd33252ec7f16;0x2846722ed4a7f;0x2476847e40f6c;0xe736497c31008;0xb8e18e5b60832;0x3929b65dba551;0x6bf7d5eb47];[0x0;0x77046c43546c6;0x721b1d0b6e66f;0x950b2e7b17a59;0x5b602d90dfc9;0xef5bfbcb13aa5;0x35ecd08ad5ae5;0xa7b7064677977;0x41a4edb5830bb;0xea4fceb8521f3;0x44e251c6726];[0x0;0x8e60ed1455dfe;0x76ef466a730;0xcf305c53b93f2;0x928ec053c4ef1;0xad005c1d05e2c;0x1f6d9b8d0704c;0xf2500bf4df414;0x7ed238d451eea;0x529a686f42723;0x2e12bf5349189];[0x0;0xa635f57d93849;0xb8ff537dd7991;0x4271e7cab40ff;0xca420326f3ca4;0xbd5c7c7c275a;0x8fce1456df10;0xcef9102f400ff;0xdfdc6bcbb1a72;0x6d0b6cb185df1;0xc966c6a0cc]]);
 ((V [0x9531a41435e5d;0xa1918d60c9176;0x6a7cf55ccec52;0xac5ae921aac47;0xdbb5919ac43eb;0xe4ceac13caa3a;0xd87e675395c39;0x6b329562c0b93;0x15e5db521f496;0xb0a92838c54] [0x5133bdba81166;0x579c492b8fcd2;0xf749a90640f04;0xc7c886cb18d2;0x71940d74ac94c;0x2c01f3dc7a3d2;0x2028967229021;0xbc58bc5110751;0x1da9a3d31fab2;0xc5ceb3e8b9] [0x92fee94903506;0xe34faed22d82;0xd4223057d27df;0xd723a497f0b7b;0x44bd601f05522;0xf3c866f9f7377;0xdc4a41c0765c2;0x14c6c0fd13922;0xd08f0cebf6d89;0x80bcfea6ed7]),[[0x6c8f0ec036791;0x7edd3832bb201;0x4a82ec7163dff;0xfe1c6f3af4817;0x23d79e6ac34de;0xa51435cd20ec7;0xb40390a85a302;0xd7895be63cb8b;0xf2dd14c9000ab;0xc1ccff4c811];[0xd1df2fe7609a9;0x6b5f2a561838c;0x37f13472bbfad;0x841bc6bf1661e;0x9ce3615045b71;0x48438c0fb64ac;0xcfb01564e2bb7;0xee1cc68a86aa2;0x2f09099e14789;0x2fec6c74dbd];[0xcf9d76a5eea19;0xbe1af028b8cc3;0x288ec18cc49a4;0xb06090e393491;0x8c2d1a6a1ca33;0x743c36c36726a;0x91b856a2c2e33;0x1c2faae3fb5d8;0x8b7581b81076f;0x579f40e9a21];[0xcf9d76a5eea19;0xbe1af028b8cc3;0x288ec18cc49a4;0xb06090e393491;0x8c2d1a6a1ca33;0x743c36c36726a;0x91b856a2c2e33;0x1c2faae3fb5d8;0x8b7581b81076f;0x579f40e9a21];[0x70247fd9fdc1c;0x9a80d7ebdb90e;0x553d772b59172;0x6aad517881bbd;0x36af08531856d;0x87ff3fbee3b51;0x8443fc693cdee;0xfc49aba7c7f30;0xf2627dd62204e;0xb3a867a8309];[0x61bab00d62b55;0xd0de526a3ca7e;0xe2b3bd4762e3a;0x196e754694a60;0x663458fd2d604;0xc0444c50d295b;0x4b6c18fba5dc8;0xf1d31ae2beb72;0x3ca68bc7f273a;0x7c4404ccab3];[0x0;0x4b9cf5f5b4c9;0xb7f867a3b4e11;0x67b240196b1d;0x67dd1a6576628;0x673be3cfa1c2f;0xb229115f14e1d;0xed8eb8123bc91;0xba4988a64248a;0x33eed5a633625;0x362f743a005];[0x0;0x3e2d768b97680;0xbe4de295c7138;0x1b56308a9e5fb;0x5bbf1290a850e;0x18c346907eaf2;0xb14cefca799f0;0xaa8906efcaa21;0x5a20709bdc325;0x3b76b7d8419ac;0x42553a39ae8];[0x0;0xa635f57d93849;0xb8ff537dd7991;0x4271e7cab40ff;0xca420326f3ca4;0xbd5c7c7c275a;0x8fce1456df10;0xcef9102f400ff;0xdfdc6bcbb1a72;0x6d0b6cb185df1;0xc966c6a0cc];[0x0;0xa635f57d93849;0xb8ff537dd7991;0x4271e7cab40ff;0xca420326f3ca4;0xbd5c7c7c275a;0x8fce1456df10;0xcef9102f400ff;0xdfdc6bcbb1a72;0x6d0b6cb185df1;0xc966c6a0cc];[0x0;0x41d2b5959dad8;0xfd352f243210;0x3c5f4af32fa03;0x180e4f2967bdf;0x8f63771a4405e;0xf7c3505270b6f;0x823b6e14414b9;0xf43d5a244b405;0x5eadeff74ead0;0x84a7db5fb5];[0x0;0xe6abc8e37fbed;0x7d8a145369b;0xd16e12d6a3881;0xe0f3bb822a84c;0xdd29094b2b40b;0x74dcce2b2aad9;0xfba5526d31d01;0xea9fd86d2eb92;0xbebc20aedb1f7;0x131c5ee9778];[0x0;0x777c2130e50f0;0x3537f30160fbd;0xf26033d7d7e2e;0x3e5a21758de83;0x379b06ac10e1e;0xe30a99c1498f4;0xb6528a7c3327f;0xafc3c9e60972b;0xd4bb5166fa55f;0x2112352b81d];[0x0;0x3067d8a9809d4;0xbebeb8de03528;0x71fb3564876f2;0xcab47d30faee3;0x9359d53c938cf;0x86a1294af59f3;0x80e4b3babe25;0x419bc17c88479;0xd5af13e7e533a;0xc66f7afb3ec2];[0x0;0xee267d34986b8;0xa1ce5de8eef31;0x65deb06836a69;0xc39360732e9a;0x7c1e4ed57b1c5;0x981c2656d7fb2;0x87d0176502b23;0x67ad0168dc82a;0xa4e3e2d1f1dfd;0x8880d038ed]]);
 ((V [0xd9f6b1fb8314b;0x27d16aa108f67;0xbf17f1a959f9b;0x44ac3e20dc27f;0xf73cdbe190874;0xab965cb6b38b;0x4f71643a27f5e;0x795c5ad4b1a9c;0x6f982f73fffaa;0x677de744ba7] [0xe26442bc9958;0x4ea8a8ef37d8f;0x90502dd4dd558;0x468fd50e29756;0x832c7bb515a28;0x818ca4cb1e8b8;0xa18ebc1fee772;0x469ab823f0b1;0x3876cbd457b5b;0x2b56cbf1785] [0xfde6ba6178d03;0x6590fda425b30;0xd6d111e524373;0x1f2a04c904f20;0x3d9e7ffed2247;0x8b7a243858bf5;0xfa145a43638de;0x13786dc3eaeb0;0xe81b6ddf112be;0x7f2a98a3d17]),[[0x2a04310ba60c7;0x74121638ebf90;0x1d28febcfa22b;0x1b5b5515634e9;0xd96d964b28df7;0x3acb9fbc2caf;0x1d6de38b7861b;0x39f9856ec2fff;0xeeec041aa57dc;0xde00c280dc];[0x4d39a464e16ef;0x95099c880edd0;0x9e5d41bffa9de;0xbd4768ec748ce;0x210ba08e3f1a4;0x904bba45c6ccc;0x4908ae0a0fe73;0xb6a8facd5911b;0x5e1f91afcd96b;0x1518f1c9e19];[0x92fee94903506;0xe34faed22d82;0xd4223057d27df;0xd723a497f0b7b;0x44bd601f05522;0xf3c866f9f7377;0xdc4a41c0765c2;0x14c6c0fd13922;0xd08f0cebf6d89;0x80bcfea6ed7];[0x92fee94903506;0xe34faed22d82;0xd4223057d27df;0xd723a497f0b7b;0x44bd601f05522;0xf3c866f9f7377;0xdc4a41c0765c2;0x14c6c0fd13922;0xd08f0cebf6d89;0x80bcfea6ed7];[0x8ac1bbbe7be72;0xc0f6bd4e37b53;0x1275a1872e5e3;0x979ef6fa3e4b7;0x31030028b5a7e;0xfe039d48bb287;0xe8efcf8c2e326;0x5550ea12096d6;0xb7c73dbe8f249;0xe1d722342ad];[0xc277e8a665645;0xd412df39d727c;0x8be7a038cc3fa;0x25a871f236417;0xf008a06589726;0x92481cfd0ba44;0x6018de7de1b4c;0x615810bb4fa44;0xa65853f13e722;0x3341cf95b6b];[0x0;0x3486cc9382c1f;0xdfe681195a64c;0xfb698e083666;0x8ce138c52d836;0x4192fbae12505;0x52364d2bc6b92;0x999056d0fd35a;0xa452919816258;0x43d29c47f47f9;0x4f9c8e88acb];[0x0;0xab34c61ff156d;0x2b60d242fe93;0x39fadbe2ac813;0x4caad2320301a;0xc34c803f6ab98;0x732f206517750;0xd422ce3fa7dc9;0x54ac119cd2034;0x86d26cd0f97c7;0x6fa446a4c8];[0x0;0xee267d34986b8;0xa1ce5de8eef31;0x65deb06836a69;0xc39360732e9a;0x7c1e4ed57b1c5;0x981c2656d7fb2;0x87d0176502b23;0x67ad0168dc82a;0xa4e3e2d1f1dfd;0x8880d038ed];[0x0;0xee267d34986b8;0xa1ce5de8eef31;0x65deb06836a69;0xc39360732e9a;0x7c1e4ed57b1c5;0x981c2656d7fb2;0x87d0176502b23;0x67ad0168dc82a;0xa4e3e2d1f1dfd;0x8880d038ed];[0x0;0x88f4f2d9c803e;0xf896bb79011b;0xc78f46c1521c4;0x1796c4ca9d1ff;0xea0f4f5bcec44;0x5fb59479f32ef;0x562495a2ef718;0x3471ebcffd437;0x5e0d942ad70f9;0x98d7c7ca3];[0x0;0xaa0ccb0b7fc5c;0xc5a5ea3c1df36;0xac2f2e091cb89;0x8df8367168f1e;0xf9476def201f;0xf92d3f26787c0;0xe96dbd91e2cd8;0xe46e4a7f7a02d;0x1c4ac2dc14aa;0x79e90714308];[0x0;0xfa9437bc19f9c;0x40b0f9b8340e2;0x77fef23f3778e;0xc8e80348bc066;0x3426cbd235301;0x4aeff963889ca;0x307358b4c44c1;0x7f858187ddfad;0x1c604ea631429;0x8876985758];[0x0;0x62f630309d43c;0x4f4817e241b13;0xd186900607af5;0xb222fa6717c28;0x68bb35aa83dab;0x927a06e01f818;0x38fffbfcf9f75;0x7299dde024c1e;0x3b655e56c07f4;0x2b7e90659cfb0];[0x0;0xbf9263098e13;0xc6f1690630dd;0x1d7bc78d8e888;0xeea389f99885a;0x1d87532128ab5;0x847b7bdb5f8f3;0xf0b431817ff09;0x169ca61ea7436;0x7a06a40a9a133;0x11853c96b0f]]);
 ((V [0x4b1fab0e23128;0x7e51b9e925ee9;0x5dec4011d7aab;0x5acdda985c462;0x6a2918c8dc759;0x1b8dd11a7692a;0xe84d20e69d4bf;0x2bc16787d32b;0x1850234afabbb;0x4a10b520df4] [0xe2b845d0d07b6;0xc7665731b9997;0xee06be3f91d59;0x9c6c045ab07ca;0x6a1c9686a73a;0xe066874264786;0xd884c2813c0b8;0x105bc76560d90;0xc96fc4d789e19;0x81043759d58] [0xc6cca77bee579;0x10186d232003f;0xe8b325e54f2bf;0x2c10f3e24f5b5;0x5ea0329f932bf;0x522d742fd2ed0;0x1e575d03c1410;0x41fea42fdd113;0xe78c515bd09cf;0x1aec732d7c3]),[[0x7502fc1e682b5;0x9374367075f56;0x4b729bca96692;0xccec68f062274;0x1486780d58411;0x45d3bb3a98ddf;0x25f060c0fdd58;0x126bde2b9852f;0xceada0db67ec1;0x305295363bf];[0x1b12ba474fdfa;0xdc17cab21e88c;0xfd63a60a2ea04;0x6e6a19da49ef4;0xdff3361b7e794;0xdc37ff372e2a1;0xaab8cf62e53dc;0x15a22a4fbd0fe;0x7c4efc992c784;0xca776ee4f6f];[0xfde6ba6178d03;0x6590fda425b30;0xd6d111e524373;0x1f2a04c904f20;0x3d9e7ffed2247;0x8b7a243858bf5;0xfa145a43638de;0x13786dc3eaeb0;0xe81b6ddf112be;0x7f2a98a3d17];[0xfde6ba6178d03;0x6590fda425b30;0xd6d111e524373;0x1f2a04c904f20;0x3d9e7ffed2247;0x8b7a243858bf5;0xfa145a43638de;0x13786dc3eaeb0;0xe81b6ddf112be;0x7f2a98a3d17];[0xf8864907d6a1f;0x3032fe8fc23b5;0x25eb340b29bad;0x6b8e4c2411811;0xed387c3c4f9dc;0xe0344f760778f;0x88fc457456181;0x984161caa6026;0xa01452f7464b0;0x5061f1dc5b3];[0x228c713f793dc;0xabe4cc225c4d6;0xd77871ff04e57;0x2dbcdb6386e3;0xf2bab9df2edb8;0xfc03afc126b11;0x21bc89ee8f25a;0x7d60c885170d8;0xdc3aa9a1e62d3;0x7a157d089bb];[0x0;0x48df5cdc24ed;0x3e252c50cf7af;0x778b5190bd;0xb559426daaf71;0x595615357ebeb;0xa0ae8d716985d;0xcfcece7270428;0x1cfcafeb150ab;0x63f8911cffdbb;0x4ea3b6d23b5];[0x0;0xdeb0adccefb3;0x44083225d1442;0x13a3237960e65;0x5d8b2d89f92f5;0xe2b2753adbf19;0x108623b1ac25c;0xb14061bab0821;0x583eb0d652fd9;0xd219eb8500e6;0x18010262576];[0x0;0xbf9263098e13;0xc6f1690630dd;0x1d7bc78d8e888;0xeea389f99885a;0x1d87532128ab5;0x847b7bdb5f8f3;0xf0b431817ff09;0x169ca61ea7436;0x7a06a40a9a133;0x11853c96b0f];[0x0;0xbf9263098e13;0xc6f1690630dd;0x1d7bc78d8e888;0xeea389f99885a;0x1d87532128ab5;0x847b7bdb5f8f3;0xf0b431817ff09;0x169ca61ea7436;0x7a06a40a9a133;0x11853c96b0f];[0x0;0x32765f6d32ed7;0xc214c3db035ae;0xbb713c6468d87;0x2e80d404062b3;0x99c791cc2d0c7;0xdf70c7441d215;0xd32d2dc97a634;0xcaecd7db9773;0x1c035c33e5b3f;0x75645f0c72];[0x0;0x55fadf19c6afb;0x8c00e680738d9;0xb581c9ffbd04;0x7453963b3d3b4;0xf91d4969b3330;0xa00105bbbdf25;0x39c750636a0eb;0xfabd455af4502;0x6efed5a2af5e0;0x29d68e04f81];[0x0;0x6881ac8da863e;0x6e34f44e84cee;0xe941d326fd7df;0x44f1ae3ce3725;0x36f2064b0f861;0x935e22ce22bf2;0xa2f8ccb8c264;0x27ce7fc69f021;0xaa8c412f2bbe2;0x3a93bcc58e9];[0x0;0xc924193743f46;0xdc5a1a0d7e804;0x6bf933bc774a8;0xf914cb0c76c9d;0x1523c1af52090;0xc5a3c186ad4ff;0x58b1da854f02b;0x407c2cae5cc6e;0xf8e8619cdc4d5;0x811f320ca990d];[0x0;0x2e1c64d9c5f51;0xae2c239c8759f;0x70e684ff759fd;0xfb4a11409fe6e;0x7828691c51942;0x40d38be9848f3;0x1aea983ee496c;0x1074d587beb44;0x51cf712a92617;0x2553a38bf98]]);
 ((V [0x3c48d465ff2d0;0x766d124c96418;0xdb82cf441a5d7;0x10515c36efa49;0x66d7a4330a3be;0xa0c9e8ce1a855;0x78c7510239097;0xbad3d6b16317a;0x95f8d4cc0951c;0x7c5723f37cc] [0x41b50494c084c;0xe4e5df29be368;0xec9f995859a7c;0xcbd057151ed1;0x578f3b2d1ab42;0x4d75afff040de;0xdedaabc58df9;0x32b9a605340e9;0x5f38eb5ac9895;0x60cd96625b8] [0x4fd6319f2460;0x5b4b635b90f61;0x9b0dd4d04fa9c;0xc89a5b046fe90;0x68d3d7ceb99cf;0x91ffc8684bef9;0x6bf4de0d40a8f;0x5298a519e9b68;0x9a99b751cc12f;0x14cc5ec1f57]),[[0x8af18babc689c;0x3a327c1b80338;0xfe74abd35eece;0x4dc514dd9dd11;0x40b1b289af786;0x54a199a2be70a;0x27d6ca7b6b4a5;0x139c59c52a312;0x906e37c1bcd93;0xff83f458aaf];[0xef5d1170861c5;0xbf4c92e402653;0x5c1adb28a9889;0x3b0fddb0932f5;0xef340895c2bca;0xeb20020c3c85a;0x231034d4dfbab;0xcad3601c15ce8;0x5ce166ee375bd;0xdbb3993c786];[0xc6cca77bee579;0x10186d232003f;0xe8b325e54f2bf;0x2c10f3e24f5b5;0x5ea0329f932bf;0x522d742fd2ed0;0x1e575d03c1410;0x41fea42fdd113;0xe78c515bd09cf;0x1aec732d7c3];[0xc6cca77bee579;0x10186d232003f;0xe8b325e54f2bf;0x2c10f3e24f5b5;0x5ea0329f932bf;0x522d742fd2ed0;0x1e575d03c1410;0x41fea42fdd113;0xe78c515bd09cf;0x1aec732d7c3];[0x89fd830ff1e56;0xeb2146a1a566e;0xb977a967bdccd;0xf64dcb7590470;0x2d02b8bf8a571;0x728a37c5044bb;0xa8eea6b5d422e;0x505c613f98d64;0x35d6f83ff70f;0x8f3fd5faada];[0x655f8e6094370;0xd42b4c425cfe5;0xa2a331c0ebbbb;0x44c2123b02e84;0xc2314fd638658;0x7895ca473839f;0x7a218e1f0b97d;0x7a76fedc7cf83;0x5983f76a37eae;0x4c73c341cac];[0x0;0x92ab2d996242c;0xbc4ba77b40890;0x6ad599d29965;0x6a4fb6426d92f;0x9d3c02b6edc5e;0x6e2bb94bd364a;0xb27f616153fe3;0x6d93b6f76203;0x6899fed548278;0x10a647e43d0];[0x0;0x333fca3d43051;0x432a5e56906b6;0x46dbee4fb27ff;0x3e34c0dfd7275;0x369fe10dbd8fc;0x8dcb7958469ce;0xff862830cf8fd;0x1687a26c0942e;0x2f5841140c487;0x1adf676bf01];[0x0;0x2e1c64d9c5f51;0xae2c239c8759f;0x70e684ff759fd;0xfb4a11409fe6e;0x7828691c51942;0x40d38be9848f3;0x1aea983ee496c;0x1074d587beb44;0x51cf712a92617;0x2553a38bf98];[0x0;0x2e1c64d9c5f51;0xae2c239c8759f;0x70e684ff759fd;0xfb4a11409fe6e;0x7828691c51942;0x40d38be9848f3;0x1aea983ee496c;0x1074d587beb44;0x51cf712a92617;0x2553a38bf98];[0x0;0xcd5bc76dac882;0xc07d35ee69aa6;0xd0972c5cbfe21;0x14c1d1f38b9b5;0x4e55cb88450af;0x15e0df3fe23df;0x12a9d1eb84b10;0x3afdcabbcd150;0xe15d794baa047;0x41053fda4ff];[0x0;0x45a880dfa96b0;0x580a240d4855f;0x63d651070afc9;0x1a833743a0662;0xc5ec2586c167f;0xeaef7e06832f5;0x462abb7156de2;0xd1ba8e4787fee;0x549011fe5bac9;0x156da9ce255];[0x0;0xc8b8e2ebbf6a2;0xd7930c82b38de;0x964ee8a2ca5c3;0x671cd3f5af987;0x4f83e21d7d681;0xfbb721312275e;0xb07aa1ad71f66;0x22e3de3dcd952;0x3c3859f98d3b0;0x6ab5c71ce26];[0x0;0x36483aa29e511;0x94b4b633d13e6;0x4bb5fcb87f817;0x45cc7e2ef7f87;0x21ef3bce8c549;0x18bd91e674992;0x3e7f7b7d6ab83;0xe34d43b3e53ca;0x106f723cacdfc;0x60db502f65d9d];[0x0;0x5e211fbe883a0;0x5cb964f48a2be;0x8276caafd4e3;0x31a17abb000f2;0x59d7212d9206e;0x796dc473a564f;0xe4fcdf4cf0f14;0x26c653330291c;0x6e8c38690f85e;0x2f04884deda]]);
 ((V [0xb2357ca6b8dd;0x941d56832f5e8;0x97d68a1bf3d53;0x88dc29575f3ac;0x83571bf2d03ad;0x2dd0fa175e4f1;0xb724e7d5a261e;0xd3057ad355ef8;0x8fe3c21e756bc;0xd593b791471] [0xb50377be0ec87;0xee95e982c6cfb;0xbfca7bb618b92;0xd31662f3cc6b4;0xe921aea3b1165;0xa6bb0eeae8d37;0xac84fe802035e;0x67dd9f0f09c4d;0x967d5c67a2466;0x77de8e33e71] [0x999f79eb66edf;0xd15684b45fe38;0xe6e9765806bd3;0x5d1dbd202cd82;0xbb9040df8fbdd;0x658aca6dae4ef;0x748fc48d75492;0x896b3c2a195c4;0x2d23226b3bca8;0x230f95f63e1]),[[0x888e4d038bbcd;0x2d1c1b542c1ec;0x8973ecb9b899d;0xc7632fe16d321;0xaa9855a574363;0x40ee5cbc438b2;0x33de11d358d29;0x254a104318766;0x35e75b37ca566;0x8c35629ce04];[0xfeaf152555d35;0xbef591e915373;0x2ed081db56896;0x561a1ace7edff;0x63d07e38d47fd;0x8053fbed6fe74;0xcf4e61ccfc9fd;0x9b4748f085300;0x168299e758b4b;0x98425357740];[0x4fd6319f2460;0x5b4b635b90f61;0x9b0dd4d04fa9c;0xc89a5b046fe90;0x68d3d7ceb99cf;0x91ffc8684bef9;0x6bf4de0d40a8f;0x5298a519e9b68;0x9a99b751cc12f;0x14cc5ec1f57];[0x4fd6319f2460;0x5b4b635b90f61;0x9b0dd4d04fa9c;0xc89a5b046fe90;0x68d3d7ceb99cf;0x91ffc8684bef9;0x6bf4de0d40a8f;0x5298a519e9b68;0x9a99b751cc12f;0x14cc5ec1f57];[0xff757aaf37ee0;0x628911a752e88;0x513bf8ba5293c;0x295bb18d38ca2;0x91449637cda7;0xeed8120edc922;0x431b3445686b4;0xdb0aea108ffd2;0xda94ee9ba5284;0xa585a07700a];[0xff399a761dc1d;0x5c6c8041c24ea;0xdd94892103f5a;0x2cbe69414615c;0x5abc34d557a56;0x917be9de93552;0x8c332d8794348;0xc03c5edff532e;0x3bedab4bb38c6;0xf2bcb2e0735];[0x0;0xc5537c4e54835;0xdc5fbce2f4b2;0xf8febc16196ce;0xaa5ca3c591073;0x4c0b7a6f8c905;0xbe892ce6a2b59;0xf96d92900c72d;0xe0ba968b241d6;0xb1f233dc9c5fe;0xcdc952691a];[0x0;0x10baf27503afd;0xad90cb5954dad;0x1b69b45299518;0x67d02f2ad1a93;0xbc2ed5b799142;0xdfd3dd4510286;0xe789dabbbd97b;0x109b1e12e40d6;0xea52e68a116e1;0xb641a24ab6];[0x0;0x5e211fbe883a0;0x5cb964f48a2be;0x8276caafd4e3;0x31a17abb000f2;0x59d7212d9206e;0x796dc473a564f;0xe4fcdf4cf0f14;0x26c653330291c;0x6e8c38690f85e;0x2f04884deda];[0x0;0x5e211fbe883a0;0x5cb964f48a2be;0x8276caafd4e3;0x31a17abb000f2;0x59d7212d9206e;0x796dc473a564f;0xe4fcdf4cf0f14;0x26c653330291c;0x6e8c38690f85e;0x2f04884deda];[0x0;0x1099528abaad0;0x78bc78cea4a6a;0xafd6faaaf435;0x67bac3c1321c2;0x8898b688a3564;0x7f26401de64df;0x9d75e8bd04af3;0xf1bd9c8833a3;0x2743e4782a044;0x249ad5e3f68];[0x0;0xf88f021332805;0x10d0690385f9f;0x381a7d1f2abee;0x4f892122b0b59;0x9727f67a313ce;0x6ccca2bf5534c;0x999bb6d66c23;0x9ecc676aed5b7;0xe612507a4778d;0x3c64887d556];[0x0;0xd19179d2e2232;0x7a56e234166b2;0x4d4eb75b263b1;0x14babd6cb2d9d;0x6d5bd5ce79805;0x3b88ed5546b60;0x91a6a55d9d19d;0xa05ef300bc2d9;0xac379cac54009;0x7f070a9b702];[0x0;0x7be758597e92d;0xbaefe47ee3eec;0x76cac14d22c3d;0x69368eb063f8a;0xf6474fc31d2c8;0x2db256c99365e;0x1b28f209db1fe;0x289bdfd7cae6f;0x9eac3cdd494a7;0x780f218f456ad];[0x0;0xbc61fcb05d8f4;0xcf40a2d6b98b8;0xcfeb0e7e4c754;0xadc2ed0d6dc03;0x99da22059a2c4;0x6babafb471b09;0x15edd726092cf;0x6b22748db218f;0x5e9ed3f98c5ca;0x64015710f51]]);
 ((V [0x58ccf69ab1cf3;0x6cd501a0d882d;0xa450ee7a9bacc;0x3e249648ef7c4;0x4d6652d925990;0xdc7e16a9fab38;0x8392e1d20f76f;0x79e3ae4e9343b;0x684c4b300f667;0xf8b94e8fe95] [0x73eec852ad0d5;0x38aa9164f5fc1;0xeaa4fd563fa26;0x1838eada1e07;0xdddcf75891bda;0x14ae493ff1bcf;0x9fe3ecaa13a0b;0xa34d8b959e17;0xb09d87981f519;0x98229be24fa] [0xb70b8cb0074eb;0x728bc83efb974;0xfbcac02df1266;0xe11963201a550;0x92d7b449e70b9;0xae9eb7401b0ec;0x418c7e0c6abd2;0xe939253a4a664;0xa0e96ae6f988;0x874ab573ae7]),[[0x1f6f8420e7fea;0xbff8979dc9b7c;0x79817d79691ca;0xef52440808481;0xc7808f8fc251a;0xb78575c063d86;0xb3d1143a2b525;0xe93bf477cc7b4;0x7dcf0dd3c46ca;0xcf896f1f894];[0x5932310f2f48e;0x9ee1bedc5c6d1;0x8e0157064ad6f;0xa232e2c8e789f;0x97375426df31a;0xa891f2708fc46;0x2cd8806dab3ce;0xc553aab382551;0x5bff116935f91;0x7ffd595d74b];[0x999f79eb66edf;0xd15684b45fe38;0xe6e9765806bd3;0x5d1dbd202cd82;0xbb9040df8fbdd;0x658aca6dae4ef;0x748fc48d75492;0x896b3c2a195c4;0x2d23226b3bca8;0x230f95f63e1];[0x999f79eb66edf;0xd15684b45fe38;0xe6e9765806bd3;0x5d1dbd202cd82;0xbb9040df8fbdd;0x658aca6dae4ef;0x748fc48d75492;0x896b3c2a195c4;0x2d23226b3bca8;0x230f95f63e1];[0x9517beb30a56c;0xa9ae6c741b76c;0x906bd2ce7541c;0xd4f1279ffcb3c;0x69c51a40e72f8;0xd7ebc5a77119d;0x27cd2e96c6765;0x878c972d8be7c;0x1c80115d7abea;0x2f1f9dc12a5];[0xc41a725c24f23;0xf533526840f64;0xfd958437d5952;0xcd41bb28ead62;0x2d7239e5f8021;0xd0a62cc91eaa9;0x50b51d6e4c68;0x3dc71385f66d5;0x3f7f000bbb3a7;0x50ddbb9c4a6];[0x0;0x72fedbe8a10a;0xb7d7fbac67770;0x8837aed12cbfc;0x5c1345630da9c;0xd6e09fe7cc3a3;0xf87f5ff64372e;0xe48e13d8440a6;0x519299ea579fa;0x17e5828760f16;0x15ae7d2d178];[0x0;0x7c3f9e9797978;0xae294370b5ea5;0x534e4f92a878b;0xe9e3a4de51f48;0x7afb3e4fb1de0;0x9b3b6903ca015;0x2deeed3ee0491;0x23531ad243f1e;0xe8c9a77d9724d;0x1c6c6cd170a];[0x0;0xbc61fcb05d8f4;0xcf40a2d6b98b8;0xcfeb0e7e4c754;0xadc2ed0d6dc03;0x99da22059a2c4;0x6babafb471b09;0x15edd726092cf;0x6b22748db218f;0x5e9ed3f98c5ca;0x64015710f51];[0x0;0xbc61fcb05d8f4;0xcf40a2d6b98b8;0xcfeb0e7e4c754;0xadc2ed0d6dc03;0x99da22059a2c4;0x6babafb471b09;0x15edd726092cf;0x6b22748db218f;0x5e9ed3f98c5ca;0x64015710f51];[0x0;0x869e8dc31ac13;0x89e15c3b658df;0x28b4d5b73a24c;0x597692d0a6cc2;0x12a01ad3a7946;0x6628a4c2f7163;0x68e75a66856de;0x2947340d2dca6;0xc0d7ee9392cf4;0x3820a9af31d];[0x0;0x9c8697ec79b2a;0xa48d85539c2ac;0xa3ee66eabdb69;0x5dbda7fd14270;0x660678e0f7fb4;0xeb3a842132f29;0x33e8ec3b424b6;0xfca3bd2b97060;0x843db6302be10;0xb22f24b414c];[0x0;0xe80e34721209;0x59335591cd077;0x3b83cfcc00a9;0x3c70a100ae194;0xf8a023becfb92;0x14b52f706e280;0x76df81ea666ec;0x4df4db171b5ad;0x1a5dfe3439ecb;0x7c5a13ef420];[0x0;0x3cc520c0eb93e;0x578ee787b9f88;0xf7845095243c8;0x50fd1714e3091;0xf8f621c9489f2;0x1d5f9fcedf11;0x227c9b578a472;0x2ed4deddd2615;0x64c519947ae48;0x986eaec38d146];[0x0;0xbb9b4b11349c;0x588fa095240b9;0xd050a69a2adca;0xdd9a03f179464;0xe12dfb7f8f563;0x8f318b335ad9b;0x730643a177146;0x5c74d0d054bac;0x8363c867a687e;0x93cfa6b5f53]]);
 ((V [0x74472d9a91f96;0x67dcaaa8ea406;0x98a109d8ee329;0x151906b5dc28b;0xa6e5732135232;0xe7033245b1df7;0x8692d63d7e5ac;0xf0a5951c49bdd;0x3bfdb17c1cff4;0x3df676b5386] [0xe67580220227;0x3a784159d4c3e;0x2184a4ef6d482;0xe756b1b280061;0xbeb405f5a2dbe;0xea39363115fc5;0xb37f8683b3004;0xaf0c3aadc053e;0x37584a4b4f5a1;0x764ead36583] [0x41ccdcbad5043;0x20bf2d248d129;0xac327218560a1;0x2d528be827aaa;0xb3351a1fffa75;0xb81c317205d50;0x504941b83715d;0x9e8a72c20da19;0x63f3f6f8badda;0x915ef4c5168]),[[0x536bbc41c9c20;0xa1e7b9ed214c6;0x311590b1d1033;0xb10c93be7bfbf;0x9dac7f9930d32;0x3a6ccb7eb4113;0x91bd2968c9e06;0x3e146313635a1;0x726aa000d9d5d;0x634a76fe5e];[0x1c189aaaf47be;0x3bbe0a298c61e;0xffa6bfeb568a;0x22adc3cae1567;0x4ed91ed806891;0x6a3dabe08f51f;0x66cd4c282a3cb;0x31e9bc2901dcb;0x3156a38c34fc4;0x52357958fa0];[0xb70b8cb0074eb;0x728bc83efb974;0xfbcac02df1266;0xe11963201a550;0x92d7b449e70b9;0xae9eb7401b0ec;0x418c7e0c6abd2;0xe939253a4a664;0xa0e96ae6f988;0x874ab573ae7];[0xb70b8cb0074eb;0x728bc83efb974;0xfbcac02df1266;0xe11963201a550;0x92d7b449e70b9;0xae9eb7401b0ec;0x418c7e0c6abd2;0xe939253a4a664;0xa0e96ae6f988;0x874ab573ae7];[0x91463087be7c2;0x436449b090bf3;0x3457646caeec4;0x8c6fc19b0fb9c;0x1626d4f620f27;0xb7fb47589ea92;0xe455e62d2026e;0xf8912b9de873;0x77f5bcf182863;0x9ea93ae351f];[0x8ad26a2335dc4;0xf859c078fba2a;0xdba30792067c5;0x963e022fd19ca;0x38b249e1e5969;0xb2426487f0a8d;0x827765fb0a15c;0x2260a96f23557;0xb960e69ab2761;0xb38c3e75a80];[0x0;0x810a57dcc4930;0xb8d9a4be4585b;0x7913f9f6884c2;0x737611b9d21e6;0x9d7fa3765af56;0x73d1d48341f2d;0x57ba6ddb658c2;0xd9e89988314fe;0xc3ebc4cf38a76;0x53aa0d7b85e];[0x0;0x89f81cdbf114e;0xe8beb0689a084;0x54f71b25730b4;0x85579712012da;0xd8596470eadf6;0xf52cd8e7b25e6;0xc2fc4bcac3444;0xc93d645c3031e;0x933c368b92ef3;0x34793ea70d];[0x0;0xbb9b4b11349c;0x588fa095240b9;0xd050a69a2adca;0xdd9a03f179464;0xe12dfb7f8f563;0x8f318b335ad9b;0x730643a177146;0x5c74d0d054bac;0x8363c867a687e;0x93cfa6b5f53];[0x0;0xbb9b4b11349c;0x588fa095240b9;0xd050a69a2adca;0xdd9a03f179464;0xe12dfb7f8f563;0x8f318b335ad9b;0x730643a177146;0x5c74d0d054bac;0x8363c867a687e;0x93cfa6b5f53];[0x0;0xe034f6add76d1;0x20368b86e3bf;0x6bbafe9b6baf0;0xdcf162b619a88;0xbe7a0d11ac560;0x6024a8f788ecc;0x3db84fbbdf330;0x81980272fbac7;0x419a98e7f2146;0x5a691dca85a];[0x0;0x8503436b6cbf3;0xd55768609c305;0x6188ad384b9e;0xd1967837a493b;0x225caf90cfa6d;0x348d6a2c01364;0xf540cc752d249;0xb5cd1794939d5;0x2e3603b5b608c;0xf1a78e59783];[0x0;0xba38e35c64c;0xbef97062faa34;0x1b96759aed2ec;0x3954705a3af1;0x4ff6e363682df;0xc44da969044db;0x7b476d6cc016;0xa14d68aff68d5;0xc850cb8a8c87a;0x13e5e36ba6e];[0x0;0x11a3600885437;0x499b4d9ee94e3;0x7188e3f77eecb;0x664173b0c8227;0xa585c43a1656c;0x6f91f466602c9;0x4bb256d09fb35;0x82a2cce8c9132;0x3bf863f6c7ff0;0x769efdf9b4f8b];[0x0;0x4bfb705e723b1;0x99a7f0002731c;0x2c621adb32672;0xf6b2aedd2816e;0x2567efb3ca14e;0x71427d07d5a90;0xce1ae8ca8a917;0x46c88481b750;0x3d78270165902;0x1ca2a5bc68c]]);
 ((V [0xd5b99c80d7501;0x1565e4f67776b;0x4f0b44e47cecd;0x4cda7d9656fc5;0x500c4767de289;0x41e8993511ac9;0xdb5a2a837104e;0x478304b1d47fe;0x76609b3741048;0xd399021f098] [0x4adb6a823551e;0x548c65bf4c87d;0x8674a1a1bf7f5;0xc2faa256306b3;0xe82de5803dd0e;0xc039a2f74c275;0x287d62761d9a4;0x9ea575dcc9e5a;0x31069ba8f476d;0x4514ffd4fef] [0x93f7413bc1c00;0x7d9abfff6c2f1;0xadbb251339d90;0xd8696a067250b;0x136d35fe89c85;0x485f6dcf6a89;0x318d670bd2a41;0x56c8f48ea0a62;0x548ca0a94fe89;0xce6cd7b6f4]),[[0xcdf017bf68159;0x4a8aa31f126eb;0xc5f041af4570f;0x3dfbadd41a05b;0xa69c4cb1db723;0xe19f3e14d37c5;0xa5d9dec219b56;0xe4494a063f937;0xf3af3a7ab93f0;0x1749820631d];[0x7bbea3ae36489;0x30e5b629074c;0x9ef2e635d629d;0x96ff352924d28;0x6668cd769537d;0x66da90e6dfe26;0x8d30ac8877ca6;0x9c0fba56985ca;0x4fa6d738fa3c8;0x66cb6c14224];[0x41ccdcbad5043;0x20bf2d248d129;0xac327218560a1;0x2d528be827aaa;0xb3351a1fffa75;0xb81c317205d50;0x504941b83715d;0x9e8a72c20da19;0x63f3f6f8badda;0x915ef4c5168];[0x41ccdcbad5043;0x20bf2d248d129;0xac327218560a1;0x2d528be827aaa;0xb3351a1fffa75;0xb81c317205d50;0x504941b83715d;0x9e8a72c20da19;0x63f3f6f8badda;0x915ef4c5168];[0x75774f6db6b10;0x46a66b8949c0f;0x93ccfdf21bac4;0xb5fd8a19ec13;0x78199888ace3e;0xe9c5f5efc5622;0x32b3d5421f7c8;0x43732eb99cc23;0xd3f6493665c36;0xee757c6e831];[0x64754407f741;0xbc67efd946b3d;0xb25e843ba7d8;0x8b9f5c8786115;0xee4f34ede853f;0x7d149af71a803;0x5a7cd746584dd;0x589c8b9cfb9a7;0x7bb08e0294792;0x7855efa59f2];[0x0;0xe7a29a39d64b1;0x43cf73222c167;0x77873081aecac;0x468ec4a4778b6;0xecba5eb3c613e;0xc06416bab924d;0x67ada2cd6d4eb;0x1f32456d72b0e;0xaee2bad159148;0x59e5ac7e2c6];[0x0;0xf02681830f42e;0x13f42f2ef7950;0x4b91a048c2836;0x38d9f8716f697;0x46a21d9616a63;0x9059ee024a721;0x42a19c520fd0c;0x2e0f809b277ef;0x13e10402bbcec;0xd3945e73e1];[0x0;0x4bfb705e723b1;0x99a7f0002731c;0x2c621adb32672;0xf6b2aedd2816e;0x2567efb3ca14e;0x71427d07d5a90;0xce1ae8ca8a917;0x46c88481b750;0x3d78270165902;0x1ca2a5bc68c];[0x0;0x4bfb705e723b1;0x99a7f0002731c;0x2c621adb32672;0xf6b2aedd2816e;0x2567efb3ca14e;0x71427d07d5a90;0xce1ae8ca8a917;0x46c88481b750;0x3d78270165902;0x1ca2a5bc68c];[0x0;0xc3bf5b6d74617;0xf45bda3141ff;0xba514ff16b1c7;0xc8d6cbd145175;0x8f9ff0698d404;0x893c3da1f54ab;0x1cf8574b31b70;0x642a4990385c;0xfae70c599766c;0x36ac9fdc1b9];[0x0;0x385d01f9b4245;0x9ea44cb9803b5;0xe828b801c462b;0xab6c11090e5d0;0xb8d09358a4ff1;0xdd96070de8716;0x38b1329d948c3;0x76d51955d9f56;0x37967e0bb161a;0xeff61dab83];[0x0;0x22b098ace49dc;0x3766c7b93ae74;0xd095d040e47d2;0xf25262ca028a0;0x4c67cc8904b23;0xb3f19e6c352b9;0x1f8de431246a4;0xbbf37b02e832d;0x519623810cbd2;0x54f71a823d9];[0x0;0x260f3274ba7d4;0xb93262a7a8a6;0xb632b5978b872;0x2cf1c0c046409;0xc6d2405bb8b1;0xae85793431e4d;0x256ad9228a104;0x8357d0f32750b;0x73787665aaabf;0x453e579213ebb];[0x0;0x74c388acdaff2;0x41cfe473ec5a8;0x13a1532a795a6;0x99b24720d94f4;0xa7cfe0910171c;0x49851d18f8b88;0x9d9bffa16eeae;0x9a8dbe15a7818;0xba12f1be64261;0x391998fbfe8]]);
 ((V [0x7d4f044fd7250;0xf7ab7b7cf21ac;0x485ed82446460;0x857e81ae8525c;0x3c51ff0503246;0xbcbb7f0a54281;0xd64c289400112;0x146c54c44a6fd;0xb1a5c2265c2fc;0xa81745c4d9e] [0xc2384b6ee5a9b;0x73359e0032c63;0x1474a3ea0e0da;0xf9099ca93855;0xdebce848b3c42;0xbe21d5d7930fa;0x9cfd812a2b95a;0x7dc41cd34863;0x86332f03db261;0xf250b4d47e3] [0xa22fd4539be69;0xc86127a0b9055;0x33694c4514ed1;0x3a624f52562c7;0x12c6f2ec2bf34;0x4f5ce0a4dad8f;0xf5afb826c9188;0x208244d79d5d;0xd1e1b1383294e;0x6d2d12b43c3]),[[0x7c596ef9b31ee;0xc2a33f6401d94;0x23df9caef178e;0x7011c9e50b7a8;0x6b181c95451ff;0xbc55f097a626b;0x9f1c05d0dc69b;0xd5e07ff17b8ed;0x13566033bf6ae;0x717bb3cc864];[0xcfe3481b68bbd;0x31fa80a1f7f36;0x52dbf7691b9a7;0x7ff5af9cb6cf9;0xd3e71061bd2ed;0x8de48a0c8aca;0xcad41c14dc6f7;0x2ff99f636b0d4;0x83ffb3361867b;0x8a430947bb5];[0x93f7413bc1c00;0x7d9abfff6c2f1;0xadbb251339d90;0xd8696a067250b;0x136d35fe89c85;0x485f6dcf6a89;0x318d670bd2a41;0x56c8f48ea0a62;0x548ca0a94fe89;0xce6cd7b6f4];[0x93f7413bc1c00;0x7d9abfff6c2f1;0xadbb251339d90;0xd8696a067250b;0x136d35fe89c85;0x485f6dcf6a89;0x318d670bd2a41;0x56c8f48ea0a62;0x548ca0a94fe89;0xce6cd7b6f4];[0x89f814cfb7f56;0x5a8f740177708;0x656b71786a46f;0x7adafcbbbd250;0x197a70a17929d;0x38dc40aef44d0;0xdca94decb0572;0xe49dc71869354;0x50d00228dc93c;0x5f6932ceb31];[0x45eb334bb0c68;0xd76b0ca08082e;0xed7085f0b1537;0x51ab2e0f9aa8;0xba6c9fc044050;0xd00207f1d45fa;0xee2ace282c184;0x4b5bd84b01d7f;0x332fb10d3bd3e;0x2ad9d679084];[0x0;0xfac97fefea95e;0x38f921212cf66;0x6b3d8165640a8;0x3b30227401d47;0x6d6ca3773e7a7;0x5707eeb7b7ed1;0x51ad784e6f44f;0x1f07a775e8df7;0x58ade226f1fee;0x7fa72c27eb];[0x0;0xf4773646bbda5;0x35b6c627116e6;0x167008b01f27e;0xd4b1bb39e16a1;0xafd2d382723c9;0x8d4f48e2e6537;0xa299c100b2571;0xd95fda6439b0c;0x9316efa19cc48;0x5b81ca7e6c];[0x0;0x74c388acdaff2;0x41cfe473ec5a8;0x13a1532a795a6;0x99b24720d94f4;0xa7cfe0910171c;0x49851d18f8b88;0x9d9bffa16eeae;0x9a8dbe15a7818;0xba12f1be64261;0x391998fbfe8];[0x0;0x74c388acdaff2;0x41cfe473ec5a8;0x13a1532a795a6;0x99b24720d94f4;0xa7cfe0910171c;0x49851d18f8b88;0x9d9bffa16eeae;0x9a8dbe15a7818;0xba12f1be64261;0x391998fbfe8];[0x0;0x3f0ffaa4f6662;0xd3352f44324b6;0xf7ac86cc896be;0x19e9ba66e4384;0xe32a0feeac80;0x24c414dd5b006;0x9215bf96864f5;0xa63a8bbb6d84b;0xe1f30a436f04;0x12a453a1ca6];[0x0;0x2643a7a9fc99f;0xb08f2b78c6848;0x29745384362f3;0x2d3e20cd115c4;0x3f234f2a42549;0x1ae5a8aa50dfd;0x11fbdee6c7eb4;0x5829afe4f8d9b;0x315f562277d83;0xaee594f2b2d];[0x0;0x3fae3b19af5a0;0xfb29091bf4ebb;0x931b1838ac571;0x45e066366393f;0x8425701f0f66c;0x4dfdc2dbcebcc;0x55f466cd3ada3;0xa30f80f83e799;0x8fbf8b65c933a;0x5ac88fcb4ae];[0x0;0x6c485404e06c;0x3139bf86e7100;0x119eb026cb10c;0x455dc52c9afb4;0x6dbf71d57a212;0xbb2d2598c9cc;0xbbac4183a011c;0x76e7ac4503f51;0x20c23c1771462;0xf2c02693f01ae];[0x0;0xdd74c895593c1;0x398de6a48bd44;0x7cd2e7d067098;0xa5babb0800df7;0xf9c130efcad2b;0x246a80c3ce0b4;0x399e028e5ef10;0xec57cb949c12a;0x90331b32005ce;0x9f1afdf5c6b]]);
 ((V [0xe103fd58e8bf6;0x19741acde848a;0x92912241a7bdc;0xa6146c4ddff66;0x47c8cde521236;0xd5e0ea71bd754;0x5065d4e8f7c12;0x513d8e3a50e4a;0xc33d845f48315;0xbc452bdb35] [0x8e095044e6e8b;0x9b10975b20852;0x24a650105c688;0x234510e2f7e1e;0xa726f0e2cf8d2;0x22c703796f830;0x2d7ab6d4b9e3b;0x587485e58e64a;0xef60c75cdcf58;0xfa9a681d8f6] [0xeeac52b6634c6;0xde469c7547c1;0x10d2c392ad1f4;0x73236cb85a9b9;0xc9f584ecac4dd;0xf9ecaed88fbaa;0x9444ffa6911f5;0x379f3a29e8c53;0x8c6c5cf304f5d;0x4b642acd037]),[[0x684740ffd7001;0x330092b9ea8ed;0xf58cb8d94ad02;0x7f3d184fc3017;0x10938d6491d03;0xeb0983911425f;0x9e9d1e7cf54d7;0x47fff768f7065;0xf2a2816ea46c0;0x10cb7555570];[0xe0a2547112a8e;0x1005baa2f8021;0xddcef45c9adbf;0xfc904713847de;0x380ce59388d12;0x24985ab3bc0ae;0xa99d5e3986f86;0x39c8890ddde08;0x33c2d7b6ade1d;0x5507f094690];[0xa22fd4539be69;0xc86127a0b9055;0x33694c4514ed1;0x3a624f52562c7;0x12c6f2ec2bf34;0x4f5ce0a4dad8f;0xf5afb826c9188;0x208244d79d5d;0xd1e1b1383294e;0x6d2d12b43c3];[0xa22fd4539be69;0xc86127a0b9055;0x33694c4514ed1;0x3a624f52562c7;0x12c6f2ec2bf34;0x4f5ce0a4dad8f;0xf5afb826c9188;0x208244d79d5d;0xd1e1b1383294e;0x6d2d12b43c3];[0x334b3c0617d17;0xe6c341ce0720;0x86c21033b3ce0;0x5caa2c7576055;0x812a1d7dbbb5e;0xf5cf2a03289d1;0x3cd63dd2666d4;0x4b4ad347d93e9;0x699a9aef7ebba;0xad6dc820d01];[0xad57186afab3f;0x199868617901;0x570ce428e70df;0x9fe61a9e0e789;0xb6e2c815cd1b4;0x2ec930b0936dc;0x6cc72067208b1;0xee7db5c604a1f;0xca283cc72f262;0xa79a287398e];[0x0;0xea228a6830fb9;0x5b95ffbf03831;0xed6af640cd73;0x9cad584c763a2;0x85d40968204bc;0xf239560a08d55;0x4eb1f7b621e4b;0xee7b356e5e501;0xbc5ea6acdec3;0x4383aa5917e];[0x0;0x89faa18ee594d;0x6ee27b327d475;0x929160b5c2d24;0x7c827121c505d;0xa7967391fe078;0xcd05622ec11d9;0x165baec4b46d6;0x5eaaa36821515;0x3f4b256a89e55;0x72995f3175];[0x0;0xdd74c895593c1;0x398de6a48bd44;0x7cd2e7d067098;0xa5babb0800df7;0xf9c130efcad2b;0x246a80c3ce0b4;0x399e028e5ef10;0xec57cb949c12a;0x90331b32005ce;0x9f1afdf5c6b];[0x0;0xdd74c895593c1;0x398de6a48bd44;0x7cd2e7d067098;0xa5babb0800df7;0xf9c130efcad2b;0x246a80c3ce0b4;0x399e028e5ef10;0xec57cb949c12a;0x90331b32005ce;0x9f1afdf5c6b];[0x0;0xb0cdf3415a52e;0xa7e2bf8258038;0xc8ac2cdf34f2b;0x8eaef90729a1e;0x513623575a8db;0xd0480fae0b88f;0xf5f79b5a3dbce;0x49bf805bd898d;0xd00aae52a4815;0xe55caf53432];[0x0;0x243a7b9c29837;0xfbf79df2341c1;0x2e3bb131d1bfa;0xaef5dae98854;0xd8fe9b369dbff;0xa70999be1eb59;0xf8bca9171e7b7;0x536d34347577;0x76faecf6a306d;0x6e5e8daffa6];[0x0;0xa526907cd65a8;0x109079c32a4d8;0x6a7a469ca7956;0x5d5a3034858e0;0xeecaeb764a1f9;0xf9775997e0c32;0xf9bb1dc7a44fb;0xc8c3b6a70bce4;0x2de8f3d69fdce;0x3e88ce61fa];[0x0;0x55209ccd32229;0x81c12734e5198;0x4158c58e68cd5;0x7de78ea81d180;0xf70003e0a32a;0x14c89cb8ea86c;0x1218d26dc7b44;0xb5afd4ad9d004;0x9d7cc64cd7226;0xfb41c57b604b4];[0x0;0x5053ec8e003d4;0x237b702f85985;0xd6a30237e3f80;0x6c1041b87c288;0x88a1b028670f6;0xda1bd83a664d5;0x34c881b2fce71;0xc998d55002553;0x82455e9c08666;0xb84d1b024b]]);
 ((V [0xa703e26b7a93b;0xcf3a6c78015e7;0x3f83bd4985aeb;0x77c309ab79ad6;0x9cf129857e8e6;0x6697b478ea76a;0x92968e7e51b17;0xfe909e79c896;0xcafd1647afdc7;0x2370176a130] [0x2a853d08d033f;0x9e0970a29e089;0x1cba7cb911bd4;0x3f9286f72b8c6;0xf7724cff3b640;0x346073e341720;0x415f82a6ad5c6;0xce12d71d11c67;0x537804142a616;0x45dc326fdf0] [0x32089246ea65c;0xa2db3f0ad5d41;0xf9a37ee6ef1da;0x34f247af7fbe3;0x9e306b47aee64;0x123349ccf841b;0xb63fd3244113b;0xb1ffac9089014;0x3ebf3bdca90b1;0xd5da5615837]),[[0x8261118981dd0;0xbdc5c35f4e367;0x9cb2b454e73f1;0x2f48bea97b6d;0xe9601ef87c954;0xf066faa4c3278;0x909d1562cd71a;0xc6456c563bc5a;0xc9159bab042bd;0x462b6744c26];[0xb8658ae21777f;0x363485984b8fe;0xe0f1ac3e9643b;0x79fb6e54de04;0xcbd1c627c237b;0xba023b3b45e5;0x7ef0aa78d87f3;0x3fbfc19e616b4;0xc3637a3f52926;0x476e2c7b085];[0xeeac52b6634c6;0xde469c7547c1;0x10d2c392ad1f4;0x73236cb85a9b9;0xc9f584ecac4dd;0xf9ecaed88fbaa;0x9444ffa6911f5;0x379f3a29e8c53;0x8c6c5cf304f5d;0x4b642acd037];[0xeeac52b6634c6;0xde469c7547c1;0x10d2c392ad1f4;0x73236cb85a9b9;0xc9f584ecac4dd;0xf9ecaed88fbaa;0x9444ffa6911f5;0x379f3a29e8c53;0x8c6c5cf304f5d;0x4b642acd037];[0x4f557cd1b4547;0x3c9392264ae4b;0x581772e9b2453;0x3bdbbfffee9c;0xe34aff5db343;0x981ee8474279e;0x466eb12adfa33;0xdbf5325dcf4ba;0x649b9f148afec;0x2b10d3a84b8];[0x69100e1063239;0xf9a0f37200ab3;0x88da3954e3fe7;0x3e1fae54ef68;0xbd9d1631e7038;0x73813b6c71e47;0x3881f94df8dbf;0x63ca8f40921fa;0x5ec7db2ac7939;0x1c5d58d2bcd];[0x0;0xdb8bcb7417170;0x7621a8162860;0x34ca356dfda7;0xaf22477d4ceab;0x8992f938581a9;0xb7861f8e3d7e7;0x34924f1b5ba48;0x1c7ed153d0163;0xcdd1ceade4019;0x2e9f31e05c2];[0x0;0x9b4806d4da197;0xe55029eb5ff99;0xfae4c3d7d7646;0x71d61efad655a;0x9997eb5670bf4;0x652afe0857877;0x96be6c2b754dc;0xc28324266acda;0x857fd921a1329;0x14aa2bf0cc7];[0x0;0x5053ec8e003d4;0x237b702f85985;0xd6a30237e3f80;0x6c1041b87c288;0x88a1b028670f6;0xda1bd83a664d5;0x34c881b2fce71;0xc998d55002553;0x82455e9c08666;0xb84d1b024b];[0x0;0x5053ec8e003d4;0x237b702f85985;0xd6a30237e3f80;0x6c1041b87c288;0x88a1b028670f6;0xda1bd83a664d5;0x34c881b2fce71;0xc998d55002553;0x82455e9c08666;0xb84d1b024b];[0x0;0x71e5cb4d2dc3e;0xcaa1250b20cba;0xe9df2c3697aec;0x3631477b77daf;0x24adb21d44a9d;0x5797bbc7286ae;0x9d36c4c8978f4;0x36f3e11dd839e;0xd5204547eba1a;0xf551f07b2a0];[0x0;0xd62b767e86c7d;0x28014d2c34a54;0x8030092c53d1a;0x66d01cc7134d9;0xa7944f166e4da;0x62ff1c0cc0ba6;0x5e83039607b94;0x3c68ffa3c324c;0x2a51d5e334d8a;0x8a75ab1aa];[0x0;0xd5d8e6430e76c;0x28318d40a2647;0xf76c44d0d284a;0xb1ab1989c4884;0xc4d5d83153604;0xc1d37eea50410;0x3494a4ff50dba;0x5cb869a69828a;0x673f90796b4d9;0x9e356d0c6e];[0x0;0x6fbb3b24e9ece;0xe80e67bc0f039;0x8636c49810750;0xc5b6fa094c33c;0xdbcce75e893b6;0x42ed288be8370;0x72ae4832c8407;0x3435446582f8d;0xef88cacaa696;0x460e907f90c59];[0x0;0xa51b8ea18a28f;0x3dcbbbc67fa9c;0x8073a043f4a8a;0x7d156c72f29f2;0x10cc3a6b2dcbe;0xbbb9fc762e374;0x78f3b23cce03b;0x3a8320fce62e4;0x70645f6a53ce1;0x9abb19f175]]);
 ((V [0x93d21c7dbcb6a;0x8fff3b17d4fae;0x15104a12f7852;0x9ed9d6f86071;0xfe15aa5f6921e;0xa2b1fb90e48df;0x9f58b5fdb6599;0x31766e5c3c2fb;0xa94fd030f9b22;0xdfd865d42db] [0x676e533092775;0x6bf6bc530bb00;0x73e47e0af6207;0x222599bc5df3b;0x76ae5de7acb77;0xe631c04439ac;0xecc3f5ed216c5;0xeed89c18aaf8e;0x845a54e1ad235;0x381d281a2cd] [0x9b821b1071eb7;0x16c6df6acae3;0x2d0d33d86f5ac;0xc0b36dca5a46a;0x2160c35d0a4f3;0x4b052a1d92380;0x3abb21f9032d1;0xf96636d0a2acd;0xb107124980315;0xc3b7f8c7810]),[[0x56f57470bf30d;0x6579c194e2462;0xfa2a914684bd2;0x8ddb1f04da4e8;0xb2dc183b17ad;0xe3c96270f718f;0xbbde3c54c7507;0x2c2c4ac92bcc5;0x4804d48ea7d38;0x366689561ef];[0xfe5cd83f436a5;0xd9afcffc61da2;0x393b3034291e6;0x386b0e90eeacc;0x2354d07a3d77e;0xfdad48f03ea41;0x4630e9f8404c3;0x9b61d2583f3d9;0x3acc427048b4b;0xda1247cadf6];[0x32089246ea65c;0xa2db3f0ad5d41;0xf9a37ee6ef1da;0x34f247af7fbe3;0x9e306b47aee64;0x123349ccf841b;0xb63fd3244113b;0xb1ffac9089014;0x3ebf3bdca90b1;0xd5da5615837];[0x32089246ea65c;0xa2db3f0ad5d41;0xf9a37ee6ef1da;0x34f247af7fbe3;0x9e306b47aee64;0x123349ccf841b;0xb63fd3244113b;0xb1ffac9089014;0x3ebf3bdca90b1;0xd5da5615837];[0xe296715ab36d1;0x75cbc49f7b1c1;0x56a11eacd82d5;0x2b8f5fc3c0572;0x9576b4355f4f5;0xe944d613f36d1;0x2fe5b57f3084e;0x5a69bf6585daf;0x5803ab91e0381;0xa41cc1bc07c];[0x1bc666e48ffd5;0x63e40b5ce6be1;0xe29a118750f11;0xcdbaecd2e559;0x8dde1c44de289;0x146872dc4b36f;0x164b34790fc75;0x40f812f2b962a;0xe2c896de687ca;0x35f5860ed79];[0x0;0x73e14863918b5;0x8acb3bcd4a802;0x7e45c93cabef4;0x18d69e8eb2ed9;0x9c3dee8b0399c;0x1ae07ef2760f0;0x12491a3da280f;0xd5bc9c3c0a13c;0xbd2b81ead793;0x843f0da71db];[0x0;0x237836b10dbc1;0x4c07cd07a0bd6;0xc52bc88a6586e;0xe102156239952;0x7b4e917840f33;0x27d11d9fff5f2;0x5f1ea80404c69;0x858fa6773628f;0x317e6ebe5de67;0x2d71b5e09f9];[0x0;0xa51b8ea18a28f;0x3dcbbbc67fa9c;0x8073a043f4a8a;0x7d156c72f29f2;0x10cc3a6b2dcbe;0xbbb9fc762e374;0x78f3b23cce03b;0x3a8320fce62e4;0x70645f6a53ce1;0x9abb19f175];[0x0;0xa51b8ea18a28f;0x3dcbbbc67fa9c;0x8073a043f4a8a;0x7d156c72f29f2;0x10cc3a6b2dcbe;0xbbb9fc762e374;0x78f3b23cce03b;0x3a8320fce62e4;0x70645f6a53ce1;0x9abb19f175];[0x0;0xe295b2733d7d0;0x5098804b9e98b;0x68a6faa217851;0x10775f43e86b4;0x4c0c570e313d9;0x711c1ec43a23e;0xa5f2884196cac;0xbb24edfa4791;0x4e3ba1c6999;0x13107097087];[0x0;0xce1738bb63e1c;0xf89a59a9d878d;0xe148d98f12f9c;0xbac86d0b8b9ea;0x6ceb86b0544f9;0xd2969776542be;0xa5ff057eb78a0;0xd547322bc2794;0xa5e8d2835a931;0x4e7d77b802];[0x0;0x9c0edcc5a29dc;0x3ab6df75c3edf;0x6e7cf65506919;0x14fab5c0207ea;0x33743a9dc1b84;0xef8cc95fbe81a;0xaeafc34f35c47;0xad29cc1f178f7;0xef48ce00ae97f;0xbeae42b4402];[0x0;0xfdd9571366e4;0xa6420bcf73476;0xa2cc5bea4737b;0x203c30b26cdd;0x274f435a1cd8b;0xfefded9a8e13;0x646e175808ff0;0x69d9f7d7e22c2;0xe72447bd16f94;0x3825786c575af];[0x0;0x6f3da4927876d;0xd4150e6d69350;0x697daec602aef;0x54ab604f93b43;0x90c338223a63c;0xaa89545fa539d;0x39ff78745416f;0x6c994f0483f5e;0x3ca6846a948ce;0x3110d4daa62]]);
 ((V [0x22e73b50675ea;0x7acb813a16ef7;0x27c372b33724c;0x4edef292d636c;0xbe3ad41e8b6f;0xef4e351f9e22c;0x23af231ad622e;0x95593b1cc01c1;0x46f240242eb6a;0xb577e0441d6] [0x1d0771842b2b8;0x8de5138c543e5;0xa215f2de723e4;0xd7075819b97fe;0x9cedff0566953;0x3cb45be2102b3;0x2deb6684f992f;0xd5ea5221a92c7;0xe840dc6671ff7;0xfae3f9d1969] [0xbcb5a2ef3640b;0x4ed389247b5e9;0xb4dfc213f8b28;0xe106cfffb6cab;0xd5ef503fb7810;0x6a50fde04945;0x142a68ee6556a;0x43b2447bc5350;0x6027d82adbbee;0x22dc81f8853]),[[0xdeed21bb5ddab;0x3ef0f55fe9a57;0x15ea316d71a9b;0x83ebadbecd0f8;0x894185a0445e3;0x720d91cff2c8e;0xccc78d2b47b8e;0x2a57c83246390;0x42cb51f22a98f;0x2bdc199fde6];[0xa1c10da1c6f5f;0xe7078a122c973;0x3d74f4fe6dbcb;0x310c53e4c09cd;0xb38bbdf1334f8;0xf81f3e554125d;0x405d88954f12f;0x675623248ccd3;0x8e407ebd7d321;0x3dec7863fa6];[0x9b821b1071eb7;0x16c6df6acae3;0x2d0d33d86f5ac;0xc0b36dca5a46a;0x2160c35d0a4f3;0x4b052a1d92380;0x3abb21f9032d1;0xf96636d0a2acd;0xb107124980315;0xc3b7f8c7810];[0x9b821b1071eb7;0x16c6df6acae3;0x2d0d33d86f5ac;0xc0b36dca5a46a;0x2160c35d0a4f3;0x4b052a1d92380;0x3abb21f9032d1;0xf96636d0a2acd;0xb107124980315;0xc3b7f8c7810];[0xa006c6cd94238;0x85fdd31196573;0x5bcff00848404;0xb241dad686c8e;0x1f9fa954d1a6a;0xe363503babcfb;0x73b6686511011;0x8f446bff37c19;0x7db71aa38b7da;0xaaaed27aa78];[0x1ba46d432aef;0x6109b70096400;0xe1a504f6257c7;0x7eca790e39d3e;0x93ec149c61a8d;0x14bbee1995562;0xcca720303e11e;0xd811b725550b9;0x10896419f1b46;0x933da5e952e];[0x0;0xdbe7d0ffb3153;0xe4bb072f21bf4;0x781801b319c9a;0x8eef1640196ce;0x196d4741b689c;0x7cc5de60f4edb;0x6bd36c11ff6f8;0xe97beaa3925d4;0x5e29eb1c013e9;0x790838d5c65];[0x0;0xdc410cd5b8932;0xf26a3c8bc92ce;0x493296040df78;0x40ee7f3cc4287;0x3ec8aab0e6c36;0xf27f576e2ee8b;0x457a69d0967b8;0xb29030e001c47;0x4e090a4543501;0x21882c7a7eb];[0x0;0x6f3da4927876d;0xd4150e6d69350;0x697daec602aef;0x54ab604f93b43;0x90c338223a63c;0xaa89545fa539d;0x39ff78745416f;0x6c994f0483f5e;0x3ca6846a948ce;0x3110d4daa62];[0x0;0x6f3da4927876d;0xd4150e6d69350;0x697daec602aef;0x54ab604f93b43;0x90c338223a63c;0xaa89545fa539d;0x39ff78745416f;0x6c994f0483f5e;0x3ca6846a948ce;0x3110d4daa62];[0x0;0x765a2e48f50b7;0xe82874bd4b676;0x8451a8aae3d0f;0xd2b03797c377d;0x3f1cd7c74df0a;0x2d30d2356a12a;0x9aec411d126b6;0xe499fb53de00f;0x4f828d32c4aad;0xc4cc4dd8fd];[0x0;0x6fd9da1813f63;0xd8b2bdc97d7ee;0x7177883c64d75;0x4a9fd48de8846;0x58b7c417c8cd8;0x5ad68dd32040;0x306c701f43417;0x87932c98d7115;0x9565d350be270;0xc3bab853a63];[0x0;0xdbf06960fb51e;0xe31921c403e05;0x7571db200cb2b;0xf9bdbc86267c5;0x4ee18e3f64872;0x2a2cca9b9f287;0x9adf86e6a3b22;0x97608b72520bc;0x91a8a7d3dbd5b;0x2be5304a09c];[0x0;0xefccba6924b58;0xcc6e2247ac0fa;0x4cba85e072bb2;0xe66d786b03ffa;0x8f28fc0cc7026;0xb949e763172eb;0x85abae6474e90;0xebc796d9651a4;0xaa984a340d0d9;0xfba22db8ba1e5];[0x0;0x2779d8f772b3;0xeea16aed0f0e4;0x28cb552122724;0xe75917922ed60;0xb7c75a4240b5d;0x8274169c936e5;0xbb982cd6be468;0xda853a67980b6;0xf17ca4cdc6ee7;0xb1d8ab648bd]]);
 ((V [0x3398e2b3f7db6;0xfd9df71ca06d8;0xae7d716df9a5a;0x1b83c6a9de480;0xc132926300c91;0xc7ee7a2741010;0x646e06a56ba2e;0xbb9f3fcf2ffbe;0x31765a487a516;0x82523ed371c] [0xcd369f2eef352;0x4dd6db5355776;0x773748e3eba93;0x2131c8bb69fda;0x80e3d80214891;0x951c1aeb1457;0x2c5d38e2d1756;0x9320c26b380da;0x89797a617a11b;0xdaf9a63f79e] [0x6d32406691158;0x3bc0328b01249;0xe140382178747;0xe6846bf68f595;0xcf0e5649bd30;0x981b90c146f1d;0x834b1f3a3995e;0x6bade39dd56fc;0xa3e44147c161e;0xadf9b071661]),[[0x8480f09437662;0xc51aeda6853ee;0x3cc5210fd8046;0xc95e6781c978d;0xb8c2a62bab1f2;0x82b0bf97b4329;0x29188f813b2fb;0x7da0ffe4fcd17;0x9dc502d5afa85;0x240b2dbc4e3];[0x64a5001645dcc;0xbba4b09fb0191;0x62f686a86bf75;0xc42d9cdf5f880;0x4815ad5e5580b;0xefd8902d18b3;0x577b1023d0a6e;0x728868e378b7d;0x6b401385b0888;0xebfb0b07ef0];[0xbcb5a2ef3640b;0x4ed389247b5e9;0xb4dfc213f8b28;0xe106cfffb6cab;0xd5ef503fb7810;0x6a50fde04945;0x142a68ee6556a;0x43b2447bc5350;0x6027d82adbbee;0x22dc81f8853];[0xbcb5a2ef3640b;0x4ed389247b5e9;0xb4dfc213f8b28;0xe106cfffb6cab;0xd5ef503fb7810;0x6a50fde04945;0x142a68ee6556a;0x43b2447bc5350;0x6027d82adbbee;0x22dc81f8853];[0xf3009df57ed0d;0xc1d6eea9f7995;0x92ae9b31a1c15;0xabfd660e96825;0x4c73642e0a3af;0x7df589a4f4377;0x69e8e812f14af;0xdb88d433cb865;0x223d2072d9583;0x1f179fe7c9a];[0x71a46220c70c0;0xf9cdc1f5b87fb;0xd047eb76ca35f;0x183036d0c905a;0xfba249304b45c;0x9107ff5ddd53b;0xed922810df5be;0x96ff94afad317;0x4902f312d7304;0xcce36b20256];[0x0;0xf79dff846382;0x5d886b95bd628;0x8e9cb676d25ae;0xb719ff7d15575;0xdb2c88562ccbd;0x9e09801fd9d88;0xc7548aef2f513;0x9f8f4cdab68af;0xac2f83fe950cf;0x158ee700a9e];[0x0;0xb92415db48446;0xe769c9094ce66;0xc78415eb61004;0xfeeec227fc470;0xf8f8a8b744145;0x5cacfb6d2d4e5;0x6b56d600bf933;0xd289ae6346b6b;0x8844b27926471;0x4e887faefd];[0x0;0x2779d8f772b3;0xeea16aed0f0e4;0x28cb552122724;0xe75917922ed60;0xb7c75a4240b5d;0x8274169c936e5;0xbb982cd6be468;0xda853a67980b6;0xf17ca4cdc6ee7;0xb1d8ab648bd];[0x0;0x2779d8f772b3;0xeea16aed0f0e4;0x28cb552122724;0xe75917922ed60;0xb7c75a4240b5d;0x8274169c936e5;0xbb982cd6be468;0xda853a67980b6;0xf17ca4cdc6ee7;0xb1d8ab648bd];[0x0;0x7114ddfefab35;0x2ff7e4c816528;0x282e325b9e5eb;0xa1e20f52d63a2;0xc3bfc06224811;0x50533ad1f1c7a;0x37db3e28da44e;0xb9854cde804b9;0x819a0bc43d4ac;0xf5e20ef257a];[0x0;0xe56cdac17bdbc;0xc5e52b98c8c34;0x63ca134f586;0x53adaa8c60033;0x3c73faf21c323;0x76e53f03ebcf0;0x91b763782c25f;0x10b3c92bd754a;0xa9e17a1e6b2c7;0x80a2bb42955];[0x0;0x6149d02a21a18;0x3679a89b5dc7b;0xd258fe5b5ad18;0x4d6e2ce57b49b;0xb6b8f200f2bd2;0x5d0391fd29824;0x38f1e9dea782a;0xbc87da33aafa7;0xfa0a51060e4f1;0x78214bed455];[0x0;0x485b42444e33c;0xba5221233034e;0x9eb55db361a4a;0xc60cca0452a4f;0x99be254ed9071;0xcd38636cd18ef;0xa602f4cb1fccd;0x3a16b7e257c4a;0xe1107d651c5fd;0xdb0ac5fde799e];[0x0;0xf42475def36c;0x8cb0edb309bdd;0x6d1a179315294;0x52ad2deaa12ab;0x78ae780a5c316;0x7358e3ef965fb;0xf62f405b6f750;0x50eaad523a011;0x3a1e266aaa70b;0x6f792020cf9]]);
 ((V [0x7d3d651a52b76;0xf4472ba930127;0x399265399f040;0x9f5f9433b0b63;0xa696e7c7f8485;0xa49f24760ea35;0xc95ecabf2779f;0x576561c3f0581;0x6dc98e6e86a91;0x33eb23e654b] [0x49d216156f6ba;0x3769bb7a8c0bc;0xd8f97fe167223;0x60a7732f5121b;0x330a7aa868c49;0xb735e98b2345;0x64e977ab0d1d8;0xf3f64fd1b7470;0xfce97191a7d37;0xe8105219d5e] [0x68263601ccab6;0xe4d3a2dd4b4d5;0x68c948bb4683c;0xfcd9e05f9c1d;0xdb40382ff80ab;0x57d290a5f31d8;0xc8b1e48f99881;0xb4b61fc81da47;0x90801539e4080;0xad155e20349]),[[0x8670de39b6d1d;0x9bb57107799db;0xecb94df355e09;0x2bfcc45d212f;0x3079e7d440060;0x35d3a5e34a11e;0x1ef9aa266292f;0x115ba50824c35;0x8d5e3cb5d4227;0x541f18aeb85];[0xb4ee506ec7624;0xcf8c3c2edcb9;0xa0ba1971e7e71;0x5b4bafde579c2;0xa4f4a3ef03971;0x8cc69e2e43862;0x2a5f10af55773;0x3ecd6df629be1;0xe24f4624579da;0xc0d30f2d001];[0x6d32406691158;0x3bc0328b01249;0xe140382178747;0xe6846bf68f595;0xcf0e5649bd30;0x981b90c146f1d;0x834b1f3a3995e;0x6bade39dd56fc;0xa3e44147c161e;0xadf9b071661];[0x6d32406691158;0x3bc0328b01249;0xe140382178747;0xe6846bf68f595;0xcf0e5649bd30;0x981b90c146f1d;0x834b1f3a3995e;0x6bade39dd56fc;0xa3e44147c161e;0xadf9b071661];[0xccc2eb22cf5cd;0x5510efb8e024;0x4b84978099272;0x4ba53b00aaba5;0x34051779ce36f;0xb81b230e66001;0x9679508f49c7;0x9d9ef77038747;0x5f7d66e19f024;0x5d6bc1f5f0f];[0xe82b654bf8058;0x7a7b4c75fc94;0x553581f14ebff;0xfa674ddace1d;0x70ef8c7535602;0xd4ab7b1fdd861;0x20f77ba660dab;0xa12e7685f149a;0x82d1df42b89b5;0x63674d370f2];[0x0;0x767e5a85cb285;0x78c41e2a7e9c1;0x4501cdfae40be;0x3f49299e79dff;0x28daa280a1011;0xd94d1fa362343;0xd1dc95e83e227;0xd34f2e170e719;0xbb17cd501e834;0x6b960a864aa];[0x0;0xb4db524e8508c;0x1d26647792e7f;0x9e62e6661fc27;0x552f1adb68415;0x485b9d90f2c41;0x9d3fea9db9eaa;0x13b2512950271;0xde1df29d5c965;0x45e43736c0a55;0x392b0fe7b8c];[0x0;0xf42475def36c;0x8cb0edb309bdd;0x6d1a179315294;0x52ad2deaa12ab;0x78ae780a5c316;0x7358e3ef965fb;0xf62f405b6f750;0x50eaad523a011;0x3a1e266aaa70b;0x6f792020cf9];[0x0;0xf42475def36c;0x8cb0edb309bdd;0x6d1a179315294;0x52ad2deaa12ab;0x78ae780a5c316;0x7358e3ef965fb;0xf62f405b6f750;0x50eaad523a011;0x3a1e266aaa70b;0x6f792020cf9];[0x0;0x18f3f5f1557d1;0x7e9735bfca720;0xa53077b4df1ef;0x2dd1461c45425;0xd8809eb13f30c;0x133d583ce8e4;0x196e56b4c59c5;0x3a6cb01f050de;0x1aa7c0b025305;0xbb4e2298ef1];[0x0;0x885e6471eca94;0x5bd7e612649d6;0xf6dfd411c1457;0xef2c70ec913d3;0xfc313abbde5d;0x73cf231f6e3ae;0x6020e0efc7b6d;0x26eae77ce796f;0xa1e7d71b2c724;0x4257a23b0e6];[0x0;0xbb73d1cec43b2;0x95085c67618c4;0x8e4533fefe76a;0x445dc1f8cc41e;0x46cbb9a047d17;0x3dbf26a3a3de8;0x461f0fbe8ddd3;0x9c1f05343a1a5;0x6e3aaf05d019a;0x271b28cf3dd];[0x0;0x534133f8867b4;0xbd843259e6da;0xc10d75107a968;0xf362c509e1944;0xc5847ae2eec0a;0x6ec9c8d4a428b;0xcc39b6f29d5a5;0x5d5f2b67206e6;0x5f09a7ec1cc4b;0xe84996db26fa3];[0x0;0x3bc5d279aa2ca;0x2383868586c4b;0x6c04628c80729;0x399068d0c36f4;0x14e9360923d92;0x2c0a7f17df79e;0xa5a85f03f18f;0xf48d33f461910;0x493443787ab11;0x2f1067e18a0]]);
 ((V [0x8395ccb0a4536;0x8bfe9f43302de;0x772766c7254e7;0xee45fddab10d7;0xc280b4eb90854;0x52bd2f57f829;0x8e544a0353ff;0x7fd99a7c1139d;0x364c94389ce68;0xf3cad6ea6a] [0x6057080fa3895;0x4caadc075e828;0x616589561e1f4;0x40a594291e1a;0xbfea89860dc6e;0x8ba08b280f76b;0x1106c8072c715;0x2cdc0e585247;0xd4106f25e07d0;0xfca3875e653] [0x7254cc0ed16bd;0x2c0bc7319d3ae;0x4e70eb6047207;0xa7baefdf8b4d7;0x8df530ac0a46d;0x450468f3e8052;0x2f8ca038659bf;0x4128911540df2;0x76f8bf2e91be7;0x9c307f4699b]),[[0x8f18f21191068;0x8fb80c31f859a;0x413acf4f0bc81;0xd3825a831a5c;0xb7e1dbd77fa00;0x7af186cadc422;0xd9b8c8a1a987;0xf497154b24b2e;0xedef359a53704;0x2f836cb3849];[0x256ac2a38e500;0x350bf1e46009c;0xc49fc2e683791;0xf9645d258fe00;0x397b1bf177212;0xf4b9ea43116aa;0xf422e3df8d3a6;0x95197fc2a9db0;0xa2c6f5b8dfd2a;0xcd4231508e2];[0x68263601ccab6;0xe4d3a2dd4b4d5;0x68c948bb4683c;0xfcd9e05f9c1d;0xdb40382ff80ab;0x57d290a5f31d8;0xc8b1e48f99881;0xb4b61fc81da47;0x90801539e4080;0xad155e20349];[0x68263601ccab6;0xe4d3a2dd4b4d5;0x68c948bb4683c;0xfcd9e05f9c1d;0xdb40382ff80ab;0x57d290a5f31d8;0xc8b1e48f99881;0xb4b61fc81da47;0x90801539e4080;0xad155e20349];[0x95878f922de2b;0x802c4d2f0865f;0x55a6b4f7c53c2;0x13d5d89dedaf9;0x3088b41fd58de;0x69d35e61e4435;0x1f419e14996e8;0x237ed9f5fa80d;0x29b71a3c2da84;0xc46b05bda0f];[0x8fe33311606d6;0xb4dfa4b557a3c;0x6ef90deebe3ce;0xe58e8487a2307;0x8f267d1a1934;0x8ae68be12d275;0xd4e145caf3cbe;0x719aa5ccaf5a3;0x790fdb7cb22a6;0x8d72b92ed3];[0x0;0xd32aba21135c8;0x1e21fbf234236;0x99a6d669186ef;0xf43eeb2a837c0;0xc0ade58ba701b;0x3fc9305f88c5e;0xa2c1d2fbb1eb6;0xeb738615f3d42;0x9d3700df18158;0x6b08d8ef584];[0x0;0xbca3b3f774390;0x1374062a3eff5;0x4f8702e665bfb;0x40ea62c2b1f6;0x339d2ff37f8b6;0xc3f912dfc0aea;0x94f1ccf9b743f;0xee0245e61152a;0x3d7f26fecc67a;0x201fc7b5777];[0x0;0x3bc5d279aa2ca;0x2383868586c4b;0x6c04628c80729;0x399068d0c36f4;0x14e9360923d92;0x2c0a7f17df79e;0xa5a85f03f18f;0xf48d33f461910;0x493443787ab11;0x2f1067e18a0];[0x0;0x3bc5d279aa2ca;0x2383868586c4b;0x6c04628c80729;0x399068d0c36f4;0x14e9360923d92;0x2c0a7f17df79e;0xa5a85f03f18f;0xf48d33f461910;0x493443787ab11;0x2f1067e18a0];[0x0;0xc80ef5b06eb3f;0xac055f188c23d;0x873acb3b5bf27;0xa90bae7ab5a42;0x12ab9faa135a7;0x7963074978589;0xf3f5c2651c826;0xc52fb617b352e;0x1f414cc5b3a47;0xd25d95d9315];[0x0;0xea75004426802;0x822ffc9f013;0x54ce383e73ee7;0xd063d0d35cecd;0xef941f42b627d;0x67175452e124e;0x6904b47128857;0xc57414bdb5d73;0x92e0441a73e6e;0xa878848b3a];[0x0;0x6d7fa8ef81be6;0xe2ebdca286921;0x7ef673e0bee7c;0xfc7253e07a22b;0x652a1d686b499;0xfed1d896a5123;0x248699c23325;0x3ef4090b7ad65;0x6591b6379fe1b;0xc378775ba9];[0x0;0xa02e748c6f254;0x2138b80b316d9;0xde9fa4500f212;0x32a5293a875fb;0x44cb436a94bab;0x3dbe8ad705b3b;0x4c70d7a185e46;0xcbc238b323a28;0x66e770dc4a648;0xfcd59a9f8958c];[0x0;0x956b3cacb64c7;0x15f0de37ee12b;0x5433080265082;0x550a124d00271;0xa12b58addd978;0xf32317ff27ac4;0x78275b6eb97f6;0xe539bcb536beb;0x8f8171c515bc;0xf097669f74]])]
 [[0x9bfd006409bfc;0x840ec49af0249;0x5c7483ba12c8b;0xa77e0dbaf78f8;0x16c4e1e9ee2a4;0x6e30ea52aa334;0x58427da76106d;0xa1e71a253afc3;0xdff9334659d5d;0x825179c3981];[0xd8a0ef633ed4;0x6ab3cf7019c6e;0xe87ebc352d45a;0xe498465ffd4e7;0x67b01edffe579;0xe79d62ca58c58;0x5a865bc7ef129;0xc69b5f5ea8c3d;0xc55a0e36f7715;0x5b99618e420];[0x7254cc0ed16bd;0x2c0bc7319d3ae;0x4e70eb6047207;0xa7baefdf8b4d7;0x8df530ac0a46d;0x450468f3e8052;0x2f8ca038659bf;0x4128911540df2;0x76f8bf2e91be7;0x9c307f4699b];[0x7254cc0ed16bd;0x2c0bc7319d3ae;0x4e70eb6047207;0xa7baefdf8b4d7;0x8df530ac0a46d;0x450468f3e8052;0x2f8ca038659bf;0x4128911540df2;0x76f8bf2e91be7;0x9c307f4699b];[0xf4f5e8ba82d36;0xb5ecf796a1072;0x62160bb09efc4;0xc8576e84300f4;0x350599a861170;0xa97465318bdf6;0x26cd7d96e82bc;0x4774c649c6940;0xa888aba98a61d;0x8298f732d9b];[0x1894263bb0f66;0xb4c6d7d978bfb;0x8668b0848e495;0x1c40d7dbcd3f3;0x32aa85379d409;0x3e28fd98cce62;0x33b8de3106e6d;0x7f269914e22fd;0x1cd1628d6d0f8;0xd9006a5b685];[0x0;0x9ccf98ad62f4c;0x756288dad0e42;0x34840ca4540b8;0x780ddf2e590df;0x3c08b86025e5c;0x5502afe1615b4;0x4facc685be474;0x2514674ee93f;0x3b17cb03b2599;0x60965a97e35];[0x0;0x5a6308b2f3c08;0x95a98424e7fb7;0xf5b8c8266a301;0x4fea6eae6c44;0x75657e068f58;0xbb53363c6e64a;0x5cfd1b1153897;0x9d11187651954;0xe341c9bf1ef01;0x4f825644614];[0x0;0x956b3cacb64c7;0x15f0de37ee12b;0x5433080265082;0x550a124d00271;0xa12b58addd978;0xf32317ff27ac4;0x78275b6eb97f6;0xe539bcb536beb;0x8f8171c515bc;0xf097669f74];[0x0;0x956b3cacb64c7;0x15f0de37ee12b;0x5433080265082;0x550a124d00271;0xa12b58addd978;0xf32317ff27ac4;0x78275b6eb97f6;0xe539bcb536beb;0x8f8171c515bc;0xf097669f74];[0x0;0xe6b77df7f665;0xec0db06d64eb9;0x356569101bff5;0x136428580416c;0x6c351f454a572;0x17d59c1dbd16f;0xeb92edf4df441;0x2ac5ffbc70209;0xa359b979c3bd0;0xf9525af7811];[0x0;0xcf15b7432c012;0x7a68265c7b605;0x649b55e4262ed;0xae4962ad32294;0x6e544e5a43985;0xba1027e392a6c;0xf190c134be0e0;0xceeea0e016537;0x3ff734b5cc005;0xe82ab4b8e];[0x0;0xee542798543c5;0xab183ef85be48;0x9fc5ff2f62277;0xccfd5a9776cdc;0x48046c4758d9b;0x91aaa2391b849;0x24f72afa76d0c;0xace4c67f365fd;0x49187dde91484;0x2eee0b0f2c5];[0x0;0xa06aacea599d3;0xf3464ca6dc3f9;0x92f3db4386a37;0x4850b3cc2fc55;0xd56dbfd66045d;0x171b6a7c4e9fb;0xa3d59c025c0b7;0x7e8d2bf867985;0x7f038f068c073;0x8aa8fa3423045];[0x0;0xf1348ab3a34d2;0xd09e4f1cbf530;0xd080aca2cbba1;0xa0a9253051836;0x6346c6aac8a02;0xeb9f2a7f75e73;0xac2809dd375f9;0x9f7c721dc2622;0x751b48191ec54;0x46dcfe92263]].
Definition wit_512C_32_2 : colwit ept wit := mk_colwit (V [0x80dd372794413;0x82e5fadd348ec;0x15a043a3baef;0xb149765843e63;0x1bfabcac74e5;0x6f32bbbbaf731;0x8ccee20a137d6;0x2706c21d12a4b;0xfbb10135b1187;0x490fb1f8027] [0xf15b402664e52;0x636210d92e48a;0x11e898834441d;0x70c5f07bb67fd;0x9230db4419309;0x4d512c5930bc2;0xc481b18f3f968;0xb589623ef0150;0xdcb0c9bb55f8;0x1d545f62f9] [0xf8ce3856c58a3;0x34e92a0d048df;0xf59c65a024221;0x7b0a99e867e3d;0xf64095cc7ee0c;0x17249edf03082;0x6aad02bfd0c0;0x2ecf80d4cebd9;0xe0cec30222c97;0x997a645ca9b])
 [[0xa8f2a4ed8a5ed;0x6e9ace96dc845;0xb792c26d0c3d4;0xbd1ce064b41b1;0x9d10ee3fdff81;0x8f6af560272b3;0x3b7529f50bce6;0xdec83356bbde9;0xe01e48e4ff061;0x25f29172c4b];[0x15be67c824e31;0xcb6a5bd4b0a6e;0xe85c6aa43545f;0x7c888b1d6e2dd;0xed61d2af53e2a;0x2151bfc12eeeb;0xc3c06071abffc;0xe2dfbfce2a527;0x37dbf15ea0a29;0xa4f1bb22d79];[0x97e6e8eb694ad;0xde4c7c83fd765;0x1f1425c10f385;0x7dfe004d5ed5b;0xbf6457ed7a706;0x9a0016ebc1f07;0xcebf82be8835f;0x6e096bd625ccb;0xccf5cda1b8d2d;0xd423ed17f49];[0x97e6e8eb694ad;0xde4c7c83fd765;0x1f1425c10f385;0x7dfe004d5ed5b;0xbf6457ed7a706;0x9a0016ebc1f07;0xcebf82be8835f;0x6e096bd625ccb;0xccf5cda1b8d2d;0xd423ed17f49];[0x1968a7fa8a27c;0x59defb4aaa26c;0xdcb9597b79fcb;0xcb675eb0a4073;0x256866fd35b12;0xcc567e6eab4fc;0x2ad2ce78eaf14;0x89d6d4fa7406b;0xc4033627621a6;0x44c2c23fe54];[0xfc55bfcd9abb6;0x718b608a06801;0xba31128bb494;0xb1212c6cca26a;0xc7f96bb21e317;0x54fb4152839ef;0x98ed91f8c10e7;0x5908ead3b64bc;0x73d8bb373e883;0x602ef8e2f24];[0x0;0x7ae522e26b1c5;0x9a1ba3ba7ef06;0x9de56ee75da5;0x4165185578bae;0x54ddf2d3d01a7;0x7746c6034c78d;0x105ce889f9d4b;0xe2e6c8fc9f3c6;0xd0298230041d;0x832ff0f0056];[0x0;0x265389cced148;0x95b51e30add2a;0x5cf67435e7c4d;0xea7bc4a7b423a;0x3572d1126439c;0x43bbc97d64430;0x6655811911fcc;0x7407d0295f81d;0x3022e097e2091;0x1f7233c20b5];[0x0;0xf1348ab3a34d2;0xd09e4f1cbf530;0xd080aca2cbba1;0xa0a9253051836;0x6346c6aac8a02;0xeb9f2a7f75e73;0xac2809dd375f9;0x9f7c721dc2622;0x751b48191ec54;0x46dcfe92263];[0x0;0xf1348ab3a34d2;0xd09e4f1cbf530;0xd080aca2cbba1;0xa0a9253051836;0x6346c6aac8a02;0xeb9f2a7f75e73;0xac2809dd375f9;0x9f7c721dc2622;0x751b48191ec54;0x46dcfe92263];[0x0;0x4fcf8dcd2316b;0x8e723e7cb770c;0x19b6370cf9268;0x97f40456d354;0x12f7c65f13c34;0xb19dd6038625f;0x29c96b8a783f7;0x4c19152cb7e24;0x1f7c36fa755cb;0x4aba83963bc];[0x0;0x6fe7b7868c54d;0xdf76af107ed20;0x12f246246ed1f;0xddd5e43156c91;0x23982272aee9;0x648ce2c3d8e68;0xd8b676db8dc0d;0x7bf2ee41eba58;0x87267a2356f2c;0x4332a84b7fa];[0x0;0xf60c4309b60c4;0x7265815a73641;0x19580ef450e31;0x22284bd5a3521;0xce481dfc720f3;0x98d4adafd219d;0xd44ff6b785f14;0xe95fcd132eac4;0x4136b783d1c9;0x2f130b31d4b];[0x0;0x9ab20b0859aa7;0xe00b75d990686;0xb437d486257af;0xcc45f5451fdd2;0x693f1755dc2b3;0x4bfaa0540ecc9;0x69993519436ba;0x269569602383b;0x8ad28ef346238;0x1d5ece036233];[0x0;0x5d67adbd7a0f5;0x1a2f1535130cc;0x7b4efb03ae2f8;0x352daa3a6030c;0xe7aca13697c;0x5a36c97508c41;0x531583185bc1c;0xd63cf86fd8aa8;0xcaa7d1de1ae15;0x85edb888f]]
 [[[0x79a77eef5eb3f;0x60ec6613118d2;0xb5244c974d981;0x23827c2bc1af5;0xe8d36e7973cd8;0xf8a7e8b3b2c1;0x9d34f3b681388;0xf9feb725c1519;0xc14c9bffec15d;0x601a883c8e5];[0xc4b81d54e5436;0x1a30d59c2b162;0xbbc7eb9d86223;0x205121e31af3c;0xaac2be2594a13;0x1fce0800870f4;0x31abd5fadd56d;0xfc0992e235;0x6f77b16232107;0x54ee4f68a13];[0x5d95c12b4ffef;0xb95494da19b15;0x28093e27e7662;0xc6e982f1407f;0x5fed5dc94ad69;0xb4e9074e060ad;0xac4e069084355;0x6eaa831ff91e2;0xd138476f5e9c;0x7200e0cf26d];[0xd9ff8f0f12734;0x92cefc8d20d32;0x348636a53f7ec;0xb3ed7ee935f7;0xefe127db7e0ca;0xf66fcb06f8085;0x1a2f6df872969;0x8c8ab4eaa8250;0x8468b56fdda36;0x72d93232d90];[0xc889263ade9e9;0x5b4f2947948d3;0x6f685a51f4a65;0xbc096da8ae03a;0xbb9f69be922e5;0xd60b4fecd05f7;0x3dcf0bdd66b23;0xcd6909f0de79a;0xe7ee6b1cd50c;0x9ee044b7f84];[0x945a1ad707535;0x1b785f9df9487;0xa6e2bde82873a;0x513af2c4cf2f6;0xcf284fb847c7d;0x83572c16aa6ac;0x79e5cd493b3ff;0x80b7092dafd10;0xb1f67d193fc0d;0x1612eb96cae];[0x0;0xeb678191ff7c7;0xebd03735d0925;0xc04c435bf302f;0xe4c6233538629;0xeeab2292afc1;0x1c5300cf3bd1a;0x1252ee8e9f990;0x2a2c4c1cdefe0;0x4fa05c7344d30;0x5ee91ecb8fa];[0x0;0x6708fef58c7bb;0x54c451fd9d41a;0x84b09f09e912b;0x7748cd16c3b85;0x72a0a434918de;0x1c67a85ac367b;0xf651bdfd016ea;0x8a3d9218002a6;0x22ce700423d71;0x4fa37574548];[0x0;0x5266f507b3235;0x2fe5536f1a978;0x60e3856629d12;0x8f3d4442429c7;0x4891fddde99b;0x1662f60dfeee9;0x71cf199a387a6;0x27afffb1a5fbd;0xcc6fcc14eaf29;0xf06d5e6d0];[0x0;0x9d28ee9aac003;0xe51248c83d3b5;0x6a5277dba4eb6;0x811803d326375;0x8a06b6bde22b9;0xf395cb689d0e6;0xbd61a84b2efc5;0x81ce6ff3b1222;0x5c24221459301;0x27795616c3c];[0x0;0x98ab0d3eaafab;0xf28e16dbf7e1;0xea294072adb6d;0xa5426773f7988;0xc1518b2ef1af8;0x30544aa8713af;0x3e220b15c74cb;0xb3040a4d789ec;0x81f1a87faf991;0xfd8aa4d15];[0x0;0x74d90f08633fa;0x40e9024abf7e8;0xafaca50f2c9bd;0xdd8326cd9c177;0x31933c59af264;0x9a95c21502b46;0x42472c4f2d631;0xee95cbae93f72;0xddf555a0c937b;0x256ea41cbed];[0x0;0xfd0c7c78a1fba;0x6b8f6cfc7dbaf;0xbcf273787c060;0x8e484cb114111;0x43d1e9c793ec7;0xdad56e7fb73f2;0xe5dc59a6819bb;0xcfd0e6a774acd;0x878ad2fa255a7;0x3f21cf6ceb6];[0x0;0xb77faa01ec189;0x7e0f093985683;0x6a0cfa2481a83;0xc58c6fae145b7;0xccb29c0138747;0xe8902dc494a8e;0x45cc0c5c6f0a1;0x8cda71f80085e;0x176d10532dabf;0x5deb424a13e6c];[0x0;0x5b51101b57d9f;0xe29057c37031c;0x6747c1989634d;0xbdcda73aea7ec;0xf3c04332bbf80;0xf30d8ab73c32e;0x15e203759af7e;0x5555e525aa18d;0xbad77c156ee5;0x45a1a78e33c]];
 [[0x79a77eef5eb3f;0x60ec6613118d2;0xb5244c974d981;0x23827c2bc1af5;0xe8d36e7973cd8;0xf8a7e8b3b2c1;0x9d34f3b681388;0xf9feb725c1519;0xc14c9bffec15d;0x601a883c8e5];[0x8e341be761c78;0xc19e8bb8db233;0x271b0bc3c13b;0xeaf73abf80617;0xebe18fa4961e5;0xc25670a3ae27a;0xe05d75ca4c2f3;0xda4696c7e24e9;0x113876b3b2e36;0x527bf08311b];[0x2da485834382d;0x89741f37e2109;0x54514f177f81d;0xe70a206ce34d4;0x4b67167cd7104;0xa77a2c1e7cac2;0x6123cd62f675b;0xff123c8e863ce;0x1cceb9c9d1575;0xc0aa6076b4b];[0xac362f6269faf;0x6d226aec23e7c;0x6b03b09ecd904;0xebbb8d51813fb;0xfdbdaac1ea6b1;0xc315f7f295996;0xf9ed69cc9ada6;0xbd043b52a1b7;0x217033eebb491;0x46916f00b3e];[0x968c9608e4ec4;0x957c25e6ed75b;0x3750411d1f6b5;0x277c0087faf76;0x32965362756b4;0x7f10449dd1cfb;0xa811af84d52a8;0xf47af13e64324;0xe768fefb0a56a;0xcfe080988d4];[0x68a66abb21f4d;0x6f0f8ebd80d0f;0x589ae0a61d03f;0xc687078181057;0x1f8f714f86864;0xeae004dd1fb62;0x1df5355d9c972;0x520961f64e8e5;0x80980694f9a9b;0x3fd8b7945e];[0x0;0xeb678191ff7c7;0xebd03735d0925;0xc04c435bf302f;0xe4c6233538629;0xeeab2292afc1;0x1c5300cf3bd1a;0x1252ee8e9f990;0x2a2c4c1cdefe0;0x4fa05c7344d30;0x5ee91ecb8fa];[0x0;0xd2945973a16ea;0x7855f918dfdb;0x796ee172f9f48;0x44d5fd8966123;0x1cab53b35261;0x111a68260b92a;0xfbc5062457a35;0x4c547e40f316a;0x97c96aa878769;0x944df1dffa];[0x0;0xfa406a5241f57;0x1a9b72a0bfe0f;0x37058e10436e6;0xc5b7c05746109;0x67c2a15e37d7e;0x3a2574f2c128a;0x994176b80b1e0;0x34c39cff8dce4;0x8da43c8969e56;0x15cd3b947a];[0x0;0xefca069e27d20;0xf6629b58bc3f9;0x6d30beaa11ac6;0x38060614f3ba5;0x78d51d67160ff;0x7aec682a03a1b;0xa014463c6002f;0x698d604b04887;0x5063c79ac61ef;0x1abbfa915be];[0x0;0xa5595bdb6f65a;0x1389f4e892ac;0x60a665f897f7d;0xc67474797ed7;0x541a15ecd600d;0x288f5dcebf0f2;0xa64144efbcf44;0x5cda76c9008cf;0x7ee5eb9da4bcc;0xabb6ec1ec];[0x0;0x5e6f767db6630;0xf07eae3819ec0;0x2bc4aaaa47ad2;0x406f127ddad8c;0xc43652e2d5b10;0x4523629123d22;0x701ef1206744a;0xd1508d22a15c2;0x2d2d10ede109d;0x364f1a4e495];[0x0;0xb22eb10941588;0x676f17ef51141;0xa368828f86e43;0x29530416f7239;0x9abedafa31084;0xe8117a2281877;0x4a826ab01680;0x24a926c6e25a0;0x49adb849eeafa;0x3a548010ace];[0x0;0x560f1b818c36e;0x905e308661aff;0xe0fdd27deb722;0x24fa003b7c82f;0x92ef7bc4b947a;0x3c34ba2bd222f;0xc8bc9d5835d58;0xa46e914b0d948;0xf2cb785dce1b;0x2ff24897606fd];[0x0;0xb2630d7b7f5a3;0x5bdffdc3bd60e;0x3f1bbb2ebf1cb;0x7ca72e1738f75;0x899459c826bac;0xb8603ed517609;0x4dac5b5bae35;0x281f92b66b2fe;0x7708f3aa88151;0x21d10cdb90e]];
 [[0x79a77eef5eb3f;0x60ec6613118d2;0xb5244c974d981;0x23827c2bc1af5;0xe8d36e7973cd8;0xf8a7e8b3b2c1;0x9d34f3b681388;0xf9feb725c1519;0xc14c9bffec15d;0x601a883c8e5];[0x57787880cb928;0x33962f25aea46;0x814d1dbf06542;0xdbfa196b84384;0x2091187410d93;0x29f4504290dac;0x6e4ec40f3f65a;0x87ae1a954efcd;0x945177a7541ad;0xedf7deaca57];[0x68a0d4338a380;0x6e1a80bd82df0;0x7ec306ed9a6b8;0xb81e9775cf55f;0xd199dbe6500a2;0x234d9e3593d1e;0x5b8155343262a;0x833e44b9f04ff;0xe70b437a9c984;0x9e4094ccf5c];[0x75d1d7389238;0xda83422ae234e;0x865c7ff991657;0x772a2b5f98cd3;0xff552189ad962;0xabd1e86ce859c;0x1cea2d18eda81;0x834474e1c4f34;0xd1ff6ad720904;0x583c9b8a7ac];[0x3f77f0f9e649d;0xd11382c1a332f;0x73b76a1179019;0x75e58ab5acc8a;0x823b907828f65;0xaadf0aaf1dc60;0x9d792df744396;0xcbd2184004112;0xef868c4265b12;0xe98e4a64e52];[0x26310c2055d44;0x417a164a47795;0xba6c14c3416b7;0x564ecf3c59cf6;0xab21ba3fec533;0xa884d591d3233;0x904f4b68e45f;0x9c46f0b83a382;0x3b48c118284b5;0x2be06a9adda];[0x0;0xeb678191ff7c7;0xebd03735d0925;0xc04c435bf302f;0xe4c6233538629;0xeeab2292afc1;0x1c5300cf3bd1a;0x1252ee8e9f990;0x2a2c4c1cdefe0;0x4fa05c7344d30;0x5ee91ecb8fa];[0x0;0x11c43437f307b;0x6caf5fd6a04db;0x52c6b9fd867f2;0x990eb48675c3b;0x957c78f88ddaf;0xc1b9e95ae0ee0;0x64b7713244b7e;0xdb80109b5ff19;0xc7f0f4b7ed672;0x387ce6e0d53];[0x0;0xbeb6b81018998;0x4d5577877ee49;0xc5a393f06b9c8;0xf3278977aac35;0xdff8fc1abf53b;0x504e45fbe0375;0x484ec76dfdfbd;0x6a9150b58c6a3;0xd6c547fde7db7;0x14bdaccc09];[0x0;0x38b1cbe1a7004;0x9cf24277d9a4f;0xfc17ee043c591;0x31322a18fbce3;0xedeb96c0d2766;0xd50ec4029b7ea;0x6ae944531bdcc;0x654e646347356;0xf6d484e0d7d9d;0xda5c7287e4];[0x0;0x7946c4d17dd4d;0xaf43a7b7674a3;0xb326c16258fd;0x4cf44a3c95e5;0x79f550787b4ee;0x721f4d2babad0;0xc2980da4203ce;0xb6440cf53f409;0x54ad7cac40ffa;0x57a88f459];[0x0;0xb3cb63c0618a8;0xa9d1a8c0793d2;0x14dd88af98fad;0x1f77f5813d82c;0x582ae5ba74f1d;0xd8bdbf2b88489;0xc51d95c85f4f2;0xc88c73ed8c41c;0xe89e49b40631f;0x33aaa3e0dca];[0x0;0xd02d6f6af97a2;0x8afb8593fb946;0xd6f1418549099;0x4899f69226dd1;0x86ca48b18511b;0x91ce2e94b593a;0x7ec6724a8e196;0x14e9c701ab57c;0x765997a7876d5;0x8531e05b607];[0x0;0xc145290ab45e0;0x6de961f7e4e96;0x832c2993e2129;0x1e9c0f1480ca7;0x38fb21d57c0f;0xd7d2906f3c062;0xc36516b249250;0x164b803002469;0xc0c6214b857aa;0x1fa0a2b9de662];[0x0;0x1a822008d2e08;0x779f1bd18d633;0xab49b65468b8f;0xd3b97cabe665f;0x35cddf55def8c;0xbad1696d4427a;0x2a885092cf3d8;0xd9dcc4ce87db9;0xf9a463c167ca;0x11b293a14a8]];
 [[0x79a77eef5eb3f;0x60ec6613118d2;0xb5244c974d981;0x23827c2bc1af5;0xe8d36e7973cd8;0xf8a7e8b3b2c1;0x9d34f3b681388;0xf9feb725c1519;0xc14c9bffec15d;0x601a883c8e5];[0x9e62b82cc576b;0xe2fb0c29e5eda;0xa77b23bd2393d;0xb1d8d338b1a;0x8b2d5e78af068;0x291dd1fcea4c0;0xa3cc5e028bae3;0xb6c7f5840911c;0xb04b06381c1c8;0xf01a3c07546];[0xe461dc4ae39ee;0x1846fd88f5dab;0x41d890b8c667f;0x9be3822eddf52;0xc582198adb4a;0x6aeadfc228351;0x479f207f220a0;0xc84d488f6d6a7;0x82d50d1dc70af;0xc248fc6e475];[0x81db59f5dfcf;0xc9924906ea206;0xfada23b245edb;0x39798d10d88ae;0x3d596a67387e5;0x367e596203bbf;0xc76f019425ea7;0x9b4840dbcf5e6;0xb64a95c062994;0x6dfb24c7248];[0xb25290190e3f2;0xe1a095b05ae34;0x5cbb93b81ab24;0x1faf36b522ac1;0xa8cc5c47d4c1;0xf9ceab9e871b2;0xb13e94ea8a785;0x1b18aa769193a;0x79a3dd4a187b8;0x30dd74132a6];[0x73ffd51750754;0xb046f0314f9dc;0x82fdff215474d;0x585b4a32d26a7;0xf9cd7e46b2c7;0x122c578a1175f;0x3d96d1662b82c;0xe533d6732905c;0xafd6fb0046ec6;0x6ff8665ef87];[0x0;0xeb678191ff7c7;0xebd03735d0925;0xc04c435bf302f;0xe4c6233538629;0xeeab2292afc1;0x1c5300cf3bd1a;0x1252ee8e9f990;0x2a2c4c1cdefe0;0x4fa05c7344d30;0x5ee91ecb8fa];[0x0;0x30d2a8edd8f37;0x43e24233db7df;0xcc2dfc0acc291;0x2babe34fb1feb;0xb40ba0eecb63a;0xc9a3e6ea3c66c;0xc0b1d26728306;0x1f443d0948584;0x652a5e773ccf1;0x5fdea3c6114];[0x0;0xdf070b9ef31b2;0x200704e5c0005;0xd7c75e18f1fb4;0x9e8d42e7725e8;0x793ffbc8baca6;0x7f112759227af;0xb2e9f90d652e6;0x97fca185eb2bd;0x8051df8598a69;0x106a900098];[0x0;0x93a39166f1ca1;0xc2a948019cff3;0xda5c02b204fa1;0x7f9b3545c49ba;0xb33e339a8ae4b;0x5dd01219db42;0x9bd8116d76674;0x2f145cc2a1ca0;0x9a99c7e757b81;0x9061c15e69];[0x0;0x2e05e5509bdde;0x8a23682416eb6;0x7ea4559c2c1ce;0x3e19b9d77973e;0x51c6f2fff360b;0x2bdd2ce0a92;0xff3e8db575de8;0x33917bc57748e;0x444e9483aba17;0x39f5d9b41];[0x0;0xb908b5e0bfde2;0x3d5f3b1c5b60f;0x14e024217677b;0x4954d003b7155;0x1c5184845c0e2;0x883fb939b16f0;0x5f60b6f78e5c;0x8cbd5481a0c01;0x356783106f13b;0x28e4c5e1932];[0x0;0xb30e1d09aa7f5;0x7a3eed5106384;0x6ab77acd646bb;0x1f932b9ca7968;0xae3438b4a1eb1;0x1f85475751e09;0x10eec176750b5;0x1927ae25f318a;0x1328988a79b81;0x16227d6ef9c];[0x0;0xbd28d554261ee;0x96ee251c3b923;0xd40a4b55ca913;0x7393959a981ea;0xc5967d696520a;0x55ac303032e1;0x1476eb1462162;0x75cf60eb7d79c;0x83dc26f99159;0xbb89452839255];[0x0;0x66cd443ba4f52;0xac2a255130a60;0xa04dfeda1f9c;0xb87fced091d74;0xd4f6b59b75fd5;0x9f24e460b6677;0xb32f3e7f2c94e;0x6d6bb87fe0c29;0xfeeb105026497;0x1148d649a1b]];
 [[0x79a77eef5eb3f;0x60ec6613118d2;0xb5244c974d981;0x23827c2bc1af5;0xe8d36e7973cd8;0xf8a7e8b3b2c1;0x9d34f3b681388;0xf9feb725c1519;0xc14c9bffec15d;0x601a883c8e5];[0xfa71ba2d5164f;0x7f2ae533ba520;0x5807d6b32f14;0xd2b8d5bc8b41e;0xd1e989cd8290d;0x84101bd95c773;0x8d2a7b0f6ba06;0x7c152b0f9dd6d;0x5f2652484fa7c;0x9d640f06e3c];[0x1ab176f8d3fc4;0x2191dc635b356;0x15615513b23e5;0x2354e36171012;0xb0a741b3a2e27;0x3535c009a4ccb;0xb04376b7afcaf;0x63fd1635d62a5;0x1867cf886fe24;0x45417001fce];[0x67565ad10a0f4;0x44802666434b0;0x91a929a55c434;0xd2b4452d7811f;0x65f6fca84fb7;0x591df136f64ea;0xadc0fda7c77e0;0x1f4e72bc3984;0xbb603ee10f4a1;0x657389a741b];[0xe9461519efd3e;0xc32ce354f85f3;0xa3c261ff2bf68;0xd12bcfd733b9f;0x6006f40d86a85;0x2dfe26bcc5d72;0x5f53db24361ba;0x176b38880a3d2;0x1bc0b2c6534f6;0x6fc92d4d9b0];[0xaaf79a16f04c4;0xcaf7589cad37c;0xc625cfd127ca;0xed5ed8429d80e;0x994d6434111af;0x23e763273adf2;0xbd4fe01008661;0x1abf5b4aeae85;0x48319507de43b;0x7796736359];[0x0;0xeb678191ff7c7;0xebd03735d0925;0xc04c435bf302f;0xe4c6233538629;0xeeab2292afc1;0x1c5300cf3bd1a;0x1252ee8e9f990;0x2a2c4c1cdefe0;0x4fa05c7344d30;0x5ee91ecb8fa];[0x0;0x747fdfcef0465;0xa9ba396a6ea5e;0xc7ca2701f1cd8;0x124342c3f083e;0x805acb4759da3;0xd358a04de854c;0xc9122b64298b5;0x4c73b69e07972;0x9a31caababc5a;0x59f7a488d61];[0x0;0xae1cc4c07f9c;0xba71085478c3a;0x280f7e7845624;0xa264f4fb9d56c;0xf853c29d815a8;0xff23e6b2eebf3;0xd83303f2d26c7;0x402bb19a2b973;0x4eb3155c591cb;0x2b42fd42e];[0x0;0x8daaa82bc1163;0x28030050e4476;0xe602c7bca2662;0x4e00ed8582cc5;0x471b8aa393106;0x2cafeda3c6069;0x4fed3a9df6160;0x232606d28c85;0x43cdc92f233a7;0x35825179ce0];[0x0;0xb617220cb9768;0x5759e8dc41605;0xeee998e6ddf76;0x133f1946dd405;0xf12105951fb72;0x16a6f77fd986e;0x242bb5ef6e15a;0x716fe97fe2b85;0x2d7b2d6918349;0x157b0643d5];[0x0;0x7fb7eb3e25f18;0xb7daef4ec5c6;0x136cb952dc4f6;0xc8a595e7592c3;0xb2c3df5b9cb83;0xf9fe491e01775;0x36c68ca9daec3;0xd118c5a427f4f;0x8f81ddc624331;0x6bc44c6618];[0x0;0xd3403d68cbff8;0x76299ab72b5cf;0x77070e8885041;0x85e131c837369;0x63e4fa530da45;0x905490bda0434;0x1b268f8a03465;0x3e6b1fc3e481;0x5b810f47141f0;0x34cec938e13];[0x0;0x159802de15ed9;0xe30c49150d0b;0x856a28ab6da3f;0x6b3791dd6e721;0x2bb75b2595060;0x951c7c94a640d;0x9a0adbc96bdf2;0x4ee7cf4a4ff9;0x3bd66446819ac;0x22ac07a1b2f5d];[0x0;0xf667151959724;0x136c2674334f4;0x2a89137d043c6;0x346c7817ee1d9;0x9b40b0a013fd;0xc5fb603cb210d;0xbdd9f6b11a500;0x97a7836645d1a;0x5b2ec7c8fc8d2;0xb9d9c2c150]];
 [[0x79a77eef5eb3f;0x60ec6613118d2;0xb5244c974d981;0x23827c2bc1af5;0xe8d36e7973cd8;0xf8a7e8b3b2c1;0x9d34f3b681388;0xf9feb725c1519;0xc14c9bffec15d;0x601a883c8e5];[0x2681e904c5a94;0xd28d48dab433e;0xa83cfdf13494f;0xd07f49400dc84;0x5d3f996992581;0x2c04594f180e7;0xbfbff20ae56b4;0x144251572e989;0x3569de9e90c4f;0x12ca3bab338];[0x3fd9ece68dba7;0xee9a8009595a4;0x148987e337c89;0xaeae4bd61979e;0x403c47b518a8;0xbb038da8a4609;0x4ca6b81c4e553;0x811ed670583c4;0xec40fd2190298;0xebecd8086fd];[0x9be83db9ebb38;0x1c4d29c6e77a7;0xc32acdd1bfd19;0xa076a1f0705c;0x605ce1de033b6;0x869db39b09b4c;0x277a7c4a73d88;0x2bf9291f79b3a;0xa36bf0795febd;0x4e3c40c410b];[0x6dd3fb2e39ea4;0x44ffcfaeb9d4d;0x5fb4bdf6b6e66;0x3127fbb100210;0x120604a46b06b;0x24d135dc8ad41;0x574ae28eff00e;0x319080861ff3f;0x616203de7fa9;0xe170bfca3e7];[0x6860ba2669c31;0x148bf0d4ca86c;0x5d1e738bd0d66;0x7d6e16c361576;0x6a3359cbe75a9;0xd83ef0be35a66;0x32b519a61fca4;0xce399045bc847;0x8fef6d3ed6808;0xdf6a305b970];[0x0;0xeb678191ff7c7;0xebd03735d0925;0xc04c435bf302f;0xe4c6233538629;0xeeab2292afc1;0x1c5300cf3bd1a;0x1252ee8e9f990;0x2a2c4c1cdefe0;0x4fa05c7344d30;0x5ee91ecb8fa];[0x0;0xa85e5a8e0e0d8;0x7307e2c3f825d;0x31f89fdb6fb4a;0xc2734b05bf68b;0x7410d27b0ec74;0x1f8f23bcf6da4;0xebfbcba64f537;0xe6d05c5e4daea;0x9ca46ba11189a;0x27a1da6d42a];[0x0;0x98d876d66f5cf;0xfa7733dfdbfba;0x2d49f66c29f7c;0xe581c187d7ec0;0x59491d9cf1f3f;0x82483dab56775;0xeb92484caef65;0x1a03fc5f22510;0x39d4b55529472;0x9d7354944];[0x0;0x148b02f5ea228;0x7f480601ee247;0x72970649d35c6;0x56efb5793c7fe;0xfcb2571d3ab0f;0xd8209eca9cd69;0x1610fa2aa5811;0x2b4604fc57023;0xe88a96aab3dbf;0x9e160108e5];[0x0;0xffa4babd4b0e4;0xd11b6a0f0bdbc;0x49d8dba680dad;0xeef7565d01613;0x961bbf1c0f82c;0x5e07fee80cb96;0x76feb887251fe;0xe41bb22b5faad;0x10e302492fa9;0x3f7631c9b];[0x0;0xaaf239e4e2c61;0xee331174cf0f0;0x5ba52f33b8b69;0x74e8d5f0e0254;0xed387a83fac02;0xadeeee9497c96;0xd537c8246ed8;0xa2e56083346ed;0xb8bfc483a8210;0x18837614a27];[0x0;0x81d1bda06d56d;0x8fb21faa2c0a6;0xf273b15312aad;0xf86a344a03567;0x92152f2c3c76e;0x2658b35d7db43;0xadd919704edc0;0x8a042980eb51c;0x10d8474d3311d;0x2361d9c1e5];[0x0;0x3534f6e69992;0xae9cd7db3e289;0xb6f65e1b88804;0x7ea2d3dfed3fd;0x2fa7119ac1417;0x9e7810056b94d;0x27f40def11e53;0xe3c97f1c918d7;0xbf1ef581cdeea;0xada6a2208ec38];[0x0;0x57113d8936e22;0xd58d9ae8cbc27;0x75b933c9a63d5;0xc14b49e14230d;0x40e34f73ec83f;0x461c83bcb1df0;0xe299ae899a318;0xef52161edaf1;0xe2f0696600b5b;0x145cfdb2700]];
 [[0x79a77eef5eb3f;0x60ec6613118d2;0xb5244c974d981;0x23827c2bc1af5;0xe8d36e7973cd8;0xf8a7e8b3b2c1;0x9d34f3b681388;0xf9feb725c1519;0xc14c9bffec15d;0x601a883c8e5];[0xa25e3b2408e78;0x510d66738d0eb;0x58dc3b00c3;0xfc2b02bf971bc;0x8e3f1e26efbf1;0xd5b263cfc348;0x848f7cbe26580;0x1d57e62738de6;0x8ceaebfd70466;0x4cf74060d46];[0xcb5fe440d230b;0x1d68589875af5;0xabc6ff59c358b;0x66106ef5ce820;0x1064ce74aea49;0x1ac6aa396b8b6;0x287bc70efcd92;0x856863a8902c1;0xbbc9d3b604291;0xd1f21248131];[0x9595f0ac453ec;0xe5ef22301119b;0x2a2c2eb4f355f;0x6ba845ff3a8c3;0xf4964491cfb56;0xacda51ba1a1ce;0x34077588dad6a;0x185b7c2874a97;0x9e0c8ee58ceee;0x2b2afd4605f];[0x8bceeda5ab7d2;0x66d5d76db628;0xacd12033bef27;0x9f9d75207f50f;0xc2db613b6c894;0x33b0921402c6b;0x34698ad1928b5;0x682a01227ede1;0xd828f125d7793;0x10df440f5ca];[0xdc08859682438;0x3f466afaba434;0xbfa23476fafaf;0xa91d76a7c93c3;0xf77b69ae50660;0xc73fd4653292;0x9e3348beb412f;0x47a0fb37b8b1e;0xe72ebb8a73e40;0x15530efe12c];[0x0;0xeb678191ff7c7;0xebd03735d0925;0xc04c435bf302f;0xe4c6233538629;0xeeab2292afc1;0x1c5300cf3bd1a;0x1252ee8e9f990;0x2a2c4c1cdefe0;0x4fa05c7344d30;0x5ee91ecb8fa];[0x0;0x71bd8bc6db3a6;0x262b60839cdb7;0xe16cd21ab81c9;0x7bc03eea53ab4;0xe5da8baacf7f2;0x3840fba6ca029;0xa12c0f9bb2745;0x82a8bc5d030de;0x630598f4d0;0xe36ea9f3d2];[0x0;0x3901721981a3f;0xe51dcb0f9fd21;0xa338b209e829;0xdef53afa77b32;0x683475d2d14c2;0x6a6ebb0e5dc3e;0x1bd32961089ae;0xc5f89c71f1213;0x3afd75809e1f7;0x373a8c9cd];[0x0;0xe4d0e1283116a;0x3e5badf0c7f77;0x8b55b147ee620;0x1967a9b92f5ef;0xb105ba969ccb;0x5ff16c3497f21;0x1b423ca00ab1b;0x886c8436024ae;0x12f19ef328406;0x3161682ac0c];[0x0;0x1932786c6d9d6;0x4cbcd36125a73;0x68cfff86c8696;0x30f435acec37;0x5d48383387256;0x9c5d98d028653;0x3d86233bafdca;0xe2e4facca5d26;0x2c45d6c2b4f18;0x13d2bd7b9b];[0x0;0xf6d2873a91b12;0xae0b0a67c4ac7;0x90f8978629d09;0xa9b87dc51ab3f;0xb3dd61aa1362c;0x261934b91e947;0x2a702e33ee021;0x2cbc8910410ca;0xe65a657430806;0x8993c3bf7c];[0x0;0xe2f7316b2e20c;0x5e5f0e3826484;0xe1b9203321e40;0x698b302915644;0x272759ccbf13;0xe486f3b7dabaf;0x86a530b307b61;0x68db4d2acf814;0x7ed2288c20215;0x42f7e6f7570];[0x0;0x4e2923a8787d9;0xa4b0712b5a1f8;0xae7d225d2ed26;0xbeacaf97bf4b0;0xdca92538f523d;0xbd1ecc62f465e;0x7b978dc1690a8;0x8ff24c36d74c8;0x82279ba6c9d8c;0x29809a8625440];[0x0;0x88e2e1043ab1f;0x8ddaa88097da1;0x9147c7bd2b420;0x9db27554438c7;0xeb2068afee4af;0x8018455903a86;0x775562ea49b1b;0x9da57b307d4ea;0x6eed24f402375;0x2403565fb49]];
 [[0x79a77eef5eb3f;0x60ec6613118d2;0xb5244c974d981;0x23827c2bc1af5;0xe8d36e7973cd8;0xf8a7e8b3b2c1;0x9d34f3b681388;0xf9feb725c1519;0xc14c9bffec15d;0x601a883c8e5];[0xcb871900e5373;0xa618c9a348e67;0x4beae32ffed1d;0x5a386a2c34993;0x9eb130b5cddd7;0x2679352a423ff;0xe0b30072f325d;0x154d073b33ac5;0xc78fafae9c84e;0x16da3b155f];[0x7018252bdc054;0x3797ad762e6e7;0x137ab64c696c0;0xf95635a2c536e;0x5f6979b57bafc;0xea94ccbc0ad6e;0x328d43e5b4a45;0x41d27e186c957;0x6283801b311a8;0x22daeb5973d];[0x84fe8413f1936;0xf6b630d41da94;0xdf2af17c9e3a7;0x914add668c07;0x195b6996614d1;0x7df4708593096;0x56acf43336be2;0x368a272a9acb1;0x15b277a3b65dc;0xc4363d7ed79];[0x75ed76a42c596;0x99ca9a3223d71;0x882776f7fc6ef;0x558eac4d078b1;0xad49a1797aa94;0xc1fa59cf8936c;0x6f522cf65bdc0;0xd1e7d8c499e0;0x159dcb322bcd;0x73ee76f1c51];[0x2287e3c58179e;0xcb2b39f27a36d;0xe4fdc17b7ed74;0xd2a0c8586d689;0xe5799390cc116;0xa57bdcccd6030;0xe5ec25edc54d3;0xedc971cf74c4a;0x5b7e005ee3033;0xa2484fcf6f9];[0x0;0xeb678191ff7c7;0xebd03735d0925;0xc04c435bf302f;0xe4c6233538629;0xeeab2292afc1;0x1c5300cf3bd1a;0x1252ee8e9f990;0x2a2c4c1cdefe0;0x4fa05c7344d30;0x5ee91ecb8fa];[0x0;0xfa611bf498919;0x337fe7ae29bfe;0xa9b93eef3be94;0xe218b37a97888;0xcff1dd8551524;0xf1d11bbe0929e;0x3b05ced0f7425;0x8a4d8307e5511;0xc88396499cf49;0x5adf310d3b];[0x0;0xc488c34f6088e;0xcc495682849e4;0xb73cb9b845fe8;0xde52d15b2a173;0x9fecc2a9a1b80;0x48350d1603bb0;0x6228f42d11b47;0xa39e91c2450e3;0xdce36310c4377;0x19851304c7];[0x0;0x918932153f387;0x5ba358c503782;0x314d2bcc9e1d7;0x932ed3d21cac9;0xf8cb4b45ec99d;0x92f766c0b10d8;0x8a69c24836bb5;0x681835045f669;0x9fd8f5c4d4161;0xbcff4a4087];[0x0;0x1a342c07640ac;0xeaede0a175ee1;0xfa3dcce1514e2;0x95768c0e9ee29;0x8adbc3c101115;0x59b993d6ced8c;0x523b1742389dd;0x4672192e51e47;0xfd84b595bdb2c;0x4bdee33a0];[0x0;0xc8852713aded;0xddcd3b1e977ba;0x1149045b2a13e;0xc86a4e4fe6c9a;0x5dbb291a3c8cf;0x14e39fc2f34f4;0xf65048df94bf3;0x6f9a5046b82fa;0xc428f28a76640;0x3f922edcc1c];[0x0;0xafbfe3f84f96;0x308c4aeba7f81;0x20cc21bfc2723;0xdc1840f077be8;0x94b4e2098d7ef;0xcc4f343e67194;0x46a04af7e12c8;0xb082bc08f4c90;0xd5c37714e1b1;0xfdb6aeaae];[0x0;0x489fe61772e72;0x151d5f3419a4d;0x43a74d11c0880;0x9b6b8ce4d107b;0x8b152cdcf233e;0xd4f7d3e488489;0xfaeb03115b526;0x27eddfb151b3b;0x9d2d7c37a338d;0xd7881502caca6];[0x0;0x619377e8d2a1c;0xbddb42c85d584;0x97c55ea231850;0xa8657dcefe64c;0xbb5ab2289d400;0x10faeab16bd47;0x3c3884a32fcd0;0x337872ee31fde;0xe70550fc33bac;0x94f9fee10f9]];
 [[0x79a77eef5eb3f;0x60ec6613118d2;0xb5244c974d981;0x23827c2bc1af5;0xe8d36e7973cd8;0xf8a7e8b3b2c1;0x9d34f3b681388;0xf9feb725c1519;0xc14c9bffec15d;0x601a883c8e5];[0x63a0faa2be4ab;0x12cc3a25530f6;0x954c66ed4748;0x89966a273a907;0xd293045e8d6d6;0x4e59301bf5d47;0xd87545a4f4bb6;0x719816622953e;0x985532edd9265;0x374f08bff46];[0xca5162564c34b;0xffa424527f632;0x739d6b70a1e8f;0xb8f520cd0c2a8;0x3256c88ec1414;0x466fd24a4f789;0x2b330577ab4e8;0x1804080f90a6;0xee93c5a5b62c8;0x25268dafdea];[0x2e977a115eaeb;0xf1fecf0193b83;0x8ed1140bf5895;0x714f63b8d8d85;0xef83d4b2084fe;0xd3a986b8a7c78;0x806af125326a1;0x8c4a28323b3a;0x5550dcab4b8bb;0xff1c143dc84];[0x546c8bd41de75;0x3ebf08677f7f;0xa854560e392b5;0xf49581322d389;0xc43028084efbb;0x1c14fc5921ef4;0xe4ec0241b564d;0xd1a264be4d4d5;0xbf3db7af9133c;0x3be58f45b8b];[0xbc665f8ea7d1f;0xb3faeb0e0fe01;0xdf8d421cbca89;0x244eab155b172;0x3b73aab3ec291;0xcc87a7f6d474e;0xc6e6ec51d7701;0xe76e330eefb06;0xfa1fb9ead54c3;0x30982765d41];[0x0;0xeb678191ff7c7;0xebd03735d0925;0xc04c435bf302f;0xe4c6233538629;0xeeab2292afc1;0x1c5300cf3bd1a;0x1252ee8e9f990;0x2a2c4c1cdefe0;0x4fa05c7344d30;0x5ee91ecb8fa];[0x0;0xc16c72cebbeac;0xb84e7e16c5fac;0x4fcfa9f1cba32;0xe308cb97d2318;0x3d2403a5b317d;0xca90ce1bbd95d;0xb98aeb81cd77c;0x6f7e68c95ba57;0xd9399022a416a;0x390fe241091];[0x0;0x5c5aa0c3fbd89;0xdd30d17415cb6;0x6534544e1a179;0xa9ce8738f3101;0x8f259387c195e;0xd41b13d35d1f;0x81cc41b208df9;0x84ea88a08f851;0x26900fcb14b1c;0x1459fc66f4];[0x0;0xdc4b9de1c33a0;0x69bc3fadd856a;0xafe341b8ffc56;0x2a289e56df239;0xb270650fdf24c;0x5d66f39dcf45e;0x957ae2e863ac0;0x14ae9b16ff43e;0xb18fbf6c517e1;0x3d46163acc6];[0x0;0x1b1996805ee6b;0x63629523729d;0x115c84fa77ce8;0x9b9d19a5ec80e;0xf94a78294e2c8;0x8afe6fae0ccb1;0xf142f3cf9ba1c;0x19f6601c05ae;0xe902ea1edb0f3;0x1898fd7b69];[0x0;0x36dbf5a7ff4f8;0x5aac049a38a3;0xce959f77578a8;0x833c27b3b20f6;0xa866d25903e8;0xd49650d41ca89;0x2532704f3e788;0xacfb4bbdecd00;0x46f9265b899e2;0x32b24f6c235];[0x0;0xc650c7468dd72;0x4075955d5547e;0x50f166883bc61;0xcadd55fdd4f73;0x4307984892af;0xe40c0b7b489a7;0x68daece7965c;0xba303e85acf5d;0x15939e8ebd1f0;0x17673eab24f];[0x0;0x9bcf92175c92d;0xdb8af4ed69b5;0xbec72de19f8cd;0x5713dcb2350a1;0x95f3a44a651fb;0xe30cf9357811e;0xa9e728c007ed1;0xac17f6bb9391a;0xb5b0e13efdbae;0x213474ec3543f];[0x0;0x799e71b77eb86;0x6542cd42a0e73;0xf5947b3feeed4;0x8b8f6cb63207f;0xbbe32b6600d08;0x2a6c9eb2dc9c5;0x95c68e1e14935;0x45c08ee027b54;0xe4500a0761f8d;0xe01e594114]];
 [[0x79a77eef5eb3f;0x60ec6613118d2;0xb5244c974d981;0x23827c2bc1af5;0xe8d36e7973cd8;0xf8a7e8b3b2c1;0x9d34f3b681388;0xf9feb725c1519;0xc14c9bffec15d;0x601a883c8e5];[0xec8186d4a85af;0x3b25a2b394a5;0x4d3f1a53fe0a;0xc063b0109b3bc;0x75054d81a6f7d;0x4425487dd6fe0;0x88102af96b240;0x4772f2311f0ba;0x462e21c7c026a;0xc29253d7c3f];[0x284c2a807ab4;0x11bba2719c0;0xc629176958df1;0xaa511d24805f;0x3c7d8d99721a5;0xbd050df72dce8;0x76bfe3f75aaa4;0xa24d9248c2f01;0x326c43ee5185c;0x8ef519f3d24];[0x667b842bddfe;0x78a51da49ae13;0x9bbe57bf67527;0x330b16b6ce2a;0x9b48b51c8501f;0x7dec2a5491462;0xcdf0e12527999;0x7f30000f87bc0;0xc361708ee6d18;0x3a07f85e2bc];[0x63b477cd5307a;0xba7cbd8c6d6b7;0x7f7d3ed6d971a;0x74ead507e4eab;0x79fff20f3bdae;0x229c870188a5e;0x90e2e89889759;0x52e7885f77eca;0x126b70debecdc;0x180fb2708f3];[0x33dac4aacd4b;0x6c4384a520f44;0xe92615c8fa45a;0xc61ebbaa9fde5;0xce701fe4a8599;0x73da76f044242;0x1df5cd64e5c23;0xeebc2e2dde37e;0x585accb22baec;0x13077f7c0fa];[0x0;0xeb678191ff7c7;0xebd03735d0925;0xc04c435bf302f;0xe4c6233538629;0xeeab2292afc1;0x1c5300cf3bd1a;0x1252ee8e9f990;0x2a2c4c1cdefe0;0x4fa05c7344d30;0x5ee91ecb8fa];[0x0;0x89cf09adf5075;0xf473ee498388d;0x33fb7360f1d9f;0x3df5ea1e85c10;0x7d5d904a6aab0;0xc2086f5936866;0x4cae32867194;0xba04f0b0d27da;0x392fe689bac96;0x3373b6d5a3c];[0x0;0x6db10f50f9476;0x3cc8d33950089;0x5d38909c59bc9;0xa84631edcbebe;0xc98b33658e6d7;0x9fe38cc9ba891;0x91df5b63ab133;0x76702c92cbcf5;0x73cb99ce40bba;0xc69168a8c];[0x0;0x8a953d8d9ad46;0x5bec2a8ef145d;0x89cc2554a21cb;0x72b49e1f97dd7;0x8059af32e1b30;0xe797e93d99d7;0x1bb17e5554d3c;0xd1f3552932909;0xf5b3079a1bb16;0x9729672346];[0x0;0xfd33d87fc1f5a;0xdd4355dc55244;0xf28ebb0cd7625;0x4a13c9df218c4;0x204fc5f48f79b;0x1529eb516e0d6;0x34de8a78b6d3c;0xd4846d6443c54;0x72859e9a60c43;0x3cae9aeb2];[0x0;0x10ddd76201c2e;0xe4e34bf695032;0x91a027f3a38e3;0xa89762dfdca39;0x2e52294a6b1cf;0xbf9b47c978705;0xaa7baac58730d;0x85bfc2599153c;0xdad359f74090a;0x1eea45114c0];[0x0;0x1fee1766c7652;0xfd7b497adb7df;0xb7aeb9e5f0a58;0xc6d2cbb282b16;0xe113e58a99794;0x4da166fec583e;0xf0a05a0e949aa;0xb8e1f68f7e0d9;0x70bbd1f78f56c;0x46768ba5e1e];[0x0;0xcf4c3c1c05a29;0x4167236871a3b;0xdd2e916a587a1;0x886d80c5526f5;0x6182fd0c73f79;0xc3e856198fdb9;0x6b8f3ab14c210;0xe6bdbb48da3d6;0x8a09748dd6044;0x4f6fb25e62f87];[0x0;0x290853245c088;0xa3aac05f89b27;0x2ac8dfed0b7f6;0xc5da62e69e7ef;0x75579fbcd9466;0xe76af7dcfc1bb;0xd0f25553a7660;0x4448cebe5d8c9;0x5486f99d0827b;0x1cbd917101f]];
 [[0x79a77eef5eb3f;0x60ec6613118d2;0xb5244c974d981;0x23827c2bc1af5;0xe8d36e7973cd8;0xf8a7e8b3b2c1;0x9d34f3b681388;0xf9feb725c1519;0xc14c9bffec15d;0x601a883c8e5];[0xda8b068ceb3a4;0xf1fbcee2f01ca;0xaa81e2d82417b;0x3c2588701cfe4;0xfb0f79fa6e95c;0x9a9041d57f13d;0x798b270f22b17;0x339a7b3fc0d6c;0x678c6e7d43a74;0xa6802955307];[0xa78afbac2a69e;0xb9e8c7124fe47;0x6d71277f2e8d4;0xb559c09631a2a;0xdd37ad4c685be;0x3f700ff4d4fd9;0xd94fd60ec7086;0x97c75156c8dfc;0x3dcfb5fbeba8a;0xe3795ab63d];[0xc970e839f9525;0x54e36652cba95;0x93d8555a6b225;0x79e6e0b333ab9;0xf8bd9b06c61f6;0x3ed622deea737;0xf275300b05927;0x5bce45fe432fa;0x655a3be4c18aa;0x2d2bdf6d457];[0x5129efff5160f;0x3aad8cb1ae468;0xf594d9c1ddd0e;0x84314345dbdd3;0x8a6a3c7cc929a;0x695ccaf801e76;0x1364ae682a900;0x4e18ca2dfa005;0x64a1d2c57d5d4;0x5b8c10dbb25];[0xed9abd3ea21cd;0x9efd00fcb4c5a;0xc5119933aab90;0xc76d1e3e6a697;0x3dc7f3b58fb6a;0xacc39353cc5a0;0x7dab0a2c375c4;0x5fe1eb09a0431;0x13f1b7200158c;0x689fc7e3c24];[0x0;0xeb678191ff7c7;0xebd03735d0925;0xc04c435bf302f;0xe4c6233538629;0xeeab2292afc1;0x1c5300cf3bd1a;0x1252ee8e9f990;0x2a2c4c1cdefe0;0x4fa05c7344d30;0x5ee91ecb8fa];[0x0;0x2743b6a4d1425;0x59fc7d9d4408e;0xe0e92fd44b94a;0xccd5d259a1f91;0x6d8a8e8021930;0x94cb793202c95;0xd560780bc26ea;0x1c10a6b76213a;0x9afb95b8f4b46;0x36fba315067];[0x0;0xa9ca3988c7f24;0xdc27ea3d08c2a;0xc64a02159f452;0x21780e6268014;0x53888714a292c;0xca87e4ee7240;0xd2408a4175431;0x21d47fce81bd9;0xa04feb9b24a54;0xa9f1e0434];[0x0;0xace003a1587ee;0xcb0f65c3d91fe;0x516bb18999e6b;0x88b128d17b0e7;0xc506fd246cf90;0x7c7c3d2fe83ea;0x51da53a326e63;0xa0974506b56bf;0x75851d8268f83;0x16a6494e0cf];[0x0;0xdea48448ebeed;0x72c2cc8523262;0x3d581eb322445;0x3b09c5f58602b;0x757fb3e865747;0xb5d92b64c2ed9;0xef68bb9c9f16e;0xb4bf6510d7591;0xaf8ca8f0b1bc6;0x917a6ec6b];[0x0;0x33e0cd2d354de;0xdd530eb506ca3;0x823d61673f151;0x7d740642bfc37;0x959005edde23;0xd8e744c3cdeeb;0xf74b3519761bc;0xff1ff75fcfb5d;0xcf8cf481badec;0x1a7571a05f0];[0x0;0x9b0fae4dcf9de;0xcb69e7d19c233;0x12d717412a18a;0xae5166b41050;0x8f85703cdd3ac;0x882f0b1649888;0xf3107250b1b44;0xd4ce71612f30f;0xce0e28ea8dd1;0x2795eee25c];[0x0;0xa68a6db2d9d;0x369112ab180a6;0xb210c13020c0a;0x595d959ca1fec;0x5c38294d9355f;0xcad04942beef4;0x9ec02264cd12e;0x4fc1bdc93620f;0x39017c4f30712;0x32e96c08e9fa1];[0x0;0x93927c9fb44ce;0xa9c71134e9f8f;0x546d2577cfde4;0xc7589765f1b61;0xa6fe0b3c094e3;0xef18c2affe65b;0x403a035a75690;0xb529a6610a0a0;0xfecd4c2a07427;0xc167b60f2]];
 [[0x79a77eef5eb3f;0x60ec6613118d2;0xb5244c974d981;0x23827c2bc1af5;0xe8d36e7973cd8;0xf8a7e8b3b2c1;0x9d34f3b681388;0xf9feb725c1519;0xc14c9bffec15d;0x601a883c8e5];[0xeb7474078ba5f;0x87382cd84a2f3;0xb34d2872583dd;0x4f05b6027f080;0xa95d73e13927b;0xb6d48acc7a0be;0x5364fac4d09bf;0x1d8f864974ee;0xa5235614a024c;0xfb2a4362de7];[0x31a6dcb9b7bd2;0x4854ec77dd069;0x6267151b8d320;0xf88562c559f85;0xa3c41b575ec9c;0x655c4a42d0e93;0xde72d9b091d56;0x6593a8be21f1e;0xb92844361f4e2;0x6d9034b271b];[0xc920cd341da33;0xfa840a9e3f4a6;0x962f30ed1f075;0x92cf3edc08a74;0x5ac75f9e4136f;0xb570506662967;0xd5e2a1f34bfd9;0xff8d31b8617a2;0x9c32cb9ec1312;0x4539eefbb3c];[0x4de4704e7e119;0xa595ade90965e;0xa5cf98605eb7f;0x8c49b2b368483;0xb68ccbc79650b;0x1e649209870b5;0xdf708a7317cc4;0xc0c044d22b764;0x9b9629536afdb;0xfb1d19b6d8e];[0xb06e45867dcb2;0x45337a61e8872;0xa0ef4237942b2;0x566053424319c;0x3c209b9594e77;0x7b3de93f86f05;0x8a90ca0423ee1;0xd15542e51a799;0x877f48a35ca20;0xfcc8d698870];[0x0;0xeb678191ff7c7;0xebd03735d0925;0xc04c435bf302f;0xe4c6233538629;0xeeab2292afc1;0x1c5300cf3bd1a;0x1252ee8e9f990;0x2a2c4c1cdefe0;0x4fa05c7344d30;0x5ee91ecb8fa];[0x0;0x46dd03c1169a;0xab485a4d176d5;0xa45fe3b972873;0xdc8f05808b888;0x44a367160ea8c;0xcb8c3c96c6087;0x8692614126262;0xdc99cf6d9e019;0x56f07d5530f61;0x3a6ddad6267];[0x0;0xdc677dad77fa0;0xa0b6d32b98c4d;0x543ec79fd5cc5;0xad0969c4a04ca;0xc33977a8bd10a;0xe4259018f3c7b;0x80d70d235365d;0x9464572359423;0xcda26b2eb04a1;0x6f91f567];[0x0;0xd907a4f75cfec;0x50db80459d7d;0x619649069d4dc;0xf3d080fca883f;0x6a191f13bd9a4;0x4595257ecd4cb;0xd8f56eb439e5c;0x474da32ae157e;0x5fcc55e64bf95;0xe829c394f4];[0x0;0xd65f891d19947;0xbd3d83d23df5e;0x8432bc43522fe;0x931d3f28677a;0x40cd5dc18b6a5;0x459be01b957cc;0x5ee662d6ca9a7;0xc5be1cfd2ec55;0x8102986899058;0x5d32f789b];[0x0;0xa0c014e1d4047;0xab623074650ad;0x5cb6d64457d57;0x28dd32f32f9db;0x4895e96641131;0xc1f925c8760f3;0x1fb45d69d9a3;0x5bee2d97c0dee;0x9351d0537324;0x115ed20ec0];[0x0;0xd3d2dfacd312d;0xb89a659e54704;0x61ecc24f0af34;0x4cc584b6cf4a8;0xfd12f53351990;0xb68b7bdb7f3ba;0x34d13b0a4c149;0x4bd7ce21d8a1b;0xd17cce9f6121e;0x1b381c8c82a];[0x0;0x60a2ba48d3a63;0x90f7e45cba32;0xe8dbeebcb8d8f;0x1d7575b47f9e1;0x4ad4efce1787b;0xc9b1810bcd69a;0xaf0925e1fa80b;0x5a35b6bbc363c;0x91226462b9e7e;0x571a687b8379b];[0x0;0xaf2d4279c1e57;0x45f192f249dbc;0x5e5fcfcddc318;0x552a695d797bc;0x82aa2919743e7;0x5034a37c43402;0x9e6e5916f6829;0xe9c44139f8010;0x35de11cbb1f09;0x9705682c39]];
 [[0x79a77eef5eb3f;0x60ec6613118d2;0xb5244c974d981;0x23827c2bc1af5;0xe8d36e7973cd8;0xf8a7e8b3b2c1;0x9d34f3b681388;0xf9feb725c1519;0xc14c9bffec15d;0x601a883c8e5];[0xdf1b30df36f1f;0xc4797d8130f2c;0xae27c8612ed4e;0x607683534e474;0x47a8de03f1566;0xea14ad9ca24fa;0x5fb010a657934;0xdca4f3d063679;0x1711b5201d9a0;0x70d5469456a];[0x63840602b5366;0xeaed7d7fc7e41;0x96ed9f42ea511;0x4a7bf470997c5;0xe14bdf78c3cad;0x172e500d22a4e;0xd91b965ab7baf;0x41f6f874bd878;0x972262fb7f500;0x5f1b2d56187];[0x3de940f699bbd;0xb7cda3b86dc79;0xb5704d6afc9a5;0x2cbccb06d2b17;0xb8bae26238646;0x29cca4557fd9a;0x771a52c1d6030;0x732062dc86b3;0xc288a03a76b7f;0xb6160eb732a];[0xb89185f3c4239;0x9615329047ac3;0x34938be3e596d;0x7f8dc109f5248;0x982075b9e748e;0xa1aa552ff59b5;0xaa7180e0066eb;0x8b7d7dc1dffb4;0x73f35147b24ec;0xe4113d0ccea];[0x3efe8f1bda040;0xfa1aa7363a2bd;0x23218c6c89b70;0xb02669fc80db1;0xc473772155ef9;0x1490cec6bddb5;0x5bd1ef7fc08b8;0x958958ed13101;0x6c6559375b35;0x2d7ef2900b9];[0x0;0xeb678191ff7c7;0xebd03735d0925;0xc04c435bf302f;0xe4c6233538629;0xeeab2292afc1;0x1c5300cf3bd1a;0x1252ee8e9f990;0x2a2c4c1cdefe0;0x4fa05c7344d30;0x5ee91ecb8fa];[0x0;0x7de90ced4ea76;0xf695333e32d74;0xc3a2dc0111acc;0xc3371c695f700;0xd365d1c3dcc8d;0x17dc6c7436de6;0xe671c8056e674;0xb379b623c71;0x84c469f03ae5c;0x1f6cdcf6bcf];[0x0;0xfe36ec6eb2e66;0x937bbb5b04a30;0xc5ecd82cf9283;0x7ddf772342889;0xfe3a56c2e8b60;0xf72eb407db28b;0x7e9758fd01dd1;0xc2936e632f7ec;0x1ada7426900d8;0x32db1ede6];[0x0;0x19cf539438e6c;0xf83a08bef2f1;0x62cee7c3202af;0x25de125689273;0x1a10f845e3bec;0x369e8b60c8fe7;0x950b767530778;0x305a49ab0818d;0x5857b7e33041f;0x18db66b684b];[0x0;0x5b280cfa7130b;0xfa0553578ef24;0x6b3f2cef3f9d6;0xb90a89a1b61ac;0xe9e0bec25b144;0xccb85f820fc21;0xb86ea283845e7;0x818477a6466b6;0x5a26b46e0ffa8;0x9fa82b5ec];[0x0;0x6679265f841b8;0x66a4f7a06f76b;0xc2dae7ff9e187;0x150a7de3b0c6a;0xc1a044bc444be;0x5baa768475b82;0x93fe9df17a5fb;0xe2d6b2fbd6d0;0x8758a85496979;0x7eaf379ca4];[0x0;0xc1a24bb3a299b;0xe64d8da6e907b;0x1dcdc4b768460;0xdc57b551da372;0x1490e038667bc;0x384555895dd35;0xb383743e71979;0x9afb71bab63f4;0xbcbb708ff601;0x621f9853e2];[0x0;0x38975a3913e88;0x64bfae9da1541;0x51a8c7ab892b4;0x93b9f28187097;0xb06b65598e6fd;0xa2c28da5fc931;0xeee8f3331d6f9;0xaa5cc7aef4c14;0xf19585f4555bb;0x19d0c5482111e];[0x0;0xd5932425e5993;0x278e36c0dc8fc;0xf13f428b11fb0;0xdba7d7f34d675;0x537df51e5d835;0x53e1005489007;0x5e46f919708e8;0x221e4508fa525;0xed3029d26418b;0x1666adbfbc]];
 [[0x79a77eef5eb3f;0x60ec6613118d2;0xb5244c974d981;0x23827c2bc1af5;0xe8d36e7973cd8;0xf8a7e8b3b2c1;0x9d34f3b681388;0xf9feb725c1519;0xc14c9bffec15d;0x601a883c8e5];[0xffba59918a97;0x7420cf0d17f08;0xdc4870725f2ec;0x3ff087d8dc72f;0xb848ec486a108;0x972908536598c;0xf65fcdc88f264;0xfe35304805e3d;0x3df498c01a925;0xae47bda7db1];[0x3e1dcf6539401;0x9f8dcb1e701a;0x8878582235b9f;0x109d0beff1eca;0x9baca7d8b16f4;0xecb45681c288e;0x8fd599f87d3ac;0xaad221233641c;0xd94c0f239e61;0xbc4d645616e];[0x5843a4d6be3dd;0x33c08dc8a0350;0x66a442de9dc1a;0xec559b7a7b6e1;0xb9777533f6d58;0x3e05bbdb0c65b;0x2d47109070cd5;0x421148963e8b;0x976da66f05d9a;0xa9b671131aa];[0xc1a241505c79e;0xf9a066bf0c01d;0xccd442a94c9a2;0xd1ef779a6e280;0xeb2ceac14c671;0xd2c781f0d7616;0xf1047e742eeff;0x2c775ed21ae74;0x74f2d24d82338;0x88ae1e92b28];[0xb8e4913bdcb02;0x74ab48ee85176;0x844677408ebf6;0x8941c1d844116;0x8800b420d992b;0x326223cfd453c;0xf2daabc8664ab;0x82e77c2d8cf00;0x915c9d326eb7c;0x746a42448ed];[0x0;0xeb678191ff7c7;0xebd03735d0925;0xc04c435bf302f;0xe4c6233538629;0xeeab2292afc1;0x1c5300cf3bd1a;0x1252ee8e9f990;0x2a2c4c1cdefe0;0x4fa05c7344d30;0x5ee91ecb8fa];[0x0;0xbfacf7f82e7fa;0x274996ef3308f;0x26f8ccdf20909;0xd29b06f7eb322;0xa262b0bf1e338;0x366e6992ef6b4;0x102b312c4426;0x6301b8c47f02e;0xe25c7029eb9ee;0x979e0d2c18];[0x0;0xde5c400491bff;0x52eb9bf98d531;0x81ae97d714957;0xdf1926716f398;0x557c2f52febc5;0x426ae9bc05ea8;0x871f81e7d0c2;0x9269fcef24691;0x1256cbbb250a6;0x198187b93];[0x0;0x2d79a5f5c28dd;0x956d8dc31ab22;0xd80066d6d1f73;0xf763e288b431;0xb818ee31725f5;0x2471703d7b79e;0x4c7f5b27b61ac;0xecd0f04bf0246;0x6ba4c4a80bbe5;0x75a00eeded];[0x0;0x4a25f3158c81e;0xaef0ce69ca8a0;0xd0dd1bdc8013f;0x60c852fe9ffb7;0x92a8587a7dfc4;0xaf06228d181df;0xfe107945dc99e;0x92c73f4b714f8;0x72f32c7a6b381;0x2f381f4ad];[0x0;0xdc207caf93ccb;0x750f6e5620d79;0xcab30f750f407;0x2391ef344b0eb;0xc06b31174e3;0x6e673025f3c12;0x2a1eb23701fd6;0x4267d85d9750d;0xa488c3bba2f46;0x3f895abfb4];[0x0;0x908c6aae10c5e;0xfdb9e444440e7;0x8909cc4890797;0xcd0590f64fdb6;0x6c9ea7361bcba;0x9f994d82501f4;0x1d898f4ca8469;0x7c068a961ef44;0xd9a49dddb3c14;0xec8863fd7b];[0x0;0x5e3e1bc461243;0x409fb86009f61;0xe2b962ddeb6e3;0x57eba0d6227c0;0x4d01adaa59422;0x6948cd91a7ad5;0xa6957bc7754ea;0xddba740d438d1;0x2530b6d1460d2;0x87ea2cbe6c2f9];[0x0;0x2e90f2656a685;0x5e971a8f8a169;0xcfd7403fc2ab;0xd69ce97a1b4d9;0xb72ec373a05f2;0x7d48f515f235d;0xa5305d07d3597;0xfd035e4ed459f;0xfbefcab235e90;0xb83bc55ded]];
 [[0x79a77eef5eb3f;0x60ec6613118d2;0xb5244c974d981;0x23827c2bc1af5;0xe8d36e7973cd8;0xf8a7e8b3b2c1;0x9d34f3b681388;0xf9feb725c1519;0xc14c9bffec15d;0x601a883c8e5];[0xa264775bab238;0xea5620c907cc;0x2e607daaa6a55;0x9372ff08b4d49;0x47b69958191eb;0x4c6c21c6fdd64;0x7cdcc98cf04d8;0x3d8fc6ca26608;0x6909f86e4ce9d;0x8232c0b25ba];[0x85eca825cddf9;0xb1c071ffe9da2;0xe947584d8c2ed;0xc5be9f9032e1b;0xdf72c506c27d1;0xb341e3e08a3e7;0xc68ec814d5a9a;0x9dd292cb4419a;0x1f85376d6befd;0x3b056a1157];[0x46103600b2a32;0x762b3e564b98f;0x123fb3f64b685;0x4fb793c874d75;0xb3d921c1109b1;0xe8ee45fb8fc62;0x91df4fd24996c;0x1681229ba70aa;0xf95dc42d0a674;0x6104dbe61de];[0x6bf7edca083a6;0xa68e39769652d;0x501a9fc698f84;0x67651022e6855;0xb12bb804e8d0d;0x82bad877c273d;0xe23011c3735d2;0xefce7fc38ff37;0x7c5d5daebb60f;0xda218602739];[0x606b2fba4ee96;0x96610e1a0d7d2;0xa7656d53b62a3;0x77687e46220e9;0xa6562b15ac0aa;0xcb5bfb14e5b9a;0x968a8a4c279fa;0xd14d52c5fd3ed;0x19520d14aa0ef;0xa2f21aec555];[0x0;0xeb678191ff7c7;0xebd03735d0925;0xc04c435bf302f;0xe4c6233538629;0xeeab2292afc1;0x1c5300cf3bd1a;0x1252ee8e9f990;0x2a2c4c1cdefe0;0x4fa05c7344d30;0x5ee91ecb8fa];[0x0;0xec2efec1a86d;0x2214a8122cdcb;0xa3b6bbfd597fc;0xbb7f61aa8b9cd;0xb9d43d1197402;0xf8050d4d0b60;0x75c43c11fc865;0xc18248df7f0bc;0x474a1fa72e34e;0x4f2e92538ed];[0x0;0xdd07a87a7ca2d;0xde2cefb95753a;0xf7eb60a07a009;0xd89a387d25023;0x384a89970a92d;0x5e49ea748902;0xdf8b5a33022fa;0xc671dcd9e2d9;0xc3c79185b5069;0x27ce5900a];[0x0;0x5d6c139ed051a;0xd738dae7f1450;0x8cb2b4b1896a0;0x16861e10dd2b2;0x2b996d6d9bf33;0x804cb64736feb;0x30a3266040d8b;0xb19495c7da2ef;0xdcb43c310eec6;0x26bdbe0bf47];[0x0;0xbb73a438cb7e6;0x3ebc9249bcf79;0xd4cafcce69630;0xa24d6e2767034;0xe9d836fa716a0;0xdbe3d356cf19d;0xbe296879814b2;0xf2fcd03ac3929;0x97583a0faa2cf;0xf8d5ba113];[0x0;0x28784a1e60978;0xc00426c592172;0xd980d7cc5adb1;0xf6fa425333499;0x42894d055b3a1;0x553a7dc694e14;0xba309c169b5c4;0x697f4fa120b97;0x3d12363f791d2;0x63289dbd8f];[0x0;0xc7329b3948b74;0x90d0abe216eb6;0x94c94436fb94e;0xa8d9c618f433c;0x878a700f1a1c6;0x57669b07d6d98;0xb1776887686a3;0x5838d9d30ec0c;0x7efb9b2bc6acd;0x359d882ac47];[0x0;0xa30fbba4a8a7f;0xce4fc037bd20c;0xcc49953eaade8;0xdeb1554ec7fdf;0xcc31668b7f858;0x8b6734fbd55a3;0x9ece3f475510f;0xa03e194b5411a;0x66c3fa74abb4c;0x4ce5d3b9a40fa];[0x0;0x972988e7e56f8;0xa02bdb8ea78aa;0xef8c2b8292f12;0x50257fdecb983;0xaa4b43b6bec39;0x586ffce23758a;0x24bc2c4c6c352;0x98cbd66cae45d;0x48718692ea3b;0x1f9b0cb1371]]]
 (V [0x24f6a8b73681e;0xe668a6f70b574;0x412fce45c4680;0x6b6bfbd9145e2;0xab1418f4b60f;0x2d43bb40c1cc6;0xfd519eb007a12;0x4b50d794d8acc;0x8a4fe3845083;0x3324afbc06c] [0x2076b8e319775;0x6133a966c79ca;0x6821e3212b626;0x374393099aaef;0xffde48be881ac;0x1289f03179385;0xd073681a88e0e;0xf94aaffb9fc71;0xd55c057b4b1dc;0xd5f28da396] [0x31dcad7056731;0x281a0b542cc09;0x17504c708982d;0x83e73f248a995;0x4aa16af44db96;0xc88a1838bb2f7;0x16f0d1d9a6148;0x7f4eca3c304bb;0x55a5d0874b7e0;0xc9d12d667aa]) [[0xa8f2a4ed8a5ed;0x6e9ace96dc845;0xb792c26d0c3d4;0xbd1ce064b41b1;0x9d10ee3fdff81;0x8f6af560272b3;0x3b7529f50bce6;0xdec83356bbde9;0xe01e48e4ff061;0x25f29172c4b];[0x102fcaf03424a;0xe302e3819f3e5;0x9a8d22d8f84b6;0xda714916a651f;0x13d0777e698a5;0x92d9e73e69c7a;0x9ad898082d59d;0xf748cc629e3cc;0xb5e44b623fff2;0x82b9407c9ef];[0x2d72dccf9850b;0x4b1e1cab1bb82;0x2a75e2c6373d3;0x9f6c094b494cc;0x27be61f88d3be;0xe505eff66d5be;0x6f11a388c7387;0xe27c004a75256;0x312b5ba583c26;0xede484d96f5];[0xa01d8b3fa0a6a;0xb904a8012ab55;0xae360a8be7c74;0x1daffe94aa259;0x89567eabc0867;0x680f162cc9161;0x46e3528e9c7b6;0x8e956e103e818;0x433d70a62e415;0x3088afba4c2];[0x3084bb3a9600f;0x7bfb3feda4f05;0xd4f69617f7133;0xcf44872047541;0x7de2fd9dc92bc;0x45d59b1ecd402;0x39750f924548d;0xc54267e3ca112;0x5c017da385b3a;0xb2172327f0e];[0xe3c568ac0c9ea;0x392d5a810c8f3;0x17c72334edf78;0xe464c3161266a;0xf4ece80b8481f;0x2bb04abaf9f57;0x269337462205a;0x89736f6325a88;0xb2d1e1c0c2bdc;0x2594bb5386b];[0x0;0x7ae522e26b1c5;0x9a1ba3ba7ef06;0x9de56ee75da5;0x4165185578bae;0x54ddf2d3d01a7;0x7746c6034c78d;0x105ce889f9d4b;0xe2e6c8fc9f3c6;0xd0298230041d;0x832ff0f0056];[0x0;0x979d13f6ba577;0xb562b6c7e0b4d;0x99eedf765842d;0xf58c047ffacb0;0x3fa532140bd48;0x5566da11be783;0x8ee328b9480d3;0x6c9464055b862;0x8cba1d6016eb4;0x1c605415713];[0x0;0xd928cb44656be;0x71ac2f10e7f3b;0xbc61cf2d2eeca;0x69743f2b175ed;0x51ce86e849504;0xb338cb27a4b4d;0xc0fa7ea800dd2;0x63532fbaf490a;0xb5d61f76868de;0x38f50051148];[0x0;0x2800cf88c4119;0x22d1f0dd109a0;0x5cacca243c9da;0xccc55cd9367f9;0x41819b834bbb5;0x981b17ab2e915;0xeafc4ed81eed6;0xf243ff040c9b;0x5ae37a985eb74;0x275280a31eb];[0x0;0xe4eeb8594dfec;0x2f927a2e56241;0x7da3f185a9615;0x5aae0d12544c0;0xc24931bbc2c04;0xddd876dae84fd;0xb57018c7405a3;0xdfd1cd376723a;0xd98e87c87a63b;0x29779727118];[0x0;0x1b93d6d888c1b;0x59647a7133a28;0x982074fb49b31;0x416e6cdb19b17;0xf42d1a8b9b78c;0xb34b97f6fdb8e;0x18a2b0b3a53b6;0x83a6d75d93b4b;0xce478e2f649d9;0x3602cdbfbe3];[0x0;0xe7150e514ac03;0x4e7c3a2736770;0x1d7f180a41131;0xdc9b9f8b6bb25;0x27a3e486e7c5d;0x3b13423119de2;0xe536a49103113;0x54a94655b71e5;0x5a467794a05bb;0x1a1da3a28bc];[0x0;0x1d35a4a051806;0x562e9a4e51c04;0x37d44304815a;0x6dd2927263fd9;0x67d06e63f974f;0xb50c62a5220cb;0x287424e5eadf2;0x773c1669ec775;0x9dc09fc457f3e;0xd65b40332034];[0x0;0xc89313fa59f53;0x51df00124dabc;0x9bff073b1600c;0x490c1518fe3ee;0xb227023fe4ae1;0x56553fbbe78ac;0xb2ade05565213;0x9c238892c4eeb;0xa528683b7f4db;0x2abdfb3174]]
 [((V [0x7d1bcc7810219;0x10421db7bad86;0x59be71297bf38;0xbda750f4cf4f7;0x22fcf2dd9efac;0xb45a31e35f035;0xbcd41208f9452;0x998db075ce96c;0xd1240f6fee4e0;0x40671a5d952] [0x357537330eaff;0x3e38c9e7f1514;0x7c5f8c94d2002;0x19b46a8964fce;0xa93c4090d0d5;0x2983b1d9ef19;0x501f94c062101;0x4795a17aff2a9;0x6596107da561c;0x31b0b41d3b9] [0x99cbcc58f3644;0xf300ad150b0c8;0xa1f7561bfc920;0xfd8c07a87f8e;0x8d9e5957c8c14;0x43755e6ab18a1;0x13f0bcd515e91;0x36795756471be;0x5102724ce0293;0xc7ea361aa3b]),[[0x8695baf470057;0x475d2485bb609;0x2c6458245aea0;0x9022106aa5652;0x64f4f5b148e92;0x2814d9a8a9498;0xb3a9316b002c2;0x1698a07291be4;0x4dad1e7e8bce9;0xe259817c81];[0x54d5cede9ba1e;0xd7192b25e592a;0x201bb09ade95d;0xacb3679c5f994;0x150800b61acf5;0xe4313b5e0efec;0x76dd181e0e197;0x92a26cea8756f;0x86e4224dbe20a;0xe7aac2ad383];[0x31dcad7056731;0x281a0b542cc09;0x17504c708982d;0x83e73f248a995;0x4aa16af44db96;0xc88a1838bb2f7;0x16f0d1d9a6148;0x7f4eca3c304bb;0x55a5d0874b7e0;0xc9d12d667aa];[0x31dcad7056731;0x281a0b542cc09;0x17504c708982d;0x83e73f248a995;0x4aa16af44db96;0xc88a1838bb2f7;0x16f0d1d9a6148;0x7f4eca3c304bb;0x55a5d0874b7e0;0xc9d12d667aa];[0xee4d01cef6f8b;0xd038d4209c053;0x3223f73b7d6f6;0x29959b3b01bf0;0xca91175dd862e;0x1af7eda5b958;0x8cbb20501ed8d;0xf895958d4ddf3;0xdb9f5c1bbee58;0x5c7bdda787c];[0x6688cd0fa4a94;0x6e05705498d6;0xedf7b95f61267;0x831dcc615dda3;0x4a76e958426c7;0xe281bc83b3693;0xea21f7cdef40a;0x9a0cd75d3977b;0xab44c631ff3b1;0x8b2ee505b06];[0x0;0x19af63f95503f;0xd94695eb774dc;0xbd0a0fd34e8fd;0x77d564fc6e779;0xc5bf2518c8bb9;0x8f9cbd031642a;0x6052c6f91a237;0xe628a27c6773;0x1c15ba21d4650;0x7ccdab519f6];[0x0;0xe0fc74c5e402f;0x7ff41c72d6d85;0x6a99f419c7d19;0xbbfa57b0df6e5;0xed9a05c228215;0x951cf8dbd59c6;0x9a748bcc7ab1e;0x93f8997381f92;0x8e2f8f804962;0xb27139e1d0];[0x0;0xc89313fa59f53;0x51df00124dabc;0x9bff073b1600c;0x490c1518fe3ee;0xb227023fe4ae1;0x56553fbbe78ac;0xb2ade05565213;0x9c238892c4eeb;0xa528683b7f4db;0x2abdfb3174];[0x0;0xc89313fa59f53;0x51df00124dabc;0x9bff073b1600c;0x490c1518fe3ee;0xb227023fe4ae1;0x56553fbbe78ac;0xb2ade05565213;0x9c238892c4eeb;0xa528683b7f4db;0x2abdfb3174];[0x0;0x2738d715f2ca2;0xaa28c013c77d0;0xe6a500c16d83c;0x85d6dc3f48dc4;0x3e0662c04d72f;0xa517e09072c1e;0xe9cdd27c0cbe5;0x143907639d908;0xa5d3338d780c;0xb2cd85825];[0x0;0x1f950cfa5df90;0xafab1d5ad711c;0xb7dfd8f79a185;0x7edb648b0e0b6;0x51de464b028de;0x5eb43eb5139f4;0xb09d441873ce4;0x8692dae8decfd;0x53897e330aafb;0xa37a346d03];[0x0;0xd718d771b8233;0x73190aba29103;0x3d5c3c620a1a3;0xf7404245db6ef;0x490230ea49981;0xa60ef81099ed8;0x5b49c7fb5524b;0x28565e52f2cc0;0xd37bfe397e7b9;0x3a47fe3ba98];[0x0;0xd82dd31c2f9a8;0x5347e5409c2be;0xbad9096671ce6;0xe45aaedc0863;0xa5a9dffcc5868;0xe729ececfd336;0x5b2a1eccbfd12;0x6a2b74706e0d9;0x38d35ccd63a;0x31b56d39b14df];[0x0;0x15227a3180c45;0x44d797d243b26;0xf9c1c8e476e83;0x62dfd573c94f3;0x9a15fed1c09c4;0xb72ccb46bd5ae;0xe3ba28b830649;0x2aef555bd2b06;0x98ef1d84d6932;0xc80303de31]]);
 ((V [0x1f31f36f6a2bc;0xcbb733a91492e;0x11deb5a26237e;0x4d3f24404add3;0x244744d18ad4e;0x6bd65e97596b4;0x2139cf5822293;0x8cbd24e478134;0xb442bc2b3034a;0x3e443f730da] [0x51a0363f9120;0x63063dfd3cd01;0x9ca34b4eb2be;0xc7780a31fe595;0x3f8365be9c3b2;0xb6851b5040a37;0x3e03ca91a1242;0xe1ea33e34a752;0x56be48155a15b;0xdfc10384584] [0xc822865da5cd;0xe8a3790f169f5;0xffba3814774de;0x5d34b546e59b6;0x94dd47047de29;0xb98a086adf69;0xd24b307441523;0x98a2af0a2c2f5;0x6088b9e2cc56e;0xc2fe4464f77]),[[0xea1095c5e5a1e;0xedb5c9f8f0546;0x9dcc0238fcec1;0x76605c24e8133;0xbef44ace0e5c4;0x8e5fbb67f67b7;0x4cd4f262d16f7;0xec931d5091337;0xf59ae7b6be68f;0x5bf4f14e4a4];[0x782a288a04362;0x5508282833871;0x28175952b56f1;0xc0b3a4d0baacd;0xaf18c467302dc;0xcf05811fea810;0xc3ba898b9c469;0xf24137946848c;0x946331e124620;0xadcfbd1d7fb];[0x99cbcc58f3644;0xf300ad150b0c8;0xa1f7561bfc920;0xfd8c07a87f8e;0x8d9e5957c8c14;0x43755e6ab18a1;0x13f0bcd515e91;0x36795756471be;0x5102724ce0293;0xc7ea361aa3b];[0x99cbcc58f3644;0xf300ad150b0c8;0xa1f7561bfc920;0xfd8c07a87f8e;0x8d9e5957c8c14;0x43755e6ab18a1;0x13f0bcd515e91;0x36795756471be;0x5102724ce0293;0xc7ea361aa3b];[0xd10235d132e01;0xfce5ea79114c8;0x8b3e3ae5e2e3a;0xbd777e164352e;0xc9833af58bd03;0xb81cad97c0f01;0x716643052528f;0x3b6d261e2af02;0xb17722670c9c2;0x254184077d9];[0xa727f2b8d1562;0x58223daf223a8;0x9cd91e6cd28b6;0x33c26ba7759e;0xe5958971a45d9;0x16e8d3882990e;0x52544686771da;0xb6d411763d58a;0xe2ec0f7a17c5e;0x888e3916021];[0x0;0xd1edb2a5ebfce;0x37c76362b262e;0x95a1b235abf4f;0x647d80e2cbe44;0xc559021d2fb27;0x5c9d0380ba601;0x488c4c54059d5;0xd4a4fd51cb74a;0x97f0d31f057ee;0x7ba087b88e2];[0x0;0x4f7f1dd3572ba;0x2a89726ea0eb2;0xb5ebdf26ea23a;0x4f353d5d62667;0xabaa51bd20b99;0x56a810c5cfe25;0x414ebaa875821;0xaf3e4b367a6a9;0x8a07fb8b0c458;0x47cf88e7a9e];[0x0;0x15227a3180c45;0x44d797d243b26;0xf9c1c8e476e83;0x62dfd573c94f3;0x9a15fed1c09c4;0xb72ccb46bd5ae;0xe3ba28b830649;0x2aef555bd2b06;0x98ef1d84d6932;0xc80303de31];[0x0;0x15227a3180c45;0x44d797d243b26;0xf9c1c8e476e83;0x62dfd573c94f3;0x9a15fed1c09c4;0xb72ccb46bd5ae;0xe3ba28b830649;0x2aef555bd2b06;0x98ef1d84d6932;0xc80303de31];[0x0;0x54081b6cc2400;0xabce4b19fb1d2;0xd130c61ca2f70;0x6b4ced09caf64;0x2216794051c7;0x62df89e94c6b0;0x631ddce1400f9;0xa161706c777e2;0xa9c14060bb9b3;0x9a51eeb57b];[0x0;0x729449d1ab279;0x456edd3987a52;0x321c2eb58c871;0x42fa92e87a339;0xc618e38d6f6d8;0xbfd19239cde47;0x595dbad456cbe;0xc0db11e16e879;0xbb7e80d28281a;0x1033b6b5049];[0x0;0x61370ae2f8874;0x915ccb6375134;0xc7df08e9a2088;0x3dbe0e437ed6d;0x52489c238b25b;0xc5fa3521192e2;0x5c95f60ee5726;0x6790e3270054e;0x8d78cb5dfd235;0x2a46a60f9de];[0x0;0xf945cd04987d6;0x8867d43df5466;0x64583f390dadc;0x5f652c6db5d49;0xf4d34012c19a5;0x5ecdf5927e9f2;0xc3062937e404f;0x2238ae9bc30f9;0xe3a9b4625e91d;0xe008d9861f0de];[0x0;0x7bd65f0d140b5;0x615ad29143698;0x93557b856d230;0x126d94a8a97b1;0xf2f2990732bf0;0xba04e4a7158a1;0x2bc839285472e;0x661828099bec1;0xce76f532bc254;0x366c65940c0]]);
 ((V [0x302944b86945c;0x8e64908cc3a10;0x7b46da007ff2e;0xce81c6c2119b8;0x3d2fd103a5ba3;0x581f92a4a1c78;0xa35224e99f5f5;0x35fee3dc9d8d5;0x7fe086121ce88;0xe9c71b72f63] [0xe1ec0f5e517c2;0x593515816b713;0x838e948f0ec0a;0xdeb7f24766c8d;0xd923ff36baf4f;0xe004cd14160bb;0x73dba6070207c;0x32ffd14b9526e;0x2c8528961c503;0x8a17685a2d2] [0x47dfe028f5216;0x75bda9f4ec75e;0xa7ed539c306bd;0x5b547b62aa648;0x4ecf5716fee76;0xb65825b8ad290;0xd868f10a1bfd9;0xd6b0273bc2efc;0xb5e2590ac46d8;0xd8c3f5b7035]),[[0x9f4c42cdee163;0xc23e1945a5144;0x2e6eceb33c595;0xb1b5e7d62b35c;0xa8945bfcd3a22;0x4bfad8e44238c;0xd78b0c48674b4;0x93cc3cbe17d51;0xb5b081ac22c56;0x1a84018570a];[0xf7c07cf5cd0e;0x5cdf7ec51531c;0x85accfe1d4281;0x99b279d70b0e7;0x2ff9f33f7e228;0x52aad48601da3;0xed349f22f9a69;0x1022896b76d2e;0x53f0400141f7c;0x285bcfdb381];[0xc822865da5cd;0xe8a3790f169f5;0xffba3814774de;0x5d34b546e59b6;0x94dd47047de29;0xb98a086adf69;0xd24b307441523;0x98a2af0a2c2f5;0x6088b9e2cc56e;0xc2fe4464f77];[0xc822865da5cd;0xe8a3790f169f5;0xffba3814774de;0x5d34b546e59b6;0x94dd47047de29;0xb98a086adf69;0xd24b307441523;0x98a2af0a2c2f5;0x6088b9e2cc56e;0xc2fe4464f77];[0xf88716e9c9990;0x19f4c018ee4ab;0x510e0c3349fd9;0xfd86ca241a44f;0x35fcd6e70a413;0x6729e221d41bf;0x781c82da0f5de;0xe544057ed0d8a;0xdebeef2a62be8;0x9cfada62084];[0x16f4f0e593146;0x42eabeac26e70;0x349ec3ae8a2a8;0x9c2bafb2f0c98;0xf9fd1c5873e14;0xeb80f2642dbe3;0x75181c48ea48a;0x2ade83eca5fa4;0x753150d6df393;0x8b60f5792fc];[0x0;0x16bf094a706eb;0xb3561062776b1;0x7136360efee47;0x6b4bd908f4776;0xc4c91aa612f2a;0x1dc17e0be00e;0xacde7bf981ea2;0xead1c2c49da56;0xbec1b053062f7;0x789561ee6ee];[0x0;0xa54426d6ba3ff;0xc6f1fd7bc877f;0xc192f74b2f297;0x3fa6ce80bd273;0xa1b34f6191b5e;0x9752ec998f166;0x96b904dbf7935;0x9924c983489c0;0x1464106c1c765;0x14325f36276];[0x0;0x7bd65f0d140b5;0x615ad29143698;0x93557b856d230;0x126d94a8a97b1;0xf2f2990732bf0;0xba04e4a7158a1;0x2bc839285472e;0x661828099bec1;0xce76f532bc254;0x366c65940c0];[0x0;0x7bd65f0d140b5;0x615ad29143698;0x93557b856d230;0x126d94a8a97b1;0xf2f2990732bf0;0xba04e4a7158a1;0x2bc839285472e;0x661828099bec1;0xce76f532bc254;0x366c65940c0];[0x0;0x84dd57428c210;0x18db5d6c69fb8;0x389bbf88cb26a;0x188eb9244d373;0xfceb0a9db00c2;0x17ff5de66b4f6;0xef7dc182cee31;0x31c89ec10cc59;0x269218e6c9de9;0xc391d5a6df6];[0x0;0x5c3c630da78e6;0xd94ded191d014;0x224f2fad174a8;0xf7c81566e9c82;0x94bf46d5cca59;0x30efff20ba86a;0x502ce6dc6be89;0x7a9d98ffdb7a7;0x80c70fdb5c557;0xf2520ed7f7];[0x0;0xbf292ded867e6;0xabc446eb6da24;0x5b07991fb5e83;0x7a2547c123318;0x69c5dc53cbb6;0x7b442f3a2de2;0x64df23df64053;0xf995abe7bf4a9;0x3aaea91b171da;0x24daf3e0e81];[0x0;0x8564105bd3905;0x75db67b19647f;0x4aa6ee21709ab;0x58f2185de9676;0xb8e60b5266414;0x2555517c64460;0x102d56e9fe5a2;0x6c61b46e434c8;0x7dbd0df4092fa;0x8a8bba93c7f32];[0x0;0xade2b65a58b4e;0x2335d0512c4a3;0xef772c0c650dd;0x61c59ae2869ac;0x3771d11832d18;0xa360e087c290f;0x493e0ffbc3a92;0xc01280b7e88a7;0xc6b9d6d39a617;0x7e1ab4faac6]]);
 ((V [0x1bfd728f738fd;0x581f982ee85e3;0x3d1a0ab59c780;0x233f5938afb66;0xf54e6453f3c55;0xd64aadc6e223a;0xaaad5cdf852cd;0xbe1791b73a55a;0xefd33ef633ded;0x6ee48684300] [0x277ecab5d1351;0x2d32dc31dacba;0x2a8bcb8127ff3;0x66ab2eb36855f;0x33f4d1d2435d2;0xe3d4b33fa7ac5;0x16cf0ef9e9ca0;0xec87e7f44ac4;0x22a13fac96d34;0x4062c95853b] [0x71cb6f99e8551;0xcb0bcb3007a83;0x3ae781aea6b86;0xe87b3d6fa4e17;0x520eb793b1548;0xcda6e234e3db9;0xeba1a344f3fd2;0xc27a16722b6f8;0x5c033e931cb53;0x7b82bb0a168]),[[0x753601ed62cb;0x92150e8e14a03;0x5fc93d63dd47f;0xc35cb0f470e24;0xccbdb8c44706d;0xa1a58bd30c4cc;0x9c39ad16d2bd9;0xbc733151d4e38;0xfbc448f71aeb4;0x419065d43ed];[0xde5d15cae8e90;0xd98b8dbb19b3;0x4d96f41e54e28;0x9099427deb662;0x19a275724837f;0x7b2ff60e3bc6c;0xfae446bfdb445;0x6c5f3b77b8fa0;0xb3597b8bee0ed;0x17f074155ef];[0x47dfe028f5216;0x75bda9f4ec75e;0xa7ed539c306bd;0x5b547b62aa648;0x4ecf5716fee76;0xb65825b8ad290;0xd868f10a1bfd9;0xd6b0273bc2efc;0xb5e2590ac46d8;0xd8c3f5b7035];[0x47dfe028f5216;0x75bda9f4ec75e;0xa7ed539c306bd;0x5b547b62aa648;0x4ecf5716fee76;0xb65825b8ad290;0xd868f10a1bfd9;0xd6b0273bc2efc;0xb5e2590ac46d8;0xd8c3f5b7035];[0x192c7f977b1df;0x399363c3c385c;0xf719daad442f3;0x50b8a60207bc3;0xcce9cfa956bdd;0xbad48e9e3defc;0x1e00f235d83fc;0x33f9133cb0554;0x29c42e1b369cb;0xa647814c4bd];[0xc53096336da79;0xd4055517ee157;0x567d197110b34;0x3fe09c7be3a9e;0x4cb8a5c8f17a2;0xc05b676ffdd6f;0xdce3548a03048;0x3866283b08a4c;0x89954d70b7722;0x71a8f2c9132];[0x0;0x5154055efe143;0x3e9e28ceeddb0;0x92e855d252ffb;0xa03e54a1dd0b0;0xbf687f4a70520;0x752e724f5e6a3;0x1e31956c5e4d0;0xded31412ab4a4;0xd5d2a961b7480;0x860c2555843];[0x0;0xd57efb33d4c0e;0x32c739301f92;0xc25320abebe07;0x9fe2e5eb5139d;0x52469ce988a7f;0x8d0991248dfed;0xdab6e71fb77be;0xb34a2ce348bd7;0x1adcda5dd593b;0x378405d6b64];[0x0;0xade2b65a58b4e;0x2335d0512c4a3;0xef772c0c650dd;0x61c59ae2869ac;0x3771d11832d18;0xa360e087c290f;0x493e0ffbc3a92;0xc01280b7e88a7;0xc6b9d6d39a617;0x7e1ab4faac6];[0x0;0xade2b65a58b4e;0x2335d0512c4a3;0xef772c0c650dd;0x61c59ae2869ac;0x3771d11832d18;0xa360e087c290f;0x493e0ffbc3a92;0xc01280b7e88a7;0xc6b9d6d39a617;0x7e1ab4faac6];[0x0;0xb3a1d60575db3;0xc5c474eb69fcf;0x7016451ebc088;0xf3a0f23736748;0x3817ab2269c22;0xba0539e4719d5;0xc1973500e8d7e;0xb95a05cd5347c;0x700a9021f40c7;0x4a7d3ea5236];[0x0;0x8ff32620150b1;0xdb66c26185242;0xd4899df79bdb2;0xd6c1acf8e8074;0x862ead71c4db6;0x462740cf57e6c;0x1c44c51ed50ff;0xec15f03b85f6a;0xe2b08381a38ed;0xd57c0ad2f3d];[0x0;0x4c8dc9ac871d7;0x93958d0c3ac08;0x60372ba5e4d60;0xb9d2656dcd4ac;0xc7bef0087fcaa;0x20fd6bcff247;0x992521301789c;0x741bb0eb2df4b;0x610173d14eaa6;0xa5eb09ccb1];[0x0;0x66cfddce06c1d;0xa9f57ad2ab577;0xb3ec289d7c61;0x6b2c1b9ab28e8;0x142f92cf979d3;0x9a934aa150222;0x6173f76686c2;0x610472237041;0xec6cf7884602b;0x409d26c7c6304];[0x0;0x8145f99679864;0x5a87d7a3b4c94;0xc4ba394971a70;0x7d8beb8666a9b;0x45101b89e08a9;0x6eb0627bc5452;0x2fc4f54ab98ca;0xd477e0ad38550;0xb70f2bcd7a296;0x1be3ec543b0]]);
 ((V [0x4478ccee993c2;0x820e5269d0177;0x2dde99eedb0a8;0x4b895fc82dacd;0xeab014188b521;0x68c790026e3a9;0x1e562e45da8ba;0x33cfe517d581b;0xec06940492a6a;0xf1fe5e0e103] [0xce114be8edfd;0x5e4cc6f7a3be;0xf43b084b4c042;0xca85ffea78bb5;0x7f1b20b20632d;0x8d62644cc9374;0x1981d7aa8c6ff;0x6feb487459e60;0xc403ddc4aa32a;0x907e1fa868] [0xdabef76e278be;0x37509e41ee0ca;0x4c8c24bc15b3;0x97baa6ca43ec9;0xd649fc372003d;0x7f849c0d9fdc3;0xb2ca59f50b32e;0x227435cbe4340;0x1414dcfa9a440;0x90ccdb88ef9]),[[0x8e33466bb6af4;0x23bd1138c9616;0xb019463da60f2;0x4aa68aaaea1c;0x3b130350f6d3f;0x9651921f5f921;0x3c05ba7392033;0xf28997009ec43;0x224628bfc0a02;0x973d633c3ea];[0x52a80de48b54e;0x7d66e7a7121d1;0xc1e73334f5b00;0x36bf0e6406f80;0x1b29105fcaaa3;0x4092f100e0721;0xc3a7c8e6d1fa;0xe19df7e97d29a;0xcdf3770f701a5;0xd9ff6426e1c];[0x71cb6f99e8551;0xcb0bcb3007a83;0x3ae781aea6b86;0xe87b3d6fa4e17;0x520eb793b1548;0xcda6e234e3db9;0xeba1a344f3fd2;0xc27a16722b6f8;0x5c033e931cb53;0x7b82bb0a168];[0x71cb6f99e8551;0xcb0bcb3007a83;0x3ae781aea6b86;0xe87b3d6fa4e17;0x520eb793b1548;0xcda6e234e3db9;0xeba1a344f3fd2;0xc27a16722b6f8;0x5c033e931cb53;0x7b82bb0a168];[0x13e8fed8c27da;0x9815a7d9e65b7;0xeb560cde5adc1;0x86d94e4121688;0xd3044d471a605;0x96001351e538b;0xa0b6d47869ae6;0x827b753334c40;0x5abea23967156;0x8cf3e0e3214];[0x3ebf0f0bc8d75;0xe5513fcd2bc1a;0xd69126569ad3e;0xafe5c022e58f7;0x4824c318b049d;0xaa92ddaefb395;0x6b83a81603713;0x5f2282b648659;0x7334d4d60904f;0x4d0b8343c08];[0x0;0x76bfcc74051c4;0xa479d1a3b06ed;0x22f088749d2d0;0x7f8cdc7605f32;0x5c432d98f55bc;0xbe261e62825b0;0x351e2415d3639;0x24fab6e995c9f;0xc897d609e9bd1;0x4c60f9e9fc2];[0x0;0xfe7fd05b1a2ea;0x7e156380a3f2e;0x4e77191b29663;0xafedd4bfbcf06;0x61e96330898ee;0x7ae6606544386;0x76a11ecfa5e51;0x8507843189c2b;0xe2e527514e6f;0x48f7ba5a23e];[0x0;0x8145f99679864;0x5a87d7a3b4c94;0xc4ba394971a70;0x7d8beb8666a9b;0x45101b89e08a9;0x6eb0627bc5452;0x2fc4f54ab98ca;0xd477e0ad38550;0xb70f2bcd7a296;0x1be3ec543b0];[0x0;0x8145f99679864;0x5a87d7a3b4c94;0xc4ba394971a70;0x7d8beb8666a9b;0x45101b89e08a9;0x6eb0627bc5452;0x2fc4f54ab98ca;0xd477e0ad38550;0xb70f2bcd7a296;0x1be3ec543b0];[0x0;0x1d6fd8eed3601;0x9b0c55f335451;0x40258af58b763;0x25fc31a94c83a;0x11c56162a5676;0xf091bb49ac0f3;0x91f07063c79f6;0xda88508661a56;0x4fb59a09e09a5;0x10318acaefd];[0x0;0x604b7c1660ecc;0xba696624b4ef1;0x48e5c998601e2;0x5b62dbcfa9f68;0xd6faa707a6084;0xf50d86c883194;0x9107e2b9ba677;0x87e6b32910724;0x122dcefc8cdfd;0x30092f997b7];[0x0;0x339a5f3ecb5e4;0xd66e3c9f3a515;0xa4dfedf81f823;0x80d117ca1a279;0x9d7aff708883c;0x32c984f77af3e;0xcd48987d2ee07;0x14dcdd569441d;0x90e6818a80ffd;0xce1208c5b9b];[0x0;0x907206ac1e66a;0xbf3c424991173;0xb90141e79e147;0x31d20ebc6b55e;0xc66fc1172d01d;0x8390f2f9ce5c4;0xa5db5a6a770fa;0xd6bce15254fe8;0xb066de13ef9ee;0x909392b912ac];[0x0;0x678e85254c824;0xa2a1b43b0c5dc;0x3f9c3e5e5862f;0xd477740779740;0x5c8dd6b21da89;0xf751236f830a5;0x91b9d2f146181;0x3428d04577e47;0x6958ed8168bd1;0x88964e0733]]);
 ((V [0xcf5b77c0f11b0;0x178939bdcb18d;0x2459318a01bc9;0x5dac197bd94;0xac1932b9aca6c;0xae97492432861;0x2f1784532857;0x2c96538df0306;0xcbad6e9edc1d9;0x6cdae828c3] [0x3a4383e46cc45;0x5b734312ded13;0x9691174a89191;0xb4089f142f1e3;0xe9b7fe2fa62e0;0x97f1dd49e1265;0x817fc7666f2f5;0x35640f00faf01;0x8b24dc6f33d39;0x2c204df6278] [0x99695344e9f3e;0xe38282d28be7b;0xede4f5c983408;0x3c76693869d13;0x9baa81b6d0b26;0xb2db955e99717;0x2381500fa046c;0x1421752d30300;0xf6b514cf2755c;0xb8dfc0c7eed]),[[0xdfd84255a1a09;0x9d076b721f6ce;0x882c0f52c1952;0xaaf9cbe9ddc72;0x744e89dd88608;0xa3524e55dece7;0x2b40103eb09ac;0xa1c75473a795f;0x2b3cda7c677d;0x1286b78b2ef];[0x666f1e17fdead;0xe6f3202490c0b;0xa07bbad470cb6;0x2c1b657a77af7;0xd86a8024e6243;0xa5a9273be6d95;0xf635e8c2c536b;0x54841c7c54119;0xaf5bbb893e78b;0x32ccb309b02];[0xdabef76e278be;0x37509e41ee0ca;0x4c8c24bc15b3;0x97baa6ca43ec9;0xd649fc372003d;0x7f849c0d9fdc3;0xb2ca59f50b32e;0x227435cbe4340;0x1414dcfa9a440;0x90ccdb88ef9];[0xdabef76e278be;0x37509e41ee0ca;0x4c8c24bc15b3;0x97baa6ca43ec9;0xd649fc372003d;0x7f849c0d9fdc3;0xb2ca59f50b32e;0x227435cbe4340;0x1414dcfa9a440;0x90ccdb88ef9];[0x40e1c082d5574;0x5e933a996721f;0xcf150284185c2;0xcfe24f642199b;0x3bb8a43275fc;0xb44b401848dd4;0xaa110761192d3;0x921c9a4a661d6;0x20f6c7a3dd677;0xdf2368829c6];[0x258d5d9528701;0x885fe58b299ec;0xd166b850586f4;0x5c3916165615b;0xd4aef5e1bec46;0xf15de7239dfc1;0x4c24e161ac097;0xc2678231edf43;0x8e64f3e561113;0x53a94a8713c];[0x0;0xb6916ed46f9f1;0x30183487ce8b2;0x8279b850f90ab;0x2b7c62892e1ed;0x2597e8a82a8c0;0xa4023c254f8c2;0x8b4bfcc313b10;0x3064cf0157370;0xe33097f671272;0x598b539fdfb];[0x0;0x482b08d2da7f7;0xa06f354782aac;0xb5080edec951e;0xad668b002797;0x2150a74ddf761;0x94e53407eeaba;0x7b624e6ad40c3;0xaffd6208abae5;0xc5b2fd0c6abff;0xa7a9a7bb53];[0x0;0x678e85254c824;0xa2a1b43b0c5dc;0x3f9c3e5e5862f;0xd477740779740;0x5c8dd6b21da89;0xf751236f830a5;0x91b9d2f146181;0x3428d04577e47;0x6958ed8168bd1;0x88964e0733];[0x0;0x678e85254c824;0xa2a1b43b0c5dc;0x3f9c3e5e5862f;0xd477740779740;0x5c8dd6b21da89;0xf751236f830a5;0x91b9d2f146181;0x3428d04577e47;0x6958ed8168bd1;0x88964e0733];[0x0;0xcf61619e6f8c3;0xe8700bea8c317;0xb49035df35be;0x154061b08aae0;0x422f69d5cd7d6;0xebf20e2832899;0x18a610ab93da4;0x732e031f3fe13;0x38ddd7670a1b2;0x518e21c0a];[0x0;0x242c23dc983e5;0xceba75e76fc94;0x32678b878366e;0x5b06d4fdaf928;0x8d0914840b3da;0x6c70a7e9e108a;0x6001c1ff24252;0xcf1533fd2ff84;0xcb77fd9179133;0xe4c0e9d5410];[0x0;0x5de8cc34bfabc;0xcb617f846085a;0x23ecdd2e64ff2;0x24e43152fd99e;0x8236dfe19ff86;0x7906f22ae1f31;0xaaa0a93ff7998;0xa91448b9d497b;0xa93c878b7a01f;0x1599cbea25];[0x0;0x4fa7c39ab7d8b;0xcc8fdb27ba8ec;0x8f054689889e2;0x9bc5648658f62;0x2c028abe24cc8;0xefd7bc63f1840;0x7c37cdb0c9176;0x48d280a368897;0x753c62f490fa6;0x2c43acac493a5];[0x0;0x6e5e27842993e;0x9f968ea9f712;0x248c8c2c01cd9;0x9d8a6a97746c6;0xc7f1110f5ec0c;0x3a25a02a95cf3;0x6d82ea112d105;0x6ac16ce62ff83;0xbe4ecfed5d941;0x12c35c6a89]]);
 ((V [0xa1ac7009f5b73;0xed012c1dca4e6;0xd283858c8563d;0x19569ce97278e;0x72633eb576457;0x5c01867099682;0x6e30f0d8a705a;0x5ac362af53c58;0x9d6a10e4d426a;0xb16e8b9a328] [0x83b3d391b7418;0x7bc5ded41df00;0x788f7763fc34e;0xe519c1a51f5d6;0xaf9e18519daa9;0xc24f59963381f;0x252c9b32fe850;0x3734d5776fd35;0x3ebefb10e174d;0x1f588c84cff] [0x2bae1f20c7b3d;0x8ece8c8ad825b;0x5a72443ef60f4;0xa30e225b3abbc;0x77dea9e760ab8;0xe28c4465264c0;0xfe5a37221b588;0x7d179d0e871c6;0x773ad2aacc933;0xa60056955d2]),[[0xc9192bcd847b2;0xcd0845f4b688f;0x459f85de26f7c;0xaa85a58bfc1b5;0x66900379cddcc;0x2f8616a50d521;0x1a2b775629c5a;0xc40b68776b747;0x28ce75b686744;0xe24b199224f];[0x3975cd1ef09a4;0x8cfc56a70501a;0x140d926ba63af;0x1878ea76d4c6d;0xf3725c45d7b63;0x2a136186c5d77;0x50737db17517b;0xccf3d41bf7801;0x929ef0b345ea3;0x46fe36164f3];[0x99695344e9f3e;0xe38282d28be7b;0xede4f5c983408;0x3c76693869d13;0x9baa81b6d0b26;0xb2db955e99717;0x2381500fa046c;0x1421752d30300;0xf6b514cf2755c;0xb8dfc0c7eed];[0x99695344e9f3e;0xe38282d28be7b;0xede4f5c983408;0x3c76693869d13;0x9baa81b6d0b26;0xb2db955e99717;0x2381500fa046c;0x1421752d30300;0xf6b514cf2755c;0xb8dfc0c7eed];[0x68ad2cf50bd19;0xfb13aa76298e7;0x3d75b2cd0d9a6;0xb769f2298f450;0xe0bbdd5e245c0;0x462b10b37a5c3;0x914fb3a0992b6;0xe6ff78da11323;0x1c4cd00facc88;0xe4696b18357];[0xd0c8a029e4a53;0x91e8ac30db732;0xd697df9e98a08;0x610ef84d4581c;0x12b67ee7b35a2;0xe3e850d34b7b4;0xbf23ca10dbec4;0xe5f45b41e64dd;0x765220a39921a;0x6294cafe19c];[0x0;0x547e65342f8e2;0x567fd307718c4;0x3a36eea4ec053;0x51e766045658f;0x3482fe7472c84;0x1b009c6948884;0xd384660de6d18;0x52282e20d677b;0xa35941fa5531b;0x72536996479];[0x0;0xebf14022372c8;0x70f36b3d3b03;0x8ca282dc7d3e4;0xbc9c58d8a72d2;0x417f29d3a1123;0x2ab37f6f7716c;0x93f2afd3d5337;0xea2926a739732;0x250ee0f942fdb;0xa36bc4355f9];[0x0;0x6e5e27842993e;0x9f968ea9f712;0x248c8c2c01cd9;0x9d8a6a97746c6;0xc7f1110f5ec0c;0x3a25a02a95cf3;0x6d82ea112d105;0x6ac16ce62ff83;0xbe4ecfed5d941;0x12c35c6a89];[0x0;0x6e5e27842993e;0x9f968ea9f712;0x248c8c2c01cd9;0x9d8a6a97746c6;0xc7f1110f5ec0c;0x3a25a02a95cf3;0x6d82ea112d105;0x6ac16ce62ff83;0xbe4ecfed5d941;0x12c35c6a89];[0x0;0xaf7a191ca4680;0x354e848a8d8ac;0x28d2c28701592;0xb7c6e302dc3d9;0x2f5479ce7ead1;0xdd52e7039c060;0x48241192a57ed;0x486791a0e8f57;0xedfef8be9c055;0x79b1ee032d];[0x0;0x1a53ef0729feb;0x60e24f196b538;0x49cb4b8c4ef41;0x500b1aa35129a;0xc37732cd28027;0x395f3393e70eb;0x60f2c7263b9a7;0x99db41abee5a6;0xd2b3a97a62ee6;0x2e496f129];[0x0;0x751adb813f145;0x5a7bd6e228862;0x971c2a9882f92;0x1397be2979b53;0xe2b2def034ce3;0x66cda1e0fdd33;0x1439f9d98d5ed;0x5a83999fd446d;0xb171e761598b2;0x31346b5774a];[0x0;0x849353b699995;0x121302e2c08f1;0x229d9a5117367;0xdf0f3514d35df;0xfd392298d5ee5;0xf4da663eca1ca;0x7d3324fa6871f;0x78b3fbc42d5a2;0x96a9b10e4c830;0x1f6f33ba6d9e4];[0x0;0x9dba62f6eec1d;0x1a120f747ed37;0x770e78dbf209d;0x8f19c76858f7e;0xaf0fe364ce813;0xbc38e13beb116;0x3bb1ccb3b0656;0xb449d05f0a3af;0x9d1db85d885eb;0x15b9c24c2a9]]);
 ((V [0x657842b65ca59;0xfd7384666ed4e;0x95e3a0cc1699e;0xfaaf8d4a8f333;0x882821a7c61af;0x8e6df54e8c639;0x8b4eaf308e426;0xee3e7d54f83ac;0xe405135b62c83;0x6af19155e2c] [0x8a0ca408b53ec;0xfae5584bc593f;0x5708b90037d48;0x4e7389efa74da;0x1b961217420d6;0x148b557d801ef;0x3142c7f91718d;0x532f0d7d2a409;0xdc2d4d77e75d6;0xc0a62827bfc] [0x204b2e0221cf1;0x27ccfd60fca6b;0xdf81cd9bdfd11;0x66409b1e32903;0xa5ff63782d100;0x897a09492b6a;0x9aadbce6779d5;0x84fdaa15694e1;0x457cc8ea0ffba;0xb19760b6eb7]),[[0x6d988c58422c8;0xada5bc40cf6a1;0x104e73ba35bfe;0x71c35a6a63dc2;0xf65cc6d391393;0xe295ce46e21ae;0x1d0a63f26f048;0x14a51f858613e;0x93cf37b9006cb;0xea06802c498];[0x4e72274a9ea36;0x712aac4afbcbb;0x1153f2bbda8d5;0x1cd0ee9e41b15;0xa9979867dd4a5;0x3714655ac2dc;0x69a2289af45e4;0xe2754a7be0175;0xc0a7605e7de7e;0x747397f8ad3];[0x2bae1f20c7b3d;0x8ece8c8ad825b;0x5a72443ef60f4;0xa30e225b3abbc;0x77dea9e760ab8;0xe28c4465264c0;0xfe5a37221b588;0x7d179d0e871c6;0x773ad2aacc933;0xa60056955d2];[0x2bae1f20c7b3d;0x8ece8c8ad825b;0x5a72443ef60f4;0xa30e225b3abbc;0x77dea9e760ab8;0xe28c4465264c0;0xfe5a37221b588;0x7d179d0e871c6;0x773ad2aacc933;0xa60056955d2];[0x9bfb9329ee69d;0xcff61200be7fb;0x522f8088f4202;0x6820e08704fd2;0x6ed16bf5bdd31;0x5f5ed2b5edfe0;0x63bed78910524;0xc9de550761219;0x57c341ef4853d;0x64656381fb9];[0xb2769420b039a;0xa1349a4a3d4bf;0xbf247232e66d2;0xb4b00e173cb42;0x3ac62c721f773;0xa412739fbe2fc;0x5e35111e40bf;0x1896f5747ef5c;0x68e41e6f35941;0x100e3476b1a];[0x0;0x5271bb5a15478;0x24ea375520a6e;0x12f51d910ebf9;0x1e61f0a364934;0xefe2948558a86;0xfac843a1198ec;0xebb473a217b7a;0x5bb9a1d24475e;0x11f6e0c4f3485;0x66a7ac33d03];[0x0;0x4910227aff4fe;0xcdde7099a0d90;0x555635c2ddb70;0x7fb5832629f80;0x76e9300534d4a;0xa858af5d4a594;0x7e9b369002ba4;0x9fb4f38ac9e03;0xee54d9feb40f7;0x97c0864371a];[0x0;0x9dba62f6eec1d;0x1a120f747ed37;0x770e78dbf209d;0x8f19c76858f7e;0xaf0fe364ce813;0xbc38e13beb116;0x3bb1ccb3b0656;0xb449d05f0a3af;0x9d1db85d885eb;0x15b9c24c2a9];[0x0;0x9dba62f6eec1d;0x1a120f747ed37;0x770e78dbf209d;0x8f19c76858f7e;0xaf0fe364ce813;0xbc38e13beb116;0x3bb1ccb3b0656;0xb449d05f0a3af;0x9d1db85d885eb;0x15b9c24c2a9];[0x0;0x74a4a8670e345;0x8bc5d568a9983;0x7f8b7b4c77f87;0x837344e3e72df;0xc45e84d7d6a25;0x468cc5c1c383b;0x6beeac9799463;0x1b4a15f37492d;0xd93302830fc22;0x3d690a912c];[0x0;0x63bf157f90979;0xf9ef7d9e09d1;0x860b22c8e5055;0x8575a3f7b5bc6;0x65b98f5d12975;0x8036497107e06;0xdf4c655929a66;0x95e4bac36b0d9;0x6d901af126197;0x7afa0cc77e8];[0x0;0x9baaa10794233;0x591c5128c4693;0xeb6605a79f7b3;0xbb00ede412f74;0x8e265c913e48f;0x8273881196121;0xa43ed5bce43e9;0x2154c0a6db880;0x71ffae8745960;0x30a5bfdb937];[0x0;0x524ac8dc844c2;0x585b26bac5603;0x1b59b507c7ad5;0xa28e22f8800ac;0x1ae72792e7551;0xb22486269fdd7;0xb617e729fefac;0x93a6eb1c16831;0x8615d9ce91ace;0xc10f2c08b45bc];[0x0;0x9d557994e730d;0xb3a76265a1948;0xcffb269f1b6e8;0x9acce8ce163f;0x153f9f1b64cba;0x58903c918c23c;0xd10095d03ea54;0x47730dfb788b6;0xe81c4d49d999c;0x507a966b016]]);
 ((V [0x9f582c6b37163;0x3507102e92882;0x59ae22483436a;0xcb7b0447eee6;0x578844f691ee3;0x2f7326480c57c;0xec1e50b3dda26;0xb07f9acd9e12b;0x6111f2e74d4ae;0x8c4a241813d] [0xd5df0d3b5b0b5;0x41a2943ab5d1a;0x5bf621dbe5d39;0x7a7e0b80529b1;0xe19f26aa8c711;0x86e2df29ee16a;0x74338cce3e0bf;0xfdb5298d5310e;0x208309b20c418;0xb578cabf859] [0x1d7684d2b2efd;0x40adcb00aa009;0xabc6be54dde54;0x9b5365aba81dd;0xd0912720a39ee;0x469df8005bdb2;0xe8352a0258820;0xf6be4f3adf220;0x10f70fd8f4f36;0xc217cd21bdd]),[[0x6ea34a5f0b07;0x18105a0a56f8d;0x7ec71bb8aee33;0xf3a71966ab387;0xf4b324dad87a8;0x610c7447e09a7;0x3b4423633b4ff;0x88ea56168be3;0x774f9e17a7c27;0xc0c74d86018];[0x38bcc137bdc7a;0xaa0e2ce35bdf6;0x3b67ef1deec0c;0xb6cd10732c446;0x61df1df7b21db;0xe814c8ea4a92a;0x9f2543373574b;0xb181534254544;0x406627fb8812b;0x507944c0d1f];[0x204b2e0221cf1;0x27ccfd60fca6b;0xdf81cd9bdfd11;0x66409b1e32903;0xa5ff63782d100;0x897a09492b6a;0x9aadbce6779d5;0x84fdaa15694e1;0x457cc8ea0ffba;0xb19760b6eb7];[0x204b2e0221cf1;0x27ccfd60fca6b;0xdf81cd9bdfd11;0x66409b1e32903;0xa5ff63782d100;0x897a09492b6a;0x9aadbce6779d5;0x84fdaa15694e1;0x457cc8ea0ffba;0xb19760b6eb7];[0x436a2d4b5c418;0xe061acc52a939;0x5037e4950ef30;0x5669432a525b2;0x908e411c8a026;0xe9e4228367a79;0x2b47b88469518;0x986ff5a7499cf;0xa45396d409a9b;0x88e4c9b698];[0xf55293ec61863;0xc9ac801e314bc;0xeb300a88dfcdb;0x6063cd48d9e93;0xd150dcdb281b5;0xfe30a666e2eb0;0x73dd8ab2cc232;0x19115d9b0ab75;0x9c1291277e690;0x47eaf825686];[0x0;0x2b51b5884046f;0x50969d133025e;0xc8b485d48cc0a;0xe93bbaff065c2;0x8d0eed47adfc4;0x71518caa2740d;0x9e90696fbf8db;0xda5540543a81;0x87f330ad43527;0x6dd27c4cdbb];[0x0;0x1d3547e75d1fb;0x1e7e661fe8222;0x363c84355bcc5;0xea59ce576fdfa;0xa4b04dac42e1d;0xa3d766779872e;0xf8be39670a4bb;0xdb42011dce2e6;0xb7d359026b27e;0x85bbcafcdd2];[0x0;0x9d557994e730d;0xb3a76265a1948;0xcffb269f1b6e8;0x9acce8ce163f;0x153f9f1b64cba;0x58903c918c23c;0xd10095d03ea54;0x47730dfb788b6;0xe81c4d49d999c;0x507a966b016];[0x0;0x9d557994e730d;0xb3a76265a1948;0xcffb269f1b6e8;0x9acce8ce163f;0x153f9f1b64cba;0x58903c918c23c;0xd10095d03ea54;0x47730dfb788b6;0xe81c4d49d999c;0x507a966b016];[0x0;0xef8b7bf7a56c8;0xfbdac9f02c9c0;0x17bfbdaf22b49;0xc91a79aee8820;0x559dbede20d24;0xfbf0693617756;0xaa3b95ec65595;0xb2cc727d1d13f;0xdd5343c8db70e;0x90f9a813b98];[0x0;0x4e79f3cc38902;0x42eb0377f6122;0xb3dcf2def3cba;0x8627b482326a4;0x6adc83fe4dbce;0xdc9e79f14e372;0xd0cd6d12ebe7e;0x10ca21580ace5;0xa3d566425825e;0x2cacf04e160];[0x0;0x1f18299fb11d9;0xed3a99d62b838;0x2d19256a5e7c5;0xef821c4dd2efb;0xb29f441128ab4;0x29433882dff9e;0x6dbd9e045d625;0x91e5f0f0bea1c;0x3fe7d59b78915;0x2c199ffff1d];[0x0;0x32a91322ca406;0x4a1722f0ae153;0x711634c829317;0xcdb80a945d559;0x567290696279c;0x76499dc4bdbf3;0x6618ba9d2394c;0x87d662fdef26e;0xeebe9729ee65f;0xb5f537d414a40];[0x0;0x2634b3971fbee;0x696e338d77244;0x56a72672ca20d;0x4a00e49546198;0xb34c807d2e213;0x9849d45acbc2a;0x6ea849e07439c;0xf9e44fb923580;0xe1f96d4c3a6c1;0x63729d61664]]);
 ((V [0x6e7a48394acf6;0xee3594279e95f;0x1ada48b1a08a6;0x62f36576278fc;0x1cb1be85f46f8;0xf80012ade47c8;0x5e2812267bf06;0x5349e916a4d93;0x3b0e297a72e30;0xa1d8a6da50a] [0x1d43f5e4e4597;0x23ec4238e512a;0xc7e512eaaf1a9;0x8d0f753fa5172;0x30862859424ab;0xe96e2a1b572ec;0x4b4e001a7a18c;0x7821a427a4383;0xb6cc13fc2bda6;0x5e5df6eaf0] [0xf34383cb60d23;0x83ac46639de87;0x26f095d771b16;0x685e5689689c;0x7ac4b8399da2b;0xbe9cdba38bc07;0xd2ba4e753ff5f;0x4e95cbaf80150;0x3abd075902ca4;0xd944bbbba8a]),[[0xe13db032e2191;0xd116280563610;0x23d604f29bdc6;0x1ae132c8236c;0xa65cccb9a032b;0x932e8648be35b;0xdc8446e1f6b36;0x9889c18d56e60;0xc1ba2a7ead7dc;0x4a6ece8d929];[0x291a5495c1316;0xfb38015970a6a;0x64af43e5e4dde;0xcd37eff15f05d;0x32ff077f2c96;0xfa8feb847a470;0x3f58e27ffb212;0x4007b31157760;0xfac20196e142f;0xff31ae8fc1d];[0x1d7684d2b2efd;0x40adcb00aa009;0xabc6be54dde54;0x9b5365aba81dd;0xd0912720a39ee;0x469df8005bdb2;0xe8352a0258820;0xf6be4f3adf220;0x10f70fd8f4f36;0xc217cd21bdd];[0x1d7684d2b2efd;0x40adcb00aa009;0xabc6be54dde54;0x9b5365aba81dd;0xd0912720a39ee;0x469df8005bdb2;0xe8352a0258820;0xf6be4f3adf220;0x10f70fd8f4f36;0xc217cd21bdd];[0x3c4113581e225;0x40bf45a157c1b;0x28bf87369babe;0x435f82f4f3f57;0xa486b2ab29b9a;0x570265b46d967;0xd4b1abfc9ee35;0x2146bbe65f092;0x84830ec727577;0x6e1f716bc93];[0xecd9413da30f2;0xba78bbb818e4e;0x3befbcaf49320;0x89d86cfc6b106;0x5ea93dccc90fc;0xa38d85d00cb08;0x6aa736835c3dd;0x1ec0f72af86cd;0x763ef2cfb9eb8;0x91123d23f8a];[0x0;0xa9b32b1bfa989;0x8f7026602199e;0xfc45b9c3f22dd;0x9bf3ca908534;0x1a145ead7adc4;0xd02781398160c;0x7568ef7101d60;0x3b89c7aeda2da;0xb5440442e285a;0x7806dcdfec3];[0x0;0xa157deb934b11;0x99f70e30d4fb7;0xcd64ca95cc72e;0x739392149a270;0x4c76d14ffcdca;0x614e482c909fc;0x5f848552811d3;0xac0de81cbb598;0x30f11263da68d;0x386ee42062b];[0x0;0x2634b3971fbee;0x696e338d77244;0x56a72672ca20d;0x4a00e49546198;0xb34c807d2e213;0x9849d45acbc2a;0x6ea849e07439c;0xf9e44fb923580;0xe1f96d4c3a6c1;0x63729d61664];[0x0;0x2634b3971fbee;0x696e338d77244;0x56a72672ca20d;0x4a00e49546198;0xb34c807d2e213;0x9849d45acbc2a;0x6ea849e07439c;0xf9e44fb923580;0xe1f96d4c3a6c1;0x63729d61664];[0x0;0x79712183a38c;0x18002580421ae;0x4e8fb1db9b8a6;0x907f66267021a;0xc164b9798b27d;0x52a06c45e6dca;0x989113ff490dc;0x3770245380863;0x868f7373c12a;0x80a407b1870];[0x0;0xfd13f5f75f5f1;0x228d61d7ed251;0x6fe4e74e3286a;0xbfee18f9c7a4;0x8da0d5616d7b0;0x1e29b1ddf70c7;0xc4e80e87a2ce0;0xd9eec858ae75a;0x46253ef54189e;0x4ce12cf338b];[0x0;0x12ad0be0fa0e0;0xb6f5030076359;0x54049cef10763;0xf9439f7f6c3a7;0xab47cd0eaa173;0xf29479403fbae;0x97f7bdba2672d;0x1afd0f6f3297c;0xbd19ea8535038;0xa15637078a1];[0x0;0x9ca94ab1cdbdc;0x74aba3e499421;0xf569724afcc3;0xfc0d4853d3f3;0xc5e0b4a5bd562;0x62bbaf6978f9d;0xa17ab9a2cf95f;0xa7dec5cbec661;0xfcd07e4e0bc34;0x5e5e42f89282];[0x0;0x4a5afa1c13651;0x547cffa93362;0x64a3bb64a8603;0x43b3b6d43721;0xadf5a41adf4f2;0x148d15f95762f;0xe41ad903c4d9a;0xc4443a25a53da;0x7860ee09e009e;0x3ba8f5137f]]);
 ((V [0xd40c5565a88f4;0x7bf608adee344;0xa3002a044258b;0x42f8725f1f70;0x4caf1eb0c5eb8;0xb392b243be209;0x56f619623e568;0x234b81f1ef1c1;0x54db6faa6bdd1;0xd8f6d120e3c] [0xd7f3e05d4c30c;0xa368544ac88ba;0x7af55b55c36fd;0xfc4e9c2389be5;0x17bade8cb61bc;0xb4db26ac65068;0xf40cd12be2c2c;0xfd8a92c6af73a;0xd9f16c0a1472b;0x93f5fceec1b] [0x6fe8b39f715ce;0xddf7aaa7df9ff;0x4629e0ff3cc38;0x6dcc4533d65a7;0xe19727763f672;0xd991b1a901094;0xb0e20ad279e97;0x11a2c29f76364;0xddab8bf55da9e;0x56710588a5f]),[[0xb1fcd3bf1797c;0x50640c1fdab7e;0xff7b36750f7d5;0xcaa9357231a8a;0xfd08ed8cc5531;0x8f003f6747347;0xae84f9221d54f;0x64435969dff04;0xa08c0937e45b2;0xbd13939757b];[0xc8890c3db6a47;0xf74a64f62273f;0xc11fc33200e84;0xb94a36d83f938;0x9c829fb0ad99b;0x5de0d0ac6b8f1;0x56698c18c3d6d;0xebfc5dacf9722;0xf464f5b7bda80;0x74dd3605ea0];[0xf34383cb60d23;0x83ac46639de87;0x26f095d771b16;0x685e5689689c;0x7ac4b8399da2b;0xbe9cdba38bc07;0xd2ba4e753ff5f;0x4e95cbaf80150;0x3abd075902ca4;0xd944bbbba8a];[0xf34383cb60d23;0x83ac46639de87;0x26f095d771b16;0x685e5689689c;0x7ac4b8399da2b;0xbe9cdba38bc07;0xd2ba4e753ff5f;0x4e95cbaf80150;0x3abd075902ca4;0xd944bbbba8a];[0x27b29d672270c;0x6d36113a05983;0xa799d2ed60c30;0xf8b2283c4b151;0x38108429b8994;0x4002ccf3a7a74;0xee950e2ae335d;0x110f066e0357e;0xcb435d3468acd;0xb1049d43843];[0xa0d66ed694103;0x8a1453bc1cdbc;0x1985f044a0254;0xc0980e9bf47e7;0x64721b86f5006;0x1dde03b8c3e7d;0x67d47dede0a10;0xdaed573ef61a3;0x2921988354fb3;0xc3d898c265d];[0x0;0x94113d126ebec;0x6062a294a4fe8;0x4dff06634731b;0xe92b785e2ed44;0x6aa040ec9c05e;0xd6c04b9b07b50;0x439c497f4cfda;0x9dbed484d40db;0xbb8eda0ddb7e5;0x865bc7788c0];[0x0;0x39293a83638eb;0x1930e2159424d;0xdb6451a806a63;0xc2d3d25365bb4;0x9cbcd05768357;0x69adc0684ef82;0x269fa40a670ec;0x1b1affd5d53d0;0xa16afdeb7a93a;0xa0785bf6643];[0x0;0x4a5afa1c13651;0x547cffa93362;0x64a3bb64a8603;0x43b3b6d43721;0xadf5a41adf4f2;0x148d15f95762f;0xe41ad903c4d9a;0xc4443a25a53da;0x7860ee09e009e;0x3ba8f5137f];[0x0;0x4a5afa1c13651;0x547cffa93362;0x64a3bb64a8603;0x43b3b6d43721;0xadf5a41adf4f2;0x148d15f95762f;0xe41ad903c4d9a;0xc4443a25a53da;0x7860ee09e009e;0x3ba8f5137f];[0x0;0x6b09e48322bd3;0x198233a520bbe;0xf1fb949f4a03f;0x6784ddcb9d666;0x2461190d611b0;0x4fdca4b5f2439;0x9f4278f03d874;0x9a4296a67c504;0xda180eb34702a;0x22c923d1d];[0x0;0xbb229c6bc1d97;0xcecf69279a68c;0xc8a8d10759b35;0xf9bf61590c189;0x27ae0ab74955;0x9c8848c270a9c;0x3fc3ef8552c87;0x2c7ecf1287d8a;0x5d3793ab60806;0x66523938969];[0x0;0x8e2a5d7042d6;0x6dbb97e6d2a9c;0x6b1ed2ccb3d55;0x1faae484a8ee2;0x5ff08a68cd0b0;0x2dd9e9ee9f5d6;0x974a54768f853;0x5c113807407b8;0x79b7021cafa8a;0x630b519e83e];[0x0;0x3219d98b9a7e4;0x2282a86030aa;0x748295734129d;0x91c9e3b8ebf56;0x57bd93605bc1e;0x3c15751f395f7;0x5d44d42c93407;0x3c4e0c4beefd4;0x58e47c3b12109;0x9446679a7fa70];[0x0;0x29f55d4d3294e;0xef1d7115f4dd;0xa286a1c3adabf;0xb1d86377bdde6;0x2e75ba35dae98;0x640801811a9c8;0x76ebdc9e198e1;0x486b66dad0a4a;0x9dcf431551a5c;0x7d6634a956c]]);
 ((V [0x77b0ca7303b4e;0xa2d486787a560;0x9a50619560047;0xd4a1a8e6ed4a4;0xf462a773bf0d2;0xf43615d6700d1;0x9edb71e6c88e4;0xb66281c8d36c2;0xfc352043cf582;0xc6f02369f44] [0xcc99bc6f28616;0xd2f1894d0c71b;0x5ee1a5a32e224;0xfaf6092056684;0x87b8146d04ca4;0xb96da233dba3e;0x477f4dd7897a1;0x5246212152e1b;0x923ad05e4f743;0x471723a6a2b] [0x877077d6ae6ee;0xd456e26639522;0xec0f7437aa1d;0xd0758e94e4946;0x86986b0212ad8;0x9d64a894c4e7d;0x861ceed0cdd81;0x799d2b918f06e;0x128e0eca97cba;0x3d645e24acb]),[[0x5875dd38c7609;0x79379a8d34296;0x248b9a8974741;0x79cfdcafc706e;0x85e8cba856d7c;0x17e42b199c80e;0x305494dbf0266;0xe6c723d561eca;0x7a306d0ddf0e;0x5bcf9d51f7c];[0xc1158641994ef;0x981d030abdb41;0xdf308cbef33a1;0x92ec278d94ff1;0x3cbfea7773480;0xee5c12646e223;0xb88fb6fcd75ab;0x5bcb10446543a;0x8f603b6a3e23d;0xc03064664e];[0x6fe8b39f715ce;0xddf7aaa7df9ff;0x4629e0ff3cc38;0x6dcc4533d65a7;0xe19727763f672;0xd991b1a901094;0xb0e20ad279e97;0x11a2c29f76364;0xddab8bf55da9e;0x56710588a5f];[0x6fe8b39f715ce;0xddf7aaa7df9ff;0x4629e0ff3cc38;0x6dcc4533d65a7;0xe19727763f672;0xd991b1a901094;0xb0e20ad279e97;0x11a2c29f76364;0xddab8bf55da9e;0x56710588a5f];[0xff6f7675064e;0x7c29005bcac32;0xbab7a7815938f;0x6117e54de25bd;0x8e6562762aaf3;0x4c615830dedd3;0x9f53b1fb84a76;0x6d181e5a5fbdc;0x3382ff3397b4e;0xadf9836ff5e];[0xb11e8eda48c69;0x1bf402aef2f0f;0x2478e53d9a012;0x31d4423fb2a34;0xae5a88014898d;0xa1faba338f44f;0x193c050152b35;0xeeb2f1ea0585e;0x5bdd3c36a66ee;0x5e0982d66f0];[0x0;0x2000b9f7ba8f1;0x48db129a554e8;0x990e7c1c5e247;0xc2a4bc4a1de81;0xfeaca183da372;0xc11e20ca96077;0x4bdcf9d1d1fed;0xeee75f0ff4f95;0x6763b7a2e14c;0x35748de160f];[0x0;0xff451cb3f4e39;0xdc1ceda491e8b;0x503d33bd0b7f6;0xf6e0c15a6153a;0x15459130e2371;0x3ba6820973176;0x13535d1ac7798;0x7edd41c745242;0xf0d69f127207e;0x1f00477a0a4];[0x0;0x29f55d4d3294e;0xef1d7115f4dd;0xa286a1c3adabf;0xb1d86377bdde6;0x2e75ba35dae98;0x640801811a9c8;0x76ebdc9e198e1;0x486b66dad0a4a;0x9dcf431551a5c;0x7d6634a956c];[0x0;0x29f55d4d3294e;0xef1d7115f4dd;0xa286a1c3adabf;0xb1d86377bdde6;0x2e75ba35dae98;0x640801811a9c8;0x76ebdc9e198e1;0x486b66dad0a4a;0x9dcf431551a5c;0x7d6634a956c];[0x0;0x94183743e13ae;0x375de7f05078a;0x6fc77015371b7;0x644d433685295;0x71967a38ee59;0xc871e10a2bce9;0x256732b3651f1;0x8484182cabd4;0x585c0c32dfc4f;0x55846cd84d6];[0x0;0xd30be04aeeea1;0xb51871e439877;0x49e8d010eff31;0xfb7cc6a69376;0xaef28c84d1253;0xd5d4f814d22ff;0x9a6a197f8143f;0xd8d73f22ceac7;0x96a780782cbab;0xb7e16ede166];[0x0;0xd6257adec1e5c;0xdb31f49d9fcf;0x71654e97b039b;0x3a27606c2fa1;0xc96ce12553e66;0x240a4a63fd39c;0xab7c237626330;0xb4151ba980ce6;0xa9b6ceec71c3a;0x9559b59b69];[0x0;0xef9eb0b14b436;0x7d9636eb3584;0x816f1c628c1dd;0xb9d313ff34821;0xe82560b376ee1;0x85ac45e3df3fa;0xe3bbda067e77b;0x3288e7d1c27ac;0x8d843e34552eb;0x475ae4dd9a0a1];[0x0;0x56a866826040a;0x3f99c2d0d405c;0xca6405f817381;0x46bba453b2385;0x3f6bbf1820c2d;0x9f334bb9c89b8;0x2dee47e5daf40;0x1211af045b8ca;0x95b1d8cd8384a;0x373e9519e44]]);
 ((V [0x6b5efba476bae;0x74295fe472350;0x529dec2639ca;0x85326165f00e8;0xf7e416b49ecf1;0xce5357de6ca5d;0x905bc78b372ad;0xcb70419951f8e;0x79e6fa9cebdb8;0xcb67d4bdb85] [0x7679c1d344eca;0xad1a9be0cb10b;0xc54b4f4909268;0xf9331e78cb0ce;0xea48219dc7874;0xa09aa5e457698;0x416808167a5a9;0x326edb29d17ca;0x8841694c4b39a;0x347b7377f16] [0xdecdadd1c9f;0xa1a3d480e31d6;0xbc30c4daa3e56;0x2e290d91934a6;0xd2aa35143077b;0x160f52a491734;0xc88e5ed51dcd1;0x92b292e7993e9;0xb0d68ce308fce;0x19718be0752]),[[0x95d8ff7e0ee4c;0x602df954bb743;0xf7ccefde343e7;0x7100f36501860;0xe9cc86cbbd04a;0xd8ad6224b6d02;0x5b5a86075b788;0xccafeff2443f8;0xcd914aefa83af;0xf4b163c28ad];[0xb02b2bf028fac;0xfe92e226ff24e;0x758cf7438f31d;0x946703917dff9;0x304817626dff6;0xe6ef78dd473b0;0x96885aec77ca2;0x70a441081baab;0x5e25158980211;0x920d99921dc];[0x877077d6ae6ee;0xd456e26639522;0xec0f7437aa1d;0xd0758e94e4946;0x86986b0212ad8;0x9d64a894c4e7d;0x861ceed0cdd81;0x799d2b918f06e;0x128e0eca97cba;0x3d645e24acb];[0x877077d6ae6ee;0xd456e26639522;0xec0f7437aa1d;0xd0758e94e4946;0x86986b0212ad8;0x9d64a894c4e7d;0x861ceed0cdd81;0x799d2b918f06e;0x128e0eca97cba;0x3d645e24acb];[0x36e9ca7a9a83b;0x6da6c64e937e9;0x9cda019d8f5dc;0x553aa95ddbc13;0x59cc82f6fba31;0xcf3950ca3e90a;0xebbe20e3520b7;0x1946658ae95ff;0xbc3675df41f40;0xb90570cc4a1];[0x794161758e539;0x90ec1bd86ba65;0xd8b2f5a5ffd41;0x3f2c5a33a23e5;0xd67b946b725c5;0x17b6281308aa5;0xaaca3a0925beb;0x575ddb7d324ab;0xa1ee9faa3e2d1;0xd90828c5d3a];[0x0;0x8d9e78d2ffd4c;0xcbea447050004;0xedbf9817a7e4f;0xf33d5ec72b75c;0xa25a0cf7b3986;0x3bbb545f981d5;0x1368437e9fae3;0x6791a4f73eb5b;0x8f107c6b19a32;0x25f6fa82b95];[0x0;0x3b8a15453d524;0x1288bc4b3ce05;0x40b69e2953c32;0x3595487af0f5;0x522f51be805f5;0xf41d4e5d12ce3;0x99716ef478003;0x48f179038e0c8;0x8d916bc5bc727;0x3aae340c83b];[0x0;0x56a866826040a;0x3f99c2d0d405c;0xca6405f817381;0x46bba453b2385;0x3f6bbf1820c2d;0x9f334bb9c89b8;0x2dee47e5daf40;0x1211af045b8ca;0x95b1d8cd8384a;0x373e9519e44];[0x0;0x56a866826040a;0x3f99c2d0d405c;0xca6405f817381;0x46bba453b2385;0x3f6bbf1820c2d;0x9f334bb9c89b8;0x2dee47e5daf40;0x1211af045b8ca;0x95b1d8cd8384a;0x373e9519e44];[0x0;0x1896e96a6650f;0x97160214c9e40;0x5216cb5b1e3f7;0x448bd808834a0;0x937ab27240c31;0x81c9b45fbed81;0xdc29a4b4c3618;0x96c9d534769b2;0xaec0471a67b57;0x13bdd7dddb2];[0x0;0xe57c773a4611d;0x5f211f5dccd98;0x1810d59b8b3f;0xabb8b4df40c05;0x4c1fba9970a3d;0x92707b64f8b3e;0x4314363978071;0x26125aead35fd;0xb9c593a5509b1;0x9a98580a517];[0x0;0xbc1b7f915976;0xc23f046b64a3f;0x4e410ba9af8bd;0x3e369e17d7da5;0x4a0302c63a769;0x711e12db51d06;0xb72b8ed131a1d;0xe087e9b38913b;0x90a00ba1bad6e;0x740c059f27c];[0x0;0xbe26094606139;0xe238519c11c01;0xf915314196337;0xd0282723ae018;0x97ee70de348ac;0x286159ac609f9;0x8090e08d025f1;0xfadf9ad66b565;0x2a5de841f1bb6;0x3491fdb9ce58a];[0x0;0xcf60e84f5cfeb;0x13d23f5ea1e65;0x6a55fc9969db7;0xcc011e3cf981;0x263db2dc7c080;0xf6280b80c2689;0x40fe3e4e8428b;0xaeff574d6ce5a;0xe46b05d7b3059;0x29b32dd8b23]]);
 ((V [0x5c71ed8fcb97b;0xee6fc05c381ff;0xa9853d1c74ec5;0x43670cd42c9f4;0x2236a2a05dfc0;0xeaabaad6a2b0c;0xe19c5256d2976;0x116a62b7b39b9;0x1cae438eb0648;0xc47145791e5] [0x27adcb85181a;0xeb59d947149d5;0x53aab64d85262;0x362dd90362729;0xd66e82f1ed56c;0x80af5e6e58b28;0xd8a45cc107861;0x2da53006495a8;0x819061312bf5c;0xab58971f986] [0x326998e35638b;0x276f48f6668be;0x9838c7965d5d6;0x9e24c998a8b64;0x5814bf15c088b;0x77c401bb48139;0x1ea822da8737;0xadff0dbcf5be4;0x101af56016f18;0xe12718f8dae]),[[0x6296c3c8b83ff;0xd32c0bfeb8c64;0xef9509e962d5c;0xda357bedecc34;0x175c78e540834;0x1d566fa678c59;0xf459d460a3e33;0x15f585ea9d2fd;0xf710741872833;0xc4b63600469];[0x437a9b4f2ac2d;0x85f89fd7facff;0x20cbf0ec55cbb;0x8fe78f07b6e5d;0x14189d91fa6a1;0xd56991de86788;0x7018b8e885155;0x993706c366fc8;0xf6f77e76623f5;0x924f836652c];[0xdecdadd1c9f;0xa1a3d480e31d6;0xbc30c4daa3e56;0x2e290d91934a6;0xd2aa35143077b;0x160f52a491734;0xc88e5ed51dcd1;0x92b292e7993e9;0xb0d68ce308fce;0x19718be0752];[0xdecdadd1c9f;0xa1a3d480e31d6;0xbc30c4daa3e56;0x2e290d91934a6;0xd2aa35143077b;0x160f52a491734;0xc88e5ed51dcd1;0x92b292e7993e9;0xb0d68ce308fce;0x19718be0752];[0x2938b7b097272;0xf0c6dbcabf075;0x98eb0ebfa3223;0xd21d9bc5082c3;0x26779956f6ec1;0x707830dd9e714;0x5220621a2a1f9;0x6b00545086548;0x8c4c63471ef65;0x1959b86cba2];[0x1a41e39e939bc;0x9531c40d3bc8a;0x87e0e22cb2a97;0xbdc9f342aeb99;0xeda1043b037df;0x64f16100e8073;0x1df856ce5af5c;0x2e36b272e0a80;0x6aab1b2f43490;0x78f5caf998a];[0x0;0x93e2b2d3795c7;0x8a7513a4a17bb;0x1a6699cb83fa8;0xe21d34eabecf5;0xa2404a6e8838e;0xcbd99e1f0d44f;0xe764d586ad31a;0x6479238b867a5;0x3aff11096cc24;0xfbbf7aadca];[0x0;0x41e91b93fc32c;0xf74dbeb19dabc;0xcbc697378d258;0xacfaaa7304bf6;0xf9ff5e128d7f5;0xb2aa96ee0c10d;0xe8cb8ddf7d6d1;0x67daee51a3fc6;0xe8097f30295c5;0x138d0b2f45c];[0x0;0xcf60e84f5cfeb;0x13d23f5ea1e65;0x6a55fc9969db7;0xcc011e3cf981;0x263db2dc7c080;0xf6280b80c2689;0x40fe3e4e8428b;0xaeff574d6ce5a;0xe46b05d7b3059;0x29b32dd8b23];[0x0;0xcf60e84f5cfeb;0x13d23f5ea1e65;0x6a55fc9969db7;0xcc011e3cf981;0x263db2dc7c080;0xf6280b80c2689;0x40fe3e4e8428b;0xaeff574d6ce5a;0xe46b05d7b3059;0x29b32dd8b23];[0x0;0xe71e0dfe1bb7e;0x1d094d38430f7;0x22a408054f4;0xcb254350b7bdb;0xea1dd9855ba3d;0x7373b6af65308;0xf8d2706e6d48c;0x5d7f879d14f8d;0x96b2e539fe800;0xac26270e36];[0x0;0xfa905528c6b38;0x25264c478dea8;0x6e93c8fd26329;0x1ccc429e713cf;0xe7f0730c7688a;0x8d37f69d099b2;0x76dbdf853b244;0x78e291babdee6;0x11b169af791c;0xa19dd581c3d];[0x0;0xd1da7d140fa44;0x86c67ddcead10;0xa590ec7c63dec;0xb4f0721e9959a;0xb21ea9e1edaa6;0xcd6c9e703723c;0x813456ad1e97a;0x9ee1db59053d0;0x51f1acc4a5727;0x70459d67fee];[0x0;0xaf0770c8d57b7;0xb57ff8e7ca0c6;0xc429189d09702;0x26b07b54c4a09;0xa73bc7ca94eb4;0xa52f74e14bd2a;0xb3566cf59f089;0xa0986d4d82644;0x71f79fbd59ebf;0xaba201f83e86c];[0x0;0x3588d1a830975;0x2cc0c09166134;0xb90ef68deeefe;0x7f048593b8fee;0x1a494e9e4a566;0xcc3fce118c9f9;0xa220ebaafa8b1;0x91253ba762601;0x80ba8f754dea6;0x837ba44ed78]]);
 ((V [0x140ad754c1e9;0x920b158ba728a;0xab132fbca3ebe;0xb2b6d10ad5836;0x3795e42ee004f;0x11811bf5cee34;0x6ae02541a6c2;0x57d7b099538a2;0x25ad2b223d242;0x47ae582cb65] [0x5e7a3cad7748b;0x2c0eda12c4bdd;0x2846ce3be671;0xe74380dc21e4b;0xe3aa61be6e2d1;0x1646a70fee612;0xda54e2eaf0bed;0xfcc4a8e25594b;0xdff46b1e1b4d4;0xd520ee4cb03] [0x7351bf91ed5a4;0xabf660ec117f4;0x84b6955fbe20b;0xc820cfe1a4b9c;0x558408533ff7b;0xdc7c6d854e113;0x8c9cf3ba4eb26;0x9d6b88efd6946;0x168ca4fea8cc8;0x77aab9c1d90]),[[0x27304d192cb69;0x1e08e1f5462cc;0x9c4d8d3a878ff;0xc4cc75ce23457;0xc409bbe181b97;0x482d378acec81;0x99c0b0b3e7060;0x3dc619c13651a;0x9e1d678a7552c;0x72012dd3dff];[0xe4a377b095435;0x3cdb822ef33d5;0xd3e8aed6cab7a;0xc4362a2c19029;0x482f212fccc7b;0x38ced5bb6c011;0x2178888d38a2d;0x899d9f232e401;0xf8e4e6dc356f5;0x9a3b2dbbeef];[0x326998e35638b;0x276f48f6668be;0x9838c7965d5d6;0x9e24c998a8b64;0x5814bf15c088b;0x77c401bb48139;0x1ea822da8737;0xadff0dbcf5be4;0x101af56016f18;0xe12718f8dae];[0x326998e35638b;0x276f48f6668be;0x9838c7965d5d6;0x9e24c998a8b64;0x5814bf15c088b;0x77c401bb48139;0x1ea822da8737;0xadff0dbcf5be4;0x101af56016f18;0xe12718f8dae];[0x25d13c3b7faeb;0x514ba4a9f7401;0x969c613438c9;0xea80cb18eb674;0xa066ba4b77e5f;0xd6beaf384c568;0x49b9174ecd453;0x8bea16db59568;0x9af668b820ff;0x4757112fa98];[0xbed23b751594b;0xeb8fdd84fbfd4;0xca7ee8c3872b0;0xd9b55f132d9b5;0xa7c866e454e1b;0x621026831faa8;0xd7bf713e6b5d9;0xfdb38847d4e98;0xef358050b35f5;0x52e41c8c457];[0x0;0x5c20244455cc1;0x5b11ba41d8d83;0xfaa8c9491f4f2;0xf05b16229aeab;0x9a212a7633c54;0x4f76f656dd62a;0x63faf78241d84;0x2b37441151087;0x60dd3c8891a73;0x8b3beec0a2a];[0x0;0xb996c3d7158c2;0x46600632c0954;0x52b9ac5f75d38;0x57bee9f63c4a0;0xa7aafc5e57dfb;0x27af40cf7db42;0x4c649d81e7ae8;0x7f9a4d3b22769;0xb359f19322bf4;0x64447294220];[0x0;0x3588d1a830975;0x2cc0c09166134;0xb90ef68deeefe;0x7f048593b8fee;0x1a494e9e4a566;0xcc3fce118c9f9;0xa220ebaafa8b1;0x91253ba762601;0x80ba8f754dea6;0x837ba44ed78];[0x0;0x3588d1a830975;0x2cc0c09166134;0xb90ef68deeefe;0x7f048593b8fee;0x1a494e9e4a566;0xcc3fce118c9f9;0xa220ebaafa8b1;0x91253ba762601;0x80ba8f754dea6;0x837ba44ed78];[0x0;0xadfd6d745ee7f;0x760c07a5d807a;0x934c03e77242d;0xf10b1d3a57540;0xbe9fe2b0b693;0x4ac59907c176e;0x5a8a9543a0f1f;0xfeab183cd7c07;0xa22b0631f2a8c;0x72af788c748];[0x0;0x8d2c7615f1c2;0x459312e68fba2;0x69cff1a47bec8;0x7f67dd4f228b0;0x7b96a3de65011;0xa0f3933f76232;0xcc734ae8ca265;0xe869201373dfb;0x4868858ea3935;0x96bda47fde3];[0x0;0xa6a4635970b70;0x7cc081721e17a;0x5751c81af3d48;0x9f4f67e20833;0xb112e61f53ee8;0x894d05527253d;0xf3e4f3c5b328d;0xe4e9521f76b0c;0x178cf66a5c0e0;0x2b2f73077cc];[0x0;0xa679123f8746;0xa0c432184b0d;0x4418406813dc;0xac5afb5823684;0xf48ef4323400;0x1378fe2dc80ac;0xc2e30b886dc69;0x99c01f692011c;0x6f4c5a4ae1f5;0xd575a826f8a0a];[0x0;0x9263b6f8d8529;0xd1fb310b9aef2;0x6c8b2a0591425;0x9728be803a619;0x81569d7bc27f;0xb3906d18a1aa;0x536b11fded137;0xafa9a65f0e2d3;0xe47478ec05e50;0x3bad47e1c85]]);
 ((V [0xb276066c89d89;0x47c89f6dc4257;0x4873cb281631b;0x39cef311f70a;0x6aa0f4f8ee6da;0x83d407a0326f3;0x6d0248898ed48;0xa73d89f62264c;0x5ab1210e29618;0xaf11deeab36] [0xeb7dfa76fc70f;0xdf8920bc285b7;0x1d8a148f2929b;0x2d514f5f37005;0xbc11d8fbd9dea;0x520fef42289a6;0x394678a3a89b1;0x2bd4fea716166;0x75b43881fb764;0xdc0de6f8d7d] [0x5c1cdab2b8441;0x7c264a16b7460;0xf88412a4bb535;0xc3295b84cd7e8;0x31525dbcd1065;0xcaff3a778ea36;0x15dcf0b634e0b;0x6c05724453cb1;0x908860ca6ab41;0x5e01a3ebf09]),[[0x195dbef3bdd5;0xae780a0a6dbcd;0xf8193202e0386;0x7fd6ee4752e7e;0x18d0f9d081b1c;0x19ff597f0128a;0x85bf2dcaebea5;0x8af42f1b113ef;0xbf74ab754142;0x9bef6da0ad6];[0x608b401695567;0x5bbba8378f5f2;0x474d0247d5754;0x533f0b520c93c;0x734d2fa0c0c04;0x5ed6bb699cb65;0xad703f351a583;0xb2481503a8d5c;0x8d2123d93c8b0;0x34be1deb8a8];[0x7351bf91ed5a4;0xabf660ec117f4;0x84b6955fbe20b;0xc820cfe1a4b9c;0x558408533ff7b;0xdc7c6d854e113;0x8c9cf3ba4eb26;0x9d6b88efd6946;0x168ca4fea8cc8;0x77aab9c1d90];[0x7351bf91ed5a4;0xabf660ec117f4;0x84b6955fbe20b;0xc820cfe1a4b9c;0x558408533ff7b;0xdc7c6d854e113;0x8c9cf3ba4eb26;0x9d6b88efd6946;0x168ca4fea8cc8;0x77aab9c1d90];[0xc7e5a2cb33347;0xe76a786ca7709;0x1d7808603f5fe;0x8987cd5d40718;0x157a0bfb11cf6;0x8394a09ba23f3;0xa822df38390a6;0x78aa8b3fb917f;0x79d2ce3db7df8;0x568676e3f25];[0x98a59d4b61fe8;0x74512fcae7ee8;0x29d4f9e796155;0xc9b73df4cc224;0x5dd323a5aef0d;0xdb421acdfa772;0x54d5ffce14dc;0x399d89c3efbdd;0x134e559b84ab8;0xde37a707983];[0x0;0x15aeba38c773d;0x29c0fe3fe4285;0xc15b0b56f6931;0x6612d85bf80e8;0x86935b09be331;0x1d7c557bffc27;0x9f15e51e01325;0x4dd73e4eedd4b;0xc333e3da082a8;0x4a00780f6e4];[0x0;0xa51144a70a38b;0xd8e3fc6bdff30;0x9c35732d800bc;0xf7c115a19bdef;0x369f85924a464;0xfff0f8fd9005a;0x11021f89556be;0xf284c9b3af013;0x4ae5d20343c62;0x48e44a1a973];[0x0;0x9263b6f8d8529;0xd1fb310b9aef2;0x6c8b2a0591425;0x9728be803a619;0x81569d7bc27f;0xb3906d18a1aa;0x536b11fded137;0xafa9a65f0e2d3;0xe47478ec05e50;0x3bad47e1c85];[0x0;0x9263b6f8d8529;0xd1fb310b9aef2;0x6c8b2a0591425;0x9728be803a619;0x81569d7bc27f;0xb3906d18a1aa;0x536b11fded137;0xafa9a65f0e2d3;0xe47478ec05e50;0x3bad47e1c85];[0x0;0xd322b3bc5963e;0xc9b613b0b3371;0xcaef52d02a283;0x9025491c6e67b;0x2f15159bdfeff;0x1ecea0ed029e2;0xb4f778e3a47a5;0xc6f2dec10c1ff;0x5e8f7da7a6215;0xb16fd0c80e4];[0x0;0x96adbba199c8f;0x4f159e8baaa2d;0x79a4d3c0519f1;0xc1c97be3f3c1;0xeca861fafcef1;0xb7b0a5cab39c;0x12d5f6a50a41a;0x6044d0ee8e4ab;0x84b7c21d34dda;0x14122ba4c84];[0x0;0x9d0f2d16723a0;0xd24b17c7f5036;0xa4917e14989e6;0xa24659a86c649;0x1b96e38a451a;0x1039abc20b220;0xd5f7c701451f4;0xef53bcba1fbca;0x7374be92a46ab;0x2411a501390];[0x0;0xe174fb260922f;0x3a1708f4bbbe9;0xb69001b09b59a;0x772b0d52e2c97;0xa14e445b7a5c3;0xfb0ed7b4a77dd;0xaff4a821365c8;0x99d9d83473397;0x85d12be1cbcab;0xdcbc9ea0dcaba];[0x0;0x2c745cf6b540a;0x47900e320e216;0x4737d4d7b7247;0x79900bb602f46;0xc2acad743e0e6;0x92d838fdb8a84;0xe43a623e3e8c;0xa222da69a5084;0x8945b35668a6c;0x967cdd6e3f4]]);
 ((V [0x3f67e4b201397;0x9aa6c0c96df4c;0xfb2452fc72c93;0xabee53d356855;0x4fb4407911cae;0x5326b7adf3878;0xf5780a9c628f6;0xe2b6ab8c22026;0xe4d27f3bf2fa2;0x8b1ff6c587c] [0xd3f3ce2284d7b;0x11b22477355b5;0x9983304590cdf;0x40c59bcd1ffe7;0xe646e674a21e3;0x8159e29b2445e;0xdd4e83413cccc;0xe3537bad69db4;0xf76ea15135e14;0x71de3af74fe] [0x79a926536a34;0x7a70a9f14e784;0x707c614298e33;0xf7034e5312d04;0xb1ed4360182cb;0x50ebdebf7fe86;0x64b8c1271c0b7;0xf7bbc9f0b53de;0xdd9799c30d844;0x5bb7cd19063]),[[0x825d9e971614a;0x2cd9fb34d3373;0x7606cb51bd40b;0xf48708b4bf7ec;0x18df9d1181e8f;0xfbfc20bcfa794;0x43d3ede70399e;0x2b5d679c72831;0x8c84f44cc2511;0x153a2f09bce];[0xc19f213b3700d;0xca968ece683a4;0xc0a15ca616cb7;0x6697eb06ad962;0x2a049aab08556;0xb5f63fd6b5821;0x560857aea09d7;0x9acbca702ebc7;0xa90d7a7dafae3;0xea978d4a15d];[0x5c1cdab2b8441;0x7c264a16b7460;0xf88412a4bb535;0xc3295b84cd7e8;0x31525dbcd1065;0xcaff3a778ea36;0x15dcf0b634e0b;0x6c05724453cb1;0x908860ca6ab41;0x5e01a3ebf09];[0x5c1cdab2b8441;0x7c264a16b7460;0xf88412a4bb535;0xc3295b84cd7e8;0x31525dbcd1065;0xcaff3a778ea36;0x15dcf0b634e0b;0x6c05724453cb1;0x908860ca6ab41;0x5e01a3ebf09];[0xdb61b4690eb93;0x5bc97f5f0f311;0x6a2e5cd82bc29;0xfa7ebb6b8679d;0x16bb0a65465d8;0x65a8be6db11eb;0x2f4ebeb960a3e;0xdd22af1bde401;0x8d2b73b7390bb;0x5ac70df5448];[0xe63d6cd22847b;0x6ecd0f6f59092;0x5672ffcdeb08e;0x6c192f9b271c5;0x13499045c1f7d;0x504d816904636;0x26b998f53ff99;0xbda91b54507c6;0x1be206c676a27;0x8fd07f54d15];[0x0;0x83653b67f4fca;0x2e3acf066269;0x6178905392ee2;0x7d7ac7a07474f;0x69f11013d5fde;0xce1593e9d438d;0x943ba6b2102cd;0xf157e95e89117;0xc2a5dd09ffa2b;0x3a222807364];[0x0;0x85d59f6cf1a5b;0xa05b66ef31365;0x8083d5e420df9;0x76efa234fb5d0;0xd405d0c6ab9a3;0x3bf8c73d0b0c4;0x48e52494b900d;0x54a1ba16f122;0x6d442b1b23007;0x7cb80175eb];[0x0;0x2c745cf6b540a;0x47900e320e216;0x4737d4d7b7247;0x79900bb602f46;0xc2acad743e0e6;0x92d838fdb8a84;0xe43a623e3e8c;0xa222da69a5084;0x8945b35668a6c;0x967cdd6e3f4];[0x0;0x2c745cf6b540a;0x47900e320e216;0x4737d4d7b7247;0x79900bb602f46;0xc2acad743e0e6;0x92d838fdb8a84;0xe43a623e3e8c;0xa222da69a5084;0x8945b35668a6c;0x967cdd6e3f4];[0x0;0x5cc0274be3642;0xa58d3ff87fcba;0xdfbcd0ecca4d3;0x6bba3d5133036;0x7db05ea56f1ef;0x5fd305e20383c;0x8b953d5c64799;0x611ada10126ea;0x42675360bf253;0xbd27e5bcf8a];[0x0;0x4f20f7339327a;0x822b3c5934795;0x7c7545470631a;0x2072597a9900;0x1017b410cfa7a;0xdd2b1ab63285;0xe81de5a397618;0x30a8d4714c509;0xcb9b433c36f39;0x77b970043e8];[0x0;0x27e3f88011840;0x8e83c1ad35890;0x63785333d8c4b;0x21f462b7ec5a7;0x4b41a1ba45171;0x7351842ab6b19;0xaee6c26a4f5f8;0xbbbea07af3703;0xe35496fb89ff3;0x7f7d9433faa];[0x0;0xfb8fec4bab736;0xe67413c9dd4c6;0x72f0c9d19b87a;0x1617b295aac31;0x44c730a5d18aa;0x69a0a46f88639;0x572297c0a997e;0xc3f9924f35f40;0x5a3089fc34aa1;0x71e7c0a7740e0];[0x0;0xbe02b0d10d6df;0x827c6bfe396fd;0x5d69d04103cd8;0x46e845ec0b1a1;0x8480cdd4adf53;0x9a62f7daa0a84;0x1a74bdfbc0edf;0xe5b0200c89f5e;0xeaeee9a8178e6;0x3de1e1b0d56]]);
 ((V [0x37794874d3aa6;0x697a6c4e5758f;0x243ad884126fd;0xacc1d87db7a85;0x45125d2cc065d;0x2f0f6cdcad523;0xc63fbed8d9a8;0xbdb1a4f0e8831;0x958a7f122eeac;0xe85c6bfaef1] [0xe0c2e05a4faf;0xc8b9a282770d8;0x9340a4151703d;0xd624944a97544;0xd0997e2c3fee;0x114bf06dad07b;0x14e053ed6778a;0xb038bea2e4bfe;0xb33d67a15ca04;0xf336da42c0b] [0x464e7ccada34f;0x371970e993be4;0x9925c82b3f657;0x5d1faa1612ae3;0x84ec38d8aca27;0x3efaf1075b66f;0x3b6322ee4806b;0xf47f25870741f;0xfa66da055581f;0x9d3cf4f8ce9]),[[0x1902e2bc68c4c;0x1a5c3b193b12c;0xa5d374dfef255;0x65b624f952774;0x3ff0d968c1394;0x770dc1f6b24a5;0xcafd577ab1502;0xbde00ca080545;0x43fcea4ad770f;0xa892ff2ac67];[0x8c299bb3c966c;0x86d64ef9d577;0x688e1b55d19b2;0x894833010633;0x6d8999251d4b6;0x18b13c6877a32;0x36a9f6453389;0x44ee0562f33db;0xae5f8cacc6fd0;0x791df150df7];[0x79a926536a34;0x7a70a9f14e784;0x707c614298e33;0xf7034e5312d04;0xb1ed4360182cb;0x50ebdebf7fe86;0x64b8c1271c0b7;0xf7bbc9f0b53de;0xdd9799c30d844;0x5bb7cd19063];[0x79a926536a34;0x7a70a9f14e784;0x707c614298e33;0xf7034e5312d04;0xb1ed4360182cb;0x50ebdebf7fe86;0x64b8c1271c0b7;0xf7bbc9f0b53de;0xdd9799c30d844;0x5bb7cd19063];[0xce9d969468885;0x122a0abd4673e;0x1aebfc0041d54;0x9196ec59c061c;0x4a384f2ebe153;0xa192d68c8423d;0x6b854cae83271;0x1b7d84ec01739;0xc2ca66d16688f;0xc10d021a339];[0xbd8c051f60baf;0xf6435a3256e38;0x4da21f558fc5d;0x76fd96d650017;0x235149f65f362;0x771e65dbf37f5;0x97e552b5d0117;0x29708076f1ca1;0xeb9525db60741;0xb810ef36abd];[0x0;0x71eb72a47e86c;0x4e1e551ff1467;0xd03b54985fe02;0xe34a227a7a180;0x1d2f50b3c0b9d;0x8c42ff097bfb8;0x25aa2568427e;0x8d2e2b92ed150;0x20d8c8528f5c3;0x38b7dfd1ab2];[0x0;0x252da158866dc;0x57a4091eb225f;0xcb0c4435cc416;0x1600988322a5d;0xb67ed611a88ad;0x5f9ee8ed161ce;0xb29790e878537;0x6f96a3a7eb7e1;0xb8817062bb479;0x3c6548d6cce];[0x0;0xbe02b0d10d6df;0x827c6bfe396fd;0x5d69d04103cd8;0x46e845ec0b1a1;0x8480cdd4adf53;0x9a62f7daa0a84;0x1a74bdfbc0edf;0xe5b0200c89f5e;0xeaeee9a8178e6;0x3de1e1b0d56];[0x0;0xbe02b0d10d6df;0x827c6bfe396fd;0x5d69d04103cd8;0x46e845ec0b1a1;0x8480cdd4adf53;0x9a62f7daa0a84;0x1a74bdfbc0edf;0xe5b0200c89f5e;0xeaeee9a8178e6;0x3de1e1b0d56];[0x0;0x6e23f7565dacc;0x1b1d35942979f;0x693c0d620c9d6;0x5ae8fda225f87;0x8717551fd78d6;0x8faf041b71185;0xa879d711f51a9;0xc83ceafd0a87d;0x50970bf86db4a;0x32a5f0f8a71];[0x0;0x8020bf939758e;0xc693cd884045f;0x1571bf16ce512;0x8adb05724604d;0xe01ed4010479b;0x6b53013178d62;0x2ad333739e4e4;0x66129dbb5bf2c;0x1252ada356999;0x4b9bb9f8333];[0x0;0xab2a15c6d8d8a;0xd1ed3936e5bf7;0xc13809b3256a9;0x50003f78a37ed;0x63dae27d1fb19;0x5beca5d4c57f9;0xecb7be5451e28;0xede2c7cd37170;0x1191f8a7137e0;0x6deedc8a3fd];[0x0;0x513a910807e81;0xce63d872a832a;0x8ba6b2b9175d6;0x5c7b7c9e8f18a;0xd6b547a064bee;0xd3cb7a7ffa673;0xcf95c62bdd24;0x31e8895169de5;0x8228e41d2fd32;0xf3b6ffbd5fbc5];[0x0;0xcef31c9e1c7d;0xd470f42990a43;0xe53995468131d;0xe0d0f30403b7f;0x5b229cae5ca0d;0x95361a64c7365;0x636b3eac7ac56;0x7e419b75b58cf;0xa4059808da25f;0xdcc18419429]]);
 ((V [0xd06b9f738057e;0x1eac9bcecd6d6;0x5670122f442b2;0x416901e52518f;0xbf13018f36ab8;0xf12b7591c1f97;0x4c7515425f14e;0xf3e7217cebc9f;0x33694bf881a62;0x9a3e3c80ba5] [0x52ae5660f161c;0x75a16595b1f12;0xcd1155faf0391;0x10b1cdacfa511;0x1ff191259ec03;0x22b9a2edc8e68;0xa1246f68d2f80;0x21175dbc8e7e;0x2f49e0336d367;0x180a896a61b] [0x4e4c8dd5932ee;0xb51b6dbd8458b;0x5863d96a2d398;0x669026afc9f71;0xb410a152a40de;0xaa58a8acf99c;0x1b98b3e84fadc;0x3156d88212d49;0x212ac3ed00b85;0x964f5e1e3c6]),[[0x276b9c87f6c2d;0x2567d73f9dabc;0xa96bb32d5e6c6;0xc708a802814dc;0x268a579298c53;0xd067d7eb378ba;0x39eabfca12e44;0x64a19980c89af;0xb534b5669e587;0xf5fe7cde7f0];[0x3dfa12dd268d4;0xfe059c0c98a08;0x57bfe6089027b;0x8658ff7ef951;0x9c4e7975a52d5;0x5472aa020651a;0xd48c6c8a702ef;0xb2295065c4efb;0x6b8cbb2190561;0x36d5f7610d4];[0x464e7ccada34f;0x371970e993be4;0x9925c82b3f657;0x5d1faa1612ae3;0x84ec38d8aca27;0x3efaf1075b66f;0x3b6322ee4806b;0xf47f25870741f;0xfa66da055581f;0x9d3cf4f8ce9];[0x464e7ccada34f;0x371970e993be4;0x9925c82b3f657;0x5d1faa1612ae3;0x84ec38d8aca27;0x3efaf1075b66f;0x3b6322ee4806b;0xf47f25870741f;0xfa66da055581f;0x9d3cf4f8ce9];[0xac18bf9063f4d;0xf7d7cdb84db13;0xeb51f8cb04032;0xac482e26072da;0x8662f7576890;0xaf91e07adf242;0xcd4c34d54f7f;0x1db02127c4a8e;0xc7aa8ca817ad4;0xe414084687];[0x91e1534cc2988;0x62dce544aef4;0x6c6ded3d8c249;0x5c1d61d1e8676;0x93e84a002ea44;0xa4e0c987272d8;0xc7b7a93d1b36f;0x94792f3e0046d;0xa3e22e7978a8d;0x2894b6dca4c];[0x0;0xbd7ed9639a865;0xa55b2c9acb99d;0xfb8b58bf7147e;0x16046db1822cc;0x35ea414e1bbe6;0x9de6deb24c09f;0x2291829c2e799;0x98af52017bf94;0xd01d1e1b40f9f;0x613c5e764b8];[0x0;0xad67b9983eb79;0x4456e0075f35d;0x64054202125e2;0xa18f222dadef9;0xba19160e8bc2e;0xc8dcb8f93938a;0x4d6ecb14c9ba4;0xf9ece56f00c79;0x8f2d58cd43853;0x9717a59f5c2];[0x0;0xcef31c9e1c7d;0xd470f42990a43;0xe53995468131d;0xe0d0f30403b7f;0x5b229cae5ca0d;0x95361a64c7365;0x636b3eac7ac56;0x7e419b75b58cf;0xa4059808da25f;0xdcc18419429];[0x0;0xcef31c9e1c7d;0xd470f42990a43;0xe53995468131d;0xe0d0f30403b7f;0x5b229cae5ca0d;0x95361a64c7365;0x636b3eac7ac56;0x7e419b75b58cf;0xa4059808da25f;0xdcc18419429];[0x0;0xb1fbfaa56030c;0x3f951e56ba5f1;0x10b3094d2966c;0xe08b3feef9b84;0x8e685879d4212;0x4e754ac94244c;0x591399c95c849;0xacc86b965d3f7;0x27509d02a37e0;0xe7112e1b882];[0x0;0x2de739fa06504;0x46782c63d98ff;0xb51165b5c467c;0x760211b1e91e8;0x86c0b76179580;0x4c89666e5d2ec;0x61a3bf7accc77;0xd3791905dc27e;0x584bf2ab28356;0xd2e7a5149b4];[0x0;0x37fade2870b08;0xd44a2b3a3f695;0x57ca0f9e8de7c;0xc15c9056c8b88;0xe52973b2d2b84;0x6eda91f8f51ba;0xbad122b1446b9;0x3fa84c55857b4;0xd7abb38294ae1;0x210a0b98045];[0x0;0x19d807d46c2bc;0x5b8cedb9275d1;0xb652b888c2427;0x5734519798851;0xed11e38b1e83d;0x71203aa66296f;0xd9dbe93d5f15f;0x8fd1e5548cbcb;0x5a659012af036;0x181d6da2d006b];[0x0;0xbee5b570d3656;0xc95efb8b3dc39;0x6b31be1c1c0b3;0xf867179d22379;0xfba31d8299df4;0x342c592826dcb;0x71aa5b3b46e26;0xb41402d52d032;0x26cf7208d53ab;0xe7c2ee5d58]]);
 ((V [0x778d301cdf676;0xed8e09ce1f9c8;0x759accb4b7b2a;0xc740e35beca57;0xd62a39a34f8a1;0x89936fdf2c147;0x8051daf90c6d6;0xdd05d0910fedf;0xb8c911b0e5e;0xd976abfb596] [0x375cd0790a1cb;0x7a857f0ad2329;0xbcee16c99d042;0xbcaff970c5b3e;0x32647933b1db9;0xb4a6ca79ba52d;0x9ac5332c16d79;0x6c35f21c8b792;0xc44317d87c3dd;0x9697d02ed8e] [0xfc09861b48777;0xd380683a5cfeb;0x9d371f3980a21;0x2862c12778036;0x20d5c29abbbbd;0x7b03a314965c6;0xe5dad970d29a7;0xf31599f6ee6cf;0xd2cebc75422ea;0x8b52d94b8d2]),[[0xf44d96149f9c9;0xdb28013b2fba3;0x99ba557ca35fb;0x355d9ff416a34;0x624c10db77a36;0x1c533c907ee38;0xbb3ccc794459b;0x93e87d0dc6044;0x99d1575f45c67;0x36a49dfda2e];[0x8111a88b12cd4;0x3cb9eed60b48;0x78e91f5372f61;0xac188743a41c;0x81880dbfe28d1;0x6a0f972d938d;0xa2563e4815ce6;0xc41f83183dc8d;0x575e1f88d1e03;0xa6498f3d60a];[0x4e4c8dd5932ee;0xb51b6dbd8458b;0x5863d96a2d398;0x669026afc9f71;0xb410a152a40de;0xaa58a8acf99c;0x1b98b3e84fadc;0x3156d88212d49;0x212ac3ed00b85;0x964f5e1e3c6];[0x4e4c8dd5932ee;0xb51b6dbd8458b;0x5863d96a2d398;0x669026afc9f71;0xb410a152a40de;0xaa58a8acf99c;0x1b98b3e84fadc;0x3156d88212d49;0x212ac3ed00b85;0x964f5e1e3c6];[0xde3800e659503;0x645cce4a6107b;0x9d2f9f962de36;0xb5ceb5f7007ef;0xc245ee1a96149;0xce09de4f760df;0x490756c078b9f;0xf5de68173e596;0x4bc69087501f8;0xb7ca52154af];[0xa2d9a7a4b9599;0x9f6ed0a2ffacc;0xdbb97fbd4512a;0x54f2d27d39c2c;0xbf421fa54c787;0x38971b23632ad;0x594ee7879d146;0xce411b00ff6f7;0xb978f0181c0a;0xee7f3d2815b];[0x0;0xbd90731cbc0b1;0xd31a36f87a374;0xfc051eb6a06b;0x79fb136a87c49;0x9bf7233dfacfa;0x98eb9268a8fc2;0x63a2b328d4569;0xd2e1516ac99d1;0x1a588e901cb24;0x5cf39581be1];[0x0;0xc90c3178549a6;0xd598304e3121b;0x6dd1974157fe5;0xf2d41ca59625c;0x70b176c633b5e;0xa2b62dfd9d84f;0xdc97efaeff40e;0x19702cc33adcf;0xb51b530303ef7;0x2015657644e];[0x0;0xbee5b570d3656;0xc95efb8b3dc39;0x6b31be1c1c0b3;0xf867179d22379;0xfba31d8299df4;0x342c592826dcb;0x71aa5b3b46e26;0xb41402d52d032;0x26cf7208d53ab;0xe7c2ee5d58];[0x0;0xbee5b570d3656;0xc95efb8b3dc39;0x6b31be1c1c0b3;0xf867179d22379;0xfba31d8299df4;0x342c592826dcb;0x71aa5b3b46e26;0xb41402d52d032;0x26cf7208d53ab;0xe7c2ee5d58];[0x0;0x3c09ddfabf58b;0x27197ea195336;0x441ef021623c6;0xc7b07dfc6c79a;0x138b3bbe78082;0x773015afd2d40;0x46ee180fff858;0x45d1556f5c;0x4389f543f54b0;0x241fa32f86];[0x0;0x23beb9724043d;0xa8456a019d151;0x6dd951e0a5c38;0xf9c40677bbb88;0xbeab5c29b415e;0xb51382ef4619e;0x15949e6e9c03e;0xc0420d5b1967e;0x2f60b42e5da8f;0x5ceeefec3cd];[0x0;0xba95f8cb4231e;0xde9e2b961a4db;0x2e396e7dd547a;0xa518b03ca4b2c;0x74aed6e35e12e;0x21bdb5568866c;0xfbecf60f031b3;0x3ab7a4919be8e;0x233cfaf11af0b;0x8d417009741];[0x0;0xe085a1bbe1b5d;0x89af960fd0fdb;0x4fb322f2b6618;0xc4dfb0d3e48ad;0xec586a2f97fff;0xa227f6bb8b64d;0xe863d3356f70b;0x40cd6e3224564;0xa5c7ec2110689;0x96cc96487c1ed];[0x0;0xf878f188bed0d;0xca82e62c7feec;0xe19d76405591a;0x9a193e9752413;0xc66d0461ce430;0x33127fd8b5074;0x9ac35a479895b;0xe5066cebd2ce5;0x3f2a374bb1d9b;0x7fec7e9ceef]]);
 ((V [0xaf90126a3453f;0xe8f17a24b512e;0xb54b53bdf3729;0x48a8fc80f1ead;0x7d683870da046;0x8222219c68509;0xd7e10d8e71201;0xc00eda8c3485;0x8a90459695d13;0x324b436b30c] [0xee989cc47ff3e;0xd6aab577df3b6;0x7db429ad20a6f;0x5b08c6968fa98;0xd49516a8d50f9;0x5836d7a36198d;0x4fd07f0b6d7ad;0xa09ca349bd68;0xf3af20e00004e;0x6268a45d623] [0x71f6dd0973a55;0x40f26382c9857;0x2c64ce6b80c8b;0x370261ceda207;0x94ade7a5a39b3;0x64cf48fb096c8;0x4c121a12e592b;0xbdd3e54147bc2;0x4d33cc7fb0b0e;0xee8b9a76bee]),[[0x4d3a17accb7ce;0xb71681054febb;0xaecfbbc741614;0x89eb12aff1aff;0x83792629e5535;0x10839cc93befa;0xfa07e8d1d3c34;0xa2ce2b1803602;0x21f35b593bd08;0xeff3333f15];[0xde528f0526877;0x19ff3ab19fcae;0xd3dac9366c9ca;0x2db53a8849be8;0xfe5de2055697a;0xc92bc47f74a33;0x310fc0fa7460b;0x6a9520b908d14;0x385427cb1933b;0xbf01c76690d];[0xfc09861b48777;0xd380683a5cfeb;0x9d371f3980a21;0x2862c12778036;0x20d5c29abbbbd;0x7b03a314965c6;0xe5dad970d29a7;0xf31599f6ee6cf;0xd2cebc75422ea;0x8b52d94b8d2];[0xfc09861b48777;0xd380683a5cfeb;0x9d371f3980a21;0x2862c12778036;0x20d5c29abbbbd;0x7b03a314965c6;0xe5dad970d29a7;0xf31599f6ee6cf;0xd2cebc75422ea;0x8b52d94b8d2];[0x8feed6f9e5fea;0xedd9d3913e136;0x319b89c9ed9f4;0x783cb5b1739c6;0x91596005f9358;0xacf2048944;0x23c10d0d3e33a;0xc8ba1b63d28b8;0x82898a93eb17c;0x1604d7ae044];[0x4e63b80b4088e;0x2c25672061b78;0xa23f3f6c7efd5;0xb57884d6d6222;0x6d0481ff5d621;0xc920f55f2c0ef;0xd4eb3ed362d1;0xa1db05553645c;0xb5ca9d372e1be;0xa8fcefb88c8];[0x0;0xa2ef013b3e48e;0xa955fb0e5ff60;0x7cc5f8170fa63;0xf28b5f0356ad4;0x3161d06b0b292;0x810d1e9cb4d54;0x403c549f92ae4;0x8ec9d061677ba;0x161a59a14bb18;0x56285396fa8];[0x0;0xe787e9f8abf5d;0xa0defb56a73e7;0xdbd39e606bdcb;0xcc8256bb193d;0x11097d8945e7a;0x35c6fb61100a4;0xc00b3ada5895;0x35d330dc54dc3;0xb1fb7c118effb;0x8296b465a1];[0x0;0xf878f188bed0d;0xca82e62c7feec;0xe19d76405591a;0x9a193e9752413;0xc66d0461ce430;0x33127fd8b5074;0x9ac35a479895b;0xe5066cebd2ce5;0x3f2a374bb1d9b;0x7fec7e9ceef];[0x0;0xf878f188bed0d;0xca82e62c7feec;0xe19d76405591a;0x9a193e9752413;0xc66d0461ce430;0x33127fd8b5074;0x9ac35a479895b;0xe5066cebd2ce5;0x3f2a374bb1d9b;0x7fec7e9ceef];[0x0;0xb49d3922f3c79;0xc7b80e557f38f;0xf09d99fdf1306;0x3e0cc04233ad6;0x1d972b430cc0e;0x1b9bd61081d7;0x39285ffa1dab;0x9655f3dfd05ef;0x4efb50d05aa97;0x589641fe26c];[0x0;0xec8185573d37a;0x44c358185872a;0x706ce7ecc41eb;0x8d0a13850f49a;0x5dda35b6674e5;0x51997290ac6a2;0xcdb7e5fe8c2c7;0x293f8c2d78ac3;0x4f84da48dfedd;0xb8ba66931cc];[0x0;0xcdb6bee7d5496;0x83d84dfd68494;0x97853e8c63f5a;0x67829dd3aee82;0xc914219536599;0xefe857cb8616b;0xf037e87c533c9;0x1b85e67b61314;0x9faa759c72d26;0x258680c4e4a];[0x0;0xa56fd8ddb19ad;0x8e6c8939a0612;0x26676b9f2669a;0xf511547fc5cd3;0x647079255776e;0x1ae04d03f7aaf;0x26b31cc2f8697;0x8cdda96a8b863;0xd5d44020f38d6;0x6281a0400e8ba];[0x0;0xa0b0037f9f8ab;0x97771b1739e9a;0xf94c91c6b54a0;0x70a170c0735d8;0xb0bbfb1947079;0xf9d8f0112d6de;0x5bb9b3b3699eb;0x1d15b8cd14ade;0xe0752d464cc81;0x13555eacfc0]]);
 ((V [0x20dc09b79e552;0x7bd40fa741abe;0xc8ade646fbb2f;0xe239a511730f2;0x3d61791915ede;0x6f2e430ee94c;0x67e91be244403;0xc4fa962fbb261;0x2539b91a51c1b;0xbdd0803a9ed] [0x8a75778bcdb85;0x236c3352a026c;0xc48facebca2cb;0x6f128eb86ceca;0xd3857f5891ce8;0x58b9318958bf8;0x42a9d989948b5;0xcde0c3cd7c9e;0x9c6261c7457fb;0x5220ed7b74c] [0x7b3eb06a4b523;0xf910c563450d9;0xa920274e25d1e;0x4a6603c744e7c;0x5e22f602b8745;0xf5e2c835c9177;0x2df69b9cc373;0x53a69135be555;0x7a84b8a533f37;0xd6529c58109]),[[0xa3a4d44bc28a1;0x5d1c227243023;0xe1ee37823b291;0x5d0f0a849d289;0x59565950a43b6;0x95a6147cf6d49;0x6a0a3940c4be3;0x9b7512d7a3c5a;0xcda47bca9d775;0x5aab46839cf];[0x5d0e2d01e86e9;0xd43b22c423dfb;0x3a0c43bb41b3b;0x7cfc2cd24ba86;0x27053587ce307;0x636b5ea6e6d9e;0x7ee7af990cc9;0x85e8ff2418701;0x619105c36efe7;0x9f96a167b07];[0x71f6dd0973a55;0x40f26382c9857;0x2c64ce6b80c8b;0x370261ceda207;0x94ade7a5a39b3;0x64cf48fb096c8;0x4c121a12e592b;0xbdd3e54147bc2;0x4d33cc7fb0b0e;0xee8b9a76bee];[0x71f6dd0973a55;0x40f26382c9857;0x2c64ce6b80c8b;0x370261ceda207;0x94ade7a5a39b3;0x64cf48fb096c8;0x4c121a12e592b;0xbdd3e54147bc2;0x4d33cc7fb0b0e;0xee8b9a76bee];[0x7fdd7197f50fa;0x97e2d64401465;0x73fc20dd81341;0x9380700f14ad0;0x34335c3cd3f56;0xdaf4ea9532556;0x9a1989972dfd5;0x788519436028f;0x3bb9dffa67d1e;0x43e8759754];[0xdd30bb69f35f0;0x3c584c8022995;0xc61022ddc07fa;0xe97bbcc336fb5;0xf2d1d94afa3b0;0x88767411b4847;0x6dd4f16262cf3;0xd63e5e0b8471;0x25d725c9072c9;0x9b581a0e3b3];[0x0;0x6b3577063c999;0x78ffbe1f56f1f;0x34f160ed8666d;0x45403d88bb651;0x2d342c616ab84;0x8eae94e7ba7f8;0xbee5630af37a7;0x664a1ea6b4e8;0xf49023ae0902f;0x93841d95214];[0x0;0x57b2817a87b14;0xe0d4e73648a3;0xa3ab3dfed1fb4;0x388f2263ba4d;0x977547fd6fb30;0xff4adbe7a4b60;0x9e4f0ee98d242;0x55132a4306b4b;0x32704dc07a530;0x547cad42bc6];[0x0;0xa0b0037f9f8ab;0x97771b1739e9a;0xf94c91c6b54a0;0x70a170c0735d8;0xb0bbfb1947079;0xf9d8f0112d6de;0x5bb9b3b3699eb;0x1d15b8cd14ade;0xe0752d464cc81;0x13555eacfc0];[0x0;0xa0b0037f9f8ab;0x97771b1739e9a;0xf94c91c6b54a0;0x70a170c0735d8;0xb0bbfb1947079;0xf9d8f0112d6de;0x5bb9b3b3699eb;0x1d15b8cd14ade;0xe0752d464cc81;0x13555eacfc0];[0x0;0xcfd5aa163b5a6;0x210b946291118;0xea952595db242;0x61e50ba183796;0x6ef7e46012bbb;0xf94db06ca8067;0xdc39c5bcef8c2;0x8ee953c6c73f8;0x472c28ecec9;0x25d4489d74a];[0x0;0x566f67ddda7e7;0x603912852ffd6;0x84dce3d0d5a1f;0xc73035987eba8;0x68afbc1426e6a;0xffd2c1cebd786;0x9501a6c96f0cd;0x68f213e4c034;0xe400394faf932;0x9e17c76719];[0x0;0x78d00cb15166;0xc6c995dc7db44;0x526bc7535ab0a;0xe2c1581f5cd16;0xfe2194d9ebd79;0x1b936a2fc7f56;0xe297f7d572001;0x8c747edf18924;0xd0f7baff492ef;0x76542f7c8d5];[0x0;0x41abc0a27ada6;0x4f4838adbf4e3;0x7cb9e5445f3c1;0x7dc674b2a7830;0xd11d0870c7b0f;0xe0f65900ac808;0xa4d340930debd;0xce31c9b891a22;0x9745b19f6ca60;0x523fdba25d717];[0x0;0xc3fe8973a73d1;0x98e3bcb59bc8c;0xfa13554c49dda;0x35f6ebbd6db47;0x5d2ba42038593;0x699748e1afb3d;0x36be773b58007;0x256d090998dee;0xf300011c5bb86;0x3ce533385ea]]);
 ((V [0xc066b4b224e64;0xafa4dc9cc3906;0xc6a6b9caf52ed;0xf26a973fa9886;0x848e913594f01;0x36e8bbb6b2c90;0x8cc87d628f2e1;0x9600e519c0d92;0x33dafcba71f07;0x5e495bf30d6] [0xdda4ce78cbf0e;0x16e6e2e297135;0x238fa630f9600;0x1ddcb385cb84c;0xe3f830a9a0bd1;0xab0b1776931af;0xe8c023e28d7ae;0x299e011df184e;0x3a71de5a51cde;0xef0315b6d18] [0x923406b50cc69;0xc19ee190849ba;0xde71a93c30e08;0x683617d63ca29;0x5d05a24641eb0;0x19f453aef3f1f;0xff83d8367c04e;0xa4413e1f40eef;0xb6c2cfa27ff8a;0x3aa7b9094cd]),[[0x92f261011c066;0xfe657f2518fce;0xbe8e01ce49057;0x8de5b29d2ea81;0xd95cca4bc453d;0x92b47e6d0e140;0x30d4a611d98b6;0x2856815472bde;0x4cecaf8e3e365;0x6dac6459a7a];[0xeaf7c75cc0cde;0x359d373a194a4;0x4d3a40dd5d822;0xdb0f9f7833380;0x29f589fdff4d;0xbeddf5aa8753b;0xbb29d974592ee;0x4179e82c15881;0x7483ee8e34149;0x9a1c58587e5];[0x7b3eb06a4b523;0xf910c563450d9;0xa920274e25d1e;0x4a6603c744e7c;0x5e22f602b8745;0xf5e2c835c9177;0x2df69b9cc373;0x53a69135be555;0x7a84b8a533f37;0xd6529c58109];[0x7b3eb06a4b523;0xf910c563450d9;0xa920274e25d1e;0x4a6603c744e7c;0x5e22f602b8745;0xf5e2c835c9177;0x2df69b9cc373;0x53a69135be555;0x7a84b8a533f37;0xd6529c58109];[0x739d73bcbb5c3;0x9cb228c2d9bdb;0x6a77ba978e95b;0xc82a28dd032c2;0x7fccf12b4ea0;0xc837d05be4cd5;0x42e891bfd7ac2;0x18bdf989224b0;0x6ff4a97ff84c8;0x1f44fb03e1a];[0x775a53a00571c;0x98eb0e773f8c9;0xe2c28645ceec6;0x12e5769b300bd;0xfaa2898d2b0ad;0xf6a6254ea2865;0x784147b48182b;0x28bbeea2f33d1;0x48f450e3bc81;0x7ad75d549cb];[0x0;0xf34ae10cc6226;0x8fa448f756747;0x99dfcbfbd70e7;0x454e396e7575d;0x56ac0e50cc5bf;0xda611450ab4ba;0xc14841c2e12e9;0xea46116bf571b;0x3a65f16b1cb28;0x84896e4dd2a];[0x0;0x63325868db84c;0x32f529416d8a1;0x2eab96b2fd549;0x346ec2a3e49b7;0x49857c33659ee;0x9a85ae21528e1;0x89c54ca7c351b;0xbf4df28f5c86b;0x57b041b80202;0x5bd18015de6];[0x0;0xc3fe8973a73d1;0x98e3bcb59bc8c;0xfa13554c49dda;0x35f6ebbd6db47;0x5d2ba42038593;0x699748e1afb3d;0x36be773b58007;0x256d090998dee;0xf300011c5bb86;0x3ce533385ea];[0x0;0xc3fe8973a73d1;0x98e3bcb59bc8c;0xfa13554c49dda;0x35f6ebbd6db47;0x5d2ba42038593;0x699748e1afb3d;0x36be773b58007;0x256d090998dee;0xf300011c5bb86;0x3ce533385ea];[0x0;0xcf6f4e52e6ffa;0x8dc8c469d1a06;0x77e446425e6e2;0x665273b1f9eae;0xf8802c4702835;0x282a0967df8ec;0xfbf099b79db8;0xe0b5f089a32b4;0xc4728fbd0195c;0x1a591c5f51f];[0x0;0xafecadedcef98;0x4ab6f4ade9335;0x397054450e377;0x2f4531cb3cec8;0xac2982cfe33ef;0x7bef1e234d1f0;0x135ecd1849a0;0x17379b15855d2;0xf517a3f4c37f3;0x8cbd87272df];[0x0;0x70a4df26c727a;0x68556822a700a;0x88ddaf51aae69;0xdb708e46c206;0x1046ba9b0da92;0x73c0954598d91;0x7deca01e633e6;0x75935525f20c6;0xe92e8e4a5a585;0x38c291e013f];[0x0;0x6c9f961038bb2;0x30ca1cb8f6b44;0x20406c6bfe557;0x523709524ae01;0xb55cb32b4830;0xfdec3aaccfb1;0x3ceb8e568e022;0xe406bc0768945;0x757080a1a2ad2;0xef62367aa64ca];[0x0;0xb0a041d11aa79;0xd4852c70ecb33;0xfba906a6670af;0x2b67fe03a2540;0xedf274cd5881e;0x753a9f0d1900d;0x620f8776fe7a8;0xcfd34302135af;0x57ecdd9faf630;0x58079fb3573]]);
 ((V [0xe6a80ff9b6ebd;0xd6fa992cd6e8b;0x91647e12854eb;0x9aa49982f6446;0xd6dc34123d599;0x370aa4a2e7a78;0x98697c506dc41;0xaa9465da18ea2;0x882a25b6786f2;0x62a3765f17a] [0x5843a7b6e067e;0x6bce52cecf788;0xfa6516afb4a71;0x824f9660af07;0x95dcd4a69631;0x9ae93e71fc0ad;0x5b11252bda7a4;0x865b2bc9fea3;0xab60124d68dc9;0x99e97038a3] [0x6b3ec1bc3689e;0x5845e462302bc;0xa612147d8cf9a;0xe3e11d7e8ec0e;0xae7966bc42a75;0x8c8267f0ef656;0x2fc11a3505a2e;0x4b8e30d8bf715;0x6eba46810a4c5;0x6186eb0e0b7]),[[0xd97e204a5b76a;0xa549c38cfec2b;0x47aa46067361a;0xaa738a71b19d4;0x5f0166990b613;0x7b37d4953ae39;0x5e27827fe6c7d;0xbdb955a476130;0xdbd7a94470e76;0xd2c5996aa6d];[0x1548cc797ab3c;0xbab9270668247;0xf461c8245f3ff;0x3f0434b4702b0;0xc4c610637d831;0x725ac6ef4618e;0x7ca12e808daad;0xa931dc9a791a2;0x2f5e5ec5c647;0xe0abcf4884a];[0x923406b50cc69;0xc19ee190849ba;0xde71a93c30e08;0x683617d63ca29;0x5d05a24641eb0;0x19f453aef3f1f;0xff83d8367c04e;0xa4413e1f40eef;0xb6c2cfa27ff8a;0x3aa7b9094cd];[0x923406b50cc69;0xc19ee190849ba;0xde71a93c30e08;0x683617d63ca29;0x5d05a24641eb0;0x19f453aef3f1f;0xff83d8367c04e;0xa4413e1f40eef;0xb6c2cfa27ff8a;0x3aa7b9094cd];[0x6e13f3ab11585;0xf4d89101e571f;0x22d475c3bfc67;0x49cfeef5b59f0;0x895418acd6dce;0xc6089bf6dd9c5;0x9b7056313aba8;0x26b97398002c9;0xa8b75493c318c;0x5c5123afa50];[0xa734d8ce695b8;0xc5e0960482b27;0xd18d52609f797;0xf53445beba8c0;0x3b71f7b6a6a62;0xac522af8687c9;0xe130d84f52f04;0x8278690278ed8;0x5a3e9158994bb;0x845aab98df9];[0x0;0x419de54da5e6a;0x7061a8d3589cc;0xcb961dfc341c4;0xece1d5c8a6c2d;0xbd34cf50716fe;0xb4262f53d47eb;0x8da975f694cb7;0xdd79390f49e16;0x7228d18ff4085;0x2445b364d99];[0x0;0xd4946464656d2;0x37d968c32479;0xeb432171a475d;0xaf2df8c71d0a;0xbe99d81d4eba2;0x26581dd83bd57;0x2d1da4c89b1c9;0x1c197f6a14ee5;0x8e090c8b3e915;0x304adc01b27];[0x0;0xb0a041d11aa79;0xd4852c70ecb33;0xfba906a6670af;0x2b67fe03a2540;0xedf274cd5881e;0x753a9f0d1900d;0x620f8776fe7a8;0xcfd34302135af;0x57ecdd9faf630;0x58079fb3573];[0x0;0xb0a041d11aa79;0xd4852c70ecb33;0xfba906a6670af;0x2b67fe03a2540;0xedf274cd5881e;0x753a9f0d1900d;0x620f8776fe7a8;0xcfd34302135af;0x57ecdd9faf630;0x58079fb3573];[0x0;0xb7bdb72ed02c9;0xce3ae9fd9e80e;0x6a150eddafb03;0x96bb7c8374650;0xb71a17dc4d921;0x510fc6fbd62cf;0x90787f7802dbe;0x631423ba94e82;0x43c0de9926e88;0xdf26c294df5];[0x0;0x4fb8d5a7353e8;0x946429410617a;0x8bd4cc91ddbb2;0x9f330cc0cc91f;0x32be0b0084d46;0xcb10390304793;0x1eed1224758d6;0x53543dfb75455;0x9362d40c6315b;0x22b9f48c0f7];[0x0;0x5ebc05575911;0x696f1041333bf;0x308d752c879d6;0x42565a5b8ef71;0x7108f4e3b74bf;0x7a31d86413e3e;0x5c62f22b1ecff;0xecfdd3da56ccf;0x270309e5a7c64;0x56913aa1640];[0x0;0xa2b3a0f6cc70c;0xa258ff60441f0;0xb99068ea1ec05;0x9926614b891c4;0x6ecd1c8cc7c86;0xdb96b0ea4edc3;0xaa27632601cbc;0x3b2b9913c22b2;0xde2252fb5742c;0x99fc461b1d6e];[0x0;0xa11306c196658;0x48602fb77f87f;0xefe3d0e5dccb3;0x6dc04f1592a93;0x9159a7c21ccb3;0xfe4890edd9d36;0x2c9c99f2e3748;0xc7c2bf6ed5a08;0x4bda2bcbb452a;0x3b4da3c2e8]]);
 ((V [0x5d0bd62ab875d;0xacddadc7217d3;0xaa51c6cb50202;0x8e600346374d8;0x429b5d8f25a52;0x59959e52310c0;0xb35d3b54a89f6;0x659fba249f26a;0x14b92c221de96;0x1b97859e1b5] [0xb1483b954f535;0xd9656e750b026;0xc79b9c45eb201;0x1650ce3c03c17;0xea97298a3692a;0x5a5c04efa44e4;0xafd699577220b;0x1525e63d29c9b;0x4e4b744c0a969;0x1895525d3a3] [0x98f7e4a771dc;0x18483a3d4cdeb;0x7080273002262;0xbe4ded1bfbff1;0xb0bec75aef977;0x4805d0fdcfbdc;0x8660f00cc9356;0x621cfc405d3b5;0xb39ca0041f9b3;0xc450884cbb4]),[[0xc14abe35623e8;0x5688e9bba7170;0xc6f83d5a2f0f3;0xec73920f3037f;0xc28574621967c;0x3befa4e896471;0x9c735650cd9a8;0xb91e66848df3f;0x2c2eaffdb0b98;0xac86893cbe2];[0x8818b48651fc5;0x506836d7afcf;0xe090b5043d80f;0xd981bb15378d5;0xd518822a0db10;0xf888ecc4e8c44;0x6cb25ad31721;0x127fb6d4fff0f;0x25f0ef2ca92ba;0x46f8e21f0bd];[0x6b3ec1bc3689e;0x5845e462302bc;0xa612147d8cf9a;0xe3e11d7e8ec0e;0xae7966bc42a75;0x8c8267f0ef656;0x2fc11a3505a2e;0x4b8e30d8bf715;0x6eba46810a4c5;0x6186eb0e0b7];[0x6b3ec1bc3689e;0x5845e462302bc;0xa612147d8cf9a;0xe3e11d7e8ec0e;0xae7966bc42a75;0x8c8267f0ef656;0x2fc11a3505a2e;0x4b8e30d8bf715;0x6eba46810a4c5;0x6186eb0e0b7];[0x882d0f5dc19a2;0x3056c755634ce;0x62c1195698261;0xa0cb9dc26312c;0x9c59d95f48ba;0x13bda5ea13603;0x254bcdc6e33b6;0x88b510bdff762;0x6d0dcf1eff91d;0x4cca419169c];[0xffeba528903eb;0xd4afbc1817b00;0x7dcf9bada55ad;0x38b61d52d47a9;0xcb52e49419256;0xe4cb46dad5641;0xe17f57e64e36b;0x89caa617007ac;0xb8e3200da999c;0xfa2ea08da20];[0x0;0xfe982990b80c8;0x690cf77392d81;0xe7ef5ac37ec86;0xe2866887e58e7;0x1bcb632154430;0xea3925c021bd5;0x5d2fea6f74a95;0xb87ce0dd04634;0x6f0ba663ff2ec;0x3c4f81588e2];[0x0;0x37d3b4f41a73d;0x93ed422b8ea38;0x59fbbde1850e3;0xb64f62edc9b5d;0xb975f744a3021;0xcbe4fee4e203e;0x53c28cbbe4caf;0x119ff394432c6;0x6e2a08b3ffcd3;0x41b9e6d4d0e];[0x0;0xa11306c196658;0x48602fb77f87f;0xefe3d0e5dccb3;0x6dc04f1592a93;0x9159a7c21ccb3;0xfe4890edd9d36;0x2c9c99f2e3748;0xc7c2bf6ed5a08;0x4bda2bcbb452a;0x3b4da3c2e8];[0x0;0xa11306c196658;0x48602fb77f87f;0xefe3d0e5dccb3;0x6dc04f1592a93;0x9159a7c21ccb3;0xfe4890edd9d36;0x2c9c99f2e3748;0xc7c2bf6ed5a08;0x4bda2bcbb452a;0x3b4da3c2e8];[0x0;0xb85f2974e788e;0x3b6fae854e16d;0x1474467c04ee8;0xd51f357b8f64e;0x31f8d947a2bdf;0x8a2fba5d5df24;0x3efae7edb8385;0x54a9a12f6c0a0;0xbee6288b985fb;0x5c88dd012];[0x0;0x936506b4f8772;0xd01cf1849e5e3;0x7a1115c307ae3;0xdc81c5ca638cc;0xf64d61b12bdd8;0x7e03d0725994e;0xa122755e884ff;0xcf0a923dc4b63;0xf1bc926a004f;0x26018f00c1f];[0x0;0x8b6e2d5f6e6be;0x63ba2e47eae46;0xb03cba739dc24;0xd705ecb9781a1;0x1830eb59667ae;0x5de62a6c5c8bc;0xcb703338386c3;0x7d2d39498dc1d;0x7a2f6a8b9fd3b;0x7a641b1c93];[0x0;0x2bef235a494d7;0x4244cf68d1fc7;0xfe0a78a28939;0x641c0495de0d7;0x787db7dedc9fa;0x75a28c5e03001;0xf692f51041884;0x84b11b2d38dfe;0xdd5f2dbb91f3;0x18a716f4b358f];[0x0;0x7b9ef3072c373;0xd4d0543cf3b37;0xb7b615658c849;0x107e772231c0f;0x4a08dc48a820e;0xac77441ec70e6;0xe0aed46ffdcc2;0x1f59c5539f877;0x3bc4a5f63f075;0x2a64c982cb]]);
 ((V [0x43b7f3f8599ae;0x94ff665bf5e2d;0xa32122c5e275e;0x57ba548b8ae78;0x9cc9a651e2361;0xd0b9bc0870ea8;0x356fec7db4a9e;0x212d6adf1702f;0xf1ec299c962a5;0x2f36434ac6e] [0xe9294f3ae7b6f;0xa49974028a0e5;0xeb5b16a773e6;0xff3d6eed24a98;0x71d64db3fa993;0xe10112d4fad0a;0x449b0ae7d1b58;0x6bd95d4358b72;0x79924e6aa24d8;0xe1e8817994d] [0xa8e49f80c2d43;0x4c70901ea98b1;0xeb871dc5a0c92;0xde5cfbc909505;0x8b446106ad742;0x222c64cb9590a;0x39a02386f6ec0;0xdcc548f0f699a;0x960bad34706b4;0x6e07ee05f5f]),[[0x5950b7c45d18c;0xbaaf4f9f06ee2;0xd3f789948c56b;0x2c1367c534484;0x9219d91c42ad0;0x6e8394a42c1eb;0x3817855d1d83e;0x9fdbf38976767;0xe7c1ba5ef718a;0xc5b0a0ca786];[0x14847629c582c;0x17e2860438571;0x1c51be4946848;0xdd22c7ccd892f;0x98b0bd261902c;0xa26c155c3c0e4;0x91aa825e7a313;0x2968ca1518cf4;0x6e3ab74d4c69b;0xad1c0bc5361];[0x98f7e4a771dc;0x18483a3d4cdeb;0x7080273002262;0xbe4ded1bfbff1;0xb0bec75aef977;0x4805d0fdcfbdc;0x8660f00cc9356;0x621cfc405d3b5;0xb39ca0041f9b3;0xc450884cbb4];[0x98f7e4a771dc;0x18483a3d4cdeb;0x7080273002262;0xbe4ded1bfbff1;0xb0bec75aef977;0x4805d0fdcfbdc;0x8660f00cc9356;0x621cfc405d3b5;0xb39ca0041f9b3;0xc450884cbb4];[0xeb67d1075643c;0xbd9928a792f84;0xb34f6c370ffb5;0xf54f45ee8cca0;0x1b6a20a05eef2;0xa2363723b373b;0xc22ff8a08d665;0x980f9060d7db;0xfa760ac5fc2f7;0x2415797caae];[0x291ca5226f3f1;0x5a495d5ca55ec;0x6902521236892;0xe7d381de4bc8e;0x7d469c85ba139;0x35de38889a9;0xcf7a89bdeccae;0x1fe7d10f0b518;0x73c4ac87503a4;0x890692488b2];[0x0;0x998d69dd6c72c;0x1ce1616ade6d2;0x9cc3e6b2f144;0x4e15a37f3d556;0x2050e5aa48c32;0xa66f3d2883add;0x3114095eff382;0xfc9d68bd9827d;0x93c5774fb93bf;0x796690b609f];[0x0;0x3f9f5568e86bc;0x3d05856476357;0xffbdd345ecf7c;0x74d4052b6742f;0x6ea5f82ac1821;0x7c16ea9ef9233;0x32d1abec6f4f0;0x6a4f408d4799c;0x7a275b9139a64;0x97996b8e59f];[0x0;0x7b9ef3072c373;0xd4d0543cf3b37;0xb7b615658c849;0x107e772231c0f;0x4a08dc48a820e;0xac77441ec70e6;0xe0aed46ffdcc2;0x1f59c5539f877;0x3bc4a5f63f075;0x2a64c982cb];[0x0;0x7b9ef3072c373;0xd4d0543cf3b37;0xb7b615658c849;0x107e772231c0f;0x4a08dc48a820e;0xac77441ec70e6;0xe0aed46ffdcc2;0x1f59c5539f877;0x3bc4a5f63f075;0x2a64c982cb];[0x0;0x5fe028adb055b;0x1818dc3e1abd4;0x40ebca90c2790;0x6ec7ebe4283ca;0xfdf19a15019c8;0xb8962f525531c;0xfb8263166dda3;0xabe51e21c02f;0xf87b1d469bfcd;0x25c568a75e];[0x0;0xa6596ad377d68;0xbbd1088eb804e;0x2ef539994e613;0x1212182ec1452;0xa5b4de12f9fa7;0x1ca057fd4deec;0x794121f618864;0x13eb33283b1;0x509e04fde2f89;0x2f94fde400];[0x0;0x8f559677a932;0xe7d254103aee3;0xff7bbf859a2b5;0x7aa7811345185;0xc5c9d4c97fe8a;0xd4bac23fcb639;0x7adc6f40fd480;0x2d75d0579a71c;0xd03e08664907d;0x1fecd794983];[0x0;0xd3c18fc4f1cde;0x1d0062d0ef777;0xf5d23e2c8dc8;0x54623d92a76dc;0x2ff3529edf549;0xa794c837dd1e0;0x3b64294703f37;0x90ec77ddb02b0;0x7a9d0d558a9f3;0xe231a71bbe145];[0x0;0x89a9103e08359;0x58658e0627455;0xd8d8f513ebc27;0xdb3bc536bab2b;0x83f70b584af57;0xfb69066efb26d;0x6bf344ef492db;0x5594081cf5e13;0xe110b6a3d90fb;0x29a99232789]]);
 ((V [0x821fd12c9272e;0x7952f262aad4d;0xa246b60d2c555;0x402cdf1ae1456;0xfd09787e6047;0x618c62c370b9f;0xa7db008c23d7d;0x5baa07caf483e;0xdaab8af41db21;0x60bb6758a5e] [0x5c98c654c77f0;0x864febf446ba5;0x31f95fe8f2b68;0xdd2ddc2a2974;0xd9991969ae1ed;0xe5736255f8bec;0x67820f706fbc3;0x981fbba9fd4d9;0xcf89d21bdc883;0x19362ec26c0] [0x2f539a2190545;0x2bd22ddefb60f;0xdc2e02641b4ab;0x88c82081d1bf3;0xbd6510f95d708;0xbd89cb7f293df;0x9728efa0ab95;0x4e47d7af96086;0xe91bcd04f469c;0xa16ed6c7e4c]),[[0xeeef5c5b6dfb3;0x9ed7af766eac5;0x36d6679c39e1c;0x37e494d1d7af4;0x242c08149e4cd;0xc61046e1cb6f4;0x32420d185dea1;0xfaea00c12103e;0x4e87bc5400d55;0xfc010674c03];[0x72b8db395fe49;0xb87ff12a38157;0x930edd7a6ae74;0xee881b910c902;0xa6e7a939a77eb;0xc9f8ce8e0fd65;0x98a01f75a5449;0x3fef251e28d96;0x3ca6cf677caf9;0x7107e2f8d4d];[0xa8e49f80c2d43;0x4c70901ea98b1;0xeb871dc5a0c92;0xde5cfbc909505;0x8b446106ad742;0x222c64cb9590a;0x39a02386f6ec0;0xdcc548f0f699a;0x960bad34706b4;0x6e07ee05f5f];[0xa8e49f80c2d43;0x4c70901ea98b1;0xeb871dc5a0c92;0xde5cfbc909505;0x8b446106ad742;0x222c64cb9590a;0x39a02386f6ec0;0xdcc548f0f699a;0x960bad34706b4;0x6e07ee05f5f];[0xff28164a1ed22;0x7ca0dd0cbe43f;0x4b6c90e8114a5;0xcd57eca4889b7;0xc6ba3949507d9;0x5541145b5b046;0xbb8b9d7393ef5;0x9fa62e8c3af07;0xa182bfff0536c;0x6015bf7dfb1];[0x7390c4ef41128;0x3bdf141d79d17;0x47a24c92599cf;0x21302eec83f4b;0xe02d6ff057012;0x74b7ba32b4d1e;0xdd14820211554;0xa048f691ede8e;0x9b240f687778c;0x10f2237ad9b];[0x0;0x1cd83ea12dddb;0x9046e0d5b55bf;0x91216d29271a0;0x58498500f8b52;0x451c539589fc7;0x9bfcebc6a45f4;0x66d05c42fede;0x8efbc7c88439f;0x925f240e8db27;0x440b018f301];[0x0;0xbfd44015016f0;0xcce6b920056c8;0xda85c8663b39;0xa67b212c79457;0x1fba048186a1e;0x67ca19c4b8388;0xd590537b40e13;0xdc985da8b7246;0x1fb5c9f65858;0x6c503f1c29f];[0x0;0x89a9103e08359;0x58658e0627455;0xd8d8f513ebc27;0xdb3bc536bab2b;0x83f70b584af57;0xfb69066efb26d;0x6bf344ef492db;0x5594081cf5e13;0xe110b6a3d90fb;0x29a99232789];[0x0;0x89a9103e08359;0x58658e0627455;0xd8d8f513ebc27;0xdb3bc536bab2b;0x83f70b584af57;0xfb69066efb26d;0x6bf344ef492db;0x5594081cf5e13;0xe110b6a3d90fb;0x29a99232789];[0x0;0xea586eebdf709;0x663c7517d446f;0xb832c971ce143;0x8060a8fa5ad5a;0x1d5a8496e6ef9;0x19e6593685e08;0x6d040ac6c05e7;0xfe1dce9d9f6e7;0xc83b7c3091d25;0xc75a86c2a57];[0x0;0x1be17dda34604;0x116a261c76744;0xb1a5df658bcdf;0xcbcca0395b135;0x554de0a4c2bd4;0xac86c8a3dbb4a;0xa1e74561ce95c;0xad8fdd239241;0x7f425357f3b1e;0x8b4f835ea4];[0x0;0x6ab1a1593b50a;0xb7e7895551d40;0xea51eb278c810;0x760871282095e;0x7f5d5bf2de62a;0xecf03a58dfc3f;0xbd6fe720ba16c;0x1a977e60603d0;0xe0ac06293c3df;0x2ab5b3816bd];[0x0;0x81562a0401239;0xc1bcf4788ed73;0x37fec17160897;0xa499a332e0a98;0x4426249d508ea;0xf0c91edc448a1;0xaf708eea80a1a;0x330b7ebd51cf8;0x83d998f893d70;0x1944433fb5094];[0x0;0xe5eeb42eb254d;0x48ea248ebe030;0x370b5139a3bf9;0xe78e4544a41a1;0x54ea5ffd15f38;0x169620f39fad6;0xd813d2b70bebf;0xe6f62562cff4c;0x16b1fa8cf2174;0x986c64a985]]);
 ((V [0xb984dfdeaba13;0xaed921f63383a;0x7ff8d33fe8353;0xedaf5f4760db;0x4559d126372e4;0x95859951bc943;0x84d9f10e6a56a;0x1d5c5a4d6111c;0xc33de44b593a9;0x8690323a935] [0x80a647c2b340e;0xe71b51db7c32;0xd33dc48082ad5;0xb00b1a07b2634;0x6445963727463;0xe45c43ca71f3a;0x3aea056a80dfe;0x94a194c9c289f;0x223ad0a972f42;0x38c31a8a84f] [0xdadbcffbbb533;0xa211db0486972;0x2dd9b4ca2cfc3;0x6d8d4ad108bf0;0xb81701ec9a3b7;0xcf55b0215a1fd;0xc896b2dda4094;0xd4364d9b6b43a;0xc59d242807e90;0xd96f1ef6072]),[[0x7ffd0026e8524;0x6303230544d9a;0x8226aee090380;0x734c8b4b78fad;0x27ce64db1dfb3;0xb844bae6d43f4;0xcc0910dc2b0be;0x7cd5040b328fc;0x6fac3fc0924d8;0xff1ac0094bd];[0x5545c6f2dae19;0x19a1743ae9cb4;0x971fda140c564;0xf5cb1a329fc9e;0x9d8fc70fd2e7b;0x957b1dd930199;0xa35953d045d38;0xd2bfc9f5ade9b;0x442c141c64848;0xf78d475e81e];[0x2f539a2190545;0x2bd22ddefb60f;0xdc2e02641b4ab;0x88c82081d1bf3;0xbd6510f95d708;0xbd89cb7f293df;0x9728efa0ab95;0x4e47d7af96086;0xe91bcd04f469c;0xa16ed6c7e4c];[0x2f539a2190545;0x2bd22ddefb60f;0xdc2e02641b4ab;0x88c82081d1bf3;0xbd6510f95d708;0xbd89cb7f293df;0x9728efa0ab95;0x4e47d7af96086;0xe91bcd04f469c;0xa16ed6c7e4c];[0x47beae94dbe5f;0x110448d96a695;0x1daa7b07e244b;0xa262f29babc4a;0xceab9f02fc28f;0xf1bb8218ad7bd;0xd84570f507daf;0x7f9bb1534d3a2;0x9ee6ded76f073;0xa3e7e06969b];[0xd87185dfefbb;0x89d2b617f61f;0x79755f0c2a119;0x53682796f4054;0xcee4280cd6bec;0xa3bf9bc0829db;0xcb13e2db3df88;0x532418a260af8;0xa5453544f57d5;0x53a566f5182];[0x0;0x4df51e2e0fb34;0x147c405313ab5;0x644fc0f3a6e4a;0xc458f1ab79e6;0x9c4186ca702c;0x466f5878ece15;0xa2835e783f315;0xa72c4deff655;0xbc865b1c550a6;0x63d474c1347];[0x0;0xa04f7fc53ce8d;0xccec8edc9f085;0x8143f076f84cf;0xaab4c4285e2b4;0x343d1c2645083;0xe661c718e779;0x2054494336131;0x3ad4b6eac322c;0x5827dc87a53e5;0xa0de464beb0];[0x0;0xe5eeb42eb254d;0x48ea248ebe030;0x370b5139a3bf9;0xe78e4544a41a1;0x54ea5ffd15f38;0x169620f39fad6;0xd813d2b70bebf;0xe6f62562cff4c;0x16b1fa8cf2174;0x986c64a985];[0x0;0xe5eeb42eb254d;0x48ea248ebe030;0x370b5139a3bf9;0xe78e4544a41a1;0x54ea5ffd15f38;0x169620f39fad6;0xd813d2b70bebf;0xe6f62562cff4c;0x16b1fa8cf2174;0x986c64a985];[0x0;0xbc343024bdc57;0x12669ad094efc;0x5c3f2dd48ffff;0x1221202f8f9c;0x6c62d2b3eba2e;0x90bd7bd8d8b8c;0x4a5718ccf94e3;0x7791aef44723f;0xa90842d7d85ee;0x27ba099bba];[0x0;0x9cfb2984c532f;0x9faa54bec83af;0x4b17af32e877a;0xe13faf2643f02;0x65e4faff8ec9f;0x3eb0c5c044f79;0x3f95a9cbbbbf4;0x40d0215a0aaa2;0xd1d79ab93a546;0x248d16b2a1a];[0x0;0x9b954366f5f7c;0xa16c59890d4f0;0xc9a9c8a96d9cb;0x6201932297470;0x6573343a9e63b;0x6ec9461cc3408;0x3245fbf71182c;0xb4be94fcf0eb2;0x87507b69d3cd4;0x821f6365d99];[0x0;0x4d5cdf9fb84a1;0x15ded83dc589f;0x347165d6a1d9b;0x15bb60a2646b2;0x365d8510c8973;0xfaecf0bbbb895;0x58666b5213adc;0xc75b5cde93864;0x7e0417691017d;0x38c4fa132b21b];[0x0;0x37874f0b13971;0xbf554db038af2;0xb7aabe986bb23;0xc29b7ae7a6ada;0x5f48c663a8ba0;0xb2ea8a6438073;0x45c3a7fda4772;0x29e3e12106a78;0x11215498a7ce6;0x1dd618c6879]]);
 ((V [0x9d27b43dc1a67;0x21c36a4c63873;0x6725a293b18c8;0x478bb73aeb751;0xbb92655b5f4de;0xd477e50100e3f;0x572df424e55f1;0xbe04702a44545;0x4f2f028a97ad3;0xfb1481fef66] [0xedcb2bbba2787;0x95d52139728b5;0x39fcbc87fa680;0x42261d5e215c9;0x2a2652ceb9030;0x97eddf0e5024c;0xb05b907a05214;0x4457174a17dd6;0x35f587d28cf71;0xc25feeccbe0] [0x8f9c7b6bbf73b;0x6a2747689534f;0x843a917084eee;0xa748a61517862;0x5ccc91bf5fdba;0xc79da168bd5f8;0xaa6a8dfc48619;0x23afbfd25039d;0xa9a61eb70ad51;0x4e6d71a9bb6]),[[0x7d2d3861c4536;0x2d2c3b881edd9;0x23e83af4084fb;0x3c842230847ca;0xda7b777eb3ef8;0xc74c108a4ba21;0x8398440f00a43;0x491f18a125321;0xb77702a5e0de0;0x8b480e2ac32];[0x50c51bb84f93e;0x6115f79c7ed0;0xf122985e15681;0x61a310afea7b6;0xa31f2e2f7e6e8;0x2b5f23b432746;0x4130afa4d2e57;0x92bf6d2299d8b;0x5a35ac05647f;0xace345df3cd];[0xdadbcffbbb533;0xa211db0486972;0x2dd9b4ca2cfc3;0x6d8d4ad108bf0;0xb81701ec9a3b7;0xcf55b0215a1fd;0xc896b2dda4094;0xd4364d9b6b43a;0xc59d242807e90;0xd96f1ef6072];[0xdadbcffbbb533;0xa211db0486972;0x2dd9b4ca2cfc3;0x6d8d4ad108bf0;0xb81701ec9a3b7;0xcf55b0215a1fd;0xc896b2dda4094;0xd4364d9b6b43a;0xc59d242807e90;0xd96f1ef6072];[0xc243da2e9c069;0xc1c6a063593c8;0x8f846d1b4c0a2;0x747dce6a6c922;0xee5413ebe219f;0x7aa4ccc7d38f9;0x79ba99457dd0e;0xd9c98d00a2772;0x5e5db692460e8;0xb26f77bec80];[0x8e814189b369d;0x444abf166eb07;0x619e2b42c95de;0xed2542457de94;0xb4cb1a439c548;0xb0ba56ec5ee4c;0xc776165f55148;0xb8f5e021f7618;0xa745a42e10396;0xfa73ce2074c];[0x0;0x6261934bad076;0x5a67a6e291409;0xac0bb9e47aa11;0x4b82c17e94f24;0x4f1d05a8fed39;0x32ad896f9c9e;0x8569d9d53d9dc;0xd2c17095ace4c;0x1f7f0eabad29c;0x8675fddaaea];[0x0;0x6ca089946dd5c;0xa791f340f19d8;0x17395d998b179;0x36dc9562c90a0;0xf51bcb808eff0;0xeadb01bbddc9b;0x7c345aeac77b1;0xb83878899d44;0x831b18e36b880;0x764c8918b0c];[0x0;0x37874f0b13971;0xbf554db038af2;0xb7aabe986bb23;0xc29b7ae7a6ada;0x5f48c663a8ba0;0xb2ea8a6438073;0x45c3a7fda4772;0x29e3e12106a78;0x11215498a7ce6;0x1dd618c6879];[0x0;0x37874f0b13971;0xbf554db038af2;0xb7aabe986bb23;0xc29b7ae7a6ada;0x5f48c663a8ba0;0xb2ea8a6438073;0x45c3a7fda4772;0x29e3e12106a78;0x11215498a7ce6;0x1dd618c6879];[0x0;0xe1deb1df088cd;0x8b9a64e83b1cc;0xb261333bb4190;0x6b38fad9f7c4b;0x7746d5482a954;0x702763d181ab6;0xe57d06e2c81a6;0x2c1a4da8abc1f;0xe672d7987d87;0xc95f04e0bf];[0x0;0x71e6bd123d2d4;0x51a93f74a72b4;0x4f17f2b402fb3;0x13f0eb877e059;0xbcc5ed2852498;0x8a7cab7dbdde5;0x300ff4d997a84;0xce1ee8f9e9429;0x53cfe28d8bb2f;0x46bb45cdde0];[0x0;0x622108b2f7875;0x9c540523d66c;0xfe722500aa7a5;0xdaf04ca6c26d5;0xfbb5f3f06f8d8;0xc32248c50db0e;0xb12443791c08e;0x6d8930ded607a;0xc6bd9d841bfa4;0xa990af0e0c2];[0x0;0x29241e2026535;0x97162f554bf03;0xa10036075bc5e;0xfd0e88c03d3ea;0x4bb8df9fc32dc;0x2f392c504716f;0xd7e430103137a;0x3e3573c637e45;0x114cfbb76cd6e;0xc29f09b6fb171];[0x0;0xa57649ba8a13a;0xfbc3e99001a8c;0xc3b8a7b63f359;0xcbb547b9f2c7b;0x59789372d7c02;0x2e7a3a0b8c9b5;0x538cbafb9e9d2;0xbc01b356b01dd;0x5170a7f2389da;0xbea3a15553e]]);
 ((V [0xf075a34381c83;0x9ce99a8ed082b;0x46b4fe2318153;0x61bd2b6118e1c;0xa40e9e28dd980;0x27df3342aea01;0x13c633deedc6a;0x4bf376681f458;0x7a95b0e3ad0b;0x81b7d83b4f3] [0xcca1d76216482;0xc7e9a4d831ff8;0x5f417be89e45d;0x8498e385de100;0x2d0ac29b517ba;0xc2ce3418fcc74;0x4e8dc38f0fdad;0x973c9dddf009;0x8deaf80d5a85;0x522bf4b7f3] [0x9293a4dbe1568;0x698cd7c22aa49;0x59df5a3900d83;0x3d429453dd635;0xdc108341c49b1;0xceafe6fde18f0;0x9fe65d9f24615;0x7738370ed12d7;0x3cd708e5c18ac;0xceb0d6527fd]),[[0x4ca8c973e0c0a;0xf4676ee92c6d5;0x314bb5add461d;0x2e309f9a98a52;0x1ab23763e69ce;0x8d5158b3cf36a;0x9407644bffd9f;0x1ad8b27344475;0xefac6101411bb;0x3c9109f8353];[0xe4cbffb6b8027;0x9fc4fc813d24d;0x3c986f8c02acd;0x6070274bcf3e3;0x8a1d4d6a2bc78;0xbc4639d3dd963;0x678a6cd1acc66;0x5cc98659c8bb0;0xfcae9306a470b;0x59d218d813a];[0x8f9c7b6bbf73b;0x6a2747689534f;0x843a917084eee;0xa748a61517862;0x5ccc91bf5fdba;0xc79da168bd5f8;0xaa6a8dfc48619;0x23afbfd25039d;0xa9a61eb70ad51;0x4e6d71a9bb6];[0x8f9c7b6bbf73b;0x6a2747689534f;0x843a917084eee;0xa748a61517862;0x5ccc91bf5fdba;0xc79da168bd5f8;0xaa6a8dfc48619;0x23afbfd25039d;0xa9a61eb70ad51;0x4e6d71a9bb6];[0xd64e7fab1078;0xd9b0674160942;0x7d5efd685472a;0x553ce681d5fe9;0xab762d6e6098e;0x5687b3023ae8d;0x28b141a17382e;0x8490a7a6f8299;0x76f75b0ea7ed;0x1a679b33994];[0xd76717bc06fb0;0xc614953fdc90b;0xbf397223ae3a2;0xb3340c9f93f9;0xdea71ffbcb2ea;0x65be86d1a2ad5;0x3ed92b3039438;0xd838deb2d0917;0xf53f1d55b9f1d;0x3f6a7da47a6];[0x0;0x491d8317b1f6a;0xff6d79026b35d;0xd07b1ba34640d;0xf6d783ae4c883;0xb390bc280113a;0xa440598014549;0x7f0ce84ddbad9;0x22ea127721918;0x6575b791e2096;0x307fdc957ba];[0x0;0x49ae726671ea1;0x2fbbeab254f25;0x859e02314d5ca;0x5d885729ecf89;0x92a31cd1e0c47;0x63cd295d02fe2;0x654e3a073a631;0x6efa42750373;0x52b71ecd2e0bf;0x128e15af0c6];[0x0;0xa57649ba8a13a;0xfbc3e99001a8c;0xc3b8a7b63f359;0xcbb547b9f2c7b;0x59789372d7c02;0x2e7a3a0b8c9b5;0x538cbafb9e9d2;0xbc01b356b01dd;0x5170a7f2389da;0xbea3a15553e];[0x0;0xa57649ba8a13a;0xfbc3e99001a8c;0xc3b8a7b63f359;0xcbb547b9f2c7b;0x59789372d7c02;0x2e7a3a0b8c9b5;0x538cbafb9e9d2;0xbc01b356b01dd;0x5170a7f2389da;0xbea3a15553e];[0x0;0xb0f011b5bf57f;0xb91093f0cefd7;0xa46aa313e60ab;0xaf8fb605e8f17;0xb018c10ee5671;0x139d84c49455f;0xf4a151d191a16;0xb5c43de200929;0x3781089103e03;0x939589e16ab];[0x0;0xb63806875e037;0xf85ecdfe9536c;0x74039beed99dd;0xe1cd2de8694dd;0x404800d0937e5;0x1613d4525369d;0xb5c4bd0b0a007;0x261bf0f589823;0x366687f90f996;0xf641388e890];[0x0;0x9268e445231ee;0x1df3d99e64fe4;0xcaa64006bc336;0x9ca274f173b88;0xb4d9d4ae62c2e;0xeae44b7aca784;0xf02160fa3c7;0x1b98518880fed;0xc8a646696612e;0x2d835f92b88];[0x0;0x3e8d68972c235;0xed0d8d10fb09f;0x2acf53e7e9f21;0xae3d305cb637e;0x54745c78a9907;0xba1233a99559d;0xa6f17467fea53;0xae58360c30bc1;0x2ab12948f1a24;0x52614bf48ecf];[0x0;0x66c6db12dfdf2;0x1363548c1df84;0x34e1f23510694;0x7137a272fe95d;0x10b831fbd440e;0x333286fcd7336;0xc921b8ef5bf40;0xb47de3c2357b1;0xfdef1dc3c9ddb;0x29a32924c0]]);
 ((V [0xce9776c419026;0xb678896aca7f4;0xa54b1ccdfdf20;0x38077ea3e32fb;0xfa3af265b13d1;0x9f4915a587a0d;0x3ba8b80e053dd;0xb20058b3c773;0x12a4825c25710;0xc04064d3d3e] [0xc6bd0f72fc715;0xa288099b37e86;0x10f7471db1e3a;0xf3ff368159dc1;0x6371d2bfe3062;0x2ba59a4c49960;0x746d05558b4b;0xb0f22072c99d7;0xf52de26bd60fe;0xb04f4a4ba20] [0x2f254d03df209;0xc416bbb887c69;0x31096acd94622;0x3407b2e89c6cb;0x2956c8ba9568d;0x3e690d2f362d7;0xbf2786c258b9a;0x1dfd4d484f789;0x97ab03874a1df;0x6a2e2b296b6]),[[0xb3bac986e75b4;0x734c035ddc15d;0xb37a0aa84ff34;0x4e0866cb3123c;0x909c32e56022b;0x6c6be6a26b25f;0xe3a5ff59112d6;0x3954220893d13;0x4a195de8aba6d;0xa2c112d8224];[0x9812bb3900d95;0x71fbbe85581b7;0x93ecd7fb7a2e3;0x857aca4f4071c;0x56107c82cdbcf;0x45539a6e3f7f8;0x9dfbac40fd018;0xad4a70847d455;0x54d561efde27f;0x29aa11cde4c];[0x9293a4dbe1568;0x698cd7c22aa49;0x59df5a3900d83;0x3d429453dd635;0xdc108341c49b1;0xceafe6fde18f0;0x9fe65d9f24615;0x7738370ed12d7;0x3cd708e5c18ac;0xceb0d6527fd];[0x9293a4dbe1568;0x698cd7c22aa49;0x59df5a3900d83;0x3d429453dd635;0xdc108341c49b1;0xceafe6fde18f0;0x9fe65d9f24615;0x7738370ed12d7;0x3cd708e5c18ac;0xceb0d6527fd];[0xee06665bad2ea;0xcd90c5ac451e3;0x610ddb6f1364f;0x161049131d9e2;0x25b8228da3249;0xffd8994ccedd6;0xb22cb46add094;0x9fc156dbaa44d;0xda75ddc212c9e;0xa378e07fb23];[0xaa0c54dd53873;0xa46af8d912fd3;0x32defc8c66c93;0x6f6a813c22d3a;0x305859f52a986;0x457b012170a22;0xebcef7d61ff83;0xd8919a8d3007;0x7a5f842dcb5e1;0x8631314e328];[0x0;0x9276e374096d4;0x330bb01e89210;0x59945a9a2bcd8;0x9b8f358fe9061;0x1773dfbc4d160;0x424355fad184e;0xe67674aa2858c;0x911775abd288c;0xf683c8594cdfd;0x7fd13860561];[0x0;0xc488c8b91f81d;0x8c0625e619335;0xe5442827ec887;0x777117d44a14e;0x67818b105c8b2;0x304ce0576b487;0x82c467c5091d3;0x32cfe175700d0;0x7ef2df560edae;0x8367ca28b90];[0x0;0x66c6db12dfdf2;0x1363548c1df84;0x34e1f23510694;0x7137a272fe95d;0x10b831fbd440e;0x333286fcd7336;0xc921b8ef5bf40;0xb47de3c2357b1;0xfdef1dc3c9ddb;0x29a32924c0];[0x0;0x66c6db12dfdf2;0x1363548c1df84;0x34e1f23510694;0x7137a272fe95d;0x10b831fbd440e;0x333286fcd7336;0xc921b8ef5bf40;0xb47de3c2357b1;0xfdef1dc3c9ddb;0x29a32924c0];[0x0;0x8c520d0875016;0xd9c3565f192e;0x90f15645ac41;0xe84dc75b71970;0x555c7a19de41d;0x4232f1b195388;0x224ed563379bd;0x2b81886daa74f;0x76c7f198364eb;0x1a603051f];[0x0;0x6483e704c30ba;0x70f362d8f5252;0x38037dd6ab521;0xa1b60e6b497fc;0x2d262de28fa95;0xdbed4f0267621;0x4b85485332418;0x1ba8a51653b5d;0xe363985fc6a3d;0x41bacbf2a13];[0x0;0x6673175838aec;0x2bebdbe77ba81;0x3e5711db7fa59;0x9c306d318f80f;0x2309d6893aabe;0xe8e7826e1f5f7;0x532ce3caad7d;0x6c9e924a89727;0xa176c8c053aa6;0x1f4a0847c7a];[0x0;0x4c15aa414bf87;0x946b9fe23b64e;0x48d4a216d760;0xf13fe87310368;0x3988a1bf3de6;0xb6481c1753b32;0x732af6dedc73d;0xf1f92415de396;0x819cbcbc0ff1d;0xb0e2e7c21d2d3];[0x0;0xa0ec4c97d0043;0x6533b072dcd68;0x27043dbe3f976;0x7ea3fe40805f2;0x64364ea88d4cd;0x85c25c3977827;0x8778d6e252c31;0x6e0cfd72fba60;0x36ab392278bd;0x8467d0fc28c]]);
 ((V [0x76ee7c8c5c349;0xd72c48a903db6;0x7ef50755fda5;0xf165432e8c8ee;0xe42c0a819dad6;0xb211c947653a5;0x4e8781be8b948;0x54418f60b50df;0x73996b878fb20;0x89336a511e3] [0x85a2b87efcc48;0x9fcb4ea9f8fa2;0x1f82de70dd19d;0xdd91ad06066ac;0x9598827e67539;0xd99fbdf918fa2;0xf510e6a379635;0xf340f23e963d3;0xffe3e7e131ba6;0x3d9950f1282] [0xa9aed856ef3a8;0x30b0ae3e8c1c1;0xeee2fb0dbd2e7;0x9b061354b74af;0x2a18c2dd5a883;0xbc1fabef8751;0x7724ab590acde;0xb0eab85c75e54;0xf4008cb5abf41;0x94089bf1054]),[[0x879b5730612d4;0xc52f166cd3549;0x9be40eda3588b;0x683e385dda7b7;0x47cdef9b6a630;0x29a89a8c8c111;0xf035292c91805;0xadc3782c5afd1;0x51a450584f9cf;0xaaf003e67cc];[0xc7b948f05bf81;0x741c34155fa9d;0xef44db971da4a;0x5519b610e1901;0x7c2ba7e69cea8;0x8b48dd454fe04;0x9680e29152692;0x5c584d23a75e8;0x1a1276a42f8ad;0x23cd28dd5d];[0x2f254d03df209;0xc416bbb887c69;0x31096acd94622;0x3407b2e89c6cb;0x2956c8ba9568d;0x3e690d2f362d7;0xbf2786c258b9a;0x1dfd4d484f789;0x97ab03874a1df;0x6a2e2b296b6];[0x2f254d03df209;0xc416bbb887c69;0x31096acd94622;0x3407b2e89c6cb;0x2956c8ba9568d;0x3e690d2f362d7;0xbf2786c258b9a;0x1dfd4d484f789;0x97ab03874a1df;0x6a2e2b296b6];[0x132e1866bb8e1;0x9689ecd4b31e6;0x880c87239df13;0xfc1b26335baee;0xf6e1de30695af;0x20bc69028d70b;0xfeb778a44a569;0xd92e1954b00c;0xb33f465c2f739;0x759c58a9511];[0xb48b3089a0468;0xdd924740ac8b7;0x673854737fb36;0x58fe8fdd85e13;0x8549c9b6338f8;0x6a8c7442c26f8;0x97c969ed08129;0x4ec56b8e5c5db;0x66d3304800174;0x8ca079e484b];[0x0;0x2d4a81c021b24;0xcf62be4c4d815;0x9d3e414076df2;0x175168b2cdd38;0x817928e400506;0x67b15c0da37f3;0x1ac2c3c826c37;0xc7557d0a2d587;0xf276553b8328f;0x41a969afb99];[0x0;0x8596b99e2fa75;0xf5b3f472e5c08;0xd2aee81ed0e48;0x7677c3376c083;0xa98c919006ab0;0x9f13fd783022c;0x528e1d9aa9927;0x8c742deb23c71;0x51f295feb50c0;0x46e635901be];[0x0;0xa0ec4c97d0043;0x6533b072dcd68;0x27043dbe3f976;0x7ea3fe40805f2;0x64364ea88d4cd;0x85c25c3977827;0x8778d6e252c31;0x6e0cfd72fba60;0x36ab392278bd;0x8467d0fc28c];[0x0;0xa0ec4c97d0043;0x6533b072dcd68;0x27043dbe3f976;0x7ea3fe40805f2;0x64364ea88d4cd;0x85c25c3977827;0x8778d6e252c31;0x6e0cfd72fba60;0x36ab392278bd;0x8467d0fc28c];[0x0;0x245b191747a68;0x8eecc58de119e;0xc8ac9f6003f56;0x5d8c9147a0f4a;0x3a5c3417297b2;0x16f2d86e57bce;0xf07b3b7ae6d8b;0x396b8021c2f19;0x2e76fd1dab09c;0x796d1eb6ef1];[0x0;0x5abbcf15b64e4;0x6d9ffb4a6692b;0x9b11f021d3193;0x507b12cbec56d;0x36939b8aae436;0xba384c5ee17b2;0x8c138d5b117fa;0xf32221517f6d4;0x1dcd03a4765ef;0x9060a7704f7];[0x0;0x9878c60f85200;0xf659e23560bc2;0x18237d6b18933;0x1d6697116d2f5;0xbe2fd6299e01;0x2ffbd1eac05bc;0x92be7de96b66d;0x6db1cf7f1977b;0xfbda95e6f8c92;0x132ffb9be5];[0x0;0x34ce95c8d1388;0x38c26ec4875b1;0x5020e76a2d346;0x3806b320b62c4;0xf32dd80db3665;0x8dc26aea315bf;0x2fc627149c6f2;0x79c8bae757321;0xe086b59686e74;0x3dd6606cde980];[0x0;0x53ddea64f3420;0x12bbb0c1953ff;0x91ca8304d2ede;0xa384f573a1b31;0xbbc607358c560;0x461669dd21c74;0xc1d5500c91882;0x359748ed02542;0x868d8bc245968;0x21036b712ed]]);
 ((V [0x196e73492e3c4;0x75383410e1677;0x7d06f6c7273e;0xe379e3d7fe504;0x3e93906c5389e;0xac6b1dcb61c2d;0x91e79556afae6;0x5e238f8002c53;0x9d37e0b3b29de;0x4d64beb0306] [0x62ca8a77b38cb;0xecd4db2e3b354;0x5d63713c6bbba;0xf13d30e0656c7;0x254244e819007;0x7a58abd1615f;0xe5726021a6b7;0x924c9383e26aa;0x65eb81308aa3e;0x174170bd18b] [0x31b545458bb8e;0x533e6731efb52;0x4f39d9d9cc604;0x1cfc3f20ac87a;0xaa8c8c7c4043b;0xca4c7b7ddc6a2;0xea9a92f5ffe4c;0x436034b6e2d5b;0xe27e11b47c3d3;0xc5ec1f273e6]),[[0x5352f31458de1;0x4c71a9f94612b;0xf1689162c5220;0x156c538ce14ce;0xaf693a6b57d72;0x6709312389146;0x439b2f9fbab17;0x355c7a196697a;0xd29c7a49abea1;0xb4a1afd06c4];[0xec26881495ca0;0xfec1c444827bd;0xacc443f9ecba3;0x28ace0a1a1d26;0x47f35de101ddc;0xdc843fc4ffff4;0x4650b463066ac;0x2ebbb7cdb6bc4;0xc3cb425e8daa2;0xeb708cf0dfa];[0xa9aed856ef3a8;0x30b0ae3e8c1c1;0xeee2fb0dbd2e7;0x9b061354b74af;0x2a18c2dd5a883;0xbc1fabef8751;0x7724ab590acde;0xb0eab85c75e54;0xf4008cb5abf41;0x94089bf1054];[0xa9aed856ef3a8;0x30b0ae3e8c1c1;0xeee2fb0dbd2e7;0x9b061354b74af;0x2a18c2dd5a883;0xbc1fabef8751;0x7724ab590acde;0xb0eab85c75e54;0xf4008cb5abf41;0x94089bf1054];[0xea694c6e363dd;0x9797ba20afd49;0x4d37aeb15013c;0x67c8ea872adc5;0xe048032b75a8f;0x547b9c4948b88;0x795f7f66e2c66;0xa6210d1970c8b;0x533d4d61eee39;0x472236cf449];[0x1bd3ba65f8c4;0x672a0a23d2a74;0x5f8c95489ca67;0xc0e3f61a76f61;0x67ab5ab58c34c;0x8808a37bb746b;0xccf134fc23a46;0x889aaab445f38;0x708df4fc9ec68;0xa44e56219b1];[0x0;0xf8c2db2127869;0xbfbe4ad6fcce4;0x5df932b4e50a2;0x5d5d3047bd5a7;0x93f4775bf2915;0xc32e2e07dde19;0x23bdb7f2db8fb;0x8c289e80fedb5;0x66bb2210041;0x5b8b34fef6e];[0x0;0x2471c3dc4bdb8;0xf809acff66457;0x989aa573a775c;0x62c71da9a1fe3;0xd20606327fe7d;0xd92ba38d207bd;0x279c90da74355;0x57e06a250c7a9;0x8c6dc5a439613;0x68738cb9f28];[0x0;0x53ddea64f3420;0x12bbb0c1953ff;0x91ca8304d2ede;0xa384f573a1b31;0xbbc607358c560;0x461669dd21c74;0xc1d5500c91882;0x359748ed02542;0x868d8bc245968;0x21036b712ed];[0x0;0x53ddea64f3420;0x12bbb0c1953ff;0x91ca8304d2ede;0xa384f573a1b31;0xbbc607358c560;0x461669dd21c74;0xc1d5500c91882;0x359748ed02542;0x868d8bc245968;0x21036b712ed];[0x0;0x56cb41bcaa885;0x9e426993ee213;0x81aeb28e034bb;0xa2207f363e681;0x4f5b0f8f5a0b1;0x2aef9bc5db9eb;0xae421f63e1615;0xcd96748987a11;0x84d25e5a96ec;0xed26c64c70];[0x0;0xf1b265292418b;0x9d2e1317823ac;0xdfb940ea95937;0xc95943f657673;0x28bbfc058459d;0xad4f1e9595067;0x82b994305016d;0xb489838a4cb64;0x6c5e21b33c8a;0x4988121e5ad];[0x0;0xff86ac053916c;0x96533d116c416;0x7162070c3e987;0x1f49d4b1d2;0x1ec4d78a51a1b;0xfcc9f5dd5570c;0xac798c13ecaaf;0x2971bf5562bb0;0x473e29dd7825;0x472d81bb13e];[0x0;0x87c85a34e7968;0xc4650a015e780;0xd66958262270e;0x27ef95e7b3a7e;0xc1c98fafe687d;0x439146721c051;0x46674c247c548;0x4db0f4612ec4b;0x81c939f777f84;0x17434ee1e93b5];[0x0;0x7d51743955032;0x497e649a83f52;0x7bb64fd0a97b5;0x46c863f21e669;0xf3c6308362322;0x4f6f3d3bb4a3;0xb02ccfbe418b;0x77a746102edcb;0xc3e43caa6a3ff;0x707d5cb7d5]]);
 ((V [0x7701eb490f84c;0xe86733a25045;0x9dd1741cf0c98;0x4ac2fa135f046;0xc9ca3875bf325;0x78b2501c03905;0x449451f82c442;0x586793776e780;0x6762a450e45f9;0xa9b07e3067] [0xb39f1c34a1b8d;0xd57024ba083e9;0x32aea3b70b2af;0x5ffef3ec4ef0b;0x6df50ae8d1af6;0x6cf735f802f7b;0x10c981d59680b;0x6e446943bc115;0xbbb3528764904;0xf9136f4bf40] [0x9978d3e177640;0xdd449e097aece;0xf387d6bff9989;0x7230b519cc2e;0x208543bd5e00b;0x7f26372d2b07c;0x9044f71a533a8;0xf65d736c36240;0xf03b0b1c5d6af;0xe5379e2324e]),[[0xc58cbd70a15ac;0x4fefb82fafd0a;0x30669e2a4492b;0x99154d0975cf8;0x26ceb757a311c;0xa54414125a11b;0xf9fead6ca2e90;0x7705451fe0dfb;0xbd8a340563b2b;0xa7d21b8b617];[0x574a67c453f95;0x473da21b9c991;0x97d2265a3dd2e;0xf3b248c6ff5c8;0x6b718e91d6466;0xef8ca93888714;0x915d5396dca05;0x80151df4a3361;0x67f6198d8f3bd;0xad47e28bb57];[0x31b545458bb8e;0x533e6731efb52;0x4f39d9d9cc604;0x1cfc3f20ac87a;0xaa8c8c7c4043b;0xca4c7b7ddc6a2;0xea9a92f5ffe4c;0x436034b6e2d5b;0xe27e11b47c3d3;0xc5ec1f273e6];[0x31b545458bb8e;0x533e6731efb52;0x4f39d9d9cc604;0x1cfc3f20ac87a;0xaa8c8c7c4043b;0xca4c7b7ddc6a2;0xea9a92f5ffe4c;0x436034b6e2d5b;0xe27e11b47c3d3;0xc5ec1f273e6];[0x2bcd8274ba65c;0x6dbd81b81202b;0x6b6395449d6c8;0x5f21e02380296;0xd2a80bf35f028;0x9465587a95e22;0x6ecedb4d57876;0x2030c2320cabd;0x29248ebc6bfda;0x84be995d0f6];[0x2b7ce54f9993a;0xd98020638a966;0x2c6e9115a0665;0x949068a37f332;0x98c9829e7743e;0x5b2750bdf28f1;0x228e78498518f;0x5fe45bc2968a4;0x3ed18ad1233e3;0x2889492ea61];[0x0;0x8e6e60b5ebdac;0x70a9137af3db5;0x3a2efcabe1d2b;0xd36a984768015;0xb2fb118ffd192;0x77bda804cdfc8;0x4b1b8f0902bb5;0x96b69e328ce38;0xd89a7cd70e472;0x7a65176adb3];[0x0;0x7a6d660b5a395;0x6e14232ac0fe;0xb9f9701d09e4b;0x14b9b31ed516a;0xc290724a0c8dd;0x5955be041db21;0xd0728b2e8c1a8;0x48cde2a405853;0x758035b59f846;0x81bf794fd1c];[0x0;0x7d51743955032;0x497e649a83f52;0x7bb64fd0a97b5;0x46c863f21e669;0xf3c6308362322;0x4f6f3d3bb4a3;0xb02ccfbe418b;0x77a746102edcb;0xc3e43caa6a3ff;0x707d5cb7d5];[0x0;0x7d51743955032;0x497e649a83f52;0x7bb64fd0a97b5;0x46c863f21e669;0xf3c6308362322;0x4f6f3d3bb4a3;0xb02ccfbe418b;0x77a746102edcb;0xc3e43caa6a3ff;0x707d5cb7d5];[0x0;0xb3dd37548447b;0xfb5298cb2a40e;0x9e65a80bb9079;0xb5fdc595efeb1;0xa74f902d1ee58;0x885911cf0f2c4;0x165f08633a74e;0xb62a905f2918b;0xd52ee3f70d91e;0x21cd2fc6c1];[0x0;0xc5013782e3c7a;0x20a4976058eab;0x6ccddcf07d16a;0xca67a4edd0c4b;0xa8edece8ad854;0x53bbc64ac1f28;0xae5f5cde2e833;0x2e2f0067a90a9;0xf7d06bdd41e72;0x1765c25b84c];[0x0;0xf0897f136b34;0x229e034d84aee;0x7c0203d218448;0x383d7da07eb50;0xa166a645fe227;0x256112b0fcf42;0xdeb37fd00a728;0x8dfcbe5b7527;0xd11fe873aa920;0x72dbeb641f];[0x0;0xc6b4800350a62;0xcdf86ccada926;0x56ee3ef333bc7;0xc7a5909b74f25;0x7d71611c5e96c;0x63b8fad94a76b;0xf22f2baf667e2;0x11384f9b9bf6d;0xdcf544f2c4f78;0xf963eaa83ab76];[0x0;0xb61c51105e384;0x427c31d89bebf;0x56f6c77264bc6;0x6a64cde4f1590;0xe1d186439b16e;0x21c532779ff4;0x4c92174790ad9;0xe062a1644c246;0x5b2f94fb1bb99;0xa5198c9c51]]);
 ((V [0x2e02c5ea2b866;0x5326c226faff7;0xb9e2877303df1;0xd677933f1caeb;0x3890eedc037cb;0xca88350e1709c;0xc0366fc3ae959;0x60807958ae9be;0x970ac4fd5d6ed;0x3661f27d33d] [0xa2f0e658d6f22;0xb493cc1fda210;0xb45eb882be4cb;0x82c7d15528012;0xb620a9a566d61;0x5e93d913619cc;0x19be0d18c0471;0x921d65b40f9e5;0xcafdab634ad0;0xb7d791ad15a] [0x858f72509546b;0x713e7ceea937c;0x768c7247a86cc;0x8bb636f5c60ce;0x670c3d06a9944;0x18206113e1da4;0x61634c60e0013;0x492bde955056e;0xf317b327ca396;0x8b7c208ceff]),[[0x45f68f4de4dd6;0xa63a07c33fa24;0xb16bebc76ef13;0x287fa10dec099;0xdcd1cf3c71c03;0x70d559da49994;0x11fa471035aa4;0xb419da463932e;0x54318eb3e91d9;0xba30ae5fafc];[0x91643f449b541;0x8db17b86293e2;0xc3b371005e522;0x14325213d536e;0xd2b6df35c964;0xb5449596d06ad;0x3f9416850d421;0xa5db2559b2bca;0x24288bce700b1;0x7db9a30ed7c];[0x9978d3e177640;0xdd449e097aece;0xf387d6bff9989;0x7230b519cc2e;0x208543bd5e00b;0x7f26372d2b07c;0x9044f71a533a8;0xf65d736c36240;0xf03b0b1c5d6af;0xe5379e2324e];[0x9978d3e177640;0xdd449e097aece;0xf387d6bff9989;0x7230b519cc2e;0x208543bd5e00b;0x7f26372d2b07c;0x9044f71a533a8;0xf65d736c36240;0xf03b0b1c5d6af;0xe5379e2324e];[0xb01b106caa618;0x524b772a3f13d;0x57cb59328ea84;0xd7c24f73b8f46;0x8857b059db1dd;0xc32df41c99a8c;0x357bd863a1513;0x649612e1b88c6;0xd61f4bf6a4b8c;0x5918bc751d1];[0xe1492ed7f0f2a;0x3b66045bea2a4;0x6be817cdcfa9e;0x3c7002a01c428;0x84d3bd9981786;0xf216a17a36c20;0xa183e216bf0d;0x41451277fa304;0x4e093fd7cb525;0x24a0e699baa];[0x0;0xc0be474247086;0xab4f3a35c371a;0x95db85c59229c;0x697b9088e13ec;0x859fc8c703795;0xde3ecf1564a2c;0xeb70d460042a4;0x748108cf28fa;0x6cc40a3d64dcc;0x8dbf63860dd];[0x0;0x8d212a804c5c9;0x5a76c29e8846a;0xe6e6c8f83a6e0;0xefc5a868fbcee;0x189131691bece;0xd96ce12377e6b;0x2272f26827b2e;0x2c968d45517a0;0xdcc9ed106741e;0xa6b5ff74a9e];[0x0;0xb61c51105e384;0x427c31d89bebf;0x56f6c77264bc6;0x6a64cde4f1590;0xe1d186439b16e;0x21c532779ff4;0x4c92174790ad9;0xe062a1644c246;0x5b2f94fb1bb99;0xa5198c9c51];[0x0;0xb61c51105e384;0x427c31d89bebf;0x56f6c77264bc6;0x6a64cde4f1590;0xe1d186439b16e;0x21c532779ff4;0x4c92174790ad9;0xe062a1644c246;0x5b2f94fb1bb99;0xa5198c9c51];[0x0;0x4743d8b2661e7;0xbf3158032df;0x92e408acdf8b2;0xda8de3955fc53;0x6f252f2f65ec4;0xe8d3c174fc809;0x9f44a045b493f;0xb263bca6a1e5c;0x800164678433c;0xf256cffb766];[0x0;0x10916b85d356a;0xabb83edaa927c;0xf0f283c9d7afe;0xf7f616583985c;0x63b7d2d3860c3;0x201d53cffbbe5;0x3bd9077974db4;0x96bc330e6ed51;0x9485d554a5fd8;0x707a8049a];[0x0;0xf9e548a3ad5d4;0xa79c29ac6e6a6;0x2e5d57ee72223;0xba75cb0e6b6c8;0x7ce5e3846bed2;0xa60886540b7e7;0x228ae255ab8b0;0xf1678cbb42a0e;0x226060e3dfea0;0x1ab542d2e36];[0x0;0xdc037100aecff;0xcf00f20848527;0x5aca3bd6e6fc0;0x552ab7b73fd05;0x37053419073d9;0x51fefbf956512;0xe4dc880934ac6;0x3c3b1e6ee1b81;0xaeb9f6892823f;0xb8351facc0024];[0x0;0x6ce26bb42b7d7;0xd4b2a61e58a93;0x79f6b57129b2e;0x34105527677a0;0xe9ea182fafd58;0x7dc25186e59ed;0xf338e9d04aaec;0xa965f35824dd1;0x8f55e0098da6e;0x270dcf8c665]]);
 ((V [0x2286a8479c71f;0x4ee739cd8c3ce;0xf149688bc288;0xa262b83bbd303;0x78de7124cd86e;0xc97f423d61456;0xeb14dbbc8486a;0xccea5d7b4a16d;0x14c391952297e;0x9fda32b6580] [0x2a7968fce238a;0xcc65e10d172f5;0x71398425e34d3;0x15da32ae3d8c6;0x99029053ed8c3;0x1748a4107c457;0x11928fd8e8900;0xccb2be8ca3a11;0x28d94cf016a95;0xb19e52f3ec6] [0xa6608a733832b;0x9f768759341aa;0xc6050026ff3f4;0x6646072fd2a85;0xb1250287781a6;0x8b90f2457f68;0xe234b0b24645b;0x4aa654b977f60;0x183443c23f9ed;0x7ae78ab0b04]),[[0x2f27579719bc0;0xe14e0b2d0582e;0x3b9c427e164cc;0x1b3dd4c3a9f93;0x3f61e032472ea;0x8aaa6c008b204;0xfb308c0bad190;0xccae21ba418ad;0xdbb0d22a1d763;0x7812508e1d7];[0x52c55dfda0391;0x81d07bd898da9;0x3b03bcf078df9;0x3901aba23a056;0xc7b856d27873f;0x23dcd6c416471;0x90ba87b06fae9;0xffc75c4de3db2;0x598e5dd034c84;0x89a1396180];[0x858f72509546b;0x713e7ceea937c;0x768c7247a86cc;0x8bb636f5c60ce;0x670c3d06a9944;0x18206113e1da4;0x61634c60e0013;0x492bde955056e;0xf317b327ca396;0x8b7c208ceff];[0x858f72509546b;0x713e7ceea937c;0x768c7247a86cc;0x8bb636f5c60ce;0x670c3d06a9944;0x18206113e1da4;0x61634c60e0013;0x492bde955056e;0xf317b327ca396;0x8b7c208ceff];[0x8682669adff96;0xeb09ad54c5cc3;0x83400e0b60cbd;0x2e449cc3a46bb;0x64416e59260db;0x18c0f3c74cb7c;0xfd46998d27d33;0x1ffbcb2c31649;0x65bf3ae2ca099;0xf382b05b807];[0xcc42f762c01c3;0x96c6ce83d30e5;0xb7c3aee51813b;0xabd0ede9599a;0x6376e87952664;0xb1be2fcc98f5;0x9373ee2347db6;0xdfcb9121b2768;0xf3cf22ed6abeb;0x1517633a978];[0x0;0x3847784a6add0;0x71b7e37bce857;0xcec7c022273db;0xad6ddc402d73;0x9a15ce622495f;0x2a43cb48c04fc;0xa9281ebe60ad0;0x5bfee7c9b6c3c;0x27573bf31e6ff;0x5641da5d682];[0x0;0x5122446e948d9;0x5f752ec4908a9;0x5e9e0b72b34a4;0xc8e66a074ea67;0x8ee483a89f1c8;0xc91d6386c7ec4;0xe0bc9a2f08380;0x6e7942fbfb1ba;0x2986c94c48fb;0x416c29e0938];[0x0;0x6ce26bb42b7d7;0xd4b2a61e58a93;0x79f6b57129b2e;0x34105527677a0;0xe9ea182fafd58;0x7dc25186e59ed;0xf338e9d04aaec;0xa965f35824dd1;0x8f55e0098da6e;0x270dcf8c665];[0x0;0x6ce26bb42b7d7;0xd4b2a61e58a93;0x79f6b57129b2e;0x34105527677a0;0xe9ea182fafd58;0x7dc25186e59ed;0xf338e9d04aaec;0xa965f35824dd1;0x8f55e0098da6e;0x270dcf8c665];[0x0;0x405c9619ecfa2;0xcf98a0f376ce9;0xe59abf36d4cd4;0xffb74a68b50b6;0x88e34f87bae9b;0xeb1cf3b74f15f;0xe63d84c4c5b0a;0xf658ac6baf784;0xbbdd204375309;0x8405e7cb788];[0x0;0x9591292113617;0xae16ed0bc862;0x5010744c6a26f;0x96759ea2470a9;0x9217d709615;0xb7c1170afa371;0xf4a9a3fc47a57;0x234bc8cff0ef3;0x1f992da20e184;0xb8d77c67a7];[0x0;0x477b47f357d68;0xdbf4d30cb2ff6;0xd079a212f92f0;0x4b4b084418e18;0xb89498dd5416;0x4fed29a451335;0x24d36b541b92b;0x732ddbfbbede;0xe2e0678ab98b6;0x55f07131f0];[0x0;0x60b6859c63594;0x4a4bc2c5d0fdf;0x8c1216a7d1df6;0x346874e6b9d76;0x63f948f263cc3;0x1f683996240da;0x2bddfdf597db2;0xca00c1a03d8ac;0x96b4232089256;0xb249f96d73e53];[0x0;0xcf909f36c271d;0xb1a0aeec093d8;0x6b7eceda73af3;0x4951011418fd0;0x4642513396b8c;0x2a8e8252d9cea;0xe5fea0723a3ff;0x91d75e42be986;0xa727615aa07c6;0x6ee8b987935]]);
 ((V [0x77370a0abd621;0x33e1018d0e9d6;0x8b0aedcda3be3;0x891c345607385;0xcb5c8073009d7;0xbae69979b45c;0xe7af6ce7a1ded;0xa39f69cfe328;0x7553c5bd23af0;0xfd2a01d3886] [0xe1f7cb8200022;0xdba3280730793;0x6563cc95d1097;0x1a077d612485b;0xd0ba920ac4c92;0x289006772abac;0x5331b8c5959c9;0x7680bff422bf2;0x2fdf89b8f4239;0xf789ace754e] [0xeff1ea29cd511;0x2c16141865677;0xc47d2cce9a821;0x24e6e658f0a60;0x19ea4583421a8;0x935175cdcc104;0x62c227a91a777;0x41fee5e0cb994;0x5b56ce4bd2e9b;0xdee2ab83f74]),[[0x9cea0cdc99474;0x1e9459fcce9be;0x2fcb2b3425aca;0x1c531bd4830bc;0xd3bb222e9a2b0;0x57c6c4e6eb011;0x3d6a7c1cb9155;0x1bad22379ce79;0x95d58458e43a1;0xc5a88ea362b];[0xfc6ce3f3a9783;0xf103d5b37c82d;0xacfea6ee66df2;0xaf16a0c473b7c;0x26eadbbcd13e6;0xbe730967403ff;0xff9f19ebfb360;0x3c62526761467;0xe4b1f3195314f;0xe593caa2e18];[0xa6608a733832b;0x9f768759341aa;0xc6050026ff3f4;0x6646072fd2a85;0xb1250287781a6;0x8b90f2457f68;0xe234b0b24645b;0x4aa654b977f60;0x183443c23f9ed;0x7ae78ab0b04];[0xa6608a733832b;0x9f768759341aa;0xc6050026ff3f4;0x6646072fd2a85;0xb1250287781a6;0x8b90f2457f68;0xe234b0b24645b;0x4aa654b977f60;0x183443c23f9ed;0x7ae78ab0b04];[0x4f82725d4aeef;0xdec5ed5a8c48a;0xa34983a08e7e;0x2fc89dcc1ce4d;0xbac7ec0556b12;0x56a1c18ee0976;0x2625d9750c70;0x2b972cf0fbc0a;0xd54167d264cb4;0x849dcbe00ad];[0xacea71965e895;0x123de858f03a3;0xa2ca0eb45df74;0x7f4e02f856d2f;0x6c22efb77a8d4;0x67d147d85fa88;0xfd3cbc54aa6f0;0x10cb25766585d;0xf708b46ee49b;0x60f5fec2d6b];[0x0;0xc6cd3f160a024;0xdca398894b0d;0x489542014c9cf;0x946f0ea3c258e;0xfc8888c5dec2;0x7be89bd2dfe5b;0x502fa06fa0d81;0x67eae4a92deb3;0x80a7b1f47e6dc;0x4c0101f62e0];[0x0;0x711efba0c03f;0x72626486e1012;0x688a39bef24ad;0x5808dde55cfba;0xae2921bad1c3b;0xedc1d652cbfbe;0x82fbda473f1b1;0xbbf65152513fa;0x70681931c9a62;0x5ee51a27db5];[0x0;0xcf909f36c271d;0xb1a0aeec093d8;0x6b7eceda73af3;0x4951011418fd0;0x4642513396b8c;0x2a8e8252d9cea;0xe5fea0723a3ff;0x91d75e42be986;0xa727615aa07c6;0x6ee8b987935];[0x0;0xcf909f36c271d;0xb1a0aeec093d8;0x6b7eceda73af3;0x4951011418fd0;0x4642513396b8c;0x2a8e8252d9cea;0xe5fea0723a3ff;0x91d75e42be986;0xa727615aa07c6;0x6ee8b987935];[0x0;0x6c20fa16930e3;0x94af021e7048;0x6e91d591d07ee;0x9c13ca34b3601;0xd53a398923564;0x146d2069a056d;0xf86c0fe58889d;0xacd683c829d05;0x93d484a01733b;0x7b3c509fccd];[0x0;0xc2c46f46f3974;0xecbd2265e3a35;0x9f6f2950c6ce4;0x977990c009c5a;0x9898cbeedd388;0x952efe1a02eb8;0x8711c998168a;0x38154a8dd75d5;0xb3b268092c2f7;0x63d0c4f8e9e];[0x0;0xeb6cefa5cb0e2;0xfc2217511f08;0xf3a02e571b890;0x870d3c8ec2cf1;0x770d7d9020d5c;0x9242cd22fb309;0xe49cd21d643bf;0xa0726f52a1354;0x7744e0519a75;0xe308bb257e9];[0x0;0x3f11c22bb1baf;0x55ab44a3cb8e;0x3cac78590c043;0xcd75dcc87305e;0xd13214f9f8994;0x4164b0c7b6e70;0xf6b69c02a3df2;0x3f79ef6207ce;0x49fb564ac3634;0xf7a3398492de7];[0x0;0x506029b227e27;0x66962f68a55ae;0x2b63f636cc16b;0x51127672c2137;0x6028a3d761b12;0xf4981f538c2a8;0xa82ad818aef0;0x502482d97e245;0x3bae6c03db282;0xf4cbae3b10e]]);
 ((V [0xf4319b72284b1;0xc20d59cde57f2;0xf90c9d0434b8c;0x4b4c47c0ae860;0x4357e25e27580;0xf6d4205aa2f98;0x8878610b7f38a;0xb7d0a09d6d60f;0xa97c3b2dac1a8;0xc95aeee6348] [0x489facef951ed;0xbbaede257ecdb;0x82b815652f3d1;0x62928b99d63a0;0xf69920211846e;0x7663b0267a927;0x171a420b59a74;0xf2338f026b298;0x71f4dd4f86ccd;0xe2549e3db4c] [0x30f2ffe1cc092;0x2821638d2ef3e;0x56c893554723c;0xda60a111e8ffb;0xc6f5339aa40e0;0x40a336d2ce3c3;0x5c3ca3bc1423f;0x4b789d12948ca;0x97e35d34b9954;0xfcedbf7c46b]),[[0x2db13d592f39b;0x851f569ba852c;0xee1487ce8b7ce;0x39e7f636b4b7a;0x3eee26179e4cd;0x6c3dd861ac83c;0xd49ed44024eb0;0x8bc3e099c1d5d;0x163fd81ab6ca1;0x5046c54ecbd];[0xe7e90bb506250;0x137107fb87598;0xf4d5bc9e2b8bc;0xcdfa9b04c4cf8;0xf4586446b228b;0xdae2fdcbd9bc7;0x8120f84ed9872;0x9959d6acffe6;0x6434e606a0910;0xcbd086a1d70];[0xeff1ea29cd511;0x2c16141865677;0xc47d2cce9a821;0x24e6e658f0a60;0x19ea4583421a8;0x935175cdcc104;0x62c227a91a777;0x41fee5e0cb994;0x5b56ce4bd2e9b;0xdee2ab83f74];[0xeff1ea29cd511;0x2c16141865677;0xc47d2cce9a821;0x24e6e658f0a60;0x19ea4583421a8;0x935175cdcc104;0x62c227a91a777;0x41fee5e0cb994;0x5b56ce4bd2e9b;0xdee2ab83f74];[0x754313c61c507;0xed23d4911588;0x58ddc40e6ac2f;0xdcd72d898917;0x847ee908dd2ce;0x8b3e4206bb34;0x2bdda9fa533b5;0x9e2c00a756cac;0xdadffc905fe32;0x8ca478505db];[0x72a5f7eee9d4a;0x49ecab276010;0x9bf7f88fc0c8d;0xc02d282c2c3e1;0x6fd97b3dd4fbd;0xd22f19ab6e093;0x55434e54864bd;0x6b699cc37933a;0x8954e97640add;0x3f2c0e51794];[0x0;0xc861c2055a7a3;0x19df6f1f86391;0xef3b60194a0e4;0x86b5ec8765e8e;0x6e3ceefad6d8c;0xd929ef74a4585;0x5118c90ba3bfd;0xa201a93fc821f;0x744225a9187f3;0x89d4ff409de];[0x0;0x3178eed70aa2d;0xb20f44e77f939;0xf5af6d4ede9d0;0x4c1a58c30eeec;0x566ae713ac265;0x1606e34681861;0x1990ffa23c96b;0xad44ffbd3b332;0xc415daa29e6ba;0x45e4735d2bd];[0x0;0x506029b227e27;0x66962f68a55ae;0x2b63f636cc16b;0x51127672c2137;0x6028a3d761b12;0xf4981f538c2a8;0xa82ad818aef0;0x502482d97e245;0x3bae6c03db282;0xf4cbae3b10e];[0x0;0x506029b227e27;0x66962f68a55ae;0x2b63f636cc16b;0x51127672c2137;0x6028a3d761b12;0xf4981f538c2a8;0xa82ad818aef0;0x502482d97e245;0x3bae6c03db282;0xf4cbae3b10e];[0x0;0x2524fa9c3a89b;0x9d093b823f96f;0x3a98cb70bfe08;0x9112428e86138;0x3848b2328e1ee;0xcbe686af89cbc;0xaddd85959c401;0x8eb20474fcdae;0xe8c24e35718c1;0xef5af5b0ea2];[0x0;0xa0c1b378e8151;0xe771c10f10a91;0xd9c1595706dcd;0x8607c329b5193;0xb0450a113a73c;0x49ef5c5ea514b;0x18328a2ae575c;0xa07f593bc8111;0x8563c36fa97f6;0xfa5c0e80b50];[0x0;0x3a1d761ca1929;0x1c8239dd8bb11;0xe0b4aed4cefee;0x855b99d8a81b5;0x5fcf27b4698aa;0x98bcb8d06e78b;0xef241dfe71cd;0x602ce4136d488;0x1a0f07604d5f7;0xa04f1f378b1];[0x0;0x46c9f462b36cc;0x12705a813224c;0xa660bf145b271;0x4387783f99a9a;0xa352fd09e473f;0x18c0f8859c8dc;0x54d310f756374;0x59f74bcbb128c;0x339b4c1f475bd;0xe282c166af9b4];[0x0;0xdda06677ee15d;0xad786b1db1271;0x6d9917b27ea71;0x5611c82586f7a;0x1d501ccbf5860;0x8d80fc476a943;0xb44c7b4fe76d6;0xb3db91853b624;0x927056b7b7a51;0xb204d534463]]);
 ((V [0x8a5d6a87f4e85;0x1b8c0b1d13cae;0x350ca518eac89;0xe963b9d636078;0x99d25013d7d81;0xcbedc7f45ebbf;0x3881dac6f163c;0xfcb47b7909814;0x86b4d795aaed9;0x20ed2360748] [0x52c9931cdaa4a;0x7a2cd3f5221d8;0xc6530fee852ec;0x72858a35ba4c6;0x434d6a85b51b4;0x7fdb87e7addd3;0x146503efcc2f1;0xaf6d778991252;0xa8ee4d65ff958;0xcc9247874dd] [0x8169eaf319efa;0xb308528dd7d83;0x7b3e31a6c48f2;0x4440119ffd720;0x9d0b76b43a83a;0xfeec13f2c549f;0xd333e6b282e72;0xc06a473d83807;0x8efa3b09d1c65;0x8c85245b237]),[[0xb6581744c0d20;0x714f58aebd120;0x291c65f216f29;0xc5cdb2e9a14d6;0x7dfe81ada5ca5;0x6e4f63277a2bc;0x8dbb39cd19d97;0xc282c8cbd9089;0x8304307407f78;0xbeadc0ffb92];[0xa9b06c5cc6630;0xf9ca47af04ddb;0x532ff5944b20f;0xf3ed4405ed281;0x72d14d9f502a7;0xeb8932b28928c;0x93a5875897ee5;0x999e932cbabb7;0xf3b2d7973441d;0xecee77b7a07];[0x30f2ffe1cc092;0x2821638d2ef3e;0x56c893554723c;0xda60a111e8ffb;0xc6f5339aa40e0;0x40a336d2ce3c3;0x5c3ca3bc1423f;0x4b789d12948ca;0x97e35d34b9954;0xfcedbf7c46b];[0x30f2ffe1cc092;0x2821638d2ef3e;0x56c893554723c;0xda60a111e8ffb;0xc6f5339aa40e0;0x40a336d2ce3c3;0x5c3ca3bc1423f;0x4b789d12948ca;0x97e35d34b9954;0xfcedbf7c46b];[0xeed941bc1c1ce;0x6d2296d447b6b;0x8b885dcddbd72;0x7ef7f8c7697c1;0x23c578714b7f9;0x1ee24aa5feb2f;0x73e328c9baa02;0xc81f15434b2e7;0x6eb6b5d38026;0x1fa4340b954];[0xbad72aa0aa463;0x8ca7b0dabd26f;0xc7a797c66f49d;0x74f54b3e83abf;0x4f0bd52e04aae;0xcca6e80c8a75d;0x1fc25e8edd4e3;0xd17f7de96f8d0;0xecc76c39fc3f6;0xcd4a43ac0b3];[0x0;0x93f2c5fbc5180;0xb54ccac546872;0x69586930fba14;0xb61ad26848c2a;0xd2746e3b013bd;0x2506c9d7e0783;0x465f784ee2cce;0x500d6acdf4ae0;0xe268d54cf8a90;0x9c6925f97d0];[0x0;0xa0adf0c3f7970;0xc677e303caac2;0x82374fb8bdfdd;0xdcbd19263d874;0x47da512f3f912;0xd4e32f40dd59;0x1dbf4236b29a;0xc836ca5eae0e4;0x7ed115670b990;0xbc641f779ad];[0x0;0xdda06677ee15d;0xad786b1db1271;0x6d9917b27ea71;0x5611c82586f7a;0x1d501ccbf5860;0x8d80fc476a943;0xb44c7b4fe76d6;0xb3db91853b624;0x927056b7b7a51;0xb204d534463];[0x0;0xdda06677ee15d;0xad786b1db1271;0x6d9917b27ea71;0x5611c82586f7a;0x1d501ccbf5860;0x8d80fc476a943;0xb44c7b4fe76d6;0xb3db91853b624;0x927056b7b7a51;0xb204d534463];[0x0;0x4ddc04984b8d;0x568dbf295a655;0x5b73331b75295;0xf76ed277cd0a6;0xef20dd2ef1821;0x1a2f46cbbd0d8;0x64fe872159e6f;0x4dce6febeda38;0xe6ff7684c0004;0xc819835d2d7];[0x0;0xc05bbd8734a12;0x5a121e6bfcfc9;0x6dcd78f6dc029;0xd6e96e97e6521;0xcfb4b6d6402ac;0x3bc1fdcebe450;0xefeb119d0d09b;0xb60eb0f7b5386;0xf6c782a7672ce;0x9e5feb72574];[0x0;0xb200d92434d27;0x2ef02cae631f1;0xa160134f1a2bd;0x41cd251e270e9;0xeb76ea6106d12;0x65a0e9fe32896;0xc5de24e3e1ba7;0x4624d114ca681;0x4cd3b3b7091da;0x1e794879a8b];[0x0;0x5764291c50452;0x6d9fedf690c69;0x4d2e745c78e64;0x61e2ccb516565;0x43ccfa3946c1a;0x58e65c8a011eb;0xbc3933faa7893;0x1f70dfbd9078b;0x777560e48cb4b;0xcca184653b30c];[0x0;0xbd8a45094cec8;0x64ef2984dca13;0x559abeda18bab;0xe705303e6f4e9;0xe042cab6a4a4e;0x18de7e5276527;0xb726236142631;0x873335d8499f0;0x373542c6632;0x1a4fc8a235c]]);
 ((V [0x869a43c294c54;0xbcb29d7749693;0xfe2484edbf0ef;0xd48a3acbef1a8;0x5282df825a605;0x891471b10d872;0xe1e08aa9dece8;0x2ac3d00c56b14;0x9bb129309e877;0xb851d7a2137] [0xf17d6f444b156;0x90614a6278d4d;0x2714b7632ca2;0x5d928f6669b13;0x37583bbf18f0c;0xda1bdc47ebaf8;0x7d75e7e4e6e02;0x79a37f9fd3ea7;0x1b924382a957e;0x7bc1226bd53] [0x4b1218eed069b;0x3a6c9ea9923a4;0x8f60c3be42b94;0x6c0283c529c7d;0x5dd9d989202dd;0xe58eed8284910;0xb400ecd17e513;0x770412f1ca974;0xf596b921343d;0x4135ae6e578]),[[0x339a57c51220a;0xe5091937a5aef;0xc0ff424a3748d;0xccfa8527819e9;0xf88ad58f6b9ac;0x2a2b08010b2;0x888127ecebaec;0x1de75e62e1745;0xfec81b9d9e374;0x24d26997f58];[0x2c7aee0a0deb9;0x74c37c9406f1b;0x50b3ebb58194;0x400bbe7298582;0x3e6e9b3f00b1a;0xaf5b7177137b1;0x9fbcfc6cdd37;0x281a60b454b2c;0x3cddbc3588c8d;0xfd19bf1f349];[0x8169eaf319efa;0xb308528dd7d83;0x7b3e31a6c48f2;0x4440119ffd720;0x9d0b76b43a83a;0xfeec13f2c549f;0xd333e6b282e72;0xc06a473d83807;0x8efa3b09d1c65;0x8c85245b237];[0x8169eaf319efa;0xb308528dd7d83;0x7b3e31a6c48f2;0x4440119ffd720;0x9d0b76b43a83a;0xfeec13f2c549f;0xd333e6b282e72;0xc06a473d83807;0x8efa3b09d1c65;0x8c85245b237];[0xa16e51d7e4028;0x1d00b1a86019d;0xed3d23c2ebd14;0x26ab4582e54a3;0x61c68ac36d860;0xaf581d77219b9;0x7df394e636cc8;0x2fe4c6b420b5d;0x547e06e349f20;0xd3eecea15e0];[0x8b0c9c3229e92;0x57c2caeba6d7d;0x17ce1af86c480;0x196078efb30de;0xdca8107b932ba;0x353fff1df7;0x8c083ae09706f;0xf8359a0033fce;0xe85fb5523ed6c;0x292af07dd68];[0x0;0xe7722e61c393a;0x6a239a37a1bcf;0x74b2d1db400cd;0x2b23a2ef80d1;0x47b69cc87b777;0x8252bfb524689;0xc062e4af0f453;0xc8b0d77107f1b;0xb03d711da7415;0x56e5bcdfafd];[0x0;0xc2767f58d89d;0xe6351439e4d39;0x35ae92f8e7fde;0x3e1db9a5f0d30;0x98da4b50f987b;0x13f69dc252eee;0x2f884ec259596;0x9308c6e247327;0xc5a329a372b5e;0x1436384aa8f];[0x0;0xbd8a45094cec8;0x64ef2984dca13;0x559abeda18bab;0xe705303e6f4e9;0xe042cab6a4a4e;0x18de7e5276527;0xb726236142631;0x873335d8499f0;0x373542c6632;0x1a4fc8a235c];[0x0;0xbd8a45094cec8;0x64ef2984dca13;0x559abeda18bab;0xe705303e6f4e9;0xe042cab6a4a4e;0x18de7e5276527;0xb726236142631;0x873335d8499f0;0x373542c6632;0x1a4fc8a235c];[0x0;0xd5728f42128e4;0x779e076841d4;0xa0d6605f4eaa6;0xf82ad147a2038;0xed5f421b37941;0xbc393a8ec70f6;0xec53ce5f1c001;0x6cbc3e0c61a8d;0x575ba222053ae;0xa37975954e6];[0x0;0xc9a279ee8a541;0x9d99638d02465;0x5fd57fb40b76;0x129d37f787516;0xd82fd677ab76d;0x29b613efc6c1f;0xf0cc971f74e7f;0x73e2bd551e79e;0xd639ef47cf0d8;0x43c2482a29];[0x0;0x8a84e4e92884c;0xf39664acd2528;0xdad5592e656a6;0x69c5d408c80d1;0x4348350938dd5;0x2363c6199560f;0x3e84a7fd96d8b;0xf970b581b431f;0x948f050cdec63;0xb63b6bb4c3b];[0x0;0x347eb9c3354eb;0x7e2e861fcb4e0;0xa8fc56d0f62cf;0x1405afb65671a;0x9d41fdc31c0ae;0xe20bbf0a70590;0x961a2715d95f3;0x40d4e3aa23119;0x49a01081bd418;0x7bc2893cfbea3];[0x0;0x980cc9c4257b;0x145bc097663bf;0xabd0ef22f72fa;0x483c770222aec;0x4047e58555ebe;0x3222cad4f91bd;0x7663bb156eee6;0xc8d31f2dea00c;0x4b85d9d614b80;0x591a6116f2e]]);
 ((V [0x3c0bdfcb3e5b6;0x7c3bdf7ecb5e8;0x32b6990f4f08a;0x73fea00d53a79;0xe0ac70901431b;0x4fe13792884e8;0x906756d331dd1;0x5333cacceddfc;0x6ed2811adbc26;0xb19fe165c76] [0x99de60294e555;0xd60e36f4948c9;0x642a008ba1e58;0x9c8556c4342c6;0xa91f33541f98;0x9a5644320d19a;0x968fb5ffcd6e1;0x42b7429c7a91;0xda73396dd449e;0xffe8b3e547b] [0xfb8ca6c356b0a;0xc57b9c035dbf9;0x95540046424c3;0x5d6f48d4e38e;0xd14f493f5ff67;0xe35e80a8a5985;0xdb4042481349c;0xe88af01677bdb;0xd72e0fc74bfb5;0x7be60903e15]),[[0xaa130a6375bb1;0x7f0e097105a8f;0x710b00603eb13;0x57b005c0649b5;0x4c3e9cafac3d6;0x1e7218cc1fcd;0x9a266cbe961c9;0x1530ac9e87be5;0x4068c74307697;0x89336776f7];[0xe8fad7dc9947e;0x9094edd575429;0xde7d249a3eeb9;0x443c7393fa5a6;0x845094bf11171;0x82467080bf03c;0x3ec2707be5820;0x8444ed5a9a0b4;0xb6e7e36817443;0xb2e1984eb3e];[0x4b1218eed069b;0x3a6c9ea9923a4;0x8f60c3be42b94;0x6c0283c529c7d;0x5dd9d989202dd;0xe58eed8284910;0xb400ecd17e513;0x770412f1ca974;0xf596b921343d;0x4135ae6e578];[0x4b1218eed069b;0x3a6c9ea9923a4;0x8f60c3be42b94;0x6c0283c529c7d;0x5dd9d989202dd;0xe58eed8284910;0xb400ecd17e513;0x770412f1ca974;0xf596b921343d;0x4135ae6e578];[0x21618f2b5efb3;0xe6446bec948bf;0xcb5e52eb1b1d9;0x5fb99707072a3;0x510f515b617cd;0xf25c137cb1d9;0x34cee386f4324;0x302e857f8ae64;0x78797ea170abb;0x8eec8e2bd8];[0xc79948b13a4cc;0xaa5081e8e0b6a;0x131ed1af23cdf;0xe482dc8cf3303;0x33414363af9a3;0x7320af48f3e63;0x9f38cf4f14fc;0x541667db0f250;0x3e6e64c6a6988;0xa9f2cf6bf66];[0x0;0xa8e11c38c6249;0x74e62d03c9ae9;0x5b8adc18e490d;0x5dfeb42f2914a;0x38d435e2a00cc;0xe3471814c974a;0x54f60643cc5ef;0xc55f7b90179c5;0x9437834273f28;0x2853590d182];[0x0;0xbc7c77dbee0eb;0xb538f2e9c1eb2;0x8870759ca7c16;0x56f37c7f4199c;0xa1cbf1687423c;0xc750dbadd65ee;0xcd4cb856ef0d7;0x6c1e3b4b91163;0xb771987108270;0x22f2d265b3];[0x0;0x980cc9c4257b;0x145bc097663bf;0xabd0ef22f72fa;0x483c770222aec;0x4047e58555ebe;0x3222cad4f91bd;0x7663bb156eee6;0xc8d31f2dea00c;0x4b85d9d614b80;0x591a6116f2e];[0x0;0x980cc9c4257b;0x145bc097663bf;0xabd0ef22f72fa;0x483c770222aec;0x4047e58555ebe;0x3222cad4f91bd;0x7663bb156eee6;0xc8d31f2dea00c;0x4b85d9d614b80;0x591a6116f2e];[0x0;0x7a8539c439147;0x3f4339b396cdd;0xe33ff242f9280;0x3df612e06a698;0xca0899a76a788;0x55c4d02a843bd;0xd6b25a756ed58;0xe01ed09236661;0x60eef14dfc6cd;0x3bd328c88a1];[0x0;0xcfed33d78c31c;0x5cb5d696146;0x3efbc887ca5f0;0xd72bf39ad4616;0xa9c623a957ac1;0xd4bafe7648b9f;0xe4dc1adb4d410;0x47fb87ab582c6;0xf34634e48c94;0x84b5c023263];[0x0;0xb602e9274ef4c;0xad1d8634446b3;0xa11c2b67749fe;0xd842ebf9b8a87;0xe155d3c58142a;0x6f0194b8c2f30;0x46d14d1c6608d;0xfbfd6f39b6591;0xb12cc82e59e15;0x7c1db1eb687];[0x0;0x1af7e40c8cdfc;0xa495dc18eeb4;0x5219afaa48bd0;0x822ebe6090390;0xee4bee8ffeb88;0x2cf36072b3d1e;0xf952057af703f;0x5a5752db8f2fe;0xced898ce0d80b;0x35cb4850a56;0x1];[0x0;0x82084e11f647c;0x8fca040dedd1d;0xa04665b34aa0;0x6a154aaaa805e;0x7135b51ac9386;0x7189f858a9e54;0x6c524031c74b1;0x5f6af5f074777;0x1f489e6d380e2;0xb18fb73a864]]);
 ((V [0x1aeb080beb7f9;0xdab198a467fb8;0xc5d2a68f9bcd2;0xcb3383c9d68a9;0xe96cdfde4f90;0x7ed55db79ee69;0xb99766cc75f2e;0xa19b52487f2cd;0x1027a06811ee1;0xd9171b49a06] [0x449cfa94d980e;0xe28b5f8224c1d;0x5fc47a7b93653;0x93aa2e02475b0;0x5c98ff092cf69;0x1a8740cea478e;0xda8038f985888;0xed7f7dbf191bc;0xd30a2f7f2af3f;0x4064419637e] [0x69eaac18c5acd;0x1ad8ffc75a5e2;0x715e72e28b030;0x65049a72d6100;0xe7af6419797c9;0x9aef346d56490;0x3e41da7a5be15;0xffdd5cbf1f3ac;0x348b488d940b7;0x9371c6d32ed]),[[0xa054eb0023e06;0x77d85cde40505;0xc18c7d843698b;0x2c11e89f769b4;0x793f5064dee7;0xe018a66d5c57b;0xa0dd6d1e5aba8;0xfb2d5b7d8bdaa;0x956d4fa565a84;0x19586a5243e];[0x671dbe7c586cf;0x795f2dea120d7;0xf6e672d7013b6;0xe41d7c584e664;0xcd355c0a1395c;0x58882e1aba905;0x2a86bb785a095;0xa87a666f97b0b;0xc0c23eae08bc8;0xad435ea3566];[0xfb8ca6c356b0a;0xc57b9c035dbf9;0x95540046424c3;0x5d6f48d4e38e;0xd14f493f5ff67;0xe35e80a8a5985;0xdb4042481349c;0xe88af01677bdb;0xd72e0fc74bfb5;0x7be60903e15];[0xfb8ca6c356b0a;0xc57b9c035dbf9;0x95540046424c3;0x5d6f48d4e38e;0xd14f493f5ff67;0xe35e80a8a5985;0xdb4042481349c;0xe88af01677bdb;0xd72e0fc74bfb5;0x7be60903e15];[0x81e7f6d4dbac9;0xf3ab86ff9272c;0x391eab21c468d;0xd94d78c55f969;0xe6178b5b6c2b9;0x21655906830e8;0x95cec8044f25;0xf5cd6e0b69267;0xa21be8ef0152c;0x7ac8f880a3c];[0xe535c7a77cc07;0x85b3a6ea7f9aa;0xbdc7c7b53cd28;0xad00392eecfb;0xe71dd0aea76a3;0x3722d5143781c;0x2129cef815170;0xb2acf8642e8a4;0x1ea655bf0769b;0x327a6622b2a];[0x0;0xceb1c7b414816;0xdbfeebad65fc5;0x8048b7af2debe;0x22a78f673066;0x620d4c8fc6888;0x24d4af07c344e;0x322468ec591a8;0xe2d6c7268f1ee;0x639a19c33fbf2;0x4c9e62d3811];[0x0;0xbbf151492012b;0x260c3d482a960;0xdc0598c83f081;0x3fc15f08cf07f;0xa7687642dca1d;0xc06aea8f5b292;0xeeee7c163c9c8;0x6292c0af6764a;0x39a6eab0eb62;0xc4441698aa];[0x0;0x82084e11f647c;0x8fca040dedd1d;0xa04665b34aa0;0x6a154aaaa805e;0x7135b51ac9386;0x7189f858a9e54;0x6c524031c74b1;0x5f6af5f074777;0x1f489e6d380e2;0xb18fb73a864];[0x0;0x82084e11f647c;0x8fca040dedd1d;0xa04665b34aa0;0x6a154aaaa805e;0x7135b51ac9386;0x7189f858a9e54;0x6c524031c74b1;0x5f6af5f074777;0x1f489e6d380e2;0xb18fb73a864];[0x0;0xabe5d6463b110;0x39acd14c0131f;0x6a185e71574cc;0x3b882db2ed45d;0x31a1f6c391481;0xba95ae4dac390;0x1baa68af6dbfe;0x6d97b4b71de6d;0x84a8479484643;0xffd169e952e];[0x0;0x5d492a7df87bb;0x329d33bed8685;0x6809bc8b0bdab;0x7bf20b46cc2bb;0x41e4b02651f26;0x326167551861c;0xd4abe48c60e73;0x3198353ab6a04;0xe16c5dfa0f2c4;0x7b3e7988809];[0x0;0xf44af041e63e4;0xdd4e0640218f6;0x9bf4668dcbb33;0xdb50691281ba3;0x3e7989f20812f;0x5ec8fbfd24cae;0x6d40cbf75a248;0x819e35a10f516;0xb540aa2904fc9;0x92edbebde4a];[0x0;0xa501c9ee9fb43;0xd49c44d541e29;0xa20ab1e0915fc;0xf36063362f3ff;0x891750c6a83ac;0x5baf54baf61ed;0x366a0bec8385;0xbd42521f966f7;0xa20187c84d406;0x4079112570915];[0x0;0x7ca67aadc00a7;0xfb5ad723500c9;0x9b2d9e5d61132;0x5349589438a90;0xd720061b08ab5;0xa1511314c2fbb;0xd3d39761678a3;0x18564f4cae2b9;0xfafdfb061bd19;0x369acb7751b]]);
 ((V [0x2dc5546efddda;0xfa12c2acd0633;0x32496c046cd05;0x1b0382cb09637;0x55d916a50e506;0xb79de614a109c;0xd3e8978fc8f05;0x557369263dd43;0x2e6bb017c69dd;0x5c98a5747d1] [0x5d9c6d2ab699f;0x759eb69bf374f;0x6fd063212c45d;0x564d5facbd490;0x436b6e264b94b;0x9abeb915b61df;0x648076271a599;0xf484c6de0ea51;0x5726b0c8ef375;0xc05e0d67994] [0xf2d6dcc33cc1;0x727849ca00a72;0xc25f8d7c7153;0x3688c0b51d45c;0xc494eb4204e1d;0x106aeb2d36e69;0x8c1b0f78a16c8;0x89f7ac5af4bc;0x36a6fcdb8ebb3;0x3f23941b298]),[[0x7067f3324479e;0xba486fd5323ee;0x9287f9c697d01;0x376b5eaa4bd40;0xb5568f9ab6d8e;0x1015c98583d36;0x1027b3a6d3b44;0x23e0eebba0228;0xd650ad9770400;0x505a6640397];[0xf35538e7e12e1;0xa3a454f2b63f6;0xa5ca9815d4c83;0xa36813a947455;0x18ca277f0ef87;0xc6d20fa2f8488;0xc9dfad33ec1cd;0x5972723bae08;0x14c9634a44957;0x535ba92c148];[0x69eaac18c5acd;0x1ad8ffc75a5e2;0x715e72e28b030;0x65049a72d6100;0xe7af6419797c9;0x9aef346d56490;0x3e41da7a5be15;0xffdd5cbf1f3ac;0x348b488d940b7;0x9371c6d32ed];[0x69eaac18c5acd;0x1ad8ffc75a5e2;0x715e72e28b030;0x65049a72d6100;0xe7af6419797c9;0x9aef346d56490;0x3e41da7a5be15;0xffdd5cbf1f3ac;0x348b488d940b7;0x9371c6d32ed];[0xcdc7def1c1d9e;0x908c5fb51b7c5;0x5f0adc6302b91;0x8f42cee538665;0x2fa0ab070343c;0xece0912add727;0xb2564227238fc;0x73591311d44a4;0xeb32bedcb0cd2;0x31edbaf7cb1];[0x258d59f61f544;0x1317f53d9ac31;0x46bfbbb2d20f2;0x142544c40edf0;0xe9297c780bb4b;0xd9f17e781ad60;0x17896b0cc88d0;0x923e1411e6964;0x2996a46d93c84;0x216dee34496];[0x0;0x67a70304812fe;0x9ab0d1d780063;0xf28d0ad894b84;0xe1326e1c01cf7;0xfe26e5219eada;0xd28871208231e;0xc21aefd5a5d9f;0xd6a565013b3cb;0x10f796aec1948;0x5b2deeb3aa6];[0x0;0xe21b20b809c33;0xc115972f5b44e;0x21d5f0acd930c;0xfc39d41fda07b;0xf44a60200ca63;0xec4ac88402f1c;0x63f151e713371;0x33ef2618f0820;0x6e4791bb41811;0x2e479f0637a];[0x0;0x7ca67aadc00a7;0xfb5ad723500c9;0x9b2d9e5d61132;0x5349589438a90;0xd720061b08ab5;0xa1511314c2fbb;0xd3d39761678a3;0x18564f4cae2b9;0xfafdfb061bd19;0x369acb7751b];[0x0;0x7ca67aadc00a7;0xfb5ad723500c9;0x9b2d9e5d61132;0x5349589438a90;0xd720061b08ab5;0xa1511314c2fbb;0xd3d39761678a3;0x18564f4cae2b9;0xfafdfb061bd19;0x369acb7751b];[0x0;0xb31afb9321baa;0x85d349e3c2152;0xb56c7de220177;0x86e8dfcf7a76;0x73693e918f050;0x8840a6c03bd2b;0xb8ab651a6891e;0xcb9c035e8e8a6;0xfea2b842a94c5;0x1032480e6a1];[0x0;0x954dd89aed1ab;0x477c0c63e3e8d;0xa9e7347553661;0x64042ce81517a;0x8ffb85c416218;0xe336d9a14080e;0x13bc42d1ec207;0x6b4c06e447470;0x7e4a2a346a060;0xb8182e58bc0];[0x0;0x8ef05f570856;0xbdc08a9b807e2;0x5773cc3ef3179;0xb4c3c84d48eb3;0x7b6fa911ae461;0xd9e33d85546cf;0x5939af60c1fa1;0x36af5933d5918;0x69ea9be986f88;0x1e26a5184bd];[0x0;0xfe247223f0ce8;0x343f7d1ec83e0;0x2f81d0c85889a;0xd2410c0e93718;0x889214db50961;0xab77b25ebbfca;0xb042bd145da0b;0xdfb9d5419994a;0x6a9b4661770c0;0xc0dfc8161a4dc];[0x0;0xd04516a5c4f33;0xba46782fd54e;0x20b69609b3558;0x337c44733ba5b;0x8ca8ee3779bbd;0xf8957f00aacb;0x5a9b272db4605;0x3b7835dbf26cb;0x5ef9f2b461543;0x459480fd57d]]);
 ((V [0x6152a9bf3171b;0xc256a6a04966d;0xfa7ece9898338;0x700965700fe3e;0x51cf4e98486ec;0x4ce451b5e7ae0;0xb7bd13973836f;0x88be42179ba5b;0xd309fe2b35a98;0x8906c4365f7] [0xc224af6126941;0x1de64729a8cd2;0x866d00d7138aa;0xc49281af5774e;0x2827650bea02d;0xf54df12a02c53;0x5445f0d7df550;0x319be6f897475;0xa1b51cc6d75b8;0x3b77c46731b] [0x2b9194a282973;0x21bc273b1c55;0xca9efe02167af;0x2856a2e21e9c8;0x97215bdead4c0;0xa7a4bf9383359;0x220e887d1b5f2;0xeb55a96800c7c;0x85428f30ef558;0x7c93634aca3]),[[0xf43bef8814265;0x903be25fbe24;0xe000f5dafc6cb;0x9d7612f19e1c0;0xc83d5c479c5e8;0x939ada24fd86c;0x643053273eacb;0xb8081d540e091;0x89590a25200ee;0x84065c6dc1d];[0xd909cf7400617;0x9bf40e7f31171;0xbcd4fcc2113b3;0x3b70f8157ce88;0x52e9fc6b954be;0x5a60c9decc3b1;0x4234522ba331c;0xbcdf3bc60c079;0x76cc1da103f60;0xdba943a34b1];[0xf2d6dcc33cc1;0x727849ca00a72;0xc25f8d7c7153;0x3688c0b51d45c;0xc494eb4204e1d;0x106aeb2d36e69;0x8c1b0f78a16c8;0x89f7ac5af4bc;0x36a6fcdb8ebb3;0x3f23941b298];[0xf2d6dcc33cc1;0x727849ca00a72;0xc25f8d7c7153;0x3688c0b51d45c;0xc494eb4204e1d;0x106aeb2d36e69;0x8c1b0f78a16c8;0x89f7ac5af4bc;0x36a6fcdb8ebb3;0x3f23941b298];[0x6ac7c9508c1bf;0xb50f2d2ccb684;0x60c88b10f9231;0xe5b8e62f75af5;0xc3c18fbafb35c;0xa35620f15d5e9;0xd292b8a22f2b4;0x9763ec9fd513c;0x18c4f22ebf7d9;0x548105e6b97];[0x6e42062374459;0xe6e4e15265aed;0x5c0c71b118181;0x55b811e607393;0x8f286cb09a161;0xb70aa8ed6edc7;0x6fa1998974067;0x257b4f2636f3c;0x5e072b7244787;0x87283dbc91a];[0x0;0x35883dff9d5bd;0x2bdd57d448286;0x8f9281b74b789;0xf3f0bd8c7dec6;0xaa957e1db51f6;0xc79378f305378;0x66704d2333f72;0xbebcc0e89d08a;0x1e30f8bf2b4c4;0x270b8875eca];[0x0;0x28964fb7a8382;0xbc6e1cc8b2e66;0x139fbaf0a1ed0;0x25200543b8e6b;0x82ccc3b65b41;0xd22db3600990e;0x6b2451fa689b7;0x53d1ca3756944;0x9cc02de5da151;0x208fe9ff553];[0x0;0xd04516a5c4f33;0xba46782fd54e;0x20b69609b3558;0x337c44733ba5b;0x8ca8ee3779bbd;0xf8957f00aacb;0x5a9b272db4605;0x3b7835dbf26cb;0x5ef9f2b461543;0x459480fd57d];[0x0;0xd04516a5c4f33;0xba46782fd54e;0x20b69609b3558;0x337c44733ba5b;0x8ca8ee3779bbd;0xf8957f00aacb;0x5a9b272db4605;0x3b7835dbf26cb;0x5ef9f2b461543;0x459480fd57d];[0x0;0x8c430cdcfe0ee;0x8c7b6f98e9c1e;0x915bb37bf22aa;0x64cbec74e86d0;0x6d9c80fef08a2;0x740e3f4ff63a2;0x5244bb66c441a;0x2f03c7946ce3c;0x6a1e58b8ad31;0x908d36a93eb];[0x0;0x2cf54b64b185d;0xe9efa3a999a8b;0x8d0437028f09f;0x3eb4a7deed107;0xe60f5b198c031;0xe3a73de1340e4;0xb841a879bca1d;0x672bf184528dd;0x97a845acccff0;0x217e11f09f2];[0x0;0x981f45ff4cca;0x6891e3a309959;0x124d6c4e79ac7;0x1338ed7c3bd99;0xd353a2c486159;0xbc01aaaf8285;0xa4e45023f1b84;0x9ae4a6fc50b6b;0xfd1289d61793d;0x75936386386];[0x0;0x4ffafdcc1001c;0xa63e3b1d4231b;0x7e7c17018a88f;0xc13d03c364420;0x4ef7ab4914d70;0x1d05c93524610;0x4d83b33c25d5d;0x2ffb9b47374b9;0xcc9a68b66c67;0x3b803564cdb51];[0x0;0x9e7b9e93e1d58;0xe45e870648a3f;0xa0b36bd37dc64;0xed7a032aa3f11;0xa2ea1a48a58b4;0x81539716127ab;0x66476bb2cf345;0xb393f9f1d23e1;0x8b97b2f34d4ef;0x1fd4aa7e27d]]);
 ((V [0x4a36c56685404;0xaa7260be05392;0xc6c5bb0f4caec;0x99bd447587120;0x6b07ebf4b8925;0x882845d8a4f31;0xe9b014fd4e786;0xaa9f24f1f993b;0xe3711a3d890e5;0xc249779da8b] [0xaaeb1268d42db;0xb8192fa144aa1;0x97dcca2d42f20;0x4bf4b86f11c43;0x2cacb6776c82e;0x63d65ef1487e8;0x9b8f2379fe863;0xefeee7fde788a;0xa9ff062b0b796;0x555f6384d75] [0xdd7d5093c1a43;0x64fa1752e0b3f;0xbfb3a0feb9ed4;0xb467e9bdfc0e2;0x5e5155958e480;0x24abaeae800cb;0x41b63890a0803;0x9ecec425a8aa5;0x57444d4aea27a;0xbd66cd57102]),[[0xee556739dfc2c;0xe2f43191f1727;0x6f1bece481825;0x8041136aa5c02;0x7a9b16c0c3ac4;0x7ec113a31aa89;0x2fa5114152102;0xe701d831b0db0;0xbb3b71127a2ff;0xa20a633a841];[0x7f5645b2f9517;0x7192c0e5b121a;0x87e56d132fac0;0x7ecad2afed886;0x4d74f34be9f39;0x5f4d15e10a28e;0x67b062d1c0662;0xd39f9dfe9427a;0xccffda1a2be4c;0xb3037e68420];[0x2b9194a282973;0x21bc273b1c55;0xca9efe02167af;0x2856a2e21e9c8;0x97215bdead4c0;0xa7a4bf9383359;0x220e887d1b5f2;0xeb55a96800c7c;0x85428f30ef558;0x7c93634aca3];[0x2b9194a282973;0x21bc273b1c55;0xca9efe02167af;0x2856a2e21e9c8;0x97215bdead4c0;0xa7a4bf9383359;0x220e887d1b5f2;0xeb55a96800c7c;0x85428f30ef558;0x7c93634aca3];[0xb7855c3bda38;0xc77ae449f8143;0xf9020b812e1e0;0xb885ca38c31ed;0x3dba9dccf39aa;0x48a536f535807;0xee0dd02d4db77;0x7ae21add3cd7e;0x6abb6c1fc69c2;0xc57dc5815e8];[0x73ddefef3b8a7;0xaa17dc9bb90d7;0x8ee36192018df;0xc64508772a698;0xfba557ef658e;0x16a7deebd4a87;0x79a292a472aeb;0x58bd8321574fb;0x62446dfa6548a;0xed85b8e6e38];[0x0;0x1375d8e63131c;0xaae0384d3168e;0xf6e790ce77dce;0xc3216e780ed31;0xc8f485b7f126d;0x899bef4d4b528;0xda26427acb1e8;0x2c03f3e85554d;0x94ff5a920969c;0x4d099649794];[0x0;0x229d17d7efeb;0xbd3ee8720d5c7;0x9c90e0f52d338;0x7696f4f793bdd;0x92a695db745de;0x6c0886387d6af;0xd1524999f7c88;0x874e3005d700f;0x770ccfa0295ad;0x4eda52e0adf];[0x0;0x9e7b9e93e1d58;0xe45e870648a3f;0xa0b36bd37dc64;0xed7a032aa3f11;0xa2ea1a48a58b4;0x81539716127ab;0x66476bb2cf345;0xb393f9f1d23e1;0x8b97b2f34d4ef;0x1fd4aa7e27d];[0x0;0x9e7b9e93e1d58;0xe45e870648a3f;0xa0b36bd37dc64;0xed7a032aa3f11;0xa2ea1a48a58b4;0x81539716127ab;0x66476bb2cf345;0xb393f9f1d23e1;0x8b97b2f34d4ef;0x1fd4aa7e27d];[0x0;0x8fb98aba0896f;0x636b562827cac;0xa7b5e03b2e8c8;0xc4f9a05635274;0xf79eee6a961c3;0x9dd01f3e68fa1;0x9b5d5ea396ee9;0x7a7c12f79ff5c;0xa315b218684a1;0xdd06c8fbf8];[0x0;0x4006ec4cde23e;0x9dd76f289789e;0x4b5a1e3bbc838;0xd299e0b251549;0x2ee50d47de1d9;0xddbd810e581c;0xbf3293eb36b5c;0xf786aea7b7225;0x3c5ad87061544;0x49583e2ffb2];[0x0;0xa88161f00dab6;0x7fed28d665bfd;0xccaa90413889d;0xb6dec3698cfe6;0x6ec8dc8b06188;0x256d10ebc6bc7;0xd38d9821b14d4;0xd1f60194075e1;0xed5f84d0ac32c;0x87dc056eeca];[0x0;0x5c796b76b9355;0xa934a045fb1c3;0xcf03e3efb4119;0x1f001590a8fee;0x99c1a7b4137ca;0x366c6a82f3d7c;0xfa0c8070ce92b;0x974c4752e52d0;0x4fefa66a7ce8a;0x5579100b806d1];[0x0;0x4fa406ac99d8f;0x9b7850f1264fd;0x5a31cfce92a8c;0x469d5c3b13e7b;0xfeffdee20c52b;0xb19408306a41b;0xc9420031f4a5b;0x6e8d45c15b1cc;0xce71763894d4c;0x40cac981f71]]);
 ((V [0x8e7de3a2d6981;0x23eddce56fcc6;0x88d246793b8e4;0xa43edf10fb28a;0xa0ccdae11b2d1;0x169e767f67d3;0xcf11498a4af70;0xa980c29f8251d;0xf0cb94d9adcd9;0x866d2ffec92] [0x9cd2dcd4dc274;0x5372fd2453d65;0x92c8d7a0b7bde;0xa6aa396e33f23;0xf093cd8967050;0x4a12cff8615fe;0xa04c4221650f8;0x415843228d716;0x5750876163b3;0xbbb518ad3f7] [0x67f9eb647f722;0x3301e2c81194d;0x806eafaa6a271;0x855282819f99f;0x82181b553e362;0x70a03776cd588;0xfcdd0f921dd27;0xc375678761cf3;0x2f52a82e8f8a6;0x5376af5a64c]),[[0x8be52e2378130;0x3e2a5002f8313;0x892b65f41f29e;0x83869bd9837a9;0x80aba84336d1;0x22cd0e02e72d6;0x30ac374d29958;0x3ae459c83ad83;0xe752d3a24837;0x3352220c5b6];[0xf6e35c60ee940;0xdcdd4719dc480;0x38372515c03df;0x185a36059b489;0x435930393f7d6;0x516ab25c10f5d;0x8d5536b3aa33d;0x46e77ef36dbea;0x8098e2aab02c5;0xf54f59efbe4];[0xdd7d5093c1a43;0x64fa1752e0b3f;0xbfb3a0feb9ed4;0xb467e9bdfc0e2;0x5e5155958e480;0x24abaeae800cb;0x41b63890a0803;0x9ecec425a8aa5;0x57444d4aea27a;0xbd66cd57102];[0xdd7d5093c1a43;0x64fa1752e0b3f;0xbfb3a0feb9ed4;0xb467e9bdfc0e2;0x5e5155958e480;0x24abaeae800cb;0x41b63890a0803;0x9ecec425a8aa5;0x57444d4aea27a;0xbd66cd57102];[0xa2e7a0a167b11;0xa3d86237bec2b;0xa37201222e566;0x264f802401dad;0x4b38acae38d0b;0x1135754012b7;0x8aba7e615017d;0x4ea3579ff8898;0xc2e6649a69d2c;0xc3ac44ae82a];[0x53fbbbbf86e30;0x3904e4e21d855;0x94c523f391e79;0xf20ab5e1996db;0xf820838b06aca;0x50575b080fca5;0x29ab8525a1c0;0xf844275375352;0xbdb27e1046598;0x31a315413b9];[0x0;0xd909b6f791740;0x5cf119aaea062;0x712a714eba36d;0xafb82442a525;0x8beb12117dfe3;0x4c61b89c39de9;0x89d61dcbb27f4;0x3dd200343dcf8;0x5092b748d39c;0x75202aab07c];[0x0;0x94fd3eee34730;0xf00e1eec93ec3;0xf4a14eaaaeb76;0x9a40868da71c1;0xb463a0bd17d3d;0x5396806c4eed2;0xfb53594a45f66;0x25d112a2416d8;0xd0f12adcc0157;0x25f83f06e9c];[0x0;0x4fa406ac99d8f;0x9b7850f1264fd;0x5a31cfce92a8c;0x469d5c3b13e7b;0xfeffdee20c52b;0xb19408306a41b;0xc9420031f4a5b;0x6e8d45c15b1cc;0xce71763894d4c;0x40cac981f71];[0x0;0x4fa406ac99d8f;0x9b7850f1264fd;0x5a31cfce92a8c;0x469d5c3b13e7b;0xfeffdee20c52b;0xb19408306a41b;0xc9420031f4a5b;0x6e8d45c15b1cc;0xce71763894d4c;0x40cac981f71];[0x0;0x93ca4991c1178;0x768dc8689b2f3;0x1f45410118e42;0x268918fedd9f0;0xe6346a260cdaa;0x623ae1d7eea06;0x44e00c57886ae;0x904d7f8a5295b;0xa06f73844ce07;0x1c787ba13a4];[0x0;0xb91c62365bf20;0xec59cca2c2f4d;0x5a2124dbdf0dd;0xe34b580464406;0x23dea1935cd87;0x477e8eda56815;0xc3be36caa0161;0xf8ffca57ca8e1;0xe7beb641fd4b1;0x93736e60638];[0x0;0x3ae1ac4cd8bed;0x66a10c3f28f73;0x3790c3227614c;0xe5c6e330f6acd;0xa149f6911fca9;0xba4ff1c955220;0xf18e98c575447;0x69d52b93811f8;0x45cda896f4077;0x80d029da7fb];[0x0;0x31063ba4fe848;0xa4068b5f887c5;0xc6ecad2ae815b;0xb377503d0b37f;0xcb711f0c6817d;0xbec83898870d2;0x672a92f2c6469;0x98fc55e46d534;0xf118f7bb47e76;0xbbbcef467a856];[0x0;0x888ea693c441e;0x78ff8e6bb0bbe;0x4a1e51eaad1ad;0x2a600e55f4c81;0xfcc47f208a8bf;0x60df554607e75;0xa0d7d2387d032;0x81dc4081f93b;0x2cb07d030dd0f;0x6290da3741b]]);
 ((V [0xf5f3ace655d1b;0x853dbafffa628;0xc8bc88d90ed7b;0xfa7bf7da09549;0xe515e59576a78;0xf1ba63d86dfdc;0xa89683aa2495;0xee640c8d5ca62;0x80a8345fcb40a;0xd5c09fb8c36] [0x980ffc691f411;0xfdbeac3057c1b;0xc5332b3d529e3;0x20d005ad2c67e;0x7cab3e26ac547;0x843f350bbe3b9;0x7470028f2999e;0xe481f160b75e9;0xdb775318b995e;0xbf96385398e] [0x5d18570c9b427;0xad5f93572f4cb;0xfc707b4f196b9;0x72329475da09c;0xb07a8f8bb6795;0x41deebecbd203;0xcfbefb04674d2;0xb407327459e32;0x8bbad5c5d5fd9;0x1032a654e5f]),[[0xb6a287055122c;0x14a75e64eb3d6;0x705d900a20476;0xbb1852d1b538e;0x6295543555edc;0xec612d101787;0x39c6ed311e8e1;0x4235a506d89b8;0x69c3682e659ff;0x99ff15ff373];[0x7ab60b182e549;0x2e96a78f3bf5b;0xbc2680be3116b;0x965863d28a6aa;0xcc0890b4c9d51;0x9b9f872437feb;0x5847aff329353;0xb70f6b8d51d4;0x28c35402f3c8c;0x9600bb71fa1];[0x67f9eb647f722;0x3301e2c81194d;0x806eafaa6a271;0x855282819f99f;0x82181b553e362;0x70a03776cd588;0xfcdd0f921dd27;0xc375678761cf3;0x2f52a82e8f8a6;0x5376af5a64c];[0x67f9eb647f722;0x3301e2c81194d;0x806eafaa6a271;0x855282819f99f;0x82181b553e362;0x70a03776cd588;0xfcdd0f921dd27;0xc375678761cf3;0x2f52a82e8f8a6;0x5376af5a64c];[0xd1d77660b9406;0x10f8ba0b1f482;0xd2b1f690ef868;0x73f980473799b;0x1cdeae8c947a2;0xf8f9b3f8c33a5;0xe170a200e47;0x55603df4238bc;0x1053007305e22;0xdcc3e320bf8];[0xa8de94b774f0b;0x1d9ded841cad8;0xe9748a2d41903;0x225ee38b52d0e;0xaf29e228355af;0xa2a5d32b74c46;0x57663f512850b;0xb610b8c4b1918;0x1870538fede69;0xb93cd8513a9];[0x0;0xcef3776cd49ec;0x8e14bc394dea9;0x9737efc8b4ce0;0x6fc66b8bbd002;0xccc0db36176f5;0x71544cd4f5ca6;0xae6c320595604;0x4363d6ed5144d;0xd8d5307d43b08;0x339d2059aa2];[0x0;0x8ec98f31ecef9;0xa256a7911d5a5;0x9052802688552;0x5ed6e0dec7276;0xe1ef6ecbaf6f4;0x6b28f9893a1d0;0xa8812aa9b84b9;0xb12738948ecc4;0xe45aa7b2cea09;0x32351931a2d];[0x0;0x888ea693c441e;0x78ff8e6bb0bbe;0x4a1e51eaad1ad;0x2a600e55f4c81;0xfcc47f208a8bf;0x60df554607e75;0xa0d7d2387d032;0x81dc4081f93b;0x2cb07d030dd0f;0x6290da3741b];[0x0;0x888ea693c441e;0x78ff8e6bb0bbe;0x4a1e51eaad1ad;0x2a600e55f4c81;0xfcc47f208a8bf;0x60df554607e75;0xa0d7d2387d032;0x81dc4081f93b;0x2cb07d030dd0f;0x6290da3741b];[0x0;0x7b9848f8d1326;0x45482e3ff8ae7;0x68dee190b399a;0x667c8bb601600;0xeaf35db757bc9;0x87e751b061112;0xb67a8ad18ebf4;0x4023ef0cd49d8;0xac58efb954fde;0x89a21229020];[0x0;0xe2fc2f41d145a;0x64d56a150cbb5;0x8eae0316b5ec3;0xd4dbabddcc31;0xde797954cc9d0;0x40a9e38a71968;0x34d945b2880c3;0x73bce2a105620;0x41ed5f12e69e9;0x46967cd0a29];[0x0;0xf7bbc5a0bd126;0xe57328b9f6a91;0x7c3b271011f73;0xd4ce59b06d3dc;0xa9059de6fdf19;0x2708f3406dab5;0xb0957471581da;0xc5b5e21267086;0xf060ba33fa61b;0x7d3f7a1921f];[0x0;0xffa5f7a5bfceb;0xa116d852f23b5;0x655bec02d07e1;0xaa28d7d905711;0x9174a255717b;0x592713cf9ebbd;0x406d130d18bde;0xb13e630e569b0;0xf610c520367b0;0xbfe58bfaa3836];[0x0;0xbc984155f643c;0xb6db6507d9054;0xef0361127947c;0x51b1718b5552d;0x9e184a744f933;0x5d3807b7f9e15;0x3df64fc59967;0x6b70b68bb2ffc;0x22dcc55d1db2d;0x9ff82510602]]);
 ((V [0x1ba97da4c23aa;0xa4a9b4825220a;0x16fbd93a335b4;0xcb489577a3732;0x56f68111d0d47;0x7832a32b5dfd5;0xc2cd22b7afab;0x6dc877a5c5705;0xbf62e56286789;0x446f0723761] [0x3168d0f3e1e26;0x4d02f505c8b39;0xe009eed27185d;0x30b09d91905c3;0xab697844d5bef;0x264eec7a66d65;0x68b4a31e84fbf;0x3179809bba61d;0x59b021b1de524;0x37c3cab0c27] [0x9fc0899b9d861;0x77fed9b3efec8;0xfd0b710d933d0;0xa6716152210ee;0xe718e4de9f580;0xaed1883d9f91e;0x5876e874bc833;0xaa484de5be961;0x380fd7be4bd5b;0x5789aa91f80]),[[0xe3944f3417bb1;0xc3c3938221db4;0x88a9069935226;0x3872a9558ae49;0x8def0b9997464;0x7a17912792da1;0xf4762cc3f2b88;0xc0b37e948d049;0xde036d5c1e293;0xe34947d039];[0xdf5accc31e4b6;0xbbd3c84550b5b;0x1e003e84b6538;0x47dba5153ef35;0xddd5881c1ab75;0x99bc549a905b8;0x2f5b50ecc514d;0x5054e580cd4d6;0x40626d9853f3c;0x1f64adc93bc];[0x5d18570c9b427;0xad5f93572f4cb;0xfc707b4f196b9;0x72329475da09c;0xb07a8f8bb6795;0x41deebecbd203;0xcfbefb04674d2;0xb407327459e32;0x8bbad5c5d5fd9;0x1032a654e5f];[0x5d18570c9b427;0xad5f93572f4cb;0xfc707b4f196b9;0x72329475da09c;0xb07a8f8bb6795;0x41deebecbd203;0xcfbefb04674d2;0xb407327459e32;0x8bbad5c5d5fd9;0x1032a654e5f];[0xa0816143f8f58;0xdc857a2a97b00;0x5ad695068093d;0xffe123c5e2fbd;0x9d7249f2555e9;0xcc558eaaab3b6;0xcbfc07b2b2e5;0x77c11664948d7;0x6541f5f807e33;0xe006f5c550f];[0x3ed96b7f25326;0xdf4e4e1ab905b;0xc329a97e35bfa;0x47fa814f5bf77;0x40633e29c558b;0xcd66c5efe5202;0x229b907199e67;0xd893cf1c38bff;0xdb2077a04c108;0x3f5db803eac];[0x0;0x517f781b18c89;0x52f1402af1861;0x3f73925b78972;0xd6a0eccf5aef9;0x73cb354a31d56;0xc388627c6bac6;0x218382adc623d;0xd6544669ffb06;0xa6de78c605403;0xa044834fc5];[0x0;0xf9839e10512b7;0x1136dd7560fab;0x9b48ab1397d41;0x561eadca1fcdc;0xd0e5981f98252;0x1c18c60d5d71c;0x87f8bb3542a1a;0xd69fc6fedf646;0x132647bba770b;0xe618c79ef];[0x0;0xbc984155f643c;0xb6db6507d9054;0xef0361127947c;0x51b1718b5552d;0x9e184a744f933;0x5d3807b7f9e15;0x3df64fc59967;0x6b70b68bb2ffc;0x22dcc55d1db2d;0x9ff82510602];[0x0;0xbc984155f643c;0xb6db6507d9054;0xef0361127947c;0x51b1718b5552d;0x9e184a744f933;0x5d3807b7f9e15;0x3df64fc59967;0x6b70b68bb2ffc;0x22dcc55d1db2d;0x9ff82510602];[0x0;0xd2ea8ed47abef;0x100584a4b225d;0xcae071066f025;0xab10771a24ab4;0xb8db36e51d33c;0xc8400ac92e169;0xd062c11a745e0;0xe518eb0cc656d;0xe9c886307c0b6;0x8f618032cc8];[0x0;0xc9674b27720b5;0xbb1fbcb92ce32;0x138e001cfabe6;0xfd791b0442fc9;0xf06a26b63547d;0x9292868a687a3;0xc8f44c0200647;0x4bb6d33069827;0x745a2ef255699;0xb27a1ab96df];[0x0;0x7f4b459dbf008;0x16f3bb59ccea2;0x88d75fa9a3de4;0x8ba150718c6eb;0xf6aa136f3982;0xd5ec07226fafd;0x723560c594da9;0x99b7152d126e0;0x114b00804a5bd;0x8645bb0e82];[0x0;0xd54bff56890b5;0x94df1f880f81a;0x69fb952c2c67;0xa3871281b0cdc;0x82023a251a1e7;0xa46ea867cb0f7;0x42a6e9bb8efd9;0xaa39772c719d;0xffe4049787d10;0x37f4b7d7917db];[0x0;0x7b21fd4a9a64d;0x6cfbc43bbb246;0x8140909a24a27;0x372bf541885f9;0x4a51a6622ffd3;0xa1795678765d8;0x60cfdfc60d793;0x872f12f6b665d;0x5705aa96e8492;0xee83149ea5]]);
 ((V [0xb678c5a04e6de;0x2a1843747cf71;0x80c2c3e15d6d5;0xac9397b3f50b8;0x1a7529ae21c73;0x5fa20d457bf62;0x35fc448b8d066;0xc08b55e4c4575;0x165366cdbd623;0x8bb64f3d168] [0xdfdbeb80d6f3a;0xa50f171833f2c;0xe22a564b3ae86;0x4e1e0bb0345ee;0x9e24224d22b43;0x7b7635470f239;0xdebfa49c8aba2;0xc35a05db2fe58;0xdee7580317df3;0x78ae924a167] [0x31040cba7cc46;0x4d027a8b76bd5;0xe818f58004d76;0x36392551c6876;0xc43111b39993c;0x434613dfa76c9;0x3e17e4ca2ae46;0xd343e7e60597d;0x75d0963750c65;0x1f017df883d]),[[0x13fcb25c1f3c9;0x56fd7fa23216e;0xa4c41f4ce3b8d;0x5764f821e8829;0x80b9b952cb74a;0x55e83df56350;0x71d4d3e549e63;0x884ce9f1c9dfa;0x55901ac8d52db;0xc11f5c65c62];[0x504e7a25bb7c8;0x5bbad1769d21f;0x433cb45a6e0d3;0xd9c16a0832988;0xb9e86b1924fde;0x89eebf2002388;0x41615fc25e0ae;0x233bbd3025803;0xb9a3409d97fa4;0x23c4889db58];[0x9fc0899b9d861;0x77fed9b3efec8;0xfd0b710d933d0;0xa6716152210ee;0xe718e4de9f580;0xaed1883d9f91e;0x5876e874bc833;0xaa484de5be961;0x380fd7be4bd5b;0x5789aa91f80];[0x9fc0899b9d861;0x77fed9b3efec8;0xfd0b710d933d0;0xa6716152210ee;0xe718e4de9f580;0xaed1883d9f91e;0x5876e874bc833;0xaa484de5be961;0x380fd7be4bd5b;0x5789aa91f80];[0x47a06aca33ce3;0xf817d2a76cb77;0xecced4b3ed0f;0xea6e13f13464;0x7cecc709933df;0x5672ed617d3e8;0x840bc691a41ac;0x18ba1c208953f;0x1ee5e5c20813c;0x84b84d3d51d];[0x8ae0f5b878ad;0x63a2fecf306a8;0x346fc70f2f3c3;0xcb1a88c91f524;0x3cfba40f91bff;0x337bd1be84fa0;0xbd559930b9f02;0xa81a10f9c2c3;0x9abd5adb8fe68;0x9f0c3b6063b];[0x0;0xcba0ad8b6f041;0xc67e0eb8935c3;0xd4bbbc3d11e1c;0xe5cd8984e87cf;0xd1cfdebb9ae37;0xb6412514b4016;0xe532e34676010;0xb4cba48bd2fb4;0x79ee3be066d1;0x36221abe9ce];[0x0;0x79d1a0c9f997;0x38bde12a0e45c;0x8ebaaada6799d;0xffc7c8a7187da;0xe54c46492ae44;0x133c361ee9b77;0xe3d5fd0926c44;0x30224bcfe1d69;0x5aca5d09939d0;0x420982dbfa0];[0x0;0x7b21fd4a9a64d;0x6cfbc43bbb246;0x8140909a24a27;0x372bf541885f9;0x4a51a6622ffd3;0xa1795678765d8;0x60cfdfc60d793;0x872f12f6b665d;0x5705aa96e8492;0xee83149ea5];[0x0;0x7b21fd4a9a64d;0x6cfbc43bbb246;0x8140909a24a27;0x372bf541885f9;0x4a51a6622ffd3;0xa1795678765d8;0x60cfdfc60d793;0x872f12f6b665d;0x5705aa96e8492;0xee83149ea5];[0x0;0x8838d86587d37;0xc4060532742b6;0x35312cb1daf4b;0x9bb0809c9ca44;0x6dd028d377929;0x61cee3d481f86;0xdc83563237ae0;0x57ff69ad8e3ca;0x234b29ae712a7;0xc25b6d65d5];[0x0;0xfd58ff29b9611;0x6f66e0aa5f853;0xd767d20978f70;0x6ee6a512f0e1a;0x9540313ca7036;0x2001fd57c536c;0x1554a96b87ecd;0x222608ee10b32;0x23c67238dd16d;0x124b2bf207b];[0x0;0xfe3db450bfe14;0x8e5d4f1124fae;0x7b5846743302e;0xdb54abf7505cb;0x5cc61a34c514b;0x681ca16df7559;0x7d7aa1eb6be57;0x91ded895da778;0x40e7ec2d50b8b;0x13852ef8f0d];[0x0;0xf2f0ff3a96ae5;0x527b2f5ce649b;0x68edd18dda46b;0x5c831624c803a;0x5dd26ed35e1ab;0xacc075a3c76dd;0xa7815fd966b3b;0xfab28cf6e2d3c;0x3a3a5010ca997;0x79166458515c4];[0x0;0xbcfd16bf953ca;0xc4fe56d5fef31;0xc41e84764a33d;0xcaa5e28d85ccc;0x4c606d6d57e6c;0xb2e9aacf3f81c;0x2a1e771b8ebbe;0x97b16bee33b46;0xc16da29db9d96;0x41dcbae4e63]]);
 ((V [0xbe578f7527c1a;0xfda22b43a2176;0x189d90af8ef68;0xa4d5881d95f41;0x249fc74f8c29e;0xabe0eb24b4bd9;0xc70666ce94264;0x6ff843582b3e4;0x328291b4811f9;0x9e2a5b5ca55] [0x77734e14a6ca8;0xf4a8cacb75ce5;0xe74ca37c71a2e;0xb6246ed07c09e;0xef6b281179f37;0x95c17bf80f6b7;0xb3a73137bb46;0x36ba4ef48607d;0xac45931ea31ac;0x185131abc2f] [0xd861481d9922;0xb36a6dc58ebe9;0x523f0775496fd;0x8b7bee02f47ef;0x344474d5ccc4d;0xedd77cfc6fb02;0x9bb58870491fa;0xfdac4a0589934;0x59e59e072b6a9;0xace76fcc293]),[[0x831e4603c6424;0x73b6c4fbbb930;0xdd8dce83224a8;0x29fabef52ce6d;0x5d661ec6037a0;0xe20169993a949;0x40d7296bf9b08;0xd16ebad38432f;0xf5a3b6fcd7ceb;0xae62d308a50];[0xbc9511a9cd188;0x1149884bc4d50;0x90335a8b2bc5c;0x1a71adb533018;0x2b1c154c42a0f;0xd3368cdb2a5b0;0x4cdd3c2d3f0af;0x87643bf94b17d;0x24a8c9ebb947a;0xf5453a28336];[0x31040cba7cc46;0x4d027a8b76bd5;0xe818f58004d76;0x36392551c6876;0xc43111b39993c;0x434613dfa76c9;0x3e17e4ca2ae46;0xd343e7e60597d;0x75d0963750c65;0x1f017df883d];[0x31040cba7cc46;0x4d027a8b76bd5;0xe818f58004d76;0x36392551c6876;0xc43111b39993c;0x434613dfa76c9;0x3e17e4ca2ae46;0xd343e7e60597d;0x75d0963750c65;0x1f017df883d];[0x3eb18c129868e;0xe34878ef306f;0x184e886c6c60b;0xd9bfe0277934b;0xb8280ee8c453e;0x7bcc1b58f132b;0x209903ff0f62f;0xa671dde9366a7;0x88f046627e6f4;0xc945c242f2e];[0x7de3859734afb;0x31500bcd1ce1;0x77e4d21ebf651;0x40b1cd8db9ccd;0x72f406637e4d0;0x576a718239284;0x2c44382e2fa80;0xe0f25e1014ad6;0x9bb883893ad85;0x2bff77e5407];[0x0;0xaa9d5a114264;0xf2ebd1f3c2a6c;0xc6cf877536f3e;0x7068d77396a80;0x4eb31edce2767;0x7f47d4b8c8753;0x8438c875f9fde;0xc486b9f44662e;0x1fd0e6967bfef;0x132c8889c0d];[0x0;0x77837f58efd30;0xd9419dd821c2;0x7017aea2ae50e;0x4cffa453809e0;0x268de5ed560ce;0xffb196a645e4;0xfefbf46842257;0xd5ef3cdc02c1;0xc7051e750bea8;0x151efbc0699];[0x0;0xbcfd16bf953ca;0xc4fe56d5fef31;0xc41e84764a33d;0xcaa5e28d85ccc;0x4c606d6d57e6c;0xb2e9aacf3f81c;0x2a1e771b8ebbe;0x97b16bee33b46;0xc16da29db9d96;0x41dcbae4e63];[0x0;0xbcfd16bf953ca;0xc4fe56d5fef31;0xc41e84764a33d;0xcaa5e28d85ccc;0x4c606d6d57e6c;0xb2e9aacf3f81c;0x2a1e771b8ebbe;0x97b16bee33b46;0xc16da29db9d96;0x41dcbae4e63];[0x0;0x9419fe73510ba;0x7b35d1a4f86c6;0xc465743f6f96d;0xbb9b199a72a8b;0xc96418c3ec205;0xdd54184795822;0xcf03e1c838419;0x3daf31e26ad5d;0x539d6f6ae6e71;0x38e42030a56];[0x0;0x5957df8010a2f;0x964797742c049;0x9fedd11161d96;0xd881fd88f06e6;0x82dccd3af6de4;0xae0809948add1;0x6915001526ce2;0x606eaf17d708e;0x3465c9bb5d50b;0x4c3f7be119d];[0x0;0x30b27ef2fb1b2;0x3a7c0ec48c4cd;0xaeba73907c9e0;0xb9775291db6ad;0x59be23b89699b;0x6b1a2cc5f336b;0xfc70fc6e540b8;0x465832487f561;0x1934164538c95;0x97894ec8b94];[0x0;0xc8ef07be9092a;0x7682e7e872b7;0xb01423964d7f5;0xef973488821bd;0xfa110119fe355;0x7e3110cfd8b6f;0xb3cb868954866;0xf55600176ef4a;0x761f87c320d80;0x185236957cc20];[0x0;0xd2b2a0c5a08a2;0xe16ce808757a9;0xee7d84b37daeb;0x1fc5d34d6466d;0x3d5aa0151d802;0xedb10490862a3;0x39e94c84e912c;0x5a9056829a7da;0xee583e0120b7d;0xf0622a7d20]]);
 ((V [0xbfe4e8ac5fe3c;0xab6783e1b66c2;0xda1abfb53e594;0x3bdc140497211;0xcb5e787ac6644;0xd7aa474b49503;0x8d81f5fbf141a;0x45e2e18832c7d;0x6a843b391cb3;0x51dec393309] [0xae57201aa637d;0x3619ee3db8cc;0x35953d10dc4f;0xf9816b9cc90f8;0x37e1a0c6060c6;0x7ec02fa0ccccc;0x92a6e7f8f7c24;0x47414e24991f9;0x7f61eca0c621a;0xe2a907bc1fc] [0x74a4df99c841b;0x172bceeb546f8;0xbefd7b9f795d5;0x2f1c463650c17;0xe7105b748b8cf;0xce21a04f9be9d;0xf193c23afe123;0x6ec09e30acd4e;0xad9d02637f1a7;0xb9a41eca71a]),[[0xc7b9af6f31eed;0x6381abab0ef9;0xc0ec373e85df0;0xa9e1f36aa4e9a;0x926c9bd313454;0x308ff007c6b19;0x12f15b1027899;0x1a7683842c747;0xfbe462ba1f8c6;0x4e94ef9cb66];[0x743d1dee6ea82;0x29f8389767d66;0xcf46bad6420ef;0xe98e3b41cdf04;0x41e3a5415ee64;0x8b5894575264e;0x2075f28805fc0;0x761f633c03a63;0x80d151b7db66f;0x7f51d84fb5e];[0xd861481d9922;0xb36a6dc58ebe9;0x523f0775496fd;0x8b7bee02f47ef;0x344474d5ccc4d;0xedd77cfc6fb02;0x9bb58870491fa;0xfdac4a0589934;0x59e59e072b6a9;0xace76fcc293];[0xd861481d9922;0xb36a6dc58ebe9;0x523f0775496fd;0x8b7bee02f47ef;0x344474d5ccc4d;0xedd77cfc6fb02;0x9bb58870491fa;0xfdac4a0589934;0x59e59e072b6a9;0xace76fcc293];[0x71b006bc38c53;0x522586432072b;0x65201b9fbb501;0xab67a55929e47;0xafd2f91ca5cf2;0xf6ef1df35766a;0xa342115ba5587;0x41f9a6bc2f2b4;0x274794595d25e;0x1fbd357ad20];[0x28d173235e30;0xd7d2b2544763b;0x6a269f3686bed;0x3e2695e8a40bd;0x9210ac24b9172;0x94697663fafe3;0x7d33e12c60a38;0x3425bc7fd47ae;0x5989bd5e7e411;0x5f94a2d4e3e];[0x0;0xf920dabc268b5;0xe5167a6ee83e2;0x52c0cb7e7725b;0x8c8861d3b651e;0x79c5387afbd01;0x793683b1032f1;0xb2b6de834109f;0xf68ab9096f71e;0xfd1fea68cb18f;0x6aec719a249];[0x0;0xda61ad17bda48;0xc854fce0b298e;0x4753e690841be;0xacccf8c932656;0xe0bb7824f241a;0x42d6882c6381c;0xaf8fc4f1ed76f;0x7e3ac356f2293;0x5e678e26777e0;0x35131bb2c03];[0x0;0xd2b2a0c5a08a2;0xe16ce808757a9;0xee7d84b37daeb;0x1fc5d34d6466d;0x3d5aa0151d802;0xedb10490862a3;0x39e94c84e912c;0x5a9056829a7da;0xee583e0120b7d;0xf0622a7d20];[0x0;0xd2b2a0c5a08a2;0xe16ce808757a9;0xee7d84b37daeb;0x1fc5d34d6466d;0x3d5aa0151d802;0xedb10490862a3;0x39e94c84e912c;0x5a9056829a7da;0xee583e0120b7d;0xf0622a7d20];[0x0;0xb971c65baf2ab;0x31c7b38640ab4;0xadc47fd33bf4d;0x472cdc87b2eb3;0x3fb8a2ce9b17a;0xbb16bf0073d7e;0xc68b9f4500e80;0x5394fdeca0ec5;0x39b63087afb03;0x24f5310ace];[0x0;0xd3433770517ec;0xb6efac29030d;0xf8295995a0a97;0x58c8f3a30255b;0xd7150350070aa;0x81e23a66b9933;0xbacb31acbb9c6;0xb2c2e8816050c;0x3e3ec48404d8e;0x61b84fc8771];[0x0;0x52c9924800e10;0x1b4a4fdf7fcdf;0xb4fc7699ddaed;0x56d27d1240cba;0xf9a60ebaae8df;0x1db05951d68bb;0x7f6c022e04c09;0xdb9864d1fefd0;0x944468261d88d;0x28b7afaf599];[0x0;0x8448a6bde829c;0xcf189a9e117de;0x24a49a5ef2895;0x2bcfb6c14eea4;0xcdba5ed5f0997;0x986565c4d2d37;0xc7f07f732f548;0x9b0f090e8b9c3;0x4be6fdf86fba9;0xe31af67204efb];[0x0;0xde4f94b660747;0x261520be6502b;0xc8a144a79c716;0xdd2412eb14088;0x5b0b6a09c473c;0x14453d8c88f2c;0xc964f1d1f3e9d;0x888303df18b6f;0x520596d7faffa;0x487cb7304e2]]);
 ((V [0x87eaf22ef8f15;0x145b5104b57d8;0x1497a3466e28c;0x27bb997e4f930;0x57458efea5cf8;0x92828205869f7;0x1de995192a31;0xffab7083205b7;0x8fe5e9a47bb;0x1683a088527] [0xc57ed4057bd38;0x8207e8b24d492;0xfbbd2de992aa2;0xbdaed539e515;0xb49c5af27efa7;0xbbe6f1d7cdaed;0x870a9b397a778;0xd001e58d4084f;0x12d25c7e885bf;0x1c005f73288] [0x2d3147730a506;0x598250bb4bf22;0x76500605d43ee;0x350f205b7a699;0xc4a740b215225;0x8504a03fa476;0x8fd2df027b99b;0x9372159fc09a8;0xabd63b82546da;0xc761e74e454]),[[0x3dad82057a676;0x80a965b355240;0x155c552beb741;0x8126d0a33260d;0x53d3ad4687961;0x5e99775399012;0x7551b3a319f5d;0xcb53d038919fb;0x7429d3912d060;0xd5632bd3fa6];[0xdc52fa0cd7385;0xacc244ea346a3;0x1b0a83cb5d13f;0xf1d67189d207c;0x655ef4fa0c34c;0x94fb3483cd479;0x22f3c1f1bc352;0x1551b2df46d7d;0xf183c84dc132e;0x6f25f3d9a3e];[0x74a4df99c841b;0x172bceeb546f8;0xbefd7b9f795d5;0x2f1c463650c17;0xe7105b748b8cf;0xce21a04f9be9d;0xf193c23afe123;0x6ec09e30acd4e;0xad9d02637f1a7;0xb9a41eca71a];[0x74a4df99c841b;0x172bceeb546f8;0xbefd7b9f795d5;0x2f1c463650c17;0xe7105b748b8cf;0xce21a04f9be9d;0xf193c23afe123;0x6ec09e30acd4e;0xad9d02637f1a7;0xb9a41eca71a];[0x3b60e0882c4c2;0x9700fb07e0f2f;0xae373fc8cd2cf;0xa23dc0bf26e18;0x1f0baf5bf8230;0xa7e725c3ebfe9;0x8603440749d3d;0xfa9899b8f9a1c;0x506ef4ee1a8cc;0xfd23b6a67d8];[0xa0f21984aac8b;0x15c149e253774;0x6cd344028fe70;0x4f98b0caab263;0x4653459e1411c;0xed140ebfe1490;0x9cf07dea72614;0x1ab919264d360;0xa114d35fa6a61;0x72023d33266];[0x0;0xb38eb3c040736;0x29336bf7876b0;0x8d9f07f546b4c;0xaa47bd140a386;0xdce3071127957;0x4943c524dcd2a;0xa21f2e37ffb5;0xb8865fadadc3c;0x5981d7cd14516;0x72ccd87c98a];[0x0;0x2c8b5b86119ab;0x7e4c3d4a486c7;0x6c8cfa1cfce14;0xfe5b108021e40;0x943c1e2b9f208;0x7b5b8c650e9b;0xf91adfff9dfec;0x1a27a21ee590d;0x3a5a83721a817;0x9abd77dea1e];[0x0;0xde4f94b660747;0x261520be6502b;0xc8a144a79c716;0xdd2412eb14088;0x5b0b6a09c473c;0x14453d8c88f2c;0xc964f1d1f3e9d;0x888303df18b6f;0x520596d7faffa;0x487cb7304e2];[0x0;0xde4f94b660747;0x261520be6502b;0xc8a144a79c716;0xdd2412eb14088;0x5b0b6a09c473c;0x14453d8c88f2c;0xc964f1d1f3e9d;0x888303df18b6f;0x520596d7faffa;0x487cb7304e2];[0x0;0xe737dc4f59381;0x6ab459af74c65;0xfabe7b31ea35e;0x3485e6876f2a5;0xed676536976c4;0xd0bbc42634ea;0xf4125e2a1e68e;0x617b37b6ade45;0xad88cf27dd7a1;0xc8aee1435eb];[0x0;0xa9ac690b58653;0x445f7d3d5290b;0xddad30432fa15;0x226c46d38ac31;0x823cc6cc1efae;0x3ae72d48309d3;0xc24ced2217287;0xd5c0aaed2ec02;0xd2e7d3c271ab5;0x1a2eb99aed6];[0x0;0x1c8dec36af5f8;0xd54de94b3a1c1;0x3ec3a3d89d030;0x6771c0e7cbcdc;0xd9186676bcb8;0x7157621a4e0a6;0xae69afbee6cb1;0xc5cf9ce207dfa;0x1ce2126a19265;0x9c6691364d];[0x0;0x243456c3d2206;0x5b74b99adb7e4;0xda02dd6b604e5;0xf6250af6a81bd;0xec3015e37251;0xe80b70e4715f3;0x7ede42ba057fe;0xde893a9f1abc1;0xfd9d8be11ee69;0x1c1037827ec69];[0x0;0xdd1c0d893ade;0x74e98db8fd8d1;0xcc13d7d18072;0x12090f0bd4345;0x28eb76c43b03f;0xa48f065cbf0f6;0x43181f28d8217;0xe7260a2d47811;0x7e23215694a1c;0x2766df3e24]]);
 ((V [0x1bcbb7d19170d;0x790c5c5f3da08;0xe51658b75fc7e;0x82df20f997213;0x789c1f1ae8f02;0x84ecb99b605e0;0xbc14ee6d0b46e;0x874d2e39731b5;0xbd54a21cf6389;0x445c61d9ce5] [0xfb23dc6a32782;0x96375e3ce59be;0x703a93136eb3e;0xe52febbead202;0xe30528765eeeb;0x6ad14374aea2b;0x3050adbbf405d;0x8845734127ed8;0x2ed388b68cd6d;0x4f8ee64e465] [0x8eeeeab36600d;0xb30db4e3d8d22;0xaea21e119f48;0xb1ebfb6e0054a;0xc67ae2a05840b;0xe38a80ab46568;0xe5a81f2d1d824;0xf078cf4dc6498;0xd5a8d284f8430;0xc40047aaa0e]),[[0x5f962017daf74;0xa14fddae55172;0xbc549628a28b0;0x8f5e901abbd50;0x356b55174359;0xfac6dbc2df4f6;0x1b547b8443c54;0xfaec6eba8986c;0x2229727a3e9f4;0xdbfef736806];[0x372a483314063;0x558ca545f2103;0x41e21faebd899;0x5a20e8428bb32;0xe8165b92893b8;0x4f9641a48ebb7;0x32c011e3765c3;0x2836ce8fa0c78;0x465466fd278fb;0x1078e4a09c0];[0x2d3147730a506;0x598250bb4bf22;0x76500605d43ee;0x350f205b7a699;0xc4a740b215225;0x8504a03fa476;0x8fd2df027b99b;0x9372159fc09a8;0xabd63b82546da;0xc761e74e454];[0x2d3147730a506;0x598250bb4bf22;0x76500605d43ee;0x350f205b7a699;0xc4a740b215225;0x8504a03fa476;0x8fd2df027b99b;0x9372159fc09a8;0xabd63b82546da;0xc761e74e454];[0x7cd3b0f71b08d;0x6f202411bcc10;0x5f5831ae18f86;0x2ab280b274158;0x8e863051585c0;0xcad1adf989ee7;0x1485005aede85;0x5a10708eb0f2a;0x1b75825717c4;0x1831d788a37];[0xba56973bf8d9e;0xe66c8134354f2;0xe289ee00a4912;0x2f6e6790179d9;0x59902b4130df8;0x84c493ab04cd0;0x1e3b11888873d;0xce265e00efd4e;0x449d0ed7b6136;0xf8470d17f89];[0x0;0xc8fc5f9a94c34;0x52a2da81255df;0x4d9b81610fdd3;0x483d67197f84c;0xaa600d53cc0ff;0x320ae2bc3cabc;0x500caeb3f2893;0x8c405170e0ff5;0x69bf01a18ef59;0x7b4c3cd44ba];[0x0;0x340f957202103;0x8ded6b2b2a8bf;0x11db61aabf08a;0x49338fd17fc47;0x74cceff066e06;0xe9cd537f890d3;0x89bc27effc49a;0x5c5fc585249b6;0x619c5aeb0fc5;0xab57548d5dc];[0x0;0xdd1c0d893ade;0x74e98db8fd8d1;0xcc13d7d18072;0x12090f0bd4345;0x28eb76c43b03f;0xa48f065cbf0f6;0x43181f28d8217;0xe7260a2d47811;0x7e23215694a1c;0x2766df3e24];[0x0;0xdd1c0d893ade;0x74e98db8fd8d1;0xcc13d7d18072;0x12090f0bd4345;0x28eb76c43b03f;0xa48f065cbf0f6;0x43181f28d8217;0xe7260a2d47811;0x7e23215694a1c;0x2766df3e24];[0x0;0xc561d2ebf72b5;0x29037af371fe2;0xc6311394c3207;0x5e0794aee1f93;0x1ea0d0f9a3200;0x5c474f398c41f;0xe7e7bab87ad0f;0x7a2f60eb10d7c;0x2edbd8db416dc;0x31014e1547];[0x0;0xf98003c04c10d;0x3bdde3b3a5239;0xc07ce7636aa8e;0xce6d31dc1eb6f;0xd46c92d0c8610;0x93d2872f5316f;0x56784ccdf8105;0xeb6ed7be586f9;0xa4fd8a96ad189;0x1fae3451e5];[0x0;0xb24c39625f0b8;0x49e772cddca75;0x35f7738a894f1;0x301518916713a;0xd1089778d776e;0x83f448835638d;0x1922e9b0e0d57;0x558a9f0fd60fb;0xb1468e31945c6;0x4660e78a58];[0x0;0x346a4f74ca4cc;0x86aa444d37efd;0x2ef6f28033c17;0xe3e1adfb29379;0xee9157bed8c1e;0x5cb0fca5c0037;0xfbc0f26af805e;0x2f08d2a12af16;0xfe676d91fd9d0;0x4fd956b426913];[0x0;0x46a270943580b;0x4b4d77d7556af;0x72d566a98a69d;0xb0390b84e5fd2;0x1689c84a5eeb5;0xa26ee9666c51c;0x389412c17a2be;0x44cdfa7719c7a;0x5b5371760bea8;0x153eaaf0645]]);
 ((V [0xa2f8989b97ff1;0xa9a09f7d6f72;0x4932de66f678e;0x5d3492801f304;0x558a11e75bdb6;0x1bb66497acc9e;0xa2a24795493d2;0xf01dc092fbe11;0x2830b6f33f555;0x31a65775f3] [0x8fefe4b8b4a65;0xc485acc691e71;0x8e86da9eb7d74;0xb80758cf20915;0x21b7e5efd43ca;0x999ea2d070cd3;0xb2e9d3e7069d6;0xa8a1ccd1af0f2;0xc1120b130a631;0xd8e8ff2fbd7] [0x3a4b654bb5b2c;0x944f278aa4635;0xddd34f756c0cd;0x1ca3148e32b0d;0x9270a096d347e;0xcb5cf206aa28a;0x2573810f4d2e3;0x8b121a6017f88;0x4304af4f63880;0x9657a4684d6]),[[0x4d48ff28cb72f;0x73268d381c85b;0xa428bdc5ebcc2;0xebacc7800b23a;0x121980f810b67;0x7a14228b9aa07;0x8d76cc4fc972a;0x311bccc401f01;0xf31c1863b6005;0x493c90aa7c];[0x2766e35b0ac1c;0x5c6309b653250;0xaa6d9e984dfb2;0xc43e2b4eb8b2c;0x6141f642d4d56;0x8f65c127dfbc3;0x8af662836c9d4;0x6b43cb63eab5f;0x9ac328779e3ca;0x78713d6a9ee];[0x8eeeeab36600d;0xb30db4e3d8d22;0xaea21e119f48;0xb1ebfb6e0054a;0xc67ae2a05840b;0xe38a80ab46568;0xe5a81f2d1d824;0xf078cf4dc6498;0xd5a8d284f8430;0xc40047aaa0e];[0x8eeeeab36600d;0xb30db4e3d8d22;0xaea21e119f48;0xb1ebfb6e0054a;0xc67ae2a05840b;0xe38a80ab46568;0xe5a81f2d1d824;0xf078cf4dc6498;0xd5a8d284f8430;0xc40047aaa0e];[0xd2b8ebf263776;0xd35a110d23f05;0xd9e6f63e5521d;0xb06e08ae2ec4;0x18b96121b000f;0x33041e416c971;0x714a4155bc07d;0xabc4adc11041c;0x167b08f095a79;0xdcd90cfb34b];[0x54adf768a726e;0x8908f8a92f34a;0xd086a859f8d94;0xb9374ac3d5c67;0x4888952124d47;0x5c61a2e673252;0x19ac212db0957;0xbf7f1da2da743;0x84481f8708950;0x9b98306f6a3];[0x0;0x3252d3c9b0717;0x8ac0f1b47203;0x7bf3bb68474bd;0x51dde90ef755a;0x8ef0329b27345;0x747d5a553505b;0xa6554e2f9a68c;0x10589a9d45c08;0xe75c0e7c547fe;0x7934eff0b84];[0x0;0x54b6005e3a081;0x6925e832ea1f8;0xf2ae431f09157;0xe4b06db55c51f;0x3952be1d8f76b;0xe6591c07417de;0x339db3a52ad0e;0xa5815d4c57c42;0xb3cc53b4036a;0x3812734324];[0x0;0x46a270943580b;0x4b4d77d7556af;0x72d566a98a69d;0xb0390b84e5fd2;0x1689c84a5eeb5;0xa26ee9666c51c;0x389412c17a2be;0x44cdfa7719c7a;0x5b5371760bea8;0x153eaaf0645];[0x0;0x46a270943580b;0x4b4d77d7556af;0x72d566a98a69d;0xb0390b84e5fd2;0x1689c84a5eeb5;0xa26ee9666c51c;0x389412c17a2be;0x44cdfa7719c7a;0x5b5371760bea8;0x153eaaf0645];[0x0;0x1e1c13dc7fd02;0xbe379335fdb9a;0xb76f47cb26b2e;0x74017a5d2b6d4;0xf92dca2ff3ed2;0xdc4666dff3a68;0x18bbfa3d95840;0x84e467e2bf2b2;0xdf0b400e0f49a;0x18b981e89d6];[0x0;0xb0900dc1f75ed;0x112ebece5d826;0xcf8ab3deee77e;0x9ef25b52cf156;0x27f2f3205ffa7;0x3a7e695315dfd;0x8a01265ed6c4d;0xb891771461d71;0x3e301c4e82b71;0x124135522f9];[0x0;0xf89303859e035;0xff84b24313b1f;0xe8bdee2aff92e;0xfc2f3052a4703;0xf4ecce8986bb5;0x100c406ddc843;0x82eb4456aee28;0xa122f439d832c;0x9479207afaa0a;0x175bef5535];[0x0;0x9e88e98b2e98b;0x46a52ba8efe56;0x597a59eef0101;0x784899d751f89;0x5e2d42f8306d1;0xb79a315991036;0x90c7a652d93ba;0xa85d94b5705ff;0xa90a4e4bfd8e2;0xd95bdb046c58b];[0x0;0xea83e3b12c3cf;0x1cfda9c20897c;0x790f26d0247d8;0x60fffa211560b;0x2ca023dfe6919;0xb086e70394627;0x66859c5fa4db5;0x772499d611721;0x76afda048eb88;0x2a118a08bb]]);
 ((V [0xf7a937ed31e19;0x5fcc4182fcd82;0x1ff2188365f9f;0xf4ee9cbc92393;0x6753f13020bfd;0x4b0b47327c22;0xab9426ccb2c36;0x183a006baa0cb;0x610ae1fc8023c;0x207cc6cc0e7] [0x84b0eb143853f;0xc05ea42ed9fe2;0x4bb5960dbb365;0x9ff745dd7763e;0xfdf1182abc154;0x74d97adbcf0ae;0x32658c2900906;0xfe71d82354b96;0xd574188ab5f9a;0x74c465f189e] [0x628ae6330047c;0x2accb641f7e7d;0xbd323b8c8d9de;0x62b6f0714827d;0xc845e86244659;0xfce3f6f5175f7;0x700c8b8f3f4d8;0x1c68c167858b0;0x7d1446d63d8e9;0xd8ffb64b241]),[[0x39fe83bbeb9c0;0x5f1ba7f3d795b;0x2cbe89ab2246d;0xa854389acd6a4;0x921ef4e1e0a54;0xdd67d5de0d776;0x5bea25a780647;0x5de6a2e153337;0x909d9c8b51620;0xad2e9b1e7f1];[0x67bd441ac278c;0xe79602688d120;0x2ddd680d332b3;0x9e2809a14fb;0xad6c1dc52a33a;0x33d46a9da5970;0xa4b58e2d28283;0x2095d6f438a6f;0x16129dbdd4953;0x3d826aff1be];[0x3a4b654bb5b2c;0x944f278aa4635;0xddd34f756c0cd;0x1ca3148e32b0d;0x9270a096d347e;0xcb5cf206aa28a;0x2573810f4d2e3;0x8b121a6017f88;0x4304af4f63880;0x9657a4684d6];[0x3a4b654bb5b2c;0x944f278aa4635;0xddd34f756c0cd;0x1ca3148e32b0d;0x9270a096d347e;0xcb5cf206aa28a;0x2573810f4d2e3;0x8b121a6017f88;0x4304af4f63880;0x9657a4684d6];[0xce2ea2e99e601;0x43e964bcf3175;0xe740e0446dad7;0x5378c92f09d7b;0x5919b464a829;0xa6c878e4859f4;0x801b1417ddba8;0x827db66bf1d29;0xb345771ee6894;0xc53f8e31b5a];[0x998ea13123f53;0xa3ac9dab99faa;0x469c87c8c57dc;0xad255eda9777f;0xa7da827edfb10;0x8d0bf1b91ff7c;0x249a7a154a6da;0x9e18208846d46;0x62cd269eee0be;0x7842dccd663];[0x0;0x6cf2284182000;0x166617776df6a;0xc1f302a00d3d2;0x70c1a280f6e64;0xb8476ddd3109;0x99728e6f731db;0x47e37a3f2cc7f;0xa0af1880a2db0;0xb987c4368d1bf;0x5cf8b3742b7];[0x0;0x6a03e7f1a5eec;0x3d6166059e9e8;0x30c5b563ed290;0xb4e4af5b8771d;0x3f8c9b685c951;0xbcc522d9a7e56;0x7fa2cab25af5a;0x190c1af1e6999;0xf369fd7828ece;0x65b498f3007];[0x0;0xea83e3b12c3cf;0x1cfda9c20897c;0x790f26d0247d8;0x60fffa211560b;0x2ca023dfe6919;0xb086e70394627;0x66859c5fa4db5;0x772499d611721;0x76afda048eb88;0x2a118a08bb];[0x0;0xea83e3b12c3cf;0x1cfda9c20897c;0x790f26d0247d8;0x60fffa211560b;0x2ca023dfe6919;0xb086e70394627;0x66859c5fa4db5;0x772499d611721;0x76afda048eb88;0x2a118a08bb];[0x0;0x2c5ed9ad40b68;0x9615b2f9bd417;0x8cb26a354a589;0xde2ada9d31632;0x886d77db1a91f;0xf8f51b554e2e;0xd2684678b9981;0xdff97b4ee4e48;0x8f22a8031190b;0xb7ca02b014a];[0x0;0x41ea398810a02;0x607b09ddb49f5;0x56be0bde4db6e;0xa0e556daa145a;0x744d9696f7922;0xb4dade8cc2b8b;0x6b5aeeb57a648;0x2b0e129ecf027;0x1ee1c62b12fe8;0x9a11990b];[0x0;0xcaa50d6a4942b;0xd7b16b9fcdad8;0xe98a4bba92b45;0x3929617dd1f50;0x4dc78cd08119b;0x3ad8772e3cae4;0xd12ca3ec39dcb;0x50dea5a06acf3;0x5c0241696a77a;0x7ce484f9d3];[0x0;0x5d99645d78739;0xff91f2209ac23;0x3f79cda9234b0;0xaf70879d865ed;0x91ff128ac4f56;0xa217294184d2b;0x609a2c1468d22;0xaf754e2634f50;0xfee150873a3f9;0x751d1c0ea7762];[0x0;0xb1133c4c2d5fd;0x53ffabec3a08d;0x555e43dd84df1;0xed0a9cf503f8a;0xa41146e27d7c3;0x9e909ecf81366;0x64a19c678e2f6;0x5c1f74b233c4c;0xf1ebbd4adcaa6;0xed1768c8c2]]);
 ((V [0x6965e574df50c;0x84a842ef66f93;0xa385ff5d0aef6;0x6889ba3be3a2;0xd2c57529cbcc1;0x21aaf4897c5b3;0x116b6673dd90f;0xa063f09fc31c7;0x516ceaf341f2a;0xa891b8a4f2] [0x7272b64933065;0x1d66bbd298444;0x1adfe2666eeae;0x8f09cc3a23de8;0xe32bd3711328d;0x66b4df78eb91e;0x704397b42136c;0x5815fadb48e57;0xdb2f82ef141c3;0xf00f9b34c0e] [0x90bb69cbc0a7a;0xdea816b113761;0x3946cba21a937;0x134e14797553e;0xd49d6b0732468;0x1fb1281449599;0x23dd592dfe4ad;0x851e84019a0f;0xe391160e5893a;0x5b99d0864e]),[[0xd2ecc0c8a62a7;0x2d531038e0d8b;0xf3ba8992cf7de;0xdc3d359fd08ef;0x3d7041d784823;0x63c29f056a5d2;0xc5454ede354de;0xe6dfcfd0dc080;0x13f86300edd95;0xfeb79be9b35];[0xbc5701a12b065;0xea6a53dd23109;0xed0b9e8d8a0fa;0xd0aeb5aec523d;0xec7208511f586;0xd3e2efee97306;0xea4cbf6140e48;0xa9da2023ed64;0x66dafc3f24b5f;0x54898b8a979];[0x628ae6330047c;0x2accb641f7e7d;0xbd323b8c8d9de;0x62b6f0714827d;0xc845e86244659;0xfce3f6f5175f7;0x700c8b8f3f4d8;0x1c68c167858b0;0x7d1446d63d8e9;0xd8ffb64b241];[0x628ae6330047c;0x2accb641f7e7d;0xbd323b8c8d9de;0x62b6f0714827d;0xc845e86244659;0xfce3f6f5175f7;0x700c8b8f3f4d8;0x1c68c167858b0;0x7d1446d63d8e9;0xd8ffb64b241];[0x6780d298c166d;0xdcd822839f73;0x11ec89d1db8c9;0x4f550e9dd061e;0x3addd3e26d7c;0xed46d79a0144;0x9dd1992a97aa;0xb361adb3523cb;0x9d6f7cba1e190;0x569107b17f2];[0x54d62f08697c0;0xdc9cd1b4e9196;0xdb1f14bbae831;0x8159a710f4c1f;0xe8c42b12f880a;0xc50e8274f71c2;0xe06fa5ce9769e;0x573bf44eec999;0xc96b7f85069ce;0xfdf883d9186];[0x0;0x2a17b3618631f;0x54de583405b66;0x90e59b5253fd;0xfc8e15e5a9370;0x76beceafe3caf;0xfa383508ce817;0xfeb546bab7c85;0x538a6fc768723;0xb4054306388da;0x863118b733c];[0x0;0xddc69a3abf389;0x7013ae5a26264;0x3fd1460ec61f7;0x87f4de58c1670;0x20b04cbbff7f4;0x6dfd5d2e68a52;0xd4943c08ab93d;0xceb7a42a98b1;0x2831ea64ab12b;0xd7e959d2c9a];[0x0;0xb1133c4c2d5fd;0x53ffabec3a08d;0x555e43dd84df1;0xed0a9cf503f8a;0xa41146e27d7c3;0x9e909ecf81366;0x64a19c678e2f6;0x5c1f74b233c4c;0xf1ebbd4adcaa6;0xed1768c8c2];[0x0;0xb1133c4c2d5fd;0x53ffabec3a08d;0x555e43dd84df1;0xed0a9cf503f8a;0xa41146e27d7c3;0x9e909ecf81366;0x64a19c678e2f6;0x5c1f74b233c4c;0xf1ebbd4adcaa6;0xed1768c8c2];[0x0;0x45ced25ce284c;0x6069e1713614a;0x207185d491e68;0xf39029a53419d;0xa2dbf0fb9bc87;0xafa03dbd3a4b0;0x72e845f8604ec;0x39632e19f60ff;0x2c53b423c77b8;0x3542930f277];[0x0;0x1999abea0f7c7;0xab18db216fd03;0x2026b7d563483;0x2299285043f4f;0x9520080ab3731;0x9968da957a746;0x8b04dbccb2e2f;0xa793e49482106;0xbcf915f69d943;0x41f6e8433a];[0x0;0x86ce66a2797b0;0x6d90b338d1976;0x37be81dfd1e68;0x314834575f098;0xb396e3708e3d1;0xd881f860d2a8b;0xdab74e06d6280;0xc633816a9cea;0x687f527b6c1c9;0x37aa627451];[0x0;0x8675af946e78d;0x8eacb997567e2;0xb433018321007;0x9e290c67b18ac;0x737172df8a60e;0x1a9ac8cfe8443;0x70e94e6f9f1cc;0xe5053a764e88f;0x1d97b53769970;0xf0b064b5d3e04];[0x0;0x2e129abef6aae;0xbac3f26b5b2d7;0xa9c877f8d29db;0x24debdef85044;0x9bb80d47b6c91;0xd464f349d6605;0x17333fc0e5926;0x2756a162cb060;0x45b8569036786;0x9e12e3d76c]]);
 ((V [0x2d5f7fed12cd2;0x7534ac25698c6;0x5347f85dd4da8;0x79140f2484895;0x8e4bca0a7b269;0xbd9fe6ff122c0;0x8535e66b783c7;0xa4a1a86bcccb5;0xbee3c8a305a42;0xeea5f5d6019] [0x69f3d5a9b5b28;0x77b71b50387a7;0xf4cae554af285;0x6cab149028a38;0x8022c33dddc16;0xac70476e95957;0x31ada60b425e;0xd8ab8c8a3b9eb;0x5720a8c3776e6;0x228d7f1bac4] [0x1cfb61aa38d39;0x98ea6d363f43e;0x1c68c83f53190;0xf2c8b3f251b20;0xfc95d3a67eee6;0xcc0cbe06247be;0x3a618472e097;0x59c1f39517655;0x3717660577454;0xc30d7f4d74b]),[[0x2150442085331;0x36228420539f1;0x6f510b8f91e84;0x18ba1b88c76a0;0x273a25e78c783;0xd851531336f14;0x407ea16e1c9ba;0x981cb33aac4de;0xb6fb85557900b;0x43b94d3d4f7];[0x24c07d8d5a0ad;0x446d66f18b5e2;0x620a3510c7efe;0xb79fd2486bd07;0x2d01549fb9610;0xb57757e819d94;0xd07ea1562c5f1;0x4c9aab9779f3;0xe9a49e184a42f;0x26dccd16a2];[0x90bb69cbc0a7a;0xdea816b113761;0x3946cba21a937;0x134e14797553e;0xd49d6b0732468;0x1fb1281449599;0x23dd592dfe4ad;0x851e84019a0f;0xe391160e5893a;0x5b99d0864e];[0x90bb69cbc0a7a;0xdea816b113761;0x3946cba21a937;0x134e14797553e;0xd49d6b0732468;0x1fb1281449599;0x23dd592dfe4ad;0x851e84019a0f;0xe391160e5893a;0x5b99d0864e];[0x47d81bfa47db5;0x3d84a9c53ebae;0xb7db6d061b8d1;0xb8186d4a4675b;0x73938205d33f7;0xb75882c1604a7;0xcd32c2054d960;0x67766b9089a6a;0x8a2cded1d3b2e;0xd023adb74f4];[0xdce86193120c0;0x6e8bd2c4ca33;0xaa2ec80aac62d;0xff8764fe255ab;0xb96dd299e6218;0xfe1ed526b98ec;0x34bdf50dec90;0x9d533f28edf89;0x5f77bf4676900;0x324a1f1a1ae];[0x0;0x1198141d1af99;0x8b00b3db1726;0x24b96882445d7;0x4a5c4f24a1c4d;0xc7275cc7575f8;0xf5f694388cbdd;0x7fceb572fcee9;0xa70d8af7c3046;0x8a26792e1f180;0x38a554a337];[0x0;0x35e9dd1b43feb;0xf67f731e94cd1;0xf68b67ffa2005;0xb0db5f2adbb3b;0x3734c1d0f0d23;0x82fd21acd8835;0x5b4296cb10788;0xec604308004d1;0x84496226f0661;0x183b8f5e0b];[0x0;0x2e129abef6aae;0xbac3f26b5b2d7;0xa9c877f8d29db;0x24debdef85044;0x9bb80d47b6c91;0xd464f349d6605;0x17333fc0e5926;0x2756a162cb060;0x45b8569036786;0x9e12e3d76c];[0x0;0x2e129abef6aae;0xbac3f26b5b2d7;0xa9c877f8d29db;0x24debdef85044;0x9bb80d47b6c91;0xd464f349d6605;0x17333fc0e5926;0x2756a162cb060;0x45b8569036786;0x9e12e3d76c];[0x0;0x9f1aa216574bc;0x5afbe0e8ff39;0xdebbbae3eb24b;0x232d700bf3786;0xb06045e9fc442;0x1c807ed767b6;0x65b12c1fc9d68;0x54c1ac303864f;0x537eb19c88268;0xe11d43f6780];[0x0;0x14a1abb70a9b0;0x1969e56bac5a2;0x2fe203e19d0c4;0x5495d2f76fcde;0x13ebbc7c76884;0x6c84283ca7051;0x1779645d27c97;0xbcd50ed6bd340;0xe12e5ce2bb175;0x6eff954b2];[0x0;0x346732e41eff8;0xd4f7b085e8b2c;0xe29a79c7b9bb8;0xa5cda73b50250;0x77ee60568708f;0xed2cb5c41e772;0xe52d88d19b49b;0x701f0f9bca95d;0x24db1f9912a30;0x243a784d08];[0x0;0xb8a31e07738a4;0x2b7b341807797;0xdd5b39aec706c;0xd0de33871c2fb;0xe9707454ba433;0xec16670110d6f;0xa9aef03d3c798;0xcd1d15589fb10;0x2e460c0f7dacc;0x22afb8ade5967];[0x0;0x2e2e32d6d45b1;0xa570166f5c8dc;0xa02a0703ae747;0x583f723f0eeb6;0xdac4976a37f4d;0x57f9427062f7f;0xed8891fed86a;0x100dcec7b01bb;0x3ef1b90c342ab;0x2035f28cf42]]);
 ((V [0xc093b1028bc57;0xf02a8fea372ac;0x56a2a89a18f7f;0xd7f042537dbd7;0xc7e82846405d0;0xf6d879028d0f6;0xbc1134f75f8cf;0xb2134ed5a8ad0;0xc0662eb4c0206;0x2d6a39ac056] [0x16ef604647d1f;0x42fc38af062c3;0x8f95263be9dc4;0x716c1edff6ca2;0xe868c1c416b36;0xd1b39e0b5ae93;0xbba5ac07016fd;0x663257affa1ee;0x1ed1707b1bd4;0xa67389fcc3e] [0x7dfa7e778bbe3;0x6203ce7ede25;0x63ffa60f0f802;0xdc6e1493b13;0x6f00b18b06cee;0xb564ffd7823c5;0xcf01eb4f6b10c;0x4de982f9a8305;0xaacd3c5087f74;0xbf895426345]),[[0x808cd45f63eb7;0x5e0507e648985;0xf647847480984;0x8f83bd20b60ce;0x117f24e939a93;0x2784b52c9c4f9;0x1eb2502105cd4;0x9c8e82486dacf;0x5f77ea2da5c3f;0x75697f4a0c6];[0x6629795fa1f95;0x96e90783153a5;0xd5b331c8d7f9f;0x2ff6f769d2455;0x5336d5c204ca4;0xea8257bd42432;0x881ced36b1047;0xfe245d836d148;0x708d3e8590304;0x764eedb0877];[0x1cfb61aa38d39;0x98ea6d363f43e;0x1c68c83f53190;0xf2c8b3f251b20;0xfc95d3a67eee6;0xcc0cbe06247be;0x3a618472e097;0x59c1f39517655;0x3717660577454;0xc30d7f4d74b];[0x1cfb61aa38d39;0x98ea6d363f43e;0x1c68c83f53190;0xf2c8b3f251b20;0xfc95d3a67eee6;0xcc0cbe06247be;0x3a618472e097;0x59c1f39517655;0x3717660577454;0xc30d7f4d74b];[0xa67cee3d97826;0x8b401ae8614c2;0x182709f35f13c;0x5c7180c45b194;0xcf1e71e17ab1;0xda5c1a98776f3;0x97364424d022c;0xc79a58aa186bf;0x4b12c326865d6;0x6eacc558443];[0xbfac8b220a770;0xba8ec9ab3ee2;0xbd8c27d578e63;0xd38576a5772c1;0x4644eea3ed1f2;0x10263d24cad3f;0xf0e6a911e0e1b;0x368a04d954a88;0x257a7b5f09d2e;0x7a22858434];[0x0;0xf291bd91b231f;0x2ef889b0f1bc1;0xf0d97b05103bc;0xd41016d94c7cf;0x7c5b4a86e965c;0x763baac67b9b6;0x9989efff3fa7f;0xb08091b686382;0x13c262f168203;0x789ecd02aab];[0x0;0xe128f1d2ed486;0xa66b3cfdcbaab;0x40cbaecd2c275;0x423ffba0545a7;0x5bd11e5726597;0xda03d77aebbe7;0x23fc926182c3;0x1fc8ffe5724f0;0xb6c9ac252c439;0x59758cb3ba9];[0x0;0x2e2e32d6d45b1;0xa570166f5c8dc;0xa02a0703ae747;0x583f723f0eeb6;0xdac4976a37f4d;0x57f9427062f7f;0xed8891fed86a;0x100dcec7b01bb;0x3ef1b90c342ab;0x2035f28cf42];[0x0;0x2e2e32d6d45b1;0xa570166f5c8dc;0xa02a0703ae747;0x583f723f0eeb6;0xdac4976a37f4d;0x57f9427062f7f;0xed8891fed86a;0x100dcec7b01bb;0x3ef1b90c342ab;0x2035f28cf42];[0x0;0xb1d18e99e5916;0x508e5debd2cb4;0x374b77ec56f6f;0xbf1f7b1f9c0b0;0x9651772d24372;0xb22540351c62c;0xa5153bdac34e7;0xc06be0f6645b8;0xaaeb51e971a1b;0x4a9e3f89d5];[0x0;0xa1b1fce67348c;0xfee324cabf359;0xe1e321ca7a9c;0xd3fab8a379e29;0xd9baca58fe918;0x5cd5bffe6c929;0x370d767d74212;0xadb79a9901770;0xf53f4d1b0ceb6;0xde7900b0bce];[0x0;0x6e022b4f98a38;0x7d32f8c196336;0xdb826be054628;0x7fffc771e9028;0x7a440f46e4e80;0x748ab3dcc5a6f;0x1fb0cb7ba0928;0xe3b11bcf7f74c;0xd7b7fb62c2632;0x14fcf71d855];[0x0;0x60ef5ec50d7d0;0xf0412579e1c8f;0x9a52dedeb39d1;0x1ab052727be3c;0xd43e66913401e;0xe77aa806407e0;0xad2195b5db819;0xce7292e12b3d;0xfc17002e962b3;0xa6cd10f366586];[0x0;0xaed63a8bbd2a;0xdfadb474c4e1;0x299d56fdb5074;0xaa40aaf9d65fb;0x97780b5e4f239;0xf9cdcc6dcf943;0xf07ab5df02b8a;0x6c4fb411d04a1;0x7fc3f41d9cb6b;0x1d87609823f]]);
 ((V [0x2ef6d89577055;0x317bc371d31c6;0xf28458f50747f;0xda23c97bf4021;0x57b81d98319d6;0x4236ca008505b;0xeab7ea650eee1;0x51509bd5ebd;0xefaa7f90dcfcd;0xcf840f13677] [0x1aaf59daa066e;0x632c650737a81;0xca48a9ad41527;0xc66c9f0f66bc4;0xc76aa64afa10d;0x9af40f6747801;0x53a703ba2c10f;0xd4d350ef4b983;0x68c8824023322;0xb224457f192] [0x7663e9aef25ff;0x12babe44b04dd;0x40a721e3a53c2;0xbe81b4356d6ad;0xb598f318d13b0;0x917c6a1680992;0x7ffee10909a00;0xc95a01fec4507;0x8889f7b189285;0xe1709739ad5]),[[0xb6d36c47222b5;0xd764de0933b47;0x5de9dd5dc7a6d;0x9c8d6bf35c135;0xf9bfff58f49a2;0x19bf366e07161;0xbbb749fd36f57;0xda7a4874b3147;0xa65024c33bd0b;0xb6745981691];[0xdf8bf603fb5a5;0x60216d4d32397;0x127818187451f;0x23be0f9b14beb;0xbfc7ab8d367c2;0x9aee38c3c3984;0x4571c7d18eb4a;0x1aadfce58a481;0xa2874ae08f5c3;0x3a0447b68bd];[0x7dfa7e778bbe3;0x6203ce7ede25;0x63ffa60f0f802;0xdc6e1493b13;0x6f00b18b06cee;0xb564ffd7823c5;0xcf01eb4f6b10c;0x4de982f9a8305;0xaacd3c5087f74;0xbf895426345];[0x7dfa7e778bbe3;0x6203ce7ede25;0x63ffa60f0f802;0xdc6e1493b13;0x6f00b18b06cee;0xb564ffd7823c5;0xcf01eb4f6b10c;0x4de982f9a8305;0xaacd3c5087f74;0xbf895426345];[0x398e7b9ae52b4;0xa263cf77a7db0;0x90e19d0385967;0x5aa302f4bde5e;0xddbfa07488d70;0xe847fb0fff973;0x67d2c4ffac330;0x728716b2fcfa;0xdfb46e83b24c;0xa08a16b0ae7];[0xa5fd7a69160b9;0xbdbd9dd58a5e7;0x81967b14eebb7;0xc91b0ca656d8c;0xe2080b18ada51;0xb2a63db3c4010;0xdd9f02d1e2819;0x13858b7a5a786;0x948c03f854377;0x997a3105dd6];[0x0;0xdaa3f32198eed;0x2e739ab5ce34f;0x4e5b99524ce21;0x15fc45d2bda64;0xde082d98ae0a;0x49fd2a58aa74e;0xd286df22c8ea2;0x4975e171f1ed2;0x37de78087f800;0x7672234e2fe];[0x0;0x1c6beab83c156;0x5e5a8575a36fb;0x5a41846c022bf;0x53e002dc04477;0x9009768d34056;0x377a4c91441b8;0x501ede9a2e138;0xa28afa20e2dce;0xff271e373c081;0x8882af04db9];[0x0;0xaed63a8bbd2a;0xdfadb474c4e1;0x299d56fdb5074;0xaa40aaf9d65fb;0x97780b5e4f239;0xf9cdcc6dcf943;0xf07ab5df02b8a;0x6c4fb411d04a1;0x7fc3f41d9cb6b;0x1d87609823f];[0x0;0xaed63a8bbd2a;0xdfadb474c4e1;0x299d56fdb5074;0xaa40aaf9d65fb;0x97780b5e4f239;0xf9cdcc6dcf943;0xf07ab5df02b8a;0x6c4fb411d04a1;0x7fc3f41d9cb6b;0x1d87609823f];[0x0;0xd352d6dac748b;0xee79c6e123b9;0x76b37782088b;0x305210da88819;0xd3c35722aeaee;0x67c153ecb9b0c;0x3a6cc9aa25983;0xaf1b600a11ca8;0xf268b6622c094;0x6c3a0b19117];[0x0;0xcdd80ff453468;0x5baa30f8244bb;0x69a2a7a81dcad;0x91e33a336d1d9;0x822f7035b68fe;0xb783eaee93113;0xac8eeb6706f6b;0x50003f76d0731;0xa85b574c19b31;0x80e845a495];[0x0;0xf33e08f41a4e8;0x2288f4a7c237f;0x63bf8d5347db5;0x37b5a8c21f64d;0x96f9f44f08894;0xe78014c5df9f9;0x1705aa9b844ef;0x2c4b77ec335cd;0xf07b55bd4c592;0x2f07639c3b2];[0x0;0xc058006f52178;0x76f35da5933ba;0x6c14da5ccb33b;0x1de9609f74e59;0x8b0537ce21d51;0x6d33972524d53;0xba0c79dba6f86;0xb4f3e8b118f06;0x2cb1f7c410588;0xb2ae0a926147a];[0x0;0x46c0eb12eeb41;0x8e847895d77d0;0x682624ba56927;0x2b8a68853c25b;0x54eab48e01667;0x86833ab68adb4;0xe7b4d2446608;0x7677746bda46e;0x7b2a751ebfcb9;0x906739633ba]]);
 ((V [0xb9824e0009be4;0xecc1cccbc18f7;0x15669612315f3;0xb5f6c213eec96;0x493a05633029e;0xaae681a22c4e3;0x5d63937da2084;0x58f87941ea278;0x67f1fa0c4a731;0x1617fe29934] [0x431d128fb3c54;0x6995789026f6c;0x4808e3b77f159;0x4631462fc0b29;0xa08d85911f9cb;0x5ec910679baf3;0x1b364889914c1;0x9d5b8626a2a01;0x411e7450193cf;0xec29d071ca8] [0x15dd55868c50a;0x5fb6ff4533cd2;0xe280e72d30ed7;0xe93904f464871;0xecfd5c8ab6630;0x74d4f050b1ee0;0x1695421a06684;0xcc9f3e633b83c;0x73b658b5af2b9;0x5e0f6690d8e]),[[0x8ff4c2b4e12ee;0xd7ad37a04326;0x4055ffdc5db15;0xfe42fad661d94;0x424d6a7a94ae2;0x65cf845c4d111;0x6921efe236a4d;0xd7e4c48b4817d;0xa97e5d2cf57c;0x32617ab6e83];[0x5ced74f956ebc;0x70407ae734d8b;0x45befc35cd194;0xb60be5709524;0x53bfd155a8f5d;0x11318d045ebe;0x5f2aa2daf0bbf;0x459c7880619b2;0xa23a8cc821165;0x68863ef4d31];[0x7663e9aef25ff;0x12babe44b04dd;0x40a721e3a53c2;0xbe81b4356d6ad;0xb598f318d13b0;0x917c6a1680992;0x7ffee10909a00;0xc95a01fec4507;0x8889f7b189285;0xe1709739ad5];[0x7663e9aef25ff;0x12babe44b04dd;0x40a721e3a53c2;0xbe81b4356d6ad;0xb598f318d13b0;0x917c6a1680992;0x7ffee10909a00;0xc95a01fec4507;0x8889f7b189285;0xe1709739ad5];[0xc5dc66f6df7b7;0x62d4ab7d9fd52;0xd0b59172d7c42;0xc328e3df19fe4;0xcf8ff21d4d2e1;0x4bafb0891b4d8;0x365081f412c15;0x5cc7919a2e55c;0x9b84346c14dbb;0x2cb041e3484];[0x97110e0277706;0xd6bcf6995038;0x75096ac2f5552;0x4837da77ef53f;0x842fdf385bc7b;0xb56368472a9e5;0x28da20e6ddfa9;0xe8d4e6e633456;0x6b6585c0c3a9;0x3bd5fd118ad];[0x0;0xa6ddafecc522e;0xfbd8b7a9ac9a7;0x546284234bae6;0x517808e74956f;0x43919e3b2b007;0xa8ae57a6a38f4;0x3ec6defb2d2;0x3037c853f02c9;0xbcb70b799db4d;0x8b696175759];[0x0;0x3e66097812fa;0x487573d5d427b;0x5220f1d63314b;0x693285aa5b489;0xd1f8763597e63;0xbec1295671271;0xfcd34616b0712;0x6bd018c32d513;0xbdc4393bb4fae;0x2c5dd5434b4];[0x0;0x46c0eb12eeb41;0x8e847895d77d0;0x682624ba56927;0x2b8a68853c25b;0x54eab48e01667;0x86833ab68adb4;0xe7b4d2446608;0x7677746bda46e;0x7b2a751ebfcb9;0x906739633ba];[0x0;0x46c0eb12eeb41;0x8e847895d77d0;0x682624ba56927;0x2b8a68853c25b;0x54eab48e01667;0x86833ab68adb4;0xe7b4d2446608;0x7677746bda46e;0x7b2a751ebfcb9;0x906739633ba];[0x0;0x42ec7f2f0c80b;0x8a3375c29499b;0x7d2cd06d644b2;0xdd7099538ec0d;0x67773c71a137f;0x6c5eca6a5f020;0x9bbf1b05bb3c0;0x581989b146f5b;0x670ed96d68f78;0x7bf675c85d9];[0x0;0x3e9abae46ad35;0x8ccbc0a4505ee;0x26d17997878fd;0xfd2d9a21fdfd6;0xa87bffb48db17;0xbb232cba8622f;0x783e5f604ef62;0x45817a2418676;0x55be78a0d7d19;0xa836d480ee4];[0x0;0xe9f92408d99fa;0xdaed231df0735;0x39e41b6d14be1;0x536a2b80dd0cf;0x647daa306cc89;0x79c808b8d41d0;0xbb845f4d74831;0x3816f4393a17d;0xc13d6c399c084;0x905553ede3];[0x0;0x9dbc21fef65c8;0x1b956bedc1331;0x646b4f3a7de22;0xe7f4b4895656a;0xc31c8d6fbaa20;0x19e0d20652022;0x66e4baca3056e;0xfbc6cab0c9585;0xb81518c34787d;0xecb58d6d96fda];[0x0;0x6d3fc0340d80a;0x5938b278b71f3;0xe852a5c551b97;0xdef62636ba30;0xba23986eeeef7;0x97da410ae88b8;0xa829cdd19e61;0xfc92a8e4f101c;0xdff636cf1e84;0x1461ba23590]]);
 ((V [0x39b7103025ef1;0x4ccf584192195;0x84d17c22b20ae;0xacfe34ccb782e;0xaf2bec4291658;0xb470e5b1462bd;0x9f272329a2b80;0x7bb942f91fbd0;0xf67eefed2d97d;0xbee767aec90] [0xd3945852794bb;0x15319d8f1a06d;0x73fd301d6743a;0x2ada9ed429530;0xbcbd864b8e743;0x23a5e02cc4fc7;0xca78669266f38;0xbdf74e569a444;0x68e90cff9e661;0x3acd616a4cf] [0xdeb8d321e8e8f;0xb2e735a7f3616;0xfa07e649541be;0x790d5be15ccc5;0x46a197b6c5bf4;0x9b496c32a712d;0x4f20ae776367;0xd8540bf109ed7;0x17e1525b1d692;0xcd6a86f0efb]),[[0xe2ce3f802e62e;0xf2f0855094d17;0xc3dc21258a56e;0x7030671263272;0x46ab3282830fa;0x59b04a5e24822;0xe59e1059fd724;0xde0d67af4a722;0x3df9fb55c7d39;0xa3c0403e66d];[0xb7b5c1d3930ec;0x2c47477d973e4;0x30418fb865103;0xc58fb35e30a9b;0x193e880ae04a8;0xed9ffd78c236c;0x7fcb61e6521f8;0xe69e3f01291ad;0x4a140233e5d6a;0x99c6a101436];[0x15dd55868c50a;0x5fb6ff4533cd2;0xe280e72d30ed7;0xe93904f464871;0xecfd5c8ab6630;0x74d4f050b1ee0;0x1695421a06684;0xcc9f3e633b83c;0x73b658b5af2b9;0x5e0f6690d8e];[0x15dd55868c50a;0x5fb6ff4533cd2;0xe280e72d30ed7;0xe93904f464871;0xecfd5c8ab6630;0x74d4f050b1ee0;0x1695421a06684;0xcc9f3e633b83c;0x73b658b5af2b9;0x5e0f6690d8e];[0x49198a6fbfb8f;0xdffc62fcd8b97;0xd35387cc13ca;0x40fc2f5260a08;0x528ff65e29cd8;0xf14f869964872;0xfb8c73c1f7c6;0x7059e963e5cfa;0xe15a3b0d4650b;0xdeaa183c578];[0x6e9c3763d3325;0x4c4ae480be84d;0x230c573ba3d38;0x8493840bd0093;0xc6ae91acb67d0;0xfc5076df5daf9;0x70129aaa32a31;0x7644559d434b3;0x68b9c7269f85f;0xbb1c88c4ebd];[0x0;0x404c4186bf17e;0xa6dd5fd3aebe4;0x91de9fcda0d18;0xbd672a5711c30;0x1a54d7a53d254;0x7e157c8f43b0c;0x8dc6cc27bed1a;0xfa1139ce38910;0xc8cfb3339de47;0x3a2aaa6d15c];[0x0;0xe5db9d366b620;0x6af5899dc0ab9;0xc38ee4178d419;0x9f7d34b09f9a8;0xa06f7a009627;0x82cfe70cd6397;0xca7fd6d6fe25b;0x716dd184f82ea;0x4f145e317da69;0x3c2a7175ede];[0x0;0x6d3fc0340d80a;0x5938b278b71f3;0xe852a5c551b97;0xdef62636ba30;0xba23986eeeef7;0x97da410ae88b8;0xa829cdd19e61;0xfc92a8e4f101c;0xdff636cf1e84;0x1461ba23590];[0x0;0x6d3fc0340d80a;0x5938b278b71f3;0xe852a5c551b97;0xdef62636ba30;0xba23986eeeef7;0x97da410ae88b8;0xa829cdd19e61;0xfc92a8e4f101c;0xdff636cf1e84;0x1461ba23590];[0x0;0x2caa7d46133f7;0x1267b91dcdeac;0x451ba96579c17;0xa13d4cd5caf37;0x918955a3549b6;0x2ad879481fe4b;0x1a3f629662ef8;0xedd32a1bc855;0xf7afb293351b9;0xd9dd1f263b8];[0x0;0x6a454f4cb0cbd;0xe5a2af21cb513;0x314fc37134c8f;0x840b1d83f3402;0xdb43030f15ea3;0x7a24c9a0d6202;0x14a83fc4eee82;0x57fa54d23bf06;0xf1b84ace234a2;0x1e821eecd1];[0x0;0x3b04519a770af;0x9091fdf19ef17;0x844d920db6319;0x48876335e6e4;0x388e4a8eec618;0xd35b0569f4ab5;0x6b81d27293611;0xb425553853d46;0x7a5f04dce6080;0x72ac6c0220b];[0x0;0x64f69b5cc5365;0xff6e6b32c583f;0x264e377f4e6e8;0x2f6740674a821;0xc7a16ae7f6777;0x6cb8eace5058f;0x2f318dbae003f;0xf24f032650884;0x223e5d7943cab;0x3ae4dc6ca9eec];[0x0;0x5da409d7314a4;0xd939b51e9adde;0x38473ee857890;0x7ab6164312f24;0xe81c3df783310;0x2762999db3ad1;0xdf39b89aa9cac;0x6eeebf74927f3;0x336e6554af0d9;0x2bd99570940]]);
 ((V [0x67e9ac8a3f6bf;0x72ded2db66a9;0xba8f0e8f6d6ed;0x9b06545d96e00;0x265f68f42907b;0xbe4eb76a31c6d;0x6de4a5f97905a;0xc6333d64074b6;0xd7e33960c9b1c;0x3ee5acad024] [0x504931eae8411;0x73657387987b;0x64b40349ec2f8;0xa0218543ab9b5;0x8247fc4c9dc22;0xc70c6509c98be;0xe4a7667ba1584;0xbbd7a9142a5ab;0xbebef395cc599;0x413028ace7c] [0x454d8a00d7efe;0x64c3fc48a6785;0xaecdbcbb98ee0;0xf32add7c005d4;0x979a948dbe8d7;0xca08a99a1ab4b;0x2f87db83e4318;0xf69808f2a13ac;0xb96840ea8db1f;0x559f3276621]),[[0x794daf2e31b35;0x14c7cad9fe8e3;0xc89386139ca88;0xf2148813122e2;0xdfa4efc82c52a;0x73d374e7d8a58;0x39c751e459be2;0x80c93fc63298f;0x4405ce1876c35;0x55f711d8858];[0xe25eab770c067;0x9dca5593bb3f8;0x3135c082f11d1;0xad93964013507;0xa5d6fd43fcf53;0xd2116406382a3;0x26b39bcda9036;0xa191106935369;0x128fda8ae3362;0x9007ac74056];[0xdeb8d321e8e8f;0xb2e735a7f3616;0xfa07e649541be;0x790d5be15ccc5;0x46a197b6c5bf4;0x9b496c32a712d;0x4f20ae776367;0xd8540bf109ed7;0x17e1525b1d692;0xcd6a86f0efb];[0xdeb8d321e8e8f;0xb2e735a7f3616;0xfa07e649541be;0x790d5be15ccc5;0x46a197b6c5bf4;0x9b496c32a712d;0x4f20ae776367;0xd8540bf109ed7;0x17e1525b1d692;0xcd6a86f0efb];[0xf9daa88e3eced;0x7041695de05bf;0x62cbe89a0d243;0xe31a80af4cede;0xdea3532ce9bc1;0xeb05e12bab85;0x4ebd1b504b947;0x12bc1a5330707;0x90f6c38ab57c;0x5dfefc0241f];[0xe88402e8cd37b;0x2d88ec35dae38;0xce69d7e8e3f8e;0xca791590c6628;0xc733aa1713391;0xc36105f37d71d;0xd7f6807d5d6ef;0x8ed4f61604c61;0x9806e5237de6;0x3208b071c37];[0x0;0x83f34e43d4bad;0x3f55c174fe75f;0xf82cee7b43359;0x707ba18920272;0xb3943cac5f8dc;0xc5d18a7c1fe90;0xc9c1fe689d49;0x2e94194763c11;0x2ff9bab7e395b;0x7f076e3862c];[0x0;0xcf28b5e44f62c;0xf14bd51e40dff;0x2c704b9a20ed4;0xa0e8f3a2419ba;0x30cc4b33b457b;0xd5671125e568b;0x487025f42fc4;0xb4a69538d8aae;0x785009ccc0750;0x44fa9ee8020];[0x0;0x5da409d7314a4;0xd939b51e9adde;0x38473ee857890;0x7ab6164312f24;0xe81c3df783310;0x2762999db3ad1;0xdf39b89aa9cac;0x6eeebf74927f3;0x336e6554af0d9;0x2bd99570940];[0x0;0x5da409d7314a4;0xd939b51e9adde;0x38473ee857890;0x7ab6164312f24;0xe81c3df783310;0x2762999db3ad1;0xdf39b89aa9cac;0x6eeebf74927f3;0x336e6554af0d9;0x2bd99570940];[0x0;0xbeb4fb99f7ef4;0x63390ab091f45;0x5518b327d8860;0x867df26d2c2a9;0x3c1d406e27bec;0x7fa39e502df15;0x5c445b1d83162;0x2758362e19162;0xb5f09d857243;0xd81b4e9543];[0x0;0xb635a17ce516a;0xdcd34cf70927e;0xee23ee70230a9;0xb871498a7412a;0x62c49a7c969d6;0x979e0a7113ea6;0x31dd195f84423;0x7a1a0e4cee234;0xfd534a80da76d;0x8e5c4f13b9d];[0x0;0x8b23f744463b6;0x78b1b94790595;0x88fd06153edd4;0x172155675993b;0x2af010bf5ae1a;0x6c4df7c7261c2;0x2b576b691e51e;0xfd1ad1448a9f0;0xf7e8497b9a200;0x236313c7db6];[0x0;0x64853ec6b6e08;0xb0df89da255fe;0xc6ec765cf53e7;0x47557b5486bc5;0x663949cc3f190;0xd3f867a97b3e7;0xc7323695669a0;0x895bc123300e3;0x5874d9f75fe39;0x414cabca786e1];[0x0;0x698e7bd4316c7;0xb8ef8c7264d4a;0x5367ef73fcb7;0x9992b2d7da1bb;0x4ffdbcc064cf9;0x658d8e7fef3eb;0x6eecfe5d73e1a;0x2be8980b86261;0x4811410d9e559;0x100425e6ac4]]);
 ((V [0x179006209aeff;0x82108505b7b46;0x15dfcb36785df;0xf320c072617ed;0x831b74c16f678;0xa2995764db5c4;0x8a20e47fd257d;0xdc1454929f4b0;0x5b557eee9f5b2;0x1796b9990e7] [0x807f9be276e7a;0xff8612c246e71;0xa34f8afe8b770;0xab31508763ab5;0xa51ac4a80f778;0x98bc87406693;0x93ae88ba0dcb3;0x20d42dca98c37;0x691978c40047c;0xc2ac119d9bf] [0x229ade1f80b91;0x807c9bd061726;0xb7ff08b102f8a;0x960ae7c7adf61;0xe41c59417cd1f;0xd1b49c2f4110a;0x9499abf639c3;0x59cd5cc8f580d;0xf811fafc0e72e;0xf031ec37471]),[[0x36662180a683f;0xa2f45f8977fe;0xd5a98f30aca5d;0x5041cd9771d8b;0xdaf928ab8241c;0x676df74918fab;0xc5b364cac9b6e;0xa61a04be95a37;0x487f1527fd2e6;0x25da26d9ed1];[0x9901fba3d24b9;0x46d53acb995d4;0xd5ded766b7cad;0x5dbe0eb5f1a14;0x6c0c222c5f31c;0x68799288c8282;0x7fa666de0c918;0xa6ed9d4ec7c79;0x986d273159b15;0xa043e2899a6];[0x454d8a00d7efe;0x64c3fc48a6785;0xaecdbcbb98ee0;0xf32add7c005d4;0x979a948dbe8d7;0xca08a99a1ab4b;0x2f87db83e4318;0xf69808f2a13ac;0xb96840ea8db1f;0x559f3276621];[0x454d8a00d7efe;0x64c3fc48a6785;0xaecdbcbb98ee0;0xf32add7c005d4;0x979a948dbe8d7;0xca08a99a1ab4b;0x2f87db83e4318;0xf69808f2a13ac;0xb96840ea8db1f;0x559f3276621];[0x3b148e383e19b;0x278e2ec0088fb;0x92c8994977656;0x4838013913cbd;0x48cc1e158780a;0x288f7bdb1a0fb;0x949d73b6f9037;0x694be3694d6fb;0x2f049c1476e4d;0xac894b09548];[0x5ded6d6b940e6;0x1f470c0b90cd9;0x43163e1d40657;0x15860d7cddd57;0x23400416d7b12;0x3fea16adae187;0xeb08f327138e1;0x3da1b9e57a57d;0x69688b1ce2cc8;0xf3ba978045e];[0x0;0xf1f091134edd7;0x642e41fd7c39;0x16708be083f24;0x387aa7946a380;0xe5a7aea1f6892;0x56e818add84e5;0x51b107e00f6f6;0x3dfbb087ee0f2;0x985169dfedb2e;0x34f2cc8f4bf];[0x0;0xe4dfd5b5ea9ef;0x1dac4c68111a5;0x21100ffca2bbf;0x5834f5ae427af;0xe4956a0d4bc95;0x4cc7eca8a4c22;0x4dc6b4f1de570;0x51e224c6b384f;0x820c7b872f5f0;0xca8f8da99b];[0x0;0x698e7bd4316c7;0xb8ef8c7264d4a;0x5367ef73fcb7;0x9992b2d7da1bb;0x4ffdbcc064cf9;0x658d8e7fef3eb;0x6eecfe5d73e1a;0x2be8980b86261;0x4811410d9e559;0x100425e6ac4];[0x0;0x698e7bd4316c7;0xb8ef8c7264d4a;0x5367ef73fcb7;0x9992b2d7da1bb;0x4ffdbcc064cf9;0x658d8e7fef3eb;0x6eecfe5d73e1a;0x2be8980b86261;0x4811410d9e559;0x100425e6ac4];[0x0;0xb71e23be3544a;0xe3e9c9bd74b40;0x7d15e8ee80585;0xde1b288d7e111;0xb37eaff439a8b;0xcb68092a45b40;0x7aebda2b8ea92;0xfdcefe9cc15e3;0x2f77ffa7810bd;0x10997db7150];[0x0;0x10e1ecff98d8d;0xd97d520be27e0;0xc4073341694db;0xffadab3f9d8cf;0xf9da05b936d90;0x304ad87f060b7;0x4776bf012cd84;0x268b00bc504de;0xc97c9034fbe77;0xf740db22f1];[0x0;0xf762d92faea66;0x916497f74a695;0xbdaee02b5bb91;0x903bc11f61f8a;0x6918beee8d98f;0x181ee9a40eb1f;0x432943e2a2108;0x79e8ccf2e9f97;0x530b68e4a3b49;0xec47551f9d];[0x0;0xafa5b45859706;0x65fe150819b9a;0x701a39c3532e2;0xff5493dfc5d28;0x12c1d3f548496;0xae5f41a13639b;0x35da324400920;0xdb134bcfc13ba;0xfe9e2b31d1c89;0xc2f4de84e9e9b];[0x0;0x3afed8c68f863;0x76e862920b485;0x8838e33f423cb;0x5bd2d9b180bd9;0xaccbb792ae45;0xb147d8078d4a9;0x22b75acfb87e5;0x462682075946f;0xce1f684258726;0x11f0138a37e]]);
 ((V [0x87344069e36f3;0x918765914de2;0x742b461b29f46;0xd23a2b64b9697;0xdf513fce4dc53;0x39bc5e3cfb456;0xb8ecfb9b7ed49;0xd05254cd3d302;0xef0d9a9866b11;0x1e63c581e0d] [0x8da31e599ce10;0xbe6b2738fdb9;0x47f0ae9bc1de2;0xfc3d62de382ed;0x98747827879a6;0x68538ae7944d3;0x243cce058c91d;0x6fc8ccdab029d;0xab49ac06cfdfd;0x976c23289a] [0x3c71e443676ad;0x21d1c75c99040;0xba45f3b9a9c1a;0xefa0cae65e0e7;0x51849148601fc;0xbb5728fd2efd;0x925c4c7a99ed7;0xd70cf6a36c533;0x84169da2c1b7;0xf804d6729a5]),[[0x900be9cf58ba0;0x6c952872f705;0xee40b6bc41287;0xc541db41f7b74;0xd627ea56ab786;0x3e9b04e43d3b2;0xf1c3828a9b35a;0x68255f5bc78fb;0x3d38d81b70260;0x3b4b63d466f];[0x83c1fba79ab0e;0xb96a006943b3a;0x9b56df633ff03;0x9ccb982fb7f2d;0xe06a68793c57f;0x2a9eaff7be66c;0x1b9feb7c5d57e;0xdfcca253ffc3;0x642f42f03f951;0x233a752e56d];[0x229ade1f80b91;0x807c9bd061726;0xb7ff08b102f8a;0x960ae7c7adf61;0xe41c59417cd1f;0xd1b49c2f4110a;0x9499abf639c3;0x59cd5cc8f580d;0xf811fafc0e72e;0xf031ec37471];[0x229ade1f80b91;0x807c9bd061726;0xb7ff08b102f8a;0x960ae7c7adf61;0xe41c59417cd1f;0xd1b49c2f4110a;0x9499abf639c3;0x59cd5cc8f580d;0xf811fafc0e72e;0xf031ec37471];[0xdce3bcb09a6ff;0x522ce03db3728;0xb7a2af7bb76a4;0x2b017b5001de7;0xf2edb6b88fb4;0x948eff9a39fd0;0x13eb70977845a;0xe5bcfadc55617;0x90ba815e72089;0x13edd0cc74a];[0xa6de3ef700410;0x673d202b90411;0xe3b42fe78885f;0x71ca1cdfb6145;0xd13b8d0db35cb;0x960fb05d8469c;0x7b47ae4e5123;0x283fcf48ea9ac;0xd374c191cd8c7;0xf4ca461e22];[0x0;0x4feaf2723b3d0;0xabb2d1d01399f;0xf1be235446c49;0xa4ad2ad7f2e36;0xc4af49d2850dc;0xab0e436872726;0x278a8035d33d;0xac3afca8179a7;0x7a6a90d33b4ee;0x948946f7827];[0x0;0xd0b98d5e208de;0x89a74973cbc89;0xb7d3e83709c4b;0x612c5cda137e7;0x2be922042714;0x4a1784ebc39f2;0x32286a07aba40;0x71f202b669898;0xfc1446084ba5e;0x37a23dbb89d];[0x0;0x3afed8c68f863;0x76e862920b485;0x8838e33f423cb;0x5bd2d9b180bd9;0xaccbb792ae45;0xb147d8078d4a9;0x22b75acfb87e5;0x462682075946f;0xce1f684258726;0x11f0138a37e];[0x0;0x3afed8c68f863;0x76e862920b485;0x8838e33f423cb;0x5bd2d9b180bd9;0xaccbb792ae45;0xb147d8078d4a9;0x22b75acfb87e5;0x462682075946f;0xce1f684258726;0x11f0138a37e];[0x0;0xe00c00abb3fb3;0x8e0321f486271;0x63b6a8b7b57a3;0xa08d16d8841c0;0xb7dc5e6f00c95;0xdc05e91846225;0xf5f40d0c7d56;0x558fc62f3ddaa;0x197bcbefeb31e;0x94093e5a8d6];[0x0;0x88e2762f2e687;0xd208c99f278ae;0x3b48684bec752;0xc2194373e2918;0xb201d1a3b1489;0xc3dabb147959e;0x23d8019171ac5;0xaae12fab23f65;0x4aaeeb996f4b0;0x22c6e17868];[0x0;0x486b94882f90d;0x5eddfb384f05e;0x41ac1a31773c4;0x4a471e67563d8;0xb7d4f58e38b26;0xd5353cf5797e9;0x6520b5f4349fa;0xad3bd70aff9eb;0xc3a401155efbf;0x42e94849aa];[0x0;0xfbe995709a8c6;0xb3f98f6885158;0x5a9fc8808fddb;0xd8a0b9e261f91;0xaf94ae04a4603;0x6bb5de9ee4b00;0x44621b3f52720;0x6418f894c78cc;0xbf9006357cdf6;0x97eeb8ef24ec];[0x0;0x42f3288788565;0xec98a2349ab98;0x3c2ae1690d49d;0x2255f5f26acb2;0x559a6a447c4a9;0xc6d99fdfad840;0x3385354b9d7b2;0xd3297d29031d6;0x62565b8ac6441;0x11f9afc364]]);
 ((V [0xd5dda342d7597;0xe4850a8ef4d48;0x8badccc4e5a06;0x525e7acd7016c;0x410aadbcef2cb;0xfb75b5f400448;0x1d54ae4f27393;0xeb2b4b354b02a;0x6c24f3fdb154f;0xfb192d5b077] [0xf3ac5a3b51fe3;0x9c397a799a26f;0x84df98f5fc8a3;0x4cb6a133a64ad;0x40bf39a618bcb;0x3008ef1fec321;0xcd6bbad4a0e1c;0x740d6192ddbe8;0xaaf7f1ae237b6;0x742b99d5f22] [0x5a5401183618e;0x6a5877bf770ee;0xf3e3dad427f2d;0x4860365e87984;0x354b85de1a716;0x61e3f0100c0e2;0xdd7d2c2b1cbe7;0xf86bb963198e2;0x94daf015218;0xd13ada07f96]),[[0x7a3744458a7e5;0x44da7ebd94924;0x437751e08c088;0x3fbae2e441922;0x75438f63360f5;0xb9557d0a351c7;0xc255b7191c61a;0x3767829789b8c;0x953e895cc4044;0xbd6969a94d];[0xf107607dc94b9;0x652f38b7a4637;0x362c1afb2ff1f;0xf73ec776a0a7;0x301be3a9013b1;0xb53bf90b3de11;0xc579238208057;0x12c257598fcc0;0x6abe211622b11;0x907f0613a90];[0x3c71e443676ad;0x21d1c75c99040;0xba45f3b9a9c1a;0xefa0cae65e0e7;0x51849148601fc;0xbb5728fd2efd;0x925c4c7a99ed7;0xd70cf6a36c533;0x84169da2c1b7;0xf804d6729a5];[0x3c71e443676ad;0x21d1c75c99040;0xba45f3b9a9c1a;0xefa0cae65e0e7;0x51849148601fc;0xbb5728fd2efd;0x925c4c7a99ed7;0xd70cf6a36c533;0x84169da2c1b7;0xf804d6729a5];[0x67a3bbf1206fd;0xe6b8506404168;0xf4d05a558c576;0x764ac4f283927;0x96607d22e7f02;0xf4bc44714e487;0xe6a1d472cbcb5;0xe042ec0895ddd;0x129541c614a39;0x2b590179a96];[0x8963a48ca8dbd;0x7e76e853a04cf;0x415bc0a5a39a8;0x99292784e677f;0x99bb6686194ae;0xc07fb499ef989;0xded74f0f3c3a1;0x327f6b50f9ee2;0x5828df500e0d7;0x65260499ffa];[0x0;0x2f5675fec37d;0x4c9328fed806e;0xfb3a0d73a6bc2;0x60da36d30da37;0x2b4baa9f8bba6;0x8cd0191b9b26e;0x445b1210cfe13;0xf681e537569e3;0x9e1824d00863b;0x995fe07a4e9];[0x0;0x7c77923dfb8b8;0xc5f52a3088c6b;0x6984dfa950e9f;0xa9ca1dd848310;0x57dad3780fd6f;0x36c5902250ec0;0xb54506f34ad12;0xe9251930fcaaf;0x3f5b654e807c8;0xb781b2ac93];[0x0;0x42f3288788565;0xec98a2349ab98;0x3c2ae1690d49d;0x2255f5f26acb2;0x559a6a447c4a9;0xc6d99fdfad840;0x3385354b9d7b2;0xd3297d29031d6;0x62565b8ac6441;0x11f9afc364];[0x0;0x42f3288788565;0xec98a2349ab98;0x3c2ae1690d49d;0x2255f5f26acb2;0x559a6a447c4a9;0xc6d99fdfad840;0x3385354b9d7b2;0xd3297d29031d6;0x62565b8ac6441;0x11f9afc364];[0x0;0x26db22f5091e5;0x6b6c36756b9b6;0x370c2f3369d02;0x8f4e949e81cd9;0x1a4c1e97452e0;0x60c221e23d376;0x7354018b20c8a;0x51ecb4b02a17d;0x58cb22aa24d90;0x5990bf279];[0x0;0x4a457a1fa2bb4;0x54e7b41cd9422;0x1faaa7bf01031;0x2b23e5a8d59f2;0x2fab6fabc5d2d;0x7800d79042570;0x26c88d3945c7a;0x3ba1d58e18ed0;0x952dcd0f940f8;0x39b892ccb8];[0x0;0xfbaefa5306ec4;0x22e758cb6dad7;0xe70f8cff4dbe;0x51d41c507da14;0xd0b3041430d3e;0x4237245b72b39;0xff8b62bd57584;0x925e82a7fe31e;0x42b45063c9259;0x8dbac0f6941];[0x0;0x1c56f9552858a;0xeca72ddca1086;0x707cc65fe59cf;0x1f49050222d76;0x12019b408719a;0x89329c720a809;0xd8176d76efab1;0x72adb2081e01e;0x3ca93e69f5399;0x745e3344dc81f];[0x0;0x1f40e48f9cf1;0xabe836959f186;0x80be1de0e1bec;0x840d14a8300f8;0x7e3db7374c4b4;0x6a8e9cf966da8;0x8fcdc3ccae488;0x31b5bfe25d41e;0x1e0561c0ab177;0x71f22cabc34]]);
 ((V [0xf6ca42b4cafe8;0x264534386bb95;0x32dbd9acc57fc;0xf9620dc780790;0x3d2636a671762;0x17da6b6801251;0x1c797e9d7e872;0xf803ba0acb4f;0x212bdd2fd0cd0;0x9f915709f7f] [0x50bd41030c254;0x72bc901e311b1;0x8d7ee75a3d39c;0x412dd379971cd;0x88dd6aace8db7;0x4a026737e0bef;0x89d71f20c2bdd;0xe3686015d48c7;0x40ff45bc815a6;0x9b2649139bd] [0x9a30cce05eca2;0x8553c180fc189;0x9efeb72484283;0xdd36681f6d564;0xf1432dd711282;0xac263d0094d29;0x8b782ed198a5a;0x7f53a79b166cf;0xfc40c5bffd4e6;0x4fc65104fd4]),[[0x20a7c1eb76bf;0x1412bdf4ea068;0xbf4f1ac4c057b;0x6001e1866f21d;0xe93ccb111a151;0xa7d8917bd0ec0;0xac71c5e9ac7e7;0xf49eb06ccdc80;0xc629a304e9868;0xdb90a9efffa];[0x8fda8aff509;0x653e759a34cab;0x161e03d1cd5f5;0x664d96c0d4b34;0x8cc3938ac8f91;0x52393d0b91f12;0x46f3cb27b2b41;0x7a5c2bca2c8b7;0xc732b57ab05a9;0x1ae1617d4ff];[0x5a5401183618e;0x6a5877bf770ee;0xf3e3dad427f2d;0x4860365e87984;0x354b85de1a716;0x61e3f0100c0e2;0xdd7d2c2b1cbe7;0xf86bb963198e2;0x94daf015218;0xd13ada07f96];[0x5a5401183618e;0x6a5877bf770ee;0xf3e3dad427f2d;0x4860365e87984;0x354b85de1a716;0x61e3f0100c0e2;0xdd7d2c2b1cbe7;0xf86bb963198e2;0x94daf015218;0xd13ada07f96];[0x28a47524956fe;0x25a1eb62050bd;0x4d37b79222883;0xf0e8ef604d80;0xa3681616fee74;0xb992f64138d04;0x45b0df896805d;0xc702539acaa8c;0x8c08fd1cc5305;0x34352926096];[0xd7eb656669bd3;0x3f9c8a382fbed;0xc8e64c3faad72;0x573f07cacfdb3;0xe95b7d73ca11d;0x98a646ca5920d;0x142eb9e4aae3;0xb359d82f61e2b;0x3b29b85deb2a3;0xe6ac3857469];[0x0;0xb3cf9d8f8eb57;0x8e7f6362dc85f;0x6c95f497cfc9;0xec9662f35b642;0xa09a4144368f6;0x2c510d8467e61;0xe6e8c159cf3d9;0x440fef526f5e;0xb34ab0072f6dc;0x8163302f02f];[0x0;0xc03767a1e4ccf;0x7b157a2959b21;0xc058a38b07ac9;0x4b2e9e350389a;0x604e127c6ba77;0x195012d244cf4;0xa566e03969645;0xdb525786318ca;0x8c25be2513b75;0xb373948377a];[0x0;0x1f40e48f9cf1;0xabe836959f186;0x80be1de0e1bec;0x840d14a8300f8;0x7e3db7374c4b4;0x6a8e9cf966da8;0x8fcdc3ccae488;0x31b5bfe25d41e;0x1e0561c0ab177;0x71f22cabc34];[0x0;0x1f40e48f9cf1;0xabe836959f186;0x80be1de0e1bec;0x840d14a8300f8;0x7e3db7374c4b4;0x6a8e9cf966da8;0x8fcdc3ccae488;0x31b5bfe25d41e;0x1e0561c0ab177;0x71f22cabc34];[0x0;0xdface215bed5d;0x23a2f10184a7a;0x48fcd15793776;0xf91c92636e5d1;0x1060dd0232332;0xfbd233bec13a4;0xedf47994804e7;0x905772ad2fe9e;0x777a60af2bd0b;0x34b78ad6edc];[0x0;0xa99f951ebad2;0x605f4089745a1;0x5585552b83818;0x313aeb8ae526b;0xff82663204abf;0x95065b3d40d16;0x5dfed7bfa97dd;0x560b21e024b30;0x3773769a7cb17;0xf64a616a647];[0x0;0x7aaed54d54c6c;0xb5dd4749b028a;0x98a0de9e4b725;0x9e630363c9087;0xb457761681a8f;0xd5299244aabab;0x9bb5065572d9a;0xb7bd326fb74d5;0xefd319a0d14a9;0x10c13e58b0b];[0x0;0xac2b21de91976;0x44c978cb2eb13;0x7e45bf691a513;0x1f95208faf2df;0x7822250dabda3;0x2aac14bec0578;0xd14b935bf8816;0x338ac0aabb926;0x898a76867ca96;0x9bb124e187c3f];[0x0;0xc25fc5f62092;0xcf3c6c3b70aa3;0x3d53e9b44844b;0xdb738440642a1;0xc65b3e532b53c;0x44b9f78a5052a;0x14d058d92002;0x2487184d6c530;0x6daba1672df66;0x60b4dcd29f5]]);
 ((V [0x9eb7d3f7388e4;0xf601b03d80bbd;0x7dcf3c6b06af;0x8fdac23fef2b8;0x1762a005f0e3b;0x9d07cc85640ed;0xd109baecd6fed;0xd5021bcbc02f3;0x93a198b993f01;0xb3befdd1d21] [0x3673f05868c18;0xc18a394160665;0x13f9147a4ca8d;0x805d7685b281b;0x8ee6fa9b6d28f;0xf571c6a412e8d;0x8fc65d5f1c245;0x73168d8414398;0x46b8fc17b5b6c;0x6d350fd0d11] [0x49b775c33fb5d;0xe3185df77004e;0xe7fe92168b69c;0xb2567166d16fa;0x2257cc5108db2;0x56fb0554c85b6;0x1efc72dfca5e6;0xac73fadc1d5de;0xb42470f265ae7;0x298ac20aa8b]),[[0x79cee2a97e504;0x3b71e3fb8f9e0;0x8f35cd4d67ddf;0xbb531f2500f11;0xff8fba9eecc98;0x8f1b173b5c369;0x5a907b60557dc;0xbf6d58a6eb7a7;0x84e1e02f8529e;0xed79b0fd69a];[0xc68646d902039;0xaad4c1b8a37c5;0xdadb7c398b43b;0xd904b1b81a550;0x264b4d65552b6;0xc813c4b6b376a;0xdda352a632d46;0x4b0e361955575;0x6373f1f7b3235;0x7b3113b5c69];[0x9a30cce05eca2;0x8553c180fc189;0x9efeb72484283;0xdd36681f6d564;0xf1432dd711282;0xac263d0094d29;0x8b782ed198a5a;0x7f53a79b166cf;0xfc40c5bffd4e6;0x4fc65104fd4];[0x9a30cce05eca2;0x8553c180fc189;0x9efeb72484283;0xdd36681f6d564;0xf1432dd711282;0xac263d0094d29;0x8b782ed198a5a;0x7f53a79b166cf;0xfc40c5bffd4e6;0x4fc65104fd4];[0x8841e4f3f670c;0x4bdeaaa5c9087;0x2c648c381da0e;0x3bfca1dad7a90;0x91aea7fe3fa11;0x6e8d773cae7eb;0xac8a64079c455;0xabb7a31d872ad;0xe748f05035198;0x592ea26d75c];[0x3e4461e50b92e;0x5ef61712da73e;0xae76f0016da2d;0x9d080fdd42ac0;0x949ca567158a5;0x59864d7a04f7e;0x3118ee9e968f1;0x9f5692fbce2c8;0x7c2b01a77e09c;0x2202714850c];[0x0;0xc921d25b4db84;0x1c4a0eecd85ed;0xf1ef445eafce5;0x8efc401d5cf5b;0xb64e7404d9bed;0xa49bf05af1afc;0x6a6aa5d66f866;0x2a7e35f0a0626;0xb6ba603c87246;0x3155215ac13];[0x0;0x98eb633a12d39;0x74110ded01e06;0x28bfcb9e9af3b;0x88ff7db8e3e3e;0x900b451bd7ff2;0xa11cbce32fc8c;0x497302329567f;0xec4344471f7b;0xcdd0047a67981;0x4a0084e5397];[0x0;0xc25fc5f62092;0xcf3c6c3b70aa3;0x3d53e9b44844b;0xdb738440642a1;0xc65b3e532b53c;0x44b9f78a5052a;0x14d058d92002;0x2487184d6c530;0x6daba1672df66;0x60b4dcd29f5];[0x0;0xc25fc5f62092;0xcf3c6c3b70aa3;0x3d53e9b44844b;0xdb738440642a1;0xc65b3e532b53c;0x44b9f78a5052a;0x14d058d92002;0x2487184d6c530;0x6daba1672df66;0x60b4dcd29f5];[0x0;0xb9f689108a75c;0xa8458b904b656;0xf2b9305464ec4;0xc1b20b68f7aa4;0xe718b9013887d;0xdec6159fd5013;0x3ffea64d1b03a;0x95d3256abacba;0x13ea6151dbf38;0x5e076237856];[0x0;0xbf5295f80165e;0x63514158e9ee2;0xf291ff98bf56f;0xc1c3469fa9f2d;0xe8d2cd5788879;0xc009e07f85b62;0x20c55f4be6a59;0x88d99e11e6b4e;0x15a6aef06b465;0x6375dca218e];[0x0;0x532f7a823527c;0x6e08a038a0113;0x4230add56e75f;0xb7c1602c5d853;0x453f6f1285229;0x1426de16dc57b;0xdc12664fe53bb;0x56b0a1672d9e;0xa8eb32c301c46;0x567f3959336];[0x0;0xc24394fe47725;0x11667df28d278;0xc35391b984145;0xdfaad511c8b72;0x1518ff1973d48;0x36886c9ef26f9;0x43fee0b5d669a;0xf1d4c99cbe6c5;0xb59ae22fdb90a;0x6d6db772780ea];[0x0;0x29ee2335841e5;0xa12ad1adaf11a;0x76a2cc2040a0d;0x51e81f90ce859;0x21023197fa75f;0x66937fae8f173;0x7be51363010df;0xb36eb530ed0a1;0x669fb2bf239;0x4cad93b7b1c]]);
 ((V [0xbb4d5ebe29c17;0x92f3c0a32442d;0x7d3ac8c96daff;0x5424ea2383e5e;0x957981401a64;0x8f7ff0b15eb70;0x76596bbed6703;0xba549f980edc0;0x12d15e00a11d5;0x9bd05ca8471] [0x62e75de8fa8f8;0x19eb265566bb5;0x8c5116cf0c654;0x302f97ee8f19;0xb748bb78b8381;0x8a90d396f2bc0;0xdc07d7827a027;0x489efc5d64ff8;0xfca5b626e842e;0x1ec0d3a3b54] [0xe29cba9f4a036;0x485fb1805f057;0xa14867204a600;0x4c301ea3727b0;0xfb98879277a6c;0x9dcb28bfeb9bb;0xa18d21382a6fe;0x79097b6d8849d;0x753e32e146d3a;0x51a7f223755]),[[0x386cfeaf4cf04;0x34ec7c3b24fcd;0x901eaf592cc49;0x4312e1b0e94de;0xb12dc3a10711f;0x3cb7ff030b884;0x1958a32bab84c;0x10afe4cba6cc7;0x1405a4b63c7ce;0xd98a1162414];[0x952071e1e8a5c;0x1d0b02186da77;0x5056ac3443ebb;0xadc4b22f92fef;0xb753b542d103;0x966469032e92;0xd08a967ed48e6;0x22d0d5f7d2891;0x2b321a656a426;0x5a880a7bfba];[0x49b775c33fb5d;0xe3185df77004e;0xe7fe92168b69c;0xb2567166d16fa;0x2257cc5108db2;0x56fb0554c85b6;0x1efc72dfca5e6;0xac73fadc1d5de;0xb42470f265ae7;0x298ac20aa8b];[0x49b775c33fb5d;0xe3185df77004e;0xe7fe92168b69c;0xb2567166d16fa;0x2257cc5108db2;0x56fb0554c85b6;0x1efc72dfca5e6;0xac73fadc1d5de;0xb42470f265ae7;0x298ac20aa8b];[0xce58cafe9e489;0xe176fa25793a1;0x7c4058cd2da23;0x30df5119a6216;0x3a551ce483e52;0xcb8c4d72d6bbd;0x24fc23815a0b5;0x481e510d14cab;0xae7ad7cc58270;0xf6b56d0ea11];[0xc6c7a6e34a39b;0x3b9407f2f46d5;0xd416536716497;0x7ce56115ecdd8;0xd1201e6fa92b1;0x3dd9f91d5c2d4;0xab8e72fd7a830;0xdab284eabdbe6;0x7cb74299121b5;0x63d29d6d5a8];[0x0;0xce443f3e93894;0x6ad58c7ebaf2c;0xfee46b2466e7f;0x9c6f6c1eef6ab;0x255041033f080;0x37da16442af46;0xee53d7453d1fa;0xc48e12b107859;0xb8c4fa3df1f04;0x19b084c2960];[0x0;0xaaa16fdc69928;0xeab7e868c806b;0x3c88255b06eb0;0xa4dbd91a5b245;0x93888889137f6;0x68af334f49b23;0x62c234c585882;0x32d5dd93144c6;0xd7f5a4e4ee22d;0x234d0619cb5];[0x0;0x29ee2335841e5;0xa12ad1adaf11a;0x76a2cc2040a0d;0x51e81f90ce859;0x21023197fa75f;0x66937fae8f173;0x7be51363010df;0xb36eb530ed0a1;0x669fb2bf239;0x4cad93b7b1c];[0x0;0x29ee2335841e5;0xa12ad1adaf11a;0x76a2cc2040a0d;0x51e81f90ce859;0x21023197fa75f;0x66937fae8f173;0x7be51363010df;0xb36eb530ed0a1;0x669fb2bf239;0x4cad93b7b1c];[0x0;0xf3afbbf916091;0x406fc2829dc0a;0x319f067bdfb72;0xd423b65806a47;0x34066c1471462;0x4da279c6f7c8a;0x4b8f653067ac9;0xc7a74494f079a;0xc18e1c4d52476;0x2e963a775f7];[0x0;0x68f1b94e4a0e3;0x32e168e071136;0x343f3a9e9955;0x41cee6cfc9008;0x63868cc191a2;0xa5a69e983693b;0xb1dab4fab722c;0x3c8fe71f7a036;0xb89f08d984707;0x7e34a5712ae];[0x0;0xd4fccf932f357;0x69a375a76d982;0x339969c9b96ee;0x1729b5df3bc0d;0x24cbe0f5b0156;0xc73dba6f8d945;0xd55d5e2b07586;0xbcebc2b48d19c;0x5345541745753;0x371a0da5fc4];[0x0;0xbe964572131bd;0x68470290fe6f7;0x58ed5faddd54d;0x72241ee568526;0x47c35d568a23;0x891f7ad4e756a;0x2c588c2d54053;0x9f284b67397e6;0xf166ca55d9805;0x1ed4b4553e9b3];[0x0;0x8a4991b94895e;0xf25a6feb1e06;0x46066bc53c254;0x6f57df174ef09;0x15c1daf43e3b;0xa61065cb550c;0xe69dd8d0595b;0x68019ee2f146a;0xde3dc6305c4c0;0x12b7c7f196e]]);
 ((V [0x9fb775fd6e90a;0xad90b527e9898;0x7e33c10b4d7eb;0xa0f13fe6f8a6d;0x9ff3462a547c9;0x2338f5e92d77d;0x46cdc33442f71;0xf29ef0c2d6393;0xeb6d7931a0195;0xadbfac85f30] [0xb15f2868b2f3c;0x52b0adbc43c6a;0xe33bd388a5d66;0x78ca8e70d9ab2;0xa62de146d0115;0xaa91784fb516e;0xf12df918a467;0x20a9246e07ee6;0x4a08f7c1dc4c5;0xdeea046473d] [0x73b814101bb0c;0x5418b02bae9c5;0xf261a2edc648c;0xa1ec2da6b6c15;0x1dd3034aa3cfc;0x46e88d4b9cae0;0xa8ecac8a2686c;0xe5c33d9b5e683;0x93dd345f0a507;0xd6341b39776]),[[0x2bb7690a11cd8;0xa544aa87faa7d;0x3221670edd2fd;0x1bb583a2e071b;0xf96feb1c11713;0x4ebcb5007bf7a;0xb963f8a41f0f9;0x53863935c68e3;0x7067becdc15fc;0xf71d6f3b9ce];[0x2dec44cc5168;0xf073865c25f3a;0xd6dd2fb9fa17d;0x743ca0834a2cf;0xe10f262bf80c9;0xb9e54edcb58a7;0x612d6987b3114;0x92c37055b46ec;0xa4c69bcb44c48;0x18c411d38a4];[0xe29cba9f4a036;0x485fb1805f057;0xa14867204a600;0x4c301ea3727b0;0xfb98879277a6c;0x9dcb28bfeb9bb;0xa18d21382a6fe;0x79097b6d8849d;0x753e32e146d3a;0x51a7f223755];[0xe29cba9f4a036;0x485fb1805f057;0xa14867204a600;0x4c301ea3727b0;0xfb98879277a6c;0x9dcb28bfeb9bb;0xa18d21382a6fe;0x79097b6d8849d;0x753e32e146d3a;0x51a7f223755];[0x7c6bc02f9c5e;0xe2c9ef88be312;0xd98a32ab4a4d1;0xe7f7bb7398fb0;0xfb8f5800968cc;0x84f9b8b7807cb;0x3583949226250;0x86eaa869ea625;0x28ca8361cfbb3;0x5c29c4de394];[0xfb180849cb2d2;0xda996d367c27;0xfd52fd0eafcac;0x8c44e50fb131e;0xe57fce2b617fc;0x34eb9625350db;0x2ba9d4f58cec4;0xbd8c7ebca0c7;0x7bfc186975095;0xbc9a4cf5510];[0x0;0x24d154e42edb8;0x766b3768b2480;0xf0d3ca62fe160;0x2fb2dd84c4755;0xfb694c8d656d4;0xb3bc054e31001;0x2125b0f7fb79b;0x281c29602c292;0x61cdd9b7e24a3;0x327ef81c46a];[0x0;0xea91a619f3a98;0x4c56a3c5a1c74;0xbeca49b13db2b;0x841bf0cf4bd2b;0x1a559840c9f6f;0xf6459774e43cd;0x5500fd6618f01;0xdcf1eaeb76ae2;0x9c30c2b1d0f4e;0x4ed26e2179f];[0x0;0x8a4991b94895e;0xf25a6feb1e06;0x46066bc53c254;0x6f57df174ef09;0x15c1daf43e3b;0xa61065cb550c;0xe69dd8d0595b;0x68019ee2f146a;0xde3dc6305c4c0;0x12b7c7f196e];[0x0;0x8a4991b94895e;0xf25a6feb1e06;0x46066bc53c254;0x6f57df174ef09;0x15c1daf43e3b;0xa61065cb550c;0xe69dd8d0595b;0x68019ee2f146a;0xde3dc6305c4c0;0x12b7c7f196e];[0x0;0x2a8e9fb3d750e;0xb3c56c4425b9;0x8fd04e188ed7d;0x90c660af99ea1;0x90f6bbb49bf90;0x36c85650d7b4;0xb61449e96881d;0x629e2f5b8e802;0x5f0aedfbdce66;0x3b1c2d8830];[0x0;0x5afd13ce23ac9;0x75874f4764731;0xca380c8165026;0x209b443cc0f97;0x68c3e4332247f;0x516f3509e13e3;0x8b3f829a11df6;0x3c185313d698b;0xbaa337385afdc;0x5ed5f9ca790];[0x0;0xb8b301bbde3e2;0x8769cc2a858b4;0xd714fc907de78;0x7c57211ded5f7;0xef301ac2a72e6;0x3060cbc58a328;0xeef10799aa365;0x326e6882e7c50;0x3503840c2edaa;0x10cf0b05f2a];[0x0;0xdb2604082c66b;0x4f1c807a78622;0xe149643c5daa1;0x39a9f71c9ea26;0xbcac91130ccc7;0xd6c023dfadb99;0xeea194c8c14b5;0x7657c4e51a76e;0x96f29aa66475b;0xdfb35dbdbdc31];[0x0;0x7c5643e57ec54;0x365e87707570a;0x9d31f83dc9f41;0x8f57d8e56bff8;0x6fce757a0f5fd;0xbdaa9b69548c9;0xda05e73c876d4;0x8a66ab431731b;0x5d4557876d489;0x974b0bcb076]]);
 ((V [0x22c011e9d9c19;0xc3ac445d431ce;0xd4299aaa6598f;0x7954f34979363;0x44496bddfe371;0x74b83848794ab;0x1ffd1d34dff30;0xd8fa06012f6d8;0xa74fe2ea360a;0x50f02d47c30] [0x3c1fb7a290544;0x715f83983dc8b;0x8c2228be77dd5;0x7b723bf9ea4c9;0x5dcedd37d1683;0x6dfee34735d4;0x6961cc22f1073;0x79e50955525db;0x899e8d4b646f7;0x9dba8f31b57] [0x215501a0c45d4;0xfd4a9bf09711a;0xd535cb7305e53;0x70c8344d3c490;0x7fcc1a035a59c;0xbe3338cb89e46;0xe95d470341b50;0x27502386c4778;0x532fb709bcf3f;0x67d923f1fde]),[[0xd39baa7f526b8;0x2c4f97b8ab41;0xd1bdd17f66a91;0x73ffaefc2ec3d;0xa751d0d3e6e8b;0x5e0479c566c9a;0x8e447f0befaa0;0xe0b3df8ee71bd;0x3ed4f78d18999;0xaa17add4e6f];[0x959c3a824831d;0x3283d899f4c4e;0x6717a02dafed7;0x3985422558279;0xc723d6ea72f51;0x951e2a3cebbd8;0x97a1b1b6cc69;0x1d723c3278988;0xcba168ab38def;0x6f04d3d569b];[0x73b814101bb0c;0x5418b02bae9c5;0xf261a2edc648c;0xa1ec2da6b6c15;0x1dd3034aa3cfc;0x46e88d4b9cae0;0xa8ecac8a2686c;0xe5c33d9b5e683;0x93dd345f0a507;0xd6341b39776];[0x73b814101bb0c;0x5418b02bae9c5;0xf261a2edc648c;0xa1ec2da6b6c15;0x1dd3034aa3cfc;0x46e88d4b9cae0;0xa8ecac8a2686c;0xe5c33d9b5e683;0x93dd345f0a507;0xd6341b39776];[0xbc1982fe9c248;0x86d972c47223e;0xc70eb03fbc446;0x2f71a85e7f17f;0x1ec6731ac3c64;0x7a1c460e6a301;0xea0fdcbdc0682;0x6e560338bc0e8;0xb5757632797a6;0x8a0a749ab50];[0xd982b783abe9d;0xabaa65d582a0f;0xa008efedf3a90;0xa1399c6d90f9;0xa85d63cfaf2ed;0x1b01e42e818d7;0x1f6a3e5dac5e7;0xaf1c38f9bc89f;0x162bf278bf648;0xe4fa5f3ab4b];[0x0;0x8a4af02d18eb8;0x1875e316b2c87;0x38bb43c863fe9;0x51b5933f25308;0x45d6b87358de7;0x79f480173571e;0xe2f9f533f9927;0x7eab5d6a1ceb7;0xd37d54b38d29;0x84769127f21];[0x0;0x48816dd48ba65;0x15760089075e7;0x728c437979cf3;0xd615040777f0f;0x6945d300497ba;0x682564dabaf43;0xe2d24c97ccec0;0x32ce815d82d96;0xe94811915099;0x8e526a35f64];[0x0;0x7c5643e57ec54;0x365e87707570a;0x9d31f83dc9f41;0x8f57d8e56bff8;0x6fce757a0f5fd;0xbdaa9b69548c9;0xda05e73c876d4;0x8a66ab431731b;0x5d4557876d489;0x974b0bcb076];[0x0;0x7c5643e57ec54;0x365e87707570a;0x9d31f83dc9f41;0x8f57d8e56bff8;0x6fce757a0f5fd;0xbdaa9b69548c9;0xda05e73c876d4;0x8a66ab431731b;0x5d4557876d489;0x974b0bcb076];[0x0;0x53069bec8adf8;0xda49dcf62fc7a;0xe7d37db8cc2a3;0xda381d175c0b5;0xf92802c078ca9;0xdb73afa1749c1;0xc236950962518;0xbe48ef14596af;0xbd237b91d2c86;0xc21ab58a409];[0x0;0xa27a5cabbc801;0x8b0dfa0301779;0xecc0b9b92fcc4;0x655dbf32eb3c4;0x248f767378051;0x9b280a7438381;0xa4916586bd159;0x9640aef28067f;0x6d7c66c3f4092;0x75ec9eafeea];[0x0;0x71fad055bd97a;0xaefd807f10158;0x5f634f107eafc;0xd069223b01977;0xf127fa5d68846;0xe407cdacc5e3f;0xab7b372da1637;0x7ccaa76f068d1;0x254c65b27e4c2;0x2319aa5c414];[0x0;0x5df1e9007c836;0xe6d738b1f4920;0xd0342bb38d87b;0x567d843c23751;0x43ef8ebcab600;0x54c8ebaa833a0;0x197c4809035ba;0xfee04a16d2fd8;0x778cccf7492e0;0x9e13e2e362223];[0x0;0x8dee206223b0;0x87eac050ede00;0x3dbee14656448;0xa4bdab933ed51;0xdc72089c1527c;0xb409d93eeca89;0x92e87e55aa02b;0xbc9823682d08c;0xec7015d467938;0x31de478bc95]]);
 ((V [0x7ef5ade57c8c9;0x8ffad2ff4e142;0x5e1c358268c63;0x923a6b7bb5b4a;0x3cc77e50d6f4d;0x6371e0fdbb7b;0x3e4ab44758844;0x2cb2dbf429d35;0x397dbfc667b19;0x7a8005c81c2] [0x9aa06ddf2eef9;0x67fcfa9976245;0x8efe14494a5df;0x2a270e27a3bc3;0x9340aa473b3ce;0x44a804f35c4f3;0x240276e3949d9;0x752ad8378b8b2;0x4b07ea062ed10;0x13c8f3bb2ae] [0xa32d4de36f52b;0xb9b1bb6f45171;0xe3b2966f89a73;0x9ab33830208d6;0xc6f2ed437b6a5;0x658984c060bb4;0xa89c4308fc2d9;0xaf76d18d6b5e;0xbe83c07a9e4fa;0x2c60d9d570b]),[[0xb107b4498e2ca;0x850429ed11efc;0x17e0b80717340;0x7b13e6e80a88a;0x191ff24652738;0x7c786eca73742;0xc935a23b6654d;0x805fd54cfdb86;0x9e2c6554b3461;0x9fccc1d8a50];[0xbf6921b222ed6;0x270ad1be3b4f0;0x8bb3dc628cd6b;0xe44bb89d911cc;0x801dba968e6f3;0x77dad21457b12;0x64abad0c55246;0x597a707d5bf1d;0xb61cd7ef1d69;0x94b8bb6afaf];[0x215501a0c45d4;0xfd4a9bf09711a;0xd535cb7305e53;0x70c8344d3c490;0x7fcc1a035a59c;0xbe3338cb89e46;0xe95d470341b50;0x27502386c4778;0x532fb709bcf3f;0x67d923f1fde];[0x215501a0c45d4;0xfd4a9bf09711a;0xd535cb7305e53;0x70c8344d3c490;0x7fcc1a035a59c;0xbe3338cb89e46;0xe95d470341b50;0x27502386c4778;0x532fb709bcf3f;0x67d923f1fde];[0x6928b45bd2317;0xdd9b2231d73e6;0xe04c72b7154d6;0x1877cddef3140;0x839dd2d25924;0xd7d899bca936e;0xb99551a702adf;0x3638c22012325;0x6a74ccc74566f;0x25f39abba69];[0x56406d5650bc0;0x496faf8c6410a;0xab6769ab77894;0xcbd3eabe9e08b;0x77e3dd6968dcf;0xa0023857ae7a4;0xab165b6552766;0x2341ae5d49bf7;0xa0ed00b7ac6fa;0x6ec520af545];[0x0;0xe91424d1988da;0x5d6288b44876;0x7356b54867124;0x3903dc498c66;0x6a689b41aa57f;0x1205da9348f99;0xe2c432f2f7e21;0x5346d6bcd57b1;0xa2862a7bdfe59;0x403836241fc];[0x0;0x8e94533581fe;0xd5cac14120254;0xb058eb91fd1a8;0xaa7429b99ef8b;0xc1ba84d159bc0;0x9ec854c07d27c;0x4cdf074ba9c5e;0xf5001235a724d;0xa68b2328ec6f3;0x40d2ecfe87c];[0x0;0x8dee206223b0;0x87eac050ede00;0x3dbee14656448;0xa4bdab933ed51;0xdc72089c1527c;0xb409d93eeca89;0x92e87e55aa02b;0xbc9823682d08c;0xec7015d467938;0x31de478bc95];[0x0;0x8dee206223b0;0x87eac050ede00;0x3dbee14656448;0xa4bdab933ed51;0xdc72089c1527c;0xb409d93eeca89;0x92e87e55aa02b;0xbc9823682d08c;0xec7015d467938;0x31de478bc95];[0x0;0x3ac1493bc53f;0x44b5551f6e812;0x67c833d513ec8;0x7e3ebb0c961cc;0xc7827273bb4a0;0x413397b02e142;0x44ea37323a78c;0x9fc9006f57708;0xa326aeffd7723;0x612e5b975ce];[0x0;0x25e9910b58fc7;0x18f1560c0a0e3;0x1a1303a4f0c41;0x6625ce428a999;0xc5828c0462d37;0x1e952f6c5ccc2;0x2885bfc4cf080;0x71e704282f67e;0x58779d54bbe6;0x1996fda1c87];[0x0;0xfcce074e69fa1;0x7363358980a0f;0x9184be2fd8697;0x10fa160782fe9;0xe2af307fc65a1;0xe69dfba4b0c6c;0x5d497e2477f78;0x5a4ce67648b7e;0x89399a339354b;0x472a690a8d6];[0x0;0x7d1fb9396159c;0x60b918c8e02d7;0x9143d8f587de7;0xff18ecf4bf78f;0x42e8be44fed0b;0x580fb0de83dd2;0x7d13d77f97e01;0x1c6fee31e83b;0xea865c4a86e7b;0x13d13e3b129d9];[0x0;0xdd5268fd2a0fa;0x126281c6bc12e;0xaaace0482e374;0x23c0d8f73b208;0x78d77f496ba98;0xf8adf93c483ca;0x97d1dab85c32e;0x68f40592cbdb;0x43b62e55135fd;0x977a91373f]]);
 ((V [0xa2a89eecbe90d;0xe39405b5f13a8;0x9e2558f73e4b7;0xac599210f9d01;0xcec18f6e04199;0x2ca25b38d490e;0xb3206a7b09eaf;0x534610c563748;0x8940160891cce;0xa3ec8efb0a6] [0xe980a3cead858;0xbb6ce45601769;0x3612e92b82e19;0x1d3a2cf33db54;0x7554c4a416b5c;0xe5dda53e9deea;0xbf6f358792006;0x37e501c248fba;0x615e8b705a5dc;0x8ac6c1f51f0] [0x9848efa7874ca;0x51e68add1560d;0x63904baaf6432;0x4ea82c66f3d9a;0x1190743b13497;0x7a4b7096c9e88;0x2016034bc3c17;0xfcffc7c8c65a2;0xfdf9497aa01ba;0xc4ae0c353c8]),[[0x68a1f60433f24;0x69ed9ba05c1b9;0x3e0acd8013b23;0xb9ca8039a24dc;0xed47df971e6ac;0x7dae154aa9512;0x5f1c4c3c53437;0x1bee15bf313b9;0x51c32c69cf9cf;0x651f791ef6b];[0xec05d418e3f67;0xf6d7b2d9768c0;0x874591ad146fd;0x4a273469fe05c;0xa8449c0511892;0xa95fc209558ae;0x62bc128a0ca0;0x1a95d573f56e0;0x918d702bf6a78;0xd1a5b8a97da];[0xa32d4de36f52b;0xb9b1bb6f45171;0xe3b2966f89a73;0x9ab33830208d6;0xc6f2ed437b6a5;0x658984c060bb4;0xa89c4308fc2d9;0xaf76d18d6b5e;0xbe83c07a9e4fa;0x2c60d9d570b];[0xa32d4de36f52b;0xb9b1bb6f45171;0xe3b2966f89a73;0x9ab33830208d6;0xc6f2ed437b6a5;0x658984c060bb4;0xa89c4308fc2d9;0xaf76d18d6b5e;0xbe83c07a9e4fa;0x2c60d9d570b];[0x25b9e81bb8995;0x2fabbe20a511c;0x80668c99f008d;0x61e70d46c7809;0xff3175651b5dd;0x3c699d26e7095;0x7556981c1db97;0x117d7102e5516;0x53b1f63e74589;0xd7edcf0db81];[0xc64bebfd2b39a;0xc72bf4b8d17a4;0x6df051324670;0xe840272336853;0xa913269ff62b4;0x6cf624e26e818;0x90d5290c83109;0x9186471101c9;0x3ddb79ed824ef;0xf9b7e99bc59];[0x0;0xf290629894054;0x43319376bc250;0x14b2c0bf1af29;0x3219758aaf4e3;0x28e7e8c4d706d;0x48838828ab439;0xd8a811407e951;0x257a6b906a00d;0xd92b0bf949932;0x1b71888c68c];[0x0;0xfffcff4d6b733;0xa0686a62babe4;0x90ce631088fbb;0xbd270805890fc;0x3dfcad7cb565;0xd7d16c63bff22;0x714940d235ed3;0xf5f0d35a7b26a;0x6a95d587dd468;0x1187aaaabb6];[0x0;0xdd5268fd2a0fa;0x126281c6bc12e;0xaaace0482e374;0x23c0d8f73b208;0x78d77f496ba98;0xf8adf93c483ca;0x97d1dab85c32e;0x68f40592cbdb;0x43b62e55135fd;0x977a91373f];[0x0;0xdd5268fd2a0fa;0x126281c6bc12e;0xaaace0482e374;0x23c0d8f73b208;0x78d77f496ba98;0xf8adf93c483ca;0x97d1dab85c32e;0x68f40592cbdb;0x43b62e55135fd;0x977a91373f];[0x0;0x6aff75dfe2684;0x69487dd5e5e91;0x5d7f5661dd41;0x116a48bfe5a5f;0xd5a5c52e0f799;0xf8b68992da119;0x3ab952bf80138;0x618b84ae90289;0xdd3cc6a035d71;0x18771eb84d];[0x0;0xf77ebca08e011;0xcfe6b7c72b1a7;0x9587ad8e0c74a;0x4f68e0f763234;0x18f698ad6d173;0x32f40cdd2837e;0xaa05e0b82af1e;0x78292f5360280;0xf7ddae731c190;0x3a9e4588830];[0x0;0x4d7beb30d827e;0xd12482e01c4c2;0x4710561d5b6de;0x67205519aaf4a;0xeb1ab592f1b77;0x6dfc0a4224261;0x247f3476f1243;0xb56ed0c064179;0x2b25460c2d316;0x863e3e71a9b];[0x0;0xee38c7dc5acba;0x1e49cf653c67;0xf29097d941e8d;0xafac50e3843dc;0x24145d9402e8e;0x3c6e4a8e88541;0x70fe6bb57532a;0xca372f9583edd;0xe1750d9ed8fd7;0x8adfe29c85470];[0x0;0xd5310b61cbae2;0xed97f1bff85af;0x3644412061296;0xb7986196b035;0x8de138bfd1a02;0xdc749c640e076;0xa1d7dc3a1fa01;0xa2a08115ad2dd;0x410a830380e70;0x58dcca3c36d]]);
 ((V [0x3845e2bc35684;0x41f905bd353fa;0xc3aada05ea710;0xe4279426dbd8c;0xc65a5fdaf21c3;0xdfeb0bc908924;0xe5d3178d30c4e;0x72299c952412b;0x4f6da36a5cfe3;0x7a6a411445f] [0xcc7d34efa099a;0x62621748644b0;0x5f4e18a62cc1d;0x6c8431519308b;0x46f4803646ac8;0xee6f7fda5f4ff;0x4766c290e02f2;0xa55ed1a74a657;0x93e26e5afb485;0x786e00a9932] [0x7a22de4adb17c;0x38816ea80ac34;0x9160153d2f49;0x37c9aa90a7786;0x69e66e1795841;0x6ae7d1b5b8341;0xba909b01146be;0x96cb4401cc999;0x3ba389aa74bf9;0xf783935d6b4]),[[0x486f47d6cd387;0x33013e9a1dacb;0xbc91cdf9da943;0xb83aaabfc6a85;0x8c6d813a2edc0;0x56dbed8e143f;0xd187ff43322ca;0x421ba8dd4e9b7;0x32309c0de31e2;0x45e56dbc5c8];[0x96c19e151d3e1;0x5365d1a5e0993;0x8ac0f7d72452b;0x991824eedb497;0x102c6e4b294dd;0x29ab70a1083d4;0xddca82a5557cf;0x49206aceec0f1;0x953e159f67610;0xadc294cbb2];[0x9848efa7874ca;0x51e68add1560d;0x63904baaf6432;0x4ea82c66f3d9a;0x1190743b13497;0x7a4b7096c9e88;0x2016034bc3c17;0xfcffc7c8c65a2;0xfdf9497aa01ba;0xc4ae0c353c8];[0x9848efa7874ca;0x51e68add1560d;0x63904baaf6432;0x4ea82c66f3d9a;0x1190743b13497;0x7a4b7096c9e88;0x2016034bc3c17;0xfcffc7c8c65a2;0xfdf9497aa01ba;0xc4ae0c353c8];[0x974cbe1f81de1;0xaee65ce663ecc;0xdaf6af960d6a7;0x56586049d7da0;0x63b79d54ec126;0x6e4b712c23c3c;0x31d497921d325;0x8ef93f64f8821;0xc9c4a2823343e;0x762272b80ac];[0xff74dff59b3c8;0xa47f74bf7cac6;0xafca484116e83;0x42bfc4a5036f6;0xac74d0f63d3b7;0xbb5fff74e4797;0xabf5eb13384a9;0xba272b69f38d0;0xcb79731d341d1;0x94b9b694b05];[0x0;0x183dc743ba99f;0xc9dca64fd64b1;0xfea9cf900a481;0xe027a9648279a;0xac3473fb7324f;0x893078ff793f2;0x7799d6463f4c9;0x922d25e5fdea7;0x1a457568352bc;0x79a0651d6a9];[0x0;0xa32e73403be33;0xc9017dd896350;0x8ecd2c40735e0;0x2153fe94049d4;0x7127ebd709039;0x32907b6126382;0xb334372b3c2ec;0xfa93898cc8153;0x8e236739f98c6;0x35b32d4a170];[0x0;0xd5310b61cbae2;0xed97f1bff85af;0x3644412061296;0xb7986196b035;0x8de138bfd1a02;0xdc749c640e076;0xa1d7dc3a1fa01;0xa2a08115ad2dd;0x410a830380e70;0x58dcca3c36d];[0x0;0xd5310b61cbae2;0xed97f1bff85af;0x3644412061296;0xb7986196b035;0x8de138bfd1a02;0xdc749c640e076;0xa1d7dc3a1fa01;0xa2a08115ad2dd;0x410a830380e70;0x58dcca3c36d];[0x0;0x42d7fceb248a9;0xe1c8e9a705ae2;0x2b8fba6db9b29;0x940ea070faf57;0xd6e202c696d90;0xd7fe8d177304d;0x35a2d7bf58dab;0x36ead3f0be5c7;0x210845bbe8066;0x4b3ae36cdf9];[0x0;0x37771aab18617;0xc748720cad2b4;0xc8b01fbd169db;0x629527a059eec;0xafa87c7639a53;0xd02b4b9a6ccba;0xb5f647ffc0c6;0xf582e0cb4382b;0x7d3041128af8f;0x68f718ab9df];[0x0;0x7c94199d356c;0xa0d353a43b0f7;0x8a9a9e9f68187;0x6877d51f0ee72;0xdd9d47616fdfe;0x5e04a6a87d1a7;0x3c9570e593516;0x820d0f3e638df;0xea20c1ac66162;0x5316d9a6d9];[0x0;0x9f44975c3c43a;0xf451b5385f653;0x7a29951e71b9e;0xb3d4c30aec5cd;0x609c7d29ec410;0xde52f56775bd5;0x5e2684b3902d1;0x4bb3b6978ad63;0xe2ab4b4ebda8d;0x78e152cc3fd41];[0x0;0xb491f13cb02b4;0x266f7e378f8bf;0x5a7741c21596f;0x4ec0aa57252bc;0x85de90adf1132;0x22c46e0c14e77;0x1a5ce4fd48fe3;0xcea81830f5d8f;0x49575efe0abda;0x3996687a8e0]]);
 ((V [0x23575a6fbd9cf;0xd74307c478613;0x18315f374ecaa;0x72a42f0ee98f9;0x8c57d3d984d19;0x89d4c04284687;0xe0a25a882a8fb;0x4603b5024f65b;0x2a90bcb173949;0xacd90a867ce] [0xa658c69988e6c;0x646e7583a17b;0xf2628f1765fcc;0x4f941b106856a;0xbbd475e9ebfc7;0x5009c72773afc;0xa42bce99706a;0xa21357f43c38b;0x90ab7741a8d81;0x1fa19fedd5d] [0x2b5e658e1a7ce;0x45ab0eb0fe0e4;0xbd3f931de1477;0xa3b32ac80dc83;0x68642b52534e4;0xfdbcde639f845;0x778e61ec20d79;0x9186022600f66;0x932eda80125ce;0x58183a631c3]),[[0x7af0d9bcdad8;0xc66c43cc6d736;0xd836fc2cdfdf6;0x888d13a80ca85;0x5a89229c8c2f6;0x742eccc7acc6e;0x6ab4f3a436722;0x9e5a9fd9530b1;0x4799499b5b2ce;0x1c771cd87c1];[0x36f546d5d5435;0x1e6d57fc3f4c3;0x6831087f4fa0a;0x63b7db941138;0xa71aee2a38cf9;0xf714bfede9ee9;0xbbcd407438a6a;0x9ce68de632984;0xdf58fcde75d0;0x6e40999b64d];[0x7a22de4adb17c;0x38816ea80ac34;0x9160153d2f49;0x37c9aa90a7786;0x69e66e1795841;0x6ae7d1b5b8341;0xba909b01146be;0x96cb4401cc999;0x3ba389aa74bf9;0xf783935d6b4];[0x7a22de4adb17c;0x38816ea80ac34;0x9160153d2f49;0x37c9aa90a7786;0x69e66e1795841;0x6ae7d1b5b8341;0xba909b01146be;0x96cb4401cc999;0x3ba389aa74bf9;0xf783935d6b4];[0xf02c9a87dfff3;0xd3f235586945f;0xbe47103258104;0x54c60decbe998;0xa988a39d1c42a;0xd711c5a473bf9;0x8b7e81d3887e;0xf43f2a2ef3b0e;0x4aa1ede3c6ba9;0x27f25f77d59];[0x46c8ac4df5443;0x4a7b22a3d6063;0xa9e9f84cf7905;0xb1756fcc8279f;0xfd924a8d1c8ce;0x2002fa49762ef;0xb3155857001ec;0xa8a763b73ee76;0xc353a1ea20a26;0x464e3a238f3];[0x0;0x71e39709c98d8;0x63b06ce6b9168;0x4835fe710f76d;0x5608265a1458b;0x151df92dfa07d;0xe007aea7455d9;0x5218b8bdd74c2;0x132e026935547;0x655a3428614aa;0x990ff1004bf];[0x0;0x1192205e7143d;0xaeda543bc2dec;0x6ec3737a998a4;0x87010beeab176;0x1fe47c47a489f;0x8da9d4549cbc6;0xb63529284b6e7;0xac16f165cb26f;0x25a9d4b5459ee;0x1b858e2b6b4];[0x0;0xb491f13cb02b4;0x266f7e378f8bf;0x5a7741c21596f;0x4ec0aa57252bc;0x85de90adf1132;0x22c46e0c14e77;0x1a5ce4fd48fe3;0xcea81830f5d8f;0x49575efe0abda;0x3996687a8e0];[0x0;0xb491f13cb02b4;0x266f7e378f8bf;0x5a7741c21596f;0x4ec0aa57252bc;0x85de90adf1132;0x22c46e0c14e77;0x1a5ce4fd48fe3;0xcea81830f5d8f;0x49575efe0abda;0x3996687a8e0];[0x0;0x3d62eb54bdc7;0x4e780aad43dc1;0xf46784be1f509;0xd1e8e09334266;0xae25108e40358;0x283701a560546;0xdbb09b8c3c2a9;0x53339340c11bd;0x1920981ce8f9d;0x38a74fe38bb];[0x0;0x7f081586985cb;0x71e21f3ee496d;0x6be7e1af45d56;0xe8d6b66148c81;0x7073f13fd0003;0xeb18d8acdaed0;0xc3081a5b4f9e2;0xce19d863789d8;0x2b745cf8aa4c6;0x3a897221480];[0x0;0x4fc857139d7be;0x232745658ea0b;0x424b1ac526b02;0x61012143c00d5;0xeb68611884b70;0x73528bd83ccc4;0x19273b0422fd;0x8a7066a7b4573;0xe2ca0a40bc846;0x4a70e07f0e0];[0x0;0x60e610c8dd00b;0x690e967c13d55;0xcfdeffd0accf0;0xe34d358570fa9;0x86a5d7d6949e5;0xf7732739450cd;0xf0f8701fa207c;0x11d0673745810;0x51e1b39323884;0x1fb3a21fa8b5a];[0x0;0x8b9aa5252be4a;0x287256409ddda;0x5c0efa467ccde;0xa9c39b1efd0fe;0x5a227fc841ff1;0xed98eb3540cf9;0xc1018c0460c82;0xa716f99caec9e;0xf640f4cb3dcc0;0x155b68c14a8]]);
 ((V [0xb505d591d7029;0x504b52cc34d3b;0xff09afa7e9a9;0x9853bb0ccb5d2;0x5e5548da7183e;0xd1449ae75ff33;0x60cbf3da0be49;0xb04726285501f;0xbeb91fbc8955b;0xda72b80d60] [0xef5068aa48aa0;0x3477b193f4e58;0xf0b0e9686ae8b;0x6c198d10854a3;0x57472d999e96;0xce9b7026c411f;0x203579ca8837c;0x21b3e98bf44bd;0x3c69d131cf00c;0xf4eb14e60aa] [0xed6547bbd5909;0xab92d686a241f;0xbf370b67c519f;0x7a41e5e470d35;0x90640f5387ae;0x34cfe4698f0dd;0xd7e94256abe38;0xa9ff8d29e9de4;0x6558a36bb91b6;0x3015d888350]),[[0xc2a8b7c1cec35;0xf9241d8f05190;0x3fe24075b0fc8;0xfa8bb09c28707;0x71fdaa2330a2c;0x9431131ffcd4;0xcb9c50f0a3c0a;0x7252daeec814;0xc48ffb6f3adbd;0x20074aad1ef];[0x8b1d8a89199ad;0x7b98e3356d91c;0xef33f2e14dd8b;0x519112f16dd3a;0xa627e93112103;0xe6c18b2c916ec;0xb7774af6cb7a7;0xa57ad5ed1fb63;0x1650b2f124c42;0x9f389c5739f];[0x2b5e658e1a7ce;0x45ab0eb0fe0e4;0xbd3f931de1477;0xa3b32ac80dc83;0x68642b52534e4;0xfdbcde639f845;0x778e61ec20d79;0x9186022600f66;0x932eda80125ce;0x58183a631c3];[0x2b5e658e1a7ce;0x45ab0eb0fe0e4;0xbd3f931de1477;0xa3b32ac80dc83;0x68642b52534e4;0xfdbcde639f845;0x778e61ec20d79;0x9186022600f66;0x932eda80125ce;0x58183a631c3];[0x65e02c8c71636;0xee2ea94c0d8f8;0x950d5ee9f2e0b;0x1b73d07eb905c;0x35a116eada0a5;0x2d2cba7e1338f;0x76656d2d9d2;0x8a9f0437474a8;0xa0ed1b3bd8fbe;0xb69a7f858ab];[0x253d5dfca813f;0x8d6a39e960024;0x5a2693f75af7f;0x361d4272b4cde;0x7086d2463805e;0xb994d0ae7e35d;0xb700e5899ddd5;0x1adbd1b5d86bb;0x756397b54bc84;0xe89e1cd1af3];[0x0;0x72bf1b674407d;0xc1d831dc8727d;0xbd2cf5c450240;0x4aaa3042857b;0x421d0f43ea991;0x71971ede6f51c;0x2f58a1d013ea;0xceecec0ad08db;0xa3f549748742e;0x367a43b42af];[0x0;0x9d1ff487aa83f;0xe17c835bf3b08;0xe77713360994b;0x2a17742155b27;0x2ff698237c020;0x73c8ca9025115;0xbde976daa9ca9;0x356b11b260660;0x6aee09b417327;0xb0589a8902];[0x0;0x8b9aa5252be4a;0x287256409ddda;0x5c0efa467ccde;0xa9c39b1efd0fe;0x5a227fc841ff1;0xed98eb3540cf9;0xc1018c0460c82;0xa716f99caec9e;0xf640f4cb3dcc0;0x155b68c14a8];[0x0;0x8b9aa5252be4a;0x287256409ddda;0x5c0efa467ccde;0xa9c39b1efd0fe;0x5a227fc841ff1;0xed98eb3540cf9;0xc1018c0460c82;0xa716f99caec9e;0xf640f4cb3dcc0;0x155b68c14a8];[0x0;0x4db0d1caf25d6;0x5bff491326050;0xef62b79d325e9;0x243907d0e4d0;0x999ac61fa8e8d;0x860dd1d8b24d7;0xf4127b7e52a67;0xc9e97202ca012;0xad8312aaf1569;0x3e88ac626d];[0x0;0x75d97b1732ce;0xcec259e402f9;0x773abb3f3b2a3;0xad24f4eb2f342;0x410e39b63b037;0x5b023114ed1a1;0x6112c7d8b7889;0x564906e16e93b;0xf13d31e4fc302;0x74b45e27903];[0x0;0x6fc81392e90ae;0xfb5555d7a1abe;0x4a6153be0cd5f;0x92bd6487f6a6b;0xc53bbdbe1e9d7;0x7a9c9a1fa56f5;0x6cc076727928c;0x7bdcca803bab7;0x99d9665b83326;0x87dd8ed0e8];[0x0;0x3810b618999ce;0x237e8965b9803;0x53ca0ad810c0;0x84309687d8f53;0xf44fcdd6b40f4;0x8be96aa338b27;0x40072fc7d7824;0x6222e5d660d91;0xcc5366cd1cfeb;0xf547abcff6876];[0x0;0xbbfdf01c87cb1;0x4a4bf3249c8be;0x808e98ff8e3e1;0x69d6e629aae7b;0x61e257e5f52eb;0xb33364d0ff4da;0x894ff21c8607b;0x40c0c71815e0a;0x43ad07af63fc;0xd0fdf090f7]]);
 ((V [0x2685cd7d68c1d;0xa2857875f189;0x5873ad9287150;0xe713002137d7c;0x33416edb6deb2;0x41d82dac5f028;0x953c0c99c6e85;0x1ce3dd8b901c;0x87a842c78cea7;0xb54d1a37cfd] [0x7153038125148;0x3e176698e3575;0xac54d1255eb98;0x587895b775ebc;0x1d9a56a8ea344;0xe4070d8c37029;0xf0e264d45cc4e;0x9256ef7945c32;0x44afea78f228b;0x6f433b88196] [0x7ed723bf2337f;0x69951f0189b9;0xa3c9d13f292a6;0x2e27ec6942c8f;0x77b99f9d263d;0x94e127ae3f66;0xc80ac648e1b06;0xb5b375af53224;0xa55c7f12dd833;0x4893013b268]),[[0x27024af99c90b;0xc7bd369f20b53;0x45513f68b4e5;0xe9199c3672d32;0x3d79fd0bdbce8;0x7d280967aa262;0x854a8a822edd5;0x500c5c0d3721a;0x4d675458d77e1;0x1f37635d4e6];[0xb9e01f72086c6;0x9c2eeca09bd09;0x624216be39b2b;0xd6118ef2565fa;0x4ee9a257a9d1f;0x98ba261033c29;0x5781516f6ff41;0x74029a698f1fd;0xbff6f2fb75a2e;0xc5ff7c018e6];[0xed6547bbd5909;0xab92d686a241f;0xbf370b67c519f;0x7a41e5e470d35;0x90640f5387ae;0x34cfe4698f0dd;0xd7e94256abe38;0xa9ff8d29e9de4;0x6558a36bb91b6;0x3015d888350];[0xed6547bbd5909;0xab92d686a241f;0xbf370b67c519f;0x7a41e5e470d35;0x90640f5387ae;0x34cfe4698f0dd;0xd7e94256abe38;0xa9ff8d29e9de4;0x6558a36bb91b6;0x3015d888350];[0x7e49bff16f631;0x23287eb2a14c9;0xea626f01d8af;0x8f00fcd5833f0;0xc7e676ebf1f75;0x79215b764b890;0x45e648335b830;0x28f6acb50370a;0xb42508edc7f1e;0xd1a59f6ecc3];[0x3b965f8098e5d;0x79066dedfa840;0x539befce1c27c;0x4710921cd320a;0x87032b6bb7daa;0x1f98ca99e8398;0x119b093c14711;0x4b0bedb48baf3;0xbd1ea0dadb10;0xf459dc92c23];[0x0;0x5673d91482713;0x28566cd5e918c;0x7aeaa053d53bb;0x6beb218a3c55b;0x4b1b37eb99e5;0x5fd8e40ca9de7;0x40ae14a6a7a26;0x466fc82a39e73;0x5d69d2c34d597;0x1dbc63f41ea];[0x0;0xf965f595c197b;0x713446d693fcd;0x87202067e8e35;0x5a12a17e5a6df;0xf1a4e93704565;0x7cc710c2cadc3;0x5b281d956687f;0x5996e49255e0c;0x5177f331eec58;0x5dd0c93fd1];[0x0;0xbbfdf01c87cb1;0x4a4bf3249c8be;0x808e98ff8e3e1;0x69d6e629aae7b;0x61e257e5f52eb;0xb33364d0ff4da;0x894ff21c8607b;0x40c0c71815e0a;0x43ad07af63fc;0xd0fdf090f7];[0x0;0xbbfdf01c87cb1;0x4a4bf3249c8be;0x808e98ff8e3e1;0x69d6e629aae7b;0x61e257e5f52eb;0xb33364d0ff4da;0x894ff21c8607b;0x40c0c71815e0a;0x43ad07af63fc;0xd0fdf090f7];[0x0;0xd88ec9b7c2fb9;0xbf972db2292fe;0x13f2c57f90f6a;0x5b95359e29679;0x4db6682bfabc4;0x2fc74261ba889;0xc75ee322ad8f0;0x7fa2041e14bc0;0x47baac692e23d;0xea50f7b5e45];[0x0;0x8e7c2eb3d762c;0x70d5192b90485;0xf982eb1f95cd4;0x680dbfe497404;0x65d56ccdcffdc;0x447c16e84b327;0x3e482fcc50bac;0x808db40fa2e36;0x90238ec0f69d5;0xba6794df3];[0x0;0x74a05201e79bf;0xe5ed951b036ca;0x73ea0400f938c;0xd4e65b28bc002;0x33b15d87023a0;0xafa2047931ad3;0x8dc940ace02d2;0x526a0576d9081;0x70279e106aee3;0x8c3944cc836];[0x0;0xb35ba78e82e63;0x57e8ed1d68a56;0x6bb3868d4a3a4;0xa24a1ca917249;0x608c9911b0736;0x6b2aaedcb17c7;0x87da249a86f87;0x3b64b0acc3cc1;0x46e11333754cb;0x6f5c70fcf4379];[0x0;0xef1a0933650f;0xfdbf63d635950;0x3315e1da5233;0xca840d9a8432e;0x3f5990f2629db;0x7fa090e8d43e3;0xd7713c12dee1e;0xab389d817f09a;0x69c1f02f5b64e;0x4ecc0bb537b]]);
 ((V [0x96e30b1e4d853;0x6dcc429c12bd8;0xd702ea74d0607;0xd3ead4c77c6b0;0xd65f91eac3143;0xc5c89070afbb3;0x714b332b4965d;0xee9a2017fcd26;0x3a6cd8cc87218;0xfcc92a86b35] [0x6854c05bf2ade;0xbeea9bb280593;0x91c7510d6e2d9;0x2c94355831110;0x100fe8fa9ff0;0xd665c024a852a;0x7f4d1f661e0cf;0xb1045c19f1323;0xfd6cf2348cc9e;0xd1ef063214e] [0x8bec5f3aa9519;0x707169ab0dd1;0x4092b79e09026;0x7253534a9953b;0xb33a59148ef52;0x17b594e311a4c;0xc6a211b60a87b;0xdbe06d6fc9f5b;0x1137d27fc0ace;0x169990fe94a]),[[0x87dbabd988298;0x28beb3ef601e6;0xd1685390f747e;0x96058eb952474;0xc729df6e26821;0xfc2c416ade56e;0x279c6e6efa91b;0xdc0699f14a7db;0x90671044a18df;0xf7f3cb12594];[0x4b4a8cbf0490c;0x8ab23794fee35;0x6ad8d10e065d1;0x9926a58a42609;0x677813bc853c5;0xb6d861e11eb1;0xec8317274c737;0xf0fdc0458fc3e;0xb135854b0a236;0x12e1cd09ade];[0x7ed723bf2337f;0x69951f0189b9;0xa3c9d13f292a6;0x2e27ec6942c8f;0x77b99f9d263d;0x94e127ae3f66;0xc80ac648e1b06;0xb5b375af53224;0xa55c7f12dd833;0x4893013b268];[0x7ed723bf2337f;0x69951f0189b9;0xa3c9d13f292a6;0x2e27ec6942c8f;0x77b99f9d263d;0x94e127ae3f66;0xc80ac648e1b06;0xb5b375af53224;0xa55c7f12dd833;0x4893013b268];[0x5d0a91034536e;0xfdef8e9cbdfff;0x925266e8de1a0;0xafd8969aefd53;0x81f6702c1f4dd;0x2248cef60def9;0xde34c37e60a2e;0xb2e1c6b078f20;0xc5220f2bb1531;0xd69c3f27647];[0xee3ffbbbbf366;0x8cc2a8f840e35;0xd8866a2528430;0xe94e0eef528b5;0xe581a39065ee7;0xe924b72803fb7;0xe4e53a8ebd08;0x3e1bf99516d1e;0xec13761f58d05;0x3c458de2496];[0x0;0x5c18884c93f28;0xf58c04fc4db33;0xfbcf12ab1ada3;0x3b6ba232a8efa;0x186d5be86b19;0x445df5639874a;0x5fc955b7fd8a2;0x49348e86c1f55;0xd99ea19f3e2fb;0x2ce13aa4fb4];[0x0;0x3efbfcb4da4c4;0xfb28aa61a9690;0x2ffdbc08c431a;0x900830e1b3f3b;0x5469ac5a3b0eb;0x50b3218e703f0;0xa9ca79a401fce;0x2d3e375eb2a67;0x4daf824a30f45;0x464af34c02f];[0x0;0xef1a0933650f;0xfdbf63d635950;0x3315e1da5233;0xca840d9a8432e;0x3f5990f2629db;0x7fa090e8d43e3;0xd7713c12dee1e;0xab389d817f09a;0x69c1f02f5b64e;0x4ecc0bb537b];[0x0;0xef1a0933650f;0xfdbf63d635950;0x3315e1da5233;0xca840d9a8432e;0x3f5990f2629db;0x7fa090e8d43e3;0xd7713c12dee1e;0xab389d817f09a;0x69c1f02f5b64e;0x4ecc0bb537b];[0x0;0xed5ef4226d09e;0x8bd44aed4f381;0x7380e4b9041de;0xe53e1c32109ae;0xe9176b9141143;0xdc137c363b420;0x9562089ccd9ea;0x899c19ae0006b;0xa47974e3fa29f;0x305b5f483d1];[0x0;0x79277ad6d9505;0x48ceae2093e2f;0x5fd3111e3a83d;0xd0aa414cdd3e7;0x420df1543d443;0x908d3204be7b7;0x8827b35ce879b;0xd8801a562d2f0;0xa87db8b0cdfe8;0x80661e4bb42];[0x0;0xcee5e188bd1ff;0x34b7b436340b5;0xbc87f6c4856ee;0xff33cde205f17;0xa76ab9e0e90f3;0x5d73e01019194;0x43baef545f9e0;0x5cd2e98c51816;0xbec1790d77ab7;0x12a51c427ed];[0x0;0xd83b9756c11ff;0x7d29e4223247a;0x6b355b761b74f;0xd925ecdba86b2;0xff9d83f85b1a3;0x448c990fcff1a;0x58c193b6f57f8;0x653c95d1a39;0xcc20d8ee770eb;0xd2b1793e9eb54];[0x0;0x2ee4d463d8c17;0xf31554090d683;0x3dba3b71f67be;0x328b6c880d36c;0x2518c822e47aa;0x197d61524a38d;0x30c8cfdf823ed;0x2a1d1a5aafd37;0xeb80772e6ce20;0xcf4c41a4d71]]);
 ((V [0xfb759edafbbb;0x2619d8c02185e;0xe6e9504e5ca4f;0xa6fdb31e57f7e;0x3498ded8766db;0x73daac471300d;0x988365c4ee83e;0x50cedfddf22af;0xa8348da72291f;0xcc42ccca481] [0xaf68be2c8012d;0xdb8cfc3ba9578;0x43568a02e51b8;0xd56ca9b55a99e;0xbf41c9535e4be;0xac2a2cf8edd1b;0xb0689055b555e;0x2781abf9e109;0x8b10070b14422;0xed6913080bd] [0xa2c38a84cdb7c;0xa17d11bb3c2ea;0xd414c9646bae7;0xe4aa6adcb9323;0x25f8a8d27ba5b;0x1f4e75c43479e;0x2d6fe51004b1e;0x6c6822cd2b548;0xaba12392f194;0xafd1418d796]),[[0x9e0f8dbdc58dd;0x3ada921ced386;0xb6558b4f361b;0xd83aad99ede23;0xf6f0009ff0a82;0x61435cb7c6b1d;0xd231ab3a22408;0x84fcea90f7221;0x28a979b1f89de;0x9bebbe9f93a];[0x4aa96a7123fbf;0xf96ef9b7146ed;0x9fe485be63696;0xabff63ed5ebfb;0xba42dc99be81;0xab45d21e5cdde;0xeee4034b508c8;0x3a0fb9af74c7;0xd0bd7e2d3d197;0x1639dfacdc7];[0x8bec5f3aa9519;0x707169ab0dd1;0x4092b79e09026;0x7253534a9953b;0xb33a59148ef52;0x17b594e311a4c;0xc6a211b60a87b;0xdbe06d6fc9f5b;0x1137d27fc0ace;0x169990fe94a];[0x8bec5f3aa9519;0x707169ab0dd1;0x4092b79e09026;0x7253534a9953b;0xb33a59148ef52;0x17b594e311a4c;0xc6a211b60a87b;0xdbe06d6fc9f5b;0x1137d27fc0ace;0x169990fe94a];[0x79cf1e31d29cb;0x1d5baa0b6cf70;0xd072479df4bff;0xac3d132f05a77;0x1dc4f60889891;0xbe57bf41329a0;0xe16d69a481c54;0x876a4040f5f19;0x88dc6f566ff73;0x25332ce3b0f];[0xd0da4c3f513bc;0xdc134faba777c;0xcf723e206ea97;0xffc250be59183;0xeddf37c1125ef;0xecee12dd2a43d;0xd7699a6cec73;0x7c36bb5a015ae;0x47e10ed6cd223;0xf106b2c92b8];[0x0;0xee48aa93cd075;0xf518218436ded;0xd54461cdc3498;0x27ca779bbc614;0x75ae62232c62;0x778a1b74300a5;0xba717ad6da117;0x5d6a731fbd462;0x4be0179548829;0xdf9c923041];[0x0;0x82d1edab8f27a;0x895125041f25b;0x9735800d19bf3;0x2ed45337fda1b;0x32b9a40fa640d;0xe53b3277ce531;0x3e933c60404c8;0x4994f846bd9d2;0x67ec3a27d5f48;0xdc3ca964db];[0x0;0x2ee4d463d8c17;0xf31554090d683;0x3dba3b71f67be;0x328b6c880d36c;0x2518c822e47aa;0x197d61524a38d;0x30c8cfdf823ed;0x2a1d1a5aafd37;0xeb80772e6ce20;0xcf4c41a4d71];[0x0;0x2ee4d463d8c17;0xf31554090d683;0x3dba3b71f67be;0x328b6c880d36c;0x2518c822e47aa;0x197d61524a38d;0x30c8cfdf823ed;0x2a1d1a5aafd37;0xeb80772e6ce20;0xcf4c41a4d71];[0x0;0x414e792522f7f;0x727711cef9712;0x9e8740b2b2173;0x68e5569686a4f;0xa28b8acc224f8;0xc4b7b75f3c1e5;0x6578292412cfb;0x87e53b4e54f1f;0x91758bbd8b8dd;0xac28274a57d];[0x0;0xb0d350153d36b;0x15456ca3b9959;0xeb8d13240435f;0x23eb23ab79946;0x929e935de2d60;0x9f8e3a3e26866;0x15673be375cab;0x71068ec18f8be;0x2c37847dddb5e;0xf99ca9ccffa];[0x0;0x91868678ff882;0x7234b81d5ad72;0x7265121a94a0a;0x27b3cd90f8da7;0x1372c52800997;0xaa139bf9f7a79;0xd2704a81828c3;0xdd83d738fae39;0xf4ff5fcc9c604;0x11bbeaf1186];[0x0;0xa556c069c3549;0x686fe106f7cd7;0xa2dd3a43f6b8b;0x59df867d03e33;0x4741d9a9839b4;0x3c4312608f10c;0x70f2d39e46b9e;0x91b7297f53594;0x35f9d08df3c65;0xee41df679d201];[0x0;0xceb2c20738185;0x5f4e8cd1fc2d3;0xd66ff789c70d9;0x820b55b076414;0xb1e0ea12dae2e;0x268f7a8cc0dbb;0x42c099b4173b8;0x5c8b993ea91be;0x54c7a88f84b64;0xbd6dae2ca47]]);
 ((V [0xa622b3a988810;0x684dede368531;0x59ebd127bd6d2;0x39a0d2a8832aa;0x190bcc38c3b04;0xb2c32e96c32dd;0x4ca41e1823508;0x68e648252902c;0x71a3d3c58fd2c;0x6fc922a4f64] [0x5b663f2bf20a7;0xca52f5f7121a;0x327a4fa6aaefd;0xf6a8932c04a16;0xc71ff763a8d7;0x2134e9ab06446;0x1647c41a3d52a;0x418fbc1c4c3d1;0x83d3f07cea0c3;0xd38672b766f] [0xd87d58f72256d;0xa032501434c74;0xbfdf8375a177b;0x8a59ccf26af0a;0x3d68494572d3f;0x757483cf7fba2;0xc86193f3878ac;0xa5baff2c4ed80;0xbcf7cab31c953;0x2600c9b4a1d]),[[0x403c319822717;0x8f9849054d7f3;0x1296721abfad;0x6e38c0aa1bda5;0x4cca9457592b7;0x1e9279b26f1b2;0x33a2b9d715c45;0x8c552c8ee2f75;0x3eca4622f417a;0x5ad022dd4a5];[0xcb67861e74641;0x96dc3aab286f3;0xec23a862887d1;0x8afec515fb61d;0xf334be064cd45;0xe033e98d305eb;0xa619d2de3f969;0x77fd1add4bc5d;0x83689c88542f1;0x7a40950d92c];[0xa2c38a84cdb7c;0xa17d11bb3c2ea;0xd414c9646bae7;0xe4aa6adcb9323;0x25f8a8d27ba5b;0x1f4e75c43479e;0x2d6fe51004b1e;0x6c6822cd2b548;0xaba12392f194;0xafd1418d796];[0xa2c38a84cdb7c;0xa17d11bb3c2ea;0xd414c9646bae7;0xe4aa6adcb9323;0x25f8a8d27ba5b;0x1f4e75c43479e;0x2d6fe51004b1e;0x6c6822cd2b548;0xaba12392f194;0xafd1418d796];[0xa32d25dd86595;0x52bdab6693149;0x4f366f31d0a16;0x5d18a8e2f4af;0x237af67b24fda;0x8d324827e2e6f;0x6bf3defae9fe5;0xf92b57c3e8064;0x7d13d18b8c2ed;0x1b270f5f62b];[0x283a6040ee0ad;0x441e8f44955aa;0x9ced3930b7dbb;0x852d3a87cc16e;0xcfb9c78b27d6b;0x5301a1654d77c;0x3a25f3e355984;0x7ed1c31963bf9;0x654cafcc8003;0x5f1985ae301];[0x0;0x9084741f7db0f;0x966029577db41;0xbb66b89dd2f9c;0x4ccf86ff3064f;0x9f89f4cf8c86d;0x42be82823182a;0xe80d8e021ea8;0xd0ddae05bf6ae;0x868eafb04c126;0x6cb9a847b7d];[0x0;0x2ca3c35889705;0xe89c91cf86f78;0xcd1d22dc4025c;0x39d5375e76bd9;0x9b290236c51d8;0x104ac11a2cbeb;0x9e2fbbaa062fc;0x4781d97e1f2bf;0x51c73ac8d671e;0x3e5e8302c50];[0x0;0xceb2c20738185;0x5f4e8cd1fc2d3;0xd66ff789c70d9;0x820b55b076414;0xb1e0ea12dae2e;0x268f7a8cc0dbb;0x42c099b4173b8;0x5c8b993ea91be;0x54c7a88f84b64;0xbd6dae2ca47];[0x0;0xceb2c20738185;0x5f4e8cd1fc2d3;0xd66ff789c70d9;0x820b55b076414;0xb1e0ea12dae2e;0x268f7a8cc0dbb;0x42c099b4173b8;0x5c8b993ea91be;0x54c7a88f84b64;0xbd6dae2ca47];[0x0;0xa82c963ea310c;0x9f4b097a9cc56;0x4f5b4f8b1f548;0xbe66433d6ee0c;0x50bbbdaf39e1;0xcda3512feb31a;0xda585cb37c97;0x6c78b95deec1a;0x3217eeb6220f3;0xdc2bb85d83f];[0x0;0x83ae6ad9c6b4;0xd827a763a522e;0xe24386b759499;0x6d015fc081fb6;0xccb75a4fc910b;0xf25f5aa4fb3bc;0x745e549cff78d;0xb3a26848cc2cf;0xa71a7ed18cc1d;0xa2fa87d09f0];[0x0;0x1effadd347998;0xabc10647e05cb;0xe86a7867e847e;0xf1c6fde03f967;0xf1cca9a1e7dc2;0xd9856ba3e8ec7;0xb95a5a5223c2e;0xb4983083eb7ac;0x45cb55eca16ab;0x35620de1451];[0x0;0xde058c9bcc48e;0xe36332522b904;0xc6b2bff176bda;0x8ea091d8b5ef1;0xd2362c22926fc;0xf8119488ea6c0;0x938d045ac3bba;0x96b2cad930eac;0x8c34259dced7b;0xd3f4f5baadd26];[0x0;0xeafffdd3096e5;0x80af64649c908;0x81ba4f5723b0f;0x2dbfe22b5aa1f;0x2cc1b21c6b569;0x80f444b31ba9f;0x135fdba5be01d;0x9e24e0cb0fef5;0x146d5a8666e82;0x5c5d7cedc08]]);
 ((V [0xac20261998a6c;0xaa6ec17067c82;0x78eec31049574;0xa6474629ca47b;0x3fdd83d766b60;0x26a4ad0242bec;0x2264498b0b121;0xcc41546ee0219;0xe5fbf722f51d4;0x5f4a6076535] [0xf10c0352389a1;0xeb7bfda3dab83;0x9f6c1f57defb0;0x30ea10919d2a1;0xb142e6583e2a4;0x912f273f6c7ad;0x8e18cb1a1013c;0x4b85a6e790f45;0x678ae1e111577;0x250c353f74f] [0xfd11620678dc6;0xeb8176ffcee8e;0x44d520bf365ac;0xb9f4da7bffc7f;0x340af47056930;0x11378b26d66f0;0x566f0879c5e1a;0x22047c0077a4c;0xcbc5fc0d3ba3d;0x8a82bd000cc]),[[0x7e68c27925de3;0xfe38c1e05875;0xc09b56e1c6ce8;0x8cc8ee02c2c32;0x3e1ab2dddeea;0xf2810c6984f9;0x49caae06befca;0x5f0d1dd5d01b2;0xde936a7a3e8de;0x58d03112d67];[0xfc1b28c6d30a1;0x34d0d5d2d5007;0xe9d36520b00a0;0x3b8c9cbaa8738;0x3b4e5a637ff93;0xc16bf6b956e0d;0xde67b74da33bb;0xcdba1adf1dea8;0x6609a901aedfc;0xd929463e74];[0xd87d58f72256d;0xa032501434c74;0xbfdf8375a177b;0x8a59ccf26af0a;0x3d68494572d3f;0x757483cf7fba2;0xc86193f3878ac;0xa5baff2c4ed80;0xbcf7cab31c953;0x2600c9b4a1d];[0xd87d58f72256d;0xa032501434c74;0xbfdf8375a177b;0x8a59ccf26af0a;0x3d68494572d3f;0x757483cf7fba2;0xc86193f3878ac;0xa5baff2c4ed80;0xbcf7cab31c953;0x2600c9b4a1d];[0x7ee63cbcac7f6;0x426fc161cbd09;0x837705daf7c78;0x1952d0cf07802;0xd67d225ef08f;0xe83d631c0b777;0x1fcbec6d19746;0x1f46079205c5b;0x577c840431fbf;0x407d6127351];[0x7d34ec0a26673;0xf2611471092fe;0x665c5f45b8427;0x2239cbeba0f36;0x2de6883d90f04;0xd92e939d4b696;0xbe9bcae089c74;0xae74134d1824d;0xe8d24fd7ce3d;0xcd15333cb23];[0x0;0x113757378556b;0xcc59ec0d3d6b2;0x818697bb7c22e;0xde684e76a7b2d;0xa3378ad4a1260;0x413a81fb452e4;0x2f31e2cddacfd;0xf1afacfd0df08;0x12eab960ca5b5;0x1780449ecc9];[0x0;0xf2566f192dfca;0xaaa0fc769eff0;0x2a16aba298e48;0xfd82c02497f2e;0x6f4237e15967b;0x1e8eebcd8bc89;0xaa2117bb2fbb8;0x9e59d9edc38fb;0x82d3835733d09;0xd2f2d42ece];[0x0;0xeafffdd3096e5;0x80af64649c908;0x81ba4f5723b0f;0x2dbfe22b5aa1f;0x2cc1b21c6b569;0x80f444b31ba9f;0x135fdba5be01d;0x9e24e0cb0fef5;0x146d5a8666e82;0x5c5d7cedc08];[0x0;0xeafffdd3096e5;0x80af64649c908;0x81ba4f5723b0f;0x2dbfe22b5aa1f;0x2cc1b21c6b569;0x80f444b31ba9f;0x135fdba5be01d;0x9e24e0cb0fef5;0x146d5a8666e82;0x5c5d7cedc08];[0x0;0xe6e5ed733ef2d;0x691e6dd313f95;0x392919d938c10;0x15b5f74808903;0x4151e61c4a410;0x6b68a25f2de5;0x42d1931e0a4f;0x4e1231cbb56f5;0x4dbef7bb93de8;0xaec6e7b69f2];[0x0;0x4076075b7b50b;0xa36f65244115e;0x6d1aef526e644;0xdb5955e877272;0xc15b6117fae2d;0xf40f14751cf26;0xff9c077bea327;0x489b97c6c26d5;0xca01fa97c8bf4;0x30d00a12794];[0x0;0x155538bba9e92;0xd240a4bc197b2;0xf41f0ebeb40db;0x10c33d6c3c7c;0x3b58cb3303917;0xc10deb48cc271;0xc3184202ee456;0xc668ac13a901b;0x55bfab2f8723c;0x50d568d355];[0x0;0xa61b77dd2d4db;0x59a062fc74f65;0x9caf1f92a151f;0x1213399189272;0xae2d2d28650ce;0x885e70ca0ad41;0xc55f951174d75;0x1fb382db8c86a;0x47394072e3a41;0x252f4a9f90505];[0x0;0x8603482280aaa;0x24d58defbf563;0x687563a1c3cc8;0x9362bc532f568;0xfe60f6485f0fb;0xf9d8e1cf0f046;0x309ecd25b0c03;0xed0ae07a1e0b3;0x83abe32f75e9b;0xdca4b3fa46]]);
 ((V [0x4e853cdaabbc4;0xf57919da42fa5;0x101dba813ec03;0xe568d93140740;0x3dbfa97262e33;0x8b2a730ae8e5e;0xafceb5a6fcf67;0x58cdc26e554c;0xb17c435f64d8b;0xb2a24022eb5] [0x1c9d5de2053d3;0xaf6254bbc1ada;0x6c2f846f2c8a2;0x99a2d2cd5edbe;0xa9e75c9535a6c;0x344470050698d;0xd1d2ade127ec6;0xb7898bafda2d8;0x97059453b7205;0xda6552e86fd] [0x75ab2d4a84925;0x3c74414dafecc;0x40da73c8d7a02;0x1d7f711fd3d22;0x6974fc1221dc2;0x785fdcd7ed9f5;0x6c1f932c6b17d;0xd6e7eb510eadc;0x41d1d8866ebce;0x552bd5b8f83]),[[0x1ca7b11495a15;0x1121698ff8c0f;0x77afe1629f29e;0x6ff2de6304929;0xf6a3baf81bd95;0x7ecba7a1a7e37;0x17ee34d5695c5;0x34bd9b7068f79;0xd1410fe3d6ab4;0x6b782964313];[0x77c3db2d07fce;0x9c99a354ddb25;0x99c48da43faf;0x5b8185171b180;0x4b36514d73b9f;0x1f37b8a6e1f9a;0x215897a29bd5d;0x16179c36eb4f9;0xb4caf5f1b96eb;0xa13578d572a];[0xfd11620678dc6;0xeb8176ffcee8e;0x44d520bf365ac;0xb9f4da7bffc7f;0x340af47056930;0x11378b26d66f0;0x566f0879c5e1a;0x22047c0077a4c;0xcbc5fc0d3ba3d;0x8a82bd000cc];[0xfd11620678dc6;0xeb8176ffcee8e;0x44d520bf365ac;0xb9f4da7bffc7f;0x340af47056930;0x11378b26d66f0;0x566f0879c5e1a;0x22047c0077a4c;0xcbc5fc0d3ba3d;0x8a82bd000cc];[0x17838baae979b;0x715975310349;0x85522897d5fc4;0x75ee9f1a577de;0xf46826a7c8e35;0x9ec596b39ea5c;0x1164b0ab3d67e;0xe926a1937c4d5;0xd44c8c65a6dfe;0xb12386d41ed];[0x60404f821e5fb;0x95840c01cd7dc;0x844a20426dfeb;0xe592e5fcc39a1;0x56ce2aa5aad69;0x807221f34353d;0xff3e6f75e6de;0x2cf0faa36f024;0xe07e698c128ec;0xf011f20153c];[0x0;0x156ee46ccbbdd;0x8d91cd81b9c2c;0x15f312a98f8e8;0xc82c028902f9e;0xe4a39475e8fa2;0x64556da7602f5;0xc77faf64740cc;0x1c067b7f608cf;0x12151f7f5dce7;0x55a7a19b99e];[0x0;0x1924291591710;0xde8a1c145896b;0x54b7034cf5826;0x23f5feab9dbbb;0x26642ef66d9f5;0xebfbb61deca8;0x79b3e2ac8236a;0xd01354712fd9c;0xa7af59094cda0;0x3a25a8acc35];[0x0;0x8603482280aaa;0x24d58defbf563;0x687563a1c3cc8;0x9362bc532f568;0xfe60f6485f0fb;0xf9d8e1cf0f046;0x309ecd25b0c03;0xed0ae07a1e0b3;0x83abe32f75e9b;0xdca4b3fa46];[0x0;0x8603482280aaa;0x24d58defbf563;0x687563a1c3cc8;0x9362bc532f568;0xfe60f6485f0fb;0xf9d8e1cf0f046;0x309ecd25b0c03;0xed0ae07a1e0b3;0x83abe32f75e9b;0xdca4b3fa46];[0x0;0x4758095e29b2a;0x6644da6dcfaae;0x41ac916afa8b2;0xacba61973e7b2;0x18c22859086be;0xd450a613b5a30;0xbda74c9d22542;0x5114a3a95d178;0x58c2679bb8a9e;0x55c87f960d];[0x0;0x6e2f55b804fc3;0x868f96d1eb6ea;0xdf7faf0112ffb;0x9d799ef1f2c64;0xca5bc28a8c65d;0x5dd6a259faa8b;0x1ac8ab698aee6;0x980fcb872efe1;0x132d72f635118;0x23784933baa];[0x0;0xc754b50b82c90;0xff6aab84394e7;0xfa8355204e6e4;0xbcda162cdeb14;0xb5ab99430db7d;0x1ceeb32e554f5;0xc43d0b1a0c7b6;0xd9ee069219890;0x287a1c5f144b3;0x707d5a3e3c5];[0x0;0xeb2bd36036d21;0xf3370b2c80f4;0x5deb6ad2604d2;0x491b23fdb3882;0x4c62ca7511ed4;0x6eb41c983d0ce;0x4912c1b7667a2;0xd9a68655927a2;0x4b01988fe116b;0xdab630e42459d];[0x0;0x3f26af1633b61;0xf546fda7e9f42;0xc1814b649c7d7;0xc3e8e26f285ad;0xb87a42021498e;0x518e6170bf2f9;0x42a9e90f7db69;0x1bb1251344a5b;0x3cff2b6f4342e;0x9864de7b33d]]);
 ((V [0xd812bf7cc968c;0x6e696303ed1d3;0x5b09c47fb2263;0x5efa1f06cd783;0x69c0042a96075;0x3a3589736b73e;0xb011469018e23;0x362d957851b80;0xddcf0c4e070be;0xaed542274b9] [0x330e42594e34e;0x38d7edd84d37d;0xaf46c19b85b60;0x510421fde66e0;0x29aeb9d16312e;0xc775f337148c0;0x1372b5bb7df3b;0x8bb8819e36dc7;0x7e40a5e4daccc;0x2e1e1e4ee82] [0xc03539561321e;0xe3d3ac687715e;0xc57826fd5e49b;0xea54201d2da4e;0xf69d27f51461f;0xdfd5d34fc7dda;0xb55e49cc9050a;0x177fb33b08701;0x49be3c09320cc;0x4007059c3ca]),[[0xa73a9735213a4;0x85b3453aeca24;0x6cf8861e5cc76;0x76ed985f8354e;0x1b5cb992b06da;0x84ea3098abaec;0x55d2a86f30aac;0xcbf7c9bfa2988;0xc6b4953fc45d8;0x22450c3620];[0xa6ef8bfae23ed;0x1caef7ec230ce;0xe149be9a3884a;0x94aa58f6128fd;0x7663ed46dbd23;0x4c397e48dd977;0x8b8eff54cf35b;0x251d999ccccd;0xb8160e5db77c1;0xb974b4392e6];[0x75ab2d4a84925;0x3c74414dafecc;0x40da73c8d7a02;0x1d7f711fd3d22;0x6974fc1221dc2;0x785fdcd7ed9f5;0x6c1f932c6b17d;0xd6e7eb510eadc;0x41d1d8866ebce;0x552bd5b8f83];[0x75ab2d4a84925;0x3c74414dafecc;0x40da73c8d7a02;0x1d7f711fd3d22;0x6974fc1221dc2;0x785fdcd7ed9f5;0x6c1f932c6b17d;0xd6e7eb510eadc;0x41d1d8866ebce;0x552bd5b8f83];[0x532738b4a68ce;0x419e814fb9c55;0x55abb126e6352;0xf28f2e5937f6d;0x8db270656342;0x906d73f508830;0x18ccd1dacd8ad;0xe0d18d866ee27;0x93608f80a52ee;0xf3f790eef1c];[0x53c853463b8e7;0xdb10769c69479;0x8b9e0d73524f7;0xa21b2a9cda990;0x6d88c640859e0;0xbbcc0a53d5147;0x72c22d7a01aad;0x21804c135dea6;0x24b57edd124d2;0xc57d234a3ca];[0x0;0x8a2f6cac7b7b4;0x54152f85a1150;0xcb740879ba561;0x4e857b9ac109f;0x1ee4aee182f95;0x7a6a40c784c2b;0x697469d94f808;0xc7d032cb7a1d7;0xc6bb0723b336;0x34ab758e9e6];[0x0;0x18bab67bf01;0x23d5e85067c40;0x83750d777279f;0x38fa22c99ce4b;0xad219fe4e86a6;0xd4272f5790362;0xf6c92b168a3de;0x5d7c5549ce95a;0xfd29437786031;0xb66cb433b];[0x0;0x3f26af1633b61;0xf546fda7e9f42;0xc1814b649c7d7;0xc3e8e26f285ad;0xb87a42021498e;0x518e6170bf2f9;0x42a9e90f7db69;0x1bb1251344a5b;0x3cff2b6f4342e;0x9864de7b33d];[0x0;0x3f26af1633b61;0xf546fda7e9f42;0xc1814b649c7d7;0xc3e8e26f285ad;0xb87a42021498e;0x518e6170bf2f9;0x42a9e90f7db69;0x1bb1251344a5b;0x3cff2b6f4342e;0x9864de7b33d];[0x0;0xb017ac4662c0d;0x9995155c3ff3d;0x85b500cb79cc1;0x880c23fcab949;0x38925571117c1;0xc22cb9014c2d3;0x2efc488b61eeb;0x58928fbdfbcf6;0x4f9ce74cf95e;0xba50b94e64c];[0x0;0x55f899a0af58f;0x4eef0b9e9da2c;0x9e65f3392ae5b;0xba681f074e0f6;0xd61ea6e4bdab0;0xdcbc7ba3a16e9;0x5e05a50bd3bb1;0x16a26badeb1e4;0xe06c7d7d398b5;0x7ca60805cb8];[0x0;0xf085792035132;0x20773e2f3ec13;0x34141df120520;0x7ed7c97266d02;0xc76fea140e6d3;0x75699168c012d;0x4f22a0859c58e;0x647fbcbdd6416;0x6717e4a2b1e21;0x7ea7d0855f2];[0x0;0xcb6d00611b894;0x2e05864acf284;0x4a2f64c7e8272;0x19133c2aec8ce;0xecf4c68d7f688;0x59f89a4199fa7;0x6239d3ae15a65;0xeb3e465d51466;0x4e664a13cbcfb;0x2e2ad3a332d42];[0x0;0xcea2f0187b326;0x757a479171fde;0xedad690a0d96d;0xc28ca17b5ef7;0x698d0c9e6f9c6;0xa85eadaa55233;0x93c9c38014977;0x630e4410b41e5;0x87f3665bf7398;0x1f7ee393b17]]);
 ((V [0x68ab82ea8803a;0x2f47fb6e2a71c;0xcac94d20bda9c;0x75e0df82c5a91;0x95a5824639b94;0xce2b05b51f2b1;0xa82426cead651;0xa9e939e02ee6;0x672606a610a50;0x7615c89f626] [0xfaf9e41f61c5b;0xb97a52f12a2fe;0xb2e0d4fbca9c0;0x1e423a9e99d5b;0x7e7a98e80c7a9;0x21f8c3ca11bf3;0x464e558e942f9;0xd25f7759fa154;0x3fc7624a9e70;0x5903f93fd94] [0xefa11953c5b9f;0xfb57a6e201e4b;0x7a91bc396b662;0x323b96dc1e4a8;0x280b538a75c3d;0xda5ead450ee34;0xabd0d0758d1b5;0x83909f2acf787;0xceb46b3d2ead2;0xf9902e61499]),[[0x5bdb6fdf1d0e1;0x8f11ed679b8e8;0x5de1ea670f87d;0xc57397e4bd326;0x3087e35449656;0xb1f8a63ee6097;0x27a63afe873d6;0xd9a9b576c5bde;0x7509d7993eac3;0x4ceed2f434a];[0x78a99ec822ecb;0x47aa8e3c69e0b;0xe8e9c5ee4f52e;0xf4e1dcee2d215;0x5d10bafd2b1f4;0x6aade2cb40cd0;0x3e8bc66219c94;0x2180296aa0023;0xcb5a008cee5df;0xbd8823ed321];[0xc03539561321e;0xe3d3ac687715e;0xc57826fd5e49b;0xea54201d2da4e;0xf69d27f51461f;0xdfd5d34fc7dda;0xb55e49cc9050a;0x177fb33b08701;0x49be3c09320cc;0x4007059c3ca];[0xc03539561321e;0xe3d3ac687715e;0xc57826fd5e49b;0xea54201d2da4e;0xf69d27f51461f;0xdfd5d34fc7dda;0xb55e49cc9050a;0x177fb33b08701;0x49be3c09320cc;0x4007059c3ca];[0xfa50defaa5ff1;0x8b3f3b04d4a06;0x36ab675dc6eff;0x503351688d7f9;0xcdd8545774c80;0xf587d87b3b0c5;0xcd38eb316c198;0xcf979fea6e26c;0xbcebe86a0ca18;0x11ec2dd5cac];[0x7e58bfcd7cedb;0xbc6b533795404;0xb23e5e908862e;0xa4ae8b859fa1c;0x8f3866a5b6574;0x75260a5005c0a;0x7152db30adafb;0x51e8898031db6;0xe6e1822e1bc6;0xab9bf617675];[0x0;0x62cb63e3b4989;0xbea1f9271772a;0x64461490f156f;0xc3f2d3ff674fc;0x9bc2722cd5d4d;0x8cdf6d7389b19;0x33d412957a772;0x4c2a16f89e272;0x4905aa3ae015a;0x27982f06b9e];[0x0;0x76723ba3031d5;0xeb7eb797113b2;0x4937915cbad7d;0x6b7dcf5b698ee;0x93100f7327f81;0x40b9836377e1b;0x91619d31c006d;0x6080d4a5dd671;0x807db5962b2c8;0x133dd0f46fb];[0x0;0xcea2f0187b326;0x757a479171fde;0xedad690a0d96d;0xc28ca17b5ef7;0x698d0c9e6f9c6;0xa85eadaa55233;0x93c9c38014977;0x630e4410b41e5;0x87f3665bf7398;0x1f7ee393b17];[0x0;0xcea2f0187b326;0x757a479171fde;0xedad690a0d96d;0xc28ca17b5ef7;0x698d0c9e6f9c6;0xa85eadaa55233;0x93c9c38014977;0x630e4410b41e5;0x87f3665bf7398;0x1f7ee393b17];[0x0;0xf4e5819fef195;0x2403877765dae;0x9b5cc2794981c;0x667e053c43bbb;0x65709da545085;0x6934c4a2c000;0xe18e69c4d2bbf;0xbf34487adfc81;0x35608d09bbc43;0x84ed66f798];[0x0;0xa269a18fe48a3;0x51a0f4f2af3a3;0x27a5273d0a644;0xe1332eeb940ec;0x30c07d0d4fceb;0x17cc2085834a3;0xcae189b575402;0xb60c3f1b8753a;0x6b60e7aa40e6b;0x77669794914];[0x0;0xe0f0d86214a24;0x5a512cc30094a;0xc592728c6a8d1;0x361858674df76;0x3e47f7186f84f;0x9b8d4191fb5c9;0x877bd5f08b781;0x6d0d179c62aa2;0x7ee38576a3188;0x576ce142a40];[0x0;0x1c0376297c85e;0x2944bd088e6a;0x2b83982e81785;0x40ddf1cabf5c5;0xa64eb9c48f9f8;0xe7f6fc7a8ac55;0xef5953da96bdc;0xb35a2ce70577e;0x1f0dc7e0825b6;0x591b15f37a870];[0x0;0x45348fc3b3309;0xe8822f1ee697c;0x544dcc802d6de;0x144916bb33495;0x3fdc5467ee02d;0xf298bbacb87bd;0x5402114af6d3d;0x7bbd7e79784a;0x944d24f7948c7;0x290f67f966c]]);
 ((V [0x164be5a979b8f;0xbfa42fd40977f;0xca9c50beea67d;0x9c5f9736cf33e;0xe3e20388d33a8;0x458c45b2a2cb2;0x60d92202adcf6;0xc9d7fb96e7f77;0x240d4df87d5ae;0xbd044c4dbfc] [0x6f9c952686004;0xd121259cfa4b2;0x1e28a81017aa0;0x85afe820c2f10;0x3efb5528afe95;0x9b66ebd09a992;0x9ab23ef82d0bb;0x4e6747c8033d7;0xf57e0c2feac97;0x9ee21aa0b7c] [0x2b672107884d2;0x698b53461c612;0x48668dfb8d2f8;0x7399489c67177;0xd0148c513fc99;0x2bf72ab1ee05c;0xf63ed2a77d25a;0xdc646ccb487c9;0x49d47551827f8;0x9e4a5b9ac8a]),[[0x40ca711b53f8b;0x3aadb8f300ae9;0x35d4279c1e05e;0x576f168ec7a55;0xb9526f599c974;0x7fad2e7e54e48;0xdb05a7c34ded6;0x722f7dbc90f59;0xcc656c923824a;0x2d740492da2];[0x5e041f28ae93f;0xf12b55cdc244d;0x9974ae0a55f8e;0x6c31f24a17d93;0x418589c0852ca;0x8cd1c5850246b;0x344bd1aab30ae;0xd80d761767851;0x855f53bcc2f30;0x7763796da45];[0xefa11953c5b9f;0xfb57a6e201e4b;0x7a91bc396b662;0x323b96dc1e4a8;0x280b538a75c3d;0xda5ead450ee34;0xabd0d0758d1b5;0x83909f2acf787;0xceb46b3d2ead2;0xf9902e61499];[0xefa11953c5b9f;0xfb57a6e201e4b;0x7a91bc396b662;0x323b96dc1e4a8;0x280b538a75c3d;0xda5ead450ee34;0xabd0d0758d1b5;0x83909f2acf787;0xceb46b3d2ead2;0xf9902e61499];[0x18b0e0eadaef5;0xea40911f73b7f;0xe7a8a678f7b91;0x7150ae66d2dcd;0x28867b1355f43;0xef1f30e3e9ac1;0x6b19c63accd38;0xf2de3b65f95eb;0x90005f8bb9e8;0xba19fc8c290];[0x45533e3dd3812;0x6eac4ae4e8ce;0xb1cc07915e3fd;0xfae143e344fc5;0x18ff0ead2f386;0x9db294a1189aa;0xc9320b6fe6375;0xe52f3ab16e265;0x7c5f4dc407547;0xbd497ce17b5];[0x0;0x249e2f44c8db3;0x9d6c47ece10f;0x8a9469b46e9e4;0xd45e02f91623f;0x61e98c9ac5423;0x13b0792123f65;0x7c0ac1929c0d0;0xb34b5b2265c8a;0xb3b3905214eea;0x9a545b50389];[0x0;0xfe82a8499c83a;0x5ebee5a5215ed;0x48178aa60e8a9;0xccceec45b1d1d;0x810d973ed6cea;0x47d15b072c5df;0x46e361195b256;0x8516120fd0b4b;0xa56b9689cc510;0x2c4f71f187a];[0x0;0x45348fc3b3309;0xe8822f1ee697c;0x544dcc802d6de;0x144916bb33495;0x3fdc5467ee02d;0xf298bbacb87bd;0x5402114af6d3d;0x7bbd7e79784a;0x944d24f7948c7;0x290f67f966c];[0x0;0x45348fc3b3309;0xe8822f1ee697c;0x544dcc802d6de;0x144916bb33495;0x3fdc5467ee02d;0xf298bbacb87bd;0x5402114af6d3d;0x7bbd7e79784a;0x944d24f7948c7;0x290f67f966c];[0x0;0xba12b846d2b7c;0xc1c4fcd2331fa;0xfd48ba7be1ed8;0xe4ce38703adb2;0x825d83bc2257e;0x891284724a7bc;0x6e6d7d23d9cdf;0xaa142793c9f28;0xb0865c3136d81;0x1ef3c35e2f3];[0x0;0x74a74744d2a5e;0x79921785f57a0;0xb9818658febbf;0x7247b6a05da6a;0x44cdf2ddd9c6a;0x63529a0eef38e;0xe5ca19d2ce1b0;0x68f4e266bc57e;0x6033b19ae3bfa;0x367816cd761];[0x0;0x9054870b3786e;0xe78041b55cfe1;0x4666f41a24487;0x6f5de5d762c30;0xd5a9c0b4fc6fc;0x876aea47f7143;0x4b9d047a9ad95;0x838c5c24009c7;0x1aad304c0c163;0x582671c9a27];[0x0;0x83ba4cca0a1b6;0x1a1f926995efa;0xfe05fe8ff69c6;0x83ac85f87c824;0xef1a667d049a3;0xe0da01abc4cd2;0xbd10b5cb22c0a;0x321cee71d2898;0x3c82aa3f2204d;0x9f36e3e42a9ab];[0x0;0x48bff030eb346;0xb160773613f41;0x9cfc040ab44c1;0x94a3088bf1bb2;0xdb267ce7f5c28;0xf4006e9a04a2;0x42b9f572e8bd;0xa68cfe0c56630;0x3ed79e27db5ae;0x754f988c732]])]
 [[0x75c4961c60a43;0x7cb608efa315e;0x8d66172e8e557;0xa980d89b425ef;0xa7add9190e3b0;0x61b26127222ad;0x93fa28b702e4f;0x41b9133990113;0xc2b95e651640f;0xc9e0e603686];[0x2adea518176ed;0x4b2569f15ce7b;0x920380df41dd1;0x84740ff92a11c;0xf5d0decc310fe;0x58fe94651666d;0xbb1646b9859b1;0xcb00c7901805d;0xfe5be997de07c;0x141d016824e];[0x2b672107884d2;0x698b53461c612;0x48668dfb8d2f8;0x7399489c67177;0xd0148c513fc99;0x2bf72ab1ee05c;0xf63ed2a77d25a;0xdc646ccb487c9;0x49d47551827f8;0x9e4a5b9ac8a];[0x2b672107884d2;0x698b53461c612;0x48668dfb8d2f8;0x7399489c67177;0xd0148c513fc99;0x2bf72ab1ee05c;0xf63ed2a77d25a;0xdc646ccb487c9;0x49d47551827f8;0x9e4a5b9ac8a];[0x558c50e44831e;0x3f26304228e16;0x331add99af484;0x2f44fc307d90a;0x5a80cd07ad002;0x4ca340e3b24bc;0x5854236c8a922;0xc0ea899e36d1c;0x2d247352a392b;0x25b2369e186];[0xd5525433cf197;0xbff39af34064;0x5ee8a3459294d;0x552f13c8ac812;0x9b5011c4840fc;0xc5b5381641b1;0x62c2234cfb08f;0xa163df1e1341;0xd13776453a751;0xee6acaca0c8];[0x0;0x46d4f477667bb;0xcf8e5b98fdf7c;0x9cffc54ca99df;0x411535c885ef1;0x600668c576405;0x73c1b1755fb33;0x7c4aee952792b;0xe4d7b22daf4be;0x6c3a3bcd6e58c;0x61e2f753617];[0x0;0x35f4222a4d3af;0x3e8f733741667;0x8e8948c4cdf3d;0xc193ff8d40a8d;0x320c147a99080;0x74f7423dcda68;0x336bbd7d62d5d;0x5be6822cae57e;0x60a23935952a3;0x7cd3713598b];[0x0;0x48bff030eb346;0xb160773613f41;0x9cfc040ab44c1;0x94a3088bf1bb2;0xdb267ce7f5c28;0xf4006e9a04a2;0x42b9f572e8bd;0xa68cfe0c56630;0x3ed79e27db5ae;0x754f988c732];[0x0;0x48bff030eb346;0xb160773613f41;0x9cfc040ab44c1;0x94a3088bf1bb2;0xdb267ce7f5c28;0xf4006e9a04a2;0x42b9f572e8bd;0xa68cfe0c56630;0x3ed79e27db5ae;0x754f988c732];[0x0;0xe90c373c7c37e;0x56517e9882afa;0x352cd24642195;0x267b6d75268fc;0xbf745932b6997;0x9eead681fc83c;0x41051246bb30a;0x8bc2607ef7204;0xd84ccfe8c3ed5;0x629be091696];[0x0;0x5ad1b515c3d66;0xdf2583e3b5a85;0x4de42cca194ba;0xf02490dbb082b;0xddc5a57d7a84d;0x88ebcc52e0eff;0x81691df9bb05f;0xdab026bbeda30;0x1134499b262ad;0x8b8f58bd465];[0x0;0x508733ba721da;0x2a1afa9ef066b;0x9dd5ce9316d60;0x9d77845ffe002;0x3e595596c855c;0x95f8a3ab67c5e;0x348e9ec20f9d7;0xf5f76d745ccaa;0x5fa2b186704ff;0xbb289eecf3];[0x0;0x4b75a84cbe12b;0x17ff53b2af851;0x312b3939fa394;0x52fa421ff2984;0x742271057e79f;0xf4aeb28ef18c8;0x6f7f57afb2302;0xe6f209ed3c740;0xcdb605a63f1fd;0x908c9e0e29137];[0x0;0xb3b02e1af152a;0xb43f842ad3314;0x9e15cac47256d;0xe5f4cec0fb21f;0x38c41d2f27b05;0x598a59e1d956c;0xff1741b288d9a;0x893040c766601;0x502b9a5449339;0x53c3d1bb7c1]].
Definition wit_512C_32_3 : colwit ept wit := mk_colwit (V [0x6be7077d05507;0x9ee4ebcf7f50a;0xe1585d936cef7;0x280547ab47ab5;0xf7580362eec17;0x33ed5b6b76698;0xa720423388cf0;0x17a972c6b82d5;0x8813f72db8d6f;0x782c64e7edd] [0x89d9b1c63d25a;0x4a4ca27b87acf;0xdbd0a7333a892;0xe7963a0887e59;0xdfe2e78ce847;0xd3b6342343895;0x4fa96bf6fa735;0x46bce45f31e1f;0xd2752ba126a17;0x38ef056ec3d] [0xce48e4e872719;0x4b08b347ecce9;0x9c31b053273c1;0x8950732491ac0;0x9761adb8fc7db;0x4d9fbee8ca31b;0x22b254296f14e;0x2eb7fdbaf875e;0x7bd87ffeee265;0x368d5a2c6e7])
 [[0xf3b99a9d00b5d;0x33badbbad622c;0xcb3bbdfb8f8d7;0x2511f6156e66;0x8587d17f70968;0x57907f9195f89;0x6f21c8a27032a;0xac76c73efee6e;0xb4b092c2d3ab6;0xface437ae6b];[0x3722bb1a07a49;0x786dcb97db597;0xd4a5837bf443b;0x969cd23244f1b;0xf193433dda054;0x331485a12d96e;0xb4e246c1c8be7;0x3eaec06f6eba;0x98d0a71eac770;0x2fdba0129eb];[0x38fbc410275d5;0xfc740dbb9cbcb;0x2df900d98cd93;0x5daaf906e438e;0x963348391334f;0x1272ab182642e;0xc13e983bf743b;0x387f6ede8c3ca;0x713db9502a14f;0x6a72d3f3d08];[0x38fbc410275d5;0xfc740dbb9cbcb;0x2df900d98cd93;0x5daaf906e438e;0x963348391334f;0x1272ab182642e;0xc13e983bf743b;0x387f6ede8c3ca;0x713db9502a14f;0x6a72d3f3d08];[0xbc0cd373abe39;0x93d665facb8aa;0xf5df985e46fd5;0x1ddeee9c84a68;0x88131c191aa8d;0xe210ef207c9c2;0x70a2827e4eae9;0x44688e295554c;0x42513e475bb1f;0x43e43913766];[0x7b15e7a65b9d8;0xe497659d0fcec;0xdec5eb1dad465;0x78bde395c04b2;0x69802724bf5c7;0x51039680b0fac;0x443fc4437a0fd;0xbf825ddda196e;0x567f68d750c50;0xebf766ff285];[0x0;0x5539bfcf5ba35;0x8cd61778158cc;0xd59b0d509fcbb;0xf36f472300d15;0x8bc319ea6b858;0xcda46af8e36a2;0x3db63aecd1946;0x73c8a773fa3d6;0xadbd098e7fbd1;0x41d3df25d15];[0x0;0xfcdb138848c28;0x90397377684eb;0x2d6f03b241bbb;0x3238edb6d7f68;0x4e5b9b45f22dd;0x9543f5121466a;0x1f5bedc08cb09;0xb24d177fe38c0;0x8935c79bb837d;0x6849e771cff];[0x0;0xb3b02e1af152a;0xb43f842ad3314;0x9e15cac47256d;0xe5f4cec0fb21f;0x38c41d2f27b05;0x598a59e1d956c;0xff1741b288d9a;0x893040c766601;0x502b9a5449339;0x53c3d1bb7c1];[0x0;0xb3b02e1af152a;0xb43f842ad3314;0x9e15cac47256d;0xe5f4cec0fb21f;0x38c41d2f27b05;0x598a59e1d956c;0xff1741b288d9a;0x893040c766601;0x502b9a5449339;0x53c3d1bb7c1];[0x0;0x7256c2c3d66b8;0x1fd5b052d9867;0xc75f711d36c69;0x303624706da08;0x8ce22876cddd3;0xf80c903aa4703;0xbd66eba8e822e;0xf826e1aed76df;0xe117c6714a5d3;0x5108e4381da];[0x0;0x8586578bc3df7;0x70a4579089fc0;0x9d9cddc4b2e3;0x9cf927002f421;0x7646e24b1ad53;0xf53dd1fdce5ee;0x3b0a2f1d691ea;0x2c4e3d4158585;0xc091a1a0ed0cc;0x56964b86833];[0x0;0xf85b12037bec4;0x8453de2b9bfe5;0x8b7b7e371cba8;0xf65a34cc5092c;0x814dcd5fed42e;0x8cb1c084762a4;0x88d902a6dfa40;0x7c4870301377b;0x5c578ac8e4e10;0x16773fa563c];[0x0;0xd5c0679755692;0xe66ee740c19f1;0x60e14faab7180;0xdf55557dbcc06;0xff409227c2cdd;0x7d524b0bf8ec9;0x11aa0b0a4913a;0xe2d6f4718975e;0xcebfcb7d5807f;0x391d4fba201dc];[0x0;0xfd2e9c9660dbb;0x715e1efc7137;0xe450123c8ae96;0x72e5af3f85446;0x7c9d402d410f;0x7fa99644a5ed;0x708849e89ca5c;0xf9637e7001a9b;0xbee59583ed488;0x1ab9ea11cd8]]
 [[[0xd7c99e858f9fd;0x2676c5b68ab4b;0x619ac1cd9c25c;0x3f672cececc8e;0xed6103248736a;0x6ee6a79d58ba2;0x18bda1535eabe;0x9eab967a1ee51;0x650592fcf3964;0x1e529bb5be0];[0xc2d0b912fea2d;0xd6ea5eb6389c0;0x9a56a1de5c9a2;0x16744eef9b919;0x69367fac5f5a2;0x7fe704e7c0799;0xb396fb7582e90;0xe37ded1cdf198;0xfbd5f50d07763;0x8595ea8ec13];[0xcc933b59c9067;0xf880d6af800c3;0x5301ca161a2a9;0x536ab068c204f;0x607a475245c66;0x39c4dd9d21a21;0x9f04def1d7090;0xc6d0cb9b06523;0x6a59c5d508ad2;0xbcc2a87b1a];[0x3c0a95eaa8ef6;0x78cd9fb52044d;0x1e2bbd0328fe2;0xb563eadaa89c5;0x2d6c31f43d913;0xc8b9ef646dc3a;0x65d778d923d54;0xec2b3359efe9e;0x20909ef9cc211;0x731a74fbe1f];[0xdd63f4626008f;0x1e682b8a3cbf8;0x2e726bd8e4183;0x2df71264a6415;0xc42df398e588d;0xa7a555e7c862c;0xc0e0d239d8f1f;0x56e5ab3c62a6b;0x1b66ee19dcc8e;0x6efa24d97c6];[0x215fefa176bba;0x8027696fb8169;0xed6be983be50d;0xf3de583ae39bc;0x9773729c654d2;0x974258bbe89ae;0xc8f417fc03a65;0x2b93e60e34a60;0x1527d60149ae9;0xafb1cf2ee7b];[0x0;0xc8d55b9ef5a95;0xae44eac465512;0x955f19620c287;0xf575be92e9517;0xc47437ed6f7b7;0xc602f68ec1824;0xf5689e41084df;0x6195f29c13f5e;0x4c0e84b092e67;0x21bc27356f4];[0x0;0x4e9e2ae4aa70c;0xdd2097f978b6f;0x214cb61f23bf9;0x9bc0931dcb33b;0x454eddaa31d47;0xbbd98ba797bd7;0x1bb9abd9e5792;0x98e2ba57eb79c;0xf3a534d74bad;0xc9bce5d8f1];[0x0;0x6b8e129898131;0xa73da3b7f5edc;0xd36e495e0602b;0xbf43eea78b7df;0x1d99adef62746;0xfbdf10e5a2540;0x5212898adb90b;0x3b5a54ce73e8d;0xeff47646ed16;0x211c7c1899d];[0x0;0xf4269db0bdb07;0xcc26a2291279f;0xe3024516dac96;0x9e594d3a566d3;0x2a0909804fc57;0xdcc741d1f801d;0x9ddcd1c74ebca;0x78d9991a22524;0x12b2661a8c03b;0x439cae73fc9];[0x0;0x62c5473358f9d;0xd7d8e51781d7;0x82e7d6cbd2b6f;0x69d779ed5fa35;0xeff819d6b02c7;0x9f41aa620c3c8;0xf1b3003ea14d5;0xe350bb822e9ab;0xec7ada26b2075;0x200834fc34d];[0x0;0xebfba2ebc5365;0x6ec7a8c4e2353;0xabf6ec41c49dd;0xeca169eabce2c;0x762422ddb869b;0xd804e564c7354;0xf999ed957e582;0xc92a8eb8d09d9;0x994eebc48dd6;0x45e3d684ad0];[0x0;0x6b2f6889a9f1;0x177b45dc6c7be;0x3a589d4b03c5;0xdfb7ef914fc0;0xaafa06dab891a;0xbd0c9c6f7ef9a;0x58fe1f2e8cc07;0xdd4e08646ce5b;0x346bf3fec88c7;0x44c06eb83b5];[0x0;0x1cff61a44e587;0xcdcb4284648f9;0xfffc3336b0c99;0x8fbdd5ffdd6a5;0x484e373e5319f;0xc61a3ccf726eb;0xb1404b1a454ec;0x38cd291a2274f;0xbe5c20fdbc34d;0x1df0708e703ea];[0x0;0x5c49d63659213;0x977986cecdf23;0xb846a14f76eb2;0xf504a93f8a317;0xec2c3041dae92;0xc24c5a7c9e8b6;0xee5f93ba9905e;0x30102cb96a102;0x27d55ef7a78d1;0xf614184bd9]];
 [[0xd7c99e858f9fd;0x2676c5b68ab4b;0x619ac1cd9c25c;0x3f672cececc8e;0xed6103248736a;0x6ee6a79d58ba2;0x18bda1535eabe;0x9eab967a1ee51;0x650592fcf3964;0x1e529bb5be0];[0xb968809292201;0x80ca3bba3ef7b;0x201bf4f1a936c;0x55ce07804d873;0xe3da4762c72b;0x485d7b5ca42dc;0x399854640408;0xadfd421da92cd;0x34b3c4d3a13a3;0x72ca69a934d];[0x577df9734b571;0xa5d48607190ac;0x9907fc4ece5c5;0x36ce198585342;0x27f228cf392d7;0xfe796a9674f56;0xe81e875a7d3e6;0xe4b5274e37cf;0x9d73399632bd;0x6251a342c50];[0xbec147c23bd;0x7ec7a24aefcb0;0x43c8ea9c859;0xc574f6bc81ea;0xbe1da6a15af34;0x1786944e56c01;0xd8afd8593d88a;0xdca4c2a0d6d84;0x3a8f9bb2fd4f0;0xeddf7ec40c7];[0x1afec11135872;0x1d705f40c5900;0x12392fc1c2d7;0xa9fd41eb5bdbd;0xbddf920838759;0x6c5e7792a863b;0xc13967e42f95;0x398da67d5d04c;0xa65fbe9ddc0d3;0x91d07c083f6];[0xa8e2dd10af403;0x9ffab57332d77;0xa24845bdcbf26;0xbe9e05aa40366;0xfc49e912b23ff;0x835cd275a7480;0xb2e7506fff6fa;0xf938d9b1bb01e;0x3de116772d93f;0xcefad806378];[0x0;0xc8d55b9ef5a95;0xae44eac465512;0x955f19620c287;0xf575be92e9517;0xc47437ed6f7b7;0xc602f68ec1824;0xf5689e41084df;0x6195f29c13f5e;0x4c0e84b092e67;0x21bc27356f4];[0x0;0x15a401a479480;0x508ad031f684d;0xb02904ac708ef;0x63e95cd055b5a;0x6960aaa456a95;0x8b9338319d119;0x1c182f5c0c65c;0xa381e3b78b7b2;0xe0d077cd3a47b;0x1d5d0060a00];[0x0;0x1cf687e1e931d;0x4158933616af9;0xb4e321910a8cd;0xfafbb409674e7;0xb6a9abf943d05;0x70d17785fc61a;0x67787285b6dd9;0x637906fe1d0ff;0x12033afad0964;0x1d4d3cb0e8f];[0x0;0x4691cea8198dc;0x96d8826d186cc;0xf611bcad8f03c;0x9f1400c8573e5;0x525f6d02c368f;0xdaf381e598e1e;0x769a53ab88a47;0x532a53a837a67;0x77ac733407b;0xe0730a5d2e];[0x0;0x84dc247c3ba7c;0x57cbfb4c9067f;0x5e8657e39cb54;0x60fa7613aaabe;0x385a6e0c5d7d;0xdab7fd1c50793;0x686e908ce3e49;0xc910054f6652;0x8c6743dd2fb4a;0x6a55f2a81c];[0x0;0x71f24fd454851;0x189c0af782a95;0xca6248bc4dd27;0xaedd99c2533e5;0x4c91ea7b770cb;0x678bcd6241888;0xd08a817ea2052;0x40787e7ec20be;0xea1357a930f8d;0x3dd9529b325];[0x0;0x37aeffc800dfc;0xe86c54deb9f81;0xb8f1fdce046d;0x54152bf568d97;0xd6e4f6ee0edf3;0xc66685eb1b5f8;0xbb58527dcdf5a;0x56b955c76d242;0xdff18cc3a47ef;0x491060b9a26];[0x0;0x31425a451d599;0x330bf2a03f214;0xe3ce5adc5b2;0x53aaf34a03f1a;0xda123007a818e;0x660888c630063;0xa24fd4bd6f85;0xce74073651d1a;0x573d76e60cb9c;0x37ce7bdc486d9];[0x0;0x26ac2b5255549;0x925293406bcaa;0xa758b9bd736bf;0x8919ced89bafd;0xf745660df6afb;0xf4102f2afa090;0x78e6c9e187f27;0xa7ad4c7ddbaf0;0x9f3c9ad340afb;0x2371c28cf7d]];
 [[0xd7c99e858f9fd;0x2676c5b68ab4b;0x619ac1cd9c25c;0x3f672cececc8e;0xed6103248736a;0x6ee6a79d58ba2;0x18bda1535eabe;0x9eab967a1ee51;0x650592fcf3964;0x1e529bb5be0];[0x866822733415c;0xb3809276df28e;0xbe0273ceccd69;0x8b37a1ee868f;0x2c7e34662f8b9;0x7633f4d52749c;0x33368ec6fb772;0x29b48a47948d0;0x331ebc34275c1;0x6fcf45d90c4];[0xae38ca21a6f71;0xe0401e6ba423a;0xaa4339c749ac8;0x81522428470e2;0xc662a7385bd6b;0x8186e7ebc4a32;0x8352f2edc88b8;0xf0bc301c154ed;0x2c70fde1c242e;0xb1e1f34f26];[0x3606283857a9c;0x8055201d27946;0x244ee594237b4;0x70a2d7e444111;0xcb6a2b58a1271;0x25266c65b8d79;0x397eca6c20e5a;0xf7caec47be1c8;0x2f95584ee1221;0x1992c7fde2];[0xdc25f516c9215;0xf6bc8d05c82a7;0x448895fadcdf7;0x16bd33b74cac6;0x1e47b9162ef01;0xeed5e44dd8876;0x506ed4b1f8f8e;0x29df9898d456e;0xc1343b728f5b6;0x111a522b811];[0x1c80be89fc0b1;0x848e8b22e01b6;0xb97954ebe347d;0x95f927c5026af;0x9a02d65936ec5;0x65c992083d8ce;0x368e6c8422be7;0xb1425beda9c1e;0xc79d59925fb42;0xb95a649a828];[0x0;0xc8d55b9ef5a95;0xae44eac465512;0x955f19620c287;0xf575be92e9517;0xc47437ed6f7b7;0xc602f68ec1824;0xf5689e41084df;0x6195f29c13f5e;0x4c0e84b092e67;0x21bc27356f4];[0x0;0x3458c1b8b4600;0xb3a489cfab789;0x7fbbcfea73c80;0xa2e55c444a06b;0x2d541ba0e85f7;0xfd1d716fd8b9c;0x74924f19c12eb;0xf8209bd18d995;0xa2e911c2953d7;0xff76fba62d];[0x0;0x8fa80734c767f;0x9ba46af8a9c5c;0xb146a9a6853b8;0x5e4c5a9a7e5f1;0xbcea87e51ba37;0x71b761cd3b214;0x229853e6cb103;0x16ddad146b8ef;0x5c05dab17e008;0x243cf6e0bfa];[0x0;0x737530084016f;0x2e84abcd814bb;0x7d3bc1b1309fe;0xbd1ff12192f4d;0xf388dee6efa1a;0xfd1f4b5d6e6c;0x9f528da55f1c6;0xb257276a3364a;0x28c7938f69001;0x1a240c3837e];[0x0;0x8836d54f4f05f;0xe8d8ea780719;0x2421d22ab48df;0x74bc9e7ccbe80;0xd7151e16581b;0xa77d8ff5c0f52;0x925d0b1429cb3;0xe70cbb8e43073;0xdccec0fc72e7b;0xc62713cfa6];[0x0;0xd96e07d24002;0x477d76fc7c50e;0x74dee4401ef01;0xefc7edce083e8;0x8855ed6eb2e03;0xc38bc287dc3ae;0x55bf621310587;0xfe5fe844d3d93;0xd0bb2d4c56343;0x4c7d75a4cda];[0x0;0x68fa82691b354;0x449383fedd0d5;0xa6e56be40bb01;0x3dc2bdf7af95b;0x9e07c27e2fb01;0x1892e9497a298;0x54beef6af65a2;0x5fe6884c03252;0x71e29e59ce747;0x399e7103be2];[0x0;0xfa30d6322b007;0x138f1a14e3149;0x440a25f20825d;0x3d2e625949a78;0xfb8d16a6c5220;0xc8e712ce5c304;0x947531a90e235;0x311b6e07370af;0x5a55604966ed7;0x22a8d3b4be451];[0x0;0xc8cd2c45a3878;0x738da069c9f8e;0x3cb84f4e3e092;0x7255704c68a86;0x6edba6aa76758;0xd9eeb214e1a7c;0xa6bcad0508d3;0x108b0623f8d9e;0xb83ffe8b18aea;0x11d26628837]];
 [[0xd7c99e858f9fd;0x2676c5b68ab4b;0x619ac1cd9c25c;0x3f672cececc8e;0xed6103248736a;0x6ee6a79d58ba2;0x18bda1535eabe;0x9eab967a1ee51;0x650592fcf3964;0x1e529bb5be0];[0x49f150ba7a0c3;0xf0656edbbfc66;0x24451f967db80;0xd62e272195dbd;0x2f73d41e109bc;0x1f609b81aa709;0x8012b89190ac;0xbf7fbac011fcd;0x2ab802d29fae8;0x5707aae495a];[0x316cc84b348e9;0x65ed7f39f344;0x59acf025e29eb;0xc64f17619ef3;0x2e562d0fe8f7b;0x4c21d3bc6cda3;0x41465f8408929;0x4fadb37272020;0x5b4da8f9e2cb5;0x2c18aecb0e2];[0x4c8bd44b779cd;0x1522a1e7d263d;0x859891ed3d165;0xdc7d01e5e5fc8;0x253b0caf8819d;0x2ec1628e839dc;0x338e246319a9e;0x7801db5c5ada0;0x602ebf5cf11f0;0x6a023478fa0];[0x37a1db25375a5;0xc8d1cbc0112e9;0x8b403b6e27cee;0xf00967d21d63b;0x2fadca280b200;0x9e21480452a0d;0x4cb79db57ca74;0x526787b225c1c;0x195e3d26da02f;0xf73da523deb];[0x69dd5ede08a36;0x374e20866f3fc;0xbf2d685c9adaf;0x91f1296f04b04;0x133f567c2b5e4;0xc2688b40dd2b6;0x857a6d89bbcf0;0x160830f3e56a0;0x469eb70f81dc8;0x7620ab7d025];[0x0;0xc8d55b9ef5a95;0xae44eac465512;0x955f19620c287;0xf575be92e9517;0xc47437ed6f7b7;0xc602f68ec1824;0xf5689e41084df;0x6195f29c13f5e;0x4c0e84b092e67;0x21bc27356f4];[0x0;0xa6a2c691420de;0x6a679530c9cd8;0x14916220d6848;0xe79bb78dd058e;0x199575def5ba7;0xce1a8d24e337b;0xbe069c74f74b7;0x75b3afdd47188;0x88fc58381b36c;0x10516a63284];[0x0;0x2c49bd3c69dcf;0xd6b351be103d6;0x5e35c4c0ced19;0x935f353951d37;0xd98f572f2d9fd;0x10f0a905bc0c3;0xa88d1c728bf30;0x1d6ff5cc23554;0x7cbfe620e1168;0x1d56f36f2b7];[0x0;0x5123e768a481a;0xb5c5be562d804;0x2ddb5625f25b7;0x985d9d6c07bf6;0x3b0fc347c0101;0xda03e83efae22;0x855ab24ec5e45;0xd1e79d591dc37;0x68b93246ff287;0x103c0112cca];[0x0;0x23a598f5853bb;0xde288615eac6e;0xf2caa77bbb551;0x18175026fd032;0xd82cc0a8e9c63;0xf4a0b36b6b2d9;0x9a8b7717b3d17;0x356dba64a1741;0x5c207f1196a46;0x7b0f5a885f];[0x0;0xefe6aae2aded3;0x6692d5b91ced0;0xe5855daae54c;0xb04182d28e4ce;0xa49bee693ba6f;0xaa94615a199fd;0xedbb657ccf871;0x68aa7c1d41b1a;0x3cf69e1aebf18;0x3dedd38733f];[0x0;0xe0cf5e392f2de;0x9fd4f00bb83b1;0x9b3677c13684f;0xf913e03de2e02;0x5ae98c17f669f;0x1533ab3c025c5;0x713ea05953998;0xb0dc4c031b63c;0xd6ff677b5e4f8;0x26fe6c90645];[0x0;0xd3391e2dd37ed;0x40deeec0cbd3b;0x77d0c6293bcf1;0x5cc6f9bd61fc6;0x5b87a8b6646a3;0xa1007479a9ea3;0x1b4b3cb5808b5;0xca979d6463;0xe125fc6c1187c;0xb899896887325];[0x0;0xb3a5579e137a5;0x2d0e4adb0baf7;0xa58d402ac72cb;0x9cbfd46c9b865;0x18fe308b63004;0xed81ef83bb484;0xac6b0ba621a5d;0xb22b309245277;0x3265d3ef36cc6;0x527f540537c]];
 [[0xd7c99e858f9fd;0x2676c5b68ab4b;0x619ac1cd9c25c;0x3f672cececc8e;0xed6103248736a;0x6ee6a79d58ba2;0x18bda1535eabe;0x9eab967a1ee51;0x650592fcf3964;0x1e529bb5be0];[0x8768d596cf518;0x3e3c193f798f0;0x2aa59de588e93;0xc0d3da5f532b;0x7ada055a07727;0x1489cdcc3bc0b;0xe5384d5491d82;0xc103894317f5c;0x3d14d65851aec;0x3cb0c4dd3db];[0x35d82e3a2fc04;0xcebc62fe39677;0x352f12b961065;0xe685c44a36896;0xe00b27c37bb4a;0x96be916554f68;0x3e3c362584df8;0xecd8ab8a630b9;0x706384872d423;0x968900b4429];[0x7da2a512a683a;0x9ceae157e8e24;0x12c0e74bf4445;0xf6faf0bab3c56;0x550ec23aa87aa;0xcb89fc87b3eba;0x552811580b0c9;0xfb347bc889d6a;0xd236a1f544387;0x64f7da02a9c];[0xe2647ed4bbdf9;0x5748309886bca;0x9d22fe5982c09;0xc128414509820;0x86466687a7d5;0xa2a4c3eadcd47;0xeb3066a44ebb;0xd862daae3aa23;0x449e068a415a;0xbc4ff39cb47];[0x807e83068c039;0xff1623657ad61;0x27382e5df10ad;0xe1432fa80ef62;0x8e725d80730d4;0xb2502474d5011;0x16765eaec6f7d;0x6f7286890a5c2;0xd9beffbdf95be;0x1fc1e39b9f1];[0x0;0xc8d55b9ef5a95;0xae44eac465512;0x955f19620c287;0xf575be92e9517;0xc47437ed6f7b7;0xc602f68ec1824;0xf5689e41084df;0x6195f29c13f5e;0x4c0e84b092e67;0x21bc27356f4];[0x0;0xc2803357f56b5;0x9989a27a78d4b;0x691c4136d2a4a;0x251fabc88621c;0x1ecefdc86c9aa;0x4292d5edb2b6d;0xc267f130e6f01;0x4bb1de4f2f981;0xba4d593d569e6;0x1950a1aaa33];[0x0;0xa594b5a3e970;0x41097962b2bd9;0x6c39a7fd2195a;0xf3b639c62700f;0x3b6697ae951d8;0x796cc6850826f;0xb76199ed2769f;0x1470028ae15b4;0x9bb376c8af692;0x198259c80e8];[0x0;0xa05ccc42dd247;0x6b0faefe1e0e1;0x21a4c860137d9;0x7ed2fe780f09;0xf11ae4e458b5;0xbb564ae9e000f;0x503300b9d75d9;0xc5ca293cedc9b;0x91f8eaf08caf6;0x566eeeead76];[0x0;0xa379d9112443f;0x3cc449e5d57e7;0x3b4ce0c914b25;0x39342a0b9bebc;0x41b310b595efa;0xb1eeac54d6702;0x6b6a720a43cd9;0x5610cc429f061;0x30224aa3f3bc1;0x28f2ea2e66b];[0x0;0xd2037997ac6f3;0x15df93580744c;0x4af60a806faf0;0xcb0948478d841;0x715c6cb0fc26d;0x1150a7d03d0ec;0xd7ec2624895dd;0xcb171e1b63ceb;0x9b0cd99710065;0x35d8035991c];[0x0;0xb3ad935db96e;0xf619a87d2455b;0xd12ad566bf012;0x4be0cb8178d1c;0xe691ab7fc6534;0x29d39e9372711;0x6c8156cefa13d;0xead116c7f6356;0x9fe286fd42784;0x36c5c8fa1bf];[0x0;0x4d5f65661210f;0xecee0ddb328c3;0x198a75f5ebe9f;0xcf16ce56741d9;0x2d03bf6b921a6;0x301f6948073cc;0x783af828934ac;0x63e632e3723cb;0xe7f4cdcbedef1;0xac95774362971];[0x0;0xc8ee1a601407b;0x418cfa4d5b310;0x84069487b43b5;0x716c48d15d832;0x26f61c32ed7bc;0x6bf8436e6821c;0x5ef24470e1df2;0x6f01f6299568a;0x3f40b8e83d16e;0x9b4adf57e06]];
 [[0xd7c99e858f9fd;0x2676c5b68ab4b;0x619ac1cd9c25c;0x3f672cececc8e;0xed6103248736a;0x6ee6a79d58ba2;0x18bda1535eabe;0x9eab967a1ee51;0x650592fcf3964;0x1e529bb5be0];[0x3b38353e30051;0xffd735003b5fb;0xde14f5373d93d;0xa2c62a4cdce5a;0x9d8bc57c0023c;0x2174ca8d19665;0xe3647b117b003;0xfe427f95a53c5;0xd20e4ded44d41;0x9162a04595b];[0xc94bb3e6101b7;0xfa428b326a34f;0xa31c7588fdcac;0xdc3f3eddd419a;0xf4b70adf2f69b;0xcfbe82f571780;0xaeef9213a8b6;0x8827fff7d8038;0x5e914f3897ccb;0xb3776d55a2d];[0xb789c2acc3b3b;0xb33e3e29ca3b2;0xf76a86a5d340d;0x2567a93e8fb30;0x6ead8bda686f5;0xb2e7106b05c60;0x72c95dc3a2efb;0x913e82955ef86;0x7ef2781d3cf95;0xb311002697a];[0x826d96ea82ed;0xf629576924231;0xa9a87f8bcc7f6;0xcc94bd0a6128b;0xa865f26f19c4e;0x259f6a61ea563;0x58527a5f7df77;0xb74e903e59586;0x83d7b58047420;0xcb20f3e9093];[0x83259461db61;0xded2e8aab85e9;0x7b7a0a3206a83;0xa2e6275e9c265;0x1297b86de9847;0xace470fbd5c59;0x847da3b690af6;0x1e26632ac17ad;0xd2b2c3d574fb2;0x45c5bf0742d];[0x0;0xc8d55b9ef5a95;0xae44eac465512;0x955f19620c287;0xf575be92e9517;0xc47437ed6f7b7;0xc602f68ec1824;0xf5689e41084df;0x6195f29c13f5e;0x4c0e84b092e67;0x21bc27356f4];[0x0;0x34f9a94d2908a;0xa97b9d11cf0d7;0x108aeac176c35;0xc01d1e467d204;0xeac402198e16c;0xd821fb7038a37;0xcbd373ff1bdbd;0x2f06bca5d8719;0x3d5f2dca15f73;0x5b5c8ab7f2];[0x0;0x1e94da8ec0bef;0x2221d3de24e4d;0xcc43f3da311ba;0xc912e7d49852b;0x4dd819a3724e2;0x72b76aaadb912;0xbaa9421250992;0x3a8b6045ab2b3;0x488458b11b898;0x3361d12168a];[0x0;0x14e09268bc9ec;0x52ac702fcbb66;0x25d82b69d266e;0xf5fd799a77370;0xd74b8c4633135;0xd0d150fa92610;0x65a03b49bdc34;0x4bdc85ce0cba2;0x3093bc0133e7a;0x50c65d85b73];[0x0;0x87618aa995d3b;0x891187ed109e7;0x35e9cac29c443;0x54cdebca1d67c;0x6d6dc3d70e70b;0xa654e11c21ac0;0xaa5e65eb890b5;0xa0cfdd61b43de;0xed59e24e632b6;0x2644a32a5e6];[0x0;0x937c69f7ddf29;0xb7233717c5866;0x300bdf844141f;0x3e79609f0edd;0xf18004aaade85;0xe5b7b4e05fcfd;0x7e6c48bffe337;0x4b3c2d467bef8;0x88087357deffa;0x6c74921ed5d];[0x0;0x405475b8e9800;0x1ce695aa87821;0x6fcf27442a0c8;0xe9c829c0ea363;0xfaa9f11c8ca89;0xda9912071937f;0xeac938b79dd1d;0x6fb885e47388b;0xeab0c0e861b0f;0x19a20d26d5e];[0x0;0x23892769129fd;0x952d594dd1fa8;0x8c7600913d255;0xb794fdf3035b2;0xe72043887eced;0x8cd8ade1c165a;0x6542e5625896;0xc2670223038b6;0x84c04201565e;0xa96f534996e27];[0x0;0xf954778e2f8b8;0x70ee81725c45c;0xd7a44118d27ba;0xf1b3e9f82607d;0xbd9db0ec880e7;0xb883150d98c28;0x905361d102471;0xf24dcba77be3e;0xee403697586d4;0x1dd2a8a3920]];
 [[0xd7c99e858f9fd;0x2676c5b68ab4b;0x619ac1cd9c25c;0x3f672cececc8e;0xed6103248736a;0x6ee6a79d58ba2;0x18bda1535eabe;0x9eab967a1ee51;0x650592fcf3964;0x1e529bb5be0];[0x29a95aaa013c;0x9ceb05edec362;0x6bcea94e284be;0xe56ad2b63a230;0xf70ce8bf50200;0x3764fc7cf05e7;0xe147e21f20b9e;0x2d1be0938b090;0xb74b21358ab4c;0x44d61a9fe5f];[0x75f46a6ce7941;0xd8beb8b50c3c1;0x1933194969588;0x4cb78d8c06451;0x7d7ee2519b1ae;0xc6ffc2d6ad485;0xfc901a76e774a;0xd9110869df0a6;0x636b79285c61;0x5677d8e230b];[0xf5109bd53f8f4;0xf489b3e710c52;0x480f670f23288;0xcc704e1ad3c4d;0x1d38c8a2a3ca0;0x44636a25c0860;0xcfb3142ed9917;0x28a27331ff9c8;0xffb8e227925e3;0x91ec78268cd];[0xdaa59daa31bc8;0x29badf593a823;0xaaab115820cf7;0x4aa34ac63c6f;0x1a53d6aea8d2a;0x333bcf3b199c3;0x2d49d4b17ee4e;0xf63eb7412b813;0xb4f13a1a8e52;0x8d2ec63c08b];[0xae2f5a87ebe2b;0x6e7e272f0bf46;0x27e70d9dbeab6;0x979c9bb8b4d22;0x833a3ad624089;0xaff1bfa2beabc;0x13d732223d197;0xa8168d55a5e1a;0x875c1be3a423b;0x86afb2cd677];[0x0;0xc8d55b9ef5a95;0xae44eac465512;0x955f19620c287;0xf575be92e9517;0xc47437ed6f7b7;0xc602f68ec1824;0xf5689e41084df;0x6195f29c13f5e;0x4c0e84b092e67;0x21bc27356f4];[0x0;0x6009a76889c2a;0x6189b7a08556f;0xf58e98e1e54d2;0x124ceb922279d;0xa3102e304b2ec;0x3e58ffa5c1562;0x71507911ba670;0xee813ce84db8d;0x88ea76dedb8f3;0x55fa075896];[0x0;0x3a2f08a6905ff;0x371e41e99f1e6;0x3185dabab35ff;0x1dba453a9178e;0x4e34da6ca8160;0x3477ebb88a112;0xee7ac1f6567d8;0x87d869a67425e;0x710e825fdd2a6;0xa09bc61488];[0x0;0x6f5da831ac686;0xb0d4a05c80d91;0xca2d47a6a437f;0x5f99e94e7d3d7;0xcec2720517d13;0x515b746cc4720;0x9565e42f0cc18;0x3663b508381b4;0x29df3a82624fa;0x4f6741c7849];[0x0;0x97edf0ee33554;0x15bcd0cd681a1;0xf26d76e0b06a;0x4be5f2a089824;0x614dd9779aad4;0xd19327d4f78b2;0xd83ab83cd4479;0x47209ed251e93;0x388a727827da0;0x259e4b9ab4d];[0x0;0x4b081b6adc814;0x8af131d8486f7;0x2ac3dc69342ce;0xb2248a1182852;0xf770dd5265d86;0x626de66c80f85;0x8403fd609fe2;0x9ad4f3d52fe63;0x4f8d4656ca57d;0x1530197fd57];[0x0;0x7643546786756;0x93a15b9e35b35;0x87c0222e402dc;0xf26d99fc5dc2a;0xffb3c2aa8ec05;0xc8a5190854a2e;0x50ad0bebd3d44;0xc0b74920bebd3;0x1114c11d6c40d;0xc18d5c823e];[0x0;0xd6e18de24a0b4;0x71c36d60a67b2;0x3ca45f9c8604b;0xd78ee376012a8;0x100099b14fa7b;0x656ff7718dd6;0xde4d431d42df3;0x31a8892c47186;0x9ba249618ca11;0x8aa98a96987bd];[0x0;0x5e2fc94fbedb0;0x6230424e23645;0x21cd1d8f66955;0xca104922fe253;0x9b109488aa9ba;0x2f23ac9b728f;0xd6ec2a3785d14;0x5c804fdcac79e;0x8347d28161075;0x184c6cd0f7a]];
 [[0xd7c99e858f9fd;0x2676c5b68ab4b;0x619ac1cd9c25c;0x3f672cececc8e;0xed6103248736a;0x6ee6a79d58ba2;0x18bda1535eabe;0x9eab967a1ee51;0x650592fcf3964;0x1e529bb5be0];[0xb9a3841268143;0xfe71d3e55bf3b;0xc7bdda173bbcb;0x6ca5a1b38f374;0xf244260dd0b27;0x1651bb99e4060;0x72c4bae75d40c;0x42bb605d29241;0xc010dcb229a24;0x97c2ac09a78];[0xe0231c1239907;0x9da296962e380;0xd25f888a2bdf7;0x15ed00ecba2f;0x3f2f92c7b829c;0x57d0958a7754d;0x8d0b327b36f8b;0x361147389b044;0x1174fe2d40d59;0xdb187622702];[0xb3e6cba596c87;0xf5e840257807f;0x3127139bf4829;0x8de0f28a4086a;0xcdb42354518c6;0xa907841e31735;0xe5b9367faebed;0x6644366b864dd;0xf22369c4f454c;0x33c7ee4ea1d];[0x2cf91572f3fb9;0x1ea3d818b550d;0x5f921b84f7015;0xf5d08f3343b0b;0x16a01ba90f387;0xb9727eccf6252;0x43245edb233b4;0xbb95b3a9c8f01;0x2413dcf58ab93;0x2a602801b26];[0xa2e7e53556886;0x89a66cc027ec6;0x2deedbe29e192;0xf000cd6fa779e;0x8160f096dd359;0x5ff5e2be4605b;0x483de4ca056d8;0x2da7d4e4c5b9c;0x15c63a605f488;0x860545af81d];[0x0;0xc8d55b9ef5a95;0xae44eac465512;0x955f19620c287;0xf575be92e9517;0xc47437ed6f7b7;0xc602f68ec1824;0xf5689e41084df;0x6195f29c13f5e;0x4c0e84b092e67;0x21bc27356f4];[0x0;0x4828a4d519e7;0xd07504e543b64;0x6763bc309505a;0x9668a52e6f87d;0x84b532bb18ad;0xb0f8cb588ec29;0x6ef30ab096e65;0xcdf2400e42597;0xa0f870dfb58b6;0x125f055825d];[0x0;0x558ffc504f691;0x4bd6d5adcebb8;0x5261f8b723eb8;0x9e854ebb3d8c;0x97ab880d246d1;0xefe144951659a;0x85ff6476472be;0xff98386489718;0xd90a6ba61b20;0xa015a7c73c];[0x0;0x6d9a3b5290b1b;0x7732d83e620c0;0x294f3fd829acb;0xedfd1114ce056;0x6e33572f67da0;0x694fb2aa48c01;0x66095db06630c;0x2eee035d7c713;0x1ed6699e9821f;0x40e8109eccb];[0x0;0x58cd7791e9469;0xfca0c9e0bf00e;0xae7bc6e6c3146;0xea2949b0f2f9a;0x3517fa1e9fa39;0x4d9c3ba8364a;0xb71129a9808ab;0x87249aa720636;0x7db09209d0068;0x1ec01235059];[0x0;0x58c6fc8f5d231;0x8d6e69527c3a9;0xf19727255572;0xdc4d67fa3a28b;0x2d8ee2e73d143;0x5c984f7958bb5;0x6005e8e9b7163;0xc58ff98c60575;0x952b03c9c5170;0x151e680773a];[0x0;0xa04c963e38a2e;0xba4060128f141;0x1cfae613caf65;0x7137c4550cc43;0x563839cd33ec7;0xf8386aa61bf7a;0xe0e3e418788bd;0xc7e4bd4003def;0x467c50e51f3a7;0x1d5fdc9fd57];[0x0;0x302c31b310291;0x93f11b81c4a4d;0x5550538812c43;0x1b05f2c084df4;0x13e77212fc668;0xda47c15a693a3;0x8967a1185cb7f;0x34754c8561dd;0xea00a112e4e7a;0xe90601e7b2cc];[0x0;0xc4bb340e3a5e4;0x48f3aabfe1348;0x502fc87d72204;0x20df3321b41d2;0xe297dffaba675;0x4e1bb6d8869fb;0x5a90c6b9ea0b5;0x5df85cf6ad9ae;0x9e032123f9de8;0x2d082de56b]];
 [[0xd7c99e858f9fd;0x2676c5b68ab4b;0x619ac1cd9c25c;0x3f672cececc8e;0xed6103248736a;0x6ee6a79d58ba2;0x18bda1535eabe;0x9eab967a1ee51;0x650592fcf3964;0x1e529bb5be0];[0xb558c879907f9;0x8769e82fcaf77;0xf7e96a5a70662;0xa7381fa53de31;0xd4ee4ff2563ce;0xcee452715d8c4;0xf448b92af070d;0xe91178babf10c;0x373b1791c5a3;0xb5c9301c658];[0xb02b946033879;0x3fb03a7fff989;0xee4fa5206705b;0xc891133221315;0xdc2731e191728;0x3d002626ca82a;0xa4f377cb4a5d7;0xb69af9f7dea92;0x6f3ca3941e636;0xb8ab8c78830];[0x2622044029bb2;0xdd7cb7e697682;0x4d95918394706;0x130cd38312b89;0x192824334e028;0x2c38cae68c76e;0xa3d8ee6d2ae26;0x697fb118883d3;0x41e3cd02dca0;0x78c6ef7c50a];[0x990849edcfbed;0x538e792e63a51;0xaf71b164ff441;0x20f0acb3ca34b;0x927078ee5a33a;0x8af0a8397ab4e;0xc2cb0fc12f7c6;0x2e66e17ffad0f;0xd8d929587e04d;0xf5bca8fb7ec];[0x5feece8f94639;0xf0a07e2b3db2d;0x35f15ac883b83;0x288f17f0b33f5;0xb920ed6ca1f67;0xcf1808eb5bd7b;0xecc6279524b54;0xe42ee531a98c5;0x75d044e80c9c5;0x34920d74850];[0x0;0xc8d55b9ef5a95;0xae44eac465512;0x955f19620c287;0xf575be92e9517;0xc47437ed6f7b7;0xc602f68ec1824;0xf5689e41084df;0x6195f29c13f5e;0x4c0e84b092e67;0x21bc27356f4];[0x0;0xa5c11f0531f19;0x5335b510d0df9;0xea918e0c9830f;0xafa9fb7e88e18;0x76284a812f9ad;0x791e83f79eca5;0xd3fbd04ed839a;0x2e4990c9c31c7;0xb8410bc872aa6;0x3b1dac5012];[0x0;0x9692324f3a2f9;0x4eff732b9471d;0x171054f574195;0x2da0d55652a7a;0xe5ec21f8f70dc;0x9255d540a3a7d;0x80ecf84c8e1d2;0xcf66f502b3bb4;0xa9eea0ec70081;0xb051cfdcae];[0x0;0x55a993688d23f;0x2ce3197b225a5;0xcc859473826f2;0xee33a437c725;0x849d24fa6dfa9;0xb9261cb9f9866;0x3c3c81a9a2ca5;0x34bbb82090d43;0x32f8a0b5968ce;0x6d36c15df9];[0x0;0xebd884b070253;0xa3a369087faaa;0xb4aa96829309e;0xad0a1d374284f;0x3a3566d5e736b;0x116b6e345eea6;0xe654f08d1db78;0xf99ea66d318d2;0x2d2cb0aa7ea8e;0x33bdd07684];[0x0;0x3d8d075408e15;0xff16c4b76a6ad;0x2a5dd781b8ea7;0xcde4726bab296;0x69ccb61c3b165;0x3799049633ca7;0x666fd6cf697f6;0x516a85be21b64;0xc7f86e3e379d1;0x1742b2841e4];[0x0;0xbcaf57d68a291;0x946030985f135;0xefdd473c99716;0x891939814e62d;0x2ee63361090d4;0xaac486d4d20a2;0x41437105be1cf;0x93f0fe3144870;0x73f5a9a707346;0x8e10f0d75ba];[0x0;0x7955a57c06b49;0x6f802247bbd6b;0x6db70644b6629;0xfd06a8c622162;0x8885d0398912b;0x12115eeb0cbbd;0xda91dc5d602de;0xbb823a174e142;0xd6c8cd92b6af0;0xd719ff392dc9b];[0x0;0xc43e42f16aa9a;0xab96101c80fac;0x5a2664c729a4f;0x81dbb6cc4e899;0x4426ae685b5b0;0x2675f971d33c1;0xe47ca84afe99;0x7993a66e7dbbc;0x23241b9c33b74;0xa7e98d0dd36]];
 [[0xd7c99e858f9fd;0x2676c5b68ab4b;0x619ac1cd9c25c;0x3f672cececc8e;0xed6103248736a;0x6ee6a79d58ba2;0x18bda1535eabe;0x9eab967a1ee51;0x650592fcf3964;0x1e529bb5be0];[0xe8cb1e39033cd;0xc8221eaa46d18;0xd0d4a2704f17d;0x11b8d1863b237;0x6675fd667676a;0xb629a09ad7fb8;0xbc8e1022019cd;0xde91a51ae8a67;0xe8c661af4775a;0x5be80fd1691];[0x8cea21792a11f;0xcc1eb7f15f7dc;0xe146a4df43053;0x44caddc2586d3;0x60044c1b959d5;0xf226cd5e9dc3d;0xe362afd307bab;0xd320e250d04a;0x2d6cfa4996044;0x44c41768a4b];[0x28ceefb03bea2;0xc53746fbbe961;0xa46574d4aee8a;0x2f2ba238bbd6c;0xc7d814cc1b6fe;0xedc1d29bd81ca;0x4d8d10272468d;0x6e9ccf59bdbcf;0x38a38a224a0c2;0x9829ae3366d];[0x4ef2dce9c26d2;0xc85d29175bea1;0xa0c3ce260713f;0x24b2490943b2e;0xcf19c0bef4eae;0x1bcdbf7a705b8;0x2ed39c2432da3;0xc4d1af3881342;0xd0da46a879328;0x114b3dbaef8];[0xb11e44c118c5b;0xad4f54da055b8;0xd295a9160e15;0xcef71f2dbb8c;0xda6539b31ec50;0x6b7686bbbae81;0x3417946dced43;0x57dccf86ae0c6;0x810bae1f0fc00;0xeb58898a6f6];[0x0;0xc8d55b9ef5a95;0xae44eac465512;0x955f19620c287;0xf575be92e9517;0xc47437ed6f7b7;0xc602f68ec1824;0xf5689e41084df;0x6195f29c13f5e;0x4c0e84b092e67;0x21bc27356f4];[0x0;0x9fa36005ab48d;0x1606abf9578a3;0xee25ab0f5b6ff;0x220598050a359;0x20ce980eef20c;0x37c63a260cda2;0x39e61c346c03d;0xce71c5a6842a6;0xc09c3d91f4184;0x82da0022dc];[0x0;0xa776ad89db445;0xa646a15ef3c19;0x42c4d2767fc61;0x3702ea6253db9;0x50f402ad30c67;0x933c700ba560;0x5b56c957d1f08;0xd979180b75e67;0xfb9e8d3e4942f;0x2c7e6b57761];[0x0;0x231e11abb15d8;0xf71c455b71db9;0xbe134160eb843;0x6f74b729efc86;0x2a89445da4506;0x4fa34a9a492f3;0x82501a6007e07;0xb6c666343a48f;0x5a725ac74acf8;0x64dc3fa0f19];[0x0;0x388d96dff7226;0xe178956745081;0x105a4fd1a5d61;0xd1b0d664f75e;0x25de35d00f27b;0x12a056cd7cbe9;0x14ed232ba8bca;0xfd86f1f5049f;0x4e412b3d635ad;0x2fc8ab6dac8];[0x0;0x9c3b9c394b8f8;0x4fe110102f2b3;0x65b0a39b67dab;0xa711d80671e60;0x1efda6a008c9d;0xea1b508755059;0x5a3054cf36fef;0x2f5e19a3e3c8f;0x8cc795dc6f47d;0x5dea757c874];[0x0;0x17b7ba71ff519;0x5b1857f541652;0xcfb8833903856;0x761dd580c0e91;0x49780645de82e;0x3bf584ef0ac93;0xe37df668476e6;0x64e7e0a303a50;0x784488e887b66;0x3b5186fdb28];[0x0;0xd4e95178bc116;0xdc0aebba8ab3c;0x792911f5180cb;0x8b8428ecc9693;0x71d0d9510367;0x40b1ab257e26;0x4a359fb5dd802;0x50d7265ef70cb;0xcc8ab982b9ee0;0x4dba7b96443ae];[0x0;0xdd95c0fce953d;0x37f85251413a2;0xdf7d3b9291227;0xa81f56dc4a449;0x9b33e53ecfed;0x654e19ac580a0;0x742ae63d14fe3;0x9acb7361b62fe;0x55b8595b6c33b;0x320ad738cd1]];
 [[0xd7c99e858f9fd;0x2676c5b68ab4b;0x619ac1cd9c25c;0x3f672cececc8e;0xed6103248736a;0x6ee6a79d58ba2;0x18bda1535eabe;0x9eab967a1ee51;0x650592fcf3964;0x1e529bb5be0];[0x5f358621be8b2;0x4db85189046f2;0x669db6bef5157;0x3ad42f45f1cbc;0x2d132befb06a5;0x9a7e31c1e5592;0xc1b17ba502460;0xd79ee83f62b09;0xb024245d9ba4f;0xcaf02b667cb];[0xa69d34569bc2a;0xfb6efe0d1113d;0xbee52e758d60a;0x4872f3f475659;0xde91e7c3f1021;0x3662636881a06;0x73aac3e4fcc2f;0x2c1255b8d5ab;0x73299f4c0b630;0x99e540131d5];[0x2f85f5ae84f89;0x5f7d62d6068b0;0xb25de2c65287;0xa13b9288aa664;0x8c39551916615;0x80e9b2cf4a953;0x3d23f6f580db9;0xae519f38dfad9;0xd29295ea847f7;0xc4ae08cbc5e];[0x83b0f617b3039;0x30231a59f01e2;0x3d3a7804e0cfd;0x584de768c7e53;0x7c79a822a8eb5;0xd7e386feb3890;0xf38eaa984f566;0x1b081ac1568fe;0xfe09728a40642;0x62689fca874];[0x13bb186cd4ba;0x9071a7c0b64a2;0x3a7f232acb18c;0x9e048f3e0306c;0x4fa0d289ea3ca;0x23fd444e1bad8;0xd55e312417751;0x5cbe54e3258dd;0xd5aa7052d40fc;0xc09b0466a3a];[0x0;0xc8d55b9ef5a95;0xae44eac465512;0x955f19620c287;0xf575be92e9517;0xc47437ed6f7b7;0xc602f68ec1824;0xf5689e41084df;0x6195f29c13f5e;0x4c0e84b092e67;0x21bc27356f4];[0x0;0x807a09e564db9;0xcb132cf03f6e;0x52444ed21706f;0x956a4e8cda462;0x56c8cd1b3e17c;0xa60e5d245dd78;0x16eb9d39c7b63;0xdb97f0cc92523;0x7e149330ef86d;0x1d6a8667911];[0x0;0x41da74d59dea;0x9438573b50a3e;0x8a73406f41ac3;0x5c8a7f38c99d4;0x33ff7972efa9e;0x6effe290ff08;0x19c3d67b4e66b;0xece86b8a4e9cd;0x44d762b51bbce;0x24bf09da4d5];[0x0;0x4d618d253de59;0x451dee27d2e5d;0xdefbd1bc2b440;0xf48bf5c9be824;0xfa899c19935a7;0xc162807fe5758;0x3857974fbaddf;0xe2bbeb82a040f;0x7a776676db611;0x24659027529];[0x0;0x3fd31eb397fb1;0xa150db98c938d;0xf845d3a57ed34;0x728fbe182a697;0x692bedf2d94f9;0xf228f47b63953;0xb3d84267e0e04;0xf8b6efcbd8b48;0xe32bf04400fd0;0x113e5040563];[0x0;0x2cafab59c6332;0xab17bbbd813e7;0xa97d2255523f2;0xd671a7c69dc14;0x3f45fae975c6a;0x11c95dde9feb4;0xfb4f7e7a2bac7;0xeba36e4c7bba1;0x4475324f12859;0x4d9003d6c61];[0x0;0x80b0f42b5437a;0xd1d8bb4dfc1d4;0xd8a10edddc6d5;0xdc07b076024e8;0x7bd0b2c598afc;0x31d372729bf21;0xe7d54f2d33f59;0xd60e6e5908b63;0xc2ebc23610661;0x1c507677116];[0x0;0xb5dcebd8eb04c;0x678ccd3113cee;0x60200f93fdb47;0xf88431eb0e034;0xd36b8ce61adac;0x15edd02d20986;0x6e40d446f9fce;0x846f0b70845fb;0xb045449e31e33;0x3754c11c53301];[0x0;0x4cb1b3dea758;0xc4fd7ed3746e9;0xfe9c9d56a4d0e;0xd6dba80eb9b1e;0xe68910d6c4817;0xa999663895505;0x1372880c97597;0xe6159bb2034b1;0x134b50d9a1808;0x7b6b1a292b]];
 [[0xd7c99e858f9fd;0x2676c5b68ab4b;0x619ac1cd9c25c;0x3f672cececc8e;0xed6103248736a;0x6ee6a79d58ba2;0x18bda1535eabe;0x9eab967a1ee51;0x650592fcf3964;0x1e529bb5be0];[0xc838ae52410fb;0x77990e1f67237;0x8cc3979f2beb4;0xee19550860202;0xed7f461fe76cd;0xd7736592596c2;0xcab408d25e980;0x25dd32fdd53b6;0xa3cfe622a2187;0xc1ec38265d2];[0x569cfa9897395;0xa9846ee55b719;0x25690f39aaf21;0xba7f3a27ce5f4;0x25ebbedbadfbf;0xca913e2d0f54d;0xbe661980bb41e;0x719ea2460ebb1;0x3c53edbfe1b08;0x77dd219aaa9];[0xa8fc4d009eb5f;0x1141c4302e41e;0xc9423587e84b0;0xdc79e1d1a7225;0x531cb90f72073;0x7d74a7beddeb;0x5f782595a51a5;0x41731c0464a84;0x50a7d731bcaa3;0x7d7d1330a79];[0x347d6de764d5e;0x571b3a97d155e;0x8cb4b43f679ed;0x50c6d85d17e;0xc7cef4defea48;0x7df6de838d1c8;0xd1e3e62ac95b9;0x22617bd32ef6a;0x324c6e42f61eb;0x1da848e8250];[0x4fbfbfa640e4c;0x23a20615db760;0x3befb071f9b16;0xae77dafe5df8f;0xbca3f15027cb5;0x13b528de85882;0x6d3a8c19e1bc3;0x990dfe45311eb;0xcd906caaa3e33;0x2eb81608fd6];[0x0;0xc8d55b9ef5a95;0xae44eac465512;0x955f19620c287;0xf575be92e9517;0xc47437ed6f7b7;0xc602f68ec1824;0xf5689e41084df;0x6195f29c13f5e;0x4c0e84b092e67;0x21bc27356f4];[0x0;0xe622e1b9e42c2;0x4ce54a7afb6d5;0x5ad8ea97a19f6;0xb51cf19c3cee4;0x4be6280e5893f;0x76bf02d87626e;0x37d10c52a9656;0x6fd5c8ac69b39;0xf8bc84fdb9a16;0x1cf054abd57];[0x0;0xa6435c29cae9f;0xc93c54d354b1d;0xa6b6975a53901;0xa02b24b5bc93;0x739220bf04f3c;0xa6b7d97a0d8df;0xb378fd2a0475;0xa3940eac02e08;0xf24d7782d608d;0x7f188ae5b3];[0x0;0xa04356ad279be;0x918b92c634f5;0xa542557d0e77d;0x26ca2c5b84004;0xf107068e40122;0x219c174d8b62a;0x5d0e7788c7eb9;0x670b244aab7e6;0x7e50385cfbf92;0x19f3f1c9cca];[0x0;0xccb96b956eee8;0xbd7032e1ea270;0x4dfec5b099cba;0x9795f8854486a;0x1dfefd5968a6f;0x6a58238985078;0x66131270e707;0x7e6d91a0ff222;0x70e4015a86794;0xc4ba71ed5f];[0x0;0xd5ce3f30ffbbf;0xb718b3308a159;0xd701e3cff03b3;0x1daaf6e0f11e;0x1984ee1535cf7;0x2e95c7afb0bc6;0xef4b1795aa080;0xf79d96b77533b;0xfb427735ba3bf;0x10c44e1ed6a];[0x0;0x58dfd5c6baa1c;0xcbcae7544cf1;0x94cc4da1bc518;0xefd9b9f5f1ad0;0xc82573c6f277;0xb17b187bb5133;0x1dd56d140b82;0x824a7424d7554;0xed3e5ab2396f;0x3690b51694b];[0x0;0x7ba25667c7dff;0x879a916f35010;0x9852d57aa19ab;0xe65935b682bec;0xfbaeb87edebbe;0x45eef59ad9351;0xd4e76cfb206dc;0xd739d1203d224;0xad82c31481259;0x9450aede5e632];[0x0;0x21184f8a948d9;0x9ed8c87ea004c;0x57d2bbf7948a6;0x7027eeb6c7f50;0x83c05ce13a986;0x9f31c62483a34;0x5088bb7450256;0xa979f124f8c06;0x68650281ed506;0x29b160c1dff]];
 [[0xd7c99e858f9fd;0x2676c5b68ab4b;0x619ac1cd9c25c;0x3f672cececc8e;0xed6103248736a;0x6ee6a79d58ba2;0x18bda1535eabe;0x9eab967a1ee51;0x650592fcf3964;0x1e529bb5be0];[0x9b6080156ef44;0x5ea8b8733aca4;0x5c80665cd5048;0xeeb295d3cad35;0xe7d744644b16a;0x85b16cd82385b;0x6e0db99d536c0;0x3aa644940cdcf;0xd0f5832f91660;0x50623ed9310];[0xc078a505bafbb;0xd088be967214c;0x2f56302a1a70;0x629078f56a38e;0xf30fe674d1b43;0xace996218a91a;0xe97133ac5b984;0x2910222250754;0x76aa9328b9bce;0x2c67bb3e5f2];[0xeb878549ac920;0x750d4af253013;0xda8f4b03510fa;0x8ab4817c58298;0x428120e75d0f;0xde59ed193f907;0xb5336ced80d92;0x9273439182e26;0xd2491cd24e0b1;0xb5541001330];[0x13591b92eba6d;0x630ecc9216ab6;0xe3cdd07ce8bb3;0x47c8795fe93a1;0x5687670c953de;0x3ca81b581c97d;0x3e3359a48d79c;0x1a0d3ff04e5a4;0xbf2205e10109;0xcab5928c9d8];[0xba23af243cb8e;0x5a423388527f9;0xd98dfe3d5a36a;0xfc53f3c6bdc4a;0xfecffe0464034;0x8a532415af7f3;0xc524ae9e414de;0xc59ab36d272ce;0xf9e31f44edd7e;0x3739872280f];[0x0;0xc8d55b9ef5a95;0xae44eac465512;0x955f19620c287;0xf575be92e9517;0xc47437ed6f7b7;0xc602f68ec1824;0xf5689e41084df;0x6195f29c13f5e;0x4c0e84b092e67;0x21bc27356f4];[0x0;0xf4410d450034b;0x46cced20ee122;0x94e315a0218f1;0x52259587e69d3;0x6e1ca460c5224;0x9e8ef2796f769;0x15219c11e6998;0xa7cf99b921bad;0xac0ce4fa22e82;0x8d19df515c];[0x0;0xb4d67a02c611f;0x19107dd423cf6;0x3970df37d491f;0xb88de2ff5e30c;0xf9ae751aa5781;0x1797cdfa9e9a6;0xe9e911e702191;0xabca69cbda182;0xe85d31a5d5aef;0x100510d3748];[0x0;0x416985d7fcbfa;0x77d674d2bf2bf;0x8e4576649b5d6;0x1c582e5f489a;0x68e3102e62daa;0x5d1c5418c3392;0xb74ca0933ebc9;0x6831cc683bb1f;0x4b958a175ef97;0x458eac5e8aa];[0x0;0xbbad0083e8511;0x9f05524febf14;0x8c1c09f7fb2c7;0x547c2068f6d1e;0xa674aeb984925;0xc673fac8be661;0x7b6e0586dd5aa;0xad24cfc716f9e;0x51420bc3345e;0x20f4230d503];[0x0;0xaec8d7df21450;0x6413d83d493c1;0xb317ed5a1fe10;0x862345ba5a607;0x31f0e219b6a99;0x471173393fd2f;0x23e70f7f531c8;0xa1b8a097e53f6;0x1f8a057567da8;0x21d05f2d783];[0x0;0x4f0250796666f;0x20189af04beb3;0xe537fb2c71669;0x9960eb8ae18f1;0xc207b1b38d695;0x90ad6def704bc;0x4a8c7cc011235;0x67dae5e7edb7e;0x67edcf082d71c;0x5049beda0df];[0x0;0x50e9110740bd2;0xc5ecf363cee02;0xc5bc461ee1ae;0xa054d52d96c5a;0x10b4eb20d3b7d;0xdd7d728f5903a;0xa53325e71d27;0x464c6c7daf553;0xbc4ddb080ad7e;0xdd26948540076];[0x0;0xf75f6913e8fa9;0x7310c05916225;0x12c9a49f470e2;0x21dca6419d567;0x1adb55a15140e;0x7a86449b6fe4f;0x48c9037015276;0xdea6d08628365;0x2063c7ebb9409;0xdc4c0d596c9]];
 [[0xd7c99e858f9fd;0x2676c5b68ab4b;0x619ac1cd9c25c;0x3f672cececc8e;0xed6103248736a;0x6ee6a79d58ba2;0x18bda1535eabe;0x9eab967a1ee51;0x650592fcf3964;0x1e529bb5be0];[0xec321a0f7be68;0x58f0636788bb2;0x70fe15a1d47dc;0x38358c677c508;0x7d257422e940c;0x613ecb4dc16;0x33fa790e8e1d5;0xf21b8a1ceff3;0x8c1503ca64d6a;0xd9f2a8f3b68];[0x1cc81ad1558d1;0x78ad132dde225;0xbd387b111d8ce;0x7f4fb61c28d70;0xdf6537190b281;0x903dce3553c6f;0x1e72a56c454b7;0xa10c9ddc74bf4;0x14d83b564638d;0x4bf59e72819];[0xaec50cd75cab8;0x207da833623bd;0x52953c38b2abf;0xbe40c67fb5786;0xa463e70918220;0x6a1acea003ab;0x3590adf21f003;0x67eaae555737f;0xdb9a39221168;0x3ae0b6b235f];[0x6c33784b33a59;0x246f113b6c2ba;0x16d95b63908be;0x327969e84c0cd;0xd6081cd13a9a4;0x20bf0eca04845;0x3fc0a2ff6ccd3;0xe835f85807d3a;0x694f654d81a5e;0x81fbf8d34f9];[0x3d5919d71af0d;0x5a7cd2087bb10;0xc247db8c64235;0x1274e2c1533fb;0x89f405f10c0a0;0xe64de7f79da49;0x5dc064137cdd0;0xc23e3fe94029a;0x2a6efd0b74c6e;0xdc662cf575d];[0x0;0xc8d55b9ef5a95;0xae44eac465512;0x955f19620c287;0xf575be92e9517;0xc47437ed6f7b7;0xc602f68ec1824;0xf5689e41084df;0x6195f29c13f5e;0x4c0e84b092e67;0x21bc27356f4];[0x0;0x59836fc5c4a9f;0x59a78756992da;0xf07c845aa9e42;0x99da92dd5a876;0xdb74bab11c2c8;0x3818ee661c325;0xcb85c1ed25441;0x8268adbf313ac;0x14f553f243f60;0x148830b8b6c];[0x0;0x728d77ee4d691;0xfcf6568ca72f8;0x4aec63734c107;0x9b4786f319f56;0x7b43e06f0faef;0xda95deedf78b9;0x14d84c7061495;0x3cec7926f70c0;0xbac18acddb746;0x38ddab25266];[0x0;0xa11ee41d9d651;0x10dab8cfba204;0x10f68c2a743f9;0xeceb9763cf09c;0x45be1640af52d;0xeea3af45f1274;0x80650dbd4715d;0x7603995549ed9;0x67a92d627f425;0x678968af76c];[0x0;0x85974dfd4ce07;0x679d9d5488e0e;0x9015be4774047;0x2fa991f3eebd6;0x8ca98f19d1bf1;0xc973c29a3e125;0xd9b01124a7262;0x2d25c3e908ae0;0x5c546467ee263;0x310d45e6505];[0x0;0xbc885ee58f649;0x47bc5ff47f8b2;0x3728769bdaca9;0x35091b90c4b3f;0x297a098a1b6ed;0x90dbb313e1b6a;0xc944155a698aa;0x3ed7f330222df;0xe069ccccfeabf;0x7807c44bd82];[0x0;0xcd9207ade51bc;0x288ab5c22ea7f;0x5893a021d0d18;0x6f0741794754b;0x4022380612947;0x629eb2a1bdeb5;0xff9f4cec4d2a0;0x75faee537d2be;0xeac5960dbba3a;0x727a792ca24];[0x0;0x90f86e257836b;0x26d19e32a70c4;0xd0853fffe3dca;0x71dc32c7b6756;0x2a0c1c3c0d602;0x2d9bd373cd76c;0xf51e341143935;0xd08c0d7382a85;0x27077f07a2365;0x901008979f6e7];[0x0;0x14eca8e0db65c;0xbdde3b95643ef;0xa2b1f7c86e53d;0xa771cf2c36f63;0xd641f7beae0e3;0x943bc9393b0;0xf666ddac32515;0xf5fdcc879e97;0x87c0bbfcef610;0x4ba036a51f5]];
 [[0xd7c99e858f9fd;0x2676c5b68ab4b;0x619ac1cd9c25c;0x3f672cececc8e;0xed6103248736a;0x6ee6a79d58ba2;0x18bda1535eabe;0x9eab967a1ee51;0x650592fcf3964;0x1e529bb5be0];[0x69558be617126;0xbf76e768cdd3e;0x863c044dca080;0xb473221230e90;0x52dbda9f9e032;0xd775298fb28ac;0xc75a3c74cfe2a;0x7f2ab02b60ad3;0xc979cc2cfc4ed;0x7b3937ced07];[0x52115a94e7555;0x36e3affdfbf28;0xfd11c595bcc1a;0xe8a8074042142;0x966a0c80f993a;0x54b3286d89ba6;0x5ca8f17e9bdab;0x342ad8472ca63;0xa077154682ef8;0xc25801f04e9];[0x7d51bd9010460;0xcbead8ac432bd;0xe6f95a44ae45a;0x738d50a67513a;0x6c17dc1d3c032;0x9a9fd8651c6f8;0xe88fc1af702b2;0x289f622f27d6b;0x45b9d6f6bd351;0xf15228014be];[0x71a78c1bc6445;0xfeecfcabee4fd;0x2ea04b88703e4;0x4726bc6c5b2e6;0xfe85787e73236;0x46bbec643d101;0xb63dba8eedda4;0x297caa1a995c8;0xc926d3379d7f2;0x432fbebadf2];[0x3bbb332e6f28e;0xe020b12dc032;0xd4aa1af6d299e;0x1e984db42553c;0xadf17e1035c40;0x8dcdfd97e0d98;0x826ba3ee4f586;0x55b12fcac1a53;0xcf0dc0a35f231;0x9e4bbeb482f];[0x0;0xc8d55b9ef5a95;0xae44eac465512;0x955f19620c287;0xf575be92e9517;0xc47437ed6f7b7;0xc602f68ec1824;0xf5689e41084df;0x6195f29c13f5e;0x4c0e84b092e67;0x21bc27356f4];[0x0;0xdee7e4f55c63c;0xf72e8bc8e2ef7;0x80ec23e3b7b5b;0xe4e5b543c1fc2;0xd258e5474e9df;0x8ecc6711440f6;0xa0ce2ab0381f9;0x5124485636075;0xe6e39015b4859;0x1b920a71a3a];[0x0;0x7e954c1fda9eb;0xbf16904fd4572;0x690ca79ee629a;0xc28f853506197;0x6d9874d7eb70b;0x3b51b9d6fd0f9;0x454fc496d2532;0x556fdb7c41094;0xd83779fd1b14;0x1de79d99cbd];[0x0;0x696b3c739273e;0x4aa4a455f4cc4;0x74b0f9c2bdc74;0xe302c01832fa9;0x78ad92a713d08;0x888f9b5fba761;0xb70578d4f2ca9;0xf825288c4014a;0xe96a495d22d73;0x439673b6881];[0x0;0x191bd5555db01;0xdef82af52aa8b;0xec76ac7e3c5c6;0xa6b7bdd190a41;0x2b888a74f41d6;0x39fa6f2a854c6;0xfc27809477a63;0x72b1ab52ded74;0x3159571adc8ee;0x20054174f6b];[0x0;0xe5574ebf6b863;0xc1792a111d391;0xb5858e8d51d8e;0x9fcef8ac880c0;0x28f5293bfa272;0x70cc76142fe75;0xb36e202a815d3;0x23e5d24549b5a;0xfe2dc5f76570a;0x3f1f2dd280e];[0x0;0xdd3bf445373c1;0x24f8b367dee53;0x81fa183df6fb8;0xf09aab98fce12;0x73f533cf3d370;0x31705c79d3246;0xf0ff1f4c92d5f;0xc693b1e417437;0xd56c294dd01d6;0x289a42f28cb];[0x0;0xad0fbe6317760;0x92a4ab261db3;0x6fa84a41bedf9;0xf026f1da52f84;0x33377b0d8c60e;0x271708ca09c47;0x36ce45c69881b;0x345f916d23540;0x3add03cd1a17f;0x225c51c55fe77];[0x0;0x1646be93034d1;0xb47e34097744f;0x870dc10d76c9f;0x71de21f4c79cf;0x2d53e19cabc8;0x7679adf41f832;0x7a86cc9ba6e30;0xa3b9672f8b34f;0x5238869a541c9;0xb4c8ee50fb]]]
 (V [0x2b252eb79760c;0x9fc32efe90efa;0xb02a8e6550838;0xd3677d8c98f5c;0xbdd65e3ca4dee;0x4ca65a1c643e;0x4d31ca41a3f10;0x963249dba80ca;0x545080ebd8775;0x96905064815] [0x9f6ce6106623;0x49078ea3b3e77;0xd38a5e99d5a58;0x2e26993631f37;0x9249fe1723028;0xe948879de2c60;0x8b52fd09f7f34;0xa65bdcd63db69;0x8bf12fc397f3;0xefe5d04d04e] [0x142e4c68ccbfe;0x238a31be19ee3;0x8f29c35fb6984;0xbea10bc714208;0x2ec997d784b00;0x3112f26d90317;0x31a09e510110e;0xdb3ef4907794d;0xe24bf1585e9e;0x433aea176bc]) [[0xf3b99a9d00b5d;0x33badbbad622c;0xcb3bbdfb8f8d7;0x2511f6156e66;0x8587d17f70968;0x57907f9195f89;0x6f21c8a27032a;0xac76c73efee6e;0xb4b092c2d3ab6;0xface437ae6b];[0x978756100ce25;0x856e1fdca2d64;0x40d3a351ccb21;0x3ec522d0de516;0x1ddb3d39b5cfb;0xf1c94f2ad4dc5;0xd113f3a6d2394;0x511eced613c63;0xa98878b63a4c;0xb79bb15b4a1];[0x6ba8063ea5130;0xea78eea4ef60d;0x3bd96d433602b;0x381430e9d4782;0xa2b1764cbb749;0x17d4ac03c142f;0x5017bde28fff8;0x1163294e6bfbc;0x347dc26ec8a75;0xb0dcc728a07];[0xcc49afdf3218d;0x5e93a0f47afa3;0x5f9c7d2069710;0x60098e61f23e4;0x600d7990ce8ad;0x74b726ff994f9;0x2c1834f206c8d;0x94a93b0c70ece;0x523cc099e101e;0xf1046976d55];[0x87dd91e38fef;0x3a6cf19ad3c63;0xcf5ee3fd4cc3b;0x2fea365165093;0x3927ea2cb928f;0x858c141fef675;0xfbcf41f2e1d9c;0xcffb1d1f8aeb3;0x5942c1c0e873;0xa44a5598900];[0x1b815e33b3505;0x4dfe1b065ebad;0xe91db0abaa375;0x1d1d66b9a78fc;0xe174e4b34a66e;0xb8ac7d92a2d1b;0x6be852a3e25bd;0x6002cee37a585;0x7e0a43a8cd86d;0x4d40d7175cf];[0x0;0x5539bfcf5ba35;0x8cd61778158cc;0xd59b0d509fcbb;0xf36f472300d15;0x8bc319ea6b858;0xcda46af8e36a2;0x3db63aecd1946;0x73c8a773fa3d6;0xadbd098e7fbd1;0x41d3df25d15];[0x0;0xfe92725f37154;0x1ea1d80038f38;0xdb9707f635171;0x85d48d8c2d7c;0xa314fca8ca16b;0x863ba041493a9;0x4179e8b62fc3b;0xfdcdce32f8341;0xc5d0451e646ec;0xa452c53c4b0];[0x0;0xdf3992f58a72c;0xb2cbe9f8e199b;0xaf811296c4ca0;0x351161f4e7211;0x955a0bc5985fa;0xddae2d47af7a;0x96d5c04ccca36;0xf6ace39ae42ab;0xbc1308aaf4872;0x2f756c4dd5b];[0x0;0x35af1963abdc8;0x30363f757834f;0x783b7dd53086a;0x1b3fab7149e9a;0xaf2d974ef7b04;0xf3b3069a8eea4;0x5d0419db475f6;0x864fe6e4840e6;0x9eef3860c5d80;0x13f162d3780];[0x0;0xa1fce8080aa30;0x10d1c6e5ccb36;0x7cff281e34887;0xe8453dd2e92f5;0xa4c2bc8bad70a;0x47f42cd894e1d;0x16cf9ad8d9e26;0xb604d35a9a0ca;0x2127c78114ba8;0x134afbe4a8f];[0x0;0x33dcef020dbc1;0x4a9a0c7b399ad;0x4e363e0adc0f8;0x91475ed5173b2;0x6e424ad7399f0;0x388e81651e23b;0xe5adfe17a8d04;0xc219c52f33378;0x69485b208c318;0x310ec18f84b];[0x0;0x79f22b06e289d;0xf56fd357f2320;0x6848e3246943f;0x375cf87b45ec9;0x8268046a13ced;0xc597898957eb;0x542902f393f26;0xd812600521319;0xfd81718db2144;0x6bfcbb27fdb];[0x0;0xe7453606a00a8;0x870f7d27e77a1;0xcea6d0e702d8e;0x3ae76fcd5d7;0x729a62af77491;0xc2d3d4dd7a2d9;0x1791fc7f7f4f9;0x8e282547d58be;0xfadf0f0aa1884;0xf029a6ef12472];[0x0;0xc381ff4509b2a;0x213cd718f950b;0x16b460a4e6344;0x44fc30ce263e8;0x349db2bc2b63d;0xb06e1f4d6a9f9;0x962cb64a2a97;0x120f2d8237d65;0xe75df9444b8fd;0x8d17e4a84c3]]
 [((V [0xe8cf786287134;0x86607c50f058c;0x41164f537d66c;0x853dbe211a376;0xf814fde097b00;0x9bef073f3071f;0x7d5b502524eef;0x3138d4de9a958;0x2e7328055de6d;0xfff1a84a846] [0x86da0b515a87d;0x40e0c78ede288;0xb5b624a22a1f;0x4655dfb8ac29a;0x59d622e766b0e;0xe62c7bcb5463;0xcbe67836f1675;0xb0a736c5a1789;0xef732d4fe6d54;0xd3c66b5f99] [0x9e5ed4ef67773;0xc792169388198;0xab57e4d2bbc8b;0x5ad6ba0026c73;0xeaa1492731a54;0x230f1c4b8b58b;0x660925d5efb5b;0xb39741ae0b1cf;0x33d6f39e78d3f;0x7dc436272a9]),[[0x30b9eda1d44a0;0xcfe82f667aee9;0x3c771bb905870;0x8dfb3d15790ca;0xaf8e0b3635a2c;0xd4c7666e27046;0x4a8ece18da80b;0x7d534386e2e12;0x7a5b1075157f8;0x4a72c3f8fe3];[0x88047d0683694;0x1c3bf4df9714d;0xfdaa706939be8;0xbc94166abfd19;0xf89f6cc0d80b;0x1ddebe6dba472;0xf0e8469874767;0x7b4c435cd6dd8;0x219effec3c111;0xd0ef0d95620];[0x142e4c68ccbfe;0x238a31be19ee3;0x8f29c35fb6984;0xbea10bc714208;0x2ec997d784b00;0x3112f26d90317;0x31a09e510110e;0xdb3ef4907794d;0xe24bf1585e9e;0x433aea176bc];[0x142e4c68ccbfe;0x238a31be19ee3;0x8f29c35fb6984;0xbea10bc714208;0x2ec997d784b00;0x3112f26d90317;0x31a09e510110e;0xdb3ef4907794d;0xe24bf1585e9e;0x433aea176bc];[0xcafef4becd2e7;0xf4dc227f2ee44;0x9ab93cee53c17;0xcad8ffaec0259;0x12128e4335c6c;0x87439af1f5a86;0x2e4527fa2a3cc;0x62f88e4ed47e6;0x2127284c1cdc9;0xbf3f49662d1];[0xbd058847b63ae;0x275fd26068308;0x62f1337ae5fd0;0xf1bb16bbffac0;0xfd776888d7b9e;0x969b237bc49eb;0xc2a31e9e4a39a;0x1853b50e025f2;0x77d7a01f348;0x11afc42f34f];[0x0;0x21f9f6878e940;0x9c1c6056f970d;0xca9c3ab43a7a1;0xa2ef394d0e73c;0x657abe9178e99;0x1a3e78df7681;0x85a4ab55e8e60;0x875895e1f9474;0x20704529ff09b;0x29933439dd6];[0x0;0xa9d57ca6c2e74;0xaa6414db042eb;0x58e2c5dc22df8;0xfb451d952b6f1;0x819d2d84f0467;0xb4d3101f03871;0x75b4e736f2f74;0xf2b02d3793355;0x96c82074a89dd;0x138d2b5e47b];[0x0;0xc381ff4509b2a;0x213cd718f950b;0x16b460a4e6344;0x44fc30ce263e8;0x349db2bc2b63d;0xb06e1f4d6a9f9;0x962cb64a2a97;0x120f2d8237d65;0xe75df9444b8fd;0x8d17e4a84c3];[0x0;0xc381ff4509b2a;0x213cd718f950b;0x16b460a4e6344;0x44fc30ce263e8;0x349db2bc2b63d;0xb06e1f4d6a9f9;0x962cb64a2a97;0x120f2d8237d65;0xe75df9444b8fd;0x8d17e4a84c3];[0x0;0x5363e0277230e;0x9dc87c6bdca9a;0xb86394ded1601;0x3bec8a4500144;0x82a1a2f0f6a68;0x51af8fe51eef1;0xd45cd8407a2bd;0x192dfdbb5e6a6;0x33e1f87428fb0;0xe0cee93e226];[0x0;0x190ffafc5d40e;0x96a658fbbd9dd;0x23bc4acbc7f7c;0xc6e840d86e35d;0x6629acefb25e7;0xb9bb0f4ae01ba;0x94b15df1bc8a7;0x31d95d70d2aa6;0x651db170b371;0x588d6f9051e];[0x0;0xffee0c5d34278;0xc504ff911830a;0xd3c5938442e1d;0xf3bdf859d61a6;0xa866cd114dc61;0x309470ba0e0b0;0xd75dcfc3e7905;0x9cf376ff45002;0x14c8555bd7aa6;0xd0e358ed485];[0x0;0x51e956c6a197c;0x70c91f37a9ee;0x15b48b5dfb365;0xd901c3428fae8;0x401c38b3875dd;0xafb0450625731;0x30cc576e2b243;0x620b9e096d279;0xb50c9c423637;0xd3ed5ad240f7];[0x0;0xc0d8f25e30d87;0x7083d5374c1f2;0x498a71730838d;0x931967f76a144;0xca561e49959a;0x654c87df28599;0xe0957f9d57a4c;0xf8f0527c61776;0xab55616ad30e7;0xd3ba8df72a]]);
 ((V [0x4b69164effdc0;0xadd4cd2818e25;0xd2e0988156403;0xc6a5c441cdbb4;0xd4566c31ed03;0x719d7e2ba0a14;0xa1b1a9a40da85;0x3b0e586c1a64c;0xd77728e8c454f;0x80d8154508d] [0x6e9a2b39ded0a;0x95b422c1b47a9;0x85c7307559886;0x92e499e2fddd9;0x99408bc92fafc;0x477553e239fd3;0xeda09d2fc92a1;0x72b65594b1c4e;0xa0da59565866a;0xcdff858db8d] [0x3175f47e02ef1;0x215270cf838d8;0xbe46b1cf60700;0xc9290b7c1e296;0xe578a55b6346d;0xae966bf56990c;0x4bdda402dbcfd;0x4fc380185700a;0x177c1a2afd4fb;0x136cfa524f4]),[[0xa3292cbc05047;0x772de8a865d25;0xff2d2afef98e4;0xfd5ca4ad7115f;0xc077edf5b091f;0xd26313212bd36;0x9dd05f765d73c;0xe7e30ab2b81bd;0xdb9bc6155d473;0xe4b7ef375c8];[0x4981671434246;0x8a393a7e59c36;0xb844b9b806dc1;0x99affc35b953;0x38738f4395792;0x8cfb63cad2125;0xe951384b295d;0x1b2cde2943cb8;0x861134a2b3f3d;0xc0b50379c93];[0x9e5ed4ef67773;0xc792169388198;0xab57e4d2bbc8b;0x5ad6ba0026c73;0xeaa1492731a54;0x230f1c4b8b58b;0x660925d5efb5b;0xb39741ae0b1cf;0x33d6f39e78d3f;0x7dc436272a9];[0x9e5ed4ef67773;0xc792169388198;0xab57e4d2bbc8b;0x5ad6ba0026c73;0xeaa1492731a54;0x230f1c4b8b58b;0x660925d5efb5b;0xb39741ae0b1cf;0x33d6f39e78d3f;0x7dc436272a9];[0x878cf3150b751;0xfc619a0f54b83;0x704c5ab318a52;0xda4ce63330436;0xabb49ff13969a;0x66caaedfcb33;0xe7aee59fcaed0;0x8c0b367d984d7;0x26e2f21cc5239;0x5d1cd3ff8a9];[0xc1f473ff28af6;0x8dd7a06f050b2;0x47f85f04ee36e;0x2f4e19902b51d;0x8cbeef525c0f7;0x868eb8dcd55f1;0x26e62de4e7a8d;0x8f21a7abab7e0;0x5f2e4285eed03;0x63982f7a3ea];[0x0;0xfd9441c93ac0f;0xdf35420fb6800;0x3771e35474b50;0x2230e54e22e76;0xf2760232bbb5d;0x55f46d6fb6c80;0x5cb886630573f;0x82c99cca79f8;0x24dd531895fb3;0x4dc616edf21];[0x0;0x61a48a24d8869;0xdb675a67446f5;0x397a8c8ac4d5f;0x8b2d5ff3ba0c4;0x4ee6f31257bb9;0x45263b7ae1eda;0xc3c3bd18be1c0;0xcbdc9eab9e68;0x8e8e8d3fc9b06;0x705d1d02f91];[0x0;0xc0d8f25e30d87;0x7083d5374c1f2;0x498a71730838d;0x931967f76a144;0xca561e49959a;0x654c87df28599;0xe0957f9d57a4c;0xf8f0527c61776;0xab55616ad30e7;0xd3ba8df72a];[0x0;0xc0d8f25e30d87;0x7083d5374c1f2;0x498a71730838d;0x931967f76a144;0xca561e49959a;0x654c87df28599;0xe0957f9d57a4c;0xf8f0527c61776;0xab55616ad30e7;0xd3ba8df72a];[0x0;0x80c7ffd031c88;0x26dcc62f93ebe;0x5ac41bc9f864b;0x61d98ff79eb33;0x836ebbdf85d69;0xa82ef3c47b80f;0xb7465a0ac2ff8;0xbc52dc515ae4b;0xcabe4a4a25d90;0xaf30aec9d];[0x0;0x8457bbdf8a396;0x616948a3e70c7;0xc4803a2cd401c;0x911840b049d7f;0xe628488c666b3;0xa3079ce9cd355;0x57a1ae6f88406;0x1f08c97f8efa6;0xc2e4085d6c90f;0xffe35162bea];[0x0;0xa8ace9855cbd6;0xa49596df2a38b;0xdf59fe2b615e3;0x29b08612aa132;0xd56d7b41984a0;0xc78792fd1c307;0xf3d6ff1315054;0x8da8b9c5a800e;0xd43ba987893f5;0x60fd2a7aa41];[0x0;0x3854573f8967e;0x95da6d05f21f7;0xbde488432608b;0x1e9fdb4934f62;0x445f8f0d90bf1;0x4c7f6edf0d23c;0x25a1d99253a7f;0xb2744c44fbc78;0xeafcd632fdcde;0xce3273c6a6dcc];[0x0;0x56c92bbbe3cf9;0x9a31e4a23fe09;0xea3a94947dcb5;0x60c1f96fee139;0xd2a74f42b1428;0xc4af71d14b157;0xfe8d9e586bae2;0x2407ff0b6f5f1;0x6d00bb2ff6e0d;0x67ada37d0ef]]);
 ((V [0xd2dab6bf0fd7f;0x89bb0d634d2bd;0x3178c390242de;0xbabcd8ca59ec0;0x21b69e8f32f7b;0x1aed94f5642c7;0x748571669962d;0xfd6f3b6141a52;0xd9fd22bf370d6;0xaafc36c4d6e] [0x20a2628e39f8f;0x9ddcbccc29bf1;0x3de9431d7b121;0x777dfc0dd5370;0x3fbbcebbce673;0x18e1b67af98a;0xdc8f9a4fa4289;0x7956cb4dd09c9;0x3c22a5f7eaa39;0x1f7691cf859] [0xe6ce2f5fc38b2;0xb72994f4204b0;0xcfcf093e52ff;0xeadc74c203606;0x115858ff3f932;0x2cbddaeabb316;0xb92113cccd69a;0xf1123e12ee9a5;0x38306f11931ad;0xb87e5df3817]),[[0x614d938340517;0x1af5354e2c442;0xb0b72e3ef303b;0x6b6cadb359f99;0x947d86daaea46;0x53905a53bf22b;0x1424f5738c225;0x9b6bd117d1a7e;0x46d95c8935dc6;0x7702ae6347f];[0xfa2e04b782a9a;0x4e1f2531c4990;0xc65696c2f79;0x67e49e6936973;0x1e2c2304d71b3;0xc9cd953ab0d98;0x60f94d0cf6c9b;0x593d13deefddf;0xe957a513c3cf7;0x61eb92db7fc];[0x3175f47e02ef1;0x215270cf838d8;0xbe46b1cf60700;0xc9290b7c1e296;0xe578a55b6346d;0xae966bf56990c;0x4bdda402dbcfd;0x4fc380185700a;0x177c1a2afd4fb;0x136cfa524f4];[0x3175f47e02ef1;0x215270cf838d8;0xbe46b1cf60700;0xc9290b7c1e296;0xe578a55b6346d;0xae966bf56990c;0x4bdda402dbcfd;0x4fc380185700a;0x177c1a2afd4fb;0x136cfa524f4];[0x114223e1d9ca6;0x2a874d1bd3e73;0x2d20ecf720a17;0x938a656512714;0xb083f84822741;0xd26d0ff16c18d;0x3ad82bacb2936;0x3c3dff9592c3a;0x9a291c39942eb;0x78535f304b];[0xe8ebe0d5a8df5;0x2397d815f0b1d;0xd3a5699fa2562;0xd45a39042425e;0x6da82abcb4a71;0xf760854944c0a;0x2621216044364;0x1cff14495d1a5;0x4f2e88da2fa0c;0x5a665ce87b1];[0x0;0xe61ac8010eeff;0xec5f9eb75106f;0x7f5668474fd5f;0x63cc55f502843;0xaa6a285b56f07;0xac3dbd220a774;0xbb70e4a3db899;0x60f346e8d4afe;0x69cdb3c04fe75;0xc03483942f];[0x0;0xeb100d1c0518b;0xbde4d1d34623a;0xd24de5c378182;0x3409710d77;0xc2d2c7074df30;0xe1e26d9fe035b;0xff8a36a7354ab;0x76c5fbafa8dc2;0xa927d4683b05b;0x907dc71d23];[0x0;0x56c92bbbe3cf9;0x9a31e4a23fe09;0xea3a94947dcb5;0x60c1f96fee139;0xd2a74f42b1428;0xc4af71d14b157;0xfe8d9e586bae2;0x2407ff0b6f5f1;0x6d00bb2ff6e0d;0x67ada37d0ef];[0x0;0x56c92bbbe3cf9;0x9a31e4a23fe09;0xea3a94947dcb5;0x60c1f96fee139;0xd2a74f42b1428;0xc4af71d14b157;0xfe8d9e586bae2;0x2407ff0b6f5f1;0x6d00bb2ff6e0d;0x67ada37d0ef];[0x0;0xf156f62607252;0xf27caafeb33f1;0x84adc1d52479c;0x3836bd50b9f7e;0xd4ffdf320ab54;0x1b5698ea397cc;0x888a1d8cb8e23;0x98c7d72aa29d3;0xcca18ff7c83;0xa5c33af0501];[0x0;0xd493758c1299d;0x5fc038c95360e;0x9f15e266c8f6a;0x1b95c13e1703b;0x2321ada9bf97c;0xc5871e9bc5ade;0x44e0e0bf9bd55;0xa82cf355cc48e;0xd33e3d269836;0x40d8cba8ef2];[0x0;0x15e0ba5da87e5;0x4ba6d13f91b8e;0x3eb7e46c2a6e1;0xa7d94af0df5ab;0xba340b56fcab4;0xd8831e409ef78;0xef14911230f02;0x851b93a3d2198;0xd8c9df25cb5a6;0x4166e85d4e7];[0x0;0xbab0c39ccf7f6;0xf2dc21cb8003e;0x42c441796fbc9;0xc04c8ecbc23f3;0xf6c84875bc9ce;0xcce95ca36610a;0xcd320c0dd2f9a;0xe59d70e8c6713;0xd0480b553fbed;0x1f89ff803104e];[0x0;0x514ea6071f7c9;0x86a1ae999d376;0xba2b48d4eed63;0xf8d6caacfe3cf;0x78610bf913872;0x272a21f2abb4;0x703136a0e4283;0xa55f8f44f90dd;0xf57bfa5383a84;0x1503bc468ae]]);
 ((V [0xa1cdf71e2ff4c;0xe35a9c8da86bd;0x8ffb6b7a52fc2;0x1829a541e636c;0x24e4485c457e3;0xc5329fe6495b6;0x92d6fe17834ef;0x216c2a8db94a;0xbf5ed487d4142;0x7d21dd2d925] [0x7119f260ad00d;0xef4e56949423f;0xae1b75f21fefa;0xec60243692179;0x55b07f7e1c437;0x637d203c613f1;0xbadf9fe6000bf;0x8e169add1f8d0;0x71a1cb4e49de;0xa654299af8f] [0x34dff6041b8d1;0x19c0f1b708d03;0x9fcdc638b4104;0x39dc06d1f00ef;0x33d7669c0ebd0;0xa5ffc4cc5e0d0;0xcd73425ee0102;0x6a4e998640b4c;0x5e8da1777422f;0xdb27c12432]),[[0x7ece48d0c277f;0xba01775b1f81f;0x13e7964100344;0x7b7e0acb6fa90;0x340fa17318433;0x700b2630edfd9;0xb9c1e4909943c;0xd43f7b730dc96;0xba3f729478771;0x9818ad8e8bd];[0x90f146021c12b;0xbf8e066267ea4;0xb25cac682e2e5;0xbf367a9838daf;0x9a71bb50846f3;0x58d2422c834b1;0x4c22c7f6034bb;0xd269959078cb7;0x9ca43f9d3ec9e;0xd2bab188c7c];[0xe6ce2f5fc38b2;0xb72994f4204b0;0xcfcf093e52ff;0xeadc74c203606;0x115858ff3f932;0x2cbddaeabb316;0xb92113cccd69a;0xf1123e12ee9a5;0x38306f11931ad;0xb87e5df3817];[0xe6ce2f5fc38b2;0xb72994f4204b0;0xcfcf093e52ff;0xeadc74c203606;0x115858ff3f932;0x2cbddaeabb316;0xb92113cccd69a;0xf1123e12ee9a5;0x38306f11931ad;0xb87e5df3817];[0x99519d31e7a47;0x156566ae80d40;0x5020b33d25c43;0xc875f0c9bd295;0xd3e51faf6131e;0xc216fd08d4a24;0xcf2d005c01bec;0xde287e82e77ae;0x23667a4aaa0b4;0xa5215b643f3];[0xf79fa8d0346e5;0xaa289fb3e7163;0x623bf92b086a2;0xf6c089ce7bb1a;0xc68c9ba1233d4;0x96bb4523aea8c;0x7cf5c79a018ce;0xf441170d91508;0x793dc55294be9;0x2d995624889];[0x0;0x8cb26200cf8d7;0x269adbfd8f421;0x5aca48c41230f;0x4ba59c3bdc63;0xe4c71e1caf9d3;0x547ae506518e5;0x98b1225042145;0x64a456316fdee;0xa0ed78b83220b;0x72173066165];[0x0;0x8f40b710735c5;0x3887d8a03833e;0xc172385124df3;0x582956ec3bf9f;0xd04f672e7ea5d;0x9d6612a6d88fb;0x16d048ce6f25e;0xbb44fd56a0bdc;0x14b757183dfac;0x6d9cd0b5841];[0x0;0x514ea6071f7c9;0x86a1ae999d376;0xba2b48d4eed63;0xf8d6caacfe3cf;0x78610bf913872;0x272a21f2abb4;0x703136a0e4283;0xa55f8f44f90dd;0xf57bfa5383a84;0x1503bc468ae];[0x0;0x514ea6071f7c9;0x86a1ae999d376;0xba2b48d4eed63;0xf8d6caacfe3cf;0x78610bf913872;0x272a21f2abb4;0x703136a0e4283;0xa55f8f44f90dd;0xf57bfa5383a84;0x1503bc468ae];[0x0;0xc75d4f161396;0x41d45e33dafaa;0xc3c92c925688f;0xc9a636c6d7285;0xf909e2d1176f5;0x27e711a36ef99;0xd734650226bb3;0x5b32cdbd7a30e;0x5aac7eecb93bb;0x3ddee3b00b];[0x0;0xac009b1c2c104;0xe39974aaf0f08;0xbd9700547f567;0xfeb9c3f6b1c96;0x38da44e3f859e;0x3a26e536fa469;0x19c0a519dc15;0x60a14a83f8eba;0x25e1bd7e16146;0x7233f1394cb];[0x0;0x4f801286756f4;0x28bc68572d8e7;0x9d8cb1af912ea;0x7c8eadb47089c;0xffbe423e3598;0xfb60053282544;0xa49cd7e19d468;0x8eac5b952d57f;0xdbe57b1cee533;0x670108d15ab];[0x0;0xecbbe987f42b0;0xa08a18c423771;0x2e11c81d6c568;0x75564430f110d;0xcfd688591ade0;0xd8a12e776a187;0x729beee85156f;0x9a3c72bb4bf04;0xb2f3a9d99e6bf;0xa671936df37f4];[0x0;0xd79b7a1eccd9d;0xcd6fd330fb6e5;0x2b5ba0035375e;0xf10cb4f327882;0x26e4c213e751f;0x29d231aadaa2b;0x8c55e93174610;0xe9b61f2f3e9b1;0x5570ddd61954b;0x514d18de4c5]]);
 ((V [0xaa0dd1d6317d;0x837b976b714fc;0x36e285d617637;0xa6ed331f7fc3c;0xb13b3e411b092;0xee78d654148f7;0xd5a4a88f464fe;0x28d2aecc1c8f3;0xeee40dc77d4e0;0xf37401f0e24] [0x87c2232c8b5ab;0xa62f6d93c3b47;0xdaec561202fe3;0xf674b4380ac;0xf05af38f659c1;0xa28515542f5;0x60d28beb9addb;0xb116ac93dba0a;0x394f95be897ae;0xdb82b8bebc7] [0xaad1540d20115;0x4167359a30ced;0x63aff95daf565;0xb1ec683cb2be7;0x38651c0bb998b;0xe7afb7df14b97;0xca3bf2cc9e821;0xb96eedabd22d1;0x75f50718d53b4;0xa4e48ffa984]),[[0xd8c1f27af7baa;0xc0c2758e2c82f;0xbd82d6a3acf4f;0xcc6d3ab0496fa;0x61442969fe972;0x9b1a0a2c70d7b;0x828ef559de53d;0x90cd1b9190392;0x1f4872d11912;0x1bb4bcc9d7c];[0xa7d508331827e;0x883ccce9b63c8;0xe4849532fce9a;0x8de1ddba46c4b;0x6f78294e76745;0xab055a49d4e24;0x7e0f57c778737;0x3f4310ae25dec;0x20f033ec5114e;0x10bc055dead];[0x34dff6041b8d1;0x19c0f1b708d03;0x9fcdc638b4104;0x39dc06d1f00ef;0x33d7669c0ebd0;0xa5ffc4cc5e0d0;0xcd73425ee0102;0x6a4e998640b4c;0x5e8da1777422f;0xdb27c12432];[0x34dff6041b8d1;0x19c0f1b708d03;0x9fcdc638b4104;0x39dc06d1f00ef;0x33d7669c0ebd0;0xa5ffc4cc5e0d0;0xcd73425ee0102;0x6a4e998640b4c;0x5e8da1777422f;0xdb27c12432];[0x2c5e5a3e1a93;0xc94053853b285;0xd5041ac7571ac;0xcb02ccb854a7;0xf4b142d7392ba;0x5b7f7d4d4547e;0x67dac0c858c2e;0xd9dc2b78b02d6;0x99aaec829d5fb;0x7ee207fb9c0];[0xa50f228f365b3;0xbefc79647b143;0xf807a6ba5ced;0x8131b0eec17a4;0x7ac6e6773d48b;0x4f85dcfc8f9a5;0x163496ff1fb09;0x6566e53575b16;0x87454769b3b52;0x91d9fd624ec];[0x0;0xf161b537e982a;0x3ef1e21853708;0x78e4eca954be3;0x97f4d505c7c16;0x58d9c1937ee62;0x2c9785bc7023c;0xb57aa8c39fd93;0xe1bebdd99a9f9;0x705016c879686;0x87867a8e3d];[0x0;0xd27d1b2fdb254;0xccd17d9694bb7;0x63e7dac0fd037;0x876e5912956f1;0xa5af0e94953c5;0x822999832fd8b;0xba8359eea8e6f;0xab270fa3ae467;0x8379a2b0b09de;0x17b7eaf09b];[0x0;0xd79b7a1eccd9d;0xcd6fd330fb6e5;0x2b5ba0035375e;0xf10cb4f327882;0x26e4c213e751f;0x29d231aadaa2b;0x8c55e93174610;0xe9b61f2f3e9b1;0x5570ddd61954b;0x514d18de4c5];[0x0;0xd79b7a1eccd9d;0xcd6fd330fb6e5;0x2b5ba0035375e;0xf10cb4f327882;0x26e4c213e751f;0x29d231aadaa2b;0x8c55e93174610;0xe9b61f2f3e9b1;0x5570ddd61954b;0x514d18de4c5];[0x0;0xbc9782034413a;0xf0cab2fa9e92d;0x7cf62ef17d942;0xe8750f9d6d617;0xd0eedbb660d39;0xf4f00700a18e5;0xbff4fb47cc18;0x83e1d698c28fa;0xe32b5dd983af3;0x6c1141a04f4];[0x0;0x325ac432d843b;0xccc2c4ea82d25;0x9b6b7f9aca26f;0x862e199ffab4e;0x857036cf2f331;0x9d8486afdcfb4;0x47234d7b0103c;0x71641cf1d8b91;0x540aeae942c24;0x3d2a167945c];[0x0;0x40f472cbdf397;0x8494e9e9c3267;0xe42ecfa6cd109;0x2d3116c8c0eda;0x88a16d60b4096;0x30a0a093a2d0;0x7a69153142212;0xba490500179a5;0x956ff6f5da5fb;0xfea0e6b0f8];[0x0;0xc6bbafd60ce01;0x7404296eaa47b;0x40ad76e4eeae2;0xe9ac2a6c36667;0xddaecd85dde21;0xbf7a8b1ffeac3;0x97fa818b1b266;0x498a45b102269;0xc7e3239d60943;0xdc4fe2135582b];[0x0;0x6c0c0f5e8a646;0x9d665daf0b782;0x5910b64535e08;0x47c8d4032e3e0;0xc39233b2bd2fa;0x5f627c5fe5a37;0x53cecc93b1d67;0xf966abcdaeaac;0x2218d25221f2f;0xd0c08e42d2a]]);
 ((V [0x31167194a4f4e;0x92ed6ffd3c644;0x347ea1d230400;0x97c4a2a0521d3;0xb62ac3f060379;0x5b4391c78e0c8;0xad0ff0f4b0118;0xa2acadbd610d;0xf5a5b411c802e;0x6227069e9a2] [0x71c68af04b9f8;0xc4a3d4999b020;0x48eac68049467;0xa8d6836b215e9;0x8cb2fe4014db8;0x6e42694977bac;0xb250aaefceb6d;0xfdbcef7b63a19;0xa6b8553414685;0x2a5c0765676] [0x8e56cd57f25a7;0x328015e37266d;0x23a56ed8e6b7c;0xd31ad418e6fde;0xecc704129d3a9;0xd29c99edf634c;0xafdd10b44c456;0xe0d844e60f300;0x775a3ce908eb4;0xfbf40b2fb23]),[[0x448282436e38f;0xd91df5e14e55b;0x4136ea76e9371;0x2a3dc7e606f67;0x6f40984d2f65a;0x8680565be40ec;0x383c8ee2a3637;0xd3d6bd6de53a;0xbd1726831d5e2;0x8c5e41430c5];[0x8c1160e5d15b;0xda2ef527ab214;0x95b3d40614563;0xb6491ee472fc6;0x93626c214fdee;0x658179127bf86;0xf67e00037edb0;0xc7b98827e6e78;0xf8b30c5995591;0x5d2961ba147];[0xaad1540d20115;0x4167359a30ced;0x63aff95daf565;0xb1ec683cb2be7;0x38651c0bb998b;0xe7afb7df14b97;0xca3bf2cc9e821;0xb96eedabd22d1;0x75f50718d53b4;0xa4e48ffa984];[0xaad1540d20115;0x4167359a30ced;0x63aff95daf565;0xb1ec683cb2be7;0x38651c0bb998b;0xe7afb7df14b97;0xca3bf2cc9e821;0xb96eedabd22d1;0x75f50718d53b4;0xa4e48ffa984];[0xdc2858603a53b;0xea9425091832;0xb280f4b2d618c;0xf62f68a50b0e2;0x4524de709b916;0x69466c7212686;0xed05895caf181;0xcc02be970d4df;0x3f65c7f8608ed;0x2fd424a9bdc];[0x2c98bdae22c21;0xcb85b2d7199e1;0xe332df533e3d7;0xc019b63f67ee3;0x4e3d8db0b44d7;0xfc3b0ca069900;0x97876a6cfc2e;0xfbb6c990d9999;0xb94d446134ca3;0x2d553d1056b];[0x0;0x3e15c468247f7;0x2e1067c16f0bf;0xc39d9d6ea9c68;0x2c80daf34e543;0xb40ef2916c38e;0x3956a76811a78;0xbbbc6d93f0025;0xfa23cb5d1f4de;0x39499e66f75bd;0x65f82fa64e9];[0x0;0x86a82eb33d4a0;0x67e1bb246e1f;0x3f24252ec718c;0x309a69a3f29e0;0x3a0c47824aaaf;0x4403974c0dcac;0xbcfcf3e872543;0xa749352cf58e;0x11c7c2f2c7c50;0x5a69b4b321a];[0x0;0x6c0c0f5e8a646;0x9d665daf0b782;0x5910b64535e08;0x47c8d4032e3e0;0xc39233b2bd2fa;0x5f627c5fe5a37;0x53cecc93b1d67;0xf966abcdaeaac;0x2218d25221f2f;0xd0c08e42d2a];[0x0;0x6c0c0f5e8a646;0x9d665daf0b782;0x5910b64535e08;0x47c8d4032e3e0;0xc39233b2bd2fa;0x5f627c5fe5a37;0x53cecc93b1d67;0xf966abcdaeaac;0x2218d25221f2f;0xd0c08e42d2a];[0x0;0x8e8bd2462512;0x955c807b59d44;0xb7424367f41b1;0xab9c187c966ca;0xab51b971a2818;0x83b055ae55c4d;0x80c7fb5b13210;0x256c63156b914;0x7e3485cf2d8ff;0xbc38ead67d7];[0x0;0x3d539ba8ddd8;0xe82f181ab3bb1;0x278b3a4601b82;0x4f3b100d951f7;0xd9c66ec824825;0x13cab3e5f92d4;0xe2f9b1e9ced32;0x5b8472a361dd6;0x2b444c73dfb11;0xe78570410ff];[0x0;0x335c58bb98d32;0xcbf925fd315dc;0xbddb2e659c9fd;0x248bd80bdfecd;0xab2defdcaad9e;0xeaabf757259bd;0xde930fb000ad8;0xcaf53ce1346f2;0x2c04f274f6055;0x23b80b1fcf2];[0x0;0x35cede7ab8d91;0x64a373eb480d1;0xb207907ecc5e4;0x3fa5e4e804ea6;0xea4163f9debdd;0xa2f2d418784ec;0xb7a19703826c4;0x7917621ef4e31;0x7a09dd584dbd0;0x2a76f9253422f];[0x0;0x9e951faa268cf;0xf97938dd69d6;0xe8c85b32066cf;0x4069c58ac6f57;0xbd529bc9bfb2d;0x3bd067ef1a8c1;0xddb5310543de;0x41f154ff6aa90;0x5a1ad8d4c85f4;0x103daff2588]]);
 ((V [0x5623dd8d17ff6;0x250376fb443d4;0xc3aa99fe73480;0x13a085f8ec2a5;0x6f84233cd81c7;0x459747e2d2267;0xc2bf9fb691a49;0xebfd7ab70d7c7;0x6e2b10ed5c8d0;0x2588ee1aaec] [0x1ea8c39984406;0x6a072349ba1a;0xdc61ac6da8b79;0x5f8fbb9b5417a;0x3afd6ac820d0;0x7667df2f4431d;0x5254f9d754b45;0x3e0c82c70c555;0x6c58016cf9f7c;0xb41059c9e4a] [0x9ab7d7106794;0xe85385cca64d9;0xf9d8915ae1960;0x9d55ee3a56299;0xe3adb6f47a1e9;0xec4bb4fbaa78f;0x5c97925a0ab4e;0x121226e3f3f02;0xf466b3392941b;0xf7b9ba1c7a3]),[[0x9f054471892ff;0x5c6fe5897aecc;0x52422185bec68;0x32de8f9f72436;0x496d0aff00a3f;0x54efc2196e14b;0x198fe4902cd5d;0xebd499e3d73dc;0xa91cb8d4571ef;0x4e322984941];[0xfacffdb08c3cb;0x7eb2b60717ffa;0x2914d147753a1;0x5bd59bd55c960;0x1d0947ec98eb4;0xa1f008e39628f;0x2d3ea7ed0cfc3;0xb4ff8f657b5eb;0x7e9f8d4685eba;0xb941affa50b];[0x8e56cd57f25a7;0x328015e37266d;0x23a56ed8e6b7c;0xd31ad418e6fde;0xecc704129d3a9;0xd29c99edf634c;0xafdd10b44c456;0xe0d844e60f300;0x775a3ce908eb4;0xfbf40b2fb23];[0x8e56cd57f25a7;0x328015e37266d;0x23a56ed8e6b7c;0xd31ad418e6fde;0xecc704129d3a9;0xd29c99edf634c;0xafdd10b44c456;0xe0d844e60f300;0x775a3ce908eb4;0xfbf40b2fb23];[0xa7574a75325b1;0x74fa0ae317e84;0x49a072dc8acc8;0x1108d51b0ede0;0xe2274b97ec076;0x4cd07d048a562;0xc5b0565600ccf;0xa50d4ca5501ae;0xf5028e23c28c7;0x7f9e4e4c706];[0x5378b33b59e1b;0x9b8ab2400176;0xdf745e6aea6d9;0x4accc6ba4db7f;0x3ae1fc54ace3e;0x551f8bdf0bd2c;0x678e51970c2f4;0xff242c02b43c;0x899cff22c35f3;0x39a361ade04];[0x0;0xc51ce87f3ce47;0xbf40dffa6df24;0x132c798f64ff7;0xb3c9bff505720;0xa62283bd274c3;0x7a90d4710d3f0;0x6a1478c290fbc;0x768ea00dc786e;0x43122a3298fb7;0x9bcebb4856b];[0x0;0x4bf28cb490002;0x4cf5b7b1b2673;0x3f75e8ffce581;0x7c4955395d355;0xfa9c891063882;0xdc73af4613403;0xad8ca673daf29;0x29c95258cc928;0x1598def2317be;0x4cf5b9ef490];[0x0;0x9e951faa268cf;0xf97938dd69d6;0xe8c85b32066cf;0x4069c58ac6f57;0xbd529bc9bfb2d;0x3bd067ef1a8c1;0xddb5310543de;0x41f154ff6aa90;0x5a1ad8d4c85f4;0x103daff2588];[0x0;0x9e951faa268cf;0xf97938dd69d6;0xe8c85b32066cf;0x4069c58ac6f57;0xbd529bc9bfb2d;0x3bd067ef1a8c1;0xddb5310543de;0x41f154ff6aa90;0x5a1ad8d4c85f4;0x103daff2588];[0x0;0xd7e44368d7cf9;0x8153d928491f1;0xf58a221c2502c;0xa44df05dded0b;0xfddff250ee860;0xf3cacc235eeff;0xc016fefcde83;0x6b7d89d1908d3;0x7f3979cc63292;0x7025382970];[0x0;0xb3e49a8ba490f;0x1aaf13968fd6c;0xb116d6b72e01c;0xb5a1aec17c604;0x9ceb9ab8f47bd;0x41feafa20f0db;0x9fbacc305198a;0x1abcbaa6874b0;0xb0d184d3479fc;0x25a1e704728];[0x0;0x1ec7fefbe4376;0x38ff6f0dd7c49;0x2ec2c18769017;0x1d2788b5f8ce1;0x1595fd499fafe;0xea7168e92a5ab;0x2d9936aa378ab;0xc9de71eb01293;0x69f72ce106915;0x1b2995a30b6];[0x0;0x33752cd6c99e7;0xc6236f4b4e208;0x4f117e61b4c4c;0x77e74a65c7877;0x3caafa43cb781;0x66d93fcd561d7;0x2a5bc61e6208e;0x4ddb190eb43aa;0xd87bcb6d096d2;0xb4421c1edd9ac];[0x0;0xa23d646cc4e50;0xbbbb337e09ae9;0x9d3f76c6bdc6a;0x2b5c91f35922b;0xace1db4078367;0x3fc6182738cbb;0x4271dfc389180;0xa17937aa0e006;0xf655858770c00;0x1a66ad23d95]]);
 ((V [0xf85280e58f24;0xa291ca4e7d9ec;0x901f41029362d;0x2fb0e0cf09fd8;0x891699cb61c5a;0x176d7f378bf81;0x1e19c33245fe0;0x9f91383889dc4;0x42f6743bc8567;0x3f4e82968a2] [0x8007536c7c4a2;0x54381598e278f;0xebd53b43898c4;0xa99dd05525bd1;0x954b1be17f90e;0x35c5b7cecd6da;0xa4418f92eb0ff;0x3c2e59c2d9408;0xa454891a9a95c;0x129ddfaac2b] [0xe7d4822f6b1c3;0x3e00fca431870;0xa802d5348aab6;0xf53f16fc73b7d;0x7fc7257fcddce;0xd308f535a6f09;0xa3e104d1b9b18;0xbeb789aa092;0xe7533b1a09ae6;0xde5faa27156]),[[0x3077521907f99;0x21b57c645c7ce;0x26d46083a9e3;0x27381fc3f155e;0x20261a5134d9;0x5b6b24d13a604;0xff0dd639ce6ad;0xf65de013f9552;0x1c607e455e81a;0x720247a08d7];[0x40ce839a72eb;0xeef9f75aead32;0xdb34f325dc625;0x7d4dcabd52899;0x7611cc2af8d92;0xadf4cfac5e6e3;0x30084cdc0392;0xca097be40600b;0x3e0da5f5d1d2d;0xbc5bd52cffe];[0x9ab7d7106794;0xe85385cca64d9;0xf9d8915ae1960;0x9d55ee3a56299;0xe3adb6f47a1e9;0xec4bb4fbaa78f;0x5c97925a0ab4e;0x121226e3f3f02;0xf466b3392941b;0xf7b9ba1c7a3];[0x9ab7d7106794;0xe85385cca64d9;0xf9d8915ae1960;0x9d55ee3a56299;0xe3adb6f47a1e9;0xec4bb4fbaa78f;0x5c97925a0ab4e;0x121226e3f3f02;0xf466b3392941b;0xf7b9ba1c7a3];[0xdf7b9e04a4212;0x56fc4f498e458;0xaefd620c32223;0x4438cdfda5a5a;0xb5c9aeb8c06f2;0x5117abe5d65ee;0x43e50c9578da;0xf5051bd59f03;0xd5b5c97367fe5;0x132c86bef1b];[0x24914a35030da;0x97fda8115c8d9;0x2c379119aa402;0x3914fcbface3f;0xc0481d72386a0;0x5cdd23c6880f4;0xfec2340468ab8;0xbab92a26ac107;0x6857dc8269d48;0xa92f4e6e0e2];[0x0;0xb270a38fad421;0x3e9ab2d899be8;0xcdba24316f992;0xda4bcc1a49a62;0xf819d4cc013;0xae91770fac6b7;0x4165ff3039392;0x98b015dde965a;0xc1f6df35a4940;0x99316db3f5d];[0x0;0x21bf19ccb6f2f;0x6d7fc3e23d2b1;0x4cb316d2aa120;0x905e2f1b40e44;0x811e8ab9d3aad;0x4bc1bb1e971cc;0x5fe6588707cb3;0x12209a09a37e5;0xabdac5cc2e379;0x6e52e9a4023];[0x0;0xa23d646cc4e50;0xbbbb337e09ae9;0x9d3f76c6bdc6a;0x2b5c91f35922b;0xace1db4078367;0x3fc6182738cbb;0x4271dfc389180;0xa17937aa0e006;0xf655858770c00;0x1a66ad23d95];[0x0;0xa23d646cc4e50;0xbbbb337e09ae9;0x9d3f76c6bdc6a;0x2b5c91f35922b;0xace1db4078367;0x3fc6182738cbb;0x4271dfc389180;0xa17937aa0e006;0xf655858770c00;0x1a66ad23d95];[0x0;0x2da679e14495e;0x97136062eb5a5;0x2a7e41e1fec9a;0x4601041591155;0xae250d05a5d50;0x1ca11561c0230;0xa41eeaa3504fa;0xb8d3fa40e5911;0x51ac99f8581ab;0x7ea6ff4f424];[0x0;0x1b941726cbc26;0xd92cd8fca82f3;0xc4cadcf7a4aa5;0x29b577be2c5f9;0x3eeacfe0f4fdc;0x1ad6c16715fd7;0xf6606d3c80270;0x69cdec5c2b13d;0x4d099cfa3c96a;0x580de11905];[0x0;0xcf5cfb5cf01b8;0xefa8b5c1d1694;0x7dabfcdd11a85;0x2467634b1f92;0xebca79f9ad692;0x15e2523bcdfa0;0x74d4ddf69c24c;0xbb41000650ff8;0x2eec8fae736a8;0x2e945d866c6];[0x0;0xae2a47efa714d;0xc559fb79b781a;0xbd40d6a9ce428;0xd05870242528d;0x3c4efbbee390d;0x5b326d8910446;0x3432738a5976d;0xe9b662652dc31;0x431416a6de8c8;0x12a2caec8cf37];[0x0;0xf318ddaa278d3;0x4451d02061fd7;0x119c846846e17;0x5a93258d5c765;0xad10ae815e8a7;0x7e88e007843c1;0xdb059a3f1e45f;0xb7690822c6d8d;0x4acf6a7c6bf09;0x49a8fa44a1]]);
 ((V [0x520410026ee89;0xa2194c02cb6ac;0x9d255643e9642;0x502886a91c72c;0x8fc576027d978;0x1a289c85b2134;0xb54a38414f47c;0x24e62b00086a0;0x949cde2169788;0xead0245c05f] [0x33d95dfc2f5ea;0x8bc2e08f9b125;0xcb9d881c4d59c;0x44aab9460f64d;0x3b47065dec413;0x36c9e1d0948ee;0x4cf4fbe1a24a4;0x42cc8295accfc;0x1e61e9fc72d1;0xf0ab4919dc2] [0xe5668efdcb5b2;0x3d6abcbe634de;0x36a6ff839e292;0x4ee6ca110e142;0xea7849c2779b9;0x1723f39d7fb5b;0x35c6eac834ace;0x1d9da7d083388;0x7c4dec8e064b8;0xf5bfeedd6e6]),[[0x9c513f67a79cf;0x13f03918dc707;0xbc15d5e00cba;0x425f145cb3b89;0xe84a7776b13ff;0x5a6ff491715e0;0xe679b9421432d;0xa4a6ffde6b98d;0xa460affba33aa;0x2d74a4d7c9b];[0xd4795e0a08376;0x187463ccd254c;0xea5a9facc9b51;0x8e036337893bd;0xbefab1beeb105;0x232572262b29a;0x6bafa9f97e57b;0x2d4b5e9317807;0xb4f3b2ddbf9c5;0x813964ea43];[0xe7d4822f6b1c3;0x3e00fca431870;0xa802d5348aab6;0xf53f16fc73b7d;0x7fc7257fcddce;0xd308f535a6f09;0xa3e104d1b9b18;0xbeb789aa092;0xe7533b1a09ae6;0xde5faa27156];[0xe7d4822f6b1c3;0x3e00fca431870;0xa802d5348aab6;0xf53f16fc73b7d;0x7fc7257fcddce;0xd308f535a6f09;0xa3e104d1b9b18;0xbeb789aa092;0xe7533b1a09ae6;0xde5faa27156];[0xac2fffa29f219;0x83b39e562f396;0x7d78c478b0013;0x503e6191241be;0x3b8540f44f613;0x15fc34bbe614a;0x694e3f1aa9d37;0x47db8a7d64d2d;0x8316a0b3aeff2;0x6d6d6824eb5];[0x28495e6768f25;0x94c0c576a31b6;0x6ce1db3419b3d;0x3dc501a6651ff;0x837570ca9baf2;0xd293d6a45150;0x2616aded4844;0xe56fd415b2ada;0x31dd122a109d2;0x9aa62e29b8e];[0x0;0x8809e13e070d7;0x7655a0d82455c;0x181869ec4ce3e;0x3b8c745717986;0xb4e39baef4ab;0x1ea87aef038c6;0x23f86359e476;0x9e7090a83cd9a;0x678fa06ef0bbc;0x8983fbcbffb];[0x0;0xfb0c65ad72611;0xa07ed313cf27c;0x11a290bc8d99e;0xae63dbf00d9e;0xdb756a7a4c81b;0xa1c0f43290e8a;0xcbdfd77f59185;0x500be4bde7854;0xdfc26fb1eeebf;0x277c2372b30];[0x0;0xf318ddaa278d3;0x4451d02061fd7;0x119c846846e17;0x5a93258d5c765;0xad10ae815e8a7;0x7e88e007843c1;0xdb059a3f1e45f;0xb7690822c6d8d;0x4acf6a7c6bf09;0x49a8fa44a1];[0x0;0xf318ddaa278d3;0x4451d02061fd7;0x119c846846e17;0x5a93258d5c765;0xad10ae815e8a7;0x7e88e007843c1;0xdb059a3f1e45f;0xb7690822c6d8d;0x4acf6a7c6bf09;0x49a8fa44a1];[0x0;0x92001d5dc943d;0xa823060337d47;0x5791fcd651330;0xedfdccd76a216;0xae2e5fa9d29d8;0x42e548403951e;0xbe64481dbc852;0x7af4f723ca568;0xffb5ee7b5d09c;0x15a94d01e3];[0x0;0x7a908c9c91ebd;0x378ffe915b639;0x2a61b35ca1367;0x3381ef1035768;0xfb15b677904fb;0xd07b8f6d0f331;0x90162a825a6c4;0xd6f1ab089b5ec;0x73a34a35b8691;0xfa7bc59ee5];[0x0;0x24c5ba68718f;0x8cfc7a517e746;0xffc9f998bd399;0x584a84fccee5d;0xed137463df283;0x25ba9d5ec7a7e;0x71bd68135f7c4;0x6c4d220116802;0xf948a4d5d1f3;0x7687873aa6];[0x0;0x1944554afd2ff;0x9cd046722c2a8;0x8d52ce9cac33a;0xf6d0697608a4e;0xdb59c6f5ed30f;0x2cf65f19235;0x5b89020225f00;0x5cf1f3d39be36;0x73f4fca2455df;0xf1945c9ea8750];[0x0;0x6fa36cf27ab38;0xea05b89145189;0x1a02dfaaa1899;0x8dd569be02a26;0xad685551ee7d3;0x2d0de144d37da;0xcf0c10f319453;0x2f7f7fcbda836;0xbd287d041a72e;0xdcc03e2ba1a]]);
 ((V [0xb11f8050c5bc0;0xd337f7c1f5b86;0x2526c235a5060;0xbd349fe34829a;0xaf524a2158096;0xfb5eec94aaa38;0x73264d59e7b03;0x12796c686610;0xaa8638b65d5ce;0xf2402e61ea9] [0xfffcd881868ae;0xe2896a0ab69c0;0x816a29167c81a;0xdbde0f0e0a0cf;0xca895ba28dcfc;0x24d0a1fade9bb;0x6f5c0b6310d59;0x903e79b252a44;0x27f17d2708599;0x1b61db54149] [0xb55c0398e6212;0x96cfe5ff01541;0xb581821ad58b8;0x14c29b0815917;0xa9d394729e82d;0x2059fd6f5e3d0;0xa837d6f6aece6;0x8db327f4c4a43;0xc668074098b04;0x4447a479635]),[[0x62d45f1b9406b;0x1d9892962583d;0x82988f6aec4b4;0x9497c761f81a2;0xe8d5f88944a6b;0x9753ae0339a8a;0x3d5c535211e1b;0x920fba4c2b338;0x20f67967d235a;0xe641f96aec9];[0x51031c78a9740;0x9615e5a505fa1;0x85de64340a59a;0x6319e0b730ede;0xb85ab439ed268;0x89c22e473013e;0x592d70bc9fc44;0x824610e43458b;0x15dae631f09d3;0x3864998f1a4];[0xe5668efdcb5b2;0x3d6abcbe634de;0x36a6ff839e292;0x4ee6ca110e142;0xea7849c2779b9;0x1723f39d7fb5b;0x35c6eac834ace;0x1d9da7d083388;0x7c4dec8e064b8;0xf5bfeedd6e6];[0xe5668efdcb5b2;0x3d6abcbe634de;0x36a6ff839e292;0x4ee6ca110e142;0xea7849c2779b9;0x1723f39d7fb5b;0x35c6eac834ace;0x1d9da7d083388;0x7c4dec8e064b8;0xf5bfeedd6e6];[0x508b962b8650;0x9a3d5fdfd46db;0xfdd52ea582728;0x66b09d4f381d7;0x6705edbd400f7;0xbdf1b5b5fa918;0xd4a6fbf16525c;0xc7d408abe81a8;0xe1729aef1768d;0x5c7631e6a3f];[0x4bfa6315f0eb8;0xfbd885c5318c6;0x8809358e87e71;0xfc694367f8d06;0x5154c67cad170;0xcbd0789135826;0x848674cb3a9e7;0xba7208384c3e2;0x34684b42d9345;0xdbee67a8764];[0x0;0x9377207145923;0x9606b1418b768;0xf1893040c4d98;0x84b5ec8626d98;0xced33811550dc;0x17f06b7188e4d;0x7d6465a461e17;0xd54ebeba32645;0x476553f2e205e;0x97f8a57480a];[0x0;0xd2171c2200caa;0x621b08547f3c5;0x8fa66597a42d;0xdb10dc71276ef;0x780a4c14988b;0xc8f24d8da5163;0xd5d1c7db72c27;0x24eb285936a74;0x1b1bfd63e1cf1;0xdd09c5c4eb5];[0x0;0x6fa36cf27ab38;0xea05b89145189;0x1a02dfaaa1899;0x8dd569be02a26;0xad685551ee7d3;0x2d0de144d37da;0xcf0c10f319453;0x2f7f7fcbda836;0xbd287d041a72e;0xdcc03e2ba1a];[0x0;0x6fa36cf27ab38;0xea05b89145189;0x1a02dfaaa1899;0x8dd569be02a26;0xad685551ee7d3;0x2d0de144d37da;0xcf0c10f319453;0x2f7f7fcbda836;0xbd287d041a72e;0xdcc03e2ba1a];[0x0;0xc39464c9c3fcc;0xb425124336079;0x23bd736fd582f;0xe650e530f955f;0x30d79ec936e90;0x418f188848f76;0x218064cff89e;0x53d7f3c5779b1;0x80e073a68ed5b;0xe2419bab3a2];[0x0;0x1bfd147c3e89f;0x81b55eb268584;0xbbb1d5181b7bd;0x2fe8db853b51f;0x5871ea749cec;0xc8ed2cf1dc98a;0x37bcda924c32d;0xae29b3400b857;0xf72c6b7f354ee;0xd7612bb3559];[0x0;0x32b2900b78cc4;0x909e880542ef1;0x7db5d69bb3511;0x68d8723da6d6f;0xbb06353b48b3;0xf6c7ed8adfeb2;0x56be64d914ce4;0xb480cbf7a256b;0xc46d0175dd89f;0x355d3c874ff];[0x0;0x4ab23f3464d67;0xc1d0860b91047;0x3cb45fd12455f;0xd6f74a5e4264f;0x681ca3e6d96ba;0x864e272b7a8b0;0x6513ba81ef99b;0x32e0cb5f2c855;0xbcf7bed9a3076;0x1b773504c7cb2];[0x0;0x4b92f74278a22;0xc0272be6e22d9;0x63e83813794ed;0x67f878b5f907c;0x1d8903d7e3fd8;0xa0a3984aaeee0;0x92e4eccf64fcb;0x7bd4495bab68d;0xcd4ae124db824;0x19e95ec25f0]]);
 ((V [0x54eccb8286167;0x1408cbd51c255;0xf417c9f3658c0;0x139eed764fb3b;0x776622045c7e6;0x7747a2d62b6d4;0xd97012234eade;0xf515a77d5130a;0xa7b57acf14390;0x975d91629b1] [0xf3dfa7505fe90;0xa5089afa5f84f;0x248acd8779535;0xa84b8c560fff4;0x15890a9fdb667;0x305a00b81ba5a;0x7ccde2d60372;0x3afe134d0f22f;0xdae75790c147f;0x57cff90a4cf] [0x4de44828aae73;0xa1864200df8f4;0xa974497e135c1;0xc5014ee1e8d01;0x780a1113149f2;0x7c6a7bce4d9c;0x7fd9721ac33d6;0x50489caab3126;0xf03484d50a240;0xe7922a7c34]),[[0x939c485871d60;0xf4549bad29bf7;0xb334eb2c24205;0xc801d4be8eb23;0x913f19318e0d5;0xcd724d1e2baf0;0xa00e1a83f2220;0x751cc7ce57de0;0xdcb32c170ec6;0xf205a2c3b0f];[0xafd2750397ecb;0x3b31dcd011722;0x8017f9585f417;0xe2ee185432d2f;0x80a6afe272526;0x9d93a02512134;0xe1ce0cefbc75c;0xbc5e76ab6d53a;0x5ae63757e3d3;0x7e5e455c2ec];[0xb55c0398e6212;0x96cfe5ff01541;0xb581821ad58b8;0x14c29b0815917;0xa9d394729e82d;0x2059fd6f5e3d0;0xa837d6f6aece6;0x8db327f4c4a43;0xc668074098b04;0x4447a479635];[0xb55c0398e6212;0x96cfe5ff01541;0xb581821ad58b8;0x14c29b0815917;0xa9d394729e82d;0x2059fd6f5e3d0;0xa837d6f6aece6;0x8db327f4c4a43;0xc668074098b04;0x4447a479635];[0x476c622f1f754;0x873499bbf977;0x8357dbb610550;0x5dbd6180b882e;0xdf7a7e41c3f8f;0x52fad0875c265;0xa01dadc7840f6;0x7d90a1131487e;0xf9e71c8a5fc5b;0xa38e289b1f9];[0x686612d47853f;0x32be933451dab;0xfcc01da24eec7;0x8530b6d37a500;0xa12c31a0ae597;0x4a98cf9db5ece;0x41b05f2838666;0x3ecdd59858cbc;0xbc746eb1e778;0xdad01cc10f2];[0x0;0xc26a5b7e12bc0;0xc247a2b12fef7;0xee2d711a603b4;0x8a33e8a26794b;0x2b73111e6e779;0xd6db6017c6096;0x21788e90cebae;0xf992a254cdb8a;0xc80a77d02d970;0x2a3962920b1];[0x0;0x89c6842606263;0x6f590530771bf;0xa8ea66402dddc;0xee4784d6f5193;0xd125548d5ff7f;0x6e48cc0c27c43;0xacc170aedc09c;0x39cd6200a66e4;0x4e22597c21ce2;0x408d3a4a7e2];[0x0;0x4b92f74278a22;0xc0272be6e22d9;0x63e83813794ed;0x67f878b5f907c;0x1d8903d7e3fd8;0xa0a3984aaeee0;0x92e4eccf64fcb;0x7bd4495bab68d;0xcd4ae124db824;0x19e95ec25f0];[0x0;0x4b92f74278a22;0xc0272be6e22d9;0x63e83813794ed;0x67f878b5f907c;0x1d8903d7e3fd8;0xa0a3984aaeee0;0x92e4eccf64fcb;0x7bd4495bab68d;0xcd4ae124db824;0x19e95ec25f0];[0x0;0xa862d3d65e990;0xc57aaa67a5e93;0x73d01496fabe2;0x880f27d37a85f;0xc95d508e18fa;0xc6235dbbd7362;0x3829b1fde3b0c;0x305f28d0e73db;0x774a37dae96d3;0x2edc9abadf];[0x0;0x10fa53510d337;0x2af4e8423d06a;0xbc6e8ab1200f1;0x3187c028e347;0xb02929f53aa18;0x86d6a6fe36322;0xda8df5871575c;0x9e8e2a6e6ec17;0x909739a08b5f1;0xe53d67c858e];[0x0;0x72547ceefd490;0x799f7e4f09402;0x6f1c7d1d77b5f;0x4b4b48bdf52c2;0xb7846f46868b0;0x502c8643e8007;0x6f0299be75340;0x300eecb5f966;0x5bb817cca5da;0x4ab7caeca40];[0x0;0x41241568af6ec;0x2b4abfd042a02;0xcf4dfa64f6199;0xb4d03595fbff6;0x23ff740b36219;0x977ab581627ef;0xfc2986cf17c00;0x1e71cfb0a97d4;0x8628de2474d19;0x57fc70509c1a1];[0x0;0x894570f3e2a9b;0xbdbe43452dd2a;0x83b509a937bf5;0xeeb9bcb42fc41;0xac6a6355147f7;0xc799c83734cda;0xef4725b1a5bb3;0x1729b659d25ee;0x7c6d45b51e92f;0x33ebc4512b0]]);
 ((V [0x22c12d161752d;0x84e86f6dad487;0x12adf6b7d664;0x977f059aac326;0x9e036d3b65497;0x655357f58e8a0;0x4ffe9a91bb86d;0xf44d9137806bf;0x72b373c57a34;0xd430fe5e7f9] [0xc8076851c25fb;0x28f1b38d7fec8;0xeed7b57698565;0x1e2a0bf741581;0xe80cbbf7be7c7;0xe4ae255c5b050;0x31b33cb07a5e9;0x92bcf03453468;0x92d9f46294057;0xaf1010855fb] [0x4c9398e89ff75;0x1433b1c242a78;0x5c6a8c64fcb60;0xd760747e8ca92;0xa38ade362cc28;0xcc7dadc28a085;0x6900d1a9841da;0xf5c20d6205a82;0x6f79df000b723;0x5fcc618ca59]),[[0x83ab6d2c05e94;0xed3c7e624ecb5;0xbfb057df0fdb6;0x8e64b9ba1dcef;0xee8e77d9506f5;0x43879f525ebf;0x5d04d3c02542a;0x2e8660402c380;0x2f7607cf9d3aa;0xa8dfaf426d];[0x700b1a9f117e0;0x57c68cb42ec5e;0x6fc7a18665caf;0x88bb2d46d0302;0x30f29a4d843bd;0xe49451c467575;0xc83978acd5dfc;0x2b847c316c508;0x1126cd957d4ba;0x1edaf91f681];[0x4de44828aae73;0xa1864200df8f4;0xa974497e135c1;0xc5014ee1e8d01;0x780a1113149f2;0x7c6a7bce4d9c;0x7fd9721ac33d6;0x50489caab3126;0xf03484d50a240;0xe7922a7c34];[0x4de44828aae73;0xa1864200df8f4;0xa974497e135c1;0xc5014ee1e8d01;0x780a1113149f2;0x7c6a7bce4d9c;0x7fd9721ac33d6;0x50489caab3126;0xf03484d50a240;0xe7922a7c34];[0xb6b1108df591;0x3695a78ec0d58;0xa645c5fda3277;0xb23251b1bbe5e;0xbfec78932f7e6;0x75c6d0e26b9f2;0x1cbadc4130bd2;0x884dce44d1180;0xb56b0ce4cdd19;0xbaf733bcb41];[0x64a0099632017;0x2130e5256df06;0xc981db88c2a38;0xd688db95144a3;0x710621ba54bd6;0x6ecd80e1fbb82;0xab7e9c6ba522a;0xa336adec9b388;0x5bbbc0b0af7a0;0x63e3c562b3f];[0x0;0x44774f50058c4;0x1f9b377aba558;0xe511fd0db688c;0x4dcfe94b4b494;0x356dfd1508226;0xf944112fb8a76;0x627f91331e67d;0x3996daf912c3b;0xb8165708ba660;0x8f3400f283];[0x0;0xcd0949903ce84;0x7054237a32d9e;0xa4042142ff8bf;0x10d1915b4c80c;0x3972354a85a59;0xe657c256885a7;0xcd758d7dda099;0xa4dbc7a7324fe;0x66dc69be51265;0x98c242bd8];[0x0;0x894570f3e2a9b;0xbdbe43452dd2a;0x83b509a937bf5;0xeeb9bcb42fc41;0xac6a6355147f7;0xc799c83734cda;0xef4725b1a5bb3;0x1729b659d25ee;0x7c6d45b51e92f;0x33ebc4512b0];[0x0;0x894570f3e2a9b;0xbdbe43452dd2a;0x83b509a937bf5;0xeeb9bcb42fc41;0xac6a6355147f7;0xc799c83734cda;0xef4725b1a5bb3;0x1729b659d25ee;0x7c6d45b51e92f;0x33ebc4512b0];[0x0;0xb70372a851519;0xa2b22325ad7e3;0x2f12fcaf0128a;0x608287f7e112;0x23818dcdddc54;0x3dcf7ed9d5ea3;0x5844d6f99f081;0x9f9f8734ccf33;0x1f9039299b916;0x1e1f0439b14];[0x0;0x85a14740e75d6;0x553ea0b474134;0x5eea587fdb180;0x14a608f12eb04;0x642ff4c491484;0xe06c91bba519a;0xb7dcc7e95aaee;0x445c34f9cd1ce;0xec86e29b11a23;0x597f83b5472];[0x0;0x8a83260616c21;0x3bb364e0ac629;0x7c4ae98da8cdf;0x8af78714236ee;0xfc672eda5f2a9;0x8610f2deaa2cd;0x59bd98daeffac;0x4b044341ad323;0x653d4993d9a70;0x19933e055f0];[0x0;0x437d40a448d11;0x4baa35d00388e;0xa9db62ad8e5a7;0x52ae04e2aaf3e;0xc9f650a337699;0x2ad0a42c6dedf;0x6ab5cd327287a;0x3756f6631dadb;0xda8395e72f4f4;0xafaa06f5eb4be];[0x0;0xba421d94cfe06;0xe79180fa21116;0xa78ec201df6ff;0x7a522ad2940b2;0xe4df5e2e2079a;0x836f5ddc243b0;0xa81cae87c248;0xd7f45e6a45735;0xd721ea97f0325;0x911acea41bc]]);
 ((V [0x7a08985639778;0xba82799729bf5;0xe7c1742d5def6;0xbcf5e43afabb;0x789449383e306;0xc7d26e0653e0a;0xf9d837fdb0857;0xad57fe1b1447d;0xdb19e335ce8ad;0x85a7adbd98] [0xa644e4c1db07b;0xfcce3f136e5a5;0xae56e4af27024;0x1789cda79da37;0x9c5c6a3fca60;0x5911128c2e87a;0xeaf63979c99b9;0x94474776ffe37;0xc8d294ea518a2;0xe0668dd2b65] [0xc29503c337038;0xd79958bad82a8;0xa87df9c421a43;0xc1d520820e4c0;0x2ee8c69ae1f98;0xb2954a81fbd84;0x94fff4c96e202;0xa22dea12af597;0x93d800b27298c;0x42a9b452e4e]),[[0x9ca3c425f12fa;0x20b1c1554beb3;0x31d63c434ad98;0x4354b628ffc8b;0x638c21586b2ac;0x1e69a5a6e69d8;0x5a4b4ab6a68d9;0xd343c9c2fbb5a;0xc22ae3b9d8ea3;0xf3f438e2820];[0x819d94c9f6a9;0x2264f7f93c16b;0x7f3d23ebfa036;0x9f1013eea626d;0x6dba5203a8ac0;0xb81fe3734a8eb;0xcb1cbdd4cd962;0x5dcec7cbe0330;0x5114ff24a5fbf;0x99e138417fa];[0x4c9398e89ff75;0x1433b1c242a78;0x5c6a8c64fcb60;0xd760747e8ca92;0xa38ade362cc28;0xcc7dadc28a085;0x6900d1a9841da;0xf5c20d6205a82;0x6f79df000b723;0x5fcc618ca59];[0x4c9398e89ff75;0x1433b1c242a78;0x5c6a8c64fcb60;0xd760747e8ca92;0xa38ade362cc28;0xcc7dadc28a085;0x6900d1a9841da;0xf5c20d6205a82;0x6f79df000b723;0x5fcc618ca59];[0xf5c9d22854cde;0x572f976787ff4;0x4923803f81587;0x8149b11c2e6d9;0x7fde3a8d89aeb;0x35a0fca79e4fc;0x22ce442fe9507;0x9d7eb3d2611c7;0xfd9e3de9e1f91;0x1f0fd4353b4];[0x125007244a9cc;0xcb356091b4176;0x3619a3ac78aae;0x1dc662d277b94;0xeddc17761efd5;0x827ee6cbac3ee;0xa84e79a4e445b;0xc05013f97f169;0x5376c13ac402d;0x7ad1640c445];[0x0;0x12a084d5068ba;0xa65c2f21818a;0x434e374f49f43;0xdf22ac0548971;0x897c05bab292c;0x70634fcbe04f0;0xb29e2cca89336;0x1834c7c3c95b0;0xe7fa891b90293;0x3b3dd7488c5];[0x0;0x90bd36926fb9f;0x359c4c624e2b3;0x2e026c946327d;0xfe7d59d7bbfad;0x9c5d44d98a300;0x1a64c3e784a11;0xf4988ad33994d;0xbbe2adf98efa;0xb576a79a70d10;0x5b4a64aef3a];[0x0;0xba421d94cfe06;0xe79180fa21116;0xa78ec201df6ff;0x7a522ad2940b2;0xe4df5e2e2079a;0x836f5ddc243b0;0xa81cae87c248;0xd7f45e6a45735;0xd721ea97f0325;0x911acea41bc];[0x0;0xba421d94cfe06;0xe79180fa21116;0xa78ec201df6ff;0x7a522ad2940b2;0xe4df5e2e2079a;0x836f5ddc243b0;0xa81cae87c248;0xd7f45e6a45735;0xd721ea97f0325;0x911acea41bc];[0x0;0x38536bcf68aed;0xb3e49d2798625;0xa59d4ec643c8;0x3394da7219757;0x9cc671256c148;0xcd405676566e4;0xc6530e96145fc;0x2dfdc7e5f4e8;0xc14f935bd7133;0x77b6f7986a9];[0x0;0x733415910e2fb;0xc4a20cecb36e9;0x5c9091d6f18c9;0x4d436acb2a18b;0xdf9231a2d6ce7;0x50dbd46c6a814;0xef85169c11dc0;0xb6276798b7f69;0x6bc28cc4b7549;0xafe12eace37];[0x0;0x465bf07701b0a;0xa4250233b0e25;0xfed0ed448f88;0xcace5032d9dee;0xdb25fec48857a;0xa10bb3e3cf84c;0x8d846fcf31aaf;0x561139596f548;0x373eec32f5c46;0x5056cc94e4];[0x0;0x6e93b70eef694;0x3c4891678b6ed;0xd6440b17525d1;0x8eaebbf76f576;0xd082bc1c2c947;0x3aee6b456fa2c;0x8a4e74fa3f59;0x127e618797944;0x672bbd153b63d;0xe0c011aa53a4c];[0x0;0xaa984995f3610;0x5fada36e4f1a8;0x2836931db11ef;0x21c54f53928c;0x98c9b01aa738;0xd2abcc1b8f288;0x85a86de663692;0x20bc1032e12b2;0xbe18255703c76;0x752842e07c]]);
 ((V [0x30350537bd32;0x408405a601a07;0x45d78cf9618df;0x37a88ebe28946;0x51eb338dbea;0xdb7ee76f905dd;0xf779f49a64fe6;0x238136dc600a5;0x21a650198f26f;0xf230ecba659] [0x29cc853b8fca9;0x2f235ef02ed35;0x97838522dd685;0xaf8a3481922e4;0xce2b05f34db64;0xd0c9b898b280;0x2ba9afe0ba465;0x9a4b39ee22db0;0x28e054e29bc9f;0xb88eeb439b5] [0x72cd0218014b6;0x9babb100a65e3;0xe3e0cc4fdf544;0x6983a8a9c959e;0x8adeb10e58f8e;0x2120919c19599;0xc11a4a1b938bf;0xdd146e31d8d2f;0xf354a4097ead2;0xb62afb36f4e]),[[0x3b29154b46b0e;0xe433fdcdc6005;0xd936b293d49c9;0x4a7462505a9c6;0x3a1461b58f084;0xfb7c6857f4605;0xb24c0613bb5c0;0x2b5433b5fe4a7;0xc9e66cb2de63c;0x19fe44fcfc5];[0x59b095e1ebd1;0x897b1bd07757b;0x82e50d010e066;0x7f6e9dfc376e4;0x15ffd39a69545;0xf282eca4a4e52;0xbfd4401dd3a11;0xa74af5ca156de;0xca9b549dfe09c;0x7f673fab82f];[0xc29503c337038;0xd79958bad82a8;0xa87df9c421a43;0xc1d520820e4c0;0x2ee8c69ae1f98;0xb2954a81fbd84;0x94fff4c96e202;0xa22dea12af597;0x93d800b27298c;0x42a9b452e4e];[0xc29503c337038;0xd79958bad82a8;0xa87df9c421a43;0xc1d520820e4c0;0x2ee8c69ae1f98;0xb2954a81fbd84;0x94fff4c96e202;0xa22dea12af597;0x93d800b27298c;0x42a9b452e4e];[0x75252d60ed090;0x8501c0a20c520;0x5de6e6ae12030;0xde66f587e6307;0x9bc48ed7cb5c0;0x271c45270fedc;0x1d2c10c8489fd;0xf452e299e174e;0x63ac1474afee7;0x9149db1e4ee];[0x9075dbfd31909;0x4795b2e6b05a;0x24fe2652fc036;0xa107a874513dd;0x7a3b44c29df84;0xcb66a77d94f75;0xa2a82f558b014;0xb2f8133033f90;0x66ef40294e1b4;0xee1d648d341];[0x0;0x96c77a14df5fe;0xa575a58e7617d;0x566a9421c5cc4;0x7e3062240727a;0xd8c867bb87de6;0x32deda072df40;0x7faf10779ed24;0x90787175c5d0e;0xaddf307fdf39;0x29396805ea9];[0x0;0xd2b1fb025b2c9;0x9ad77b50fb420;0xc35d2c27dca92;0x9264da1d6b2e7;0xfa36651f482cb;0x9f8c3a65e0e89;0x79c1f40f1a30a;0x36001a19bb847;0x49891b901d55d;0x6c4c8f3f74];[0x0;0xaa984995f3610;0x5fada36e4f1a8;0x2836931db11ef;0x21c54f53928c;0x98c9b01aa738;0xd2abcc1b8f288;0x85a86de663692;0x20bc1032e12b2;0xbe18255703c76;0x752842e07c];[0x0;0xaa984995f3610;0x5fada36e4f1a8;0x2836931db11ef;0x21c54f53928c;0x98c9b01aa738;0xd2abcc1b8f288;0x85a86de663692;0x20bc1032e12b2;0xbe18255703c76;0x752842e07c];[0x0;0xfb8eef79b752f;0xca5312478f820;0x1d559104b32cd;0x83a34c2b6b67a;0xaade86b231153;0x480455069206;0x9d6b8108e7137;0x886434ec022a4;0xd131a6bca693f;0xc4b3a146119];[0x0;0xbdb3b4c498311;0xa65626c23322d;0xf5ef8fd5c316d;0x8c917b1e073bc;0xd35a502cd648d;0xaa23d47b01ce6;0x86702a95ea9d1;0x3a433fb778faf;0x41ae3c50c1f0a;0x45c7a85b2];[0x0;0xef088b60d12cc;0x58403491af258;0xb7780e169eab8;0xf6e7c3f7f3dbb;0x1f7af290d104c;0xc6c02a1205b14;0x6008b9971ebb9;0x4cab95aca7e15;0xe394f05575c5a;0x7887f35c043];[0x0;0x6c091a8fcbb37;0x3d3eb189a5728;0x209753c563ea5;0xd4d5bedcb60d1;0xed99f842a3059;0x81669c26686b9;0x87d7db4aac0b3;0x53afccc2be09b;0x39cc4a9da17d8;0xb8eba0d8c0e9d];[0x0;0xb963f9881c54;0x6505be00c01cf;0x4a3579183e197;0xc5d7aacb4b30c;0x87e7d817833e5;0x6fdde07e965a8;0xa699bc4b6b77b;0x708ffec498acb;0x42365c80ed929;0xae9a5fdc277]]);
 ((V [0x17cd6fa3636ef;0x152f86e4a9d62;0x579a1fb8e3290;0x46c98a11d1054;0x9f172805b6544;0xd7f3ca81edca0;0x488d6f49d078c;0x392580f831a76;0x3dff3071d5055;0x5b662c57ce3] [0x1895b722fa2a9;0xf41481a8d6f54;0x581e88c2d6d48;0x134b508799240;0x51a3e3c5cfa71;0x9063eff4cb0d2;0x99c20692fb0e5;0x7e8e20d795423;0x6c6603945279e;0x148590fc3c0] [0x3479f25ce99cd;0x30b9310ccdebd;0x25efe6646494e;0xdf2df9ef4ff9b;0xbe12519ac075b;0xc641ba605b28f;0x62140564480a6;0x16aad70a94630;0x9c8caaa47c36c;0x7c6bd12cabb]),[[0x50c884fe74b66;0x5faf3229dc2b7;0x5ba8a870f25;0xf22b1df6e5373;0xd9f933b4d6f27;0xfe98b1880dad2;0x2df460569897e;0x699a7f5a42820;0xfb5504b3929f2;0x9bb1ca64966];[0xcd9a1f670a907;0x7a45f3bd27ad9;0xe50b2c81d40b5;0x7a93a1202db15;0x7330350d518f7;0x2c8f57704de47;0xd0f6269617209;0x698d8e15431dd;0xb1c9aa4559b3d;0xa06761d3197];[0x72cd0218014b6;0x9babb100a65e3;0xe3e0cc4fdf544;0x6983a8a9c959e;0x8adeb10e58f8e;0x2120919c19599;0xc11a4a1b938bf;0xdd146e31d8d2f;0xf354a4097ead2;0xb62afb36f4e];[0x72cd0218014b6;0x9babb100a65e3;0xe3e0cc4fdf544;0x6983a8a9c959e;0x8adeb10e58f8e;0x2120919c19599;0xc11a4a1b938bf;0xdd146e31d8d2f;0xf354a4097ead2;0xb62afb36f4e];[0x27283463f1b82;0x57422d123a5d2;0xb5036247377d9;0x68fb7a9c551df;0xf1221a28ab381;0x541dceacc0c6c;0x9c040002e3a9c;0xf757624c956a9;0x9086aaf9437e5;0xcdba16bb294];[0xa671eb0318b4d;0x2303c6aaed507;0x3007ca3a9c8dc;0x11982683d8936;0x820e1ae4a6576;0xd87188c38d1da;0x34f226933376c;0x72362bc8adb34;0x2142ff4c16357;0xd2ad4b17f03];[0x0;0x70d8f899490b6;0xc5e3eed4c85d1;0x6631dadc80741;0x5ffb76d675e1a;0x832a083b5b712;0x44184f77ef0da;0xba1fda780f57b;0x6014d2df24aad;0x5147cdec9d1bf;0x70a700e0aef];[0x0;0xf5ecf8461ae9b;0x44b979009d0f0;0xd141705a719f8;0xca8c2cb56bc94;0x30e50e7223dec;0x29f71139a9eb5;0x115c1010ddf7;0xd5c2f9907fd92;0xc5a3ee1dc0a7f;0x6eca89d7755];[0x0;0xb963f9881c54;0x6505be00c01cf;0x4a3579183e197;0xc5d7aacb4b30c;0x87e7d817833e5;0x6fdde07e965a8;0xa699bc4b6b77b;0x708ffec498acb;0x42365c80ed929;0xae9a5fdc277];[0x0;0xb963f9881c54;0x6505be00c01cf;0x4a3579183e197;0xc5d7aacb4b30c;0x87e7d817833e5;0x6fdde07e965a8;0xa699bc4b6b77b;0x708ffec498acb;0x42365c80ed929;0xae9a5fdc277];[0x0;0xd2a8b10c1f79;0xaeb89e4220e3;0x80193a7094a2;0x7ea3e78eeb090;0x94f211531c00a;0xd7c2dfe59fe69;0x905c98f35e5ff;0xefd78f8403dad;0xc2cc16a6fdc53;0x850dc1fb067];[0x0;0xd5ef8c083c5d1;0xcb78af7ae84de;0x5652b1a791b3b;0x7ccdba11867c;0xee0a847f68f38;0xf0e9f07ebde45;0xa8b0731855ed4;0x2b3bfd1099da8;0x683adfe2af5a3;0xe52088ea08d];[0x0;0xf3c65f5c7294;0x36c0c3eeff9e9;0x77563ed39252;0xf1904062738bd;0xb35adb8f0ce19;0x7c563bdc4d2a0;0x3382353f20cdb;0x5ee6642605b3f;0x122f9e02649ee;0x3944c4bfcd5];[0x0;0x36896e654892b;0x72d001858a7c5;0x8eb0f0ed2fec5;0xe51f3efd7b68e;0x37de243cb16c6;0x4a68b0fcad2ca;0x558f74830947;0x8feeb6ae2dc1f;0xbc79f32bbceea;0x148d3ac905bfb];[0x0;0x2f6213dca036;0xe6078fad1f7d9;0x5ca44f3db9199;0x857ca4865aa4;0x813bdc0f034e9;0x60348e4da675d;0x86e99bbd97780;0x3263866d22dc8;0xd967b7e4c1c69;0x753ab4f6ca]]);
 ((V [0xb8e4a65dec8b9;0xe53ac8e41bb24;0x766c73628eae3;0x683c932c5b27;0xf3db59d1c7f62;0x6b12ac2e51cbf;0xb5f31d27a0351;0x544d3fa1336c2;0x977f4e7fd6640;0x778add1fed2] [0xb9641f8f18f92;0xc807c9116cfc4;0x17d6c82f14e90;0x92c1a796bf4f2;0x3e4ec5304393c;0xc932b094903ff;0x2d9e2868184f6;0x6991d7400d087;0xe5593729bc2a3;0x5d8b2193b92] [0xd753f918b7a8e;0x3ae2fc3499c79;0x163375ef77756;0x921e04ec764dd;0x5e945ffb26b6e;0x6161ec72258e1;0x4c29c552ac831;0x6f55ec65877eb;0x53e008e1d2ee6;0xbf7daa7ad6b]),[[0x20e0f725bd406;0x64764e83f657a;0xfbe3d6b30bc87;0xe3e6d5e82abe7;0x40fdfcc62f34f;0x8935676d584bc;0x5765a8b3a54b4;0xc1e90d2864513;0x30caed947a2b9;0x1e04d649e5c];[0x621d6ca3a2e90;0x3d6625584945c;0xb7cc61b1b1674;0x8fc4eaff4643e;0xff075c7a3d4fe;0x675dbb1b98ad1;0x74e4e18514c3e;0x6e3ba8f056bc4;0x8627c42323468;0x88e36f4603b];[0x3479f25ce99cd;0x30b9310ccdebd;0x25efe6646494e;0xdf2df9ef4ff9b;0xbe12519ac075b;0xc641ba605b28f;0x62140564480a6;0x16aad70a94630;0x9c8caaa47c36c;0x7c6bd12cabb];[0x3479f25ce99cd;0x30b9310ccdebd;0x25efe6646494e;0xdf2df9ef4ff9b;0xbe12519ac075b;0xc641ba605b28f;0x62140564480a6;0x16aad70a94630;0x9c8caaa47c36c;0x7c6bd12cabb];[0x9fa3bbdd9de2d;0x6dcd2886a974a;0xe9875c3543b9f;0x7ffcf9fa7e98b;0x219e8746f5615;0x88d6a8289a7de;0xd0a7ffd86f012;0x14fdfa93ed841;0xfd3c5c8a609fe;0xae64983055d];[0xc279b0c604e2b;0xcf98fcd19fd11;0xce45057c6dad4;0xfc7f104c7ab2;0xdd68d53347ee9;0xde8712f2fe2f3;0xa43ce1aca5c2b;0x593dae5c69382;0x88eb6798c2a6a;0xda7ed715add];[0x0;0x92a674b4eb2a6;0x7757bf908e2ca;0xd8bbf325346b2;0x3b6de3d768333;0x9dcf5533223a8;0xa8f698971ecd2;0x55486beec6c02;0xedb0945b664d5;0x2b85d7562f503;0x4cf11dd6557];[0x0;0x462f2d5fe5d2;0x4084467811724;0xcff92a34d382c;0x289c2344822cd;0xfcf70a3047e8a;0xbbafd5f072990;0x1756698a9069;0x52086bbfd4cb6;0x7b0207c4736ff;0xe96fc588c1];[0x0;0x2f6213dca036;0xe6078fad1f7d9;0x5ca44f3db9199;0x857ca4865aa4;0x813bdc0f034e9;0x60348e4da675d;0x86e99bbd97780;0x3263866d22dc8;0xd967b7e4c1c69;0x753ab4f6ca];[0x0;0x2f6213dca036;0xe6078fad1f7d9;0x5ca44f3db9199;0x857ca4865aa4;0x813bdc0f034e9;0x60348e4da675d;0x86e99bbd97780;0x3263866d22dc8;0xd967b7e4c1c69;0x753ab4f6ca];[0x0;0xb88c538482f7c;0xd9f0afeb92fcd;0x4365d0292551f;0x783b9f5eb987;0xf41cdabcbfde7;0x65ecdd910901c;0xf2cefe0833114;0x7c4219cafccde;0x42a1703844b15;0x1a52457619];[0x0;0xefbc2d746b5a;0x81ed92f726d0;0x8b3b0f75dc764;0x1cc8bef5e92aa;0x206e78ceb85aa;0x8f9c138b3a3;0x63b4c875d4819;0xa2456937b2a24;0xf7f8cdf0dcb07;0x20a1cc4dca3];[0x0;0xd2dee22b17759;0xdb957ed26ce11;0x4770b81a4fe11;0xe5f9bb40d4c64;0xc79e09f0334e;0xb14f88453e98c;0xdbaeb7664a57c;0x616311489aff6;0x35c72cb4ed6a3;0x3febf990f0e];[0x0;0x461a85e14d3a1;0x4776f7eb298bc;0xebf597750706c;0x45c3b8e23e189;0x587c3e3e52fac;0x76abe7a460f2b;0x6653e70ba44dc;0xf8b37cae6d936;0xfda68962f05ca;0x5db6a7b06ebe2];[0x0;0xf36bcdb098a6c;0x46148d452e3b2;0x32bcf116cd2b4;0xe24630e799829;0xed606c3c6bae6;0x1644728a2a9e6;0x939826709078b;0xe5c3f463ae794;0x4e9b5655432eb;0x2bae6a688b3]]);
 ((V [0xb1791fb50c115;0x14a057dac9910;0xb11d8bd77a0c0;0xfb0ade7fb75cb;0x83f6620e26248;0xa19547e87b33;0x958c0ea44bd3b;0xc469264f8f649;0xd99088c8439d3;0x19de67d8ad2] [0xd917fd415703f;0xa2e2c22f6007c;0x224651992fc79;0x7c70f60cee2cf;0xbb02d3fd21ba9;0xbf0f7a6c3fb7a;0xdf53da644bd19;0xb5823f6a186fc;0x492cba431820;0x41d1366f16e] [0xf3d270202fcfc;0xd473f5bbcebf2;0x73c2deafab4de;0xea1457db79b06;0x71666a8f0fbb9;0xe6358851e239b;0x6fb1e7ee01cee;0x3762892a59ef0;0xa53c4ef20c78d;0xc037a69e84b]),[[0xea32fd0d96d8e;0xe867f1cf1e2e7;0x4b7a513b1b8fb;0xce8734b2023e1;0x27b564b7b001a;0xb1a8aa7f0fd0c;0x4062e1787632a;0x97931cbf6882b;0xc2e56d770bf63;0x1bac7d571e7];[0xf09596179b21e;0x1c6e28d185888;0x43ea3cf4b735a;0x378f3736a2a38;0x1214bd6494a2e;0x238678087a986;0x25880ad0c87e9;0xb1bdb81d9a440;0x3bae5a0da4a69;0x7e3450d2479];[0xd753f918b7a8e;0x3ae2fc3499c79;0x163375ef77756;0x921e04ec764dd;0x5e945ffb26b6e;0x6161ec72258e1;0x4c29c552ac831;0x6f55ec65877eb;0x53e008e1d2ee6;0xbf7daa7ad6b];[0xd753f918b7a8e;0x3ae2fc3499c79;0x163375ef77756;0x921e04ec764dd;0x5e945ffb26b6e;0x6161ec72258e1;0x4c29c552ac831;0x6f55ec65877eb;0x53e008e1d2ee6;0xbf7daa7ad6b];[0xe71c72aeace84;0x3a59790df76d6;0xd3ba32626e97e;0xb08ce3432e2c8;0x9593bbac304b9;0xdc0c89e67bb7d;0x309c14cf62637;0x4a61e9966bea8;0xbaa32fac999ae;0x40e719f34cc];[0x9792368ee39b;0xe214afc38e1b2;0x70300a92489db;0x870253f37476f;0x7c8101b864574;0x4779ee21fee08;0xf4ebf601661b1;0x675bce872e597;0x810b2a610b0bb;0x3d4d36defac];[0x0;0x1e8c49b61bc9e;0x1468a445c65d;0x148220229127d;0x26353ce64d9a2;0x7086166c63cf;0xf59efe4786d5f;0x8ad283142fef4;0x9cda78261dfdf;0x16155a9fc6ad6;0x766aecf8cd3];[0x0;0xf282fccb6042a;0x9a4b3cd46c5b7;0xf9c56fffb02f3;0xe56d4eea80999;0x9c8e0ef210adf;0xcbbe19342821b;0x82509ae42b29;0x289165f926bc3;0xde767b0e45c5a;0x14b3472b05e];[0x0;0xf36bcdb098a6c;0x46148d452e3b2;0x32bcf116cd2b4;0xe24630e799829;0xed606c3c6bae6;0x1644728a2a9e6;0x939826709078b;0xe5c3f463ae794;0x4e9b5655432eb;0x2bae6a688b3];[0x0;0xf36bcdb098a6c;0x46148d452e3b2;0x32bcf116cd2b4;0xe24630e799829;0xed606c3c6bae6;0x1644728a2a9e6;0x939826709078b;0xe5c3f463ae794;0x4e9b5655432eb;0x2bae6a688b3];[0x0;0xd80e9be9c5940;0xc7c9cb133745e;0x6d70e7766d97c;0xaff87eed36af8;0x40d12adeb4ad3;0xe50d53716f551;0xef300ae3aab31;0xd875d1f982c1d;0xe2d7a329deb83;0x222e6202cf5];[0x0;0x5aa6970b3353a;0x140911e2344b2;0x87f431e05fe1e;0xffa7b8adb3263;0x4849d053abc10;0xaf5c033a96504;0x7af356b885756;0xd7d7a208c133c;0x861afe89566f0;0x37d264e6d3e];[0x0;0xb3ead6ac7d219;0x6fb1d56c66d83;0x2c805b0a37aa2;0xf38f90263dd78;0x6b49d4cc45113;0xad5a604f8449a;0xc43666e64564f;0xad07de05d1808;0x20d71f3a4d55;0xcc0c0747d6];[0x0;0x24d88dffd2eaa;0x6c0140e68cd5d;0x5b20835666436;0x559a8229cc61f;0x44ab92e69379c;0x63c9394697a96;0x868541bdf70b5;0x2deba165155e1;0xe0cc5258ebc0c;0x41f2953974ca4];[0x0;0x8f407d589b59;0x3002fe840fa01;0xa08d4383596a;0xfcea6e696f695;0xd6c8f40e7a07d;0x282112ae745de;0x70c1612d41cfb;0xf7bb013e0b64a;0x4787c3dd7e7bf;0x6a69c70ef8]]);
 ((V [0x7e5c8fdff9da8;0xa7110c9b32600;0x43c4c0ef08a39;0x9f943b499cb0c;0xbc44b950a569c;0xbfa700a2c71be;0x327140f8f7c24;0x3d66434494149;0xfdf0b2fddba00;0x8e2bdb76cbc] [0x512ae6fff6b2d;0xfcf00d542a7a7;0x3db88e02e1048;0xa87f2d3aeeea0;0x5889a4ec264c6;0xa43fc1f96cb0e;0x40d1071dba90b;0x655d4c718af54;0xc0ccbb17320bf;0xcbe734c5e9] [0xcd974a1b519bc;0x79d0e0fc2c8c;0xf1a42d9987e51;0x7986996293a86;0x2ca7c92e6f86d;0x5d4a6a734707b;0x94c34f7636434;0x1c63e69937f8c;0x8d9f2241de264;0x811cefef9e2]),[[0xd2e2e98076940;0xd9724f3d09510;0x6ebe14b2924f9;0x4c06e7ff9baa9;0x65162ea1e3fc8;0x4ad7b0959df4d;0xfd84f32ac8c77;0x7d49b227e14a7;0x4a582ab8bcbb4;0x9a987fe54bd];[0x4d032dcd797be;0xf535b10cd1777;0x690f6cae8ecd9;0xb831e7ef1725a;0x74694d1f6d375;0x2d7bfa319160c;0xca9fd3cf25ddd;0xd971ca519daed;0x88330093b5e80;0xba2ac5619cb];[0xf3d270202fcfc;0xd473f5bbcebf2;0x73c2deafab4de;0xea1457db79b06;0x71666a8f0fbb9;0xe6358851e239b;0x6fb1e7ee01cee;0x3762892a59ef0;0xa53c4ef20c78d;0xc037a69e84b];[0xf3d270202fcfc;0xd473f5bbcebf2;0x73c2deafab4de;0xea1457db79b06;0x71666a8f0fbb9;0xe6358851e239b;0x6fb1e7ee01cee;0x3762892a59ef0;0xa53c4ef20c78d;0xc037a69e84b];[0x51e740fccf519;0x8a1320ec594dd;0x3cd832b5e3040;0x71aee32564a3c;0x6d67a9a466b70;0x75761f06c656a;0x96927737880a8;0x84ce97e2880ec;0x8aab2005ebfb2;0x901262b0d42];[0xfb1becd0aa2a6;0x6b22902078299;0x2c3739f8abc99;0x468304c9b281e;0x701a37b06805;0xb805db2acb0a2;0x340d5c979dd34;0x54a3326f15a01;0xfd87e08dc9ece;0x2a1862b0c88];[0x0;0xa1ada2008a280;0x9c147bcf17b9d;0xccab5927da2a3;0x25b1d612fa547;0xa06d056ec923a;0xfd52a66b83ea5;0x935019f82bb;0x3a3e0df576b8;0xb2744bdb2568d;0x76ddf03f97e];[0x0;0x8a1a91234aae;0x609fcca02f8cd;0x7c2e416c7ce4f;0xf20e1ad58c9df;0x32808793d79bf;0x416d14fcd9a5b;0xffe02a85ab0be;0x2b4ab66230780;0x78cd7c6a0c1a7;0x7413fb4e105];[0x0;0x8f407d589b59;0x3002fe840fa01;0xa08d4383596a;0xfcea6e696f695;0xd6c8f40e7a07d;0x282112ae745de;0x70c1612d41cfb;0xf7bb013e0b64a;0x4787c3dd7e7bf;0x6a69c70ef8];[0x0;0x8f407d589b59;0x3002fe840fa01;0xa08d4383596a;0xfcea6e696f695;0xd6c8f40e7a07d;0x282112ae745de;0x70c1612d41cfb;0xf7bb013e0b64a;0x4787c3dd7e7bf;0x6a69c70ef8];[0x0;0x867ded0cf1258;0xcf1e57e1ba0f2;0x647f6df9c3f61;0x128d72bf9fce7;0xa5f47c5f1d8a0;0xe003c4eb53346;0x7b23d89df1246;0xa925436a7020f;0x44d3ba907d83f;0x10ebe89e569];[0x0;0xdc64b85cb0a55;0x4ae422bf0030d;0x74a6b625f49d9;0x9086f3a607562;0xef76b169dfd99;0xdc6d06db06728;0x5e7d2df2b805;0xe3b68225b8afd;0xf55b879835113;0x29d318097b];[0x0;0x605f2ddecea0;0xe7f804bb8a4be;0x3f5400f7dffb7;0xfbb5fba9ecfcc;0xb74b7f6e451a6;0x1fe1dc56af445;0x22c3eba9601d5;0x95ef1a06a09bc;0xc3d202940afca;0x67639e44471];[0x0;0xa35451bdc9238;0x4b7abe1313425;0x51a29e8a67de9;0x9b657d4f970d8;0x730b4581d0960;0xfa28c6883860e;0x4b4979a7f3cec;0xfa2237b438e0c;0x33f2bdb8b1362;0xcc1ed3ed328b];[0x0;0x4a9746fb1f4d4;0x6053c9cc01ec9;0x76a0f04a666d2;0xf22a42d23d4c3;0x2d82f21116da;0x469b5efa41304;0x63225efb89243;0xc1d9a6e7bcfdc;0xf4bf97c4b8b0e;0x713d2de90d]]);
 ((V [0xb75b4b1721c76;0xd6d28e8f63868;0x75b9878e334a4;0xa081c4f5ab822;0x4f621c82454b8;0xa08997d60323d;0x2ce6e211d6984;0x54432e0961113;0xeda4f2c299a6d;0x81b96dcd87] [0x6035a7cabfdd7;0xf1e7fafc8d570;0x3ade18c7b258e;0xc29eddb2bf29f;0xa2f37c9b85d8a;0x30e42e60e9225;0xb70f31439605a;0xab6e51352a063;0xbb3a6d0abea5f;0xed127b38b6f] [0x9d8543ff5276a;0x81e6cd63eb0b6;0x32e10d255d4c2;0x6bb2045320bae;0x174003310dc42;0xaa7612a798e65;0xda685719b0afd;0xfd89e77abd0b5;0x6a6a218eac754;0xf1cd574ce42]),[[0x21f171a7fcbd6;0xfd32926f4dca6;0x9cf354415301a;0xb0e602cbf79f6;0x80a7f3a501f87;0xee8c51b751a14;0xa505ed66eaf2a;0x5799739b50bdc;0xe42a4b5e49d3f;0x63412b1ce67];[0xeff813e2593ab;0xdc30872613c23;0x27b291e9c4e86;0x3087f3cca6570;0x209accf8b4988;0xeaf787385bd7e;0xbb4da1c256a09;0x68ba68d8f5f19;0x222e9d4d21af1;0xe8eaf4d468b];[0xcd974a1b519bc;0x79d0e0fc2c8c;0xf1a42d9987e51;0x7986996293a86;0x2ca7c92e6f86d;0x5d4a6a734707b;0x94c34f7636434;0x1c63e69937f8c;0x8d9f2241de264;0x811cefef9e2];[0xcd974a1b519bc;0x79d0e0fc2c8c;0xf1a42d9987e51;0x7986996293a86;0x2ca7c92e6f86d;0x5d4a6a734707b;0x94c34f7636434;0x1c63e69937f8c;0x8d9f2241de264;0x811cefef9e2];[0x31283d3bddc3;0x764408025048f;0xe70fa2f123ac0;0x809b19ab099d6;0xe9f6467a65503;0x649241abe25a8;0x12e09d1de2e8d;0x5f118e2c11f49;0x9b4b305b1823b;0x35b1a142a0];[0xece5900e9b5e9;0x65ec7f23c3794;0x40a2eef8a13c6;0xafecda219cb99;0x36a4867e4f484;0x8665458c797d5;0xa86d04a473b7c;0x9a8daace3fd0;0x86e36cf2098b6;0xe58fdac03ea];[0x0;0x1ba158ed005c6;0x5b19102d9b23f;0xf16a36e2dc50a;0x3530fb3f9f36a;0xd8a1a44db3929;0x6cd380fe470b6;0x16304595428a7;0xe269a413d11d6;0xcb81c4c2ee733;0x4fd7e3320e4];[0x0;0x81f831e69c49b;0x72d7b833e8a2e;0x66a7277557a3e;0x6daf7032f8f4f;0xe4f59494b6932;0xd5dd141001550;0x7634398182005;0xa45d106259647;0x81fda0bb1079b;0x320f0ee105b];[0x0;0x4a9746fb1f4d4;0x6053c9cc01ec9;0x76a0f04a666d2;0xf22a42d23d4c3;0x2d82f21116da;0x469b5efa41304;0x63225efb89243;0xc1d9a6e7bcfdc;0xf4bf97c4b8b0e;0x713d2de90d];[0x0;0x4a9746fb1f4d4;0x6053c9cc01ec9;0x76a0f04a666d2;0xf22a42d23d4c3;0x2d82f21116da;0x469b5efa41304;0x63225efb89243;0xc1d9a6e7bcfdc;0xf4bf97c4b8b0e;0x713d2de90d];[0x0;0x88f60d2cbaeaa;0x2717fa7e32fb8;0x3d8628f2df2ba;0xb64f0f29e4a5;0x952a42f6d4163;0xf4fde6024cb7c;0xea8419312174a;0x889727704a00f;0x8c49e9a1bc4da;0xa2687e822];[0x0;0x8ac2abda120f1;0x68aa7fe1fef66;0x7807d60fccdbf;0x559c1f3a9336b;0xb618b6f4fa1d2;0xb641a50520838;0x6203df3c9c38a;0x712b7fb0dc7ef;0x78b1b845e2590;0x4ef4aefb402];[0x0;0xd1828635a23b0;0xd029b25259843;0xadf5c31986a21;0xed91f5381bd86;0xa419246fa6fb9;0x810acfa7ac7ec;0x69e899f1aabc7;0x667004f5a68d7;0x5209b2ce986b3;0x76071b1100];[0x0;0x3dea870e4ee76;0x35e902075d4ea;0x246e1deaa1cc6;0x188a7896bb09a;0x36d64421fe86e;0xe20f07576bcde;0x6499134678e24;0x5d858938bf416;0xf6af8f248f065;0xed27db5ea5594];[0x0;0xb99f8ac7174d0;0xf70a3d09dc1ed;0x1497f150d02a1;0x608a99afd6c92;0xfcd0e5354a465;0x49ef5207b8a49;0xf2f58c63e4eb4;0x97e7adb1b1108;0x55b597385f904;0x78220821d4]]);
 ((V [0xff6a85002e81c;0x13f35726d3cfa;0x36b40ff994a5f;0xed63698a903bd;0x63ccbef3032dc;0x115f2129cc7e9;0xdd9d84256bf5;0x9101bd44b4b0c;0x7ae23748dd4bc;0x2daf3eb3b2b] [0x42150478cbcde;0x326471f8f17de;0xf5a651f369526;0x68e9ae2bdaebf;0xa24c15c7b585a;0xe3f4def9fae5b;0x627581d159e15;0xa3b5e94e92313;0xca630a5a301c7;0x54c1b517f4b] [0xb90bd9727c1cb;0xf872bdb1f1161;0xefce4921d7ce6;0xc3388853e85f1;0xe0e0af1fd1d4a;0xf585840102467;0xbb5f3dc02e536;0xa69e597168dd5;0xca9d541454006;0xe26600e7bf2]),[[0x33a46b2bb5cc9;0x2e23db21e82d0;0x75bdd66b8028a;0x4278f40e05c19;0xfadb990e80ff;0x93db7804336b;0xabf55e6474307;0x3a6e9e8c27b59;0xf49d5737f2da0;0x1a8a0fe5292];[0xaf0f57d359491;0x890289b218cb9;0x6d990df9571f5;0x611e3f52c227c;0xa4867026c1fc1;0x9fcc319dce01;0x71bddcb3cbe76;0xcc6907bcaef78;0xe2b5d75b491b9;0xfd6e8945762];[0x9d8543ff5276a;0x81e6cd63eb0b6;0x32e10d255d4c2;0x6bb2045320bae;0x174003310dc42;0xaa7612a798e65;0xda685719b0afd;0xfd89e77abd0b5;0x6a6a218eac754;0xf1cd574ce42];[0x9d8543ff5276a;0x81e6cd63eb0b6;0x32e10d255d4c2;0x6bb2045320bae;0x174003310dc42;0xaa7612a798e65;0xda685719b0afd;0xfd89e77abd0b5;0x6a6a218eac754;0xf1cd574ce42];[0xe2e21b6cc4e2e;0x6594dd68f9ec1;0x971a70274f207;0xa8573eecc7acd;0x92e3afd0ac12c;0xb0883c7b9163a;0x2eb20edd58797;0x76047db1a4728;0xad6d7a02be484;0x55c9fdbac8d];[0xcc2d3c6694664;0x236dac491edf7;0xd67e9dd207fee;0xb8c70065fa7ae;0x11a2c05615e94;0x5974869e4b7c7;0x430bcdd6736de;0x56648a0b0a850;0x35485d588ad35;0xa7a48b8aad5];[0x0;0x1519ccd9192f1;0x1258e7874d8bb;0x8a7c1a31c7357;0x805bc33b777f5;0xaef6fd4341f72;0x1552faba8aba4;0xe2b55d85021c;0x61ba69d8a77d3;0x554138eaf95b0;0x9587b29b3bf];[0x0;0xb27122858b10f;0x6793ba1803bec;0x84db101af3c34;0xe29940864b845;0x4059efefecbcc;0x7dd3d2a38ac3e;0xf7d259eb9246e;0xd232a4b0ef264;0x2105426bdd743;0x191142925a5];[0x0;0xb99f8ac7174d0;0xf70a3d09dc1ed;0x1497f150d02a1;0x608a99afd6c92;0xfcd0e5354a465;0x49ef5207b8a49;0xf2f58c63e4eb4;0x97e7adb1b1108;0x55b597385f904;0x78220821d4];[0x0;0xb99f8ac7174d0;0xf70a3d09dc1ed;0x1497f150d02a1;0x608a99afd6c92;0xfcd0e5354a465;0x49ef5207b8a49;0xf2f58c63e4eb4;0x97e7adb1b1108;0x55b597385f904;0x78220821d4];[0x0;0xde4d255a25c85;0xdb1e3acf31541;0x64243cbfab9bc;0x5df4dd990e494;0x1ec70a4a13171;0x4ba711e30a8c1;0x47bb5666d05dd;0x8f312d582fbea;0x7526e915f688d;0xdb8b397c921];[0x0;0x7884596614000;0x9a0a800c6df62;0xe0171cdab14fe;0x5601537f0252b;0x6d94b80620e15;0xd31607d96ad67;0x15295914bde1c;0x4b6e20f37f93d;0x524a078683983;0x41bc66f90];[0x0;0xf5f89140105bc;0x163154ad1a5b1;0x50b0776df59d5;0xab0d405ae2a9d;0x714cf3182bacf;0xb70523a93d9d4;0x88b1fb5488611;0x2024e845c3278;0x7673a8afd3792;0x2d39eac3b6b];[0x0;0x54e7d931293d7;0xd031f0cf06286;0xd182a0ef3859f;0x181ee20459371;0xf8a3fea1ed325;0xd6999a98642e8;0x3f5ad581e813d;0x3b176439013f;0x90977d063a257;0x54c28ec4658af];[0x0;0x3178e4fcd199b;0x72be85da357f8;0xb48e1ec861d3f;0xfb72442399d42;0xe3f4bf3e0c654;0xfa2bc0fffe98c;0x16110cc78827;0x5aac6a10e9d8f;0xe633c7afac215;0xf20120269d]]);
 ((V [0x445c925c80267;0xc570c6c178115;0xa42195d477ab4;0xe93f7eed23481;0x33fa91116cc7d;0xc35309f8cc949;0xf02ead9d1e550;0x1fb2fe1f93564;0x3ef69cc8aa1ff;0x548a5dcc761] [0x36745cf61c9bf;0x65dd20a718fcb;0x5cc4dda46ee72;0xb848ae6401226;0x302c07d319b0f;0x8af91a9c9b864;0xac135479a8620;0x2c0bb162fa740;0xcd09c7af4a31f;0x64e481aa551] [0x1fb2e67e39347;0x69d523d3686d4;0xf7ac2f9596665;0x381b9c6450987;0x206f35fa567bc;0xabcf41a1f9cc9;0xfc18d7061c7dc;0x30a10fb664b09;0x5470a0a549877;0x4980a9aaf80]),[[0x59f03794fd58e;0xde972ddb5dfa1;0xc1355e7cb1f1c;0xa5ce4f0f8d149;0x232065c26d502;0x8189ac1af564;0x767197067d1f2;0xd8aadd4e42317;0x6b51555d05958;0x7ddffcc1994];[0xd14cbcf26f202;0x9ab8191528e90;0x80d770568144e;0x265c3af20c0b5;0xd283d28c2bf9a;0xf8065ac354487;0xab0720ddc2164;0x8c28b7b9923e3;0xe30319783b95a;0x4e67f867aef];[0xb90bd9727c1cb;0xf872bdb1f1161;0xefce4921d7ce6;0xc3388853e85f1;0xe0e0af1fd1d4a;0xf585840102467;0xbb5f3dc02e536;0xa69e597168dd5;0xca9d541454006;0xe26600e7bf2];[0xb90bd9727c1cb;0xf872bdb1f1161;0xefce4921d7ce6;0xc3388853e85f1;0xe0e0af1fd1d4a;0xf585840102467;0xbb5f3dc02e536;0xa69e597168dd5;0xca9d541454006;0xe26600e7bf2];[0x41cce706ff74e;0x18d407311f2cd;0x8485f6c66d1f1;0x179260ebe5f39;0x9556e20f315bb;0x9b60fedcd52f0;0x364afc129cec5;0x19ae1f5257803;0x72e3fa8709e17;0x3d5289c8991];[0x8f7fd5eb6fab5;0x81e411e409bc3;0xfc5179901425d;0xec9da062617b;0x3d2cf07cfa9df;0x5ca55be67f197;0x74bc24cb2529f;0x727a98673abe0;0x701f1ef131b43;0x11156e9f15e];[0x0;0x1797fb2d2600e;0x46e2f0fdc3d88;0xaef84a670b7ea;0x24cd47650bcd2;0x9ba87408349b1;0xe8ec658f189e4;0x923848c7ac3fa;0xe86900ef8301e;0xfadd803592a02;0x8c0124c42ee];[0x0;0xcf95e4fb1cfa8;0xbab653fd64389;0x920507e60f19e;0xd41951a80a89b;0x3bf61faa127b7;0xe3aa62d3adf56;0x7ea53f20df226;0x44356e8105b43;0xa44fe702a6b2;0x6f51e4d3919];[0x0;0x3178e4fcd199b;0x72be85da357f8;0xb48e1ec861d3f;0xfb72442399d42;0xe3f4bf3e0c654;0xfa2bc0fffe98c;0x16110cc78827;0x5aac6a10e9d8f;0xe633c7afac215;0xf20120269d];[0x0;0x3178e4fcd199b;0x72be85da357f8;0xb48e1ec861d3f;0xfb72442399d42;0xe3f4bf3e0c654;0xfa2bc0fffe98c;0x16110cc78827;0x5aac6a10e9d8f;0xe633c7afac215;0xf20120269d];[0x0;0x8a80729ec551a;0x23cf76afb398;0xf65986edccc88;0x9fa531a5e3340;0xcfc9a3c0a08f9;0xcc50dcd4da676;0x3c5b2b55da436;0x3557fba11ae81;0x5b3d328eb87bb;0x1c0fb16a46d];[0x0;0x80eb5d3a5f0cd;0x5e56c60a54a22;0x2b07aa9ddc03e;0xe2ef25b153760;0x57322f5896f16;0xacb8a5779f677;0x6ccf8244fdbf0;0x9165c8d0cbd83;0xe730ced6ddab0;0x8271401f5d];[0x0;0x9ae82f85cdd69;0x56d1d2940d9dd;0x9dcf401ba5408;0x6607a50717c71;0x62e907c702797;0x7ee25b927c8f7;0xf6d0f46637941;0xcab57b46cc0c2;0x16192bd1176f9;0x19e47e48519];[0x0;0xe36702de39ed6;0xa17af9c6eea13;0xb24b785adeb21;0x422058b603b6f;0x3e1e2ec1af706;0xa2594f1eeed0b;0x1f1343292cf01;0xf4392f97ba6fb;0x1bb1ad9debdaf;0x652a7f92a725f];[0x0;0x4213a047ddcde;0x499f8d8cd750c;0xc3d06e230c05e;0xda0b5710660ab;0xf980561686d4f;0x61857b97afcc1;0x944bafd6dd141;0x529fc55ebee71;0xab9b841b52abb;0x215182b1617]]);
 ((V [0x255292a2d2464;0x50ebc41f967af;0x3a8d3af25d16;0x272408d0602b8;0x5657a1148bd94;0xe3d29752e4f45;0x5d1baf1de4be7;0xd5aa2bcb81f9a;0x237d5403f93f;0x995e5f4071b] [0x1ec42c83ca94;0x6f1f8010ae435;0x38ce7108d51b8;0x3ac591a5015c0;0xc6caa45a53813;0x66045703369e5;0x9f32cdca1da5f;0x869a7f5bd7322;0x819c1da2ab37c;0x362efbf5e04] [0xd9b005366f8d8;0xbb967c45a68b7;0x8b198a32ab33;0xc5bccfa2cc354;0x650cb397a6723;0xaed7ab8e88877;0xb6e73eb960878;0x1c4d5512359c7;0x1f78f7ea72c0c;0xa7fad2a5b74]),[[0x5b0142e33a7f3;0x4de4e988422bb;0xb7b5d8617a301;0x3deee1113beda;0x3e4aaa9b89d23;0x76a8e271861d9;0x43af7a25772d2;0xb47588432c11;0xf13994ccd5db2;0x4735badfa33];[0xecfbae894b29c;0x5f94818832b38;0x6d0a9e421a70e;0x44c5d237a23c6;0xb89a977379495;0xe6dcca0630de4;0x7d30a298fc904;0xc06ab4efef40c;0x716fabbef909f;0xece88a52a61];[0x1fb2e67e39347;0x69d523d3686d4;0xf7ac2f9596665;0x381b9c6450987;0x206f35fa567bc;0xabcf41a1f9cc9;0xfc18d7061c7dc;0x30a10fb664b09;0x5470a0a549877;0x4980a9aaf80];[0x1fb2e67e39347;0x69d523d3686d4;0xf7ac2f9596665;0x381b9c6450987;0x206f35fa567bc;0xabcf41a1f9cc9;0xfc18d7061c7dc;0x30a10fb664b09;0x5470a0a549877;0x4980a9aaf80];[0x16857eb60d8a5;0xb69de37057594;0x5404577162829;0xe9c8b4d166707;0x88c6c8aed3a6f;0x13d5f9243b5d;0x4fbd2ef592de8;0xcbff5b1d2a782;0x7e243320a49bb;0xc9013527274];[0xd6762fd33d9f8;0xa8f69e17db5a4;0x190646d0b7ee4;0x5afd1d663bcbf;0x2fd3cec4a5a25;0xe59f6a73ed287;0x2d7373a369b1c;0xf46b59d2c4c8a;0xf34b789e546e3;0x23e7552b7ec];[0x0;0xfddcea73488db;0x9a98e980d4f6c;0x829c0d22fba24;0xcad0691528c9d;0xd8c73f9ffe9f;0x976357e19d702;0x74570c381fd93;0x3adfddea93132;0x33e38b99eb91e;0x2d743247d14];[0x0;0x937e1a89992ef;0x3125710befff;0x75e548ced54a6;0xbff20277b08b1;0xd8d88f2c92a61;0xa7ae45851775e;0xa0352f39e8961;0x10fb0734e877c;0x7dc3f8db06d79;0x14721c593c6];[0x0;0x4213a047ddcde;0x499f8d8cd750c;0xc3d06e230c05e;0xda0b5710660ab;0xf980561686d4f;0x61857b97afcc1;0x944bafd6dd141;0x529fc55ebee71;0xab9b841b52abb;0x215182b1617];[0x0;0x4213a047ddcde;0x499f8d8cd750c;0xc3d06e230c05e;0xda0b5710660ab;0xf980561686d4f;0x61857b97afcc1;0x944bafd6dd141;0x529fc55ebee71;0xab9b841b52abb;0x215182b1617];[0x0;0xbe95b3a46ed44;0xcab294077c07a;0xb10e693fe3491;0xd5c3b4646f41e;0x2e5d7ad4c3d38;0x68454bc717b1f;0x23f68c89f47d;0xf91da87d949f1;0x3396a07990cb6;0x27c351444b9];[0x0;0xdcfb76c2fccbf;0x1689774725079;0x65ef41444cf30;0x8650327863167;0xcedf71628a10b;0x2987dc8f5c612;0x4d7542760a160;0xbcac10f0c95ba;0xa93b26e7a5143;0x1beb1857704];[0x0;0xc466b8e1fef0a;0x4bad660d51c43;0x8d00659933d75;0x5e143ceed4890;0xd7d73b6c0ea99;0x6bfd103a4857f;0xf823213f2edac;0x30ef3b0fe30d4;0x9af47bc072cae;0x8dee50341e4];[0x0;0x6d98528530a24;0xea50a8a5d0d08;0x73c4e8dfe2ce;0x380d735b74d6d;0x56b63e79633e7;0x9a751679fbda1;0x263b7e363b93;0x76350c54e5b6c;0x5886615403f0f;0x36330669b454c];[0x0;0xe072f3e519f48;0x24af5fae6ea6a;0x282984254900b;0xfc3f8d8aa8ea4;0x40dcde8e7f00b;0xa228cae40ceaa;0xf74825d66e1b;0x3415510e75445;0x2b298d85ced03;0x20760dff8aa]]);
 ((V [0xa7db37bf74cdd;0xf710ee68e0520;0x38fcaf154765d;0x4d14caeaf95ea;0xf5a65d94eb7f4;0xebd6764c8014d;0xb937782b36faa;0xb6c52afbb1579;0xd8350d76e0c20;0x3b37ca38745] [0x30b0a6bc23892;0xaf842715169c9;0x1d6904906d5a;0x49743cead6f45;0x6c6201c0ba032;0x4c85fbaa9814a;0x2bf34d9b0cdd8;0xbd007b1a3932e;0x9b1b18a3caf71;0x1746e161937] [0xe3d9ed4c21fc8;0x5f5079f436c67;0x6a8511310aa4d;0xee47a0ff13db2;0x7cfe2bd88a349;0xa755fcb421750;0xd51e8e0508cae;0x6ed3f70b6d024;0xb580f0adcd838;0x61c226b13a2]),[[0x5c74597324733;0xeec2aaf785bc4;0x6d382a6b1e4ab;0x62df2b9f125c;0x992e7ac3f19d0;0x5a550b482e565;0x4448125a12276;0xf1bbcbe3cee74;0x34f9baec67459;0x62742693706];[0xa6f18380a8d87;0x80f0872f68608;0x37c9a25231b7b;0x2050d6d9cb9bb;0x85c0b661d93a9;0x50a9177c62a8b;0xdd483fb2aae7e;0x8c08707173a8d;0xc941085a45eb;0x9e5dcd31c06];[0xd9b005366f8d8;0xbb967c45a68b7;0x8b198a32ab33;0xc5bccfa2cc354;0x650cb397a6723;0xaed7ab8e88877;0xb6e73eb960878;0x1c4d5512359c7;0x1f78f7ea72c0c;0xa7fad2a5b74];[0xd9b005366f8d8;0xbb967c45a68b7;0x8b198a32ab33;0xc5bccfa2cc354;0x650cb397a6723;0xaed7ab8e88877;0xb6e73eb960878;0x1c4d5512359c7;0x1f78f7ea72c0c;0xa7fad2a5b74];[0x58c303353184f;0x2a3aaab4ff95d;0x597001d151249;0x990744661ec2a;0x3a979c569e5f8;0xbfbbe8c2c2d74;0xc69c6cd7e8c13;0xe8d758eb8bcdc;0xd006ced43e200;0x2b818cb6686];[0x4e2e804b77539;0x56b5dc7a68cab;0xde59a080e0932;0x87499273acd90;0x4b291a0b3adb0;0x90ed2eb99fd17;0x16abd2dac226a;0xa3311785e7db1;0x3c8d41b1663ea;0x72dc407b57f];[0x0;0x7fb3aec3e4d4b;0x9be07b1acb329;0x7ac777c812ff6;0xbb7d9e95234c5;0xc6192cb40c59e;0x5cf330262d71a;0xa168d79f4f07a;0x7a997862eae58;0xa07922cca0893;0x67e0e1cb44e];[0x0;0x9aab944da5a77;0x3405c088c2566;0xd7885b522d763;0xe94570d292edf;0xa3c3c5e11fa0f;0xe204eea0b6134;0x867e70640616c;0x32170ee4b6a45;0x8bf69a5f1f308;0x409a3b9add4];[0x0;0xe072f3e519f48;0x24af5fae6ea6a;0x282984254900b;0xfc3f8d8aa8ea4;0x40dcde8e7f00b;0xa228cae40ceaa;0xf74825d66e1b;0x3415510e75445;0x2b298d85ced03;0x20760dff8aa];[0x0;0xe072f3e519f48;0x24af5fae6ea6a;0x282984254900b;0xfc3f8d8aa8ea4;0x40dcde8e7f00b;0xa228cae40ceaa;0xf74825d66e1b;0x3415510e75445;0x2b298d85ced03;0x20760dff8aa];[0x0;0x3fdcaf2387cb7;0x80ec27dadcbef;0xd6b218fad305e;0xab2808a989f36;0x22d4cbca4a922;0xb962b30310e14;0x824e49fd38b2a;0x18a82b1304382;0x716bb7ab61b4e;0xb77daeb3ef];[0x0;0x6955cab97cb71;0x6dba1ee4c636f;0x310c3211066ef;0xfefe465cbda49;0x6d1d6e26815ca;0xbee381e998bb7;0x8cd7c7c692bc8;0xc2aadba5dc684;0x8ec5fa35c2e63;0x5be1f0a51ea];[0x0;0xe953c3d1dd88;0x1902a8b706fe6;0x54d4949861a6d;0xefc401b680db5;0x8f5e234259c7f;0x663ebdfccd8ed;0x2b16b14866a10;0x2dcae252937fd;0x12225c6b31ecf;0x24a2218a7d7];[0x0;0x2e10a151a5723;0xc538b2e615271;0x11bf8d87930b8;0x59a2dc72f0a59;0x22403efd8f697;0x5b685b102b0a8;0xe5d0e98be3f96;0x2946b9bf2f92c;0x977aab49b7062;0x174fc1fc72ab2];[0x0;0x9f096fc3e7ae;0x1b9cc6b330717;0x2315ca685caec;0xd32b14457dfd7;0x9831631bcff15;0x358850178d8fb;0x8464bd61034a5;0x7aa09392a9376;0xa5a0172d42ea;0x562688ef8e]]);
 ((V [0x44ef6aa1cb37d;0x86dbb48d1a907;0xd145e8dedc7a;0xafce00643ad77;0xd8ecda6d642d6;0xac897dd81163e;0xbbb0c419a5803;0x3b391865e9ed7;0xc77df2dbe8607;0x59d7364080e] [0x9770dc4d93650;0x5ae36f7aabcb6;0xb55c398633c51;0x92a01ec9ef769;0xa2cae05cae7f8;0xeb1f1ddaa9f9b;0x743fd5b26f953;0xae057bc5f6d25;0xe6d0c01a1b26a;0x5d49b0111e3] [0xcf1dcdd04f375;0x66291dfea6192;0x7c932ccad59a4;0x26fdd87158b5b;0x5df84a2a94436;0x5edd72b55ff28;0x5b38872b0921f;0x2ace352962539;0x9b7469b036d1d;0x6c6f35ecac0]),[[0xb4688a7023b23;0x32778081cd6ba;0x533e5fefb6c01;0xb2ed64dd9f173;0x8bf246c6310d0;0xc28f37c137950;0xc86a5cde69157;0xed4637bffe46d;0x41310587c9a2;0x74638a1e4c3];[0xcf1c8ce0ced68;0x494b486e7cadb;0xd2dacddaa8518;0x625e3a992589b;0x6fa1cf947af6d;0xa2ee84021812f;0xe5b3443e861dc;0x2c6e820c030a5;0x3cfc181fc84e1;0x2411aa5101a];[0xe3d9ed4c21fc8;0x5f5079f436c67;0x6a8511310aa4d;0xee47a0ff13db2;0x7cfe2bd88a349;0xa755fcb421750;0xd51e8e0508cae;0x6ed3f70b6d024;0xb580f0adcd838;0x61c226b13a2];[0xe3d9ed4c21fc8;0x5f5079f436c67;0x6a8511310aa4d;0xee47a0ff13db2;0x7cfe2bd88a349;0xa755fcb421750;0xd51e8e0508cae;0x6ed3f70b6d024;0xb580f0adcd838;0x61c226b13a2];[0x2a4ca43de3f65;0xa7cc259fc9;0x89582948ce13b;0x8267714238ae2;0x92d43d651744c;0x3a0b75ff43619;0xa967f884b6e73;0x8549e5ab75127;0xaff0f7b9ba32e;0x40a5f27e4cf];[0xa4cfe8a2eabcb;0x4940cbac22b12;0x4982a491da3dd;0xdff6c956ecdb9;0xdccd922f63b20;0x68e30e02d4b15;0x3c4b4bb9cf369;0xa7249c608df7e;0x8d0b20660e1b2;0xe36bb7d2b4a];[0x0;0x271a41c5e6dbb;0x675a7982ba2d3;0xc102f1d65646f;0x1d4a07dc3fc00;0x21c09e99a2309;0xaf47af4785836;0xf5cfdea0a6931;0x1b943fe3106de;0x4f2cf4834388a;0x3c742284516];[0x0;0x631f5e4ac2590;0x75bcf3db7f0e9;0x1e55971207d9a;0x245b6f4062168;0x97aaa7c19b93e;0x3e5c6c54cc430;0xa939430888432;0x259fa71aaac5f;0x94592efe28619;0x2c71fc5b7f9];[0x0;0x9f096fc3e7ae;0x1b9cc6b330717;0x2315ca685caec;0xd32b14457dfd7;0x9831631bcff15;0x358850178d8fb;0x8464bd61034a5;0x7aa09392a9376;0xa5a0172d42ea;0x562688ef8e];[0x0;0x9f096fc3e7ae;0x1b9cc6b330717;0x2315ca685caec;0xd32b14457dfd7;0x9831631bcff15;0x358850178d8fb;0x8464bd61034a5;0x7aa09392a9376;0xa5a0172d42ea;0x562688ef8e];[0x0;0x22b13ae4f3929;0x7858d8a97e3c3;0xee0f8e7bf8943;0x689b28fde2350;0x871e6762d5600;0xc7afe2037c6d9;0x4fcfde4c45cd0;0x2a79aff0f11e6;0x92ee815763a2b;0x21dd01f904];[0x0;0x62587f4a4f512;0x2938258fd85fd;0xa9001038e9c0c;0xe9c2dbd1f668d;0xbbdec0325790e;0x8927f6abc8cb0;0x8b962ca6a64b0;0x24ea703c09df2;0x23ecc61133362;0xdb2c35e89a];[0x0;0xa1cb06ed26ea3;0xf915d397430d9;0x5cf2f3ccffbe7;0x87c0a14ebc301;0x51a081ce90de0;0x9f0501e871742;0xe3ae80f58da31;0x68c1a7b31dbe1;0xc24bbe3fc1938;0xca876b1041];[0x0;0x330206f3de969;0x62127f4ca8e4a;0xbee6703cc2b72;0x27a87e7bd9c46;0x1254dd790d31c;0x7f8a41700fe30;0xcd6662a467c48;0x35964f467957f;0x2a0c269d48f2c;0x5d99d4f477cf7];[0x0;0x454108e886d8d;0x6584535671a99;0xa15ee0a1b17a8;0xcfda7be1eb68b;0x2020de27297dd;0x4d2764cfe2854;0xe0a0e22ce647b;0x3ae2122d9447f;0xebea4efdd2eb2;0x20bd0addde6]]);
 ((V [0x6aedbd4096564;0x4fa8b9bd472a8;0xe8c74907d5ebe;0x8d5907225928c;0x776ff04f4fbd6;0x687747322ce9b;0x58065af64e263;0xe3f08c6bcb320;0xce8a9c97d736b;0xc9055eea123] [0x4d5f5fbaf23d8;0x18961af8ef02d;0xe2084ba52e3a4;0xed9c72930d008;0x1331b129debfb;0xd45c045a1a5da;0xe86a2e629f4db;0x7af7867a7f64d;0x96b9591cb08a1;0x103e0db973b] [0xe80ffcadcc17a;0x5936ed4b05e0;0xef28c95ead74f;0x136bcd1971633;0x7c6f1769f5eb4;0x8cd0db0e0b2ab;0x1d9295d755657;0x90bd919f9a5d5;0x2295c55232bef;0xa46da10d6ba]),[[0xb2e236758aa0;0x3da0f61e57d7b;0xc8b52c3f23a2a;0x80e37d2fe37df;0x8ca4344eeeda7;0xf868b372a9645;0x63211b5e261ed;0xf9010e5c9b46b;0xc09309f0c47f0;0xdad5f613501];[0xdc5ef72e36330;0x4691cdff1df03;0x26075e87df5;0xf3cf45317c429;0xd75dd960d0bbf;0xa6b9acd361816;0x39be8ccec544d;0xd66ff72e2b151;0x4ac03740a9cc3;0x4ab0139c6bf];[0xcf1dcdd04f375;0x66291dfea6192;0x7c932ccad59a4;0x26fdd87158b5b;0x5df84a2a94436;0x5edd72b55ff28;0x5b38872b0921f;0x2ace352962539;0x9b7469b036d1d;0x6c6f35ecac0];[0xcf1dcdd04f375;0x66291dfea6192;0x7c932ccad59a4;0x26fdd87158b5b;0x5df84a2a94436;0x5edd72b55ff28;0x5b38872b0921f;0x2ace352962539;0x9b7469b036d1d;0x6c6f35ecac0];[0xe21845a72c642;0x63fea46c28853;0x8341cdf599eae;0xce270a4bdbb2a;0xa9047256d3f0a;0x51a17e8203ba0;0x72ebd5ea19502;0xebf668ac0f07e;0x16b1439b28a7e;0xcfe640d020];[0xfa46b18709cef;0xe2932992f56af;0x7ce43968edf46;0x25a83ae5a08fe;0x2e596709fccb5;0x55182e515dc76;0xc6d2b6e4abf4b;0xea798e821c0d2;0x340ef3a581244;0x3db1af8f69f];[0x0;0xef06401e7a590;0xbc7f80f25eb2b;0x7363a3ed62b4a;0x95d1c7d0cbbc2;0x9c04fb99961c3;0x4e545a9814973;0xb54cb7055d58b;0xb0949ff0f123e;0x12b8aa2af33ff;0x430e41396a4];[0x0;0xa2656c3932890;0xf6f6ac9705cc1;0x9cc0c76655fd2;0xf3e1644d2e09a;0xc3425c0610dfa;0x5e3693cbb167f;0x5d5a5d864859d;0x90e31f262e11d;0xc78f21559e6e7;0x5cb154ae746];[0x0;0x454108e886d8d;0x6584535671a99;0xa15ee0a1b17a8;0xcfda7be1eb68b;0x2020de27297dd;0x4d2764cfe2854;0xe0a0e22ce647b;0x3ae2122d9447f;0xebea4efdd2eb2;0x20bd0addde6];[0x0;0x454108e886d8d;0x6584535671a99;0xa15ee0a1b17a8;0xcfda7be1eb68b;0x2020de27297dd;0x4d2764cfe2854;0xe0a0e22ce647b;0x3ae2122d9447f;0xebea4efdd2eb2;0x20bd0addde6];[0x0;0xd38a66f01ef52;0x804e6b4a2ad6d;0xcfb98dbdae1c;0x4a78e03a0616c;0x7e767edd18b97;0x183368f038b7b;0xa6b3c52491841;0xa0b9869858b60;0x4258fc7d61877;0x21fe9f2252d];[0x0;0x7a0cab90f6916;0x46d13317b90cb;0xd0b87f978905c;0x300ca96ad6a5e;0xc3412957503be;0x1637fdada1a10;0xacff55a925bde;0xd07d59ddbdf04;0xc3f2f0068b865;0x1f8758a5057];[0x0;0x7379b956730f6;0xa1d7ab5881167;0xf6e4ea3e29429;0xd3bd3a965d6e0;0xc87ad6347bf15;0x6da67045755ad;0xc6b8a0e938c7;0x50e085ca7f30f;0x8b9fb4a0827a4;0x3aa5d087244];[0x0;0xb2a4f7a4ef4aa;0x4c72d090f9a1a;0x60147befa7255;0x1f4c59bad36f1;0xe18619f8fafe7;0x99f7c6a6d0019;0xc2ef56011c4a9;0x1fb21dbbfcf13;0x3422f6070badb;0x10498eab4d9a8];[0x0;0x6f0ef59a489ea;0xcd5945da211ac;0x97e32cb2b3b83;0xe00665d024fc2;0x64b940f9b901;0xa9861c1530ad6;0xd3fab1638188d;0xf7a55dfe6e8a0;0x6b65eaa2b7cb6;0xcc11002836]]);
 ((V [0xc1523eb2a46ff;0xda027b69dd95e;0x95223f2f5e7c9;0x26e23e103c01c;0x41ee5c7e4cf69;0x89c1c3207698d;0x3166e6e40562c;0x9a31614cc6c8c;0x203d35b20ce42;0x832d0e92da3] [0x1254b685e5659;0x50432d4bd74f;0xb061de6c5da65;0x236a4a308a70a;0xcc5967553e459;0xd6a0ab9aecd05;0xe7ea760789bee;0x215eb35920b46;0xf890f19865c14;0xf316880f04d] [0x9f259a52c1842;0x8737c9a88529;0x5dab8c0990d7c;0x3d766914a1e4d;0x52f10977e170d;0x9b0343512e510;0x2a0d8dbcdc743;0x918870dfbfaa1;0xd553badfc80e1;0x75b97dc7fb8]),[[0x516a760f9d6a2;0x96333dc593d9f;0x902027f5150aa;0x958110bcaa3d9;0xf1c270eeb06b5;0xf23a3b4f86659;0x30477e7529e3b;0x7e2ca419da5ff;0xfac377eff0573;0x9e9cb5d005a];[0x44eb4bd7beeb3;0x691857c0bcb28;0xfcbe777fdfd95;0xc9c8b186e15c8;0xea5ba4cce7040;0xd82cbad5ed97e;0xd9580e7b00606;0x44e0e3d6a79f7;0xff5281784f6a0;0x842936537a6];[0xe80ffcadcc17a;0x5936ed4b05e0;0xef28c95ead74f;0x136bcd1971633;0x7c6f1769f5eb4;0x8cd0db0e0b2ab;0x1d9295d755657;0x90bd919f9a5d5;0x2295c55232bef;0xa46da10d6ba];[0xe80ffcadcc17a;0x5936ed4b05e0;0xef28c95ead74f;0x136bcd1971633;0x7c6f1769f5eb4;0x8cd0db0e0b2ab;0x1d9295d755657;0x90bd919f9a5d5;0x2295c55232bef;0xa46da10d6ba];[0x10e3cb2175bbb;0x35cc97ef012b6;0xed6b07126a4ae;0x29721f49e9571;0xe66c8d0d10636;0x31b9e1ff6347f;0x50a11b2a47823;0x2ff07cbb60fc2;0x58f39828bb883;0xe60a2dd3a64];[0x340780b6490c0;0x334bbfd1bb872;0xf53706d758e7;0xa056923cf8057;0x3ef17bfd6a0a;0xa672d8d68a4ff;0x88b6f350b8de3;0x14f0671b46a35;0xa65ee94f93e1d;0x9e1f087fd42];[0x0;0xffdfbfff62a92;0x1487703c9b321;0x6b2740b01fad0;0xf159366b8e71f;0xcbeba2ed8e194;0x1d419aa3ccf9f;0x550d74fa5ed7;0x46490eb90411;0xd5221c5226313;0x65aea350bbf];[0x0;0x6db2178fa5377;0x7f5e3fb1e76f0;0xa893a4fd56536;0x5deb99aceb420;0xd9cf3d3fb0862;0x4049e8643eeb5;0xd8f1e1ca64212;0x2d255ad8cc22f;0x3fe0cf46a9898;0x65e050fb8c3];[0x0;0x6f0ef59a489ea;0xcd5945da211ac;0x97e32cb2b3b83;0xe00665d024fc2;0x64b940f9b901;0xa9861c1530ad6;0xd3fab1638188d;0xf7a55dfe6e8a0;0x6b65eaa2b7cb6;0xcc11002836];[0x0;0x6f0ef59a489ea;0xcd5945da211ac;0x97e32cb2b3b83;0xe00665d024fc2;0x64b940f9b901;0xa9861c1530ad6;0xd3fab1638188d;0xf7a55dfe6e8a0;0x6b65eaa2b7cb6;0xcc11002836];[0x0;0xbb2a97a6cc553;0xe64fb9da0e57d;0x688bde5d1c493;0xccefb40c42b65;0xcec7dc681d643;0xc84f7091543f1;0x4cd13b4911c5a;0xc048e10ba11fe;0x7975c19e6cb5c;0x107d0c1d50];[0x0;0x5d7a203a8cf30;0x534cdadccc77;0xb2d231966a900;0x6d046c4713e97;0x946f36e19389b;0xb89db2bdfc1a2;0x5b14ebb3f2e92;0x2ba125606a373;0x91725c88b83b8;0x9dd96f2868f];[0x0;0x469b31acb92e8;0x29b6e98bf1127;0x866ca2a19e475;0x55713c504e03f;0xa4150a0b92f96;0xc2a9ad509abe7;0xa4b3ed19058e8;0x4fa586957c3f9;0x246b8da8ec68b;0x43b85991557];[0x0;0xfc258643a741d;0x5d7d50007f534;0x4ca4c98e790a1;0x5435ca1d6ef52;0x9ff5f23c53e30;0x853e71a1d4efa;0x579701a44ac30;0x196f367e8a233;0x939635f04e4a7;0xf38c1fd6ba563];[0x0;0x55e307ee2c073;0x8b7f9106b2aa9;0xd58f90e4c1281;0xfaebb66d73e16;0xfefb1f41759c;0x4c742a3c71053;0x3aa7edcbb042f;0x602129223c138;0xd5728257a0497;0x7c8f506c479]]);
 ((V [0x3b12f52685ade;0xfedd46879f87d;0x13f6e1b685a18;0xeee2b9f8a4cc5;0xbde35b7ea4b5d;0x6aca1eadb9317;0xd3aeefbc75d4;0x58dcf46ff5a7;0x93afec97447be;0xc8b6fbc56ec] [0x8b8ad3dcdfc8c;0xdd6c273aca008;0xdca515ba9c3e;0x765dcaa4c3faf;0x9d3ca530337d8;0x8546fad7c7e3c;0xdb5b3dfb18992;0x908f750fbc566;0xe80434c92117;0xa23943a6ffe] [0x6d70289270abb;0x900816c6ddbc7;0x89b62345e8bd5;0x6ffd44e237f1a;0x94d2ca1e3afbb;0x939f1fc26db09;0xa7c2efbfdc3b9;0x22c5478546b3;0x414cd60c720cd;0x1d975e7d60f]),[[0x33a525a70f035;0xd456ca836e9a2;0x4733bb680e7;0x22d4421a551f;0x58e1d9d9f4787;0x623e6bd594f78;0x299413a008f14;0xd1275f79917d7;0xd5ab699871db8;0x21658c171d8];[0x9f99025aadcd7;0xa8bd2f743e4d4;0xb7464e24ae89b;0xb80abbc251c8d;0xeca0d8631e7d1;0x4d2945e59b1ef;0x9ad7568fb6bf1;0xc259972e92063;0xaa8314aa5f62e;0x8cb904e92f0];[0x9f259a52c1842;0x8737c9a88529;0x5dab8c0990d7c;0x3d766914a1e4d;0x52f10977e170d;0x9b0343512e510;0x2a0d8dbcdc743;0x918870dfbfaa1;0xd553badfc80e1;0x75b97dc7fb8];[0x9f259a52c1842;0x8737c9a88529;0x5dab8c0990d7c;0x3d766914a1e4d;0x52f10977e170d;0x9b0343512e510;0x2a0d8dbcdc743;0x918870dfbfaa1;0xd553badfc80e1;0x75b97dc7fb8];[0xa78dd959f523a;0xb49a0e24aee1b;0x9fc039036ebc0;0x16d3bed9aeaf5;0x86c711a5d6e79;0xafff14e7a6845;0xdaf6de0b43e9e;0xe0ba4e0b18de3;0x52212f5e7e1ea;0x72977f13c4];[0xf80b2900b8a9e;0xf423214f8f6b8;0x178615213fcda;0xa136fce8a3198;0x65d9c6bd47958;0x9d2a30fdf49aa;0xbfe0788472d52;0xe19f49237927f;0x5861e54be1443;0x858f8cf7f2c];[0x0;0xb0b2f2463fa3d;0x1d7e2eb1c0b7a;0xf676d58db4d6e;0x8b09d4978fa96;0x8d184df16e46c;0x6b49faf53d98f;0x1bb645931ed27;0xb157fcd44e765;0x9c12890347d99;0x48ccfae402c];[0x0;0x18871ea500c95;0x7f4c96f8df1de;0x2cb8ae0ca8565;0x848da61a9da2b;0x7dfb56179e5f8;0x41ecadd26928d;0x42c8317b50ee6;0xba7fad0faa4d6;0xe2569539ec583;0xf5b9bd1795];[0x0;0x55e307ee2c073;0x8b7f9106b2aa9;0xd58f90e4c1281;0xfaebb66d73e16;0xfefb1f41759c;0x4c742a3c71053;0x3aa7edcbb042f;0x602129223c138;0xd5728257a0497;0x7c8f506c479];[0x0;0x55e307ee2c073;0x8b7f9106b2aa9;0xd58f90e4c1281;0xfaebb66d73e16;0xfefb1f41759c;0x4c742a3c71053;0x3aa7edcbb042f;0x602129223c138;0xd5728257a0497;0x7c8f506c479];[0x0;0xb3ae062f4d91;0xb10d1e966e3c5;0x6d3a12d39cb9b;0x1fb45b156411b;0xac7169b62912e;0xb68ef3ad6bdc3;0x323f2225d36be;0x54df87bd6a04d;0x52aad4cf75042;0xe6d3c8482e2];[0x0;0x658e7fea97985;0x7e4747262bac9;0xffd131650304d;0xd0f2bbf7c4191;0x5a5c40bdb714a;0x7815154a0cd2f;0x8cde7eb4f2be0;0xab0566822d60f;0x4499abb024ff5;0x433724d86bc];[0x0;0x68a11634616d4;0x1f20a790bced9;0x40792d1b83c24;0xf5f6f25765c49;0x5cf11a05b40b7;0x446157a85988c;0x6eaeb3cdf4d21;0x1ef3fd2ffccf4;0xf4b59c231e43a;0x6e5521c5999];[0x0;0x357a478f6114f;0x62d3ad9ba0498;0xba539cf170be6;0x6ed2c39b9f23a;0xe926f4ae2a82b;0x27d6629bcec59;0x51d006339c871;0x32223821204ba;0xe909380854bd3;0xa282505b29002];[0x0;0xd601257c4ffeb;0x523c9ea3b16d4;0xb22490da8e6ff;0x7bb867ddb10a2;0x1c98042d00a3c;0xc5837d13503f3;0x8dcb53fab98c5;0xa3f87bc900f1a;0xb8af6f5a87a4f;0x7f30b11bd23]]);
 ((V [0x6a79dc34e0b85;0x5a9eb2befa97f;0xdd6520a24cfbe;0x8041dfdc48ff4;0x4b2d6081c4668;0x5b9e8da64088a;0xd08094b83dd6e;0x1ab124542880;0x52f8981542426;0x77ea02fa00e] [0x8f075d85df1d6;0x1dbd0ea076b13;0x4fb8594e0aaa4;0x637146ff50ef2;0xef73ef6076fe;0xfdcdfb69e73f8;0x3df3228e51203;0xbf6ba885289ba;0xb36f399f5ef8;0xdb6115b9cf6] [0x9165c862f0832;0x9629cdd90f143;0xe28ae10e50b1c;0x1f54c11f09650;0xaf0e599257c77;0xdc1cf516995c9;0x1eff4a4ea5549;0x3ebf4f6473449;0xc090ddd9720b2;0xe108131380b]),[[0x316268c3876fd;0x26daa578906d4;0x163804b7d9d7c;0x3010e965c34a7;0x3b081401ce3c1;0xb9f3c4b4d940f;0x563596a84986a;0x209bf737029fd;0xed74b69b27ca0;0x7a154672c08];[0x4ed96be71c1db;0x9a691a499d505;0x8281dfb8cca31;0x314d033b555fd;0xa699ad4a44904;0xe96a6dea20bca;0x2d370fc95b284;0xb64bf10912ff7;0xb472c086576f9;0x28e58d01330];[0x6d70289270abb;0x900816c6ddbc7;0x89b62345e8bd5;0x6ffd44e237f1a;0x94d2ca1e3afbb;0x939f1fc26db09;0xa7c2efbfdc3b9;0x22c5478546b3;0x414cd60c720cd;0x1d975e7d60f];[0x6d70289270abb;0x900816c6ddbc7;0x89b62345e8bd5;0x6ffd44e237f1a;0x94d2ca1e3afbb;0x939f1fc26db09;0xa7c2efbfdc3b9;0x22c5478546b3;0x414cd60c720cd;0x1d975e7d60f];[0xa091b86e306e9;0xf04fcfbf38755;0x1c85b6e2b4515;0xafb2a8bba6f21;0x126e3e799cd7f;0xd26d38fbeb63f;0x55ab0c1a93cd2;0xd1f9320389983;0x73edd979c33b0;0x8fb3fc0bc11];[0xae47b378eb8ba;0xaa194a8a64daf;0x65fc28d61851b;0x819a5a7fae6dc;0x942b6ed0a7b84;0x16fd34ee3558b;0xd78c03aec75b2;0xe452bf0589673;0x4084e70c94348;0x993190f571f];[0x0;0xf755c5c9adf5;0x721b1ea2ba871;0xf551e1fa1196e;0xdd103cdab163f;0x88e011c256f6f;0xbf7aa0ff16c05;0x51ae8a140a87;0x2ad72317eeb33;0xee3994113303b;0x124c98d7b6c];[0x0;0x57430e7852d6c;0xcd46a39d7646f;0x6b1bd29668d9a;0x3e3f0540d0919;0xa98d58ae7c577;0xf8e4500d22b5;0xe98622a86d517;0xdb10d5e2b7515;0xdabfec987cb71;0xe1c989727f];[0x0;0xd601257c4ffeb;0x523c9ea3b16d4;0xb22490da8e6ff;0x7bb867ddb10a2;0x1c98042d00a3c;0xc5837d13503f3;0x8dcb53fab98c5;0xa3f87bc900f1a;0xb8af6f5a87a4f;0x7f30b11bd23];[0x0;0xd601257c4ffeb;0x523c9ea3b16d4;0xb22490da8e6ff;0x7bb867ddb10a2;0x1c98042d00a3c;0xc5837d13503f3;0x8dcb53fab98c5;0xa3f87bc900f1a;0xb8af6f5a87a4f;0x7f30b11bd23];[0x0;0xf92f58ec95921;0xe4156d7ce528a;0xf116a863878d;0x185a533706696;0x7b1e65896d850;0x6b04e6996e2b9;0x6cd9b7cec0a8c;0x8669dfe9b5122;0x76ead358efc57;0x66cc866e8e1];[0x0;0x2a80d9816e9e6;0x72869ec1faa1a;0x6b69b4d4c19c1;0x6d2513a0a957f;0xc03bc94cc6be3;0x39e0193fd8eb1;0xcc4ce0eefe272;0xa35339f74f997;0xb1d04862197b;0x9d5e6c2f717];[0x0;0x46da2fd91b37a;0x20db31f496802;0xca10441c9ac31;0xa6fa1c34a39e6;0x50e7acb326e3f;0x49a86466f4992;0xffcb6dae5b4ad;0x18c88255ce76e;0xd38e5b430245e;0x132816d82d3];[0x0;0xf749d25a5c298;0x1a08fcacc0ef1;0x8b5faf4c798ca;0x3dfb8ccace30f;0x775a1044f6cc3;0xa542104c0282d;0x36ea1ad6ca704;0xe4a11e413e887;0x16af471581da;0xdc196aed76386];[0x0;0x5f7c40e1ef224;0xd8cf918960b4d;0x55fcdf61a74f1;0xb254aa182a6c3;0x7241f95a019f8;0xc20e3c07e8b1f;0xb6d15d75d47c6;0x2e47cd4d7c08b;0xc937515461faf;0x66c2aa643af]]);
 ((V [0x8c2400b7c01df;0x577a0969f2b32;0x78de19d5a579f;0x2e1cf5dc3c592;0x6fda3f082a205;0xbf205b80f770f;0x60d9ed4047a60;0xb4f018cf64b0f;0xc8600baccf26b;0x1af930e9ced] [0x4b48bdac206f5;0xcd7a286272009;0xd4ff7baf97f3c;0x489c6f57a0c3a;0xf6a39b21777e1;0x54c0ec3a1c35;0x9b0a1b82504f1;0xfc51397eb6e04;0x9ce542560fb38;0x9b1ccd10861] [0xa27be142632d9;0x88fa0be399311;0xfdf79277c6a6f;0xc9d5a76cbb2df;0x8a6ad0aeb2390;0x3f89b3869f43a;0xfffecaadd8735;0xd27dd504ff0a8;0xcca546bdaf949;0xd3370cad678]),[[0xa96c11093fe66;0x44923dbd42680;0x6ba6e241e301;0x594fd35d3f4d2;0xf5924d3fdf43c;0xd3b9e3b83c993;0x75aa16c1a7a0b;0x3fd1f52c6a374;0xdb2a69e27a54c;0xfb23e5d6145];[0x9962f1de67c33;0xad6a861c18839;0xea1d5c6efd127;0x7d9b099efa8f1;0x44253eed9c4c4;0x9c6e75b69ddae;0x909fa4f5b5474;0xf4963eb6bcc67;0xe197047c6350b;0x40c714dcacb];[0x9165c862f0832;0x9629cdd90f143;0xe28ae10e50b1c;0x1f54c11f09650;0xaf0e599257c77;0xdc1cf516995c9;0x1eff4a4ea5549;0x3ebf4f6473449;0xc090ddd9720b2;0xe108131380b];[0x9165c862f0832;0x9629cdd90f143;0xe28ae10e50b1c;0x1f54c11f09650;0xaf0e599257c77;0xdc1cf516995c9;0x1eff4a4ea5549;0x3ebf4f6473449;0xc090ddd9720b2;0xe108131380b];[0x3158ba143122e;0xd5e29781acf0;0xf3dcaf192684a;0x5e4bdc928295f;0x3358141f5619f;0x47f3b64b8e4c;0xad9929b329c34;0xdb01533bf3782;0x2e898e1f0f4fc;0xc9e1cbf0827];[0x680a37ca367cd;0xa00c5ca3fdb49;0xf640ad55d68dd;0x1f4f2d0c77f91;0x10cd2ace46325;0x97ef3a51e4f62;0xe3067b428b840;0x1994eb7ac94e4;0xb30d765d5400f;0x76e548ec2a4];[0x0;0x2806a03a002f6;0x2ee163a1534e8;0x3a5f3e689523a;0x73a05ffd3f248;0x26c3799e1e399;0x1204f006bf3ea;0xe37bed507cce8;0xf6733072f97e7;0xb18dbbfb2d8d;0x8b28bf7eed2];[0x0;0xb4e04ef6c927f;0x22a350ec386c5;0xd774ee4c7b41f;0x13ce633f99324;0xedbdf8f61329d;0x22586b5b1d1f5;0x3f76773a18b0;0x6c433172fe3a0;0xa59822e1baa02;0xdcc278d7229];[0x0;0x5f7c40e1ef224;0xd8cf918960b4d;0x55fcdf61a74f1;0xb254aa182a6c3;0x7241f95a019f8;0xc20e3c07e8b1f;0xb6d15d75d47c6;0x2e47cd4d7c08b;0xc937515461faf;0x66c2aa643af];[0x0;0x5f7c40e1ef224;0xd8cf918960b4d;0x55fcdf61a74f1;0xb254aa182a6c3;0x7241f95a019f8;0xc20e3c07e8b1f;0xb6d15d75d47c6;0x2e47cd4d7c08b;0xc937515461faf;0x66c2aa643af];[0x0;0xc7e06e976059a;0x44ce8221df52f;0x45e9e9c766619;0x2815a4f4a3c1b;0x6824c93baa04d;0xc92922366f4e9;0x79e72d34ac978;0xee4f02db3fbeb;0x69d2b8611742d;0xbbff3ffd617];[0x0;0x8f5239dd9ca54;0x8f84bd30c6bd;0x9850cc5ae95e0;0xe0485e0c2c581;0xb4a8a4caab36e;0x2bec5ebb61c91;0xa94b2b5013d24;0x68c471dcf78a6;0x7915611fc7331;0x382b64addde];[0x0;0x27605a97c23d8;0x230b8ffb0886a;0xa74fee4849a2;0x7109baef44850;0x829dcd6c74658;0x58bf7d787611f;0x6f145d3171726;0x6c7375ebea272;0x2b080e81f9539;0x6d3462231a];[0x0;0x2b066bc36c307;0xbab29254c4f1d;0x9db30d80bfa1a;0x7c71d2ce906bf;0x39b8b35e433fd;0x337cb33e97d4c;0x9a23937c45558;0xd153f2cbd893a;0x96396b2d4bc62;0x9b90aa0a4b211];[0x0;0x15638072349de;0xea2b182ead83;0xbf573c402cf8f;0x5fcb8085664f6;0xa40c7671e1e66;0x4e545893f6d0f;0xfe7b7f4ded510;0xc7efe17369627;0x196322a7289aa;0x1057e97a33b]]);
 ((V [0x8ae9ecb093dd1;0x9ffba379b23d7;0x22bc74d3de5fc;0xd9f7872fc7fa2;0x2d6a962eed7c7;0x3812d633b313b;0xa8b453a9aaa44;0x6772f22a14e6b;0xc7a62352f22ea;0x1f153e82d42] [0xe70b01139cbc3;0x3e826300b69bd;0x8a5d462d52f97;0xfadda05d5dfc6;0xc7e6ebf61e2de;0x42635c0382632;0x4d2ade4c97bb3;0x3f8ddc35f1d56;0x9dd9a80663e95;0x33fcdbce8ad] [0xc85c0c5fa9c2d;0x3f00c5c670096;0xde2cdb45ccc1a;0x1888c6ee8e748;0xe8b66fb76b119;0x2e27448a9accc;0x67f319f9cb831;0xdb0d331e86c50;0x1f31a4d9c215;0x754814cbb0b]),[[0x2c04aac057dff;0x4b8c81da65eff;0x7da2351dc0ef8;0xb3dffb9c81c7b;0x283a5f66b135b;0x666034d89fa50;0x4d2cb49ee2a9b;0x726f3bee205f5;0x6233ff9336990;0x40101a532ff];[0xdca08e5b3920a;0x1410baaa3bcaa;0x369c88f29e7da;0xb95aab79a9b92;0x6ae8bab3b8494;0x7b4a488dff71b;0x42fe482897e8;0x66d07d21af53d;0xac9b98afeadab;0x21e866bc883];[0xa27be142632d9;0x88fa0be399311;0xfdf79277c6a6f;0xc9d5a76cbb2df;0x8a6ad0aeb2390;0x3f89b3869f43a;0xfffecaadd8735;0xd27dd504ff0a8;0xcca546bdaf949;0xd3370cad678];[0xa27be142632d9;0x88fa0be399311;0xfdf79277c6a6f;0xc9d5a76cbb2df;0x8a6ad0aeb2390;0x3f89b3869f43a;0xfffecaadd8735;0xd27dd504ff0a8;0xcca546bdaf949;0xd3370cad678];[0xb39c1e18c6d39;0xed2710ffde4b2;0x9fc102efab30a;0xb99ac623b2b13;0x60c84c6119e51;0x85b01950860a7;0xcd2bf0a8b2058;0x404223892ef2f;0xc9b89bc581a20;0x7f1dad7fd82];[0x2904704272299;0x26e9a9aa5d7f8;0x96db8602f34cf;0xffbfe555f707e;0xa206e529e642;0xf59a2f3d79674;0x3703f3d9d778f;0x268e59988060d;0xe2e2fcea6938b;0xa2cab93cb00];[0x0;0xf98e4cb18caa7;0x79508ae651b43;0xc7ce8ebf6997e;0x3e9d7b3f9b4b0;0x64f3f7a9d85be;0x6c1068509a2fc;0x808a119f0e806;0xc86bad6f4b9cc;0xc948bc0932174;0x829d74fe725];[0x0;0xe45af1dde11fb;0x1ee600160d967;0x4b3d3c32ab192;0x5b12bc1aa32eb;0xde9ade084ab94;0x9859580fe2a32;0x131b647f3318a;0xd8a139f57512c;0xe936df2f6ccfe;0x34db0c545e6];[0x0;0x15638072349de;0xea2b182ead83;0xbf573c402cf8f;0x5fcb8085664f6;0xa40c7671e1e66;0x4e545893f6d0f;0xfe7b7f4ded510;0xc7efe17369627;0x196322a7289aa;0x1057e97a33b];[0x0;0x15638072349de;0xea2b182ead83;0xbf573c402cf8f;0x5fcb8085664f6;0xa40c7671e1e66;0x4e545893f6d0f;0xfe7b7f4ded510;0xc7efe17369627;0x196322a7289aa;0x1057e97a33b];[0x0;0x66cede9893cc0;0x412c034ca0bfb;0x7aaa23a6950dc;0x2592559ccc359;0xca31f7e5181e6;0xb24d51114ac94;0xbe81ec4279de1;0xfe56945f0017c;0x40d5565973269;0x5dfbe38f824];[0x0;0x4ef3de252d518;0xc28f0d48e9ef8;0xd9b450605d036;0x181aa94ee3a3b;0xeb19cd39e0755;0x4a82b0c57631d;0xbdc99c7155dde;0x1e4815f8e0a95;0x1b751ba30dcee;0x2d7907fae3];[0x0;0x34e5c0aca3d6f;0x9291548e79442;0x20dcdaf0a279b;0x611e63e8113b7;0xaccd7abd399ea;0x7ab80dc4bfb10;0xd16a13da224fe;0x9020aef0112f1;0x67936faf33f9e;0x41df4c8def];[0x0;0xe507407b01015;0x987418a6f4023;0xd787eb9703fa;0x98711688074cc;0x3e23f6956d228;0x3a1f22f6e54be;0x9d7c12052bd6b;0x431348c332f8;0x39111a4afbf7a;0x3429f5dfff88b];[0x0;0xab57b5615aca;0xee09554bfd7e9;0x896dfde31281c;0x7ba8e3fda0764;0x810c44a34f1cc;0x731dfb647;0x8674166824b78;0x7ce88b8c8b354;0xbd88f6e5ca5bd;0x64fef0dd97]]);
 ((V [0x14b9adfc5e00b;0xfebfcf74a5586;0x7ad283950d88a;0x17590f5e2bbc2;0x4a79d38e31ba8;0xdbfc51d41a894;0x641793574f732;0x2e686144b3cff;0xaa1d27d506711;0x11faa4ce438] [0x92618255e5522;0x28112aa3e662;0x4f2149d9e48c8;0x44f08c2604dc5;0x567f3524d1468;0x7fec2faedb710;0xa5a6dc1684b39;0x58bea6b2f2dc3;0xc03ebcd77465f;0xa7427b5cd92] [0xf6907c8fd2e0b;0xe1bb6f5e9b7a;0x24153555bc7cf;0x5d3f30cd9fe74;0x818d54ac85769;0xf9bd5735b72a6;0xeaa81562be59;0xd752a0f80ee2e;0x666f9e945bfbb;0x696030827ef]),[[0x33d894383b67f;0xa29dcb481335e;0xf2dcf15c348be;0xe39412b5021bf;0x27b4f8a427b43;0x8b7db72b08d18;0x6adea5668f3b3;0x62a02898be6af;0x6dc55f03e2303;0xab379c5bc29];[0x2dab8c68d47f0;0xfc4f966957721;0xe9c668f22cd7d;0x761fef4af9fcf;0x41e17a1ad9689;0x77a50a4af69ff;0xef9c16de787e3;0x22aa4c5e8cf49;0x91fe6aa1f5ba8;0x5364bccaf1d];[0xc85c0c5fa9c2d;0x3f00c5c670096;0xde2cdb45ccc1a;0x1888c6ee8e748;0xe8b66fb76b119;0x2e27448a9accc;0x67f319f9cb831;0xdb0d331e86c50;0x1f31a4d9c215;0x754814cbb0b];[0xc85c0c5fa9c2d;0x3f00c5c670096;0xde2cdb45ccc1a;0x1888c6ee8e748;0xe8b66fb76b119;0x2e27448a9accc;0x67f319f9cb831;0xdb0d331e86c50;0x1f31a4d9c215;0x754814cbb0b];[0x8d78e3397afc1;0xa80029076a311;0x8aad31659b9a3;0x45a2a72ae5a86;0x4acd5da91648b;0xa92c1de92c399;0x17256e94e17d7;0x3ee3b3eacb46e;0xd27a5e3dad8d8;0x95f97ac28d9];[0xa032a92f595f7;0x544f6d61ed40f;0x5f19378c913da;0x307d482014549;0xf7141c71c31fe;0xce78ec61ca665;0xd876a8499700b;0xe3c69873c1adb;0xbf840c64482cf;0xbd6b4208643];[0x0;0x3328da65506e7;0x72457ee562;0x6f67efe638d15;0x845902fd5f303;0xd4a6109d6abca;0x62d659bd8fe5f;0x30d4c389a2521;0x816c598cebe1d;0x65576715bde9;0x4886d8ef759];[0x0;0xabfc67956e885;0x53a8e86362361;0x4fe9f2b570236;0x27277d78dfadd;0x63462ed81d49c;0xc5609e2992562;0xa4b57a6128652;0xe9d6c91ce573a;0x9dbafda8233d4;0x4e70a0027d3];[0x0;0xab57b5615aca;0xee09554bfd7e9;0x896dfde31281c;0x7ba8e3fda0764;0x810c44a34f1cc;0x731dfb647;0x8674166824b78;0x7ce88b8c8b354;0xbd88f6e5ca5bd;0x64fef0dd97];[0x0;0xab57b5615aca;0xee09554bfd7e9;0x896dfde31281c;0x7ba8e3fda0764;0x810c44a34f1cc;0x731dfb647;0x8674166824b78;0x7ce88b8c8b354;0xbd88f6e5ca5bd;0x64fef0dd97];[0x0;0xb846ac5ee42f8;0xa387e2014f2f6;0x75c3f065ced0e;0xdb1aa5cf76d8c;0x8b434e30bde17;0xbf7eac4a649d4;0x77eccd77f3fe5;0x42f7bfb44ca3e;0xf336c5a6c1ee4;0xa8eb955c6a];[0x0;0x343e8f8386406;0xc1668056c475d;0x810441a4dc019;0x1349e2a2ba652;0xf6db842ee5b0b;0x3f8b938a11552;0x7b1ebdfff0e2c;0x4ca5ea1496564;0xd3691954bb41e;0x3c626e7001];[0x0;0xdc7697d91fcf7;0xc8af91c936258;0x90b94d573fe4e;0x1cb4dfdbf599e;0xecf690a7ace83;0x5db1293333f45;0xfd3af2beed467;0x62c3aaba44e7f;0x20dd2fc98bc84;0x5db5699924];[0x0;0x65a7bd7c5ece9;0xb810d775368c0;0x8fcc8319b01b6;0x48882b773056d;0xaea58cd141721;0x9611b736e53e4;0xc5dc06c9b57d5;0x22ab362431a34;0xdc2ddd6f37c9;0xa7b34178e54f7];[0x0;0x288915ce92e3d;0x5a8249dbe3064;0xae2ef995916f8;0x148a393c95426;0x1a76df3269f8b;0x3c9cbf1a7de3d;0x65abd402e1605;0x51f393220af40;0xfbaef93bbf560;0xbbf2ccafdb]]);
 ((V [0xeb0b9de742ae9;0x1df10d64ab8e9;0xeefb5d6a4afb1;0xcfe8657569700;0xd310c22ba12a2;0xdc4140476eb4e;0xffac87f38a9a5;0x6a29f0b7f594d;0x17fb3b8ee0249;0x9a06533a307] [0x35893000b3b2c;0x6cf24405450e8;0xc286933a2b8b3;0x8e9bb2fb15c97;0xc8c72248d113d;0xe3c75decabefd;0xbe558d9abb08a;0xc7dcc5b250548;0xb3f58d4ea848c;0x179d73418cb] [0x84910b2b19830;0x8799c7d1ab6c8;0x96dda73cd77cf;0x671f84123c37a;0xeede1fc23ea68;0xe1b644b04319a;0x8563b5316bf72;0x6fef23eab892d;0x527a58d272e21;0xd49aac03ade]),[[0xd58d42c123cb0;0x4747199bc707c;0xad63136bde3b4;0xa55f317b9e48e;0x990478bf58b84;0xd29095dc6d87b;0x5125ca3ee86b5;0xf4684ae2c275f;0x6f2d8acf019ea;0xc7fc94b2267];[0x72cac9574afed;0x4260e3d37b484;0xb54acc50115ba;0xfe7f8ceda28cb;0x2bb1f5c6e3cef;0xc3306f882505f;0x2b3f5b8ba962;0xc323c70e61ef8;0xfb4e7ce44a31e;0xc0a203686ae];[0xf6907c8fd2e0b;0xe1bb6f5e9b7a;0x24153555bc7cf;0x5d3f30cd9fe74;0x818d54ac85769;0xf9bd5735b72a6;0xeaa81562be59;0xd752a0f80ee2e;0x666f9e945bfbb;0x696030827ef];[0xf6907c8fd2e0b;0xe1bb6f5e9b7a;0x24153555bc7cf;0x5d3f30cd9fe74;0x818d54ac85769;0xf9bd5735b72a6;0xeaa81562be59;0xd752a0f80ee2e;0x666f9e945bfbb;0x696030827ef];[0xdac5b6d63e54a;0x72162d518d91d;0x2b088d043c212;0xf25c7478664f8;0x620921144885c;0x458e932f25f11;0xd62c4c9d659da;0xe891007864df1;0x7017966a51ed3;0x3c6dbd62c83];[0x980512810caa4;0xd04ab681edb66;0x8a423f4bd53a7;0xc2318753c3d3;0xc9a8d4b29b493;0x7da1dc58ff14d;0x2c87a91b54f88;0xda92c695fd106;0x8b36e679f844a;0x84344605a2b];[0x0;0xf6e469d506440;0xb108b9659c39d;0xa32d3158cd9f1;0x57fb993bf763f;0x28fa62161a6ae;0xfe35255ce2fd8;0x421fce388c9fa;0x9f97fb2170d40;0x83f889f047cde;0x412a0921157];[0x0;0x6355a2876b345;0xf8a1259de4ade;0x88b9eeeec9267;0xda0ecad002fac;0xf125c50fc199;0xa6ddcfe5cf8ad;0x8742472742646;0x269a618d9439b;0x8ee3c3665c5c1;0x5251bd9a21e];[0x0;0x288915ce92e3d;0x5a8249dbe3064;0xae2ef995916f8;0x148a393c95426;0x1a76df3269f8b;0x3c9cbf1a7de3d;0x65abd402e1605;0x51f393220af40;0xfbaef93bbf560;0xbbf2ccafdb];[0x0;0x288915ce92e3d;0x5a8249dbe3064;0xae2ef995916f8;0x148a393c95426;0x1a76df3269f8b;0x3c9cbf1a7de3d;0x65abd402e1605;0x51f393220af40;0xfbaef93bbf560;0xbbf2ccafdb];[0x0;0xed880f3637af6;0x9d44d5e9c7281;0x752982e65e14f;0x5300fb7f81e70;0xa2894a66d9814;0xa25dbc52d8efc;0x93b8778f963e2;0x15bee9ebe91bb;0x9c22cc74a9e74;0x6d47ce36faa];[0x0;0xe663501159f83;0x2caa7af2f4482;0x8c30178cb476b;0xcc4320d4a41de;0x26e004471a411;0x81e4b1ebbcd65;0xfbf1d84855443;0x51fe03389a625;0xd40fc680569d1;0x1433f49b1e];[0x0;0x8821a1c065438;0xc4d787a7fa066;0x3baf3ac34db83;0xa0657da878298;0x688efa8b9e19a;0x992c0d7f81ecc;0x294975edea531;0xbf192186e4f9;0xa1d0452bf23b6;0x73e63879350];[0x0;0x90801209b0311;0x698a485deab76;0xba84cb15c4c6d;0x5b6888b80f1aa;0x2700dc0db6588;0x6105bc2a9068d;0xa68f75c0fba8;0xe9bbe11f882e1;0x5347dd61ca12b;0x17a34bac69b4c];[0x0;0x4cd630125e44;0x1e7400526998b;0x3978ad32ddbf8;0x3f936f5dd526;0x9bc6db4da4e76;0x638592c4b4506;0x3fb83db32b2b6;0x3fce587465821;0x44bdd5ec6ae00;0xe354cb38cb]]);
 ((V [0x3717bfb772423;0x197ec3ef31580;0x457d74c66c1ca;0x8264cab626c63;0xa14a311ee75c8;0x8618d98471f33;0xee1c8290ab9f8;0xa01eb88e193f0;0x4745d6ca05dc9;0xf38289cd1d9] [0xd41f41c82d9b;0xeaf2da945fbe9;0x8daa7a7a10608;0x981bab6bf9739;0x8b32f057c538a;0xf0988095729b;0xb8a272667f730;0x587959b68888a;0x2ffcadb51ef39;0xe7ff30bf1af] [0xd02ea9747fc43;0xf905a8d0218e0;0xcbdc0f183f5f8;0x1d09438b2486f;0xded61b39e4ef6;0xfe69832402af9;0xb63b032e24c8e;0x4457e2d57d921;0xa221b4a704551;0xa9d1e0e99]),[[0xa57aac8fef32c;0x5bbb18872963c;0xa0dd1cd77e190;0xf4e805dac0540;0x6f04c74b78412;0x2d2fd58cb863c;0x9b535d8949af9;0x353706ed531db;0x874dcc238345e;0xdaa7ff48587];[0x6bc13f23c7959;0x6bdef0a81bd79;0x332ecd9eaaa0d;0x1f14e12d1c216;0xfd0173a0cd2f0;0x3b2736dc7e13d;0xa30031465e806;0xeed48aa231e4c;0xfc8d41733819a;0x7a35dc55710];[0x84910b2b19830;0x8799c7d1ab6c8;0x96dda73cd77cf;0x671f84123c37a;0xeede1fc23ea68;0xe1b644b04319a;0x8563b5316bf72;0x6fef23eab892d;0x527a58d272e21;0xd49aac03ade];[0x84910b2b19830;0x8799c7d1ab6c8;0x96dda73cd77cf;0x671f84123c37a;0xeede1fc23ea68;0xe1b644b04319a;0x8563b5316bf72;0x6fef23eab892d;0x527a58d272e21;0xd49aac03ade];[0x52a55b42af4c8;0xe2d5020b6dfcb;0xcb3618f1aa602;0xe0d927e7dd630;0xb90fb0fd70ff9;0xf5b3927a09bfe;0x328ad4de5a77f;0x4dff5a87c69d7;0x1fc92e63a6747;0xbeb75751545];[0x191be3e118259;0x8909ee9caddae;0x67f8b4ad0040a;0x3e3bb9453ebe5;0x43f1c2a35c2f6;0x4573a4627453f;0x70755c6804086;0xa0d5301a6b475;0xdcc4130f91a53;0xbb7e85041cb];[0x0;0x456b9f1ee258c;0x9db6d7c4d611;0x180ade6d4990a;0x3f48852cdaaf5;0xa5b19ed6c7f40;0xab02c2d51a583;0x20a667691146b;0x4940e7ec26d4a;0x6602e10876a0d;0x83795f95d0c];[0x0;0x6e1d0957135e1;0x969f237e0ec55;0x3cd1ae115cfc9;0x99bc8d529b4fb;0xb83455a8a77a1;0x8a479a032afba;0xd3721c40a2a19;0x22a1fd6223798;0xcd42f53cd2ab0;0xb5973b637ec];[0x0;0x4cd630125e44;0x1e7400526998b;0x3978ad32ddbf8;0x3f936f5dd526;0x9bc6db4da4e76;0x638592c4b4506;0x3fb83db32b2b6;0x3fce587465821;0x44bdd5ec6ae00;0xe354cb38cb];[0x0;0x4cd630125e44;0x1e7400526998b;0x3978ad32ddbf8;0x3f936f5dd526;0x9bc6db4da4e76;0x638592c4b4506;0x3fb83db32b2b6;0x3fce587465821;0x44bdd5ec6ae00;0xe354cb38cb];[0x0;0x35ca9c1b76ef8;0x4af4b4f10bd5a;0x6a05180e40bf;0xdcf3317e43902;0xaf1b0725d7239;0xea00b8fdb5b04;0x3db3a5d3558af;0x771902947eb37;0x43846a8949c1d;0x22dab8c599];[0x0;0x2408f00ff6c88;0x7f9bc5364d329;0x33e54d3e563af;0x5c9e98902120f;0x557f6941757a2;0xacc2334cbb190;0xaeb64cb44d96d;0xf2366651be817;0x19b99cc522f77;0x5cab9c4a041];[0x0;0xc41be5096d1a2;0x98dcc5a9068fd;0x190f88dde39c8;0xfee4c793cf4d4;0x9e2f4d10d2f45;0xc1fa965f019b3;0x37df8bf3ca380;0xf3d4b94bddd7d;0xf88385a4e2ef7;0x743f7147bbd];[0x0;0xba4e93239409;0xc50565abc02cd;0x9542205e309d6;0xc4910647b6ff9;0xfa4be3a44de11;0x864e204f99640;0x2aee6bbc81496;0x293a315972501;0x50b5bfcb354a3;0xe8786f831d277];[0x0;0x7e19a638deca2;0xeb7ee1969b4ec;0xb55c2bdefe08a;0xf1108669dc956;0x2414458496675;0x4875b14bd49f1;0xa8ea830526b13;0xaa07aed6718d0;0xf182a3371f0a5;0xdcad87bd9ad]]);
 ((V [0xa80151c257a13;0xe9fc017c4de8b;0x8acac947fffcf;0x3dc152deda15f;0x31ebec7dd48a2;0x33c7dd3dfca0e;0xc99fd72cc0b65;0x10fa0b9780be5;0x6def225725146;0xade01d3ad51] [0x8b560d5bf4f5b;0x68361fb98a402;0x6f25311ff75fc;0x31dba6b67764d;0x579827c985a82;0x68f00fdb98f1e;0x3f75935f0e0de;0xf13e44e32743e;0x5b232830f29e2;0x366c774a091] [0x7c55d19608173;0x4f20fa25a4de5;0x2f08e21f1bd21;0xa9a040778b92b;0x6f30c1ad60e3c;0x8308111197a74;0x144917d44078;0xebe372275d702;0x5972e640bd561;0xf249cf4b739]),[[0x20beea0ce6f04;0x4abc510fb8fab;0x396334a71e3b5;0x8eb68b25ffa86;0x6a00d39aafb9d;0x73b301666ee8e;0x1f411935219aa;0x661aedad7e5f;0x238f3efb78ed7;0x407af2bc293];[0x21f771393a7d4;0x9a911a70a2eda;0x7751bea8d857f;0xf2367d14dde98;0x919c82afde419;0x9c9e1f0f86369;0xec1d38ab8ebe0;0xbca941da66f00;0x5d5b14f4655d3;0x4a0b1854b20];[0xd02ea9747fc43;0xf905a8d0218e0;0xcbdc0f183f5f8;0x1d09438b2486f;0xded61b39e4ef6;0xfe69832402af9;0xb63b032e24c8e;0x4457e2d57d921;0xa221b4a704551;0xa9d1e0e99];[0xd02ea9747fc43;0xf905a8d0218e0;0xcbdc0f183f5f8;0x1d09438b2486f;0xded61b39e4ef6;0xfe69832402af9;0xb63b032e24c8e;0x4457e2d57d921;0xa221b4a704551;0xa9d1e0e99];[0xd0f5be6a30ca6;0x968324ecb34d3;0x405c7c2e76496;0xff9b69d6db40f;0x54cf203c08cc2;0x1a03ff263f6d6;0x2429490a01f16;0x817410baa012a;0xa89a9fe6cff89;0x418c2a72678];[0x5101b2cf09b2f;0x40df583efa06;0x36f5427a620e9;0xf29b133e02a89;0x3ccd6273d5756;0x829a1fe946c93;0xc7f3efa18ccca;0x3b35311fc6dd6;0xb4c0750d9564a;0x87eede24a7];[0x0;0x6875f8b48c3b4;0xfd059520f2109;0x5429745e95070;0x41a229dd9f687;0x3ca21f2e4006;0x56125de3317ba;0xe0ff9202a407f;0x395bfcc1e8b99;0x3b0956ae6c2b6;0x69042ea2b];[0x0;0xa4c5a88d5808;0xce2df171af7f9;0x7b09e29d53789;0xeb7dadae738e5;0x7e2210fba421;0x580d065208aa2;0x308809f74dc87;0x65bb464dd88b8;0xdede8201e231b;0x2ac60744c];[0x0;0x7e19a638deca2;0xeb7ee1969b4ec;0xb55c2bdefe08a;0xf1108669dc956;0x2414458496675;0x4875b14bd49f1;0xa8ea830526b13;0xaa07aed6718d0;0xf182a3371f0a5;0xdcad87bd9ad];[0x0;0x7e19a638deca2;0xeb7ee1969b4ec;0xb55c2bdefe08a;0xf1108669dc956;0x2414458496675;0x4875b14bd49f1;0xa8ea830526b13;0xaa07aed6718d0;0xf182a3371f0a5;0xdcad87bd9ad];[0x0;0x6ce49d6c9335;0x5d96a0bf2e570;0xede297e481618;0x7e42f4ac699ff;0x6f6a79f3b706e;0x47212d3e21dca;0x1597c6bee9855;0xdf8ac793acedf;0x2727e074ad083;0xd23e885b08a];[0x0;0x3ee455c32f996;0x334f10676850f;0x3eed1e3afe66e;0x41821b9c42424;0x24fcece8f1fc0;0x399c6db73138;0xf6ced4f398c09;0x8f7faf1215fda;0x70db0d2d41943;0xe7a1142ba4a];[0x0;0x1523229c1636f;0x5a5136945a010;0xfba3b16e219fd;0x1fdc99d3c341a;0xe5b708ba61003;0x402f7164069df;0xf669e5dfb2828;0x3488937045d88;0xaa8d0410aa67;0x324a519acc5];[0x0;0x67e5ededa3392;0xe3583c82b3338;0x194aec934d383;0xcecf3a3a754eb;0xadc777db39109;0x8d70ea0a9a43e;0x16d21767c76a8;0xee94b6cfdc422;0xa7da18c7b106a;0x3693260b026b5];[0x0;0x9d2b58c361542;0xc3cb626db5c1b;0xa52b19e3da42f;0x7bfb10ff42b28;0x76a90be5ff13;0x38fa537e3468a;0x140115239f8a;0x3480a9b7f32e4;0xf222df6baccae;0x24f6f1bc344]]);
 ((V [0xc3859f5acacc6;0x2c47ef1db288f;0x549093735a393;0xa63f948cb9b50;0x9f21a74602a01;0xeb43cbbd3fe35;0x45a4b143b591a;0x4c3362ca6fb03;0x211ebd241bf5a;0x3d2b23772e8] [0x64d61958fbc9e;0xadf28d8ef74ff;0x16e5cc41df915;0x11ce9a6c47251;0x6f4a5c1aeb5d2;0xc8dc53e450e6f;0xa6e102e436c23;0x99430d30e5f4e;0x45f2d73b94d5f;0x8befd5d9166] [0xf727bb0a27714;0xb5b9682981e67;0x7fc0fc3b047b7;0x87ac0c6b5b104;0x21d02bfc06717;0x393b8e6e67499;0x2d7b20bb55719;0x27c11782b3fc3;0x3f4842073113c;0x1e023bdf0ff]),[[0xd7cfef7afa42d;0x7f93eb6490871;0x7e05645350b1;0xaba70cece01e5;0xeadbc1a71b7e3;0xa71086e340d8e;0xc15a68f6a6e46;0x78b22a64dcd80;0x40963e14d899e;0x99b1f4ad780];[0x53713f59a6928;0x59d487d3f4eab;0xb591ecb2dc44e;0xd078c3d5a8a0f;0x1fff6c346894c;0xb5eaf758695a0;0x6fd306523d2f7;0x26c37f9504ee9;0x26a5514ead70e;0x9496b0913e9];[0x7c55d19608173;0x4f20fa25a4de5;0x2f08e21f1bd21;0xa9a040778b92b;0x6f30c1ad60e3c;0x8308111197a74;0x144917d44078;0xebe372275d702;0x5972e640bd561;0xf249cf4b739];[0x7c55d19608173;0x4f20fa25a4de5;0x2f08e21f1bd21;0xa9a040778b92b;0x6f30c1ad60e3c;0x8308111197a74;0x144917d44078;0xebe372275d702;0x5972e640bd561;0xf249cf4b739];[0x482903c68ab26;0x7f5378afb159f;0xd3533b14e6692;0x5473f0e652cb7;0x631b9a6facd5a;0xe6cec73255740;0x86aaca80514b;0x5571d2cc42946;0x8ec0f28e44246;0xe9032d161ca];[0xb483b931bbca;0xda810f244390c;0xe23eb19df5dbb;0x7c04d2ef55d57;0xbce3d1c4bbbf2;0xcf1c302613e5f;0x676859aa381ab;0xd151acc8c25a3;0x97e45ec0694c7;0xab93837b21e];[0x0;0xd13a5ec81c725;0x98ff4cd4f76d0;0x5e33af5b89f8e;0x9d6f38ba5eaa9;0x8788d94561001;0x4f7880b99eb8f;0x69df8d2fbbd9;0xfa8956b0775f4;0x3e29b8fb27150;0x95d4ab40dbb];[0x0;0x7c85626cb6779;0x6ad429ece04f7;0xaf1886e7e8cde;0xbfd09ff07374f;0x6b4080b6abf50;0xc8822768a7fed;0xa075982495393;0x28d98c0eb25ce;0xabd25ac7aa081;0x9176897ef24];[0x0;0x9d2b58c361542;0xc3cb626db5c1b;0xa52b19e3da42f;0x7bfb10ff42b28;0x76a90be5ff13;0x38fa537e3468a;0x140115239f8a;0x3480a9b7f32e4;0xf222df6baccae;0x24f6f1bc344];[0x0;0x9d2b58c361542;0xc3cb626db5c1b;0xa52b19e3da42f;0x7bfb10ff42b28;0x76a90be5ff13;0x38fa537e3468a;0x140115239f8a;0x3480a9b7f32e4;0xf222df6baccae;0x24f6f1bc344];[0x0;0x5879ae6f04335;0xcd4642f70a019;0xc81ebe5a0c32c;0x8e4ff042a507d;0xf60bc5f655410;0x3a76d0a21db44;0x63cd00443d3b3;0x3881debcafbb3;0x2bb5716717de1;0xb91f04819e];[0x0;0xea0d31a1e5d69;0xd99a7187224bd;0xed6d38500dd8f;0x576ee63bff2e5;0x15eab4c4b6327;0xcfb221ea0525;0x8d44181ee60b3;0xd1dde5b90bec9;0xc3325dc9cfd25;0x7618abb4ae4];[0x0;0xe352f86cb6ab0;0xf9b78a634115f;0x34799030b875c;0xf6a05f16761bf;0xa23181b8b5532;0x76dd38d321b66;0xf29c34f1fb240;0x96c2126ebdefc;0xce7a6e1f71e35;0x2380f1f80b7];[0x0;0x16285c07c467b;0x8ff477183d6f1;0xeb4a758bd8bdf;0x9df413afc3f99;0x6bb3851c99d48;0x7dab838a18577;0x60a418a499382;0x70c60a33e4f51;0xce8be175c813a;0x8c2a8ca842648];[0x0;0x1014836aa53e0;0xdbe93b84c4f4d;0x1871c3460a9ce;0xbe376793a5282;0xe1a2fcb04e6a1;0x65a178f2f32d0;0x9b5617c6db039;0x4ca2ab1003213;0x1f586626fdb44;0x216fbaa095f]]);
 ((V [0xaa9338a0ae656;0x39485f2449a39;0x357bc179c6ff5;0x1706d6cb4424c;0x3b71d6006d2ff;0x688dbd52b19e9;0xe657e07b8756e;0x106313bbeafa9;0xe9363bfebc4b2;0x53c097e0862] [0x864066466162a;0xc70dbb244db8d;0x752a014aa8ee7;0x13656907972e8;0x6d5ba0b160f8b;0x60845c66e252b;0xec6018a548600;0x6b5a3fbfc700a;0x6335eef387ebe;0x5a7b0d67379] [0x4e07a88046066;0xc9f78479525cb;0x3463e20eb057e;0xf53dd8f6786ed;0xd330729a43557;0xa70d852c24524;0x9106d19f28c75;0xad37e3dbbea2f;0x8eea933030067;0xf8537b600b3]),[[0xf10b3a9ca5883;0xa966dca9fdd19;0x9bdd076d0ce3f;0xcdd0d2818dce1;0xf0588c8bbeac1;0x23dfa24727edf;0xfe70f3c46421d;0x10ae475608309;0x1494ff311b4f5;0xc75659c1451];[0x8d902be3b0ba6;0xdb7fc903b879;0x1256c850db23;0xdc46d4bde6fa5;0x4c45aa88ced5c;0xc6bd28f546321;0x8e8efd0d2bb5c;0xf95becd849505;0xf966a53aed01;0x151cc7a45f];[0xf727bb0a27714;0xb5b9682981e67;0x7fc0fc3b047b7;0x87ac0c6b5b104;0x21d02bfc06717;0x393b8e6e67499;0x2d7b20bb55719;0x27c11782b3fc3;0x3f4842073113c;0x1e023bdf0ff];[0xf727bb0a27714;0xb5b9682981e67;0x7fc0fc3b047b7;0x87ac0c6b5b104;0x21d02bfc06717;0x393b8e6e67499;0x2d7b20bb55719;0x27c11782b3fc3;0x3f4842073113c;0x1e023bdf0ff];[0x828d8c4a31820;0x26d9fa549aeb3;0x9745a5bccebf7;0x21c0e45ba340e;0x3517dd5b1499f;0xa0b3d4540d13a;0x475dce9b880d1;0x5f12831ec0b6e;0x645431304df7b;0x8b8e4a44f05];[0xb029f997f14e;0xe6de023ba09c6;0x69dfc6c83ef2b;0xba85f06243b96;0x172dcd2dba3bd;0x260954a1391e7;0x47312e71a3a8b;0x9a4969b988997;0xab42392360d86;0x75c38235559];[0x0;0xcd929d171d45b;0x294262c5c5746;0x98dc3e89e85b7;0xc9bcd5f986b1c;0x6dad3f77e5a2a;0x8cdc3d595eb46;0x8da31c2856008;0x43322bf24ed7a;0x3fde755b023c5;0x128eae9b5ed];[0x0;0xb44a8cf9097ba;0xf34c1f16565ed;0x8a3f82efcfb88;0x701d44e063047;0xb5088e7e7f021;0x65bdb4583b6c4;0x52b9609d0b0fa;0x5d86ff3e9398f;0xe4f9ecbe7b7a0;0x175ddbcff0e];[0x0;0x1014836aa53e0;0xdbe93b84c4f4d;0x1871c3460a9ce;0xbe376793a5282;0xe1a2fcb04e6a1;0x65a178f2f32d0;0x9b5617c6db039;0x4ca2ab1003213;0x1f586626fdb44;0x216fbaa095f];[0x0;0x1014836aa53e0;0xdbe93b84c4f4d;0x1871c3460a9ce;0xbe376793a5282;0xe1a2fcb04e6a1;0x65a178f2f32d0;0x9b5617c6db039;0x4ca2ab1003213;0x1f586626fdb44;0x216fbaa095f];[0x0;0xc396202f62b7c;0x86abecbd85ba;0x8e43828ac4f2d;0x8ff3816caf864;0xdf5b586f04cd1;0xfeb62cc23c015;0xd17d0bc1d44dc;0x229e42a76e8e7;0xbc61f1109b35b;0x4c7e52eabc4];[0x0;0x201c8ce3a017a;0x5f965134dc4e3;0x92954a9a9f03c;0x9c9861ed27085;0xc86a8e36bedf0;0x343880f13b0b7;0x94d51581b8c71;0xb86b03d3c5ebc;0xd6a703db21c89;0xe9d962bbb1];[0x0;0x3a5e1fb06f27e;0x1baa7ee392780;0xd3d4d8279a48b;0x44a32e8db0df3;0x1104c96ca7312;0x90f08d156aa30;0xfb5124bf4af77;0x2af4b320eeadc;0x1ae52e5220844;0x6e836d684];[0x0;0x94ae0687b1c2d;0x61ac82ad2713c;0x71415839e5efb;0xea8604bb8c3c7;0x46c63a050780c;0x1d3f48bee7108;0xa1c2ed36e4037;0xbb7c0b4e3b7d1;0xe6bf8ff03b9c8;0x5ad511105ce2d];[0x0;0xfc3e886c8bc9a;0x5d8be7fcc4088;0x97d91ff445dbf;0x3e284103edea1;0x41ecff0d3b127;0xa757eb6b89a1;0xd09cb33e30d11;0x908212cc5facc;0xfdea0e43ee0d3;0x1d99f750746]]);
 ((V [0x7c5c9f9c553d7;0xa26f0cbd96c7d;0x90905985d2670;0xbfe015c769db9;0xbfc395b4efcd9;0x48b8c33a2a08a;0x7e8e5aaeadcff;0xf7189eb6b4fd5;0xc74f4865e3300;0x4fcd85fceb3] [0x2bb5dfc9922b1;0x891a3392aca7c;0xa0834bba1f60b;0xda7a00d8243bf;0xb311ff2215a8b;0xdd6a6d54d28c5;0x14b66becce64f;0x1da26e50172e3;0x94183bd809382;0x1f4a033003b] [0x39149c346e2f7;0xb33ac5d95020d;0x8c3be12d73919;0x5347b86f844be;0xdd569431eb8d6;0x1371f845e2258;0x32adf8bd81fce;0x55a74145f21ce;0x10734c18e5459;0xcd7b470b657]),[[0xf8d99f0012bcb;0x60802be916721;0xfca8d20360f4a;0xf81db94728dfc;0x2567bcec9a6c9;0x3a430c3609bf;0xc71a8a7844c30;0xe140ccd51bb65;0x96eca5c369322;0xbb3853668fb];[0x4f338268a5da6;0x2d6a946ed954e;0xe891318f3f8a5;0x59065cae6e584;0x5f709f2180c98;0xfb8eed82e7576;0xb865ddce284b3;0x9275943825e1d;0xdfcc279d8dff8;0xde3542540b];[0x4e07a88046066;0xc9f78479525cb;0x3463e20eb057e;0xf53dd8f6786ed;0xd330729a43557;0xa70d852c24524;0x9106d19f28c75;0xad37e3dbbea2f;0x8eea933030067;0xf8537b600b3];[0x4e07a88046066;0xc9f78479525cb;0x3463e20eb057e;0xf53dd8f6786ed;0xd330729a43557;0xa70d852c24524;0x9106d19f28c75;0xad37e3dbbea2f;0x8eea933030067;0xf8537b600b3];[0x30abb0a73b448;0xae472a137f695;0xd515cdffb8aa6;0xc1fcdf8f9d287;0xf90cf5449d463;0xc1b218f7e6674;0x6c38b117cb533;0x29637aa3c160f;0xa9262b823fdc0;0xf04eae8a922];[0x1e87d1c16a726;0x7f236a5b59eb9;0x137b638f86dfe;0x97097d1ed12fd;0x6663a9dce3834;0x39dcd48b00f01;0x4c2d2cb65cf80;0x691219946480e;0x36a5fc1b4e238;0x1d94a59aae9];[0x0;0xe0c7a172aa143;0xe6ee88ad5e118;0x4ed53e4d02853;0x63702e820bec0;0x9311903cc56f3;0x68884131c89fe;0xbb19eda8b7e2d;0xd20b2af9a5ead;0xc1416cd55d7ca;0x999082a67c7];[0x0;0x60d780fff50e4;0x7703d9fe52884;0xe656ced7bfabc;0xf0f3f063d6093;0xa9a04bc40e0b0;0xbe394fd1d6dca;0x84766f5a43fbd;0xbb80a5f013d97;0x2d868b458c5a4;0xb59b9e48b2e];[0x0;0xfc3e886c8bc9a;0x5d8be7fcc4088;0x97d91ff445dbf;0x3e284103edea1;0x41ecff0d3b127;0xa757eb6b89a1;0xd09cb33e30d11;0x908212cc5facc;0xfdea0e43ee0d3;0x1d99f750746];[0x0;0xfc3e886c8bc9a;0x5d8be7fcc4088;0x97d91ff445dbf;0x3e284103edea1;0x41ecff0d3b127;0xa757eb6b89a1;0xd09cb33e30d11;0x908212cc5facc;0xfdea0e43ee0d3;0x1d99f750746];[0x0;0xb5f4349d084;0xebd97bb61babe;0xa1af563b5bc07;0xc20456cc913a7;0x24cb5ef866892;0xfaa66e965504f;0xcf68615b1b360;0xf32584dd101c8;0x8abb72594764a;0x1ffac09274f];[0x0;0x34c6905a9ac52;0x879d30928fa0e;0x8d4cfc5a133ae;0xcd4df94a4afe0;0x4ff9748d76959;0xb24a08091259b;0x824f6b7eedc5f;0x39fa9a46e02f1;0x61ca5cdc928f0;0x1b66735fc1e];[0x0;0xfccb59751dce3;0x13130a2323a68;0xd8e92a75ea18;0x894cd77d56ad7;0x9ca4b3751909b;0xc7538e28fa92;0x15475ef80fe0c;0xf8e02abedc2b4;0x9e500bec1b34;0x4544d46b41];[0x0;0x9a7c4c3c78e9f;0xcf4bf68934276;0x2f0c4918e2e3c;0xbacdd855c673;0x2073e1155e00c;0xc69ba60d626fd;0x1d845cdd0b1b8;0xb08a0452e670;0xf1f2a26de975f;0x1f679aa820a28];[0x0;0x470e9024d07d0;0xfce1fa89ecd09;0xb24fbb2614d18;0xe0781f96c24ab;0x3d54195039637;0xfc97de83d9b43;0xf2e6e52e574e3;0x900c900a0fffb;0xc9055467457b4;0x9c0f5a0bbd]]);
 ((V [0xeba2ebb30b4c;0xed0a4297581e1;0xaa505bc5d25b4;0x5f43a75a3c82d;0xec64bcc2533c0;0x64de63f06b2a7;0x3007e2ee3163b;0x7cc3982c78896;0xac59535c75a18;0x126f7434a92] [0xe16e13744bdcd;0x49ccb06fc2971;0x84a459a3e08a6;0x76d5ed459de1;0x47bc3eccde553;0x4e3df4a154d7a;0xddfa5017b7bd3;0xf40cc23aef86c;0xdc3a6612d2383;0xc1a1fd64a95] [0x3636f3cb7320c;0x74ef180d04812;0x37a7a5fedebef;0x1a90e0783ddac;0x78a6afb890471;0x5603eacd4aba5;0x232222a36aaae;0xbc08a040ecb21;0xdac1e8d071ed9;0xd6b2cbc5323]),[[0xc3ea6d7b247c0;0x3c33ae7b04fb0;0x7cc9dc140b391;0xcd90733968e3a;0x8ad7117e23455;0xbd3bc17c1879b;0x69a1850e0a5b1;0xc426f4f37726d;0x9ce10f15d6813;0xef0c634c62e];[0xc572969264524;0x5bb39bd3683b6;0x7886c85b3472d;0xd4d0897be414b;0xf8139235c81b7;0x527854ce1a509;0x59e778f5cb8e8;0x7fd400a3e084d;0xcff6c61cddd67;0x3e476927ea0];[0x39149c346e2f7;0xb33ac5d95020d;0x8c3be12d73919;0x5347b86f844be;0xdd569431eb8d6;0x1371f845e2258;0x32adf8bd81fce;0x55a74145f21ce;0x10734c18e5459;0xcd7b470b657];[0x39149c346e2f7;0xb33ac5d95020d;0x8c3be12d73919;0x5347b86f844be;0xdd569431eb8d6;0x1371f845e2258;0x32adf8bd81fce;0x55a74145f21ce;0x10734c18e5459;0xcd7b470b657];[0xa223d744e639;0x82fc89be517c8;0xac33674d0e92c;0xb8d2eace1538e;0xc86e4d26c47e9;0xebe1a093a142;0xbe6aa81eae63;0xe881d1187b5a0;0xc376b323ff7ff;0x755536ffe8d];[0xbb50591e15cb3;0xd8b7121516bee;0xcc53610e25e00;0x1bfd9eadcedbc;0x2fa5450f039ce;0x43ba3ac4e03c7;0x4e00ce73e0a85;0x97522f8b652ad;0xc8012f8de567;0xc8f23228013];[0x0;0xaa8618b90f410;0x170d40c8c5ff6;0x231321f9d301e;0x1ea28c4af0a91;0x1c718aaf89c65;0xe7436e2a588c1;0xef81884c4d733;0xe217b3faa0226;0xc508ea3994b62;0x7f11c9fa1e8];[0x0;0xb499c653f9204;0xfb8286ac63171;0xb522bba026248;0x844ecf7ec1908;0xf013b017bef66;0xf5df3dbfdc477;0x896d778202437;0x64181e82fc808;0x4a2703d54ba1c;0xbfe008cef4b];[0x0;0x470e9024d07d0;0xfce1fa89ecd09;0xb24fbb2614d18;0xe0781f96c24ab;0x3d54195039637;0xfc97de83d9b43;0xf2e6e52e574e3;0x900c900a0fffb;0xc9055467457b4;0x9c0f5a0bbd];[0x0;0x470e9024d07d0;0xfce1fa89ecd09;0xb24fbb2614d18;0xe0781f96c24ab;0x3d54195039637;0xfc97de83d9b43;0xf2e6e52e574e3;0x900c900a0fffb;0xc9055467457b4;0x9c0f5a0bbd];[0x0;0xedeb4b376c698;0xc343ece3b9a00;0x66786965a1ae4;0x409c5d10ec932;0x2a2e47bbc3439;0xf158ede621a40;0xd2aa0602dc0a7;0xb5afe76d1ef09;0x32e0f851e377f;0x3d3022b78b];[0x0;0x37d6386284732;0xf91ac6a1c71ef;0x805ad98453efb;0xfb11c91bf8b28;0xc31eaf4296462;0xd94b151b0e193;0xa85c71b16fe42;0xa93ecb2a78206;0xd54f0341b85e;0x18e07db1f66];[0x0;0xdc8b55e30bf82;0x9fa888b0337aa;0x177d243c3d4fb;0x161237685242;0x68eb92dcf2cd0;0xa9964f37e6840;0x4e73232545f90;0x2cf8e98dfa147;0x263f5a7e00e74;0x47c22a0921];[0x0;0xaf08bf8e90fc1;0xdf762ec716cd6;0x10acf3eeac031;0x790532d3c3409;0xc090dadf89479;0x68e85689a6dbd;0x716aef87ec581;0x9833e08d22a8b;0xdf16e83dad18b;0xc234842338bd8];[0x0;0x3d68dcd269bb0;0xad68f1a5b7c47;0x9a5be686459e5;0x548bf08609811;0x5a3a5e9eec8ca;0xfe99dd212310d;0xbf57a86945381;0xd22afda5e9907;0xb66e7f5f364e3;0xdf1b0f32e3]]);
 ((V [0x431f1bb1a433d;0x33e32f7667226;0x430cfba577036;0x91e01e266672e;0xd392cb1727110;0xec8dd5144e47c;0x44a2a4be11f7f;0x4d749e69d22c2;0x922939e2b1c78;0x11df5b0f3ff] [0x852abb63308fc;0xbab8866cab937;0x64e3c1cc13c83;0x70b20bdff6c5b;0xac1a67e7dc5ff;0xcaee9708a17bd;0x6dafc26a7c14b;0xf7c06fe1901cb;0x2db6a8aa964b1;0x444fd120b39] [0xaf2e6b12e43dc;0x20ee9ffe57d1a;0xcc305fad11c6;0x743a0d73e1a3e;0x1c26f06e95a55;0x356bddc38588c;0xae1a89ca905d1;0xb89bf4533b5ff;0xb43e3f9a39bf4;0xdaada8e9d41]),[[0xd9ae0f6d3a181;0xb2313e91f4d55;0x10df455a52326;0x3de6ce8ca7ba3;0x5f55c6b36d6ac;0xc5d26edded9c2;0xa340fa6264c14;0x30326c52a31fb;0xaf05b5aeabf19;0xb465b4b123f];[0xda824e3f9dd99;0xfbea37a9c2251;0x4371d507d73d1;0x231084e230030;0x5439a78830659;0xf42e42e685fe8;0x22ed196deb8b1;0x6baec459969a9;0x27835a812a4cc;0xe0aff422c38];[0x3636f3cb7320c;0x74ef180d04812;0x37a7a5fedebef;0x1a90e0783ddac;0x78a6afb890471;0x5603eacd4aba5;0x232222a36aaae;0xbc08a040ecb21;0xdac1e8d071ed9;0xd6b2cbc5323];[0x3636f3cb7320c;0x74ef180d04812;0x37a7a5fedebef;0x1a90e0783ddac;0x78a6afb890471;0x5603eacd4aba5;0x232222a36aaae;0xbc08a040ecb21;0xdac1e8d071ed9;0xd6b2cbc5323];[0x82df583318c1d;0xde68b3f0b35cd;0xb393da1a119d8;0x40a281a10fe2b;0x484c814a36932;0x91c4535c879b9;0xebf99e84736eb;0x5c4c496d01cb2;0xb794993738ef6;0x5067e06c01d];[0x57a2f60c8517d;0x1d8183b90ec84;0x8fddfaedc59f9;0xe26e034120204;0xbed263df9d26;0x6269ef89fe62f;0x36f37ae9781c6;0xf627aec94cf6;0x6feec149f15d6;0x904813b6c1a];[0x0;0x4f130bbc4dbc9;0x15e4c4512d448;0x81da2e3015445;0x39a2ca7206311;0xfac4dce76c0d6;0x79b7defc102d0;0xa3a4e83db38c1;0x8bbe01e682bf5;0xaa33a01f76a47;0x84c4e964f5e];[0x0;0x2b58a4485c1f5;0x8c92545fcc4a7;0xde6594bc164b2;0xecd9e4e1284c3;0x95ee30d8a1240;0x3666fa30e0097;0xe2badc36cfe0f;0xd3f4a3ae25663;0x2a010ae28aa13;0x974b035b533];[0x0;0x3d68dcd269bb0;0xad68f1a5b7c47;0x9a5be686459e5;0x548bf08609811;0x5a3a5e9eec8ca;0xfe99dd212310d;0xbf57a86945381;0xd22afda5e9907;0xb66e7f5f364e3;0xdf1b0f32e3];[0x0;0x3d68dcd269bb0;0xad68f1a5b7c47;0x9a5be686459e5;0x548bf08609811;0x5a3a5e9eec8ca;0xfe99dd212310d;0xbf57a86945381;0xd22afda5e9907;0xb66e7f5f364e3;0xdf1b0f32e3];[0x0;0xfdfec056b5594;0xe1eb6e3cb9852;0x90550bb17cfa5;0xcded637179d34;0xc184c4753caa5;0x761bdcf6f42ec;0xf81e1d2c70d7;0x2e21dc3e02cb4;0xc87490bd0ef0c;0x9275a6927ac];[0x0;0x261d4d307a655;0xf34ebbcbf8842;0x53c6e231dd572;0x7958480d32204;0x5c1ef8414f167;0xf8e20f225c33;0xe87a4c56562db;0x83e0542283a9d;0x47b043f2da8ea;0x153dcdd623];[0x0;0x6291287c3d396;0x90f218b61108f;0x1fc50451ac1c6;0x467045e6baa05;0x8e6dc6cfe4948;0xe7eaab28ea47b;0xa11992844e26d;0x9efed456c8ebc;0x198bd0e7c45b4;0xfafb867e78];[0x0;0x98c31e94023b;0x6ed2a46fbf3cf;0x8e01b0505da0e;0xa390dafa91908;0x8278eee8890be;0x85ed871de17a2;0x6507e56ae447d;0xdad72afa59913;0xa762c53775bf6;0x44582c272259d];[0x0;0xb3fd000de4a50;0x52c54be5dd73a;0xc6722bcf890ab;0xcd5e3888ba24b;0xb64ec6d3d579d;0x33e6ed342a38e;0xd973f484c96b;0x44b2fd1729da1;0xf2d92616dc351;0x4c4e6b6c87]]);
 ((V [0x6cad312a80ce1;0x228b290221fa0;0x9619024df5350;0x52c4f92d599ac;0x7565b02fd43ff;0x4a765fd0ddae1;0xd86d802901185;0xa930ca6a53f21;0xe4061eb164bab;0x1f50f3fea77] [0xc065a93726915;0xacab6cead3607;0xac89c9dad590f;0x30f88475260e0;0x50424ed86fd29;0x3f33093e356e7;0xa6ad4457e675e;0xa785b25c2e864;0x873187f5ccff9;0x643c87dceb7] [0xb317e278c88f2;0xad3f8bae403bb;0xf522973713614;0x61be5acd5521f;0xdb64de84eca43;0x21d93173d1e6b;0x629dbe6d5523c;0x79ce2ad4ca538;0x5403f171aa567;0x2412ac8cee5]),[[0x7575245d40ed;0xfccd0da613ed0;0x3c35f905a8821;0xaac9a03532c7c;0x7e69e4cb71331;0xfa81298ed6a49;0x6209aec9d7c16;0x71ed0e74c1170;0xe0cc4bd05d314;0x46c7ece91c9];[0xc9fe59f4b1f22;0x1dd729d717979;0xc50c18fe9100a;0x4224956b0ef3f;0xe88b093938665;0xc5cb69e836100;0xbabbf93eb8db2;0x8acca67da177b;0xd8dcd25422ff9;0x25b0c5c72cd];[0xaf2e6b12e43dc;0x20ee9ffe57d1a;0xcc305fad11c6;0x743a0d73e1a3e;0x1c26f06e95a55;0x356bddc38588c;0xae1a89ca905d1;0xb89bf4533b5ff;0xb43e3f9a39bf4;0xdaada8e9d41];[0xaf2e6b12e43dc;0x20ee9ffe57d1a;0xcc305fad11c6;0x743a0d73e1a3e;0x1c26f06e95a55;0x356bddc38588c;0xae1a89ca905d1;0xb89bf4533b5ff;0xb43e3f9a39bf4;0xdaada8e9d41];[0xf713edddeea3;0x5b2a98f378f23;0x8daad8e1f0763;0x684490344500f;0xf2e5ee3aad7b3;0x8be38d4e47dd7;0xe17b1f5002959;0x7cc6f9d024edd;0xb2c7be9eeb7a4;0xd0738fc5e64];[0xba8d1b16d2e47;0xc2ac90e39ea56;0x3761401ca08a6;0xd9e00536c9f30;0xf5a51afe8aeb1;0x39e7dc99ee328;0xd940d9eeb6459;0xe05acad7c89d;0x261513b537855;0x553d3601469];[0x0;0xbed8697f0dd95;0x1df93aff4866d;0xa099a0215fdb8;0x52dc11e6dcf5;0x347d19ed69cb2;0x19c0d6926a216;0x2370d37e9c1f1;0x8fbced6d76d9e;0xc87ac7aaddc3a;0x873af9c01fa];[0x0;0x9a48215cab826;0xfcd7e848fe72d;0x14797de470ada;0xdf65531f7c93e;0xdf3b42a10caa8;0x7827b0ae94d;0xf8a55825e0800;0x38b9aca9cbba8;0xba2ad51bc1c14;0x3c76438d75f];[0x0;0xb3fd000de4a50;0x52c54be5dd73a;0xc6722bcf890ab;0xcd5e3888ba24b;0xb64ec6d3d579d;0x33e6ed342a38e;0xd973f484c96b;0x44b2fd1729da1;0xf2d92616dc351;0x4c4e6b6c87];[0x0;0xb3fd000de4a50;0x52c54be5dd73a;0xc6722bcf890ab;0xcd5e3888ba24b;0xb64ec6d3d579d;0x33e6ed342a38e;0xd973f484c96b;0x44b2fd1729da1;0xf2d92616dc351;0x4c4e6b6c87];[0x0;0x18e22db1f8f2b;0xb481ae2997f5e;0x3a4e643d2e03f;0x6735a97a092ca;0x8f7c215f93a79;0xa2f9a0e87abd8;0xe6f8c24a53d6e;0xf1b768d7b5b11;0xb4297325d162b;0x123a7ffc1c6];[0x0;0xd5d48014827ae;0xf8d6f43106df2;0xff56027f5fffb;0x509220c5d933c;0xfbe46084b753a;0xa22da4c476009;0x982564bde238a;0xb2d9be631981c;0x4630585f2da1b;0x13f6cf7cb7];[0x0;0xac37cb54c719d;0x5019cb979b4d9;0xa0f638d39481c;0x37b22d26085b6;0xc7d02ae802ab9;0x50f7ec9593e6e;0xeec428527be39;0xe7e7bc485e483;0x60c1ddb60fa85;0x49c531d367];[0x0;0x743dca34b18ad;0xb8a8e60e18fb3;0xb3ba2d1ab7443;0xe24d5231b7bce;0x6f32b2af54744;0xeb79b25396c0c;0x69934fb5b6aea;0x6f23a1c4f07b4;0x57b1689a55f51;0x6492026e177cd];[0x0;0x190241496d965;0x86b7bcf995ddf;0x61eb2e5c8ab7b;0xb65d135e25c24;0x19e985e3aba52;0xe46c9d3469217;0x578f74c4f1deb;0x12fb2d6d5eeb0;0x797ea5b20f6e1;0xc4306e7602]]);
 ((V [0x524b868f90b4b;0x3db9c99c220f6;0x15de9627d7f3b;0xbad63b7ce3f5;0x8c87b24fbed07;0x939079e683fc6;0x7ce2e181085f9;0xaa438f452496b;0xd26cdc7efa9e4;0xf25e414be4e] [0xb9a37b9f1820f;0xc29158e38a8f3;0x164053698b2e1;0x3687b5c3c72c6;0xd30705dd58b9f;0xf37ede27ffd81;0x597a6f5db4d0;0x38fa5a157bbca;0xae796510df5ec;0xfaaf66126d4] [0xfb168cce9c917;0xaf8251a3db888;0xc87f479fcf64d;0xdfbe6de4b809b;0x7ef66d33439e4;0x3b835823b88a0;0xb166fd9a87df1;0xe82070d12dc86;0x2c2be1bb670b7;0x38172cc6545]),[[0x40ca0e59c7f6;0x6b466dd02a746;0x97dcfd9a5e49a;0x24e6771b95aa6;0xdf98fe95ef63a;0xd51a5f921a08b;0xf0d3e1e2e3268;0x31acbf43caa6b;0xf9c34f3860a47;0xc9b0fa07cd6];[0xcaaad7632e55b;0x3ba3f79a9ddb2;0xd1cc20c399b66;0x118c6ee9f5ac9;0x12ffd459582;0xff76fd90eb906;0xf1cd1dc15725d;0x61f5fc507a0f9;0x8beb80e4dd1d8;0x75e1fbce749];[0xb317e278c88f2;0xad3f8bae403bb;0xf522973713614;0x61be5acd5521f;0xdb64de84eca43;0x21d93173d1e6b;0x629dbe6d5523c;0x79ce2ad4ca538;0x5403f171aa567;0x2412ac8cee5];[0xb317e278c88f2;0xad3f8bae403bb;0xf522973713614;0x61be5acd5521f;0xdb64de84eca43;0x21d93173d1e6b;0x629dbe6d5523c;0x79ce2ad4ca538;0x5403f171aa567;0x2412ac8cee5];[0x4a3034dbd5d0e;0x7037aa3079765;0xdced935f0008f;0xf386bde11f42c;0xe57170de5a325;0x306549a201c89;0x3a5ad8f56d2fe;0x43c01fe016080;0xc5a06fa1ca260;0x2d877cf77de];[0x807aa2875884e;0xcb6c4d6a2464d;0xf4de8d6499ad6;0x1e05b108d669c;0x1aa18ef5ff25c;0xcf11b3eee9c7c;0xb77244cbe9f5f;0x1e35dc7064079;0xc64b114312f78;0x485a7ed6f6a];[0x0;0x31e0cdbfafd06;0xc6ea4c44e34f9;0x2d6522eabaf44;0x629c6445fc1f8;0xaf63c04d31154;0xd1366b8a02094;0x300e68a3271b0;0x2be57bb3b576e;0x17d5c93d6e0ed;0x164eb570bdb];[0x0;0xa90e4bd211947;0x19168a21c1d0f;0x1b22441a00dde;0x5679c5471d78e;0xe5dee640c6c52;0xeabd57e297262;0xee9e893540669;0x3545fd9408d2d;0xbd0effccd52c2;0x1c6b998c9df];[0x0;0x190241496d965;0x86b7bcf995ddf;0x61eb2e5c8ab7b;0xb65d135e25c24;0x19e985e3aba52;0xe46c9d3469217;0x578f74c4f1deb;0x12fb2d6d5eeb0;0x797ea5b20f6e1;0xc4306e7602];[0x0;0x190241496d965;0x86b7bcf995ddf;0x61eb2e5c8ab7b;0xb65d135e25c24;0x19e985e3aba52;0xe46c9d3469217;0x578f74c4f1deb;0x12fb2d6d5eeb0;0x797ea5b20f6e1;0xc4306e7602];[0x0;0x90746d50067fd;0xf65e1eef27b4a;0xda8d7e47b1fb9;0x109fe6c344e97;0x364d3aaba1f4f;0x50c7f88ba63ed;0x6b5c4f98bde99;0x67508f6766b18;0xf395faffc3a66;0x273f58748f9];[0x0;0x8ac9cdb61daf5;0xd4e42b0c036ed;0x3e8ea2be67897;0xbb0d0dc3b1494;0x9604b19bf9aee;0x9f5f4e4558bb1;0x2802bf5f9cf84;0xe37537063835f;0x6b1ca6e79f120;0x3d4b4b1144];[0x0;0xb690d9fbb8b70;0x4da655fa7ca25;0x682b78b41e40c;0x116a4391a2b6f;0xf08a1d43f68b5;0x81e706bc60c5c;0x7fbca67b0e03d;0x222dd796c0df6;0x5ddcf41a9b859;0x6f9b0714f39];[0x0;0x2005ba2d81944;0x9c991504407c7;0x106be6a678c00;0x5f5a801a2fc13;0x42ac8423cd36e;0x2e0de24cfd026;0x27383a95ec1e1;0x9fd97ee7dcbdf;0x7f2165f38db73;0xfb36a6041c71a];[0x0;0xb314a7e222f42;0x3c35e7e60019;0x638b5e8c9d098;0xbb2d8d65843ea;0x53e34e31a099e;0x1bb3554b1a32b;0x948f63f68aac3;0x2253cf9b28a7b;0xef6dc9f5a5f43;0xed561ad5c08]]);
 ((V [0x69e3d8a923bb5;0xabdd282fd15fd;0x701171572dfc4;0x6637ca41bbac0;0xbaf77cbd585f5;0xfacf0149b6517;0x908edf95daad2;0x31b6936bd1808;0xe32d5d305b6b0;0xe7c83e04f40] [0x98f149c3b6f78;0x8aa7c4507cfc1;0x3c7f9a4d0bd23;0x72c0040987b67;0x1e976dafdf620;0x7c218d6d83ef6;0x1e7d14207e694;0xeb951b24149ee;0xaa01dcc7b4ce3;0xb8b2df79c40] [0x8c14fa5df3484;0x4f1ae28ac7940;0x6d943a279d362;0xd4b0cca04a64b;0x36adf7ac6d1ee;0x9c6e7e0a44c09;0x4c710bcdad99e;0x11f2b1a79f71b;0xaaa116373a4a2;0x81bd4dade46]),[[0xcc6c3472ee1d5;0xc613dd2438dce;0x4845475d5ef7d;0xca3731f52561;0xafe29bd44e8db;0xaa366669e79f9;0x2c54d637da8c0;0x6f054581c6a5;0x7fdeb625195fa;0x9e109a26ace];[0xb8c9ba1ba54d5;0xe0b13e02dc7a1;0xcb7bbcc2bf620;0x9a93374f58458;0x6cae1b0ec3bb2;0xb3cd1447e7e3c;0x1657fbc26e30e;0xbc2c19c0a118d;0x5f30b17dba797;0xadd2624ccd4];[0xfb168cce9c917;0xaf8251a3db888;0xc87f479fcf64d;0xdfbe6de4b809b;0x7ef66d33439e4;0x3b835823b88a0;0xb166fd9a87df1;0xe82070d12dc86;0x2c2be1bb670b7;0x38172cc6545];[0xfb168cce9c917;0xaf8251a3db888;0xc87f479fcf64d;0xdfbe6de4b809b;0x7ef66d33439e4;0x3b835823b88a0;0xb166fd9a87df1;0xe82070d12dc86;0x2c2be1bb670b7;0x38172cc6545];[0xe8dc5cce9ad9e;0x7d1a28eaea94e;0xfd210ceecc746;0xeb2fe7045f0ef;0x1df29dafb996a;0x6c91500ab78f8;0xa5ebbcbbca87e;0x15f97dc5856cc;0x7e18bdc7163cb;0x7535180e278];[0xcfed5d4d0a738;0x63971517f1e52;0xce5aafd3f2eda;0xaf63504af9368;0x4ebb7d5f0a247;0x473bc43d30544;0x706c3f06a3a90;0xa6329bfb1bac0;0xe117f3b6a43cc;0x389d4a3ea5b];[0x0;0xa02e42c7ac0cd;0x20ead938fcdc0;0xffdb4a98fabab;0x427e62709752a;0x440d9c2c44cc8;0x5f8ae35cd80f4;0x740798b701cdd;0x29ffb5d319f4e;0x33c58dd4e4e5d;0x22afb148518];[0x0;0x37105678c1342;0x53bfd81a97d58;0x3d85351dead28;0xa85a670b66a19;0xf89a5e154682e;0x6568f330e05a6;0x7cac1e941b566;0x6c7cd89a95835;0x2b428f01a261c;0x22a1f0db9eb];[0x0;0xb314a7e222f42;0x3c35e7e60019;0x638b5e8c9d098;0xbb2d8d65843ea;0x53e34e31a099e;0x1bb3554b1a32b;0x948f63f68aac3;0x2253cf9b28a7b;0xef6dc9f5a5f43;0xed561ad5c08];[0x0;0xb314a7e222f42;0x3c35e7e60019;0x638b5e8c9d098;0xbb2d8d65843ea;0x53e34e31a099e;0x1bb3554b1a32b;0x948f63f68aac3;0x2253cf9b28a7b;0xef6dc9f5a5f43;0xed561ad5c08];[0x0;0xd6515d3e712a5;0x195dae570d2c7;0xd339529ed3eba;0xe6770eca29ab2;0x8229dfac14f15;0x3f27f0f056aa1;0x62d09cd76f895;0xd39b0ee03ef5d;0xa6925738f4e42;0xf57b0b88b35];[0x0;0x69756a3bbcd37;0x3844966968c02;0x31d10fbf0e505;0x37c55d3d995e0;0x7e8d8a320b6af;0x46b565fdfd512;0xed81c8e992185;0x5b914412db62e;0x41c45ea80761f;0xe5765627813];[0x0;0xb0fce4af0ebe0;0x4d33df251ebd9;0xc8021ac522a06;0xe0a1be338e007;0x2c36f9e083fd9;0xa69b32826363d;0xe0b2bae04ecbf;0x2a584d2e7134b;0x8c995e3874b6d;0x9d60cd2c6a0];[0x0;0xbc473bff6126d;0x2df1c7515f126;0xed3f67d96525e;0x4e9ab3d9b8249;0xf5a761872c7ab;0x46c7d70c30854;0xd28bad9dc0bcb;0xb16e0ce97a43c;0xc1547fedf1b2a;0xb8ee29ae91508];[0x0;0x6e9fd5e95b20c;0xf46974fbd8f86;0xe217404f6053;0x7ec2b40a96f5;0xb72c2ac706937;0xcefefe467351f;0x442f7afaffb4d;0x26817eeceae58;0x6759f19f8d9fc;0xa739e0245c0]]);
 ((V [0x906de0d478155;0xcee793b065541;0x727e26267c235;0x6d122822404a3;0xbdad85a55d21c;0xac94dcca8ff3f;0xe09706ac66056;0x797f5ab34bcf4;0xbf148856ec5ab;0x89843c11b24] [0xb47dac30a6c12;0x2260c1c0c61a3;0xc39d86163027c;0x410ffbb6afee7;0x87d5751d7994b;0xbe796a9af0d06;0x13170144cfac;0x23a702967ff43;0x1bf969faca23b;0x7be32bc3f3a] [0xf07aa93b76733;0x1b4714f314864;0x4f2bf2a505b74;0xc56d88f3b08f9;0x9c5724cb957f7;0x4d1df336e43fb;0xac618d8a344f2;0x54f53c35e13c6;0xfbaf81056fa6a;0xc4730ac665]),[[0xcd7de0a475172;0xf143842b7b5b9;0xdd1f40619f70;0x5d0e5fb94ffb2;0x53bbea422936e;0xa5039ac6bc2bd;0x37df26ac7f06b;0xc619b75268806;0x71a4944f23929;0x1f424c77b70];[0xa7e60fd4ad398;0x81cad2a2843a;0x6d914b45359b7;0xbc9005ae9e00d;0xede0f5e95bc4b;0xaafda07bb5aa5;0xe0cac35b3ca2d;0xa3833d7b42d44;0x8848c7ac907aa;0x190e9e84d40];[0x8c14fa5df3484;0x4f1ae28ac7940;0x6d943a279d362;0xd4b0cca04a64b;0x36adf7ac6d1ee;0x9c6e7e0a44c09;0x4c710bcdad99e;0x11f2b1a79f71b;0xaaa116373a4a2;0x81bd4dade46];[0x8c14fa5df3484;0x4f1ae28ac7940;0x6d943a279d362;0xd4b0cca04a64b;0x36adf7ac6d1ee;0x9c6e7e0a44c09;0x4c710bcdad99e;0x11f2b1a79f71b;0xaaa116373a4a2;0x81bd4dade46];[0x57d9d8c74791b;0xf92408a77310b;0x36cebd470ee3d;0x74ee375632f73;0x3e466fd5669ae;0x5cea949d83bf5;0x2781d136b1dfb;0xbf36627c2dcfe;0xae1711efea541;0xac5f0349556];[0x500c370d65845;0xef8a482b532f;0x36c28dfe26b79;0x47a1ce586b09a;0xaf9a8613f529d;0x4e130bde31eb0;0xb948f2248ac32;0xe44cdaff15046;0xda31b5bca6268;0x6caf9b3b7e9];[0x0;0x6a6d2e8300dc2;0xda67e8606df1a;0x12f9eba171b5b;0x8bd356034706d;0x1bd3d658e7f3c;0xbbfceeff7f666;0xe6cef178858ba;0xd958ee09b4cb3;0x357775efa704b;0x503b0ec5052];[0x0;0x8cc4c7c86d350;0x70a4e756246f6;0x6bb3f3bc3cc8b;0x950f331adbe4e;0xe4cf178b1f94d;0x37c835081b5d1;0x8ac61425eaea1;0x9ee92bd7d69d6;0xe75c39572352f;0xfd785f6f44];[0x0;0x6e9fd5e95b20c;0xf46974fbd8f86;0xe217404f6053;0x7ec2b40a96f5;0xb72c2ac706937;0xcefefe467351f;0x442f7afaffb4d;0x26817eeceae58;0x6759f19f8d9fc;0xa739e0245c0];[0x0;0x6e9fd5e95b20c;0xf46974fbd8f86;0xe217404f6053;0x7ec2b40a96f5;0xb72c2ac706937;0xcefefe467351f;0x442f7afaffb4d;0x26817eeceae58;0x6759f19f8d9fc;0xa739e0245c0];[0x0;0xdf07cb8cabbb3;0xb5736dfc73262;0x329849f334bbd;0xc27ab2b2d94dd;0x84a6341a19111;0x12327a8504ad8;0xef9089da080f2;0x33b3c0b12df95;0x94266ea812607;0x85419e3a923];[0x0;0x17ef086234cac;0xec886db49035a;0x92aa7247f8ac0;0x7fcbad7c227c4;0x7028e877aa061;0xbc5657422ca46;0xddfd393bedb30;0xfd6e6acfd484d;0x55c3cbaaa4335;0xd1dafc8de73];[0x0;0x73722773e0413;0xcbedf7156470b;0x3b60e3f39c6fb;0x2dc281eb77f29;0x6087198e9fa2a;0x78a211c464477;0xb170486ecdcc9;0xdc38560632372;0x924f64285ba79;0xd75c43ffa8];[0x0;0x464dce2814e25;0x7a559fdb02b63;0x7bd1d83f6a699;0x40a076d855172;0x70409c31ebf19;0x230aa95f5cc5e;0x4119f0d8f116b;0x5e7bd8cd69f2e;0xd76c3e6ba7171;0x7c52eead4e911];[0x0;0xb327804cdf901;0xb5e0cbdf1e34a;0xca3d3b955cff7;0xc53bf90923247;0x540057744e2a9;0x3b5cb6d50bfc2;0x63b5c6343f625;0x6c0ea3873599d;0xbb8cb823bfe56;0x428c90a03d0]]);
 ((V [0xde164cb455dde;0x9ca2fe46c888f;0x399c08f4b7222;0x993a8026b212f;0x47b68609de1f5;0xbad83dd5209f8;0x56adf29375d38;0x4dd971784424c;0xbab87275ea86c;0xb9a87329443] [0x3009dfef88bcf;0xcd2a40bbcf065;0xcae1f0f1f4a2f;0xe3fee67236fbd;0xbce19aab56cb0;0x67d8df49ccc10;0x6cd096ad2685d;0x564e7f524d7f0;0x2ccd80d9ff01b;0xa1a68ad3890] [0x56481c9e750c2;0x6ccff75587b98;0x7d22638c17b6c;0xffaebf59c14a7;0xc4b519aa74605;0xb3ea677d1d432;0x4f8c95a203d72;0x8791196b7686e;0x41ea82285edb4;0x8e3e2e05e52]),[[0x2b419874e68f0;0xc279b552d622;0x948504874c187;0x8ec8b21dcf514;0x23bab85e20a1c;0x5ce3f823c2bbf;0xaf075170d76e8;0x9f21e89357136;0xfccb560aa453a;0xa09bedc9571];[0xfc157f562ee35;0xcf92e80cec93c;0xfad9fd4f067e8;0x39538a2ad3360;0xde63b65152ca6;0x40158e00d416c;0x3c743bdbb2648;0xe774f35eb24bb;0xc78bbae3f9298;0xcd1234439e1];[0xf07aa93b76733;0x1b4714f314864;0x4f2bf2a505b74;0xc56d88f3b08f9;0x9c5724cb957f7;0x4d1df336e43fb;0xac618d8a344f2;0x54f53c35e13c6;0xfbaf81056fa6a;0xc4730ac665];[0xf07aa93b76733;0x1b4714f314864;0x4f2bf2a505b74;0xc56d88f3b08f9;0x9c5724cb957f7;0x4d1df336e43fb;0xac618d8a344f2;0x54f53c35e13c6;0xfbaf81056fa6a;0xc4730ac665];[0x116401514f170;0x8e7e8650f803f;0x60edb418d8189;0xf37e7cfc0e98d;0x417a572982d9b;0xa34cb2aa6353;0xd44c30640e652;0x641bf2dce508;0xff0d0f09eb656;0xa073f60ce73];[0xeab17e04dfcc6;0x411461bbf48fd;0x99ec49362e65f;0x45d50d2ec49d3;0x9ce95f27cff0a;0x35e0c2d62de19;0x68280b77a3ff6;0xe1333430e3fb2;0xc87eabda0dc42;0x2c9e3e36b6d];[0x0;0xa09f52f70aa00;0x23ce5a32dc847;0x498c4130e8c6;0xb0da1f5346051;0x3cbc2812ef1dc;0xf3b82fcfdf5eb;0x4746f022b77cd;0xa8e18b0948eb5;0x23926d774df5c;0x797be7f001];[0x0;0x35ec185e8258d;0x849a825b9ea90;0xbdeb8dc365ee4;0x7ab4b42e3945a;0x17b28c53fae28;0xe399cdf94edc3;0xba3907fd84aff;0x29f64324e645;0x5aef29164b85;0x7b3f8edc88];[0x0;0xb327804cdf901;0xb5e0cbdf1e34a;0xca3d3b955cff7;0xc53bf90923247;0x540057744e2a9;0x3b5cb6d50bfc2;0x63b5c6343f625;0x6c0ea3873599d;0xbb8cb823bfe56;0x428c90a03d0];[0x0;0xb327804cdf901;0xb5e0cbdf1e34a;0xca3d3b955cff7;0xc53bf90923247;0x540057744e2a9;0x3b5cb6d50bfc2;0x63b5c6343f625;0x6c0ea3873599d;0xbb8cb823bfe56;0x428c90a03d0];[0x0;0xca4be1a1cd18c;0xc7a359c5fc0f4;0xce5bb07264b57;0xb2d81e267d613;0x14ea0ae6a72ea;0x522ca0733b985;0xaee62780f4f59;0x469b68c111343;0xae8c9e9320112;0x3bf415a4f11];[0x0;0xf44da02cfc6f5;0x8c9a001bf3c51;0x3c146895ce718;0x9b5fcb648d515;0x9d1867d736bd8;0xeeeeaa8768113;0x5f1114a678044;0x23b415b370eec;0xd735d34f7e60b;0x49decc98f12];[0x0;0x34163ff46e222;0x7c34597b011ad;0x3abf791f35cee;0xc6107a0d7262a;0xd42d241678cc7;0xa85021617b7fe;0x26bb79f4428c2;0x70192138d4fb1;0xfb74567834475;0x94b917f765a];[0x0;0xa2c19684e9434;0xffaab2e5a6b28;0xe8f4047833104;0xae85fd7b7c997;0xce783fb5cc84a;0x30df12ffae020;0x44d654e4c00d8;0x32a392817ab8a;0x8b35684a9e539;0xa1c6b3827add9];[0x0;0x2f4cc5462e240;0x41f85e3a640ff;0x3516e488570a1;0x661133d05ca89;0x80a937229a07d;0xdc15c63bd3f3e;0x837bbcc9855ea;0xf592955042a51;0x41cdd88a95af9;0x753bb855d7f]]);
 ((V [0xd1f50e694ea05;0x19d4a08e96cc6;0xa7ee62cfe7d72;0xc3fcef7213008;0x363de190c4db2;0x4a71f78f42bad;0x8c820c18d7ae6;0xbba4c11f3b55a;0x52defd43688f3;0xa8328d6600f] [0x4eba868874ddf;0x989798d798a29;0x95e560389deeb;0x6e193637004c3;0xf01922c844f3f;0xebe9909c4859c;0xcc76601f28b99;0x249f49ee42ccc;0xc908cb5b8e585;0x9b7fcad4fa6] [0x514f86f10faf5;0x5054950fe8385;0x63c7f421512ea;0x11a9f9e878c4e;0x2bf9014a6ec9e;0x8276d4f391bc6;0x26803aa68fdd0;0x5ae52b7508041;0xe2f60096478b9;0x32de476fb00]),[[0x44e1f1260f5ac;0xeceedf16c0d72;0xd187fb01c2547;0x655cc6d622395;0x3647d2d3c9ce1;0x7220b4f90085f;0x7714f7fecbda2;0x7381b0b004d9;0x3088397a26b94;0x7836f96b63c];[0xb78b53146b8e3;0x202c6c6eab6bb;0x53a950130d599;0xd51e988b1bdb3;0x5ccacd9d9fc11;0xb8e8c3ea4d46f;0x72bd6a8ea2e02;0xb2a2323f1e8ce;0xf672e11168cda;0x14874e51167];[0x56481c9e750c2;0x6ccff75587b98;0x7d22638c17b6c;0xffaebf59c14a7;0xc4b519aa74605;0xb3ea677d1d432;0x4f8c95a203d72;0x8791196b7686e;0x41ea82285edb4;0x8e3e2e05e52];[0x56481c9e750c2;0x6ccff75587b98;0x7d22638c17b6c;0xffaebf59c14a7;0xc4b519aa74605;0xb3ea677d1d432;0x4f8c95a203d72;0x8791196b7686e;0x41ea82285edb4;0x8e3e2e05e52];[0x80f7e181db1ca;0xa808614e050e3;0xe67f71cd4da92;0x1844dbf842d00;0xec545b534ab4c;0xba715722bd38f;0x38843f59535e0;0xff372060552b3;0xb363e149fe35e;0xa0abc5c1008];[0x36937192904e1;0x78240b20a65d8;0x6d29de45bfb06;0xbcd9bc92d90b2;0x7076724a550c5;0xfe776cc7900df;0x3a392b354f821;0xb36b11dec961b;0x430effc76a97b;0x73db889015f];[0x0;0xc467ff897176c;0xedc47ccda9f05;0x3417da96a9c4;0x40808d35f6448;0xc352f927f6fd3;0x3df70d7b973fe;0xbf1316a2dfa78;0x593a31eb7e16b;0xb51c3cbbdc2cb;0x57f6799238c];[0x0;0xf89298e4774e3;0x931cbbcf3007a;0x47985859d90ba;0xe3604017eebb6;0x4202d584193a7;0x97173216971fc;0x48fc5b9b8abf6;0xec1d7e74d34b;0x6a638952d9458;0x42cbb1469ed];[0x0;0x2f4cc5462e240;0x41f85e3a640ff;0x3516e488570a1;0x661133d05ca89;0x80a937229a07d;0xdc15c63bd3f3e;0x837bbcc9855ea;0xf592955042a51;0x41cdd88a95af9;0x753bb855d7f];[0x0;0x2f4cc5462e240;0x41f85e3a640ff;0x3516e488570a1;0x661133d05ca89;0x80a937229a07d;0xdc15c63bd3f3e;0x837bbcc9855ea;0xf592955042a51;0x41cdd88a95af9;0x753bb855d7f];[0x0;0xb46d3d7936fb1;0x1b0320f8184f2;0x2e3d6c3634210;0x7f1be5839d5f2;0x50896445b748d;0xbd06d819593f0;0x40128047c2ca2;0xc064619a72f8a;0x3f3cb921f718b;0x6612e6f667f];[0x0;0xd212f4ad05745;0x8977ab7b62807;0xed9cf7a770176;0xd48e16dbf495;0xb3b30f46bc087;0xc71adfe7a65bb;0xe645892c2cdd2;0x8e71f915381aa;0x5e62f01b29b5b;0x86a4e548fe9];[0x0;0xfab97b4124590;0xc6c4a002d59ba;0xcd8074ffe157d;0x143accf2fcbe3;0xc2770e6aeb62e;0x7acfd6212640f;0x57d25e876f74c;0x807f676354f8f;0x987787c82f192;0xd7cd92936b];[0x0;0x576bbbf0491dd;0x16937f7e64b3d;0x7129fd8f48ce8;0x2cb9d201abd77;0x214be889df803;0xb8f653a51d1f9;0x977167229ad1e;0xb621579ddbdcb;0x6228692b2a605;0x9c0ed274009c3];[0x0;0x28a37e84f546a;0x4f04e3c97f45f;0xc1c7bcff33fdf;0xe507c6ed216e1;0x251a9a386093;0xd748219af506e;0xde50523afe5ea;0xc1e4e54029c19;0x7340e674c57c1;0x662a91f4ba2]]);
 ((V [0x7a06682f7ed41;0xe290d322df4ee;0xb4cc9c6bf9ca1;0x966894dd0b19a;0x667cab43393de;0x5ce626905f848;0x39f45654faeb;0xb6515bb64712f;0xe6ef3aa56d04b;0xfb3af299823] [0x97b9519640cdd;0x4741ef9e94893;0x2ed3af0675dda;0xe943925aaaa66;0xd7b6bfd628ea;0x8c3bd5b8a2d33;0x68d2fd28bb1f0;0x7110a3d8f2348;0xd132dbc2d5e7d;0xefa6e268383] [0xb0c6cb56f5fbc;0xc4cc671b01773;0x60a017593ce7a;0x17c008882ee9c;0x38fcaae1d7956;0x713d969b90587;0x7a2279e73d00d;0x95d3bfef55b82;0x171800686bfaf;0xca0338b9806]),[[0xc9149971eecea;0x57c1b78d7b4b4;0x820e4470397da;0xc8ba0c3334ff1;0x21d0d35eda6df;0xba900b48df72;0x3ca704f166e17;0xbee695b5be94b;0x24d49e132a184;0x34d48161b14];[0xb0adc04a6ad6a;0xef479b97edb4f;0x87e56b4a6d7db;0x39e3142614fde;0xb522bff0aff34;0xfa9c81c0fb7fd;0x1752b915b7600;0xfea9014c571f3;0x72539aa5b7cd2;0x65bdae1d5a7];[0x514f86f10faf5;0x5054950fe8385;0x63c7f421512ea;0x11a9f9e878c4e;0x2bf9014a6ec9e;0x8276d4f391bc6;0x26803aa68fdd0;0x5ae52b7508041;0xe2f60096478b9;0x32de476fb00];[0x514f86f10faf5;0x5054950fe8385;0x63c7f421512ea;0x11a9f9e878c4e;0x2bf9014a6ec9e;0x8276d4f391bc6;0x26803aa68fdd0;0x5ae52b7508041;0xe2f60096478b9;0x32de476fb00];[0x4f612d9ec97b4;0x31a958846875c;0x9438db47ce57f;0xa3fb279e4bce1;0xb0b81de2f8a8;0x907a0a50d8291;0xd35a580bdfe0;0x8c1bf8befe15f;0x3219e82e8b0bb;0x31807e5e343];[0x614c92aba15b7;0xbd9e4313853f3;0xf3ac90029f25c;0x95e7ec87c92fc;0xaa173e128068b;0x6a2277702356c;0xa1d1394f9620;0x728d088d59094;0x4039b2772cc17;0x343d2fbf264];[0x0;0x4bb5da5917a2a;0x9d4cc59d6f519;0xc811ee623bc4e;0x1645be1f8b6c6;0xcd1a6d3cc714f;0x8d1bcee617d7;0xa7bdfc838b1f8;0x1e3aa13e7ffc5;0xe8a9badee0da4;0x1f74f5458be];[0x0;0x4ef9273247938;0xc1eb9667f1511;0x251481567b34e;0x45586cc154e08;0xbe4afbb557f82;0x49f1fa0a6b60c;0xa905c67a316d0;0x2e6ef86ac79ba;0x1e275c5d31d5b;0xa7f604b43b];[0x0;0x28a37e84f546a;0x4f04e3c97f45f;0xc1c7bcff33fdf;0xe507c6ed216e1;0x251a9a386093;0xd748219af506e;0xde50523afe5ea;0xc1e4e54029c19;0x7340e674c57c1;0x662a91f4ba2];[0x0;0x28a37e84f546a;0x4f04e3c97f45f;0xc1c7bcff33fdf;0xe507c6ed216e1;0x251a9a386093;0xd748219af506e;0xde50523afe5ea;0xc1e4e54029c19;0x7340e674c57c1;0x662a91f4ba2];[0x0;0xfce1df7334f0b;0x879a6f2dc7441;0xbc9faba193c68;0x65ebd904c2da5;0x12293ed897832;0xb87c31399bef1;0xaee799609aaa8;0xd42a89f2e1168;0x4bb24dc8fe394;0x5e73ff68c74];[0x0;0x2bc5f9f29668e;0x2a4a22f27616f;0xec8d107d759d5;0xcb3938ab9e405;0xcafd5e19777c4;0xa4d220ecfdf39;0x617eb86d6c7dd;0x89198a6cae82d;0x3b1c390322ebf;0x6e8263916b3];[0x0;0x3da7c4a8f88b7;0x1f097049774cd;0x926863c0ab6da;0x7e4720ec73158;0xe62984cca1241;0x66079751bd04f;0x50f0b9b2a7d84;0x229d7fa6f175;0x142011619d13d;0x63d8671a8b1];[0x0;0x9af84eaff2f8e;0x58faa45ee1bf5;0xdd390b05ab60c;0x86e2f0807dc5a;0xe8772990f96a5;0x73c209c431714;0x79126970caa22;0xb6fba1ea1abdc;0x3f234d7023815;0xf0374ae21947b];[0x0;0x3ebca6f20cb97;0x90987c520bb7f;0x828dc993c6d8c;0xbd28331de1cbf;0xfa167e7528a52;0x8fd6d63b29a4;0xa117d0c713516;0xfc71b89c70572;0x1a6591a733b2b;0xeb2fcee6f17]]);
 ((V [0x243b2baee0971;0xdc02fbb6d61ff;0xbc6bfcb332ba0;0xed808aa98e6c6;0xceba7f490b832;0xea4f7db094d58;0xe67e85bed199b;0xe58338bfd7773;0xfd7e7ebd0dc87;0x3392c877e71] [0x428e0842da77b;0xd1ca43dcdb8fc;0xcd96411c3fb76;0x718d2f64b8e18;0x2faef3d56dfa6;0x93c2412af6fc9;0x24f13a49a104f;0x6fb0711201d56;0xdf7fd949bd117;0xf8ff780a943] [0x6ea1a00f1150c;0xd6262593c46c8;0xcda025d1fe381;0xabfb6e51cab3;0x10faec66262b5;0x131403bbbb8c5;0xe1ddf3a1f6d9d;0xdda54089efd30;0xd83e87fa00f82;0x7b1ef28e560]),[[0x2fce1d854a1aa;0x63bf084fd1a1f;0x25d073b8d4c7f;0x123add194abbb;0x796ae4db2abc8;0x679587532a0a4;0x107ba9440e6a2;0xf537c7b9e2cf0;0x76fb0c6ca47b5;0x541d6d595a4];[0xfc829c31ff992;0xcac676d8c3b38;0x9609a8c299b3f;0x6c7859a560dc9;0xe67eb9b05a1be;0xd8f7e1b19fe11;0x4538989eb1422;0xa59323560b15e;0x5d7d5e8e9bf3f;0xe6cafaac7d2];[0xb0c6cb56f5fbc;0xc4cc671b01773;0x60a017593ce7a;0x17c008882ee9c;0x38fcaae1d7956;0x713d969b90587;0x7a2279e73d00d;0x95d3bfef55b82;0x171800686bfaf;0xca0338b9806];[0xb0c6cb56f5fbc;0xc4cc671b01773;0x60a017593ce7a;0x17c008882ee9c;0x38fcaae1d7956;0x713d969b90587;0x7a2279e73d00d;0x95d3bfef55b82;0x171800686bfaf;0xca0338b9806];[0xf9c3d98d82668;0x92b1e368e2085;0xf5b693f193c25;0x4ca20bd3be01;0x5977aa29109a1;0x5444fc0f5c8f3;0xa371bf9b42c47;0x5e6e997176eb6;0x8be4e291a4426;0xf625bc955ab];[0x2bec2a47d0f2;0x3814936fe1ab3;0xa05314d105f1a;0x67ae38e824fc7;0x8d070f874981d;0x84b2e5a24351e;0xa1c6d9036e7db;0x472489e4942a7;0xd1987bfcf7b19;0xf0a53e17226];[0x0;0x5d7c4a1df9a3a;0x19889bf30dc2b;0x4b3e80366d783;0x579fa5fe1566e;0x7eb993d71e9ce;0xb4661441c0b01;0x68aad562f990d;0x5685eda822a68;0x641c15fe24f0a;0x7cec9dd2a50];[0x0;0x159497a03b88a;0x58c44da630f67;0x1ae419ef10e2a;0x34f30dbba8dff;0x36cbde3f5b053;0xccc259f15131b;0x74450b71bfd5f;0xaeb3e66e9b430;0x6b967d41b5493;0x426047442ca];[0x0;0x3ebca6f20cb97;0x90987c520bb7f;0x828dc993c6d8c;0xbd28331de1cbf;0xfa167e7528a52;0x8fd6d63b29a4;0xa117d0c713516;0xfc71b89c70572;0x1a6591a733b2b;0xeb2fcee6f17];[0x0;0x3ebca6f20cb97;0x90987c520bb7f;0x828dc993c6d8c;0xbd28331de1cbf;0xfa167e7528a52;0x8fd6d63b29a4;0xa117d0c713516;0xfc71b89c70572;0x1a6591a733b2b;0xeb2fcee6f17];[0x0;0xab592d6546097;0x348428b1986d5;0xd6563b483d9f0;0x2cea9925bff93;0xdbd2c79d9c311;0xcbf69e6016b83;0x69577348428ec;0xeb0d4e2127f40;0x726bdd883dda3;0xe0590789006];[0x0;0x94e56dbc425f9;0xfb1e5e1a96369;0x1953564b22b47;0x3aa1fa45021c8;0xe602c20bd5dc;0x1f4ec6106ecf5;0xf40270ce627f;0xfe8341cff39a7;0xc082711183101;0xf68ca54bd8d];[0x0;0x8824f503bfb3d;0x4d32af4524577;0xa856d26bb4217;0x2148b5b3163a8;0xc3101ac256ce6;0x9d58cb4576074;0x2e933313a2144;0x763e9e0e73b94;0xd0ef400b3d4be;0x2e7ec46dffd];[0x0;0x510e467006ba3;0xad3b7afd09856;0x9c0621937999;0xc98b5c42b117c;0xdfa269c2666a2;0x67512b0e96288;0xbc2accc15b1ec;0xabea564152d63;0x4c786702d148d;0xf917fc8f5f581];[0x0;0xd14d26c6bc6c9;0x74bcaedfa4905;0x585acb07fb9cf;0x414da69e53b44;0xb3c565fa0cd88;0x60e02babd5cac;0x48979e62d6e62;0x5a2f92bf54847;0x772bb7c85ea14;0x3229a998c6e]]);
 ((V [0x25593df586638;0x27f325897c73b;0x9c6b2935b1045;0x313df7b6bf9f7;0x3f25387ad672f;0x46d89d5f30a3c;0x4bef82cbc55ed;0x8a61db58433bf;0x89b5df4938abc;0x6093fc80f3] [0xd82454b8c1118;0x3a3c5b104f77f;0xbd4dfded5bf4;0x435ad1506f097;0x5a9c1a6bdf4fa;0xb903ad462c1d4;0x2dc13d1be03;0x48fe232e77f1e;0xe090f74a31539;0xad17cebd1d4] [0xdd61b1e7c03f0;0x73ffa3f59e548;0x9937f93a97631;0x24401ede3e021;0xbca1eb3344c2c;0xbf5ecf1a01a2e;0x522509601b9d4;0x27b5b7903a66c;0x76559ed005e70;0xa804f63e07a]),[[0x6e20b957c1e40;0xd2ad9c0c4100d;0x7c8a9a62da837;0x1cc8fcbec0371;0xec16e6012a151;0xf701ced8df2b0;0x8b730a41adec0;0x7dca2eaf2250a;0x5fa285c1dae40;0x2392910b684];[0xe6ff231ef8a7d;0x740ece98cdd90;0xf50d7579fa4b4;0xb30906ecf4bca;0xf164affe87469;0x87f54322007c9;0xefbd10b8686c3;0x2fef50593a4e7;0x8037fc7e2a6f2;0x2f833dd7d8a];[0x6ea1a00f1150c;0xd6262593c46c8;0xcda025d1fe381;0xabfb6e51cab3;0x10faec66262b5;0x131403bbbb8c5;0xe1ddf3a1f6d9d;0xdda54089efd30;0xd83e87fa00f82;0x7b1ef28e560];[0x6ea1a00f1150c;0xd6262593c46c8;0xcda025d1fe381;0xabfb6e51cab3;0x10faec66262b5;0x131403bbbb8c5;0xe1ddf3a1f6d9d;0xdda54089efd30;0xd83e87fa00f82;0x7b1ef28e560];[0x19932981b0f5c;0xab2e2acc3e2f2;0x755233de5b97a;0x57eb9250590de;0x4caea519b4923;0x21987d9b9cd3e;0x8f65ab01e00d3;0xf1ec7f1eca40;0xf1049538794e7;0xf079d0b70b4];[0xcd6bf99d478e9;0xc8e0a3cc8fa9e;0x7fbb419b9eb39;0x5b1d749c9baec;0xa4b60ae4d2b46;0x665cc58663a8b;0x605765b6885f0;0x20d088674daa7;0x8f336745b120b;0x3f096d20cd5];[0x0;0xaf386b258280;0xad381d788e14c;0xb66558c45003b;0xc0085effdeb95;0xc3fefd33fc076;0x1226bd3ee7175;0x329b5c699fa8f;0xe759f2dd72296;0xac1dab6edee02;0x4c23453e46c];[0x0;0x6a648cb25f765;0xe5b82406acb30;0x23ccf4a15d506;0xf6229a71648f2;0xabf8d6f00cf64;0xe5dd4c537f39b;0x628e36d4ac088;0x363035f443656;0xe31ca33ac01ab;0x111bb891cec];[0x0;0xd14d26c6bc6c9;0x74bcaedfa4905;0x585acb07fb9cf;0x414da69e53b44;0xb3c565fa0cd88;0x60e02babd5cac;0x48979e62d6e62;0x5a2f92bf54847;0x772bb7c85ea14;0x3229a998c6e];[0x0;0xd14d26c6bc6c9;0x74bcaedfa4905;0x585acb07fb9cf;0x414da69e53b44;0xb3c565fa0cd88;0x60e02babd5cac;0x48979e62d6e62;0x5a2f92bf54847;0x772bb7c85ea14;0x3229a998c6e];[0x0;0x96b38e5f105b;0x1299930b7a2f0;0x41845ebd78603;0x7b764ca5add18;0x14c30ff11cec2;0xd1e1593cc684e;0x3f9285e3c6924;0xf830f716c7411;0x54f595e48c466;0xf22ff784dc9];[0x0;0x3bf1f4b105d48;0xb91544320c018;0x2127bc7289bd3;0xea20afb820d96;0x601225c22f5cc;0xcfa21fea5da34;0x226317caa7e8;0xd10ada047b059;0x5e1a31e1dc7c7;0xa63d0090bd];[0x0;0x5124a3b835ec8;0x9f6d419150932;0xfea681c6b9ed7;0xbeb13a46f4719;0xe644b9be4041a;0x2df05d1913d53;0x7a8b5d28c5055;0x267530ffbbaeb;0xe2f1acdb96281;0x11ecae6a93];[0x0;0xefa958940ac2;0xfb58e23a1c15f;0x54e615ecb180c;0xb8d5836fc7d6c;0xac1f1c1584226;0x727c574427701;0xf8af695107821;0xef503d752aab7;0x64af7f7bc7c3;0xada4c66fe64a7];[0x0;0xe445ef19aac30;0xec8d50f95f099;0xcfb49dd8eba37;0x91dca663beace;0x294872a21664a;0x74e018dbb1517;0xef0e2eb771c08;0x676ce486d9be3;0xa954906bfd894;0x414cfced41]]);
 ((V [0x68bc11daeb5dc;0x63f0e5e54a954;0xbd01b4de99934;0x8840aad5f4aea;0xd99aad4002818;0x8503c3394481a;0x2ee542032ed7b;0x5bb2c207003fb;0xb078c991e72a;0x2b58d03a327] [0xe96f904941717;0xb6e6420cf74c7;0x57e81d4709457;0x519bc7278a976;0x7215ed25d73c4;0x54221bb802dd7;0xb8d9dadf41e00;0xb96fbd34b4c3c;0x2a6ecbc57766d;0x9b14e8ab705] [0xb0e9a3a16a894;0x6b8b2ad76896;0x9cd033af2a913;0xb0c8c5acb6f25;0x8479f23011df3;0xe784411494773;0x10af909da9ef;0x2ad5be521ae83;0x4f2af326e7363;0x1c5ed6e3377]),[[0xaf188e9fad9da;0xd02f9b99c0d6f;0x26748f5a7991b;0x6438d665825a4;0x9e16e470d93e4;0x7d21feeaa9a64;0xba7a5cfdede6e;0x1f63c3777edee;0xe163735e77eb4;0xd0075842c95];[0x5f2754e73c683;0x1a34b304d61c;0xfd7b6019cd28f;0xad9d4767ea414;0x154f36b003c87;0xe28c7029a7417;0xe73cb30258eb6;0x3c65fb3ee648c;0xf695bffc73fee;0xda13bf6816f];[0xdd61b1e7c03f0;0x73ffa3f59e548;0x9937f93a97631;0x24401ede3e021;0xbca1eb3344c2c;0xbf5ecf1a01a2e;0x522509601b9d4;0x27b5b7903a66c;0x76559ed005e70;0xa804f63e07a];[0xdd61b1e7c03f0;0x73ffa3f59e548;0x9937f93a97631;0x24401ede3e021;0xbca1eb3344c2c;0xbf5ecf1a01a2e;0x522509601b9d4;0x27b5b7903a66c;0x76559ed005e70;0xa804f63e07a];[0x8b71d3b0def9b;0x6b1eb737279f5;0xff38a09e620f4;0x206971481d68b;0xad675c40d661;0xfa099a4151fdc;0x1cf33ab502573;0x12044c32f0593;0x8fea2a66174d0;0x32d95103a07];[0xd3b581365d6e9;0x968493f925c26;0xfe42bf7b6b19a;0x8d33d61fccd88;0xa78c0ebf6626;0xe882d5e85543b;0xca49784d56942;0x2a61af0bf5ef9;0x66ab95965cb1e;0xa73a6e64768];[0x0;0x7061660631daa;0xc67278d81092a;0x41e38908ccbb5;0x3420f2917fdfd;0x3541ebef6fbc3;0x8e8808dc78eed;0x7ed151382a3fa;0x2dabed60f56f9;0x34c3f644f260a;0x67e726e7f70];[0x0;0xca6e68119413b;0x974d19591af4b;0x87815c36d778a;0xf3d0597138685;0x9dd15ee8277e1;0xe104ccaf6ecd;0x633829f4465ae;0x7c82c21761c05;0xac4a22694309;0x8888da22ac0];[0x0;0xe445ef19aac30;0xec8d50f95f099;0xcfb49dd8eba37;0x91dca663beace;0x294872a21664a;0x74e018dbb1517;0xef0e2eb771c08;0x676ce486d9be3;0xa954906bfd894;0x414cfced41];[0x0;0xe445ef19aac30;0xec8d50f95f099;0xcfb49dd8eba37;0x91dca663beace;0x294872a21664a;0x74e018dbb1517;0xef0e2eb771c08;0x676ce486d9be3;0xa954906bfd894;0x414cfced41];[0x0;0xb3f53eb83ac33;0x6ef156a48539c;0xab3a10e65af9f;0xd1ff80689a10c;0x91c0dd6717a89;0x5273a712d8e64;0x7aed43ab1c7c5;0xf2123e982985f;0xba3226394665c;0x75092fa2668];[0x0;0x4682a7b4fabf1;0xcfa24915ceb08;0x9489e54a506dd;0xd46c1cdf3ca47;0xfd52d1f0eefb5;0xddf082ca71432;0x94419e9eb872a;0xb69f175303c86;0xbcd18f9e4ccc8;0x246f52eca];[0x0;0xb115b4002df0;0xcd27d9cda0434;0x24fb9e56ba821;0x3660675f76e84;0xe0c1eca35d09d;0x4c0ce92da55f0;0xa7e6561adaadd;0x50929636062e4;0xa991df1a60935;0x24ecf951e69];[0x0;0xa74a557292c76;0x276b92588b0d2;0x2856d35f1ef52;0x52b5f25fa0871;0x420157779685e;0x73f388bc08c28;0xaa2558d27bb64;0x9ef3ac56b60d9;0x4e747fe7f73b0;0x9b2be1cf78d89];[0x0;0xa4cb20e13bc50;0xe58421a90068c;0x4f51702e46074;0xd7c35e35a3bd2;0x4eac6c9540941;0xde3d80537a988;0x188c25f9751e8;0x88fd15b5967d5;0x2da0c922d9d87;0x1a425069052]]);
 ((V [0xe21d6408d8d58;0x383d0d518d985;0xe7e55e2578adf;0xb4ae24aaf0b78;0x4f9d27e4aee55;0xebcd775fb03e2;0x4aaf6e0999611;0x9f1045c388fcd;0x477bf43718c16;0x9ff3e51b8af] [0x732265840518e;0xf33a2a3e81c5c;0x7b22f11a57732;0xb9e3b059ae49e;0x38d53a3304e4c;0xd6fdf2b9889be;0xd16b726c985b2;0x9c81129cf481;0x852cb85153849;0x2554c5865a6] [0x8da4034026da2;0x5b093623e2361;0x6ab024c0d22a3;0x9d778836ea4af;0x9e227ed4617cb;0xc7d303be763f9;0x9e92e753ac15b;0x27c531ad5b0f6;0xc756d4f024986;0x46d5e30ad5a]),[[0x3dc61b5c0b37c;0x8ef8462adbb41;0x1b6fda698a10b;0xc5412f3cb0340;0x121a7a6d69bbd;0x4372c3400685f;0xfe098690de480;0x6eadf0faac91;0x630253ef898b2;0x8dce473686];[0xbee5caeef4896;0x58a5db172e018;0xed9190138ec1f;0x24c8e9a33151;0xfc07b311c9015;0xcc80958a1367c;0xf912cd5bdcef5;0x69ec28f2d4c54;0x110b37fa46daf;0x8f6bbd6da65];[0xb0e9a3a16a894;0x6b8b2ad76896;0x9cd033af2a913;0xb0c8c5acb6f25;0x8479f23011df3;0xe784411494773;0x10af909da9ef;0x2ad5be521ae83;0x4f2af326e7363;0x1c5ed6e3377];[0xb0e9a3a16a894;0x6b8b2ad76896;0x9cd033af2a913;0xb0c8c5acb6f25;0x8479f23011df3;0xe784411494773;0x10af909da9ef;0x2ad5be521ae83;0x4f2af326e7363;0x1c5ed6e3377];[0x2f9b5d0465411;0x3ed02adf4ae34;0x2a573f87307dd;0xdd13fa6a08c6a;0xe89192fbaec8;0x98216c18aea1e;0x39ef1320ac877;0x4a0f6307be4c;0xa2a47652b5940;0x561ee7ec13e];[0x8f4a6dea8f486;0x19d5b037e31e4;0xc33a508c5e442;0x253894302a4e7;0xed7e99e20e14c;0x345f297164c5e;0xbf23ba3b3067e;0x654b32c258e08;0x6e66c1a79146f;0x394cd581926];[0x0;0xe5f765ad3b1c;0x5af9a5c5f2389;0x775707babe435;0xfbdb1854f9c21;0xc58f6e6ffc5fd;0x57ca80d9aeb7d;0xb7db7bf5f4322;0x5ab4dec15dcfe;0xa31e82e8a831;0x118b5442847];[0x0;0x9eb787a359416;0x844706c4e40d4;0x37ed139b8f2c4;0x233fb38301216;0x636914eaa9794;0x408dab5415433;0x256a49c62f47f;0x567d286b9d70c;0xe0ff7efd9a168;0xfb7189068];[0x0;0xa4cb20e13bc50;0xe58421a90068c;0x4f51702e46074;0xd7c35e35a3bd2;0x4eac6c9540941;0xde3d80537a988;0x188c25f9751e8;0x88fd15b5967d5;0x2da0c922d9d87;0x1a425069052];[0x0;0xa4cb20e13bc50;0xe58421a90068c;0x4f51702e46074;0xd7c35e35a3bd2;0x4eac6c9540941;0xde3d80537a988;0x188c25f9751e8;0x88fd15b5967d5;0x2da0c922d9d87;0x1a425069052];[0x0;0xb9162caa2b000;0x4d9c23c424d13;0x3e030afc147a7;0x6002c9ae5d320;0x690e041b629e7;0xd573915d3c052;0xee2aaa1b6be64;0x47e6e18bf4d6;0x4d171cf4fd974;0x5df25374c84];[0x0;0xb692f76ea2326;0xd3b1241df6cc4;0xbf80e5dbd6bef;0x5766a0b14616b;0x9232dc23236d6;0x3d68dc1cf8935;0x3a32b0db22853;0xa7c25864cd6c5;0x327f3ea860cc9;0x756f4c35e5];[0x0;0xf817d72a2c440;0xab8f777acce86;0x81f0d60bff75;0xd3c5c926971ac;0x139dc89b3e13a;0x9f3ca2828a743;0x311600b054863;0xf7c8cdf562e72;0xa528d4989f251;0x599c8e46b80];[0x0;0x5d78f8f986b46;0x947489941b8c9;0x9efc9da84ca7a;0x2bec76cfb5d56;0x6c4e6c4f1eea5;0x101b164c8115;0x7c2db7621233;0x6609e83b0f898;0x5f92bb4fcb986;0x2565303b7c93e];[0x0;0xe7e1f7822fd62;0x414a22d791f4b;0xc038fe6dd1436;0xda1d3d8286b15;0x8509836ab042;0xf6380a4a9af8e;0xabdcb7df1edc3;0x6380292738029;0x3f93ad699447c;0x1753378ec99]]);
 ((V [0x65c15475a0e41;0x21bad879e8cc6;0x20a9b9adbfa88;0x999fdfb18c398;0x3ae3a603b0462;0x893ce91cdd976;0xe99da140d7085;0xe2812b67e2eac;0x499d24140b9b7;0x98f7c587b16] [0xc4d7272f038d1;0x5d21624e3d26e;0xf2b985e70a7d2;0x9f2aaeb2445b0;0xfc0e63346e720;0x8d4496069828;0x7e3d0ad43d4df;0x6b5faa735162d;0xdc2ceb51acbd9;0x8101f98aedd] [0x648fa349805dc;0x9a790f0f4ac01;0x3ee3f950080e1;0x6114409213b83;0x55918caa581eb;0x559e391c1d888;0xfdb21836c76bb;0x62cab2c193c2b;0xee0dd34239481;0xdf03e0b02e1]),[[0x828bd7cb708e0;0x19c2a7a20950c;0xb14b31e1a99a7;0x4d117a139ccb8;0x6e82adaca230e;0xcce4c62c04965;0xf7ccfa4ec259f;0x7b681a18306f2;0xc94dd0db30386;0xffc1ba97249];[0x5231d69cde6c;0x8101567ebcd25;0x43c0d80121783;0x94f1d2a38c583;0x9298e8f03eb19;0xe28c873068e1a;0x68f02c9014ca9;0x23eba0af484c2;0x354b1337ff4b;0x34738d498c4];[0x8da4034026da2;0x5b093623e2361;0x6ab024c0d22a3;0x9d778836ea4af;0x9e227ed4617cb;0xc7d303be763f9;0x9e92e753ac15b;0x27c531ad5b0f6;0xc756d4f024986;0x46d5e30ad5a];[0x8da4034026da2;0x5b093623e2361;0x6ab024c0d22a3;0x9d778836ea4af;0x9e227ed4617cb;0xc7d303be763f9;0x9e92e753ac15b;0x27c531ad5b0f6;0xc756d4f024986;0x46d5e30ad5a];[0xa8d2666f0bca1;0xe459a93a8dcec;0xc4062acbf9644;0xd60b5a3cab4b7;0x7c746a4dce425;0xb0cbc1e248291;0x1464c9f17acba;0x4b69925f66686;0x1227f89eb0c5a;0x85d47b90d85];[0x5c50b6fac1f93;0x9ca7ad442f038;0x7fbaad352813e;0xbee67866e10cb;0x16247ea2706f3;0x31c0c54e20b89;0x548b629e99fef;0xd8820e4fe1e3c;0xf12cb894cf2f0;0xae9f11b8b3e];[0x0;0xc4f4832ce9e40;0x936568bead45f;0x13c9ec75d0464;0xe76c831d70f92;0xa2f2b5734bfe;0xac534b552320;0xaae29714268d2;0xebbce97ea4d15;0x50dc0edec76b2;0x2bcdf804311];[0x0;0xf348dd17f60c;0x801be39fe5919;0x70d43349cb965;0xa5606b4ac5c28;0xd73a1b5034b5;0x94a1f52a88b46;0x89cab5c2aa054;0x7033fbdf714c4;0x21214717ea563;0x46c4a8092f4];[0x0;0xe7e1f7822fd62;0x414a22d791f4b;0xc038fe6dd1436;0xda1d3d8286b15;0x8509836ab042;0xf6380a4a9af8e;0xabdcb7df1edc3;0x6380292738029;0x3f93ad699447c;0x1753378ec99];[0x0;0xe7e1f7822fd62;0x414a22d791f4b;0xc038fe6dd1436;0xda1d3d8286b15;0x8509836ab042;0xf6380a4a9af8e;0xabdcb7df1edc3;0x6380292738029;0x3f93ad699447c;0x1753378ec99];[0x0;0xdd1795ee2bcc5;0xc1f89159677;0xc40399661f22;0x8edbc745519e9;0xffa6778f4715;0xa7b66be2c2cc2;0xb7cd6a377493c;0x814fa5a48454e;0x58a0c7e98e4ce;0x5719d2b0eb];[0x0;0x2fd9c8f443feb;0xe46df3ce425be;0x714107171cfeb;0xcee761775763a;0x130166473c382;0x9f349cc1f9ced;0xa6c7fb22488;0x1c6e8ffab3ac2;0xfc26ae41b0124;0x63f0def4f5e];[0x0;0x7ffe18e219c4f;0xa5a09d44856b4;0x6d75aac0442cb;0xf4ff524e80f2c;0xed242951cc72f;0xf9441ebb4ee36;0xa4b1fbaabb97f;0x7c0ecfd6254ee;0xe0da58c044de2;0x1f575fd9b63];[0x0;0x9a47be1e1a281;0xcbd7221a0307f;0xdb0855675de5e;0x9d0c867ca0d4c;0x98ab80727021;0x9e4df594ba034;0xcc2754dd45a5;0x8ddfb42785f03;0x78de0bcfb779c;0x81688ce2b2533];[0x0;0x7f1679abec523;0xfc6bbf4f79ec3;0x9d265fb73e6b;0x8dda8c05e0f09;0x6748f3e2ad61e;0x8e1acce765acf;0xfa19391291879;0x54d9374842353;0xebdc373338b26;0x4d16089d28b]]);
 ((V [0x70ec8faa57ecd;0x98fafcd4328a6;0xf0d63d7e09299;0x5bc73e48ee96b;0x3d36e8adf3910;0x51b3818110ac3;0x8be05dc89d4ed;0xdf2df3711f013;0xfc0e377727a5f;0x99155572021] [0x58806c696c6b3;0x308ff3198e8a5;0xa3c3ffac5eb5d;0x438c4e7a857e1;0xb3bbe055dc359;0x73a49f9a058a5;0x5bb2958bed6a1;0x33c62fbadff17;0x29eb2d9c7f492;0x1640fa4460c] [0x425f987bd252a;0xe6d415c79f792;0x43ca889beef07;0xb5e9bf1a71020;0x64ff1af77250b;0xe41c6bf41437c;0x5b3a46afdcd76;0xa6a5482afdb17;0x3ae1458ffd543;0xfe95cb5882b]),[[0x71f5237de9906;0x3c25f02e795c1;0x7c751ad791ecd;0xf62ec47d5a03c;0x2c0570232b535;0x58d876970ef30;0x26d126201d847;0x76e0a12121002;0x81b0ffad57e6f;0x79d3d7405d4];[0x1799bba40fdd9;0xe056fc0e06b79;0xcc4f0cb6e8109;0xd2783fa851305;0x5e03d94040853;0x41d461cb153df;0xc561456200520;0x8b41388dd61d3;0x3069650be2e40;0xc41cfdd24b0];[0x648fa349805dc;0x9a790f0f4ac01;0x3ee3f950080e1;0x6114409213b83;0x55918caa581eb;0x559e391c1d888;0xfdb21836c76bb;0x62cab2c193c2b;0xee0dd34239481;0xdf03e0b02e1];[0x648fa349805dc;0x9a790f0f4ac01;0x3ee3f950080e1;0x6114409213b83;0x55918caa581eb;0x559e391c1d888;0xfdb21836c76bb;0x62cab2c193c2b;0xee0dd34239481;0xdf03e0b02e1];[0x5c4c36c1797e0;0x468818f1ee20a;0xcbf77a3f5a295;0x5ba760bc2fb2d;0x301800d9f9e4;0x4b24201be579a;0x607465ae2e650;0xe2eca65d27f32;0x2830976458646;0xfd3fe43cb3a];[0xbb4d84e2963c1;0x99cee31c1896e;0x5792778de74;0x76d0deec217d8;0x5b025932a0e6f;0xf6b041af2fc45;0x64ecdfb3d1ecf;0xa8549230ae2a1;0x838cda78a7f9;0xc6dd1995976];[0x0;0x1419c852fc276;0xbf799b4f15411;0x7acfd865183f0;0xa2e6739e48e78;0xc7728993f59ed;0x49792e81a53ff;0x49a496d6bc81a;0x7eb28e6645c46;0x8f8f7880580a;0x89e9885d72e];[0x0;0x3f2f9426e039;0x346862ee2655f;0x24b0326754164;0xe35fc2b726d10;0xcb66de970af78;0x7dcdaaf565fa3;0x72d5434fac32a;0xb1741fec2385;0x1f7cde1477df6;0x6a2160e9caf];[0x0;0x7f1679abec523;0xfc6bbf4f79ec3;0x9d265fb73e6b;0x8dda8c05e0f09;0x6748f3e2ad61e;0x8e1acce765acf;0xfa19391291879;0x54d9374842353;0xebdc373338b26;0x4d16089d28b];[0x0;0x7f1679abec523;0xfc6bbf4f79ec3;0x9d265fb73e6b;0x8dda8c05e0f09;0x6748f3e2ad61e;0x8e1acce765acf;0xfa19391291879;0x54d9374842353;0xebdc373338b26;0x4d16089d28b];[0x0;0x6634182571b37;0xfdd29da7783c6;0xa8cef0c301f97;0xa87f0e0546a34;0x5534aec535c14;0x3ef93806cd042;0xd7a670a6e0111;0xbfd038e8840b5;0xee82e8d32e99c;0x4102fd81ea0];[0x0;0x815674c22f140;0x138d76a4bb804;0xa87ab892f4fb8;0xbfe9611d72232;0x4cdb500303e64;0x782f4faececd2;0x14a6bead1724a;0x74d4d568aca86;0x9e5bbe8fadfdc;0x5b672a5fe6e];[0x0;0xb23e538228156;0x8b958e94bcecf;0x4af569dcb20d7;0x6dfd04392a08e;0x4e62feee3425c;0xab70fc1ce6032;0x7ca723c87c4ed;0x453af2407a2c7;0x55dff29c032c8;0x7545ab8877e];[0x0;0xb92b045b4e011;0xf38cfc8dac47a;0x57280d7060092;0x600d08c113a1f;0xc1cfc94a41e64;0x9ee49bb94adfd;0x2a4a36c601908;0x1da3a79224f8c;0x98e6312d77226;0x16462ef9dceaa];[0x0;0x6c317ba74006b;0xc702b9331d093;0x89d1717cac7d4;0x45629abc3deba;0x96c25626457fa;0x734f13515365e;0x3724fad78109d;0xb9598da4d4164;0x7abfaf6ed0471;0xd4eb054e1a]]);
 ((V [0x6ea5c732f73de;0x515c56169179e;0xcecb598b424f3;0x7109b31b6458c;0xe4e746962d3f1;0xd46d1462035e9;0xf8e40b6305cb3;0x13e5a79092fa0;0x41ed6ea58561a;0x81d0a8595a0] [0x3b06b40c9bebb;0xe8fe713ce82e9;0x23d8da7474003;0xe6e8ea157a7b1;0xd59cb23938da;0x4af11ccab3350;0x9350156ebf91e;0xe035d72adc9af;0x731e2cb1906fb;0x340c893c99a] [0x39015c683d96e;0x4ba499170e06b;0xf8509c89784a2;0xb884eb6a79c43;0xa7a08d9383836;0xe5557fbe3b375;0xfd257c21ee1dc;0xb232d70ce9b03;0xe962c4b023230;0xb4e22b6b636]),[[0x9a33132eeeaac;0x54a6045901539;0x60273116d188e;0xe3a27bab7211a;0xbbbf7eed70901;0xc38a27278a4dc;0xed39c18bea76b;0x9fbfabd1637e9;0xd788997797bcf;0x53ec832ec51];[0x932aa985dfa6c;0x6495986c98398;0xf345eec6db971;0xb2e69cafc9ffb;0xb9839db1db65e;0x9878add73b4d0;0xa0b7b378d9d76;0x357ebf5b96f70;0x4802a975d7d35;0x1721a9c25c3];[0x425f987bd252a;0xe6d415c79f792;0x43ca889beef07;0xb5e9bf1a71020;0x64ff1af77250b;0xe41c6bf41437c;0x5b3a46afdcd76;0xa6a5482afdb17;0x3ae1458ffd543;0xfe95cb5882b];[0x425f987bd252a;0xe6d415c79f792;0x43ca889beef07;0xb5e9bf1a71020;0x64ff1af77250b;0xe41c6bf41437c;0x5b3a46afdcd76;0xa6a5482afdb17;0x3ae1458ffd543;0xfe95cb5882b];[0x98619761c5e98;0x43211cf39b9c3;0x862ac9e7e9e93;0x7ab9fd9ba0ea6;0xd5ad422046f7a;0x885a17309c650;0x3c7f9286d0e1;0xa317667bf5c81;0xfe0b3a0f0d0bc;0xb6963122e7b];[0xfac912241999c;0x21747b78fc9d4;0x6d1b24def1ade;0x382c9f1429155;0xe3d65b91946e4;0x101e96a69ee7f;0x9cefba506cc95;0x926758dfa12ef;0x49f76f66cac78;0x608b789f747];[0x0;0x3dc8528587ec;0x3e212865ca8a5;0x486ef69014cd0;0xdcd2a9f479055;0x31b49bd54adb5;0x9a4b65b221bfe;0x37da9bfe29c67;0xb04732ed71841;0x1088c5e038823;0x9d6f60c2074];[0x0;0x1b8493e6cffd4;0x5c11574a76704;0x3aa3568afaffb;0x432acdb8a746;0xe9d398d211d38;0x5e46c8947d93c;0x2dd18bf8eb98f;0xc2aa29cd089de;0x82830b3b43d01;0x5375c57a51f];[0x0;0x6c317ba74006b;0xc702b9331d093;0x89d1717cac7d4;0x45629abc3deba;0x96c25626457fa;0x734f13515365e;0x3724fad78109d;0xb9598da4d4164;0x7abfaf6ed0471;0xd4eb054e1a];[0x0;0x6c317ba74006b;0xc702b9331d093;0x89d1717cac7d4;0x45629abc3deba;0x96c25626457fa;0x734f13515365e;0x3724fad78109d;0xb9598da4d4164;0x7abfaf6ed0471;0xd4eb054e1a];[0x0;0x7c94f6dd4dce7;0xd7adc85ca63e5;0x7e695a1e41129;0xf4e5389177b4d;0x666e34e18445a;0x6be7e502b7758;0x9d4bd571525ca;0xb2b0ba594c141;0xb73d5c0c76d5c;0x1ef3b81d77];[0x0;0x6035cf4c5990b;0x32e8146f70da2;0x465d1d055a9cb;0xd3d9336968f88;0xc1cdbb2daca70;0x379c45b796031;0x60caadb3e3d82;0xea02e70a5739b;0x335f4847bc9ea;0x5b8a81e967c];[0x0;0x68b6e1171973e;0xc941c99fc8cea;0x627c840ff332;0xad110e5847db3;0x5dfda12f78142;0x8dd89e8045435;0x58124da81cb46;0x66fb9c99d9a45;0xf255073e6efdf;0xbbad11b089];[0x0;0xb0f7551a6907;0xd5c71bf573648;0xf920298069008;0x4cf95152c657e;0x578e7a33dd322;0xe30463cc99530;0x25b2cd44eac95;0x244e104b3eb71;0x3115cb0078b72;0x343be1cd60536];[0x0;0xcac7ee5e13464;0xb5457789a9511;0xd5639cf5d9c84;0x121b41044d456;0x25003dd61f7a;0xc8cad3007c665;0x2fc9c858a0161;0x422bd66b20d39;0x2d19991a63a0e;0x1a64bd916f6]]);
 ((V [0xaeedfaa896c9e;0x15e5ac5ff8131;0xe5a3e0730d241;0x1565f7a769fc0;0x91561e58c09f2;0x81ea9129d5b4f;0xe1eddfad6c9bd;0x2513d1f8ac0d2;0x4868dd816b597;0x68b4654967c] [0x5e3b3219ad53e;0x2f01bfcd50f23;0xe50c838985983;0x9c2dd1767377a;0xa7f194285311a;0xd5b07e5e8fe4;0xc355215c29da7;0xa2ce2b95e4dd;0x88ac5bf69cf67;0xde2213ff0b7] [0xc40040959d514;0x775d8b4b55e62;0x4ae5c77579ea6;0x582bd7a41fd2f;0xd05ddf85aa44c;0xff599c2d1303c;0x3b7a5e3df1d9b;0x1cb50d2c90987;0xb3ef9d9298919;0x492bb42033]),[[0xf321e24ea3466;0x607a4a04b5bb4;0x58ff0bfe60e90;0xa8faefab67e8f;0x2963026d60cee;0x5b2a85b4e4e5c;0x53a5d03861e1d;0x11d2f44da64a6;0xa72e7196dc342;0xf60232696a2];[0x3a4a0aed94e71;0x8d096dd1cee3a;0x612740f11574b;0x72e4d30ff2f58;0x52146962b63e;0xaa99d4df535b2;0xeef24e488585d;0x602d3578804fe;0xeaff0b6c9b70d;0xe369f60cfcf];[0x39015c683d96e;0x4ba499170e06b;0xf8509c89784a2;0xb884eb6a79c43;0xa7a08d9383836;0xe5557fbe3b375;0xfd257c21ee1dc;0xb232d70ce9b03;0xe962c4b023230;0xb4e22b6b636];[0x39015c683d96e;0x4ba499170e06b;0xf8509c89784a2;0xb884eb6a79c43;0xa7a08d9383836;0xe5557fbe3b375;0xfd257c21ee1dc;0xb232d70ce9b03;0xe962c4b023230;0xb4e22b6b636];[0x90f322af3a865;0x740417ed397df;0x84e1fe35b4513;0x7663dca95f2f4;0x425f143d5f4db;0xe8669003909e4;0x3267adf14db07;0xba56c4efc379d;0x21f2c1200b8f0;0x86efb133e42];[0xa956e83e5a60d;0x190555e49565a;0xdc4542bb61238;0xfc80f66693c63;0xc2c23258cc162;0xc23344dbc2bcd;0xbc8aa05737d55;0xa5d67088bcd61;0xc90c4a4c8fe1c;0x5c7a44d918d];[0x0;0xa3ea45ed6a436;0xb2601ee78375a;0x6c4eb0b8446c4;0x7abece0e59098;0xc621e64e7981d;0x95d2172fff920;0xe9ec21b8c08cc;0x5f4b20c4cffb9;0x54a54d216c299;0x6fdbaab0c40];[0x0;0x415fa70be9585;0xe313133127139;0x6ba5681a4d02c;0x693a16ff22931;0x2000b36b01896;0x993ffd15b0c58;0x4883180d7a522;0x42b7fe8b7c4f5;0x577e8b649b012;0xadd2e31c30a];[0x0;0xcac7ee5e13464;0xb5457789a9511;0xd5639cf5d9c84;0x121b41044d456;0x25003dd61f7a;0xc8cad3007c665;0x2fc9c858a0161;0x422bd66b20d39;0x2d19991a63a0e;0x1a64bd916f6];[0x0;0xcac7ee5e13464;0xb5457789a9511;0xd5639cf5d9c84;0x121b41044d456;0x25003dd61f7a;0xc8cad3007c665;0x2fc9c858a0161;0x422bd66b20d39;0x2d19991a63a0e;0x1a64bd916f6];[0x0;0xfae911b447a2c;0x7a2ddcdd5d259;0x1e1acb5117a9d;0xa1159a1735b20;0xe8e1c336418db;0x58b7e65fb996;0x57c70e6509445;0x2e49402b4bc8b;0xc3ebe25c29bb2;0xa95185dc5a];[0x0;0xb8108162fa9d1;0x2d7b8e2678baf;0xd701a6dc06ab;0x82029d16dce6e;0xf333320ce0c34;0x8e55aa8389213;0x29a0103c9cad2;0x2c1062f59ddce;0xfd31bd4684115;0x41d3f3bc0c9];[0x0;0xb2115d72eb480;0xce6096ad306cd;0x8ac5afa2047d6;0xeab355a10bb9a;0xc1ff3e4b255df;0xd34f48042d647;0x53955c9263fb6;0x59695870ad207;0x1dab93365ad57;0x5d034c704b6];[0x0;0xc2b7a710b6f75;0x2ac72192156ba;0x357423d89d720;0xcf868ea5578cc;0x2a838d78215d1;0x49bcc804b53c1;0x95ab2b648aaa9;0xa422804fa40fb;0x529e375d0f5f8;0xde3ae1e9d524e];[0x0;0xd9c8bd6045750;0x9953e6eebe6d0;0x39b279f334444;0xc0ba7ccaac22e;0x6aad17d5f93cf;0x82ea618d7cbed;0x5a088f1f2a481;0x66092f3d1aa75;0x29946948c6a88;0x5ada5ff8cfa]]);
 ((V [0x3fbb3cb90a4f8;0x31f8e3698034e;0xbd4eba6e74e22;0x3123b02490915;0x2120bb4c58d7c;0x6470b808ec1b9;0xcadeca72ffe58;0x48778187cd9b9;0xde47e79818835;0xdd37c905315] [0xbe24b69c6e14d;0xfb5d5ad400590;0xe93224eebea6a;0xfbe7b9a9a96d;0x36dc584761992;0xd220d23ba4a5c;0x7e03dedb93c9c;0x83bbdfa4e567c;0xd68227e2aed62;0xc0a5fcd8f59] [0x893dd0956c723;0xaa47ae3c45317;0xc19ef42ce8ec1;0x66ec87bc56190;0xbf171c09ae4b1;0x14963214c82c0;0x9a19faad281cc;0x7a5d7bac88cc8;0xe8889ba06ccec;0xdc1c75f6043]),[[0xbdf13af5cf1c3;0xc4779b38ac183;0xe18cd01dab4a0;0x1b3b73bf0e82d;0xd4bbca847fa3e;0xbbd4474bd9697;0xf41fa28cc4c56;0xfd62079485eca;0xc735d50f39d8d;0xa3bfa69f243];[0x8da5783962492;0x13aad844a53e6;0x33110b6385dbd;0xe6471fae1af22;0xc5043707b97f8;0xc729c564ae671;0x322f3b16514a0;0x117d2f38a367b;0x96c131635c976;0x96a9d41c792];[0xc40040959d514;0x775d8b4b55e62;0x4ae5c77579ea6;0x582bd7a41fd2f;0xd05ddf85aa44c;0xff599c2d1303c;0x3b7a5e3df1d9b;0x1cb50d2c90987;0xb3ef9d9298919;0x492bb42033];[0xc40040959d514;0x775d8b4b55e62;0x4ae5c77579ea6;0x582bd7a41fd2f;0xd05ddf85aa44c;0xff599c2d1303c;0x3b7a5e3df1d9b;0x1cb50d2c90987;0xb3ef9d9298919;0x492bb42033];[0x1e55e40568289;0xf6a5f7ec77c50;0xe19c41eb36656;0xe99bef9c7ca44;0xcef7442d72f8e;0x216fa295d797b;0x506d9a8ad18cf;0x96219e5a79ecf;0x38367bae2fdef;0x189d7e1ce4c];[0x6f4f9433fa20a;0x1d04e0582d796;0x5174c9784f766;0xfcab30119e4dd;0xf60cf2da46869;0xa5ba22ced6cf5;0xe1c1a08b7fbd1;0x7b5b90de297ab;0x5e8ab5b52cb86;0x7e0c55ff946];[0x0;0x265d1df9d79b;0xf1089feeeae76;0xe2c6568ba6518;0xdf8429000943;0xee22c697c15f5;0x4ad32513085b6;0x2e25ddfa62e69;0x58e5d488acb46;0x9c45547472e16;0x2d3fa8655a];[0x0;0x52eeb52249d06;0x8affc47713eeb;0x78183a48f789d;0xa20688cd57f16;0xc0326bf59ea4f;0x705314918ae85;0x516091a8fca87;0xac79f3a434fda;0x3f52e3f1c9210;0x2ecd9aebb8];[0x0;0xd9c8bd6045750;0x9953e6eebe6d0;0x39b279f334444;0xc0ba7ccaac22e;0x6aad17d5f93cf;0x82ea618d7cbed;0x5a088f1f2a481;0x66092f3d1aa75;0x29946948c6a88;0x5ada5ff8cfa];[0x0;0xd9c8bd6045750;0x9953e6eebe6d0;0x39b279f334444;0xc0ba7ccaac22e;0x6aad17d5f93cf;0x82ea618d7cbed;0x5a088f1f2a481;0x66092f3d1aa75;0x29946948c6a88;0x5ada5ff8cfa];[0x0;0x1896d5916ffad;0x70df445aac8b5;0x3a41fdfb73a17;0xf11b36dee8fc4;0x9c9a7878d97d9;0x172bb3a9507e7;0x83a7b792bac5c;0x39a95e122eec0;0x3f67f93c3c0de;0xc0bf1f37a93];[0x0;0x646b2ebbf3cb6;0x3e887fcc3cf76;0x7ddb7a13dd94;0x7c6cbd0239f53;0x120452406fb1d;0xa47e29176a235;0xa871e734c1c7;0xc6b707a34f43f;0xc9a9de15ab805;0x2ad3116a3b9];[0x0;0x74966001f8dc0;0x71c3b5531eb17;0x96ca19a9d4d34;0x71594e574c05f;0x7638a1581f490;0x5f4d97df7ffbd;0x7384ffdfd16ce;0x3ca0ca05f8c28;0xda7c77b81f0;0x823170e78ca];[0x0;0x74479ca345748;0x55556c11f052f;0xcc9f6410d5bc1;0x1225d58034577;0x24f401f9defcd;0xc619dc01011a5;0xba386c221093b;0xae1ca5fab4892;0x837250e67245c;0xc0f541c674a52];[0x0;0x6c16022cef8e3;0x22effc21fb5df;0xf56ef3288e8b1;0xf2210b5a73908;0xa8cc18c562166;0x8faf5f5227b27;0xd93615afd2331;0xf6a6e3d98ccff;0x5e71ed523f30;0xa6794636da9]]);
 ((V [0x1aa8eed601f20;0x7f47916075430;0xa93a8e5d88723;0x14191d7e6886f;0x6975f98e3c1d;0x7a09221d683aa;0x5c732c333fddb;0x80c71fd56ae30;0xc01d7ee89787d;0xdeb75020e16] [0x52b256e472cdd;0x355ee61f34bee;0x8cc5abca526c8;0x4e716e86bbde4;0x59f44627506e0;0xb8481d09eaf57;0x8aa88881ce66c;0x219ae0db02e4e;0x242ed79688c68;0xee2485eb8] [0xb83d21baa4ff8;0xa0b9d39fa4ea8;0x4da7f5fa75a5e;0x92089f95b6397;0x4a8c57824b657;0xca859dd34e3a1;0x49d0ea2e86d22;0x857fbb7bbf9c8;0xa0afe4f27db3b;0x75b89825931]),[[0x25f5bea7ff5b;0x1ba3167f0d42d;0xbcbb9f382ce58;0x17908cc359ce8;0xe8261414aa172;0xca6f462537c2b;0x301a9fa3a4d7e;0x56bfe253d3989;0x9866752776d29;0xc9e90a6fe8c];[0x7944db31aa274;0xef81627436a84;0x41f2953b59ffc;0xfb57289006d6c;0xe6667d2d01b68;0xe4d3a9581f676;0xced534feea473;0xd4ec6bdcdcd89;0x218a06a291b5b;0xa5272dcba5c];[0x893dd0956c723;0xaa47ae3c45317;0xc19ef42ce8ec1;0x66ec87bc56190;0xbf171c09ae4b1;0x14963214c82c0;0x9a19faad281cc;0x7a5d7bac88cc8;0xe8889ba06ccec;0xdc1c75f6043];[0x893dd0956c723;0xaa47ae3c45317;0xc19ef42ce8ec1;0x66ec87bc56190;0xbf171c09ae4b1;0x14963214c82c0;0x9a19faad281cc;0x7a5d7bac88cc8;0xe8889ba06ccec;0xdc1c75f6043];[0x511f417cffc1e;0xa20853ec62dbc;0x6ae43357ba9d5;0x4f8e2b4342fce;0xbae7daaa75b61;0xcfe407a544243;0xca021c2eea2d8;0x373cc8164c5c;0x96f6503a0e8ee;0x645ac911bc1];[0x282599b4aa657;0x4d790e87d3cc8;0xd70e61e39f627;0xabc8fd4cc3d9d;0x2b7ea2828c007;0x14efa1b2db433;0x4d318d00019b;0xd1789f5b7812d;0x8a93b6688326d;0x40cc64b9e9a];[0x0;0xd5a953cc3b4c3;0x811bd44735281;0xaf657e2b3f129;0xcb587b2016ffc;0xbc4356ef69f89;0x61a41c36dcf6c;0xc1095b2c33472;0x51a8cb21d663e;0xcd9c62fcc10f6;0x881dce04f53];[0x0;0x556b3c096c01b;0xd34a1553c7ae;0xc52b94d821a20;0x5e35ea12c629d;0x1b9223c9b6a8e;0x11118cb6c824;0x6ac1868441e0c;0xddb44cd01867e;0x8c8c3fef845fb;0xad9ab77edb5];[0x0;0x6c16022cef8e3;0x22effc21fb5df;0xf56ef3288e8b1;0xf2210b5a73908;0xa8cc18c562166;0x8faf5f5227b27;0xd93615afd2331;0xf6a6e3d98ccff;0x5e71ed523f30;0xa6794636da9];[0x0;0x6c16022cef8e3;0x22effc21fb5df;0xf56ef3288e8b1;0xf2210b5a73908;0xa8cc18c562166;0x8faf5f5227b27;0xd93615afd2331;0xf6a6e3d98ccff;0x5e71ed523f30;0xa6794636da9];[0x0;0x7b3acff639e9d;0xf8cf3c4616580;0xf079ed0760f99;0x43dfd061bda5d;0x7b843ce81a3e8;0x6751b82cfabfe;0xe14c1ae4e4e8a;0x1c8b1f6c2d71f;0x494894401541e;0x90f966e559d];[0x0;0x8270b54437acf;0xc6edea8381807;0x732c54a4de1da;0x3574fc73b69af;0x4ad4d613d77b8;0xe055613574e59;0xdcd3bdc9b0c85;0xe74fdc0a8bac6;0x7a7af420767a;0xbf295d3af55];[0x0;0xa4efeab1101d6;0xab0e07a21a929;0xa79b9b0b5b449;0x71e83961da331;0x630fd95fedddd;0xdfad51508fd27;0x3b5bed44e082d;0xd2d398e0c94fc;0x44953da42a1d1;0x8fae3c69caf];[0x0;0x5aefe7615405a;0x5524c8f2bd573;0xfab0eb5c77c73;0xd0182db29ba43;0xcd6b410ba2c69;0x98c3508d8ac91;0x1a33a2df51635;0xa53bd5250147a;0x6a7bb138ab178;0xee790874f2b];[0x0;0x47c7d83f39c18;0x2d1654cb8616f;0xb9483b806b157;0xe10c0cd06c975;0xa48c705fc41b7;0xa4a3672a2d70e;0x78e376b8c47ea;0xe79034dd00422;0x66d10bfbcf71f;0xcf2e32c7f]]);
 ((V [0x40ffc1d2ef5f4;0x9220d445553e8;0xa7c8a7f18c058;0x46bc84fc5d8c2;0x259e0dfa32de1;0x38991069bb671;0x3e4c45cf3634d;0x436089c73354f;0xdef92bd48b21;0xad10fc1557c] [0xdde1e5990c440;0xff85846408b50;0xdec6e4c926397;0xb13031fc5abc1;0x9632aa7f20285;0x47093f0725505;0xd8b6e0025da61;0xa478b991ddd7c;0x3a48a637712c1;0xada72e07464] [0xec346d4f7009c;0xaedeb13cca8ca;0x83b5deb082128;0x523c80505e6ea;0xec930b11109cc;0x87e70c76a058f;0x8380aa6d7639b;0x7f9fce26a4824;0x9a87b0cfcee17;0x9d5e9a02246]),[[0xe37ac4a6e5269;0x26d1798ce1870;0x84a59c21518e0;0x98980f8a0bcd8;0x8c59d857a5803;0xe8f5b4e0349e8;0xeed1a843d6017;0xf3ca3e925c4df;0x12fbcebaea23e;0xa5343bb9534];[0xb7359d93f7dfe;0xaa50f6dd77e13;0xee32d0c59467f;0x55d774927c317;0x54f79d97c18b0;0xd474945406294;0x1759afb1b9a47;0xfccb0bad1c1b5;0x3af76df2007d6;0x3dda3d1187f];[0xb83d21baa4ff8;0xa0b9d39fa4ea8;0x4da7f5fa75a5e;0x92089f95b6397;0x4a8c57824b657;0xca859dd34e3a1;0x49d0ea2e86d22;0x857fbb7bbf9c8;0xa0afe4f27db3b;0x75b89825931];[0xb83d21baa4ff8;0xa0b9d39fa4ea8;0x4da7f5fa75a5e;0x92089f95b6397;0x4a8c57824b657;0xca859dd34e3a1;0x49d0ea2e86d22;0x857fbb7bbf9c8;0xa0afe4f27db3b;0x75b89825931];[0x16929ab249040;0x7282603e1f0a9;0x5b48cded03bf6;0x6f3fbb584ad35;0xce0b40be4de29;0xd10d4351431b4;0xe6fdcc679a661;0x2c75c55aeaba1;0xb795ccd7de624;0x1133a1d1cc7];[0xa0a302e1aedbf;0x37ce969f58d6a;0x92ea02d890a89;0xe697b93a315e2;0x86ec5cd973a86;0x3675102c30df;0x305be34a1f3e6;0xd055465231613;0x8361a11a221b2;0x2ca69b3fbb7];[0x0;0xe202399d1031;0x218c68d08644f;0x7cd60a2abcb2;0xb159b2daaec8c;0xb2f7b09f7d25a;0x4748e38c4c64;0xe4f13bc0cd2e7;0x550d237d3700d;0xac7a983f97e1f;0x48cc6ce2954];[0x0;0x36282a66c1376;0x266d380e2d075;0xf8af4e7210312;0x2d9e864bd2edb;0x199f933f68a7f;0xa1faa4171c1cd;0x4c7aeb201835a;0x821ce2ebb1e;0x11995072280f0;0x4bf7ff05e33];[0x0;0x47c7d83f39c18;0x2d1654cb8616f;0xb9483b806b157;0xe10c0cd06c975;0xa48c705fc41b7;0xa4a3672a2d70e;0x78e376b8c47ea;0xe79034dd00422;0x66d10bfbcf71f;0xcf2e32c7f];[0x0;0x47c7d83f39c18;0x2d1654cb8616f;0xb9483b806b157;0xe10c0cd06c975;0xa48c705fc41b7;0xa4a3672a2d70e;0x78e376b8c47ea;0xe79034dd00422;0x66d10bfbcf71f;0xcf2e32c7f];[0x0;0xe94e6c6c8f92f;0xd1348a5f5c2ea;0x5ef6150f45a64;0xd2e0e982aa79d;0x935627e966174;0x8a8cd0fe2445b;0x1af5c35d0d71c;0xa752387a4666c;0x7d67fa2627c72;0xdd87ee3];[0x0;0x60726ad792bb7;0x21e6de50eca67;0x82cd6a57fb4cc;0x3e28b27966b8f;0xe3fe74aa7d144;0xcfbd19f79fb0f;0x863c45b705e3b;0x9bf6578c308dd;0xe2cb9c713e964;0xc1c2723caf0];[0x0;0xdef4ee9711d04;0x88cbb306f3af7;0x76292fce12643;0xe2ad1d9806429;0xcd4c2b3c690ad;0xf523f937b1f4f;0xbe90750a8ff82;0x35b39d52968e2;0x35608b1863a2;0x29d095d0a63];[0x0;0x2681c83ed308;0x99f24d08132ee;0x7ef9322dd7045;0x5f6661d1136da;0xb5eb7307ca84f;0x9a5044a769fb4;0xb71c570d1b0f7;0xbca7c0141a251;0xdfae88874f0f7;0xae2ae0558be1a];[0x0;0x314f56076a07c;0xbb9aa8983d31f;0x971e5dec28ec7;0x7f17b8bef461c;0xe625f7fa19383;0x30cbbb8c9520e;0x12cf7abe9dc3;0x84a0ce376db67;0xcaf7624f96d97;0x75657f8cd67]]);
 ((V [0xd4ddb5e916a57;0x98a6ae309d8d7;0x9fbd01067d6d8;0x57bdc75fbf856;0x2884f86cf588d;0xbd76f734c539a;0xfd145978e2f2e;0x78e5daee5f93e;0x23c9866876586;0xa5c70f6844] [0x1d26379b06bd6;0xf086a8f16cfd6;0x3c3ecab24863e;0xf4c3625592acf;0xfb5171d49f9d3;0x47a4eef782309;0x480b646b29421;0x5333b2148f4bc;0x70fd2c8804311;0x92cfe20b510] [0x33d4d036e7b9e;0x4f512404b76fb;0x3e0b8c01c1f68;0x18e070d07f274;0x95fb4732bc920;0xb0a08d51b0f06;0xf4d9f6f33a09d;0xf07356f417d3b;0x5a15a8030d274;0xad111f6a11e]),[[0xea1413f3fd544;0x662e3982a3be9;0x64820ac8334ff;0xde178fabd788c;0xecc0be112ab04;0x9738f7dfecefc;0x3e5c0b8175b69;0x560bbfa74bf3b;0x4adaf59225fdc;0x7f9b7d9d249];[0x4ae5d12e3023c;0x4e34b41838e5d;0xbce5afa1fb830;0x192b0b7376f7d;0x3152f7fa6ad71;0xba7aaf620ade4;0x808f9e20fb4d7;0xd01b63ef7d80c;0x55576bd9a771b;0x749ccdaa268];[0xec346d4f7009c;0xaedeb13cca8ca;0x83b5deb082128;0x523c80505e6ea;0xec930b11109cc;0x87e70c76a058f;0x8380aa6d7639b;0x7f9fce26a4824;0x9a87b0cfcee17;0x9d5e9a02246];[0xec346d4f7009c;0xaedeb13cca8ca;0x83b5deb082128;0x523c80505e6ea;0xec930b11109cc;0x87e70c76a058f;0x8380aa6d7639b;0x7f9fce26a4824;0x9a87b0cfcee17;0x9d5e9a02246];[0x904cc1e8047dc;0x1488bc92d421;0x7bdf606cab264;0xaf2f043e21753;0xbc19bcb356569;0x88dbcce858247;0xdb7a88538a964;0x64a1df9615a5a;0xef72174e39bbc;0xced8ff3d23b];[0xba990f462b828;0x4cec284f0ba3b;0x41064f35505cc;0x69fc07355582a;0x75393b4714807;0x319ee279b2b9c;0xa51515cd70b73;0x6b79845967db1;0x65e5548b6db5f;0xa5c3ce6d02c];[0x0;0xf9c31f9c64ca4;0x1eb7591c76550;0x5e7eb16b0d962;0x3b509639a9b05;0xd5a2b0c996e2b;0xc49bd55f72412;0x9e926c223ea32;0xdb7a996ef339e;0xbffd755d2ed71;0x61512cc047b];[0x0;0x585cfc62a032c;0x2c71c3d8fd5ef;0xc9a774f7338dc;0xcdaeb40e0e32f;0xef1e107983dd0;0x8c22d776a271d;0xf900e5f50a779;0x84029ee75d12;0xa8c408e867f2;0x4e7183e61a1];[0x0;0x314f56076a07c;0xbb9aa8983d31f;0x971e5dec28ec7;0x7f17b8bef461c;0xe625f7fa19383;0x30cbbb8c9520e;0x12cf7abe9dc3;0x84a0ce376db67;0xcaf7624f96d97;0x75657f8cd67];[0x0;0x314f56076a07c;0xbb9aa8983d31f;0x971e5dec28ec7;0x7f17b8bef461c;0xe625f7fa19383;0x30cbbb8c9520e;0x12cf7abe9dc3;0x84a0ce376db67;0xcaf7624f96d97;0x75657f8cd67];[0x0;0xb57c0c6f946bc;0xba87300413cec;0x77e444d0bf1d0;0x2ea9f8e8e2315;0x4ec25924529f9;0x25c18d49c3d22;0xd216c743ebdd8;0xa4c726d94dcb6;0xbb618f11a7fdf;0x75cb6162eab];[0x0;0xdb23e78bd2458;0x5e58c02c95419;0x6e7bc4e389abc;0xba9bad4808de5;0xf95f0cfb98dab;0x7d96f95e0174d;0x137d1e1fc18c3;0x8fc2864fcb542;0xfac03df168aa4;0x74fff5d5537];[0x0;0xb0f08c805fc65;0x9546d558b7ed0;0x73b43a45c876b;0xe1db2c8654dc2;0xff043a4311228;0xa4b132f3f12ee;0x3cfea60386297;0x6a9b02b90c80b;0xe25afa1551298;0x4b83bd7738];[0x0;0xf0d41b60cf0b;0xd8823b42e27de;0x5a864b8c72c93;0xca56c32e73b46;0x4d5f0a38678e8;0x38f8cd026b2a7;0x20fb0584df606;0xd501154e37825;0x3d12a6e9693ed;0x931fd1ce4f6c5];[0x0;0x5049a1a12b904;0xa31a79eaa58d;0x806ce91ed62a5;0x36f3c72401ad6;0xe2544c26d01ac;0xc43759163a521;0x820bd76455781;0xf04729c477786;0xcbc611b325c95;0x5f12251ffb]]);
 ((V [0xf471802105077;0xfdf766353d68c;0x55ac32325a173;0xead74b3533ea8;0xd43857d7a0a5f;0x4b2e7879d894f;0x55e8ca6e50070;0x9cd0983b241e3;0x7321d86c7758b;0x6fada7d97b9] [0xc738a6372f23d;0xee2c581c050c6;0x5bb445d0d1513;0x21b08068e76a2;0x7452c1364698e;0xbce08eaee80fe;0x615daf6aef848;0xe486828543feb;0x9f64f046f2b14;0xc49ed5f278f] [0xe7322dd85d2aa;0x32d795c59b79a;0x9332913fc2581;0xf10330ff97d49;0xfec5892e7e95a;0xcf6ac44c2fda4;0xadc0e520cb7fc;0xcb53e9038bbe7;0x614c032ec3e2;0xa8ebd76ec1a]),[[0x386acc2ea305c;0xbddf73a7576f4;0xb27ab98803f4;0x4a8249661b754;0x1570d10978211;0xfe411c823305d;0x7ae0dd8ac9aa4;0x1589319e35203;0x71b29784e2793;0x4f0a09098b1];[0x7305d4455f3dc;0x9bfa84b0e14be;0x29e6dcf0c935;0x6cf77cfb5e746;0x6598f14844897;0x913b636a256c2;0x6bc631a5d8893;0x58e8ddb1e1fb9;0xf125a59e18ea4;0x21b75199e96];[0x33d4d036e7b9e;0x4f512404b76fb;0x3e0b8c01c1f68;0x18e070d07f274;0x95fb4732bc920;0xb0a08d51b0f06;0xf4d9f6f33a09d;0xf07356f417d3b;0x5a15a8030d274;0xad111f6a11e];[0x33d4d036e7b9e;0x4f512404b76fb;0x3e0b8c01c1f68;0x18e070d07f274;0x95fb4732bc920;0xb0a08d51b0f06;0xf4d9f6f33a09d;0xf07356f417d3b;0x5a15a8030d274;0xad111f6a11e];[0x362716f5cc05a;0x69bec34f37b18;0xcb90702aa388;0x46d4312257da2;0xbb6cd6ad418ce;0x7b15b0488a70d;0x727565d215957;0x1e1ff33575a00;0x880494bb5867;0xfd30510f2cc];[0x3cdebd4f9314a;0x323bc161a99a6;0xf5e566cc625ad;0x26234bd9069a3;0xaa2c1a9b02fc9;0x1625b3219afb4;0xf950cbd3c2f3c;0x3ac8ea7c6c5b8;0xe8a55c526363d;0x2487008abca];[0x0;0xef7db3c31f0dc;0xc553d906a2d3a;0xa8faafebffe49;0x2397a6fc3dde8;0xdbc56bd4c9659;0x49862a6aba4f6;0x4fc012e0496c9;0xceef9fb8417e6;0xfe82e9552bdfa;0x6b0638ea078];[0x0;0xecd344a0d0fb4;0x667f574df6fd5;0x39f4f997e40d6;0xe3e5f8ab2e765;0x9e2ecd7ac70af;0xfaba940f359b2;0xeb6b89e8e5b29;0x964c5a17e6e8f;0x7501430794c5a;0x356f1179036];[0x0;0x5049a1a12b904;0xa31a79eaa58d;0x806ce91ed62a5;0x36f3c72401ad6;0xe2544c26d01ac;0xc43759163a521;0x820bd76455781;0xf04729c477786;0xcbc611b325c95;0x5f12251ffb];[0x0;0x5049a1a12b904;0xa31a79eaa58d;0x806ce91ed62a5;0x36f3c72401ad6;0xe2544c26d01ac;0xc43759163a521;0x820bd76455781;0xf04729c477786;0xcbc611b325c95;0x5f12251ffb];[0x0;0x6f989db6a7d26;0xdee7fa3be4c9a;0xcc9d3ddc93851;0x9796779313cec;0x63e384727ee54;0x31435591a3658;0x3033e7f699d6;0x2bbe619f167bc;0x113088bc38a41;0x5431c6a43e5];[0x0;0xb11bbc8593181;0xa15ebaca80322;0xae8fcac84c724;0x5a2595a1060a6;0x9c0475136ba2b;0xe44ad74bf9d3;0xbfb437d7d8191;0x75cdebd5db90b;0xcdd73de32737b;0x6b5a34a55];[0x0;0x14b796df93389;0x988dcf92dc8fb;0xf651105bb5177;0xc77c3bb5c55e2;0x4fb87b4ecb8de;0x1748193a40be1;0x70f23470e3951;0x85d1b8185a02d;0x79b2ae8c9f8d;0xeb55b5f1c2];[0x0;0x7cbe307a01473;0xdf4e973e38e13;0x5c052ecf3204a;0x8ab755218800e;0xb97b018cad30d;0xda40828dfb74e;0x1bd81e4d3cb3;0x9d317bfc7bab4;0xa1c01c90fdb79;0xc5498f829fc91];[0x0;0xfec17d0cddec7;0xc833ce8e1d5b9;0x7676408c165b8;0x53bb9a6dee76a;0xa01437f3e06f8;0x1011a61076575;0x2f06224fd0437;0x46fa21e52efa4;0x11b24b752ea4b;0x55c63f055e7]]);
 ((V [0xde0eeb2b9dc3b;0x5069e96c1b351;0xb06d0883d94ba;0x1bb83932e2e66;0xea36ca34c1deb;0x14981e77c5a07;0x121464851f746;0xfccd415bdd154;0xd8073bc0bbbb5;0xf81e4d6e6d3] [0x1e0ee73d3c002;0x6a3b6e8ccd370;0x2e0527b1c4e80;0x4bcc53505c27;0x6665c7b9f0c1e;0xabe3765552566;0x678826a134e4f;0xebde2da0a8d37;0xa260b7f685d1b;0xe9cbc1c0905] [0x4f55297294ed0;0x9130b86d763e5;0xdb21d747dbff6;0x1561447b750d2;0x7dcc086cc97ba;0x37d04b70ca027;0xe4d05b4154614;0x51710bcb0c2f2;0x9ab2b72925ac;0x2d187035b6b]),[[0x7e54df2103011;0xeb43e92e101d2;0x58ca173a4e812;0xddc6f4d4b1539;0x1c20dcfcdeca1;0xbcdb3aa013c6f;0xf23afca3794c9;0xbe556b0f8e1d8;0x5d5537ee24c4b;0xef1316eda50];[0x283c7c80223f8;0xbeeb823d688c8;0x32e684859e902;0x719e057c28dd;0x938c8954fb9a1;0xdbbdc13943832;0xeb40ab6c123ed;0x13e889e50d1dd;0x6280d02df0478;0x58ed5c1ca87];[0xe7322dd85d2aa;0x32d795c59b79a;0x9332913fc2581;0xf10330ff97d49;0xfec5892e7e95a;0xcf6ac44c2fda4;0xadc0e520cb7fc;0xcb53e9038bbe7;0x614c032ec3e2;0xa8ebd76ec1a];[0xe7322dd85d2aa;0x32d795c59b79a;0x9332913fc2581;0xf10330ff97d49;0xfec5892e7e95a;0xcf6ac44c2fda4;0xadc0e520cb7fc;0xcb53e9038bbe7;0x614c032ec3e2;0xa8ebd76ec1a];[0x4b4fa5134c3e7;0x38f6109041c07;0x157b4883420ae;0xbdf7b7290777c;0x3d2bca8d8d0c2;0x8a833e6542798;0x1efd7260f677d;0xf53294cbbff41;0xdd389d2f98f45;0x222e6826f21];[0xdcecd76cd6012;0x85f571ad26cc0;0x1d6b3c025c854;0x4922292ebb161;0x5660bec76e8de;0x513a82d40109a;0xcc43390b1bc70;0x1eb5f5194d29c;0x854832fe57532;0x36bef3f5b65];[0x0;0x2b770c867c79;0x7fc0a3c9c0c7f;0x8113a5117b2bb;0x5d7f1551ae1a3;0xb6cff4bcd5b5d;0x32513eb86f700;0xc143e9c85db17;0x7e27f993c3907;0x78de694698eec;0x6875ed77e5e];[0x0;0x26013ed27241e;0xb186f2081a8be;0x3747d63f6c16c;0xf3dff2e7b0213;0x2bcfb11a10d12;0xe3313c56335c1;0x31e7a28effcde;0xafe87e936b8f;0xaeb2323d90e6e;0x9dc0c6c277b];[0x0;0xfec17d0cddec7;0xc833ce8e1d5b9;0x7676408c165b8;0x53bb9a6dee76a;0xa01437f3e06f8;0x1011a61076575;0x2f06224fd0437;0x46fa21e52efa4;0x11b24b752ea4b;0x55c63f055e7];[0x0;0xfec17d0cddec7;0xc833ce8e1d5b9;0x7676408c165b8;0x53bb9a6dee76a;0xa01437f3e06f8;0x1011a61076575;0x2f06224fd0437;0x46fa21e52efa4;0x11b24b752ea4b;0x55c63f055e7];[0x0;0xb35d31e5e544e;0xc637ae4d22a6e;0x26ae6cec5184a;0x12cbb8e853b4d;0x1a3bf7aca46dd;0xe68712ec5cda6;0xc121230c86fde;0xb271133bd87d8;0x978adedf428f1;0x97039a28135];[0x0;0x10d406ca15ac9;0xa4494bb5d3961;0x44f68d6e4805e;0xe37680ac8ebd2;0x4cf1134614124;0x8f2209f8becb9;0x6344efef986cd;0x3258798796f44;0xb9fd15c2940df;0x30b80d5ae32];[0x0;0x94cb57293e279;0x4f30c7f27fa74;0x69a1e21b2faf3;0xd6895dec85f80;0x33934e9624d8;0xd71fe471f9b70;0xa67ed3053b109;0x9ad2cd006240a;0x2d50741af0d47;0x563077f24f3];[0x0;0x8e2cacac7eedc;0xdff4b4381eec1;0xa51d9d44e45e3;0x96654bbfe3139;0xf3c93fa5534b9;0xc9025f83718c4;0x943f98037cfed;0xed382314f24b4;0x78c6c2610766b;0xea6456b1f4f3d];[0x0;0x68ff97313c12a;0x3ceb6f921b839;0xf201c19e79a61;0xb87b1fbac000;0xa7f8f955ab658;0x8a5d6a0fffe04;0xb7728594f2a01;0xc1dfff8bfb80f;0x57f078714985;0xe299104a630]]);
 ((V [0x879ead09d5521;0xbde42607ef83;0xd5223ae516e23;0xce5d5beff2d9f;0x21e5e6e26206e;0x28355577b6315;0x2c1fe8dcf579d;0xfd48696959dac;0x8fed3caad930c;0x43d892babb1] [0x6ba66901e3be;0x21d8970f576f6;0xbf58825ec1d6;0x441118d399079;0xd0a810b031d0;0x977cfba6db028;0x2749202d8b9d2;0xacd5d54400f4f;0xd7e839d1eb589;0x337a30cb653] [0x573090de4bbe8;0x2aed5100b1349;0x180e859a10ddd;0xea48dd567c284;0x4a231059548ee;0x404dd028500ba;0x812df68a50829;0xaa372a2540729;0xd512db85e29e1;0x624b2498b0]),[[0x21087e9716098;0x4b9d0f0ba1e6a;0x48ab7707d48f4;0x2984f675bc207;0x86a988fe9c7a3;0x44e78607fa2f7;0xc88287aa877db;0x91c85d617f960;0xf8ce1296c5e06;0x24ef535a8d7];[0xf0120d1c60faa;0x18e23353a697e;0xe6b330030564d;0xd4f533e1d9779;0x2c44ec7437067;0x7cc32cb04c69d;0xf5e0e9dc44c93;0x5a43f06ad27a5;0xafcabb2fde9a;0x6a7ce535b16];[0x4f55297294ed0;0x9130b86d763e5;0xdb21d747dbff6;0x1561447b750d2;0x7dcc086cc97ba;0x37d04b70ca027;0xe4d05b4154614;0x51710bcb0c2f2;0x9ab2b72925ac;0x2d187035b6b];[0x4f55297294ed0;0x9130b86d763e5;0xdb21d747dbff6;0x1561447b750d2;0x7dcc086cc97ba;0x37d04b70ca027;0xe4d05b4154614;0x51710bcb0c2f2;0x9ab2b72925ac;0x2d187035b6b];[0xeaadd32c0bb5;0x87bbe4ad143a2;0x1bdec22a36d0b;0x3c849f434bc11;0x3392f2f632a08;0x808889b217386;0x5618da5da8b06;0x390980d1ef67d;0x2a8ec8fcba24b;0x51405690e66];[0xe1672fe9a03f6;0x91264ea6925dc;0xcad46dd8ce941;0x9870949e8db68;0xf8b1f97e0465f;0xfc3aa2fe35316;0x9fc80f7e9c18c;0x213a6f98e3128;0xe06de2b643c4f;0x193c8ea4caf];[0x0;0xa6bdef94a4c58;0xcfeab753560be;0xf8442584a6e8a;0x4bad38a55086;0xfc94addc0bae5;0x5b24d522888e0;0xf092e6aae5f27;0xdb7c4bf44064e;0x87709965ba2a0;0x1be3104651b];[0x0;0xcbcbbf39ddd7a;0xebc5280674c35;0xe0e176b89ee23;0x65afc1d90904b;0xd6f034cf8ddff;0xa838ad39d2a08;0x3cd9b0d1b83f5;0x88be1e4e15907;0xc2f7d524203b4;0x68198472fb];[0x0;0x68ff97313c12a;0x3ceb6f921b839;0xf201c19e79a61;0xb87b1fbac000;0xa7f8f955ab658;0x8a5d6a0fffe04;0xb7728594f2a01;0xc1dfff8bfb80f;0x57f078714985;0xe299104a630];[0x0;0x68ff97313c12a;0x3ceb6f921b839;0xf201c19e79a61;0xb87b1fbac000;0xa7f8f955ab658;0x8a5d6a0fffe04;0xb7728594f2a01;0xc1dfff8bfb80f;0x57f078714985;0xe299104a630];[0x0;0xdd9854f9cf539;0x3d418e84b0c6b;0xecc05f8c3c392;0xdcb6fd96e835e;0x8fcd5da0e71be;0x9e4422680bc91;0x977e072eee065;0xaba4ad69ad2e2;0xcf2ba0a23fae6;0xd58488dd60c];[0x0;0x5bf166899d45;0xbb228aa5bc48e;0xc4a4924cf17f8;0xfe46bfd568d07;0xf96ccacfc1944;0x1bf847233a8ce;0xf213bcf322d53;0x47334504adf98;0x460a366343f2e;0xf07ab99c30f];[0x0;0x8a8c93a699a3d;0x3c54f0121bc15;0x5a47a5a294d6c;0xba0afba153eb9;0x93b7a137b032e;0x5ff19faf85cc0;0xe5f1049c40d7f;0x9a848cb3b69cb;0x4c0e620d202da;0x1c38c6675a0];[0x0;0x8836bb379052;0xc923cf185802a;0xf5faea658eb3c;0x45126e88fac65;0x76804238543fc;0x90a1fd630618c;0x6d1a9970110c2;0xad684aa84bf12;0xe8960c46f984d;0x33984146b5aea];[0x0;0xb8a5f2e215ba;0x1c87997f64938;0x6afd264184d0a;0x6ae74f7f52e;0xd93e73858d3c9;0x624fb1ad292e0;0x8b756ec9def41;0x93939288441d5;0x73fdacae75792;0xda4875fa35]]);
 ((V [0xaf1d51d0f96ea;0xfbc18c97fbfcb;0x34aa2bcf64;0x18b04d6137024;0xc3babd2fb0043;0xb8df11e8ff6c4;0x8c4c1729bd32e;0xa5aeb946d0035;0xdac139fadb88f;0x65c10a122a7] [0xfb5d233d9ab17;0xbd90376ef14ba;0x3295ac596e41a;0x687df8ebc3c0;0x3680c59b9731a;0x30d14adc7c8f4;0x6615e3c2b47ec;0x274bcd9e1e18f;0xa0edd64292c1;0x39b1d63092e] [0x8b6d2fd983791;0x587e49c1a4851;0xff4b9f59b177e;0xbdf02419fee55;0x9e0903ca845f6;0xc9215d2a9fd77;0xf84b846c40b43;0x3755c9204f762;0x1f79dcbb79d1a;0x11b0beaa5db]),[[0x61a100613b628;0x7f54d06230f2d;0x559935cb2157a;0x8a5205f977bf5;0x11054c664f675;0x79911ed2454d3;0x3eff46189df7c;0x5dfdf21541a85;0xdbbb89b987cf7;0x4bd6be4ca47];[0x9e7282b8be0d7;0xe6a524edb0498;0x8004c9c6e2a73;0xa799cd31a5578;0xf759f0fba8507;0x85bde7b432c9f;0x86f96cb366e97;0x8bdbc4a5bef7b;0x76c660a9f037e;0xe6f6211b3f9];[0x573090de4bbe8;0x2aed5100b1349;0x180e859a10ddd;0xea48dd567c284;0x4a231059548ee;0x404dd028500ba;0x812df68a50829;0xaa372a2540729;0xd512db85e29e1;0x624b2498b0];[0x573090de4bbe8;0x2aed5100b1349;0x180e859a10ddd;0xea48dd567c284;0x4a231059548ee;0x404dd028500ba;0x812df68a50829;0xaa372a2540729;0xd512db85e29e1;0x624b2498b0];[0xbb616ba140021;0x240fa327a4807;0x5dac7905a938f;0xbc7865cd3002c;0xd9f2408f4db3b;0x18081a7d12a30;0x3347edf93f24c;0xecc6c869dc9d3;0xafd4b602f4f0;0xed8900a8acd];[0xe31117177de7e;0xc29581c60bc90;0x225850c1396e4;0xeb2167647554c;0x1d67b06c5a9cb;0x6db5cd372026f;0x53b17eba27c4b;0x9f14fc3be25a8;0x6bc91549c0e8d;0xf96d207292c];[0x0;0xf1391050d82e8;0xe5f97501be204;0xc73e821a001dd;0xa32d0e42c4544;0xdc526026dfc7c;0x15b575d264b13;0x17f4238acbef7;0x41467d199d615;0x380f58595e7d4;0x3cc8d9b196];[0x0;0x7cd1116f20d4f;0xcd7eb437fca1c;0x37bce18b56d6;0x16e700d31f5c7;0x60e4d8a902979;0x8735a8f976c81;0x7e313b4ab776b;0x70bb27588b72b;0x12d96d2c4e911;0x1d1e779a86];[0x0;0xb8a5f2e215ba;0x1c87997f64938;0x6afd264184d0a;0x6ae74f7f52e;0xd93e73858d3c9;0x624fb1ad292e0;0x8b756ec9def41;0x93939288441d5;0x73fdacae75792;0xda4875fa35];[0x0;0xb8a5f2e215ba;0x1c87997f64938;0x6afd264184d0a;0x6ae74f7f52e;0xd93e73858d3c9;0x624fb1ad292e0;0x8b756ec9def41;0x93939288441d5;0x73fdacae75792;0xda4875fa35];[0x0;0x8f364b6591405;0xb4342b5da88db;0xebf32b4bc9a32;0xfaae30c55e66;0x7afc783c89ef;0x2a51617dfa868;0x3d97f9c3b6b13;0xf816662636d95;0xfe695cd0d91d9;0xa59e9c3957];[0x0;0x4e6f3b90b8e25;0x2fa23ad7a5a8a;0x2dfd5a27f78f3;0x3a8ec2955c33c;0x8335e48bdbf7b;0xa823af97bda43;0x207c1f1db5c2a;0xa1ec5bee63215;0x4552dcd36458b;0x11fb1405ad2];[0x0;0xd15b58496f560;0x4ac0f2cb7141d;0xaea2f0716db35;0x953e60f1ae5c2;0x619860a4dd3f0;0x23727d536961e;0x7e483ef7bba9c;0x723495ebf6c50;0xd62f134f9bb8;0x5bcd43b4b69];[0x0;0x2aaf45655dadb;0xc22cddde85813;0x214308d8477;0x244aa03ec3402;0x209d6c27bd0fb;0x6e9407f352f08;0x9ec147770d420;0x705fe100d20dc;0xbdc3c02f1765b;0x39b77ac7f9ec2];[0x0;0x6bff4c45a72e3;0x7067d8584631e;0x3417caeedefa8;0x5aa342665310c;0x16008c5f2a8f9;0x9849755ad4d38;0x8bcbb3ee02adc;0xa4b01b66ea9f;0x3cfbfb8d41c5c;0x16eeaad8af0]]);
 ((V [0xb1e9029dd7bfc;0xdc13eb83992e0;0xdf85456d9de3e;0x97f63a88eec64;0xd5156affbb9f1;0x30f152bd217d1;0xbae8e0d5d5cb3;0x335291dd7db1a;0x8e9ce697e7a2c;0xe82f3b12924] [0x3dc61a6bac113;0x68d92c852d77c;0xe3c7d15be5b77;0x963af05c5d27c;0xfab3ab1ec8391;0x6adc5a9138c12;0xb7e3ccc10517e;0x9583be8be615f;0x7a4bfafcb168d;0x994fbe18b92] [0xa25db1c4c0aac;0x558a4d77a800c;0x2b2284758ba81;0xdf2c9fbfc7894;0x93486d05776c3;0xd110722a60157;0xb50e892d737c2;0xdf711f218f81e;0x1542a7cb7b2eb;0x265884a92b]),[[0x83fc3e547af70;0x8d1f1007bfd2e;0xce68b91632eaf;0x97230499411c4;0x886c8d04e54d;0x94c5b29ae368e;0x2a8f4be3eaa84;0xcf621cbcb07cf;0x98a6f8fd83798;0xa87eb2bceb6];[0xcc84c25644c43;0xd1313c2e7626d;0xe00acafeaa8af;0xe406e156c40;0x3f9afad24933a;0x6af24b65d20e8;0x9d0539a34e985;0x6f67384e6aef5;0x1e3249dd0992f;0x36a2774d9c4];[0x8b6d2fd983791;0x587e49c1a4851;0xff4b9f59b177e;0xbdf02419fee55;0x9e0903ca845f6;0xc9215d2a9fd77;0xf84b846c40b43;0x3755c9204f762;0x1f79dcbb79d1a;0x11b0beaa5db];[0x8b6d2fd983791;0x587e49c1a4851;0xff4b9f59b177e;0xbdf02419fee55;0x9e0903ca845f6;0xc9215d2a9fd77;0xf84b846c40b43;0x3755c9204f762;0x1f79dcbb79d1a;0x11b0beaa5db];[0x71b301b86ddc;0xa17fb54bdbd52;0xa4f757b66459a;0x7681eaf63a4c1;0x821a94589c71f;0x91447bfd5ed03;0x22fcf333b98af;0x9c90d6548678b;0x47533f99142dc;0xac766f16194];[0xc569923abdc2f;0x2fb186e29a51b;0x3b13734846315;0x8a621beb1c77f;0xbd806679acc1a;0xd9adcf68733e4;0x7a08466f950d5;0xd2d661f9e476a;0xd6df0a43f5652;0x8a2c083782f];[0x0;0xb545e3960f620;0x54f98f853185a;0xa2390ce6440ff;0xa7ee701f85c3a;0x2ca4c299ee6d1;0x9ac464b5a8bcf;0x452ea03114576;0x2a47b6c8fcaf5;0xd47c8cc683499;0xaf091aede6];[0x0;0x3b5576697706b;0xf0574b004edaf;0x83068e93b0e4;0xd1cc24992da3b;0x579d0058dae20;0x2c169b3c29c8a;0xaa6e6af9dbc96;0x58fca347585f7;0x9ec6f8e764d26;0xba4be7797f];[0x0;0x6bff4c45a72e3;0x7067d8584631e;0x3417caeedefa8;0x5aa342665310c;0x16008c5f2a8f9;0x9849755ad4d38;0x8bcbb3ee02adc;0xa4b01b66ea9f;0x3cfbfb8d41c5c;0x16eeaad8af0];[0x0;0x6bff4c45a72e3;0x7067d8584631e;0x3417caeedefa8;0x5aa342665310c;0x16008c5f2a8f9;0x9849755ad4d38;0x8bcbb3ee02adc;0xa4b01b66ea9f;0x3cfbfb8d41c5c;0x16eeaad8af0];[0x0;0x5e8f42d258423;0x1e3b774143650;0x297b22096255c;0xf6ce45b4f193b;0xb810afe8aa767;0x5815ec6416a88;0x675b3b7ab0c14;0xe6af1b32fb1df;0x8610f67dae579;0xd00aceb83c];[0x0;0x39329df3284a3;0xe8911ee252b76;0x4ff074e1d2162;0xd52dc68957429;0xc9906c7dcae8d;0xd79952ee4f28b;0xdd3900aa40a6d;0x97662d1215fca;0xa7e0c3c10cf5;0x2871e382855];[0x0;0xb0cce5d3f09c2;0x9b67d9a471b89;0x1ae7fabcc4144;0x8a77c1bc4b21b;0x8864be34d3332;0x2ae9c6c618cc9;0x49ece0d58fe8;0x2ab791750ca95;0xee40bcb8037c8;0x318d508da4f];[0x0;0x368dcdc84583d;0xe717673aba66c;0x33e1d4eb339e4;0x74180af35ce62;0xb39aebaa5eac9;0x34304c5f3b3e5;0xe38dec365e58c;0x2b7deffa29bd5;0xb23f9b3993f43;0x99c855b8cfd22];[0x0;0x6f747712b52b8;0x4436daade68d2;0x6d79dabef901e;0x601df78e55e54;0x1a05da6a89cf1;0xa9b29cffd2a3f;0x4fd2629a6a996;0x86218ada15c92;0xc20dae02cb09f;0x8b0c8d4ace5]]);
 ((V [0x46590d1da6adf;0xa9719660d6228;0x7fe73121c9e01;0x370536e53754b;0xf9876c54a37c1;0xd36df0860f712;0xab3e47f91d998;0x7172ab286fd33;0x257255c8b94d5;0xbb095534de5] [0xf8ce342db281c;0xd593f9761907f;0x69507acf52153;0x9ce0e6d4c7ef4;0xd4a71b1a5ff30;0x55061a9c1c53b;0x7d6ae7ecb6991;0x78a1d76c55fe2;0x22565ebe32357;0x615b8ef2772] [0x1e52ed76a0ef4;0xeab852f81979f;0xb3b977aa3d180;0xe0059a98904e1;0x8274467fb7cff;0x94342fa4b6863;0x45ba6ec1e3e91;0xd099fcdbb48ae;0x581502bfda539;0xb7a5383a987]),[[0x19357ab28ce84;0x23a184e8c8c92;0x2fb47a9ab5caa;0x6e712b40912d7;0x3c03a16fa945c;0x4b75f24d20fa6;0x69d880b1061a2;0xef987ba9244f7;0xc6b016986a18b;0xac4b66fa8cb];[0x7a588ff28cdc9;0xa180807e4e5e;0x943703610eb4a;0x112fc0ac0a21a;0x3d7257df848ee;0xce83857f3895b;0xa27fb3b4d20a6;0x23e9d47a97319;0x53dc1d70a3cc7;0x5906f190679];[0xa25db1c4c0aac;0x558a4d77a800c;0x2b2284758ba81;0xdf2c9fbfc7894;0x93486d05776c3;0xd110722a60157;0xb50e892d737c2;0xdf711f218f81e;0x1542a7cb7b2eb;0x265884a92b];[0xa25db1c4c0aac;0x558a4d77a800c;0x2b2284758ba81;0xdf2c9fbfc7894;0x93486d05776c3;0xd110722a60157;0xb50e892d737c2;0xdf711f218f81e;0x1542a7cb7b2eb;0x265884a92b];[0x2ad92e095ecfa;0x1f7edce88d2a7;0x4f01b47fd67ea;0xc1eabd003a529;0x52047482fc26;0x3fbad15ea92b8;0x344f44f11d842;0x6a8d59435573f;0xcb9cdbf1498cf;0x1ce7960bd90];[0x4f7f61e92e0d0;0xea992b1f57bb7;0x45354ee13835f;0x4f4503abcfcf1;0x3852109754cc7;0x8ec8b4208f6a3;0x6e306ec3b4864;0xb95c7b3741bda;0x883f417f5a3f7;0x3c1f5b848e8];[0x0;0xc367e3089f2e4;0x186630ca6afd8;0xcc6ec5d9d1fb8;0x30ea9995ccb12;0x407f5548c04e4;0xd8cee00a0e12e;0x464c177f8e1c1;0xd1ecda9793b46;0x9e92d16ef752e;0x17b6853479];[0x0;0xeb40e8ade79e1;0x47fee850de7a4;0x12ecb1a3c3861;0x10bd286040e68;0x1a906bd58397e;0x131f9c002a0f;0xec2b9b9ffff03;0xb579f23f2abad;0xe37df6f4964a1;0x19cec47d52];[0x0;0x6f747712b52b8;0x4436daade68d2;0x6d79dabef901e;0x601df78e55e54;0x1a05da6a89cf1;0xa9b29cffd2a3f;0x4fd2629a6a996;0x86218ada15c92;0xc20dae02cb09f;0x8b0c8d4ace5];[0x0;0x6f747712b52b8;0x4436daade68d2;0x6d79dabef901e;0x601df78e55e54;0x1a05da6a89cf1;0xa9b29cffd2a3f;0x4fd2629a6a996;0x86218ada15c92;0xc20dae02cb09f;0x8b0c8d4ace5];[0x0;0x55cac1c647e19;0xcad8da03748ca;0xbbf3165ace5b4;0x1dc5ffe1943f8;0xb406246ec63bc;0xe3c8439b2a1fc;0xc4462db508e82;0x3c2964cbeacdf;0xc5e9ee454ff70;0x5bd06a106db];[0x0;0x824c5915dc6c0;0xf9c1a420442da;0xf0aeacdd58a1c;0x6749d78c58375;0xd481821378ff4;0x3e48ee496ffd6;0x99553f6b0a979;0xe5530b879acfe;0x76f527a9d3efb;0xd295a3c8679];[0x0;0xdb65c62efb972;0xe128c57cd4f88;0xda69e05ac4084;0x683cba89ca815;0x164b641b8fe15;0xff94b253a07ff;0x5f3050c72412d;0x8c23626357a0b;0xc54185013914d;0x410b5154aaa];[0x0;0xebc92e4437975;0x5ed685e3bf528;0x29ed8efba1222;0x19b35dcc2dc58;0x2ff3a3711b212;0xf56cb8c38cd;0x3535d21825c9e;0x36b510034fe3d;0x69eb00d4a96f5;0x619b0f08b3d7b];[0x0;0x4115eaae57b10;0x88f2b39eb6d7d;0x73b420cd60d9;0x7f0304e5f8620;0xaccd532aa7ab5;0x7717b4bafd483;0xc08d6a1d490d4;0x835858b96c836;0x862c1ad3a7769;0x47216e0aa52]]);
 ((V [0xb3240847f9c2f;0x5b0df21afe896;0xee0ba995da098;0xa80840168d5b;0x7cbeb2f55dffc;0xa95373e67da2d;0xf81b7a51870ef;0x74596a546efea;0x38abd6b765300;0xf3654ee5bdb] [0x61b79e09c2f13;0xb342cd21869e0;0xd2cf8447ba518;0x227d435fdae4d;0x90a4994d4b19d;0x53fc75b2737b9;0x9168bdc8b2739;0x4b4f7091605d7;0x8c587566f1a26;0xb9c6ce4a364] [0xf88e0df155377;0xf9b51fed34fd6;0x2377e4fe743fe;0x3cf9dd4178705;0x71cc480b44720;0xe52e86c3d8b06;0x5fb904edaaf11;0x149f190531a57;0x9c66cbebe120;0xf4f37090d56]),[[0x900fad3fb05f8;0x32d91a336fe74;0x1c7e1509e6024;0xa42d98a8a37e;0xd413b5e00b5d2;0xa1443de52e144;0xb13bc7f1ba765;0x829ff666f7b3f;0x4e753bce1d8cd;0x34113fc7a2];[0xdb50a0d79110;0x2590096e12f5;0xfdf819f8a28cc;0x970e253a393be;0x666992de4f82c;0x1587178e6427;0xbbcef3cb06f44;0x7ba049e801589;0x1e9613d0c48cb;0x8977b1b717a];[0x1e52ed76a0ef4;0xeab852f81979f;0xb3b977aa3d180;0xe0059a98904e1;0x8274467fb7cff;0x94342fa4b6863;0x45ba6ec1e3e91;0xd099fcdbb48ae;0x581502bfda539;0xb7a5383a987];[0x1e52ed76a0ef4;0xeab852f81979f;0xb3b977aa3d180;0xe0059a98904e1;0x8274467fb7cff;0x94342fa4b6863;0x45ba6ec1e3e91;0xd099fcdbb48ae;0x581502bfda539;0xb7a5383a987];[0x187735d93adee;0xdcaa9c77e8c57;0x8e4d35eeea8ba;0x12ae54f263526;0xffa711340973b;0x860cda0f7a75f;0x1adbd84f48b2c;0xd6d10560f75d;0x99288025662b9;0x750ddcd5ae0];[0xf53dd4343e323;0x25ae641ef869d;0x6faae409b8011;0x845fd047d5e98;0x66c281aa460f1;0x7b4b97696bcc7;0xa0f31b7bbe417;0x6e333991f1e2c;0x856d93ab5e612;0x1469d4e1699];[0x0;0x3037e75aa2378;0x9e5b46d9ad9b7;0x88191201a73d6;0xa93d8a218b231;0xe93ce1484cf07;0xaa95da41ef91c;0x54fef4a0cb87b;0x97592cfb4be4c;0x751fd400445a5;0x7190e7cbf90];[0x0;0x748bfb9691630;0xff30bcc6c2933;0x81bc9fd732394;0x5ab4832144943;0xf0f7fd11ba047;0x77e3a0c1eb6a1;0xdb88959e04470;0xe40172488b75d;0x8ff528ed64645;0x2559ef2581];[0x0;0x4115eaae57b10;0x88f2b39eb6d7d;0x73b420cd60d9;0x7f0304e5f8620;0xaccd532aa7ab5;0x7717b4bafd483;0xc08d6a1d490d4;0x835858b96c836;0x862c1ad3a7769;0x47216e0aa52];[0x0;0x4115eaae57b10;0x88f2b39eb6d7d;0x73b420cd60d9;0x7f0304e5f8620;0xaccd532aa7ab5;0x7717b4bafd483;0xc08d6a1d490d4;0x835858b96c836;0x862c1ad3a7769;0x47216e0aa52];[0x0;0xe1be9473629ce;0x6d59f9e43ca2d;0xa836a10491344;0xdf1c02667e0ab;0xbf033fe18f081;0xa273cf15a1c9e;0xeabbdbe260913;0x1414b5773555a;0xa746d28b45df8;0x25068312ae7];[0x0;0xe8bd22b9f33f2;0x727b129bbfa98;0x75046775596a9;0x6e6925472f0ed;0x89e3da0781a54;0x783fb2441a8b;0xd7f8673cc5eb1;0x52657e11a2eb1;0x13a876398d83;0x88a6a2d256e];[0x0;0xd20bf2faca11;0xaa0063deb7dbd;0xb39bc4839a3f7;0xbf617135e3ee8;0x2d5a64990337c;0x73dade80b92ff;0xa64ae436436b7;0x6a91b12ffc665;0x8cc98598aaf9;0x82b30447bec];[0x0;0xb3a0c6adbf03a;0x3d7a53b9d4907;0xd205ef3b70a64;0x9b4ba96fc7ac4;0xa585362f4ba5c;0x203a06d686b87;0x15a9a138d5880;0x3b1dc6906fb13;0xcfcd27dd72af5;0xba1cd2d7b9909];[0x0;0x1f67422552aca;0xc25d7ee36561c;0xaa401cde95581;0x1d4364545e7ce;0x2f2e5e25a881e;0x606b6f512a5f3;0x8cbf133e29657;0x10cee55a61d4a;0x9b41fc9a670ea;0xb0a13a81202]]);
 ((V [0x197416902380a;0xa393d5be91cac;0x2627f68a33100;0xa215f002cd021;0x86202092d1dd9;0xed924376820c;0x9360766cfeed0;0x5f659aa6e8f93;0xacd7b84c138cb;0xc15bd7692ad] [0x639f36d681d6c;0x3221888c82c8b;0x8333787e722e8;0xd4c0a043762bf;0x2f02bff734923;0x1b41e0c7533ce;0x3009a670718c8;0x303be9546adf6;0xcd4fde4adc593;0x87c61ad2c10] [0x12032f4e18a9c;0x4b3c07690fad4;0xfc885c2f8b0a5;0x572f7207adf78;0xf77461a8f1978;0xb9a3506c8d148;0x70903d5770b94;0xc70df017b7a21;0x36f3148340ac3;0xb613e24894e]),[[0x534ba16eae391;0xcc328fd15465;0xeb5a910747a29;0xf593d6d1c6e5f;0x9715c79128b40;0x94f0df8452e3;0x87cea4598f3f3;0x6b6851edf1b1b;0xf331d07e8f082;0x6fc68b99178];[0xd882095ef732;0xa39bc5528c0fb;0xbe5131532cf70;0xd56fd6de952b2;0x5a7fd372d2db7;0xe158fd3c37155;0x4ef9b673641c5;0x62971d3ed4eda;0x6ebd2a07cff54;0x1e3ca41b696];[0xf88e0df155377;0xf9b51fed34fd6;0x2377e4fe743fe;0x3cf9dd4178705;0x71cc480b44720;0xe52e86c3d8b06;0x5fb904edaaf11;0x149f190531a57;0x9c66cbebe120;0xf4f37090d56];[0xf88e0df155377;0xf9b51fed34fd6;0x2377e4fe743fe;0x3cf9dd4178705;0x71cc480b44720;0xe52e86c3d8b06;0x5fb904edaaf11;0x149f190531a57;0x9c66cbebe120;0xf4f37090d56];[0x7f4dcc0416bc3;0xfaa509acbcf9d;0x92adff05034ac;0x38856b8e7d340;0x6ba7f92d6a0cf;0xf00d786ae4146;0xd5f7c1fbd4412;0x265ba4ae80c2;0xdf1eb98e38ff7;0xe683e909990];[0x8e3a5491d8937;0xa8f6bba5cf15d;0x2ba3324e29ac3;0x9cea6b5017f72;0xeed7da4568ce8;0xf14b84d15300e;0x7901f4778fdb2;0x603162f3ece17;0x8f9e707996f5d;0x37b8bb11d05];[0x0;0x1ca8453d49269;0xaab375bd0786e;0xf71d121ed6383;0xb514e353692be;0x2792a6b18851c;0xe254ae209eec9;0xed1ef2a4d5d9e;0x6186da1138347;0x6bbe151c85bd9;0x977a301b86d];[0x0;0xa3133d478ce23;0xd2189957c815;0x20b8196a3ad04;0xa21a454c02157;0x66d48744252f5;0x2104ff818650f;0xf612fd9c78753;0xfcd2b9497c40f;0x1baf5b03b4df7;0x6af387aa86b];[0x0;0x1f67422552aca;0xc25d7ee36561c;0xaa401cde95581;0x1d4364545e7ce;0x2f2e5e25a881e;0x606b6f512a5f3;0x8cbf133e29657;0x10cee55a61d4a;0x9b41fc9a670ea;0xb0a13a81202];[0x0;0x1f67422552aca;0xc25d7ee36561c;0xaa401cde95581;0x1d4364545e7ce;0x2f2e5e25a881e;0x606b6f512a5f3;0x8cbf133e29657;0x10cee55a61d4a;0x9b41fc9a670ea;0xb0a13a81202];[0x0;0x820488a9dab2a;0x896baafd68d64;0x42426aaa0f4f3;0x4ae80589b062;0xa2c26a01a825a;0x8b94a4d68e53;0xefdcbdffb3ebb;0x5f671f05c32a6;0xcaaefb3c11105;0x86d0f08b037];[0x0;0x64a0d425a8546;0x97d949ece876b;0xc2975f19a1396;0xfefca2bec3d8a;0xce157b92b1406;0xa5d3b0ed1cc4d;0xd1316cffb0f14;0xb844162affd8a;0xb56d56bcdaa15;0xe7697bdf7fb];[0x0;0x6c68b44b9ce70;0xa0327a071b1ad;0x602c64ab0d80b;0xe9c022cbfc3b;0xcaa7f5de935c3;0x27006e0e694c0;0x52c32db6c7770;0xc247e04c31313;0x72ef8aeff6f0d;0x16d690b859f];[0x0;0xa73fb5e80a263;0x9f8b80ee77861;0x81113170e21ef;0xbe4ae7fa8829f;0x6fa454ae8d46d;0xb26364792501;0x5d4fd12d6d16a;0x7c585e0ecd601;0x264029ff182e5;0x883dd78cf75ee];[0x0;0xd2cf001f89784;0x9d92d58c7c02b;0xc4e8039675f12;0x97cd1c48ec539;0x369180db4ce4f;0xedd42de449df8;0x389fb66a43802;0x1552ca91f91bf;0x7d8caa602aaf1;0x668d0fe393f]]);
 ((V [0x571130a77a62f;0x3540ec828fc67;0x3023a55adddb7;0x55498ebc55b2f;0x8b6cc482e5773;0xfd916f3e71c9e;0x61358eb600f4c;0xe3a35a339ccad;0x8f5d2b5887b;0x3691510ebbc] [0x91571a65db47a;0xd707756af8c19;0xb13889fac8966;0x5d736579072f0;0x3d283f25a5eed;0xd8839fb3ee190;0x54df823323a2;0x7f75fff23b10e;0x97ed5edd9381f;0x7c4e79856f4] [0xcb524fc19455a;0xf50553c479fc3;0xd44d44890fef6;0x5b38b85ab5a1d;0xdbf3b1440bba2;0x12062570771ba;0xaa3187c8111e7;0x50d5d16b9b089;0x2f4eec193535d;0x26271a6e39a]),[[0xe5464d1fe4c54;0x7232b3544f410;0xc0eb138bd500;0xedeb6d738b4eb;0x332d19de04d5f;0x9942786d65c7c;0x8421f36561e74;0xe43325d6f1bc1;0xff576f317692;0xb39ff4727a];[0x8d29aa4914f5c;0xdc006cc7899e0;0xac6517250f0f8;0xd26f80f0c8105;0xf8676ac1cf430;0xf76eb27a89d6d;0xa393527d8fcf1;0x332e14921c28f;0x9ea8def1f66e3;0x1a981fbf35d];[0x12032f4e18a9c;0x4b3c07690fad4;0xfc885c2f8b0a5;0x572f7207adf78;0xf77461a8f1978;0xb9a3506c8d148;0x70903d5770b94;0xc70df017b7a21;0x36f3148340ac3;0xb613e24894e];[0x12032f4e18a9c;0x4b3c07690fad4;0xfc885c2f8b0a5;0x572f7207adf78;0xf77461a8f1978;0xb9a3506c8d148;0x70903d5770b94;0xc70df017b7a21;0x36f3148340ac3;0xb613e24894e];[0xb87be13edd914;0xc6308e05f599d;0xde17bf3cadc20;0x29cca96364b2e;0xb82f0b7c1702e;0xa7cac483f5603;0x354e2f3ca3c1f;0x34c1339482ff3;0x5de2a730f36ae;0xd34a7da64d6];[0xd4adc90a37410;0x15cfdec194042;0xce4d57e8614d8;0xa8a2d78d635d6;0x40385f45b8402;0x4fa3edf69476a;0x6e452340ec0d2;0xfe6ce0fd9929c;0x40c637c103034;0x474da218e87];[0x0;0x11bc3d8fb1c34;0x643c8ae0d7cd0;0x40c4d443fc5a;0xfa87369f5b7f6;0xe75661e0a7fba;0xdd7d2bbbfb72f;0xeca586f028302;0x60d004fcef40b;0xdcee9a485a076;0x7098b8546d6];[0x0;0xd7224217eb58c;0x941c0e402fbfa;0xec9b12118aedf;0x5949d0592e4e2;0x7f8c5eda547a0;0xf72fd817dfbff;0x719fe820dbc86;0x3e8c8f015e4f2;0x8845d3132f1f4;0x7fc1ab6eaa];[0x0;0xd2cf001f89784;0x9d92d58c7c02b;0xc4e8039675f12;0x97cd1c48ec539;0x369180db4ce4f;0xedd42de449df8;0x389fb66a43802;0x1552ca91f91bf;0x7d8caa602aaf1;0x668d0fe393f];[0x0;0xd2cf001f89784;0x9d92d58c7c02b;0xc4e8039675f12;0x97cd1c48ec539;0x369180db4ce4f;0xedd42de449df8;0x389fb66a43802;0x1552ca91f91bf;0x7d8caa602aaf1;0x668d0fe393f];[0x0;0xf6c519334ffa4;0x9ffadfa5cb68;0x5cb05b6aac057;0xcbe6f9a21dd64;0x9a6ab87c2300f;0xb23b7321e36d3;0x64f07a5acbf23;0xd198cacb547e0;0xda53525d25ff8;0x48028997c86];[0x0;0x6e10ddadac10c;0xd390817e971d8;0x67aed3af1a886;0xdd3de24e35173;0x5c978b2c0101f;0xed00f6a26e741;0x18d5c4ae190e;0x9d2fc46a4a349;0x4329207ca47bf;0x920b9bbf6ca];[0x0;0xdc7d93177da4d;0xb6103f55f9c99;0x8374e42b143b9;0xf2c56dc515da6;0x1220810723863;0xab82c3295b59d;0x2b9db54ac83d1;0x23baf16a52d95;0x7c69d762d6023;0x5ab2f47fa8];[0x0;0x9f3e664540aeb;0x2a46ebb71fc83;0x907dd4488e72d;0x2e49828159ef;0xbf65a5ce44ec5;0xbb49f522c5d5;0xe2b03f272c131;0x850b95ee2652c;0x6e7a487238fd8;0x7cbdde289aaad];[0x0;0x1cf55d0c4ae94;0xf5f61e485acf8;0xa07cd8b76dbff;0xd2fb129fe71e4;0x99a3b93f959bc;0xe7aa26292d9b6;0xc0ef5eae74ca1;0x974866b7e9a78;0x5f8ddbc134e38;0x1a7f1d70f5f]]);
 ((V [0x3a2fdfa7795dc;0xbdc1d67d03578;0x22f02c7ade148;0x83bfa004d9832;0x4e7e79cf431dd;0x2d7bcc33877a7;0x8c745bff890c6;0x34436086385d9;0xdea6ae9243eac;0xec9249f0ef] [0xc4d48ec638ecf;0x525de0e25812c;0x18d335f98711;0x303eb861693b8;0x4f4f5f3939a77;0xb158f3dde3670;0xe220d17505e37;0x621e498902ebf;0xc014344bac2bd;0xda6006fbd4b] [0xdf08ea7fa9d0e;0xe18a2cb02847;0x23f609d72f76f;0x840a850f89cc0;0x5489e32012a5d;0xabdeacfbe9e37;0x2cfc8af1dc46a;0x5ae561dd1c41b;0x7cc53e1b9cc59;0x805e650945b]),[[0x11c787eea0df9;0xa8fc83e73643a;0x4c59ec585ac39;0x440067ba2bdf1;0x4fc1d5acdb05e;0x7b41f1365a1c0;0x49ee496bf52f1;0x770b1f1323bb9;0x2e948a9059421;0x4406815e4f6];[0x6a2e6f2586739;0x9ab60199ef3e;0xf0dbe384d3c50;0x58ba79ecf6dd3;0x4102101a7db73;0x6baa1c39153e;0xcc0f6c69bfaee;0x84c219301341b;0x765297987e2e1;0xcdf8111bfa2];[0xcb524fc19455a;0xf50553c479fc3;0xd44d44890fef6;0x5b38b85ab5a1d;0xdbf3b1440bba2;0x12062570771ba;0xaa3187c8111e7;0x50d5d16b9b089;0x2f4eec193535d;0x26271a6e39a];[0xcb524fc19455a;0xf50553c479fc3;0xd44d44890fef6;0x5b38b85ab5a1d;0xdbf3b1440bba2;0x12062570771ba;0xaa3187c8111e7;0x50d5d16b9b089;0x2f4eec193535d;0x26271a6e39a];[0xfc5efcc2aafff;0x3306238bc83d3;0x1bfac89a3f2a4;0x5ea54a99fbeaf;0x46f3eac3b38a2;0xccf7ce09322ae;0xdf285bfba1bf2;0x65effc89fb2b3;0xda0b26e0feaef;0x226a5a6d79b];[0x6dcf7262db73b;0xd6a53c8dd6b6a;0xd4e11aea949ab;0xfa152f52faf24;0xfa0e2556ca2d0;0x39c2d3ba5f28f;0xece7106e1defb;0x1ed21ca618167;0x9c4770b77f7f2;0xab8db6ae806];[0x0;0x540a88e83aaa1;0x63079c9cc11b9;0x9fd29c1180ef2;0xdf4a7fbbed279;0x7d43f8c3d831d;0xa27dd121c26e7;0x966cc91460220;0xb02376460297d;0xbb8fa3e10dd96;0x1797f65241c];[0x0;0xc7a87bdc25a27;0x361cd277dbd10;0x33c08ec8a4617;0xec21255fc36f0;0xd9cfdf0493a71;0x9a256e8e50b0e;0x326776e7b1454;0xe6ebc01928bcd;0x6b149fd7fab85;0xa235b37a86];[0x0;0x1cf55d0c4ae94;0xf5f61e485acf8;0xa07cd8b76dbff;0xd2fb129fe71e4;0x99a3b93f959bc;0xe7aa26292d9b6;0xc0ef5eae74ca1;0x974866b7e9a78;0x5f8ddbc134e38;0x1a7f1d70f5f];[0x0;0x1cf55d0c4ae94;0xf5f61e485acf8;0xa07cd8b76dbff;0xd2fb129fe71e4;0x99a3b93f959bc;0xe7aa26292d9b6;0xc0ef5eae74ca1;0x974866b7e9a78;0x5f8ddbc134e38;0x1a7f1d70f5f];[0x0;0xc228a84b418b3;0x3ae61b7fb51a0;0x17c5b578a3293;0x7e99dc204e7cc;0x709e97529111e;0x46ab16676f7f3;0xa7f0d38b3559a;0x4a8960876b949;0xe6c68d56c34f4;0x3c5c1dc78ac];[0x0;0xabbaccddc476a;0x118acf3973bc7;0x85c80812657a1;0xd4e091dd30d55;0x97b60ab182129;0x57b36a1343aec;0x1c4574ad7f070;0x5f7bab9e47632;0x6fa73bbee97;0xba1a0af239];[0x0;0x29e0dbe24f9bc;0xcf4e35cf42d04;0xa173328a8d21e;0xddf8ef2e1302e;0x2f7b6445d8b34;0x77e368fe079e6;0x96e2937010a94;0x6485b78700d74;0xffbb7cf2a7d89;0xbe5662bd22];[0x0;0xb891505cb643a;0xf8e2689c34d97;0x1649d36856cc0;0xa5b909d3534bf;0xe6e15522facf2;0xaae1dde99a893;0x297121817ecc0;0x8d9a37936165c;0x1c9f5ba74fafb;0xda8ab48199e57];[0x0;0xab70b3e1a217a;0x1789ce07f5d23;0x22785b8e86aa1;0xe95bfb696f11;0x99eae69559621;0xf8d3c7579f9bc;0x8e4836c8b0920;0x68821e51c3791;0x5e941e20e57a6;0xc9cd50470c]]);
 ((V [0x6d1f048c09521;0xc05ad01556f30;0x9a9013cf8fcf5;0xc7f2c0db0697c;0x8b7f1844ddef5;0x283aefd178afe;0xc35a2763189d0;0xc2908ba4cfea6;0x99883f7004fff;0xaeabe8c2df7] [0xc5b89db6a72d9;0xc930445e4155c;0xc22727cfce8b5;0xd6ce369d4688f;0x81516ba21a4be;0x8f9ab6fb425ca;0x57c3b6303eec3;0x3d7d35da10035;0x5b258d9b3ebc5;0x957dd00e32b] [0xa33c0b654af53;0x373d5dbd6aee8;0x11d8843b14a75;0xcfcd186e9e649;0x8621de5fe3610;0xd02c0d5b6190a;0xd4d058f8d728c;0xfbec062bed102;0x82fde368c96d2;0xeeae96627b6]),[[0x4a36e14e6475b;0x99a36fc84c389;0x37c80fdcde67b;0x869ebee5d639c;0x2aa82aff34e81;0xc1c9b3aa1e5de;0x1f57880276e95;0x399d7080bed57;0x65986c0de1b3a;0x84ef7bad9bf];[0x3d2003c76210;0x4184c1b6eb54f;0xcf8df76cafad0;0x1eed2a83dbd44;0x103189530b170;0xed0fc4ea97710;0x6a53c798ae04a;0x8de7b5704e501;0x48d9029bd73d9;0xd70990fc644];[0xdf08ea7fa9d0e;0xe18a2cb02847;0x23f609d72f76f;0x840a850f89cc0;0x5489e32012a5d;0xabdeacfbe9e37;0x2cfc8af1dc46a;0x5ae561dd1c41b;0x7cc53e1b9cc59;0x805e650945b];[0xdf08ea7fa9d0e;0xe18a2cb02847;0x23f609d72f76f;0x840a850f89cc0;0x5489e32012a5d;0xabdeacfbe9e37;0x2cfc8af1dc46a;0x5ae561dd1c41b;0x7cc53e1b9cc59;0x805e650945b];[0x97f006f47d8f2;0xc9245b19c4074;0xb18d4dce44c6e;0xea59be98221b1;0x352ce9d28a817;0xc94871c54474c;0xc8ffd9b1f45ad;0x9d6905385cfaa;0xd5d90422730b0;0x4b08f19dfb9];[0x6be1f947f891f;0x7860669d274da;0x1e00a99e6ae61;0x34936bebb9b93;0xdb049f8080958;0x23c7532552fc3;0xa153ede6b9a9d;0xf07eb037f1556;0x72fffe7964328;0x8c009f5e68a];[0x0;0xdc25b23a7b8d3;0x1c4df4cc872dd;0xb5ef5151929f6;0xc650af96283fa;0x71154b0c38668;0xf590ae990c12e;0xaf7ea53ee6734;0x7106ff46d7413;0x6e6b9d9df504a;0x4f620e6565f];[0x0;0x8049e8a6494c6;0x3d199fdac8f81;0x340abba15b9d4;0x3851a95a543c2;0x79b2805e38efc;0x17feb91598051;0x6cce6915079c1;0xe9cfd23464c17;0x5467c86737aad;0x42a8c23d842];[0x0;0xab70b3e1a217a;0x1789ce07f5d23;0x22785b8e86aa1;0xe95bfb696f11;0x99eae69559621;0xf8d3c7579f9bc;0x8e4836c8b0920;0x68821e51c3791;0x5e941e20e57a6;0xc9cd50470c];[0x0;0xab70b3e1a217a;0x1789ce07f5d23;0x22785b8e86aa1;0xe95bfb696f11;0x99eae69559621;0xf8d3c7579f9bc;0x8e4836c8b0920;0x68821e51c3791;0x5e941e20e57a6;0xc9cd50470c];[0x0;0xbcfd427260619;0x2c70086bdcc87;0xf5edb41b6b02c;0x45cf8d580347c;0xe6b29576e99c3;0xa203b447baf5b;0xc80147a6ce61a;0x6523c8fa84f82;0x84db2d032d07;0xba47afea236];[0x0;0x322c8fc80c887;0x339c6573b943f;0x8a61326a15b;0x4c2d5aac9cff9;0x1d25a9febe1bc;0x3b8bc87297da;0x75d1e688380ba;0xec402052fec6c;0x66f68d79a15a1;0xda9e0beca];[0x0;0xf107c0e25fc43;0x1915a2ef30ba8;0x3f8daf6ca077d;0x89e03671966ce;0x4ecbf96125591;0x66c982206c5fa;0x9381e903d8917;0x62682410bf229;0x9a512920139db;0x92b8e773c11];[0x0;0x1492b4f7043b2;0x1d13620359add;0x2244e32022603;0x9416e2e35e044;0xda2e0c3465b14;0x6e3159502826a;0x8266cca709ef9;0x2abd772c41ffa;0x3b22b402b510d;0x9595bb9e6e83e];[0x0;0x850e8eb70ef2a;0x19dea214289c3;0x4dc9a634c9e12;0xf8025d650d89e;0xf0a346be958c7;0xfa324bc0a6183;0x8337093a2856f;0xfb21ec6e648bc;0x7811114ac181f;0x65ffe65f705]]);
 ((V [0xe78489e4c956;0xff4ace96fa94d;0xc8d481757b902;0xb5bef5adbdec7;0x6727f7af9eb3a;0x16a6eed06ba82;0xc92be88bc81b3;0x65461e151a12c;0x7020fb5e2ebca;0xafedbc19cb7] [0x5d7227e074a5b;0x8fcf415b7db6f;0x248b4dac1a208;0xb53b01df24609;0xda46ef79ce9ee;0xb0d5f11606973;0x512ac44dc9ce;0xf9fc4b27fc670;0xa23e350ac4606;0x47f695c34bf] [0x9e3f235ff5550;0xb6a7b47013a0;0x2aa007eef008b;0xcae99988a043;0x75ab2b644038a;0xddbbd826aaf2f;0xaeef93cf904a;0x828747cd86c7b;0x7e6ecc711327e;0xc21f89830e5]),[[0x972d7a2617150;0xa130f6c0643fc;0xc8ad37ca693b8;0x8151e50b499ce;0x31af47aacda3e;0x5312915b00ca8;0x9f14a56f7ae74;0x66458973bc6c1;0x63e42db30a41c;0xc1f0b013a83];[0xc0aee01c8e1ac;0x4ce82e85bd521;0xea552cde88847;0x3a0117fc4e09d;0x31d444f0664b6;0xa3439ab1eea2d;0xfb7b1cf5edfd5;0xc7d5de815d9c3;0xc50c5aa0d9794;0xd0ec45271b3];[0xa33c0b654af53;0x373d5dbd6aee8;0x11d8843b14a75;0xcfcd186e9e649;0x8621de5fe3610;0xd02c0d5b6190a;0xd4d058f8d728c;0xfbec062bed102;0x82fde368c96d2;0xeeae96627b6];[0xa33c0b654af53;0x373d5dbd6aee8;0x11d8843b14a75;0xcfcd186e9e649;0x8621de5fe3610;0xd02c0d5b6190a;0xd4d058f8d728c;0xfbec062bed102;0x82fde368c96d2;0xeeae96627b6];[0x9f3c9dd2928f0;0x7bad755a4e3b1;0x814c9b406b752;0xe20da3eecbf85;0xcac06a4dbd51e;0xb339752e8fd69;0xb0d449df85d58;0x516d045497a35;0x9a6b9b6fdd337;0x6b5b2260418];[0x21724249fb8bd;0xd13ab92b6f170;0x6908919e1d0f4;0x57f3740d82118;0x6713daa2a8f97;0xf00a25835ecc3;0x4aa6d3166827c;0x7668da2cc5f8e;0x2aa0bf30fc45d;0x659122c6d9b];[0x0;0xaabf040f9fb60;0x16ab19f1c88d8;0xdcb1cdc0aab4c;0xd616dfd5ca2b6;0x2fa1b0a5695a6;0xd1aa58a51efb0;0xd50936635d21a;0x1975d992b4dec;0xe25428bc25dea;0x9399bfe9260];[0x0;0xd0c1d0302ea9c;0x8756ec497557d;0xfce6a9ad31bdb;0xf4f61616689e3;0xb38baf324545a;0xf1049e044530b;0xc27b592dd8dfa;0xe7cc7d5bacf43;0xb417b28a52f90;0xb4d20737968];[0x0;0x850e8eb70ef2a;0x19dea214289c3;0x4dc9a634c9e12;0xf8025d650d89e;0xf0a346be958c7;0xfa324bc0a6183;0x8337093a2856f;0xfb21ec6e648bc;0x7811114ac181f;0x65ffe65f705];[0x0;0x850e8eb70ef2a;0x19dea214289c3;0x4dc9a634c9e12;0xf8025d650d89e;0xf0a346be958c7;0xfa324bc0a6183;0x8337093a2856f;0xfb21ec6e648bc;0x7811114ac181f;0x65ffe65f705];[0x0;0xcf9d5db548f7;0x33c2defdbf325;0xeff375da2a320;0x9c758dc06c5bb;0xac0855d97c64;0x82ef48aa400e5;0x3feee84aae8ca;0x69ede88da86c8;0xc1a3c6feb6844;0x574bb2055df];[0x0;0xd3f4d29a36e5c;0x26df65fe588ac;0x435c673f9575d;0xb3e72ae816961;0x51882f4f4b4d8;0x633e9a45a774c;0xe03082949c34f;0xe9923e39c55fb;0x1a128ffdfd054;0x772e23d9afc];[0x0;0x9cf8b243ae5c8;0xdb04352d01571;0xa59a25ed24577;0x4aa431938ef8f;0x79f9552f5d2a1;0xf306f5189a59d;0xd50c13902958c;0xbe39f676ad527;0xa6538ad0bdbe2;0x8f93878450b];[0x0;0xc5e6e26473a36;0xeb5601b79cc21;0xcb87ba56fb6e2;0xf3a61e3dc020e;0x54f613bb081cc;0x865222c22441a;0x373b219bddafd;0x6daf2ec49a6d2;0x254ebe4eb2fe4;0x4803d1949e13c];[0x0;0xb740cb0048dae;0xe1f9d8771a6f2;0xb7a89cbc1891c;0x732ce606b85cc;0x6b8cc6722a1f4;0xf2ce1b0dc06f8;0xda00996b7abe9;0xe0d138c890062;0xf5def8e26fe6d;0x317464897cf]]);
 ((V [0x46cb01c63c4a0;0xde1f8d651c3b6;0x3bf9c05a14685;0xc03bfe24f7a84;0x5a3040dc3c18d;0x7075d08e13c8b;0xdab3c5a4163e2;0xdf54197e70aa1;0x2efb1e0d4502;0x327deb037ff] [0x7b021f2e0efbe;0x3ca2aeb1bb6a9;0xcaec2dafa72d1;0x2140a0b6ea75e;0x6bcd34711a21a;0x62f25eada865f;0xae8b7e98743d8;0xffe62ae77785d;0x284c6ea10a393;0xac37e631bf9] [0xbf9e8f77beaba;0x686be38b892a1;0xcc19750119a6;0x14ea6fae436e1;0x684851508d386;0x249c17093a6c1;0xeb89843da1df2;0x383cf8cbbe35e;0xe5ffe2aab4316;0xb907d07016d]),[[0xc57076f296c3a;0x52b2c059e7553;0xf58846a6f27af;0xb8d7a774ec730;0x3632a6ffe53d9;0x8a6bec09e5ae9;0x51b9c616b1603;0xd65a7a1fcb3de;0xd4664d48c125c;0xe826c4f9e09];[0x216bcc29ef3aa;0x6e98166323854;0x4439c9dc8e0a;0x6195bd5e6064f;0x6b1beedf173da;0x9fcd5a78f5d28;0xc7297ee3aab8;0xd7885a4e72626;0x5c230ae8fbe3e;0x17b3fbf4cf5];[0x9e3f235ff5550;0xb6a7b47013a0;0x2aa007eef008b;0xcae99988a043;0x75ab2b644038a;0xddbbd826aaf2f;0xaeef93cf904a;0x828747cd86c7b;0x7e6ecc711327e;0xc21f89830e5];[0x9e3f235ff5550;0xb6a7b47013a0;0x2aa007eef008b;0xcae99988a043;0x75ab2b644038a;0xddbbd826aaf2f;0xaeef93cf904a;0x828747cd86c7b;0x7e6ecc711327e;0xc21f89830e5];[0xcdcbcd8edd959;0x430f210cb964d;0x53db7ae3d0fff;0x1316a0422ad7;0xb3b61e692fe33;0x3110393916c24;0x6585c5372cb6f;0x91bf1c0dfcf55;0xcdf8001583be3;0xdcdf793fcd3];[0x539ffe9b11819;0x2b88f5566a206;0xb06821b9f7e0b;0x6064535a3db77;0xb765d075e75a7;0x6ebd213fdf103;0xa6ecd2b70df49;0x45c93e40756d0;0x8e2b0ad37825b;0x3ad482b5021];[0x0;0xc19a08ca6050a;0x860497847210a;0x165c9f485a69;0x92c42a8ce5606;0x9631408104ee9;0x46d917d5d92fa;0x749ca27839318;0xcc03a6e7e0060;0xd1dbd42a5c13;0x780ba589f1a];[0x0;0x77932d829d3da;0xa834099af5eed;0x9e302ea05b722;0x494e8ab26ae26;0xdaecc72b23814;0xfa67ce857cab7;0xa014dea805ee8;0xb96d44d9513b3;0xbbcd232de9f28;0xb009faaaceb];[0x0;0xb740cb0048dae;0xe1f9d8771a6f2;0xb7a89cbc1891c;0x732ce606b85cc;0x6b8cc6722a1f4;0xf2ce1b0dc06f8;0xda00996b7abe9;0xe0d138c890062;0xf5def8e26fe6d;0x317464897cf];[0x0;0xb740cb0048dae;0xe1f9d8771a6f2;0xb7a89cbc1891c;0x732ce606b85cc;0x6b8cc6722a1f4;0xf2ce1b0dc06f8;0xda00996b7abe9;0xe0d138c890062;0xf5def8e26fe6d;0x317464897cf];[0x0;0xc662ad0d00500;0x9e18006ab77e4;0x5899e6073eee5;0x933ff721633f3;0x1df2ce47a5bb4;0xf7be8c793f4bc;0x151fbd0209b0;0x324fa39946e19;0x7b01313046795;0x143ab4967f1];[0x0;0x6aca4608f24dd;0x41f7094159b64;0x5785985462020;0xd960c341f0072;0x755f31c90feb5;0xa55f60bbbb0eb;0x9addfbc4c7e54;0xf0ededf3e0e1a;0x5549b75be7355;0x78e6e3f1162];[0x0;0x4c2b1d14711c0;0x2c578fb7d537a;0xf8f8c4737a6d;0x75cd7a3bfc31e;0x363335d14cd77;0xb7a773b60fb8c;0x8648c3ca0d888;0x530afed821992;0x63213bb058a3b;0x4accfda624];[0x0;0xb9870f07db1db;0x4db333d8885ff;0xffc3366284434;0x7fdbc10e66629;0x3cad8b9d6b110;0x5e1a6ea2cf9c6;0xc87fc27fa3b2e;0xc691b10d21bf0;0x31bbc3ff9d6fa;0xacd42bfdad65a];[0x0;0x495ff81c7b3ca;0xddd6d52e45cf1;0x27095bec2ad57;0xa7ba5cd1ecf75;0x7ee4531573a2a;0x3cc1fc291dd48;0x6147c9476fb3e;0xa169ac48214d9;0xdd51fe48217f0;0x21f7a05ac8b]]);
 ((V [0x7359f6c6834ea;0x6ea5902ed0005;0xddc2b2aa552ae;0x2f48f269cda0;0xf589fbd271fde;0x2fa9ba382b9da;0x9d4da33e3cf7d;0xfa23b30c4b30c;0xf7a397f2f33cb;0x99da30f830d] [0xc9b963f147ebc;0x366938a908c5;0x92aa96506a50c;0x4c7fb1de24f91;0x71993c3fd1978;0xbc33b46aeb8ff;0xd80eb093367e1;0x9ef19f5e13bf2;0x1aa10db8856a7;0x4618eeb903c] [0xe480afdbf78b9;0x76a47e8d1b2fa;0xd33f7f9d21107;0x8e4dacabb7995;0xe586f2a329f0;0xda9a74c0dcd8b;0x3a85b69dae560;0xbf1f73ce0d452;0x7fdf98771bb94;0xbed3ae45878]),[[0x9039cf73dea1b;0xee86d7862ccaf;0xb9c4f72b9e67e;0x1f2ab9b94a34b;0xc8fae2a574d43;0x7f0778a427ae9;0x81bfb0b345248;0xd30f1dcc8022d;0x81f5e96b264d4;0xba214eeaa31];[0xbf7fd9a839471;0x97e5e747c707;0x86689a331d1ec;0xcc1ab3a707340;0xed0162079fdc4;0x251435ebbfffc;0xcf8d4aaedc52b;0x8f30e7260e8ae;0x42d4242ddef66;0x60618cc7a59];[0xbf9e8f77beaba;0x686be38b892a1;0xcc19750119a6;0x14ea6fae436e1;0x684851508d386;0x249c17093a6c1;0xeb89843da1df2;0x383cf8cbbe35e;0xe5ffe2aab4316;0xb907d07016d];[0xbf9e8f77beaba;0x686be38b892a1;0xcc19750119a6;0x14ea6fae436e1;0x684851508d386;0x249c17093a6c1;0xeb89843da1df2;0x383cf8cbbe35e;0xe5ffe2aab4316;0xb907d07016d];[0x2fdb1320f256f;0x5eefe1545f4db;0xb14d156dc8019;0x5908ffb683838;0x6b6d7b8c1e58;0x21fe19bd3a279;0xbf80e647f58b2;0x5b1de4a3e6141;0x7f355ddf414bd;0xc1aeab2fddc];[0x8fa4c68746cca;0xaa8e7d201d22c;0xd51b84c5551d2;0x7311b3f083b07;0xe64a8a4eddf6c;0x3161c2e85d83;0x100c6466e6c79;0x341302822876d;0xc39ec64e9daa9;0x9eb2e197c7c];[0x0;0xce4c9f3b981d3;0xb6c9ef4fab945;0x712c30f030800;0x61f5132433f5a;0xe7a861599dcdc;0x8997cea0cb92b;0xe788dc9113aaa;0x7e9be390a1cf3;0x6ca7746ee5a37;0x726c2fab88c];[0x0;0xae244c5e3e96b;0x9cda8b99ec46f;0x6a1f9168bb5b;0x47333660f8575;0x22663fbf9e93a;0xc73c12223eac2;0xcbd3f3920a836;0x9dc2acc0b225e;0x89af4ec607a7b;0x8687c07d479];[0x0;0x495ff81c7b3ca;0xddd6d52e45cf1;0x27095bec2ad57;0xa7ba5cd1ecf75;0x7ee4531573a2a;0x3cc1fc291dd48;0x6147c9476fb3e;0xa169ac48214d9;0xdd51fe48217f0;0x21f7a05ac8b];[0x0;0x495ff81c7b3ca;0xddd6d52e45cf1;0x27095bec2ad57;0xa7ba5cd1ecf75;0x7ee4531573a2a;0x3cc1fc291dd48;0x6147c9476fb3e;0xa169ac48214d9;0xdd51fe48217f0;0x21f7a05ac8b];[0x0;0x117cbb8b63bc3;0x325a941094ab9;0xd2554bab14bb8;0xa3f77c7c1ad2f;0x845d1dba71b34;0x4282379b71575;0xc9001367ef0b1;0x32c75808805ef;0xaa146840725ad;0x73db298791c];[0x0;0x755c5b199471a;0xcff61b3239554;0xff39f7da99c29;0xbf48d7c4b47f8;0xa71df84da875;0x7de67a6c86b5f;0xd42fd6dac4564;0xdc568ea6e194d;0x42fd72ecadaee;0x9f56dbcb72];[0x0;0x7b3d1fe01e740;0x85f6b67511d70;0x97b310c3ca9e9;0xffbbcbb620c78;0xb7ee810b7a7a2;0xe84375091b462;0x20745d85867c0;0xfffdd902f1ab8;0x4cd12881285f8;0x39ec72a4ef4];[0x0;0xaed15445be7c8;0x762781348909f;0x44407ffa98635;0x293c5c8541443;0x6ac269c1376de;0xe2fc6c4764c22;0x92cef08c70889;0x525031ba4831e;0x34a3903870167;0x4644a39838a2a];[0x0;0x13a21ec2c3e9;0xd897a0e1a2ebc;0xc88a4cd3569c8;0x453711147b8de;0x6d6888e201af5;0xa3b597bb483fc;0xd1e35b12d6ee1;0x12b9e0853f6e0;0x7c3711d128b25;0x2a20a5507f1]]);
 ((V [0x6352fa11162ca;0x896ca8a7d9125;0x851202aabeb50;0x13b013c33307b;0xd26e1b3350b20;0xb5a0d55c3b37;0x9816ba239273d;0xd5eb79cfde7e0;0xefe33ba96a4b4;0x94d520303bd] [0x57be22aae0d0;0x309295e6afbce;0x55ca0a2448ac1;0x549d261e91424;0x6c276bd733000;0x131edbcd3a8ac;0xb061cb1726aea;0x21d84558aa5ef;0x6242053dda2d7;0x36b6cbbbf1b] [0x62a236e293544;0xb00658777f25e;0x30337affb17c3;0x426f475cc37b5;0x51b7c5c165e43;0xba4ffaf8d9c5b;0x13bf025209400;0xe87eb52000450;0x49ec3f844c3a5;0xc021253c8d7]),[[0x8cb6c3d1f2f59;0x6c457746e294f;0x119cc0dffeb8;0x5b605bd8d8bd2;0x5a4f6ed74b3b5;0x2501d83a21449;0x9a3d83c531b31;0x422a9487f19e4;0x79463984db284;0x23a8554b7f6];[0x899879e4fda;0x6c4868ae5b95c;0xbfa96252265bb;0xea67094b6e9d6;0x5aac48eac3f53;0x4a45f6a9ea1d3;0xe9cd6553c4ea4;0xf003bea6bfb39;0xb63e56acd51c9;0xb217f9b8ae7];[0xe480afdbf78b9;0x76a47e8d1b2fa;0xd33f7f9d21107;0x8e4dacabb7995;0xe586f2a329f0;0xda9a74c0dcd8b;0x3a85b69dae560;0xbf1f73ce0d452;0x7fdf98771bb94;0xbed3ae45878];[0xe480afdbf78b9;0x76a47e8d1b2fa;0xd33f7f9d21107;0x8e4dacabb7995;0xe586f2a329f0;0xda9a74c0dcd8b;0x3a85b69dae560;0xbf1f73ce0d452;0x7fdf98771bb94;0xbed3ae45878];[0xced8d5c6e83e6;0x98a21bf693b1d;0xe1fb11d637404;0x624263fd22ee1;0xbd24680089812;0x269d44b39ca25;0x78d55be7d9369;0x945a142f9ae56;0x377c33dfb9b8d;0x5202f01983b];[0x31b0c2b2fcbf5;0xd3a64cb7c7e3e;0xddae507bef1b6;0x8824a54e4baf4;0x9d87e0ea3a741;0x23a8b1f64d7ad;0x70f8096bebb3b;0x5ba9aa7724ce3;0x7ec222cd1b63c;0x6015099f2ac];[0x0;0x31c922425d8d1;0xf0adc9bc14672;0x561edcd9f1bb9;0xf4190763ba7eb;0xaa9ace49939d6;0xcd2bb41aa595d;0x39e90241bb34a;0x2ad13fce2c812;0x9bc956fd1159c;0x7601ce9cf44];[0x0;0x77abf40f10d1;0x1d0f1103656c6;0x285d302a1725e;0x4029e18999809;0x733a7f83f88f2;0x3b9e83d1f3f24;0xcf96d886e32f2;0x5c627d4b37cfe;0x1e692dfcae186;0x1a946b526f0];[0x0;0x13a21ec2c3e9;0xd897a0e1a2ebc;0xc88a4cd3569c8;0x453711147b8de;0x6d6888e201af5;0xa3b597bb483fc;0xd1e35b12d6ee1;0x12b9e0853f6e0;0x7c3711d128b25;0x2a20a5507f1];[0x0;0x13a21ec2c3e9;0xd897a0e1a2ebc;0xc88a4cd3569c8;0x453711147b8de;0x6d6888e201af5;0xa3b597bb483fc;0xd1e35b12d6ee1;0x12b9e0853f6e0;0x7c3711d128b25;0x2a20a5507f1];[0x0;0xa37a2f7cdc086;0x271ee6ca4ecf0;0xac2ac01a952ce;0xbb69ea5f4eb0e;0xcffa20941aa4c;0xc6908acd9ed94;0x6654b2d066ea6;0xfa11748a28d6d;0xb2603a164fa00;0x1331a4facf5];[0x0;0x6df4e46b2299;0x10e6136507e3a;0xa2555fe730683;0xbaf9bdfff6297;0x89170df55ca64;0x3859e7d8da35e;0xb0a8d476fae7d;0xe17dab9f45de6;0xc5fa76c19f851;0x5c7688801a7];[0x0;0x97445c61c8dc4;0x4b0fb81dc1cde;0xbb6be04b36925;0xad998f994c1f4;0x867e49ffcad2c;0xbe00ecf32a391;0x38b88776a9056;0xd76573cfbf461;0x5130ac7f7ec7c;0x678a20b618e];[0x0;0xfff0dda13618;0x134fb9394dc4f;0xd506ecf7a0b4b;0x6ef986a9106b0;0x6c1465189761f;0xecdcdcfdc7529;0x83b8d15f72e0a;0xf542938ca8daf;0xd213982fe24;0x36c7724e39671];[0x0;0x144da9ec86a44;0x59a2e13db4574;0x3581458f218d5;0xf2aee85a09026;0x46d0a1dd4cc26;0xb704b1032fa66;0x3d3b8e82471e0;0x9f79bb4c42f39;0x6e4b0402d62f8;0x1fcf3ac153a]]);
 ((V [0x3dad59c46735f;0x62c804824bcce;0xf7e291ec2c4f0;0xd94aa3c049017;0xd89d7d1be7d71;0xb72b3c0165801;0x91c1a13a6a30e;0xd9c781f1ff949;0x537439ed1b93e;0xff1e8a1acd9] [0x6e86e9ffceb77;0x4911b556d3c39;0x9de68cb3173ab;0x693bfebf316f2;0xfdd6a5462d294;0xf3de974bca064;0x9d5a98708c718;0x35d955249f2b2;0x78136e4b3efdf;0x35ce7eca3e2] [0x581d3ad814458;0x4d99135b0787e;0xea1e93c306566;0xefbda4f12b029;0x751cc96811463;0x9b901cb9a77c;0x4ef61c9ced1e7;0xd7f6d0f000c91;0xf1ae75548edc1;0xa5f5c07e317]),[[0x8ec6d559033e9;0x58ff1af70e01a;0xb8d4f0c513f7b;0x4d344460818e0;0x2fa7cc0662da7;0x2c669be9f3e43;0x56f9347335e9c;0x72685d731689e;0xf85525bdf3dad;0x97516661e82];[0x614e5af8bd090;0xfc081858054b1;0xde17a1a1ecbb3;0xb2e82090a68ce;0xf074bebf8c4f9;0x71b69829388c4;0xad3bd4965f3fb;0xf09320c26b43a;0x49390ed96dd9c;0xf0b52697f05];[0x62a236e293544;0xb00658777f25e;0x30337affb17c3;0x426f475cc37b5;0x51b7c5c165e43;0xba4ffaf8d9c5b;0x13bf025209400;0xe87eb52000450;0x49ec3f844c3a5;0xc021253c8d7];[0x62a236e293544;0xb00658777f25e;0x30337affb17c3;0x426f475cc37b5;0x51b7c5c165e43;0xba4ffaf8d9c5b;0x13bf025209400;0xe87eb52000450;0x49ec3f844c3a5;0xc021253c8d7];[0x29a49cffb206b;0xbd677e4919c07;0xa01a79a9004da;0xf2e5278f2addc;0x93f83c960e766;0x7b13b3c273da7;0x7d8c84f828e20;0x7d00b852cd39;0x7d24f2bfd7014;0xc3799152ed];[0x37a9bdf90b026;0x3ea09a0eeb8aa;0x3dfd27f8ec6d9;0xc002f9017baf2;0x5c7c82297dd92;0xf6a2e466c4b1d;0x2faf4f9e365da;0xe8c3153d3e701;0xcc141c1996d88;0xe47d8d82c17];[0x0;0x9debd996c7bf1;0x235054ef3ee6f;0x2af950c017e0c;0xa795d17f4385d;0xd09867caa2177;0xcb7b020fc41e1;0x258a63dadddb2;0xe1f1af798f268;0x35918bb1dfa13;0x76d0056afac];[0x0;0x24594de8f270c;0xc16fa647f49b6;0x1652d01d6ad06;0x2cf75a416e962;0xf60f37fb7714f;0xf4e725dab29e7;0x3f7a75245115e;0xe89d74f122d0b;0xf7bbda21db8e8;0x7190a44a2f3];[0x0;0x144da9ec86a44;0x59a2e13db4574;0x3581458f218d5;0xf2aee85a09026;0x46d0a1dd4cc26;0xb704b1032fa66;0x3d3b8e82471e0;0x9f79bb4c42f39;0x6e4b0402d62f8;0x1fcf3ac153a];[0x0;0x144da9ec86a44;0x59a2e13db4574;0x3581458f218d5;0xf2aee85a09026;0x46d0a1dd4cc26;0xb704b1032fa66;0x3d3b8e82471e0;0x9f79bb4c42f39;0x6e4b0402d62f8;0x1fcf3ac153a];[0x0;0xefbcf4d7af6c3;0xd09df53a5fb40;0x904b9fb7089b8;0xc9162378b4139;0xd119e7ed6554e;0x98e4ddabfe90e;0xf89ed0d16c5ad;0x93301a24722e3;0x8218ae2f53dae;0xbb1a0799b5];[0x0;0x8eec3b60046d2;0x12353aac97c5f;0x75105a48480cf;0x26590fc185d12;0xc624c592acfb8;0x7360959b144f;0x56232d0a99053;0x8412f5e3f704e;0x98f0d12ff7a94;0x56871ea6598];[0x0;0x3f5bc28b9db81;0xf22c8b7eed3a2;0x17f509fd9a70;0xc71ffb5bff5ec;0x2b265ab5df6b5;0x5401479dafb40;0x920c0dfa77943;0xe2a670e5c85c;0x3993049b394e8;0xefe12886b8b];[0x0;0x1a1bc073af24;0x55ac75e387ed9;0x7ef2d9784bb4b;0x7d6767afa4c56;0x7898774b1c4bd;0xda88ddadead92;0xbbcb70b784e53;0x5067bc82b4ea7;0x390e202694b26;0x35d1b59f0e904];[0x0;0xd334c077d3a7;0xa8a4d058b2e5f;0x643b16e4366e0;0xd73da8351aba;0x288c0003fe7c3;0xf471aed3a3288;0x3c50af632d7f;0x5c733f7ed549e;0x440b7c10eb867;0x359f1b85422]]);
 ((V [0x71643ca2981d;0x79feecc5b2568;0x1f0cccbeeb07a;0xabba3530338be;0xfa28702522d32;0xedf5f1f3bf276;0x7a42636ff21f1;0xa6db47a03e520;0x9811bb0ec92de;0xaf735b39fa6] [0x5c3e92663dc8f;0xe6db9416c9d13;0x468a4bc2bb0df;0xa702010afdfcd;0x71a9d6b851798;0xa54f8fa30cf3b;0x8a8d7b6cc70b0;0x838008329b2ef;0x6969e8dc30c9e;0x228e13293d7] [0x85c4982bf4757;0xb2b2277589cab;0xb7540b43cf7e9;0xca6ec9203bae1;0x1ea1717f0e8ae;0xee7874ce03b79;0x7159e45656;0x7a2c7c95fca65;0x1ec29700cbfce;0x30597a262f2]),[[0xd9a07f08c3dd5;0xf53a02b087e4d;0xc35b02093555;0x948d2c40065e;0xc33d59fc202d6;0xef3956640b281;0x9f0a313a88d50;0x5b2ed3dfa950a;0x3ce7cd1290159;0x93851f52825];[0x2c8a0c4d2ec8f;0xae26846cca799;0xb8a052214ec89;0x57bbe2d59ef1f;0xf7d1a3eb5625b;0xb027dbe143a6b;0xa76e5238899a5;0x480a2da6890b5;0xc13c4b06d13a6;0xed2acf6b445];[0x581d3ad814458;0x4d99135b0787e;0xea1e93c306566;0xefbda4f12b029;0x751cc96811463;0x9b901cb9a77c;0x4ef61c9ced1e7;0xd7f6d0f000c91;0xf1ae75548edc1;0xa5f5c07e317];[0x581d3ad814458;0x4d99135b0787e;0xea1e93c306566;0xefbda4f12b029;0x751cc96811463;0x9b901cb9a77c;0x4ef61c9ced1e7;0xd7f6d0f000c91;0xf1ae75548edc1;0xa5f5c07e317];[0xef69a7d07a39a;0xab432bf300827;0x452ca65b5672c;0x757708d554656;0x88e4600e427e;0x3625b3b9787f2;0x1a0b1e09df38;0x1a362170113c1;0xb6f4d1762f212;0xfc71f3bff64];[0x3d20647cb46bd;0x2e35879c9f71;0x7373abc5f855d;0xe244da004a8c9;0xef435dea71fdc;0x7a022827cb279;0xa5cda057eba6d;0x2dd40c3677cf4;0xa477990a2194;0xf0b8dbab4e1];[0x0;0x25df56e7c38fd;0x763b954986604;0xe166f69839022;0x9c3f04a85e666;0x14cb4085a7ab8;0x7cd1d8ad0d0e3;0x21a83c583557d;0x8a78ac30c80b9;0x8306149838993;0x66a1204953c];[0x0;0x34c3c48c3a60f;0xc4c842e915fed;0x6da8300af1b3c;0x62ca7e0a8a7b9;0x967051a763d6b;0x41930a30db8fc;0xcf8ae134d22b6;0x2c513fd4d0651;0xfc43038b4690d;0x5fa26a83b77];[0x0;0xd334c077d3a7;0xa8a4d058b2e5f;0x643b16e4366e0;0xd73da8351aba;0x288c0003fe7c3;0xf471aed3a3288;0x3c50af632d7f;0x5c733f7ed549e;0x440b7c10eb867;0x359f1b85422];[0x0;0xd334c077d3a7;0xa8a4d058b2e5f;0x643b16e4366e0;0xd73da8351aba;0x288c0003fe7c3;0xf471aed3a3288;0x3c50af632d7f;0x5c733f7ed549e;0x440b7c10eb867;0x359f1b85422];[0x0;0xe4e73dc03091;0x3bd467321a127;0x479368574d998;0xd7b3239f25d46;0xb7163855c235;0xc0e96ea3ca671;0x8e7d1ee490cdf;0xba56218eefb34;0x41809b7abaf59;0xb4f27100a0];[0x0;0xaa1cc4b3e55c;0xa6a0d3e536da0;0xf2dc1115c5a84;0xab26f7a7ad1b2;0xc76bb109c6c2a;0x8f53bc28c072d;0x9dc2093eb6eb3;0xabe8c61cd25bc;0x85b84f13b7aa4;0xfe3ddac60e5];[0x0;0xaeed897569f60;0x63be64d12d929;0x2578b4773f09e;0x6ceb810a1fa24;0x63599575fe7c5;0x8cc077cf22b3a;0xc318eabd0e77b;0xfebc28f196cae;0xb83c9572f9fe6;0xa28b22896f2];[0x0;0x251d8dac62835;0x9777c00cb1ea1;0x485a41c46a5e7;0xeb003810d728a;0x5bd50ab41db59;0xb8d3011c95488;0x37b37cdaac493;0x9f5c51d0dbf0c;0x7d0864e0af578;0x22909ded5b054];[0x0;0x7ea4bbc6a2c44;0xd5c0df3ab388d;0x411c154c1093e;0xb2953417c4ab1;0x7770619f2b30e;0x53615a1d9167e;0xf67537e92b00;0xe0d234f63ca00;0x996ad598957f6;0x17aeb13c20c]]);
 ((V [0xfd6c50e5734c6;0x1e6dd4eef77cd;0xfb5a8b782d686;0x53493e0ae44c0;0xb5bcabdf3db0a;0x8b21e076898d;0xfb037ec2f0716;0xce8a9faffdb98;0xa99ee352f6215;0x1337177e41a] [0x989870a97f038;0x34f26dce2d8e9;0x55549682aa6fb;0x11a4867052d0d;0x3fdced9064f13;0x8754fa1092713;0x2fabb08f274e8;0x3cf17e470540b;0x800e81c2a5207;0x160df60a23c] [0x354470d43b573;0xd5421318e3e09;0x904dc3cc4c1ce;0x32a6ac0077c89;0x907bb9bd246c3;0xe5509f4f2a3b4;0xfe6ef6ed0133f;0xc04706fbf8f70;0x8b51c6a83e030;0x2e22b7508c0]),[[0x530a77b330e41;0x99af9b327b67b;0xe13c02f930c5;0x85063fcbe7e49;0x256bf46b11339;0x95003d33e5929;0x8852fe0e0bf46;0x26058af53de31;0xbd22be995359b;0x23b53a211dd];[0x903f98bf003ed;0x39ddf1eebf31a;0x5074a55d4724;0xa46669d258ef4;0x39e2dd47dca83;0x3a18c0d2e5623;0xa3ea63439accc;0x18a8da14bd48d;0x791ce6e46d009;0x23b3ea60362];[0x85c4982bf4757;0xb2b2277589cab;0xb7540b43cf7e9;0xca6ec9203bae1;0x1ea1717f0e8ae;0xee7874ce03b79;0x7159e45656;0x7a2c7c95fca65;0x1ec29700cbfce;0x30597a262f2];[0x85c4982bf4757;0xb2b2277589cab;0xb7540b43cf7e9;0xca6ec9203bae1;0x1ea1717f0e8ae;0xee7874ce03b79;0x7159e45656;0x7a2c7c95fca65;0x1ec29700cbfce;0x30597a262f2];[0x9ce26f16f37ef;0x314828e63c58b;0xb6d421f8872dc;0x7d955ba1984a7;0x26e55b585aac6;0xd9ffe78a86724;0xf0bda7d03ee78;0xa0823d36f2591;0xb35cd6530dde3;0x4ddbbcfe07a];[0xf35d29a80c9c6;0x895c90882d8e;0x4e33285d4d448;0x26d10e30c0a4c;0x12fd81ef81fbd;0x6018d9485eeff;0xb32cbb735be53;0x78269cddcaefb;0xc5c010915f225;0xd5d82d622e7];[0x0;0xa61f0da740c99;0x68be19a33a7ae;0xc7e4e826c0c29;0xa499404ce7069;0x6ba57191feca7;0x15bd369e21813;0x190675b3e4db8;0x609f0b09f6adc;0x63724abada6b8;0x1de636ab357];[0x0;0x795b6acb5d386;0xc74bc08e242b5;0x21c8f6600d8a9;0x683129fd6205d;0x2577608c00f03;0x35f9e1d91865;0x9339d0f82718c;0x511f6cfb81f29;0xa02f2e9d86b31;0x6be75f11c4];[0x0;0x7ea4bbc6a2c44;0xd5c0df3ab388d;0x411c154c1093e;0xb2953417c4ab1;0x7770619f2b30e;0x53615a1d9167e;0xf67537e92b00;0xe0d234f63ca00;0x996ad598957f6;0x17aeb13c20c];[0x0;0x7ea4bbc6a2c44;0xd5c0df3ab388d;0x411c154c1093e;0xb2953417c4ab1;0x7770619f2b30e;0x53615a1d9167e;0xf67537e92b00;0xe0d234f63ca00;0x996ad598957f6;0x17aeb13c20c];[0x0;0x2e95b119e487e;0xb432bab05e338;0xac852f074427e;0x688f33cc41feb;0x91a94209a1a67;0x102ae6f488633;0x99e41c80de215;0x39794aa8b470c;0x2d5558ea69647;0x4aa0bf0378];[0x0;0xb79fe77bd2665;0xecf1a3b89ea4c;0x9f3dc7359b68f;0xbedd9ffcdd2d3;0xb2a422953a0f5;0x560f30a1bef8d;0x1468b7f7010c3;0x954f82ee3278a;0x57e76547bcf1a;0x783eeab45af];[0x0;0x3e3ca1ada496a;0x40ea96c7810c8;0x7f6830353b1d4;0xfdfc21d4b7c02;0xf8e58c96ed68d;0xff29a7cac075d;0x3ba3eb805d95a;0x1b807ac126d9f;0x50bfeac828582;0x2ae0953447];[0x0;0x32520d60bab48;0x7524861422fb5;0x3a7a7aa2da82;0xaa07a07e47069;0x5272850ae6b3f;0x91bc0d50545bd;0xf5d64ef16748;0xa7c4e1c12eda6;0x1a8f35c52e620;0x1620f09796730];[0x0;0x5135326603f3b;0xb271158216b5a;0x3688790387e2;0xdb9dfc55e5a52;0x4952c2b94f3a3;0xd529dddf7a60b;0x31727959c4224;0xa771458d392d3;0x7c83ed3e7cec2;0x1a7c848be7]]);
 ((V [0x6bafc9993fcaf;0x3a901a58f6c52;0xa9f113d68edbf;0xade8a6f73641d;0xe24641ac8b515;0x3b60dff705b;0xc43c885b6b5d9;0xbcdc8de095f07;0xf74d32a9a4a43;0x41cd958839f] [0xa867bdcd13e72;0xff5d0560ae7b;0xa9d29eca021b3;0xcf6765d5cdc60;0xdd1b29c69ed77;0xff29e848b9dcc;0x2d0389d19d7ba;0xf34014ec988d9;0x4d70d61dbb85b;0xeaecec60013] [0x657b50018e62e;0x57bf090680978;0xc1e0a94d6df15;0xd242fdd1d29e7;0x13816c8e20122;0x9a51a2621f398;0x9d711bbe967f9;0x58643a64429ba;0x5db2b03df0a73;0x10fea47cc67]),[[0x2c94a4718bea8;0x15518269e636e;0xf093b275e187c;0xc3b67b31c443b;0xb40ae8b1e5ed8;0xf85dda69e14f7;0xb2edb455bebc2;0x3301b396e0855;0xb04b9775ddc22;0x3978b23a586];[0xa8b77cfd4b292;0x3fe14e2f83ad4;0x74723022bb6f4;0xf9fe17d42b307;0xa9a1b4f693b15;0x82c4e9b315f8;0x68e2722327635;0x7d558d189a4dd;0xb89e66d3ced24;0x3d9911e1ee4];[0x354470d43b573;0xd5421318e3e09;0x904dc3cc4c1ce;0x32a6ac0077c89;0x907bb9bd246c3;0xe5509f4f2a3b4;0xfe6ef6ed0133f;0xc04706fbf8f70;0x8b51c6a83e030;0x2e22b7508c0];[0x354470d43b573;0xd5421318e3e09;0x904dc3cc4c1ce;0x32a6ac0077c89;0x907bb9bd246c3;0xe5509f4f2a3b4;0xfe6ef6ed0133f;0xc04706fbf8f70;0x8b51c6a83e030;0x2e22b7508c0];[0xfdf43539a432c;0x6b314bb62d0bb;0xd871955510495;0x235e7c3a2bc51;0x4b9b172269981;0xe7e3c4c6f4344;0xd39321eb568f6;0x54970f90f4d88;0x10a4ac7d9ac7e;0xb835d4cb946];[0xaac347c3a6d2e;0xd4b0027956a18;0x9c009acdab25e;0xd69f9b99ff6b5;0x5e069dd42a194;0x204889d43d2b4;0x954f5037d0d3e;0x28be7d87a5754;0xa7f9ba56340a6;0x85633d1659e];[0x0;0x6002ddb5ef978;0x8d61a7b75a946;0xcad5c425b2825;0x4f3b40b23c5f7;0x37809802ce8bf;0xdd705fb7db190;0x6efc6df3e29d7;0xeaa7f7578b3ef;0x1dc93c902b7bd;0x1c87bab6202];[0x0;0x139056f8e25ea;0x9407ec86bd50f;0x212e37fb62ffc;0x802150743ee9b;0xff3234f8cf6a;0x75740e1ae9487;0x165408f68d7bb;0x9abb85622298f;0x2566647346405;0xa5b7b35843];[0x0;0x5135326603f3b;0xb271158216b5a;0x3688790387e2;0xdb9dfc55e5a52;0x4952c2b94f3a3;0xd529dddf7a60b;0x31727959c4224;0xa771458d392d3;0x7c83ed3e7cec2;0x1a7c848be7];[0x0;0x5135326603f3b;0xb271158216b5a;0x3688790387e2;0xdb9dfc55e5a52;0x4952c2b94f3a3;0xd529dddf7a60b;0x31727959c4224;0xa771458d392d3;0x7c83ed3e7cec2;0x1a7c848be7];[0x0;0x3cdc52d4cfe4c;0x24ddd08d51591;0xa42efa51aa1e6;0x554e78d992b9d;0x4fd6c228d3f9d;0xbff5bb4673d06;0xae5d0bea07e53;0xfe8a6aed1f733;0x57fa32ec89729;0x1e6670ca7a];[0x0;0xf64acc3397c5a;0x89d4d81608582;0x27d9d77a58b90;0xd4ff946d068d5;0xd9926552b2a56;0xccabffce8a1f6;0xfe862d2a0ebd1;0x43b17cfe0ad2;0x77838dcb04ad2;0x1713957d82];[0x0;0x520179f62f3b1;0x5aea8500779a1;0x4c6ba58587749;0x2569a989e93a1;0x47749ba12017d;0xd53ac2b2515bf;0x290ad16b2c7d7;0x54b5f77830913;0xb8cc9c845db05;0xfd555188e1];[0x0;0xeb9dbfbdac81;0xbd511da0757c9;0xb3fdaa7d9dab5;0xb4077250b1750;0x365a2e4cf8e3d;0x4bf37cc68c0c6;0x15005d66f1873;0x996bcef998b76;0x5de7033b053b2;0xeb9f52600bffc];[0x0;0x44162f863f040;0x79791ec803cb5;0x4b0d293d694fe;0xd0412a1ec92c9;0xfa112f2782d2d;0x9a3251173df97;0x93480010cc19;0x9223a14610635;0xa0374f82df078;0x3c62d0f691d]]);
 ((V [0xf9954dfc1f92b;0x36ffa382618e;0x85772e380b70;0x24bd62fe0456e;0x77daf168d4f93;0x2ac679cdf0f5b;0xff6547cf92cc5;0xb0ca8ae61505a;0x112e9044b98b5;0x86be064f522] [0x725b6a324f527;0xadd23e7dada9a;0x9c22d9b31f486;0xcac7c942498e3;0x29805d2fc79a4;0x9afe64d357e04;0x51d172c7723c8;0x4b38fcd20567e;0x6904bd1b4db81;0x1ac08731dbb] [0x59853a5b18eb1;0xc38b6da3ebd98;0x15466bc31ba92;0xb42666c84fd74;0xdbb6dbffeee81;0x924a44466de6;0xd45de45df3cf0;0x7272b874129e2;0xf2741bfb7e53c;0x7024df96cc1]),[[0xadbd933b80ad3;0x4fd24a181f043;0xdd46827c4a7cc;0x342bc9819ae1e;0xf843cb9cbaa4;0x5adba264818a;0xa5e3358a87aa0;0x68f31a891ccd2;0xf06918d9cb8e5;0xa35746c7f69];[0x95c78d489734b;0xf4e044a62070e;0xbb4798ca16f54;0xf821bd38e6a9f;0xa51715eaddbfe;0x8ccd7a06195e3;0x1bad9eb2c5721;0x4d20e79913f2d;0x2bd3c132e57c3;0xd5c156fa517];[0x657b50018e62e;0x57bf090680978;0xc1e0a94d6df15;0xd242fdd1d29e7;0x13816c8e20122;0x9a51a2621f398;0x9d711bbe967f9;0x58643a64429ba;0x5db2b03df0a73;0x10fea47cc67];[0x657b50018e62e;0x57bf090680978;0xc1e0a94d6df15;0xd242fdd1d29e7;0x13816c8e20122;0x9a51a2621f398;0x9d711bbe967f9;0x58643a64429ba;0x5db2b03df0a73;0x10fea47cc67];[0xf50bc21cb74cc;0x210950c10f9de;0xe342b3ca75fbd;0xcc6fccd8cc921;0xd63c5190a349c;0x325c9da795cf4;0xa10d4acd16fde;0xee83ad07a12b7;0x7b1ca4abd3181;0x8818fec5a84];[0xa0bbcb2bdfe80;0xd3d6f3e510d2f;0xd804e4ffa0f97;0x2bb1f0601a17d;0xcedac45a3a762;0x5a70dc5e838ee;0x7aa053e5ae743;0x5e9d3a9172c75;0xb0b71c8712641;0x4da85834a92];[0x0;0x466c87f28ee0b;0x347de86959485;0x29698f7c7a0db;0x31b90d7421729;0xb65698a1e88f9;0xd7fea61b77d00;0x7ea80e406a6b6;0x23845c95b0459;0xa985a257e7e82;0xa826e4f921];[0x0;0x2b517a3653669;0x6a8bf7125c9fb;0xd2cbf6a9cf273;0xea6fe0ddec948;0x597a72f6d9cd7;0x9adaa0369aa6b;0xf71c87f7146b4;0xd55da82fd2c4f;0xfb8841051b91f;0xad7edf8400];[0x0;0x44162f863f040;0x79791ec803cb5;0x4b0d293d694fe;0xd0412a1ec92c9;0xfa112f2782d2d;0x9a3251173df97;0x93480010cc19;0x9223a14610635;0xa0374f82df078;0x3c62d0f691d];[0x0;0x44162f863f040;0x79791ec803cb5;0x4b0d293d694fe;0xd0412a1ec92c9;0xfa112f2782d2d;0x9a3251173df97;0x93480010cc19;0x9223a14610635;0xa0374f82df078;0x3c62d0f691d];[0x0;0xd7e45a93eba48;0x4fe522ec26d46;0x8c9ad6a2bbd8;0x870d339df1aa7;0xd40afa4bcb251;0x4542a702ccfe6;0xc8c19a94492c2;0xafc865a17464b;0x7f8cb4bb58530;0xd795fb642d7];[0x0;0xc733391ee29d7;0xdc3c4163afb03;0x38ce2d7353266;0x509bd0dd15f35;0x72941544b9836;0xc4da4b1b15d5c;0x22835e603ead1;0x2fbddc55df19b;0x87875606245b6;0x10ea0b0800f];[0x0;0x73cebeeabb758;0xfa09fda0e17aa;0x55f81ea55b019;0x90f4b04b8bfa6;0x62ea7a2f4ca3c;0x49c39725a0e5d;0x464474ad84f77;0x19deb81553e7b;0x1c2f0447f74cb;0x7081de4a57b];[0x0;0x8125de68e1048;0x22c47df9fdd36;0x91cb188356d82;0xcb02bbffcf707;0xa71bf05017eef;0x3255cacce0cc8;0xf16123ded0636;0x8c6e2e50914ff;0xfa2a25d802aac;0x1ac4f1545453e];[0x0;0xb17b367b4b344;0xd940bf07990b4;0xb01f485cc5444;0x91c6380643918;0x4531fbe941a0f;0xaea250c369413;0x28891ea6bdd8b;0xed73fe7e65b51;0xca4a925bfe07e;0xe14a2513d2]]);
 ((V [0x39e31722ea3f8;0xca4413bcb1d53;0x68f51e1d19083;0xf604948a1fbbd;0x687b359ccd7da;0xedff837ace340;0x84e37ae293d75;0x7061a365c5294;0xbfec97355b2d8;0x67fd7f463f3] [0xb63f3716fc20c;0x8dd190b8db7e3;0x688a51a007f0;0xdf37bca83a26d;0x7eb7b903e287;0x380d038b07205;0x9da10bf1f81eb;0xcc00ad836e00b;0xc2dd896c25c1a;0x768c6844f95] [0x844c8d8e004de;0x2d05cf6287169;0x5af23068e8bf3;0x600ea2a94975a;0xc11ae89102c4;0x247e323c077de;0x27d7e55c950ce;0x171ef4207dbad;0xb371a64f0bbec;0x1cccbade16e]),[[0x199fb9d4e001b;0x621fb84faad58;0x9d19700b367b5;0xb523f099b67cd;0xacab5fe54ccb3;0xbf7becc0075b;0xafc98fea5086f;0xc879773da4a01;0xd63802924e87f;0x6966dd6f8b];[0xe719ba73d2313;0x7c180d5db64c3;0x855c9dcf6c623;0x756fffcd8afd2;0x804a8950bbd68;0xf2dcd68852f52;0xd94b181ad6ef8;0xcceff46332379;0x43f35d9946616;0xf4481b28246];[0x59853a5b18eb1;0xc38b6da3ebd98;0x15466bc31ba92;0xb42666c84fd74;0xdbb6dbffeee81;0x924a44466de6;0xd45de45df3cf0;0x7272b874129e2;0xf2741bfb7e53c;0x7024df96cc1];[0x59853a5b18eb1;0xc38b6da3ebd98;0x15466bc31ba92;0xb42666c84fd74;0xdbb6dbffeee81;0x924a44466de6;0xd45de45df3cf0;0x7272b874129e2;0xf2741bfb7e53c;0x7024df96cc1];[0xbab9be7d9ab2c;0x609fe1ed79440;0x45196a023ab49;0x2045cfc1548d6;0x314910a6a3603;0x85e880b331fd2;0x652052a66f862;0xccc3942eeeaf1;0x2609da7fc2691;0x88adee9ea85];[0x2c5ffbf6377e8;0x1b782b703d083;0x404333cd31ada;0x552a300c366fc;0x4f0178aa18765;0x6cf455d520f80;0x742ac57467696;0x2c603443888;0x1de9831983f85;0x6b9a2c897c1];[0x0;0xb7b47ae75e623;0xb9f664059c50e;0xc0ca34110218b;0xaac294fe69cb8;0xd3caa6f4da9fc;0xc2106cc78c98b;0xddcdf8aedfa2b;0xd89500a903824;0xf6b6166001a6d;0x4559865acb8];[0x0;0xa45b9dfca9a8;0x57dc3cc013c49;0xbc185c24e189f;0xf7ecaad245ce7;0xeb602d6cc31a0;0x535783777cf5b;0x6d1c2721fb1fa;0x12182676458b4;0x1218dffc684ed;0x2e2c2f66a2];[0x0;0xb17b367b4b344;0xd940bf07990b4;0xb01f485cc5444;0x91c6380643918;0x4531fbe941a0f;0xaea250c369413;0x28891ea6bdd8b;0xed73fe7e65b51;0xca4a925bfe07e;0xe14a2513d2];[0x0;0xb17b367b4b344;0xd940bf07990b4;0xb01f485cc5444;0x91c6380643918;0x4531fbe941a0f;0xaea250c369413;0x28891ea6bdd8b;0xed73fe7e65b51;0xca4a925bfe07e;0xe14a2513d2];[0x0;0x1d763b7487d13;0x3059f47a9fe73;0xaf5b48696a46a;0xf14fe08cd534f;0x1bb5db1414924;0x18d8e1a2e55d;0x6a2c04d564a31;0xc1e5ccc21fd4d;0x46983cf85d25;0x2cbac4132d];[0x0;0x5be77febc1427;0x71dd34557329f;0x7919e9ebc345d;0x567b259dee6cc;0xeeedd3a1ea68e;0x5160a73fd2df2;0xb8853f0d43b8b;0x3cd05c80de4ef;0x59515a07507c;0x46eb7ba867e];[0x0;0x6a9ed877d2e12;0xdf8d110070c8a;0xefb49095ba2bf;0x77a2b2b5bcc0f;0xe10fcc580ea08;0x943d5d3092c6f;0x6075d3ea83003;0xc13aafd52fbf9;0x7a1f5ba5a1c7b;0x633ae7a2cad];[0x0;0x3eaeee00f7a07;0x4435dcbc82326;0xabd5c7b5ab1c9;0xd3cf4cd1e5fd5;0xd4567a543b5a3;0x58af6a6eb1299;0x275e2de3106b1;0x5fb031134d37e;0xe4cf469c723c6;0x7691d575cbdea];[0x0;0x86e8f7dc9f72e;0xd4712a22db6de;0x55ff5b95c7f12;0xb661b58eb7117;0x76db991b631dc;0x2e0d7537854bc;0xaf7aeae01de0d;0x6359d60bb636;0x5971df8066487;0x3027e1a6fbe]]);
 ((V [0x4710a43d8ed2e;0x6564eeabc0700;0x97f3b0c8e0d70;0x996f9e903dd9f;0xdcc09588efecd;0xeb669a60adba5;0x3adbf3bbf3dd8;0x77a36e869f833;0xe8d43a6b66354;0x608efedc218] [0xd8179eb4eeea9;0xae274bd5c63fe;0x7ce0ce1a4187b;0x5da9074dee488;0x6fde9f07ab845;0xd58be3f97d034;0x12d3325718bd6;0x50461e3b5339f;0x9094727aca67c;0x8b46d4e34b7] [0x3fe815bbeff61;0x8587283a8731c;0x3fcb7f0cfbff;0xf5f513a828d32;0xe96782ddd5529;0xf55c99741cd19;0xfe9c55511acdc;0x757100d6406fb;0x7a1f1f3de0a3e;0x3d17bdfc941]),[[0x11d5a5aeaf245;0x951709bd5b461;0x4cd39dafed809;0xe32112968d2bd;0x239ab2f5abc41;0xf4ddd75bcbe;0x868a555b4cbb;0x7f853c945d787;0x90edf8a501501;0x34e629c143a];[0xd8f1295a26411;0x3aee1477f224d;0x8f37c4ce94427;0xe740918e9a74d;0x7780a866aaa09;0x732e4016602ec;0xe11bf610cb0d0;0x39286cd1ef392;0x548a256ed9304;0x36330cabd30];[0x844c8d8e004de;0x2d05cf6287169;0x5af23068e8bf3;0x600ea2a94975a;0xc11ae89102c4;0x247e323c077de;0x27d7e55c950ce;0x171ef4207dbad;0xb371a64f0bbec;0x1cccbade16e];[0x844c8d8e004de;0x2d05cf6287169;0x5af23068e8bf3;0x600ea2a94975a;0xc11ae89102c4;0x247e323c077de;0x27d7e55c950ce;0x171ef4207dbad;0xb371a64f0bbec;0x1cccbade16e];[0x62ef2c4c24f7b;0x66ee95c2917fc;0xfe4e0d6e67c37;0xfe68be7b69d1a;0x17c3d5615ba75;0x283c2e05f42a;0x3795ea200f3c6;0x1f45846af4f7d;0xa3e358905cd21;0xb398c60eb04];[0x7601fd0e0125e;0xd3ff7eb560a51;0x90e9b7602c7ef;0xe8d7d31330a32;0x5fbcd3054ef93;0x70aa7d3600ec2;0xa9860bf0bbd0a;0x19e2e866fa415;0xb0a6ccde7c5e3;0x829a469d22b];[0x0;0xeb4694f62aa0d;0x2d9ae2f20b98d;0x4e3c1f095264c;0xea1ccaf26f7d0;0x2aa02292a6a67;0xd167a8a1a8ed5;0x59d1918f51eb8;0x78d30f7209fb5;0x20b010beacb24;0x11cf4908dcb];[0x0;0x50da225bb7e13;0xcc6a1cd12ad3;0x58fd08974d5ad;0xb11832b802e7a;0xc64e7fd4be9a6;0x94034fb77780c;0xf3706d51b3f44;0xa361178c07936;0x36b5ba61a5802;0x5f37a97881];[0x0;0x86e8f7dc9f72e;0xd4712a22db6de;0x55ff5b95c7f12;0xb661b58eb7117;0x76db991b631dc;0x2e0d7537854bc;0xaf7aeae01de0d;0x6359d60bb636;0x5971df8066487;0x3027e1a6fbe];[0x0;0x86e8f7dc9f72e;0xd4712a22db6de;0x55ff5b95c7f12;0xb661b58eb7117;0x76db991b631dc;0x2e0d7537854bc;0xaf7aeae01de0d;0x6359d60bb636;0x5971df8066487;0x3027e1a6fbe];[0x0;0x4a15e1057da43;0x1022d7127432f;0x77b9cc5154240;0x58d270f34d5b1;0xd24f9a977d82c;0x79b92ad9b9433;0x5c956c129dba5;0xc49ec3cd47c11;0x9d44620fcd96b;0x36e5bd21cbc];[0x0;0x4a7c6b4afcb0e;0xe29dd68fc3f0c;0x71447e987b233;0xe6c16861535a6;0x384ceb7badc11;0x59230a742d976;0xebcfae1220720;0x59c0f74287d58;0x2099fe036b95e;0x2a3df76f570];[0x0;0x3da505fe8880;0x5b43a75ecc01c;0x5b6a947018419;0x8d0ca398c522a;0x216ff1c2371bd;0x48d1842774777;0x5966c61ff7e09;0xf56c0c4d93c3e;0xd2a0f5f6633b2;0x14716b06b7f];[0x0;0xfc8ce1a3e7bbd;0x449d44c1e2f11;0x2acb3143508f9;0xdcdf7a9c66700;0xa210bf1f1c3ae;0x68e057aed56b9;0x245d7faf7b255;0x8f0b6ee696574;0x5a2a224dc5abf;0x8bb49f01459c3];[0x0;0x406a18f40cc1b;0xb0ad4f017276c;0x87d8036724e09;0x9655c67406a2b;0x9193d2a63c0d5;0xf779a29b17e12;0xa6fc90938f92f;0x2e2cda6f9c4fd;0xb686afbddda8b;0x34885bc75cb]]);
 ((V [0x6820a801f41a2;0x619c6c977f79d;0x55e393d5af013;0x9d0333927edd3;0xa7098aa52a20;0x10c38b63257ad;0xbe0f8aee34183;0xd603c5568c5f9;0x75a9906721090;0xc70b0ddd3b7] [0x6543b9ea92004;0x1f6d7dc7b0f0;0xdda06e84183b6;0x38325acd3db8d;0xdbe62e770d952;0xeea7be7a26695;0x626eed8d0d000;0x11fee0f372f7e;0x286d219714782;0x85c8c34497c] [0x8a8cf786f01bc;0x224afc990b411;0x9aa97d41b60af;0x6fa4ddf446081;0x93c2f6b65807;0xaaef38ee3995f;0xdbca4b2626256;0x4e63fab03165b;0xf7d7536963c4;0x5bc54fa4900]),[[0xa1a6d0e63b5e7;0x9bad457079f73;0x2215c62963aeb;0x8dba11599d64f;0xb9251215b8a71;0xcc6f38927283e;0x26d4c358c8a61;0xc4246187cccb5;0xf8b337d30d1d3;0x3573fce9e25];[0x817d6bdc65970;0x988e63a71e3ef;0xf52bcc4d88c74;0x5219bb5b06bf;0xa9a8778fef0d4;0xbf9325ee0486e;0xcf3168337dafe;0x7a7e460323616;0x4a8342a844e2c;0xff743b2b3c1];[0x3fe815bbeff61;0x8587283a8731c;0x3fcb7f0cfbff;0xf5f513a828d32;0xe96782ddd5529;0xf55c99741cd19;0xfe9c55511acdc;0x757100d6406fb;0x7a1f1f3de0a3e;0x3d17bdfc941];[0x3fe815bbeff61;0x8587283a8731c;0x3fcb7f0cfbff;0xf5f513a828d32;0xe96782ddd5529;0xf55c99741cd19;0xfe9c55511acdc;0x757100d6406fb;0x7a1f1f3de0a3e;0x3d17bdfc941];[0x5d2dbb191c477;0x876e4adcdcbfb;0xe2a4fcfacfe68;0xffd402d6a0465;0x10ddd975a4563;0x7a45e4bcc0aef;0xe7e3e88371fd8;0x77c7d3456782b;0x93635889064d9;0x26f6c7d4d4f];[0x244fb0c3494fa;0x112018ca417f4;0x1286cf52b8e0c;0x54d98df1025a;0x98ca9e1a4ab70;0x454d413143d7f;0xe74d7fb00bb26;0x2b672bdbbdea;0xb71fea1f3e953;0xd87d7356671];[0x0;0x5f9078ba0fb4f;0x896cecf452864;0x272668e7e2e76;0xb94b7c78f22ee;0x14cff25841424;0x85a86f1386991;0xaf87a265d47ee;0xad26ab1493531;0x3ff4dabea9b39;0x25c797e88db];[0x0;0x481c929c61f31;0x75f05dc63860e;0x3ca515e28556a;0x4ede4b3de97f6;0x8c435b5b858b9;0x32ecdfe72dbc4;0x2e9d84a01192c;0xf66a131b4e547;0x5ba8f8d5523e4;0xcc1985ad2c];[0x0;0x406a18f40cc1b;0xb0ad4f017276c;0x87d8036724e09;0x9655c67406a2b;0x9193d2a63c0d5;0xf779a29b17e12;0xa6fc90938f92f;0x2e2cda6f9c4fd;0xb686afbddda8b;0x34885bc75cb];[0x0;0x406a18f40cc1b;0xb0ad4f017276c;0x87d8036724e09;0x9655c67406a2b;0x9193d2a63c0d5;0xf779a29b17e12;0xa6fc90938f92f;0x2e2cda6f9c4fd;0xb686afbddda8b;0x34885bc75cb];[0x0;0xe0e5873ae2816;0xef2b88c414f92;0x6bbbd0ec054e8;0x82c1a7d9068f9;0x6df89df0b5b9f;0x6937f44616f8a;0xc675a1b7566e1;0xd1edefead76a6;0xbf513be43a1c5;0x4bc5fec7f14];[0x0;0xfdcd898e96e66;0x8cde364fe4644;0xaaed2f291edbb;0x98e75226278f;0x1ca8164a67c45;0x13946ba304928;0x8cb0fcbfefed0;0x7801324117356;0x9b3f805d0d7ba;0x246b8f04d31];[0x0;0xacf1d987d5640;0xc375bbfdbb317;0x6cdb8ac8470a;0x135c45a3754c0;0xdee108427a6b0;0x4ce4f1f891a05;0x422b5fe06799;0xe4247010f9684;0xecd15b94f53a6;0xc69e61d2d03];[0x0;0xd81ae7e342e04;0x94c3a8a59e122;0xcabc2e9f49b99;0x442143a6b8725;0x21e592f4340e7;0x70815221271e4;0x93f10a87e626f;0x1bdab5f2f8b96;0xa5ba1815c2623;0x85c90c4f76aee];[0x0;0xb239d89c904d4;0xfaf1435624edb;0x56e1d95e271ca;0x61ae518aa496e;0x2b3fbc7e0e0ca;0xd0d3c0d973407;0x1664bc65919d4;0xe143ac3b78794;0x96ec12172b799;0x6804d6a9853]]);
 ((V [0xe646eb36efd03;0x9a8504008d247;0xaead02e68ede0;0xa1c0d860838e1;0x73bd4926d596d;0xa33cd9e5955e1;0x740f51ac60caf;0x6e2282a63527;0x5b831bf0b7885;0x233871fde31] [0x416eead9bebb0;0xeb5033b5ad269;0x89b07e085e042;0xff04734993d57;0xfb66c173651bd;0xf0220b26712c;0x225f746001354;0xee68a1a455fce;0x1ae203cc90fd5;0xd1e136c9054] [0x6da37161c15b;0x762e234d50ee7;0x679e7555a2dbb;0xc68eea6babd7e;0x1892894b2e9dc;0x71fb2ac2f8850;0xca5d0814d4ba3;0x5bd0f32bd7de5;0x37971d6245fff;0xeeb040f95b3]),[[0x75d6e02acf4c4;0x6cc13de6b2e82;0xb3c301cb9d31f;0xed4800b396ba7;0x99daa58862a7b;0xfb4913b09172;0xa494b95e52db6;0xaeb297facaf50;0xa4c619cd9ae73;0x26f9ef41ecd];[0xf9462b0b008c9;0xbb075ae7afcdb;0x4964336ed0365;0xf3ff45ae5d91c;0xf071d2d25accd;0x48e9de5ce71d;0x5daaf0c20c846;0x736dd8e5bf978;0xe6d83b2c2c447;0x975928ebdf8];[0x8a8cf786f01bc;0x224afc990b411;0x9aa97d41b60af;0x6fa4ddf446081;0x93c2f6b65807;0xaaef38ee3995f;0xdbca4b2626256;0x4e63fab03165b;0xf7d7536963c4;0x5bc54fa4900];[0x8a8cf786f01bc;0x224afc990b411;0x9aa97d41b60af;0x6fa4ddf446081;0x93c2f6b65807;0xaaef38ee3995f;0xdbca4b2626256;0x4e63fab03165b;0xf7d7536963c4;0x5bc54fa4900];[0xc103454a76df4;0x398f1bf98c37a;0xa84e8c6e5ce91;0x1bf8dc7cb4c0a;0x1f6117c76e8bf;0x9c75286d57c67;0xad6dd066dafb3;0x6e09dc2ad7a27;0xc74b3d5e38aa6;0x9bc92d8c37d];[0x3842e5c08989d;0x81783eee23961;0xa115a700734d4;0xd8066931a8d11;0xd110bb0aec40e;0x6819757876ab6;0xb03d205b31892;0x563fcbae7f50;0x1f8cfdcdf39a1;0xfb8ffb5fa7b];[0x0;0xdb50b1a5a9e24;0xa0137f688a79d;0xf593946764600;0x76b0afb2318c3;0xb266ceaa68ad7;0x7ba7b664134fb;0xe550d2c2161cb;0x96e0e9a42878b;0x826feb6de0d7e;0x38c03a94030];[0x0;0x2b0b57bbf17a1;0xca9cddb883643;0x6c6d033e80ea5;0xeedd2748730ee;0x777d848277e88;0x5041227cae50d;0x28f983ea9a926;0x8651200336141;0xc37c796f88d97;0xdf8e281bbc];[0x0;0xb239d89c904d4;0xfaf1435624edb;0x56e1d95e271ca;0x61ae518aa496e;0x2b3fbc7e0e0ca;0xd0d3c0d973407;0x1664bc65919d4;0xe143ac3b78794;0x96ec12172b799;0x6804d6a9853];[0x0;0xb239d89c904d4;0xfaf1435624edb;0x56e1d95e271ca;0x61ae518aa496e;0x2b3fbc7e0e0ca;0xd0d3c0d973407;0x1664bc65919d4;0xe143ac3b78794;0x96ec12172b799;0x6804d6a9853];[0x0;0x4f9eae74d8d04;0x529720ba37cc2;0xacad198cd28f8;0x697479238fa01;0x6bd0085e1ab63;0xf8a2715607e80;0xcf6e5e7c04e47;0x707fe99c758e5;0xed19c496a3689;0x45ea3856f5c];[0x0;0xf5b988de6cae1;0x46b38b32f7b2e;0x62ea0f6053d18;0xd09505c9f6d9b;0x1116ce5adbe45;0x954c555cfa77d;0x9ea9963c437e3;0x3318169c79ae1;0x6e2558a4215d3;0x9ac23008243];[0x0;0x8bcac6f8637ea;0xdb7658d7fccf;0xeeda2d9b6febd;0x761e84d187e2b;0xa645b7b6fd425;0x9227b279b2f58;0xe5c0cc8258bc;0x7253438a99e55;0x7d569c55a65bc;0x14d28f7da79];[0x0;0xb16e88e989c3e;0xfdb1ca330c3ab;0x35b027bc31f3d;0x9d9078c118d09;0x38a4d48f51ab0;0xdcd5350745304;0x1ef8a97c3b74d;0xd06309fb04cde;0xe960a06134389;0xd237030fa5175];[0x0;0x6e71753acc4a3;0x80d9c056ad599;0x541a52c8541b;0x34cf15ee273ce;0x2b454806a2c7d;0x1443c07604943;0x77a08bec4ecd6;0x953eebb6d7484;0xf833915652d3d;0x1ce01136069]]);
 ((V [0x9d30c96a2373;0x2f4cab9d02b87;0xe903ddffd50b2;0x51a20d6d62ef2;0xc286268ef167c;0x7e6090353305b;0x3260f0cc0a750;0x5bbd6d759c55c;0x4f32d983e1b;0x4a83c3b5ec9] [0xc025c1887d20;0xc73152405f981;0x4721939840a38;0x941854b36deb7;0xb441c1f2ab77d;0xb7af01af52d85;0xeda96f7196ad7;0x6a26eb91e77b;0x427d99e0101e3;0xbd2f0f9bbe4] [0x51779e4811517;0x4c93401ba80a0;0xfe67035868f3;0xae530606ab759;0xe0d1845bac6fa;0xf9d81b54fa36f;0x7a6c01cf29039;0xfc008517fe107;0x98b80c34152c0;0x81d84b64fe2]),[[0x3db9a366729d5;0x50399dcca51e9;0x6e939f3eab9f0;0x728415daa76ab;0x60b5250d1be47;0x53aa6b4c02902;0x12672f7143c33;0xe06af18917813;0x986aa5a0b10da;0x8deb2f2ad3b];[0xd0110d93d177b;0xfb18f0c710e02;0x6b4a3dc1b463a;0xd63fb1027efef;0x484bc5a7f9782;0x3b9944da916f0;0x570ee2c01a0a6;0x6500a1d19589a;0x959ea4192eb31;0xb2cd8398293];[0x6da37161c15b;0x762e234d50ee7;0x679e7555a2dbb;0xc68eea6babd7e;0x1892894b2e9dc;0x71fb2ac2f8850;0xca5d0814d4ba3;0x5bd0f32bd7de5;0x37971d6245fff;0xeeb040f95b3];[0x6da37161c15b;0x762e234d50ee7;0x679e7555a2dbb;0xc68eea6babd7e;0x1892894b2e9dc;0x71fb2ac2f8850;0xca5d0814d4ba3;0x5bd0f32bd7de5;0x37971d6245fff;0xeeb040f95b3];[0x9e35fd346b2b9;0xae54eecdc1ee7;0xe18eff625442b;0x4fc76b4c8c9c7;0x57cb2cf7a0a2;0x8a0564e50c4f0;0xcbe8dd924d38;0x30ee955bb357f;0x1f93663052c1b;0x290a5cfc979];[0x31db105f664c3;0x4cc401f94ef1b;0x89bb3e5f6020f;0x867845b5f2627;0x42cf12d87f6e0;0xb193dff585200;0x4a5054e6f536d;0x34120c75e231b;0x760b3de8dbf16;0x89c3269b91a];[0x0;0xb6dad9744558d;0x65e4fc3eaf617;0xd8350f721a605;0xb8a713de94da1;0xa4b95e9d3f6f6;0x1218a0b18f30e;0x20e3ef394abea;0xf31b281673a4b;0xec8b2684068e1;0x939ac7b6849];[0x0;0x7f3f1a101f1e4;0xb602661228ae4;0xb7268c89dc59d;0xd79f5b21f2336;0x3553ca577cd88;0x7393433fa78cc;0x2073d708b5382;0x3942d492d7bdb;0x2c347298fb802;0x84525b8f466];[0x0;0x6e71753acc4a3;0x80d9c056ad599;0x541a52c8541b;0x34cf15ee273ce;0x2b454806a2c7d;0x1443c07604943;0x77a08bec4ecd6;0x953eebb6d7484;0xf833915652d3d;0x1ce01136069];[0x0;0x6e71753acc4a3;0x80d9c056ad599;0x541a52c8541b;0x34cf15ee273ce;0x2b454806a2c7d;0x1443c07604943;0x77a08bec4ecd6;0x953eebb6d7484;0xf833915652d3d;0x1ce01136069];[0x0;0x232132bf4d381;0xbbdeab84ef057;0xa9a80823e72f1;0x295740ab064c;0x93133d40c5522;0x3582d22a40ab0;0x277b85fa31ed2;0x90eb99c7f3f20;0x9e7d5ae9fcf34;0xac11819593a];[0x0;0xb3ef62e14648a;0x6da8afd525227;0xcda49db4cbce1;0x4a6a2655832c4;0x54f648e86f417;0x594ce165989cd;0xfa8a191819c6c;0xcca5bcd94a6a7;0xd6821fefa3b74;0x4d87b9d7de];[0x0;0x27fa4ad9aaa12;0x58f429a7d131d;0xacf98ba74b57f;0x8949dd602a071;0xd2b24e7b17817;0xdb1d8e6bbfa3c;0x5a24709d1be62;0x39c6c3a658caa;0xcaab1e970d781;0x340b6fe5ee8];[0x0;0xffb4529bbed05;0xf34d00ec60188;0xddfe8a0cf9b03;0xbe51ad90cd986;0x29b970fc0e78d;0xe7b19960329a0;0xfcfcd5a8e5497;0x7b126104b3d4d;0x45eeba7f96f0e;0xbd681c1290b10];[0x0;0x835a45a24d16f;0xdaf6a1da68959;0x799d2ec724557;0xb4bb12aed4d1c;0x1f784afc59bf9;0xabb27ebe416c5;0x8c120ca08e35c;0x815ad3242a66;0xd8bf58930f7be;0x3710fa394ba]]);
 ((V [0x3a916d4d201a7;0xbd834da6bc215;0x6ba345f60d980;0x4dd6bade7cce7;0x7796d5f4a4eef;0x1441c66d49740;0xfa0d52c96572d;0x7693455e5a96;0x5c29bb3642f5d;0x8a19ec1c22] [0x1f40f51b68ec2;0x7a82ea35e96be;0x7b16d50c63af7;0xe863c773b5bf3;0x10e1f5b32675d;0xfa7d875c50e8f;0x4b3dd67c8545f;0x938b892d42ac8;0xdd72afbb159e0;0x89c698bce4b] [0x82eae6e028161;0x6b16b68560fd7;0xcadaa4c4da98a;0x988d528c0a3b7;0xedb30058b9d5f;0x1dfdb507ca9cc;0xb4eebcd2a8eec;0xe33fa69801c01;0x66622fd2366d3;0xc9db48806fe]),[[0x4c58962cdc283;0xc0241b5485843;0x1bba868adbd14;0x2d06069e84a0e;0x8a5e4cbe86ac0;0x9cbea25c63c9;0x5e5c45f354454;0xfc420edd469a;0x9be7de8fc67f4;0x1a0d3b1d492];[0x38ffd27e18409;0x85e5235bcd491;0x8c2586a700d47;0x69fdc70cac757;0x90e8ef273a1d4;0xb6b4bbaef6554;0x3da3cd18b839e;0xae3f70d6c087;0x2c85d6c8eafd9;0xf782bd20c34];[0x51779e4811517;0x4c93401ba80a0;0xfe67035868f3;0xae530606ab759;0xe0d1845bac6fa;0xf9d81b54fa36f;0x7a6c01cf29039;0xfc008517fe107;0x98b80c34152c0;0x81d84b64fe2];[0x51779e4811517;0x4c93401ba80a0;0xfe67035868f3;0xae530606ab759;0xe0d1845bac6fa;0xf9d81b54fa36f;0x7a6c01cf29039;0xfc008517fe107;0x98b80c34152c0;0x81d84b64fe2];[0xa21ba2b4c1ce7;0xcb79d1be0a03b;0x61d3c4ae721e1;0xa30490d5f846f;0xcfd64e0fcc709;0x8a7413fb0a7b3;0x30215fd1acc8;0x6decaa4798204;0xd8491c1a18529;0x9f4fa58a7d9];[0x96e42fc956723;0xba6b519dc3455;0x2a51c1f88eb65;0xc6f93636b42e8;0xc112a1176daca;0x2c40a7b3ebda0;0x3aa1b71b9d6d6;0x9cf74cc5d3e83;0x543cbaaed2aaf;0x5833179645a];[0x0;0xe0d1a8bd48eeb;0x3a9cdfffbb128;0xd756ec071ea1e;0x497dc1148802f;0x6a1736415d717;0xbeca5bd2ea3fe;0x35a4c1f1dfccd;0x600ce9fcb340c;0x68538a1c7823e;0x504bbfba2f7];[0x0;0xd6189fd2bd564;0x383351127824e;0x19a13ceab70c1;0x2b643c80b3e5d;0xc6cde64ab1c00;0x51700790c874e;0x7b044268ef7dc;0x8739c4e440e1a;0xdcb0dcb9e63a8;0xd36ad9fc9e];[0x0;0x835a45a24d16f;0xdaf6a1da68959;0x799d2ec724557;0xb4bb12aed4d1c;0x1f784afc59bf9;0xabb27ebe416c5;0x8c120ca08e35c;0x815ad3242a66;0xd8bf58930f7be;0x3710fa394ba];[0x0;0x835a45a24d16f;0xdaf6a1da68959;0x799d2ec724557;0xb4bb12aed4d1c;0x1f784afc59bf9;0xabb27ebe416c5;0x8c120ca08e35c;0x815ad3242a66;0xd8bf58930f7be;0x3710fa394ba];[0x0;0x5b868d930341f;0x66df0d5c35701;0x54cfd05615b98;0xb9a942c3c3ded;0xedb957f3e8f07;0x7abf661791df5;0x5655d332e0243;0x94f2a14a9ce40;0x41ee9e5d2807d;0x8bce85b2b31];[0x0;0xf2500358d054a;0x8abae477d203d;0xd87300265b111;0x4acbf95b56600;0x657fd22a5bfa2;0x40f1a0cbbbd79;0x32af19efc695b;0xb6ab65ccfc5fa;0x205ed6d07ff31;0x15b070f70e9];[0x0;0xcbb180cbacae8;0x3b623e85d1c67;0xef9ba88c8f407;0x3263f312c54d9;0x63be3563f64e;0xec144eebfc5b;0x4f422dfdbe942;0x9ab26a7c4f874;0x546d921c9e511;0x858589ffdb];[0x0;0x3f6786de71235;0x70654725e330a;0x47a0aeec29d94;0xf62eff07403eb;0xbd46c668560b5;0x39cde6443e632;0x1ea9ebbfa0e22;0xcc6662341d2c2;0x8eb477ef47514;0x89cb2a5ba0914];[0x0;0x1a787bf81396b;0xe6b6436e43716;0x2aba50bb430f2;0x406fafa1edb98;0x97b8da8df54aa;0xb5c94c8f371c5;0x9828ff90810b4;0xde073f071b6a;0xc57e2cbffe82a;0x4a5301ccf6]])]
 [[0xbe4f2fe036d5;0xb3e4e925fde0e;0xe168c3682539d;0x1b21c364d3955;0x1c676f368d0d;0x52e4fdb4b7a8;0x5e90c03c9e746;0x30a0ddc0ce49f;0xca5a73347838c;0x97535d956e5];[0x805b7e8fd49bc;0xaddd0ee05e2f1;0x2502da5c02967;0x5a0de14ec8e60;0x9fe5b3ebf0836;0x1d6ae2f7b4107;0x763193ab6bc46;0xbd7c62e164e5f;0x4cff2862f55c4;0x88684197b3c];[0x82eae6e028161;0x6b16b68560fd7;0xcadaa4c4da98a;0x988d528c0a3b7;0xedb30058b9d5f;0x1dfdb507ca9cc;0xb4eebcd2a8eec;0xe33fa69801c01;0x66622fd2366d3;0xc9db48806fe];[0x82eae6e028161;0x6b16b68560fd7;0xcadaa4c4da98a;0x988d528c0a3b7;0xedb30058b9d5f;0x1dfdb507ca9cc;0xb4eebcd2a8eec;0xe33fa69801c01;0x66622fd2366d3;0xc9db48806fe];[0xee10bf387bc6e;0x9941792bad237;0x30bd7e64851f4;0xdcacb43df8325;0x9b75b601d2170;0x113aa7ee19d37;0xb3ada6ea13395;0x54fa5de671500;0x78be5461c5de2;0xf0dcf17a04a];[0x924abf5758b16;0x149b95b4b10b9;0xf4455bf77d773;0x7d612d10d0b3a;0x46ffdea1e6c5;0xc303b099a3d0;0xc283ecc1588b1;0x688204faf395e;0xd440d4012f7e2;0x978b501daf1];[0x0;0x8faa5d2228bad;0xb84d0ba54484b;0x2e2f43c6a5a56;0xe7f2a00ecd11c;0x40496a1c67bff;0xe32a0eae26c9a;0x540cb8c740afa;0xc802b105cd450;0x1e50d1ee7dbe8;0x7cd3eb2db32];[0x0;0x7e06501b9b23f;0xedf7608abffe4;0xa6f112139ab14;0x5bc58b723b5c4;0x99d2794c8888;0xe3b47c67c95ba;0x979d01d5c8255;0x3273acea2168e;0x24fecff4f7a09;0x775213a6c0a];[0x0;0x1a787bf81396b;0xe6b6436e43716;0x2aba50bb430f2;0x406fafa1edb98;0x97b8da8df54aa;0xb5c94c8f371c5;0x9828ff90810b4;0xde073f071b6a;0xc57e2cbffe82a;0x4a5301ccf6];[0x0;0x1a787bf81396b;0xe6b6436e43716;0x2aba50bb430f2;0x406fafa1edb98;0x97b8da8df54aa;0xb5c94c8f371c5;0x9828ff90810b4;0xde073f071b6a;0xc57e2cbffe82a;0x4a5301ccf6];[0x0;0x40796194f4ba;0x7d6ec3076fdad;0xefa107a8acb69;0xfe16add2c3907;0xa03c21645d19;0xf802a99d8ad77;0x18e5364698c9a;0xa72b0bab3a3f6;0x5e0f70a9aee99;0x4a26298acc2];[0x0;0xa980321234d4d;0xa111e83c054d1;0xc68f05fe62f36;0x869372923ac41;0x70a6b2f7247ba;0x5d40974919cc9;0xa28c452b749f9;0x5bd632597c8f9;0xc4df56f72c7b3;0x4a7ff52e4];[0x0;0xf72f56ea89770;0x49bcf48106f51;0xc563d6864fd34;0xbdb01e6fa9407;0x6b656ad66091e;0x1f600ad75ae25;0x52e0930a86b15;0x5c37873441cee;0x56bf6ddf33558;0x37561f0bbf7];[0x0;0x64fb43d065c4f;0xc140bd6e8ea3;0xd940857c0327f;0x7f635c5b1addf;0x72c2e30afc489;0xd5e506d855951;0x2df9de20e136e;0x463631ad6358e;0x41c3aadf69036;0xbcac7b3ea464b];[0x0;0xf4a0cc9763aae;0x5ee01cfe189cf;0x7066b069e0087;0xe2afbd6d01a40;0x1d70eb7adda0f;0x41236e028770c;0x1963d2eeb7c30;0xfde48da4dd44f;0x4a2cd21620574;0x4c6664f0e92]].
Definition wit_512C_32_4 : colwit ept wit := mk_colwit (V [0x1d22c71711ba2;0x8524b10b96b97;0x38e5b8b53c95b;0xd5f582964a387;0x6ff922c49d770;0xdf8cbe9c97389;0x80ded21d0b101;0x191a1de3a7b5a;0xc141bf447578c;0xa9732e6d4f2] [0xcfd692b26bfee;0xad9cd8c8c1a5;0x46da5cb68336c;0x39ebeb1bb4cc7;0x8f6425c2ab90c;0xfdfe779e3a9e;0x9a4604c4a7d70;0xedece83d44db2;0x66c07f478e6f1;0xd0083a9e588] [0x812b1b2d08c8b;0xc12532a26084e;0xbaf577360a172;0x654012f5f0a62;0x177ab5ac010ad;0x9342e1b8a74ea;0xc7e9f2c7291b9;0x2a7a669a7133b;0x4535114f5ff78;0x49d33f3ce01])
 [[0xef732afc1bf67;0x721d5e5beeb5f;0x3f959968158e8;0xd14e518305811;0x60f57a8176f6;0x428462ed7f266;0xe9c35670c5f9e;0x64bbc85aebe49;0xefd41812e7070;0x84ea4b11a82];[0xc94b6592c78b7;0xb5646fd05515c;0xad3de94ae9113;0xaa83fd145bf3f;0x7cd451ceda244;0x7ed4ce4639de5;0x14fcfced885c9;0xc1472358dc3ee;0x510973d0f85aa;0x550e3d45aa6];[0xf3b49367821fa;0x7e4b764bd9af5;0x9b090a447d111;0xbdc6d6b19411;0x4ba0bd54e3c66;0x151db2445672e;0x6da842441eff9;0xc841cee7c9f4;0xfe98dde392341;0x967512bb676];[0xf3b49367821fa;0x7e4b764bd9af5;0x9b090a447d111;0xbdc6d6b19411;0x4ba0bd54e3c66;0x151db2445672e;0x6da842441eff9;0xc841cee7c9f4;0xfe98dde392341;0x967512bb676];[0xa349d1d66507c;0x7ca77a520c73e;0xf378e7a94ed5e;0x28d2f151b7384;0x2b5cf547e4a8a;0x65910e85be7a7;0xbe671724bb44e;0x3ac0d29d6a063;0xd39e820dcefd6;0x8663053699a];[0x260193bc62603;0x38bcf57e48a1e;0xb9c501a19a3b5;0x81b10bc2a4bba;0x51775c86f57ba;0x1943bfc07b63e;0x5695e5c8cd17b;0x868650bb7238a;0x7d6af1c3295d4;0xceab380f10b];[0x0;0xcd998add4ed7f;0xab7612532dff9;0xc8e9a4d49321;0xb6a893ff93f54;0x9de87b91b7b6;0x98aab7420b935;0xe85cc944bcfcb;0x36762fb66d2a3;0x9037b5780a46;0x5d0ae6ab426];[0x0;0xfd7fd4c2a4c29;0x48c1dff036edd;0x548bfd1eb872c;0x5e45a6d8c108c;0xd9a19ac13fc49;0xf07733397c5fd;0x6c2c0ca30ce86;0x4502275653181;0xdd8a4d6d4f0ad;0x4e1e10ca6db];[0x0;0xf4a0cc9763aae;0x5ee01cfe189cf;0x7066b069e0087;0xe2afbd6d01a40;0x1d70eb7adda0f;0x41236e028770c;0x1963d2eeb7c30;0xfde48da4dd44f;0x4a2cd21620574;0x4c6664f0e92];[0x0;0xf4a0cc9763aae;0x5ee01cfe189cf;0x7066b069e0087;0xe2afbd6d01a40;0x1d70eb7adda0f;0x41236e028770c;0x1963d2eeb7c30;0xfde48da4dd44f;0x4a2cd21620574;0x4c6664f0e92];[0x0;0x8602658a117d8;0xe29c27afe891;0xd7ea8ad40d1d1;0x2c48fecbf9a46;0xc1c0209a625ab;0x902633630a3db;0x3c5be6e196c67;0xefa615481a951;0xb9511c2003d98;0x8a8c38616a2];[0x0;0x9fbc79e2b7bd7;0xe2b31fe3f58fd;0x8b23b521bc3db;0x25835e164d457;0xc4df2f437b6;0x8fe8d20aa533a;0xb5b6731b3ee96;0x590ccbde58ffe;0xf29808a6981f9;0x2a212b8a44a];[0x0;0x7b25dafd363a4;0xefcff7363fa2c;0x5f835280d7e39;0x71d50db14b88c;0x26473962cccc1;0x8b3a990b1a580;0x1a4a43ddac565;0xba6611927f155;0x8e8ab6f44922a;0x384cab45642];[0x0;0x67bd2e706a402;0xc52c184affa03;0x47ae554725e33;0x1f86b1d228da9;0x78fa40609b377;0x609ada1d4cbf2;0xce51c7eb1e31e;0x791c338c27d5a;0xddb564b661568;0xd093248b42843];[0x0;0xc9421ae5ae167;0x51c54842087c;0xd3d3a8eda8677;0xd5fc33fe259fb;0x585cdd77a1dc8;0xd7de89fadf9de;0xb3cb2ff8a7731;0xf542fe4336c59;0x246dfed192170;0x89b3081f2bf]]
 [[[0x88ede887b7c07;0x81b2a743b806c;0x15082ee7f5d48;0xf2aec563350fe;0xdf5ddf09acf6;0xfa5bea8f322ae;0xbaf50fec2539d;0xe69ba9175f50a;0x6f32d2f665e36;0x775999230c1];[0x1c5c6e6e197e;0xdfb284da39807;0x30ccb99eddd75;0x330f569a94914;0x87793980e6551;0xf4e79461978a4;0x95c07f29036fc;0x6029cba960892;0xfb433eeccf72;0xca6f63d0c6c];[0x8ba4ff959e5a3;0x6558a25ff11cc;0xadf2e99e9aadc;0xa58a317c00666;0x8addf4fc6218d;0x9be12082e81f6;0x6361b0db0e76b;0x1cbbd0bae5dfa;0x321e7b212f47a;0xa59986fb3e1];[0x5e3433e6af342;0xa91f05350773e;0xcf94d56e3f356;0xcc89b6e5008a2;0xdff6864660d6e;0xeabad14e20efe;0xf573bd9346101;0x422f2b6f6ad20;0x9dd2ee1c4837f;0x37a3793cf89];[0x364bc958b567c;0x72197d4f2029f;0xd85d61b252e01;0xb805e563a18e7;0x903da5be6baaa;0x106a60b3195ac;0xe6860426cac67;0xa1aed9a793f8d;0x31130ac8bc62c;0xcd3c1fc6fe4];[0xe03232bb2b309;0xc0216713c5fb0;0x895451c6b244a;0xe58f641a68fa1;0xec8af915b30c1;0xab51018193dde;0x6d5ddaff3047b;0x7566f66bd93fd;0x924466b40a476;0xe829b482b41];[0x0;0x5f9fab05c2a4f;0x733d733699958;0xe46c396cfea8a;0x6aa2e76c9bda1;0x50f034abe71c3;0xf0044139ba829;0x81d97dc55ccc7;0xd7bf248492866;0x36ca005a41ba1;0x2da74432340];[0x0;0x2b0c53ed090e8;0x82f260f71c5c3;0x19f07c1fcaed1;0x244cdd186a66c;0x938a4d41450fb;0xce6ddc013eba8;0x2563ba1f461ad;0x480e2543b6dee;0xa85c63fad829c;0x46251469318];[0x0;0x1b050cbfa76f;0x46b89acf7a72f;0xb65c372ddfeae;0xc49aa7f9405a0;0x6f3b281767cdc;0xf59a34c01bcd1;0x2fdc28630c55b;0x5c730f0cde189;0x396406cb30d29;0x54647c80496];[0x0;0x90b879100cec6;0xc6f4f8dd08d97;0xa4e44a9b95999;0xb8b1702b92700;0x7f7fc705aad97;0x76b80e36cdae9;0xe845177bfc97a;0x5216b6cfc255e;0x4bbdd5cb141c;0x7ca884d5683];[0x0;0x936c33891588;0xeeb5db5a7babd;0x673266cdb0993;0x6ede8915b969a;0x82676972bcbbd;0x849adb7a10011;0x6ddc2ecf573e9;0xdfd5bdef0540c;0x68cb7cb283a6c;0x990ab608c36];[0x0;0xc1e20741cb2fd;0x402a4431474fa;0x7bd4576a89512;0xf4f03a2ac6421;0xb33cb265ecded;0xef8cb9e232744;0xe9e2269da71;0x8b424f80b7b4a;0x7f5361835ed53;0x44bda893a21];[0x0;0x3b599ea432eed;0xd60d74e7eb0f6;0x30d44447dc7a;0x67d7a91ad968e;0x90cff479d9338;0xb5644b33d6f8e;0x660353968786e;0x54f44529c38fc;0x7bab1278d2055;0x5ec63ad370c];[0x0;0xea472032c3af2;0xc718147664cc8;0x49d81ac027717;0xd357d4f94a835;0xe401d5259112b;0x2b54b768c664f;0x2c9da3046dab3;0xaf6cf2399c0ad;0xd5b94d2a86513;0x84f5a26a26ed1];[0x0;0x6f73d0c8f9eeb;0x9c4711b697925;0x5ead2017abda7;0x19d2df1c9b7a7;0xa269cc88e2eda;0x4cc3e5a5a309e;0x9959b2d83ad8c;0xad35fa87f706a;0x6189546e485b2;0x3e326efac3f]];
 [[0x88ede887b7c07;0x81b2a743b806c;0x15082ee7f5d48;0xf2aec563350fe;0xdf5ddf09acf6;0xfa5bea8f322ae;0xbaf50fec2539d;0xe69ba9175f50a;0x6f32d2f665e36;0x775999230c1];[0xebb335fb2d0c3;0x4887e6558f18b;0x23e535af31ca7;0xf681749f545d6;0x449f5ba9c28a4;0x9369cd703f303;0x40f5ec98b3177;0xec290bce7bedb;0x7d6dfb583c711;0xfdad9c22173];[0x812cc72438663;0x2918f14b9e40b;0x1a45db0e810fc;0x62e393a818f1a;0x2df30f16b9f46;0xd1d46764c9aad;0xeaff7f4875a94;0x40fa3194fa825;0x1b99dc5c55af5;0x4818174d02f];[0xa5c46304769e0;0xa59edb37ec3de;0xde9b8f54f9fbc;0x7480964ba5e06;0xa376bd2a98664;0x340bb180fed2d;0xcae380bcd33f0;0x39f77f7f671c1;0xe7b0629a89432;0xf17e0381e89];[0xf3572abe33445;0x74844544aee1f;0x57539625e950;0xa87fdccc906ac;0x1db894e0b5151;0x5c02f234ea21d;0x600728983cbef;0x3a2d7b0210f28;0x236372f63394a;0x8bb155a51e7];[0x99003b66b22e4;0x6fc861aa240c4;0x63dd035839003;0x6551975eee713;0x86378eab896b9;0xc14d2430a6152;0xfe83ef26f3959;0x32b2750ee0417;0xb8e8c0716acc1;0xdb0e04a75e1];[0x0;0x5f9fab05c2a4f;0x733d733699958;0xe46c396cfea8a;0x6aa2e76c9bda1;0x50f034abe71c3;0xf0044139ba829;0x81d97dc55ccc7;0xd7bf248492866;0x36ca005a41ba1;0x2da74432340];[0x0;0x6638f0f0aa6ee;0x128ab70f445d1;0xc712bbeae4fd8;0x809b08f691f19;0x5e43a4d19916d;0x387d95191bfc5;0xe351b2f1b2957;0x72794c3a2ed70;0x35f15c38baeab;0x385d3ece2bb];[0x0;0xf50e5ba8c113b;0xedeb1ba182e35;0x8c2927acc9c9d;0x1ecdc4e1be7a9;0x76e01cdcbfb89;0x50f391a558e2f;0x84e59afe73e0e;0x392f2cc7b94a4;0x2c64bcb16b293;0x61650b49365];[0x0;0xf589691eb428;0x36d3f76a9bb02;0x39e904bfc49d3;0xa0d62575d0b86;0xfb998a9759704;0x94653cf8744b7;0xea6317cd2b541;0xf2ab79888e467;0xc1c9fa4c2f8a2;0x57ef9466cf4];[0x0;0xf5147ac021b65;0xbb7089353a678;0xc3a92a5498daf;0x6cbcb9070abff;0x81f31fe88565b;0xe9192a34ca9cf;0xa578933114a6;0x993f9fe6e3a5;0x2d27afeb14b99;0x6bf54352740];[0x0;0x151134cbcb844;0xd5875f8913c59;0x3a6a0e26cec5d;0xa01378e312696;0x803c079bf6092;0x69cd35e2be999;0x55cdd4d2fa359;0x53c5e01fbdb94;0xee962774e023c;0x4f54e48979d];[0x0;0x1ee12017c7e43;0xf0a2ab0dcbba8;0xe905f0b5d3cb1;0xed0046a722b10;0x7d688bc42e184;0xf76fbc2c23f43;0xe0d292893baef;0x89f47235d60d;0x45daff851ad1d;0xb912af40205];[0x0;0xfea44fd33af55;0xbc4b0b156a96;0xb97bbfd897eb5;0xf89f0e9e878ea;0xef376bd21a3b8;0x7b06c41594711;0xb2d043fe35c6f;0xb67d492a59594;0xbf600324819f8;0x94748d76182db];[0x0;0x3413b6ccd51ef;0xa1d4e8cbbe32c;0x7336cf7d6e445;0x349434a258744;0xbd6e1ca06d44e;0xddab30582d96c;0xef73d2ff7285e;0x3ad14ae38767f;0xb6af1147a1fb1;0x6c4d8d0ffd9]];
 [[0x88ede887b7c07;0x81b2a743b806c;0x15082ee7f5d48;0xf2aec563350fe;0xdf5ddf09acf6;0xfa5bea8f322ae;0xbaf50fec2539d;0xe69ba9175f50a;0x6f32d2f665e36;0x775999230c1];[0x96ee2987f47f6;0x16afebf3f8293;0x19aff376f2f4f;0xaf206d12d9d22;0x4be1a15f78361;0xddc1fd774fa6c;0xcc4d86d275fcc;0x9fe6654b8ab09;0x7e1925e1377d0;0x500884b4e4c];[0x59abf4f311e2d;0xc3cbd4840c300;0x5bf844c34a0a;0x73bdc63b2814c;0x2712176f7158a;0x165b8cc84b3a7;0xfb7a2cb6e6484;0x1fcdf06401735;0xf8e2b3ea8507b;0xa9e6b2a1b6f];[0x340d3522b54f2;0x866ce536504e6;0xd7cf6a4ebe275;0x9c670a3446f83;0x60b02e2245c08;0x75b0875d2d8e2;0xdd90c438aec0b;0x44bf835e498fc;0x9ef20e754c214;0xe4622672a2c];[0xb391210a2b09e;0xbd2db0da3eecf;0x9b3555773a097;0x658f08625bbe7;0x7581d1cc9b67d;0x54c905034e845;0x6c6e4718b38d3;0x7d021a3ee491a;0xd493970fa112c;0xe735b42ea6e];[0x342bb5a4b04f2;0xdde0405fb484c;0xc4df029198389;0x2ab5a7b9671b9;0x770a7505123ec;0x1fb8f4603906e;0x8dc3e7daaedcc;0x1a2db713c6036;0x7e79723bf1319;0x11c84575841];[0x0;0x5f9fab05c2a4f;0x733d733699958;0xe46c396cfea8a;0x6aa2e76c9bda1;0x50f034abe71c3;0xf0044139ba829;0x81d97dc55ccc7;0xd7bf248492866;0x36ca005a41ba1;0x2da74432340];[0x0;0x34022d3379de7;0x43d5c20cd4339;0x4bdf562ac2f2a;0xb20ef782a706b;0xa9e289ad2a9ee;0xcce051016f1b8;0xa36b53fa81fce;0x2ee7f3ef73607;0xc2724e3a85d6b;0xe8a4c534af];[0x0;0x5e29f1eedffc1;0xe2fa5970fe197;0xb4116eaddd15a;0xc1910f900ffe6;0x518d4eeba26e8;0x161c69af6080b;0xbea3cdd91c58c;0xaf078f60cc960;0x86f07e4eb8f99;0x97c584dd856];[0x0;0xdd274ab4466b4;0x6cf39c75aa2d1;0x4be2f57222ce0;0x2d5dd100fdfcd;0x905456d1fc93e;0xb388b5de7784c;0x2fffa1ea71c1b;0xf47a7f1043ffd;0xbb46dd26c81ad;0x6242d885678];[0x0;0x390b17fb2ef6c;0x228299fa24915;0xcd386eb39c6ef;0xe56efea78ad39;0x17327c0f28284;0x963a09f777ccc;0x70a2857314ed;0x361a1ef01529f;0xdedcf9a15ccaa;0x78a2607ac76];[0x0;0x7064924580cf6;0x4747accca2388;0x4caaf028a2d87;0xff1cb89497c4b;0x4f11f10575b4d;0x838a3c4dd60c5;0xe0d0efd79c955;0x6458ab8a809bf;0x3109864bf43cd;0x7b9fa349361];[0x0;0x8f2f2f634ac3a;0x7e5fcd43f4a25;0xc9e586a8c76b8;0x65a3fe8d5960;0xa66d99f746718;0x84253e75bc254;0xe21a2d9e182dc;0x9174ca7e00626;0x437f36ce8d13a;0x4a9eaba05e2];[0x0;0xe60521570457f;0x3c961869e8250;0xe75e7f50dcd7;0x1485bee64ed8f;0xcf187d3f864a9;0x1fb3c02539be8;0x6367757cdcf08;0xf6bf1203d35f5;0x504b2c92b395a;0xbbebcffd0f23f];[0x0;0xfe1efca2a8a7f;0x8886a5bb8a75e;0x760bf73f6fcb4;0x58cb52b8d3434;0x5be784e23a621;0x3286b8e0a888c;0xf7f13b03d7e31;0x6515e7d8844de;0x19d40f4832b12;0xaebdad75bb6]];
 [[0x88ede887b7c07;0x81b2a743b806c;0x15082ee7f5d48;0xf2aec563350fe;0xdf5ddf09acf6;0xfa5bea8f322ae;0xbaf50fec2539d;0xe69ba9175f50a;0x6f32d2f665e36;0x775999230c1];[0xdac3e3cb210e1;0xb240af607c3a3;0x766d0a78c5e4f;0xc4854509463ac;0x5c04067c9a5e0;0x7f5cc6d8ad7b2;0x8cb94489494d0;0x500d0958ea9f5;0xb578c66a5f66b;0xb32b665080b];[0x17e326a734ef7;0xf9b3fcaa9d68f;0x3d71355d877a7;0x7e1a3db881608;0x13d7b0a31e26a;0x4f35f62f1c850;0xe5ed78f047b4a;0x93abe422e8f97;0x2f5fc2fc65533;0xe4c75eaa060];[0x99fb8cc996398;0x7655e1a99019c;0x5ac3fc48aad2a;0x93808bcd8691a;0x5788c73b5bf04;0x401132f0a384d;0xf459b6da094c7;0xb6cd0f8ac7081;0x6c9327c32eda;0xe7a06d5801d];[0xa8188b9c31936;0x6f44407a73225;0x4c63e506233e2;0x66afd9aa53c;0xd572888c0c7aa;0xd2535f787e489;0x79784087c462e;0xfc09a4f6db27e;0x78e1499fbb565;0x4f4bd560218];[0xa24ef5a885296;0xca39e43e059c6;0x5f89db66ebd13;0x46beca11239c5;0x274879b160e46;0x5bc8f6c6821f5;0x5ffa03d399324;0xe9bc0641c02fc;0x6f35de7e99365;0xcefbfd6f6ca];[0x0;0x5f9fab05c2a4f;0x733d733699958;0xe46c396cfea8a;0x6aa2e76c9bda1;0x50f034abe71c3;0xf0044139ba829;0x81d97dc55ccc7;0xd7bf248492866;0x36ca005a41ba1;0x2da74432340];[0x0;0x252123bd1dc82;0x2eae4e6d2becf;0x7f0fa40e9f306;0x6609664899dc;0xf8b851e3e0d19;0x737bf62f29a36;0xe851122bba819;0xf197837c1ab11;0x2009712759b56;0x4c6ef1e8535];[0x0;0xea3226c16e2f5;0xb8b19b81acf;0x1ada5d1d23c3;0xa008c4d68c4b7;0x627849e1b6561;0x51eccc3d32b53;0x6fff4aa18688c;0x18912c127a064;0x70b1b8418d98b;0xc1f5f73a1b5];[0x0;0x9df6473e4d3ec;0x57af96bb66bbc;0x964b19970c2de;0x994278b92aca6;0x470b908ee1405;0x2ca89a7a30afe;0x3b151dbc0eeb8;0x335c7206648d6;0x7d74e2714db39;0x7c0df3da330];[0x0;0x228a2a05dd4f2;0x5ca6d4020eb13;0xe262347e80bef;0x433888d750149;0x26c8eae0f6197;0x5d48bce9083b;0x3994d76e8fd89;0x2e978e8330971;0xacadc7c858356;0x984cf38daf5];[0x0;0x921fb6090bbd0;0x1479d3a6bda12;0x7426a4046d121;0x13529aac7b1df;0x5b6671536f2a7;0x10d2157e8b868;0x8890d81a99feb;0x1911efe13934a;0xa1373115f9962;0x9dfd00fa4a6];[0x0;0x38c11252db397;0xa2f3b0cad086;0x90418b0a6dfb8;0x60922f3f2df96;0xc3616201b1cce;0xd3bda234a2d61;0xfbf493aba50ba;0xf00c9e3ebeb49;0x2b6b81f2d1a53;0x80c944ef87a];[0x0;0xd2d869adccabf;0x80e6892649de2;0x54ef4f74d68a8;0x36a6cd1222cf;0xd512024fd9847;0x832904c8e03dc;0xa7cfc93839cf6;0x43ff3f9acf476;0x5d8e2d69b83b6;0x7e0ac7ea8bbc4];[0x0;0x44cbc1250216a;0x82130157ac8e8;0x9704f46397199;0x23761e10dba0;0xdaafc90471e35;0x6302d7c0343bd;0x572ee1e4c261d;0x98b83b7a72a70;0x831e4c22eaf09;0x5a7e0cf1c0c]];
 [[0x88ede887b7c07;0x81b2a743b806c;0x15082ee7f5d48;0xf2aec563350fe;0xdf5ddf09acf6;0xfa5bea8f322ae;0xbaf50fec2539d;0xe69ba9175f50a;0x6f32d2f665e36;0x775999230c1];[0x32c7a63992016;0x7166e6ce3413a;0x8306a27a23888;0x27cc520925b35;0x2862811a5a438;0x48ebc4b022c57;0xafaa1605c0d53;0x29f4ceba4f3ef;0xc84755c38531c;0xb18810c257];[0x8580397be6d32;0xc8b3ffe0d1ac8;0x3980fa74d936a;0xd594652d127e7;0xcd1f7ae2468cd;0x8656ebd671f2b;0xf89e7baa54bfe;0xd8d113e88a872;0x761021f89a0a4;0xca09f7c39fb];[0xbdeb59d8b803d;0xd973156817346;0x8d73ca9714b90;0x97693f45e3afe;0x577109deb96ef;0x2985c0315bc74;0xe2736777c8455;0x6bd8b630c7a76;0x55526e485c949;0xcfba1c8438b];[0x2fcc60ea94cda;0xd56edba4abdd;0x6922ff8541385;0xa2836cbd55494;0x400894ab0274f;0x78436af8a3cc;0x16fb7935430d4;0x77c53fc000301;0xdf58da452abe;0x3ae57151aa7];[0x8cf9c462de007;0xb58e48806a798;0x544101cf078b9;0xa02b5418b14f1;0x79b8bdc5ca948;0x360b5d3ebcacf;0xdb8955acbb39a;0xb40f86fb429dd;0xa574184096dc8;0xd5a6ffe7fad];[0x0;0x5f9fab05c2a4f;0x733d733699958;0xe46c396cfea8a;0x6aa2e76c9bda1;0x50f034abe71c3;0xf0044139ba829;0x81d97dc55ccc7;0xd7bf248492866;0x36ca005a41ba1;0x2da74432340];[0x0;0x5f8610a60f5e0;0xa0092db4fadb0;0x439bf1f3d2442;0x7d12aebc4d068;0x14a6dc78f81d2;0x6912065627c66;0x93d0418aaaa18;0xaf0b5745092c9;0xeb69588f2cd85;0x1974082ef9];[0x0;0xefe06a2eb18b2;0xb50f33a0a4022;0xe766e5ff558cc;0x7ce950ea5a104;0xdd3368129ac0;0x7a0d323b62e61;0x82632fd487aee;0xa7603c596cb82;0x9361dfcbc1d1a;0x95885321ef7];[0x0;0xa7810e7d75fe5;0xff842d4ec28ce;0x3bf631531f20a;0x1d1aa2e5cc288;0x6af4ac7bc36d0;0x9ec25e5c5ae89;0x2375aab25b5;0xc90c57ef0b873;0x2d7f0bc498043;0x5354d14affb];[0x0;0xd6f3e0ef567ea;0x75b4aaa952f25;0x8421c92f339b9;0x65f0dfb694a69;0x1ce89ed517a5e;0x63055d6977db1;0xab20e2c8869ee;0xe1946ef4dfed4;0x21ec7ebda67fd;0x664e1b7af65];[0x0;0x1ce19cec352cf;0xcb405bba5d7d9;0x763e122b527fe;0x9d04485a9a17a;0x5b87eb394dac1;0x5a51b346b43e3;0x7c87a34f54852;0xa078543125c68;0x8a009176a2436;0x79ccbff073c];[0x0;0xf83a38451a9b9;0x9927f83805be5;0x9e9cfba672c5a;0xc74e8ea1cfafa;0x1c002d52e4f50;0x3342d6ad48095;0x37e36ba10c844;0x6769dae551bdf;0xe6f8b2fbf82c9;0x19656559b8];[0x0;0xe341acc663984;0x681a2af2a2e6c;0xdd30b591c5721;0x22a347ee24061;0xcec3805efee0e;0x1c2187d440de3;0x92d12fce1c590;0xb05bebc2517c4;0x8dcbe84f6a679;0xdab1381711238];[0x0;0xba2e30a01b938;0x41202b940bcdf;0x608797a596fb4;0xcb2147cb61bc8;0x3dd743c2126d0;0x8632aa920e84;0x8b7e2d3f8d254;0xfb185bb4cec94;0x6c6b3d262addb;0x1f2aee38359]];
 [[0x88ede887b7c07;0x81b2a743b806c;0x15082ee7f5d48;0xf2aec563350fe;0xdf5ddf09acf6;0xfa5bea8f322ae;0xbaf50fec2539d;0xe69ba9175f50a;0x6f32d2f665e36;0x775999230c1];[0xf229bf5641df3;0xfde147563318a;0x741eb6386bb3d;0xd26cb61d08f5c;0x8f179a5cf1ba5;0xa95e7f75b42fe;0x52000b7706344;0xf5f5d4e527ff1;0x9a0dbe2c56d1a;0xbeb38ae9977];[0xf31d9380d738c;0x4e432a5ab51aa;0x537beea29ea3a;0x510ce9bed0513;0x397116424b4d8;0xb9e103b8ef753;0xc8c1193a664bc;0x5579cbe5d507d;0xd3c20c1cddc6e;0x8d595331411];[0x9de0dfa4dba5d;0xf1f05588b4ff5;0x56498f8b2bfa;0x2d21b007fa987;0x22a701c4768c8;0x4dc05c39c62c9;0x424c67f712a90;0x237a8a595d3de;0xcf166522f9447;0x1be49159dc9];[0xbe676dc4a052a;0x964f4cac65049;0x48c111c32fe84;0xf9aacb64a01dc;0x2ad041ba3ac75;0x601736e24c06b;0x7d6d8d5a13390;0xfcb51bd408b17;0x431bc7198047;0xe252f1e33f5];[0xf97862efa12fd;0xe0dfba2ee631d;0xca83e62793bba;0x198c054bb4243;0xdf7fddaa2ee8;0xa66dd83e542ec;0xa73c06e86dea3;0x9eddd9c8da28d;0xd3578c36838ff;0x614b97ca943];[0x0;0x5f9fab05c2a4f;0x733d733699958;0xe46c396cfea8a;0x6aa2e76c9bda1;0x50f034abe71c3;0xf0044139ba829;0x81d97dc55ccc7;0xd7bf248492866;0x36ca005a41ba1;0x2da74432340];[0x0;0x5fafc057c90f9;0xbebb633666e41;0xd2d1047327fe3;0x645df35b03492;0xab370fb557797;0x7333dbaae066d;0xf4eecb17a2567;0xb3a45d27d18b5;0xe2115ea467776;0x2f5fd61336a];[0x0;0x61417ddab9a10;0xe2915aa4695cd;0xe2bd072a94723;0x3a803526a500a;0xa8c830f02e135;0xb36f067e9eada;0x48c60b18679a7;0x5e39b1dc74397;0x5315fd762754f;0x1dc25cbffa5];[0x0;0xb2c1211e5ca0f;0x43e81a84d737c;0x98bf5f2267540;0xc012ed425d0ce;0x2ea4898d855ee;0x3ab3d7bf300e8;0x88d25bf1e4b59;0x826bf62049898;0x13cb28545b523;0x90376c101f5];[0x0;0xa5cc912e58c80;0x9112df40c04e5;0x8583c7b3659db;0xbfb23ec7b7e73;0x6d8523ac095f1;0xc5fde75e998e6;0xb0fc158bd94b7;0xf914e2c603079;0x943c22c33bd69;0xb10da4146a7];[0x0;0x3f97985f545a1;0xe0dd96ec5c411;0xcb159e8fe61a8;0x6854bc2a6e8de;0xc6e709369ec1f;0x4332326d05f99;0x18c5f4215ded7;0x71723fc56bc9e;0x800c786308cae;0x183d7093335];[0x0;0x3e5c9ffe3fcf9;0x609a59744c92f;0x2eb3d335e7b35;0x4445905088e46;0x1c6978bd03774;0x13af46912963d;0x1f3a074be35dd;0x388a6abb4952a;0x1507040bf043a;0x5162aa4eee3];[0x0;0x2c2f99d638210;0xcc9c4a9a763dc;0x95a5730283318;0xaead9c103476c;0x5c2efacba6a6e;0x17f6ca2322af;0x944b6f0dcd098;0x6331e5ca0b023;0x9a0ee768e272a;0xdb0424f6eda83];[0x0;0x3d97a80a97cf7;0x2d7c78d255e9;0x906a44c7c19a2;0xb47f0ec915592;0x8793518df476b;0xd3b4b696c3931;0x93c0f73ed12c8;0xa191609e67817;0xe3a0ca70b15f8;0x5d605362923]];
 [[0x88ede887b7c07;0x81b2a743b806c;0x15082ee7f5d48;0xf2aec563350fe;0xdf5ddf09acf6;0xfa5bea8f322ae;0xbaf50fec2539d;0xe69ba9175f50a;0x6f32d2f665e36;0x775999230c1];[0x3872438ab9c94;0x5cd1f18fd33eb;0xa779a5beb356e;0xe1e64762ee8fc;0x61c6804ae2e29;0x1a8fe4e3ab5de;0xa45a76aa3fcba;0xd92e9f037c021;0x1d9cc977fa50;0xa75acdcb73e];[0xa11e659914eff;0x36aad711b9ed5;0x28185a3dfb5a9;0xcb0123257fab6;0x7feef93201a34;0xfbe16d2354e00;0x7ff9ab2a5426c;0xd0418f4c5d70d;0xa4405724b288f;0x3ae8cc2110a];[0x3afa4d7a681cf;0x391b6a3604f92;0xe41612bf3c654;0xb146b1e65c8c8;0x6bdb0550f72b5;0x96a49a1582e1a;0xac7604b290167;0xf9a59114d7412;0x79a9b18c7adfd;0xcc0c425487a];[0xb626e62fde933;0xbb3b3405ca91d;0xafb6382d1729d;0xcbe8bcff133c4;0x95c64fe5ab72;0xa687402f1e929;0x6cff0f2869578;0xf08e844b4aab3;0xb5c0021fb11e6;0x37bcf26b5a1];[0x463e2c9552a92;0x2d42d35ba0535;0x30f088b5d0f59;0xa67c288741f6e;0x1bdf93c81928f;0x466af48deefa4;0x6d04416559595;0x7cc288d93b140;0x42c282ab13d98;0x3bc103b5698];[0x0;0x5f9fab05c2a4f;0x733d733699958;0xe46c396cfea8a;0x6aa2e76c9bda1;0x50f034abe71c3;0xf0044139ba829;0x81d97dc55ccc7;0xd7bf248492866;0x36ca005a41ba1;0x2da74432340];[0x0;0x828f51b7b8e2b;0xad38b12a604d6;0x7aa5e55c4abeb;0x9240cd755ffc1;0xfb2e76df4d05f;0xc283821dfb62a;0x26ebb31224b05;0x7a3cfbd4d5a06;0x7a9bde2029f95;0x7624a01cc31];[0x0;0x43beb2f33f6a3;0xf7ef84e603a4;0x6633fdf48b8f8;0xdd7238d69145f;0x7106ad739f1a4;0x811fd69386721;0x2276bada4bba4;0xb3b8b2eacab62;0xe4b1ed8667e11;0x58c81af318d];[0x0;0x8d944972096df;0x31a39693e77b0;0x9a85b032f1153;0x9de280b70f2c4;0x514c46f7b2aa4;0xa1f494681c0c9;0x26def38d5cfc8;0xcf630b7c13a3;0xefd8645d9afe1;0x90d356120b8];[0x0;0x60e92392906f3;0x21cc07e7b2b6d;0x7e496d0284f7b;0xf00021a67a12d;0x777dca24ed804;0xd71985d4ff1d0;0x23849ceef04bc;0xb446692e6af84;0x13a2553ff7fdd;0xb1cd0e25678];[0x0;0x4fa128b7c7c16;0x2827be28fe2ce;0xc054c62d9429;0x63e2e3f7ab95d;0x729f8a569a847;0x1fa467ddc2289;0xc93d7fb7566bf;0xc0c1c2be88889;0xe8b076cff5657;0x4850e351978];[0x0;0x8eba89c331ef9;0xf789ea7015eeb;0xb7cef920a22ef;0xa8ea796c44791;0x8ad7b284a5dc8;0x350fa95737336;0x2f97b62405ade;0xe81508be94f87;0xb75b0aa488442;0x6194bc590ac];[0x0;0x3c5fe3e3e6138;0xbbfd4a7702e5d;0x7aaddeca64f0f;0x806febc9d2888;0xfab7cac1efba2;0x604cf947188bc;0x4f9b3ed35f5c8;0xea0047301bf36;0x48199a5b94995;0xbc154930518b1];[0x0;0x1ae95000ea0f9;0xfd66add0670ad;0x56622337321ba;0x2598481d06b7d;0x5ba52309f8720;0xc964aef3c861b;0xdedb2ecb750c9;0xa868769c7ea6a;0x77e0cd8e73e72;0x6d84e905667]];
 [[0x88ede887b7c07;0x81b2a743b806c;0x15082ee7f5d48;0xf2aec563350fe;0xdf5ddf09acf6;0xfa5bea8f322ae;0xbaf50fec2539d;0xe69ba9175f50a;0x6f32d2f665e36;0x775999230c1];[0x4a9b8b5963615;0x408353b9d0bf9;0xe6d9b9cc31a3f;0x96599598c7740;0x1a24f0bcb82ed;0x2df053931d067;0xdfa8dfdb0568d;0x338c4c7a00d33;0x2bff8d19ec2a3;0xfbda85cbd6e];[0xdb087c2efff19;0x31be39fa77db2;0x2003d3aeaa52c;0x111658dd93800;0x546c683f92340;0xfe44527a3c79d;0x747a19a60c3d8;0x3fc93cb02efe0;0x81cf092eeb08f;0x30315f26590];[0x997758152765a;0x81c13cfc4ca4c;0xed46deca238a8;0x4899aa056e03c;0x99a651d4a4c4;0xd8ebbf2fd3a42;0xf7ebb60a1bca7;0x445a25090f861;0xae4a1ea9de2a5;0x87c7443c042];[0x96de4a44ef3b1;0x9625ecddf8dfc;0x5ee52d7e77e26;0x3640610b862d2;0x26b2ef0b60fb1;0xbd0bdd4c1dcb;0x9ca4142931959;0xca3fc96ca1e84;0x4389d75f11e7c;0x199b758e164];[0x35e2d39cd7a60;0x39a3ee547907;0x4605afd6fc767;0xbdad622b72996;0x2284629e8166e;0x7a5157ee4f6aa;0xc1c88284e4d97;0x5e746a70b92b0;0x368da330d5c2f;0x341d1c8bd80];[0x0;0x5f9fab05c2a4f;0x733d733699958;0xe46c396cfea8a;0x6aa2e76c9bda1;0x50f034abe71c3;0xf0044139ba829;0x81d97dc55ccc7;0xd7bf248492866;0x36ca005a41ba1;0x2da74432340];[0x0;0x46779c052ee3a;0xc95d09fa952c4;0xb3829c5b91a39;0x7c73db4ae670c;0xa2aa84cf2e858;0xe3ce35cfaacd2;0x91dfb75c2c051;0xc71dbed5db642;0x235e68433f19e;0x5d078bc2d33];[0x0;0xcc8de5a8564d3;0x44ac9bf534a29;0xf622a6e8ae33a;0x44bae51ea55c9;0x89dfdef469c30;0x3dcefe0bf57a7;0xb9c3c5870a4b0;0x6a7890b916312;0x7315be6d3cd2a;0x794c95993e0];[0x0;0x387506bdd0a12;0xadb16fe1c36bd;0xb6d9064ec2657;0x3719072521a78;0x46df6b0c6be5b;0x720904d812d70;0x2c9be6d49229c;0x249d82163cc88;0xfb980a38caa73;0x7c53a0039fa];[0x0;0x2f34a6a53ed91;0xd57bfd421499d;0xfeb1978bc004;0x5c5f13a56ae31;0x439608b207622;0x658e5a67d12db;0x95b43a04ae25f;0xdf5269aec23aa;0x9bea2cb609c5b;0x98a27cd9205];[0x0;0x5631d87df99de;0x99580939caf27;0xb9ed7c1b5a9e5;0xb71646299e957;0xf392882e6ab54;0x78490b7f4f3cb;0xa106c1094800f;0x7cc1e59efcbf2;0x222e132730363;0x62cd7c72e8a];[0x0;0xc8dea9cf2ffa9;0xe1ba7cfe2c60a;0xa144e487c7e43;0xb5a0f9ebb0684;0xe17e31878e80c;0xebd0f6b9ba1ed;0xcc0b1336ffff6;0xdffd85ed5518f;0xc679eb5d46bd0;0xaed0e97f608];[0x0;0xc5772f59648b4;0xc5b4c56b06cd7;0x9db44076d5933;0x24d813c7bf8e1;0x7e64d18f50c2a;0x6139b49707349;0x7f9b31be53019;0xe9d9afecc6b37;0x47e151aac39c8;0x11e27a6e9d2b1];[0x0;0xa4e794a011042;0x116ab35fa6c2f;0x7aa2e93e52497;0x265e402bbff88;0xd39fc5b3043c1;0xded2c62c7bdb5;0x635fb1b8e1018;0x836df7b44e284;0xb52f9a9916705;0xc69cd54a10]];
 [[0x88ede887b7c07;0x81b2a743b806c;0x15082ee7f5d48;0xf2aec563350fe;0xdf5ddf09acf6;0xfa5bea8f322ae;0xbaf50fec2539d;0xe69ba9175f50a;0x6f32d2f665e36;0x775999230c1];[0xf3fedf465df19;0x6a16baa33470d;0xe2f9588ce6f3b;0x69adf89b4577;0x1c3ac7a357436;0xca56f5ece1df9;0x99b711de6bec5;0x56ee1fe5332b;0x2634e489bf6a0;0x25a16924018];[0xd2b3fd1fd54ae;0x8ab4604d68293;0x69e66c7d8bcf5;0x41524ba05d15c;0x8ff2ecc1ed77d;0x3eab94bbe50a3;0xf741610407f09;0x10b9ebddb4305;0x86649a1e61994;0xf91d4e3cfc9];[0x291e8b71939f0;0x1a479fe3799b6;0x78a53ebc23351;0x55f3682b09bc7;0x3d7e9609bf0dd;0x7268e2dc4a063;0x2f3dd69043802;0x6712d1875e1f7;0x76aec4abdd31c;0xb135e5c9e87];[0x12cacb501c0b5;0xa8368e48442a4;0x87b405a1f292c;0x1cc74249b2701;0x1c4fdd0c9f8e1;0x7914b260071e1;0x1cb8af25eb264;0x24214bcfbb3d0;0x432e93f09696b;0x3b91f505183];[0x122e6a2b333e3;0x6588ec4a752b;0x7da08b76edc7b;0x5b6e2dc55f158;0xd25de0ad51cef;0x15ea66d54f13c;0x6c06d52ade92d;0x93bc46b57d7a9;0xc81bedad0a03f;0x9b7c3c2a3d1];[0x0;0x5f9fab05c2a4f;0x733d733699958;0xe46c396cfea8a;0x6aa2e76c9bda1;0x50f034abe71c3;0xf0044139ba829;0x81d97dc55ccc7;0xd7bf248492866;0x36ca005a41ba1;0x2da74432340];[0x0;0xb2ac8f4aadff7;0x5435e238760ca;0xeb43e18ed0b61;0xa59a1366d4000;0x81a3ae288313f;0x2ca14b959c3d6;0xbb4b82c0bb4e7;0x2864b21622e03;0x77f42701b196b;0x3b0fbb052d0];[0x0;0x771c9fed02ab4;0x54e4b8e989cf7;0x14ddf5e4e6252;0xe22b29200ec4c;0x870202f0f085d;0x33427d769cfa9;0x7cafd72759f45;0x76641ae03da2;0x8c0aea3522dd;0x9066185735b];[0x0;0x6f4ad555ccf58;0x5e0763d3ac33f;0xead48b6c0a91b;0x5bf1994528d91;0x14ea99a369102;0xef5b97936cdba;0xfec9671feab1;0x3bafffcfbb1cf;0x51c4ad1b02b7e;0xbd65db9416];[0x0;0x18e053371db5;0xf6da90f2d6f8c;0x4d3046ddfdce8;0x41dc32daed7e5;0xece00d5d00362;0xb08474d64962f;0x4c13c4eed32e0;0xa7abeebcefd72;0xa26c0d0974f25;0xe885a64044];[0x0;0x55d0b9e5048b5;0x3272df9063664;0xa2506ac062c3c;0x2d31aa88c170;0x2550ff178d0d1;0x141d88e965867;0x2144b29c84f47;0xf4826902d2c77;0x9a36fa5fccc25;0x759e42c23bc];[0x0;0x18a78fff56538;0xd3808671f4348;0x4b003154fd7b2;0xc1398a2fec856;0x589b744b861b6;0x2a8c8fb13e4c6;0x7ae451bdf8e33;0xb40f97ff4b9a1;0x6b9064e4db5d8;0x11f57028a2a];[0x0;0x724bb4183f1c9;0x41a172ed91d13;0x98c94daad4386;0xd0e8a586bd2f3;0x4526606452a94;0x80c5e36c214f7;0x68371469a5660;0xaf89f6955bbba;0xbfdaeccda23d6;0x8b1efcea95025];[0x0;0x8329ee4c32a07;0x17ef3214fd0bf;0x46607c13d9473;0x47154b59a41d8;0x613b56237e769;0xcd97958db5ec9;0x4bb79db89475d;0x6b30b110be778;0x33deeda781045;0x422c69194b9]];
 [[0x88ede887b7c07;0x81b2a743b806c;0x15082ee7f5d48;0xf2aec563350fe;0xdf5ddf09acf6;0xfa5bea8f322ae;0xbaf50fec2539d;0xe69ba9175f50a;0x6f32d2f665e36;0x775999230c1];[0x2ccefe432b40b;0xe02fc4dddc0e6;0xabc875ba2f06d;0xbf79f3e890d63;0xf4ed80d5dc4a1;0xad0da38340074;0xdce1beb21b155;0xc793e78ecaff1;0x95fbaf82ae1ef;0x368d410dcaf];[0x1d39541d2c565;0x226c63d1df5be;0x49559715a6991;0x87937b0a7de56;0x57ed2c6d01354;0x6d1220e9eecdb;0xab39a376b6b94;0x654cd2cf327f3;0xc51998a3a3b56;0x7b5d391798b];[0x1121069005a9c;0xde82ea2eb54c3;0xf58f43cc0c5ac;0xb12df0dd9cfef;0x56afdbc452b0f;0xf19e2c39d2dd4;0x2db51a60487cf;0x6848a9be7060d;0x55ad5bb4c7d2f;0xf4d7a4f810b];[0x6b0bf981a3b38;0x9749f4e5c5a3e;0x47461788974a2;0xdd12a1ac2a2db;0x65344b9bb640d;0xa22a18d0c99c4;0x526af6f39b483;0x6923c88777917;0x533c933984780;0x395a0500676];[0xa37454bfcaf4f;0x3430e234220b7;0x9fb3a6c206cd2;0x5d5b79aa0f685;0x14eccb47b329c;0x66f8782bbd1db;0x379c5d3bf2796;0x9dc9ba37cd883;0x66c2539111394;0x5e0cfee4b38];[0x0;0x5f9fab05c2a4f;0x733d733699958;0xe46c396cfea8a;0x6aa2e76c9bda1;0x50f034abe71c3;0xf0044139ba829;0x81d97dc55ccc7;0xd7bf248492866;0x36ca005a41ba1;0x2da74432340];[0x0;0xcb04caa12cf8a;0x1b8430284c9d4;0x737d50573b322;0xedc7b7a678806;0x4864605e5fc6f;0x479ad2227a711;0x6d53db630b6b4;0x9945267e46f24;0x844ce304f7735;0x27d3d654502];[0x0;0xf8391f7690d2b;0x5f476cf6c09e2;0x8e8927eeedb4a;0x5ce993d273271;0x7f24a1664c5be;0x7ee1528b37951;0xf5a0f31505926;0xac1ffb0e2441a;0x6e46ba146016b;0x6347f167664];[0x0;0x3d569feb0d8ac;0xa0a5a6dbd4ace;0x9a4a00473cf66;0xecafe6f566528;0x3f45ae951e8b9;0x680381dfe9939;0x9398f2bb1ad8f;0xc70fec1b62be9;0x671b1aeab5c4c;0x5bc7c317e08];[0x0;0x97191b24e8148;0x739333a085642;0xd2de70d6290ad;0xe6dd796be0556;0x80bd370c6178b;0xb6910532c2af3;0x14c747cf10d18;0x2b502afac2f69;0xa67bea09cbb7b;0x70ad88e8ddd];[0x0;0x747b45b0d4b39;0x4945050a24d3a;0x2ae5d7eaa3a0;0xbd19362b4f9f5;0x97e232df84e94;0xe39b9fccde2c5;0xa65565c71fbcb;0x79a5929b7720b;0x7080a854a9f93;0x50de3b5ad40];[0x0;0x2ea7b00482a35;0x74f35695b581;0x1c69a6b3705f3;0x6d0b5211cad0c;0x5574363cf063c;0xf33a287e45db3;0xc54bff9393f2c;0x85e41f6767898;0xcb1e9da50d193;0x2d8d3a9274b];[0x0;0xebe00d2393f08;0xf7df6ef583e57;0xe11c0e7779ca1;0x214fefc2ec79b;0xb55c1d707ba50;0xc3be176ca2764;0x9e8c6aeddc396;0xa0d5cbe4b743a;0xbda739cf347ab;0x223ab7af7d70d];[0x0;0x5fb4855d8ec9b;0x6a832cb07d9ae;0xa674e882f8cd5;0x98c57c8a1edfe;0xc2c076e62a488;0xa6cebd015bb59;0xcfd8d6eab72de;0x2bad23baae58e;0xddf59986ac733;0x1c7e9922d8f]];
 [[0x88ede887b7c07;0x81b2a743b806c;0x15082ee7f5d48;0xf2aec563350fe;0xdf5ddf09acf6;0xfa5bea8f322ae;0xbaf50fec2539d;0xe69ba9175f50a;0x6f32d2f665e36;0x775999230c1];[0x56c23ad2dabb2;0x3d7959e769247;0xc422607061618;0xce14595ebe523;0x709b9a3bf74c6;0x55b0b3d2dad4c;0xeefab6f7b30c3;0xde5971174e473;0xd404250542368;0xedcdbb9d9d6];[0x4605669cee00;0x9300e812a4194;0xa88a1c3be7c53;0xa79a2b1f18b41;0xd38a7f31f7408;0x200de3dfe051c;0xae2819188bc25;0xe9cda82fedea7;0xbb17e438e4701;0x44ffe7be3c];[0xafa7a81ba946d;0x855d3d1a9337b;0xc4dbc8521d5b6;0xa33c6bb633d1d;0x5d07985b59847;0xab260d3b1cc6;0xc1d3a2cbb1dee;0xb5179453b7246;0xb2f6903ec8a6b;0x70264659b87];[0x42611a1eea866;0x97183d9cb6a74;0x4c6c574b8616;0x51d0c8c0953bd;0xf3d60639153af;0xa1c2afe1dd290;0x5869e3756c298;0x42ec874f6a297;0x9866693dac6c8;0xa2ad9def364];[0x92d574f04603f;0x76a15d7391796;0x23fccfcf76888;0x9754d62d1e349;0x6fc31f62a894e;0x517ac7baec7aa;0x6a410f42c3340;0xa63502e5ec755;0x196d9aee5aa68;0x4507d1272e5];[0x0;0x5f9fab05c2a4f;0x733d733699958;0xe46c396cfea8a;0x6aa2e76c9bda1;0x50f034abe71c3;0xf0044139ba829;0x81d97dc55ccc7;0xd7bf248492866;0x36ca005a41ba1;0x2da74432340];[0x0;0xa340ebc556a7d;0x18dad4c949e2a;0xe94a918f96e5d;0x57c785a580471;0x38c05cbd449c3;0x980317289f4b5;0x3e767f4bf79eb;0x5eaa0ddc32401;0xe494db7deb13b;0x410e5894d26];[0x0;0xa028e6b59debe;0xd7695e9c5a408;0xbe2f4b42e1118;0xb64da127d1704;0xa78f393e94a80;0xe2671056f1d4b;0xe601144783c97;0xadf87a43ebd83;0x17c48f0734b54;0xadb5df60d82];[0x0;0x7104552cefa45;0x3bdb2ad7c0db8;0x59014a8d35dbc;0x773940a33f980;0xb7f4c85c6c09e;0xd7d8d096aa891;0xae619bb866c97;0xbb5e71236a84c;0xc342616c92673;0x169663a47ab];[0x0;0x9132c646a6ca6;0xedae1cbcc595f;0x88bec26e9d63f;0xefc7c4a576fe4;0xbf781f42b4522;0xec807c65601d1;0x4d54cc9893e94;0xb216aa44d6125;0x74c745ac252d1;0x1bbafcac762];[0x0;0x9fb485f183289;0xb038931cb72d1;0xbf223c7b40ca3;0x54a11c2596f03;0xe9254f5eb7ac7;0xe3197181852ea;0x955e66407e620;0xa1e141b3f7a84;0x7c5e83606e9f6;0x8d7e5deed37];[0x0;0xf23caa6a99504;0x8ad4cb29d01e6;0xcac823e9e18ce;0xe1d4a1c0250dd;0x31a183a05ebd6;0x4982a1bbdffc6;0xfe48bdfaf3c33;0x7ca617a56ef72;0x1df95e2672335;0x2a1122e958e];[0x0;0xaf4cd8da72736;0x4a8ad251d5cce;0x6f3fc365d78d7;0x58e129a90b7bb;0xd0dd9a5585483;0x53e94bfa1a78c;0xd73ab1a1ba186;0xed74a68c39a7a;0xbd14048236ba2;0xff081aeacfe33];[0x0;0xdc9a92aacebd6;0x50dfc1708ce43;0x77c24629b01a;0x119ccaa6aec8c;0x529d442bd0478;0xd359ac6adb9d2;0xc6f17bcbdf3ec;0x7cd006ebcae75;0xc7b462a633f1e;0x2d1a1d9b324]];
 [[0x88ede887b7c07;0x81b2a743b806c;0x15082ee7f5d48;0xf2aec563350fe;0xdf5ddf09acf6;0xfa5bea8f322ae;0xbaf50fec2539d;0xe69ba9175f50a;0x6f32d2f665e36;0x775999230c1];[0xd56b222c4a638;0xe447c0be618be;0x53a471b8a72f3;0x7a3bbc5f6d3c3;0x57373b76a667c;0xa967ce54e3867;0xdf3882287c911;0xd10abb1a9a7da;0x257e92c0ef402;0x2a24e275763];[0xea86ce131dc84;0xed15999f13aa;0x384ef78f47356;0x25822beccca3d;0xefe4b7e2613bc;0x71ac3f10c2be0;0x1ab7c0a6bbf88;0xb4d544ca1e5a1;0xc193539e844dd;0x7b9d56429fd];[0xdd1bebb9bbb35;0x588f40fc1b4c0;0x36e7a5aa5f8d4;0x9d6ab0ba881b6;0xa34b3b9b31db0;0x8cca48fb6829;0x8425ee0e4911f;0x7fcce82b5dc3e;0x6c5ab1466378c;0x1b3bb09c22b];[0x9b34f7841b7c3;0x56b688160733a;0x303d52b145d2a;0x55c60d31deef3;0x7a9bd3d0aa741;0xbd19c790e9e18;0x5dda18db2b71d;0xb747ba72948a3;0x67dd45555b93b;0xe61a7eaa44];[0xed7cc37877d5f;0x7b345274d927a;0xe7b830569389d;0x6ef855537e95a;0x1ece5f06445b1;0x5d4646868f19e;0xd7e7f932957cd;0x61abc819029ec;0xcd3cdc2e5133f;0x893241c8768];[0x0;0x5f9fab05c2a4f;0x733d733699958;0xe46c396cfea8a;0x6aa2e76c9bda1;0x50f034abe71c3;0xf0044139ba829;0x81d97dc55ccc7;0xd7bf248492866;0x36ca005a41ba1;0x2da74432340];[0x0;0xe8be6c6721cf2;0xe60f9e303fe5d;0x98c9d33742ff8;0x6c59642afb285;0x4e5f4f245c19b;0x66886b08e06b3;0xd43906e33cbb8;0x73a398f9135b0;0x77d3ac4ef52af;0x374990dac98];[0x0;0x9212da936ee2a;0x316c78285cde9;0xb797f6ec4da2b;0x48084bc19195f;0x2c5926d2b8817;0x1fa5a8ce3c60d;0x9b5a039d77d75;0x3be46b853969f;0xf5a3bb91c2f8c;0x24cce8c020c];[0x0;0xb5ece06b65ae5;0xab49e47474f29;0xa49ac2bf64220;0x4481687a7fdad;0x765bc2789278e;0x8839fdaf26ed3;0x6638bf900f026;0x84d8d52fea0e5;0x46a24c8c178a4;0xa8c319ce74a];[0x0;0x6c26779b5fa13;0x1c64fb2ee16ed;0x52e3bad223a47;0xd408fb1934477;0x2d3acaf921438;0x5801312ac1255;0x8f8c17ebf45c1;0x9accbc6a640d3;0x60bb5fdce9fb;0xcf300e75761];[0x0;0xb78c42a1629a1;0x56acd67266cfc;0x9fc06a843d03;0x70a0bfea942b1;0x57440cc5a8125;0x18c43ec3fb45a;0xee6964e6f500e;0x3706418bae57a;0x5d93a554df79;0x1df9ae69103];[0x0;0xd92109a6afe07;0x19d6b9750a3dc;0xafcb881ade200;0xf2ff2166d3d1c;0xc5132aa4a04ee;0xe0dfc362bfa6;0xf6821499c294;0xf98ceece8b4fb;0x9c76d926e63bb;0x118ac62992d];[0x0;0x8ec1fa7ef0753;0x6f6ac47c6f6cf;0xaa96c25ea883d;0x133f7868067da;0xdfb0cc9c37001;0xf325d047e3b80;0xac0b62557fbb1;0xa38d61903e203;0x68f565a6ecd56;0xd15cd62a46f70];[0x0;0x46d79b1226d55;0xba82176719321;0xbce0175644c1f;0x6dc5ffbfe10d;0xe6ffd94a41dc9;0x63adda9b8320c;0x31459e42c2af2;0x8b8baa408c998;0x4cc14b497915d;0x56dca0e6e44]];
 [[0x88ede887b7c07;0x81b2a743b806c;0x15082ee7f5d48;0xf2aec563350fe;0xdf5ddf09acf6;0xfa5bea8f322ae;0xbaf50fec2539d;0xe69ba9175f50a;0x6f32d2f665e36;0x775999230c1];[0x89f5f100ae992;0xb1442c27c0900;0x1f4aeb6547213;0xf4bdd6890db6b;0x741afb62e9a9d;0x4e175bac2d4e0;0x8036532f59868;0x790ae44d49ee8;0x8fcffab78ad71;0xef59eb6fe9b];[0x759949c0c58b6;0x53779a919174f;0xd56f487441dd8;0xdbc225f9fff2;0xfc9bcd3a0e52b;0xcf481fe475bf5;0x72060696021b9;0x552b6ad6eec3e;0xf0bed4113f4f6;0x8b6cdeb1a32];[0x3264458f26c42;0xe53bc99772caf;0x3a2dc06584d18;0xefd4fbb704d2b;0x9f2a435c46bf9;0xacd5da64f5bb;0xa3fb2ecfa0fc9;0xba23d68bb3165;0x9e44ef173cebc;0x1d8ce9c7c39];[0x770c30e463b74;0xd6724272db22f;0x4c7404ecd0b0;0xe84ec8b2def68;0x60f81ad7fee47;0xa97f751d4ff74;0xddff07270b778;0x68d8441fa5d1d;0xd61ee28abde8d;0x28dc0b2968c];[0x946599b32eea2;0x1da4e3e644392;0xb910e4257f2e9;0xd735f86ee9e1c;0x1cd48057bdd32;0x20fc9b3989a9;0x7ce7e3c48b399;0x12d37de13594f;0xfd36cddd7d2fd;0x4d82974a640];[0x0;0x5f9fab05c2a4f;0x733d733699958;0xe46c396cfea8a;0x6aa2e76c9bda1;0x50f034abe71c3;0xf0044139ba829;0x81d97dc55ccc7;0xd7bf248492866;0x36ca005a41ba1;0x2da74432340];[0x0;0xf066e566a1d3d;0xdf8e2bc9278;0x68d11c38d5e3e;0x327969037cba8;0x9a0c82830ee1f;0x3aa175fdb9b09;0xf0d9faad2775d;0x1fc0c298c9f59;0x60bd6bd3e1040;0x268aba70d3c];[0x0;0x6bafab0a0799a;0x4d46278e12b81;0x79ca1511bf1f8;0x7ec4aea65e5e9;0x3e9e4649f99b7;0xa5cdc8ded8bd1;0xaedb9ba78d0c9;0x278c57952fae8;0x1493d6f3ee5b8;0x56976a7936e];[0x0;0xf8a30badfc0bc;0x4265ca4ea71b6;0x529cc78d16b6;0x60121680f4f5;0x35332158f7f42;0xc1a6434889fa4;0x80276bb5f9dc7;0x91e72f795b45b;0x3da62175ca2dd;0x8a21184abb2];[0x0;0x45507bc0ac87a;0xe07d127d7e253;0x77713700c1044;0xf2417c267ef26;0x74b774fbb4831;0xd79463ad4b942;0xa6146ddecc028;0x836f695d7f545;0xcdd400e77fc2;0xa9947f262e1];[0x0;0xec820d36e40de;0x75b03c7ee3a83;0xbc02b1730c4cb;0xbeef3deec7613;0x78d31d42bbc04;0x383b835f2a0e6;0x2243f4ee32be;0xe129c3d1474d3;0x4d1e0bfb96f0d;0x46882f83c5d];[0x0;0x7cd25bfecb0c4;0x65a1cfaf712c0;0xa36590f0f97c7;0x1cd27c20058d2;0xea75ed64cb878;0xc38f7c970965e;0xcfd72be1abd11;0x182aa8f1eee4;0xf1b079b5fb79f;0x6c388d3d71c];[0x0;0x9d323bd94e211;0x6eff15bd91474;0x66c68fd5211dd;0xc47469fce30c6;0xc488d4c6b7702;0x450063ee67016;0xba30ca3b7a02f;0x43fda20a4c197;0x6f77f01f31a8a;0xec2af363905c5];[0x0;0x3ab5a40ec16c9;0x2b0ab56220325;0xe9174b917317d;0x7df6c3db7dadb;0x2d88afe785b86;0x2398469c4c204;0xb9165f77a2f05;0x65a2e0266f31b;0x2eb876358e76b;0x6ac12077bec]];
 [[0x88ede887b7c07;0x81b2a743b806c;0x15082ee7f5d48;0xf2aec563350fe;0xdf5ddf09acf6;0xfa5bea8f322ae;0xbaf50fec2539d;0xe69ba9175f50a;0x6f32d2f665e36;0x775999230c1];[0x21e5181079e03;0x99d031039ee11;0x411fe90cea45d;0x6b2b8b72ceff;0xc52de468b9237;0x9667b73526e8f;0x1205e63afadd;0x22e6e0b2f9cc1;0x608a1cec17f1c;0xca47a71a82];[0x273d8d4330e23;0xd877e19c1b53;0x86cfc6912b0b3;0xdbe9ef7f5b51a;0x690b2291e9646;0x791165547ce74;0xc09f0e58f2d63;0x50df3b033e140;0xe2c8df3aeb3a1;0x5412d7fbbac];[0x5c03b82d90964;0x565210275c032;0xce054037b01c3;0x2733fe1205bb3;0x8b2f433220eea;0x258492410ef66;0x185ca8837b7cf;0x394f9a0e4a1a9;0x8d0a760022ca6;0xd1844d2a87e];[0x7d780473a50d4;0x137a8eb1a56e6;0x4c13ef2b93a2c;0x80634cd9e36ef;0x8e6e5d7e9ecac;0x4ac7e3e4ebf74;0x355e7edf2c627;0xa5001bd380ad4;0x3e11b0435e0a2;0x206d8fddb23];[0x387a4847f4d15;0x7a0248cbf6463;0x9d3a218da8809;0x24bc1bbc4186b;0x8dc04e73e1d5e;0x999852e16c0b4;0x98daf67cd5aaa;0x12ba455502c42;0xb411aa191ae3;0xba4e89da8cc];[0x0;0x5f9fab05c2a4f;0x733d733699958;0xe46c396cfea8a;0x6aa2e76c9bda1;0x50f034abe71c3;0xf0044139ba829;0x81d97dc55ccc7;0xd7bf248492866;0x36ca005a41ba1;0x2da74432340];[0x0;0x71035389332bc;0x299f86754b9bb;0xc9e87d75e4df7;0x7325a16a3d118;0xba76e5ed6669a;0x55416dd9ba160;0xc0cdb722f1e6b;0x844a91a3ce093;0xc4b28c4611cbb;0x5cf755d4095];[0x0;0x9906300ed6873;0x1ccafdfbf28f8;0x52068ae17fc43;0x30c1865b63536;0xeab0cb9ee929d;0x739d234198697;0x5a8f216486ac5;0x19661e55dc124;0xb25e204d68bb5;0x5e0f6971b6f];[0x0;0x90b1d5f2ddb94;0xecf5fae253ce7;0xa8af687bf72a0;0xe8018cf3adc69;0xaf7f319d53d40;0xa458c7568d4f;0x18cc63c7f81c8;0x57702cf29e88f;0x9e0cfd16fc4e3;0x9c4872e1e8d];[0x0;0x44b00f21c1ce4;0xcb2278d354500;0xc454500dd8a65;0xfa2acbf0ef2dc;0x43323df8c9dc9;0xfb6a67203eaf4;0x929a1fc46d7a;0x8ad3bf41eee1e;0x2684fb1cad0e1;0xbfde02d2c36];[0x0;0x5bf5d7a3f6ec5;0xa5b5983ebe9ba;0xd07414f14dd43;0xd7a34981247aa;0x2711c0be6a0fd;0x3b444d5b5c18b;0xcdfd13dac83d4;0x461d98faea58e;0x158608e6aec14;0x4c9d93d831d];[0x0;0x3871f8b1723ff;0xefdbab5f4f3f9;0x6cb81edfcc011;0xc55a989e37424;0x2b8b5241afb02;0xcf830b1e76775;0x51294aa8f0104;0x5bb222c4b033c;0x3de075f0112e5;0x668f9578a9];[0x0;0x1873caecb42f7;0x1184db294a4e1;0x19522fec681b3;0x9ae451484baf6;0x452b63c6082f4;0x294b73f97cb98;0xab762ca5a8846;0x5e436aad15552;0xcf8ae346d7f3;0xb11c77d33af43];[0x0;0x20e5d8a368ea;0xf04b621dbdf0;0x8e0a5d3ef2724;0xea85dbaecb002;0x1690e011c6ac7;0x897545f8ad084;0x4621e36a79754;0x1efecd2ec167e;0xcb41ed095037d;0x5977ae8a8c4]];
 [[0x88ede887b7c07;0x81b2a743b806c;0x15082ee7f5d48;0xf2aec563350fe;0xdf5ddf09acf6;0xfa5bea8f322ae;0xbaf50fec2539d;0xe69ba9175f50a;0x6f32d2f665e36;0x775999230c1];[0xfb961af1fecb;0x4a0c325c8ff1c;0x270495adfcf2a;0x6800851fa0c1e;0x3a5d77491acb7;0x69acfccd1e3b;0xecfa002eeec5f;0xee44d24685b67;0x6dae0b84bd219;0xecfba4a07c8];[0x44a239c6f5c16;0xa0c30f04c6a81;0x300071861eaae;0xb9d818966ae2e;0xaa6f71afa8efd;0xfc2a07d123cf5;0xfd0264e86e802;0xa25356a4c9487;0x8bbb2944a04a6;0xefd61e5592a];[0x95ca4c145c794;0x3c3aebbec4682;0xcdff0fad390db;0x876687fdbb08c;0x5bad938043fb5;0xf84963034c612;0xe63762e8690ad;0xe2206af5f26e5;0x1b0549bf430c6;0x15a27067dd3];[0xcde22175be029;0xd15cc64a985d1;0xb4cb88112d6d4;0x41c78e6e20296;0x1d94ae5a9ce61;0x93427e57dfe95;0xe70c686c62c6d;0x6a3b86a857058;0x6e818713c61b5;0x51909664639];[0x109c62f46e5df;0xd9bf3628dd030;0x6ebc6e218fd3c;0x9e0a1f2fe0db7;0x66eff76e70c84;0x97e565f0a8964;0xeedb1f6fc4936;0x2aa7f165fa2a9;0x433e4676aa3ee;0x7d74b825da4];[0x0;0x5f9fab05c2a4f;0x733d733699958;0xe46c396cfea8a;0x6aa2e76c9bda1;0x50f034abe71c3;0xf0044139ba829;0x81d97dc55ccc7;0xd7bf248492866;0x36ca005a41ba1;0x2da74432340];[0x0;0xa936b3fbf6d8d;0xa5f1cd0d6112b;0x25414999f8560;0xde276b9d69323;0x14ca07a5de6f0;0xc3e8a466806b4;0xc3f3f4fc99c89;0xa71fac65512dd;0x95e7109e2ebed;0x2e11a3945c0];[0x0;0x28de68884a5a6;0x7bb90db87762a;0xe8eab64d62ba0;0x6bb6811cc901;0x95551a6f67b47;0xabd978849e422;0x46315a26a4597;0x2df1cd744cc1a;0x1a79edb27a702;0x697a37584df];[0x0;0x19e2b7ca4e5ee;0x27a984c4f2dea;0x26a47bb92a67d;0x6602df50d89e;0x37bfa4d6086eb;0x676430498b693;0x6dc8c7223aa11;0x8bd10aca5d54f;0xdc41d66cbfd9;0x74cc7330108];[0x0;0x6f22c9091b607;0x6b4798677011e;0xa0eef9dcadf62;0xba8f92d85a031;0x4f6f37dedc56c;0x391f50f624c41;0xbe849e3a23002;0x844505fc36be3;0xc58768ab0443f;0x8f6483215c3];[0x0;0xe7883144f10f7;0xf440750a07f52;0x529fa8bb775b7;0xcbc687e893edf;0xd3251d853a5a9;0x34282d1475652;0xd1af078b99cdd;0xb459d5c178002;0xe0875d4c7dde9;0x55ea4f79295];[0x0;0x9ee9f39b30ac6;0x8d09a277ad556;0xb0f6091e1be70;0xa0509eb73e18f;0xfe3dc1a4af616;0x8a5b428accf0c;0x864aefe5702d8;0xdc7cf45206d90;0x51840c7a34009;0x39493311ac7];[0x0;0x902978d895bbc;0xf6aab341df4d6;0x9047cc08e8ad6;0x57ba53bd792c2;0x3a5d701a54303;0x9d592f38d7b4c;0x2e116343d5839;0xd56f4310cf820;0x3ea57a402d0e6;0x454a512ef8d5c];[0x0;0xf25461a26d886;0xacf745f39218e;0x30af98275a998;0x7a4adc13089b;0x1508a7605e397;0xec83d52492823;0xf80b188a98e85;0x7cb8bae1ecc0c;0xb834e0245f70e;0x10bea4794ab]]]
 (V [0x48ce0cd1ff7e3;0x91ed373ea5ebd;0xfe3a5b25fb3fc;0x33b3b1639060a;0xce4f6bd01cdde;0x24ad4a12e401e;0xe03c1dcedb079;0x50bed438873;0xcae20ab5140f2;0xa9580b7bb90] [0x1097b07f303e9;0x507cde4e509fb;0xda400fe64a4b5;0x207179f2e76d4;0xbb236440496d8;0x3a659d44cc3de;0x7f7aaaf1c4d47;0x3a4ac42043d23;0x224be2a68e7a4;0x3b7d2486d7f] [0xd7a8af42eedd8;0xf6b444a74d1e;0xf92af2f74f91e;0x60601688a9f6d;0x7692bcd8ec247;0x726691c0ce5f8;0x2d955935e3fc;0x294261aac5116;0x8131940488cd7;0xfd443a0376]) [[0xef732afc1bf67;0x721d5e5beeb5f;0x3f959968158e8;0xd14e518305811;0x60f57a8176f6;0x428462ed7f266;0xe9c35670c5f9e;0x64bbc85aebe49;0xefd41812e7070;0x84ea4b11a82];[0xe0caa9deeb1f6;0x3c06593f086ad;0xdfc54d918359;0x39c4cfe71a90d;0x18388c64da75;0xc8a0cd5e12aa5;0x190ff518b2021;0xb21fea7ea1e49;0x17790856b4819;0x5c80f81f26c];[0x66edd61b7ed8c;0x762986627b791;0x8c2ab3ac771fb;0xad6df917fc067;0xdbe6fb86ff66c;0x17d84b2266ae;0x632cdab6347d1;0x4131a155832f9;0x58e3acbd26d;0x3cf655eb04f];[0xd3178cd9246c;0xc4d18e643f00e;0xe92f4769ca9dc;0x8498464e6bbf7;0x3d7c7572fe9a9;0x8fb8ab817d804;0xe7287e6211afa;0x9410fd36bda6e;0x72d81924fe35f;0x854dcc2688f];[0xd0958e548f0f1;0xc17dd6501ee47;0xd944c65e3b890;0x67c0430f36964;0x86d857975f0a1;0xa780de058b700;0xab6946ceae9b3;0x488ab695b449f;0xe3b3145735586;0x841d98d4b70];[0x3fb38074b3be9;0x151a38100ae7a;0xdee9b7c6f359e;0xe4d5027b3fbfc;0x8c9aabb90a3ae;0xd31498296fe5c;0x266c945599b2;0x8afe781367657;0xb3155b50fd895;0x532acd58d12];[0x0;0xcd998add4ed7f;0xab7612532dff9;0xc8e9a4d49321;0xb6a893ff93f54;0x9de87b91b7b6;0x98aab7420b935;0xe85cc944bcfcb;0x36762fb66d2a3;0x9037b5780a46;0x5d0ae6ab426];[0x0;0x45f913c9bb40b;0x4385ce6e13bf2;0x772f847706e34;0x41d3564b234bc;0x7ad419c9576ad;0x8f6960b9c2d95;0x63d04dd1359f;0xc8fadb02568c;0xa702ce4d0e8ee;0x50e1033ebfa];[0x0;0xdc8e1393d0422;0x20682cf513455;0x8979f5bb46470;0x2a41600bcfaad;0x8d5025acdbd2f;0x7bdc97747ebda;0xf20971c37c858;0xe43e388784ec9;0xd8e1539daeea8;0x2d866a7e2a7];[0x0;0x684b6d9878dd2;0x10e504dfac6fa;0x2512e3a661b0d;0x667ae610dc755;0xa068484020ed6;0xf06f4e76d7f87;0x44a9e8b279905;0xae1886815ff48;0xc1b8d9ca4b326;0x1c19d385ba7];[0x0;0x3383bbd059983;0xe5d39cc258027;0xd540c3b3e5e81;0x75a45dba5a184;0xba843308dce5d;0x49472b5b8b3c;0xb3ae6a45669c0;0x5b8f9c5658d3;0x2b0058888fc7d;0x32f5a9a3b31];[0x0;0x78ea1025d73eb;0x32ca5be8921de;0xf25678bc8c2b5;0xcfd5796f9f620;0xbadea80df97a3;0x3456d73c49594;0x23017456debb3;0x60a1a1d02c737;0xaee632aab32f;0x191aa524400];[0x0;0xb8d6d36ffae8b;0x9bb90df5bd10d;0x38afc48ca71a;0xfa79ee49f7c31;0x5476eb1b90e13;0x76a04d89cd0f2;0xc7f0bff6ac80d;0xd983032103e65;0x960570bfcaa5d;0x3d30f4481ac];[0x0;0xa28cab4ca5415;0xdc90e758e943;0x153a7fefdc7a1;0xa8aae8a958dc;0x4f43b5362c40a;0x54b1f7103ae6d;0xc475069a419c2;0x788123c4f6c12;0x44e8dd3fc0cc8;0x3ba322ba03988];[0x0;0xcfd7369bfd25;0x154f51729ec00;0x1faaa6dec7159;0xeaaa3156a3593;0x9300f23c5574f;0x87a900169fbba;0xe4e3f4e32c912;0xcc82779003326;0xbcf4922f174ca;0x275a12ccb39]]
 [((V [0x9f454498d5daa;0x670f4ba794c8b;0x4c3281bf5c5ba;0x4d1b9c11b6051;0xbafb90242768f;0x37f8d4fe80227;0xa5dafd919d04;0xc54dc3750b212;0xe5f745d2446d4;0x154a4732f64] [0x9dc05bf870c8;0x9b5b8920ea69d;0xf731fc9d97792;0x467e6ae3cabd3;0x2313727cf338;0x89a867907ef7e;0x4be385fdcfdbf;0x6df8550be1fef;0x8ca2e0b80fdba;0xdd956191b80] [0x4bd8aba5b5541;0x218251f532ccb;0x57e6b0207e71d;0x48ae7df89caf7;0x661f16451b;0x72afbb620884b;0xbb0aff13d2752;0xd845a7cba22cb;0x76a856c1320df;0xc98f59f4841]),[[0x95ba064dedebf;0x2f3f6d5bf0d42;0xc10f44f4eee0a;0x2cf524604cb67;0x972f2833bb2fc;0x9d3ba79f61f63;0x2a934fbe041bf;0x7101b8603b18f;0x8e23bade4e924;0x35a1c47b07d];[0xf8c2906c9db85;0xb94105ef9025;0x35a50b8f1ac30;0x1483e23a7ff1e;0x1501f18d3f0ef;0x94e0193152dd4;0x7ed77ae332576;0x534ad7932cf1e;0x576a1b921cb75;0x892d2f68107];[0xd7a8af42eedd8;0xf6b444a74d1e;0xf92af2f74f91e;0x60601688a9f6d;0x7692bcd8ec247;0x726691c0ce5f8;0x2d955935e3fc;0x294261aac5116;0x8131940488cd7;0xfd443a0376];[0xd7a8af42eedd8;0xf6b444a74d1e;0xf92af2f74f91e;0x60601688a9f6d;0x7692bcd8ec247;0x726691c0ce5f8;0x2d955935e3fc;0x294261aac5116;0x8131940488cd7;0xfd443a0376];[0x8abcf5807aed2;0xd9c7c01ed67e7;0x28d4c9ff5b427;0xd1ba8b5c55a48;0x87119abada706;0xe2ed7aa497df1;0xb25fb2eb384ae;0x709485820255b;0xdba25a2fca7a1;0xadd20c65c5a];[0x6e059aec22a7b;0x31cc50402283e;0xcd0418fbf808;0x42c956de2a4d6;0x8df056d2649e8;0xb1f29e8cbafe2;0xcc77c7f7fa0c7;0xe2b652112a9c2;0x7bc7c162523d3;0xdb5b23024ac];[0x0;0x52842f39f2137;0x35427884123b9;0x2fc6dc6b728e1;0xbb3d09409a446;0x95f698732e710;0xe9ff2c88bee7c;0xfce10e4e9a1cb;0xce0fc16b0b977;0x11c50fb10f209;0x9c9ea06856];[0x0;0x90ee49d406e45;0x4b81ecc6db41f;0x397964a059123;0x28f4b828daf54;0xf0c2bc944bba3;0x683cc278e69a8;0x28b31d15235e7;0xf3fad235187c5;0xac3be0fe32d78;0x350f2a4d27];[0x0;0xcfd7369bfd25;0x154f51729ec00;0x1faaa6dec7159;0xeaaa3156a3593;0x9300f23c5574f;0x87a900169fbba;0xe4e3f4e32c912;0xcc82779003326;0xbcf4922f174ca;0x275a12ccb39];[0x0;0xcfd7369bfd25;0x154f51729ec00;0x1faaa6dec7159;0xeaaa3156a3593;0x9300f23c5574f;0x87a900169fbba;0xe4e3f4e32c912;0xcc82779003326;0xbcf4922f174ca;0x275a12ccb39];[0x0;0x1ca9d05edd6c9;0x4224923aea3c4;0xf615c300a2b7a;0xbb3d59c7863a7;0xb920c15c36805;0xc8f6a63ddd218;0xfe46792db6869;0xb8428058bc7fe;0xeb32a6b3e56fa;0xdd2ec02d86];[0x0;0x3a813d793e8c2;0xc431d0c79dc96;0xb68ec52781de0;0xc7908661cb727;0x9a258e66e7812;0x8ad21d36ee948;0x81750fd12626;0xc78ff49438eaa;0x5d45147908605;0x70055d713fe];[0x0;0x25899b3f10c54;0x77361f2b679ff;0x6cf81c5c3b86f;0x562fdc78e8bd;0x9bb544cbab061;0x95ea494aae478;0x77b090624ec53;0x67eb49393ba38;0x2ee0bea4726f8;0xb68821a146];[0x0;0xd48238e626af6;0x960db8f87041c;0x863621c90f081;0x795813e84bcf1;0x77f85e00a0206;0x5005fc9fb7a46;0x37b47e8f7db80;0xb6b2b89649446;0x8471744aafe2;0xddfc3ae5c81ee];[0x0;0xd818fde5e97f9;0x2552d3b4cafb2;0xe0579470df455;0x84df178431e7b;0x2e416286c988;0xc6d09503c302b;0xcc0d6f7615eff;0xd4148ecbfd09b;0x5c58582cda353;0x126d8bcfb2a]]);
 ((V [0xa68ad3fe5186e;0x42fabc46c9a5e;0x917a84c16b463;0xb4449b2eda28;0xdb1633b01f3d4;0x9696327634620;0x35fd5b8b912d3;0x6cef22f62cce;0xe809a195de31e;0xaebba937d53] [0xd04a2cbfaa2b3;0xdb0d059948082;0x1637e5a9c4ed4;0xd7590a32ec3d;0x550eed6bcf088;0x49f1941e428ea;0x497f62791e04d;0xd976d2cb88be6;0x7e418a8099a2;0x4d4cdabe585] [0x30a27c5d487ec;0x3cc1970bcf5bb;0x577714754eaee;0x85d214dde9a95;0xdf6a577687fcb;0xc406b2cc97f95;0x2638aa2023e70;0x28ef3d04bc73d;0x4cc204c2c9d4e;0x2b822b773b]),[[0x9b513e683a0df;0x539476a243620;0x5214a2b0bd506;0xe009c15dc198b;0xd535d7388961c;0xec8d8393072f6;0xda144f5493576;0xc54c85bed61d1;0x662f2094e35ce;0x63521042f38];[0x7677c89137441;0x1082eca67a8b8;0xc3d8776575a3;0xce49ede51291a;0x467582ff48c6;0x156700c5d70ca;0x6622216ca966a;0xcacdfe0912270;0x5132ba8782ff0;0x4f1c052fd26];[0x4bd8aba5b5541;0x218251f532ccb;0x57e6b0207e71d;0x48ae7df89caf7;0x661f16451b;0x72afbb620884b;0xbb0aff13d2752;0xd845a7cba22cb;0x76a856c1320df;0xc98f59f4841];[0x4bd8aba5b5541;0x218251f532ccb;0x57e6b0207e71d;0x48ae7df89caf7;0x661f16451b;0x72afbb620884b;0xbb0aff13d2752;0xd845a7cba22cb;0x76a856c1320df;0xc98f59f4841];[0xe0b9222f6e9c7;0x18ae9b57648a7;0x72779798bbdcd;0xf90e67cadedd4;0x74024f1c8e3a4;0xc5e7040c93c06;0xb12c17d07c6ec;0x31767edf56899;0x85314400be30d;0xfb44bf11f27];[0x95bea661c8842;0xf7d4514f16010;0x99c5efdd9b7d5;0xd53b861a33b45;0x9065091366521;0x4f7ffcb9434c3;0xb4f6099c2cf7d;0x99577f29bb9d6;0xcc017686c4ce3;0x53d7461ddfe];[0x0;0x1278eb3d5f807;0xe868e34874e86;0x580d90ed50207;0xb5e8aed19fa2e;0xd8f2ac42cee0a;0x1d7fc691d38c2;0x37f3588a2a744;0xca577e8e6eef3;0xaa6870b563420;0x7ca4f668fb3];[0x0;0x191b8782b2db2;0x5d9dacba4a806;0xd7f2466b75dcc;0xd3f0a7ec9e501;0xd3bb6c8deabec;0x21727a2243cec;0xd3066c455f5dc;0xdf1fd136a9cf0;0x8b850dcdf7146;0x4e330c820bb];[0x0;0xd818fde5e97f9;0x2552d3b4cafb2;0xe0579470df455;0x84df178431e7b;0x2e416286c988;0xc6d09503c302b;0xcc0d6f7615eff;0xd4148ecbfd09b;0x5c58582cda353;0x126d8bcfb2a];[0x0;0xd818fde5e97f9;0x2552d3b4cafb2;0xe0579470df455;0x84df178431e7b;0x2e416286c988;0xc6d09503c302b;0xcc0d6f7615eff;0xd4148ecbfd09b;0x5c58582cda353;0x126d8bcfb2a];[0x0;0xf964483eecdbf;0xc39ac747b8195;0x65f8aeed7bda2;0xcbc20522facd0;0x3c960f994e491;0x6f21dcb104807;0x3311779cecb12;0x786051abd4d03;0xf27b780eeaa0b;0xbfcb41a0508];[0x0;0x53bcb4d72164e;0x8b8515a5ad2b4;0xa98f2d7ca9d09;0xe688cf1020d13;0x403fa373dae19;0x3cc37c2faff01;0xf4bf7e872a160;0x4e588fd5f4784;0xc8fbce3185928;0x1c5453b99a];[0x0;0x478d381cbff56;0x46b677bc1827c;0x2244e5d6abfbd;0x66180a2d82b7b;0x7cd0ffcbcc6f1;0x189b90e7d67cb;0xd28dd02f0dcda;0xf83e7f829e65d;0x6b2df47b1863c;0x35ff09490b4];[0x0;0x83492d6e34d1f;0x3c61663c8268f;0x6e06e21fcd9a2;0xac7c3e962029f;0x8b98640418e72;0xf67c892fff22e;0xf7a66921b045;0xa9c37cfb0984c;0x2cecfe464795d;0x4d82446b9d0dd];[0x0;0x1b80064cc2712;0x28a4988b830eb;0x63599f4bd9d06;0xe6d534308ba7a;0xd531c45ab39ba;0x794e346fbc2a8;0x25324e43813af;0x51470a8f3c8b7;0xfb141317ff2f1;0x34c2e6e9c15]]);
 ((V [0x90e499d98c4bf;0xc4b901afde301;0x2a8b3142be52a;0x73623766793bc;0x9ebe4b3c2c64c;0x4040567219843;0x11bd871e64e8;0x7e511733f01d6;0x96348f4f9b90c;0xbf0d8f00c45] [0x76931d40897b5;0x1449d94ded7dd;0x7e3fde200b1d7;0xd237f7404fa6c;0xe135b9cf2fbd4;0xe3077bf7d9ae7;0xd0e07f621b15c;0xdbf2e4a304e7e;0xafb94132afdca;0xb798f798daf] [0x58baa37fa08c5;0xa3f8031022dbb;0x7efc88122d3c0;0x92e234298246;0x48075eb96cd63;0x979496a3882d8;0x199f4417a84f8;0xc59553745c11b;0x3eac13273a63c;0x837374e5448]),[[0x4e653fdafe829;0x7eeb3c8305777;0xc2bbf76dacaa;0x211ee4af0b9ec;0xc4fff8dd536bf;0x4511cf36c44db;0x7698e20c16a69;0xd3b27a3ee15e2;0x5e63fc49d9122;0x1457ea5b25];[0x872df54533d9c;0xd98e7702a93ea;0xec370b5275357;0x8aa5e7092b3fb;0x45df36c193b2a;0x7d3a4d0cc3231;0x8b9249c6a92c8;0x1e26cc226cb10;0x985b2becb4832;0x34ddd36d207];[0x30a27c5d487ec;0x3cc1970bcf5bb;0x577714754eaee;0x85d214dde9a95;0xdf6a577687fcb;0xc406b2cc97f95;0x2638aa2023e70;0x28ef3d04bc73d;0x4cc204c2c9d4e;0x2b822b773b];[0x30a27c5d487ec;0x3cc1970bcf5bb;0x577714754eaee;0x85d214dde9a95;0xdf6a577687fcb;0xc406b2cc97f95;0x2638aa2023e70;0x28ef3d04bc73d;0x4cc204c2c9d4e;0x2b822b773b];[0xc3c4ab58cf20c;0xbaa217b3e0ee9;0x4498ba3a56475;0x13541e81d783;0xc0d8c7678238d;0xee7eb677502dc;0x3f6e6f11ce66f;0x22ad22014b7d;0x7b127fd08bb9;0x38cd19b328e];[0xc36949ec64958;0x1eec5f4ec8500;0xa79e51181eee2;0x8970a5210dc78;0x85066f5a1179d;0x8ebb969572f54;0x4c23dab4dac58;0x1bfbfa0257f93;0x90aa03efabc79;0xfc10b9b9f79];[0x0;0x73cf88b5151b1;0x925cded290dc0;0xd225b46e294ff;0x4771356dc67e8;0x34ed2306661e0;0xe1f3ad7edb026;0x725fb0e61c207;0x6b257e25fcff8;0x9f9afa8bba465;0x1ae7d3e515];[0x0;0x25bf697921f50;0x7f1e160eb566e;0xfb61dc0a108e0;0xc4478d7992389;0x4ac79cb4c6cd7;0xd9c421cbb2c00;0x205b9dc081554;0x5071f4d4742e3;0xf8170e6f5500f;0x3751c768];[0x0;0x1b80064cc2712;0x28a4988b830eb;0x63599f4bd9d06;0xe6d534308ba7a;0xd531c45ab39ba;0x794e346fbc2a8;0x25324e43813af;0x51470a8f3c8b7;0xfb141317ff2f1;0x34c2e6e9c15];[0x0;0x1b80064cc2712;0x28a4988b830eb;0x63599f4bd9d06;0xe6d534308ba7a;0xd531c45ab39ba;0x794e346fbc2a8;0x25324e43813af;0x51470a8f3c8b7;0xfb141317ff2f1;0x34c2e6e9c15];[0x0;0xc96d81b4993fb;0x7e3a061b9ac5e;0xfbfe699ebcd87;0x6bfc4afb46d48;0x2aed19eaa35ec;0xcf62b7a9f20aa;0x8c306cf79c8bc;0x2839092f7421;0xd97aeb1361210;0x175752a91d0];[0x0;0xfc8c7403b3ab4;0x90418f6fc6abf;0x678bf647b33c8;0x31fccb8ac0843;0xebda28e69996c;0xb77655e896787;0x83363f2c57ce2;0x74c97afcc8ade;0xd43db33e478de;0x7743a3988d4];[0x0;0x46c07b6adbd5d;0xc325b76008e6b;0xb79278af02699;0x703593cf3795c;0x378798cd1c487;0x772ddd2432a08;0x3a1e2764cc60d;0x9cd6475f7ac78;0xb918eefa7321d;0x27744d8a396];[0x0;0xb9e9452185657;0xc63e2630bda26;0xb1a9eb96bcdaf;0x3b044c9a81fa4;0x8654527b3ad1e;0xa3a8ca31c2544;0xfc8055f32c3e0;0x1715be9a9bc5b;0x7db2d14c4932d;0xb82aa66779b30];[0x0;0x1fbc3e3d1a28a;0x1791647ed8eb0;0x6583525d8aa57;0xb19da4c6ac151;0xb5a7c9d364492;0x695b68b84f1d;0x1346908c922e0;0xc149075184bf6;0x3fbb8099cb146;0x8904da0e9d4]]);
 ((V [0xfc677463ca87c;0x5e8d388cdf328;0xd7b9bae9a4993;0xac84a0ebe8584;0x7bebac8ea3768;0x6e36e12181c09;0xee5e4bcc18524;0x3c02417ff80a0;0xdd068f48a4efe;0xe8745d18fa4] [0x4fdbcd6f3f10b;0x8a803ba02558;0x4e58d08640de9;0x4fbc716df42a1;0x54b5770951426;0x5838591913102;0xe5cc5d420a94d;0x4f6d38e5a012d;0x7b2d9dbbc6eb4;0xc62d94ea684] [0x7c0a109c344c7;0xcef8f2e5436da;0x2e7aaafac6854;0xbfcf4362c963f;0xa3e197ed96b06;0x72e1d8570839d;0xaab9a6fdf2e55;0x1b5a550a6716a;0x2ff13e1841307;0xc2dd8dcc55d]),[[0xe60068cd7c5a7;0xdd9fc025fd154;0x344772d166c8d;0x6a5b2fc61cee3;0xb1f326bbc166c;0x59def0e73777a;0xf0a967adc9658;0x8408907637dda;0x6b64635ab7793;0xca5c9949d38];[0x8ed5975d9a66f;0x8709ff2430e3b;0x31996dcd90cc9;0xc80d33236f162;0x1d8d06e48de8c;0xe419559ade0fc;0x15facaa5f7b4c;0x7271969031230;0x48e35b5719bcb;0x655dcabf603];[0x58baa37fa08c5;0xa3f8031022dbb;0x7efc88122d3c0;0x92e234298246;0x48075eb96cd63;0x979496a3882d8;0x199f4417a84f8;0xc59553745c11b;0x3eac13273a63c;0x837374e5448];[0x58baa37fa08c5;0xa3f8031022dbb;0x7efc88122d3c0;0x92e234298246;0x48075eb96cd63;0x979496a3882d8;0x199f4417a84f8;0xc59553745c11b;0x3eac13273a63c;0x837374e5448];[0x40b810449a5e0;0x69ac7092ca6bc;0x534e245d5449e;0x2bfba37f51eed;0x514ac064b19a2;0xd487a03290058;0x1b3b273299cc7;0x6c8856b83b193;0x8a5911ba842dc;0x3ca21f8d4d2];[0x4e1d871900090;0x1d5d8e916677f;0xde4b49703c82b;0x9c118fa41d274;0xcc42467fdc4ea;0xf91b5684e0a3;0xfabfa3735de85;0x5e93fd7f609c;0xbe8a499c958ef;0x28bbab32130];[0x0;0x521c3c708cbcf;0x76c8bf87483f5;0xe7df9de320e9a;0x9b4eb4f789a52;0xf1d6b1b8e2fa;0x50062a3610994;0x776d88f7cbfc5;0xfa39f78862605;0x8b26b5294123c;0x514a02cf686];[0x0;0xcb71d2af00c4c;0x3240e5f75db5;0xf9e45f3c0531e;0x8fe3f8c50b531;0xdcb2cf8607ac5;0xe548498a0b350;0xd8889fa16c5f;0xcc8388747fe97;0xb675879df4aa3;0x67e8a670d3d];[0x0;0x1fbc3e3d1a28a;0x1791647ed8eb0;0x6583525d8aa57;0xb19da4c6ac151;0xb5a7c9d364492;0x695b68b84f1d;0x1346908c922e0;0xc149075184bf6;0x3fbb8099cb146;0x8904da0e9d4];[0x0;0x1fbc3e3d1a28a;0x1791647ed8eb0;0x6583525d8aa57;0xb19da4c6ac151;0xb5a7c9d364492;0x695b68b84f1d;0x1346908c922e0;0xc149075184bf6;0x3fbb8099cb146;0x8904da0e9d4];[0x0;0x33db67a9331f;0xb3a027c943af7;0x8fe3a9781556;0xccb307958c25b;0x92ce00d9c82a1;0x1e0bfe4204551;0x7ee1da75a6e83;0xa53ba4161fdb6;0xf2f8d8a112141;0x83ac0d637e0];[0x0;0x5326979003e87;0x6298269f44e2f;0x7909d37febc9b;0xd865bfb804236;0xb6debdce80e80;0x5ce5c48ef5662;0xb93cc25366dca;0x52d8053c1b9ef;0x32e97667a046a;0x8e953c1afaf];[0x0;0x4b824ed0d859a;0x8dddd88d7cdc7;0x661212bc2d6e6;0x13709e3c49cf;0xef254dd16d354;0x4dbcea4bf62d3;0x1b34fbe56ba22;0x33d88b60b0891;0x6284fdc894c4c;0x5c0b131a447];[0x0;0x94c7e2cbc1d64;0x129249c2c7211;0x30fdba4421544;0x4114dec9a0930;0x43e30c9cca905;0x41504e9fb3af7;0xfb86c514f33d0;0xcf102b4f58a61;0x188bc477e86ef;0xc6a549e80efdb];[0x0;0x6e6eedbb4cb0b;0xea1aa7509a186;0x4dde305762c6b;0xb5afae576183e;0xeff75bfe8d211;0x20d483092a259;0xf6c8cd965114;0x2eedc911dd8a4;0xc18e749b518cc;0xb3f363adcdd]]);
 ((V [0xb10e0578411c6;0x444c7c6c539ac;0x2ebd658372aee;0x21599d298c8f5;0x1936c25366b28;0x371d86dbe208d;0x2b0cd430074b3;0x18dd3f8fd1850;0x4bbcd84c1635c;0x8b9bbf11423] [0x2b21b093a7fb2;0x8971f4ec10bcb;0x1cf0f45484193;0x1c994f2f38b66;0x3851dbd528902;0x967aea5cadd93;0x9c4e990aa4270;0x8fc2f5eb200b9;0x4edd068b1d559;0x847842ff401] [0xf2f74ee57843a;0x2eb606842b8e2;0x5446c223af5af;0x2ada166967017;0xdb785ea8f46d9;0xcbf26a20137bc;0x22be8f606652c;0x9a78b742663f4;0xac6f32bf1ee4e;0xc33902eb8e1]),[[0x8688093c44a80;0xe13b81c6609cc;0xcd7c1a1e1916a;0xb2f86ca7404b5;0x55b75e7a3646e;0xa04749662285;0x4ab6722cd99b9;0x6c0a66ba23f78;0xb024b7db877ce;0x85e0dfaf9f1];[0x40802ed56f05a;0xa0a19b49b6a12;0xedaf46effa2ff;0xe938043c2f51e;0x6a4b35f27d681;0x962a5449f987f;0x39a80b7e0bd14;0xbe64dc1457467;0x5ea3cab8894a2;0xa42d5a77f89];[0x7c0a109c344c7;0xcef8f2e5436da;0x2e7aaafac6854;0xbfcf4362c963f;0xa3e197ed96b06;0x72e1d8570839d;0xaab9a6fdf2e55;0x1b5a550a6716a;0x2ff13e1841307;0xc2dd8dcc55d];[0x7c0a109c344c7;0xcef8f2e5436da;0x2e7aaafac6854;0xbfcf4362c963f;0xa3e197ed96b06;0x72e1d8570839d;0xaab9a6fdf2e55;0x1b5a550a6716a;0x2ff13e1841307;0xc2dd8dcc55d];[0x34ae7d9fdf15c;0x40da2a6e287c4;0x80b57d134e8da;0x5a07b6740c6bd;0x5f47d0ce97fc2;0xe5fb47c3c9d49;0x87c7c63dd6f5f;0x20f315d2a5c70;0x1dcf61f26a260;0xdd9a57937a7];[0xbd1b1358fcc6;0x5fc770db8e24e;0x6cf9c9dcaba25;0x8f304dc822e61;0xb036523e56bf;0xb02f0c862fb36;0xb1e0454034db4;0x9d71c641b17f6;0x40d468c61f242;0xc69302e47e2];[0x0;0x1c53f7cf063d0;0x38b94bfec1543;0x75149aa0aeaf2;0x82ac715fa9342;0xcee1faf7c5878;0xb826788a32b8;0x45bfd9844c5ce;0xc104a45e848e1;0x5ec00b924d392;0x78812717edd];[0x0;0x3a21e38fdf5aa;0xdf8112c3a1d31;0x9928c957fd976;0xa44b7c566adbd;0x575488b8774af;0x2a6edb117103c;0xc019bde0762f;0x6677f26f9dde6;0x6cec50c8f7760;0x65e846cbe87];[0x0;0x6e6eedbb4cb0b;0xea1aa7509a186;0x4dde305762c6b;0xb5afae576183e;0xeff75bfe8d211;0x20d483092a259;0xf6c8cd965114;0x2eedc911dd8a4;0xc18e749b518cc;0xb3f363adcdd];[0x0;0x6e6eedbb4cb0b;0xea1aa7509a186;0x4dde305762c6b;0xb5afae576183e;0xeff75bfe8d211;0x20d483092a259;0xf6c8cd965114;0x2eedc911dd8a4;0xc18e749b518cc;0xb3f363adcdd];[0x0;0xb4ffb302075fb;0xec04e4f05a111;0x228de586a3eec;0xaf19967a72504;0x1787c8efe1bb4;0x66860cf1acde1;0x486168c577cba;0x1f106950e65c2;0x7711394d7ed3b;0x996a8a784a5];[0x0;0xc7bc0b3e60e66;0x64022e32c23cd;0x4f1464faad20d;0x571db2e422607;0x20f3d5b0ef955;0x5d59d76e53132;0x8ffa8342ba3a5;0xc0e9f5ec9e080;0xb088f8717b492;0xd3131da1c62];[0x0;0xcfc7cab5c698c;0xc14232eb70dba;0xaf48f01c4c6;0x27d63e692f2df;0xd3e50976a3029;0x494091a5cf0b9;0x4fb1a993a88dd;0x1c6f09d0652ce;0x4f05d5c967877;0x5988821dd29];[0x0;0xab0a24a41d5e9;0x5ef9df1e1b30e;0xe279db5147d3d;0x3fb07eba80827;0x94c16d4c5960e;0xabd8e70f225d6;0xde8aef0351b23;0xf7712b333ad50;0x1ce80da871c5;0x84a7c6bf5fad0];[0x0;0xcb646eaa98afe;0x79a00f2082de8;0x3221ef5fc6a76;0xc4c522cdd3858;0x9ca0c50e410b8;0xc0b5bcb33d2a7;0x884bcac13b47f;0x5d8b542c63ba6;0x25870a128d3dd;0x483de40fd09]]);
 ((V [0x2d6a0016500ff;0x518eaac55242b;0xe3402898e3f4e;0x6b4b364e14b2c;0x8f37cb7ab9b3;0xb625766e9a542;0xf01057ed65e22;0xfed987cca1ede;0xffc1a8ffd0063;0x5acbf90259a] [0x3c013ef5d8a34;0x260b5021af3cf;0x2f7e215e85050;0xa9f2d28f7cef1;0x1b53fe7676af6;0x1756a769a2f84;0x4e773936d1a50;0xa1390a4ee9eb0;0x1efb333567e07;0xbac2eb8eb58] [0xdd066eefb325;0x71f41077bf375;0x38e7be31449f1;0x634909fd094b8;0x593c74a6ab895;0xbef36d0e3b2e8;0x9c2ed1a1843cc;0x3efeeae210f98;0x84195c28ab4dd;0xbe1ff678347]),[[0x1cbd43bb7a851;0x93cd7a7d4aa0a;0x71782c18faefc;0xe25dfec624ad2;0x9bc9e6d798c50;0xf61e9da0da600;0x39a75ed43faf1;0x2a9b9cb2087e4;0xa8a34689d665f;0x3a9234d49ad];[0x69e3d8819cd57;0xe01c60d44349e;0x5afb36db4b214;0x8d203e02b9cea;0x45750fab6485b;0x20589ec3c9ef1;0xfc105028b18cf;0x6817e8c05df81;0x4ab824a5e7eb8;0x55476730bb2];[0xf2f74ee57843a;0x2eb606842b8e2;0x5446c223af5af;0x2ada166967017;0xdb785ea8f46d9;0xcbf26a20137bc;0x22be8f606652c;0x9a78b742663f4;0xac6f32bf1ee4e;0xc33902eb8e1];[0xf2f74ee57843a;0x2eb606842b8e2;0x5446c223af5af;0x2ada166967017;0xdb785ea8f46d9;0xcbf26a20137bc;0x22be8f606652c;0x9a78b742663f4;0xac6f32bf1ee4e;0xc33902eb8e1];[0xa0828d60bbbce;0xe9478b681d801;0x7c180d663a632;0x808c6e8c9f7f2;0xa83b0a829f397;0x506de05884813;0xeeddb49ecb3f6;0xba40a056a55a1;0xee2736c3dd8db;0x844d553538f];[0xc9614b20e0f51;0xf6d4d56c25c9c;0xdee3297510be1;0xc93cf761a4f7;0x9d3a0528c54c4;0xcfeabe6b456dd;0xd329b89e64d8;0xadd74869b89e0;0x5c90ede20a5dc;0xd0fa11fb822];[0x0;0x64f0f6d0001b9;0x8dba125bce4d7;0xcde76e769920c;0x5ec67bd40d3b8;0xee0078ac5ab4b;0x2627e8b1d9444;0xf606e8a11d3b;0xf60380a255fc2;0x58457f9a7bd1b;0x78b9b5bbc2c];[0x0;0x64d4ea0fa3ae5;0x2579b8729e058;0xf78e517c5ead6;0x112ee239e3f3e;0x4edbdbec49821;0x990f198265f57;0xbf86e5cfa9ab5;0x6c83410afb6d;0xe53fa903be86c;0x2caa6976be6];[0x0;0xcb646eaa98afe;0x79a00f2082de8;0x3221ef5fc6a76;0xc4c522cdd3858;0x9ca0c50e410b8;0xc0b5bcb33d2a7;0x884bcac13b47f;0x5d8b542c63ba6;0x25870a128d3dd;0x483de40fd09];[0x0;0xcb646eaa98afe;0x79a00f2082de8;0x3221ef5fc6a76;0xc4c522cdd3858;0x9ca0c50e410b8;0xc0b5bcb33d2a7;0x884bcac13b47f;0x5d8b542c63ba6;0x25870a128d3dd;0x483de40fd09];[0x0;0xef6bb4887bc5a;0xd00d6c9ddf479;0xf8fbf4f27c309;0xf09c9c97e52de;0xca542711e30fe;0x2edb6c8fdceda;0x8691d3b27fede;0xde55dce7a1609;0xa446963b53e86;0x448c3d961ae];[0x0;0x4b4bae0dbd795;0xd66c104822d09;0x83acc5a675a75;0x3bf1ef4b927a4;0xd390f20a39bcf;0xa5d818da93630;0xc487691ec3cf;0x56308902dbdf1;0x631c125659d2b;0x4c22803dab6];[0x0;0x34a41f9abfc2c;0xb61f579f76101;0x975a680c1f75f;0xb415c7b7aed26;0xd4abd0a2c0c50;0xdb3b46e25f2bc;0x13a8271a01bd1;0xf67f5099dc784;0xcf1728dbc8e08;0x1e3f0cd9313];[0x0;0x9dd062e1f26d0;0x4bce02d57820b;0xce48151e2d1bb;0x4b85a6ed759be;0xcf1dbe51d63ca;0x4c7ac98b10fe4;0x41db40571ab96;0x270cca4019cea;0xf6ee3a00adb62;0xbb3f77aab686b];[0x0;0x81a0b5934c021;0xe9bc0364f23b1;0xbbf17a620255b;0xfec26d35041ae;0x7faa88ab2549e;0xfc802ed4818b4;0x5d30ac4006b7d;0x1c375cea5828f;0xb6905c4af660d;0x423d550a440]]);
 ((V [0x639aee5d9713d;0xa1d2ad1eac244;0x55b75b4b5b349;0x8ca40ba2334d1;0xb36ff4eaf80fc;0x66778e8ffcc21;0x922869cc7f844;0x660ebc0b9ecca;0x6a17307a06789;0xaa710c70612] [0xee9d466d2ac6b;0x75a4b06146fd0;0x8847d318d495a;0xf43467bafdfb4;0xf3833404912da;0x3409d6dc0c413;0x9c2eac1685a1c;0xa86933cd090be;0x6481ad440558b;0x8cd75c7f25e] [0x157f2f6b97b3d;0x56d7c77ef2969;0x3b1986fa18ad1;0x1aef0adcdb69b;0x46565f792bcd5;0x42a45b9139c62;0xb08cbcd61144d;0x8dab4ed18868b;0x3b332d6dacdfc;0x2b6ce0698c0]),[[0x3eaa19de66a89;0x661889246b26a;0x1b83f1be47710;0xe6174038af2e2;0x9558a6266e3b0;0xfbbf1bffcddea;0x211aefa9fbe7a;0x968cba98efbac;0xd0e4e642f41e1;0x5a42dbc00f];[0x98927bed163a7;0xaeea1a31e8de8;0x22a3b77a4af7f;0x7821481be070b;0xe1918e6758dec;0x1bf2cfb04e167;0x40b1bb696d02a;0x6dc22cfb554dc;0x27d3d49a1ac2d;0xe184b09e9e1];[0xdd066eefb325;0x71f41077bf375;0x38e7be31449f1;0x634909fd094b8;0x593c74a6ab895;0xbef36d0e3b2e8;0x9c2ed1a1843cc;0x3efeeae210f98;0x84195c28ab4dd;0xbe1ff678347];[0xdd066eefb325;0x71f41077bf375;0x38e7be31449f1;0x634909fd094b8;0x593c74a6ab895;0xbef36d0e3b2e8;0x9c2ed1a1843cc;0x3efeeae210f98;0x84195c28ab4dd;0xbe1ff678347];[0x2b81055ded10f;0xa29441f8d56e0;0xfdf961eb91386;0xd2dd2df8149b;0xa7971f5289c97;0x7ba58d263fd71;0x1907fbb564929;0x1ab6fc29ac129;0xb5e1ff5e078e;0x6bd7ca5d0ed];[0x6d11768f29299;0xc55d83913708;0x24aa558eb9bf9;0x6af3753c5f26f;0x39fa6f14cf155;0xa04d428a0e3f6;0x27a9bfb408700;0x530b30d1a93b3;0x1c75b4a43a49f;0x75ace6418f4];[0x0;0x653fa4fd9a1c1;0x4aa78516396f3;0x7d63656f0fe6d;0x58715bf4309d2;0xc623e88645032;0x5b8a52c823f71;0xdf075035dc43b;0x6873ae031bf9b;0xa3d229cf7ce57;0x7592ab74d69];[0x0;0xa180a06f781aa;0xbd0c84e283faf;0xa082a38378494;0x13a8c93b9ad9d;0x4aee7c9628f9d;0xdf6c5bf123b64;0x29e4915f242b1;0xace67af0c7dd6;0x80828ffeefb;0x4308e417c9];[0x0;0x81a0b5934c021;0xe9bc0364f23b1;0xbbf17a620255b;0xfec26d35041ae;0x7faa88ab2549e;0xfc802ed4818b4;0x5d30ac4006b7d;0x1c375cea5828f;0xb6905c4af660d;0x423d550a440];[0x0;0x81a0b5934c021;0xe9bc0364f23b1;0xbbf17a620255b;0xfec26d35041ae;0x7faa88ab2549e;0xfc802ed4818b4;0x5d30ac4006b7d;0x1c375cea5828f;0xb6905c4af660d;0x423d550a440];[0x0;0xdcbff26ef1e77;0x3d88af7ff926a;0x9ad547c713031;0xa137c063b7f99;0xee8e58bc13f;0xa675f6dee45e3;0x188a5322b3761;0xb2cf329201f59;0xb3a0a1d1d682e;0x883fd2b53cc];[0x0;0xdf87c649d5958;0x33d2286385ce7;0xae418ad1f464d;0x38a2c8f27789a;0xf3d445a416028;0x1b2797486b6c6;0xdf29c67cd2bea;0x7530bc341f058;0xf8cda5df5b24e;0x20340d9a82f];[0x0;0x978b6e6e71152;0x664791ac6db6f;0x5ee32daa8dad5;0x99d7748547cff;0xdbc3a9aac51ae;0x1e777c7b5b006;0xe7fce1272689d;0x8f3e546cec71e;0x610fa1ac006cc;0x9625b3d082e];[0x0;0xba9c2868b0a02;0x6f34b09214cce;0x268b5a5a1f9e8;0x9696eed2ffe43;0xcffb361236c9a;0xc7cf7dc74ac15;0xf875e3d51d28a;0xc3f14432cc161;0x5db28c22eac52;0x8ce821932246d];[0x0;0xb8788824be8ae;0x746172f09b73d;0xe94172beb85c;0x3c40b3c876835;0x6495f6d0fc15e;0x2af493830c1e7;0x930cfdb37f5e5;0x9ff4df9c0ea0c;0xbeec5a743bf70;0x5dc535542f4]]);
 ((V [0x69f89b2930cb5;0x20517dd3e914f;0x4dbea93a095b5;0xc746be1619e96;0x69a826a8cf52e;0x447b0150ad737;0xfa5322748f39a;0xf4694b80bd1f4;0x9d60af259cdb7;0x79fd5e006d8] [0x99f2d20613c48;0x1da33f6d2f15a;0xae4669097a527;0xd794dfa3e6c24;0x25c37159d11cd;0x7d02bf664de20;0xd00e1e5da61c0;0x46c6c9484fdea;0xaa955870a9140;0xdfa65630e0f] [0x4c42328215e12;0x60301670ada2f;0x26d2376a108c3;0x1e18e2d35bb53;0x48507931e7fb;0xfc6969f75a3f1;0x65c541376fc45;0xcdbf569f3487e;0x3d30e0441e324;0x4e0590a44fb]),[[0x23af0727f4476;0xebff1f1e1877b;0x50009f93abd8f;0x523762ddef7b0;0xee40652db6731;0xb3b7db5054252;0x461e69b4ca66d;0xdc7af0e651a65;0x47a8a3ca2297e;0x93f169e4825];[0xc66e4b3935183;0x65757703fe9a6;0x93b6a14a0f5c4;0x86dc2690aa3ac;0x664ceb3738da8;0xdbe7cf16c095;0xc1e98d3ed1116;0xf5c682ecbb46;0x680e8ccba1cd7;0xedfab2bceff];[0x157f2f6b97b3d;0x56d7c77ef2969;0x3b1986fa18ad1;0x1aef0adcdb69b;0x46565f792bcd5;0x42a45b9139c62;0xb08cbcd61144d;0x8dab4ed18868b;0x3b332d6dacdfc;0x2b6ce0698c0];[0x157f2f6b97b3d;0x56d7c77ef2969;0x3b1986fa18ad1;0x1aef0adcdb69b;0x46565f792bcd5;0x42a45b9139c62;0xb08cbcd61144d;0x8dab4ed18868b;0x3b332d6dacdfc;0x2b6ce0698c0];[0x2c8e4b92cd03d;0x523ecdf423fb4;0x4914b07dafb43;0x6a092c8210620;0xe44b43dbf222f;0x7c909969816a2;0xef386539cbe97;0xb48917b0e4060;0xc0cb108c562a5;0x6d9c463d197];[0x99dfffa668147;0x1336a90fda9f2;0x4aa1f0cc5fa81;0x1cd2fa0e99d8c;0x8201a75b46b79;0x912de387ea9f2;0xd2b128050527e;0x5ad3507de7ae5;0xa7437c3f4ba31;0x805e6c7fd67];[0x0;0xebe98d6172b96;0x9e83e71056dd3;0xd7b908bb9544c;0x3702299a04733;0xf684f5083268a;0xdb9f3ae329f02;0xe970211c09d51;0xf5ced09bdecf7;0xe4863880eeaab;0x1adaa8f8b24];[0x0;0xe4952e93cc68d;0x8ce593bc5db33;0x52541a02761d9;0xf72e4b06b5ff8;0x5010146e69e36;0x29ae8cd40d01c;0xb64c6dfc5a967;0x992e771480234;0x1b648adaf7a09;0x1918785249e];[0x0;0xb8788824be8ae;0x746172f09b73d;0xe94172beb85c;0x3c40b3c876835;0x6495f6d0fc15e;0x2af493830c1e7;0x930cfdb37f5e5;0x9ff4df9c0ea0c;0xbeec5a743bf70;0x5dc535542f4];[0x0;0xb8788824be8ae;0x746172f09b73d;0xe94172beb85c;0x3c40b3c876835;0x6495f6d0fc15e;0x2af493830c1e7;0x930cfdb37f5e5;0x9ff4df9c0ea0c;0xbeec5a743bf70;0x5dc535542f4];[0x0;0xb1fe4836ee7a4;0xf75d1d22e93ac;0xb811a206386e8;0x628ce1503f6a6;0xf46242f081b5c;0xc5c310952334;0x954ce3ed425c;0xabf849820cb29;0x12a0e992214ca;0x4d7c4257907];[0x0;0xeec8e148cc6ae;0x233ab40dace44;0x97e1fe349bf40;0x22d657af5acfa;0x678a8212537bd;0xceef4e517dda6;0xb3942f4528129;0x18a6d9e898631;0x7ccf8137c1ea9;0x717a56713cd];[0x0;0x746aa02028d56;0xbf770ae503890;0x580ad2202b990;0x2a588f8653669;0x9fb748b8a78ec;0x329ad4ff94cf3;0x6aed21c0aed4a;0x899a9d77eb6e3;0x9e9e5c9f38adf;0x716706a0659];[0x0;0xfdd8151e29afd;0x51b693bfbc3a3;0xf4d47d823de1c;0xe9cf98e8f7120;0x455ff6e8ed90b;0xd64c32fdc6d5f;0xe155a9c362e6c;0xbf16495b61998;0x74e0e828b6f8d;0xdfb61484afb7e];[0x0;0xa818ac49fd07a;0xaf0824f6568b2;0x5a78d7e1e12bf;0xbdc88f830e1cb;0x9105cbcb5b02a;0x7ed8fc4c89cad;0x418ed63d61080;0x400ad5f6b6c9e;0xd02145cc0e7ee;0x6a92f83fbbf]]);
 ((V [0x9543190010008;0x49ea558ae0df7;0x172fe575ff66a;0xc0b8ef9aa2f5e;0xb94d6ef12db80;0x6569d580434e8;0xfdaf7bab1fcb;0xe4d5ac068a12a;0xff11c2f749491;0x8281188d0b8] [0xd8e7d028a1972;0x115ab570cc3db;0xf6804c5177ab9;0x5487d1bcbe77f;0xb97355806988b;0x75a923b94c8f3;0xfca53f5740dc3;0x9f2fa4277d6cd;0xc4092e3f10b75;0xa4235f10602] [0x686a6dbbd1457;0x6f9053c48653e;0xcb7c7679437d5;0x2cfdcd6e3f63f;0x746b16598b3be;0x90230503a744e;0x17a971c243458;0x4a38942c5a936;0xbd9fa6d15e37;0xb9a33c2501d]),[[0x63375cce53268;0xa773fabfc2e7a;0x94f25e5637a6e;0xd66cc6ecae94a;0x6c5a823594874;0x28729624582e;0xccfcaf75a31b1;0x930c521daa5c2;0xebca1efdb7016;0xfd34d1ca100];[0x4511339ca18a0;0x1da6fb318f34;0x189cd41af0e85;0x450c39af49184;0x2c7d26d5cd712;0x7de4d39346fb3;0x46acd09f44ed4;0x76587be844b87;0x1d85c8da7d8d4;0xc57bc701b1b];[0x4c42328215e12;0x60301670ada2f;0x26d2376a108c3;0x1e18e2d35bb53;0x48507931e7fb;0xfc6969f75a3f1;0x65c541376fc45;0xcdbf569f3487e;0x3d30e0441e324;0x4e0590a44fb];[0x4c42328215e12;0x60301670ada2f;0x26d2376a108c3;0x1e18e2d35bb53;0x48507931e7fb;0xfc6969f75a3f1;0x65c541376fc45;0xcdbf569f3487e;0x3d30e0441e324;0x4e0590a44fb];[0x9483b7cd3d3ae;0xebf70e360b073;0xd1d8079a8b4d4;0x218b7963e0db;0x6d216448ff804;0x9da7c1066138e;0x25176f3eba5c6;0xb4a1ff7401e57;0x789eea0c72530;0x6916ad83ae];[0xb08d7bcf644f3;0x15e3617d0dec0;0x46c4cc80659b0;0x42f382190b0a8;0xbf5bc28ccdf0e;0xe03d128ce5c24;0x219561608a90d;0xc1b67c7442d30;0xa4e6dece0b3a3;0xbeea5c2976c];[0x0;0x4dc7586f58908;0x35f447264751c;0xb1898aff16aae;0x4c8c32a463a54;0x5b4e57cc18ce7;0x61c74a7aa0450;0x25ad185844df1;0x33d6ad7de6d41;0xa902829e64cc;0x303f9f7fbcf];[0x0;0x43001c33907d0;0x3aee9ee145672;0x10e6e6d8868b0;0x33cb74646f5ea;0x22136ea80b0a5;0x5a2a0e792ae97;0xddbd9f5f3193d;0xb6e8e06f642c9;0x405aa0b0b4340;0x4d2b9903e48];[0x0;0xa818ac49fd07a;0xaf0824f6568b2;0x5a78d7e1e12bf;0xbdc88f830e1cb;0x9105cbcb5b02a;0x7ed8fc4c89cad;0x418ed63d61080;0x400ad5f6b6c9e;0xd02145cc0e7ee;0x6a92f83fbbf];[0x0;0xa818ac49fd07a;0xaf0824f6568b2;0x5a78d7e1e12bf;0xbdc88f830e1cb;0x9105cbcb5b02a;0x7ed8fc4c89cad;0x418ed63d61080;0x400ad5f6b6c9e;0xd02145cc0e7ee;0x6a92f83fbbf];[0x0;0xbd6b293e8a2de;0x15bfa570774c3;0x4a33bf423784d;0xaf0e87ac11d5a;0x361fc6001db09;0x3d75c46d5c52d;0xb3a0f4ac1efc9;0xef980bd434232;0xd589429ac1f54;0xc363363d0c5];[0x0;0x9e6b467ad6cca;0x252fac553fedf;0x298c7bcaadb79;0x643a0d08aa8dc;0x7313e89be6ede;0xe7ce6272b9e50;0xe7ea106f29c3d;0x92c5e3ef1016b;0x91f38d2ca9e6e;0x3a217d9f56e];[0x0;0xa2930afd8fffc;0x275e71dca0b6c;0xbfd8a421c2d4a;0xea0a69828a554;0x221f33a698efa;0xa070ade1ab23d;0x74a1395435d56;0x31eefc1b69172;0x6fac512e26149;0x64ac715e8cd];[0x0;0x6236c5e2da742;0x313570d3afc9f;0xdd491ceb0e6ac;0x7d40d97ae2061;0x462a7c4fcaf97;0x8c1cb678495e8;0x80dd3ac142dc4;0x506213f84d15e;0x4fac7c211e2f4;0xa448e3dab1b09];[0x0;0x991d1b110a2ff;0x1547752715482;0xb813437b2f879;0x22282e35aeb9;0x7ceebd3e8b5ac;0x5f38c76ccad1c;0x3fe83f03b65df;0x48364b0a253a4;0x5a38f6d44481e;0x53acbbd6f7e]]);
 ((V [0x13c7d530a0840;0xb7ca09024ba99;0xc078153926936;0xfd2185a3de37c;0x5af6df75f2d6d;0x420e874d64e40;0xb1c5456bee268;0xd7804a3b93d71;0xe62bc2079837c;0x93eda490321] [0xfacbf6a273b2e;0x8b50b6f61bb7f;0x8b76816b9665e;0x266678dc40e;0xbdbdd36671c3a;0x976c4153f5f8e;0xc4fb473e4876b;0xc5ae5ab9a8290;0x91039385ecc53;0xc9f5ba2ff67] [0x90b27a6a17533;0x90db043fc3678;0x6fc555bed476d;0xd4022e0f45cc4;0xaeb768905e284;0xdb1bcb5765dff;0xaa42dcc05593a;0xce2e25f0a0d26;0x35baf25e2e329;0x8b01cbb442a]),[[0x7a7cd96394388;0x81d897ba2a366;0x393e1fb49f3a4;0x33601337d2c9c;0xba97043c28902;0x6f77600dc521d;0x8e4fa21046e0f;0x32c1033cc69a;0x3fc1b35362e3e;0x3e3ff1e6e1d];[0xa9b05133638db;0xbbc9e80282beb;0xf97dafc69e3a7;0x82a5fe1a2f0f9;0x2f088cd90a4e3;0xdb6423de56b58;0x62230edf66932;0x8d5eb03eb7db6;0x96640bbdc9f12;0xcdc4b8ebabf];[0x686a6dbbd1457;0x6f9053c48653e;0xcb7c7679437d5;0x2cfdcd6e3f63f;0x746b16598b3be;0x90230503a744e;0x17a971c243458;0x4a38942c5a936;0xbd9fa6d15e37;0xb9a33c2501d];[0x686a6dbbd1457;0x6f9053c48653e;0xcb7c7679437d5;0x2cfdcd6e3f63f;0x746b16598b3be;0x90230503a744e;0x17a971c243458;0x4a38942c5a936;0xbd9fa6d15e37;0xb9a33c2501d];[0x2c4919e7f35d2;0x8a1fcac9caa84;0x17db033b71c44;0x3651cfdbac7ff;0x7cdcd9fd06029;0xbfdeb32940220;0x27eb7cfb1aae0;0x574ad3805871;0x6512de3e0f86c;0x7ae7d810f39];[0x7d67374b7030a;0x31aa1d38b8167;0xe1a2ac8b2c763;0x4c542e3e828fa;0xb22bb2dc044ba;0x1b8570b516937;0x3a3791e44be52;0x87ea0306b2545;0x31512d7fba6a6;0x52dce0dab86];[0x0;0xdbdf521dc7018;0x590b71152b6c6;0x517233515ac1b;0x71c78a8e6085a;0xf145e0a4abd52;0x80610811a6848;0x1a363633a23f1;0x7122ff5390ccf;0xd68fba61a3045;0x72cc4c5439b];[0x0;0xf11d63d5836bb;0x30fc611e394d7;0xa018134a59d46;0x63bc1a92f86d3;0x1027ddea15128;0x9adf31851375;0x5fff849c19928;0x7b1602dda0890;0x51077fbd93ca3;0x2d23e726db9];[0x0;0x991d1b110a2ff;0x1547752715482;0xb813437b2f879;0x22282e35aeb9;0x7ceebd3e8b5ac;0x5f38c76ccad1c;0x3fe83f03b65df;0x48364b0a253a4;0x5a38f6d44481e;0x53acbbd6f7e];[0x0;0x991d1b110a2ff;0x1547752715482;0xb813437b2f879;0x22282e35aeb9;0x7ceebd3e8b5ac;0x5f38c76ccad1c;0x3fe83f03b65df;0x48364b0a253a4;0x5a38f6d44481e;0x53acbbd6f7e];[0x0;0xe0159b017df7e;0xc37d72557bd13;0xb2a3d46386460;0x31a9a79f01036;0xb6ac251681db7;0x92f5d66e6580;0x10f84f0dcfa4d;0xa87e35e834bd5;0x2742ddcd7a35;0x693d56b01d0];[0x0;0xd3e4a6489111a;0x1493f89e6ae89;0xba7cea42ff39c;0x4390f8172e043;0xcf58e346b31c3;0xbfaf6e113f59c;0x34724de035e90;0xb65fc32295220;0xe97d258e4cbfb;0x42875e09003];[0x0;0x59be2f667471e;0xbe886f6126c50;0xc286c5c8a6e6c;0xe83e71a951ea9;0x10f47019c3490;0x37a3b809ef58e;0x87e539d2ff03;0x31f38d64869a9;0x642df9029bc3d;0x76e6f994735];[0x0;0x9e62fd316bfc1;0xd8033b6506525;0x52031d04be3e9;0x1c6c2f1c2cd3e;0x889eddc9c485b;0x2eebbfd5c507;0x5736b8261840b;0xe5f928a3e1a47;0x15b89f8513b66;0xca1d5af208f06];[0x0;0xde35acb352b4b;0x9d993c5e3a56;0x28c48f72952b1;0xe87467ed63403;0xf0fd244413954;0x6258e10f4f6a7;0xd9dddf12a50c0;0x5be89b4a0bfea;0x81e52bdf19a78;0x74b3943a15f]]);
 ((V [0x329f118a8ceae;0x2637af6f1265d;0xf8a4b486acf8b;0x84dd629c83bec;0x261be86ccbc1b;0xb95ac2064fed6;0x1556ac7403f18;0x404b29d045dfe;0x30b839f1a19bc;0x33383247a39] [0xc60b575875071;0x8945f3c273a86;0x50cc2bee2b502;0x687260827d15;0x176aac53b6535;0x447ea745a13ec;0x80ddbad7d3e70;0xd94d6063ec9b1;0xfc3b1eb5be409;0x27bf3755793] [0x443fdfa747e4c;0xa9bc17fb5e102;0xa620ee510d7cd;0x90bf081e114f5;0xaa357ed7c62f3;0x6df0d5db95194;0xdaaae8054357d;0x40b77b2d87d8a;0x29b636c852f6c;0x3f0b25fa006]),[[0xe1a4d82a7e58;0x3fc3a86932945;0x9400cf4b4e153;0x1770dc0007897;0x5f31c409674e5;0x72f2640c73473;0xa28b3cef0c05a;0xd5e921cf72833;0x377aa33ce0936;0x11897b285a7];[0x5b6630680345;0x4fabd5698137d;0x41d22833b02f8;0x5b94f353d737d;0x8087684ecaa9d;0x539c6c0307861;0x3899d51533cf6;0x423dce0137342;0x6056caa596af2;0x8dba353f88c];[0x90b27a6a17533;0x90db043fc3678;0x6fc555bed476d;0xd4022e0f45cc4;0xaeb768905e284;0xdb1bcb5765dff;0xaa42dcc05593a;0xce2e25f0a0d26;0x35baf25e2e329;0x8b01cbb442a];[0x90b27a6a17533;0x90db043fc3678;0x6fc555bed476d;0xd4022e0f45cc4;0xaeb768905e284;0xdb1bcb5765dff;0xaa42dcc05593a;0xce2e25f0a0d26;0x35baf25e2e329;0x8b01cbb442a];[0xdac98e45c53f3;0xf18f297a82794;0x36c5bdddf6d05;0xed9972435a9f;0x15fd72917a27a;0x5029de8616192;0x2a7b9e582c5c9;0xd662ff5bce168;0x4a35221235669;0x695f48de202];[0x2aecd4c0baf53;0x5e1cabeefebe8;0xb0c6a55b95f2;0x4cbb5c2fa18de;0x6a89f5bd50823;0x3728d7cf16cf;0xe1e36bd0772d;0x6bdacea5691da;0x1621a89361488;0x245aec6168a];[0x0;0x642dd8842eaa8;0xd8ab5216cd4dd;0x378f04193c0ee;0xd844f4d7656;0x2c8308e5b0f97;0x5782c13cb6893;0x82806bef9b083;0x9ee6a2382ad2;0xc745bb755a35b;0x55f63412ca8];[0x0;0x226eff2eb9a5;0xec9bc7d74663f;0x2b8b7b76f37fc;0xa87bbde520e04;0x1c6619b537330;0x373390c81adc7;0x7db6f5278d3a0;0xe4c7a014c4fd7;0x94717bb3d7c66;0x985c55cc22];[0x0;0xde35acb352b4b;0x9d993c5e3a56;0x28c48f72952b1;0xe87467ed63403;0xf0fd244413954;0x6258e10f4f6a7;0xd9dddf12a50c0;0x5be89b4a0bfea;0x81e52bdf19a78;0x74b3943a15f];[0x0;0xde35acb352b4b;0x9d993c5e3a56;0x28c48f72952b1;0xe87467ed63403;0xf0fd244413954;0x6258e10f4f6a7;0xd9dddf12a50c0;0x5be89b4a0bfea;0x81e52bdf19a78;0x74b3943a15f];[0x0;0xf3fe82043c927;0xd9fc399f61c13;0x4a713a3dd7008;0x1ca7304fd362f;0x157397d5f1262;0xf9270209d220a;0x41fdba6428914;0x67f19a594a8e7;0x19a57415ec1a9;0x9f53ca3d384];[0x0;0x1b404c02e3deb;0xce93dfb9b958a;0xe588500ba0edd;0x4c4ef81a8674c;0x7156ac2bd9cf9;0x520c7a2519210;0xbd4d670b0ba90;0xd4abe04d023c8;0x4c316381fad6b;0x557ac797b65];[0x0;0xe229bddcd9b62;0xeb4fdb4442d9c;0x2e85dac3af664;0x3d9d39501ecc5;0x76f646371d57a;0xc7dd60618bc9c;0x13884298b9005;0x713f548fdb61f;0xf83ef57e9820e;0x1c5b352d55b];[0x0;0xdc04c7bd67334;0xd1758075724a9;0xa3103dcb4f6c9;0xccfd12a131ebd;0xe938c80995105;0x7ad863193e5fe;0x32283e7f79a7e;0x97521c7c993d;0x19a3b3f6bca7a;0x27d0f55221fd6];[0x0;0x7d44d8c4b676e;0x83f13b032bb8c;0x9219bc61fa24e;0x6f231fce3a88a;0x1216e6990e41a;0x87e5f45673213;0xa5f9ff19e73f5;0x1e53ef6629bb8;0x6d9242eecd7cb;0x7f3d1a89a1]]);
 ((V [0x979b00e2fce28;0x7ae6b18d526d3;0x962d583ffa28e;0xc3e4104a06d92;0xc103a6bc33a5e;0xa6a30746a53c1;0x2980d878d22b4;0x5fed8e0e86c9d;0x8ca3bd48a8e08;0xedab6065d3e] [0xcd2cf143daf2f;0x410937b03e9d5;0x606512f7b1c87;0xcb5d609a2682b;0x9fcba810824d;0x89eae4262313d;0xe2b576a4fad8e;0x5c5b1d4a41532;0xa8f185aad3c6e;0xd5f4e7c1c8d] [0x5be82f57fcd0;0x3b6c01e5a83af;0xc722c695fbab;0xfffa55e4d8606;0xc3bad10ec4cd;0x9b76143511262;0xe00e9c7f2c6d1;0x668a14a59ab36;0x86baf93228787;0x26862564136]),[[0xc62560a05e76b;0x36e65757b1ef7;0x27134608d7eeb;0xb74d6801e8baa;0x67fe323c34c00;0xa64994aa34a85;0xce978a694ac2f;0xf469ab8dfaafd;0xc7fe1b380e993;0x54ae00d4751];[0x19aa07ae01695;0xfac15ee9a1c1a;0xa17cddd19ae68;0xdbcee84fefe1c;0xb139eeaf8b8a2;0x9cff89e430d73;0x5b511ce7acdea;0x25d32b9334e77;0x6765a8571dbe9;0xc24ead2a603];[0x443fdfa747e4c;0xa9bc17fb5e102;0xa620ee510d7cd;0x90bf081e114f5;0xaa357ed7c62f3;0x6df0d5db95194;0xdaaae8054357d;0x40b77b2d87d8a;0x29b636c852f6c;0x3f0b25fa006];[0x443fdfa747e4c;0xa9bc17fb5e102;0xa620ee510d7cd;0x90bf081e114f5;0xaa357ed7c62f3;0x6df0d5db95194;0xdaaae8054357d;0x40b77b2d87d8a;0x29b636c852f6c;0x3f0b25fa006];[0x6aa591bc277d1;0x81d42e2eaae1;0x88624acb58480;0x9ff1e9479953d;0x411839e473741;0xb1c11c659ee0b;0xc85012bb607fe;0x8df1df550a644;0xe0de06f31284a;0xa244c0e072b];[0xaf0475f1d9ec5;0xf2a41c06b7138;0x191a9306429e8;0x3bdcff08568df;0x7021b4cb18161;0xeb3e6d7e91f68;0x93010a2c4c5eb;0x97e14c3e2a832;0x8687a1640b39e;0x2009ec49ed7];[0x0;0xcf88735871503;0x147d3632281f3;0x6defb128a100e;0x5c00af3ce648c;0x31f06c35c901e;0xe13d2200ac9d5;0x8f832c038f3e3;0x6b33cc2503c5;0x587a92ec94d72;0x26fc6cea8ba];[0x0;0xd88cb3dbf8b59;0x8400459b32870;0xb6cee020b5416;0x4a21527a2cc97;0x4b715e435d5e9;0xd6329e3f7def3;0xbcd6b3f585b33;0xb0c23c1cd2421;0xf2e1c153531ca;0x14da823e2a1];[0x0;0x7d44d8c4b676e;0x83f13b032bb8c;0x9219bc61fa24e;0x6f231fce3a88a;0x1216e6990e41a;0x87e5f45673213;0xa5f9ff19e73f5;0x1e53ef6629bb8;0x6d9242eecd7cb;0x7f3d1a89a1];[0x0;0x7d44d8c4b676e;0x83f13b032bb8c;0x9219bc61fa24e;0x6f231fce3a88a;0x1216e6990e41a;0x87e5f45673213;0xa5f9ff19e73f5;0x1e53ef6629bb8;0x6d9242eecd7cb;0x7f3d1a89a1];[0x0;0x7b327d20e1570;0x39876156d3da0;0x6a0d56b9485a5;0x41d7a22b52295;0x173edc0843cd7;0x4e1d0a6bac1a;0x84c24b743c38b;0x2590bbbeab1d8;0x231695d0ef0c1;0x62bd1afa87];[0x0;0x60396fe1f7089;0xc6eb5300f2ec7;0x67432a9603b21;0x854aadde2cd9a;0xb90a17e0b5024;0x73530d8fae710;0x2ef697f3b46ff;0x8cca6b2c0adbd;0x436dd0f8e63f4;0xa3f705e946];[0x0;0x4677a2a54aa68;0xdeb4bc782f0a8;0x20a6fd753dda9;0xba73ad4ed5b8a;0xb1488aead9a3d;0xcc89f6420eb2a;0xfcc31dc08d63;0x88f1d3253d71c;0x26f4597abee9b;0xb464ea08b13];[0x0;0x6b4e7881af926;0x6e0e235ce542a;0xb256ad7725220;0xd813df923df96;0xe8e8900b2abb8;0xf2c4d1580e44b;0xa676e56fd643c;0xb5ff4bb9023e9;0x37e683a914d2a;0xd62877509140f];[0x0;0x97309c69c738;0xb6ac806e6bb13;0xc030e73c80509;0xd150380172701;0x53da622983056;0x94f1ff0c6b787;0x1a9dbcdb16fc2;0x77dd95c80b64;0x705395537a215;0xc6a2f5b6270]]);
 ((V [0xb4212e1e7541c;0x6c58021477c3;0x209cda979394c;0xcacd61f85d8f1;0xb1d55737b37d6;0x8e5b17e7a47e0;0x859e884302030;0xb2785e28f61b9;0xe85c607f1eef0;0x9d47d656f9b] [0x8bc694f0e7ec3;0xaeb83dd038b3d;0xe6789b3dba4da;0xb127f3f88bf0;0x70f7512b03567;0x215562459ecfa;0x2d4376d1b29ee;0x57e85933d11c3;0x5128bff70c0b0;0x45a0173371f] [0xcb5e3edf78834;0xf4b3b74ae06a3;0x9851e5c48d146;0x8521f21760dd1;0x11f91b360b844;0xf8fa59d4d230;0xd9d541e44862a;0xd7a5fa0d32ddf;0x5fcd81e225d98;0x5adebaeb23d]),[[0xf43d27687b9fc;0x3ae213cd5d8bc;0xc4345a056230a;0xef1c91ce25130;0xfd0eea6eaae7d;0xfe865788db765;0x37d978c46905f;0x968b2beaf3484;0x6e7c44369f55;0xc93ea38ef4b];[0xcb7aa654da5de;0xb77e35ef510d1;0x13558a7b1de31;0xbe70c55021a93;0xf37f81d5ce28f;0xd8aecb2fb74f8;0x81a3ceaa60ced;0x1bb55b795824f;0x2dadc59b96dab;0xea2db8db6a6];[0x5be82f57fcd0;0x3b6c01e5a83af;0xc722c695fbab;0xfffa55e4d8606;0xc3bad10ec4cd;0x9b76143511262;0xe00e9c7f2c6d1;0x668a14a59ab36;0x86baf93228787;0x26862564136];[0x5be82f57fcd0;0x3b6c01e5a83af;0xc722c695fbab;0xfffa55e4d8606;0xc3bad10ec4cd;0x9b76143511262;0xe00e9c7f2c6d1;0x668a14a59ab36;0x86baf93228787;0x26862564136];[0xe47dc108e19d4;0x46ce373e98796;0xb4a8e931311d7;0xd03f981fb347b;0x81163ba9a36c4;0x381bab837438d;0x575f8e3a8e804;0x4e86052c50a22;0xd845aa03b2bfc;0x603c559b348];[0xe6fce54bf8c0b;0x70affeb0b893a;0x5eaca149ecc5a;0xee312d306e617;0x7269462c2abca;0xa0931fac4316b;0x2a44406fd24e9;0xcd2f564d0782d;0x55681b97e41ae;0x89f1634035d];[0x0;0xe2c6250f9c0dc;0xe5c364ddbb21b;0x92ee33c595867;0x541efe3f076e5;0x1c9a0c9492fa;0xbded0efea7779;0xf27aa10d53c44;0x63e3601899888;0x7a86c9d068672;0x17d2bc8d1b0];[0x0;0x3ee0da6792a0e;0xb673d625b40b1;0x69382aa281311;0x962b2fc5e4199;0x7c5f68460e2ae;0xfba510c407a4a;0xa4f729473796a;0xc3a407ea2fb1;0x38e329e241a4b;0x1e48c0758e8];[0x0;0x97309c69c738;0xb6ac806e6bb13;0xc030e73c80509;0xd150380172701;0x53da622983056;0x94f1ff0c6b787;0x1a9dbcdb16fc2;0x77dd95c80b64;0x705395537a215;0xc6a2f5b6270];[0x0;0x97309c69c738;0xb6ac806e6bb13;0xc030e73c80509;0xd150380172701;0x53da622983056;0x94f1ff0c6b787;0x1a9dbcdb16fc2;0x77dd95c80b64;0x705395537a215;0xc6a2f5b6270];[0x0;0x1368419fd6ccb;0x66ae4d630de7b;0xce2c7537ed1fe;0x56cb3c2a15dd9;0x4690c70a2685d;0x5902da7dbf18f;0x9c81787dbabe5;0x47794a971cdfa;0x1ddea32b11156;0xb2d173f3137];[0x0;0x81cbf5c819823;0x2aaa5c11d4b3f;0xbf0c9cd577366;0xc49739946b84c;0x38a4bc810e7b;0x3905d24888c76;0xa52704ad4fd04;0xad38759a16bea;0x2a6e0703c7fc0;0xdca6c33676b];[0x0;0xf8cc7f1aac31c;0x1eff2dd16538;0xab3da3af397fd;0xa8b2948cfe6ec;0x48a5382531253;0xd813bee0f10f2;0x668dee26551d3;0x9dd789216e74c;0x16763bb4bf79a;0x8fdfc11e9d7];[0x0;0x7f2a0df4cc4e2;0x57ead9813a941;0xcc7e6b4a2d895;0xc349b652be5bf;0xd70c87f71b3b;0x78dca106acd4d;0x5f3596f58b6fd;0x950b56de156fc;0x2942e237f0d63;0x45a60686058f4];[0x0;0xc20a7384a5e0;0x83f31cdde64de;0x404d009c2f52e;0xbf03ac5b0d0b4;0xf1e570c621582;0xe1891132809e1;0xbe31ce99a3aa2;0x990ef6247d883;0x13ba770600d42;0x2ac6b7ec774]]);
 ((V [0x856f77a978b0;0x40ac0b940c1d;0x56b85eb2172f8;0xca628c7891cc1;0xb748cf7a4ddf8;0x6d753e283fa6c;0xc99e0c9237aa2;0x7112e20f1a662;0xccdbd2881d935;0xc9ad4453bbc] [0x96f9d9c2eb182;0xeeafad5307141;0xa0bed4b91df67;0x9da190a8be369;0xa32b2a4adadd6;0x2d0a342c9cab1;0xc6979a60f55d;0x6bea4d599a9b8;0x85620501e6a37;0xf8237df2f0c] [0x6f0199a86e87;0xf154436e6adb7;0x520e5c1ec58e2;0xde490bda9c244;0x8eaf3fe711c83;0x4ded4ca83fd2;0x26c10168928d9;0x188d905604cc6;0x3f114905e7fa6;0xe39e2a91101]),[[0x99b96430e8c67;0xa405be2e93f1b;0xa195fe5c0775;0xbb735425495aa;0x919957e721c87;0xaab10a7b1ea58;0x666fa0220d317;0x88ecc9372b1e6;0xb33a42866b1e1;0x343f74b2610];[0x759f177e7d047;0x685bb1b9414e;0xf8d4af5a7f483;0x6358b74e64de0;0x154ededda22f1;0x521c0d993b9bd;0xed6576d77c08d;0x4d4b065771adb;0xa4d43a0dc8b68;0x93bf1afad5c];[0xcb5e3edf78834;0xf4b3b74ae06a3;0x9851e5c48d146;0x8521f21760dd1;0x11f91b360b844;0xf8fa59d4d230;0xd9d541e44862a;0xd7a5fa0d32ddf;0x5fcd81e225d98;0x5adebaeb23d];[0xcb5e3edf78834;0xf4b3b74ae06a3;0x9851e5c48d146;0x8521f21760dd1;0x11f91b360b844;0xf8fa59d4d230;0xd9d541e44862a;0xd7a5fa0d32ddf;0x5fcd81e225d98;0x5adebaeb23d];[0xce41dd6980996;0x55816f9da7b4c;0xda394afd65e1a;0x82f6254720b5a;0xfca10dac07418;0x5d60cd83a1067;0x215f604f99d22;0xb9e3eebee2c6d;0xb434a01594aaf;0x86498e83193];[0xa75d3a14fc6b2;0xb1044b7dec601;0x1e9b645d19668;0xe062920744286;0x18add1319aed8;0xf4bb40159a955;0xcc061687e236a;0x936717988ee6e;0xf09f99f8340b8;0xd758c77bc8];[0x0;0xc337a15f28d5f;0x68101cc56d873;0x8320c809c609c;0x4e556c5e40576;0xed4132a292b81;0x1e1e545933ccd;0x7cbe1bf8492ac;0x3bb6367cbf9db;0xb357413629ec1;0x3831a34d6ae];[0x0;0x7e5a637ec3233;0xa8747af7a484a;0xc64c6c2e73efd;0x96acd049c6558;0x858a202856be5;0xe7404c9c0cd09;0xf5205d902ace4;0x36c56b491baab;0x82b7ac59c9842;0x128bc434012];[0x0;0xc20a7384a5e0;0x83f31cdde64de;0x404d009c2f52e;0xbf03ac5b0d0b4;0xf1e570c621582;0xe1891132809e1;0xbe31ce99a3aa2;0x990ef6247d883;0x13ba770600d42;0x2ac6b7ec774];[0x0;0xc20a7384a5e0;0x83f31cdde64de;0x404d009c2f52e;0xbf03ac5b0d0b4;0xf1e570c621582;0xe1891132809e1;0xbe31ce99a3aa2;0x990ef6247d883;0x13ba770600d42;0x2ac6b7ec774];[0x0;0xa3c89448e6575;0xdcbb901509fa8;0xadabb6c56dff2;0x8d791f2899b11;0x17f11af15aff1;0x6cb69d3608406;0xfbd6aa09268b9;0xe2e0cfbf3a8a;0x6d7274a66e57a;0x12efb09ebdd];[0x0;0xfc0e5e86298b2;0xee135ecb33ec7;0x80313071ec5c5;0xd93f42c2368f6;0x505afb7b62d1e;0x38463f74575d6;0x279c7e009d845;0xa9c161bc341c0;0x7beda60e44ba1;0x60a1310f460];[0x0;0x44121f75bf628;0xe3643f1ea706f;0x976ba62430243;0xef36d579951f2;0xb13a52ff48774;0x4e321dd29eb0c;0xec66a3b26536c;0x44d35453de3ce;0x17c394b3d9b0f;0x74650bc343e];[0x0;0xa353e6ed94271;0x9d6e726fd8709;0xd5db355b0f4f8;0x3514114796eeb;0x63b041f6c7748;0x6c747db426f49;0x97c17c71aa079;0x5eecd9dc7597a;0xc7d1f63e7552c;0xf88c6bd2ef83e];[0x0;0xe02ecfbd3b25f;0xe81c3d241983c;0x34791732680fd;0xcb1e9dbd4eba5;0xdf5969ce35f2f;0xb721a0e7a70df;0x873b7a4bc6934;0x16282e8da8769;0x8d16f735fad8a;0xc37bd01a733]]);
 ((V [0x300bbd9529455;0xec144fabf0110;0x2331082946b5d;0xb755eecc78c57;0x9d60b5a4268df;0xb9728839d630d;0x4756196968fac;0xad014f2c93432;0x237111481d1f7;0xa680bc209ee] [0xbafc51654c165;0x52a8372e7f4e5;0x6c14c266219dd;0x2bb082a99eaaa;0x8aac0d0fce585;0x16b1688bf5edd;0x4c74d5418e050;0x7635eec2278d6;0x17460abcb655a;0x10be8805e22] [0xe4c7d59631352;0x8172b5be7f78f;0x631690b8d8a54;0x68b5e620b9e05;0x76a715141eab9;0xd7040c1909ac;0x54b475961649f;0xb24147f5dd0f0;0xab827993e6245;0xf64abb0a0e1]),[[0xc6e8768bfda6e;0xbed5e89a0a240;0x1149ca921c809;0x6e7991e89d9c;0xece7e20aa6fb5;0x2d987b1622db;0x6e7afc76aa45a;0xf2a37ddc550d0;0x9b2469b83f5a1;0xf4e2d429b89];[0x8daee0cacfc9d;0x5d681b7069509;0xec6f38106f1cd;0x2f6c30eddc9ed;0xf789c74e99f67;0xb778e9480d49c;0x572bd5cffaae0;0xbc8f9f4492e96;0x5cf1e19136623;0x979f7611aad];[0x6f0199a86e87;0xf154436e6adb7;0x520e5c1ec58e2;0xde490bda9c244;0x8eaf3fe711c83;0x4ded4ca83fd2;0x26c10168928d9;0x188d905604cc6;0x3f114905e7fa6;0xe39e2a91101];[0x6f0199a86e87;0xf154436e6adb7;0x520e5c1ec58e2;0xde490bda9c244;0x8eaf3fe711c83;0x4ded4ca83fd2;0x26c10168928d9;0x188d905604cc6;0x3f114905e7fa6;0xe39e2a91101];[0x73d7339dbbe42;0xb048283f1bfb1;0x420af6f3468e7;0xe0c6608d2d0e;0xf2c7d379b9ef2;0xb33795eeee69f;0x571049b959064;0x983e71e1ba3da;0x944d9f4fa702e;0xf4449f555cc];[0x19d7ad2d13c23;0xad1ff3314d558;0xaa64411d288e5;0x215fcae509cdf;0x4c1f3d4e0075;0x44153591edfd;0x1b8c16a1a7c;0x24512d62d8abc;0xc8a442418f5f5;0xa35ad6bc4e0];[0x0;0x3e7c3f924ef2e;0x63f76b050144a;0x1292ccf9a7c2c;0x6c8da69bdfff6;0xa4073b1c56b0b;0x443843a712211;0x6dd2bdbe877fd;0x2b02b49b76c6d;0x97f6f07fa9da2;0x8cc22f419bf];[0x0;0x33b9534c4d173;0x9ddad486aa8d;0xad84d1ce97b81;0xf6443d0be1346;0x9b6959442ac97;0x85c588c370670;0x1fbca7ca4fe74;0x7aeccd59ce503;0xa7c90f9f7b316;0xd9bc6ed7eb1];[0x0;0xe02ecfbd3b25f;0xe81c3d241983c;0x34791732680fd;0xcb1e9dbd4eba5;0xdf5969ce35f2f;0xb721a0e7a70df;0x873b7a4bc6934;0x16282e8da8769;0x8d16f735fad8a;0xc37bd01a733];[0x0;0xe02ecfbd3b25f;0xe81c3d241983c;0x34791732680fd;0xcb1e9dbd4eba5;0xdf5969ce35f2f;0xb721a0e7a70df;0x873b7a4bc6934;0x16282e8da8769;0x8d16f735fad8a;0xc37bd01a733];[0x0;0x6564fb2d8e22e;0x473a20d1d51c2;0xa9f6b1e1831a8;0x56896e81c8205;0x71d15a10dd2ac;0xfc320f1cd295f;0xde71ebc52e9b3;0xdf2858b0098c0;0x92355e96777b4;0xf084c8f260e];[0x0;0x606c9c4e5403b;0xd52cb850c0245;0x6a46e8fe838cd;0x73fa7dd764f91;0xc687470127638;0x7f645a61544a6;0xe0c30f727de38;0xa1607825a695a;0x5093923652d;0x9ee18a90e85];[0x0;0x340094ecbe958;0x1437c6991fe82;0x2bbdff66299b2;0xdc33d4e55a633;0x5e60eb64730c3;0xce030424a06ca;0xcdcf85f940b8f;0x14476b5250b66;0xa3121f545de81;0x629da5b6ea5];[0x0;0xa0836bbabee67;0x4fc12c8dd511;0x3b50e5585f889;0x1ae526f30463e;0x612c76e7e3916;0x4a18806667272;0x6a312013e9e18;0xb45ee9d2bce40;0x665999cefda56;0x10c55bbd9d150];[0x0;0x23c2ade6ceb11;0x29ceae7233c65;0xd9925b6758a4d;0x44f6d64ffcce6;0x626a5ebb922de;0x1aa8d62947a20;0x999d217b7edac;0x8a2a526efb85d;0xc78bf795b475e;0xae3f7c5e1a]]);
 ((V [0x1421ed381d42e;0x2fe9cc81cad1;0x360d815614989;0x7c057d65ac5ca;0xd01955f19dd0d;0xbcb24eed199d2;0xc00969ac4d750;0x24aff30167981;0xfb7627cdf7cd3;0x6ee9cd91189] [0xc81355986765e;0x4c23985f14460;0x3e6f212b9f801;0xb32f021e15b02;0x3e524eb7aafef;0xd4bca1e1b3d4a;0xadee0f0fd785a;0xecf62386c39f;0x3eb9443a385b;0xde958905a17] [0x782f6a6e98cce;0xba07ff7cadc3;0x3c64ec1546475;0x1924a3d6d995a;0x203aa4e3cef81;0x2c3806bdee158;0x67faeb3b5539;0x10a35844ec88;0x77d03b98cb106;0x8195baa26a9]),[[0x91e16ad891431;0xc786e02503eae;0x42cce2aee81b2;0x78f187c5c09c;0x30fdf064bb7de;0x66a1315c2997b;0x1b203a1397a52;0xa607d71389734;0xb1a3efccdc0;0xf2cdc52c979];[0xf91ccec42b391;0xd29b4205d1544;0x777021b4f5864;0xcf265066b7505;0xaeb678d1008fb;0x939a3bc9edf2f;0x3ac9e36884fba;0x5ad208921c121;0x145f000a47046;0x5fe8bd67a9a];[0xe4c7d59631352;0x8172b5be7f78f;0x631690b8d8a54;0x68b5e620b9e05;0x76a715141eab9;0xd7040c1909ac;0x54b475961649f;0xb24147f5dd0f0;0xab827993e6245;0xf64abb0a0e1];[0xe4c7d59631352;0x8172b5be7f78f;0x631690b8d8a54;0x68b5e620b9e05;0x76a715141eab9;0xd7040c1909ac;0x54b475961649f;0xb24147f5dd0f0;0xab827993e6245;0xf64abb0a0e1];[0x59f3ebd2049a5;0xa512e6d881245;0x8f4719b99a1a6;0xea84a9b249e1d;0xaf14c3816d74;0xafe05a547411a;0x6e32dceb0dea;0x94e9a44278f0f;0xe9fd25d0e797d;0x437c3ea97d5];[0x9f28e2f2269ed;0x2d885b2d502ff;0xe82907fb5b6be;0xe4a1a6b46d6e7;0xa3c52c98e9b86;0xe3b9e17579e15;0x33e6b599d41cf;0xc5e8644fa3212;0x2a61da395f6c8;0x1c6c7ebe2c4];[0x0;0xd28be68012119;0xa3c1a315fedcc;0x8fa8bfdbdfb5f;0xc70cffa4c923e;0xd3dc4b671516a;0xeda58d800b0a7;0x4254ff8c46eb1;0xa67843139a7ca;0xeddff429ca76f;0x984e7a7fc50];[0x0;0x988e099793d7;0xa4f60021a0aef;0x76dc193a15638;0xd2289a166fbd6;0xcd1cc7a4d411a;0x618d87bd08136;0xc88b52921ea34;0x2fd41119953e3;0xa191a7d143fad;0xe9989c59b0f];[0x0;0x23c2ade6ceb11;0x29ceae7233c65;0xd9925b6758a4d;0x44f6d64ffcce6;0x626a5ebb922de;0x1aa8d62947a20;0x999d217b7edac;0x8a2a526efb85d;0xc78bf795b475e;0xae3f7c5e1a];[0x0;0x23c2ade6ceb11;0x29ceae7233c65;0xd9925b6758a4d;0x44f6d64ffcce6;0x626a5ebb922de;0x1aa8d62947a20;0x999d217b7edac;0x8a2a526efb85d;0xc78bf795b475e;0xae3f7c5e1a];[0x0;0xa90847fba262c;0xbc974a02bdd44;0x6d2f443c48d15;0x242de25bed49d;0xa0c403d23e0ef;0xa41af180c6937;0xd86ec55e37aef;0x77d7729e12a70;0x6189afdacc6be;0x1185eceed4];[0x0;0xf98957dd9a354;0x8f5bc0d85ce3b;0x3aa506ae2516e;0x863053934e9;0xf1dcccf770140;0x6897b073e6463;0x7c673cddd1255;0x5433c45a1e218;0xc2f2593b7bc61;0x6c4b34b6f8e];[0x0;0xb7bb7ea09ada8;0xd6628f15e222a;0x73313620041d7;0xa09a129c218;0xbae1efcac1b47;0xe9ac49dfbed8f;0xd63974c12c180;0xa8bdd827f0b10;0x5a266a1a09745;0x298d993aa9f];[0x0;0xc2ecd685b96b5;0x921fa1503222;0x7a5a4e37a1845;0xe69b6dd58c406;0x44cea7c7df59c;0xd1e2986ec9086;0x915c80184bc1b;0xd80bb36be5fa4;0xbc93b34f78b9e;0xdf20bab49b45d];[0x0;0x9acd1e2f673a;0x9c3d3e9af2ddf;0x6527294de0b50;0xa7f7382fe998e;0x4f583c98e4bef;0x338a0f284bf3c;0xc7c444218b447;0x263c614ccd170;0x32bbf2d240417;0x606f89b6085]]);
 ((V [0xe62d69caa1a8;0xce975e9a80005;0x9d879e094e489;0x5b751c0fd429b;0xcb7a6b4e86ebf;0x1a284659b67fd;0x74d9c9729d744;0x2a3d4b9217939;0x31e902e4f6306;0x3291ea7378b] [0x8848e87b2bc9f;0x193d0af0b377b;0x7da71bca1ebe5;0xb1748178babce;0x49de98c8df239;0xf573401aaf27a;0xf535994f6edb3;0x1476853decebc;0x55886ae8b368e;0x559732105cd] [0x97c7d5f0cf670;0x3e33ed7ec9177;0x780b5e24d4914;0xf79079c482504;0x9cc90a37563bb;0xea18e9a0672a3;0x2e8b29eb966dc;0x70d29dc9db627;0x51d68f1980f0d;0x13e380de066]),[[0x7db7674da9ac3;0xb8ac9b90a5e3a;0x9c2ddd39bf4ff;0x19add3b26ef77;0xb51b33717f932;0xff6138c4f16d0;0xbb0c06dc74cb0;0x4411022be75d;0x470dfa4308296;0x797cc362e32];[0x1a21b3f222629;0x3ddca31187270;0xcdc3b9ff7bf54;0x3704e06935dd9;0xbec4d8c574f59;0x858735a0b2c49;0xa243e7b841d92;0x7a1e0eedff85;0xd06f4f075b23c;0xc0e77891b26];[0x782f6a6e98cce;0xba07ff7cadc3;0x3c64ec1546475;0x1924a3d6d995a;0x203aa4e3cef81;0x2c3806bdee158;0x67faeb3b5539;0x10a35844ec88;0x77d03b98cb106;0x8195baa26a9];[0x782f6a6e98cce;0xba07ff7cadc3;0x3c64ec1546475;0x1924a3d6d995a;0x203aa4e3cef81;0x2c3806bdee158;0x67faeb3b5539;0x10a35844ec88;0x77d03b98cb106;0x8195baa26a9];[0x4b655bc282cfb;0xf4b26cea8b85a;0x6af96a54d5811;0x3d12d0d4ac2e;0x953f7549ab63e;0x3aff3c70e4f55;0x4018d9ff5c744;0x8ea32e77e84fa;0x58aea73aa9bdf;0x847eacec0e1];[0xcebc582f9f92f;0x492a3626fba15;0x62ca4faaa6742;0x3333b35beb1ab;0x2985637bc991b;0x4a87f92fcdcf4;0x622b0db8e564e;0x78feb276f7a8b;0x77c0a7ccb165c;0x3c68cba5a45];[0x0;0x94c3b235e7b7b;0x1ebe9f919e374;0x8a1770ed2345;0x9126399f4491f;0xd0eb5223109eb;0x413b72ef6f3b4;0xcb98545c86435;0xd7e47870ab8b2;0x898f9f562de6a;0x502295bf195];[0x0;0x11c13e0ab7737;0x3c8a2ad7ffad;0x6dbd56b764e2;0x49cb63bc5af3;0xc1f2b2982ecf5;0xf4bcc7237295f;0x20a798b5fff30;0xce352f651d717;0x29b847c457e96;0x3d7eeca4468];[0x0;0x9acd1e2f673a;0x9c3d3e9af2ddf;0x6527294de0b50;0xa7f7382fe998e;0x4f583c98e4bef;0x338a0f284bf3c;0xc7c444218b447;0x263c614ccd170;0x32bbf2d240417;0x606f89b6085];[0x0;0x9acd1e2f673a;0x9c3d3e9af2ddf;0x6527294de0b50;0xa7f7382fe998e;0x4f583c98e4bef;0x338a0f284bf3c;0xc7c444218b447;0x263c614ccd170;0x32bbf2d240417;0x606f89b6085];[0x0;0x8f78a5764ca2f;0xe420e3fff6a1a;0xa23b35a499857;0x34f8e95ddf2af;0xa3671c10bbbf4;0xef993d24f9629;0xd9998b1ecdf9d;0x7b91c61e768b1;0x3a05c2d5183e2;0xc187b0fe8de];[0x0;0xc4f465bda8c43;0x2f08d796e583d;0x4e4d4e3984b70;0x53755ee1219a3;0x730811c439903;0xe110f18bcb56a;0x6b77536abc62c;0xd614867ee9ba1;0x9c80127972dad;0x300dc230885];[0x0;0x9535771da546c;0x956bdf589a7fe;0x4d71e2384242c;0x71634d4f598cc;0xf6820c56c753d;0xfcaeba43ede04;0xcea172941a9e4;0xa54ec88e4e235;0x32b0cf5c65f5f;0x261b2952568];[0x0;0x6293694078662;0x4be6a17427e60;0xd93eacba49862;0xe8a895ad564d8;0x16c16da5db6a4;0x9b778e0e3c42c;0xd4e55c84c6afe;0x65927403770f0;0x77d019dca8535;0x55ac4a79232a0];[0x0;0x77c62a667c7d8;0x3b2238da91103;0xe14a4e0196246;0xd7dcbd82159ab;0x391aa0464aa07;0x97ad23a14f598;0x84b8e19a03d36;0x7b00c75849165;0xf74bdc27ca211;0x10e850cd5c6]]);
 ((V [0xf5fdb7a8e5907;0x9f5fd72401323;0x85aca3c2116cf;0x91d4bd3cac297;0x2527fd0a94a6a;0xc00db6b5405ea;0x9fd7bde6a7a97;0x19633ab656725;0xf468cca0ed4d3;0x4939cf35cf2] [0x5acdcdb03891e;0x497ae3b09254b;0x4ac887c8dd49b;0xf86245fb10010;0xfc98feb1a1fb1;0x1a16eb77abffd;0x81f4d95aae2e2;0xf098828908ab;0x4a8f03e51f8d2;0xbf5db406bc0] [0x7fd17ab4dd7c2;0x4685ad99cfd74;0xe9449a7ebb06a;0xfd356de4c13e1;0xcb1e10b44ad79;0xbd33607d3db61;0x32548e9a0aa7;0x2fec0fe69cad0;0xd24bffdc27180;0xaa908e7ca07]),[[0xf78b5606855fc;0xf41101826c79a;0xf47490f6044ad;0xa5e6d84feb556;0xf4dbafb01ce9b;0x8516df55e99b9;0x30ecfe2d3c1c0;0x8d486c997b2d5;0x78a687ba4dacd;0x7c687cd4237];[0x9faab2c3e0283;0x1d1457945e44d;0x32ed0f9a59635;0x4047043ea3030;0xd7cbbf543059e;0x33da94f1da263;0x53de520eb00b8;0xc83d3d72da957;0x81ac56dff8859;0xdfb4664cafd];[0x97c7d5f0cf670;0x3e33ed7ec9177;0x780b5e24d4914;0xf79079c482504;0x9cc90a37563bb;0xea18e9a0672a3;0x2e8b29eb966dc;0x70d29dc9db627;0x51d68f1980f0d;0x13e380de066];[0x97c7d5f0cf670;0x3e33ed7ec9177;0x780b5e24d4914;0xf79079c482504;0x9cc90a37563bb;0xea18e9a0672a3;0x2e8b29eb966dc;0x70d29dc9db627;0x51d68f1980f0d;0x13e380de066];[0x3ebd8ed7f966f;0xb9ce39697b636;0xd5222b2f90e6d;0x8fb6fde4a9366;0x2a6d156a39285;0xbc3903b34e63a;0x899bb37793c5d;0xe1ba9976a3c90;0xc8dacdadb81ad;0x6d65011df45];[0x60ed23ebe6c15;0x63461e2ae2e17;0x5dcae46ac87c7;0xb0900659f9cc9;0xad5ea9e9f7318;0x77a1913e8bc29;0xca429e971c45a;0xe682a3fc36cc6;0xb8d18932406ab;0x724f652ebb7];[0x0;0xcf49487920adc;0x7fc0461fd87dc;0x6106991eff984;0x881168d967d08;0xaa64b3eae47a0;0x91daf839991bc;0xa922c08ea1bec;0xf60b3ab6ac11d;0xf27b087b73893;0xc4c940252c];[0x0;0x850cd153b025b;0x89526d5843d8a;0x1c9979d07ff43;0xe6aca828e2537;0xd2046b486f092;0xeb872dbbe9f04;0xba3eafb8323e5;0x68454fed32de9;0xf3a691136f052;0x9aa508a92d];[0x0;0x77c62a667c7d8;0x3b2238da91103;0xe14a4e0196246;0xd7dcbd82159ab;0x391aa0464aa07;0x97ad23a14f598;0x84b8e19a03d36;0x7b00c75849165;0xf74bdc27ca211;0x10e850cd5c6];[0x0;0x77c62a667c7d8;0x3b2238da91103;0xe14a4e0196246;0xd7dcbd82159ab;0x391aa0464aa07;0x97ad23a14f598;0x84b8e19a03d36;0x7b00c75849165;0xf74bdc27ca211;0x10e850cd5c6];[0x0;0x7a2bbf0e0b11e;0x581b7a2722702;0x7a9dcbbbd321f;0x4e9e6d5026c6c;0xe4693d98b642c;0x20008e6476a5d;0xfd0390675912c;0x24188bc6f6a27;0xd95c6f1b410e6;0x1c9dc08af6b];[0x0;0x1ac17bced587d;0x145aef7a3607d;0xa33169dd1b1ca;0x23a2c128dd80b;0xeb527e8834bc6;0x87e3eb9865ac9;0x641b8a6b7828a;0x3e87539fad0b5;0xbff960f20ecca;0x9fd52c088a];[0x0;0x11c840133e164;0x7a37e9fb4d30e;0xf7d876704002b;0x1b83dafda449;0x24ea9606b18eb;0x9514fb310495c;0x947fc89ad1c70;0x22799ab3775f3;0x5254d8d2cc980;0x3ffcf568895];[0x0;0xf214c0c927263;0x23fb405165f7c;0x78b9e628554d6;0xa40a6b833f4e1;0xef14c3a133d4a;0xe5a0414601a4f;0x3f8ee6a81e4a9;0xfc95cfe53328b;0xa9cb13a8fbbbb;0xbf75d84095a52];[0x0;0x8fdb223963970;0xf4b0dedc86a09;0x3198248ad8fa5;0x71239edad5a47;0x5586d91c0cefc;0x260508d57917f;0x11941f57efc71;0x6a7c7ac82cf4a;0x504252d9c1727;0x36bcef17fef]]);
 ((V [0xde34bd99e64c9;0x28f9a692d6cde;0xf08ee7c2d8151;0xc78942d631cc7;0xe6d981e4bfe38;0xac79f9ca6217e;0xe7677b67f6031;0xad51e9ffb38d4;0x66a5a0046cbac;0x38154e20fdc] [0x25b5a264353af;0xc205d6958b0da;0x60e38d20dff00;0x331f43f99eb81;0x67d68b26eb0c5;0x14b9c467e2e36;0x9a303f157719d;0x5ed2beee6d90b;0xe14feb8daf873;0x708c30fcb31] [0xaee0c87e6c33d;0xdcf61cac3b02b;0x345a68e041ee;0x90795044c3de2;0x4dbcdd0cddff8;0xcc4f8053fb602;0x7d8d4ad85b398;0x21c481bded294;0x7d4eefca8bd0b;0xc302110b964]),[[0x3e4d3f671ad60;0x7ba264bb01fcf;0xf13d95bca5d63;0x1f0d1467562e6;0xe07196a416936;0x3e90d97636d17;0x37873f08ce21e;0x65245eb961e85;0xd6d0fd6155f5a;0xd85aa0327af];[0xe595466500a60;0xaaec380cf7c11;0x112f1df76d73a;0x940fd81dd651e;0x49316d89fa43;0xd94a8f2fe5cba;0x56128788ceea;0x454b1ad6ccdbd;0x9ac1c2fd1603c;0x3321d8239e7];[0x7fd17ab4dd7c2;0x4685ad99cfd74;0xe9449a7ebb06a;0xfd356de4c13e1;0xcb1e10b44ad79;0xbd33607d3db61;0x32548e9a0aa7;0x2fec0fe69cad0;0xd24bffdc27180;0xaa908e7ca07];[0x7fd17ab4dd7c2;0x4685ad99cfd74;0xe9449a7ebb06a;0xfd356de4c13e1;0xcb1e10b44ad79;0xbd33607d3db61;0x32548e9a0aa7;0x2fec0fe69cad0;0xd24bffdc27180;0xaa908e7ca07];[0xf7495a700781;0x1dd783a06e576;0x135043ad38c7d;0xeaf9a6ea834a0;0x6f3c4be940a19;0xa0575abe0ccde;0x137d66ed203ba;0x5d72e19b5e6ed;0xc2a3d7644d62;0xa75f564fcf];[0xd620b0be002e0;0x8d14b46c8969b;0xfddeda4a34abd;0xa91631335307d;0x9556caef5f029;0x38f33471d8fdb;0xf1e3c18b6cb30;0xe7d8393b6e6cf;0x8e978586d12d9;0x28abe2bea18];[0x0;0xb70b5595c4cc0;0x7964f846b2ea9;0xdd0a64da7f713;0xe457818cdf758;0xad6f36738614a;0xe5cc35b50a19b;0xf8c86c79640e5;0x628e77dff479b;0x22d41bb7c5b1b;0x697a18e0af5];[0x0;0xdf23d3bcac4a0;0xbd376ce4aa451;0xc9141e79dc41b;0xc92c25c0b386e;0x4b006b8d3cb82;0xe849acedb82e8;0x3ee592f67cec7;0x64890af527ed2;0x57914c8712f8c;0x902659c73a7];[0x0;0x8fdb223963970;0xf4b0dedc86a09;0x3198248ad8fa5;0x71239edad5a47;0x5586d91c0cefc;0x260508d57917f;0x11941f57efc71;0x6a7c7ac82cf4a;0x504252d9c1727;0x36bcef17fef];[0x0;0x8fdb223963970;0xf4b0dedc86a09;0x3198248ad8fa5;0x71239edad5a47;0x5586d91c0cefc;0x260508d57917f;0x11941f57efc71;0x6a7c7ac82cf4a;0x504252d9c1727;0x36bcef17fef];[0x0;0xee0ed235443e5;0xd5897b4508b9b;0x5f997f28439c9;0xd54565e763e4a;0xedcfe18109d6e;0x4197d0fb1f3f3;0x5580622f25296;0xff54c05c5d2bf;0xd080d236c33f4;0x8f0cf4ee580];[0x0;0x160adb17c3e27;0xa1aeb3845dd07;0xbcb0b11b7fba9;0xcce8dc91c3789;0xd037c3b2ae443;0xcee6920a7b6f9;0x26cefe17ce7c0;0x7ab4e1b063325;0x749a79b46d1dd;0x14f2053a9dd];[0x0;0x3930af300d433;0x79eab12a84d7a;0x4d130fdfef7b7;0x450b23d79170;0x33fa15623e336;0x3b68850a1f936;0x4707f83a19701;0x582e9ecf97255;0xc906487098498;0xb33a8a96c5];[0x0;0x9f160eab886d0;0x7ec6b5cfdfb76;0x547d5bad5c2c2;0x10ab1db867ac7;0x41256b1f7649;0x56ed1e5846b1e;0x5305a5784de2;0xc2796597d2867;0x510d08e140562;0x70e6425ed536c];[0x0;0xf0a9f85b6d186;0xce23e80332712;0x9e438c4879eee;0x45957ee3a9a9f;0x458997eeb748c;0xad6f068b2458d;0x9306798d451bf;0x529457bcf0857;0xe2bd23da58b5f;0x18a8089083e]]);
 ((V [0xc25a003ed7528;0xc5dfcf9405825;0xc5c7036079cff;0xe79de5badd658;0x38708b643d7f1;0x9d503c5afa191;0x7beece92768d5;0x37da2a3f1552d;0xaf6ef9e6f926;0xf3eabffabdb] [0x7e9a683eae7e9;0xa02846428addd;0xf86afe92b226b;0x81d6f4c7c2659;0x56f303e46d06d;0x16c1cd9c69928;0x51c4bff261dc7;0x153412ee3be41;0x980263e8b8b62;0xb285409ee54] [0xae0837ce6101a;0x1612216298f4e;0xf5a165ebf1447;0xcbfb112f5232e;0x7f08c87e444f6;0x30eeb79e5a2c;0x405a85e64e67f;0x2ca3ed65ede76;0x769047816786e;0xe6225a73595]),[[0x43290a1e2d8d3;0x70702593e8ca4;0x91cdd16b488ed;0xfc170227db92f;0x18668f9d3f15a;0x6ec55f4832cb4;0x1be1e0108417a;0xf96b80a493ff4;0x3e3dd3e114a5;0xd92529de075];[0xb73f9a4f4dcd6;0x27e2dee0c01fa;0xfb898a5cef1f5;0x79542f85a643e;0x609362cce5a90;0xba35a116379c7;0x10c19084ff498;0x5233130a72854;0xf1a8253a4c68;0xc7ed421d2d0];[0xaee0c87e6c33d;0xdcf61cac3b02b;0x345a68e041ee;0x90795044c3de2;0x4dbcdd0cddff8;0xcc4f8053fb602;0x7d8d4ad85b398;0x21c481bded294;0x7d4eefca8bd0b;0xc302110b964];[0xaee0c87e6c33d;0xdcf61cac3b02b;0x345a68e041ee;0x90795044c3de2;0x4dbcdd0cddff8;0xcc4f8053fb602;0x7d8d4ad85b398;0x21c481bded294;0x7d4eefca8bd0b;0xc302110b964];[0x8888fff90132c;0xc77e9b7ed01a9;0x391e23afbc478;0x4aff30e1648f7;0xe985c54d26c7c;0x98e3a0012ffa8;0x862c400be1c52;0x62dc6b460e8ee;0x97243f19c0bd7;0x3a7f221ea65];[0x2eb69a564c9ab;0x60644361f0051;0xc26b66ad32d7c;0x2e54fea441b47;0x770d9d7fbee14;0x2152011507a1e;0x8a9550791d846;0xef56a7c463f65;0x77f64339e4090;0x8d6e1ffe86a];[0x0;0xe512cc9937edb;0x67feb69e5b38b;0x16cad1bcf3761;0x613d708b540c3;0x1c080b57cdc10;0xc9e87357deb64;0x13716734399b6;0x5fd6786cf9e1d;0x8e3792c357790;0x7897bb6acfc];[0x0;0xcad63b07ba07;0x5b4d6fd262cd;0xa83d363e8f137;0x8eedcee12d037;0x16fc7a4d4709c;0xfa015d00342ca;0xdaced2903ae7;0x4ad26fc257e2f;0x76d846bda6e5d;0xa5690fa3bf2];[0x0;0xf0a9f85b6d186;0xce23e80332712;0x9e438c4879eee;0x45957ee3a9a9f;0x458997eeb748c;0xad6f068b2458d;0x9306798d451bf;0x529457bcf0857;0xe2bd23da58b5f;0x18a8089083e];[0x0;0xf0a9f85b6d186;0xce23e80332712;0x9e438c4879eee;0x45957ee3a9a9f;0x458997eeb748c;0xad6f068b2458d;0x9306798d451bf;0x529457bcf0857;0xe2bd23da58b5f;0x18a8089083e];[0x0;0xe7aed168e71e3;0xd1ac4866c6036;0x1217d9e926ca7;0x69086d4a2938e;0x38cb348630dfb;0x868e493617b2b;0x3d0db5877c565;0xe15ad95c4b9f4;0xdf7e240c5b897;0x317af7a2ba7];[0x0;0x79e9784defaaa;0x52c516831ae6f;0x277c734611118;0x8961fe4d9e083;0xe9c18c87a1a0;0x533697153ca59;0x498cb3cb68827;0xbfeb6e8eb1b5e;0x88ffa28de3b62;0xc4953f4584];[0x0;0xeff152aece8f2;0x1ad2643692129;0xed6fa0ab12b8d;0xbbe5f199d2c1a;0x94e503b537493;0xfd8c2cfb9a387;0xb70a88f4007b0;0x5f2260641de53;0xd833fffd7f433;0xbe7d8a8df68];[0x0;0x92558649b0536;0xbb8ba100b4856;0xe79628779a58;0xa6a1302664d5b;0x9f753e0d54024;0xd45935ba488ff;0xe9cf7e9fb6a05;0xa499e4dd73ff5;0xfe0bdde275901;0xb2ac5ad6d1244];[0x0;0x30957e8a4e442;0x342b462c5ae2e;0x3c2150964a200;0xe862ceec6686d;0x9dccf1fa80a73;0x41024627d46a;0xc00ad0a18271c;0xac0ebc4d61804;0x198b967ef4557;0xaa1830042a8]]);
 ((V [0x3e50e0e8a23fb;0xaf1cc7a8998ab;0xf78b49a6f7353;0x5c7f13fec2cdb;0x9b9159874d347;0x38b20956918d3;0xb5de1f998f29b;0x15f095b9b68e4;0x1a16c7de509d1;0x80e17be938f] [0x467370c5c5db1;0x5cd538282a475;0xaf738b07155e1;0x978b67a941122;0x4d1598b8ecb55;0xe2b7a4e56fcd1;0x44350e9a7626b;0x52f9c6ef3b8c5;0xcbeb274f9a8c7;0xb6408a1c73f] [0xd0d64a153fe14;0xfa193aad8127f;0xcdfdfc350e3af;0xed62a3ba9c462;0x4f7b28ac7c057;0x7948a55524876;0x55ef7a8c3a9a8;0xaac977a7b61b6;0x36234a34285a6;0x93f9e1c9bf3]),[[0x7ba036d0b9879;0x3db3450f51d7;0x9e41536a78f20;0x969e98245f2ea;0xf9ab65d48952e;0xd1bbc1c05c733;0xdb225f40c6034;0xdb551ef11778d;0x205ab06d58f98;0xdfe69a81e2];[0xd34a521b8822a;0x72ccb4aaded30;0x6f3ee6de5dccb;0xecd8ce426736;0x7bd869797b761;0x80d9ee5e0d217;0x72ceb23157f0e;0x5fa47d32aae94;0x673f3af429c00;0x4454e800313];[0xae0837ce6101a;0x1612216298f4e;0xf5a165ebf1447;0xcbfb112f5232e;0x7f08c87e444f6;0x30eeb79e5a2c;0x405a85e64e67f;0x2ca3ed65ede76;0x769047816786e;0xe6225a73595];[0xae0837ce6101a;0x1612216298f4e;0xf5a165ebf1447;0xcbfb112f5232e;0x7f08c87e444f6;0x30eeb79e5a2c;0x405a85e64e67f;0x2ca3ed65ede76;0x769047816786e;0xe6225a73595];[0xb37f10b6366ff;0xec254e1d86edf;0x5ce0573026a41;0xe944062e4bf72;0xbb633eabde792;0x4b373718f1146;0xa5e419e19eab8;0xac7b1b3a6b318;0x3e420ab179f4f;0x919ffcdf15f];[0x1fcb4165518f3;0x86a7668d57e51;0x125e8fae37289;0x258986b5da7c4;0xc0752acd9cfce;0x35a2b7451c0d0;0xccea984fb9456;0xb32961f83fb7b;0x28fd3042afcb0;0xb2b4eb211b4];[0x0;0x5bdf2d78d8d21;0xf6f08b2910335;0x230ada9fbc924;0xdd1d95e1ea14;0x272c2d4d9fb2c;0xcb60be831b4bb;0xd82171f054795;0x495468f4817b7;0x8e3c451f0436d;0x8e508c8571b];[0x0;0x51c2bc5d7a4e0;0x3b4ca17887a99;0x5058feceb095b;0xd42a825c0c1c0;0xcc47883d197e1;0x9db29856ab24e;0x5e34cea287d7f;0x86fd15eca2404;0x75ca8da9d9c19;0xc9473a8d2b];[0x0;0x30957e8a4e442;0x342b462c5ae2e;0x3c2150964a200;0xe862ceec6686d;0x9dccf1fa80a73;0x41024627d46a;0xc00ad0a18271c;0xac0ebc4d61804;0x198b967ef4557;0xaa1830042a8];[0x0;0x30957e8a4e442;0x342b462c5ae2e;0x3c2150964a200;0xe862ceec6686d;0x9dccf1fa80a73;0x41024627d46a;0xc00ad0a18271c;0xac0ebc4d61804;0x198b967ef4557;0xaa1830042a8];[0x0;0x641b8684a645e;0xe05c65d4ec297;0xe9ec5b284a286;0xbea5829d202f8;0x1af0b0e903fa2;0xa1229a1a45d71;0xfd4cd41f5d5aa;0xf533215050887;0x449d8eae0edac;0x7c7d93392c4];[0x0;0x1537b972dbc4b;0x253195924305a;0xcadb4ffe6efaf;0xb8812bdce39e1;0xeb244101ab5a8;0xd5390235a278d;0x2ae9fce53db7f;0x549b8044210b5;0x850b214b9f1e0;0xe8677fb98a7];[0x0;0x22f8f551bdb63;0x9c4f3e5311746;0x2dcaa81f843a3;0x96fb8612f95f;0x8a7b86dc4d537;0x15c52b088ce45;0x6c143936a37a0;0xb4e6692187c37;0x8cc6c835aca0d;0x2266a3b30cb];[0x0;0x8c63c9b1dc63d;0x373f669e6b1a9;0x22e3697f2a0be;0x99c911e6aadac;0x850db8ef86001;0x7bd30ac06f3eb;0x1ebf86adfa78a;0xcdeca54dd627;0x357db59e8c04e;0xb6c6250f88f06];[0x0;0x77665bdba0ed1;0xe7eee307a36a1;0x16dcb1744a9fa;0x100fed964b3a6;0x1741757322d00;0x15a28764a5a69;0x8998bb1de6895;0x6d651c05bc335;0x3d400e7de2833;0x5bc0cbfea8a]]);
 ((V [0xf656d45c24288;0xd62c4cda7d59;0xaa9cb0c0572da;0x60b871eaf0026;0xe4cf8aacecff0;0xcd70b4e969b7d;0x2c4c310b9f0d6;0xd3c8fb4db2ed4;0xab33b4b88ad83;0xd3aacdb9289] [0x9d91fe13ee097;0x9914d5e1676c8;0x769aa2aa22e1d;0xb6e410c12572a;0x774fe0a5215fc;0xb259063bd76bb;0xc342496af343b;0x25354dd560e71;0x4776131a1ce61;0xc0ac1eb46b8] [0xc95fd98462f1c;0xb752d73ae040d;0xcb2738db133c3;0xa82cc9ed1665c;0x5be4797656b7e;0xb67a1a41b87d7;0xeff59c1fae7ca;0xea3ff70543a81;0x3ae9e02139f8a;0xa809587035]),[[0xe4b1d6d6112b5;0x2bbbf0977834e;0x809a44b40a99b;0xd19c629288c22;0xbb3260529b241;0x4a74ccfc03dba;0x85ea6420fffbe;0x5e43ff7a5ec79;0x366403ed67b08;0xfdd8c333136];[0x46e7c4fdd832b;0xd665ceeee4b83;0x986e0bb4fe362;0x551f0b27beb22;0xeb4af228d3ea7;0xeccef7e909afb;0x7b71f2e6b8671;0xbd2c3a9a91392;0x2bf9b947f6a69;0xba244673a2c];[0xd0d64a153fe14;0xfa193aad8127f;0xcdfdfc350e3af;0xed62a3ba9c462;0x4f7b28ac7c057;0x7948a55524876;0x55ef7a8c3a9a8;0xaac977a7b61b6;0x36234a34285a6;0x93f9e1c9bf3];[0xd0d64a153fe14;0xfa193aad8127f;0xcdfdfc350e3af;0xed62a3ba9c462;0x4f7b28ac7c057;0x7948a55524876;0x55ef7a8c3a9a8;0xaac977a7b61b6;0x36234a34285a6;0x93f9e1c9bf3];[0xfa204eca6c62f;0xf2af826863c91;0xe6909bb752ec1;0x7c4b0c90d0476;0xd8ffe9ad91bb8;0xb0a491e097c7;0x6694c54578e80;0xdaff254ce8da3;0x5d4b66425f29b;0xa5e065e4580];[0x4cc776336bcfd;0xe3b64c8680ef1;0xb1dd6ffdab4a0;0xd8d3fe96ee6ab;0x124b087b422ee;0xe1c4aecb00334;0x14dd2da13f7f1;0xe22d154da85ef;0xceae5305977cd;0x1443e08f4ab];[0x0;0x28a409e1c881d;0x3ea8e8f88e0ea;0x1aac48b496a3c;0xcf37fbfe618df;0xf3b951c099c94;0xa0749cba0ad8;0x4261ec95f86cc;0x829597a05cb50;0xe0903a3f491cd;0x5b821989e5c];[0x0;0x9c476914433f;0x2aa3d812999ea;0x9cceca5defa60;0xabb098690f56b;0x9e6bed3e396d2;0x11c252c80c5ea;0xc5360f016793f;0x56a6b546e1e2a;0x8c3bd19c43b85;0x92bb3fcfc12];[0x0;0x77665bdba0ed1;0xe7eee307a36a1;0x16dcb1744a9fa;0x100fed964b3a6;0x1741757322d00;0x15a28764a5a69;0x8998bb1de6895;0x6d651c05bc335;0x3d400e7de2833;0x5bc0cbfea8a];[0x0;0x77665bdba0ed1;0xe7eee307a36a1;0x16dcb1744a9fa;0x100fed964b3a6;0x1741757322d00;0x15a28764a5a69;0x8998bb1de6895;0x6d651c05bc335;0x3d400e7de2833;0x5bc0cbfea8a];[0x0;0xe3f0ec825683e;0xbcb213bf0fb8a;0x54858b63db0da;0x77cd5a273cc03;0xc178e029142a;0x4c9b032981c50;0xbc54d98c01e75;0xe0b46fffe5884;0x80dbb28fca2d2;0x81bfd4a5cda];[0x0;0x121ed583cfc04;0x245ee3683a5d4;0xc73b7d29e61b3;0x222f795308e8a;0x3c9097a5dbdac;0x3fe1b032f3135;0x1f86f2aafe39d;0x64f6d22c89998;0x1ab5b243b0994;0x40e2428444e];[0x0;0xc84b074bbfb08;0x84414e5adc4b3;0x5a6004c79e486;0xd39cbf963fe44;0x2f22ed676e1ab;0xfc61ba14d849a;0x9786d5763ea0c;0x175c966df80b3;0x8434df86b1f4a;0x99e817bdc61];[0x0;0xf4ff8068b754e;0x9f8b927747ba6;0xa2a802adf90eb;0x93fb8f7304f95;0xef643c3e03c4c;0x1d97171741b7e;0x75fe8992b6d0e;0xeb0385a533679;0x7dcaff2e987f9;0xc0e0b27796704];[0x0;0x4f221f8b92804;0xe8a6a5c325d6a;0x37a5d30caf1f5;0x1be4b026c26d0;0x2b92d441bf411;0x6e5613efff037;0x5c956483c9e9;0xa92ae17a66024;0x59212cc1852a8;0x9f4e6a7047f]]);
 ((V [0x1ea94630ed53a;0xb08781412a62a;0xb2227877996d2;0x4e63fb3fbf614;0xcb2197c627beb;0x41ecf65efb572;0xcb24ce9579f29;0x44bbd12621b45;0xb5e4c15a5cb7e;0x831a698551b] [0xa13bc3f1d55c4;0x28bc013e85af8;0xa93867e6549a0;0x31414520d158d;0x797e3294cc6fc;0x5f7945859f7cd;0x51671967098a3;0x1c92483b820b6;0xb40c6c4a5de2f;0xe9e1d93d1a5] [0x6762a484e39f6;0xf2e3308e5fe1f;0x56393cf84173b;0xc132aed89c413;0xf2eabdfd10d5b;0x4371e58caea78;0x28905a7b555ba;0xb52c8f8701059;0xca99501ba816c;0xb68dc348977]),[[0xc472dab57f70e;0xc0b6eb0e1aa13;0xdf87dda8ef60a;0x5cc0d4b4024bc;0x94a926bfe2fc3;0x4b594e8e930f5;0x20349cf7897a3;0x8adcc50581dd1;0x1ec73021d275d;0x824c869e6cc];[0xc13a30349771c;0x449a15c6890f0;0x2b377e043a1f7;0xb19d2830f933d;0x6b96474af9e89;0xb33801e552ea6;0x702a9ff819f47;0xc2f665dc83ef4;0xf85fb4bf499ad;0x344636b4b8];[0xc95fd98462f1c;0xb752d73ae040d;0xcb2738db133c3;0xa82cc9ed1665c;0x5be4797656b7e;0xb67a1a41b87d7;0xeff59c1fae7ca;0xea3ff70543a81;0x3ae9e02139f8a;0xa809587035];[0xc95fd98462f1c;0xb752d73ae040d;0xcb2738db133c3;0xa82cc9ed1665c;0x5be4797656b7e;0xb67a1a41b87d7;0xeff59c1fae7ca;0xea3ff70543a81;0x3ae9e02139f8a;0xa809587035];[0x10cf0cd057d0a;0x1cc9bec06cc41;0x58b7fc7cbd0de;0xabf4009d94fed;0x1a9f0b597da9a;0xdae1f30953cf2;0xe0ae52dc6f0d4;0x5a2a0bbf0821a;0x1d135ff39a8ed;0xb3c33fe43de];[0xb06b23643f7da;0x27d057061c4af;0xd27f81877d119;0x5a927936434f;0x50f73bf17c3ef;0xd8560edbff1b4;0x8f7c4d1baae72;0x68cc5a1d7bcd9;0xdb4c54cbaf0c0;0x4f8123870da];[0x0;0x1e715b5262cbe;0xc25bc6d6291ea;0xbe100b580e8c5;0xe8c72ce1167b2;0x120c3387f64b1;0x341c9816685e9;0x4d17370a43440;0x22eb685f9ba8e;0xb25d183342d65;0x67e9dcded6];[0x0;0xc21f9f95dcc34;0x65dc6cdf962ef;0xfba4e17033d16;0x93c131ecea0cb;0xff69fe73bd4cf;0x8e050830d6899;0x99f2c89aea0ca;0xd2e4725d66c98;0xca44ee0e5b545;0x5586fa0c1d];[0x0;0x4f221f8b92804;0xe8a6a5c325d6a;0x37a5d30caf1f5;0x1be4b026c26d0;0x2b92d441bf411;0x6e5613efff037;0x5c956483c9e9;0xa92ae17a66024;0x59212cc1852a8;0x9f4e6a7047f];[0x0;0x4f221f8b92804;0xe8a6a5c325d6a;0x37a5d30caf1f5;0x1be4b026c26d0;0x2b92d441bf411;0x6e5613efff037;0x5c956483c9e9;0xa92ae17a66024;0x59212cc1852a8;0x9f4e6a7047f];[0x0;0xf2c2074e4efc1;0x2c094d4744111;0x81fd36564f259;0x88825d25fce1c;0x169ab247bf22e;0xf71ac2b2cc284;0x3275d2d407a1a;0x55a6e42296ad5;0x5f56ca0780fa5;0x9102a1c7e76];[0x0;0xacacde24dc46a;0x8081e33e20d42;0x82fb4c017cbd;0x2636412975ea7;0xfbc324c3ca56b;0x4a8311668f838;0x5f2fdf666c960;0x7c100eeed1d3b;0xb01dd425857b8;0xaf030115182];[0x0;0x4716fc9d38dd6;0x121d961a517d0;0xeaac7fb22e04f;0x64a06dd3b9131;0xa503cdce665df;0x68bbf2922fc3e;0x9020a2fb07853;0x8ba6f96f8ca30;0x9ce7cfa46cdda;0x1ac552ac0e];[0x0;0xc0e9174217c7f;0xcf33a55a68b7f;0xeaf78e20eacc5;0xd0a80705a2bd8;0x16eaada13115a;0x1ba8a63ad36a3;0xba21692d62ac8;0x6c7377ca50d26;0x13d9b67ad19a5;0xeac8bef5f9aca];[0x0;0xf27f6f70a9bfe;0x3b0c69b1ae844;0x6d5876c00ec29;0x981435736372;0x90afe1c64f5f6;0xa95451ecfe76b;0x12b5e7964b938;0xe3c3488da552c;0xcefd4df5c14bb;0x77c6b381c3c]]);
 ((V [0x2bf8c64b1f617;0xc4c45742573b0;0x6bb4e15676cd0;0xcadc5ec641f9d;0x775c92b553e;0x96d9dcfab75fe;0xb19fb4b30449d;0x74c1b69395121;0xe755fbfa83667;0xa1048423815] [0xc47719227cb63;0xdf4dfa1d4c996;0xa130783161c4c;0x2d58595945597;0xd360bffdc5fd1;0x863640b5d3d27;0xfadef2f32edc;0x4973cb33dd014;0x8b0d594407ea6;0xc12a07bac9c] [0xe92021685f56a;0xb9605a7ce9c5;0x3614577285399;0xf98f9ca2a2285;0x8befdbf52174b;0x39b174279c4a4;0xf136a28c8e039;0xbe7c5c680f058;0x54f04f5ca649f;0xebe14752975]),[[0x713ed44f52721;0xb19e0ef9d5f39;0x61fc0b730b793;0xecf73353d9cbd;0xdca8ce157cb1c;0x5c7707735aa68;0x82428c30e17ae;0x81b3c51bdd5a5;0x7b1376f14c5d8;0xffa3e774bdb];[0xd2bd43c24bc9a;0x1ea823c4b0211;0x4788110a482bb;0x538bee4be45a2;0xc3ccb71e0ac6f;0x8d1e84d00b397;0xcf79286a7ac61;0xa820b114b25f0;0x6bb8fa8d31a5c;0x4f70f06fd9b];[0x6762a484e39f6;0xf2e3308e5fe1f;0x56393cf84173b;0xc132aed89c413;0xf2eabdfd10d5b;0x4371e58caea78;0x28905a7b555ba;0xb52c8f8701059;0xca99501ba816c;0xb68dc348977];[0x6762a484e39f6;0xf2e3308e5fe1f;0x56393cf84173b;0xc132aed89c413;0xf2eabdfd10d5b;0x4371e58caea78;0x28905a7b555ba;0xb52c8f8701059;0xca99501ba816c;0xb68dc348977];[0xb0b120ac05712;0xa13125bfbd4f0;0x171543a937f1b;0xf4a4e3b28dcd1;0x79f2d9ea6c47a;0x949af9e41d820;0x86d10231f048d;0x52c94ca14a5a6;0x6250867056294;0xbe2e0fc404d];[0x220c231646350;0x7d76fe04f2d21;0x3072cd611039f;0x5ee70a99568d1;0x49d9dd339e7f4;0xf8838aebedb77;0x48a826388a7d3;0x555764736804a;0x968741cdb7c8;0x9142e0abd4e];[0x0;0xd4f61f210ca49;0xb5cde8f85d905;0x31f1b084d3c6b;0xf1eb18c31722d;0xd499d23cb6cc2;0xc74f367d4a821;0x9804836a77a41;0x286918f5a8800;0xdf0d6957c0040;0x70e416fb676];[0x0;0xcb26fbd7ec904;0xd5580a5673c2a;0xc10fb93a4e4f1;0xb1c8c8f6b83c6;0xa9a47a984d527;0x67aa1fa10f68b;0xe9ead7530ec1;0xf38a0456f4f13;0xa45c44486ed3a;0xb64c16d5d0d];[0x0;0xf27f6f70a9bfe;0x3b0c69b1ae844;0x6d5876c00ec29;0x981435736372;0x90afe1c64f5f6;0xa95451ecfe76b;0x12b5e7964b938;0xe3c3488da552c;0xcefd4df5c14bb;0x77c6b381c3c];[0x0;0xf27f6f70a9bfe;0x3b0c69b1ae844;0x6d5876c00ec29;0x981435736372;0x90afe1c64f5f6;0xa95451ecfe76b;0x12b5e7964b938;0xe3c3488da552c;0xcefd4df5c14bb;0x77c6b381c3c];[0x0;0x7d5f2550bf912;0x51af1bd13c787;0xfc95dfc84d35b;0x8ed1a7c500093;0x12115da0a20b;0x7f71e31852114;0x262eb748fc5ad;0xb82fbd3825845;0xb1595f5601bcc;0xd5ace4b0cfb];[0x0;0x901d5ac02738c;0xe5dc64c2d4c45;0x5e299c69fcc0e;0xbbbe536fe09a8;0xcd480964e8962;0xed2b6c6d29895;0x9b95e537cb032;0x1ac7b548cea37;0x8ff0abfbe9390;0x43240ab80c3];[0x0;0x7075790d4c3f7;0x7cd5927131b0d;0xa9198a8744fc3;0xbb9dd8fb3ea6a;0xdf15fef9e5122;0x38ede35eac906;0x79260039e3aa1;0x5938060993c0b;0xb176a3e29f293;0x31f76dfb5a3];[0x0;0x94d0412af6eb7;0x420328009e4e8;0xfeb9fe83cc3a8;0x6ab98e5456e7f;0xaeda57bf3e593;0xb8e01415026c4;0x661483b3120c9;0x103871e89b3d7;0xd56ebfd684621;0xc1af409252bfb];[0x0;0x1e59a6f5175ad;0xbf85fa83f348e;0x379a44906e2df;0x1d24549ade336;0xf3bd939f97e7;0x651910a23d54c;0xd30f2eace5d65;0x9a1b1308f37b1;0xb30d29233ec09;0x797ed7390e2]]);
 ((V [0x861fa11155b27;0x4bd9eb2abf0e0;0x1901752bff344;0xbccb8a7ab76dd;0xd46d5b6e50d49;0x9a880805214c2;0xdbf587c9de727;0xcc53092310dc7;0x1f81cb96886eb;0xc7d84755438] [0x328ddc78e8638;0x7ba80de79567e;0xef341a7c9c353;0x21d5dd952cbb4;0x3e78ec1c463df;0x2bf7cda4f109f;0xa9fa0930c4571;0x8f2b5b29e8679;0x4e75688778b6c;0x175f51adbac] [0x89f90e3979ce6;0x46acaa5d644c2;0x196f316f05c83;0x687a6fadd5feb;0xfb7818ac0047;0x7b290ad772eea;0xc9969fc1c9d9a;0x5bfba6610f234;0xe656afe5115e5;0x938adfe72f2]),[[0xc09ec1c238062;0xf13c5c2fed7f1;0x67d0b48aafb7a;0x59b1e7d61f186;0x382efe9654268;0xcbe7893278916;0x588b3b761ef70;0xfaab62b9627a2;0xbd8d796299d89;0x11decaf3529];[0x24cbc56445fd5;0x6f0a46541c655;0x1a40fb853f9ae;0x1d4b0431fc081;0xe2b84b9b26670;0xa6c15ec639a6a;0xe392d1851c082;0x4073d9f7c2525;0x4336b0675c95b;0x2966da3e8dd];[0xe92021685f56a;0xb9605a7ce9c5;0x3614577285399;0xf98f9ca2a2285;0x8befdbf52174b;0x39b174279c4a4;0xf136a28c8e039;0xbe7c5c680f058;0x54f04f5ca649f;0xebe14752975];[0xe92021685f56a;0xb9605a7ce9c5;0x3614577285399;0xf98f9ca2a2285;0x8befdbf52174b;0x39b174279c4a4;0xf136a28c8e039;0xbe7c5c680f058;0x54f04f5ca649f;0xebe14752975];[0x8bb034466c04a;0x5b27cd16b636c;0xc40834ee9e4b5;0x586c8a23e5959;0x4108031b1d00;0xf7890bd392f63;0x7b9250c61a3a0;0xd8586a39c314d;0xa1c1623fd03b6;0xf0d691de6a5];[0x991b911dd9d53;0x13e2793d662e8;0x5638c696a14f9;0xc4de7a0e16727;0xdea7cb697496f;0xaf3852f2a6b07;0x680080bf01ce1;0x681b6fbdff3d8;0xa1754e278c5a4;0x38904860237];[0x0;0xb2d68e1a9df52;0x538f84fc2fbd3;0x7beecf3926577;0xb86465451df7b;0x5dc1f3c1dd6b4;0x769cbd7bfc37a;0x84d55192b1885;0x83ba95be1ba97;0xeed01ffd04a9e;0x91de2abbd35];[0x0;0xa8012ce532349;0x5c0d2ba0fb5bd;0xc09213582a82c;0xc46a16e22ec0;0x1ebe7a99bfdee;0x21e202aea834c;0xd82579e4c787b;0x7ee9294f7d884;0x787142d2b63e3;0x10773e184ae];[0x0;0x1e59a6f5175ad;0xbf85fa83f348e;0x379a44906e2df;0x1d24549ade336;0xf3bd939f97e7;0x651910a23d54c;0xd30f2eace5d65;0x9a1b1308f37b1;0xb30d29233ec09;0x797ed7390e2];[0x0;0x1e59a6f5175ad;0xbf85fa83f348e;0x379a44906e2df;0x1d24549ade336;0xf3bd939f97e7;0x651910a23d54c;0xd30f2eace5d65;0x9a1b1308f37b1;0xb30d29233ec09;0x797ed7390e2];[0x0;0xcdf89df0aa409;0x1a1fb2bc6e954;0xf70ab6a6c90dd;0xcae63c7744687;0xede394438e26b;0x7b6255f64e079;0x84108c3167b92;0x68a11db9ac1d2;0x68fcedff74b9b;0x91c0668e2dc];[0x0;0x3b92be9003952;0xf7a2d6a2bdfff;0x5659a616ab174;0x5cb73abbe1db6;0x65a932800d9c3;0x8ac8c1ba3a632;0x63752a2dd7813;0x9b79cdc0cf11e;0x97cec244ebca8;0x6546ae490e0];[0x0;0xca44ff33f710a;0x987ad805866be;0xf7fadb086f5bf;0x684d44addd14c;0xf9ac8d3feedb;0x358247407b19a;0x7690961b7893e;0x7b4b6e23966f7;0x5f312757792d;0x2051edf815a];[0x0;0xbc4ae5e8b2d46;0xcab99b11ed528;0x66300f9333cfa;0x7650deb7ef117;0xd2b5d35cb8df2;0x91eb5061005ba;0x112200872e7e6;0xd6c6b6e44967a;0x3b1a0f88ce0b1;0x1772e9576c3ff];[0x0;0xb11be1c633d4e;0xca2c3db3fee9b;0x77413203ff1ce;0x29fb525bc8b15;0xbf6f36c98f377;0x3b5512ba2bb9e;0xc736efa674679;0xaabb5d4f73ab;0xbc382ab893098;0x123ed76e2f3]]);
 ((V [0xc483a450c905d;0xe9b60f108afa0;0x1b32089dc8f30;0x776a59bc68f2c;0x830d28e827089;0xb0fe2778f94f4;0x347b63a8d96c1;0x82e35e41ca436;0x48ab35b1bb006;0x64944108465] [0xaec3be9569655;0xa041cc2341af4;0x24d8f986e1998;0x53735a611c6f3;0x6e5b79fd5aea4;0xe8bd6a9e7a576;0x6bff047da215d;0x46847c409ce76;0xd7774bbdc1f80;0xf35ba968c6b] [0xd5057c492790;0xb431cdacc32c4;0xe39301f60f109;0x4df0c60b4828f;0x242b42ee2e9af;0x16da821344d65;0xc8244ea9bcdf9;0xf328ac7ecbabd;0x216d2269d535a;0x786a4c3a223]),[[0xa6349d503e60f;0x271937932d635;0xc5f1adb8ab75a;0x34b4d638d906a;0xde2b5fc101441;0xebd8c0dfea441;0x500bb1c1c8fa0;0x40e76c38f79b4;0xa460c178cb528;0xcbbdfdee2bc];[0x19809f8085768;0x3e2c752858959;0xdd2cffe4c072c;0x6527e1449278d;0xf93220f6f9f64;0x4a21934e98196;0x9e1f3d0bcd237;0x4ba8e308b6aec;0x1c38d54085975;0xd0a04247c79];[0x89f90e3979ce6;0x46acaa5d644c2;0x196f316f05c83;0x687a6fadd5feb;0xfb7818ac0047;0x7b290ad772eea;0xc9969fc1c9d9a;0x5bfba6610f234;0xe656afe5115e5;0x938adfe72f2];[0x89f90e3979ce6;0x46acaa5d644c2;0x196f316f05c83;0x687a6fadd5feb;0xfb7818ac0047;0x7b290ad772eea;0xc9969fc1c9d9a;0x5bfba6610f234;0xe656afe5115e5;0x938adfe72f2];[0x3584a90775d68;0x62ff4eba7f0af;0xf46a2d61b5f5b;0x8f100f0f984c9;0x8149e505d4d57;0xa85b7d8b25163;0xaad85e59cf688;0x9b2c301594966;0x8e6a687893c33;0xc728bb4eca9];[0xe3fbf6790fa01;0xdb2d266dd98a9;0xe8c2d2830a7d0;0xd617d234fa2c3;0x77e83bf12520c;0xa1c615c373033;0xf346deb1fdbae;0xb07cb2f322185;0x8dce6cc7f1d41;0x97786f8fcf];[0x0;0xdf0ea4db6b5a7;0x85d83f8a53fd4;0xb1710ffa0c901;0x8a2751d4e05a1;0xd155bcbda2b9;0x8b787acbddb20;0x894d7c0e94440;0x7e97ab2194bf6;0xb87c9642957a0;0x5b3d73f5eb9];[0x0;0x39654dee395e;0xb6ba1c2d04148;0x87448fd4a931b;0x75ad82bf56ae6;0xcde56798dcdb1;0x5a4ed85164f74;0x1d526d5113dc7;0x1c6c4bb36a866;0x829cae1ab62e3;0x756c9f6d23b];[0x0;0xb11be1c633d4e;0xca2c3db3fee9b;0x77413203ff1ce;0x29fb525bc8b15;0xbf6f36c98f377;0x3b5512ba2bb9e;0xc736efa674679;0xaabb5d4f73ab;0xbc382ab893098;0x123ed76e2f3];[0x0;0xb11be1c633d4e;0xca2c3db3fee9b;0x77413203ff1ce;0x29fb525bc8b15;0xbf6f36c98f377;0x3b5512ba2bb9e;0xc736efa674679;0xaabb5d4f73ab;0xbc382ab893098;0x123ed76e2f3];[0x0;0xf614759ae1a68;0x232cb80c0c9ee;0xb0cf6c8a6925a;0xb9265ab648dfd;0xe558a094ca3d;0x57fc3322c181c;0x4864db72248fc;0xdff52511161be;0xf65cbcf86e8b3;0x222442af08];[0x0;0x20dddaa94ca90;0x6250cc9c024f3;0x22b11feccbed8;0x1f49fb970776b;0xf1784ee1d1213;0xf71bb04a376bc;0x3d306acc6114a;0x664984aaaebec;0x662e756755dec;0x9c01f59f02b];[0x0;0x707bca06e41df;0x34ad2478b48c1;0xb1f82a3c6cdeb;0x901b5f220ddb1;0xff72d8edf72c7;0x7d547e536cfb6;0x9d67d7d71bbaf;0x338780de060c1;0xb54506fe4bf82;0x51f76b89ca9];[0x0;0x69f90e71279be;0xf7531f7b8e1c0;0x72062d80cb2c9;0x62d3506207a0;0x53918ec985ef7;0xf642610659dd;0xbd8da0bfb8f09;0xccab5a16c7d03;0xef3ea8ccc2809;0xf388b2403ea36];[0x0;0x15a76da3b8427;0xf92b544977541;0x21b163b39b640;0xcf05ec96e13ae;0x8977d832deec7;0x4d8646787e68d;0xb83b88f408861;0x9cdd5c37f9d75;0x13c2f1fddd25b;0x5f9cbcfd01f]]);
 ((V [0x7ba35d2ba0d3f;0x41efe820a52b9;0xa319b2452f6e5;0x242cde6aa45c9;0x74ec781f9c8bb;0xa2490c2aea931;0xd33ed4faa8210;0x6e3a6fac9f459;0x2ec8ea46a6d79;0x26e18dcd0bc] [0x2ee4ed0e433e4;0x3750ee245f1c4;0xfd831edeedf59;0x57e25b6e469d2;0x749886cb6022b;0x446706c89f284;0x1e55e31a266b5;0x79f1b781ee525;0x71d8d7f5aaacf;0x64e2567f1c8] [0xae5c0fe07e260;0xd13ca9b81eee0;0x14e678b2cf194;0x6a4e4848e4f82;0x3fe1958be431a;0xbc2d35c80bb5b;0x419fadab77048;0xb2d055f59a89d;0x62d9a167583e0;0xf22edc65a23]),[[0xf0bdc4dd7f2d1;0x7dd8b9af3e0b7;0x76ebfacc91edd;0xc6f69fb6e457e;0x620864e69ced8;0xe2811b23a6204;0xfbfd365b464c5;0xba5813c0cdd8b;0x5c7daa3dbb92d;0xd8a20463b8b];[0xbca3321fa3adb;0x6827a207394d5;0x18476497b8a5c;0x65a456780d439;0x17b63e0046640;0x5448b0663f2e;0xe9c08efa5dc8a;0xbbb0f13153452;0x38c25165a7d32;0x919b8ffc2a3];[0xd5057c492790;0xb431cdacc32c4;0xe39301f60f109;0x4df0c60b4828f;0x242b42ee2e9af;0x16da821344d65;0xc8244ea9bcdf9;0xf328ac7ecbabd;0x216d2269d535a;0x786a4c3a223];[0xd5057c492790;0xb431cdacc32c4;0xe39301f60f109;0x4df0c60b4828f;0x242b42ee2e9af;0x16da821344d65;0xc8244ea9bcdf9;0xf328ac7ecbabd;0x216d2269d535a;0x786a4c3a223];[0xc48c24cca2b2b;0x60f84e230cb67;0xc0af44c1771cc;0x23ac357edc143;0x352ddea01b27c;0x5f5f62d18f292;0xf33ba12f50f1e;0x4ea16128ed488;0x785dbc131483a;0xdfbafa8f989];[0xf8170d5300d78;0x72f53e42c96d;0x57981fd641890;0x41f820f9312f5;0xe2885f602b3c4;0xa5e52834d4c9b;0xf684edcb0cd6b;0x6d0f900865fc9;0xc0649552934f8;0xb1e0956c919];[0x0;0xc107bd8360059;0xb4b584477da65;0xcb6054e7ae4b2;0x3bd9adba25ddb;0xdbf677c04e14e;0x51dbc6da61b2e;0xf6370778a4ad9;0xf285a7147dd67;0x1be927621fa15;0x4a76efd9df9];[0x0;0x24e56e5e484a3;0x444330c8132b7;0x2b4eaf83e3466;0x3cdad43945d45;0x239f68ecbc31d;0x18f0d9dc8b24c;0x599ae61192ca2;0xaa853ce5da0c3;0x231eae9d29a3c;0x65e5e5a5dad];[0x0;0x15a76da3b8427;0xf92b544977541;0x21b163b39b640;0xcf05ec96e13ae;0x8977d832deec7;0x4d8646787e68d;0xb83b88f408861;0x9cdd5c37f9d75;0x13c2f1fddd25b;0x5f9cbcfd01f];[0x0;0x15a76da3b8427;0xf92b544977541;0x21b163b39b640;0xcf05ec96e13ae;0x8977d832deec7;0x4d8646787e68d;0xb83b88f408861;0x9cdd5c37f9d75;0x13c2f1fddd25b;0x5f9cbcfd01f];[0x0;0xd31bbe6e7e282;0x4c54e74e2d044;0x3204c5910119;0xcdc357a40ae99;0x9219fb01105f6;0xfdbff694412e6;0xe2a7d5b820518;0x5c363b09969f4;0x47cc2c594422f;0xe757246ec9e];[0x0;0x1773a6d429d27;0x7393bbacab446;0x90fa4c787a32c;0xb451b5db48f9e;0xd1d29046647f5;0xa8f4130d1dd9;0xd6aeabd9b082c;0xc59411b97cefe;0x89217e59910c7;0x278428a9b90];[0x0;0x426d6a6c4aedc;0xf5de36bd0ee9;0x37780a0b8f87a;0xa32074e7bf624;0xb0d5f5dd26a21;0xedd961b2b44d2;0x3d13b2c1c9895;0x7fb32e5d3ae31;0x57be75ad472e8;0x161d61c0497];[0x0;0xc446c8501bf96;0xd7dcd1d8ab3b2;0xfc27d5c091989;0xfe9c4ef067cfa;0x442999af131e9;0x4599596dd7193;0xe9dbe8611df5a;0x83fce1f981615;0x644eec6dfe822;0x650dd754d577c];[0x0;0xbc5e83bf50364;0xbd9d38c1a57a4;0x779f61f819da;0x2b3868758ad7a;0xbbcb54b4a494d;0x7bcb43c8ba46f;0xc368d2cf18693;0x2c2f037e3773c;0x9f21a1e5f833c;0xf527ba65b7]]);
 ((V [0x77c5e06e765f8;0x19debcf8bff14;0xac73b8f2bff90;0x5341a922d3678;0x5ba964c6e18c5;0x9171fe53d67c1;0x37ebf4f08b48;0x40ec632e2e3ed;0x722171bfcaf49;0xda2e0b72399] [0xc138a18943b64;0x1f9178050b465;0x7ce7088bac2;0x35cec6449ae7;0xa5e9af5587804;0xfa0661a0dcb1d;0x76187c1e9bd5d;0x3bd7fd4000b9;0x6493b0ee7c9ab;0x928f91d6c03] [0xcf25c1537cb22;0x68ca9dfbb1b20;0x9b43c638408b8;0x5b0ba516aac1b;0xb704a60ba6e6a;0x8bf5b49ff81cd;0x9c06b0225f93f;0x198dfe2ef30eb;0x411b58c598c39;0xb441525f4eb]),[[0xabf610e29406a;0x74b636b62e491;0xab8632c068347;0x2b16138c91af1;0xb2b6594e753df;0xa86c499cee93e;0x57384947f473a;0x787ed3765c288;0xe3713866f6966;0xfd3df78ab6a];[0x5caa44ff06916;0xa17b3276b1fc7;0xb0015a9ca9939;0xe1bc99c65ed95;0x7e59b6e0fe3d5;0x88f7f8991cd1e;0x1166ef9fdb04f;0xe67a9786123cc;0xd45b963819378;0x7b2f6c30110];[0xae5c0fe07e260;0xd13ca9b81eee0;0x14e678b2cf194;0x6a4e4848e4f82;0x3fe1958be431a;0xbc2d35c80bb5b;0x419fadab77048;0xb2d055f59a89d;0x62d9a167583e0;0xf22edc65a23];[0xae5c0fe07e260;0xd13ca9b81eee0;0x14e678b2cf194;0x6a4e4848e4f82;0x3fe1958be431a;0xbc2d35c80bb5b;0x419fadab77048;0xb2d055f59a89d;0x62d9a167583e0;0xf22edc65a23];[0x9a385e834873e;0x2924652912db8;0x13b96fa1b3d83;0x383b69c952e93;0xdaec7eaeb88de;0x83db8753874b8;0xcfa28b1b2b41f;0xdc8c13bc7bf15;0xe22d9ea680e4c;0x5f683121462];[0xc271e67bbe1d9;0x7856cd4d9f20e;0x9c47eafaf5bb6;0xa9812ffd0bf02;0xa36d383245af7;0x51c714595865;0x41c46484afc30;0x9ee83c9964b6;0xf22df7919852c;0x1bc73b0ecad];[0x0;0x94d482c4f2dba;0xcce207e0f910f;0x5d04623d6695;0xeb5bd10ad984c;0x3d49048cf0672;0xb893a730946c5;0x31e89bec6a36f;0xe20362aa08214;0x4e817e0f2fecb;0x95c400fc369];[0x0;0x88dacdbd9a006;0xb5e0de95b5ad9;0xb5bf21646ff6f;0xee433f3732447;0x2891857cca888;0xa720334d2bc38;0x1b833cc38a996;0x1f66d4f3e6c17;0x230ea7586a219;0xef92ef29664];[0x0;0xbc5e83bf50364;0xbd9d38c1a57a4;0x779f61f819da;0x2b3868758ad7a;0xbbcb54b4a494d;0x7bcb43c8ba46f;0xc368d2cf18693;0x2c2f037e3773c;0x9f21a1e5f833c;0xf527ba65b7];[0x0;0xbc5e83bf50364;0xbd9d38c1a57a4;0x779f61f819da;0x2b3868758ad7a;0xbbcb54b4a494d;0x7bcb43c8ba46f;0xc368d2cf18693;0x2c2f037e3773c;0x9f21a1e5f833c;0xf527ba65b7];[0x0;0x9210c867ead9e;0x3f3e846b311d3;0xd6c888e9ca433;0x67197c2d8eadf;0x938dbf83ed9aa;0x98fa518557c00;0x535051f2d5eeb;0x16d289fc86263;0x193eed26beb44;0x27c19bb023f];[0x0;0xf25f370d5ef18;0xe48c0aae2c84b;0xcf107639e4c44;0x74267bf72923f;0xcb0e117b13f06;0xf85b50e05c28b;0x9920f0a185ab9;0xb021d91bda599;0x80e0ebadaede4;0x5e7bcd3707];[0x0;0x23a8ff3199f38;0x4c2447e452f16;0xeac723e44168;0xa19d790bb7d9;0x4a0039d25248c;0x5912755d969ae;0x75bb7b689fdd5;0x43d29a35ca33d;0x2e45c7f32f212;0x68fc8a285fa];[0x0;0x68999c0fdd7c4;0x96295006e603d;0x1e7db64b50a44;0x79a9c0f8fac5b;0x86846b3156658;0x271ddc636a972;0xda698723669e9;0x9d02f23655c6b;0x311e3b3eb5d14;0x92db9b4738eb8];[0x0;0x9e1b145abd852;0xe328bfc709199;0x5861581465ad6;0x57fe8c439fe22;0x2a37cc305bb04;0x2fd62a3ea2430;0xb6b82c4489b99;0x94069183ca454;0x6dad83621987;0x7ce89e8aa47]]);
 ((V [0x66df16ef49683;0xd3c7112f61831;0x2a15ea65599c5;0x350d4ffcd78d4;0xbedd665b66387;0xf1100f530a667;0x68ee0b30f5371;0x80ab9304c9a0c;0x2a8d2e139bfb9;0xef48134a86a] [0xb5539502a4394;0x830ae0b64c01c;0x9b25de52420cb;0x81f72c87a0b9f;0x5bd102aed9550;0x382128e069462;0x900a9e32055d1;0x663edaf9a8804;0x5eadfc056529a;0xb75d9e20da1] [0x4265130b49a5a;0x2ab9c96a3e2f5;0xcfab5c61eeaa8;0x2786fcf44e880;0x12352d3b67e01;0xd560b985454bd;0x9ff25161b8fa2;0x516d94623d1e8;0xa2d2b8908e509;0x90c8c68d821]),[[0x63c0deaaa0140;0xe3b6f974ce6e1;0xf386424828cd2;0x5778f1b8dc6c2;0x8c1fb469f2e46;0xccbcdcca22960;0x984b2c1f1baf0;0x8e1f6c490479a;0x58ce907fb7287;0x48c2d718403];[0xdad66148fc65d;0x5e83ea6860760;0x6f1481f60fc6;0xcd81a9c3e954a;0x672772d21de2c;0x90259f4b0583f;0x5ba566ff1468d;0xe11f1800bb60f;0xf0fc7aec73986;0x53d8e4ffec8];[0xcf25c1537cb22;0x68ca9dfbb1b20;0x9b43c638408b8;0x5b0ba516aac1b;0xb704a60ba6e6a;0x8bf5b49ff81cd;0x9c06b0225f93f;0x198dfe2ef30eb;0x411b58c598c39;0xb441525f4eb];[0xcf25c1537cb22;0x68ca9dfbb1b20;0x9b43c638408b8;0x5b0ba516aac1b;0xb704a60ba6e6a;0x8bf5b49ff81cd;0x9c06b0225f93f;0x198dfe2ef30eb;0x411b58c598c39;0xb441525f4eb];[0xe844a6eb36eb8;0x791606898c037;0x625402637bb3a;0xa29aa6a7ed8b0;0x1787d9346db9e;0x35c94182758ac;0x10020e9104351;0x285da4e610a5a;0x290145bd32dea;0x15c478305d7];[0xf291ba5dc57a6;0xe56de3ded4728;0xa49d45bbe548b;0x2ae7031bfbc99;0x4f9f999db028e;0x5a5c5dc88ff93;0x4ba3586e1033c;0xb8c1731aaabb5;0xc7fb352f40b9c;0x3e146ccf8f1];[0x0;0x78dd1646761a0;0xc268429ba10a5;0xe1f19a0223807;0xbabbd5e535af0;0x1e6484e26a930;0xb4c82368fe7a4;0x7a55febefcce4;0xf8cf5ece5abc;0xec1258d2c9a1f;0x6f7832dd8da];[0x0;0xb8a485d6556c5;0xb53feefc79f1d;0xe2f3bdd6d5f60;0x9e0c21c72a3f4;0xecb70488bf2ce;0xa136b3bca29df;0x5397b3abcd65d;0xc0aa93af52884;0x16cec655ea9f;0x333b901f29e];[0x0;0x9e1b145abd852;0xe328bfc709199;0x5861581465ad6;0x57fe8c439fe22;0x2a37cc305bb04;0x2fd62a3ea2430;0xb6b82c4489b99;0x94069183ca454;0x6dad83621987;0x7ce89e8aa47];[0x0;0x9e1b145abd852;0xe328bfc709199;0x5861581465ad6;0x57fe8c439fe22;0x2a37cc305bb04;0x2fd62a3ea2430;0xb6b82c4489b99;0x94069183ca454;0x6dad83621987;0x7ce89e8aa47];[0x0;0xe172d38ab8ce8;0xe6f98b7c2dcbd;0x6855128d42ad2;0xb721e28894908;0x18e65c0e0d889;0xbc087dc041181;0xad92551fe200;0x6b83ec1334ffa;0xda2109703d7f5;0x53e812dd343];[0x0;0xde7de4690ba96;0x36dc4c218290b;0xf83a5ab577c49;0x91e3154fb238c;0xf9a31419379fe;0xa8bc82951c3c3;0xc1fb19fbd38ab;0xeb46065afec3f;0x51c49f07568bb;0xb9f273c6a7a];[0x0;0xfbd0e3fdc797a;0x7c47a8695bc58;0xe1038acbfe3b;0x5820f1034694c;0x6a31b383a54e5;0xd7ff24c1018df;0x6b839bbac1cdd;0x5b28563aadaa1;0xe16eb239a75c2;0x4e5f191cd79];[0x0;0x6733e2e3608e5;0x5d22cff08f3f4;0x290fb38fab386;0xaf5b87b9abd7e;0xcf5de6f30ea3c;0xc8003430efe5;0x3aa71f13ae518;0x6fcc9f3b904d3;0xd21a77cde37ab;0xb7d8ed09b22d0];[0x0;0xf596c2512a28e;0x24ec6d44a6b0e;0xa4dd77709968a;0x63d3136266d6c;0xc221c1edb3b27;0x3a4e9b889eafc;0xbc85fc6b6aa03;0x37227ca18bcea;0x3750f5d189561;0xab6406c6791]]);
 ((V [0xfd06e6ac72f99;0xe216de7dca0bc;0x440259df65739;0xffbdd0d70b7ce;0x81e32fd678713;0xc8e1c2fbacda8;0xe78fd13abdeca;0x80b461c308082;0xc7649d8cc0aad;0x6c38077c0d8] [0x7f393bb86d2b6;0x92e08d58133ce;0x38d625069c350;0x5cfb7790c51f7;0x45ab77bb2b802;0x5970a30ad0645;0xec35f7c696d31;0xda45af9e58337;0x9710581362f3d;0x4ae934a4b54] [0xeadac6e2d7239;0x27ed761b7ad4d;0xd6e1a60a99097;0xbdd1636625420;0x29e75a93e2588;0xe636ed3957b9e;0x498b4ef7b9f2f;0xae9b37b81c92d;0x33387a0b9600d;0x1e4e9d6f661]),[[0xb2909e6afcb17;0xeb7b0bf157723;0x22b6b24992542;0x68342b89b9190;0x83c5e89b2b62a;0x7543bf5b5471;0x4fa3daec959bc;0x772bfc00de789;0x70300bb80b2c6;0x265d9eede96];[0x1d05c50edb8f3;0xb457faf4ab9d1;0xdb87d5a16796f;0x321e5af085389;0xd8cec79009326;0xbe3aa80035ef4;0x10b77e76d9d2c;0x5a89e04f21864;0x303cf38be2554;0x89f8653a9bc];[0x4265130b49a5a;0x2ab9c96a3e2f5;0xcfab5c61eeaa8;0x2786fcf44e880;0x12352d3b67e01;0xd560b985454bd;0x9ff25161b8fa2;0x516d94623d1e8;0xa2d2b8908e509;0x90c8c68d821];[0x4265130b49a5a;0x2ab9c96a3e2f5;0xcfab5c61eeaa8;0x2786fcf44e880;0x12352d3b67e01;0xd560b985454bd;0x9ff25161b8fa2;0x516d94623d1e8;0xa2d2b8908e509;0x90c8c68d821];[0x457bd3fca6c70;0xc7595349c8cf5;0x7bf556284c15e;0x3beecad8b5475;0x1bd0091c3d877;0x7dfff491831fc;0xbe481e4304f55;0x3b5629da52f96;0x7878ac3e786ad;0x40973798e2e];[0xd789f11234c84;0xecfea7aae2cdb;0x5f927f791b810;0xf62f9017cff14;0xbcfebe73cbaae;0x403ab36eb2cf8;0x526f6033d4dd7;0x1f33b674ce8cd;0xb7c4474d69ea7;0x49612da1b8d];[0x0;0xfb73a0b1e28af;0x91349d8eb3566;0x976233685e8c;0x7c0475ddadd1;0xc494ecef6237e;0x69decd0585d45;0x8be10d59c6044;0x4cec0e91a02d7;0xd16838582dc8c;0x5988cd68bab];[0x0;0x9800add10ffc5;0xa8ce72fa955f7;0x99ee931d2d393;0xa5025e930470b;0xbb8fb05fefbad;0x8f5f37f0a230e;0x1104f2cff2e45;0x895db6e5b65f3;0x44cb5ebfd10cf;0x15b2c04b9b2];[0x0;0xf596c2512a28e;0x24ec6d44a6b0e;0xa4dd77709968a;0x63d3136266d6c;0xc221c1edb3b27;0x3a4e9b889eafc;0xbc85fc6b6aa03;0x37227ca18bcea;0x3750f5d189561;0xab6406c6791];[0x0;0xf596c2512a28e;0x24ec6d44a6b0e;0xa4dd77709968a;0x63d3136266d6c;0xc221c1edb3b27;0x3a4e9b889eafc;0xbc85fc6b6aa03;0x37227ca18bcea;0x3750f5d189561;0xab6406c6791];[0x0;0x565eaaecb15e0;0xd535241b0fe05;0xd3f7e46eb5c9c;0x9b627a2aa6163;0xd15e6e761dd76;0xcc8be7799c872;0x829d51182cf41;0xd9adc59227ae5;0x65b22d8bd6810;0x8356fa4f3d5];[0x0;0xea0cf622f3553;0xe2e52102887b7;0x6275d6e26ef02;0xe24300abacbb7;0x77478be14a61e;0x82a12723ea8e3;0xe334a4ef062ba;0xdc74147c6c325;0x39866f9101be7;0xdfa7a85002c];[0x0;0x27b9e17a655e0;0x140387473e774;0xfb88f89654a55;0x410a31339493d;0x7f035bfdf0377;0xc479d7fc488a2;0x99063efb19a24;0xada66d841173a;0xb4ba5aa20a8b9;0x3a52fd1384e];[0x0;0xa814dbdc3476d;0x469443f68f8ba;0x378280656303b;0x16cc6d6b4bd2e;0x680be8260d863;0x4a964a5d646a6;0xf58722e9740d7;0x3ea7bf13b4e26;0x75d6e09abc4e5;0x4b0bbe5ca3b1f];[0x0;0x6a9d553c090b;0xca19c0c4bed05;0x7f55376528ac5;0x8dd1926287926;0xdb1bf1e7a46af;0x13db584448aac;0x4c43c20b07c51;0xef49b9988961f;0xf964e1edd4bca;0x1faac769add]]);
 ((V [0x6c83d25b5e3fe;0xdcabefda759eb;0x7636511193d98;0xe99eb68292f18;0x67adebf824a2a;0x420fbc5cf6682;0x13d59d0610116;0x29a366019de95;0xfd16499d44779;0xddaee254d47] [0xefb798be009c9;0xa97fc75ec78e6;0xb93ae50cb9203;0xdd5fa81bb76a9;0xbdba2b800b0c3;0x1cfe4576731cc;0x96c6ad978b603;0x4ce483df5991a;0xc87751c985582;0x17537761ab8] [0x661e1c0204bb5;0xda78944e97b33;0x585575189f02c;0x9adb2a077aa79;0xfbca0786b4a5;0xf6d1231f26d5;0xe2fd640a88d15;0x3d2895844591;0x8d9a62e23ce18;0x29731849bf3]),[[0xd6fbb60e73c6d;0x86676fcb9703f;0x304aca476fabc;0x424aa4f65a3ec;0xcfd21f161c57;0x2d7fd8d9fbddd;0x8ee8027e55d58;0x18047764d98cc;0x8e90e2fc15783;0x6968f516025];[0xf47c6b975e5b6;0x9302164882684;0xffe0ddbdfedb;0x7823e1baadae9;0xa38423ae6ebe1;0x4090102d047cf;0x867b3a4039465;0x7883333c52907;0xd38ff16ab1ee9;0xce700640036];[0xeadac6e2d7239;0x27ed761b7ad4d;0xd6e1a60a99097;0xbdd1636625420;0x29e75a93e2588;0xe636ed3957b9e;0x498b4ef7b9f2f;0xae9b37b81c92d;0x33387a0b9600d;0x1e4e9d6f661];[0xeadac6e2d7239;0x27ed761b7ad4d;0xd6e1a60a99097;0xbdd1636625420;0x29e75a93e2588;0xe636ed3957b9e;0x498b4ef7b9f2f;0xae9b37b81c92d;0x33387a0b9600d;0x1e4e9d6f661];[0x9509726673a81;0x29ab155b0c86b;0xfa2e353e120d3;0x66639dd964db6;0xe513604eaa05d;0xc451064a0e613;0xf6c801b762ab1;0xb6919c7c3afbc;0x136dd60267693;0xf71c4bbd68b];[0x5f72f930ea8fd;0x695700ed75e19;0x15cfd89dcde08;0x11c043e148d32;0xbe70c35fc4b84;0x7c3f09e2f61bb;0x8fb33888d69b3;0xc1f196c01794a;0xc0221b684a855;0xd753ba829ab];[0x0;0x5d51d10b0685;0x38a50b717b630;0x3a09fe6c44f99;0xdb2e3568015d5;0x50f71e65f09a;0x59cc989232ac3;0x34ceef854103b;0x80f6a6e48221f;0xd167fd8edfaec;0x12bdea8078b];[0x0;0x17f76cd7baef9;0xa138c42202188;0xa1dd945d902dc;0x36722dc631733;0x2355989a1029c;0xd93b2e9a4ec6;0x8370f4242027a;0x1128b41e3bdc6;0x3a00aee521db6;0xc7aab867dd];[0x0;0x6a9d553c090b;0xca19c0c4bed05;0x7f55376528ac5;0x8dd1926287926;0xdb1bf1e7a46af;0x13db584448aac;0x4c43c20b07c51;0xef49b9988961f;0xf964e1edd4bca;0x1faac769add];[0x0;0x6a9d553c090b;0xca19c0c4bed05;0x7f55376528ac5;0x8dd1926287926;0xdb1bf1e7a46af;0x13db584448aac;0x4c43c20b07c51;0xef49b9988961f;0xf964e1edd4bca;0x1faac769add];[0x0;0xfc46a8278c605;0xae2b1965eb9d0;0xbb9b7a38f12f0;0xf4e2e867040d5;0x5c5f8e4532eaf;0x627d3c172cc7d;0xa0009e560ae65;0xc1257031bcd2c;0x3c8a5871c8260;0x15eba6e0177];[0x0;0xf1da3e7a1abec;0x719913f7721f8;0x106fc415a8283;0x121322d39eb81;0x2886324fe0938;0x18971e2ec094a;0xfa2e037a712e1;0x563257f0a2d7d;0xc761cde7d34c1;0x2dbf5293f1e];[0x0;0xc302a8b38d2e0;0x4f753d451f1f6;0x4bcd66a3870f;0x7f9743533187d;0x52c1491579040;0xbebb627aad6a4;0xd8e671cb5a29b;0x4dff6e5a3e0fc;0xa0613319c0409;0xb2c3bc0cd01];[0x0;0xe102727c3471;0x5a206bbcab42e;0xc0e34df54be6e;0xa85c5e4a5967e;0xb680ed07a934e;0xf33054f13bcc2;0xb62189a395bf;0x5ab5142207ac3;0x3c9848c756857;0x1757fb79e69b5];[0x0;0x504b435b1497f;0x190db8ebe82ee;0x9b860288f4ac2;0x7ba1f313dc8af;0x27543a7d266b5;0xe33b15e40e62e;0x7e66263dc0d9f;0xd1714ee88f2c0;0xf144bef94db1b;0x1432fd69df9]]);
 ((V [0xd47f0780c8386;0xdf478ee3d442d;0x7fc1346443cca;0x88e77d7f0a3d2;0xedc19b0fd3932;0x818fe22bfe617;0x81411206d0297;0x6eab5f98963b;0xfe81c68d3cc47;0xf0c0df53f48] [0x4104f48fa3bc4;0x578f2a3128951;0xeb65bec310024;0x3ac984d69f30;0x1cb75cc54cada;0x70b6bdec38de8;0xf1bc9f555c3be;0x9b3db83435246;0x5a7cc8f560b85;0xcfddd99a1fd] [0x6e2157ac5b44e;0xa202f3fb9b6b3;0x9e6f1b36f1dbd;0x793ca0659c7ad;0xbbcc40073830e;0x51762a332ed95;0xce2199c872f9d;0x45d3cadd7ca9c;0x2a0d2d264a41d;0x4c74b07306d]),[[0x99cc15ce6a5d0;0x274602f81399b;0x7bcfe3f3b042;0xb979718cfd456;0x529d64f8b092f;0x1d1f19cdb8e86;0x50e37504d1a2a;0x79e9308ce4a1;0x3e4122d08f9db;0x9f385592358];[0x24b0f50f0c6c;0x3b46d68160fe9;0x6fa9ee2e182ba;0xa23ff335d8c63;0x19a845dd2e004;0x11d8d65b5cbe5;0x6b4cc0900b5f9;0x135c58418b9c2;0x272e290a67bb3;0xc593a9a90f0];[0x661e1c0204bb5;0xda78944e97b33;0x585575189f02c;0x9adb2a077aa79;0xfbca0786b4a5;0xf6d1231f26d5;0xe2fd640a88d15;0x3d2895844591;0x8d9a62e23ce18;0x29731849bf3];[0x661e1c0204bb5;0xda78944e97b33;0x585575189f02c;0x9adb2a077aa79;0xfbca0786b4a5;0xf6d1231f26d5;0xe2fd640a88d15;0x3d2895844591;0x8d9a62e23ce18;0x29731849bf3];[0x3c089a676fe91;0xfd71df7a8a7fa;0xa642a07fa6993;0x9918c85fd49f;0x564bb1f282c8a;0x2ba19a2bb7375;0xe6d3445c7c10f;0x99253d93ffe1f;0x6c473973a8d4f;0x2758537a7e6];[0xc64274e980ddc;0x3dd4f706d67ee;0xc9674dae71926;0x98ae66afdb7c3;0xc35c93eaab37a;0xe6373c2fa586f;0x84797c338f4e9;0x7a371aad8bba2;0xbae6ef96bee63;0x9e3b562e909];[0x0;0x82549e6c6640;0xb7a580165911e;0x5dcf256699223;0x29fa4629e77bf;0x1f4f53f98d80b;0xe9b650504c5fa;0x644f1ed46680b;0xb63be01e96063;0x8f2e540b76b29;0x19a1e2a77dc];[0x0;0xcb24c8a6333c;0x579d7e86751b6;0x96940ad31b9fb;0x48325b20e065f;0xf6246688e109b;0xb24e1ca9f5955;0x74bc75a6c8c71;0x3124bdb6eee83;0x4a904e70a54e5;0x19c79b1e014];[0x0;0x504b435b1497f;0x190db8ebe82ee;0x9b860288f4ac2;0x7ba1f313dc8af;0x27543a7d266b5;0xe33b15e40e62e;0x7e66263dc0d9f;0xd1714ee88f2c0;0xf144bef94db1b;0x1432fd69df9];[0x0;0x504b435b1497f;0x190db8ebe82ee;0x9b860288f4ac2;0x7ba1f313dc8af;0x27543a7d266b5;0xe33b15e40e62e;0x7e66263dc0d9f;0xd1714ee88f2c0;0xf144bef94db1b;0x1432fd69df9];[0x0;0xdfbd56f234c0;0x547f47304afc1;0x21b4c33e8bd5e;0xf5cce2f3b5877;0xe977b4fcc8f8;0x577add458a19f;0xb16b56b4c132a;0xb365eafc68e7;0x47036fa767b95;0x2201aaa2dd];[0x0;0x62d57b7e0ac98;0xf2ced7f808961;0xcd25bf84cb598;0x9e017dd4344b0;0x50644e3f1010f;0xbb469a78b38b3;0x67a70c7a7bd0d;0x27f72efa06565;0xf709628549c38;0xbff76a3eea4];[0x0;0xe7bfd4f1e1a3c;0xb85609b86bebb;0x11c84d4cc9a78;0xe105a4e1c83f1;0xcc9fc1990f8d5;0x9835a57bbdd9f;0x89f3c659fa2c3;0x8fed4e9fb6e30;0x7a1c237f41b8a;0xb9cf4a2a294];[0x0;0x4ed741190c36c;0xa515bb161f2f7;0x138f1b81acc84;0x179fa951c3c55;0x56899acef3919;0xb0223810bc221;0x502c94649ab2;0xa6ca9d3d7d98b;0x260049385c1bf;0xd00d49d51fad3];[0x0;0xb1c31d3422566;0x9f41146a3d96;0x8ee139d667a78;0x7d19b68dad8c;0xd66c86760ab8d;0x4f4687b764749;0x9f79794a03301;0x8e8235df1b842;0xf490ca141c3a0;0xc37c97ba1d7]]);
 ((V [0xf1416982428c2;0x42799aac259ca;0x6c6049a6c5a40;0x5a63545133d25;0x487ac67f98c95;0x9ebd817c0f437;0x60f7453dca31d;0xb653af0497747;0x7a5d013687021;0x585a59b1171] [0x2498f6e678c76;0x7802a361de595;0xb64f4de72a0c8;0x13b6f9b3be5da;0x1f6a5804b48a4;0x274bd3600980c;0x8305cd52010d4;0x626fa78c55254;0xc9bf8d244950;0x1854158fdab] [0xd07fb8438a2bd;0xa82400d7e03cb;0x613593b8dfda1;0x15ef6fa0d90;0x195dd884799b8;0x226808875b6ec;0xafaa3b78f0675;0xf3ecee5e5844a;0x6386636e68233;0x8525f3291b5]),[[0x835390ffd5cbc;0x10856b4a1809e;0x69837ff71347c;0xd09e0f8959a54;0xec836a75ceeef;0x33c536d642e0d;0x49392d69101f3;0xb3e21df08e7b8;0xc71e87c110682;0x773f89be48d];[0x6e8ec42a7e837;0x8b6a92522eb4e;0x2f09e773eb6c0;0x2d55241bbb061;0x7354a8d2c08ab;0xe070d5a85b6ac;0x52b3988d5847a;0x90d30da21bd6d;0x45e48cd10325f;0xabcaa9d2725];[0x6e2157ac5b44e;0xa202f3fb9b6b3;0x9e6f1b36f1dbd;0x793ca0659c7ad;0xbbcc40073830e;0x51762a332ed95;0xce2199c872f9d;0x45d3cadd7ca9c;0x2a0d2d264a41d;0x4c74b07306d];[0x6e2157ac5b44e;0xa202f3fb9b6b3;0x9e6f1b36f1dbd;0x793ca0659c7ad;0xbbcc40073830e;0x51762a332ed95;0xce2199c872f9d;0x45d3cadd7ca9c;0x2a0d2d264a41d;0x4c74b07306d];[0xc475fa1fe47cc;0xbbc00f4621123;0x82d028226ee4c;0xc388185157908;0x5e524c5dd541a;0xbf1cfdbdd8b55;0x12b347add1afe;0x27f6e2880f370;0x73f89bf7ec4c;0x1649134dc6e];[0xaa18ca0a9a06c;0xcfaa830c0da2a;0xac39bf517c873;0x69cd0bca63758;0x15025c74eb490;0x2153d7ea82b57;0x400050df8697c;0x68dc2b1a0c9fd;0x3ea5031184613;0x95819684ab7];[0x0;0xf8754e5fba13c;0x25a96035f68dc;0x41c1c3fb91620;0xf342754198262;0x815e9bbb791fe;0xa895b93631cfd;0x998a281754ccf;0xba534ad7e4531;0x1569a613ddbf1;0x2f47b8d9a61];[0x0;0xf63683f912267;0xdb509032e583;0xfc4a685cea971;0x9c31798d2f67a;0x53a0c03153967;0x2468010c5f6e0;0xf3f0e9f028973;0xdd75eae0de8b9;0x5c28a498821c5;0x239d37e02b4];[0x0;0xb1c31d3422566;0x9f41146a3d96;0x8ee139d667a78;0x7d19b68dad8c;0xd66c86760ab8d;0x4f4687b764749;0x9f79794a03301;0x8e8235df1b842;0xf490ca141c3a0;0xc37c97ba1d7];[0x0;0xb1c31d3422566;0x9f41146a3d96;0x8ee139d667a78;0x7d19b68dad8c;0xd66c86760ab8d;0x4f4687b764749;0x9f79794a03301;0x8e8235df1b842;0xf490ca141c3a0;0xc37c97ba1d7];[0x0;0x7febb3fb4f79c;0xa2953f91b6742;0x33769e94b6874;0xdd79148066f73;0x331ffc388df9e;0x3d08a98392151;0x1498f1308173;0x7be418d26cf80;0xd23030e78bf42;0xa8c88628ac8];[0x0;0xac7ef164888;0x7a3d34518d88;0xf699ac6391add;0xa80f3eb665161;0x3ac0cd2409cc5;0xccf442dc7862c;0x2468d21dd484c;0xd8c1048cd52f2;0xaaca47f011f;0xe26a340d2b5];[0x0;0x672b33f932f8c;0x2fecfa2d93859;0x9acb2423ffa30;0x95f9765c5888a;0x92c2080f67a37;0x9dec206aa2b17;0xf36f4d2b6e77e;0x2720d4ead6c5a;0x1da0ef884c18c;0x3b4a4bd056f];[0x0;0xdef2b219f2bd9;0x4cf49efb3de65;0x26b33e7b70dc;0x4e66b1a7e042c;0xc36e2f1873f76;0x2e9f950f3700f;0xece3cc9238f08;0x92f2814127c00;0xc5838527ccde;0x185c163886eed];[0x0;0x557fe2c06d7d9;0x6625e669a7b8c;0xe64649f8c5cc4;0x86a0164dde55e;0x25f040767d04b;0x9f9db8008a6bf;0x78bf7b0c451f7;0x825b56c8c36;0x3603e44dd1cba;0x8657d7f179]]);
 ((V [0x532cd1440e96c;0x262d4d508cc8c;0x90d55535b58a6;0x13f875629662b;0x140f0e9bf6c9b;0xf7758042a508f;0x16d2dfa17983a;0xead3280e5c3f2;0xca2ce795918c9;0xe6d9273d084] [0x84d86c10a3fbd;0x4d9534e8e633a;0xd1a0b48bd62a9;0xc4e62718abb7b;0xcd36e3e6680ad;0x21aa060d95462;0x3dad4632243be;0x45ac02961e794;0x1784bb24ec532;0x20fb89e1580] [0xdf75db9bd8f04;0x93d9c69ae4dc9;0x129960c14c14;0xf68360bdc798f;0x8bea3d58ebfc4;0xae2689cfe337f;0x11373d228ddc9;0x264edc6cdcfbb;0x28462637245f;0x51f5be3eed8]),[[0xd444abda395ad;0x39c19dc8bea5c;0x34e309b726f0;0x8020ef8e08070;0x736a6b1f2f018;0xe8029794c4e38;0x46224d9760bb5;0x726254de9e77a;0x1aec226dd82fc;0x2bc0cd0cf0b];[0x13fe15d9e613c;0x4ef64405408ea;0xb5cea9767c236;0xbf6488210d638;0x23c4d21d95b9c;0xdb1db629a45aa;0x181950da74996;0x4cabf1c642c6c;0xcd1046b919a41;0xc1e57c2299e];[0xd07fb8438a2bd;0xa82400d7e03cb;0x613593b8dfda1;0x15ef6fa0d90;0x195dd884799b8;0x226808875b6ec;0xafaa3b78f0675;0xf3ecee5e5844a;0x6386636e68233;0x8525f3291b5];[0xd07fb8438a2bd;0xa82400d7e03cb;0x613593b8dfda1;0x15ef6fa0d90;0x195dd884799b8;0x226808875b6ec;0xafaa3b78f0675;0xf3ecee5e5844a;0x6386636e68233;0x8525f3291b5];[0xb5f6502e5b51d;0x4f45d2b448bda;0x4a59c14cf3624;0xc3fc2e5453dc1;0x3f56d63b02496;0x8d785f2d87bd6;0x1584aefd28ba7;0xe581da58ea0fe;0x695bfd753443c;0x6d553d399b9];[0x5e07c5ab8ac20;0xffb07150f7d0f;0x6b74e82988c11;0xfb6859ccb9877;0xe46dfbe293705;0x4da556fc1c9d3;0x294a1dd4bdef;0x672a176d58b6e;0x63b44943e5604;0x54903ee8fe5];[0x0;0x826ecb67ac285;0xdd423b4115e86;0xb07f8f9f13d31;0xe9f4c03f03fa4;0x68e931be0d2a9;0x66ab2ef6faa03;0x9f2f9e1de8aee;0x88e2c51c72e59;0xc02f74af69789;0x5256b371036];[0x0;0x28b9245b07e9b;0x772ad456962ae;0xde39095b11d14;0xcc493621fd575;0xebbc6aa7315f3;0x2e8ebe4f7fdcc;0xc8bae8bb381b1;0x44b165d1fa481;0xb4b0d3a622cb5;0x16c1a6f4651];[0x0;0x557fe2c06d7d9;0x6625e669a7b8c;0xe64649f8c5cc4;0x86a0164dde55e;0x25f040767d04b;0x9f9db8008a6bf;0x78bf7b0c451f7;0x825b56c8c36;0x3603e44dd1cba;0x8657d7f179];[0x0;0x557fe2c06d7d9;0x6625e669a7b8c;0xe64649f8c5cc4;0x86a0164dde55e;0x25f040767d04b;0x9f9db8008a6bf;0x78bf7b0c451f7;0x825b56c8c36;0x3603e44dd1cba;0x8657d7f179];[0x0;0xac3437999d081;0xa156af588e4ec;0xc4b570bc632e9;0xf32d5cd16d894;0x2e367f93e2719;0x3ae87706c775c;0x40e885c09cd28;0x1488da5d298d3;0x9948f5d97d067;0x24fdfa9213];[0x0;0xccfadf39f91fc;0x25ad867da1864;0x215a8f0319c65;0xa6af3e84a185a;0xf78b37254f218;0x54cbe65810756;0x842c72dfdb14c;0x13b65d9ce74fe;0x11b2f05b8abba;0x1e7e3d8cefd];[0x0;0x83920f6ff8ae;0xd51561f5c628c;0xa8471f81feb3;0x2d51e9f20ec1a;0x253ff185c9b50;0xbc51830f9ffc5;0x115b6919ba361;0x1b65808e8d5c2;0x4e8a70df4ec4;0xaed8a6c57f8];[0x0;0x26345693896a8;0xe00ac73394395;0x83f71d5375fe6;0xf5ef8317b91f7;0x2b83c44e3e0ff;0x95967b82c57b7;0x4306c4a109c48;0x15840fdd416dc;0x6a03536c86852;0x21038a3745d38];[0x0;0xbc0d4c6fa3888;0xeba44ec743069;0x4232c13276341;0xa79afc7b66292;0x5d429e7871a02;0xbc8f1af3ef02;0xf99b8fc558607;0xacfd2514ecabb;0x7d662ecfc342b;0x1dbdf826841]]);
 ((V [0x4d4cf64c328e;0x54e49cde73abb;0x39c50db0d4c90;0xd4c2ceeb5c505;0x51ab5a93f8b44;0x3de5f35a56125;0xcb4e82b5400d8;0xf9f2c6985a32c;0x696ac6441e913;0xdb08f1c11af] [0xe5a1324e799c8;0xef9775431aa6a;0x3359c501dce3e;0x4438e775f8913;0xbafa79ed8edb4;0x3681fdb83cfdf;0x84dc8d3df79da;0x496fe731b228c;0xb3aa1c39c4dad;0x2853446f3c1] [0x3a9ab97248e3a;0x1d87183905d20;0x7bd898aecf1ec;0xb82837beb2793;0x2e57e7493e15;0x9629eb7f434a5;0xb0327397706a3;0x7ef1f62fb2387;0x4ed13f8911da0;0x341b1a607e4]),[[0x6b6b54528f059;0x1d202fea5c96;0xcbc024523f263;0x315d3cbf4aee4;0xe7f1e3b849690;0x7d26b70a0600a;0x8403deafa8a25;0x3367d2a826114;0xd2b4e23e4e704;0xaa734a52852];[0x642a51a96da11;0x939887e92f12d;0x38c4577aacc71;0x90f7e379b7ed5;0x3f84e24f04f2f;0x6da155bbe73af;0x4e2dee1f639f0;0x56156b662ea3c;0xdce4743666894;0x5982e6f59f6];[0xdf75db9bd8f04;0x93d9c69ae4dc9;0x129960c14c14;0xf68360bdc798f;0x8bea3d58ebfc4;0xae2689cfe337f;0x11373d228ddc9;0x264edc6cdcfbb;0x28462637245f;0x51f5be3eed8];[0xdf75db9bd8f04;0x93d9c69ae4dc9;0x129960c14c14;0xf68360bdc798f;0x8bea3d58ebfc4;0xae2689cfe337f;0x11373d228ddc9;0x264edc6cdcfbb;0x28462637245f;0x51f5be3eed8];[0xc5b18f9d1d718;0x32e216831bbc8;0x7f163d5d4305b;0x8aea7a84825e5;0xb358190c3da83;0xfa5ffce258785;0x73b9deef818f6;0x31703ba8b47b9;0x3bd61d8c8f963;0x514fc3c3ad7];[0x9e78c20c502fa;0x60b6716613564;0xb9ae1a1d69c16;0x60d68f5358ef;0x8c2cc942c74ac;0x734158d98ec29;0xda740f2fe20f9;0x24a52fbd7a282;0xa10e56a9d6f31;0x8332331f1f];[0x0;0xa33b8dcd52fe1;0x6475698091405;0x66670faac91d5;0xd87fea8731498;0xce13ab39e14af;0x1126c1c0f72b8;0x27ffbb6eae1f;0x66ae0de3a27bf;0xb722c954ef232;0x32af1433a4f];[0x0;0x5a1366901cb15;0xc82a5f072bf78;0x6685388192fc0;0x60be59d9a9596;0x9bf95f8acb4c0;0x4e58748a50a2;0x244ce4a7c35cc;0x3fd625e36c5c5;0x40e06395ab5cb;0x36921985b45];[0x0;0xbc0d4c6fa3888;0xeba44ec743069;0x4232c13276341;0xa79afc7b66292;0x5d429e7871a02;0xbc8f1af3ef02;0xf99b8fc558607;0xacfd2514ecabb;0x7d662ecfc342b;0x1dbdf826841];[0x0;0xbc0d4c6fa3888;0xeba44ec743069;0x4232c13276341;0xa79afc7b66292;0x5d429e7871a02;0xbc8f1af3ef02;0xf99b8fc558607;0xacfd2514ecabb;0x7d662ecfc342b;0x1dbdf826841];[0x0;0xb1882ccb0e607;0xf1c583b38f4b;0x5b059784b9994;0x7b29ce70cd70b;0xc4d40436484f8;0xb02587fc8d1af;0x79d1ac0ae9671;0x333aaa9f16a26;0x5e782349ad461;0x43fd9a0002];[0x0;0xeda8250daa0ba;0x9ac08953cb6ad;0xfd634521a3755;0x3498ffc4c6d5a;0x9fb4cb0d5d58;0xb143c5a8b5084;0x48503933fd449;0xcbfe724993c8b;0x56d8b527b3213;0xd02aeab5366];[0x0;0xcb4bc303b546c;0x23b162e176b85;0x5afd95135a306;0xf985ef78ab7f2;0x5bd3f411daed2;0x299b4482b5028;0xc7f2cd952038f;0x3dd4c706b2f7;0xac916d669f1b4;0x4c961c33179];[0x0;0x4a84053f30e55;0x60c4b6ee8576d;0xd303a34551542;0x6b3068909cd8e;0xdcae9c6c46edb;0x467e3de088dbe;0x76d9257e79be3;0xcfc8e7253d0eb;0xa6d46eb8df13d;0x286d7e22366aa];[0x0;0x43ded135db39a;0x63671d35d850a;0xb2978091b067;0x6f99b481dc98e;0xb3f48dfebdbd8;0x78d4e64e76551;0xf39a83ba02987;0x27b930c74e8ab;0x7c8272af2e71a;0x2280a43a1a5]]);
 ((V [0x7de90aa576d43;0xdca3326dd7d71;0x5d6c5c56d8500;0xb9416f59bd837;0x1f206a85e1fe0;0x5cc6461e01a67;0xfeb2ebdecc47b;0xd81a18fa8d769;0x74bdb6aba5fd0;0x842f272bc8d] [0x125665980091c;0x2579d81130331;0xca3fc65dbe6ff;0x2bf610ce75e23;0xe6c3d5835fbea;0x3cc57e452a5fd;0xafd89e88c1813;0xc64119fa89178;0x986103d735b0;0xbdf6371d9a3] [0x7ad5349153717;0x80225ee49394c;0xbbec0529f49e5;0xbb85943dc2c01;0x29cbf8cd33ef7;0x4a8969acda70c;0xf2229b29f8a4c;0xde7b3015ac490;0xd3572ab0cb67d;0x80ecb925a0c]),[[0x988b0ec741291;0xef10e126094d6;0xc1fafb870d4bf;0x8700bc0191dd9;0x18f756e24b016;0x9a05cdb9046ca;0x7cda2f21d512f;0xc963e75f73739;0x818c9bd5d74f6;0xc676ddeb330];[0xe8d3c31e4431;0x23ed8b70f3a7f;0x7a1e98b0c3061;0x38f4ac74a1ac7;0xde5b69be0b398;0x400d374cdcec8;0x6318493ac89b3;0xdb5b0b11004e;0x31af6aa3883dd;0xc84d1bc582e];[0x3a9ab97248e3a;0x1d87183905d20;0x7bd898aecf1ec;0xb82837beb2793;0x2e57e7493e15;0x9629eb7f434a5;0xb0327397706a3;0x7ef1f62fb2387;0x4ed13f8911da0;0x341b1a607e4];[0x3a9ab97248e3a;0x1d87183905d20;0x7bd898aecf1ec;0xb82837beb2793;0x2e57e7493e15;0x9629eb7f434a5;0xb0327397706a3;0x7ef1f62fb2387;0x4ed13f8911da0;0x341b1a607e4];[0x1e58775032066;0x60c9d3e5dd479;0xbd1956708ee3f;0x575dcc03affa;0xdea05f8a756bd;0xab5ae774ba688;0x1cfc8020d5e5e;0xd5dc7298f8ea9;0x6619a07afd52a;0xfeb5eac5950];[0xf034c4e1b2193;0xc323b78b16605;0xbd05424034221;0x337ecfb466acc;0xffbb0a3395cdb;0x94b24fd82283f;0x461bc919f2b54;0x37d93e18171a5;0xcb95ca288aeb2;0xc99730ffedd];[0x0;0xb4ed3989c9df9;0xf71aacbf13e96;0x65209f16971ec;0xc9ec03b1640d8;0x6d403ffb5df2c;0xf12910aa16e86;0x13bf83b9bbe23;0x8bd13de3e16e0;0xaa565245d63f4;0x2038e1af096];[0x0;0x548de762d800f;0x402be95ed67da;0xbde707a8e5cd0;0xd9bf7440ecc14;0x933f7871c3ee9;0x35a9f70044dd0;0xa375eabebb613;0x90b38a92bbbb4;0xd12ddc9dc25d4;0x286528100f2];[0x0;0x43ded135db39a;0x63671d35d850a;0xb2978091b067;0x6f99b481dc98e;0xb3f48dfebdbd8;0x78d4e64e76551;0xf39a83ba02987;0x27b930c74e8ab;0x7c8272af2e71a;0x2280a43a1a5];[0x0;0x43ded135db39a;0x63671d35d850a;0xb2978091b067;0x6f99b481dc98e;0xb3f48dfebdbd8;0x78d4e64e76551;0xf39a83ba02987;0x27b930c74e8ab;0x7c8272af2e71a;0x2280a43a1a5];[0x0;0xa4e33bfb5d56;0x58a93d979cd5f;0x1baab98523097;0x2bdec59ff520d;0x74411474dac87;0xa291cf3a0774c;0x1c43f1f272a1d;0x6f5e3c54a400d;0x4c43e36e53e34;0x65a2078353];[0x0;0x9c9948960a547;0x9690d9e5e7a8c;0x273c55f363090;0x69d17c6fa0300;0x8e925b9b10820;0xee384f4940ab8;0x2b2c042f2f419;0xf37a97472bf4b;0xbba250a5d1ba;0xbb684df0648];[0x0;0x879f86a8fac4e;0x55917143064a5;0x854024f522117;0x7b7d12d3462bf;0xfaeb4b0a5b6a2;0xce20d264746b8;0xb3fd9dd5b896;0x3a4cf1136cdb8;0x394859e0d3955;0x676ca71ff21];[0x0;0x12b6f2e20cc6;0xc58e9c3d7cdda;0xb74ad59fcc8a0;0xd8600b51cc31d;0xb94ced2515d52;0xe1358d10f56a;0xd9047dba08864;0xe6149ab6dd2f2;0x38b5e81594fd7;0xbe1f8bc1fe8f0];[0x0;0x75a31182412db;0x8508a3455fb26;0x1d4e099852798;0x9582beeeac21f;0x8127fd418b47;0x89e238d5085ee;0x775e240708746;0xfce913c4798e8;0x93f15aa76933d;0x6215f1b061b]]);
 ((V [0xde655191370a0;0x63618e8a7acf5;0x24df7e02a01e8;0xd04941cf771f;0xc0dea680599b4;0x8746dac99d5e4;0x8a5bfb47fb28d;0x3ccb1ea20e537;0x6aa4010687364;0xd41f19ea954] [0xf503125b79ae9;0xddda8013cf815;0x3d4357037aefd;0xb100c170f02fe;0x2c081d98dda88;0xd648e8dfdca1d;0xd1efb74d885db;0xbd6bc7ef955d6;0x2f1c34ac55ca9;0xb1897547456] [0x5de48520f0882;0x91d7f4154e27e;0x1c88f6108af0d;0x45b4e0531017c;0x8f6d63fb2eb65;0xca16fa505c386;0xb5c2925097d53;0x27686223c14a2;0x223f9b394ae98;0x4f26772bff5]),[[0x6773fc7d74dc6;0x4f5c53804c71f;0x5eac5250d868e;0x1b5ed5cb9a549;0x6a3376467e605;0x5bc1c852eb8ab;0xd7fdd336f52aa;0xbe330efd693ef;0xcc2fcca8130c;0x8743ee0cc74];[0x7c45e95ef1da1;0x424a5ec9e2491;0xad74edbeeced8;0xcab6c107647c2;0x822575a0d0df6;0xa85fca2efb113;0xba4f0519801ab;0xb58c31ce1eca0;0x10875fe03cd2b;0x39c67d78eda];[0x7ad5349153717;0x80225ee49394c;0xbbec0529f49e5;0xbb85943dc2c01;0x29cbf8cd33ef7;0x4a8969acda70c;0xf2229b29f8a4c;0xde7b3015ac490;0xd3572ab0cb67d;0x80ecb925a0c];[0x7ad5349153717;0x80225ee49394c;0xbbec0529f49e5;0xbb85943dc2c01;0x29cbf8cd33ef7;0x4a8969acda70c;0xf2229b29f8a4c;0xde7b3015ac490;0xd3572ab0cb67d;0x80ecb925a0c];[0xe882ff04f0a5b;0x394c3afecca4;0x671dee3daf108;0x2aa8388ec5e26;0x12011c5b935c3;0xe11dc44efb558;0x15c827e8200c5;0xa343f961c653f;0x6879192d9490c;0xa05a63482ae];[0x93c2ea5a0110e;0x3eb59b19f57ec;0x4656ff813ddd0;0xa00e88789e99c;0x702459453d833;0xc74205dfffbbb;0xa486dd31600e5;0x1248386c58761;0xa80e46b2a841f;0x996c1a30c2b];[0x0;0xf9a38d575b846;0x6d5521a1165db;0x3d8ddcf59e352;0xf7c832523917c;0xb44cca66a88da;0xc1d383b2c063d;0x859af9530b43d;0xccd15d45a21b0;0x359f0cc7ea06e;0x4fba126edd5];[0x0;0x767b93721218f;0xf6cb0af1e21b6;0xbf5177d353e04;0x426a36f4500bd;0xa05619a7d1ca1;0xe96e7f65ddf2f;0xb2a63229f08ff;0xfee086cf913bc;0x79c1605fe8f56;0x441f0b79d03];[0x0;0x75a31182412db;0x8508a3455fb26;0x1d4e099852798;0x9582beeeac21f;0x8127fd418b47;0x89e238d5085ee;0x775e240708746;0xfce913c4798e8;0x93f15aa76933d;0x6215f1b061b];[0x0;0x75a31182412db;0x8508a3455fb26;0x1d4e099852798;0x9582beeeac21f;0x8127fd418b47;0x89e238d5085ee;0x775e240708746;0xfce913c4798e8;0x93f15aa76933d;0x6215f1b061b];[0x0;0xfdd504fcbcda3;0x860afadbf7006;0x5e6281b7f0367;0x61fde49a501a9;0x67a7fb3bb8053;0x49be940923b15;0xd60bfdcfb4ea1;0xc400fb57098dc;0xdd2114779dd11;0x8cf57a2fae6];[0x0;0xa65a08b91f9ad;0x1740f76b74f9f;0x34eb24747a450;0x8cb32c9482853;0x91ac8a5b11727;0xa3749fbab18da;0x195b69b3737ca;0x8922dcb45839f;0x23f6cfa2d510;0x4440a9148f3];[0x0;0xea7fca12bf85e;0x1dfcae5bf8333;0xb381bb69ed3e0;0x628363a04a766;0x95fec56a615d4;0xe193650f9d299;0x64502ccb39aa;0x3fbb543093ed7;0xe1af9a1af8489;0x2fdf64caa9c];[0x0;0xac4136f0c8e3d;0x2f3b5a70b3132;0xbc0a99ad2279a;0x328751b028487;0x3ea7519979060;0xca3c15a60041b;0xe0bacd74ce824;0x289464e284bc1;0x34d84e44d7b06;0xb212ed7a1b194];[0x0;0x63006b97095f2;0x6f860641f9356;0xdc8edf9edd4a3;0x77dac4f153f9;0x7dbf6d73ac411;0x7b5c5f5f2de86;0x42bf9787b30b7;0x97e631b256fe1;0x68307591dca4e;0x931b66bd54b]]);
 ((V [0x6ec01a0cb4e1b;0x9c975bfa3b651;0x2161096659000;0x7c0c8cf9c2a0b;0xddf93b4afa7ac;0x5178d7e19473b;0xb42cc59cb8590;0xe3cd7990cd563;0x5a94d8eab8654;0xd59573f3cf] [0x96cae4fecc1db;0x888761b60aece;0x6bf3706ba5ab1;0x245ee17a7f1cd;0x4f3378e256df2;0xf85eb6001338;0xd1f7919df3d2b;0xa95058d8f440b;0x9d73ca677874d;0x43c4ff8e80d] [0x482cbf1d03da6;0x21c2496256b83;0xedf6ce851b24c;0x649bfa2b10d0c;0x37606bc979fb8;0x3a9b8e69076a9;0xa0d816b0309ff;0xc2b688d61dc83;0x6b6692acef8f7;0x6cdf9803bbe]),[[0x94323c2ccc083;0x3fd175f6c042e;0xa066405005e72;0xeac6e970cbadd;0xcd0e4f3f2832d;0x52e3490ed9746;0x7675eafc39b0;0x537aabe10f23e;0xfbda8ab529cf0;0x2069f66078d];[0x881910e715221;0xc917693aeb6ad;0x60f4e9744a203;0xee658dcb6eea7;0x2155cdc4d221d;0xfab8ee0241e2e;0x9842ab9f138e6;0xb5e9e193af02a;0x281adb855f902;0x778d8277acd];[0x5de48520f0882;0x91d7f4154e27e;0x1c88f6108af0d;0x45b4e0531017c;0x8f6d63fb2eb65;0xca16fa505c386;0xb5c2925097d53;0x27686223c14a2;0x223f9b394ae98;0x4f26772bff5];[0x5de48520f0882;0x91d7f4154e27e;0x1c88f6108af0d;0x45b4e0531017c;0x8f6d63fb2eb65;0xca16fa505c386;0xb5c2925097d53;0x27686223c14a2;0x223f9b394ae98;0x4f26772bff5];[0x325c8561dac5c;0xd0d8db0c08c24;0xc5a6b01a04058;0xf407d66daa61a;0x5064e409abad1;0xce4bf294548c2;0x96e7c04301eca;0x297baa7c8fcca;0xe7887e89c0c7;0x5ea4cbc36e3];[0x55bc8b853a5c6;0xf83e8e2ee2a89;0x9b4e395a461aa;0xfa5db75dc488c;0xd0f0e9bb2674b;0x2c6cfb6ded56b;0x15aeb5c11a1c;0x8c6e37171f360;0x19a2539cc383b;0x18e8b6b43ea];[0x0;0xd122cb91c80fb;0x3e314991603e0;0x53aa9688f0065;0x15adce0cc922;0xb0de839813abf;0x93ee4553eb20a;0xd49ddf574a0b;0x5e369911f1707;0x29c6669f6ed58;0x30f2475830f];[0x0;0x4fd191c913873;0x9ed0306578dd0;0xe2f02bff51c0f;0x280836c0e31d6;0x3b1fca4b59ee;0x407272c097c15;0x34e47db98bc8f;0xbc269018e7776;0x62a0aa070843e;0xa0591d92b4];[0x0;0x63006b97095f2;0x6f860641f9356;0xdc8edf9edd4a3;0x77dac4f153f9;0x7dbf6d73ac411;0x7b5c5f5f2de86;0x42bf9787b30b7;0x97e631b256fe1;0x68307591dca4e;0x931b66bd54b];[0x0;0x63006b97095f2;0x6f860641f9356;0xdc8edf9edd4a3;0x77dac4f153f9;0x7dbf6d73ac411;0x7b5c5f5f2de86;0x42bf9787b30b7;0x97e631b256fe1;0x68307591dca4e;0x931b66bd54b];[0x0;0xa2bed2901eaa3;0xad15775fe6ba9;0x4ebd6d1c94837;0x6487739f6b6b5;0x94234b713e706;0x4c8b5798cbc73;0x7917d523e3c2a;0x9ed3ff1ea8d8;0x54f7ad1180a9d;0x7b1f5dfb49f];[0x0;0x15d405d6217f6;0x7efa56268a061;0x7e478af7829bb;0xebe1952c1e24d;0xb79dcc755bfb;0x7180ea6ded509;0xbbc4869da8a80;0x7bcf60515a671;0xcd934602c0e6c;0xafc386b3d0a];[0x0;0xbaac2750ede;0x6c9c6d1e89174;0xe01f445b6f4db;0x9c2cbe18f5393;0xead70e7f14359;0x5bf3162f6f8cc;0xd409e1e3393f6;0x4e41aae34c662;0x3710685fcfa7f;0x63be8910f0];[0x0;0xe15dc49464b80;0xc5e3fd954739a;0xe414442764e91;0x98a603f6746bd;0x47b66a7046604;0xac6e5fa3a7bf;0xec6d3197873dd;0x8273392a7b5ec;0x59a8c3879cff5;0x43e91e8539a33];[0x0;0xc45b5738779f5;0x6f6cb176d9731;0x6935fd2ee8bf2;0x1e9aa391561b6;0xa2266e59ad67f;0x292c6fe38c43c;0x828941c7b8ccf;0xad0a29fbb7658;0xd61c5349a83ad;0x388a78fc58]]);
 ((V [0xac0528d8f331e;0x8930f3f0dd37b;0x2cb35511ef122;0xe2e94478a626b;0x8884ed46ba3eb;0x9e9fe060bd268;0x911d9e818f037;0xca7e73e12badc;0xef2e27555b4e3;0x9a289948c88] [0x60b44ffaea38b;0x119950a13a447;0xf3026bcf82665;0x14cf7187b75af;0xad5cea2bfaf8e;0xbab1a403ce33c;0x52438a5d6e023;0xec50c878d85d3;0x1fac076e5a49a;0xa4319605b37] [0x390a9f7420b95;0x1e6b6b514807;0x876b99ed99fa5;0xfb2f0d8a34cd5;0x9a9284b881c98;0x121d2e7154020;0xcc0dbe5a1fa87;0xf10b599b155dc;0x2741467a765d4;0xc15b8418f91]),[[0x907bd29b6cf23;0xb6bc1e5ef068b;0x8932ab6c8b8a6;0x99e435855e3ba;0x936b75700ef56;0x9025e96b3dbf;0x770e2c58e57cc;0xd6663d6c0860c;0x7668f211e1519;0xf8357bd7f3c];[0x7659cc308c9af;0x744b8e918174f;0x7626e846e88ee;0xa81c57e9a1fea;0xe89454364d5ad;0x258482c535cf9;0x7933e032e7175;0x7cf13f02e62eb;0x1e2068292f6e4;0x3c9b975f9b0];[0x482cbf1d03da6;0x21c2496256b83;0xedf6ce851b24c;0x649bfa2b10d0c;0x37606bc979fb8;0x3a9b8e69076a9;0xa0d816b0309ff;0xc2b688d61dc83;0x6b6692acef8f7;0x6cdf9803bbe];[0x482cbf1d03da6;0x21c2496256b83;0xedf6ce851b24c;0x649bfa2b10d0c;0x37606bc979fb8;0x3a9b8e69076a9;0xa0d816b0309ff;0xc2b688d61dc83;0x6b6692acef8f7;0x6cdf9803bbe];[0xf464e6bb7a072;0xcd89474194f2f;0xeac0c9c7a8466;0x256735ec3f4b5;0x18f5ce042de73;0xc380e65fa4cda;0x22943304b7c43;0xa32228a31758d;0xde32236ffb52a;0x988fc9c3064];[0x81f4e57512705;0xa6c2474fec81f;0x8b661e7f40487;0x82b521fd62b34;0xcf9e86321f73a;0x62039c659101f;0x569fad2e2f531;0xd9cf165fced5e;0x3fee44b9341b9;0xa40bcd9c94b];[0x0;0x17cd2b794fb5b;0x13cee383c1dc6;0x52cb1421fcb4e;0xc15aa356a55cf;0x50c9ee980b08e;0x2d01dd7337fa7;0x9a51774446eaa;0x8a369c0b6cd9d;0x22314d0d3254d;0x4353c09afc4];[0x0;0x82578e7364de5;0xa75d5ab0feb05;0x73d31d270d713;0xa87a67eb829b0;0xdf9f4b1d0fd0b;0x6d84208b40783;0xe3796039e8f9;0x17741d9d32786;0xce89cf9762c25;0x698f5a395c4];[0x0;0xc45b5738779f5;0x6f6cb176d9731;0x6935fd2ee8bf2;0x1e9aa391561b6;0xa2266e59ad67f;0x292c6fe38c43c;0x828941c7b8ccf;0xad0a29fbb7658;0xd61c5349a83ad;0x388a78fc58];[0x0;0xc45b5738779f5;0x6f6cb176d9731;0x6935fd2ee8bf2;0x1e9aa391561b6;0xa2266e59ad67f;0x292c6fe38c43c;0x828941c7b8ccf;0xad0a29fbb7658;0xd61c5349a83ad;0x388a78fc58];[0x0;0x1cb5b54b393e1;0x7fd7765c1e40;0xe8678f579ff54;0xdcd792a889350;0x867b6af229fd1;0x98c0e0c430229;0xa8bb26afb8910;0xe1f2ceebc6b72;0x488408151a35f;0x11f0b55ce8c];[0x0;0x7b30d0ce1418c;0x3251c62c374a;0x12d252557feea;0x15b5828e69db7;0x1479db13b88cb;0xe0097505a2c2c;0xdf760ecbeb3d;0xad2e0cf9869dc;0x5610fa0eabd26;0xb2320a33e];[0x0;0x86d8d45981e0c;0x7701d8edc7b78;0xbda4a1f0aaa05;0xdd51a6e6974ff;0x871675448c3b4;0x7108fd71048b8;0x24f37ddeec99f;0xf3a1104481cdd;0x576dc4e8b2294;0x247f35a962e];[0x0;0xc83557ff7ada9;0xd25e2c4d7f903;0xb4c9593c0d972;0xc04b66c4de56f;0xe1d7734f39f06;0xe9ceb70aa9689;0x16f50d4205f59;0xb2fc6be40e3e7;0xb1a7a9eeb28b8;0xa4aee83173689];[0x0;0x7f2e2f9d5f6a3;0x925867b8d345c;0x19bc4773a1030;0xa2ea62f6cc20c;0x2a2b57f5b5b75;0x8668f604aeeac;0x368869dd79f1b;0x99df0316a9790;0x4a0fe56b851ed;0x62dfde4f301]]);
 ((V [0x6bbd7305b92b3;0x4b0d5d5c668f2;0xc7e5d5ecca4c7;0xfc453e3800ff8;0x51db3e5dc6c95;0xb8709c58520bb;0xd4c7d7b426273;0xdb47be5df8e67;0x7599d0a8f5abf;0x1ce5b5ba273] [0x2def0e9921bc9;0xedde49e59799;0x67229080ab962;0xd7b487ec902d7;0x7f5ee2b45608a;0x988c3b66e3d9a;0xef41c47769100;0x759b878eaadfd;0x1c64902945cff;0x687b964932f] [0x451bd09465c8c;0x4800779558516;0xef584180a8b9;0xfca453fb0617a;0x4a1d3e6b6a935;0xcb8d85b613170;0x1a7311bcb3397;0x7aa77721de66f;0xdb4c8782485a2;0x69411073d4a]),[[0xc5e98fb636cda;0xe3e2fc11842a3;0xcabd0bca39a5f;0x7253a946aebf6;0xc9b04c8b8064f;0x9f84a91f81710;0x599bbeba40;0x2ab5118dd3667;0xa31b1cb1fcb84;0x9bb51710ed];[0xed9eb60feba96;0xd04659bb13f58;0xcae78a92564a5;0xd38a2288e745f;0x2b3ce18a9103d;0x39d78b4b46ac9;0x93d9c94d66f1c;0xd26abc0c303d8;0x23a02fef8d905;0x90fbe508b2d];[0x390a9f7420b95;0x1e6b6b514807;0x876b99ed99fa5;0xfb2f0d8a34cd5;0x9a9284b881c98;0x121d2e7154020;0xcc0dbe5a1fa87;0xf10b599b155dc;0x2741467a765d4;0xc15b8418f91];[0x390a9f7420b95;0x1e6b6b514807;0x876b99ed99fa5;0xfb2f0d8a34cd5;0x9a9284b881c98;0x121d2e7154020;0xcc0dbe5a1fa87;0xf10b599b155dc;0x2741467a765d4;0xc15b8418f91];[0x249ffb1bf44ad;0x820258975ddd2;0x111ccc453b44b;0x566d47bffb5ed;0x61a952b62fbbb;0x110b17897f0fc;0x774ca45f8eabb;0xc64ede45c23fc;0x6bde8f0537e18;0xfbaa1ad16f5];[0xc8febaf3f73b1;0x4e440123b6186;0xb9cabe4d1b05a;0x7d1cdac8ebe72;0xc9938ed461482;0x28cc73c1c79cc;0x1c8d24edd8461;0xc1bddc66dfdc;0xb7c1a0ea55aed;0x9551ca37437];[0x0;0x169a3bc8c579a;0x28eaa3e060636;0x93dd967f4115e;0x27c4edf13fe7f;0xa3fea6dc92c12;0xef2edb5530884;0x383f6453c58d7;0xf0554c293f96c;0x7c0a57c22b6cb;0x77926d6d2b9];[0x0;0x423172c447f54;0xa072384446;0xfb44805006f78;0xec953523c9940;0x3529b0a76cb6;0xc352a2f091e1f;0xfebcc097b7824;0x7de0df11f4bd3;0x89b14f34a1a36;0x759b301b86];[0x0;0x7f2e2f9d5f6a3;0x925867b8d345c;0x19bc4773a1030;0xa2ea62f6cc20c;0x2a2b57f5b5b75;0x8668f604aeeac;0x368869dd79f1b;0x99df0316a9790;0x4a0fe56b851ed;0x62dfde4f301];[0x0;0x7f2e2f9d5f6a3;0x925867b8d345c;0x19bc4773a1030;0xa2ea62f6cc20c;0x2a2b57f5b5b75;0x8668f604aeeac;0x368869dd79f1b;0x99df0316a9790;0x4a0fe56b851ed;0x62dfde4f301];[0x0;0xe0d88de4820d4;0xf375e9d148681;0xb53fb73cabcba;0xd0d535333d6d7;0xecc959525fce7;0x846707421833a;0x9636132e4eae2;0xbdbe869a85fb4;0x36952a819ad11;0x694f91d2140];[0x0;0xf801dd33ab995;0x7114f25d573d3;0x16143574d28a9;0x304c813f8d92a;0x3e19bbd3ed3d2;0x745ac0ac338d1;0xb816e6b437ec6;0x3a3e76fe30c2c;0x2bd50a7cac361;0x5cd4dedbd3d];[0x0;0xc56812907ca3d;0x5a94894d56bc5;0xa2bd7834a3f60;0xedcdb6de5387f;0xb380df7cc1e97;0x3e88173d87fda;0xaa3cd52da2717;0x218a29b645c6d;0x3be9d3868658;0x105da54c5a8];[0x0;0x29cfa3bf0e89;0x9a34308c0e061;0xda31abef01b4e;0x3f1d8f2a7a68d;0x30d61c13cd50e;0x468ba9b952a0c;0xe813452c27689;0x720c570090084;0x3344bd76f075d;0x68a8e58c4c840];[0x0;0x8c20e6470109;0xec1c1beafa3d9;0x530b1387e2484;0x5d23a966a7c32;0x9b0b105c8bce9;0x8d46c1d1ea044;0x778897a113dda;0x7ba2504956290;0xb612fd049f374;0xbcb4528cc1]]);
 ((V [0x15fc90a00ec30;0x62aadd866e92d;0x49811dad2b167;0xea6ed3ec39356;0xe46f03da248c8;0x82b5100cea43;0xa7325597862bb;0x593f8a6a7a936;0xbdb09cc50f64c;0x4557ce0081b] [0x879cbcaa4402c;0xda9a1a28ead85;0xb88798f3b015f;0xe57d72c296a46;0x282be74b489f5;0x792c0775ced49;0x2332e8490ad1;0x9da312fbbdde9;0x940fad9ae42b8;0xa28e16709c2] [0xde0020dc31654;0x44b76407dfc76;0x8883964f1d903;0x32f19e17ed9;0x2757f87ab0884;0x29cde57c5cf99;0xd5069123e54c8;0x83d83684af6bd;0x9a85d29b10e26;0xecb6a78dd55]),[[0x7a6a3992dcf21;0x2a3a159a27b75;0xe2c8245310b3d;0x36b65c4c98623;0x195487f690f0c;0xd24e480a9417f;0x3531fed664a2;0x358f5056d83bc;0x562d57e81414e;0xa49f7d44e77];[0xd41c8ccd7f6d5;0xc39128a4a6e43;0x327c6a0bf4619;0x4ad29f85e3246;0x4b0d93641b8b;0x21c97cbacdedf;0x49cf8667e254b;0x7f170df38f80d;0x1be6a1f44371;0xb679f2b346a];[0x451bd09465c8c;0x4800779558516;0xef584180a8b9;0xfca453fb0617a;0x4a1d3e6b6a935;0xcb8d85b613170;0x1a7311bcb3397;0x7aa77721de66f;0xdb4c8782485a2;0x69411073d4a];[0x451bd09465c8c;0x4800779558516;0xef584180a8b9;0xfca453fb0617a;0x4a1d3e6b6a935;0xcb8d85b613170;0x1a7311bcb3397;0x7aa77721de66f;0xdb4c8782485a2;0x69411073d4a];[0xfc382883214b2;0x125d3e3a5bd7;0x3143abda5fe7e;0xbd6b3831fb3fd;0xf9d132b1e8f73;0xe392616d06f2f;0x87a8e946a9da5;0xea129a2d0623d;0xa9b27d9273e17;0x3ca82f568b2];[0xd7e4644a5e224;0xc26b54c10126b;0x138be319479b;0x8d676753e7e49;0xadfa68458c17;0x3e371b4dc6faf;0xc2269d21387a5;0x950473c6895cf;0x580bec8cd0559;0x79d1c35cbb7];[0x0;0x351d23403ee69;0x37a150fb1317c;0x35d7b7be0acec;0xa2b8344c8be34;0x817dd402ffed2;0xf61a69ef0d47c;0x88017c49abb23;0x2700ce2b246fe;0xdcad9a79fd9fe;0x4116c9b1c42];[0x0;0x4943c54ee2711;0x3f14ab805f04e;0x4b75d258040c0;0xeb2aff77076f7;0xe142a2c8156ff;0xa15e56abc7f14;0x5034e4218c9ab;0xc746cd078d424;0xb4688be2f103f;0x43af417485a];[0x0;0x8c20e6470109;0xec1c1beafa3d9;0x530b1387e2484;0x5d23a966a7c32;0x9b0b105c8bce9;0x8d46c1d1ea044;0x778897a113dda;0x7ba2504956290;0xb612fd049f374;0xbcb4528cc1];[0x0;0x8c20e6470109;0xec1c1beafa3d9;0x530b1387e2484;0x5d23a966a7c32;0x9b0b105c8bce9;0x8d46c1d1ea044;0x778897a113dda;0x7ba2504956290;0xb612fd049f374;0xbcb4528cc1];[0x0;0x7146096c63e9;0x74820e791eaa0;0xd189194d2ad1e;0x4442ace7c1581;0x928735861050d;0xad2f857116fb9;0x2b8a740a70cc5;0xb6af9d965ee7a;0x5421148a50095;0x2aa4a5c53bf];[0x0;0x61c64b58c84d3;0xffc5c6eb0ebcc;0x43d3e47769887;0xe741796561be8;0x62f1fd283f6c1;0x8771e6200515a;0x845489fc0290a;0xdbe9f3ca4ea18;0xf0771f46c72b9;0x3430ddf589];[0x0;0x6736b393c10b8;0xeb201d106098f;0xdc04467b01c00;0xa0a63aaf2be3a;0x2824a30fec61b;0x6592154f680c7;0xf49a2514914f4;0x6d04125610bfe;0xbc54569928451;0x316d74b24ab];[0x0;0x68a2116a66a19;0x24cb037fd02da;0x9c8ab14270af5;0xe1f2e02a5686a;0x7dfa5408ab8eb;0xc3c7665892f26;0xb74cfd12755cf;0x35689d09fa78d;0x26f1e0a6741cd;0xa2bcc613d3f3c];[0x0;0x3d3ed12dc5eb4;0xcb12ad03cb48f;0xa3700130252c6;0x136093a88cef5;0x884dca4f73deb;0x8aaff27c30b;0x200f9ce31baee;0x13ef13291acf0;0xbb060cd166b7a;0x2c080d24a2c]]);
 ((V [0x9092889fb0f0d;0x6b1c5daad5f71;0xa4603bf1bd96a;0x9db51d5d1c59a;0x50d65716cad34;0xc5f9fc77d6757;0xe11d87ad73604;0x2b2038d5941b2;0x37cfd2d64b541;0xc760c908377] [0x59a96339d8728;0xa3e652597187e;0x22674d5203c2b;0xb2d5b37c325b9;0x49096fb2352e3;0xec4d3334ec722;0x3acfb26967681;0x746750e451715;0x22cb9900e99c2;0x1a200cfc602] [0x271edb341bff3;0x75f558a0b186f;0x9a5e6c6a6ee1a;0x662e2323f6fdf;0xe5e33613ee777;0x4314a1b2e1ae5;0x57c6fbfc62502;0x3a29daa875264;0xe7a6181590e69;0xa4add2b22db]),[[0x618eb2d4a053d;0xa7f8478aa1634;0x99516d8e21a20;0xc44a01a69a0e1;0x5563bca77a949;0x2e03e54776ee1;0xed6ecf6712734;0xe05a422b690cf;0x3bb0b07768989;0xc24681086f2];[0x66df7e1a20021;0x82b42611cf518;0x15906d1ba498d;0x808105bdafec4;0xb095105ce2446;0xb3fb24bff598a;0x284aa216f2c5;0xa4ff7d570065d;0x414769d0ce9be;0x22cdd435caf];[0xde0020dc31654;0x44b76407dfc76;0x8883964f1d903;0x32f19e17ed9;0x2757f87ab0884;0x29cde57c5cf99;0xd5069123e54c8;0x83d83684af6bd;0x9a85d29b10e26;0xecb6a78dd55];[0xde0020dc31654;0x44b76407dfc76;0x8883964f1d903;0x32f19e17ed9;0x2757f87ab0884;0x29cde57c5cf99;0xd5069123e54c8;0x83d83684af6bd;0x9a85d29b10e26;0xecb6a78dd55];[0x38516c2ff845c;0x2e21826d777c0;0x3316b9b01eafb;0x8c999f1acbdee;0x7a1820b12bc80;0x4aa44a219e618;0xa96200facd724;0x8a475eb2ec6bc;0x73b240f93319b;0xdc954820b52];[0x2e8e11ea2798d;0x5492a3a457d58;0xe279b36b85e92;0xf3e766a2e40d5;0x367cefabb67c5;0x6956da9e57372;0x5922a926a1ba1;0x1ab81ea413fa0;0xcd9528d79b823;0x46388c1515c];[0x0;0xc234859a1fae5;0x7b8acb4ac061c;0xb0fc8e0478ae9;0xb5fbbaf10de94;0x64d056069c768;0xd7b89f8f7e78e;0x994b3d30340d5;0x395f15baec6f2;0x52371c3a9a54a;0x92621e470e9];[0x0;0xf1229be91f705;0x56eebd4103cfd;0x576c4e73420ee;0x69c73665014bc;0x9bf819509f725;0x4da47c6a7b237;0x7ac296694b19d;0xffd626e4d68be;0xe399e82c03b34;0xb3a39c3b235];[0x0;0x3d3ed12dc5eb4;0xcb12ad03cb48f;0xa3700130252c6;0x136093a88cef5;0x884dca4f73deb;0x8aaff27c30b;0x200f9ce31baee;0x13ef13291acf0;0xbb060cd166b7a;0x2c080d24a2c];[0x0;0x3d3ed12dc5eb4;0xcb12ad03cb48f;0xa3700130252c6;0x136093a88cef5;0x884dca4f73deb;0x8aaff27c30b;0x200f9ce31baee;0x13ef13291acf0;0xbb060cd166b7a;0x2c080d24a2c];[0x0;0x998c2a7d5f32c;0x4031b9053759e;0x938172f7d4167;0xca81a4bccb3ee;0x3445b474668b8;0x5ff917d1369a8;0x2bce6a01b8a08;0xb267df590398f;0x90061ac505083;0x673823436c8];[0x0;0x732fc6c3650f5;0xe69bf29829ca0;0x456598978872a;0xa53bf10bc010b;0x3a931e319b761;0xcb448aee4767c;0x562bb045a46e0;0x7807a3e308dba;0xc428cbf0f2538;0x12c87329f00];[0x0;0x58e661fde3c5e;0xc823a1791efe5;0xf908734dbf8ff;0x5fe7ad703b1d4;0x6ac106a724467;0xb58359d36968d;0x21899231bf21c;0x1cb085416268f;0x6a183dd66f66a;0x1b1b287a1e8];[0x0;0x916e955c4906e;0x1311b9c2473c5;0x764dd3e50d561;0x493b1209b03d5;0x11273f6eb627d;0x6d13da857084c;0x5f1baadac136b;0xf22d0f2cfa71e;0x77e3cd499dd5c;0x1a369fc6508f5];[0x0;0x1f150a515a643;0x28ed6351cf4dc;0xb43c8611ea5ce;0xe86322cc5b14;0xa90962699dcbe;0x3dd2e7ac505c6;0x70f0fe32f812d;0xc89581a585c8;0x9d8e4455ffb26;0x1458caa10e3]]);
 ((V [0xf41f12eb0c68a;0xb6c9534e6f762;0x79c394c05e02c;0x44d4e88c0cdbd;0x3d4465b22d306;0xa6c5a5144a07;0xf1278fc2217a7;0xa890b64cce4eb;0x3d718d8a89959;0xeea45524cec] [0x790c7a0769382;0x8f906ca9abdca;0x87eb1c8332ec2;0x5dad55fe6784a;0x51480c1df49ec;0xc6dde53ec92d1;0x921dbb1253bf8;0x904bda3ec76ac;0xb65fd44e7a575;0xc42cf95d930] [0xc436a79ae5de0;0x307018b3c87da;0xee9bc21bb0449;0x2b1081290c4c7;0xe4b7cf813506;0xd32d8c965a5b6;0xc45a553883b8d;0xa407565ef723f;0x7a882913c7506;0x8f62684aaef]),[[0x2dd658d2d6542;0xee4bdccec4b1f;0x9e919c449fcce;0x789174e773973;0xc1e6e7850626b;0x89017d0fd262e;0xa9a3bfdf30f0b;0x561eaf694dfd6;0xc16b07f45b253;0xe996b739265];[0x4aa238c5b3af4;0x43cc1505524dc;0x1b2b13e1028c2;0x29327f0db56e5;0x6f9e3dfdaa7b4;0xfb0987a86bf2a;0x61145d39b0530;0xf037beee71b01;0xa8d18185fa490;0x30743770853];[0x271edb341bff3;0x75f558a0b186f;0x9a5e6c6a6ee1a;0x662e2323f6fdf;0xe5e33613ee777;0x4314a1b2e1ae5;0x57c6fbfc62502;0x3a29daa875264;0xe7a6181590e69;0xa4add2b22db];[0x271edb341bff3;0x75f558a0b186f;0x9a5e6c6a6ee1a;0x662e2323f6fdf;0xe5e33613ee777;0x4314a1b2e1ae5;0x57c6fbfc62502;0x3a29daa875264;0xe7a6181590e69;0xa4add2b22db];[0xac4a9b9d3d69d;0xe5589ff761fed;0x8de4c9813660c;0xa33f8d9cb4684;0x84c2d8e3f9cd9;0x7f2f2501e941b;0x20791ccbb97b6;0xe84e59943131e;0x4582886f7c8ad;0xc496648954e];[0x9e579d287621f;0x5e73750df04ee;0x8d464a5fcc2b5;0x85f2f17101060;0xeadb6519b0ada;0x7bda62a682b0e;0x409b406df6d7a;0x7e9655a407e3;0x634ef9167dbe3;0x6bddd2e7305];[0x0;0x43344148684e2;0x1d37206c699bc;0xbf738cfdbaafc;0xd950474783a2f;0x1aab1b28e162;0xd914139d1066a;0x29ec602bafb78;0xad28c766af314;0x7132bcd5fdf04;0x65d655db32c];[0x0;0xc34c4278201be;0x284e95d5967ed;0x97b01bf746a14;0xa9ffa64acbb64;0x19c1f3be8bab2;0xd025787be876f;0x8fb9b54ae2316;0x9a68fb746ee90;0x77db4710ebd9b;0x9643287aa50];[0x0;0x1f150a515a643;0x28ed6351cf4dc;0xb43c8611ea5ce;0xe86322cc5b14;0xa90962699dcbe;0x3dd2e7ac505c6;0x70f0fe32f812d;0xc89581a585c8;0x9d8e4455ffb26;0x1458caa10e3];[0x0;0x1f150a515a643;0x28ed6351cf4dc;0xb43c8611ea5ce;0xe86322cc5b14;0xa90962699dcbe;0x3dd2e7ac505c6;0x70f0fe32f812d;0xc89581a585c8;0x9d8e4455ffb26;0x1458caa10e3];[0x0;0x93763e1bc3f45;0xe8ee33f14918b;0xb8894b0679753;0x70241f76d417a;0xae4686c241a04;0xc3929e80c2301;0x37370a6944e37;0x908f3aae95f;0x79b717b3a13d2;0x2aa86a6834];[0x0;0x98e71de6ebf26;0x13c795b42b3d4;0x68f77f77eb08e;0x2d6405d9ebebf;0x8971bb7565b47;0xe3404c8d39ac2;0x13a8aaa7657ed;0x8ed6670b217ad;0xd0a4637f4d23c;0x9b479d222a3];[0x0;0x4765d3644f874;0xc1f9629b88b2e;0x35bdffc585d27;0x277ebe906068b;0x79c2583ae119b;0xe8969518137e6;0xf6f375482755b;0xa1eafcd74c4ee;0x486970b8ea364;0x2d2b261badd];[0x0;0xd9d33bb151885;0x5a8e3fd0a630b;0x69b62d8405df6;0x1aca18ddfddf5;0x20935c951fca;0x57504fc96376d;0x256914ed716c9;0xfcde18c67cadf;0x2f935822c0ea;0xc4cc04d952312];[0x0;0x93c6ecebb4c2c;0x3631bbffed4f5;0x9789b00797c3f;0x93c9ebdd7b4cf;0x9cfe17511cd16;0xaf5fd7381d228;0xa5951152e925b;0xee638fbb5d368;0x832da510d3a2a;0xb6dfbde3e23]]);
 ((V [0xfaec711074b8b;0x2e81e30a003cb;0x6f7650b1b4c29;0x48912383eb1e;0xfa41774d8c661;0xa3defad034007;0xc67f2c0095ca7;0xb273495eb3e75;0x5e8c46022e6cc;0x7ea431b904e] [0xa2e45abfec8ac;0x6a624681b0ffb;0x1fd1158b07005;0x825d2634c78e;0x117ab688afdc9;0x6e183f21bdd16;0x9393decad52e7;0xdb0e2db8b1ea3;0x8dcbd2263fd4d;0x68c77d962e9] [0x8bd8e1f62f6fc;0x3a2c29cdde8a8;0xfdea5fd7c62d2;0xc25f4f5941041;0x10b12b646c71d;0x131b67c7ca6d6;0xbdcb9a16a6c1c;0x8bc6825518a02;0xd635051d40270;0x998b55d4bf]),[[0xba6983e6541ef;0x8ab4945c59c9;0x4f395859e25e9;0xa52b03d601d53;0xb04040b4ce260;0xa144f73a524b6;0x960072057f7cd;0x73219054590e7;0x4177dc1070c66;0x46526680293];[0x5eadb22f39711;0xa14cd3dee6811;0xa226fedefb06d;0xa018377414f5b;0xbd95a651f5344;0xdf3b3bf4635a;0x8855dac2aeae0;0x95a63489ba79b;0x17dd6cf1a31b8;0x1b72cd7e1aa];[0xc436a79ae5de0;0x307018b3c87da;0xee9bc21bb0449;0x2b1081290c4c7;0xe4b7cf813506;0xd32d8c965a5b6;0xc45a553883b8d;0xa407565ef723f;0x7a882913c7506;0x8f62684aaef];[0xc436a79ae5de0;0x307018b3c87da;0xee9bc21bb0449;0x2b1081290c4c7;0xe4b7cf813506;0xd32d8c965a5b6;0xc45a553883b8d;0xa407565ef723f;0x7a882913c7506;0x8f62684aaef];[0x67d38acb69a8a;0xb69c229b3db92;0xb66d351063a2a;0xf515c160c32f5;0xe2f9dc0b49771;0x5733c14e8332c;0x7835a0a7d329e;0xb39a7823b4818;0xf22ff21a9beb9;0x3c3b00a8d33];[0xf6da2763cfa4f;0xeab0b143a8c7e;0xebb9c9ce97642;0xab02761351c65;0xda9bca46abbd2;0xb6bff270c302d;0x10203a1adb841;0xe20bbc6605f83;0x25ad7ad7072fe;0xdf37ccd5476];[0x0;0x9a3d15550df67;0x3c8608c4b203f;0x2a2f09f79173c;0x7641b8e1bbe4b;0x5cf1686ec3341;0x761cc91483aa8;0xa23b7a8f543d8;0xe56e843b234de;0x2b79cc14d33a0;0x58ab3021719];[0x0;0xf228449533679;0x97e23ba9b56d0;0x65be48a6d6f1f;0xebf8e7d13ca12;0xdeaea44ef7a07;0xb1628832f5bbe;0xca43ae0cecc26;0xfb37749cb56e6;0x99a4f423b4e41;0x27630f72d19];[0x0;0x93c6ecebb4c2c;0x3631bbffed4f5;0x9789b00797c3f;0x93c9ebdd7b4cf;0x9cfe17511cd16;0xaf5fd7381d228;0xa5951152e925b;0xee638fbb5d368;0x832da510d3a2a;0xb6dfbde3e23];[0x0;0x93c6ecebb4c2c;0x3631bbffed4f5;0x9789b00797c3f;0x93c9ebdd7b4cf;0x9cfe17511cd16;0xaf5fd7381d228;0xa5951152e925b;0xee638fbb5d368;0x832da510d3a2a;0xb6dfbde3e23];[0x0;0xc1c1bce7238b6;0xcbfef1ac1e35c;0xb3bea8b4c5d45;0xa8bb5e07e873e;0x2f56621d20df1;0xeac9ee2359872;0x521ff34ec4fa6;0x5f12713ed563f;0xb2a5737b746ae;0x9654e5bdf43];[0x0;0x2f73dcffbbb43;0x9a67377dc3508;0xf1529c50810;0x5cb7c89ddbf37;0x51a8d7f1cfcd1;0x7a1eecc9ab809;0x4626a05c8d561;0x76d1dd8256330;0xe8576a599d801;0xde75f7cda3e];[0x0;0xe55efc4bd1eca;0x31c941210f5d0;0x97f561f0bd441;0xc618f4b24db4e;0xf7fb5576bde73;0x3d171f13bd708;0x9f35d22cce629;0xb765f31986e4d;0x6a07b61fc5f49;0xd941c0485b];[0x0;0xb7725af38e7e;0xe431f7750c53;0xc111a46d0d957;0x26c57af84b3d2;0x29c7d69ea7b9c;0x70cd7019ed728;0x827c74c704573;0x5acbb234f9d24;0x34b915f7f2947;0x6925090c94a70];[0x0;0xef98f39abaa58;0xcc662d8c69f38;0x5147109415a23;0x897254b2bc788;0x3d8224ed70e13;0x6474c5b3cedda;0xc5f993171ff5b;0x367f68bd28c58;0x9ceb448c66272;0x33d563f6485]]);
 ((V [0x1960fcef1238c;0x52f0dcbe3bb5f;0x3f4e8fec59d08;0xfd00c701c225e;0xaa930c57c1249;0x6f74a0b6e51ac;0x6c34f9c3d698f;0x168bac36e4c57;0x4db7b7fb2a830;0x22567c7ca3f] [0x5db480e7deba6;0x5e61c06282d33;0x693adb94033bb;0xf8e5e4424e3d0;0xbc26bbe1cb654;0x1b3ae52bbc7e9;0x80bdee12cd1a2;0x691a47e674625;0x1e3e598cb1618;0x852ee6ee6] [0xa9076ee7293b7;0xa0c8acdc9456;0x437b612569707;0xf82948bef4050;0xadaf70823b406;0x6179153b9952f;0xd43ac89a40347;0x7e468d8104b9b;0xa821b53f23971;0x4fb5c8ead08]),[[0x1271b7d680b81;0xa53b87f1c426f;0x505a43c7df87f;0x3b8283c81a4d2;0xd04f1fac98825;0x5721feca82a33;0x8df623cbccbaa;0x8a9f770ea87f1;0x77e2b8e9a6313;0x8d038a548da];[0x9cf6f655eaf76;0xcadcab5104524;0x4b397915a7409;0x17d2034a806a2;0x4c5c44a680f9c;0xb576dcfb9baf3;0xff1c073a2f684;0x34706aa6d38d3;0xa0063d8ac4d4d;0x70f398453d1];[0x8bd8e1f62f6fc;0x3a2c29cdde8a8;0xfdea5fd7c62d2;0xc25f4f5941041;0x10b12b646c71d;0x131b67c7ca6d6;0xbdcb9a16a6c1c;0x8bc6825518a02;0xd635051d40270;0x998b55d4bf];[0x8bd8e1f62f6fc;0x3a2c29cdde8a8;0xfdea5fd7c62d2;0xc25f4f5941041;0x10b12b646c71d;0x131b67c7ca6d6;0xbdcb9a16a6c1c;0x8bc6825518a02;0xd635051d40270;0x998b55d4bf];[0xd901e47b20dce;0xcb5503631b306;0x343aacbc935e9;0x5a89b2b988ceb;0xdc4b4d03e34;0xac7fd3e8c42c0;0x5d8d837508ccc;0x4ecb520a6051f;0x152a8f276abf;0x954597eafa8];[0xc3f511dac9f70;0xff87a7ede921d;0x16fecc5913e1f;0xbd485090f79b7;0x4b7ff9597d167;0x8f70912d7833;0xa18e83c5269b8;0xe5a5189c733b4;0x9eb394984e28d;0xdbae005a429];[0x0;0xb0bdb95a782c9;0xd6e0e77f04863;0x8240429658815;0x403eba3989cb1;0xa3954ec3d86be;0xa1aa23cd3a83;0x330431faf3bb7;0x2107c74f5b142;0x537b2d2444426;0x5ef3991462];[0x0;0x48746ad30d24a;0xa5e6cedc58c25;0xa822641f6d2ee;0x148b120493229;0x145a6ea98f446;0xf426b25514a83;0x6c25963be2ac1;0x4c08e8b456f8c;0x1a47c6baa9f8a;0x5493dde002];[0x0;0xef98f39abaa58;0xcc662d8c69f38;0x5147109415a23;0x897254b2bc788;0x3d8224ed70e13;0x6474c5b3cedda;0xc5f993171ff5b;0x367f68bd28c58;0x9ceb448c66272;0x33d563f6485];[0x0;0xef98f39abaa58;0xcc662d8c69f38;0x5147109415a23;0x897254b2bc788;0x3d8224ed70e13;0x6474c5b3cedda;0xc5f993171ff5b;0x367f68bd28c58;0x9ceb448c66272;0x33d563f6485];[0x0;0x70497f428142e;0xb8c29d8732c2e;0x698dafdb74c09;0xc6ed924c66b27;0xba7a709016266;0x6c727408be890;0xfe3c37e1b5046;0xdadb58f621c49;0x4a69cc52b6117;0x2ae2b17e82f];[0x0;0x2af69449545af;0x7176ec280e3fd;0xc696832b90f94;0xbd6bf7676ee2;0x5a5f18f287770;0x3c3b76af46a11;0x66d60c2d04d84;0xeab3aaa332ce0;0x8f14ba1bb1e49;0x3ea60a41df8];[0x0;0x709876f8b0304;0x767d410920ebe;0x5cf906de7065d;0x9e84702542353;0x284c0d312df9e;0xf58b65bb405dd;0x592e9fecede32;0x7ac2253003a8e;0x668e3ada51527;0xf2682fb557];[0x0;0x527066284d5c1;0xa0f249408bd86;0xec2fa0c8e5102;0xb12f0547a89b7;0x5fef392153aaa;0x423c5c5a65e57;0xfc4fd1245908e;0x7a39d20ec9634;0x82362403226b2;0x857952958ae];[0x0;0x8f263f6b80e67;0x12d3ec683520e;0x5412770a56829;0x64f77114eb251;0x3677438172cc1;0x57a3608f08135;0x3cde243a7fada;0x65f88f535a655;0xcf4b9dc7cf5e2;0x11dd3930c]]);
 ((V [0x81dfdd4ef16a3;0x539d9fa836678;0x1c57c2985395d;0x2e169acbf5653;0x158e03a8fddd;0xc5fa500234e4b;0x3bface417ee47;0x989b818fe746a;0x624fc6d5bc51e;0x742736951ae] [0x3822df9de600e;0x4340aaa458d63;0xf8f5212b9c0b7;0x810e7a01b457d;0xe10cc97a02991;0x957561b3a1743;0xbf91def048d41;0x219e59a0838ad;0x837693a4cbf67;0x5664667ab70] [0x6f9a4041af320;0x704c09920fd56;0xd5b99c65a4687;0x1cfc256594b9c;0x8444ba79ec4dd;0x443473b037821;0xe636894c40719;0x3dfb75698ac13;0xe609099fc56e5;0x2a2fa650f19]),[[0x8ac2e8a842a91;0xce17390c52554;0x184aba73357c7;0xa815784867961;0xb5b6534ff76c3;0x2c2a1036a00a;0x16156f3c68e07;0x6fef5b989f4d1;0x9c41abcf819ca;0xdf85ef7b600];[0x8bf204b5b0d3;0x9161e66a19d12;0xff19ea8883dea;0x84bc4456fe95c;0x7850869762452;0xb40ffef8f1353;0xbdd29a3a75ca2;0xef7f072159e51;0x93e4354146c6f;0x39fd6b48366];[0xa9076ee7293b7;0xa0c8acdc9456;0x437b612569707;0xf82948bef4050;0xadaf70823b406;0x6179153b9952f;0xd43ac89a40347;0x7e468d8104b9b;0xa821b53f23971;0x4fb5c8ead08];[0xa9076ee7293b7;0xa0c8acdc9456;0x437b612569707;0xf82948bef4050;0xadaf70823b406;0x6179153b9952f;0xd43ac89a40347;0x7e468d8104b9b;0xa821b53f23971;0x4fb5c8ead08];[0x94e17f71ceb96;0xe901284079c55;0x5b1b558112e8e;0xb0c7fbb309fe;0xa5a77af1a19f3;0x17dc9bb490819;0xcb71357c77658;0xee8ac62117dd8;0x8913ee62234b7;0x293773edd37];[0x73dda0d98c53e;0xa860be29a00bc;0xa3fe950770f5b;0x79afc49bcdf5e;0xd2a90ba5c0a5f;0x9c33634460b39;0xf26164bdfe64a;0xf4410042078;0xad046df237b8;0x10c5f75a62f];[0x0;0x3475a9e501d69;0xa14509e113f3a;0xc666100f3fb55;0xb6d250cff58ce;0x94d41a6ec902;0x3d6243356782b;0xffd86bc18215e;0xfe1699294cb2b;0x9d2dc0e691716;0x314ae83a8f0];[0x0;0xd334a2d99118c;0x8ab0a611e03f1;0x2b118dbcfc0e2;0x6d803fa08f7de;0x38411e163390;0xb8eb09a533136;0x4451178fba011;0x17a1192ab7cb4;0x8f69a87ecd83d;0x45990e070e7];[0x0;0x8f263f6b80e67;0x12d3ec683520e;0x5412770a56829;0x64f77114eb251;0x3677438172cc1;0x57a3608f08135;0x3cde243a7fada;0x65f88f535a655;0xcf4b9dc7cf5e2;0x11dd3930c];[0x0;0x8f263f6b80e67;0x12d3ec683520e;0x5412770a56829;0x64f77114eb251;0x3677438172cc1;0x57a3608f08135;0x3cde243a7fada;0x65f88f535a655;0xcf4b9dc7cf5e2;0x11dd3930c];[0x0;0x23c9d05c67382;0x73d64ad19c375;0x722de1bcfb017;0x5f05dc5790da4;0xf4cad0d9100e;0x2b7d2048606f2;0x3209fb08bc97c;0xe53210d004281;0xb7fb33056efa9;0x4549c48];[0x0;0xb19aa1c405e1e;0x64e09ab36ed2d;0x9010579a45100;0x59b3287fa67a;0x4b65429aba799;0x39ba1715e82db;0x6e971494b284e;0xf2833ad0e94da;0x42e54b7bb3dc0;0x49b1648fbd];[0x0;0xe355b43c1f402;0xdcf96b477c86f;0x17e8bb639ed87;0x4d855b0f410c1;0x5187e2df0d487;0x1c92838ef8a34;0xd47aac4b76f8e;0x736121741c835;0x85b566778732;0x1a4fb6954be];[0x0;0x7409423c87d81;0x122a42b78b571;0x1711a4b5ca267;0x263d8bca895fa;0x5747df2d2cbad;0x21997557d9d53;0x45d41a388027;0xeeb6aafbe785f;0x91a5b7830b289;0x56a73900f2cfc];[0x0;0x1b56689774fe6;0x4da8e46ab0b03;0x5c627a857426d;0x285201e60a8f5;0x3ec69fa86be08;0xf016e7b2d776f;0x56e0c1a06c0e4;0x1302a421503e4;0x3007c39e83c5b;0x2732ba26b6c]]);
 ((V [0x8be037f31420e;0xae396957caede;0xfa7c5b0983834;0x2767320295c9f;0x784013d033d6a;0x72ec3b656af25;0x6556d02b4a9cb;0xf0096a2ac3728;0xd981ff916e5e9;0xb9249387a3d] [0xeb86cfac8bf9d;0x771c38b293ddf;0x86c80ebb4202a;0x7fc1f023154c3;0xdd60ac444a150;0x90a24e721ca27;0xe10da723fc2df;0xbd63bcb6f3f95;0x7e0cb060026fb;0xd46a2162668] [0xcef57aad1a287;0xd7bb401d655b4;0x66e6b1719b249;0x8372a7888408c;0xd7fff6e90877f;0x9b7b9add6bb01;0x1cabe748cf902;0xc54389865a34f;0xddf12174e7b66;0xdca89dd8fc5]),[[0xcfcd7c982a14d;0x4d5b097cd1da9;0x8451ed1f0bfc8;0x91849c0407599;0xee20b71672528;0xc89145dbc008a;0xf3f315f439db8;0x9068618846512;0xab422afef5a94;0x621280abe20];[0xcee35f07d2c0a;0x335984426adcb;0x56be3dea2e342;0xdda9f1e72c99;0x50b18caec57b8;0xd59a702540d2b;0x948b5c2b1e927;0xb2367dc39b21b;0xcc05babe7eb54;0x58c7e68d071];[0x6f9a4041af320;0x704c09920fd56;0xd5b99c65a4687;0x1cfc256594b9c;0x8444ba79ec4dd;0x443473b037821;0xe636894c40719;0x3dfb75698ac13;0xe609099fc56e5;0x2a2fa650f19];[0x6f9a4041af320;0x704c09920fd56;0xd5b99c65a4687;0x1cfc256594b9c;0x8444ba79ec4dd;0x443473b037821;0xe636894c40719;0x3dfb75698ac13;0xe609099fc56e5;0x2a2fa650f19];[0x2e828b965d327;0xd35094e18d8ac;0xcf1ab82b0ceb5;0xa60f1dcf33b84;0xa7be6424189d0;0x66291c48b10a0;0xf32afddcd09f4;0x1801bbeafd99d;0x4dbaf457ffafb;0xbf21039807f];[0xa060d371756ab;0x6008ef60dd51f;0x87a385bf2148c;0x67cb814f3f114;0xa8f3288aacde7;0x6f7153dc8fc8a;0xa1605e4e4df33;0x9a34c1d89d87d;0x7e4ac6667f059;0x99a6e2f4ff2];[0x0;0x54f755baf1db5;0x591623c1963f5;0x53820e0f12620;0xcb961c709472c;0x6cf3692955b91;0x1bf208a5c8f64;0xd7c8ff25f2834;0xf5e2806eefc93;0x38bc4b341efc9;0x1a167cc4a9d];[0x0;0x9bf8e1a2bbeba;0x6fca865b26972;0x24d2887aba95d;0x61a38c3bc8753;0xcbcce44584ea3;0x5bbe7a27bb8f1;0xb1df8db0bc136;0x9bec046269fba;0xc0359e6ea80c4;0x10294a38d46];[0x0;0x1b56689774fe6;0x4da8e46ab0b03;0x5c627a857426d;0x285201e60a8f5;0x3ec69fa86be08;0xf016e7b2d776f;0x56e0c1a06c0e4;0x1302a421503e4;0x3007c39e83c5b;0x2732ba26b6c];[0x0;0x1b56689774fe6;0x4da8e46ab0b03;0x5c627a857426d;0x285201e60a8f5;0x3ec69fa86be08;0xf016e7b2d776f;0x56e0c1a06c0e4;0x1302a421503e4;0x3007c39e83c5b;0x2732ba26b6c];[0x0;0x8d49e03f0497b;0x8f3cc24210837;0x300404fbde19;0x79f68615e8500;0xbe04e6e321970;0x2481d12282bf0;0x4e8e67428cb3f;0x80c105c35b1e1;0xe8853803a86cb;0x1d279c3aabd];[0x0;0x698bd739d59f2;0xb5b2b65c9389d;0xe053ef48b4d53;0xd13fee369d255;0x5f0ba9e83a057;0xfe672d5f81ded;0x6a8a0075b352f;0x8ebee764d7ebc;0x201d5725996fd;0x34b38f78cd7];[0x0;0x2cf0daca42cd6;0xc2cdce7fb3f99;0xb7fc841c46cb7;0x1c2f0fadcd1b6;0x588598b47feba;0x18d7eb4aaf995;0xebe79b3394e52;0x6ae0350ab8f3f;0xa77a1297e537d;0x403524e2299];[0x0;0xac718abf284a5;0x150d3d1a14c9e;0x54c1a6be99546;0x6f2470013c0a4;0xf863c890acd74;0x6f3eff8e1c896;0xd43d2a97a3caf;0xcd57e5959cb82;0x2b579f08047c6;0xd4f4e12a82c95];[0x0;0x7d32f6c43a979;0x5388db4b569d;0xd6c05ee17a96a;0x9fee880c25dde;0x877e5e335442a;0x3a06749f28435;0xb2a313ae0aee7;0xb38d8dba29193;0x9296c7034cd49;0x999f0b764b0]]);
 ((V [0x3c3da39840c76;0xac0cb75cc0a2e;0x9290bad8b5bee;0xcbd877ea3fd85;0x6e7dae8c3fe3f;0x2ff45eaba3af1;0xd82d7fe3b2b71;0x28b9b4fcff8f0;0x24566eb7e8068;0xad59516b763] [0x3c49cf3aa086;0xad46400c07a06;0x7987eb2f0ec2a;0xdb3e083992cc2;0xaaa7e9175f855;0x2fd2ee89876e0;0x790f929a45277;0x62ff19b91774d;0xb84cd44c3f8a4;0x9102307e8ca] [0xf5cf640fbdefd;0xb6bcc93a01dac;0x54291fd236c33;0x3796768925fa;0xb8e10bca39b5d;0xfc4f88da5762b;0xa1dbd27face10;0x4ea40d32f2fe9;0xb5f24a13603d9;0x930aed9a5ef]),[[0xdc13bca31e67d;0xda7e29975f494;0xa68b0a837a75e;0xa20bc9e1d488b;0x6bf4303fb4d63;0x4ab80424b0507;0x94f193e395367;0xfa6f9ba2cc41c;0xa43fabfcc40ba;0x379c801e9bd];[0x877e91ab5219c;0x79f8480d86025;0x48e2fc8a9ccad;0x71846b0b77e7a;0x322188aa3c434;0x33aed60ff13e6;0x418a0a4be0a04;0xe37e482cbedb7;0xb91998b7028f8;0xda51e9179d8];[0xcef57aad1a287;0xd7bb401d655b4;0x66e6b1719b249;0x8372a7888408c;0xd7fff6e90877f;0x9b7b9add6bb01;0x1cabe748cf902;0xc54389865a34f;0xddf12174e7b66;0xdca89dd8fc5];[0xcef57aad1a287;0xd7bb401d655b4;0x66e6b1719b249;0x8372a7888408c;0xd7fff6e90877f;0x9b7b9add6bb01;0x1cabe748cf902;0xc54389865a34f;0xddf12174e7b66;0xdca89dd8fc5];[0xb2d5bd21523b8;0xf0aa9d7c36a35;0xe7cf86d480e09;0x963d3d05880ff;0x81724e435b94b;0x784898b202880;0x1f9535b145394;0x14bdc6a18284f;0x853e988936eee;0xc7751a5a2d6];[0xd4a8d489ffde5;0x894daa914f5ef;0x611375b61bea3;0xdb472e05efd7a;0xb0af3a66e0ae8;0xbb663d5deeb65;0x21f4d49a9b66f;0xcec0818b3c568;0x33db002dcba0a;0x12dccebd702];[0x0;0xd6445aed68fb5;0xe13f0bfcd79c1;0xc5f586cc712da;0xc27b0eb351eb1;0xceabc659d4c24;0x870a82d8f1838;0xa46bd2e441ef;0xdb90d312ac5d5;0xed80206e0c53c;0x88747a16908];[0x0;0xad0fb1e77e539;0x1e294b66a0243;0x818b814cdab53;0xe01e2179fa6e1;0x369411ad28451;0x1d2d1c7a5ca0b;0x32dc47b007744;0x2d82721501771;0x72b7e6370c9fd;0x2fef1f187f7];[0x0;0x7d32f6c43a979;0x5388db4b569d;0xd6c05ee17a96a;0x9fee880c25dde;0x877e5e335442a;0x3a06749f28435;0xb2a313ae0aee7;0xb38d8dba29193;0x9296c7034cd49;0x999f0b764b0];[0x0;0x7d32f6c43a979;0x5388db4b569d;0xd6c05ee17a96a;0x9fee880c25dde;0x877e5e335442a;0x3a06749f28435;0xb2a313ae0aee7;0xb38d8dba29193;0x9296c7034cd49;0x999f0b764b0];[0x0;0x12df140e35ce7;0xebf666f127f63;0x477215d989422;0x99690706d0e64;0xc35e2f838300b;0xaa56da97048e3;0xf5a718c5b2156;0x809d257483a24;0x879181b1e3aee;0xb03ff34aa3a];[0x0;0x570805173ba29;0xa07c31d307e2;0x4ba2612b63823;0xf638d542e46a;0x97c1c73fd23cf;0x684b475c44bcc;0xa61635c13c773;0x81b77a97f8e10;0x16a3fb850400e;0x85e5e273de0];[0x0;0xf448c1b8e0030;0xc29243c200809;0x94ab23fc503e8;0x5fd63dfe6ab03;0x341901521f0e7;0xd04314f67c911;0x741e0b57fda80;0xff04f7eac593d;0x69d42a68a2003;0x93d5866e8e7];[0x0;0xf468dfb4f6622;0x977a1454046ba;0x8062027c30d73;0xbcc2612ff932e;0x168dc3ab94212;0x2a1b069c94f51;0x6f57719fb3b14;0xb736411e204e6;0x8d0e8503543e0;0x9117886c05bdc];[0x0;0xaecda45e84f01;0xc0bf9d169a642;0xbb67fcbac0651;0xb0b0de2dd1984;0xb0f79704d6939;0xeb6ebcd6762aa;0xfc6ea1c1b746d;0x3e2cf10f097a6;0x49bdea46f6d17;0x623112a6f14]]);
 ((V [0xe60a48fb6aa10;0x6b9b51b145196;0xc31e2ff105e38;0x6ce04ab0a8948;0x419e5a64b330f;0x4471001047621;0x54fd2827b5799;0x20fb63e8aa6e7;0x3beec6b40136f;0x11deaf14f27] [0x6b51f974c3b2f;0x4d5e119429b58;0xb6e92fa069f1a;0xcf7eeef02aa37;0x928040264866f;0xdfb389f036bfc;0x94b762a3687e6;0x856634025b10f;0x64ce4c75aaa17;0xd7c265cdead] [0xc18c912f6795a;0x870f043178f72;0x6fbb8e03608e;0xc49fcb90a31f9;0xcbf331d3adc03;0xd8ceb4b9aafec;0x7e141086f9510;0xd9300d43b08b6;0x9b6b63abbd9d7;0xffdd70dd43b]),[[0x68eddfc49a416;0xee7a155091957;0xdbbd9d3681707;0x1a0e2fc99c07c;0xa4677de5f6f45;0x99e216c218ffd;0xaaf437ffd1fab;0x4e9a442d1cd95;0xda82ff14df22a;0xe8d42eaac8b];[0x33accc2e64bf9;0x7a4ed598a4112;0xaac3a25969292;0xc62dd09ea98e;0xeb87cd20398ce;0xfac28bf1dd1e3;0x2cb983ab5da47;0xea064ff33e888;0xf0e4c6ff07a41;0xe226a9a33c6];[0xf5cf640fbdefd;0xb6bcc93a01dac;0x54291fd236c33;0x3796768925fa;0xb8e10bca39b5d;0xfc4f88da5762b;0xa1dbd27face10;0x4ea40d32f2fe9;0xb5f24a13603d9;0x930aed9a5ef];[0xf5cf640fbdefd;0xb6bcc93a01dac;0x54291fd236c33;0x3796768925fa;0xb8e10bca39b5d;0xfc4f88da5762b;0xa1dbd27face10;0x4ea40d32f2fe9;0xb5f24a13603d9;0x930aed9a5ef];[0x7731c4b0598a6;0x981c9c8a3c51d;0x2c7490e34f5bc;0x85c72b758f205;0x7c197cb5ef135;0x93db04f8c1d4c;0xe03068a1a56c4;0x4355477a1e3b9;0x809ec17312ae0;0x90e4070b3a7];[0xbc7b077e0b354;0xe232390e67bf4;0x7e4f117619cd5;0x869bb1945b789;0x6f6e506a4a798;0x66e786f91b497;0x4c891b09b8383;0xa6b10879204ce;0x7046058bf4f61;0x5142a29801f];[0x0;0x3160cf762bc36;0xc5a2b7f70b635;0x64a0f43634ee7;0xfdb0648eee2f4;0x2c03717442a51;0x33c70ce70f9b8;0x3afa75453f43b;0x891a8219acb85;0x8a1d43d856ea8;0x5aee54bffc6];[0x0;0xcdc169e010413;0xb775209908ee4;0x53f272288084b;0x613e4b711ce3d;0xef029b7273630;0x1031b028b05cf;0x91f3d92d76a4d;0x90c32f138d678;0xb7544f529b629;0x85bbc72eb92];[0x0;0xaecda45e84f01;0xc0bf9d169a642;0xbb67fcbac0651;0xb0b0de2dd1984;0xb0f79704d6939;0xeb6ebcd6762aa;0xfc6ea1c1b746d;0x3e2cf10f097a6;0x49bdea46f6d17;0x623112a6f14];[0x0;0xaecda45e84f01;0xc0bf9d169a642;0xbb67fcbac0651;0xb0b0de2dd1984;0xb0f79704d6939;0xeb6ebcd6762aa;0xfc6ea1c1b746d;0x3e2cf10f097a6;0x49bdea46f6d17;0x623112a6f14];[0x0;0x284d34ef0fe92;0x5c679290c97fd;0x69ff59ccef31e;0xac0694d67d47b;0x11a79aadc194f;0xf38f124e3f0c3;0x96cfee815183d;0x7b31775474db2;0x4326db30ad2be;0x52237af4268];[0x0;0x4afca7ca81470;0x8f98fb6f3d8d5;0x496785746ee4d;0xa26bb12e64de;0xffabd26747e6d;0x3f522384e7c36;0x18ac4b78eb36d;0x895d0b239f98;0xd4ea9305c3e6b;0x7561d734f45];[0x0;0x29251013852a;0x67bfa0c17f892;0x93b30a81af827;0xfa995802251a1;0x4d80d02173a21;0x75934ab45ee44;0x93ab1b9b519de;0x6c49a6e2c6a2;0xc6bb62cead7a1;0xfc94975e1b];[0x0;0x5cd786a491fd8;0xd4d771697fae5;0x32fc0dc51d6d6;0x5cad6a285c020;0x4548d69e65bc4;0x1474cd4190caa;0xf82cece978bc3;0xcd9941cd2a1a0;0x63aa34be8a260;0xd7db8e0004f25];[0x0;0xe94126f6d8bba;0xd4c13b320256e;0x8a9fb677d3c2b;0xd10abec91ecdc;0xb83b36126deac;0xdc0a047a9aaa4;0xe64261aae1d57;0x92bda873a8b2b;0x8ea0aa3984ead;0xf0f96e6804]]);
 ((V [0x772b8ddb8db4f;0x1788f10187269;0x251ad244083bf;0x44235eb8e1c67;0x9952b6a4c2ec0;0xbbbe906906d3a;0xda58ed6be17f;0x867e250960d6b;0x7f774a8cfea4b;0x36087a954f6] [0xeafc43939c09a;0x6c9ec922e1fb3;0xb41b32a567331;0x46951c687c51;0x7e8498caae788;0xb7a5005388475;0xf99034b05634;0xb255c13f6fcd6;0xe22777ca3a24f;0x6d5da184c94] [0x505279745d168;0x1d16d32dbc989;0x8705f5fb81fea;0xfa581f565a7b5;0x64843f050c888;0x682fe18ec7d35;0x673c6670caf73;0x86771354dc5c4;0x27c2d25ca4ea2;0x73d7b42df2a]),[[0x33ff43b3f7c4c;0x957c52b0847a3;0x83715cd9b53ab;0x98519445fdeb9;0xee3b1286c8961;0xf0463d21992b2;0xc52aa19e95bb2;0xbb9b59529fcbe;0xfe59ad062839;0xfed3a59870b];[0xe3ead6894d623;0x735edbe6410c7;0xc5d69144d8e1a;0xf160536e233a4;0xc5892e685e956;0x17b1fb744d27c;0xe7b55a600c14f;0x770a58f34ef45;0xc89741f2c72ce;0xc9867464932];[0xc18c912f6795a;0x870f043178f72;0x6fbb8e03608e;0xc49fcb90a31f9;0xcbf331d3adc03;0xd8ceb4b9aafec;0x7e141086f9510;0xd9300d43b08b6;0x9b6b63abbd9d7;0xffdd70dd43b];[0xc18c912f6795a;0x870f043178f72;0x6fbb8e03608e;0xc49fcb90a31f9;0xcbf331d3adc03;0xd8ceb4b9aafec;0x7e141086f9510;0xd9300d43b08b6;0x9b6b63abbd9d7;0xffdd70dd43b];[0x3037796f9ebe4;0xb86467ec99891;0x654ca2c4356a5;0x48e7fdc7934c9;0x21a6c4efa4451;0x75b36d6d1fc7e;0x41e1f1f4f264a;0x8120410be46c8;0x1c086c0832473;0x489a7bfa79c];[0xb3b35d19aea40;0xbafa73f9a7836;0x6089ee80a3774;0xa87855a68fedb;0xa3e26978ba505;0xa1fe8e072d5fe;0xa5d3686b19b04;0xf5ea17e76a87d;0xac8ed5ea94e5a;0x80ebf86a196];[0x0;0x75045031bef8c;0x6a63ed3b353fe;0x882125271b271;0x7ebcae2f7389e;0x4ff2ecf39c91a;0xfab8ed94dde8b;0x5e8c69c418c8c;0x25c12124c9522;0xbf9cc4a101ac4;0x9e39fe7dc4a];[0x0;0xfc84e030db6c3;0x5a072b59026dc;0xf41ccaaa102b6;0x8b7549e009003;0x6337cecb64c12;0x7f5f9e3f7db6;0x2e8c9ff8cea4e;0x4891db7614152;0xc7d370c271d6d;0xfeb13f01a56];[0x0;0xe94126f6d8bba;0xd4c13b320256e;0x8a9fb677d3c2b;0xd10abec91ecdc;0xb83b36126deac;0xdc0a047a9aaa4;0xe64261aae1d57;0x92bda873a8b2b;0x8ea0aa3984ead;0xf0f96e6804];[0x0;0xe94126f6d8bba;0xd4c13b320256e;0x8a9fb677d3c2b;0xd10abec91ecdc;0xb83b36126deac;0xdc0a047a9aaa4;0xe64261aae1d57;0x92bda873a8b2b;0x8ea0aa3984ead;0xf0f96e6804];[0x0;0x60a704869e75b;0xcd11d3fa09fde;0x668bbcc85cc06;0x9f95018d70a8b;0xd4f48b99d31a2;0x81302af50157;0x3b1ff0a101bb9;0x12a8089fc2e9;0x802e3dce892c9;0xb5d81a9e550];[0x0;0x2a828a9edf340;0xf6f7b7708cf18;0x76b1ff6536085;0x902dff90a8526;0x4553eb9d56a5a;0xb117369085814;0xd67f1b7be4eba;0xe544d993a0284;0x5854b8f049e94;0x13f54f4e84];[0x0;0x639ff0b7fbe58;0x5d52a842dbcff;0x3e404c389b992;0x7b73949239b5b;0x2a30f9d1b371f;0xe216168a52d23;0x590a4aa6f76d9;0xbbd9a47528bfa;0xc00e01aa1567f;0x2a890940776];[0x0;0xee0f0566f5c71;0xb88852addede0;0x4ff0a4125c0fb;0xeae7518b98eee;0x9eb5b621b9f53;0xb0e56894a3164;0xa1f7d8a4f994;0x5b9ac11eb6470;0xdd458812193f2;0x6d74e731c0e53];[0x0;0x232cdb0e1daf2;0xe212764238a3f;0x633f49e666c61;0x89a1c6cc44a21;0xfbd6df14b4084;0xa02c28a14b5ca;0x7cf791e833b26;0x58e64e4c8ff65;0x15f29d2dc1890;0x17155f5d770]]);
 ((V [0x11225466bfa8c;0xd005886ac754a;0xe4516c94ec0c1;0x32e2cb59d3f87;0xca00908e4989b;0xe1192b3966d0b;0x8f5493b14b623;0xe16893a04cb7f;0x19d1f5aecc48c;0x219a050092a] [0xfa71aebaef663;0xe8c89e6fd9311;0xf633d53353783;0x256be24171565;0xba8c34b5eba01;0x27e0385644830;0x13054189d7f32;0x4704faaae964;0xbf647a70199d2;0x7661e23a3fd] [0x1ace3b6029157;0xa9e283976484;0x9e2b7f962f990;0x693d0b2672573;0xb1db7254ee5da;0x7c124d52e9bc0;0xe08b8e2032549;0x3f8ef7b9696f9;0x8860666b78f51;0x10642d446f9]),[[0x17577a4312496;0x1e9493e3e1bbc;0xe74d99ba9915e;0xf4d9705ff94b7;0xe01ef7c7ef6d;0x125b9cc73d9c7;0xffaaced8f88bc;0xd105e7b74caec;0x1a7585303865b;0x84e0c2f1bb1];[0x6a614e609391f;0xfab77438e6fb5;0x760250d9b751d;0x191ff088c4d2;0xba8dcd6c247e9;0xa43ee017e5f7d;0x635a850897a45;0x55866791bd1ea;0xcd0c39897a80c;0x8fa1a07e022];[0x505279745d168;0x1d16d32dbc989;0x8705f5fb81fea;0xfa581f565a7b5;0x64843f050c888;0x682fe18ec7d35;0x673c6670caf73;0x86771354dc5c4;0x27c2d25ca4ea2;0x73d7b42df2a];[0x505279745d168;0x1d16d32dbc989;0x8705f5fb81fea;0xfa581f565a7b5;0x64843f050c888;0x682fe18ec7d35;0x673c6670caf73;0x86771354dc5c4;0x27c2d25ca4ea2;0x73d7b42df2a];[0x120577b86fdc8;0xcc5e564b0ec7f;0x9925b57676d8a;0x2f79076d1043c;0xaa3a786b63cda;0x741647340feb;0x3a69fdbfe117f;0x29f60d2ddc891;0x4016ebed8c27;0xe5f075adb6];[0x585bd6a823b58;0x2e591dedd8336;0xdcdc9b6340793;0xd218f79b7c095;0x10535500c0b0e;0x9cfd7ba4a4f92;0x28f08748b68c6;0x2b905a63e0959;0xc90acacaa1be5;0x8142992326c];[0x0;0x21dad613514c6;0x856fdada7dd4e;0x76d28e0b3148b;0xffc69fb939fe4;0x733df78d913e1;0x3454f2bc59f;0x249a87d140baf;0x3dcb9ef5f0688;0x60b2ad9b6328f;0x47a30b19ad0];[0x0;0xd3dddb20c0ba7;0xa45088a30f8d5;0x16cf736617e86;0x8664e1cfaeedc;0x3b25154e50238;0x3fb51b9ef6177;0x7cf235f23fa76;0x95d411c6687b7;0x214feb198bd05;0x3c20eddc329];[0x0;0x232cdb0e1daf2;0xe212764238a3f;0x633f49e666c61;0x89a1c6cc44a21;0xfbd6df14b4084;0xa02c28a14b5ca;0x7cf791e833b26;0x58e64e4c8ff65;0x15f29d2dc1890;0x17155f5d770];[0x0;0x232cdb0e1daf2;0xe212764238a3f;0x633f49e666c61;0x89a1c6cc44a21;0xfbd6df14b4084;0xa02c28a14b5ca;0x7cf791e833b26;0x58e64e4c8ff65;0x15f29d2dc1890;0x17155f5d770];[0x0;0x31da4ff5b5a44;0xc46dd4ebc16e;0x74d1ecb8dbbc9;0x5fd5c62211314;0x430d1b696d775;0xb64812b5e7985;0x8dbda55d6399f;0xcdd916d6d5558;0xf1633492d8712;0x2eb8ddc9d3c];[0x0;0x31dcaee0414af;0xa26250fed45b;0x18f4928e4372b;0x7cfccd4ebfbed;0x54fa78c93fcc1;0x24f0414c0a7e5;0xff547d50351b2;0x3e0ed470d7385;0x779a94e04d77c;0xb6793fee18];[0x0;0x3070828d40fd0;0x20f7094554cac;0x8c5366fe3d0d4;0xfa8c8bf29aae4;0x163516b9766d0;0x2f98b9a9540b5;0x7567ffe4c395b;0x46e2713056a7f;0xc663f2fe97769;0x12da3fb9447];[0x0;0x3b5798c5c65bc;0xd37bd78f56626;0x6e6046f8a7413;0x62bf14e0614b6;0xb51a674434677;0xbb0dc9998584;0x1cc73bc1100a2;0xfd1e32782a9be;0xf850859fe781;0x7695d8b154d8f];[0x0;0xd6290f60f72cb;0x25aaa834e5acf;0xdee0f655dd972;0xddf49b3aa1c62;0x9a2616fe15347;0xa8ca97d93cd96;0xe2cf1747418db;0x2404ddb8d5d84;0xf778db622b2b9;0xf89d75bc67]]);
 ((V [0xcb981aa0b5887;0x10efdd6e91872;0x82b5331e48950;0x57bd00cf934fb;0x77085856e8335;0x3ad3056a40d46;0xb1eadd31114b1;0xcbdc4cc7976;0x2441ca1ead278;0xb33059cab00] [0xf0352955a8274;0x6e568269923fa;0xd8196e0a1d1a4;0x1497485896a20;0x7fc0cbc8d8cef;0xddcb88ce16afa;0xe4aa233d027fa;0xd6ea0254a5dcc;0x116695cfc15f6;0x67592bcfbad] [0x247eca645eab8;0x4899bed17d136;0xf85310eb52565;0x555fccd857b05;0x3bebc2d7d3030;0x6247d677464c2;0xc30ccc85d5caf;0x3a0785f40b039;0x97a272e97247a;0xa704bb6ef7b]),[[0xbd7925fc54249;0xf2f2d4af23fec;0x847f592675d30;0x2800b849818d6;0x93a12703b8d2f;0xd3bb125e8e6fd;0x1fd952bfff450;0x1819f8ab37fb1;0x84dc1165acfe7;0x4e01834fda0];[0xb2f33012f3819;0xe93cdae20dcd0;0xc4591817d1766;0x48e5e0727bd4a;0xe2a37576f84bb;0x1755d36ca8e3a;0xc02ab09d5c4a;0xcec85720b416d;0x91d68734e6487;0x6d3facd9100];[0x1ace3b6029157;0xa9e283976484;0x9e2b7f962f990;0x693d0b2672573;0xb1db7254ee5da;0x7c124d52e9bc0;0xe08b8e2032549;0x3f8ef7b9696f9;0x8860666b78f51;0x10642d446f9];[0x1ace3b6029157;0xa9e283976484;0x9e2b7f962f990;0x693d0b2672573;0xb1db7254ee5da;0x7c124d52e9bc0;0xe08b8e2032549;0x3f8ef7b9696f9;0x8860666b78f51;0x10642d446f9];[0xace3db83e2a10;0x4c9153676da42;0xea6813c9c355a;0xa1649d6f9d778;0xf6fdbc9573930;0x4907c7ab867d0;0x46b38e6368f84;0x1b7f07f754929;0xb58b71c3ad9d;0x426e382a5bf];[0x60f548f10e0a;0x9cab877aa028e;0xd9f1044e0e20c;0xa7814302de5d1;0xeba5b8e184b8a;0xce4e0bc122669;0xc54f1ca66ccc5;0xb3494f295f843;0x867dd018ab6ea;0x2ad174aeb41];[0x0;0x2cfa9516020e1;0xc4bf11ce9883d;0x883dbdc2efd84;0x886e1700097a3;0x84e40b2c304b1;0x47069b9d8f11e;0x9e34e2586c84e;0x2b99bb202fc01;0x19ee97abb8e14;0xa22e8d7905];[0x0;0x7d31a02d7129a;0x635257cf64d79;0xfced66afb5c4e;0xebc8e4dc33d2b;0x397ffebc7b4b6;0x5d09207fa636d;0xa9bebb4e50c99;0x2fd3ae3617774;0xebc5025b67866;0x4fe9e97674];[0x0;0xd6290f60f72cb;0x25aaa834e5acf;0xdee0f655dd972;0xddf49b3aa1c62;0x9a2616fe15347;0xa8ca97d93cd96;0xe2cf1747418db;0x2404ddb8d5d84;0xf778db622b2b9;0xf89d75bc67];[0x0;0xd6290f60f72cb;0x25aaa834e5acf;0xdee0f655dd972;0xddf49b3aa1c62;0x9a2616fe15347;0xa8ca97d93cd96;0xe2cf1747418db;0x2404ddb8d5d84;0xf778db622b2b9;0xf89d75bc67];[0x0;0xab9c59a5dd1ff;0xe48f3099b75f6;0xeada3e1c45896;0xa5b1873ee163;0x61f9210553a6f;0x3f93dfbef498a;0xa58c8d7203f3;0x3d47b905b6d13;0xe11bc0eb22491;0x36be61faeae];[0x0;0x7db9316a4154a;0x89420c29fc218;0xdb0cd68c79fa8;0xbc7a7e8573807;0x50fdacdba5335;0x91b12561ed393;0x8396064c8dfaf;0xd0df900c7f6e8;0x71aadc34a6654;0x46911f42a9];[0x0;0xd594a469624b8;0x74c57c9f85c87;0x32d8da4065f9a;0xcc64fb212f8b1;0x6ecd099d26065;0x4bba311069241;0xb69802a6c25dc;0x36399e8cb80f1;0xbf98515522983;0x4c78281dd15];[0x0;0xe7cfc9a37ab89;0x3e23c336bb4dd;0xeb919fb048d85;0xfcd69849c2eac;0x828e752cf4b1c;0x480e83df3bb17;0xe6c8311777e45;0xc8678eceb9099;0xe8a6e578a5fe3;0x67946a4f29c6b];[0x0;0xb01d30982cbec;0x3c46d227c92d7;0xb31e81887d246;0x41c7d23a9081c;0xdfbd62500aa40;0x1ffb0a1bad711;0xd6df7ccb00999;0x971a09c4c4fed;0x93c0c605d1180;0x4856de9a4a3]]);
 ((V [0xc1496a9b7b33c;0x2efbf8f29b5a2;0x4d9db4e215517;0x2f4ce151433c5;0x31e05f2ebf1f4;0xff68e0c33ea87;0x8b7827d3f6852;0xfcb3784ce65da;0xf424416897a2d;0xcb2371ba77c] [0x5cf79c3282a1e;0x84b675dde3665;0xa0f11c931498b;0x2a771d3772467;0xd293511e5edf6;0x7a7359ffb72c8;0x3be24e146cba6;0x8d1b428abb05a;0x1d84a7fc81b6b;0x1f4db8b275e] [0xafde8244d6259;0x2520ce03e26b9;0x71ce939d7b04;0xaf3eff65163ba;0x43e701290bdfc;0x954596040b7d4;0x924dc5caca5f;0xdce4f745642be;0x1bcf0c1e5966b;0x892e3ba7ffd]),[[0x68eb401397695;0x84957744dceac;0x594116f7e9546;0xd8388b35f01c9;0x2ccb9ab286070;0x39b4cbd6b45a5;0x10f076dc20ca9;0x20d46b1d6a49e;0xc7900eac26981;0xc338a6e75d0];[0x96984c9549408;0x213dcc16519f2;0xdd67cfec8a188;0x3d0428cb8cd64;0x3fbbf5c8da7e2;0x143514b6fe664;0xe93395319e299;0xb5ebc7a4ab0b4;0xe441b67206e2b;0x90f424934cc];[0x247eca645eab8;0x4899bed17d136;0xf85310eb52565;0x555fccd857b05;0x3bebc2d7d3030;0x6247d677464c2;0xc30ccc85d5caf;0x3a0785f40b039;0x97a272e97247a;0xa704bb6ef7b];[0x247eca645eab8;0x4899bed17d136;0xf85310eb52565;0x555fccd857b05;0x3bebc2d7d3030;0x6247d677464c2;0xc30ccc85d5caf;0x3a0785f40b039;0x97a272e97247a;0xa704bb6ef7b];[0x27e42861cb6cc;0x2db65692312cd;0x6cec36def3a81;0xe3fb7f39f7711;0x7b5ac33b64914;0x8321104cb8b49;0xc2b1fd6e28569;0x5f15476a6ab75;0x71fb368061ab6;0x5fa9c350037];[0x6eb424337dd3d;0xf387758420725;0x707b990d96706;0x5908a99195653;0xc461328d75ecd;0x9114046a45b1a;0x268197c375d2f;0x56d6803a4053f;0x72467ff1a5375;0x314a6143495];[0x0;0x9b7f241769bd;0x95b1caa68151e;0x510364d2b0578;0xb84c04cc901b5;0x8c9f2b54fb772;0x39b14b1dc566f;0x27cafb63fd6d1;0x7a87eba73b119;0x9aabf13cc7114;0x6748b32c63c];[0x0;0x3dfa3e4ea9e70;0xcbaf6de64c0eb;0xb4ca05b65afe0;0x38b67c445c9f3;0xedff7f00086e1;0xac252f1a768da;0x10ff228eb7e9b;0x69ae9cec8866b;0xc69a44d948e51;0x7f5d90b28a7];[0x0;0xb01d30982cbec;0x3c46d227c92d7;0xb31e81887d246;0x41c7d23a9081c;0xdfbd62500aa40;0x1ffb0a1bad711;0xd6df7ccb00999;0x971a09c4c4fed;0x93c0c605d1180;0x4856de9a4a3];[0x0;0xb01d30982cbec;0x3c46d227c92d7;0xb31e81887d246;0x41c7d23a9081c;0xdfbd62500aa40;0x1ffb0a1bad711;0xd6df7ccb00999;0x971a09c4c4fed;0x93c0c605d1180;0x4856de9a4a3];[0x0;0xe23ddd916141c;0x403d206acaba;0xdff499a86c8e1;0xf6b6ed3e8bb46;0x8a70df06a6197;0xf0d5ca4de94c3;0x50fe4b7089b7b;0xaabc98d73138c;0x396bc4213a3eb;0x29b8e050a64];[0x0;0xe36fa286866c;0xf2d231161b36a;0xd1dd5844f3455;0x20184b3e21c4a;0x5923a97c9c76d;0xd32353f34470;0x56d34b60022e4;0xc3d9abdd95cf;0x3baf5651d9dd4;0x7d6ca6b33da];[0x0;0xceba87d2b8af4;0x3a10190a24529;0xca70ae84341b4;0xe6ebfb76a030;0x2b417557dfdc8;0x4d9b6f9be55e4;0xcd4f93cb17d87;0xf9bb337870695;0x980116f4ce593;0x7305aac7276];[0x0;0xc9fb9efe82e86;0x5070e4033b131;0xf0b0ba4b529a5;0xfce7827ccb9b0;0x6b75c97a2f23b;0x714155b2ddae8;0x2f0b0b9e70128;0x4b2b2f11ae5b1;0x44b1d2c6f797e;0x1f5b4cd8b6fa5];[0x0;0x2406b7275dfd9;0x5e0787bcc8c71;0xfcfe4ffde4e89;0xc29c44e3e903;0x522aeb033806;0xffb672950412d;0x43063d2eb4a1a;0x1ab2c411837f0;0x5a4e3a6310afe;0x18d6f6fddf8]]);
 ((V [0x3171c9955bd99;0x8910894846686;0xa4d58e2d3aeff;0x32a467c0a459c;0xbd0e9615d4730;0x66d5a02d0605d;0x619b152880346;0x6abd7f640afbf;0x41e29ff27d345;0x54537fd4596] [0xbcb8e9adb1601;0xc7a7dc300ecba;0xdeccc1fa5ff1f;0xea77371a3139;0xaeb25ce7f2168;0x57493de2d550d;0xad5d751e37690;0xda4c06d45c9dd;0xcf66eb228fb8;0xdefcba3003f] [0xa261b373f6e85;0xcde0bb6b2e0b0;0xb47e51b971a60;0xfb0a6651d7f81;0xc06da1a4a237a;0x2ad3f344bc573;0x86afc8dd31d93;0x75b95381fac8;0xe76b965d8c647;0x51e67a0bf54]),[[0xa321b53e1cab5;0xc58104a370987;0xa5ea6c114a286;0x9c545dd5b3499;0x5fd001064c4c0;0xa1d5712e3adc3;0xb5fb466ce68cc;0x9850b829b2a3c;0x1f26bb9a712a2;0xe7cae3691eb];[0x95c369d72261a;0xda474aec920d7;0x1b57779cf9cf9;0x27c09e7ebe702;0xa9a1d3be06bc3;0x2d6a21a228c6c;0x35471659d03b7;0xc4150394a5647;0x83f65fc8e55ff;0xf75ac08a9db];[0xafde8244d6259;0x2520ce03e26b9;0x71ce939d7b04;0xaf3eff65163ba;0x43e701290bdfc;0x954596040b7d4;0x924dc5caca5f;0xdce4f745642be;0x1bcf0c1e5966b;0x892e3ba7ffd];[0xafde8244d6259;0x2520ce03e26b9;0x71ce939d7b04;0xaf3eff65163ba;0x43e701290bdfc;0x954596040b7d4;0x924dc5caca5f;0xdce4f745642be;0x1bcf0c1e5966b;0x892e3ba7ffd];[0xf9028f9bcb7c2;0x29ceb8951cdf4;0xb3526f37310d4;0x125155c4821a0;0x5cf03143e73e8;0xd40bf104fb068;0xd98817dcaf435;0xa2030218f7a65;0x515e9eec44eb7;0xd54ca1903f4];[0x9cc0da3b56e59;0xb0789257752e2;0x68050865c8c25;0x156f48ba3c561;0x4cb1a27a1f7db;0x595e309d2dc04;0x5bbefe7d20f81;0x2212017badbe1;0x3297c0dca0748;0x220e1efa5e7];[0x0;0xcbde8cb906d0d;0x356ca1e483e82;0x10b3af719dd92;0x92fc37c92c425;0x270de329d9f7a;0x9b48eb83caed1;0x671ef0540400e;0xf57f4ca11a2e8;0xc81d77c6feb75;0x54d51036ea7];[0x0;0x61c4e5a3fd895;0x2e5066e3f05d6;0x9c94c4acb1687;0xe161191c9a35f;0x64bd4ab4eac9a;0x7b5e2eecc807f;0x1977380414b55;0xdef87e67e9859;0x5529799d54807;0x7c35702bfdb];[0x0;0x2406b7275dfd9;0x5e0787bcc8c71;0xfcfe4ffde4e89;0xc29c44e3e903;0x522aeb033806;0xffb672950412d;0x43063d2eb4a1a;0x1ab2c411837f0;0x5a4e3a6310afe;0x18d6f6fddf8];[0x0;0x2406b7275dfd9;0x5e0787bcc8c71;0xfcfe4ffde4e89;0xc29c44e3e903;0x522aeb033806;0xffb672950412d;0x43063d2eb4a1a;0x1ab2c411837f0;0x5a4e3a6310afe;0x18d6f6fddf8];[0x0;0x8e6d075ea262e;0xabb4c009281cc;0x2a8e4a61ac47a;0x614845d570694;0x7e98f840da327;0x5305e0bf8cbf3;0x979a863a70cee;0xe70f8d0b5a164;0x8a21af3076b3f;0x3d3ea53d92];[0x0;0x233d4ff0e691;0xa4610c401964f;0xe35961fc24f0c;0x129f4f3dd9322;0x1ae9dd2912f8a;0x11c9cfe21ee01;0x7ef5509d880f4;0xfd314d6bb4b04;0x59b5b641aef99;0xa1313b46058];[0x0;0x1e44fc5910007;0x4ed5b92fef5a5;0x7bf368d3f58e8;0xc14498e054884;0x26dd1acd5e3ca;0x403062d3379d6;0xbe85f70e7260a;0xeae430e33ad70;0xd181ba6954e8f;0x517a751d1bb];[0x0;0x8cb999e28ef92;0x1deb100d6fad7;0x71a693814a446;0x35f17f8f0e861;0x74601dbefc5da;0xce86b5f14b63f;0x7d88ea12a345a;0x5a32dac75602a;0xf9fa7ced6bb5c;0xdf044205ffe2c];[0x0;0xd6ed6daa9f24c;0xafe6d1c59b240;0xdb2bc4f1f58e9;0x4341f193edcc6;0xa34dc1ab9392f;0x60321c67a8b40;0x3d2c85c4e8c92;0xba1885e1048cb;0x15e925c81858d;0x4973a860766]]);
 ((V [0x96a04557afb85;0x3f93f655596df;0x50860731742b5;0x182823f46cfd1;0xd467278bd9106;0xb26ba19b6c872;0xc61a7bf2ff491;0x8f2fa8db118bd;0x8d6cd59e2ba8c;0xa159e462330] [0xa92d258024849;0xcf2cf98152689;0xa40e5e0448bb7;0xbb8633a0a3e35;0xd4fecc16c8f14;0xd338f22524528;0xbedab942ffd8b;0x364f4ba44b26c;0x12a4eb5cc4c88;0x684fc0d4d9b] [0x2bb8b1e6a109;0x9f570ebfad8d4;0x90467c2d6ed3f;0x8577fdb1941c8;0x4a667073b2234;0x99a93a3a0b5c7;0x1e6e0a9accb24;0xf67db7a4b9427;0x7883221315a16;0xa0a1c5870f7]),[[0xfea1c6ccaf480;0x29eae3f8f2cf8;0x158a0a031a84e;0xcaa83c84f7478;0x80a4f849986c4;0x6e7723a26c2c5;0xbea174d9df27a;0x8461c457cc3ae;0x7082e3fcb339;0xaf14c3253ca];[0x4d4eeb696cd7e;0xae8b5f1802a47;0x8a1e10122e8b0;0xf8e1319192ec8;0x102a22d685ad5;0x3488ff09acf5b;0x907370a5fb9b0;0x12c09988d7072;0xd3db552aeeba0;0x24fc16487f8];[0xa261b373f6e85;0xcde0bb6b2e0b0;0xb47e51b971a60;0xfb0a6651d7f81;0xc06da1a4a237a;0x2ad3f344bc573;0x86afc8dd31d93;0x75b95381fac8;0xe76b965d8c647;0x51e67a0bf54];[0xa261b373f6e85;0xcde0bb6b2e0b0;0xb47e51b971a60;0xfb0a6651d7f81;0xc06da1a4a237a;0x2ad3f344bc573;0x86afc8dd31d93;0x75b95381fac8;0xe76b965d8c647;0x51e67a0bf54];[0xec5262ca9901e;0x2e7942beb1ac3;0x71769c1a362ed;0x954a0fbca2494;0x82d1243d22617;0x4733ad0537fa0;0xd1e8689f5726f;0xd10134ff22377;0x46abdee89c380;0x509fb2ec650];[0x60fc889ed3b28;0x80121c5950f83;0x18a773f7f85c3;0x639721d4f0a34;0x8d58fe99634be;0xed55520474fba;0xbe8b0806a4740;0x41bf6489b4cfa;0x8d2f76425281f;0xd45c635c1a8];[0x0;0x6f55946ff170;0xf62b0b705d420;0xbad4b528561ae;0x555aeb0ca5564;0x2c0e2ea63995d;0x8e602b22646cd;0xc49b1f9b16333;0x2129dce1454c8;0x2487731901fe1;0x32a5a3608ff];[0x0;0x3fa12a54266ee;0x9e7f1090c51b;0xc2cd93be17559;0x232c5954f0f4d;0x72366d6800dc7;0x37a2ce884709a;0x6f1162a8d8067;0xbcc48176ae4ca;0xbe5850638a68b;0x380331de2e4];[0x0;0xd6ed6daa9f24c;0xafe6d1c59b240;0xdb2bc4f1f58e9;0x4341f193edcc6;0xa34dc1ab9392f;0x60321c67a8b40;0x3d2c85c4e8c92;0xba1885e1048cb;0x15e925c81858d;0x4973a860766];[0x0;0xd6ed6daa9f24c;0xafe6d1c59b240;0xdb2bc4f1f58e9;0x4341f193edcc6;0xa34dc1ab9392f;0x60321c67a8b40;0x3d2c85c4e8c92;0xba1885e1048cb;0x15e925c81858d;0x4973a860766];[0x0;0x994399ef62105;0x458c283528ee0;0x9a018a9cb900a;0x7d6937482708e;0xd06e55ca1fc05;0x340b37babb1e8;0xc1c622e9100c4;0xe6db6ddc04ce4;0x7388a3a2db8f7;0xc23b4c6a5cc];[0x0;0x42bdd57d2f76f;0xa029d7ae94b7;0xb9e7755709f81;0x9213b3246fe9d;0xc5b195fab4e19;0xbcc9d6944f7a3;0xe70a905ce25d4;0x726b440f715e2;0xb8ca1a3fb51;0x1bc6e71f7e3];[0x0;0x56603306ab187;0x4f87f12b339b4;0x5f10e4503a66d;0xcb8c5f3c83dab;0xc5af7cc82898c;0x97799fe6281bc;0xd8b9f52126a8f;0xa12b19cf65528;0x4c49da538d5ae;0x174f86a60b2];[0x0;0x16d1f2b5c56bb;0x9ecbd67fee3;0xc8eeabcf51cf5;0xe48834a392ee0;0x92475e4c1e43c;0x6f472d6bcdd52;0xa49cc1b82ed57;0x2f103d092dbb1;0xea05da754d033;0x68a8fea6fa65b];[0x0;0x52be97825d0fc;0xc3f82d2d8e869;0xaa4aa28d214ff;0x6b23b6b1502e7;0x2cb465adcea5b;0x6de092eb3a30d;0x7b2baf2217007;0xb27244204fac2;0x8faff1ae78a0c;0x41bec90ef1f]]);
 ((V [0x2807094886457;0xfb48f9edb5c29;0x4fa6baf440284;0x2d3419be4bcee;0x151adb8fc9aa7;0x2ca7477d32007;0x2f0f129133dc7;0x6d7a0cc8dfabb;0xa3a76ebe1371;0x2b46b05f1c2] [0xcef48c8ab9045;0x99057d5f343c6;0xb4c89efed1560;0xa16f1a4730a47;0x9756e30ec515c;0x70d1c31d29a22;0xebcd009bcede8;0xbaa3c848db1f4;0xef02307a3f6b6;0x32230473efb] [0xec904a6c1dfc4;0xd6f83cd46ecc6;0x995c3380238d2;0x97b7cb8491dda;0x8bc92342319b8;0x7e2d0add61477;0x4f8906294a237;0xf7476e7ae35e2;0x75dc0b08a304c;0x51027baa529]),[[0xa793513767f01;0x4ebf9f8be34ff;0x3b9d27e095d2;0xcaf9c8d5ce9d8;0x61e834c73df3b;0xf8559339ffcc0;0xabfe6f2241daa;0x98b281ca88d46;0x95dcae480efb9;0x6d1ed42635e];[0xb7ff6347f9318;0xa3be9fbbec188;0x503a06227fc88;0xeaa638c4aff3a;0xde3c6913dcf02;0xe9f0543d255b5;0x14ab037f736be;0xd26d27d25db2f;0xf318f4deab6e;0x94fdbac336a];[0x2bb8b1e6a109;0x9f570ebfad8d4;0x90467c2d6ed3f;0x8577fdb1941c8;0x4a667073b2234;0x99a93a3a0b5c7;0x1e6e0a9accb24;0xf67db7a4b9427;0x7883221315a16;0xa0a1c5870f7];[0x2bb8b1e6a109;0x9f570ebfad8d4;0x90467c2d6ed3f;0x8577fdb1941c8;0x4a667073b2234;0x99a93a3a0b5c7;0x1e6e0a9accb24;0xf67db7a4b9427;0x7883221315a16;0xa0a1c5870f7];[0x5f2d3181c1a44;0xa68f6501bcf89;0xcd6c98a7f6a96;0xd35f19d3eb897;0xc0810dd3c7ed6;0xe26844fcc5f89;0x1ff051eb62773;0xaa6e0f7e117c0;0x29e1784feb877;0xbf9695ea355];[0x58d231c63769c;0xfd2f3aba2f1ff;0x82cd6d7a891f1;0x17471ef0c46a2;0x1dbb5b401502c;0x7880f405f62c;0xf4bab19410f4b;0x27ff18544c36e;0xe55016fdff2f7;0xd56724d9014];[0x0;0x4ad25d83714b9;0x9919250ad36a7;0x5da5ca4a48032;0x3753604a3f882;0x76812461efe51;0x71404810b31ba;0x753564461bdb6;0x88c7da8e9294c;0x30c0cbe688891;0x6355a487ee6];[0x0;0x21afdb074c787;0xceb69cae9ad37;0x89c5df5ba44b;0x485b7c2cf5d5e;0xdc13d23ba2462;0x1da640dcbdb63;0xe9dc5d98ae5a3;0xa24cfef3e0d11;0x4cbd668735d7a;0x4478392d98d];[0x0;0x52be97825d0fc;0xc3f82d2d8e869;0xaa4aa28d214ff;0x6b23b6b1502e7;0x2cb465adcea5b;0x6de092eb3a30d;0x7b2baf2217007;0xb27244204fac2;0x8faff1ae78a0c;0x41bec90ef1f];[0x0;0x52be97825d0fc;0xc3f82d2d8e869;0xaa4aa28d214ff;0x6b23b6b1502e7;0x2cb465adcea5b;0x6de092eb3a30d;0x7b2baf2217007;0xb27244204fac2;0x8faff1ae78a0c;0x41bec90ef1f];[0x0;0xb34ca3a1c50b;0xf95b76755528c;0x866bebead1a83;0xc53a5a772e92c;0x6136f40d63151;0x668f90bfc1112;0x4728cbe19ab3c;0x6d66af9224650;0xe453b164c29aa;0x2a80e585857];[0x0;0xdbf8184c4639b;0x353505d452860;0x9a98b2bce8c7a;0xaad58b62085b0;0xaa29e10b4eb44;0x127ce9d395bee;0xb31b85ce5b33;0x22989fb1480ec;0x7aae681667183;0x65b230d41c3];[0x0;0x1e5897421292b;0x9667d7b37992;0x74e4fa7cf38a6;0xee16396dace34;0xef3e4043e32af;0x80c2a7b3990b9;0xdedb175890254;0x4c0d01e8db2d;0xb3c3b4912f002;0x192fc265a67];[0x0;0x31df3d6d0d7f7;0xd4fe7220e6b4a;0x9992dc77bdd12;0x66c8612d342d;0xfefe4224bcc2;0x20e99557bc92f;0x7db411828986c;0x4e28c2dbf072d;0x537b3622765eb;0x3237f988a194e];[0x0;0xb7542357f12d9;0xed2fdd4fe46f4;0xe0b8f7c89b94;0x4648a87b80396;0xa33a319c0cdf9;0x15eae7ae228ba;0xffc6613bbc769;0x77bceeb2d0976;0x9354f1be4aca6;0x879b9dd648]]);
 ((V [0xf11dded19245d;0x36537804dba56;0xeb8eb479d47f9;0x896ae947a76ce;0x4f41aba6ee1d9;0xcebd84e8874af;0xd07798ba6c7e5;0xd4477970415fd;0xf52c6d832a735;0x6182622400b] [0x6f70d16e6a660;0x8e02772d41fad;0x1bc0a748c74e;0x94a7298a1244a;0x7b38d1997abcd;0x76dcde8bf3bcf;0x9efab5d6e713d;0x7c22442eb5631;0x38954a38e7eef;0x19709332947] [0x972d96f7ff73e;0xd3a4e94b19ca8;0x58e7aa1d7f284;0xf67a786140ceb;0xd07bc59dd5f16;0x954389786b51b;0x74bc2d90d9f3;0x7b7f7e71deb28;0xd4ada25f5488f;0xc9f0573e7a2]),[[0xf5707a9f941b0;0x221a9a2c9a7f6;0xa7a347fc43d5c;0x8b2d917afe536;0x406fe564ff79c;0x8d862e67e14f6;0x2250729a3c985;0xa4225d85a6700;0xd478eb81d983e;0xf901d8657d5];[0x177224e6fd691;0xa79d076c4cc85;0x54095ec26715;0x875408479df87;0x76ac5b0d34fde;0xb2249838d93db;0x5e543d27a5a19;0x89ba7f6ce8f0f;0xae4a4fd879345;0x6a8bf6e59a0];[0xec904a6c1dfc4;0xd6f83cd46ecc6;0x995c3380238d2;0x97b7cb8491dda;0x8bc92342319b8;0x7e2d0add61477;0x4f8906294a237;0xf7476e7ae35e2;0x75dc0b08a304c;0x51027baa529];[0xec904a6c1dfc4;0xd6f83cd46ecc6;0x995c3380238d2;0x97b7cb8491dda;0x8bc92342319b8;0x7e2d0add61477;0x4f8906294a237;0xf7476e7ae35e2;0x75dc0b08a304c;0x51027baa529];[0x15a26aba9747a;0xd3b2df75d2c89;0x714efe2522813;0x27a286ea0f435;0xe1956243701a0;0xd6cd593b787bf;0x1960af86bbe43;0x85aced7f30404;0xee40482e82a73;0x9ac98868460];[0x1cfba2c65fdf;0xd3ea27f679ffc;0x93f197c703f01;0x5fb1815d8eb51;0x9516f8c9c4e3e;0xdb573efd60c1b;0x44f38da0e9bd5;0x40d91edb8b0b;0xc00a07a9f68d2;0xcfc26e7d53f];[0x0;0x44e35b4ce03f0;0x7af474ea4b2a2;0x2be68f882faf3;0x8750431a9f029;0xd866511614d15;0x6c9328277ffe7;0xec39c75dddf84;0xf81451079c22e;0xa273bc49e3adf;0x3218a5b17d4];[0x0;0x62df7e03c2659;0x639310dad70cf;0xa8445ad874529;0xd84e417744940;0xd3173a037901b;0x462bb8155c29c;0x249d550dbb536;0xf5e13057e43c2;0xdc798076d90fc;0x4ecbffc55bf];[0x0;0xb7542357f12d9;0xed2fdd4fe46f4;0xe0b8f7c89b94;0x4648a87b80396;0xa33a319c0cdf9;0x15eae7ae228ba;0xffc6613bbc769;0x77bceeb2d0976;0x9354f1be4aca6;0x879b9dd648];[0x0;0xb7542357f12d9;0xed2fdd4fe46f4;0xe0b8f7c89b94;0x4648a87b80396;0xa33a319c0cdf9;0x15eae7ae228ba;0xffc6613bbc769;0x77bceeb2d0976;0x9354f1be4aca6;0x879b9dd648];[0x0;0xb4b843f599ce9;0x900a10e891c89;0x57e292402df65;0x262aff67a17ac;0xe79775ba9a813;0xb4d6e9842f35;0xd20afc0bd8390;0x9169922ff44da;0xdf80296230db5;0x9d1b287816];[0x0;0x91fa44bb5c4be;0x91a7bd8b0ebd6;0xe8024aa57fe71;0x298761df68fce;0xe32478858ced;0x5c8a84db02e75;0x730a0d92afc33;0x3b512c0ef01d7;0x942d6831b40fa;0x750d2c4e0f];[0x0;0x766bb95cdd06e;0x1a5b5f977b20;0x9d4725840d891;0xbacf0b5812ee9;0xd9e57ef8ad608;0x3aad86fae1985;0xc99e2cea84c78;0x90e89c5a7c6cb;0x8984d41880a34;0x28954c78f07];[0x0;0x299feb44448d2;0x66525bb2fe7e6;0x8376e6263b263;0xd7b54d1fa92f5;0x1d20712290101;0xdfffc78af74c9;0x78686173e8162;0xda90bff8f15a0;0x957ceee5e1164;0x197f6d402b2b9];[0x0;0x5bc1a4bd6214e;0x7e9ebad422a03;0x5ffb00a52b85a;0x51c4830a9b7f7;0x6d12d972471bd;0x5b5b0e60f7d0d;0x80b16952a1267;0x40562e8a293db;0x3cdd8e3696a5;0x9b09cb1963]]);
 ((V [0x17e47364f8a19;0xe928bb5a22db0;0x56df349c013f9;0x53859e4080f5a;0x2de61eb647a56;0xf8b4750a5cc4c;0xe7cda650172c0;0x7fd65b44d3c47;0x18f30c181464d;0xa253757f7e8] [0xf523b7b2ad948;0x4d68ad23c20f0;0x8915e6a104d4c;0x3e7bcf729f028;0x4ddc401bc81a5;0xd92047dbfb4e3;0x73058bae1a23a;0xf50aa7ffab4f5;0xfa0f1828074c6;0x83362f1a9e3] [0xccaaabff10acd;0x7e2fcf11ac80b;0xa26cb6590eaa9;0x6701d1d10216;0xebc76ffa2f292;0xa9eb26d59049e;0xaec53ed14e792;0xd7e51c1a78935;0x226267e04dc45;0x8581f958b3d]),[[0x1cc01b18c9abb;0xb26cdf2af7d23;0x3ecdf23f92a7;0xbd58af63bf09d;0xb5ffd95cf98bd;0x97121d0669a23;0x9555f65b8a705;0xd8ced88194eb2;0xb647ec1963ee8;0x9ac763ec45d];[0x8c146c5953901;0x1897b5b11d8e6;0xf945fe427a93f;0x362bd6b2746be;0x95e088e2e80c6;0x5506831cf2fa9;0xe1db9ba27ed51;0xc8e760d0238a5;0x648b1a1020f0;0xa30d216761e];[0x972d96f7ff73e;0xd3a4e94b19ca8;0x58e7aa1d7f284;0xf67a786140ceb;0xd07bc59dd5f16;0x954389786b51b;0x74bc2d90d9f3;0x7b7f7e71deb28;0xd4ada25f5488f;0xc9f0573e7a2];[0x972d96f7ff73e;0xd3a4e94b19ca8;0x58e7aa1d7f284;0xf67a786140ceb;0xd07bc59dd5f16;0x954389786b51b;0x74bc2d90d9f3;0x7b7f7e71deb28;0xd4ada25f5488f;0xc9f0573e7a2];[0xbc844d9b0f24a;0x3221ea21e8bf6;0x2238ef3d82964;0x7548fb6970032;0x82b31c4e53a9d;0xc0a41fee33ee2;0x1a0bacb0b73b3;0x8b8753d1dfd7d;0x5dfe1994c0b95;0xe9e020d4dfa];[0xcf901ebe4447f;0xe675cb8f34cef;0xd70d0f04f7fda;0xc0e2db490468c;0x132d6c9494628;0x9462632ebf0c7;0xc7cfeef1c799d;0x3d600cfe43b28;0xa84a980c4155b;0xb92d0092823];[0x0;0x7bdcec6081033;0xbd87b29ca479a;0x46ad228f2c2db;0xf0cd6933dbf8;0xdebf752aab8e0;0xf368d305e0534;0x2888a3c8f012;0x446cbd60ad3b3;0xe0b22b58458ed;0x7ce0f0ce3bf];[0x0;0x959303b823c6f;0x6116ff75c5f9c;0xd948467fedb52;0x65f771d310c80;0x11ce2716b0176;0xf7fbb52b127d1;0xa4a775a9ad984;0x541198c4202e5;0x8a678e89135b9;0x7a17dd21b97];[0x0;0x5bc1a4bd6214e;0x7e9ebad422a03;0x5ffb00a52b85a;0x51c4830a9b7f7;0x6d12d972471bd;0x5b5b0e60f7d0d;0x80b16952a1267;0x40562e8a293db;0x3cdd8e3696a5;0x9b09cb1963];[0x0;0x5bc1a4bd6214e;0x7e9ebad422a03;0x5ffb00a52b85a;0x51c4830a9b7f7;0x6d12d972471bd;0x5b5b0e60f7d0d;0x80b16952a1267;0x40562e8a293db;0x3cdd8e3696a5;0x9b09cb1963];[0x0;0x6ac65bb26b89a;0x374f803bc64a1;0x303ff3934d4f4;0xa122ad8e33ba;0xdb2dad9d387ca;0xc7a5ad8170bae;0x2f19b87d2a262;0xea0f553dd48be;0x39665b4ef954d;0x2872e4101e];[0x0;0x9d1555227d866;0x2bb96222baf43;0x8503066dae6ed;0x833b0eaee29e8;0xf570597177379;0x6896de11d7787;0xe95e037491409;0xd34898d1ef028;0x154ad72fa0a98;0x252410c71ac];[0x0;0x65ab6f4ce8b9a;0x1a475e51835b1;0x4ea4b3ed3cc72;0xa24f31152107d;0x424a9df8fcac3;0xc7e12baea999a;0x6514d988c9f3a;0xe6ce6af191975;0xf88a7d6801f2f;0x6763773b74c];[0x0;0x7482928a4c86a;0x1761004356801;0xfcc1ccfbb36a6;0xf85504ec1549c;0x6dcfc488ff54c;0x5f7b7119b80ba;0x3b03693c821f6;0x60417164e4acd;0xa18d86dd29be2;0x8365d30edb8db];[0x0;0xcc08a520e94ed;0x2873c8eab7ed2;0x74093dace3acc;0xa268865cf70bc;0xff63077244b5e;0xe77a77150513e;0x1db6280f48a9c;0xbcd906f6fa35f;0x52de2b0f5b083;0x533310993a0]]);
 ((V [0x9790cbd6e3e48;0x4778ccd7530dc;0x4298a8111d3d0;0x2966c6d2ba3ec;0xa78b39f96376f;0x60fec0679df75;0x19cfa5dd8c4e4;0x65eb8d8103570;0xde10a21088d3a;0xd7ed01b56f3] [0x4b5dcfe5065c1;0x84c32312dd070;0x19479471460b4;0x5aab3d577eafc;0x36cb9d6d8df64;0xf95762a76071c;0x3e082d3d998b0;0xb10e8fb7a1c1e;0xf8f9792b1b567;0x92e6c96eba7] [0x1f817c344970a;0xd6c758d0c34e2;0xa80c64d9e82a4;0x828b6c40e58c5;0xda51b0a543cab;0xf4e5744d61b61;0x46280e85e6187;0xe99a61d4a7efd;0x3fc3e2fb8e24;0xa4d42fd5914]),[[0xb6a1caa9395a8;0x592b22f0214f8;0x94c582295d529;0xbe1ba7fca8ff5;0x81770e176408a;0xe401eaf2d4bb1;0xc84a7d8d18694;0x8a713b86a0e82;0xbd6e4b1c1f030;0x93b5fbb0008];[0xe37142b4824f6;0xeccf2708fc103;0xa69885da40df9;0xdccd418c82920;0x6fc80d8f75dd2;0x72d65f33b023a;0x1f2bebebe9019;0x28450c1d05d28;0x62b1b166356d4;0x4bb82602bce];[0xccaaabff10acd;0x7e2fcf11ac80b;0xa26cb6590eaa9;0x6701d1d10216;0xebc76ffa2f292;0xa9eb26d59049e;0xaec53ed14e792;0xd7e51c1a78935;0x226267e04dc45;0x8581f958b3d];[0xccaaabff10acd;0x7e2fcf11ac80b;0xa26cb6590eaa9;0x6701d1d10216;0xebc76ffa2f292;0xa9eb26d59049e;0xaec53ed14e792;0xd7e51c1a78935;0x226267e04dc45;0x8581f958b3d];[0x28f6d36e3da78;0x67a9a9d6ffc79;0xe28098cac1541;0x261a29ad1e8a2;0xe50831d945a6a;0x212e076c042f9;0xfc21b26bfd100;0xb88fed8be0eaa;0x555b3f9a25d90;0x67361b8ed7c];[0xba7a6f4644846;0x85257d31fc48a;0xc417ed0f7f8b8;0xb6b317df6407d;0x8abfdbb630368;0x51a857c7abf40;0x230a397febf19;0x6fb51e9124e7d;0xd5671cc0f943;0xe4820a73e52];[0x0;0x6332235d3c958;0x6d31bc69d388c;0x5c0d488ae9f28;0xcf739450f870a;0xd888acd6a4d3;0x2d15a8b280a9;0x842186bd3149f;0x1c632ab8f79da;0xbc386dbc33388;0x528f9bc9ecc];[0x0;0xc4f672a8d50de;0x9a09bc49a5996;0x3769d59b2b66f;0xbea35c9697e6f;0xccd340507cb01;0x1b3005edc8bb9;0x8430ae5580895;0x442797f02f3a7;0x7226c0d85ba04;0x4d088a55741];[0x0;0xcc08a520e94ed;0x2873c8eab7ed2;0x74093dace3acc;0xa268865cf70bc;0xff63077244b5e;0xe77a77150513e;0x1db6280f48a9c;0xbcd906f6fa35f;0x52de2b0f5b083;0x533310993a0];[0x0;0xcc08a520e94ed;0x2873c8eab7ed2;0x74093dace3acc;0xa268865cf70bc;0xff63077244b5e;0xe77a77150513e;0x1db6280f48a9c;0xbcd906f6fa35f;0x52de2b0f5b083;0x533310993a0];[0x0;0x3caf22cff07f8;0xd72c447753888;0xba3aed075668b;0xc1191711ed612;0x176b872f40dcf;0x1c4044ec21905;0x41e35cb145376;0x48d4a128d3ca8;0xaaa6ef54a7f29;0x43407fad25d];[0x0;0x829bf93f81c7d;0xbcbbaf73bd0ac;0x1b548b057974b;0xa94bd73533e6f;0x5ebd19335e3c8;0x5b4bf0b00bfb4;0x65b0478ec9a3;0x72488f35c3fc7;0x5ca5dbe778493;0x66edbbeac2b];[0x0;0xc8f767780e732;0x12a7199b6dd4d;0x4fdbe3f852e8c;0x233370ed07b9b;0x1a414b662e1c4;0xd565b9a135f3e;0x5ef012ffa6b41;0xb615679d29363;0xe37e233b6b538;0x3fddc1e8df6];[0x0;0x59791e3a090df;0x359256ec91b0;0x419a273d1bdb0;0x558ad31577f99;0xc9b2ee30195b3;0x16fba577c0bc6;0x87be937a128ec;0x5bad4388616aa;0xc29daa9b513d1;0x934e3cef752db];[0x0;0xe68aed98ea8d2;0xf28cd4bb76dba;0xf0717f9a17274;0x88d2cfc59f3a1;0x801996a2cbd1e;0xd5b3b76edc458;0xcdaf5012c84a7;0xf72dc2dde595c;0xf372c4088c3b9;0x7be7d3cf7de]]);
 ((V [0x41db93e46b3b8;0x4b2e846576092;0xc68bca718ad91;0x75ab72bdc375e;0xc0c1d1308136e;0xc80f105881bda;0xd9ed7ddd52277;0x5bfe20a77e631;0x1c288961e2284;0xc9551775f66] [0xa4484be32d9c6;0x282d96aca0d27;0x67e024d9e2b90;0xb99981c16d4cc;0x771eff85dce6e;0x922f1ce1aef36;0x15cf4193d2d74;0x45743d0caaf1c;0x7d3b0d2200ad4;0x1ba6f0fcce4] [0x984dd1195536c;0x9f53e8ea650ae;0x1e1908bc9f6c9;0xed2aa88abe6c2;0x9375f5d37f008;0x2d473154ed7c2;0xa2421dd69200a;0xfd0ec41a7068;0x645a1aabf3b7;0xa3a97ed17c]),[[0xaf8d5e374573c;0x782db6f9a4564;0x45ffb7fc5661;0x926e5fee348c;0xfb7f2865ca91d;0xbf14d3272b78a;0xd0a1c436c3d9c;0x64a7c81aee274;0x7c8c8379c344d;0x9a961e14bb9];[0xa731471cadd36;0x44e3510d9ec91;0x61d184b605b71;0x5a7673e4e60fb;0xc7ba15fe2a19f;0xf80b602986814;0x30d43f202e09;0x124f0f56de83e;0x1cccb26dd91e8;0x4248acdadd2];[0x1f817c344970a;0xd6c758d0c34e2;0xa80c64d9e82a4;0x828b6c40e58c5;0xda51b0a543cab;0xf4e5744d61b61;0x46280e85e6187;0xe99a61d4a7efd;0x3fc3e2fb8e24;0xa4d42fd5914];[0x1f817c344970a;0xd6c758d0c34e2;0xa80c64d9e82a4;0x828b6c40e58c5;0xda51b0a543cab;0xf4e5744d61b61;0x46280e85e6187;0xe99a61d4a7efd;0x3fc3e2fb8e24;0xa4d42fd5914];[0x693918f8b0b75;0xa1139e04cdbb4;0x33b77559338d0;0x59a178aad4789;0xbdda0b7683c98;0x2245ba108596f;0x321980630f7cb;0xcff31608aa5c6;0xbbf1dd6f8b219;0x78cdd3c6f14];[0x3df82e23fcf89;0xa3cfb308d10dd;0x2e1a0f5cd22a0;0xd4fb3a11972;0x9e00a87a6507;0xd5c5a61900ea5;0xd0f3c38ef363e;0x425bf94e34277;0x60dad4fe4dfce;0xc97ad913ebd];[0x0;0xbc364c84272fc;0x44e8cf321f8ea;0xbe90538e49c52;0x363feaa877552;0x49d9662e2ff5d;0x88e981d188aea;0xcdc8673a9e4b;0x1cfd2d9d906a2;0xde3b8d5795af4;0x65ee0f3bcce];[0x0;0x80bf438b77fce;0x98a9e87d70edc;0x6a1c2823185f7;0xf4cffeb6dfd2e;0x13c6507f88c6b;0x9b9efe9ea5d62;0x5b03b7e77ba9c;0xa84aaaeacdf2;0xb3f15fad53fdd;0x63884c78b77];[0x0;0xe68aed98ea8d2;0xf28cd4bb76dba;0xf0717f9a17274;0x88d2cfc59f3a1;0x801996a2cbd1e;0xd5b3b76edc458;0xcdaf5012c84a7;0xf72dc2dde595c;0xf372c4088c3b9;0x7be7d3cf7de];[0x0;0xe68aed98ea8d2;0xf28cd4bb76dba;0xf0717f9a17274;0x88d2cfc59f3a1;0x801996a2cbd1e;0xd5b3b76edc458;0xcdaf5012c84a7;0xf72dc2dde595c;0xf372c4088c3b9;0x7be7d3cf7de];[0x0;0x3798987cb1f94;0x9d94460eab775;0xd35d95368a6c9;0x48dbe6bafa205;0x29032f64f8934;0xfdc25575bdd67;0x9d439fb4686c3;0x65f3f2ca4d318;0xfadc004a75111;0x544c0dd0de2];[0x0;0x8b8775f606191;0x353b22cef6180;0x3f2bf389bba7b;0x9297184c96f16;0x27a3ff5f2a85c;0x3b3125f6f68f3;0x9a595981168de;0x29d07e363e132;0xcd406a9d68bbe;0xb61ff44aeac];[0x0;0xda2af136215ec;0x165a475da5477;0x676733cd4fd65;0x3d99ffb9f6fab;0x22041eb333c94;0x11c4211cceaf6;0x5559c04d75065;0xa6be9fb9ea937;0x4c5ebdab50fa6;0x342117ec4ed];[0x0;0xe751ce73c55ff;0x71dde5cdcf05f;0x5f8ca5e6ddb2b;0xbe946fc5f4daf;0x9ce36ead520f6;0x2b5abd9a7494d;0x8419a80c4691e;0x8e0ed33b341d8;0xd252d9e96950a;0x1bbb6f0a0a53d];[0x0;0xc42bbf14a83fc;0x35d066252e5e4;0x19977294c6c1e;0x90a0b45f8df90;0x3c762cb986748;0xddc9456876930;0x91db26376bbde;0x27a41988a4432;0x6b7f95b136b97;0x15bf442d3f7]]);
 ((V [0xf277bb094dea6;0xc4f64f7b113e6;0x88ac47a2560ac;0xf9916c86fe44d;0xaa1e71c1202a1;0x4784898ce61ea;0x64c427e33448d;0xdda8efc250eeb;0x65b5f953782aa;0xb0f3702440e] [0xb85effbd279d9;0xe9fe277465aec;0xd23b23e45a47a;0x8bf3f9c8de0e2;0x210b08644bd32;0x659d9ba425222;0xab39cfa63f2b;0x661e111989c4c;0xcfb2ffa5d129f;0x48396fa839c] [0xa87f2a3ee2653;0x72ec53fed4f82;0xd9a125fa09ec7;0x8b7590c2e6594;0x478ed643395a;0x2e589930ca844;0xee1cf94a30e8b;0xde021578be972;0xc07077158ddbc;0xfeb7216aeb9]),[[0xc774ba41ef622;0x456cc75433541;0x91c32c69ee27;0x8fc22fad708a9;0xcb7299c3f8b6a;0x21ec47fe31ab;0xe133cd64c3582;0xb0fce1a734c81;0xb3b8572bd1a5e;0x7527bee1eae];[0x78ae65604b46b;0x8184621869402;0x10f2803310288;0xbe3a3b993c508;0xf2679ac9d29eb;0xe43f96a326507;0x8137a110c38f4;0xbbab163b33d12;0x6a12106af7074;0x53efb6f5fc7];[0x984dd1195536c;0x9f53e8ea650ae;0x1e1908bc9f6c9;0xed2aa88abe6c2;0x9375f5d37f008;0x2d473154ed7c2;0xa2421dd69200a;0xfd0ec41a7068;0x645a1aabf3b7;0xa3a97ed17c];[0x984dd1195536c;0x9f53e8ea650ae;0x1e1908bc9f6c9;0xed2aa88abe6c2;0x9375f5d37f008;0x2d473154ed7c2;0xa2421dd69200a;0xfd0ec41a7068;0x645a1aabf3b7;0xa3a97ed17c];[0xde0e91076e5f4;0xb1b0e3392710b;0xf6860e964c748;0x3922e559da059;0x8e908fabde591;0xaa4f87ad18145;0x1fa4726c95ffb;0x3c8cd8a675084;0x9e3bca8c6faa3;0x945a9f52e4f];[0x9a9fd458dcc3f;0xcfd37edf422f6;0x1a6c719cc3b3f;0x8517563f624ae;0x63d70b1df445a;0x39f00ef60e3c2;0x61932ea42d8f9;0x7f1e3d94bec8e;0xcbd645de875d1;0xbf9517a3177];[0x0;0x5a91e858be372;0xa2f1ab4886675;0x53a4ed16b2b18;0x4d4c26faf8706;0x66e3ac389b52e;0x24ff886628373;0xf6e52ba541492;0xa4c5e2443d5f5;0xe887532a73d70;0x6535596181];[0x0;0xaa35cb58f3cab;0x96d5fdd4f4b0d;0xa8016501ce213;0x67746ee6d735c;0x70633bf398d23;0x8f1bdc1ff3b43;0x750faa5ab8ff5;0x7eeffc5ab4206;0xe003826e29b86;0x4ae5dfd049];[0x0;0xc42bbf14a83fc;0x35d066252e5e4;0x19977294c6c1e;0x90a0b45f8df90;0x3c762cb986748;0xddc9456876930;0x91db26376bbde;0x27a41988a4432;0x6b7f95b136b97;0x15bf442d3f7];[0x0;0xc42bbf14a83fc;0x35d066252e5e4;0x19977294c6c1e;0x90a0b45f8df90;0x3c762cb986748;0xddc9456876930;0x91db26376bbde;0x27a41988a4432;0x6b7f95b136b97;0x15bf442d3f7];[0x0;0x10c69e4b86750;0x250ce2a551724;0x1d6261f2482ec;0x842ced2bd3e1b;0xdce1bfa3f3f6;0x4223ee2efbb2f;0xea48aa0eb7b79;0x42a0ff7893b39;0x9a83b462f3ec8;0x2fca3b2be3];[0x0;0x1747bf06b6bf7;0x163a627416ed6;0xef67b8c6e86fe;0x8547ace2ad25e;0x62770cb5adbc0;0xa970ee1522076;0xd893530ec3b80;0xe5f0751e81503;0x189065ddf653c;0x9e56bb1fd36];[0x0;0x1d8e98f65c750;0x85f03ef0d8ccc;0x82c94ff4a5b23;0x8964cad8ae4c5;0x416a6ca8ace6;0x8dc59e307e1db;0xb7ce34ad2a1c;0xcde71343c5728;0x9017e7b289b22;0x3a049f188c1];[0x0;0xb6d2615c4f3df;0xab6e484a2cc1a;0xcf76c2ecfbba;0x13bf26c7a37d0;0x87a2612f36521;0xa93f83d4ddf1a;0xdf9492154d17c;0xf7cfa146d8e40;0x9486bbac4d2ca;0x4869fad771026];[0x0;0xf0dcdb81a3e85;0x4bade98ff17a7;0x8d99134d5be4b;0x6df23f7693fbb;0x1542012667142;0xdb6d199f22d1a;0xf30d6eb8625c3;0x72f5f97e302a6;0x87080fb14738e;0x31ec2aebffa]]);
 ((V [0x3ab8d9cb2e7bf;0x3939a74fa0a77;0x18d5ba745c996;0xb4f9fd7a97dc2;0xdceac00af96d1;0x58fb7e00d2d7;0xb1809f7bbab78;0x7ec559cb7d7eb;0xdd0d45a2b31a6;0xa475f904bc5] [0x56c1b4d513e40;0xb4e2d1729322e;0x55e2e4c670643;0xc7b8c11699463;0x8381a1ce38b95;0xd63cbc3a6c92c;0xec248b42f6e9d;0x588226c3bff89;0x45ec9811b4fe4;0x7c038fc231e] [0xf0c3fbd192d50;0x7bc5fef4e6ee2;0x7f629ee8ab95d;0x3defca7aaead;0xcaf2925b6008d;0xffbabe07db99c;0x6c6ae21e55b11;0xac224828b477c;0x1d2c89457c0c1;0x94c2e5a8d53]),[[0x3c0b681295ce3;0xe61936d660197;0x8706d274fc294;0x53155d453eaf7;0xba69d419d7358;0xdd9d6d553a121;0x48633af887d7b;0x183e7fac79a43;0x25bc62274757d;0x59efa2b5847];[0x6e78c1ffbba72;0x20693ec196cc7;0x73dca968551b1;0xb1d5d8a1e8c57;0x19eb5a6a26cf0;0x2c5b5bdde4a1;0x80558be4e2825;0x9dd27cdb2f3c2;0xd77dbbc3e0013;0xf7820c7928];[0xa87f2a3ee2653;0x72ec53fed4f82;0xd9a125fa09ec7;0x8b7590c2e6594;0x478ed643395a;0x2e589930ca844;0xee1cf94a30e8b;0xde021578be972;0xc07077158ddbc;0xfeb7216aeb9];[0xa87f2a3ee2653;0x72ec53fed4f82;0xd9a125fa09ec7;0x8b7590c2e6594;0x478ed643395a;0x2e589930ca844;0xee1cf94a30e8b;0xde021578be972;0xc07077158ddbc;0xfeb7216aeb9];[0x7b6b4e77ee1c0;0xf030c008690c4;0xcbe196eac87a;0xef75c55e1a427;0x22632b0bd6224;0xe9335a58ae614;0x54fe07a01c200;0xfe70ad45c65e6;0x385e983a3c32c;0x67363d6af4b];[0xf30d7387cd67a;0x30387eb92dc02;0x671e8ff9a8936;0xc2601343ce830;0xf7882f5e50acb;0x19925b652fe8c;0x2b578444c6624;0x9f61cf9568ddc;0x9f1f2389a3ce6;0xa841e35c9dd];[0x0;0x93cb65934378b;0xc3bb1c268240;0x2d85a9cc809c0;0x8fe5c817093c3;0xc312cba3c67f2;0xa698800085008;0xf64a273574088;0x1de49c0921942;0xec3032bf53da0;0x9d83fe37222];[0x0;0x96edc0425ada1;0x541b4f9eba3d2;0xf60293a9ef351;0x4adfc6d16f380;0x20b93a5c11de0;0x6e755a8c1f370;0x71c434d8ee0ab;0x3725ae6dcba2c;0x3b4e5b804d0ea;0x597c197add2];[0x0;0xf0dcdb81a3e85;0x4bade98ff17a7;0x8d99134d5be4b;0x6df23f7693fbb;0x1542012667142;0xdb6d199f22d1a;0xf30d6eb8625c3;0x72f5f97e302a6;0x87080fb14738e;0x31ec2aebffa];[0x0;0xf0dcdb81a3e85;0x4bade98ff17a7;0x8d99134d5be4b;0x6df23f7693fbb;0x1542012667142;0xdb6d199f22d1a;0xf30d6eb8625c3;0x72f5f97e302a6;0x87080fb14738e;0x31ec2aebffa];[0x0;0xd784514ceba47;0xd2cf733cf70de;0x74a358bc6647a;0x9499ec1d69cf6;0xccebf3ea7d29c;0xfc32be3a999a;0x3807f532c9bc6;0xed26a35724381;0x5b3e841c0dfd;0x14605bb18a2];[0x0;0xbf7bbe38e2186;0x2451067ea40c7;0x9390b163ef71e;0xb1cb0b7ba272f;0xe2d470c0cf04d;0x4e97ac9e8fc27;0x749787482661f;0xa614533e4a683;0xfb0e0c5d2ed77;0x7a4fa1afef2];[0x0;0x2610e2c5736a1;0xd1548181a1dba;0xe1fabc1aa2872;0x91e30b00b1e1;0xc79def15e9008;0x4cbbeea37bf9f;0x896686a7f81b2;0xc9979edb604e7;0xd1f6f577f9f5f;0x9f015f2f63];[0x0;0x64a00d1ae76f5;0xa9afc2c19d346;0x7de4b0703b193;0xbdbb8fd1511f2;0xb626c1a734be2;0x8cd98221a006d;0x324ed841fd4d8;0x5aca19c411cb9;0x3cd7c028d9758;0x7c7814eafb329];[0x0;0x2a8eb806e9810;0x7c5fe3ff4fd66;0xe2d737da04b6a;0xe2e208fb5b7b4;0x98a819599f4c5;0xe44f375d28e4a;0x13b444841b960;0x6abdc47cc3b83;0x94bafea2fd281;0x4fab6e5addd]]);
 ((V [0x8da14c06f5c2e;0xc10dc441235db;0xa233f01098183;0xcd78a53654132;0x81e6ed230eb29;0x5a4661656eafe;0xd5e7a270cd82e;0x487e855411fe8;0xf6229615b146b;0xcf4171946fe] [0x302ba178e4691;0x994e5e9a0478b;0x96098f7567e01;0x3253648505704;0x4a8abfd49fda9;0x3cecd36acea41;0x4acc49a619dec;0xc13bc5e9bd2da;0xf32208158f2ef;0xd2826868f04] [0xeb8fd62602ba2;0x26ce147aff85c;0x96d1edba03e44;0xf9e016db82ea2;0xdbac460824084;0xe25c530adfef2;0x644b3be9e153e;0xf3aa2a13e1f0a;0x1589c9e64b6a3;0xe0831be944e]),[[0x3e251876b9a34;0x2ffda335ea092;0xc1df9e5d702a9;0x9c5cf2944416a;0x152107474498e;0x57703949cb28b;0xe49852f325d89;0x7f373ab962de6;0xdb37a399ca24d;0xcfde56dc6dd];[0xfd1e2cdf98f54;0x54fcb7cb6ce7a;0x27c70c328cdb6;0x396009a2dea9c;0x8743a3c47943f;0x4a868849357b7;0xce0a190fd8b54;0x901e9176130f3;0x6ee32362bc8be;0x2d12e86a627];[0xf0c3fbd192d50;0x7bc5fef4e6ee2;0x7f629ee8ab95d;0x3defca7aaead;0xcaf2925b6008d;0xffbabe07db99c;0x6c6ae21e55b11;0xac224828b477c;0x1d2c89457c0c1;0x94c2e5a8d53];[0xf0c3fbd192d50;0x7bc5fef4e6ee2;0x7f629ee8ab95d;0x3defca7aaead;0xcaf2925b6008d;0xffbabe07db99c;0x6c6ae21e55b11;0xac224828b477c;0x1d2c89457c0c1;0x94c2e5a8d53];[0x8a92933267b77;0x24e1f61a0ddd3;0x735fdefbf0aed;0xd3019073bc255;0xc081419ddbe8b;0x82398eba633b8;0xc8aacaa6a0b7;0x5c7ccb52ad0be;0x491a9b10acf66;0xbf4fac4fe7a];[0x728b99ad311a5;0x301ac1b15f0a7;0xb4672d369c2c9;0x665e792f22846;0xc6c262269d5b3;0xc84cf98ed23fe;0xc17f6c656ea9c;0x33a1c62366035;0x25c888520f958;0x6dc33c1a7ad];[0x0;0x86ea76a1e5ad4;0x1c6e7c56ffa25;0x74f1598fbdae9;0x46dbe8a6fa5e8;0x800b355186cf7;0x262b2d3a3fd36;0x88338937e2f8f;0x1964e64588f26;0x309b1d80d127;0x5bfe683f3b9];[0x0;0x61251303203b4;0x15b66ceacf570;0x7d3ab47eb2865;0x7f8c4f64c8451;0xf9b66d4d02b2d;0x37d50d1595be3;0x601e6a86e5aa;0x6efa896598016;0x80faf5ffb4bab;0x78cacb303d4];[0x0;0x2a8eb806e9810;0x7c5fe3ff4fd66;0xe2d737da04b6a;0xe2e208fb5b7b4;0x98a819599f4c5;0xe44f375d28e4a;0x13b444841b960;0x6abdc47cc3b83;0x94bafea2fd281;0x4fab6e5addd];[0x0;0x2a8eb806e9810;0x7c5fe3ff4fd66;0xe2d737da04b6a;0xe2e208fb5b7b4;0x98a819599f4c5;0xe44f375d28e4a;0x13b444841b960;0x6abdc47cc3b83;0x94bafea2fd281;0x4fab6e5addd];[0x0;0x593d24d7f1b2f;0x3af550642d39d;0x64d4651015141;0xbef303214eb1c;0x78208252d234c;0x99d3dc508dfcd;0x473467a3eae85;0x63316039dc6bf;0xcee3a37897baf;0x3c137350cf9];[0x0;0x40f611e060a44;0x9049d06d86754;0xe7524db6051e7;0xf0a6525c84dbc;0xb16a550d8343e;0xcc64d744d187;0x545d44e591df1;0xd59ee23af0c8e;0x697d5e3674e3c;0x69a75d6ba1e];[0x0;0x17de44622302a;0xc13796425a7f1;0xff3fdaa717ec6;0x5e69b62321bc6;0xeca3dd96640a0;0x86ff2038610d9;0xf976a0abf5ff0;0x716385b2c7651;0xbd67a229aabcd;0x247dcfba83d];[0x0;0x21e627165ab0d;0xcbcc6445070ec;0x5c2e6d61a2cd0;0x9e906c9d77b22;0xce612eb7cd149;0xae54b3dab450d;0xa7fdf961c2e71;0x3a70018a4b3c5;0xc7412839b6473;0xd32fda58b5cc4];[0x0;0xee0b4eddb5e34;0xa58237022dd15;0x4341c991a477c;0x23a605a7aca74;0xd3fa31dba34e7;0x64aff958afd4e;0x5a8136a812943;0x91b7742d6cbf0;0xb201ed2d4fc16;0xaa6d42eefc7]]);
 ((V [0xab5f19599710;0xffd43a086b577;0x6deb296a9fe57;0xdc9ba231899cf;0x229308510e217;0xe3b004608da9c;0x6e17c1805b2e;0x83b0b88d28c2d;0x3c0dcc9333bb2;0x6de4ec38fae] [0x274c0a5e2330f;0xd4cb0b45007dd;0x14a1acfdccdf3;0x325933bccbaa3;0x828d510194b1e;0xe0799165998e3;0x6853222a0ffee;0x5f4a4cbe48707;0x1a13f0e3f809;0xff8f04cdc17] [0x84dedca8bc487;0x666fdc22189e6;0xe3b7cca46f295;0xf1ecfd88360e0;0x66c8c3eb5e967;0xf6d3b11733894;0xe46ee19b38bae;0xb6d36aaf11288;0xbc14b6569e16f;0x1a5ce574000]),[[0xe9590a5aa1a80;0xf45c0a10ecf12;0xcdd1801cc48de;0xebb5d0d25c6ea;0xb8234b8dc2420;0xe9b6936065b89;0x2de388458d9a8;0xd02c1e0bd9aaa;0xa9805dce25af3;0x76bf986e35c];[0x29109d1031105;0x8cc75b3f3c993;0xbe9d295e91845;0x407093650d25d;0x4b2f8dc031dc;0x7b72123dbe516;0xd0a982eb2178d;0x1f6b9c8d8641c;0x5e82f58a87707;0xa5b5da8d9b6];[0xeb8fd62602ba2;0x26ce147aff85c;0x96d1edba03e44;0xf9e016db82ea2;0xdbac460824084;0xe25c530adfef2;0x644b3be9e153e;0xf3aa2a13e1f0a;0x1589c9e64b6a3;0xe0831be944e];[0xeb8fd62602ba2;0x26ce147aff85c;0x96d1edba03e44;0xf9e016db82ea2;0xdbac460824084;0xe25c530adfef2;0x644b3be9e153e;0xf3aa2a13e1f0a;0x1589c9e64b6a3;0xe0831be944e];[0xfef6a19fedbb3;0x5b6d0a6987369;0x1680834154e40;0x95e1fecebb1ec;0xf2a6a463bf26c;0x5f2d34224f397;0x7d9a9e6025585;0x3e097ac5bbc2d;0x9ffc35647d9be;0xa7d2c1d402];[0x2a19fb7043553;0x315a50d5b5629;0xa81ca61d3ca05;0xaa8e949652071;0x120c547843f6f;0x1c44de1b6f17e;0x530ee48afc208;0xe16221c7ca7ef;0xbe86c02609d48;0x9b38ae705b3];[0x0;0xdd70f4a495ce0;0xe9ad794791615;0xe3546a0015ea0;0xda7715bdb17cb;0xa6752a497f020;0xfc1066ba3721d;0x258a7a7e70692;0x3ce9dc32697c5;0x4f726cdb8de84;0x8ad685b9ffa];[0x0;0x66c83ef1da82d;0xc97e8f794c6f8;0x28062db364463;0xf4e42d84226fc;0x795bc0d060359;0x58b349320e1ea;0x957a9d9d31cbd;0x35b3cc27c1999;0xf93a90179e7c7;0x6824765dd8d];[0x0;0xee0b4eddb5e34;0xa58237022dd15;0x4341c991a477c;0x23a605a7aca74;0xd3fa31dba34e7;0x64aff958afd4e;0x5a8136a812943;0x91b7742d6cbf0;0xb201ed2d4fc16;0xaa6d42eefc7];[0x0;0xee0b4eddb5e34;0xa58237022dd15;0x4341c991a477c;0x23a605a7aca74;0xd3fa31dba34e7;0x64aff958afd4e;0x5a8136a812943;0x91b7742d6cbf0;0xb201ed2d4fc16;0xaa6d42eefc7];[0x0;0xb6c74afe8222;0x3ed62f2d70224;0x22ce7bd5da770;0xc7fd752c4b40d;0x7348e29c0754;0xb5aacac07c49c;0x9491a3d80c11e;0x5e95d444dde83;0xb6cf0b7e106e6;0xad1a35ba5f6];[0x0;0xab9a897e97987;0xa73351f8865e1;0x2e98ab91758bf;0x86e639852d6fe;0x1535e4d78e8f6;0xde7d18bd21112;0x494deabd18c55;0x286236e866cd1;0xa5931b6d83a09;0xa7cae668ecc];[0x0;0x30348f1545404;0x8ecb3cbb1e3d4;0xedc3172f65a78;0xee6e26191765;0xca4028ce9c759;0xefc588184fef0;0x46f206a7f7093;0x5dc9a069208d;0x22961470269a0;0x47229ced78f];[0x0;0x1f56f62ab8f8a;0x169f114347c8;0x9ac5f65e252;0x3b0af827c3c14;0xf7099895ed73c;0xfc703e9c339df;0xd57f4dba7bc9a;0x80cd42eafc24e;0x4f9c8302288d1;0xffe9271a2b076];[0x0;0x579515def634f;0xb6e649a840f7f;0x5c047b3b9fd4e;0x3a2e072a454e9;0x98512fef5eaeb;0x156643f9351ab;0x3e73ac21b5faa;0x5626e963480b4;0x8c5513c9a93b4;0x6db46c3c9cc]]);
 ((V [0x271d98bb42861;0x7f8c76301b60c;0xa6436aef43bf2;0x8523f0a693fe4;0xbd537062d7b21;0xd7b3200250b81;0xab385f77c888b;0xe2dea477cbadb;0x61431b8a35191;0x5d99b84cbf2] [0xa96e61d92d6b7;0xd13e50ad9279c;0x7bee51fbdcae7;0x242f6a1d8c11a;0x90ac4cc1a8b31;0x3bb95d41a4a4f;0x1bae72c1e6115;0xfe9e067ff938b;0x7071c19d7cfac;0xef05bbf7909] [0x35c32ee3dd968;0xe2b1d77b27d0b;0x89c673c3700b8;0x5cdd17b29ee1f;0xa5d0b0ad32d4b;0x4e58dbdb80247;0xd2666e76052d0;0x87397c78c9d6f;0x69518f3e28d1a;0x708276cced5]),[[0x9cbe1c232b910;0xbfdcdb97d9fb;0x49cb2cd94fb88;0x9608941e54cef;0xa3defc1f384b8;0xbb6b584ecf360;0x5eef5fff8d9b8;0xe4281d7a44ecf;0x2186c45835fbe;0xed44ddf55f4];[0xa9477a3872cf5;0xc9d7c18a439f5;0x2a9cefd90d41c;0x6c8e0d3779f09;0x49f0b880ab743;0x1b8375d657cf0;0xcac24c5f73294;0xe644fff86fb53;0x9dd80f6083e2d;0x25408eeb02d];[0x84dedca8bc487;0x666fdc22189e6;0xe3b7cca46f295;0xf1ecfd88360e0;0x66c8c3eb5e967;0xf6d3b11733894;0xe46ee19b38bae;0xb6d36aaf11288;0xbc14b6569e16f;0x1a5ce574000];[0x84dedca8bc487;0x666fdc22189e6;0xe3b7cca46f295;0xf1ecfd88360e0;0x66c8c3eb5e967;0xf6d3b11733894;0xe46ee19b38bae;0xb6d36aaf11288;0xbc14b6569e16f;0x1a5ce574000];[0x49b536efc63a8;0x236ec78e94b84;0x4cd2c87cc897;0xe459ca9e7a5e1;0xd4e0cd589cbef;0xfa982d38f93b4;0xe4882ef46ef6c;0x6e7b175ace29d;0x94694bfc8008a;0xbc18aaff374];[0x5f924348ac715;0xa668f9fbaee71;0x25cfc35140b85;0x88344298ff928;0x750feb280eb53;0x20eb489d5e93b;0xe63a1d6b04327;0x77c9e89da18b5;0x96ec36403da3;0x6927e3ebcb9];[0x0;0x153d4f124fae0;0x15182ff66c2b;0x153926e79bb4f;0x403dff027e3a5;0x4c71390257a22;0xbfff6d88e6cef;0xd5472f05148e8;0x812a28180cdd6;0x32f38843f2eb2;0x104d81ea912];[0x0;0x9e9544ad07dad;0x775819a7c3d0d;0x6c57e237c5a43;0xcf731553a434f;0x98f33090aaf67;0xc383b633c7f93;0xbefe621357593;0x82fdef12172a6;0x6e8bd65d0a77a;0x186f17f4cda];[0x0;0x579515def634f;0xb6e649a840f7f;0x5c047b3b9fd4e;0x3a2e072a454e9;0x98512fef5eaeb;0x156643f9351ab;0x3e73ac21b5faa;0x5626e963480b4;0x8c5513c9a93b4;0x6db46c3c9cc];[0x0;0x579515def634f;0xb6e649a840f7f;0x5c047b3b9fd4e;0x3a2e072a454e9;0x98512fef5eaeb;0x156643f9351ab;0x3e73ac21b5faa;0x5626e963480b4;0x8c5513c9a93b4;0x6db46c3c9cc];[0x0;0xf741a9ba0c2ff;0xb8a802ff38604;0xb1793084a771f;0x9066e4d662952;0xcb70e7c429992;0xe04742eaa7265;0x251fa747103eb;0x987c95d4dd103;0x2829bbcb1e2b1;0xff1e3b78455];[0x0;0x14dc5b20752bd;0xd27c02cdcf6e6;0x67ab0592a0348;0x760e62ef4b4d9;0x7c636b78bde36;0x995565879381c;0x39f9e36bbae6f;0xa86b1e8431421;0xdf32e31b916f5;0x2f2cbdde251];[0x0;0x641f36645ae98;0x298252eee0bea;0xceebf60cca4f5;0x661dae9891bb2;0xb435932e3ef6c;0xd0e13e3242226;0xae661e9ed678e;0x86b62e7df876;0x1e6a580bd5724;0xd9ed2525c3];[0x0;0x33a4b96f2afad;0x9f8a2827c383a;0x717ca7c67224c;0x6fd79f5def4c0;0xa9df808345380;0xf5163ebd00bcf;0xeaeac1f8fcb91;0x5368ce97d4aef;0x3d4d2fa7b1208;0xefd1f9987dc6a];[0x0;0x6fb043ebd2299;0x5840bd783fe79;0xcec14d0a3fb37;0xc80822ee736e4;0xef381e01dc2f5;0xd98bb05548431;0x8d9ee9cf44a4e;0xe43d5543bca15;0x2da3669ee39a8;0x57649bca0dc]]);
 ((V [0x1c5e33456fa33;0xffdadd74bdc86;0xfbbf1238027f2;0xb7e60bd53bb05;0x8cc3dacdc80da;0x7bf9ae86cff0a;0x4b4ccddf166f9;0xedfce9196a472;0x6d9d06f506cd9;0xc1cba7670e] [0xd16d63c721af2;0x970cfef405a72;0x7a1c2815f23ae;0x16c1536acce3f;0x611a9f9a4fa4e;0x8abfbcfd7a273;0xbabd8dc18b823;0xc2cccd51545c9;0x57fc8747f686c;0xbf55c7a0f1f] [0xdab857711529c;0x523d820e6df6a;0xd5e1d04991464;0x6b9a532eea4ee;0xb1c19e6d6290c;0x4a97aa8b1bf4;0x46125467d7275;0x7d1fb7ccd72c8;0x7d03a98edb3bf;0x13d87bdcbab]),[[0xf3b0750b99c63;0x31f622032f4e1;0x81ced16b5aec2;0xb632da6de9c21;0xbe483b6dc68aa;0xdd4ebf36702e8;0x83b849a2a0c44;0x2d2efbdad5132;0xaed8caa8a66ae;0x857f318e491];[0xa000cf13b061a;0xf71edfe69f941;0xaad79a13a37eb;0x78f689c2bfbbe;0x44ac5e9249989;0x7bfcbb19e0986;0x9def5e32ac1c7;0x678038d46321c;0xb2d447a2916b1;0xf2339ac943c];[0x35c32ee3dd968;0xe2b1d77b27d0b;0x89c673c3700b8;0x5cdd17b29ee1f;0xa5d0b0ad32d4b;0x4e58dbdb80247;0xd2666e76052d0;0x87397c78c9d6f;0x69518f3e28d1a;0x708276cced5];[0x35c32ee3dd968;0xe2b1d77b27d0b;0x89c673c3700b8;0x5cdd17b29ee1f;0xa5d0b0ad32d4b;0x4e58dbdb80247;0xd2666e76052d0;0x87397c78c9d6f;0x69518f3e28d1a;0x708276cced5];[0x7a2bdda5cbd27;0x5cd008353b9bc;0x9428206dd738e;0x4bcff77d3db39;0xb0c80b041ec53;0x34db6ec2a921a;0x3f5182e49b9c6;0x25f08c8e5bd79;0xd31ddabf258c5;0xa2c9e5e5208];[0x25d4f16de48f4;0x9a4ed7b163f85;0x16af79a5cc45d;0x2d26924582085;0x93e4538e2ad36;0x47214c573776b;0x5e9ddb4e10801;0x418fac46074a3;0xdfb66ce36bdec;0x4f69b4e4233];[0x0;0x9bc71016a6fb;0x55074ff69b2be;0x9ea762b3fa047;0x6014c97bb682b;0xc3f84a1c4d159;0xd3b5b7de734d5;0xb0f93c2d470c;0x9d5559a0f569c;0x1c8703cd32016;0x459366b210e];[0x0;0xfa66c4aea41f2;0x4f6e0ba4b17d2;0xe6d7119008137;0xcd1450f081544;0xc0bc121969874;0x6e005977bb930;0x5fba7e06d362f;0x4a7db901bcb3f;0x3e20a416c1cab;0x3aabae38e83];[0x0;0x6fb043ebd2299;0x5840bd783fe79;0xcec14d0a3fb37;0xc80822ee736e4;0xef381e01dc2f5;0xd98bb05548431;0x8d9ee9cf44a4e;0xe43d5543bca15;0x2da3669ee39a8;0x57649bca0dc];[0x0;0x6fb043ebd2299;0x5840bd783fe79;0xcec14d0a3fb37;0xc80822ee736e4;0xef381e01dc2f5;0xd98bb05548431;0x8d9ee9cf44a4e;0xe43d5543bca15;0x2da3669ee39a8;0x57649bca0dc];[0x0;0xf419563c80106;0x93493ae65be9b;0x2a90f069d5ff5;0x5089ee377f969;0x247e6dd8a1156;0x5d95f1375e7f1;0xf1bed0b64a927;0x487250d67a79f;0x941d1b8d6ff47;0xdf2bb51921a];[0x0;0x5fcea0ed299cb;0xbf8dbed46f4e3;0x21ef7de26cea8;0x8d4f630ece7;0x37b06639623e4;0x57c742ce1b565;0x17c2dc4d7f91e;0x174f691402125;0xc8ff90df2ab38;0x22390c35934];[0x0;0x1da974677fce7;0x979159f3752f;0x4074b810997d5;0x8226adcbf2b14;0xd40a6ee5edf31;0xcd888632cfcda;0x4ad81b9dd0cfc;0x7c98b0a5da98e;0x1808717b08971;0xb75994fea4];[0x0;0xf3844f8f4186e;0x58cd81aee4f0c;0xa585034027c20;0xc8a9096e28f7b;0x956ec3edbc209;0xd90982d08424b;0x6bfd267f72f25;0xfae9711fb0513;0xf2483aa173e62;0xbf6017c015f68];[0x0;0x45ff7a41eeb96;0xf6db121a7f3f5;0xe8b6c109c6d85;0x3ff62e98e9dab;0xb5e4f4ae18be3;0x890601da834e8;0xc781a7456be76;0x387bd290027f9;0x8fe0688f3f9ed;0x90d7e1a39e]]);
 ((V [0x44b58e7a84fad;0x6a760aebc70e0;0x7b254f2ccec2e;0x6a87258e9a90a;0xa0646be70617f;0xef6e8047e1ba1;0x1b2150a9b130d;0xccd98e1c31d17;0xce20fc2b4fbe2;0x330a52cba6b] [0x83d11d533f55b;0x91f2ef71da1f;0x7810035770def;0x969f03ced4a22;0xc37b3654a29c3;0x47c7057aec792;0xcce29836c2d62;0xb1edf85d367f7;0x5dd484512cc5d;0x2e44cfd313d] [0x6b22a16c92810;0x6b68efe42040d;0x2d20a4a101bf1;0xb076ba93e943b;0x4b992c81b7f7f;0xa5fcdc2a0dc02;0x3c6d5502d1dfc;0x5de1ed7100a6;0xa5757077e782;0xfa1b1f90818]),[[0x11035cd2687f7;0x5092256b205a9;0xbe6dfb91c533c;0xaf2ad5421e9de;0x81b329999847f;0x3e8fe1461ecbe;0xbb0b71e1d4850;0xffb1d8f7d1fa9;0x7b9dc055c5969;0x526efc60a2d];[0x3fe8be78eb02f;0xfb985a0141079;0xb1fb0070fab2a;0xbe114244073d;0xec4cd9fb19e67;0xa11843f1fdcfd;0x6dbd6e18b266a;0xd7e54258b6b27;0x399149d1911eb;0x8f28b967fb5];[0xdab857711529c;0x523d820e6df6a;0xd5e1d04991464;0x6b9a532eea4ee;0xb1c19e6d6290c;0x4a97aa8b1bf4;0x46125467d7275;0x7d1fb7ccd72c8;0x7d03a98edb3bf;0x13d87bdcbab];[0xdab857711529c;0x523d820e6df6a;0xd5e1d04991464;0x6b9a532eea4ee;0xb1c19e6d6290c;0x4a97aa8b1bf4;0x46125467d7275;0x7d1fb7ccd72c8;0x7d03a98edb3bf;0x13d87bdcbab];[0xfba9885f8c299;0x37536cd36bb57;0x1fb2bbf06ead;0x25b8a7d4d28e7;0x31c64defe178d;0x644e4fb3fdf90;0xb1929b92d02c6;0xb40fd1a5283aa;0x3bb7443d4d3fd;0xc05dcadb48a];[0x443f36195eb5e;0xc444ed2dd5521;0xafffd4b1f3c7d;0xe6286c4f6de56;0xba868c0b386d9;0x3cc9f43dffd6d;0xbc2ad285e23a4;0x23d570b38e77c;0xfdda059443dee;0xcecaee8cb2a];[0x0;0x57a9ff99c18ef;0x1f60d937ddbd8;0x22e47611f8f0b;0x9165627f12d5b;0x60f0dc59bdcbf;0xcd3a7c7e58f3c;0xc5f139a23bf77;0xbc0176ff95b9d;0xb91f33858602e;0xc45c380f3d];[0x0;0x8d26f1ca93903;0x42e3670b052e3;0x6af5e9edfee62;0x5d564e645a384;0xcd88f3e537905;0x72edd412dfa5b;0x6d82c1ec4c47c;0x7783a22de906c;0x28ddb68921824;0x663f242846];[0x0;0x45ff7a41eeb96;0xf6db121a7f3f5;0xe8b6c109c6d85;0x3ff62e98e9dab;0xb5e4f4ae18be3;0x890601da834e8;0xc781a7456be76;0x387bd290027f9;0x8fe0688f3f9ed;0x90d7e1a39e];[0x0;0x45ff7a41eeb96;0xf6db121a7f3f5;0xe8b6c109c6d85;0x3ff62e98e9dab;0xb5e4f4ae18be3;0x890601da834e8;0xc781a7456be76;0x387bd290027f9;0x8fe0688f3f9ed;0x90d7e1a39e];[0x0;0x3092dabe6a07d;0xe8ce654e33c00;0xf07132e7cbb0e;0xea44e45e1e7fe;0x614ec0681e2f2;0x41085474de73f;0xc7244c2f5e46c;0x9751f434e7be8;0x89f0efd2d0022;0x8f011ca0559];[0x0;0x346e931c32add;0x39539291fdf72;0x8f6fcc3ae5285;0xe378a4526d448;0xd128c85e01fc1;0x1d9a4e677e9c;0xa8a1d5df183c0;0x378e3615fadbd;0xea9c6eb266076;0x92b4b46c4];[0x0;0x1f75d8bb04b08;0x48b769f097774;0xbcc2b5c581ff2;0x2b073aa52b60f;0xe8ecb335a16b2;0x96ad7535d0694;0x5b23d6146e5f3;0x85c07601cc668;0xdd54481b4a0d5;0x1c8ae2d3e30];[0x0;0x73890ad19f597;0x95ad9cdcc905a;0x147f787060461;0x84fb4fddbe4ae;0x63ee7f4ffc7dc;0x5259bd200312a;0x51e3aae1a85d6;0x11bd3f393a25b;0x7da86ae2d5fea;0x2e5934d68d035];[0x0;0x9297286017519;0x83a40ed9ac1ca;0xafcf4fc1d7d47;0x34e0c21a6550c;0x8d26a8a49ed32;0x2ce6fa9c20eb3;0x76b0a043f8a21;0x5133b41440ea1;0x78c525c9daeb4;0x939930e047]]);
 ((V [0xc0ad3e3287152;0xd9218dd45d692;0xdc991f494efa6;0xc9cdc36d6eac3;0xb1f85bb05fe60;0xc25fbfb708fa5;0x906c9d89a9398;0xc9d27894c9b59;0xb61fe215f672b;0x8d595305425] [0x16214f54face7;0x71c16a6a99d77;0x4e2a7b7ba256d;0x1ec95c7856d3e;0x9c5866565e66c;0xdf856f58b6291;0x775b2e3631aae;0xc32ebed3800e7;0x1b0af9b808d0e;0x17f2d5138fd] [0x50807607a73e9;0x74a4c8cc43f87;0xc0b34e38c9b1b;0x34e517e6c5312;0xb39c17e82439f;0xe4acc36da341d;0x70e813d841dc3;0xd92adb3c186f9;0xb929e76a298e8;0xa644a4d40e7]),[[0x4d169ea22c54f;0x8647e10904ee8;0xcd21183e229ee;0x5fd1eb50e6876;0x18a6bb6e2ba63;0x7e574c67c3051;0xcb881cbf4e6b7;0xde0b5ee5e2775;0xad78b788cbe57;0x997da518c41];[0xc862c2a74c0ec;0xf277ca9ae387c;0x2433360199340;0xe646c883154cf;0x472a408d8e27b;0xeb2bf0ce6a47;0xc13b3d2111fb5;0x555da4652c5ce;0x48223545b8bf9;0x96e3d56f2a8];[0x6b22a16c92810;0x6b68efe42040d;0x2d20a4a101bf1;0xb076ba93e943b;0x4b992c81b7f7f;0xa5fcdc2a0dc02;0x3c6d5502d1dfc;0x5de1ed7100a6;0xa5757077e782;0xfa1b1f90818];[0x6b22a16c92810;0x6b68efe42040d;0x2d20a4a101bf1;0xb076ba93e943b;0x4b992c81b7f7f;0xa5fcdc2a0dc02;0x3c6d5502d1dfc;0x5de1ed7100a6;0xa5757077e782;0xfa1b1f90818];[0xc575328e73774;0xbf405b90220ca;0xc5b67a366f948;0x432a3fcda5d28;0xc9a26d21fa96f;0x2c5d38824daa4;0x9fe5c45045c7c;0xacae0d14c4b2a;0xc08d4af069313;0xf6faa60ecc5];[0x2ed9018d8740;0x33376f0ac17b2;0x5e7cbbcb299f8;0xa31c88b56f7a6;0x7d87d36b9390c;0xe255868a98fa2;0x215578d0cc338;0xa8af975067aa4;0x8794ea554f8e5;0x9fe92f605e2];[0x0;0x6b5924bc6e6c7;0xfe74544a4a2ef;0xddc9725d45318;0xeead3612dc0e6;0x4e87e4465cf72;0x36c52e5104b54;0x7b02c1e9a52bb;0xc415568538606;0x6e39e6d9bcbcc;0x9aaa473e904];[0x0;0x4c074dd8883dc;0xe6182f88633f0;0x1667a6b3cff48;0xccdfbba5ee4b5;0x613cb67193026;0x1799c5b7d84a;0x4453784b9d4b;0xa09a8ce5619d3;0xf3538eb1a25f7;0x95f4f667746];[0x0;0x9297286017519;0x83a40ed9ac1ca;0xafcf4fc1d7d47;0x34e0c21a6550c;0x8d26a8a49ed32;0x2ce6fa9c20eb3;0x76b0a043f8a21;0x5133b41440ea1;0x78c525c9daeb4;0x939930e047];[0x0;0x9297286017519;0x83a40ed9ac1ca;0xafcf4fc1d7d47;0x34e0c21a6550c;0x8d26a8a49ed32;0x2ce6fa9c20eb3;0x76b0a043f8a21;0x5133b41440ea1;0x78c525c9daeb4;0x939930e047];[0x0;0xe70e03d3635f3;0x72666d63a057e;0xddba6ccd2c777;0xead31d5700ee;0xba31091c2aa50;0x52cc3cf5e27e1;0x2b05e8b701700;0x34fe0b26f56c3;0xa6d41172689c7;0x85ccd2eebf];[0x0;0x4d68b3afe830f;0x943e2b0b8f2a7;0x4d41bce95ebe7;0x5fd3cc4bd91db;0xf505ac2fd9230;0x343048856ef15;0x1b5cf9d2cef7;0x703f9c69eee9;0xf61a6cdc970c4;0xa2d1d67b71];[0x0;0x2011e7fa928e6;0x82ecacd0733df;0x811cb9208213e;0xc65fb1e83b528;0x8b0e0c7a4e7d3;0x2d6a8bdad412b;0x9eb3fbff02cf4;0x17cb4c917e12f;0x39379239982e5;0x535022b265d];[0x0;0xd7c563f4ac92f;0x927586084e434;0x70121aa470981;0xf10e9b485bd32;0x4e14762b35e90;0xa01d23c0369a6;0x8a65fc7ada8ff;0x6fe6dfe41a698;0x715580551cf82;0x17fcaa4f7f895];[0x0;0x3b45906a6b643;0xcf70a374f1a3;0xb5004d2844424;0xcf8da8bb72f83;0xfe617e311ab31;0x4316f728394ee;0xf9b6631a0dd5e;0x8196d1a95e07f;0xc26a582e77c74;0xd391a8c130]]);
 ((V [0xff5dcbecd4784;0xfec2f2a813a93;0xc2fa229b66b30;0x1d3fbdb08810f;0xa73fabb878589;0x9104fe5d29125;0xb1a46d3bf5854;0x3303a9a8031cc;0xc28683054702f;0x5e66b4b4f4a] [0x836a446298add;0x2537540e49f81;0xdf6ebd910131a;0xa32725a1f4cdc;0xed1f3f64a4c6f;0x9974769febecd;0x3385c4bed089e;0x4d4b267a41a13;0x6429f65d542d6;0x49a752acfac] [0xd0b2e162ad226;0x4d9a402a0b434;0x5a50cd3131361;0x59506e31a575d;0xdc07a62a4ec44;0x67227e738c6b6;0xa20bfd6a15c5c;0xf5ad0804cf493;0x59c9e33123c02;0xbc0c6f0929b]),[[0xa7d363699950c;0x794f6b7c0df08;0x4ca298df7b260;0x6f91e7869ce1f;0x8c70915ff1c57;0x8375160be31f9;0xed14a1e0f7b7f;0x2191dc12c62c;0x8dfb2638b460c;0xf8c2526fe09];[0x17b90ec1ba6df;0x93132f2bec8e7;0x18a07f41193d;0x8259f7881bfc3;0x1c387e8395a01;0xdfee5807b18a7;0x87fbfa1c2911d;0x298639bed9556;0xb140ee1ab2a73;0xb5736e38e62];[0x50807607a73e9;0x74a4c8cc43f87;0xc0b34e38c9b1b;0x34e517e6c5312;0xb39c17e82439f;0xe4acc36da341d;0x70e813d841dc3;0xd92adb3c186f9;0xb929e76a298e8;0xa644a4d40e7];[0x50807607a73e9;0x74a4c8cc43f87;0xc0b34e38c9b1b;0x34e517e6c5312;0xb39c17e82439f;0xe4acc36da341d;0x70e813d841dc3;0xd92adb3c186f9;0xb929e76a298e8;0xa644a4d40e7];[0x1cdc0bc3262fd;0xc468c4a53eab;0xc987ce7a8798;0xd56d3d2b2428d;0xfef756cc397bf;0x22776b4cbd758;0xe3cf41a91230f;0x7ab300b59ffb4;0x9161d382a968a;0x3269a672294];[0xfadd02fe943e3;0x86cca2e198a3b;0xf4f18b0c691a5;0xacecba5cf7d35;0x1d4127b75c241;0xbd76ecbaf414e;0xa42cb87316e0e;0xaed33909395a1;0x1fdf1a98093e8;0x8309c7c6bce];[0x0;0x1b9c40476a91c;0xa5ff181187fde;0xec94333c1943b;0xa3520ec24050d;0x52846cf8800a;0x5181d6b06fa0c;0x52303fe584194;0x20e3bb9b5452e;0x3b9ff4bbe38fa;0x66d1e9ab9cc];[0x0;0x8d3f46e18968b;0x4b6d31f8ce33e;0x8d051d98b6a7b;0x57c5edf3370b1;0x21bfd3be7abf1;0xfb678dc90fe5e;0x9143a4ca32687;0x773de142416ca;0x96e898e19ce4a;0xa190b53cfd2];[0x0;0x3b45906a6b643;0xcf70a374f1a3;0xb5004d2844424;0xcf8da8bb72f83;0xfe617e311ab31;0x4316f728394ee;0xf9b6631a0dd5e;0x8196d1a95e07f;0xc26a582e77c74;0xd391a8c130];[0x0;0x3b45906a6b643;0xcf70a374f1a3;0xb5004d2844424;0xcf8da8bb72f83;0xfe617e311ab31;0x4316f728394ee;0xf9b6631a0dd5e;0x8196d1a95e07f;0xc26a582e77c74;0xd391a8c130];[0x0;0x6dbb460780eec;0xbe6ef7c48e22a;0x73fbb0665e399;0x75770032b17fd;0xcd82b0b93eab4;0x4edafc5298a03;0x8be5124acdcfb;0x7f325f6b15aff;0xd250333e37a5e;0x23d88a10e2];[0x0;0x31c385e1a2697;0xa9aa2f8307aa1;0x7d0446c2dc5e1;0x1f7dfadd0d9a5;0x97a43955e06b4;0x19027d5c23118;0x33cf850b75738;0xfcc81656911b2;0xd369efdc628b2;0x4e0b849e9fa];[0x0;0xbb105b16f6e2;0x388fa8656b3ea;0x7bb22be33e454;0xd8bb0c11b493d;0xcd529dcf4523c;0x54dd98acec0a3;0x7255b2e18768b;0xe9743639c2111;0x5139fc12a321e;0x42e92e8c3b4];[0x0;0xffd1e7246059c;0xfc85d2dc1cabc;0x3378eb54ebb10;0xe685f15e12b3c;0xf78c780311832;0xacb39d1485e67;0x82e9274a3e60a;0xb23791dd0c6a4;0xceb1ae798ea9a;0x49bcc57c530ba];[0x0;0xefc277cb32ec2;0xd6126a73d33fc;0xf11cec21edb51;0x74a81daa93b1e;0xd350c06d3e7e;0x5a972c9319175;0xd23862dddff1c;0xc22a6d0404a60;0xd7c41572f8a08;0x1b28fd042b2]]);
 ((V [0x61cfce30fa38d;0xd7f480845c6f4;0x435dd4596b944;0x9f8d810343923;0x950b2906e9690;0xb7ab4dfd94e5a;0xf5ab32be097a7;0xb134cbf006eb9;0xdffe0c0cf3322;0x6b739501824] [0xd3e8a638afd43;0xa9643d1215526;0xcdafa86f803a4;0xd3b9ce141d69a;0x13c56dbe4ede5;0xcdc275c8f387f;0xb3d304b5ecebe;0xb69ebf28dead2;0xdfd15151b1ccb;0x10e6b47658e] [0x1707e40727b8;0xd21ff3b4caeff;0x31c7be974a2f4;0x84edc8944a97a;0xc2edb0c30579b;0x11d85b5330db6;0xe62d2c9d4454b;0xa3d95470cfc28;0x172668797b458;0xb7c5ff92f74]),[[0xa080eaf41a64f;0xd3dc4d555439b;0x2fa7305cfbde9;0x983580c5af381;0x50680ca30df47;0x445376024fee0;0x58c516858f898;0x7d04c494960e1;0x3b3e47aa7dd6;0xceb068c820c];[0xb336fd99ae307;0xc0b346f39e8f3;0x3cb4b71758c81;0x94525107ca651;0x8c1b0322d7fa0;0xd38cf32f2f11e;0x46cfabe77ccf1;0x5736a1562154b;0xe7e276fc05b3b;0x82538a0d07f];[0xd0b2e162ad226;0x4d9a402a0b434;0x5a50cd3131361;0x59506e31a575d;0xdc07a62a4ec44;0x67227e738c6b6;0xa20bfd6a15c5c;0xf5ad0804cf493;0x59c9e33123c02;0xbc0c6f0929b];[0xd0b2e162ad226;0x4d9a402a0b434;0x5a50cd3131361;0x59506e31a575d;0xdc07a62a4ec44;0x67227e738c6b6;0xa20bfd6a15c5c;0xf5ad0804cf493;0x59c9e33123c02;0xbc0c6f0929b];[0xeb384516398db;0x5f7810dda0cf4;0x33d624ab703f0;0x8d83fba051c87;0x268dabfd7dcdc;0xa9f46a38f8b19;0xdce0afc08a7de;0x42852b038ce1a;0x806e923685e44;0xf1e55514e44];[0xc7feb883747f4;0x613b3615fdbfe;0x8de926be8891;0x6ce5567789ca;0x658d57255a2c4;0x299888f636605;0x69eefc26f2513;0x14b1765294730;0x6773e4c57fcf7;0x906e34f823b];[0x0;0xa0983dd7773e7;0xdba8cc0c326ba;0xf97a08f21aa2c;0xe6a0daab3429b;0x81c088c0c6fb3;0x2bca03ec3e6b6;0x15b9beaafcf36;0xf0971e3be2feb;0xd4967b580f12b;0x7449f91547c];[0x0;0xcf8ee1bda6bb5;0x29f87b53141e0;0x363d28a358a7d;0x49fd5519782f8;0xc248df1277fef;0x3889015b57810;0x3ea796d96d56;0xb9021aadc2a1;0xe0bb660b31546;0x97d396ddc4b];[0x0;0xefc277cb32ec2;0xd6126a73d33fc;0xf11cec21edb51;0x74a81daa93b1e;0xd350c06d3e7e;0x5a972c9319175;0xd23862dddff1c;0xc22a6d0404a60;0xd7c41572f8a08;0x1b28fd042b2];[0x0;0xefc277cb32ec2;0xd6126a73d33fc;0xf11cec21edb51;0x74a81daa93b1e;0xd350c06d3e7e;0x5a972c9319175;0xd23862dddff1c;0xc22a6d0404a60;0xd7c41572f8a08;0x1b28fd042b2];[0x0;0xb0f3565169ea2;0xa9a287c2dff04;0x4a024059e7965;0x5d92b738270d3;0x9389a673a6178;0xb84bedfbd9c46;0xbb4e122f8df59;0x53dd6da97ee96;0x78632c6c9f373;0x1530da839f6];[0x0;0xe9c60685edb04;0x3ccee13c4b4f1;0x5d44881ecff48;0xfccbe26765346;0xebf46fe72c271;0xe9d642af8287c;0xd485e041c8291;0xb2161a71e15ba;0x5ed7cb487cf3;0x22cf95e9637];[0x0;0xce831e9a43804;0x7ace23be573e1;0x8d6cfcdc829ae;0xf692ed33eb21e;0xb0885f498ac8b;0x8191ad595c091;0x956beeebbda0c;0x5941c4ef692e8;0x53740149698d5;0x36b3c215da3];[0x0;0x9d85529b32083;0x89c65f4802cf2;0x3b6341dbe4bb8;0x1e6b82731a052;0xfc64163a42f3d;0xa796e9e4d8931;0xb9c980949cc0f;0xe8f8a2a727d4e;0xd505f2df3dd7f;0x10ef007f4171d];[0x0;0xa90ca5a201359;0xbd5bc17b9a2f4;0xbdda32f584820;0xec0859d86a530;0xdcb5bbf7b2ed;0x8ee511e67175f;0xa73e2a5638764;0x93c8925398006;0xf4fd662a22c16;0x7180ee6e8d]]);
 ((V [0x3558fa7747572;0x147625d9d3890;0x5cba57bb47c52;0x2e45a9487548b;0x69413aa460fb6;0xe4e443d524e14;0x68f630dbb9286;0xac319902c37b8;0x1f0f462bc4db8;0xa5a0567319e] [0xb3084c09a8aef;0xd626bb5b36029;0x95b9d555a427d;0x92fe86651a71b;0xacbc897456613;0x76aedb438c94e;0x66bfc1ae9f1e5;0x56351b10aa521;0x6f00e70971b91;0x15b77c22926] [0xbf42f770ee4d3;0xf1993f7c1cd27;0xccd0a78f2eba3;0xd1abb3ea0d6e6;0xdc9ae067a4542;0x80317242e3d20;0xf88e60e62ce43;0x287a4511523f4;0x9f015ab3a2253;0x6bdeffa1fa8]),[[0x9be10b73fa2e6;0xcb5e7d01fdb55;0x5b39fdd63c8da;0x3ef43b7374af6;0x70b75ae43c36b;0x91090ed1c938d;0x40ec525d40bb1;0x6961e8f521d90;0x97a550a172b03;0xb3a81165e1a];[0x878d7a7571f5a;0xd5bb0edc3886c;0xf313ed002adaf;0xb5df3dc8cc07b;0x4d3217f439133;0x7410d806a49c7;0x10adc92c996e3;0x7e881486bf727;0xf5e2106e1c832;0x416432cde64];[0x1707e40727b8;0xd21ff3b4caeff;0x31c7be974a2f4;0x84edc8944a97a;0xc2edb0c30579b;0x11d85b5330db6;0xe62d2c9d4454b;0xa3d95470cfc28;0x172668797b458;0xb7c5ff92f74];[0x1707e40727b8;0xd21ff3b4caeff;0x31c7be974a2f4;0x84edc8944a97a;0xc2edb0c30579b;0x11d85b5330db6;0xe62d2c9d4454b;0xa3d95470cfc28;0x172668797b458;0xb7c5ff92f74];[0x3aeea249ee147;0x498d2c41a2b89;0x8f2839d9b5d54;0xed924dcd4986a;0x82322ddd34f97;0xd04326f008b5b;0xf4d89631a6edd;0x7b362854d1c3b;0xb5b94b80861a1;0x45547a43d21];[0x4c9ed82b83bdb;0x8c2de29a95ce3;0x63ebb3267505b;0xc84ceffb82811;0xcaffea170419b;0xa3cdb1169be6b;0x1bd532faf2805;0x351ec31edaeb;0x4028c4ed96691;0xfc0fb88a143];[0x0;0xd8f2514117496;0x610e32590831b;0x152ef3f0acb52;0xf0ab1a479c89;0x143731ef8d5db;0x4d0fc7ef60756;0x3de27aaf80d96;0xeeb051efb5b95;0x6c157313facab;0x71a52cfe022];[0x0;0xa96f3500ff85a;0x7a91d4675bf22;0xffab4e60e0158;0x2d3a0c9122eda;0x810d47831f15c;0xee826ff4e16ed;0x788a7ef2c625b;0x3b6f2a84597cc;0xa4c7ef4a10325;0x80f81820c46];[0x0;0xa90ca5a201359;0xbd5bc17b9a2f4;0xbdda32f584820;0xec0859d86a530;0xdcb5bbf7b2ed;0x8ee511e67175f;0xa73e2a5638764;0x93c8925398006;0xf4fd662a22c16;0x7180ee6e8d];[0x0;0xa90ca5a201359;0xbd5bc17b9a2f4;0xbdda32f584820;0xec0859d86a530;0xdcb5bbf7b2ed;0x8ee511e67175f;0xa73e2a5638764;0x93c8925398006;0xf4fd662a22c16;0x7180ee6e8d];[0x0;0xa6567a1a6d7ae;0xf2a81da9af78b;0x7e7df53ac83bd;0xbd40c52044446;0x34ac209c77d27;0x879290ca60fc9;0x2b66d3f5db489;0xdc1b67339e479;0xc2f0a2ab4c0ab;0x11da6778ef];[0x0;0x9fcf2a6dd39c2;0x46a7f9ecee2c7;0x5c53361a4ebc0;0xb146ff58f60ba;0x96e8462f3a64b;0x10e6492dbc3af;0x5dcd8d3a074f5;0xd53a127979c67;0x307aad7e55ebd;0x2d19d2be790];[0x0;0x587294b87493a;0xc054d6c6db3f9;0xf50d235963e59;0x4c2d934aa4378;0x9c83063401747;0xf9404ad001753;0xdbe71795578fd;0xed0a6a5f2dbb5;0x196b65c29494a;0x2a4e897385d];[0x0;0xe2b1151715c89;0xa0086c3b5ad4e;0xaa2d4b6a64973;0xd0730f9720c3f;0x5d408ea66bf4d;0x3f028d167ac35;0x56b93ef6e77c3;0xeede9abfa08d9;0x2edebb5227682;0x15c7a7883466f];[0x0;0x13f44c84d228d;0x8a181a7942e06;0x7c6d3bfe82c2c;0xd50652487619d;0x9a79204466029;0xafe78f3e2451c;0x1c6d2fa73cb66;0xefa6659483401;0xa4f99eacc1e7f;0xe0cdd05454]]);
 ((V [0x9231472bd4b5d;0xeccdd8d803600;0x4390c6de87271;0x683de6a236cc6;0xfb8848dcb2f5c;0xd7addb4f74ea8;0xc4f172dfc95b6;0xfbba50a019dab;0x21196bf1bb1ae;0x6c1a4316a6a] [0xf8fed1c3e6707;0xb0fea528d5778;0x7dad67e0eb15f;0xbd71da3f7762a;0x8ff78be55a094;0x283f0705c5670;0xf5b95191b3a9f;0x1ce6fb1589b62;0xa18c368ade60a;0x4a61a9054af] [0x993b731d8bf27;0x3534dafc3f11e;0x867735dff098b;0x5bed4b016dd20;0xdade7a9869c4;0x744dd3941d57d;0x870b29cbd22fb;0x31c643ade14c1;0x1cc7344b65cb4;0x16bf0833e3a]),[[0xb398b86f41c5f;0xd5903fb489eac;0x73b1b68b0c612;0x4b259a8478460;0xabfdda79fe69b;0x6326168b78a30;0x7f04aae2470ba;0xba7c1c7463fbe;0x87e35de588652;0xce3332dc316];[0xcc0f7f69f178c;0xc8fdfdc702eb;0xb232fd9675bbe;0x115e128585458;0x472558eda33fc;0xf17409bf64660;0xb42c91d692317;0x6e6c7d753ba70;0x2c63b2548b141;0x914fd308ba9];[0xbf42f770ee4d3;0xf1993f7c1cd27;0xccd0a78f2eba3;0xd1abb3ea0d6e6;0xdc9ae067a4542;0x80317242e3d20;0xf88e60e62ce43;0x287a4511523f4;0x9f015ab3a2253;0x6bdeffa1fa8];[0xbf42f770ee4d3;0xf1993f7c1cd27;0xccd0a78f2eba3;0xd1abb3ea0d6e6;0xdc9ae067a4542;0x80317242e3d20;0xf88e60e62ce43;0x287a4511523f4;0x9f015ab3a2253;0x6bdeffa1fa8];[0x7c80f22c4271e;0x46abd5f771050;0x2a9328b8935db;0x33eb7a6161b6c;0xcc3b57ad286c0;0x58ad1bc15cefe;0xff6d65ec62634;0x6f2d25aae6bfd;0x1c9a0b410f90d;0xea488b07940];[0x4f8e8d3daee36;0xc5e409e4ff29b;0x879fd4dde25e2;0xdd729824238ec;0x7aea01407ad3b;0x98c6edfe07761;0xb4bf2bea2fce3;0xff3f57ca54e72;0xfc9a7137b833;0xa7074801269];[0x0;0x4b336c5657ae7;0xf3dae99451f28;0xfaf5cb5049c4b;0x2185e996117ab;0xd4d5c1bc9fd3b;0xe592007559bef;0xa83e6c56f01c4;0x5224713491aa2;0xfdde6e4ab2a17;0x42b51301dd0];[0x0;0x350bc6bcd9737;0x517a804d019dc;0xd7074ca199b92;0x30078d5c6532b;0x439582b9ea379;0x55e44fdcdb9b5;0xa3193444c3127;0x9fdcfaa20112f;0x2f182d2f7f60a;0x56e3048f9b4];[0x0;0x13f44c84d228d;0x8a181a7942e06;0x7c6d3bfe82c2c;0xd50652487619d;0x9a79204466029;0xafe78f3e2451c;0x1c6d2fa73cb66;0xefa6659483401;0xa4f99eacc1e7f;0xe0cdd05454];[0x0;0x13f44c84d228d;0x8a181a7942e06;0x7c6d3bfe82c2c;0xd50652487619d;0x9a79204466029;0xafe78f3e2451c;0x1c6d2fa73cb66;0xefa6659483401;0xa4f99eacc1e7f;0xe0cdd05454];[0x0;0x3165ca28097e5;0x84ae74dc57636;0xeec1f5fdabf20;0x50754d661e234;0x869b774710c0a;0x7b2e2cdf7531d;0xa80d13b1ef541;0x31cf3c4359f9a;0x3b50c82bd16ac;0x1d79de061a];[0x0;0x8fb7607d99b02;0xe386c0071584f;0xd6425b4ee0685;0x7a19adbe113f6;0x977e2e2071ff0;0x76c9b5087d8f1;0x9aa0974da5905;0x99de8d74f9d26;0xf242c4a42bdf1;0x6b2813dc8c6];[0x0;0xc8b7267dabd5;0xcb24391a8145a;0xa5ec9c57a50e5;0xc994dccc50fa1;0x9bd4b439888a2;0x260129a048a79;0x4352994b5e40c;0xfbcfd48664434;0x60b749affb7a7;0x3d5c9537dd4];[0x0;0x147afcc024963;0xf116aff252d76;0xc2be122019112;0xdec8499d5f330;0x57d13307072c8;0xd2bd2210e1b7b;0xc9cb95999f2e2;0xbfe9b4ba0a92;0x6d1e854328c93;0x4a81d22c20156];[0x0;0x525df84efb97c;0xc661053f8c0dd;0xac05aed8c33a0;0xc67b616108b28;0x655b11862c9fa;0xc94aba9638837;0x17a078ee2ce88;0x32f837ded9b46;0x6736f86ec2e55;0x1f68d4b78a3]]);
 ((V [0x2126acaecd0bb;0xd3dc4dffb381;0xe4b0ce9e26260;0x172fbf316fbed;0x581196fe23384;0xdac6f02e1e904;0xfb6967c2a32f3;0xafa74cf1c6ae3;0x95695682ae3d6;0xa55361aef48] [0x3b02f60502fe8;0x329016f60d8bc;0x764754ac31cff;0x48bf41ba10bdf;0xfa921ab4cf414;0xd0a684fdb8b51;0x98a64af0edf95;0xd3f70367caa2e;0xd3962cb7ddcaf;0xa000735b26e] [0x9796c125b8e03;0xeca9a795e317b;0x231d4b8c48d9e;0x567485d7f8375;0x358d9ddd88a3c;0x5912083a3319b;0x265a2e499616e;0x3a332b46a0242;0x535c19eadcfd2;0xe49a8d4a421]),[[0x47c8d700f60c9;0xb8b0913882fd0;0x9f3c614dd401b;0x320819027a95a;0xe6ea1b92f4ad3;0xd3067ce2f2a8f;0x68119d4cd194f;0x3e0eb0e35a278;0x32134e828d1f0;0x537e2b379a6];[0x8630861cd1de7;0x5431575a490f7;0x4564c7467f6b9;0x9102842c11666;0xe1bc74465623c;0xafcd186e724b1;0x71893c7b84bb7;0xef734e88e9c33;0x5116e0cdc22d1;0x280a1793bcb];[0x993b731d8bf27;0x3534dafc3f11e;0x867735dff098b;0x5bed4b016dd20;0xdade7a9869c4;0x744dd3941d57d;0x870b29cbd22fb;0x31c643ade14c1;0x1cc7344b65cb4;0x16bf0833e3a];[0x993b731d8bf27;0x3534dafc3f11e;0x867735dff098b;0x5bed4b016dd20;0xdade7a9869c4;0x744dd3941d57d;0x870b29cbd22fb;0x31c643ade14c1;0x1cc7344b65cb4;0x16bf0833e3a];[0x57bbb85636ca1;0x493d55b0088e;0xb8adb08500e85;0x4f511d310da7;0x92ce7c1966b2f;0x72fe6e1a9545b;0x871f6a1cf8d76;0x52ddf98714f9f;0x5a0998df1a265;0x24130c49898];[0x2e74cdc69b147;0x4f9d81ff48869;0x8cb716c17e834;0x8c0d7259008be;0x4eedf82cef70d;0x3cceaa53dd056;0xea69d25e8be41;0x9c955501d4c93;0xf70d47eea806c;0x3f70b4a332];[0x0;0x47bfdf38bca61;0xd7c7aa2749969;0x6734af5928254;0x4b7b95f69fb24;0x91723e683490e;0x851f64e6753ae;0x23d5402baed34;0x6ff9cdc09a67a;0x658140edfce0b;0xe10f453651];[0x0;0x63dfe10100a88;0xdc9d088a73713;0x450fb0cb3eef;0xeeb81265f9766;0xd9914b1cadc8e;0x6c880bf15d3b0;0xa756a4553f9cc;0x8e69725cda19e;0xab310cb9ab27f;0x76b2585e37];[0x0;0x525df84efb97c;0xc661053f8c0dd;0xac05aed8c33a0;0xc67b616108b28;0x655b11862c9fa;0xc94aba9638837;0x17a078ee2ce88;0x32f837ded9b46;0x6736f86ec2e55;0x1f68d4b78a3];[0x0;0x525df84efb97c;0xc661053f8c0dd;0xac05aed8c33a0;0xc67b616108b28;0x655b11862c9fa;0xc94aba9638837;0x17a078ee2ce88;0x32f837ded9b46;0x6736f86ec2e55;0x1f68d4b78a3];[0x0;0xf5af7e9785df0;0xd9aae3f8882eb;0x43a682f7ece5f;0x2aaeb0db3692b;0x2c5e49311dddd;0x5730cb7aa58bf;0x441e1c0059110;0x3575fc2d35ca0;0x364f1f5065f43;0x159c9af894f];[0x0;0xaa6b851bc056e;0x765054e14074c;0x5a3ed2ae5005f;0x2f92a83700b0a;0xeae83d600fd35;0xf0c5b2597446a;0xd5b66d9f798a2;0xd78b9f5841337;0x774fca964b2e6;0x2da62b4ccec];[0x0;0x8cbf1a4f6dc86;0x783a88f497e9a;0xb6e0f67266c13;0xdb3e2bd9fd1b4;0x40b641a02cd36;0x320b4a250501e;0x47b780f5e3b1d;0xb5346245ea16;0xfd45a3a75440;0x19db8bbf0d9];[0x0;0x658922c788b01;0x30368b1e1b8ac;0xca8f372b42da1;0xb5a7902799341;0x631d10984fc36;0x49ab355bba210;0xa1d387e093b67;0x425a27dd5b75d;0x1182ea16624ed;0xa0876d6dbaf3f];[0x0;0xc8bf4a69ecfe3;0x1c4f759ba355b;0xf19f83cf37d83;0xeaa4d2aa0d69b;0x7120616560526;0x20b3658faa042;0x9ad002d1d3bf6;0xa32ee3da52f14;0xebae8c52c396a;0x6754678cab7]]);
 ((V [0x28891bde96638;0x588c0414af66a;0x279d47603443e;0x3735e8c2607d;0xe7b0252e2d292;0xf4d8c0561df45;0x3de68eecfcec5;0x4bb959237aa56;0x4fe9b9c558d31;0x2c56a43924f] [0xf9d8be97e07bb;0x488f7830f19ac;0x7c35581821d0e;0xb2e1b17e68394;0x3939f1a258f0f;0xf47f7e1fec0ef;0xb0cfaac5bcc3d;0xc679b538e7274;0x2e3b8361e148a;0x6063e99ab06] [0xc63074a4e3853;0xf76c9e17e6323;0xb36519bdf3b80;0x93afb9afb86ef;0x3c2993e1bbd3e;0x5354f8cb5b638;0xf828f38502d6d;0x318bd538efc3a;0x912eac512298a;0x114fe8facce]),[[0xc33dd231e1cd0;0xf3c16e7242636;0xc2da1fed6b279;0xa19ef4a4a5922;0xfc33d2e6c0f4c;0x5da22ced96985;0x9fbc3b33996a0;0x937cd00f8a850;0x5acb648a376b6;0xb170a5dbc4d];[0x9ac6330002d7b;0x7d3c0cf80cde4;0x77d56df0510a7;0xef22d89c28747;0xfe18716e53ef4;0x10c4e5f6713d7;0xe66ab4925a1d8;0x4299887adab08;0xc104f46a2c56;0x5e5c85c2e34];[0x9796c125b8e03;0xeca9a795e317b;0x231d4b8c48d9e;0x567485d7f8375;0x358d9ddd88a3c;0x5912083a3319b;0x265a2e499616e;0x3a332b46a0242;0x535c19eadcfd2;0xe49a8d4a421];[0x9796c125b8e03;0xeca9a795e317b;0x231d4b8c48d9e;0x567485d7f8375;0x358d9ddd88a3c;0x5912083a3319b;0x265a2e499616e;0x3a332b46a0242;0x535c19eadcfd2;0xe49a8d4a421];[0xd09da08ac5fca;0xe101267fa8c1b;0xdec9d781126fc;0xcd28c650ebc3c;0x75f51ba83c29d;0x83474829c993;0x16d3f9b0a2b17;0x49abd438c9285;0x114e2f264c580;0x54912b52694];[0xca2892753cdb2;0x9c3ae678641c8;0x990b966f3e9aa;0x21fa124b3cb0a;0x882355c617c57;0x8907173d4a44;0xcf96bae1b76c1;0xf8edb44211883;0xfac22020566d5;0x9cb5a7079f];[0x0;0x19a00f205c3e0;0x7c3da4d96406e;0x86b57ad78f1c;0x867586dfd1750;0x7262670ada27b;0x9af7376d98053;0xbdbf35278207f;0x6ffadb8c36328;0x172d263af84ad;0x8d5e426e99e];[0x0;0x14fc9098a7363;0xdfb81c1f62aea;0xdc079e7cb32ca;0x9510ef2978055;0xb3ebf21407120;0x55b635a68e9c8;0xaf6d4dd49471d;0x5e357351f6317;0xa718f9e4360ca;0x9e73736a053];[0x0;0xc8bf4a69ecfe3;0x1c4f759ba355b;0xf19f83cf37d83;0xeaa4d2aa0d69b;0x7120616560526;0x20b3658faa042;0x9ad002d1d3bf6;0xa32ee3da52f14;0xebae8c52c396a;0x6754678cab7];[0x0;0xc8bf4a69ecfe3;0x1c4f759ba355b;0xf19f83cf37d83;0xeaa4d2aa0d69b;0x7120616560526;0x20b3658faa042;0x9ad002d1d3bf6;0xa32ee3da52f14;0xebae8c52c396a;0x6754678cab7];[0x0;0x1cccde33b41da;0x9f9b77b21084c;0x5fa93ab16c61f;0x4ee5cd6a75295;0xc45c1fe78204c;0xbf82a86d87538;0x906ee94ffd17f;0x2ae8eaffa6d73;0x38d29527e2bc8;0x6400903224a];[0x0;0x8357ef7b0f9e1;0x4b3e648364533;0x76e5abcb73116;0xfb50b6ffe9cd1;0x38f05046307d9;0x870f654251a1b;0x650e96d7100d5;0x2e5df20776a28;0x1a78c250dd847;0x6ac4971403f];[0x0;0x97b64ccfe1016;0xc24b797a28372;0x21ca867e347f4;0x4da3efb51aa0e;0xe8286cf5e502;0xf9fce14afe5ba;0x919375a3591c6;0xf8c3d95724663;0x16bbfd4d07b94;0x1057d69ac47];[0x0;0xa98bd4d24eba0;0x6bbc436204ca7;0x7c4fb9c265a17;0xa150a8c44874d;0x45a5b257538fa;0xae817400247f1;0xf86fdfbbf0ca0;0xdfbdb08cbbe53;0x58a1e0d18987d;0x60a0c5fe3f094];[0x0;0xe4f964bfdf4c3;0x7a48de4c43ff3;0x546a6f5b44a7;0x9773a2956b7f5;0x7efdc203eae69;0x81aefd85d7f31;0x3d5be86231721;0x5abd546ed8d30;0x8a8beea771af4;0x10b1cb8c961]]);
 ((V [0x8efe0428c787d;0x4e1e04370e2d8;0x4f93d32a2f2c7;0x666f596a5d284;0xb3c9382bb6b49;0x24caa937ee182;0x7ff7443eeafa4;0x80a3199e5fb5e;0xb5f1e394fcf;0xb1d17c17179] [0xf62e713b0af6d;0x4038c8a509a10;0xbf9252ba24abc;0x7aaae04a6b914;0xe30482738bb60;0x553a0f85d3a7e;0xf63f1d7e69c83;0x8cffb37234db0;0x9a8312f5df6e6;0x5aa8bd74278] [0xd371298a33dcb;0x865576ce7d54d;0xb627d20a1468c;0x46fc750ad24cc;0x61f543a00353c;0x85f23404ae8f;0xbb148496b199b;0x6b0774b359a74;0xeb0616db168d2;0x5004ffac765]),[[0xc8598d0599f40;0x7044c94775f39;0x94b89b2a0b047;0x6cb210130d573;0x2429e1881ce4e;0xa0425c01a37a3;0x31614689ecd9b;0x3ebb7df6ba488;0xd03c5b77d586b;0x41b88a9d975];[0xf44429a7ec3a9;0x2426f5ad3e8c8;0xfe44071e6200f;0xf974a945870cd;0xab564c6ddc497;0xe8ce5aac199eb;0xae120950d9ba4;0xf54f6a4f28660;0x154d09f6cadce;0x335f895170a];[0xc63074a4e3853;0xf76c9e17e6323;0xb36519bdf3b80;0x93afb9afb86ef;0x3c2993e1bbd3e;0x5354f8cb5b638;0xf828f38502d6d;0x318bd538efc3a;0x912eac512298a;0x114fe8facce];[0xc63074a4e3853;0xf76c9e17e6323;0xb36519bdf3b80;0x93afb9afb86ef;0x3c2993e1bbd3e;0x5354f8cb5b638;0xf828f38502d6d;0x318bd538efc3a;0x912eac512298a;0x114fe8facce];[0xc60b0071f08a1;0x6d5836578681e;0x224fa41fc5614;0xa5dd0e57017e4;0x847dabcae6355;0xc639b62307455;0x8dfaac4c86f2d;0x2ef87e1246313;0xd83821974da86;0x72e64332a0e];[0x2e392935fb8d0;0xb6cebf55b80aa;0xdbf462fe9c9fa;0x53979aee858e9;0x26d8a0a2f6142;0x2294a48912596;0x20175d0452c77;0xc656ec3ce234d;0x3d14e85f7d348;0xc079461ecfb];[0x0;0xc0ec7375088d0;0xaf8edcd4588f8;0x4e540a4251fe9;0x1cafc15b31bee;0xdfbefe1efbe47;0xcce6f28de1a3e;0x8159a8c25cef6;0xc8e8775bfd99d;0xd68b3f9f49a8b;0xab4afc72f4];[0x0;0x8aafb12a35d31;0xdf43852496bd8;0xc7dd74f7a17ef;0x24ebd6332f666;0xa45786fb5d52;0x75bf6e8480a18;0x9ced71d5d18cd;0x2036fd1565cac;0xff64d64862796;0x471c4f6de1];[0x0;0xe4f964bfdf4c3;0x7a48de4c43ff3;0x546a6f5b44a7;0x9773a2956b7f5;0x7efdc203eae69;0x81aefd85d7f31;0x3d5be86231721;0x5abd546ed8d30;0x8a8beea771af4;0x10b1cb8c961];[0x0;0xe4f964bfdf4c3;0x7a48de4c43ff3;0x546a6f5b44a7;0x9773a2956b7f5;0x7efdc203eae69;0x81aefd85d7f31;0x3d5be86231721;0x5abd546ed8d30;0x8a8beea771af4;0x10b1cb8c961];[0x0;0x7589d3e8bd648;0xe372a406155ae;0x66ad42efc2a90;0x833c623c4a349;0x57298192a13b1;0x5cdb272e61b6a;0x3f2eb95564edf;0x43c91e1ae7f38;0x989d2fc17d620;0x244b1632871];[0x0;0x55e8ac1c23110;0x335d92cbf3337;0x5695ab2c26b92;0x19e7beeaf2523;0xbe8eed4117f63;0x16749c1e0d1b5;0xf689d7633b3ba;0x23f9dbc0bf420;0x2503beef105af;0x7ade5c6647];[0x0;0x618ce54159bc4;0x3a3713f68af75;0xa99407bd35b6a;0x940ea3ebac82;0xdd536ed934ea6;0xfbe5995aa2458;0xcfbb67a04a097;0x607b91deacf22;0xfc5958078f8ac;0x23af17d7532];[0x0;0xe4715eb75b08d;0x4a22c6dced98a;0x601a1d46580b;0x60cd8eb3dc88e;0x50b742da214be;0x3f82a3d51679c;0x1b8d4b443b13d;0xbe41f33bedea9;0xcb0d4f2019a91;0x5af134be9e1a8];[0x0;0x4b386e08fc222;0xcb25b56f83e35;0x1024c72f82999;0x215b23185d9d5;0xcb3258875247;0xe80cef61aef5e;0xa38a1f366e6a9;0xb5ef79e2217ce;0xfe9397d178c2a;0x3ef8dab1e46]]);
 ((V [0x40273fe150707;0xf9afb8460b22d;0x2f06b940b945a;0xae5d0d5e4d0f2;0x35f0ea9879b0d;0x15c80a9040391;0x3a3bac3d501fe;0x8512c25e06301;0xc66bf1f830301;0x4aa85a31d53] [0xe9da0c1f889c4;0x3fd7a7608979b;0xe55cf4408250;0xf6aa2a19ab6b5;0x766fac9e8cd2c;0x6bfe5c96ca609;0x8ebedaff7cfc3;0xfef59f1624749;0x92e8815b6fe75;0x450a4547340] [0x15206c814ae14;0xd0479226ad88b;0x7ecbc134eb9fe;0x83d5d323e7b05;0xcbf060bce579d;0xec27fd636906d;0x8cf3a0dfc051f;0xc862f783f4ae7;0x5c62031cd8978;0xfbbe7d723c7]),[[0xfe4522dff67a1;0x4dc263b4ae11e;0x6397c3a3b2a96;0x73df06514738;0xf76ae484f0e15;0x60a60fcd63bde;0x44d52cda3069;0x3f5c02bd232ba;0x342d51e73f47f;0xa27eb6472e1];[0x271bae0797635;0xc13dfd83a6fe9;0xae9a6e215549;0x3a0ae438f7d7a;0xb7b4b14fad6fd;0xdcb156ae30af2;0xf2f8b50380983;0x4baaa931adde4;0xa20d768d359cc;0x40fa08654ba];[0xd371298a33dcb;0x865576ce7d54d;0xb627d20a1468c;0x46fc750ad24cc;0x61f543a00353c;0x85f23404ae8f;0xbb148496b199b;0x6b0774b359a74;0xeb0616db168d2;0x5004ffac765];[0xd371298a33dcb;0x865576ce7d54d;0xb627d20a1468c;0x46fc750ad24cc;0x61f543a00353c;0x85f23404ae8f;0xbb148496b199b;0x6b0774b359a74;0xeb0616db168d2;0x5004ffac765];[0x19315a1c465fb;0x4375f399c960b;0x34a1756f0359f;0xc492d13358891;0xecb6e875d41f1;0x91e6e39904e3d;0xde299da987614;0x855d749dbb903;0x3cb34613ded7b;0xae6d1318535];[0xdea53eb50e02;0x7dc809e9dd9de;0xd648317311faa;0x757813059f4e8;0xcafdc8d9d950b;0x4aca73152bcb4;0x14cf1759f936f;0xc64d3493f24e1;0x655a307956c50;0x928cf54cf85];[0x0;0x68ff1542066b9;0x71cbaf012b00b;0x3af5c85cff8c0;0xe05537efe36d8;0x86e2386d48358;0xbc1d8c8ee5910;0x535967798cbc0;0x7cb7aa7b5e1c2;0xbb51aaf5d59c8;0x317be494eb5];[0x0;0x1931fffc48da;0x2b5a5f6fd0e1e;0xa1aebc34d1724;0x56f0af23179c9;0x3394b892732cf;0x4e69e3f5b7d62;0xf5a051c663039;0x65896e789f064;0x89e687bb04305;0x32cac53ac75];[0x0;0x4b386e08fc222;0xcb25b56f83e35;0x1024c72f82999;0x215b23185d9d5;0xcb3258875247;0xe80cef61aef5e;0xa38a1f366e6a9;0xb5ef79e2217ce;0xfe9397d178c2a;0x3ef8dab1e46];[0x0;0x4b386e08fc222;0xcb25b56f83e35;0x1024c72f82999;0x215b23185d9d5;0xcb3258875247;0xe80cef61aef5e;0xa38a1f366e6a9;0xb5ef79e2217ce;0xfe9397d178c2a;0x3ef8dab1e46];[0x0;0x93e760d651622;0xb4dc118ed6a83;0x4d612e5d138f7;0x3c03c55077ae4;0x6a6d158de8824;0x988c03408c6c;0xab43fa0e3b8c3;0x4508f2542a443;0x56604731084b6;0x201b146ee07];[0x0;0xac16923e594c1;0xbc81cc0f7d779;0x6448f72606f2e;0x8408b1a1c2245;0xd72c4aa9742ef;0x9903e47eed126;0xbb1835f27d559;0x17408c6564966;0x9d4e22bfd68;0x7b835903c87];[0x0;0x46845761546fc;0x82201560a94c1;0x6febed082f024;0xccfb147e84956;0x8a6f713b32677;0x8966993c84000;0x77a27733e3359;0x6488f2ef0f75d;0x76acb7e5c5763;0x12f30167574];[0x0;0xcf3105c7602d4;0x760997448ecd;0x840b6e4815335;0xd6541945a6ed7;0x95fc426d7d8c8;0xae1ee52d4adc5;0xd36be6d7e3817;0x5cb380f3714b8;0xd2753473963e8;0x453dc98cde250];[0x0;0x1b612fccf9b78;0x43613c6d84673;0x47a390bbddea7;0x38b7ad3208d7;0x16b537ebeec6b;0x8b2b9e7a59b57;0xdd0a9d52cf2f5;0xce73078a7c8be;0x8ee282d725d81;0x14225f17189]]);
 ((V [0x52b23815d1d01;0xb385a1bb45243;0xa141818aa1193;0xed95b00d33709;0x2a1a56a9dc918;0xe1a372db3ea7d;0xb89e880ef88aa;0x414b980de986d;0xaacaa576961c4;0x993c0651642] [0xac4bec839fd12;0x27a5877fb05e1;0x3a2e75833c905;0xc82fe2a7a2d4f;0xc0858934a441a;0x7c103e9f695b3;0x87924a44ffdc9;0x1feb7ed45e5e2;0x985a75a4626d1;0xe6b80d52a0f] [0x8d0be77912b5a;0x87836a7222c90;0x534e8ac151a3d;0x660d900fdaa5a;0xea1f389402435;0x68b5211519a72;0x8a604571b8ac5;0xfd539d9e55842;0x55331e67e8dc3;0x1cea691bb05]),[[0x3458a3d4775e9;0x67327294acec2;0x8792ab3d165d0;0x75297d9d2840b;0xace5814cf68b0;0x32a6dcc87e8bf;0xf0ba95ad1db80;0x3c1702c59932b;0x41b95955f776b;0xe2c9d1e8311];[0x456753a4eaab2;0x18a1208036e0c;0x19bd8e57a00f;0x937f3c0005c57;0x9eb4675132a6e;0x95fd67bb5721b;0x58829d43c7f6b;0x61471dad2d83d;0x30a9acfd723cd;0xf4fac099fb6];[0x15206c814ae14;0xd0479226ad88b;0x7ecbc134eb9fe;0x83d5d323e7b05;0xcbf060bce579d;0xec27fd636906d;0x8cf3a0dfc051f;0xc862f783f4ae7;0x5c62031cd8978;0xfbbe7d723c7];[0x15206c814ae14;0xd0479226ad88b;0x7ecbc134eb9fe;0x83d5d323e7b05;0xcbf060bce579d;0xec27fd636906d;0x8cf3a0dfc051f;0xc862f783f4ae7;0x5c62031cd8978;0xfbbe7d723c7];[0x3f14034a86cd0;0xcd92103263fa1;0xb74ca8062aa75;0xa73bf8ffa8140;0x46d3a98782919;0x573d71f2be079;0x8dba69294393;0xceca0541e306c;0x29c05cff7f23a;0xc5d04c20176];[0x653505a63de3;0x4b0f104dd2e6b;0x4a4f30df4f599;0xec4343005db16;0x57e0bdc9b0154;0x3ebff5c8991a2;0x4fa6f6b133bd8;0x927d186b4a7d1;0x6e94ffdf3192;0x2f2a7479e40];[0x0;0xedf0934d674f1;0xef981b3823b41;0xec7412f45c77f;0xace7ebc3e8784;0xc557d0a9c5b88;0x73777ea3400d8;0x56a83c695f8a8;0x6152c3d11199f;0x7a8d4e8cc4662;0x9bad9d3318c];[0x0;0xb02382b79326e;0xca9c81ac3e6c9;0xc9ee2f1c14b7f;0x34231fba1c656;0x5dd44b4489f0e;0x87510245deccb;0xdd7952e4e0a3;0xcb55a1bee034a;0xa048c73777b3;0xdf04a1ba316];[0x0;0x1b612fccf9b78;0x43613c6d84673;0x47a390bbddea7;0x38b7ad3208d7;0x16b537ebeec6b;0x8b2b9e7a59b57;0xdd0a9d52cf2f5;0xce73078a7c8be;0x8ee282d725d81;0x14225f17189];[0x0;0x1b612fccf9b78;0x43613c6d84673;0x47a390bbddea7;0x38b7ad3208d7;0x16b537ebeec6b;0x8b2b9e7a59b57;0xdd0a9d52cf2f5;0xce73078a7c8be;0x8ee282d725d81;0x14225f17189];[0x0;0x46c440a8e84c0;0x6e50351294bc3;0x606d1769b70b2;0xb1f983b8415fc;0xeba17a56df45a;0x590c16aba1e66;0x4edb4b786f192;0xc42e2238dcf9e;0xc79a7d9173de3;0x129e89c1de5];[0x0;0xb18da516c9142;0x1b4e5d752d714;0xacd5bccc18332;0xf5af2167641c6;0xb2a67c021d638;0xc66b39aed1460;0x71e24269e0590;0x5e755d59f8c0b;0x5de4f240c623d;0x15c5c2db507];[0x0;0x8f09c88de7a1d;0xd9e3d5410d3d8;0x422863795677d;0xfbf5144f5b6af;0xeb3c20ea6898;0x4dd8a02913ac2;0x47f5ededb6c63;0xc7b337a43f15d;0xa72c51a1da014;0x92a34decef0];[0x0;0x29e93abf94168;0x4eeb240c45bad;0x9a6b04121283f;0xa92efa7004527;0x702c1b8ad9dc8;0x20ae83106e289;0x95ece60d7ed20;0xa1bd456126fcb;0x27f085e3eb190;0xe6c1fbf5ef05d];[0x0;0x114a13030a688;0x90be16632708e;0x91cbf751e0e09;0x9dd80214b260c;0x2b38ef92e8f02;0x3cdc645370403;0xc98b88d47c2c1;0x4ad202bb97e7e;0x55d4ac4a61002;0x8a1a18cb2c6]]);
 ((V [0x3a3a1582d7943;0x22b9006b4e7f3;0x3eaa984229483;0x32fadd2ef0933;0x6f59a678d1647;0x50767855c7d27;0xbf67623b35aa0;0x1d30c89584b35;0xa4d8aa54810d7;0x1b35c17c213] [0xf86459dfb5628;0xfe67b8f630cf9;0xbbb250126dc29;0xf905333bf2a9;0x3ea65e9885965;0x24c4a0e5384a6;0x1507f043d7d38;0xe984313189d59;0x4354773abd8db;0x93f25b7a92a] [0x2ae476a2720d8;0x958044e7b62c7;0x7b29d28d529ec;0xefba5f9c5ead2;0x2a987cbcc8df5;0x6af413b46dd39;0x497c69f2a23e;0x9f7e925de1678;0x7aead1cde4ac9;0x77c2f3c2fde]),[[0x93ef25b959409;0xa2f54efca8fd6;0x7e6266da830c6;0xda417268a8530;0x7705b9a64bec2;0x40b4dc706504;0x6f1b083983df4;0x624fd1e6fc35c;0x3778348dc25c9;0x3fad330b346];[0x3c3cdfbd6b4f1;0xe9d40da1ea505;0xb8c50bbeae4e6;0x4bf45daff2599;0x128120c18857d;0x7b0284a7d8838;0x90c11e913cf31;0x94bf529e3ae7f;0xaf64e0f3e5188;0x8544fd1f6f1];[0x8d0be77912b5a;0x87836a7222c90;0x534e8ac151a3d;0x660d900fdaa5a;0xea1f389402435;0x68b5211519a72;0x8a604571b8ac5;0xfd539d9e55842;0x55331e67e8dc3;0x1cea691bb05];[0x8d0be77912b5a;0x87836a7222c90;0x534e8ac151a3d;0x660d900fdaa5a;0xea1f389402435;0x68b5211519a72;0x8a604571b8ac5;0xfd539d9e55842;0x55331e67e8dc3;0x1cea691bb05];[0xf78067c3c99ee;0x9767dbb1af6a3;0xfea0817b83233;0xeeeaf017a562b;0x68ee2672e7ec5;0xea344ec37ec4a;0xc40230bb8245e;0x5b8fef9d935b8;0xff1ee43adac2c;0x9b86ca84522];[0x44bc77f9a18cb;0x526c31f03ae61;0xba248a432b2b3;0x5d096d984cf6d;0xa992fa4ea06b7;0x90ce35e459bed;0xccbeedd5baad2;0x392f6300a78c6;0xb045fcb90a55c;0xe9be329b1ce];[0x0;0xbb3b176834131;0xc733a8225ff45;0xb5bbadc3ac302;0x2918ed5012cee;0xcb992cd7fd5e;0x65115cfb2ee6d;0xa673e794bd568;0x49b74c6f9b1e6;0xbb6be6873f42c;0x11e1a3c67ee];[0x0;0x7353e16c770ff;0xb8d29edad183d;0x49fa5365678d8;0x5f27d47dd078c;0x551f245d3a18f;0xc3ace104ab2cd;0x28a3a829376d;0x18a754d53e9f6;0x90af4244065c8;0x731400acf0];[0x0;0x114a13030a688;0x90be16632708e;0x91cbf751e0e09;0x9dd80214b260c;0x2b38ef92e8f02;0x3cdc645370403;0xc98b88d47c2c1;0x4ad202bb97e7e;0x55d4ac4a61002;0x8a1a18cb2c6];[0x0;0x114a13030a688;0x90be16632708e;0x91cbf751e0e09;0x9dd80214b260c;0x2b38ef92e8f02;0x3cdc645370403;0xc98b88d47c2c1;0x4ad202bb97e7e;0x55d4ac4a61002;0x8a1a18cb2c6];[0x0;0x67a31d3c4a1fa;0x6ad52969b10e0;0xee2e857ccde75;0x960710926fca7;0x5123dc535b1ec;0x41c267cffdbe5;0x6e2b1395a6c05;0xfd07c3d2feff7;0x941ddb36d4b3e;0xcfef3c43a0b];[0x0;0xb09060847cd1a;0x544bb385b02f1;0x31acdfc6f7e0c;0x8e122de56ed90;0xf1b424d968103;0xebc85128e57c4;0x133a6a060437b;0xdbf46233fd366;0x9e0f7169f8e28;0x5bb8cda0400];[0x0;0xa103a38ef4c4e;0x7580940270b0;0x8f933eb340044;0x1fd0561f87692;0x858dcda020386;0xcce5596c8843e;0x4fa892d33b89b;0x444b8f9f75734;0x5652cb2546a57;0xe2a42b459c];[0x0;0x6502479d97ce2;0xd95cf517bc9d9;0x683e3c59e9913;0xc23eef0cf9dc7;0xb3a30d8ab5040;0xebf61148b0c44;0x10c451b1c0b77;0xea44bb62c158f;0x4580b5e50ab46;0x9439490ddd8d2];[0x0;0x13adada608f60;0x9a32ff80c0379;0xaad28a773df2b;0xfedb3f3f4ed2c;0x6a9a10a02c3c2;0x32d55098e99b5;0x45f9c0bc17603;0x97a5e8adf2667;0x7550df10d2c5f;0xfb9a0a4516]]);
 ((V [0xd49cb17ea0759;0x43c70f4cadf8f;0xf7602fa547c92;0x895347e7ff5dd;0x7f19542eb0314;0x45e0a96c8badc;0x81dd85539b5b;0xa847cd29c9e83;0x23ebe749bd127;0xf55b0a93103] [0x8838e378b9f53;0x1a4df368c52f9;0x839fb282a892a;0x43dcd73b31deb;0xdcc1cb5dfba21;0x30a3d9f9248ea;0x275e3bfc17af1;0xcb5887c6aab41;0xcab7488adbfab;0xff33644927d] [0x6fc9810328107;0xe1c897c586950;0x4a6e4818dd96;0xe05a42281cb4f;0x81b0561d90624;0xdfdc7e9a4bf8e;0x458fa547135b6;0x47f8f03b5a357;0xf607813fb80e8;0x1fab9037750]),[[0xf917e3ce811fb;0x5f5692ce6c74d;0x50fa713554908;0x88f9324c674ba;0xccde00d23137f;0x6d59341d65234;0x9e659093b0794;0xf498e6d295f73;0xbb6bbe13264d3;0x3cc742db005];[0xfa5872a654317;0x79619923f2a6f;0x195af04c3d428;0x499514fa7fddf;0xc1c5a55e96a0c;0xcaab845b84e23;0xe50bc291c087f;0xfd0c0a5982364;0x84c2f7a1ba4a9;0x6dd1b7ef048];[0x2ae476a2720d8;0x958044e7b62c7;0x7b29d28d529ec;0xefba5f9c5ead2;0x2a987cbcc8df5;0x6af413b46dd39;0x497c69f2a23e;0x9f7e925de1678;0x7aead1cde4ac9;0x77c2f3c2fde];[0x2ae476a2720d8;0x958044e7b62c7;0x7b29d28d529ec;0xefba5f9c5ead2;0x2a987cbcc8df5;0x6af413b46dd39;0x497c69f2a23e;0x9f7e925de1678;0x7aead1cde4ac9;0x77c2f3c2fde];[0x753426dbf105;0x4f6cf3567996a;0x49b7b04a9b78a;0x18278a3fc7c63;0x680a310e3e2e1;0x8620edc17b5bf;0xd626ca57ee421;0xa18fe53505f38;0x6bd2cdfe87012;0x2826fb5b4b7];[0xf305303895213;0x29f4a5cd79105;0xcfa34001a1c9e;0x316d8abab817b;0x59bb74505872b;0x448a969a09864;0xee4f839d245e;0x5b7c25247c42c;0x18f029a333497;0x45aabc93b91];[0x0;0x68beee2954e53;0x21753929a3b7f;0xc5acb61b3ac1e;0x75b130257cfea;0xbdb8d9a923e10;0xb2f439455a281;0x66307c8b86035;0x7f2c9c1882a9;0xefc9359223c5f;0x4a0f735ee3b];[0x0;0x48d56d3f3e5c7;0x82dccfa8169a4;0x994861a62ebe6;0xfbb3502cc6c9f;0x46c3e9b6cf2ac;0x7f31cd7f9c35;0x3e66a0ffcfb06;0xf8162e08db460;0xf61176fef76a6;0x1c6ee8f3e6d];[0x0;0x13adada608f60;0x9a32ff80c0379;0xaad28a773df2b;0xfedb3f3f4ed2c;0x6a9a10a02c3c2;0x32d55098e99b5;0x45f9c0bc17603;0x97a5e8adf2667;0x7550df10d2c5f;0xfb9a0a4516];[0x0;0x13adada608f60;0x9a32ff80c0379;0xaad28a773df2b;0xfedb3f3f4ed2c;0x6a9a10a02c3c2;0x32d55098e99b5;0x45f9c0bc17603;0x97a5e8adf2667;0x7550df10d2c5f;0xfb9a0a4516];[0x0;0x4bb1dc992dced;0x3da71f98be974;0x4cdb192890745;0x3577fec8bd03;0x9049bb215ef7f;0xd5306f9e46805;0x23730994f5baf;0xc87d3969a86b2;0x63295a0515662;0x55803a7fd8d];[0x0;0x89397e49936da;0xa867c9a745d7a;0x6292bf70df41a;0xa0ddac4c425d6;0xd811c7fbc2ff4;0xb170ef004342f;0x1e416589fed8a;0x195b366d7b23e;0x474c977fbe430;0x2e46219dea];[0x0;0x365547d009918;0x86f9c33a630f;0x74eb957d5ed3d;0x34c5251295800;0x9f865e963735b;0x858cd822556b0;0x872c6cf296fb4;0x887e60388ff5e;0xbab28cd2a235e;0x6940c31d68d];[0x0;0x274cff1ed3306;0xc7877db892a7;0xc5c334cf3f7e9;0x806f1f4dc6127;0xc56986caf810c;0xeca17aac879b7;0x723addf6aeebd;0x263738b015972;0x60738a717adf8;0xffc51dbb6cfca];[0x0;0xa52296a6a98c;0x74f0aea23ba5;0x24d8f7a8f5d12;0x210d9fcdcf7c5;0x38c5a04617351;0x419afb97f75f4;0xc5dd7f077fd85;0xf95a3e15ca1ce;0xa19f273183746;0xf496f0c945b]]);
 ((V [0x3faabc36402ae;0xfdcf7250d0c8;0xda113412ff629;0x2de81e7388f5b;0xed31caa4a14f7;0xabf32b23b4fab;0x1dedaac9d0baf;0x8bce167fa4e10;0x4ac52f32fe001;0x3400f5ffa47] [0x694869d3bcbe8;0x28e87edcd7b5b;0xe17b2f5f1b1cf;0x9d16c18ffbff;0xe195f9b8bd120;0x566d986b2ea14;0xbff25c996044e;0x2bc9cd6d113d3;0x1242337f6aeb6;0x4bc2f4131aa] [0x8b6f3eadf3ff5;0x938ed86e76267;0xa69e54aad324f;0x89fc12fd610;0x659489967c734;0xe63c4ed840a8a;0x2b2f37973ebe5;0x780e6bda7386a;0xb5bc737904c0;0x8943f51a5aa]),[[0x6ff75f96ecc47;0xf65c01758f9c4;0xcf929c69982cb;0xb1edfbe1c00ba;0x217985a68118c;0xc0c7f78df2bfe;0x1135e08946286;0x79542065c97e;0x66e4bdd26caa3;0xba375758d70];[0xf0c1b1c0eb76d;0x9838bdbcc257e;0x271db17866f2e;0xf3b89cd88cac6;0xb0df8e049835b;0xf974bba6376e5;0x211ff485b9536;0x4b252f03c9cc7;0xcd9176cb1bf8e;0x4eda7543c69];[0x6fc9810328107;0xe1c897c586950;0x4a6e4818dd96;0xe05a42281cb4f;0x81b0561d90624;0xdfdc7e9a4bf8e;0x458fa547135b6;0x47f8f03b5a357;0xf607813fb80e8;0x1fab9037750];[0x6fc9810328107;0xe1c897c586950;0x4a6e4818dd96;0xe05a42281cb4f;0x81b0561d90624;0xdfdc7e9a4bf8e;0x458fa547135b6;0x47f8f03b5a357;0xf607813fb80e8;0x1fab9037750];[0xcf2ffb6fa5db9;0x2fbd8cf4cb3ed;0x6c1f1200be34e;0x549d608bad92c;0xa538d91a1a1da;0x2066d70ff28a8;0x326d2c074bedb;0x30004a6d61575;0xa9000caef8557;0xb866dac5f95];[0x2191b6514577c;0x687b30c7f7191;0xbafe9f77a8be0;0x9f1b3c4cdf199;0xba6b4ea7e181;0xd90de49644e3d;0xeeb2c87e6d65b;0x1b24e49668751;0x24916a1c23a37;0x96739a7dcd4];[0x0;0xbe9f0260253cf;0x16604a30d0f63;0x2eb7b92a5435f;0x44a6651a52d70;0x33629d62827fb;0xf3eca2757c7c9;0x40f4e3fa9aa44;0x81c095f3b55b1;0x2d4fe4acc59d2;0x1395b48660c];[0x0;0x9937a3524fe5c;0xc36cd782b1b85;0x6ca4b830519f8;0xdf390d8b9d2aa;0x3f5a8f5649524;0x4d3d42ba01898;0xb6b8040027c4a;0xa345867638973;0xda0067e96a3b8;0x17097f72928];[0x0;0xa52296a6a98c;0x74f0aea23ba5;0x24d8f7a8f5d12;0x210d9fcdcf7c5;0x38c5a04617351;0x419afb97f75f4;0xc5dd7f077fd85;0xf95a3e15ca1ce;0xa19f273183746;0xf496f0c945b];[0x0;0xa52296a6a98c;0x74f0aea23ba5;0x24d8f7a8f5d12;0x210d9fcdcf7c5;0x38c5a04617351;0x419afb97f75f4;0xc5dd7f077fd85;0xf95a3e15ca1ce;0xa19f273183746;0xf496f0c945b];[0x0;0xf1f06e37f2f50;0x1a340ebd10263;0xae18a0c340bf1;0x5f2b25db2785d;0x9ed1f8b6ebd29;0x24e30b50bcfe4;0x5a3d8a6ccdc9c;0xf327a9470f842;0x8bb8aa0ba66c4;0xfe676c1ad9d];[0x0;0xb1d27748372e3;0xe3123daa7339e;0x90c80dd99faaa;0x6b03ffa18cfcc;0xd4e6de765017;0x70e0cb21141c5;0x23e3b3d5a53a;0x11ee339e24e6d;0xd8190ae3a66a7;0xeb27629e01f];[0x0;0xedb4b67413b9a;0x32b0d52840fd4;0x956c950960677;0xe34529412516b;0x1266c58661aba;0x5a8d3978275ef;0x43fb351cb9b74;0x267b244cc3f01;0x46ae095b173fb;0x1004ab9794d];[0x0;0xc99ae799d53ec;0x9e01507f35727;0x44c2b2112bcc6;0x17af4ae9cc744;0xa93c9b5d01e8;0xa2f62b15c7fd8;0x1a942255e5fa1;0xa9ee529754d25;0x9b1215e1a30e7;0x4bf760fa17e90];[0x0;0x17077f059166d;0x725a1651c790e;0x5e3c44b56b17d;0x8f7aaefaae280;0x7a179cd97b2aa;0xf5d89355b7966;0xb0f66a15f584;0x8d0259ffe9447;0xb8e8d43955812;0xf63e2611cd]]);
 ((V [0x36ab36bdfce6f;0xdf2b84564781f;0xc43f05d76fb00;0x9102ddbef9706;0x7c7f6071c2fd8;0xf4275858c9605;0xb86a3ad43f86;0x742dfccb55fe3;0x9aaa5a42d03e7;0x6326a53b325] [0xc2f9f93c63442;0x3075f5a6757cb;0x73add18b2cf69;0xa406ab10ee263;0x3c7cbc740794f;0xfb5c8f45a7313;0x14be190b93a7a;0xff195fda87189;0xcd9387b81f7f7;0x4548a1386c1] [0x2c4e66e4f928f;0x31a2404731c21;0xf7d4ee3505c11;0x5ddb8675c6b46;0x86c07c32ec009;0x68d5fc2cfaf4;0x1e70ccb07780;0xf789b46eab26e;0x6f2a1a04aa010;0xec869d0b13b]),[[0x8db257ba95c15;0xa34bed1365491;0x384be7d654469;0xa9cc3d5778395;0xf3a799bd167de;0x5920af2a187c2;0x1c82ca362a1d;0x3cc752aaf334e;0x87ae784b1663c;0x309e2b4446d];[0x34784c4bd99e1;0xb8eb82dab580d;0x3a2d355235361;0xb2d3bfd9df5fc;0x1d0da15d27f6;0x39b701dab9f27;0xc95aa88c41309;0xc7a21a255f1b7;0x38778b06e022d;0xbdf7b8b7336];[0x8b6f3eadf3ff5;0x938ed86e76267;0xa69e54aad324f;0x89fc12fd610;0x659489967c734;0xe63c4ed840a8a;0x2b2f37973ebe5;0x780e6bda7386a;0xb5bc737904c0;0x8943f51a5aa];[0x8b6f3eadf3ff5;0x938ed86e76267;0xa69e54aad324f;0x89fc12fd610;0x659489967c734;0xe63c4ed840a8a;0x2b2f37973ebe5;0x780e6bda7386a;0xb5bc737904c0;0x8943f51a5aa];[0xc2130d98d6940;0xeef282b09f5c5;0xa00aa4bd6fbd6;0xc494ff0fb2205;0x9f4d98b05aa3;0x35b6a2ec5e939;0x21bcbe2f76560;0x1d2515e504247;0x677bdbbd0cf40;0x5375652235b];[0x72653eb3030a2;0xc9f9002a16247;0x9a229094c578a;0xee3ec0ca2d3f6;0xf7dc008accd52;0x4005eee5b5ed;0xa79dea5ccada9;0xaa7d04405af70;0xd0fbaf49d32ed;0x6a825394fda];[0x0;0x48ee2e64216ad;0xdaa85c569dfe5;0xe29b68745547f;0xebf2c839af118;0x7bf0ae8ceeb99;0xaa4b81b2c690f;0xdb76d509077ac;0x2b5f9d30ea6cf;0x25b2bd84bbfdd;0x54e27f67a91];[0x0;0x35d5718722508;0x3c30215ac313e;0x4e5c781620273;0x99bec5f26e5ab;0x5c7ca06b4113c;0x81d086297a231;0xc8eaba335b1d6;0xaf92fc9b93ce3;0x741bf1a782f7b;0x1a118d193d7];[0x0;0x17077f059166d;0x725a1651c790e;0x5e3c44b56b17d;0x8f7aaefaae280;0x7a179cd97b2aa;0xf5d89355b7966;0xb0f66a15f584;0x8d0259ffe9447;0xb8e8d43955812;0xf63e2611cd];[0x0;0x17077f059166d;0x725a1651c790e;0x5e3c44b56b17d;0x8f7aaefaae280;0x7a179cd97b2aa;0xf5d89355b7966;0xb0f66a15f584;0x8d0259ffe9447;0xb8e8d43955812;0xf63e2611cd];[0x0;0x954241a64df00;0x2cb80097cc415;0xc0dcb137859aa;0xe0c6a646e1bff;0xd2ed53e69732e;0x3db3abf353ccb;0x979821ca67b49;0xb6303b16edcf6;0x333978bbefced;0x166bcf7a074];[0x0;0xcabf66d36fd4e;0x69e19374ac4a4;0xdf6f7b5c01904;0xf8aff08b8d5c8;0xaa1dda1d0b224;0xd9c89d983c3d2;0xd4d0fd957039d;0xa3b03dded9d4c;0x2b6120eb737b1;0xa9063f0c73];[0x0;0x520be8c20524c;0x787f8255be5f3;0x17337370efa94;0xecfa025a49614;0x18e9f0784ad28;0x28f8d6ee9ba0c;0x16c88386369fc;0xf7509b0a2cffb;0x3b0563147dbbd;0x499379d0db9];[0x0;0xc8a6b390be48f;0xbe1dada64312d;0x1bb22953d63d2;0x5c2b63a1bdcd7;0x3d5dc313ad163;0xa68d2135bd7f;0x28a1f645629dd;0xe194325fb553c;0x409722e05ad1;0x455a802f8c8b0];[0x0;0x5518eb0b4c979;0x4dcb11c7570f3;0x1a71c295e0c64;0x8a15dae3997ca;0xc7370956c945;0x68c1110c2043;0x79db70602e5e2;0x4fe37c1721e3a;0x62de4b9d65f87;0x1ad58bd8957]]);
 ((V [0xebdda9356a20a;0xa8367fd4da12a;0xf677b79b951ca;0xd04f2b5ba6cc;0xb7a206f951a49;0xafad72d87ef94;0x547b2dbe4837f;0x80a4d74210be9;0x50fef92c5b1cc;0x5c6159a5a77] [0x13c2fabe203b4;0x64636e52d412e;0xed3673cf3b2a8;0xc96171ae0ab41;0xbd4ec89a3f50;0x1fc3f9a7f33c1;0x8606db9b068db;0xed49016c656ce;0xd9197c5a00647;0x96073aad0b5] [0xb7b58c168ee84;0xc12a70ac6f3c4;0x716d42542000a;0xdb3568b5937d5;0xce8ff9a87d280;0x84f94cf90a77c;0x6ddbdb18efbd2;0xe3304687e3ba7;0xf44f00d3581ea;0x96df0b6fedf]),[[0x116ec74a5ca86;0x611eeb33606e6;0x51c1f6213d1e4;0x888e84886ad8f;0xb5a4e18c01011;0x4696b24ad493f;0xe70f32cca4bd;0xaeae1bca31c04;0xde52935409107;0xe8a753ec065];[0x766d612d82e92;0x22393917bd2be;0xa6e822a9bb115;0xf378ca356c7fb;0x4db0bcd93eb8d;0xfbaf87531fecf;0x925d0d65f75c4;0xed8781e6a406a;0x4dfd3f4b730ca;0xe2e8f99586a];[0x2c4e66e4f928f;0x31a2404731c21;0xf7d4ee3505c11;0x5ddb8675c6b46;0x86c07c32ec009;0x68d5fc2cfaf4;0x1e70ccb07780;0xf789b46eab26e;0x6f2a1a04aa010;0xec869d0b13b];[0x2c4e66e4f928f;0x31a2404731c21;0xf7d4ee3505c11;0x5ddb8675c6b46;0x86c07c32ec009;0x68d5fc2cfaf4;0x1e70ccb07780;0xf789b46eab26e;0x6f2a1a04aa010;0xec869d0b13b];[0x4106fb3fe689b;0x38365fd1cba17;0x6a09ec99324fa;0xa1bb28dcb825a;0x312a4bd845894;0x99d52f9dabc8d;0xb40019b540952;0xbb80bd3cdc18a;0xa37408299c38f;0x7acf0059078];[0x356665ed9c5f8;0xea02d945f18a7;0x3cde361088c1a;0x51bda158b45a1;0x1c867100f92f9;0x61da57b574242;0xde5cf3b0b6c72;0x3206c4a9c7edf;0xaa893721d6d3b;0x6819f93c7f1];[0x0;0x87d5d85914186;0x4e26aa7bd097c;0xa3aaa5b085b88;0xf4320bb80725b;0xd1e7639e69992;0x1181f5dd94c06;0x305a4b2f77e75;0xe149a8dcfd2e1;0x16e9db6be1858;0x924468e58ea];[0x0;0x9fcd51a394f78;0x26bbf47a23ae;0xe656ea705402f;0xba0ad34ec5e22;0xdfc955ca8b9b6;0x209e6a8e744ce;0xe73fb0d31d6c8;0x65c77cba608bf;0xcee250abf4e6e;0xd6f497ac32f];[0x0;0x5518eb0b4c979;0x4dcb11c7570f3;0x1a71c295e0c64;0x8a15dae3997ca;0xc7370956c945;0x68c1110c2043;0x79db70602e5e2;0x4fe37c1721e3a;0x62de4b9d65f87;0x1ad58bd8957];[0x0;0x5518eb0b4c979;0x4dcb11c7570f3;0x1a71c295e0c64;0x8a15dae3997ca;0xc7370956c945;0x68c1110c2043;0x79db70602e5e2;0x4fe37c1721e3a;0x62de4b9d65f87;0x1ad58bd8957];[0x0;0x6953b6131984f;0x2426514d931eb;0x8127259694234;0xf59c29df121a4;0xfdd76ace1bdb;0xaae957d325a0a;0x156c46e90f6cf;0x92a712cf55bc5;0xc61be65d9f75e;0x12c03b837f8];[0x0;0x49804066d548f;0xc28a277878bd2;0xa12fc01444872;0x77bf28d7a9745;0xa64403daa5e8d;0x5bcce616a1d1f;0x6055d293bb4a7;0xad685dab1ac1a;0x9a9329b5ce26e;0x2666e9a1412];[0x0;0x85d4f9e7d3860;0x19b3188e560d;0xb8c20439b5c91;0x435e8e815f40;0x4da0301403ecf;0xa6e2239e0773;0x8ec77c927a276;0x70eeefc979dba;0x6db82b1bb78b4;0x51e2036e216];[0x0;0xdcd1719db3b02;0xac27f471e7c4;0x13b7f87bfb5de;0x617c040358841;0xc18e8fcbdb3ea;0x95198de65fc79;0x451d9d961ba82;0x9a51971a9115b;0x462bf2946f7b7;0x961846fd19cee];[0x0;0xa55362920bd5c;0x180e5a04942ab;0x3dd6119c6f799;0xf8024a15c7d35;0xbf38a6ad840a9;0x831db39e40eec;0x8f957fe70bdf7;0x91637571bab94;0x93b2e1728209a;0x3623a65d03d]]);
 ((V [0xc86ef1da62ec2;0xc6968ebca9e19;0x4983a62c6f94c;0x5ac77dad8fc3f;0xc992d43bedeb8;0x9d7349b1439a4;0xa16bc73415fa3;0x1d6681cc1af6c;0xbf472bff6e7f7;0xb7e737020e7] [0xe1cabae5c8428;0xf976b3a84d23a;0xca9536688d6bc;0xff5d31ba70de8;0x33fb340ea471b;0x9ca39c51885b7;0x1e7e40ba32739;0xa9ac7dba7fd9a;0x68052a728aeaa;0xe80ccb23907] [0xa11e8a9392b55;0xd8f074b09daec;0x9258437a32f16;0x8acbbda64f141;0x9decde59e0926;0x9eee829770302;0x14ce89d4f68a5;0x85e576873711;0x20d26498b8955;0xee12560ca90]),[[0x588214243396e;0x3d1f88b48dcc6;0x2d4330ab6e592;0xe8e057155520a;0xdb44d3ef48f1c;0x6e905869e5d2f;0xf89d65bc865bc;0x3fecd93909408;0x2d8b4af718aa3;0xcacd83da9b2];[0x2071c367e0dbb;0x1ce3c11d260bc;0xf531aac598c88;0x43ab11b07d68d;0x4168931da6061;0x42e26a165b792;0xedc23144944ef;0x24d2b3565258a;0x144b4a2229a2e;0x54c58648031];[0xb7b58c168ee84;0xc12a70ac6f3c4;0x716d42542000a;0xdb3568b5937d5;0xce8ff9a87d280;0x84f94cf90a77c;0x6ddbdb18efbd2;0xe3304687e3ba7;0xf44f00d3581ea;0x96df0b6fedf];[0xb7b58c168ee84;0xc12a70ac6f3c4;0x716d42542000a;0xdb3568b5937d5;0xce8ff9a87d280;0x84f94cf90a77c;0x6ddbdb18efbd2;0xe3304687e3ba7;0xf44f00d3581ea;0x96df0b6fedf];[0x4793164249768;0x21f5ad02297a9;0xa37c035aa6a03;0xcdf038e9cec31;0xf309520e7eaaf;0xdcd85a14675f5;0xd226a5c1f7646;0x8f395ee01c8a0;0xd3e8475246c27;0xaefa10430df];[0xd8dead259741b;0xfaee141afc912;0x51b5a76af2284;0x75bad8c6aea5c;0x4e5f410f275b1;0x660a1001f419c;0x1b9b8b829cea8;0x9599547635cea;0x406302cfe2e06;0xa5cb7604f51];[0x0;0x8b07d4dc0e59e;0x55ba014e3bd2c;0x771e733e21f05;0xa2a93d051ff0f;0x5e98d7934ea04;0x1d0b5f5c6a530;0xe98e0cee3d909;0xa4e802dc869d7;0xc668f0de3d07;0x5d4c6f05267];[0x0;0xf2284b24b791b;0x5193cb0795605;0x5088221cde9c5;0xe7103f488411d;0x817002e8d7e56;0xf11a0bfccd53;0x56d66958cdc24;0x3ce4aa1b37f44;0x49b2ce22560ab;0x77851d5772a];[0x0;0xa55362920bd5c;0x180e5a04942ab;0x3dd6119c6f799;0xf8024a15c7d35;0xbf38a6ad840a9;0x831db39e40eec;0x8f957fe70bdf7;0x91637571bab94;0x93b2e1728209a;0x3623a65d03d];[0x0;0xa55362920bd5c;0x180e5a04942ab;0x3dd6119c6f799;0xf8024a15c7d35;0xbf38a6ad840a9;0x831db39e40eec;0x8f957fe70bdf7;0x91637571bab94;0x93b2e1728209a;0x3623a65d03d];[0x0;0x6cbd17be60798;0xee5305ebdf0e7;0x714dbc9021e7c;0x755425cc3c64c;0xf8da844a80b3d;0xbab8a59272ee5;0x53faad14f949e;0x65303b0da5357;0xb23da94d50f80;0x57ec78f70c3];[0x0;0xa39aec7ca7d6f;0xebe0927c75874;0x26dc73c0631e9;0xfbe927db1bfa9;0xa731456aa4aa6;0xcf617f3cc3fea;0x86f9e91f0709b;0x855f64c6ef25c;0x9a3caf49060ce;0x21561d741f4];[0x0;0x2b0a37f3d110;0x2abce3ffadde0;0x9e4d79464487e;0xfd40c3bcdfe6;0x93eb3165b25fb;0x397220433e0d3;0x7e6ea99ee203e;0x5a28359efbb7a;0xc7b1c93125d89;0x3ce5c370c35];[0x0;0xfef2db61fa6c;0xee5ca172bb13b;0xaa274fa77674d;0x3963c1fb7b6b;0x5eec8df1c84b0;0xb0581416e7f84;0x74e49439a4b04;0x116afa4d08a7d;0xc388d3eea4a36;0xe8a800b07c107];[0x0;0xb6b5d3564f92d;0xb864e26d27a4d;0xe67f8d6bbe48f;0x7e134f78762b3;0x21567e39e634d;0x8358b0ca6a1f1;0xb803275e0d143;0x6250969555b68;0xb59cf37e046ba;0xa6b2ba9e563]]);
 ((V [0x8aba8f672ba36;0x944d251acceb8;0xf86cb796cd58e;0x84eb0ee82cc46;0xa5462fdbf9f09;0x12a940d731a97;0x6da8422a14f5;0x199e0ae14689f;0xf4bf4add5c886;0x65d5a385ed] [0x76346984098b4;0xaf697cc23b9c9;0x98462fcd309c5;0xa3abb0aee6803;0x8a6af88d3c70;0xbe9355de85240;0xa90651495b859;0xbbb85365263d2;0x20a87361b642f;0xfdbc4f7fa7d] [0x4e6b443e6b2ad;0x1c8a36c779e45;0x9030d66d83690;0x57152f8498f66;0x2133612402ef1;0x2d5a5f6c8b583;0xaa634076fdd7a;0x4adec31151a2e;0x17890bdfd05ec;0x2820f0fb503]),[[0x953e2361c8356;0x2a045b030725f;0x2bdacdbd42016;0xa97b4969cac10;0xccd63ff1e5082;0x34576792e0c98;0xc122c196095bf;0xa5a467ac6126a;0x7610caf9ed79d;0x744423c450e];[0x8ac30c1e2b4d9;0x9ec6b699ce6bd;0x78183cd787028;0x3971098ada9e6;0xab8d8bb492757;0x934eaff9f7152;0xa7a4c9bcfb51;0x940561798983a;0x858b813a42eff;0x36a03b118eb];[0xa11e8a9392b55;0xd8f074b09daec;0x9258437a32f16;0x8acbbda64f141;0x9decde59e0926;0x9eee829770302;0x14ce89d4f68a5;0x85e576873711;0x20d26498b8955;0xee12560ca90];[0xa11e8a9392b55;0xd8f074b09daec;0x9258437a32f16;0x8acbbda64f141;0x9decde59e0926;0x9eee829770302;0x14ce89d4f68a5;0x85e576873711;0x20d26498b8955;0xee12560ca90];[0xde2723678039c;0x16155662c42ec;0x5fd199975db89;0x65d004ac9dad2;0x8cc8a8d8758ae;0x9785056b8e66;0x23a6c50bd2719;0x5a11aff5f4b8;0x644434c74f9ca;0xf3f3048d8d9];[0xac9be8b6aaf05;0x88b160370a3d0;0x1846a3402949f;0xd3a104de3cf14;0x1ec4e2dc1cea8;0x89d65fa33e2ec;0xe6d3878ffd438;0x8e64467a2a381;0x21474c72f3535;0x42ad3684012];[0x0;0x7a60ed4cce5f6;0xe7cb37c45a02d;0x7d9c605fdb81c;0xff3fa9adaa0d8;0x66b96899e814f;0x243255c6bb5db;0x6ec7316fcb778;0x47668673d5cec;0x3e90ff6006c68;0x93391fc33ae];[0x0;0x2e10df2f225a3;0xb57c8a7946a99;0x2adcea7f506c;0xcf8ad0d58aed;0x88eb51b270b74;0x2d1fb9d6bb232;0x31d6360c30780;0xb17fa8fb4bb13;0xc56fddde34ae8;0x6c1fad1faaf];[0x0;0xb6b5d3564f92d;0xb864e26d27a4d;0xe67f8d6bbe48f;0x7e134f78762b3;0x21567e39e634d;0x8358b0ca6a1f1;0xb803275e0d143;0x6250969555b68;0xb59cf37e046ba;0xa6b2ba9e563];[0x0;0xb6b5d3564f92d;0xb864e26d27a4d;0xe67f8d6bbe48f;0x7e134f78762b3;0x21567e39e634d;0x8358b0ca6a1f1;0xb803275e0d143;0x6250969555b68;0xb59cf37e046ba;0xa6b2ba9e563];[0x0;0x10f28020ff83c;0x9779fe3604495;0x607c2140e3485;0x5ebf2de49e16b;0x363efe87537ff;0x3aa929509c053;0xb6e3538c257c1;0x763d97a8fbddb;0xdbfbe98291b51;0xd25730d4225];[0x0;0x7a4cf6d4ad009;0x8695e93cc7aa7;0x1d49d49a759d5;0x49ad38430757a;0x663c3d72badc9;0xd2cafc1be2e64;0x42dafeebd8313;0x6035d50eaefab;0xd3d6cb3545a42;0x841c6179423];[0x0;0xfd9436c49da1e;0x2bc69f071a692;0xc54408953d86c;0x768eda672b834;0x443bbda956aea;0x6f808a7abe744;0x8ab9c5d5b961f;0xcc8d3fac93422;0x8be89a0aa75a5;0x15bacd83ac];[0x0;0x326935c403fe2;0xab7f90dd96a92;0xe77260fe110bf;0x37ef080c89dd8;0xfb8256c071fbb;0xe79e403b8b128;0xfffc52ea18859;0xea1e4e5f56691;0x481b5893843d9;0xfe83e746250f6];[0x0;0x8d56a6eca165d;0xc925fc0f069e;0x8405be547cc7a;0x37cbc6ee8b02e;0x5f90a815d3e86;0x74615fba76b2d;0x33cd80e2f088f;0xbb93004d2b2fa;0xb9ffc5aedc4b8;0x64ef0b1f27]])]
 [[0x358ceb2469221;0x255ade9064aee;0x3cd7ff95ab9ac;0x7df60e8ad166f;0xc4fe457f69c07;0x8204e2c62a101;0xfa0fd70b108d;0xc4df69d38d069;0x5f24e296b4d7d;0xc8e46819695];[0xf4fa13ff70505;0xca72c6a1cbe6a;0x7684e036286a7;0x2a55d5e30c910;0xc17bfdd120e01;0x6b2a4a68d7dea;0xfe352b75d6c61;0xba1603f159395;0xa9017ea21e993;0x7f75e96fd97];[0x4e6b443e6b2ad;0x1c8a36c779e45;0x9030d66d83690;0x57152f8498f66;0x2133612402ef1;0x2d5a5f6c8b583;0xaa634076fdd7a;0x4adec31151a2e;0x17890bdfd05ec;0x2820f0fb503];[0x4e6b443e6b2ad;0x1c8a36c779e45;0x9030d66d83690;0x57152f8498f66;0x2133612402ef1;0x2d5a5f6c8b583;0xaa634076fdd7a;0x4adec31151a2e;0x17890bdfd05ec;0x2820f0fb503];[0xcf0f58737f952;0xfdf70a5503de6;0xde9f76632f634;0xc3f6522caeee4;0xd08bc3b11118e;0xb3a3390d95f63;0xe3eef7cf0db21;0xd631f2f4965f1;0x2b8c0a2c8d4f;0x1df34329a36];[0x25eabb8bf0bb4;0xcc7bbc4cc8084;0x97e569d2f9072;0x665f83b65da2b;0xf0f03a200fc72;0xb787115b41e86;0x1a4633a6c913f;0xe3e410fcc2da4;0xa648bdff55c43;0x6182a646361];[0x0;0x1e97006f50f99;0x7113181254d5b;0x7f201069e8152;0x4c9369c03819f;0x3054212763166;0x8970d028b7027;0xce60a4772862a;0x1fb831bc9e03f;0x72c7918122f66;0x18d0c58f62d];[0x0;0xb5dd385868878;0x8f471890104f7;0x9028bcb1b18b6;0x544d489f4a669;0x8c4bbb7421c21;0x43ec60f395f93;0xa327787ac32d7;0x6a65a607a3d16;0xaaf21ded1770f;0x1f7d89ec541];[0x0;0x8d56a6eca165d;0xc925fc0f069e;0x8405be547cc7a;0x37cbc6ee8b02e;0x5f90a815d3e86;0x74615fba76b2d;0x33cd80e2f088f;0xbb93004d2b2fa;0xb9ffc5aedc4b8;0x64ef0b1f27];[0x0;0x8d56a6eca165d;0xc925fc0f069e;0x8405be547cc7a;0x37cbc6ee8b02e;0x5f90a815d3e86;0x74615fba76b2d;0x33cd80e2f088f;0xbb93004d2b2fa;0xb9ffc5aedc4b8;0x64ef0b1f27];[0x0;0xe8debb3ff28d2;0xeda99d120cd3c;0x4a5fb59ce8c37;0x3beb83a2aae39;0x1be80ceed6b91;0x8c0326a428dff;0x959360f94fd57;0xc504421353e1a;0x3ae8a4a7337df;0xfb7dbfa72de];[0x0;0x81d4e10008ad0;0xfc45c2134ed24;0x727186b22c427;0xc06edfec6dc97;0x673817f9f70b9;0xe7d303abea53b;0x72a0bb89bf0ba;0x73a12b71b9470;0x314eb4e2e568d;0x288245513];[0x0;0xa7370dbc73f82;0x2a975cb011a20;0x2fee7a7cb95b2;0xe239d3ca401fd;0xaf840cd9235ea;0x1f4079ce01f42;0x69cc33bf8e550;0x9df69209283e9;0x51ea79ae96b5b;0x4ce2a8d070f];[0x0;0x9715f08442b17;0xdf759b3cebe90;0x360122c05de90;0xf861e69cf7085;0x88440e63f02e1;0x63ac9e4219e7b;0xfcb06fb322330;0xb2bc72df18f71;0x576fe3c30406;0x6294e23dbb087];[0x0;0xbe2223432866f;0xe778cd8afe3e7;0xba4d4bc36d7ef;0xf9529081110a6;0xa57b8f2ae630f;0x1a4c51e01cafe;0xadfa4c73a32c8;0x26f09c66a94d;0x8c34557da6515;0x3b595173de8]].
Definition wit_512C_32_5 : colwit ept wit := mk_colwit (V [0xd5d8d3243dd20;0xd077cd214be37;0x658db1e579c52;0xcb3afb2bc7eb5;0x48d86d386f3f8;0x8c9ee7f278cb1;0xed6ec785fda49;0xbdb2cbef7eff4;0x46bd20f8c2135;0xee721e03ffa] [0xa83027183d0aa;0xceefcae89dac6;0x19fa7b75bac50;0xa256b347c15d9;0x85355653a3cd;0xfdd9da5f04f3d;0xb9890ac3f5fe9;0x109b06bd1e1c5;0xc16d39cfd11be;0xde8e343f7a3] [0x20375e9f018c5;0x776c0de582966;0xb01e0b23417dd;0x529256c254fd5;0x123e1d2e9ecfc;0x55296de03117d;0x83287efb6e1f9;0x840ecc37e9565;0x85f622715fae7;0xb7789ba224b])
 [[0x87818756566db;0xaa039a7ff3f29;0x4a9a9f682ad7b;0xf4993f36b44ac;0x8b5db12486fac;0xa872f2ceb6f09;0xa13e4d66f01bd;0x13bf08d87993c;0xaa164997227e6;0xc40a43e33c4];[0xb566cc207f4ad;0x20450d0d37090;0xc6df95fc3cff3;0x421c723fe6f22;0xe861b13001bd6;0x7ec582879dbf9;0xf3cc5dcf03bba;0x6d003811c64ee;0x3689c7c9bcd3;0x17f34a7adc8];[0x9b880561b3c2f;0x528e3ff8e6eb8;0x159fb74503255;0x4c1bda1e02271;0xfb84cf5e6a5d;0xeeb92414bd9e2;0x63b288ad2e08d;0x11136a8b63b57;0x2d036178fa04e;0x1a4481f6c6e];[0x9b880561b3c2f;0x528e3ff8e6eb8;0x159fb74503255;0x4c1bda1e02271;0xfb84cf5e6a5d;0xeeb92414bd9e2;0x63b288ad2e08d;0x11136a8b63b57;0x2d036178fa04e;0x1a4481f6c6e];[0xe6133890f635d;0x60b7897b9e910;0xcb8fd9251ed38;0xc7c5f764817a0;0x64773f67fd289;0x72b2a104954ac;0x74e8438ccd4a9;0x8ede856f57374;0x2848948e46a67;0xc1419874f3b];[0xcf53938f88f18;0xbf8d83919877f;0xfb4fbcd71e2ba;0x7a567adb65781;0x83ea71c80494c;0xc12e1830874d;0x7ee41a4236711;0xde21b2a26f17a;0xdb2007ee5526b;0x56b1b205e8c];[0x0;0xf2d326355ca83;0x2bcc5f17810bc;0xda03430eb9faf;0xb62c6801ca16b;0xc4a5957cb1612;0x42b3a0c44aedc;0x68d1593230738;0xc35898edf3c99;0xc3c3247552ad7;0x103e6cf3aab];[0x0;0x102d2dc775238;0x6a84a80203a45;0xfc3c8afbbaa4b;0x1918d082999b;0x317e13a15ca77;0x7097f9483885c;0x1afe1b15a118a;0x1e451a2e3142c;0xbf6f813f3f097;0x141d812542d];[0x0;0xbe2223432866f;0xe778cd8afe3e7;0xba4d4bc36d7ef;0xf9529081110a6;0xa57b8f2ae630f;0x1a4c51e01cafe;0xadfa4c73a32c8;0x26f09c66a94d;0x8c34557da6515;0x3b595173de8];[0x0;0xbe2223432866f;0xe778cd8afe3e7;0xba4d4bc36d7ef;0xf9529081110a6;0xa57b8f2ae630f;0x1a4c51e01cafe;0xadfa4c73a32c8;0x26f09c66a94d;0x8c34557da6515;0x3b595173de8];[0x0;0x33c246aab8121;0xf9aeafa95d9d8;0xd8c2d6f3e0c8a;0xa6977561453b6;0x265ee879cd48c;0x539dfaa0d400;0xc35287ff67e48;0xa71c2bddb50fe;0x17f52414ac073;0x25d05128b30];[0x0;0x6a9f3027a948;0x1cd2a725049a;0x204de471e0c1a;0x87b0e186e8d50;0x44d8a138c046c;0x84eda9aaea3c0;0x4557a1453237b;0x6ab5cfe73d917;0x200734935fce8;0x5d26020b684];[0x0;0xc7e9f5b91f98e;0xb7824903ae243;0x4027f79bd939b;0x81ce6adb21454;0xfe1e80fe9475e;0x970bbb3ed12cf;0x101d2f9830ac4;0x990cb2bb78357;0x462366c7f1757;0x164edc64463];[0x0;0x78c9c1e9c180e;0x67f5c0da6a1cc;0xfa7abe11e6f6d;0x4704f84ccdbc8;0x6a84e22ee692e;0x1891f05a38c65;0x512abb61b237c;0xd31bbf93a1271;0x59259d941faed;0xdf57f02b4c7f8];[0x0;0x5d90838bdc9ad;0x3c45cc36e19c;0x44f050424b335;0x89b00711053d4;0x8fd2c60c965e1;0x178e7bceb90c6;0xa9eb53c28d07d;0x3cdc9e50866a2;0xefed20fdf529;0xcf4b69fe6bf]]
 [[[0x2007b56ab189f;0x4d538000e4e3c;0x408c96e285349;0x69cc8f787ef27;0xdc8af5d5e516;0x4c7f98f703ba8;0x159e7cf8c725;0x680532082dc4d;0x6910ffc8277bd;0x333278aec4c];[0x782bb8cdddb78;0xf571ab82ba239;0x101109d48fef4;0x5407a109af067;0x7ae897d69fb62;0x290eb81a4430c;0xb1394318f9606;0x6481246497ced;0x94684e481e673;0x723ca1a659b];[0x81b1e30f8c8df;0x9b1e0ffabf1e1;0x7865a371d99a7;0xade67bd155fd4;0x85272b19be40d;0x84cde456ed5fe;0xca9ab17144434;0x5fd4979f273c4;0x466b45b756911;0xaccbfdb9fbf];[0xc2e48b2b0f00f;0x2d41dfed51db4;0x4424f0147f8;0x456ead74cb6f6;0xdacc218b672a1;0x3fb4548749748;0x7add5ec3344a3;0x839de24745a4;0xf817738cf3bda;0xc23da376376];[0x146c423daccab;0x22a967fb8db51;0x448bbcef38bab;0xd4c47a7cfbdfd;0x57e8c81582c33;0x62c5a6a8b652d;0x3372f5f68d94e;0xec1790daafab;0x630d02839fe82;0xba1ac2f52f7];[0x762e46d8bb9a5;0xdd51f9d8153ab;0x57c21c24d4fd5;0x40b5346a6e195;0xfc30d2e0aae7d;0x5dd76af7d190d;0xb5ef0361cb31b;0x3fb3175800ae0;0xd2f036bef5ebb;0x97240fea429];[0x0;0xee24cc8c35687;0xf714ab38bd821;0xf86a8f8d74129;0x5e203b501814a;0xaf7b12e86f7c9;0x8e663178b9e07;0xcc6307525e58;0x7baa9ab34481a;0x397c622ead9a7;0x71755151414];[0x0;0xfd0e56fd0b87f;0xb7b08694a1c4;0xae79228d95f54;0xfe77eb1bfc710;0xdad111efc9689;0x639ef49abb31e;0xc278fc9a06613;0xf945127707a1c;0xede1cd7b1c8c0;0x540d3a7977];[0x0;0xdc859516e0d3f;0x347b6a5b231f6;0x65d062de663eb;0x5feb731660eee;0x4fdf9f06d8f9b;0xc31e5955efee4;0xce8a2ae842174;0xeaecd54ff5b8f;0x29b1a0f8e298f;0x863f5b97d3d];[0x0;0x6fceca1695047;0xf187a1ca8865e;0xda11af5f8ad2f;0x4c706619058eb;0xc39d100666a2;0xc3b3bbee6b6a2;0x1f3bdde3b1938;0x8aa0f44f1f0f1;0x316479caa7eaa;0x5ba45896298];[0x0;0x51a7207ecd38f;0xa76e95933e6d7;0xeb806ece8f321;0xe95c2183d7311;0xc830aaa183a51;0xda1013274751b;0xab75206258dc5;0xd9f2e066c79e3;0xebf8f74e0b496;0x5588ec4c36a];[0x0;0x160f116c6134d;0x3b84d54821329;0x416eb814e9ae8;0xa67636ce6454c;0x884e78e426ada;0x8e26f6f90249a;0x736ad49412b0c;0x2e295d9857b68;0x8a324c8c214de;0x8fd528f4378];[0x0;0x85b57355fd9b6;0xeaa596fcf2729;0x2c791111e9d20;0x390ab8d705b68;0xc0af169e061df;0x8c7f5b270edea;0x7cb82f9153ff5;0x58f85369f329;0x66a1f64e52bbd;0x40d27dc2518];[0x0;0x102b9098f0015;0x842b405919a36;0x6845966005a92;0xbd2f69dddef56;0x6b0fe25265510;0xd5dbc4f4d3fd8;0xf55fd1072be42;0xc0c722f9f3fd1;0x1351c56e91050;0x654b8fa158192];[0x0;0x78429ab02174a;0x126b54e545ec4;0xf392d78cbc328;0x7d0aa10a07b92;0xe45125faf5e4d;0xe2c0349e04a6f;0x9b7c7d640534a;0x8a11a752ee06d;0xfe546533b29e1;0x395ac5680a2]];
 [[0x2007b56ab189f;0x4d538000e4e3c;0x408c96e285349;0x69cc8f787ef27;0xdc8af5d5e516;0x4c7f98f703ba8;0x159e7cf8c725;0x680532082dc4d;0x6910ffc8277bd;0x333278aec4c];[0xef196c93b3e45;0x45d3d10d73bd5;0xc59ae9b0a10b1;0xb16eb2c7847ee;0x7deb2e6115f4c;0x63ef378688ecd;0x8f6e63708c685;0x4dd722dd28238;0x9f09edb447c13;0x2ed5bbe545a];[0xe2f76595a980;0x540f5b7f10c51;0xe4b73a4144bc6;0xadd1176671603;0x23c4844eefd6c;0xafb9cb2d30b4b;0x7b778a18555a4;0xc7eca6c32bda6;0xcfa6397f826d7;0x1315e19f32b];[0x4be46d0a59448;0xec3b77b18a793;0x60ee2325886e8;0x7cfe9725ea24f;0xeaa1f87268d2f;0xcfa0c24fe8b94;0xef3d137a48c3e;0xe3208580469da;0x3ae5858b9f3cb;0x29079e1e4a2];[0x9f456e1eeb966;0x80665395f895b;0x519c32787adfa;0xb01e396a1b9f0;0x5543d1a2a453a;0x4ba352b6d6557;0x868a96d7cd6b4;0x2b8eebe9766df;0x3a92a12e235fd;0x1ff1b341393];[0xa9510006ba516;0xa7ac5d3a4ae0b;0x506284edf0ed1;0x8ff2952867a40;0x6fb5ce935892e;0xae1d0ef86d123;0x7f4c62839b1a1;0xcb8f25a9e7c75;0xaf7c1c7d93254;0xb8e783a0437];[0x0;0xee24cc8c35687;0xf714ab38bd821;0xf86a8f8d74129;0x5e203b501814a;0xaf7b12e86f7c9;0x8e663178b9e07;0xcc6307525e58;0x7baa9ab34481a;0x397c622ead9a7;0x71755151414];[0x0;0x279a9e2660487;0x39cca74e6d845;0x71ef85a2b5fa1;0x9bef1945ab6ec;0x7ac7d422775d4;0xe341c8d0b57fe;0x68864c2dd37fb;0xaacd53302cd12;0xee13fe56b58c6;0x352c57713b];[0x0;0xd144a880ad170;0xf3a3368808910;0xbbefcfa3d45be;0x4ddce3d2746ab;0xe5204a2aaf467;0xcaee752d63b38;0x71e4250ca7039;0x136bd2f07b0c7;0xa281b30778ed0;0x7e49482404e];[0x0;0x65e749c5fa148;0x50d48ecd65aa7;0xdd3a09313fe86;0x1e24dbbc6ed06;0x33cf70e6d0da7;0xa306ca9fd40;0x5bdbd4df35fcd;0x2c47889299bbe;0xd3a65dcf155df;0x5e2544ae7b8];[0x0;0x601a25f344352;0x4fd661b87ed59;0x5a131edd38d62;0xee0c1c3c09dc1;0xc5a071e24a3a5;0x71bfc0899fc30;0x52f7c514098a;0x16511560bf809;0x893d5930d2628;0x57df222edf7];[0x0;0xc952748d9d0c6;0x5a09337f84539;0xe79692217b973;0x17b678dbeee3d;0x88147558dbad8;0x1295b6c501e77;0x6e1087f8d9e86;0x3889a68991a8c;0x569019fdf5e0;0x874d91254fc];[0x0;0x2803182b0d712;0x81f2e5147c7fe;0x7b758f433646c;0x1ce3d9a68d8fe;0x39885a55317c5;0xc983fe0cc54b4;0x7bcac9a7618e2;0x5d521c8d34d2a;0x3f6f63824afb2;0x2a806146cd];[0x0;0x1e0d068715ea;0xa948790cef4df;0xac3e3d686d5e6;0x54c38d14c2540;0xba4d23632729;0xf82745bb355e6;0x593965128c64e;0x10d6b610883c9;0x3e87f0aa2e04;0x7a347c1dbba71];[0x0;0xfc948676cb36f;0xe01b3cea6ad66;0xad0950b88aeb8;0x71731c3c0652e;0x250732b681db1;0x9bab9556b0d5d;0xc158b042af97d;0xc5c680190686d;0x64084ef54a267;0x6e8b8e8a39]];
 [[0x2007b56ab189f;0x4d538000e4e3c;0x408c96e285349;0x69cc8f787ef27;0xdc8af5d5e516;0x4c7f98f703ba8;0x159e7cf8c725;0x680532082dc4d;0x6910ffc8277bd;0x333278aec4c];[0xab836a04fef2a;0xac38b36d41695;0x89c50f36ecb21;0xd55eaef0d8ae;0x4034bf385ac00;0x90c2df82e51f5;0x5f4fe9c5cecb0;0x2c97741ed6e6d;0x5457eaf7e669d;0x2b61931b8d9];[0xc8917a6d8b99b;0x3786405a02fbf;0xd7a5810c56e5f;0x399a7a20212f5;0x9f1b9dffc3595;0xe5ce1f2de664b;0x7a24d197239b4;0xe9ac7dc1dae69;0x29b89d5416408;0xf13e473255d];[0xd8d3b6e0e85f8;0x94118c59a4825;0x62e99394b29f6;0xde07a0e87a57b;0xb1fe6eb2a09ae;0xb042c37888121;0xaca24da13f626;0xf5eec0e7e5f11;0xb9403d6265dad;0xddbba75f3ec];[0xcd1a2089b45da;0xa8886800d96f0;0x625f7288ededa;0x95be93c03d77a;0x82e355cb31d8a;0xf8dc91c9f0e6d;0xf7dc1ac846548;0xd230c0594bf94;0x2d0f58ee79ce0;0xc7221853849];[0x8f65d8e59ec73;0xd19acc49c7bd6;0x2d598f32d9db0;0x8019113847464;0xc55fa9f9df142;0x5d542e0bbb156;0x6fbef6d428095;0xef44edebd5bea;0xbb27739f04f69;0xb565f3c63ca];[0x0;0xee24cc8c35687;0xf714ab38bd821;0xf86a8f8d74129;0x5e203b501814a;0xaf7b12e86f7c9;0x8e663178b9e07;0xcc6307525e58;0x7baa9ab34481a;0x397c622ead9a7;0x71755151414];[0x0;0xadb22038712e0;0xf7b4dfca21eb2;0xebba13130c68c;0xe5549cdc7036c;0x6238349655001;0x66f941efdd5ac;0xd490f75c145b;0x9168e07dc2c7a;0xa0d96ba553044;0x13468759dc6];[0x0;0x65eea926604f9;0x4dfdfa4b730ca;0xc79a9570c842e;0x230c9cf71ac3e;0x59571804922fa;0x78943cecb1ad3;0x43b85454a7ebc;0xd277bded76a7;0x7c84e4f45294f;0xc9f6a5c84b];[0x0;0x3062e76cf2bd8;0xf0f29d55dc82;0x89018206a9bae;0x5dcf5cbfaf31a;0xb57c0aa14b691;0xb18b2cea2d9b;0x24a6968ea6081;0x463a3af4c0bb9;0x50e522281fdf0;0x7176908f50d];[0x0;0x5d61d682bcfa4;0x227da38a968b2;0x8641b6159c898;0x6f5489764a3dd;0xdaffdb5e2a780;0xefcf6a9139c7c;0x9dcd4cd4e34f6;0x8d38546e9d5a3;0xb2de85f74e8dc;0x69e6deb7b6c];[0x0;0x8b441c558d5eb;0xd5f4fc13606fd;0xb6e03d28efa4;0x7ade2b2c05d52;0x14a3d36cd5ad9;0x3de9417394d55;0x28ac0921deb1a;0x534947a3c0bd7;0xfb7fe4335c410;0xd8622cff77];[0x0;0x1598960268d29;0xb59eecab5665a;0xb923b3a584717;0x7423f2f7d271c;0xa667d76bb54de;0xadae3a912d08b;0x82f46ede46469;0xc482b5b092cb4;0x2c202ecb1abc9;0x2071b17fee8];[0x0;0x288debcd1ae42;0xea413e5b5f95f;0xf8b7327a849dd;0x5af28c4c10d49;0x16875f1ed1cbd;0x8bc8cbfb149f1;0x45f676dc92633;0xeabfc7ca36723;0xe633ed5daf7f7;0x4caaae55b760b];[0x0;0x714fcc71f01b1;0x9fd3920ef822b;0xaeed78cf27364;0xcc4f40993436b;0xd309c6aef6d43;0xd0f912f37ffa6;0xe7bce82ead6e6;0x44fa1ab551584;0x4f2ff6d13c3ef;0x392708b0a61]];
 [[0x2007b56ab189f;0x4d538000e4e3c;0x408c96e285349;0x69cc8f787ef27;0xdc8af5d5e516;0x4c7f98f703ba8;0x159e7cf8c725;0x680532082dc4d;0x6910ffc8277bd;0x333278aec4c];[0xe4e3f333d6105;0x206e6b622fcf8;0x8824eefa11cd5;0xedc35cefa6396;0xbed834d4423b2;0x6e66bd58f41b;0x36fb9d04ea8a7;0x77f5cbec7ebc6;0xa4e0a8e27f813;0x1b367511b7c];[0x230d52defb97e;0x9f0546d3d6913;0xed27646ca0007;0x5a0f64d19d647;0xc34f8f1bd0212;0xd9061f0aa2988;0x33798b5b66bc6;0xc15b161c1ac7d;0xab6fd31eb90d9;0x9928ffa8a36];[0x716a2e3757764;0xfea66b8b86768;0x323149393e675;0x63c5e136fc8ba;0x479f6c3fc1141;0x40900f12a9f6d;0xea6df4aac0749;0x4b3054f752456;0x977bf4595fe0c;0xa6ebd6c0471];[0xf8a4f3194f80b;0x464ebfaa8e65;0x6d272e9515ba6;0x86c5321ad944b;0x78a8dc7ed5289;0x4d4f441513909;0x8ef7eda33a5bc;0x4574fb93bec63;0xe084163ec53b;0xfec09af3717];[0xf99f242bdea20;0xbf9f53110d86a;0xc8af4358356a7;0x55ee64ea2028a;0x90730b612cf2f;0x7025aba257e60;0xa9e98558c3c8e;0x6b8b74ec78d9f;0xb2bce12bf60b4;0xc65a3aedca1];[0x0;0xee24cc8c35687;0xf714ab38bd821;0xf86a8f8d74129;0x5e203b501814a;0xaf7b12e86f7c9;0x8e663178b9e07;0xcc6307525e58;0x7baa9ab34481a;0x397c622ead9a7;0x71755151414];[0x0;0xb3555dcbffe0a;0x9d486326168f1;0x4fe4908fa0e85;0xfc16908be2f65;0xfbef1881f987f;0xac6708764a562;0xcad1b7b1fc085;0x41a4e34eb714d;0x396b55969880a;0x1eee970172f];[0x0;0x7fa8ff2a17972;0xfc09acc33ba1b;0xb1f6090e06f44;0x8ded82fc2ef7c;0x7f44779e3480f;0x7ff505681d81e;0x7a2a97a621943;0x3fce32fffe613;0xa8e20a6e35e3b;0xa67227f3b24];[0x0;0x1bc052da47a44;0x880ef5301e2d0;0x5a7e970222c7d;0x6d340990ce5a7;0x53a103a1df37c;0x1362c90f930b3;0x504e6862546a6;0xc59d141e5b64a;0x316953235469b;0x472dbd25612];[0x0;0x6f2de730dfdaf;0xa8bdbd0e3c26b;0x7292a08e3370b;0x4ea9019e6dcf9;0x71daaa2f0ec42;0x33c4d5dc2f241;0x8379795dcbfb8;0xc450d7d1c603f;0xa25396a895669;0x426f6c1e269];[0x0;0x53414258a8c60;0x3a15314eacf82;0x8880be47a81ff;0xd193e0d8ea968;0x28b58ecfe66ab;0xcef8306e7cd65;0x12d6817bdfce5;0x5ba39da369826;0x21d0730ee3f47;0xb2547ccf3e9];[0x0;0x3ad085cfd694e;0xd4a782059ef53;0xb95a1a5daf18f;0x998a0f39a7594;0xe6c67fbe4f9a9;0x570ec13d3fe39;0x4b230d54d4039;0x8147243568c4d;0xaaf6772ae7e6d;0x13d840fc444];[0x0;0xa7eb7cfa27c9;0x69bec18e03978;0x99fe53bbf6484;0xe4045d32d4be6;0xd7a56c1de89fd;0x41e0c027cde48;0xc98460cfc32c5;0xb13ab2fbcee0e;0x79d5d08110437;0x7c1ed11815c95];[0x0;0x8a84cfd092491;0x99ed1d60df4b8;0x470d1d414304;0x2cfcb1a9208f3;0x2214696d0ba86;0x19a68b4307e82;0x29ecd33c7239e;0x76d5ba6750a1b;0xdd4c4c37ca9ef;0x5a330384f5f]];
 [[0x2007b56ab189f;0x4d538000e4e3c;0x408c96e285349;0x69cc8f787ef27;0xdc8af5d5e516;0x4c7f98f703ba8;0x159e7cf8c725;0x680532082dc4d;0x6910ffc8277bd;0x333278aec4c];[0x1ad737cae68bd;0xb2e8dad21be0;0xb12453c57e5fc;0xf6091400bb6af;0x6b739436ec0e0;0x9d615a1d03891;0x2a685c62af5fd;0x3d5bff36f69a4;0x5ca06b6989fe;0xd08f3e69b57];[0xe9163615a92da;0x5dcc0d5e0264b;0x39bc44f8b9578;0x3fb8305f41891;0x88c2d5afd32fd;0x7ab72bb0b7fdc;0xe41f04a93cd9d;0x56e4e12498395;0xe5dcd076163dd;0x601bebbc598];[0x383a639f0e0a7;0xeb9e9c313bcc8;0xc2354a1f039f5;0xa377d509fac81;0xb1f49dde61273;0x5c39121a07d8d;0x9663af835317f;0x773c60899fae1;0x53d0798e46179;0x6bad9e76021];[0x4e137297bfe15;0xa98140df59f8c;0x53bc9de021ffe;0x3152b2f1d0c45;0xf5409eee8f026;0x7cd4ac2517d2a;0xc85b8edadb566;0xfccd3ffa1bf47;0x9cdf5be658780;0x741b3939aff];[0xfcd5aa8a42fce;0xc08d628f5b95a;0x8149cd57404bc;0xc0b6bc15166b2;0xffe795b3a50cc;0x8c4cd4e022a86;0xab09572b4461c;0xf5326a46c501c;0x8373636177c12;0xce751ba0423];[0x0;0xee24cc8c35687;0xf714ab38bd821;0xf86a8f8d74129;0x5e203b501814a;0xaf7b12e86f7c9;0x8e663178b9e07;0xcc6307525e58;0x7baa9ab34481a;0x397c622ead9a7;0x71755151414];[0x0;0xaf794cafee0f8;0xef4355b255eac;0xb8229b5f431ed;0xd8f90a6bf89bf;0x796087f53ac83;0xc4aac2e96180d;0x1b04f1816c27a;0xfde53a17c46c3;0xd9fb22043f062;0x2cd683a15c];[0x0;0x83c6758c1fa2e;0x30d012e32d31d;0x82d958bba6c5c;0xb01e558e9b65f;0x51be4429fd7f2;0xd875681550969;0x735aa0cc53964;0x3834b31682aed;0x595ee6cc888d5;0xa24c26a59ff];[0x0;0x3c33e5f6ab07f;0x9350a32d84e41;0xc912806a47b2b;0x832395faf2bb;0x7c9d8b4dd5534;0x22485f16bdde9;0xf6aa406a5eb50;0x5c48fafb947bf;0xa10feb0851308;0x733504bfac8];[0x0;0x7e4d71227001f;0x29b534b4771f9;0xa34ccf062d3a9;0x9a204944377df;0x36724ad1f5da9;0x7f6fb457ab819;0x5874e05f8eb;0xd3d9dbfa77280;0xdd7bc3e11c583;0x6b879259c28];[0x0;0xe08d646d28f7e;0x9a7a74918755e;0xa1b24ad84ba94;0x1d7817425f61d;0x2f0334a249d2f;0x5996fb771da03;0x58a9f6f931df7;0xa994f77e1de73;0xdc426ed673762;0xade2a7f725f];[0x0;0x5d11f9b78f75f;0x980fe3654589e;0x4ac953948410c;0x101d1f929c99b;0x680efcac50a9b;0x34a956b84f373;0x15003e0faa2d8;0x4479a984b035e;0x467923f091882;0xda3c5f5d9c];[0x0;0x4ab373c5de46d;0x1214e8b23e015;0x85d350e31f672;0x9f95a64a7f5f8;0x7ff05a5bff457;0xa35495202df17;0x4662814ab4d90;0xeff23c802a56d;0xa0a70a8e3a4ca;0xde8ea6ac46b45];[0x0;0x7894cc7d0b5dc;0x27d3ad3ef0fcc;0xafb803b2a653d;0x71a28b81743fb;0x5dfd134a9fac3;0xa9c5ece747b34;0xd65b0b4ba8a9;0xc106e2c059da;0x5beeca8a9fa1e;0xe8b6e8d2e4]];
 [[0x2007b56ab189f;0x4d538000e4e3c;0x408c96e285349;0x69cc8f787ef27;0xdc8af5d5e516;0x4c7f98f703ba8;0x159e7cf8c725;0x680532082dc4d;0x6910ffc8277bd;0x333278aec4c];[0x7f36544344311;0xb7874b2021a8b;0x1b43cd85b648a;0xc1dff3e984300;0xbbb9d12a8beef;0x70dc85ac974cd;0xe16badcb42f99;0x11f2491ccec2a;0xbf66daa1a9d6b;0x5e30316370d];[0xbbcbd7309119c;0x8c8cdcc47022f;0x720516ed8c440;0xce8153436d5af;0x44dd36e7af664;0x41a88608cc58e;0xb449de7d7f5ed;0x370af0a7b8cc2;0xcf071b852a343;0x793ceafad68];[0x409aca32f7cc6;0xd1a5d88c4af6c;0xd0c664a27b1aa;0x7aa376f559186;0x913cf2ed1ee0c;0xeb469f9953127;0xd8f75a9f19bba;0x585155d04c0e7;0xd934388246987;0xc0e582dca7d];[0x4f85c6b63941;0xb29218323b337;0x8592047815691;0x73f8d8cb1fad7;0x6a31bff64407;0x4c1be50fe7bb;0x5d5797c5d14c5;0x8aaafe7eb6ead;0x31a9c125dee5a;0xacb7efbc36b];[0xdc9a09ddd86d;0x8dba5340ab7d9;0xba1f9b8453a9e;0x3b931e5b2f0b4;0xc80f61bfdcf7b;0xf557f183a4a81;0xc6f258f944892;0x984e0c2264502;0x217b2098a54c0;0xf173833afbb];[0x0;0xee24cc8c35687;0xf714ab38bd821;0xf86a8f8d74129;0x5e203b501814a;0xaf7b12e86f7c9;0x8e663178b9e07;0xcc6307525e58;0x7baa9ab34481a;0x397c622ead9a7;0x71755151414];[0x0;0xf5870a324e11e;0x99570a20b2bd4;0xb1ad7bf9786b6;0x97837d5e7cde9;0xc8d0e696c6a75;0x5b910f785e7a3;0x72124aaa8efd2;0xb0161775a81b7;0x5f380456ba922;0x31161007248];[0x0;0xb0ac0d25d2b2e;0xd6601abae0b43;0xe2026040ed989;0x1db8fa7c5c120;0xdf99a7908e095;0xaaebfbbe28afd;0x61fa326386bdb;0xffe48473025c4;0x190731d9bc1b;0xe8e1912bc7];[0x0;0xe9f6baac42996;0xd9ca6277d0b7;0xe49f6c37e23c4;0xea2badc7ce323;0xc51856f78ebc5;0x591734386612d;0xb77de2d883500;0xdf0d2e655b1a5;0xf17504a1a1df6;0xcf257175b8c];[0x0;0x99e7b4cd3f72b;0xdccfa44e9b52d;0xd6cf751f42748;0x8bc7ef61d2681;0xae4cf5f307b67;0xbb1d2e1e5f5da;0x6f08eac4f331e;0xff572473a60af;0x2f86235f1f679;0xc15780dcdcb];[0x0;0x58c706895b775;0xd016889d9fcb1;0xd435e03d87199;0xdd3a0c316fde9;0x28973d7464ac3;0x215c4e7e6ca03;0x52a020c603704;0xd226e8a39fced;0x1ee77ccb5923c;0xf98236d992];[0x0;0x9703bcd30438a;0xbdb6a6a166480;0xc0ae8858f29c8;0xe7bb4645688ca;0x6fbc1b72ac29e;0x987d607e38113;0xe584e095dfa73;0x58baab410abf4;0xee554e4aae02e;0x4c0a822eba6];[0x0;0xb25a3f2aea6a5;0xaae547bda2a9c;0xdf3aee78b368b;0x51d74c4f24de9;0xe0fd2bf460a43;0xf7634653c4c65;0xdbf7e2f256041;0x8ff994fa16bf5;0xf1436a0c1d16e;0x922b59938c2ba];[0x0;0x3e2e31a388965;0x7389ba56c57cb;0xd00cbd45c1383;0x59440c3e09929;0x1a8dff4440166;0xb1372145a9d19;0x8bcbf64ff4101;0xca821e76a5601;0x90fa3f8e42c6a;0x75b760555a4]];
 [[0x2007b56ab189f;0x4d538000e4e3c;0x408c96e285349;0x69cc8f787ef27;0xdc8af5d5e516;0x4c7f98f703ba8;0x159e7cf8c725;0x680532082dc4d;0x6910ffc8277bd;0x333278aec4c];[0x1caa69ad476c0;0xaa36adcc85472;0xd1b51fdb3f0d9;0xa951370a1201;0xebab598d07d10;0x7a37041e6d016;0x8cce6b1ca2515;0xa18936a3a8c38;0xea4ff2a9cb1c6;0xac3037749a];[0x803747e13beb;0xefa3b10b39f9;0x940b704f0384c;0x67514fa0bb566;0xb042654865e38;0x351996a775813;0x249abae00d228;0xd3189be7a78b7;0x1d01ae5753289;0x9f59b932e4d];[0xc619b235b44f4;0x2b96dbe60ea3;0x9d78c63a66689;0xaea0bcf59bd8;0xbf34ced254a2d;0x377d29ef85dae;0xbc96a0f2c242b;0xe26c2614c305a;0xf81dd406146e;0x858339aa70d];[0xf6a75827b749e;0xa08ed45ae6785;0x6529adcd5be29;0xd2cdf31ee6119;0x480dd717c6445;0x6f29d5aad7360;0xdb267b58fba87;0x1d919c2e8cfa9;0xff4afb2302d29;0xd9ebd114162];[0xb3ad1e8094e4c;0x909f10df08d84;0xe5327feef4242;0xa1baaa9e81e9d;0x2c41835ad5f97;0xda0d7fa9918ee;0x73e31ed19534f;0x5ccee10f9e81d;0x740cbf4c91cff;0xcbe72ae75f5];[0x0;0xee24cc8c35687;0xf714ab38bd821;0xf86a8f8d74129;0x5e203b501814a;0xaf7b12e86f7c9;0x8e663178b9e07;0xcc6307525e58;0x7baa9ab34481a;0x397c622ead9a7;0x71755151414];[0x0;0xc47f1f1fa5fed;0xb33e64ea3bbb4;0x39bad20c7214e;0x300034bd82a73;0x7aee59b40024f;0x6389883cc41c0;0xda066950ecf8b;0x3adad5ef9f341;0xcd25c3b34febf;0x1e50a61164c];[0x0;0x759df9036237b;0xd0f760f0e4f6a;0x6fedbe553b447;0x34f12ffe1899f;0xa1b3b80291fd7;0xe7d4630ad7fc;0x7a49043021b2;0x950b6961ad071;0x6c33bfbb7c938;0xb3ad031924c];[0x0;0x60981ec432e54;0xf3aab6b826b40;0x4c7f7db9ee701;0x47ecd91ca4502;0x12b82149d8980;0xd94a87a26771;0xa42aa92e49d8b;0xf9a01df6ba923;0x30b3851f3edc3;0x87cf9de7a18];[0x0;0xaa1c9b92019fa;0x8905ce96f82f7;0xe01ef3551d130;0x694cd213123e9;0x34460ff0b05b4;0xe65e26642d77;0xde53d97d71587;0x8f528df1e2eef;0xe2b1e565ad6c1;0x7ec2aa3bea8];[0x0;0x66c6d5dac822c;0xb73f9fb16b2bf;0xf94729130553;0x229da1cc6c36d;0x4f5996e0604a0;0xfbaa360541ec1;0x3e814b210b63d;0xbfdef35c5b487;0xfd48d3225f49b;0xc081299487a];[0x0;0x133c0bdfdf7e9;0x7cb84254d05c0;0xfb9065f31a7c0;0x57c729fd2d25;0x6a02ce6b79bc7;0xb575939a86f8c;0xfea742aabfb76;0xcee96a1919026;0xc127e3dfc9557;0xabd8f85e1c];[0x0;0xa97f0d873a721;0xe5446e0f2e173;0x114ec9bbd17d2;0xd3ff3d83679b0;0x34bb6b84a109c;0x3250d78d42745;0xfdb84a4186f68;0xc3d333a0adb46;0x97f433812399c;0x519461eeab24e];[0x0;0xda8caa1fee071;0x2b3e08729b0e1;0xcc3a02e785b97;0xb5db86a3ae1b9;0x7a080fa102eee;0xde256e8b5d111;0x4f13160ce1b5a;0xf18aa32f51c44;0x1c863660c848b;0x511d5794821]];
 [[0x2007b56ab189f;0x4d538000e4e3c;0x408c96e285349;0x69cc8f787ef27;0xdc8af5d5e516;0x4c7f98f703ba8;0x159e7cf8c725;0x680532082dc4d;0x6910ffc8277bd;0x333278aec4c];[0x9e9e951490d8b;0x4465b301b6500;0xcaf43b22ee81e;0xbc8f10df3b785;0x134f4353aa830;0x9b336e44e0065;0xb2be4266c3fd1;0xe3cfb49e2d976;0x1c161955d0022;0xe52071d8e73];[0x28776f6f46cc5;0x939a96173d299;0x8f7cb0ce2707f;0x5410c3ca91b29;0x93d5a37dfe6bd;0x6f58cb24949aa;0xdd2bbc8548782;0xd44c294143310;0x1a379f71bf3a8;0x7bc7bc8b6f];[0x41df316be3e55;0x5c2fd2d6e4901;0x4bc87fa18670c;0x8b2805a0dffdf;0xe99fc5b86e97a;0x653aa13cc2b1f;0x4644a758999f7;0x24872ae011152;0x733585cbdbc54;0x97e027c68c5];[0xbd403fe47589e;0xd77d6536bd559;0xc342de03003d8;0x5a3463d0967f;0x8f95489cc63f9;0x3641537414c4d;0xe5e0ef9d9c1a7;0xe393f3ba2ec13;0xb46e47af07d36;0x8be1f69f861];[0xbd796b4974e34;0x9390afa3ce317;0x138e653d9a218;0xffbce5065df41;0x9343512a96dda;0xaee17c7c5e194;0xd95c3c2194479;0xe01b56fbfc803;0x4ffc321654fca;0x3d488e7483e];[0x0;0xee24cc8c35687;0xf714ab38bd821;0xf86a8f8d74129;0x5e203b501814a;0xaf7b12e86f7c9;0x8e663178b9e07;0xcc6307525e58;0x7baa9ab34481a;0x397c622ead9a7;0x71755151414];[0x0;0xb58e014cdd384;0x2c68420cf4693;0x9ab02e39f3f30;0x6448488946a2b;0x426fc59124ae5;0xc7d1cb83b19e3;0x3c814e790010d;0x7e76fefe4a27b;0x68fd2c8d1a733;0x848b0c5662];[0x0;0xd9210e2c5a3e1;0xdd5a923ee06e3;0x27299630373f0;0xa41dade78c217;0xf71ad0cf191c4;0x83b426baec195;0x3eafdbe90d067;0xa744234262911;0xd41285d4d798e;0xde1d6fe19f2];[0x0;0x86c5ac401d1fd;0x18cd367d09a09;0xebe5c628a43d0;0x2d26464ee36d3;0x8fe2f146cd8d0;0xce0af7609c70a;0xd6bcfe4921a42;0xe3f25e6e9d2c;0xcb07ca333179c;0x4bb3cb9581d];[0x0;0xc85f105b52f9e;0xc198c6e0e1574;0x54f3d49847ee;0x8d7a984563190;0x75463710f7593;0xfdaa23c75e00b;0x70f377a7173a2;0x4976498af1234;0x3c4379ecf3fe5;0x46a84df9e35];[0x0;0x193fc07238c14;0x885b5e2eb241;0x1af51c314650c;0x6688739ebaca0;0x854d5308e22b5;0x3df4e9ab11a76;0x1c21adfc204b1;0x3208a97fb9c76;0x449236c9a2d9b;0xedf94c786e0];[0x0;0xb6712e93d8482;0x76b6652979361;0xb754af15f607d;0x7bed6e7026441;0x88d52171c7491;0x2cbfb88762a6e;0x1ae568166af7b;0x3b62323f85963;0x9f221d63ef1d8;0x48713e52f58];[0x0;0x21e9cbdd787f7;0x4c8448af8afdf;0xace3f4b2de4ea;0x6fe83cfb2fc21;0x99708f799b4f;0xdecd77ddb253;0x16bd4f35f5a88;0x1ccce2ff8b3df;0x8feb0977c3ab7;0x5086757a33a8d];[0x0;0x652e56e510475;0xed53d99861063;0xa0d68c9d6bcc0;0x9f2a3b5325d19;0xdbfdcae400c76;0x6979d24fcf619;0x210e729e54a7c;0xf912ad9e21a23;0x57bd9c48027ac;0x1972f1b1e40]];
 [[0x2007b56ab189f;0x4d538000e4e3c;0x408c96e285349;0x69cc8f787ef27;0xdc8af5d5e516;0x4c7f98f703ba8;0x159e7cf8c725;0x680532082dc4d;0x6910ffc8277bd;0x333278aec4c];[0x5a7860be1f431;0x9e03e4ec93229;0x54af3dde330c3;0x5ea7d97c8a71e;0x823b617035349;0x4e73e86689695;0xf985e15ad0a54;0x2110f9214f35;0xaef9581572702;0x8201d6ef2f9];[0x3a51d0b34c545;0x3590ddaa52001;0x9059be803c505;0xccc3399aa74d8;0x8fa5525742f11;0xc8a740a01a2f4;0x51295473f9563;0x15d89009dbc90;0xecb9e5857de52;0xb265b4386c6];[0x25c4bc36dc78;0xda4dd6c7e4fbb;0xb15242eedfe61;0xe5a91a8d0b31c;0x79e93e24e8cfb;0xc8611d5ac699e;0x719f82ea622cd;0x55094ff6552e8;0x9a4b43a5a7f88;0x1652313ae0a];[0x1631e1b951295;0x814bb53e14f5c;0xee0b23cfa7d8b;0xa04951b5274c6;0xcd76e656f8627;0x47b16ae72fd6d;0xb139c668f3454;0x437558c300654;0x74019d2118e27;0xa450c5c0d74];[0xfba59535e91ed;0x83ab3264bd455;0x71787144ad3aa;0x47711bbe6772c;0x6b98bb466263a;0xcb5c1a8edb1dc;0x1a0702042b3ac;0x95d648614214f;0xaa854ea303ff1;0x56345f3a561];[0x0;0xee24cc8c35687;0xf714ab38bd821;0xf86a8f8d74129;0x5e203b501814a;0xaf7b12e86f7c9;0x8e663178b9e07;0xcc6307525e58;0x7baa9ab34481a;0x397c622ead9a7;0x71755151414];[0x0;0xa45361d66d21a;0x4476aca23ab94;0xc8e5dbeabe558;0x7f78ec647f01a;0xbbb6a55f3e4e4;0x6243cedec6d1b;0x6af1280432a85;0xf5e31489d6e09;0x5e6bf72605729;0x5f01c71a64];[0x0;0xf524391025401;0xf8a619ded893b;0x1f8f291ef58e4;0x4c93863424907;0xd63b1b7f1f17;0x32fac2490329d;0x7d61f8fd9fab6;0xa32eafa1162dc;0x7343ff4a8323;0x465d5fc8da6];[0x0;0xa438e5bd2e0f8;0x269ae1a4e3268;0xa5438d575f223;0x5059b0141f7b7;0x57b9ef841bbfa;0x708e13ae8eaa;0x9cacb2f90e3d0;0xadd73b2befb80;0x7625c31f04917;0x4af907c596c];[0x0;0x78c3ae7ad79d9;0x18ff6f53268a2;0x9f81e3fb57368;0x558ac90d05709;0x416d54dd0cbdc;0xf802222e8f207;0x4acb18d34ab34;0x9b50585b36158;0xf9698526d0280;0x45f9fc65297];[0x0;0xe8ce9fd837b95;0xf7905d58d3624;0x27f1ceb864afe;0xb70104e34efca;0xfe3d40fee860a;0xc77fbe6c6a56d;0xd2c5928b3623b;0x2110839fb292b;0xded59d932c5ab;0x4b6383cc951];[0x0;0x937e3afa4595d;0xb4618397ab375;0xc9d9d29492702;0x7e9b62f005a19;0x7886044a7e5ab;0xb6cdd9a3bc6fa;0x1ce221b70dab3;0xf0a3df9449383;0x9c2890ecb6d54;0x44accd7b008];[0x0;0x80d9e77f0ab8a;0xdd9dd0560f608;0xf69ef217893de;0xde866d1a9486c;0x49adae771b5d6;0x49bdb9b944034;0x364bc75d4499c;0x41b47aeaa5096;0x5b941a00a0e24;0xc675b6a7fbd37];[0x0;0xb15ad08c4c7c4;0xceee3fcabdbca;0x32fc3b0c83d36;0x64617c495db12;0xceaa2cc9ddc02;0x614169103e515;0xbc2d6981cf3b0;0xe9c0f925f02c2;0xb206020355305;0x68a21e98873]];
 [[0x2007b56ab189f;0x4d538000e4e3c;0x408c96e285349;0x69cc8f787ef27;0xdc8af5d5e516;0x4c7f98f703ba8;0x159e7cf8c725;0x680532082dc4d;0x6910ffc8277bd;0x333278aec4c];[0x20b7cb1367e1;0x5ffda52c4da48;0x95eb31cfd87d1;0xda73b02f93a46;0xec4e2041bc6d6;0x6cc059635c898;0x1c9a434e2d0f4;0x9bfff2e087b36;0x149c3cd4084a1;0x411dfe3f360];[0x34c65f7d9672b;0x8f0fb804d9575;0xecdb4fba6a976;0x3600e9ddcb91e;0x3fff905c661a7;0xf9747cf22ac9d;0xe055c27445dc2;0xed9b4b0760dca;0x934041b94ff68;0xe4bbb0498dc];[0x1293a4a0e8b74;0xc113e0f57565b;0x2a264575a9eb2;0x4bd279770d144;0xabc4edd7f2ca9;0xae9969d245615;0x54534a60d6c2d;0xa7661d083dc21;0x62296b66a3148;0xf65cc38c2c4];[0x8380e397d17eb;0xfd6cf1bf91ba8;0x4217195c74a8f;0x9a36f6264d2a6;0xed2eb4dd4f3e9;0xb50236ce11321;0x2fb7678f0e6ad;0x3cb3c10640ddc;0x1d2b279447a5d;0x4931442e5fb];[0x7f6b6f8150fd5;0x433a6dff68a13;0x7e8a429ff3b00;0xedde3a6e66194;0xe595f40801d9e;0x12ee987b3853e;0x6098f07671557;0x73f2b065e38ec;0x9960afe15c837;0xf44236b04a];[0x0;0xee24cc8c35687;0xf714ab38bd821;0xf86a8f8d74129;0x5e203b501814a;0xaf7b12e86f7c9;0x8e663178b9e07;0xcc6307525e58;0x7baa9ab34481a;0x397c622ead9a7;0x71755151414];[0x0;0x6219bcf94df39;0x2aa2116238c98;0xddd1193cdba5f;0x1501f8469af34;0x4e25d36afa675;0xf396d73bae5d7;0xb284cfbce009e;0x27b95c9de2386;0x1cb1631f6e936;0x6940cd2acf];[0x0;0xd46d4adc2965b;0x8ddd20352262a;0xb4073d9867a7c;0x16b1424dcc6f8;0xde227e2488e95;0xb5f6ee7ef4583;0x2e051f9ae9ce;0x3b87364ae7348;0xaec9e70f7746d;0x75900f57865];[0x0;0xe7c10864532b4;0xef8c637f25da9;0x38ff2042ada77;0xbfc11eec97765;0x110a4d3014346;0xe7ea8cd39b020;0x8545096d7ca7b;0xd5ec2a0f60014;0x95cc41bb695ed;0xb87f1a44dfb];[0x0;0x11703b086eb5;0x6623d650b6e9d;0x48fd41c56ee6a;0x144d270f34324;0xc7002e9437afd;0xc7f3437a2508e;0x80e48162ee92e;0x51aec068d875d;0xf5a91557eff74;0xac33920d018];[0x0;0x40a88f802bdfd;0x33daac4235526;0xa91886e4db8b5;0xd5455be04e338;0xa4a2a1977815d;0xe09101bc60826;0xf36b3af7fdeb3;0xb3d9e1c5ab19a;0xfe9426d25b6b1;0x7df4e51376c];[0x0;0x146d5c079071b;0x1dbfea409ec42;0xc0f85eb9f72f1;0xe5b9e987085b6;0x32a6d0121f14d;0xe9dacc9073d8f;0x495b555d74a22;0x76ae7edba9560;0x3882b857da564;0x2e28419198b];[0x0;0xc18723f07a137;0x1ef4fa5aa1d7f;0xd3de60fff6f22;0x564002e45f26;0x2b0a2441e5f88;0x50ecea6efd0bd;0xb31a2be0569c6;0x56887ba6f8cc4;0x92760345458b6;0x5fbd00b8b5872];[0x0;0x245c173b54b09;0x8940f273f9be1;0x5e42208d29d4a;0xcabcb55053d0a;0xf694cf173b633;0x312b2770b9be4;0x24b0e01e53600;0x92a21c3d05833;0x8e1797e3b6b1f;0x43aa5ba92f6]];
 [[0x2007b56ab189f;0x4d538000e4e3c;0x408c96e285349;0x69cc8f787ef27;0xdc8af5d5e516;0x4c7f98f703ba8;0x159e7cf8c725;0x680532082dc4d;0x6910ffc8277bd;0x333278aec4c];[0x64f3a844ff64b;0x8445e1a5765f7;0xeb453ad77a2dc;0xb316f99a7d093;0x1d58fef4584a;0x4b0f36e9d25ab;0x820ea94cffd4d;0xa7215d8400797;0xe79f34422245c;0xc088448affc];[0xa72b9cf31b089;0x9e72fd336e464;0x9c523e0b4e2db;0x5ab16362b4fa8;0x62fa38d82f8d8;0xf103143b6ac7d;0x2823c224267fb;0x9766a4eb037a8;0x8b91bb0497cca;0x7f8022432a6];[0x1d5d2a5b9b46d;0x4a241dbc05484;0x42127038b5323;0x2fd8f5f856d89;0x8dfc13e4e364a;0x3d90c9e07bace;0xe72b3d17b8e70;0x6685928241a10;0x1a71229d0f1ae;0xf0145d51c63];[0x6446a47eadff6;0x9468596ead918;0xe45298167cb6a;0x50f10f870059a;0xec359bad7931b;0x690b02158f0e1;0x9a9c2b02e4bfc;0xf8f1c73b09c05;0x854e55cee136d;0x3d3b12a2889];[0x8bc133b6703b9;0xe57954da8536f;0xaa89ae9066c32;0x23eb0f34a28;0xb348a2e8ae9d6;0x54b6e14f3b962;0xd39766d9d4305;0x1ca535c087bd1;0x6c2f3a266453b;0xde8ecedd88];[0x0;0xee24cc8c35687;0xf714ab38bd821;0xf86a8f8d74129;0x5e203b501814a;0xaf7b12e86f7c9;0x8e663178b9e07;0xcc6307525e58;0x7baa9ab34481a;0x397c622ead9a7;0x71755151414];[0x0;0xfb68c84fa5f68;0xe57c3208c151e;0x2ad9d35b2d47c;0xeebc4a801bdb;0x6d3cc8feb49a5;0x845d893e6e2c;0xb88a127abe5f6;0xb13df9ec5456c;0xbb020d6be750d;0x3006ac09fea];[0x0;0xac8db334c4e5;0x5d22ff4a1ae25;0x2f1eb780fb75a;0x3b30e17394113;0x84bb46ab159a;0xffd2d0780da17;0xe0ca558e55f07;0x36ceef1f20e72;0xae98fe5378b8a;0x9dc13f30da1];[0x0;0xd8c5aa2711195;0x82265b9b7cca9;0x12e0c3c5b7f5;0xd4834c9f30b6f;0x6e041bbb8d245;0x1e8eb29423f0b;0x907612b0ecb23;0x53e6966338f1c;0xc0eb828836ee1;0x58ea17d2bc9];[0x0;0xc1f67716379d2;0x10fc143b36a9c;0x33a22ef637765;0xfa53438df0014;0x71640b70670cb;0x81dae0e4aca41;0xc8a96b87ce037;0x811cacbf76c59;0x774b03ce21868;0x52fd33d0278];[0x0;0x7a0f6f498a3c1;0x99464025f5bc;0xe4f1a72eb19;0x2c39a75cdd09d;0xaa5a73e1f735e;0xbe687ce6c162e;0x7ef3ff8523701;0xbef1ffe813d67;0xb27b6f97b77b9;0xa904b8b7bd9];[0x0;0x2b5bd8ce11b06;0x3bf9f885fbfed;0x614d22c5dac0d;0x600b83234916c;0x8bf2e8d1063b7;0x79f0ab75d0c0a;0x129514da323a2;0x3373ef3c0b6eb;0x127e77eba8f28;0x9706d3a3912];[0x0;0xe83a65fa16a20;0x80d0eefda409a;0x285846222466b;0x591eda839fb4b;0x1f8bd91d6ad1d;0x3b0478351db30;0x89dc365f325ed;0xa1cac63bf1be2;0x90e6893d3717e;0x3923f86703368];[0x0;0x362327e6c84c6;0x6a9ac91b3a7d2;0xa5c7629253b57;0xdef4997120080;0x594744df9f9cb;0xa4854e6ce96ba;0x9641b04d9742c;0xa42b3a81e0806;0x507a2381c44cc;0x2cc76856d1d]];
 [[0x2007b56ab189f;0x4d538000e4e3c;0x408c96e285349;0x69cc8f787ef27;0xdc8af5d5e516;0x4c7f98f703ba8;0x159e7cf8c725;0x680532082dc4d;0x6910ffc8277bd;0x333278aec4c];[0xa1de553ee2210;0x8910d09cfc9b5;0x687d15e4a0f95;0x7a653a76c992;0x6b5382ddd6b;0x8587125c2ff9b;0x567bb936ab528;0x22deb4872bdf4;0xe2732db1fc003;0x648181ac680];[0x88a444f73a73b;0x407feee5d0532;0x211dd30fd9920;0x63de84df76cc9;0xbce8ec4b1e3c5;0x8119dc0b33ba7;0x7e4d5e5c781da;0x550e6c7d79caf;0x491b0dc4673fb;0x69a8ff4d284];[0x332bd9989ad3c;0x8cd2069235160;0x8731fc6341b6f;0xe5cc11e361e62;0x21f919f779e01;0x287e496b271b1;0x92c0d4552839f;0x38ef2dddcfbcc;0x4e8931d54a251;0xd2d5ec535f5];[0xcfbb9524e609d;0xdd8fb5c971447;0x93e05500cbdb3;0xab3285c3ba306;0xfee8fd24301ac;0xb0476aa898c78;0x4e02b4fac8aeb;0x6dfce3598af41;0xac17f5a4fa6d7;0xb718ceee0e0];[0x8f4d9f9f173a1;0x149458fc1ab39;0x895965c7fedb3;0x484d85206f0cd;0xb5ca877f427fe;0xf2e31d9b48e10;0x59803aa59159e;0x22a6f70bd9718;0x296c1a0ef4345;0xfbe2c219146];[0x0;0xee24cc8c35687;0xf714ab38bd821;0xf86a8f8d74129;0x5e203b501814a;0xaf7b12e86f7c9;0x8e663178b9e07;0xcc6307525e58;0x7baa9ab34481a;0x397c622ead9a7;0x71755151414];[0x0;0xbed2cd0673df6;0x995269b079491;0x844c9c9af5e7b;0x4a99ab0c38790;0x2dac73b9190ba;0x21b585e429b43;0xbe087b11f1a2e;0x858b340c7c3f5;0x7930580a9e89;0x15b0e23cd7f];[0x0;0x8907831a1b063;0xb69e081ba6520;0x49241eeaaae63;0x9347a2723f3bc;0xdf401b65fdd04;0x989c2d385624e;0x73a8dde83735a;0xf27e6070e4945;0x706d4e04bbd05;0xae93d9238a3];[0x0;0x70b5a963d989c;0x9bf2e73891d9a;0x679b961e2664d;0x50b8944c81b8d;0xa82808931e537;0x18ad0e0b48838;0x21a880d67c702;0x8ba453f46569b;0xe2339e462fcb9;0x352bbb0634b];[0x0;0x91e88102b0dbd;0x8a5dab59127ca;0xf60511894e6fc;0x3b9f746f1b668;0xa6187b93ce3bf;0x3177b17d2ddb1;0xa80da6ebeee6d;0x708c039ebb373;0x747f6f705f8e7;0x31a0a148e49];[0x0;0x1ece0e8e4a5a9;0xb92314ae08acd;0x2a6f98432e866;0x692ec01b891f6;0x8d50b7fc0e8dd;0xbe38be8c9daa1;0xc05fa1111a609;0x410956866de01;0xe1181cf7c12e4;0xbb0acf93b02];[0x0;0x3c68bb1492c63;0x93cf2bb354dcb;0x4fe62789762f7;0xa775b2d6a311e;0xcd42193f138bc;0xda506d748dfc2;0x6cac9c5a91fe0;0xcf2ae9a1a6349;0xb3026c0ecb31;0x175e04fd927];[0x0;0xa38dfa5dcacbb;0xef88f8dbd1f8f;0x60b696f6de404;0x52dcbe07c855;0x8f54a2533598;0x76629d7130776;0x54128948617c1;0xa5429b39cad68;0x9f96a66e717bf;0xd81b325a35cc8];[0x0;0xc919f360ff9e3;0x807837020f291;0x134c780a9ea90;0xc4ecbf70197b;0x2d9c329b0b6f9;0x865442c4eb01;0x198df00402ade;0xc1cf950b02ecd;0x739af78998828;0x3220008e4e3]];
 [[0x2007b56ab189f;0x4d538000e4e3c;0x408c96e285349;0x69cc8f787ef27;0xdc8af5d5e516;0x4c7f98f703ba8;0x159e7cf8c725;0x680532082dc4d;0x6910ffc8277bd;0x333278aec4c];[0x63e502a4d276b;0x43e9dfd510bc0;0xb3d849b26e920;0xf03df5420c6e0;0xb7ccff5e5ecfa;0xf9c8843c14adb;0x227ef925c5174;0xf86cb6beeb9c7;0x6aa52961966df;0x629b3bb200f];[0x10896394635f2;0x56b8349ab53e3;0xaf5bfc29c1b4b;0xf46dda9f5ce8c;0xdd4bb06a89b1b;0xe9fa6ffff341b;0xe2c5c168b848c;0x4a2c8348b2274;0xdb1fcb9b7af2c;0xe9849ed5eae];[0xbb202c9f289;0xc62a9a767136d;0x23652c803abb;0x5dac85c9bfa93;0x8792d089cc9a7;0x5f3f0f2b597a5;0x2cc1dc8d9d2a9;0x828e097b102c0;0xc907be2644465;0xe80ab33b0e9];[0x866194a9b366e;0xf2bd88a2c604b;0xfaf0f933830c0;0xa3f30f11b7540;0x35f78e039f7e5;0x20ddcc4559c8e;0x5baf4ad4fc07c;0xc1132f9079fd0;0xcce20def7341d;0xe731f24473d];[0x41509d5123955;0x114f7cf5afef0;0xf98b9eead7706;0xef3c76e8d4978;0xec18678434efd;0xb994066aac5e0;0xec18a14ea192a;0xa24a7d154000b;0x476291a0c56df;0x8455623d47f];[0x0;0xee24cc8c35687;0xf714ab38bd821;0xf86a8f8d74129;0x5e203b501814a;0xaf7b12e86f7c9;0x8e663178b9e07;0xcc6307525e58;0x7baa9ab34481a;0x397c622ead9a7;0x71755151414];[0x0;0x9962803dadf16;0x77d479aec0bd2;0xf8fb591796b05;0x3bac7d9a55452;0x6707bd66c5847;0x350b04a780091;0xbb168d865ae32;0x6489a15b4d1cb;0xaf21c6fe4cdd5;0x1b6c661ece5];[0x0;0xce0e60848af8a;0x15c90ce2fefb;0x11414c64725b1;0x1e013e4517740;0xf8d8a22efb860;0x241b86a9f4ebd;0x76f1f4d8db8c4;0xbfc93960d216e;0x9e9aeabf801b7;0x33be4d2b555];[0x0;0x43ffc0a4eaf51;0xc1763ad028c74;0x3a2fb10fd8a97;0xc1cb75aafa1d9;0xc4dc6501ab79e;0x51e1ab8880e74;0x49e2a10f77ffa;0xfaeb5f5c9b92e;0xa6b6f4abdee67;0xc8cfa550775];[0x0;0x744a968307b06;0xc43b856d2b67e;0xc9f0a3f6ae6b0;0x5fc5c89766732;0x90b146a685652;0x69fcc40cb3c41;0xc9f45c55231de;0xa1976d18c8c;0x1c160b6a15ef;0xbb6dc8c62ec];[0x0;0xf39c2e058027d;0x3f3b8602f6608;0x4d5c9eec86b94;0xab665a0db7b2;0x4d2d0ff86946e;0x7b592543b9ede;0x37c43ec447d04;0x571aa5492697f;0xb59d7024aa6ee;0x377013afa87];[0x0;0x8bfc590d96113;0xcf02e11e18e24;0xe5f336de2d334;0x9ba69c4b85e7d;0xb7ecb32a50fbb;0x332383d2f5ae9;0x23177acdcab26;0x44dcc7166ce27;0xf38bc1e7b2b3d;0x2c90a2de4c9];[0x0;0x3bb00779d2e1b;0x942dc6396d3a5;0x9a5501b386be2;0xc4ed5a0b2ba74;0xf04b6c6a9033e;0xf81c50fe0b6ac;0x755f40a3beb21;0xf8f43e9a3c40f;0x6673de52188d3;0xea30979831cb];[0x0;0x3c3a26fcd11b5;0x2c18f93cb1d9f;0xf6f37d444148b;0xb618bf3144e9e;0xddf41e6808361;0x212811a54c82b;0xfec7a0f660cb1;0xdee263fcffd90;0xf16fc27864b15;0x69968de4be]];
 [[0x2007b56ab189f;0x4d538000e4e3c;0x408c96e285349;0x69cc8f787ef27;0xdc8af5d5e516;0x4c7f98f703ba8;0x159e7cf8c725;0x680532082dc4d;0x6910ffc8277bd;0x333278aec4c];[0x2ed90e15968ba;0xb4ccdd7bd014f;0xc40ec99eadfba;0xe20c1ee1d6e87;0xf5389d675d392;0xe681d4bb65bf7;0xa7ea8aca084ac;0xcbcd7e45782a1;0xb209fee6d537a;0x80991036596];[0x2941c378e2b02;0x82b441ca51d1;0xce82af060a750;0xcf02f23bbce17;0xf5360228297b7;0x9afbb05ea4329;0x29cd22bee1faa;0xbd50c83ee4687;0xf7db7d2113ed;0x9861c4237e0];[0xfd69da9609ec6;0xeb4036475a2ae;0xa43da2f8a7918;0x858a996d383d9;0x7199d10f92bb2;0x14902391e025f;0xf3bad89e6063;0x5fe2f9288fd8c;0x1c992c1a84a4e;0xe256623561b];[0x4078829690a2e;0x37339e69cba0f;0x922727bbcd4c3;0xc1cf9aafca080;0x90fcdd7a71374;0x438d1ff9c832b;0xdc9bcf58b9aef;0x83bc075327c8;0xc0e72e54d47dd;0x7c1d147d1a3];[0x6f63d60d19670;0x612678aeb14be;0x2fa9c08c1c73e;0x2cf12a4b1837c;0xa358236587a23;0x4e9ed79f3a992;0x8772fd97601c5;0xbf79e98872429;0xaaf6618c21760;0xc720d082131];[0x0;0xee24cc8c35687;0xf714ab38bd821;0xf86a8f8d74129;0x5e203b501814a;0xaf7b12e86f7c9;0x8e663178b9e07;0xcc6307525e58;0x7baa9ab34481a;0x397c622ead9a7;0x71755151414];[0x0;0xe897cbe949d8f;0xc2194721395d7;0x91ca09734b6a0;0x21ea686648f08;0x1f025150eb906;0xdf34b9ea5d337;0xdc766363f4e87;0xdae391b9f9b81;0x15234f30361ba;0xb9a4730b6];[0x0;0xaa712ec7078b2;0x8cbc9fb730c49;0x1289979ee5ab9;0xd97065f8383fa;0xeedad3c48a8e3;0x93805e7ba1995;0xf48fdf6e85c48;0xc7a1413cb903e;0xac6ca6de27dbe;0x649564f8462];[0x0;0x6f282b20986d6;0xd5fc0552d3880;0xcaab817bf4e91;0x6d3ed63156ff0;0x7cf76a80e9144;0x99c063a6e8954;0xc7a2e7d8f270c;0x7d5aade60af2c;0xbaeff998f47e6;0xd99bc7d713];[0x0;0x19ce0d1d040a4;0xf54bd18baacf2;0x5cf8cf3636c69;0x946a5a760bdeb;0xf5b4556dc53ec;0x2c33e9d8050f2;0xd5edb9f854184;0x135aa16e03910;0x4a960e8a89e38;0xcb1b5a7d15];[0x0;0x35d3e8b8b4bf0;0xb5daf93943bea;0xed35d4bd40841;0x2effd86dbc40a;0x4764488e964f1;0xfafda915af858;0xe319b5068e12d;0xd9e93088f34ae;0xf5317bda6a87f;0x6bc3e17e01a];[0x0;0x32d583f4a6e75;0xd51ab763d39aa;0x73b8ec6072b92;0xf49ae15fe7c3d;0x656bbaa4e15cc;0x4f7ddd7f9a7ad;0x1ec5079c14d6a;0xa53e7094a2cbe;0x7cfbafca6e704;0xb1dbeaf44b];[0x0;0x64733b24a2253;0x359cf841f3bed;0xc0004a01da8b6;0xfc8acce339e76;0xd6a6bbc3de1f1;0xe86428822d25a;0x26b05097e496b;0xb3df2322ab71e;0xbeb02a87ac440;0x8dab6f2a73525];[0x0;0x5b1a9ae6e4184;0x646c534093136;0xc27622d46576a;0x703fbfcb323df;0x442e98c7cd0c9;0x1626f4d1585a4;0x59db841acc39;0x185d2a6e656ba;0x3bc8b6ee3e70d;0xc38ed6b3a1]];
 [[0x2007b56ab189f;0x4d538000e4e3c;0x408c96e285349;0x69cc8f787ef27;0xdc8af5d5e516;0x4c7f98f703ba8;0x159e7cf8c725;0x680532082dc4d;0x6910ffc8277bd;0x333278aec4c];[0xabde62bcdad8b;0x9885dff45b4aa;0x45a88cc8f1ab1;0x7bbda3f413c17;0xdbd75ec3d101c;0x1274d53e6e9a1;0x9eb535937fa47;0x40c34bb48eeb3;0xdd471f8a6d60;0x371c3276e1c];[0x4ff2324f40377;0xf567c948b2b21;0x4b258fe16cd53;0x5e726fc8f0906;0xe234471fdd4d2;0x45a4af7eee244;0x3b6026ae819b2;0xa7dfd7b842306;0x87080c559a1e;0xb797ab4ba96];[0x2176a3e66f83b;0x83035834f1545;0x3951a222fbf6e;0x8972545939164;0x82418ca27a7b6;0x5e6743cb9db59;0x417b6a322fcf4;0x2496f9e2edac3;0x5c93632fc9caf;0xe56e009896d];[0x7b31a50051f4a;0xe77860f45be35;0x54e84dd4bad9b;0x6bce9b54bb8da;0x5c3ac833e8a7e;0x97f934330d0e8;0xcad28335e55ed;0x2f95e052d5ced;0xad9529eb7f86f;0x8256901aed8];[0xdfc34ff443633;0xa7f50b24792ad;0x1db8cef1826ca;0xaf3e85cd6d05a;0xd0750a25f5fcd;0x27f4e42f963e1;0x458dd632b13ef;0x6eee917764eb;0xcfe4479a09c03;0x16349e1936c];[0x0;0xee24cc8c35687;0xf714ab38bd821;0xf86a8f8d74129;0x5e203b501814a;0xaf7b12e86f7c9;0x8e663178b9e07;0xcc6307525e58;0x7baa9ab34481a;0x397c622ead9a7;0x71755151414];[0x0;0x514754084e932;0x4a6f01a3c523c;0x1181d6d11ad5a;0x5bdb0e76a6d5d;0x1229aa8daca1c;0xb7e23ee7e300d;0xebb814c039447;0xca4c20b53f588;0xaf02039b8c36f;0xb131ec40ac];[0x0;0x56bfb113eb335;0xd2f6af5485290;0x321a1fb2aad78;0xe72844b64457f;0xa46a0cc080619;0x77995d9ee408a;0xdf7f48de4927f;0x5e2633945f9a2;0xeb8d5981dbc74;0x133ceefbac7];[0x0;0x7ff4e693d19b3;0x2efc92e8b1ed4;0xcece6a801547a;0xe7bca2a65110c;0x6242de97c371a;0x4fcbfa1ec0e7b;0x9d4214c52bcf5;0x4cb128c7fc9a4;0x6c3dc4069e0b4;0x83b2fd8ccfe];[0x0;0x15beedcde650c;0xa29835df696db;0xf30669a663569;0xd48d43b6de84;0x1905075754297;0x1eeee49271f97;0x7f05fb9d2534c;0xe3f3491f2a6b3;0xab937a03fd556;0x7aec2fcf76a];[0x0;0xca936965e25ab;0x5ad41d2ff2112;0x22c85d2258d93;0x22390b226576;0x2b07c9e175334;0x428597d694a8f;0x45c11731d920c;0x5b92ace25198d;0x9a101544406fd;0x149c91e453d];[0x0;0x5dbe0496850e6;0x40537008250c6;0x2e8f59e5730a0;0x3ce32002ba4f4;0xa04ae782f1e58;0x9192df4390b77;0xe25cf924e6651;0x71696be1767a;0xe95e801c36e88;0x258d7c60305];[0x0;0x3f4f586f91e3b;0xef62ce0888b42;0x749a5a3d42e5d;0x9a07764f2cbff;0x45574e09dd1f5;0xe2ed0271bc3c0;0x6cbe4df9680cd;0x962521872ab98;0xefd5bda98cadc;0x3a014960ff65f];[0x0;0x599c2b39cb64c;0x54e721dd72b79;0x749d52bfd0bdb;0xcab12ef389890;0x4620fe0a3918e;0x4bb452304109c;0xad12065ff22db;0xda4c7d08a8fb6;0x96c37912bd239;0x27678d095ae]]]
 (V [0x24775b861964;0x837dfc11e48f2;0x47f9fad65a33c;0xe7167a78d4528;0xae22e4b4c759d;0x9e66aca5f060b;0x15a2f0bc36e2e;0x37df6d374223e;0xcf1f23564aca;0x542a29a1e01] [0x38b52fb3e9662;0xa89e996361bd5;0x69bcb657dde36;0xc2d580e49e344;0x75997d4fb8ef6;0x79a3c065485c6;0x4cf8865f68ad;0xb51e1eea470b1;0xe0f7172951480;0x492e237be38] [0x9040126b3f933;0x77ce8675fcea7;0x76071db3a0cf7;0x7dc3cb0499bb7;0x3c2a406a1a208;0xf1009e325f275;0x678b416f29fb6;0x2dd054d9829af;0xb3a998d73a693;0x360daf87cde]) [[0x87818756566db;0xaa039a7ff3f29;0x4a9a9f682ad7b;0xf4993f36b44ac;0x8b5db12486fac;0xa872f2ceb6f09;0xa13e4d66f01bd;0x13bf08d87993c;0xaa164997227e6;0xc40a43e33c4];[0xb8780eb9fbf23;0x6ca346fd9d15b;0x4c23517cd3ddb;0x32a818012fa2;0x211a40be1ecc2;0x2f16c1d3c70e1;0x1a328b3f837c6;0xbe92681cd3c60;0x4c817315ae20a;0x9e6faecd2ce];[0xc14f052ecd26c;0x69d244b2503df;0x4bc972c143731;0xf0e906fd0d0cc;0xba07e57df2b3d;0xc50f3a41bbcb9;0xee695350083f5;0x6e9042671d0bc;0x4ef8f546c1d14;0x450d2b4cb1a];[0xf4f316b8d2da5;0xc836018c70cf6;0x3c7bdcee5a960;0xb677b8ae41424;0xe26997edbc65e;0x96ddb9ed87268;0xe2555787de5d3;0x8b5ce76c3b202;0x52d1b6b347614;0x30605c8aab1];[0xfd2bdadbefa25;0x3a97c65b2cefd;0x3468a1455373e;0x47401109f508e;0xd878c5e5de860;0xbb4be260d820e;0xd92d6f24e6fcc;0x2671f77516133;0x6ea349f009e9;0x400f16269e4];[0xeb1c392f20de6;0xc3fe0699838bd;0x653177988be8e;0x165e22fdb4077;0x58a5151e17f2a;0x9f586d9dea075;0xa0f2874e6b4d0;0x3c7c021e48909;0x9d833a6a0f693;0xef07da0c88a];[0x0;0xf2d326355ca83;0x2bcc5f17810bc;0xda03430eb9faf;0xb62c6801ca16b;0xc4a5957cb1612;0x42b3a0c44aedc;0x68d1593230738;0xc35898edf3c99;0xc3c3247552ad7;0x103e6cf3aab];[0x0;0x1e124ded9cfbe;0x2d51dee2bf23a;0x61bda033a17a8;0xbe20658b3cbf;0xa31857230f287;0xfac19d9af7de;0xa4b2b6f87c915;0x7df8ee7687c7d;0xa30160ef2f641;0x514c59a038f];[0x0;0x6511488316112;0x1bb32ef434e05;0xcd996572ee6d;0x42ba0ccd1e838;0x61bc9a698aa6b;0x55dcb7487bf4d;0xddbf1bd55edb;0x54d8f1314fbc2;0x8e25942d39af7;0x430b095b9c6];[0x0;0x524288f793349;0x7102ef341a731;0x7d431059fc5b4;0x61aa0ec114f41;0x407bd0cd9c3be;0xe2caa8560747e;0x2ed5978f95b6;0x4737371d11878;0x5a7a80b13dc0c;0x22e1da07a08];[0x0;0x572d72623336f;0xe2c9a20fa904f;0x1506694f9b423;0x24d0f082f06c8;0x771de3a059cc3;0xdd0d38f8e783b;0x25af92e87bba6;0x92d678344a2d3;0x4e88c1163703d;0x163997c87e7];[0x0;0x7badfbab360ca;0xf323ae8ea6ef3;0x73723aa64ff9e;0x9ea52e5f63cbf;0xbae5dec774a00;0x6da82f121c636;0xdfd462b01a6cc;0x3d60279e96cdb;0xce70d3cc9877d;0x69397e49da6];[0x0;0xcf607687eae09;0xa509f2b5ee7d4;0x41611984bfd13;0x3021449df24ea;0x5f031d26abad8;0xcbc8370f81794;0x6fe9e70dfa5d2;0xa414a529e0cca;0xc5a8857c534cc;0x3416bd72124];[0x0;0x8c092c757f8bc;0xf332ba337e5dd;0xa879d5b0ac7fb;0x4b26deac7ec2c;0xb05146305e650;0x8057b0490c7cd;0xb85fe8e486aaa;0xbe0e47d60dd53;0xe357ff7128b79;0x494a07387f958];[0x0;0x199e3c85db443;0x74b45107ac56f;0x1c87a288ffa4c;0xa0e493e240993;0x3a4c3ff8e10a9;0x6db06acee4159;0x9d1e8c07b5681;0x30fdc61647dd9;0xe47df73429202;0x180f311d22b]]
 [((V [0xad46806c8fc8a;0x7ea9ccf7e95be;0xb36a00d283984;0xb67931127a41d;0x52ca1f1311a97;0xadc83f28fdc44;0x680cfa91c117c;0x88d2e7b19ab8e;0xd3124dc822806;0x2fea857e4a8] [0x6a371199997d7;0x12a162e643705;0x7962b97b8517b;0x90b95f39a857;0xeea64c3fa4a7f;0x3ca4983b8cc8c;0xa56c81614c382;0x7ba30312197e3;0x1e5add1554bf8;0xda6b5562fdc] [0x5d6aabf06bf5d;0x565d2a438b9f6;0x5a3161b732542;0x231ec5fb95e82;0xbdf67c7825b42;0x2cc198be14bfa;0xac2f2b4c63e7d;0x707ebcf763409;0x1df3f7025ed1c;0x65e47f5eac8]),[[0xeaf72e0b030e0;0xe50da7d99789f;0x6cd6edcdd0789;0xe3634bc330ac0;0x16566bd35f8b6;0xc067620255273;0x54f675ed75cde;0x269a4cc408b8d;0xdd5479d3fffcc;0x4ee0abedae1];[0x792879c0e94d8;0x562e26eab5cd9;0x69d751e36a0ec;0x52b30219fc758;0xbe2ba4fe2d7f3;0xc141e5df048fa;0x904932d55aef9;0xc0d18259fd124;0x37f43b9b2e53f;0xc189beae97f];[0x9040126b3f933;0x77ce8675fcea7;0x76071db3a0cf7;0x7dc3cb0499bb7;0x3c2a406a1a208;0xf1009e325f275;0x678b416f29fb6;0x2dd054d9829af;0xb3a998d73a693;0x360daf87cde];[0x9040126b3f933;0x77ce8675fcea7;0x76071db3a0cf7;0x7dc3cb0499bb7;0x3c2a406a1a208;0xf1009e325f275;0x678b416f29fb6;0x2dd054d9829af;0xb3a998d73a693;0x360daf87cde];[0x953d719922f24;0x3cf77bd4c944e;0xda79b7133d43a;0xd167c7fe9702d;0xd6c5bda548ac9;0x353afb709634f;0x26587d697af93;0xc849583ef5b01;0x1e0039a2667bc;0xe9cc6191aec];[0xe3eb0827c637c;0x1936ab15ec88a;0x8f5d9ad02ccb2;0x814b3a1b6572a;0xe765e758e4d29;0x8c06ea6e6e5aa;0x69f0b56bdff66;0xf8882a1b07623;0x19f401f8c7d82;0xd7bd5d1ce93];[0x0;0xe318627e75170;0xf7b9f5a75353b;0xc6a4aa5b3668f;0x3867bb3b14896;0xc16f4a7c94c89;0xff6d3e8f2c03e;0xe5e6284bac179;0x69793ef2ef2c0;0x9e1a490f2b50;0x216d344f849];[0x0;0x44eb4501b59f8;0x1fdbd0d84194a;0x5863fc3caa325;0x5b6c85b0ae763;0xc3a40869f21da;0xa3c348355d4b5;0xf0e9fc625747d;0xdb376d41a6311;0xaad784c29e16;0x10a79bc24b4];[0x0;0x199e3c85db443;0x74b45107ac56f;0x1c87a288ffa4c;0xa0e493e240993;0x3a4c3ff8e10a9;0x6db06acee4159;0x9d1e8c07b5681;0x30fdc61647dd9;0xe47df73429202;0x180f311d22b];[0x0;0x199e3c85db443;0x74b45107ac56f;0x1c87a288ffa4c;0xa0e493e240993;0x3a4c3ff8e10a9;0x6db06acee4159;0x9d1e8c07b5681;0x30fdc61647dd9;0xe47df73429202;0x180f311d22b];[0x0;0x3f84046f83ea0;0x7d11383c12f71;0xae5953208f597;0x4805c4675845f;0x8b88e9d11113;0xa71e8201cda34;0xffdbf5ddc8f1c;0xf867271bd3643;0x7e8098d1f4dd5;0x14eb588d6d3];[0x0;0x9d2f7316967cc;0x38e02b5093cdd;0x11e35e58cc2f;0x15d4e99ff08bd;0xc658783738de9;0x38f5e6b9288a;0x646a62887d34a;0x5ed299d64d542;0xdcd9161022372;0x1babb243eae];[0x0;0x37a6de44ef4cc;0x2ea974891d8c2;0x289fa24ec8c76;0x12c190de1ab1;0x542da24cc89f0;0xd5a2eecdc53b2;0xe728bd649d7e2;0x931d4f2aa43a6;0x5b6f3c79f7e08;0x243996d663b];[0x0;0x2495eb7c8e0d7;0xd5ce7f66c412f;0xdc949db26aa70;0x7a68c27f1a543;0xe83bdf5a6c75a;0x7258a028eadb0;0x72548058d8418;0x156e3ad00fe62;0x607205701ecc6;0xdaa0a046dfcc6];[0x0;0xde3afbc8da12f;0xe3a2ed336854d;0x2dc942af2b37e;0x4e35da33588e5;0x1d1b6f60e213d;0xce4b588f9a8a8;0xa93aa1c0f4a18;0xbab0df74600fd;0xe7eb01f8568ee;0x28e1ccaebcd]]);
 ((V [0xe7153334ef528;0xf8578a8b2ecc3;0x5d71ad4dd6fcf;0x475c18a3efd39;0xf73ef1fdde58a;0x897da61a28d56;0xab5191331097c;0x1c16eff7d738b;0x4b5c4d4e3e418;0x66fd2d16f11] [0xb9bdddf3d91ce;0x4bc4f38457b41;0x5ecd33ae6b8d9;0xbe51ee013091f;0x21ee0cc833d54;0x5e2c299bb93d9;0xe1ccbf804b792;0x7efdfcfce6536;0x2c94b220114ba;0x99baee13480] [0x704b39184c410;0x121ec02c22194;0x69d8b43bd3a2b;0xe503dc3a5a361;0xdcf8e91786dfd;0x6fd5bb4eab95d;0x356d41aeb4899;0x191912a3b79a9;0x9f30e430a37fe;0x45410986a28]),[[0xb8f618f03a5b3;0x94ab8e67a9588;0x38311308a805;0x28117cfdfed26;0x1ae84d2593093;0x871048a562a7e;0x2e4ef008fced8;0xe56ffc5efea8b;0x8c6e926d6a537;0x8de5666397b];[0x132f7d04d6383;0x8a57232daffe2;0x5515c7856c32c;0x6b310abb7df41;0xb20b32108cfa4;0x4e2464b078d58;0x9316815225c10;0xba5fda9eb2371;0x616217361fd84;0xd4bdc6501e6];[0x5d6aabf06bf5d;0x565d2a438b9f6;0x5a3161b732542;0x231ec5fb95e82;0xbdf67c7825b42;0x2cc198be14bfa;0xac2f2b4c63e7d;0x707ebcf763409;0x1df3f7025ed1c;0x65e47f5eac8];[0x5d6aabf06bf5d;0x565d2a438b9f6;0x5a3161b732542;0x231ec5fb95e82;0xbdf67c7825b42;0x2cc198be14bfa;0xac2f2b4c63e7d;0x707ebcf763409;0x1df3f7025ed1c;0x65e47f5eac8];[0xb0d01b518f459;0x6d925d0458c2e;0xb4bedb2ca80b8;0xc0095876a9abf;0x67872167747f9;0xebd95f55475e8;0xa0fc0fcbd85e1;0xec628602c33e9;0x1ec1fa3271ca2;0xd93616d9597];[0x625f61b346cf2;0x1cc4c629573b3;0xa056ec58c4274;0xab27b244d4481;0x4a8410a9187aa;0x624b055b31770;0xf21a71864d62e;0xcdfd549beef87;0x42a01d03ae0e1;0xfb87af76c4f];[0x0;0x7075d4e7078bb;0xb15eaa59986bb;0x7a8a76fed27ee;0x9a122b6dc5ad3;0xda7332a54a8b7;0x8d9a16e11a939;0x827b505f62441;0xdf64551e6863a;0x24dbe4bb618ca;0x3f029d5b788];[0x0;0xdbcc6857d985c;0xa58a5eb121486;0xfe230bdba2fad;0xd113fe6aabfd5;0xf2d23b27b8dfb;0x6a0e0714f784b;0x39f4ec5f2a236;0xa169888e5b717;0x42503046dea08;0x387a284dc33];[0x0;0xde3afbc8da12f;0xe3a2ed336854d;0x2dc942af2b37e;0x4e35da33588e5;0x1d1b6f60e213d;0xce4b588f9a8a8;0xa93aa1c0f4a18;0xbab0df74600fd;0xe7eb01f8568ee;0x28e1ccaebcd];[0x0;0xde3afbc8da12f;0xe3a2ed336854d;0x2dc942af2b37e;0x4e35da33588e5;0x1d1b6f60e213d;0xce4b588f9a8a8;0xa93aa1c0f4a18;0xbab0df74600fd;0xe7eb01f8568ee;0x28e1ccaebcd];[0x0;0xebdcc6ff7ec08;0x6950ad917fdbb;0x2d6d351afa33c;0xec0658545aff9;0xcccda0449b9fc;0x3cf69e9e46bc6;0x706519f6fbcda;0x4bf2d12530cee;0x93e0c0e545b9d;0xba5afa6d156];[0x0;0xb69e4326c2efe;0x6585258882525;0xa93711c68a0d0;0x6769380ea5512;0xa1b4b2706399b;0x4c42caeb362e3;0xbb6246a737fb9;0x5b6b0b791003b;0xc99ed8e1d8454;0x8f7f3dcafd];[0x0;0x64fb1bdfb46ea;0x6530e12d97325;0x9e4a173f00511;0x53b9d42c967ba;0xfd916702a654d;0xb657b08d1e1b7;0x5fa9369a31dc2;0x7e6e9e5d91684;0xdb5826bff5ab5;0x5596020955c];[0x0;0xbcdd876585ee8;0x25b70a2c9a8a2;0xabd177652cb77;0x9f01c61285750;0x107f31c54ad28;0x94bc8a021aaea;0xac0ab1edbabaf;0x6fef5bae8d701;0xf164860ee9d17;0x99d4e83e1ade1];[0x0;0x68e198cf504e0;0xc98c04d9ff1a7;0xeb2f97b22c8a9;0x8a2e551aca543;0x53b675db5ea5f;0xea0fdb980e2a9;0x99fd0f48d10f1;0x80240ca43153e;0xe8a27aa025a09;0x3dd883ac9a6]]);
 ((V [0xa1dfe715f4846;0xf736ab6e70580;0x10b7b1a5f029f;0x278f72c8ef92f;0x12626e98f16f0;0x54c7d22a33da7;0x42ebb94155909;0x9ef31b6b4b5eb;0x7134d6a1a9f36;0x4d642c82dd9] [0xce944cb5fa1a0;0x49701b185ab1c;0x235df5b06c198;0x2dcf5e03f5db3;0xb43a292de5ab4;0x1239f02a474c;0x582043b359223;0x5351ed2362d44;0x835fd46e61dae;0x13981b2513b] [0x5378b65a3147c;0xc7dd07a8952ae;0xc6aa1dabbacae;0x7bc07f6d73e5e;0x1bcf7e9dd7514;0x16e4a4c0e028d;0xbafdf293b425;0xa25e08db13d30;0x681d2ab9dbdd8;0x842dff5b2d2]),[[0xa69b3e43789be;0xa9d25ca07ed;0xa500262ef324c;0x3b966c8eb2055;0xd77d98a218bfe;0xe18bec485b30b;0x6e00617a07a65;0x2c3003b8efbe8;0x42a5ddd5cd15d;0xa10d75349fb];[0xbd0004df3a474;0xb23e2d70b6388;0x3685639fe96f2;0x7abeae7b17141;0x7dd2f6a9a1022;0x577fa6935c748;0xffe274542dac5;0x970530f0582f7;0x462f004e4d126;0x1aea17126c8];[0x704b39184c410;0x121ec02c22194;0x69d8b43bd3a2b;0xe503dc3a5a361;0xdcf8e91786dfd;0x6fd5bb4eab95d;0x356d41aeb4899;0x191912a3b79a9;0x9f30e430a37fe;0x45410986a28];[0x704b39184c410;0x121ec02c22194;0x69d8b43bd3a2b;0xe503dc3a5a361;0xdcf8e91786dfd;0x6fd5bb4eab95d;0x356d41aeb4899;0x191912a3b79a9;0x9f30e430a37fe;0x45410986a28];[0x9e6bd6f5f3266;0xefa62fc09570d;0x20ed943afaf64;0x804432be45378;0x682a8938c1bd;0x6ebb87059e108;0x8ee07c93f6a6e;0x2d07a89ceabdc;0x95c77eae9a551;0xbddd4fc4ff1];[0x1e942de946fd6;0xc297fdb020c7b;0x1597cf64ee78d;0xfa7a7bbcd1dc9;0x77504e1614e64;0xe8c41f8dbe640;0x7101f7c037056;0x69fd88536d71b;0xb067819fb2bd5;0x5d0cc74d6d6];[0x0;0x9f51640102ae;0x55064e2088b5c;0x104b36ee66204;0x3d0c9405da26d;0xc36ede645d1b1;0x1b14beb01bae1;0x987c2d731a013;0x55d16074ca7f7;0xba35cd7d8c101;0x2ad39c41894];[0x0;0x1e9f81120534;0xeccd6076e54a0;0x68d1e6d621228;0x7d155b9d31722;0xc9433a4f73ae1;0x70735c0f4b026;0xf331aabd5d995;0x5311b711bbfc1;0x39c9ac1ae7d09;0x2b918b001dd];[0x0;0x68e198cf504e0;0xc98c04d9ff1a7;0xeb2f97b22c8a9;0x8a2e551aca543;0x53b675db5ea5f;0xea0fdb980e2a9;0x99fd0f48d10f1;0x80240ca43153e;0xe8a27aa025a09;0x3dd883ac9a6];[0x0;0x68e198cf504e0;0xc98c04d9ff1a7;0xeb2f97b22c8a9;0x8a2e551aca543;0x53b675db5ea5f;0xea0fdb980e2a9;0x99fd0f48d10f1;0x80240ca43153e;0xe8a27aa025a09;0x3dd883ac9a6];[0x0;0xa2510c157cdb2;0x1a0c908aa021d;0xa81eea59b8b7d;0xbc68ec4bdcae8;0x5dd68beeceaff;0x7d324421425b;0x921e93ec39139;0x20142e68e4f45;0xfd40142c5d9fc;0x5c50f911dd7];[0x0;0x3964df7482e46;0xa67cba46975ff;0xb67c65cb8e723;0x47e8647c4fe59;0xd3bd1c3901e52;0xbca39c502d037;0x7dc1a3bb99fa7;0x440bbe06aae02;0x61697bb30d4ca;0x296eba506f6];[0x0;0x7472a6d9c0132;0x10bb0754a63ab;0x51f94a248c3fb;0x46990c44da61d;0x16265c24a1c3a;0x1f079986c590f;0x6caa19d5cf66;0x40d39266e9614;0x90f80ba498f2d;0x822f10f8bf];[0x0;0x6f77892d0498f;0x37e8c2d9ec91c;0x40b6679ac8485;0xa807a55fb4985;0x24ebcc319c53d;0xdea1805300b2c;0xd9d24f5c7543b;0x9117c4cf8f9f0;0x8ec91edb2a780;0x13a9a3e2aa249];[0x0;0x241a5ff3ac89c;0x1bfde91df0558;0xdfd5aee898547;0xb31d72f07e1fa;0x382876aac7a76;0x564175ad7a00;0x9e92970b8aff4;0x712b4056e71f5;0x8240b2ddd735f;0x5ec6afcea4]]);
 ((V [0x11fe5cd3906e1;0xe5aa49d81c0f3;0xd00c703492a9;0x43b8b3411edfa;0xc861b08124946;0x52a590a4f9370;0xf5d3d95990e58;0x965d2e00eb58b;0x9f0d7d76bc5ce;0x496c5dd67ac] [0x84e3e93fa6ec5;0xb77801fd8de34;0x6092d5ecf282;0x2bb867fb88b39;0xe7df822322ee7;0x7825ab407628f;0x12c93e0094663;0xb017392d09a47;0xfe9a6956a736;0xe4568e35be] [0x6aca9dc649f1c;0xbf6efdf02092c;0x35b82969f1e3;0xf64ac8d5105bb;0xb2e630c9e971f;0x512fccfef51c6;0xb1ce5e167d44d;0xa8c417f4ce44a;0xc04a82f8e2262;0xc9c48d59791]),[[0x7a0649a513c5f;0x418e63875c65d;0x157523b7aa1a6;0xf2337a2306ae5;0x163433fae4d3a;0x5eee5fac7bc32;0x9c372d1e25b06;0x915cb78cad0c5;0x3529c004d529a;0xd1bcef0e18b];[0xbdc4f7c3c7fbf;0x11051a92f4b4f;0x825d154c02427;0x27fcaf2d98a;0x2fb765d8ce3c3;0xd4e41c379f4c6;0x33781bcd71811;0x1be77a232c6b0;0xc8c80f69f99d3;0x9b2da41cd3];[0x5378b65a3147c;0xc7dd07a8952ae;0xc6aa1dabbacae;0x7bc07f6d73e5e;0x1bcf7e9dd7514;0x16e4a4c0e028d;0xbafdf293b425;0xa25e08db13d30;0x681d2ab9dbdd8;0x842dff5b2d2];[0x5378b65a3147c;0xc7dd07a8952ae;0xc6aa1dabbacae;0x7bc07f6d73e5e;0x1bcf7e9dd7514;0x16e4a4c0e028d;0xbafdf293b425;0xa25e08db13d30;0x681d2ab9dbdd8;0x842dff5b2d2];[0xe3eae28f9fa9a;0x717546784bbc;0x7643f7124183f;0x20efde5634132;0x2754c03d671d7;0x410573ac9fb6a;0xa4f05a6bb90e4;0xcae5c30af1648;0x36292946d70bc;0xff2585756e9];[0xd9da1534282ed;0x9edc62b6ff92;0xc191e39c0be8;0xdf381e58f9858;0x862a59b671eb;0x93dea88aff95c;0x8e87c161b872d;0x5101b7183b067;0x929ee62322916;0xa8d54cc5ea];[0x0;0x360a68413aa97;0x7d4b9113fecf8;0x18279a6baeda4;0x26e4f7eec6a51;0x3e197b0081df1;0x39f262afcd39e;0x8e0db7b9864a8;0xe2f4d77fe14f7;0x179da4734e2cf;0x51bd5e1912b];[0x0;0xbf4ab258e0793;0xdec684b50242f;0xb2f42f6b62d4f;0x3eff53f318184;0xcf7ea6b3ca90f;0x20baf537acf01;0x75d9f919b0985;0xa6e656fda89bc;0xc95292117822d;0x6c4b1aaf2f7];[0x0;0x241a5ff3ac89c;0x1bfde91df0558;0xdfd5aee898547;0xb31d72f07e1fa;0x382876aac7a76;0x564175ad7a00;0x9e92970b8aff4;0x712b4056e71f5;0x8240b2ddd735f;0x5ec6afcea4];[0x0;0x241a5ff3ac89c;0x1bfde91df0558;0xdfd5aee898547;0xb31d72f07e1fa;0x382876aac7a76;0x564175ad7a00;0x9e92970b8aff4;0x712b4056e71f5;0x8240b2ddd735f;0x5ec6afcea4];[0x0;0xb11b18c65c36a;0x60c61d1196e8a;0x26f50e4b9d8ae;0x1f8e91f85fe77;0x5a1d503f1a1ed;0xde69fd25ecec1;0x949cf3c18adc;0x68276197421e5;0x59a4b45723e67;0x17fee67bfd];[0x0;0x69a5b89963a11;0x82f7371664fe6;0xecc55bd3a197d;0x519b228abdc32;0x32afc64855bdf;0x246fa12209636;0x6753e3c0a3625;0x98089dfe0bfdc;0x73eb5622f5027;0x176569f9874];[0x0;0xb0c48cb5b0af8;0x434ece28b0e0b;0xfcfb9d4aaaa2a;0x39ddc2debf5f8;0x1a7c56952e7c2;0xcd2b8e0bef557;0x8c10cf93f1942;0x171ee306e7d84;0xc16bd2fd92351;0x2c81b3ef0b];[0x0;0x496d0c73a46bf;0x8ced52c6e34b8;0xad41cf161c6dc;0x4e0fd5207bddd;0x3892428256960;0x9740b373d43c5;0x439d92a34feea;0xdf7976fc70b5d;0xc9a8f924f5bd8;0xe5323e3218a2];[0x0;0xe4296f32f29af;0x2cbc9ddc9dae2;0xc089ec8a7186d;0x46d8d97eeb126;0x30563b448f6cf;0x301846942b3e8;0x7faebb83cf05;0xf9b2bcb5acb56;0x687ddcaaffac8;0x417d56c411]]);
 ((V [0x93f941a21846e;0x1b20effdfa80;0x885fe52d8517b;0x469def9e1fd02;0xd87a5077f067a;0x547d6e56d3704;0xf0323f42b377d;0x60bbe6e6757c1;0x8682a42a3a35e;0x4d3e7a3dcd0] [0x6f10543f46c99;0x405868948e57a;0x1b826709dba0a;0xb5214d458347e;0xe3c29700e58ad;0xf526253bafecf;0xd5bfc207836a8;0xa96c13adb9a27;0x92a1862cabe4c;0x471d0ef8989] [0x4951e9862e337;0x190dd60395814;0x30d6eebddbd0d;0x7e74100eede76;0xf0a2a1b4e816c;0x47bb38b95d5b6;0xe9bbd142076da;0x30693c50d2587;0xd0492137ab0df;0x17d76351bd2]),[[0x5d2659d17d46e;0x6c6fc311d8ea;0x7105eed622dfb;0xa41211f5c57b7;0x46f19911d2b9e;0xf8a7c72161c5b;0xdf78a79b8a0c0;0xe5fc0ee537526;0xc338bfbda2d93;0x18c57a3f66];[0x52afd7b7f8eb4;0xbf82d442e6847;0x59f4c5c4e8826;0x5c76d300abc54;0x8684e8284698b;0xdabee6fa9d656;0xe6902aefd6317;0xd83286ee75164;0x9a92ff3e746cb;0x9854c0e8c39];[0x6aca9dc649f1c;0xbf6efdf02092c;0x35b82969f1e3;0xf64ac8d5105bb;0xb2e630c9e971f;0x512fccfef51c6;0xb1ce5e167d44d;0xa8c417f4ce44a;0xc04a82f8e2262;0xc9c48d59791];[0x6aca9dc649f1c;0xbf6efdf02092c;0x35b82969f1e3;0xf64ac8d5105bb;0xb2e630c9e971f;0x512fccfef51c6;0xb1ce5e167d44d;0xa8c417f4ce44a;0xc04a82f8e2262;0xc9c48d59791];[0x8ff5009b3ed8a;0x5606d4c8e3c86;0x875a6f2af0071;0xac3096ec45dae;0xa3a2b8d57e250;0xa77897ff0e11f;0x4421841d9a48e;0xed7024dd5802;0x1ef6f949cd365;0xd52eacd6da9];[0xc2bad71cb9ef2;0x697bff7a02bc0;0xd29a5699f87b5;0xb0463c1465ea5;0xe2e22f52c873a;0x33464efb8f536;0xa26ea6d23be89;0xc95b84a09f962;0x7b9c05f4a7366;0xc3261411e90];[0x0;0xba93b56f2751e;0x4228984b1a3b;0xf8ad93a6d5cb3;0x8ba6a41147c06;0xc4edd53f00b45;0x5c05a55531fc3;0x716c01359bf52;0x6129637af3bed;0xf3197a6d7a1d2;0x7cc5dc9f975];[0x0;0xb525c2723160c;0xd40249394e124;0x8b7b448a8ca4c;0xadffc2eff24e4;0x83280477d76d6;0x83d539a0246b9;0x137e783b69ada;0xe780240e85d26;0xee6d7ef16f200;0x138611dacc];[0x0;0xe4296f32f29af;0x2cbc9ddc9dae2;0xc089ec8a7186d;0x46d8d97eeb126;0x30563b448f6cf;0x301846942b3e8;0x7faebb83cf05;0xf9b2bcb5acb56;0x687ddcaaffac8;0x417d56c411];[0x0;0xe4296f32f29af;0x2cbc9ddc9dae2;0xc089ec8a7186d;0x46d8d97eeb126;0x30563b448f6cf;0x301846942b3e8;0x7faebb83cf05;0xf9b2bcb5acb56;0x687ddcaaffac8;0x417d56c411];[0x0;0x43fc47924e579;0x3943a92376d25;0xbbbc214a2c560;0x3005db36d721;0xdec0eda44ac12;0xed45e4494be89;0xdbe3f44d8790e;0xa89929854347b;0x5a7b5039cf92d;0xcbaa4a939];[0x0;0x24954c58642b9;0xc9521650cb6fa;0xba584840e882e;0xff584934a7842;0x2150c465fa291;0xf01a5553083cf;0x146efd5ec03cd;0xfccf3b29931d8;0x44ea68c79cdf8;0x150efb63a16];[0x0;0xdfd6a3f7c3402;0xd8b4afc53e668;0xea4f457dcb9ef;0xfca292ffc932f;0x793e05cbbd860;0x317b0f36200b0;0xe2507354a46c0;0xf5246c69a4d29;0x65ae43c0d64cf;0x2df6ab49e55];[0x0;0xe5c5942c2a0c3;0x672cfbf3345ab;0xf9e524a6cc882;0xc61f687c2274f;0x87a03e77323ef;0xde69eedc1fce8;0x1f3b1b2a35cc6;0x9f314015e70c0;0x69b8e8b7402b;0x4739db3b8e39b];[0x0;0x29f659a3ded41;0xeafdaa68384f;0x5e5319bd8f0c1;0x94d69b08e1864;0xa4984aa166cea;0x53443a0c9afb;0x31e4a119a1495;0xc05432c2bbba2;0xeab8bf781603f;0x1575187f6a1]]);
 ((V [0x2e797f4a53cfc;0x3fbf195d3ce87;0xde47ef29364b1;0x8ccd6cb80b3ed;0xbe2c9d1523c30;0xb508d74ee0931;0x822027a12dacc;0x8a54ca16ace8f;0xddc9efbe442cb;0xe558076aab1] [0xcbe7537fa2cca;0x1a80c399bf8b7;0x553438d9e1474;0xb3a50e7d60c0f;0xf982753283d3c;0x5e8de23bbaff1;0x6335453d59f7a;0xf8c9bcdce066e;0x14ea79e338b35;0xc1d30fccff0] [0x3c8b90cc0016;0x6044b2c72750d;0xcc522097812a6;0x86db143c10e8a;0xead575b0af438;0x6f2a00488cebb;0x9d5e571d4fd25;0x1815276fde834;0x99466107a680;0x20f329fa599]),[[0x9d9865c902863;0x5e138be682c79;0xfe48e570ae33f;0x4463c092c8900;0xc87a37f83e08a;0xe58be06fb6922;0x9f1d6ff4cd311;0xb9cb1d1bce7eb;0xf1c0cfa57436c;0xd69ef3dbb58];[0x3e63f889b15b5;0xdda0dd5c79f73;0x5395425a1a097;0x8fe5e6e3763dc;0xa007b592ad2dc;0x32f5745171847;0xba2a4f1c40d37;0x1d22242aa0f41;0xb7ebcbe9029b0;0x199f3399450];[0x4951e9862e337;0x190dd60395814;0x30d6eebddbd0d;0x7e74100eede76;0xf0a2a1b4e816c;0x47bb38b95d5b6;0xe9bbd142076da;0x30693c50d2587;0xd0492137ab0df;0x17d76351bd2];[0x4951e9862e337;0x190dd60395814;0x30d6eebddbd0d;0x7e74100eede76;0xf0a2a1b4e816c;0x47bb38b95d5b6;0xe9bbd142076da;0x30693c50d2587;0xd0492137ab0df;0x17d76351bd2];[0x8bf2cee6d7f34;0xf7b981505a0fa;0xfd15d09f4819f;0xcacc5d0fee0fc;0xc7921ce371fc9;0x2da30cafd4fc;0x705a120b9960f;0x23baff5eeb852;0x7eb1aabe3f127;0xf86775fbb6f];[0xb27129a2d9449;0xe5e75c0c1fe78;0x567f71bad1ef7;0xc51989d3882df;0xd87598af3b312;0x301b43867434a;0x49d03d10a7728;0xf96724cbb56ef;0x393a212ac3888;0x2137bd9d8e1];[0x0;0x10090656349cb;0x66d563ffd66e8;0xbce296c20f7ce;0x7182d3189d027;0x198c59289c9d8;0xe3eee5fe2b4c;0x6d7108342c611;0x8f4cd0a414fad;0xdb4e2a356fb71;0xebe537a61f];[0x0;0xf0289ea36daf0;0xa78d24521ecc5;0x160dccdc46848;0xa108c3aed7adb;0x4df01af3cb536;0x8068b062e447;0x1e45ad58471c9;0x8ebaf1dba3924;0x78e3f88f9b766;0x13fcdaab8a0];[0x0;0x29f659a3ded41;0xeafdaa68384f;0x5e5319bd8f0c1;0x94d69b08e1864;0xa4984aa166cea;0x53443a0c9afb;0x31e4a119a1495;0xc05432c2bbba2;0xeab8bf781603f;0x1575187f6a1];[0x0;0x29f659a3ded41;0xeafdaa68384f;0x5e5319bd8f0c1;0x94d69b08e1864;0xa4984aa166cea;0x53443a0c9afb;0x31e4a119a1495;0xc05432c2bbba2;0xeab8bf781603f;0x1575187f6a1];[0x0;0x4e8bea3f4ddb;0x7cad554613b08;0x4250c67085c0c;0xb56392ac10119;0x4c04900807cd4;0xe78f57a624c43;0xc077a339e7a52;0x865c47869948d;0x7aa25d4a54f2b;0x13c1219a49d];[0x0;0xfe3ac1d8192d;0x86aeac240d650;0x87dd127e1ec4;0xc859f4cf2704b;0xd42668906bc1b;0x2928fe9528b5f;0x28740009ad9de;0xfd5a4e15ec875;0x555133e0f1a4b;0x174ea4c89da];[0x0;0xe12c644588176;0xbac090995efd7;0xd8a8f9ecef77b;0xbafa65d460cc9;0x22d8e6d4670f5;0xe6e6e8a7a7b;0xf07fc94237186;0x49b4705b83e9b;0x7e74141dd1a2a;0x16f4389fdee];[0x0;0xbf87b4c15ec54;0x8de97876aabdb;0xa78113a43b923;0x10392643e894d;0x111b6498fd1dc;0xa00c4b42aab14;0xa55fc883554f6;0x8f639c64003d9;0x5942d3724748e;0xc2817cb719138];[0x0;0xc8859f64b832e;0x9d13d0a18ff73;0xb498c2b7fd9c4;0xcd993061d8bbe;0xcafd24ac40d04;0xe613742ea70c5;0xe86a53f5e505a;0x415ca09220f5;0x5912a12f1155f;0xada4734d56f]]);
 ((V [0x25924c0cf009a;0x2444cfb2149eb;0xae21365ebc598;0x573338746ff05;0x3d6fdd15b3ab7;0x25a2a16bed7f1;0x4998adc9967ec;0x877dd45dc34d5;0xea85b7beba4;0x63e646706bf] [0x79ecfadbe51a0;0x916af9f16e038;0x375d596d73f04;0x12f4c21946b67;0x49bc0fc3bf19d;0x5a7eebfb412eb;0x7eae3e98f4ac9;0x4f3612f4b37f3;0x52aab533b53f8;0x3a83aab98d1] [0x911ac6152c542;0x7fbe39cce9b01;0xfc9c6f73ccd4a;0xa4ec043614542;0x1dd023c973b2d;0xde26000f338f8;0xef89146cc5a4d;0x6900fb058e367;0x5c853ce8e2bf4;0xc80987559aa]),[[0x1de0fe5b24e1a;0xf61a5a554a46e;0x4264243fffee2;0x408bf217bf3de;0x451459df2fd03;0x97213e99a562d;0x581e08755863d;0x469e08c3d7dfd;0xfa1a36a2baa37;0x85616469e01];[0x49ef52367fe5f;0x17c857c8ddd9e;0x85b836260f308;0xe3e423a940c3d;0x468c66b5e5cf6;0x3f7e38a147fc1;0x7f156de112c8c;0x19232c359e20c;0x7350c53c6c645;0xfb62ecbeeb8];[0x3c8b90cc0016;0x6044b2c72750d;0xcc522097812a6;0x86db143c10e8a;0xead575b0af438;0x6f2a00488cebb;0x9d5e571d4fd25;0x1815276fde834;0x99466107a680;0x20f329fa599];[0x3c8b90cc0016;0x6044b2c72750d;0xcc522097812a6;0x86db143c10e8a;0xead575b0af438;0x6f2a00488cebb;0x9d5e571d4fd25;0x1815276fde834;0x99466107a680;0x20f329fa599];[0x99a1ddb98ed66;0x107dc05af2b3f;0xf55692a3e02f4;0x699e1ac2c868f;0x992a24b63d46e;0xb20079506dcca;0xcbb4804b27ddd;0xd1db87c90662;0x6a8f00844b5d2;0x275327dec78];[0xb04d747cf10fa;0x74a976deb25e;0x9061a3822f014;0x7a4608e6785ad;0xad6241ffa8888;0x8d7dbf50da2f6;0xb360ed95eaeae;0xc0573b90dba9;0x8c1c4b821073;0xd40fc4e0240];[0x0;0x1fffd16793b0a;0x7181ea372ee47;0x761f0175a716c;0xb0e3796c102d;0xfc0220de01193;0x2127e412d1453;0x664b858006bfb;0xc2b9d59d89142;0x4e5cb20a1b366;0x14604afcd2f];[0x0;0xa98d5e9beed3b;0xff67febbafdc5;0x48d77d7bb02c2;0xed38aef92f2ad;0x843c9ed43cfb8;0x2102cb3ec06b;0xbab53b6de6e85;0xd574c1995c692;0xee911f5d5f2a8;0x112addde955];[0x0;0xc8859f64b832e;0x9d13d0a18ff73;0xb498c2b7fd9c4;0xcd993061d8bbe;0xcafd24ac40d04;0xe613742ea70c5;0xe86a53f5e505a;0x415ca09220f5;0x5912a12f1155f;0xada4734d56f];[0x0;0xc8859f64b832e;0x9d13d0a18ff73;0xb498c2b7fd9c4;0xcd993061d8bbe;0xcafd24ac40d04;0xe613742ea70c5;0xe86a53f5e505a;0x415ca09220f5;0x5912a12f1155f;0xada4734d56f];[0x0;0xb328e0f186612;0x89fb343fde9a0;0x1b2563f6f429;0x57ca730e25598;0x4d6f3a13b65d5;0x60b41766fd523;0x91afa1bdd5e4a;0xab32fa625201f;0x5fec9f4291b40;0x92bfebd6256];[0x0;0x7bcea3f8b383a;0x42c51cf267a78;0x999a79ee4131c;0xffcab402049aa;0xcf3a0fb797c80;0xb92260dd5df3d;0x1061bb087e178;0x44c2e495f7889;0x1309e51fda15;0xcd769b89efb];[0x0;0xee9170f5cddcc;0x826a2e8b0d946;0x35f5864a1c58;0x4b67121741188;0x84bfe4bd0c17a;0x905236f64ec6a;0x2fd28046fcb45;0xb162cfb7d297d;0xec101ec43b1be;0x62196199fa9];[0x0;0xf67a06a3a3f2b;0xb2184453eb797;0xdf85f30d13b0f;0x9c0e3171a132f;0x2131af7fcd964;0x6ed96b1f9582d;0x52811ffea6a6;0xd9033a4fae865;0x28a00954c499b;0x3a84b8af5e54f];[0x0;0x20ef050059b12;0xfda1129a932fd;0xca404d924e64b;0x90be42abc6b64;0xbaa9c2f035405;0xa99a20b95b53;0x989b8ec3f9a29;0xea9c1d7c5e039;0x9456b649da975;0x16d58d6ad73]]);
 ((V [0xc30bb5088bb4d;0xd8650736b496c;0x5b2d3ccf93513;0xa0821734f8675;0x222f8398782ea;0xdeff903b396a1;0xf034293c9b706;0xe3257ec9d7a32;0xbffcb95b32ab9;0xb11c8413a2b] [0xa1ee4a08eec7a;0x814f4e38f3df5;0xd63acc919851f;0x5434bf3f47b2a;0x4bb5a8bac2733;0x7013dda9dfb3c;0x7f0d5c85c48a8;0x7dd031c68de1b;0x4be40727660b0;0xfb6208ad633] [0x11a2f442fe4d3;0x5a927c6e2c11;0x59b4becd5ce75;0xc481b3251583e;0xc6d7821898f27;0x32d657fc29daf;0x3456b699c4efa;0xc28aba3798318;0x725257a2c6e63;0xc559c6fd636]),[[0xfc1fba39b9ce3;0x6637692daa9a3;0xe65c0bea80553;0x5485aa0cf2479;0xc7623671f54e9;0x1d6bd0d6cbc1b;0x38a7e0335d894;0xaf3f2f5162948;0x686728f7f07f0;0x9c0735742e7];[0xe9a386c78978b;0x6a432d91a2709;0x160febbdbe03;0xe6f15c39ec529;0x3ea2e7dca2234;0x1d9795d5675ff;0x7aa0f16864669;0xd402c36689fe;0x8a542cb190f39;0x1c907595be1];[0x911ac6152c542;0x7fbe39cce9b01;0xfc9c6f73ccd4a;0xa4ec043614542;0x1dd023c973b2d;0xde26000f338f8;0xef89146cc5a4d;0x6900fb058e367;0x5c853ce8e2bf4;0xc80987559aa];[0x911ac6152c542;0x7fbe39cce9b01;0xfc9c6f73ccd4a;0xa4ec043614542;0x1dd023c973b2d;0xde26000f338f8;0xef89146cc5a4d;0x6900fb058e367;0x5c853ce8e2bf4;0xc80987559aa];[0x287ecf850e9a6;0xc7d0edc2bde34;0x2adf4680c3ee8;0x57d83fd8a6e97;0x14b65fa61a2d9;0x4cf3e1069e47e;0xbb02b1ab0573c;0xf4b5b9e197518;0x2cfc59f912afd;0x13750d9d8d9];[0xc124b7427ade6;0xa2723fcee48d5;0xd681b83b17f1a;0x8f191c6145691;0x29ec883687f5b;0xd0a3b4cec9181;0xbf9e3fbd5ef2c;0x188a7254d14e5;0x5d57d2b87e43b;0x91b67f8308];[0x0;0x49b93333a245b;0x789e380f06a07;0x77588f815afe4;0x8c22b5d3f61e8;0xb7842b5ea6d4f;0x74695b086c76;0x25bf98d23091b;0x5fd3ee4423c2f;0x74ba34eff1f11;0x7bb3e590756];[0x0;0x97f5e5189a22d;0xe5d83e066a5f9;0x5c8189bc81d16;0xdb9c8d131df71;0xc843d7dc3763d;0xfd6e1c9dc9305;0xdcd913f4ad09e;0x7f0b3ecf7c99a;0x8a02e3636236b;0x79eb707f9f3];[0x0;0x20ef050059b12;0xfda1129a932fd;0xca404d924e64b;0x90be42abc6b64;0xbaa9c2f035405;0xa99a20b95b53;0x989b8ec3f9a29;0xea9c1d7c5e039;0x9456b649da975;0x16d58d6ad73];[0x0;0x20ef050059b12;0xfda1129a932fd;0xca404d924e64b;0x90be42abc6b64;0xbaa9c2f035405;0xa99a20b95b53;0x989b8ec3f9a29;0xea9c1d7c5e039;0x9456b649da975;0x16d58d6ad73];[0x0;0x851fed083bad6;0xb3c185fd244a1;0xb56f7e348e8fd;0x6a34f6403a1f3;0xf7e26ef37a2e1;0x4f00e86c0ef20;0xb451b7f99d9a4;0x4c326437a6f77;0xef0dca01199ae;0xd5fed143fa];[0x0;0xcde1b4ef37352;0x9075f9a4d20ec;0xd310749bb3633;0x875ad79d24409;0x450aa3a471e0;0xc9f109ce5b6b5;0xef75e0115db90;0xb6b6ea789aa3a;0xf4b1674d9ada0;0x26fbe99d98d];[0x0;0x21784ed751ca8;0x6535e89a77d74;0x36684d038f541;0x7f93395723405;0x33a6d114210b2;0x6c851c1dd3e57;0x42108947eea80;0x31f53df901576;0x2299055d42bd6;0x13c30fd6125];[0x0;0xe59be56089d1d;0x66941af414d28;0x41d14b1aa9b2e;0xa67aa8bbf6c7b;0xa0080b8983e7c;0xa89e9cedbe9de;0xe917da98236dd;0x8bb7b7815d774;0x2b0db93bc400;0xfc415e2281e6e];[0x0;0x73ffdd613a329;0xb4079e66d4963;0x1bf8484de4ca6;0x9ac0dea215d0d;0xc80da6e91ca59;0x672cfaffb7b3e;0xb2c02fbd99c29;0xb311ff7cbeae9;0xb029d8d042562;0xadeac86aa91]]);
 ((V [0xe85354162fc34;0xf3b27000d8a10;0xa069011126173;0x67ae9a1d5157d;0x2e491c6079390;0x98ccca8889a60;0xa828f3a8c5719;0x70c2088a63d9;0xad52c8232560d;0x490b87c69d2] [0xb9b08022efbcd;0x30e79c3029da3;0xc07a774963905;0x7b27f72c18c60;0x3e2286da92ddc;0xa7b8b4ecb199c;0xd6b541052a360;0x7f52eeb63bf0d;0x5e8731baed28c;0x304c2dba3c6] [0xbe97317ac4985;0xff186a40d4ea0;0x5f55737916b52;0x1cb0b4a9afac9;0xc80fe0fd5189;0xe677200536619;0x59186eaf75d34;0xaec38b30a2f35;0x925e11976bbd;0xb697bb8e6d2]),[[0x68757fa243639;0x6dcde5c184b63;0x627ebf4c0e4ed;0x98b46a9fd94b9;0xe7036dd45321a;0x6d359b1f42ce2;0x3eb6dfd7b8361;0x35f54cfa5f2d5;0xda9e2c5f64179;0xcafce759f85];[0x7a3411b34aeb6;0xacaac3f84b090;0xa12d3f0728058;0x6698f8466914d;0xbe764f67bd93d;0x581fffd05070b;0x523c052a48e06;0x68ffd6604ad7;0x32b85a35d225a;0xb34e41cbeac];[0x11a2f442fe4d3;0x5a927c6e2c11;0x59b4becd5ce75;0xc481b3251583e;0xc6d7821898f27;0x32d657fc29daf;0x3456b699c4efa;0xc28aba3798318;0x725257a2c6e63;0xc559c6fd636];[0x11a2f442fe4d3;0x5a927c6e2c11;0x59b4becd5ce75;0xc481b3251583e;0xc6d7821898f27;0x32d657fc29daf;0x3456b699c4efa;0xc28aba3798318;0x725257a2c6e63;0xc559c6fd636];[0x314ea277663b1;0x8498f816fcd52;0xdb4082c12cd29;0xa25ad88e53237;0x9bc833df4e24a;0x9aad20014003f;0xbf48c77a4d3cc;0xf12254b1390dc;0x79b713009e2fe;0x3380fccbcee];[0x48e56f3be4b06;0x2811cbe14e33e;0xc5ecbc45fb32f;0xc43e1fb815f15;0x22ae1b886f6f2;0xbd72dfcf106cc;0x92f33daffba39;0x156da8b4cb9fa;0xb901473533f5b;0x7fcd45001bd];[0x0;0x277089fb91b91;0x6314166dd7e92;0x75783b4cf616b;0xba7c2d43a1e3f;0xbcbd3f0f8882;0x1b7b226d75981;0xa23c5decd6359;0x1612df60b058;0x4593aa87da1c0;0x7a0a97a2571];[0x0;0x9ee33f0848b93;0x27a55aa906867;0xd69871dec0059;0x1dbcf1d3a1430;0x8f5c28208548;0xed024e0eee9a2;0x54e774a0e098;0x9da4bb5314b2;0x93cfb9d3ff5c2;0x9c7bcdbd301];[0x0;0x73ffdd613a329;0xb4079e66d4963;0x1bf8484de4ca6;0x9ac0dea215d0d;0xc80da6e91ca59;0x672cfaffb7b3e;0xb2c02fbd99c29;0xb311ff7cbeae9;0xb029d8d042562;0xadeac86aa91];[0x0;0x73ffdd613a329;0xb4079e66d4963;0x1bf8484de4ca6;0x9ac0dea215d0d;0xc80da6e91ca59;0x672cfaffb7b3e;0xb2c02fbd99c29;0xb311ff7cbeae9;0xb029d8d042562;0xadeac86aa91];[0x0;0xe1fd656fe1f5;0x65fe1d8733543;0x599c67d565df5;0x15d0d00446bb2;0xd6099f2b36ec6;0x697145ca20345;0x9ab29d4515fb0;0xe7fa146973a30;0x4ad16916ac481;0xf6d9628ea59];[0x0;0xc0cbbf3fb00c5;0x78644ba1ceab9;0xab148681bcfd7;0xeb4cf4a0d89f6;0x7879bd7ad0d1c;0x986d31475104e;0xabdded2d58a0b;0xbde63f529a833;0x7d22ae8aee4ac;0x7a8871d04f7];[0x0;0xe4f7e0dda44a;0x4ad4ef2008c46;0xcbe1376a79544;0xbaa14d9b9ec37;0x1eafa2761a6f8;0x84225514c430e;0x9a1ff94d9f0;0x43d06a7867e6a;0x328d09d0be45d;0x332964395b0];[0x0;0xcfb6bc40a4348;0xee3ba35741213;0x1645f20ce42d4;0xe65108470edd0;0x6f5e9916c58a6;0xa5eb197390aa8;0x2ca1eb279a893;0x627a80081639;0x5b2eca419dffc;0x305aa5e05dab0];[0x0;0xa62249559e2e9;0x250329c2e870e;0xe99efad5e7459;0xea7c050c485c5;0x8009686538b38;0xe3bbae5ff01aa;0xeae5fa7a32de;0x2afa57b80d0cb;0x90850c389ee0d;0xdc7e5edb6e]]);
 ((V [0xe3fbf0b00fd0b;0x6eceb63322479;0x2c672cfa4cceb;0x421a85820152c;0x89349e5b0d422;0xd951d19539d3f;0x803e3c5253be2;0x5bb666b75bb7f;0x971b537550cf1;0x105280c0743] [0xb8738477b5d8e;0x6f3e5acb7eb5f;0x96902fff83900;0xbd288866f6771;0x353e2ccfe6d0c;0xba162d7b4d963;0xe1cb828cf19fa;0xc22dcfd0f89f;0xf8260c0bdc567;0x84176d0f5a7] [0x200dcc76e12b1;0xfebce687c019e;0x637434c15b99f;0x4359a6c2a1986;0x59cbc93ad7d6b;0x806a2c27a065a;0x7691225179e49;0xe021891598ec3;0x2d753b8f9c1f3;0x379bbbfe737]),[[0x1e1e19326c6da;0xe5d6a0ce13d26;0x790afef9ddfa2;0xd9fe54780bf61;0x9615c6ba6be81;0x28b9483b03438;0x8171a9d5b6708;0x211958731981;0x3ef5577e5109d;0xc664b257969];[0x3a1c9e97d260e;0x66e6db4ba736a;0x4f3d46cbb21d9;0x79441423a6245;0xc3f6597e4991e;0x6ace9526faf81;0xd27fa44467191;0x3868f6b686855;0x20bfa24174bb7;0x629482f9f04];[0xbe97317ac4985;0xff186a40d4ea0;0x5f55737916b52;0x1cb0b4a9afac9;0xc80fe0fd5189;0xe677200536619;0x59186eaf75d34;0xaec38b30a2f35;0x925e11976bbd;0xb697bb8e6d2];[0xbe97317ac4985;0xff186a40d4ea0;0x5f55737916b52;0x1cb0b4a9afac9;0xc80fe0fd5189;0xe677200536619;0x59186eaf75d34;0xaec38b30a2f35;0x925e11976bbd;0xb697bb8e6d2];[0x19bbb3f305efc;0x4b8db57a92910;0x84349317aad3c;0xa097f69a3544d;0xda2b27ed11d47;0xb08e8e86d8ba;0xfaffc4890f8b9;0xeb566a1894c5f;0x6b188ad67e646;0x3557bc54471];[0x2060eaa4cc713;0x1b5925d114a5a;0xcb08b3b40749d;0xd8ac1d8970df7;0xe9cb319137bd6;0x5fc5ac3e8d6c6;0xd77fdfbb578d8;0x4d128c9df1bf5;0xb5a7176af6570;0x2d3cc6a5a92];[0x0;0x499d4dd2c1e9a;0xc92810df8117d;0xec26be177aa0f;0xe914a43d77588;0xeb46603629637;0x87b54d44ea8ce;0x56402f0385c38;0x109f031e2c41b;0xb3bc0e865f9a1;0x70ea414dc37];[0x0;0x6f3572fc9a32c;0xde234f66e6d76;0xcd2a428f227e;0x62d5f43596161;0xff6dfd6b2f7f8;0xb459530ca184a;0xc78a695cbcedf;0x50ceab497cc25;0xa02f06eea0a14;0x8d812d89656];[0x0;0xa62249559e2e9;0x250329c2e870e;0xe99efad5e7459;0xea7c050c485c5;0x8009686538b38;0xe3bbae5ff01aa;0xeae5fa7a32de;0x2afa57b80d0cb;0x90850c389ee0d;0xdc7e5edb6e];[0x0;0xa62249559e2e9;0x250329c2e870e;0xe99efad5e7459;0xea7c050c485c5;0x8009686538b38;0xe3bbae5ff01aa;0xeae5fa7a32de;0x2afa57b80d0cb;0x90850c389ee0d;0xdc7e5edb6e];[0x0;0x4a5f4770a476b;0x16b13b6e545cd;0x7aa4b88debe4c;0xa3e61c29d0ae3;0x986b82f538b10;0xe10026cca91c3;0xc10832ddd802d;0x9618ac40fd565;0x51464d4c82b48;0x91ca7d1056];[0x0;0xd9dfc7b5d249b;0xebab80c6f22b7;0xe8a14c5e033b;0x36ee56b18f565;0xa3a39093ead04;0xf9c3232bd5db4;0x981b560ea9ae4;0x8b91eda369417;0x7031c5fa82834;0x14d793f438b];[0x0;0xd404679d9048d;0xb68ac11491283;0xeec3d5c0f7f4e;0x60412361fa239;0xe9eb814383b1b;0x87d052933ce74;0xf4fac3e7a49bf;0x8b7282b2a3825;0x3b3b0708b142d;0x6490d55f0b];[0x0;0x67526b026eba4;0x3341667c4ab02;0xc220f6760bba5;0x8a3e7eea19e64;0xc3b9a05652c35;0xeabae3c73874a;0x176c8ba2fabbb;0x3d484531db5c4;0x9d726b893cdb1;0x8468a6e38a105];[0x0;0xf491f6b63484f;0x3184db5fd1433;0xecbef3318faf0;0x3c76ba8867323;0xa0d276d0e3480;0xe55cf5367b9fd;0x6d0688f814024;0x6567b5fc01b77;0x4af0f85897d37;0x86c08c0e8a]]);
 ((V [0xb4325a161ad86;0xa63f51f1e2205;0xdf339c17f912b;0x7328bf76ee688;0x48b1c4acedcce;0x7753f867053ec;0xbee3f39beed32;0x9ffc79f065f8f;0x99f1d18b242e9;0x883befc7c7a] [0x1854cb441cca5;0x5542f44a6c1e9;0xe21e9d8378214;0x667edfe556296;0xdfeb550036a83;0x312c801480d3b;0x97bbabe821555;0x561e8b599d27c;0x3f7bb06c94d2;0x721dae510b1] [0x38452e9473b33;0x6b326fb1e4f02;0x89d03bd518921;0xff4486b375970;0xd3e3282bf13d1;0x6e3f38426b01a;0x22db4eba8fa7b;0xf124fa4fe1dc3;0x3441866686a2a;0x55543b0fe18]),[[0xb1d22cb7cae77;0x117e069b0359;0xe73650774863d;0x3b304a767fbb6;0x7c430601a5731;0xfddc7ce40e452;0xf1d9760ac7aba;0x33184aa8389de;0xe4e6783e85880;0xd96431b9c8f];[0xc69a99fad2c8f;0x57bfb80223f45;0x3f685fba3b3ee;0x75c32eeba308;0xbd84445ed75d4;0x4cb55ab2722e;0xb3ea79dad928c;0x5e6e1d5895566;0x2676e077bb2db;0x2efa3d8df6c];[0x200dcc76e12b1;0xfebce687c019e;0x637434c15b99f;0x4359a6c2a1986;0x59cbc93ad7d6b;0x806a2c27a065a;0x7691225179e49;0xe021891598ec3;0x2d753b8f9c1f3;0x379bbbfe737];[0x200dcc76e12b1;0xfebce687c019e;0x637434c15b99f;0x4359a6c2a1986;0x59cbc93ad7d6b;0x806a2c27a065a;0x7691225179e49;0xe021891598ec3;0x2d753b8f9c1f3;0x379bbbfe737];[0x530f3f4c01300;0xb5a8f8f990e15;0xc4bc59b1f75a8;0x91114ab5d761b;0x11d01091683f8;0xab422eec5748b;0xc4272a5789f46;0xc10b42c99bc80;0xc1733b05c6991;0xa6c4a07e136];[0x738b5aaed1757;0xa216bf0893130;0x7aac060843e45;0x764ae838e2cec;0xabb433cd6f1db;0x598926becfda3;0xefc34f834f345;0x9d62da8ef98e5;0x6503a571f4949;0x88359d0fe35];[0x0;0xe21abb51a175f;0xf8dc27a65d4cd;0xc630c3fd0dd13;0x785e9216cbfcb;0xd852a9ec4e588;0xc8609a871f2b8;0xfad40196dcf5a;0xe2c30eaf46641;0xfa1f81842b4a5;0x22635b680b8];[0x0;0xba9684e990088;0xee3a362e1afc5;0xfd4489344ac12;0x2c4110a83ce41;0x4bef4bd12b98e;0x839fd23b1481d;0x78838cb04bcf2;0x6a84c641c9daf;0xe8c7bdf43127;0x2f38c5fd497];[0x0;0xf491f6b63484f;0x3184db5fd1433;0xecbef3318faf0;0x3c76ba8867323;0xa0d276d0e3480;0xe55cf5367b9fd;0x6d0688f814024;0x6567b5fc01b77;0x4af0f85897d37;0x86c08c0e8a];[0x0;0xf491f6b63484f;0x3184db5fd1433;0xecbef3318faf0;0x3c76ba8867323;0xa0d276d0e3480;0xe55cf5367b9fd;0x6d0688f814024;0x6567b5fc01b77;0x4af0f85897d37;0x86c08c0e8a];[0x0;0x3954bcdae2a1c;0xb258a95f39f4d;0xd88479155b0a6;0x1f886c48574a3;0x5003ce109d88;0xa5097c6541a05;0x619f4d09560c7;0x934a17f9f678f;0xbd559841be852;0x44282a9c9c8];[0x0;0x9f69cd0a507ce;0x74c48fcb9675;0x38590850945f3;0x4581ded60ff05;0xd975d74073b46;0x2fca0dd3bee;0xc00d8a5f2e81e;0x91f3862b8f7e5;0x2a7eb7ba5f732;0x10a6aaeca9];[0x0;0xe78d0918c2a12;0xf702f2fc61dd4;0xf54174b28123c;0x7f28eadd5c439;0xadf4049853f15;0xf209412fcd0f3;0x64aceb632c3ce;0x10676d17674a7;0x2eb95aa8e62b;0x18fff05fe37];[0x0;0xe974fd0e0194b;0x71b396d6f7323;0x4fa042f73364f;0x9af71416dd0a5;0x7bdb141e24ff0;0x992da22761999;0xe859e913cbe7;0xa1cbebe552c7b;0xc8184f62ab4de;0x727adb1d9cf54];[0x0;0x4a96039f0b67d;0x7948ddfe2bfd6;0x1b08361808b8c;0x704a9db48d48f;0x392cbda8f28f8;0x8a79c0149f8ed;0xc5c21bdb3627a;0x8d4bc2a178885;0xf07d296de6de0;0x3cba7c54fe5]]);
 ((V [0xc8da860abdf4;0xee9074475174f;0xad104b4103a3a;0x2e8df33475d8c;0x6f6bbf899d3f5;0x9fc1cea1671ae;0xc0b319856487a;0x28cf5310363a4;0x3869c91dfddba;0xbc3b959c537] [0xf3044f6a296ca;0x4fef73fea6f76;0xb403a631666f7;0x64866cca0e29;0x791b3bec9ad34;0xc4be9dc6c0928;0x7923cb59d7da1;0x94c53af924a89;0xf04d311424081;0xd101743f6f7] [0x9fb9ffe11927e;0xea9c35883e8a7;0xf86b1d7a54656;0xd03f851760abf;0xae086bf0e5d58;0xd23c2d6c1c70e;0xcd4827d2f7fbc;0xdbe5f3541199c;0x4dba8ddeba2a1;0x64dd0858781]),[[0x369bafa197189;0xdc1987808dde0;0x336707758abe0;0x2fbf4b74da404;0xc6976ab875343;0xf45adaced389e;0x3b9357f4690a9;0x8ed3103aff1a1;0xd0ba88844d60e;0x868c0ddaad9];[0xfdc7164530da;0x4134e0199791e;0xb1ae86d143f18;0xf37df01be399c;0xc32aea31a5ee;0x4f913bcf4f723;0x44d0150b4bf7c;0xf7454447ef2ec;0xb29642784b11f;0xc7087d39095];[0x38452e9473b33;0x6b326fb1e4f02;0x89d03bd518921;0xff4486b375970;0xd3e3282bf13d1;0x6e3f38426b01a;0x22db4eba8fa7b;0xf124fa4fe1dc3;0x3441866686a2a;0x55543b0fe18];[0x38452e9473b33;0x6b326fb1e4f02;0x89d03bd518921;0xff4486b375970;0xd3e3282bf13d1;0x6e3f38426b01a;0x22db4eba8fa7b;0xf124fa4fe1dc3;0x3441866686a2a;0x55543b0fe18];[0xdea4268c9a40;0x6b21854a95a18;0x44ba1c7325ddb;0xad100fd6d79b2;0x2705ea3057425;0x1e9b3e620b985;0x3785c8e2a9f5a;0x5dad0d84a0367;0x632127c43fed;0xcb2932ccdeb];[0x1f22efb89462;0xd6135acf01f06;0x6cf46a5e1e13c;0x466de0450bfea;0xe52cc472c31c9;0x30f5fd6d43d9d;0xd4a4c28a2022;0x999836c34ef85;0xac642ffc07132;0xfbdf4a6c2aa];[0x0;0x4d702ab902361;0xf40b23520d382;0x7a716f82714dd;0xdb2fef5eadbf1;0x925af3077b08a;0x9a840fbef7cc7;0xf01ab199bc134;0x8e05dad3f6b31;0x9dab56749b979;0x34c470a04b1];[0x0;0x157defb997007;0xf248f6d695e97;0x409c1d3103fe6;0xbc6564d2bb064;0x8dc312aacfb2e;0xde77d84c0e7ba;0x43fdf9d6c08be;0x51dc23464875d;0x267dc768f0762;0x2cd8c598c75];[0x0;0x4a96039f0b67d;0x7948ddfe2bfd6;0x1b08361808b8c;0x704a9db48d48f;0x392cbda8f28f8;0x8a79c0149f8ed;0xc5c21bdb3627a;0x8d4bc2a178885;0xf07d296de6de0;0x3cba7c54fe5];[0x0;0x4a96039f0b67d;0x7948ddfe2bfd6;0x1b08361808b8c;0x704a9db48d48f;0x392cbda8f28f8;0x8a79c0149f8ed;0xc5c21bdb3627a;0x8d4bc2a178885;0xf07d296de6de0;0x3cba7c54fe5];[0x0;0x4895e05a68b1f;0x9ac5c3fcc552e;0xae733c91da46c;0x1896176851ebd;0x7dfb084a75479;0xeab87f59d32a5;0x1c968774ab18c;0xebbc502887e47;0x93eeaa23563ba;0x32de72b122e];[0x0;0x78923ef8c2c2e;0xecc1203f1b421;0x8625e4b45db34;0xccadcc29a480e;0x7f14f1e5b25a9;0x4e0ef0bc7ad5d;0x5da3b781d2301;0x375273f606f0;0xe3f4fe2da25f;0x487fbcccaad];[0x0;0x71791a10e63fa;0x70e623eb1ae3e;0x4db378be26895;0x1ff82031b63d2;0xc52b04fe492c0;0x5d3357e24c1c8;0x22e3dc4452942;0x8ae956a3d4bf8;0x42dadc488d96c;0x92588f3c39f];[0x0;0x7ceb75447efa1;0x1779c5017643f;0x816fda67d6a85;0xdbc5cb6293c4c;0xdcad1234fec1f;0xf5485b50f4f9;0xb150684cbab1b;0xace8b8496758a;0x34935b3f15c6c;0xd12ff6a409b62];[0x0;0xad3815aff7fa6;0xaf049c1f86db6;0xd46b61aebd13e;0x434afbbd6069b;0x9fd7dbd37835b;0x8cd3f533b7f46;0xe397e3ee4118;0x91834b85394a2;0xd869c5d015314;0x99adb6d9da2]]);
 ((V [0x4047aeb2ed2cb;0x7ed505f047a2f;0x1a9bbdcb3197;0x9d30ffc0d5a4e;0xb6aad7ebb06ae;0xbbaf6ca74ddee;0x241b7f3f2afd4;0xb577fe8c343a2;0x3916291576dc4;0x89bcb94c20f] [0xf217a3bf7590;0x7b62bc7b889a8;0xa2191fc61207a;0xe8b2a449de5e2;0xe752cb56d546d;0x2ae9dfd753898;0x5d55d64c196e6;0xcf70ea91f1810;0xd5f59f785ab26;0xbf4b9adda71] [0xa3a9ea7ae1386;0x5d08a33c9d1c;0xf7de51872f6d0;0xc9d2d125ba594;0xc6dec68db5c6d;0xac46fb1dafbf4;0xb876112b2061;0x7a5d53ce81ea5;0x60c7e5dd599e9;0x71f761e8610]),[[0xc2faaa40f9332;0x6ce8911d3d6bf;0xb8a5302752264;0xe339aff5e8d9d;0xf185e5981a005;0x6823db93e4dd0;0xc632a5c47ffc5;0x9306025ee5119;0xb8578778f28c1;0x8edff55e534];[0x2e7b2fbdf8da5;0x22e9817a7b071;0x2f0f548d9dc72;0xda069d29a3eef;0xc54ff9cc048c3;0x4c34b094af044;0x204c1cc55d325;0x20b9f4d1bf91b;0x4be9e5440a31a;0xafc00401e62];[0x9fb9ffe11927e;0xea9c35883e8a7;0xf86b1d7a54656;0xd03f851760abf;0xae086bf0e5d58;0xd23c2d6c1c70e;0xcd4827d2f7fbc;0xdbe5f3541199c;0x4dba8ddeba2a1;0x64dd0858781];[0x9fb9ffe11927e;0xea9c35883e8a7;0xf86b1d7a54656;0xd03f851760abf;0xae086bf0e5d58;0xd23c2d6c1c70e;0xcd4827d2f7fbc;0xdbe5f3541199c;0x4dba8ddeba2a1;0x64dd0858781];[0x5882836b1ddc7;0x898273a9bd3b1;0x43a37e6552b13;0x8a150e4e2aa45;0xaa8d57dbfb8fa;0xf5ada3cce9767;0x708d8f71586d2;0x9b21c3bafc215;0x3370395c79cd5;0x22a64e2cec1];[0xd5f8ac52dafdf;0x99670dd0bdcbf;0xeb6bd6284b15e;0x4ff18edb794a9;0x1ac2a1f008fc9;0x56870cc7c58dd;0xafbe8d5404c52;0x85983116c3705;0x1879abe790644;0x8d19b5d4fa1];[0x0;0x89ff9b2943c62;0x4643e94cd20c2;0xea832df59650e;0xdc74b1da0992c;0x27c3eb464fc79;0x7d2f9d9abb81f;0x44bc7eac8f601;0xb05c75f57ce00;0x8f6c51791beeb;0x3e5fb037a2e];[0x0;0x9606e3bd2fb51;0xe0c266cb37fb;0x912236fdae7f7;0xcb9608adaec28;0x8ae14f03ea6cf;0x4b0618f2601a7;0xb11489f45b30;0x4390028013007;0x352777dfa4073;0x384ad7d80aa];[0x0;0xad3815aff7fa6;0xaf049c1f86db6;0xd46b61aebd13e;0x434afbbd6069b;0x9fd7dbd37835b;0x8cd3f533b7f46;0xe397e3ee4118;0x91834b85394a2;0xd869c5d015314;0x99adb6d9da2];[0x0;0xad3815aff7fa6;0xaf049c1f86db6;0xd46b61aebd13e;0x434afbbd6069b;0x9fd7dbd37835b;0x8cd3f533b7f46;0xe397e3ee4118;0x91834b85394a2;0xd869c5d015314;0x99adb6d9da2];[0x0;0x19aad91af1d7b;0xbebd24778b5a5;0x50377b282dfb9;0x98920857d8f3a;0xc94ea6da519ca;0xabf990b127f14;0x5734b63aba11d;0x71783cab204b4;0x5d1a1d9475c93;0xaaa35fd1b15];[0x0;0x99c6bf3edc7;0x24261e21c1f22;0x1c299197b5ef4;0xc75dab89c270f;0xdc6ee3080ccb7;0x59147fcb0997e;0xe1e4987f1a90f;0xbebac15390484;0xf7d904d1e78e5;0x8a67919be80];[0x0;0xf43dd893d912a;0x1b5d7f55d055a;0x7db2dd07b84d7;0x4c30c3877e246;0xd24defd00e5e2;0xf4870b4a30ee0;0x123ef7ecbfa6f;0x5de998cd5df60;0x474731025e950;0x5e8f525dfc1];[0x0;0x368cd6ffb23f7;0x9c52af039431a;0xc68189eb4e954;0xc1f23443d0935;0xe845fdc34c135;0xdf7fb2bf5bd8d;0x7780f5c1e7061;0x3543cccd1902;0x1db6c0508f045;0xbf87924df47f5];[0x0;0xfb3c8f451506;0xb9b9c9f1d183e;0xc90e354ee71a9;0x65b38caf4f465;0x6e0349997b339;0xb95e2f57962d8;0x77ff7c72bcefb;0x42e13d7ea06a0;0x10dee31b5ea14;0x66ec7bdcdf3]]);
 ((V [0x63aa713391978;0x41b37cb7e1c43;0x21aaf39dbd46e;0xc2c1cf291ea14;0x3a286f972bf1b;0xf942b8470e8c4;0x91700bf03717e;0x827d163df9d63;0x252f77a0da73f;0x4b93f4a3d4] [0xef8164cbd5382;0x9d835b47c63cf;0xb1e31744c36d9;0x70fa57e7f2f41;0x64a0886a4906a;0xbea0978ebf716;0x92a8ebf1dc180;0xb96c5422642ed;0x19f718c3447db;0x5d17f2ab0fe] [0xdc6f635da1ba9;0xf6273921e459a;0x60ffec2c2c560;0xf2f07c1a9659;0x664926d998e4;0x5bf0f2047b87b;0x71c46958347ee;0x55dff818c148f;0x86e25bec2cc2e;0x56527e8f773]),[[0x1215ad96b5366;0xed486acd59281;0x75871613fe78e;0x2f687b87b1258;0x75cc357f45191;0xed81f9c0ed7c7;0x97bcd1dad1887;0x1291673d62482;0x84ecb38bdea2a;0x7efbaafa83d];[0xa412a785276c5;0xb1d52e799aa4c;0xd39c43b604fbd;0x48234415260fb;0x40e1e9d9841c5;0x557e5d042dfc6;0x988bfe50aff4c;0x4825bded3f86d;0x40d49e8987861;0x82516c884fc];[0xa3a9ea7ae1386;0x5d08a33c9d1c;0xf7de51872f6d0;0xc9d2d125ba594;0xc6dec68db5c6d;0xac46fb1dafbf4;0xb876112b2061;0x7a5d53ce81ea5;0x60c7e5dd599e9;0x71f761e8610];[0xa3a9ea7ae1386;0x5d08a33c9d1c;0xf7de51872f6d0;0xc9d2d125ba594;0xc6dec68db5c6d;0xac46fb1dafbf4;0xb876112b2061;0x7a5d53ce81ea5;0x60c7e5dd599e9;0x71f761e8610];[0x83c52f0f049b2;0xb6da475cecda9;0x198f7cf559a86;0xad0f472852de9;0xa00ede071785c;0x13450d3690355;0x304d2c34f2692;0x389be1971809e;0xd3303ebefef2b;0x2da0e1bbbf9];[0x204d787622d14;0xfafae71cadca3;0xba0cc6c0ab536;0x9b13fcecd3312;0xa0d30bd26c968;0x42394fcd9dc70;0x683ed21bbd8ba;0xf89dc56277cf;0x6da45fca88936;0x54b08acc902];[0x0;0x195c873329fb6;0x4e66940e686a7;0xce4827109e147;0x61c3480e1caa5;0xddf2102994556;0x54952cec1dda1;0x2c49f57468a80;0x2d90a3e77226e;0xc7f20e3ebe6d8;0x467a0369d51];[0x0;0x3d5907f89f469;0x299987ed051da;0xbf8a7a889dbf4;0xcd039e9ec652c;0x98a6c80dec701;0x679953b3f1897;0x5915785022ae7;0x4151b1c513dd7;0x3eb5994434f87;0x3887cbdb2be];[0x0;0xfb3c8f451506;0xb9b9c9f1d183e;0xc90e354ee71a9;0x65b38caf4f465;0x6e0349997b339;0xb95e2f57962d8;0x77ff7c72bcefb;0x42e13d7ea06a0;0x10dee31b5ea14;0x66ec7bdcdf3];[0x0;0xfb3c8f451506;0xb9b9c9f1d183e;0xc90e354ee71a9;0x65b38caf4f465;0x6e0349997b339;0xb95e2f57962d8;0x77ff7c72bcefb;0x42e13d7ea06a0;0x10dee31b5ea14;0x66ec7bdcdf3];[0x0;0xe330f8b70f642;0x2efd1833dd78a;0x48ce5e7038b4a;0xbc2e31e6fe841;0x88f95390ed6f;0xa20b167d5e01c;0x579c5f89f34e5;0x7fd29bade3c9f;0xd2c776a96b29e;0x8ef1e76adae];[0x0;0x393ea4f5d84f3;0xc5927c0c8eec0;0xca6025707ec78;0x17b8e338acfaa;0x9cd0789626fb2;0x35dd737edb1df;0xe99793a5ff825;0x63bb07c74f943;0x4359ca551a092;0x4a1b8974293];[0x0;0x43dde5d74161c;0xdc0f73ef5c982;0x87d5b2893c98a;0x5b309ce03468d;0x211918b174f6b;0xd50bf27fe05bf;0xd8e49b7803c3c;0xfc3864fcc1857;0xeca019597e971;0x26792c1642];[0x0;0xff64de9b9d5d7;0x103423293d6c1;0x5a2a07c9eec3;0xadb380a1b634a;0xce2c6a37a9f1e;0xb195127975d92;0x14cc3e99ec874;0x7b52b55f55e66;0x5b30158a0cda2;0x5d45a6d8749f3];[0x0;0x937e5d7495681;0x5a158a7099507;0x3b4a92c242df6;0xf2cb9ab4c5de4;0x6d91799c44d4;0x8de8abe2af6da;0x2972c72799224;0x12d3a2b8c0d9a;0x9121019cf5535;0x1b7bd1cedc]]);
 ((V [0x5a011cee3d4fb;0x4676cefd17dc6;0xd4aba5e5f7f29;0x7cdadbd0fac90;0xed0124ba225;0x1cf9c32db890b;0xe69915300e55e;0x1b1048f3a3037;0xda716ee8cca3d;0xca97b403a74] [0x2b73e55cb172c;0xfaf6a36de43db;0xbff67e4fadd5e;0x88d1f32129398;0x6e3c93c6d7a96;0xbc403b763e8a3;0xf33b1b4e6e37a;0xca9e11c27ea50;0x18f99da3a24ee;0x5307f99caa2] [0x4182ea1d7ce71;0xd587bbc3568a7;0xf553f875294d7;0x1a8c6abe27be7;0x8ca937e5c3a1a;0xd2a020b165b35;0xc03614d8ed5af;0x1bbc51f42819;0x95ceedb5cb2a7;0x89c6c7e42a6]),[[0x1331c7bc547bf;0xf9db2f18e3f6d;0x2f89798ac8b67;0xf6d5c80e9e9df;0x29e379b73f4ee;0x6a2528caaf612;0xcb9bd353ed9f5;0x9322fa48c8bf3;0xd942a36caa4dc;0xdc6b5ea74ef];[0xb780810a226d5;0x50f4ba9069298;0xea17342f460c7;0x9e50285feae75;0x67c1a4353fcf;0xaae31df1914ca;0xbf75d73d4608b;0x988eaacee57ad;0xddd764ecd929d;0x54189a23279];[0xdc6f635da1ba9;0xf6273921e459a;0x60ffec2c2c560;0xf2f07c1a9659;0x664926d998e4;0x5bf0f2047b87b;0x71c46958347ee;0x55dff818c148f;0x86e25bec2cc2e;0x56527e8f773];[0xdc6f635da1ba9;0xf6273921e459a;0x60ffec2c2c560;0xf2f07c1a9659;0x664926d998e4;0x5bf0f2047b87b;0x71c46958347ee;0x55dff818c148f;0x86e25bec2cc2e;0x56527e8f773];[0x256ebf957d2b1;0x52659fc2639af;0xdf4dfcce752f1;0x8e5b6685936a7;0x67f5d9c392d45;0x387c6de8cf383;0xa23b1a37b1415;0x6b8994323ad21;0x6f3e5b4361106;0xfec6d1bfcfc];[0x9211c174a51ec;0xfe8f1ace058e9;0xac93760d0dd5;0xff4c1da577ce;0x9e86407fc128a;0x7266b008c2146;0x1d3abd0594c76;0x2d05169caaa8c;0x6e9909a978197;0x5551c86357d];[0x0;0x233c56ef18967;0xb6855771209cb;0x5afc15c569220;0x4f016322134c1;0x9cf5e57c88d3f;0xf2999830be524;0xde352d57a27b7;0x3432e9172eb4e;0x29bb16b582245;0x3561ad1cc77];[0x0;0x87a4a96ae32ae;0x7ba992ea893b;0x476cef7e7f6b0;0xd54bbe36b837a;0x1a17ce1f2bb0;0x209e2d47d4656;0x400cb790146df;0x583283bd2b12;0x734a8af414dba;0x4a531928e55];[0x0;0x937e5d7495681;0x5a158a7099507;0x3b4a92c242df6;0xf2cb9ab4c5de4;0x6d91799c44d4;0x8de8abe2af6da;0x2972c72799224;0x12d3a2b8c0d9a;0x9121019cf5535;0x1b7bd1cedc];[0x0;0x937e5d7495681;0x5a158a7099507;0x3b4a92c242df6;0xf2cb9ab4c5de4;0x6d91799c44d4;0x8de8abe2af6da;0x2972c72799224;0x12d3a2b8c0d9a;0x9121019cf5535;0x1b7bd1cedc];[0x0;0xabf47f9dec615;0x4e83a13cd7e1c;0x5e994530a825c;0xa14181b12b6f6;0x1289bbf51467;0x67d794bda41fc;0x16a211b1ac5fc;0xab3c438ab4ebb;0xea4b7f01f13e7;0x21da688dca4];[0x0;0xe5d94ef52070c;0x4521c06f098f1;0x70af110cbeae8;0x9dd427ee46db7;0x30ee66f4faf1c;0xd21dcbce808bb;0xb94fdf34f10b9;0xd0bd5e9917427;0xc3c21c35546d3;0x165006dad];[0x0;0x241f8599e4780;0x3677606fdae2b;0x6062a723ac42a;0x90c2edf1c5bd0;0xfb7e465a6b570;0xe6dae9c8f4dd7;0xc018339ff4f93;0xf04af1b64a119;0xf03f851f9abbe;0x428d3f45279];[0x0;0xcb1e317a80108;0xd8ba4008f585c;0xc8a8e4eca8114;0xfc72b0026658c;0x3b4129ff1486e;0x5cab2fa3f99a0;0x60c5ca1b9f87b;0x9997aab6d3edd;0x569ad7aa67f4e;0x533fbafda1ca1];[0x0;0x474a62e82b4b5;0x6ea8622a7a477;0x74d22c81bc0b7;0xaeb9fd49408b2;0xde4f0c5ab3a50;0xbb06c44f64d32;0xf5318e0e21858;0xfc0e4e9800ca4;0x44cfd9c4d40ea;0x41b57f0ca48]]);
 ((V [0xb36415dfe5ee4;0x93b7d55041c89;0x6d70ec6f3f7ad;0x739491c0fe39e;0x2c00d6442ebe5;0xd7371fa16e93e;0x7ff8cc12a8123;0x8995dbe35e54a;0xda9173460c189;0xa77d77fdd23] [0xbe6e0694d050c;0xb27904b06732c;0xbd0fafa6dcbc9;0x9df2596a4616b;0xd40a8edca2f65;0x1d9d3e7b9cee8;0xf0c8d97d03a55;0x6ea5b2c147170;0x83609986830a7;0x5b498f4ed6b] [0xdf6ec7f6ad91e;0x78483989183d5;0x313d206d22662;0xe89db2697f3e5;0xf93e1b937d7e7;0xb6b8caecafcff;0x1dd8569343ef0;0xb245533dceb40;0xfc8c5ae09e085;0x535a9df2709]),[[0xcca4b0cfec276;0x51d1b45e92bab;0x538b617757342;0x541b20458426;0x56aec4d3929b9;0x101741db191dc;0xdf669955c18c0;0xb0dc27a2924ba;0xe1595e463313f;0x550926d45c1];[0x2d18739c05c7d;0x6e42451cdb58e;0xeb3e7ac072131;0x2526410bb746e;0x7807811f8678b;0xa3bd909c437e5;0xc3ad5d55909bd;0x7b24ddf2adf4f;0xdccd435cc1416;0x2a369601110];[0x4182ea1d7ce71;0xd587bbc3568a7;0xf553f875294d7;0x1a8c6abe27be7;0x8ca937e5c3a1a;0xd2a020b165b35;0xc03614d8ed5af;0x1bbc51f42819;0x95ceedb5cb2a7;0x89c6c7e42a6];[0x4182ea1d7ce71;0xd587bbc3568a7;0xf553f875294d7;0x1a8c6abe27be7;0x8ca937e5c3a1a;0xd2a020b165b35;0xc03614d8ed5af;0x1bbc51f42819;0x95ceedb5cb2a7;0x89c6c7e42a6];[0x1f1716b4f4930;0x9531b33301e2b;0x76995b37a055a;0x5563133b42d82;0x6c793af340216;0x960aa3d485eab;0x5708237fdd2d7;0x46bbb41c58b5e;0x5e314a1aed909;0xf143e3a6f9d];[0xe015ce711115;0xd91091e9d9763;0x74a51f88d1bd6;0xcfc32dd0746ec;0xb8e462c46574;0xdb2ecc7bd93a;0x6ca539d5b36e6;0x346929d6553f1;0x7e9bf941d3b0d;0x38f2b25a173];[0x0;0xfce6bbb58b356;0x5e5ebbd887f41;0x84f1a3b423aa3;0x788ef5db49fa;0x720bd188e7888;0xde9d8ee338fe9;0xc472b352e125;0xcaf3b5ed11ec1;0x6ab1e292f6e8d;0x5533660f11b];[0x0;0xec66898f3b99f;0xef10d8849884;0xee03526abce96;0x89acc597f68b7;0x6a4974a0df80d;0xef6f12d5e7cdc;0x52ed3f184feb6;0xbe0190f8c69d;0x7818dbc45395f;0x2dc3ed4194f];[0x0;0x474a62e82b4b5;0x6ea8622a7a477;0x74d22c81bc0b7;0xaeb9fd49408b2;0xde4f0c5ab3a50;0xbb06c44f64d32;0xf5318e0e21858;0xfc0e4e9800ca4;0x44cfd9c4d40ea;0x41b57f0ca48];[0x0;0x474a62e82b4b5;0x6ea8622a7a477;0x74d22c81bc0b7;0xaeb9fd49408b2;0xde4f0c5ab3a50;0xbb06c44f64d32;0xf5318e0e21858;0xfc0e4e9800ca4;0x44cfd9c4d40ea;0x41b57f0ca48];[0x0;0x2d7a6bfdca6a0;0xd5655f95010c7;0xbb9e09ddd9801;0xb12eb038251e4;0x7477416437e5a;0x5ec11fb894680;0x86ea898c9e1a;0x9b33d7a5b9682;0x533c8b13c8846;0x1aee2c1b304];[0x0;0x4814baf384adc;0x31082555399df;0x86e756e78d6d2;0x321942d94eb90;0x4a2fe63f5aa76;0x46fb9104fa8b3;0xcd18ddf3e81ec;0x729469ab060e3;0xb0c9dd9a42acc;0xa053c1fb9ee];[0x0;0xdafc5a24335fa;0xf75229db0b5fc;0xed480035d467f;0xdec21e7c11670;0xce07d9608c304;0x16bf5dc39c6f5;0xba2838e4f5953;0x55576772d1e49;0xd044732601400;0x1b9e4c4b2af];[0x0;0x2ecb0582d9d4e;0xccc20b40b2c1b;0xc7d812445bd06;0xb578ee49f2dbb;0x4b4e7b2516b73;0x3d4be8b145594;0x44265bd913889;0x6e085f79a3a35;0xc2c7f73a02100;0x5b95cb55a0e9b];[0x0;0x7eec10dfa2dde;0x45cba894fc311;0x2e626b34dec23;0xb285203fcc4dd;0xa8877b4c3672;0x16c83da410018;0xb9009fc63aec;0xefb2e0acc2df3;0x99e4e2217e3b3;0x3bb9ba311bd]]);
 ((V [0xf5f2980901eb9;0xc4e08a858e3c8;0x6bb0764c942bb;0x2c1bdcd9d9cb9;0x177692d25d50c;0x79c5763ecfa0e;0xe3703082dac8b;0x30385ea87cc6b;0xba902f507c7a4;0x2c9810fb02f] [0x1e0cb0cc6fbbd;0x1db83e9f05d4f;0xe60de82dee118;0x1531462df53a2;0x57554d8107346;0x8e09fb14cde80;0xd0a63d079f95f;0x9872a30dbf1a6;0x2bdd1109c29d4;0x25a6b12281e] [0xfc41c83f1f9ac;0xa739434f77aa7;0x26e291df88bf2;0xdeef777b0714d;0xa7ebe3fc0176e;0x8d9db412bd99f;0xdc7e6dbbadffe;0xb44aa4a7cb86;0xb27c8914f5e57;0x1684de59123]),[[0x291f66e4fbc34;0x38ed8cfa50242;0x5f17fa3336ccb;0x8b9709cd89dd8;0xab0daaf91a806;0x80e494464a016;0x6f7cd45de50d6;0x8a296a7a41baa;0x1e7c10d96b8d1;0x3103a6a256b];[0xe16f459cf6152;0xf198318ca61cf;0x387429b55a66a;0xe83491c6f9b41;0xebf91d26345db;0xfae478b2d80c6;0x3c2e61e33f212;0xbfd0fb7e78537;0xb9c659259cea5;0x434096c264d];[0xdf6ec7f6ad91e;0x78483989183d5;0x313d206d22662;0xe89db2697f3e5;0xf93e1b937d7e7;0xb6b8caecafcff;0x1dd8569343ef0;0xb245533dceb40;0xfc8c5ae09e085;0x535a9df2709];[0xdf6ec7f6ad91e;0x78483989183d5;0x313d206d22662;0xe89db2697f3e5;0xf93e1b937d7e7;0xb6b8caecafcff;0x1dd8569343ef0;0xb245533dceb40;0xfc8c5ae09e085;0x535a9df2709];[0x9b25cfed03000;0xe45ffd172b83a;0xf412ac4a18ab9;0xd9e410a9cb50f;0x7a70270a5bc2a;0x798a073eeaa8e;0xa2dd80b8d8d5b;0xe74e9432e322b;0x1c3ce1e1d54d0;0x54b5a96a5cd];[0x464975aff2f1a;0xd3834757a995;0x44617d6b41bb1;0xe50811d2e631;0x7188f61bd89b1;0x815a7173ed638;0x9950e12a664b7;0xd882674b9530b;0x9d897743c79d4;0xee8aed58080];[0x0;0xe0d2b3f18374;0x1dac5b7c665fe;0x664b64c8fa970;0x4aa71fb16787d;0x48506573975a3;0xed3e91baa052c;0x55aa6c53760a7;0x3793245b66b5c;0xf0eb2603a5ff8;0x338bc4e7e0b];[0x0;0x11ab906cc710a;0xc9a8bb775832c;0xd505f65108165;0x2a25e9a7f84e2;0x94730c6c547ec;0xcaf2039333070;0xb210fd1da7191;0x4990294ca0732;0x36dec58a73aa8;0xff5888cdf6];[0x0;0x7eec10dfa2dde;0x45cba894fc311;0x2e626b34dec23;0xb285203fcc4dd;0xa8877b4c3672;0x16c83da410018;0xb9009fc63aec;0xefb2e0acc2df3;0x99e4e2217e3b3;0x3bb9ba311bd];[0x0;0x7eec10dfa2dde;0x45cba894fc311;0x2e626b34dec23;0xb285203fcc4dd;0xa8877b4c3672;0x16c83da410018;0xb9009fc63aec;0xefb2e0acc2df3;0x99e4e2217e3b3;0x3bb9ba311bd];[0x0;0x9bde08779b2f0;0x89b3c9c28ed45;0xa486f520f0670;0x8e4730bbc9563;0x6bd7e6e616615;0x2904987309464;0x2bac31e9c3de6;0xd200eeffc9b3d;0x697a2fc8b2305;0x208d610517d];[0x0;0x31a3117838c5a;0x4088a986e8a1a;0x66a1d079b91a0;0x4a80ddaa541be;0x37e22b693fd24;0xaa809df694faa;0x2b2a071687fa0;0x3aba1e2baa5d;0x9b7f1f4bc65d2;0x6d94f00b8e6];[0x0;0x97ab7a2c0949;0x8e99637db2409;0x250eb426abe79;0x56803d1d8a2fb;0xc35266cd82cf2;0x580136770eb51;0x8bb882dccfa0e;0xb21ecac3be952;0xa3614ae57fdb6;0xbb70cb8e74];[0x0;0x94549d7834607;0x812cfcc63a342;0xb7022ab3f72fa;0x2a687661b3be;0xe8a56281cdd54;0xc3ea8fd148f57;0xdd04db689be36;0x9e764d1225be5;0xfe077b09fc106;0x25c273b36fd10];[0x0;0xf72d5b44fccf;0x84fd36e41edcc;0x44a58da965130;0x25354496b1c7f;0xdabf1560438c5;0xa5310f4ce80ab;0xd33c67fe082a2;0x752beba1a62c9;0x23ce19449d62f;0x68f03ea70c]]);
 ((V [0xa07565ace44d;0xb5e53e175d9c1;0x2986427c2da02;0x53699347ff365;0xf3f56ac8e81ec;0x7a92598ddf6fb;0xadc6f372cbdb;0x671a7c5de0f0;0xe151293a3184f;0x8a346db39f1] [0xaf0d849585553;0xaebb7ac5f1c8e;0xdbde45737d98b;0xad3cf7bebab03;0x9baff5b1010b4;0x8a22382950d36;0xc7028d0e1f0ee;0x7bd9a589db58c;0xcf3f6fa162a47;0x56aa3ff97b3] [0x90cfd02ca28d3;0xf4cdfdf2efe62;0x9544467016c35;0xb28887285b1b2;0x30d668e3f19d8;0x280e339681531;0x9aa45b9e6353f;0xf68c736c91376;0x61b18f2b94041;0x4306c19ac11]),[[0xada9f5b036fae;0x23ea6646702a6;0x64257fd2df439;0x4b23e4ceecf43;0xc0d006195e46a;0x9a591b5896a03;0xa0838572aba30;0xbdf8fc9562b4d;0x6b0c05b6222e3;0x6f2155f6a90];[0x7a2b35b2fdc39;0xfb450926ef8b1;0xfda08b7a41220;0x3fe14ede57f86;0x146e4681432ac;0x5e0ac7824d456;0x26180583f2ad1;0x3e9d41c0a6f92;0x2948f2102404b;0x5d7bcf9428b];[0xfc41c83f1f9ac;0xa739434f77aa7;0x26e291df88bf2;0xdeef777b0714d;0xa7ebe3fc0176e;0x8d9db412bd99f;0xdc7e6dbbadffe;0xb44aa4a7cb86;0xb27c8914f5e57;0x1684de59123];[0xfc41c83f1f9ac;0xa739434f77aa7;0x26e291df88bf2;0xdeef777b0714d;0xa7ebe3fc0176e;0x8d9db412bd99f;0xdc7e6dbbadffe;0xb44aa4a7cb86;0xb27c8914f5e57;0x1684de59123];[0xa648eadb7fd02;0x784544f95aac5;0xb944755227e1c;0x961c292bef28d;0x362bd537d6f09;0x23b9261852a26;0xf46ec2859df46;0x840907e231663;0x5f3b67bffc44;0x70f6e3e7965];[0xd3e24ad77dcff;0x82ffc42d94deb;0x445c162819404;0xa9c525b268cf9;0xde4271496c3a2;0x3a51a169faa2f;0x31a942fe54b8b;0xba9439de7592e;0x23553b9424406;0xec84ebac926];[0x0;0xf2643f784e55e;0xcb05e253e32c8;0x667a8cfef2972;0xce0c3d7957cb7;0xec5bdeb36c215;0xf5aa9e9a9cd67;0x520168cb4ac30;0xf5fc9eb2ec738;0xea7589da92ef6;0xdecfc762c4];[0x0;0x27f45261a4bd9;0x5b682ae58684d;0xf72261bff4f54;0xbb968717b9e14;0x6c54f39fa771;0x4f2eb0f6c9995;0xfabf1a962fff1;0x7ae4dd1bce08;0x289f788974f13;0x9c68b1918c];[0x0;0xf72d5b44fccf;0x84fd36e41edcc;0x44a58da965130;0x25354496b1c7f;0xdabf1560438c5;0xa5310f4ce80ab;0xd33c67fe082a2;0x752beba1a62c9;0x23ce19449d62f;0x68f03ea70c];[0x0;0xf72d5b44fccf;0x84fd36e41edcc;0x44a58da965130;0x25354496b1c7f;0xdabf1560438c5;0xa5310f4ce80ab;0xd33c67fe082a2;0x752beba1a62c9;0x23ce19449d62f;0x68f03ea70c];[0x0;0x6c679b92d5b41;0xc4f1e61425543;0x3465b65f886b9;0x741c0d56e3709;0xf25ae785e2546;0xaef19bed23504;0x9273bed890f1f;0x73b7023945d29;0xcb92ee68a7f3e;0x5899bbe2cd];[0x0;0x4c4024314fdbe;0x19e562c1d8c37;0xcc827515f8502;0xc87233ae3f981;0xcd9f64c21f0d5;0x45f09a3f1e3a2;0x5fe89093645db;0xe0f82964fe4c6;0xa637006645653;0x7c4a02a743];[0x0;0xc41267915c516;0x5deb7d6e579a2;0xf98ec83a5db77;0xfd250fb3b2505;0xd210c3bdcb1ec;0xcbc8ca52562d8;0xa16bba7c2617;0x2fbabef4eb7ce;0x7a4691c45d21b;0x3277e31b571];[0x0;0xd2eb38e637ad5;0xb35b44703b23b;0x9db411cd5e3fe;0x41312bd66b738;0xe158d24b0504d;0x21fe5d0b5275f;0xac96ea06b4ccd;0x8d5c8daabb57e;0xeca7b3f3e994d;0x56e1447624879];[0x0;0xb0a56aea879bc;0xc73324edacc8d;0x78af1ee43471d;0xd82846b32aff0;0xc9c8c4f19f2d7;0x4100e663c24d3;0x244f874260d45;0xc7af08c8feb55;0x1c5a08473ba26;0x2ec98634c74]]);
 ((V [0xbb5a7f8f3bdf8;0x5f6d52f564580;0x96b5e7f871bcc;0x56c837be6a66c;0x452d31af873fd;0x8c86e6b4b4c2a;0x9e6e1c73df92d;0x1e14b00d7a749;0xdb2adb3c6f946;0x1df658cb197] [0xecc255272e483;0x28a8e44fbebe6;0x7bddecc7ea43b;0xbf2bac00e1192;0x2f13bbcf938a3;0x7ad62de82a666;0xaaf79d7a436cd;0xde5a163a4f553;0xe62e5adda36ad;0xf1e684d0e1a] [0x409ac1628177f;0xac33c27f1062e;0xc501e5740413f;0x804c3b48fdc4f;0xa3600b406fecf;0xe71d5aed73235;0xe5221678a6309;0x3917d870c9f11;0xfba01e92aa04f;0x6d87e7fefce]),[[0xd58178683c7fd;0x1cb521506cdcf;0x45b72b5a1f94a;0x2344ddd8e3742;0x5c160c668edf2;0x4c54d48d08324;0xe119ada49c306;0xd72ea3ec5f88f;0x9f52d7301002f;0xe74ecfac96f];[0x269c156242a67;0x64ea05846b0cc;0x18f533513841e;0x2f8c9ad885378;0x5868c6d3734a1;0x12b78b1c91056;0x333fa03361545;0xf03aa171e7f37;0x77c58e1e1edff;0xf798256d1bc];[0x90cfd02ca28d3;0xf4cdfdf2efe62;0x9544467016c35;0xb28887285b1b2;0x30d668e3f19d8;0x280e339681531;0x9aa45b9e6353f;0xf68c736c91376;0x61b18f2b94041;0x4306c19ac11];[0x90cfd02ca28d3;0xf4cdfdf2efe62;0x9544467016c35;0xb28887285b1b2;0x30d668e3f19d8;0x280e339681531;0x9aa45b9e6353f;0xf68c736c91376;0x61b18f2b94041;0x4306c19ac11];[0x731503961a9ae;0x9c65b812fedf6;0x2807b2ea8fb5;0xe15959004592;0x1cf2218265a4d;0xde8ab91a07b8d;0x8b5a67f309e52;0x3a89393db82fe;0xf525217ebc871;0x450e86da8e5];[0xb38711cc280ba;0xc8844d716c2d5;0x1674b8228f468;0x2177054880de6;0x3b76a5510da54;0x342cd202894c9;0xa7e53840576f2;0xb5b168342fc38;0x82a06c9f6258e;0xb2899e928d6];[0x0;0xa39881e442b75;0xbb4c001bdbdd;0xc7228275e2af;0xb3fce7b836817;0x58334a812f6af;0xeebe53f257b49;0x3fbdc4971eab0;0xada5416602d87;0x83974e4bae1fe;0x2972f3115e5];[0x0;0xc91fa0bbdb3e0;0x2d88686ffa9d8;0x7d5efd74f3bf0;0x70f7da444414a;0xf88423b0bae57;0x443f5f263dff3;0x6d8c93ee283f5;0xd838c08a2b2ae;0xf647eb9a0afde;0x3c8fbb2147f];[0x0;0xb0a56aea879bc;0xc73324edacc8d;0x78af1ee43471d;0xd82846b32aff0;0xc9c8c4f19f2d7;0x4100e663c24d3;0x244f874260d45;0xc7af08c8feb55;0x1c5a08473ba26;0x2ec98634c74];[0x0;0xb0a56aea879bc;0xc73324edacc8d;0x78af1ee43471d;0xd82846b32aff0;0xc9c8c4f19f2d7;0x4100e663c24d3;0x244f874260d45;0xc7af08c8feb55;0x1c5a08473ba26;0x2ec98634c74];[0x0;0xcacce1bf272ed;0xb62a94a543c8f;0x4a6f125f5aed;0x18c9700afe1c;0x895022e6c8af9;0x7079b9294ef14;0x18578dd5e42f5;0x2ea97a5cb5065;0x15ea6ec04d054;0x1d56d434a62];[0x0;0x65b112a315a19;0xb17e4b39bf865;0x1f7fba81416eb;0x614f411d707f1;0x558d68e315792;0x7d44427b0f2ad;0x9aa52b69abad6;0x714fb10afe314;0x786781ba17be0;0x4a9c9102678];[0x0;0xc040312d66416;0x8dc4d8925252b;0x2cdf9dd9f1257;0x8513111d7fbb6;0x957993a3b12b;0xf2976ad03a23;0x605b2656f5ad2;0x63c28c79ee2a5;0x8e79ae0a1d5b9;0x1cfa7e520e2];[0x0;0xa208b188dfad8;0xd4774a96bd45c;0x1241a407dfe27;0xf80bcaea6082c;0xc7d60331f81d;0xe6e3549460b0;0xf58445f70db75;0xb79dbf65a26fe;0x37a5bfe3812f8;0xf1ee762750bfb];[0x0;0x7afaca886e24f;0xd165caf1a4ded;0xf17beac56724a;0x16b37133d699;0x45db5e417af33;0xd67cec8778457;0x5603aba829ec3;0xd7d542f5a0c3b;0x3075b9fb7925c;0x1c4fe47671d]]);
 ((V [0x5fad642793f6c;0x7d3772e8c148a;0x4bbc4d394eefa;0x37e1764ed4746;0x78cf1d426e588;0xbe40776e78d98;0xdf2ffb0da0ea8;0x3a3c4efbbd9f4;0x1a1fc54da3f2;0xb60509d01da] [0xc2c0282362cca;0x6740172d3c6a8;0x3185e4f58bc1c;0x597a2e92706;0x4a3994460e1b3;0xf47ca71f0566e;0x83e478ce11047;0x4f2b3f0f2c469;0xaa89f2a3fa3cf;0xd5d99167413] [0xca3331755f952;0xad92bf02e8aec;0xc04692907b2ae;0xf10d64203fa7;0x9b000a1e32753;0xdef00cedd18f7;0x69d6cccfe8a4c;0xe6752ae6cb9d;0x2d00dc17f5a29;0xe414bef4e3b]),[[0x4e4b987fb1db0;0x316f85250e372;0xbf75c5339646b;0xc345aa82f374e;0x986207d016166;0x5ce18edb92b78;0x8132f16b24372;0xf827992a628e9;0x3e48cd478113c;0x3d3c307c76];[0x41b2db5e70f2;0x6019379faa398;0x93032f9f53025;0xe8b1fe9d6f;0xed9cb986ad72c;0xc9df7e6bdbb68;0xcaaeb58fb303a;0x6b662c868cfc2;0x5c62205d667b9;0xa2c151a4361];[0x409ac1628177f;0xac33c27f1062e;0xc501e5740413f;0x804c3b48fdc4f;0xa3600b406fecf;0xe71d5aed73235;0xe5221678a6309;0x3917d870c9f11;0xfba01e92aa04f;0x6d87e7fefce];[0x409ac1628177f;0xac33c27f1062e;0xc501e5740413f;0x804c3b48fdc4f;0xa3600b406fecf;0xe71d5aed73235;0xe5221678a6309;0x3917d870c9f11;0xfba01e92aa04f;0x6d87e7fefce];[0x7a13050bca66a;0x43f1dadfb1007;0x48d2e5c52f588;0x3e3f0a803e3e2;0x7629a10c1618f;0xdda44a9c1296d;0x79635a6a83bde;0xb7fa86ab6727b;0x12be37bd46cdd;0x2c88e5735b3];[0x8a0828aa1ca89;0x1c275cbff9390;0x4a3049da23a9d;0xc1cf809fab98d;0x7773187a9759c;0xec3b33cfc91fb;0x514b5b252f45b;0xb36ba5db25d47;0x49a3e8a01fadb;0x76386c30dae];[0x0;0x274981d4e9300;0x81f2f74147056;0x855a9f7ab9fc3;0x255551b0c6e97;0xd6ed141da09b4;0x41dd97f1c0fc8;0xbe60718352274;0xb88c80ddfc37f;0x9c3f92f42aeca;0x43bbd6263e0];[0x0;0xe4ba7ff9533b2;0xb08dc2cab7eb3;0x52c76834e236b;0x90d159341c78f;0x6ec62bda95b8;0x8ad86290bfd19;0x64a5e25a6119a;0x2c6aca9b31798;0xf3e1714a046e4;0x1a3322e0dd];[0x0;0x7afaca886e24f;0xd165caf1a4ded;0xf17beac56724a;0x16b37133d699;0x45db5e417af33;0xd67cec8778457;0x5603aba829ec3;0xd7d542f5a0c3b;0x3075b9fb7925c;0x1c4fe47671d];[0x0;0x7afaca886e24f;0xd165caf1a4ded;0xf17beac56724a;0x16b37133d699;0x45db5e417af33;0xd67cec8778457;0x5603aba829ec3;0xd7d542f5a0c3b;0x3075b9fb7925c;0x1c4fe47671d];[0x0;0xc5eed44df3269;0xed526cbc0767f;0xb41e25ed8b1be;0xed45885cbd07c;0x8767fff1ccd94;0x934f593515e3;0xcf24cf59ae6fe;0x7a13df7b78fd7;0x7eeb97e5ad033;0xe493d5a4352];[0x0;0xb620cf67ba891;0xed518ba242f3;0x8ded67928f56f;0xbfc547177c825;0x97cdf9b46d79d;0x6749f1ab8f2f0;0xcf50ab9dab38a;0xc5f67a63a1a9e;0x7bab69b4b2c92;0x381bd2cc8e];[0x0;0xc728a942dcf4a;0x5e00208dfcdce;0xeaa1e75807205;0x44c9857d797fd;0xa28d37b457da7;0xb2928fcc0217f;0xec98f03bf73e2;0x9646d040c02b6;0xf544a3a5eae69;0x73b8a40e726];[0x0;0xacc0aa52dd02c;0xe64323cc896b6;0xcd3edd36b8a29;0x5872632d8ca7e;0x4e787fcef6fc0;0xf5635741624be;0xb16c6d178bb57;0x2936bf6e37bd6;0x3150ad0c3b13e;0xd62775cd6b823];[0x0;0xf1780434c06ea;0x51837bbd8fc3d;0x40141aa7cd9b9;0xdab06a227da96;0x836eac4d35532;0x3f7f1a0669c13;0x20874b9272ade;0x7d7180409335d;0x6227cb89675af;0x980ce2d1bf0]]);
 ((V [0xbe3d305787def;0xe2ce89876aa07;0x98a2a6142f72e;0xef0b1007ca3e5;0xb10ec737667c7;0x75e8f0471dca2;0x507c01ce921d6;0xbae027c8d7240;0x489315d97103;0x461f1ce7706] [0x48913b5019e68;0x55417886fe76b;0xfad36db1740f2;0x3f712d68994f1;0x7209de86ae886;0xcc26f35735939;0x251859d0f3b63;0xd9bf2e2f21f2c;0x28e508c213a42;0x98b55c53c17] [0x9d074341764a5;0xbd1893dfca29f;0xfbaab1fae1b42;0xe56b1c06d6785;0x4ebb2879fbd8c;0xfa2764f28680e;0x929f6f0a02d5c;0x6fe7c3aaea841;0x7d1f3113f2f1d;0x7421f360016]),[[0x9a15df66b667e;0x8664dda5fe974;0xc49778170eb1b;0xf14d90f340ab;0xa9c6bd26e465f;0x36685e7ddce68;0xb027371edaf57;0xeed117f997bf;0xdde435c0e91;0x34007e84430];[0x609e7c10edb1d;0xc7bc7cdd9280;0x6930058c76ce9;0x3965967774cc8;0xa926153f6aa0b;0x97615bfde5043;0x89d32ff2b0d4b;0x7f42af963127c;0x56951161cd21b;0x4522229069c];[0xca3331755f952;0xad92bf02e8aec;0xc04692907b2ae;0xf10d64203fa7;0x9b000a1e32753;0xdef00cedd18f7;0x69d6cccfe8a4c;0xe6752ae6cb9d;0x2d00dc17f5a29;0xe414bef4e3b];[0xca3331755f952;0xad92bf02e8aec;0xc04692907b2ae;0xf10d64203fa7;0x9b000a1e32753;0xdef00cedd18f7;0x69d6cccfe8a4c;0xe6752ae6cb9d;0x2d00dc17f5a29;0xe414bef4e3b];[0x29d5a72cce8c2;0xc8a4f14ef46ca;0x582743529df58;0x7dd7ff8b63983;0x4a040b66a1909;0x8f10f3e9b7349;0x31751746ee18a;0x3e0631bea0dc4;0xfd1a555fd8ec8;0x380dbc519f];[0x36c8d4e41f25c;0x43d6d67ee4bb6;0x1108c239d8d90;0xbb8d96ec11345;0x5f2209d8c9101;0x85068142dcfa;0x585e18abc2bc1;0x413c7dd7904b8;0x597abc01f4353;0x41a146cb4fc];[0x0;0xd7c97473301ce;0xd2f172f655cca;0xf48d97d9940c5;0x801775af84002;0x3e17317977a1b;0x9e3266b5422e3;0x4db7d07e664ff;0xf170bbe24601;0x5f6488711b794;0x8d0b839a582];[0x0;0x53d9164558ac9;0x2d11d562f544f;0xbd98e6b54426b;0x5d157810f0d84;0x85c875ac9b2ac;0xf6ae83ac61b38;0x36f3a6dd15a;0x554a98413f87;0xcaef6133316f;0x2e54a781caa];[0x0;0xf1780434c06ea;0x51837bbd8fc3d;0x40141aa7cd9b9;0xdab06a227da96;0x836eac4d35532;0x3f7f1a0669c13;0x20874b9272ade;0x7d7180409335d;0x6227cb89675af;0x980ce2d1bf0];[0x0;0xf1780434c06ea;0x51837bbd8fc3d;0x40141aa7cd9b9;0xdab06a227da96;0x836eac4d35532;0x3f7f1a0669c13;0x20874b9272ade;0x7d7180409335d;0x6227cb89675af;0x980ce2d1bf0];[0x0;0x9449254bf8c4e;0x938d64f1abeda;0xe0619699f6926;0x9bb1a67fb74b2;0x3618b59af0df5;0x712bc4cb52c62;0x200c697c1744a;0x709d972f62ccd;0xe5394bafa5b7c;0xb2a3c4dda62];[0x0;0x8aad61891132c;0xd817e77ca5fb9;0x4c5fd844ba883;0x67ff4d3c6ea50;0x9df8a7f823264;0x70ef41198f623;0xb1cda06cb47fa;0xc30a2896dd27e;0x118ab9b3673b0;0x816b2a0d4ca];[0x0;0x9a6dcd0efb0b2;0x7532ea8eed03d;0x2718e6e409b05;0x3dd8a6946fce2;0x141364dfee6b8;0xc51dcdf045f07;0xdbc6211c6b5b8;0x8362c268fd3a7;0x6b51a6c2b7998;0x12efbc63e85];[0x0;0x3bfc449061d5d;0xc7901a62f294e;0x2e3fb900b620f;0x28680db40aaa5;0xa790db5e175ee;0x851c2e8153a48;0xd2bd145112501;0x634a89f25d854;0xe193ae14ffa9a;0x9924d4717e225];[0x0;0xe3cfd58b261f5;0xb94ef6e1a7fbd;0x4531244c33e0e;0xdd7ad42002f38;0xb9821111677e5;0x5adf02f8ce998;0xaa10cb7984a87;0xbb86e52eed35c;0x200375b301967;0x29d42672f9d]]);
 ((V [0xa96623a3e8366;0x31b16795fd264;0xdd31a2a0e3e8a;0x2d977b9d78698;0x8503a46074777;0x1b5dd11aca497;0x62a623e8ba3c6;0x8e04b263114ff;0x86759b25d130;0xdaeac41abb1] [0x4b4eacb4aef9c;0x9c19ec077ef9b;0x5b72be361dac3;0x900b792a7947a;0xe823d8eefec2a;0xf97ea1e079665;0xc68f53c6d672d;0x78fd27cbc50e0;0x4bf416a62f822;0x135d8ffd668] [0x5d1948336f3ea;0x69bc8cee8ef2e;0x90907e37ddd79;0x62cf94c7e5eee;0x203ecf0e6e5b4;0x2e316522e9367;0x931b76129bdf1;0x11df3a77afefe;0xc1b8199f63108;0x2b9daf1275c]),[[0xceb6deb68bbbe;0x307d98dc35944;0x26d5768df6382;0x1f912adef265f;0xc9791c2463fa2;0x54f7d19160462;0xec57e0d9245d5;0xfb41733c0f376;0x7e790a8500646;0xa1940ce560];[0xc4479c552f618;0xc6aa8b31a350;0xcbb23a6593a07;0x775d3569a0e88;0xc7932e7ad2de8;0x752b4b14e1ec6;0x48efbdee5a3f4;0x14ef51bfffa75;0xde52c2e174f70;0x1458a9a44a];[0x9d074341764a5;0xbd1893dfca29f;0xfbaab1fae1b42;0xe56b1c06d6785;0x4ebb2879fbd8c;0xfa2764f28680e;0x929f6f0a02d5c;0x6fe7c3aaea841;0x7d1f3113f2f1d;0x7421f360016];[0x9d074341764a5;0xbd1893dfca29f;0xfbaab1fae1b42;0xe56b1c06d6785;0x4ebb2879fbd8c;0xfa2764f28680e;0x929f6f0a02d5c;0x6fe7c3aaea841;0x7d1f3113f2f1d;0x7421f360016];[0xd035e5dbdc340;0xea82df4a325d1;0xd42b49631241;0x8853c4eb2a12b;0x2fa54c387ad62;0x6671e89639c98;0x1c990423cb6f;0xf3661ce5e1642;0x3f1ae11ce3124;0x2d43e0de5f7];[0xf411b679530a0;0x21e7c968e7d7e;0xbe6f85cf627c5;0xef09707e76d5d;0x97ede24258085;0xeb9627ea822e;0x47262dac1d885;0x218934da1e433;0x9f37e1c491e4b;0xd401a9bbe53];[0x0;0x7d1a1646809e;0xb5c591b96cf9c;0xdaaf49d5345e;0xa402dbdb2471a;0x85dab3b38d682;0x80315b308efff;0x29fd76e53e4e1;0xaabf911b9814c;0x692675da14da4;0x47d0f51f342];[0x0;0xdf3b9d435b9b2;0x281dc7d2c98c0;0x644507da1e292;0xb6c266ac09109;0xc13068ea18deb;0xebd28ebcb8ea5;0x3549a997c7e76;0x590bb9cf073fa;0xf06ae3f98e3ba;0x494c8389b9];[0x0;0xe3cfd58b261f5;0xb94ef6e1a7fbd;0x4531244c33e0e;0xdd7ad42002f38;0xb9821111677e5;0x5adf02f8ce998;0xaa10cb7984a87;0xbb86e52eed35c;0x200375b301967;0x29d42672f9d];[0x0;0xe3cfd58b261f5;0xb94ef6e1a7fbd;0x4531244c33e0e;0xdd7ad42002f38;0xb9821111677e5;0x5adf02f8ce998;0xaa10cb7984a87;0xbb86e52eed35c;0x200375b301967;0x29d42672f9d];[0x0;0x87ac7ba1f0100;0x29ab02685b004;0x16ec6cac749ee;0xf73e603e3b801;0x98445475591cc;0xa4ed14f90fc22;0xc47a791115330;0x6ab1f4750173;0x3e36e3d0db6f7;0x5b17de1f257];[0x0;0xed9b4307bfb77;0x68f151e3c678b;0xa1435ca27bead;0xe378cd42ebcf3;0x5a6edf6c6bbe4;0x55712c206c493;0xc8d469a872a15;0x9e3e546c30ff1;0x550d31289be67;0x1335079694c];[0x0;0x8ec04f28862f4;0xd20e27460c15;0xcd0822cd82d25;0xefd49c8bb90be;0xf42d6675d49a9;0x8828194767f54;0xc8ff30823fbf4;0xb1b5451fb7bc;0xaed9d8caac977;0x11662916f9];[0x0;0xc90e9c04f495f;0x1820e143693f2;0x32a439656f78d;0x1f0a1ffb56c1e;0xcd587ffd61eab;0xaa3fd17f96d0c;0x4c477d9b6e56a;0x4994427149e24;0x7a0a21d823034;0x1370d4ed20037];[0x0;0x5ce9e4cd77dd2;0xb8ee49b5deb8d;0x25a97e8e46312;0x39c14dd2a2476;0x8111093b71fd9;0x51b5658ad44fa;0x21bb5c93a8227;0x1dafad77543a0;0x1faa18ae45cde;0x108f6ef90ed]]);
 ((V [0x7b1f248f13708;0xe1f46f045dbc9;0x7e160477cf062;0xc5e92c91fd8b8;0xa624ab04a6c00;0x1922b2b8401e8;0x62555ec336584;0xfa3198b3cb0c8;0x8ac08ee53c0d9;0x54f4ec68a93] [0x7e2e389e99c8;0x49352b4eae150;0x64a48e41a5332;0x2f8321d47d1c5;0x1f29888e506df;0x4ab5e92229c49;0x367ad2d642e87;0x675275ea5eab4;0x706a6a988268b;0xbf285cee1dc] [0x2ab9d93a84a21;0x2cd9211b15cb9;0x8dd26d04dcd0f;0xa3e8ecea765b6;0x7b0e5d43a750;0xdb7370e8c9188;0x590fae480d6d8;0x5df6438dafdb3;0xedb7a013adf17;0xc6d27cac277]),[[0x8a72b193b0262;0x39f09c1e725c3;0xabfe927c3ff38;0x17b4d49ffed41;0x2c76d97d7df1d;0xc948025d0fd1d;0xe601878e27892;0xb06e5a78e648a;0x348fe6763703f;0x91c623e9ca4];[0xdd641afba40c1;0xd6780df6facf8;0x57768725ab2ca;0x5c704b4df0531;0x2d3048c9fdc32;0xc9c9073d5dc57;0x2df368616f8c2;0x7e8cf683f23a3;0xb59bb950ca555;0xb6296888d7b];[0x5d1948336f3ea;0x69bc8cee8ef2e;0x90907e37ddd79;0x62cf94c7e5eee;0x203ecf0e6e5b4;0x2e316522e9367;0x931b76129bdf1;0x11df3a77afefe;0xc1b8199f63108;0x2b9daf1275c];[0x5d1948336f3ea;0x69bc8cee8ef2e;0x90907e37ddd79;0x62cf94c7e5eee;0x203ecf0e6e5b4;0x2e316522e9367;0x931b76129bdf1;0x11df3a77afefe;0xc1b8199f63108;0x2b9daf1275c];[0x955d054a7ad4d;0xe27682d9b1a15;0x125b356e438c1;0x22822b158a63a;0xd91fdb75fc65c;0xfb5e4798c97e5;0x30f1ef784f63b;0x8522f9571d51c;0x2ec0568369b1b;0x7184d38e708];[0x480715b129375;0xf4018b1d492e3;0x451b51b767a08;0x39ee203865ef7;0x54106d54015d6;0xce6abfa494471;0xfd0178e920286;0xf969fd2cd4e86;0x86db62cd60a39;0x44a494fa673];[0x0;0xb1610ba152952;0x4af087c08399e;0xa436cf9e7fcc4;0xef8bee0fb9bb7;0xcb73c43e5cc74;0xa137a2ce5265;0x7a033537a9ab7;0x58fcb3a0f848f;0xcc7a88dd0c117;0x1af8d7a68e7];[0x0;0x3bc29a83fd295;0x18dfccb180739;0xb7704aed0fab5;0x38be639dccb54;0xcdcbf41780f8d;0x27cb6564b8e68;0x36ec830353024;0xfec9552e049ae;0x97832e10f714d;0x18d6123d40e];[0x0;0x5ce9e4cd77dd2;0xb8ee49b5deb8d;0x25a97e8e46312;0x39c14dd2a2476;0x8111093b71fd9;0x51b5658ad44fa;0x21bb5c93a8227;0x1dafad77543a0;0x1faa18ae45cde;0x108f6ef90ed];[0x0;0x5ce9e4cd77dd2;0xb8ee49b5deb8d;0x25a97e8e46312;0x39c14dd2a2476;0x8111093b71fd9;0x51b5658ad44fa;0x21bb5c93a8227;0x1dafad77543a0;0x1faa18ae45cde;0x108f6ef90ed];[0x0;0x371d351385425;0x508f395ed4fe7;0xf1d2b50bf08a6;0x103e5d54dfcf6;0xdaffc37998390;0x7e1cb6156ed6d;0xf87dc7eb34e91;0x2af5b4675cd59;0x14432c46d2622;0x17705918c5];[0x0;0x440c78e464959;0x7e3bc95929343;0xa5f4b77ff5de3;0x4da80efed891e;0xd51084b3af5db;0x5ea673481d657;0xd38dba7d5fcec;0x70a07084bbd73;0xf1071f12c945f;0xbb34ad489da];[0x0;0x5b3d07e6c01e4;0x46debada38e02;0x7180f136855a5;0x184ce2aaf3401;0x76057b9fbc2d0;0xc45746f891b48;0x67e7e23c05e60;0x3399bc2f685b4;0x15ff6cffec431;0x3c73ddfd2ed];[0x0;0xefcda2ab26f5f;0xdde5bdc02c531;0x642eda2c71bf8;0xf23f603463b09;0x27973b8b4c707;0x6dee6081b4ce2;0xc485e14976a0;0x7ee86c5ded5d8;0x6839400ff01a2;0xbf5f7fad75253];[0x0;0x289924c36ee9;0xb4be48cb0496f;0x20b91066d0338;0xb46fbd634685f;0xfd20d26f68bf3;0x26a9e67eb35d1;0x68df794cc122;0x894c5ae5ab854;0x6eab3e8de7545;0x3f70217e112]]);
 ((V [0x51adc43dcd171;0xe1f0f21b280b2;0x3434de5506dbf;0xac140554ec49d;0x9b94fac9ec670;0x906fda784ccc0;0x712b47f537887;0x92e6c2a4185ea;0x5290f1ccdcf0d;0x7b2a15221b8] [0xa5ec5624e6846;0x66f235aaf91b7;0x2f22cbe54fcde;0x8e89adeee1e47;0xd639b4ca2abda;0x82d7b381f9e41;0x9df86b4dc8f23;0xa92bc92efc6fd;0xc00e477b5acb7;0x4f2695068bd] [0x53f7f7cbf262f;0x6e0bef3035735;0x70ca27099c744;0x79ab249d69cdc;0x737e1a267d73f;0xd3c8c84c706af;0xe767040354727;0x1bddd7bbb0e56;0x22250b3147c51;0x1ee1e42a5d7]),[[0x5cc1a990b6588;0xb8a4667da6653;0x9485e6fbd323d;0x883f3838d76c8;0xa63a3972fb2a1;0xa2c2a779d8188;0x92bfbaff06e82;0xfd82bf1afda02;0x38080422a8bb;0x9d71fde5fe5];[0xaf0fc42abae60;0x49341ca9e8fa1;0xb2489da9f74f1;0xc1f3cf82ee1c9;0xeb7098cb22cc8;0xb8bc09b65191b;0x2687fd90f7d6e;0x8652fc59876eb;0x3ce1f97473f24;0xb31b0a7f0da];[0x2ab9d93a84a21;0x2cd9211b15cb9;0x8dd26d04dcd0f;0xa3e8ecea765b6;0x7b0e5d43a750;0xdb7370e8c9188;0x590fae480d6d8;0x5df6438dafdb3;0xedb7a013adf17;0xc6d27cac277];[0x2ab9d93a84a21;0x2cd9211b15cb9;0x8dd26d04dcd0f;0xa3e8ecea765b6;0x7b0e5d43a750;0xdb7370e8c9188;0x590fae480d6d8;0x5df6438dafdb3;0xedb7a013adf17;0xc6d27cac277];[0xd4ed2132a7fe4;0x1b92593cc6c0b;0x419afa223a491;0xd6cdc35de37ef;0x22e0a47320d89;0x1cc59ecbaa27f;0x4113219e98554;0x9caec2bcac23c;0x101267423548d;0xc3c29463d23];[0xda22a2f812c44;0x2da1c36d22395;0x70ada387bd060;0xeb260c250a9da;0xc88ff45801f3e;0x9bf66aeaa769c;0xe574dbf25f81a;0xe9a4399cdb4ae;0x2ccf92323ea96;0xef58761b3b7];[0x0;0x5aebec8aef7f8;0x26c9d0b7cf624;0x74970204f65cc;0x25d1e501e420c;0x6e8d01e6acf7b;0xc27bcda9378fb;0xc4b48c9b662f7;0xfa32eaf0253ac;0xf895abd637e5e;0x7af38c8ded0];[0x0;0x26e297368a698;0xd95ed236f20c9;0x1d2db91e0a163;0xb53e990b31a62;0x32d4833c6f778;0x6caf873c9c3aa;0x6ab2554f887a9;0x17575731915cb;0x9099e71098588;0x7a479e8f413];[0x0;0x289924c36ee9;0xb4be48cb0496f;0x20b91066d0338;0xb46fbd634685f;0xfd20d26f68bf3;0x26a9e67eb35d1;0x68df794cc122;0x894c5ae5ab854;0x6eab3e8de7545;0x3f70217e112];[0x0;0x289924c36ee9;0xb4be48cb0496f;0x20b91066d0338;0xb46fbd634685f;0xfd20d26f68bf3;0x26a9e67eb35d1;0x68df794cc122;0x894c5ae5ab854;0x6eab3e8de7545;0x3f70217e112];[0x0;0xcf2ae4ca920c4;0xb1bd424dba879;0xd948001750d93;0x9b4594ddcf1bf;0x31cbde8f151b0;0xc711697d7a9c0;0x9c63453ecb904;0x3e49da0a255db;0x44d01335cfe0a;0x8ebd41087c9];[0x0;0xec33dff8fcc24;0xb3470663d933b;0xce098e285b3e0;0xc41cf98f58010;0x2e94ec055533d;0x7baa7ec79020f;0x57aadef48673b;0x3d82eafc47c69;0xe7b838856492;0x1c31a57830e];[0x0;0x1b0da9e8349f9;0x3af665d6f9a84;0xbda61124b5ccb;0x9779896484932;0xed233098cb619;0xb360707b12bb7;0xc67ac5bb09a52;0xf6058323d7ffb;0xac5c900654ac3;0x562b6f43d91];[0x0;0xadb566dd6cbaf;0x58c4283822d07;0x95f52ebca8be2;0x9c77f2b56cca5;0xd778d273f945f;0xdf4ef921a14ab;0xd8fb18203ad81;0x97934673174f1;0x385f552c60bd8;0x4f3e5b450e523];[0x0;0xbba0f6cf26f91;0xdd6c0b715c73f;0xd77482ff4ffda;0xa8d9847054c1b;0xc82f28a371d24;0x67dfe0020c73c;0x9b753ce28f016;0xd17c10ce26a6b;0x13852817a4957;0x26148c774e2]]);
 ((V [0xfddcc03a7ac08;0x53448cda5c160;0x74266b33de90;0xf54aa77858451;0xf377b77e0efff;0xc3384b9da2961;0x7934c1340e9aa;0x84364b22ffb1b;0xd75718952713c;0xa81c26ae55b] [0xb2c729f32a9b5;0xadf9c4a945703;0xdd68b1e754832;0x19611fe90ed3d;0xe895627456cfe;0xaedf75eb5068a;0x18afdaa560abc;0x58ccdc619778a;0xcb5a3cf702a8c;0xda6487a71be] [0xf82b571c9c802;0x16c537f71ad66;0x3f9eaf6a80640;0x2b5f080015338;0xa49bacc27bd06;0x9684f7349806c;0x8ae711906b9cb;0x7be0ac30dd000;0xab48009ca72e6;0xf19a3393a3c]),[[0x57d50452d3595;0xba6522a7f74ef;0xdcaf0aa3685f1;0x2a94624835f4f;0x953bc219b87b0;0xe990422b9c5d3;0x4fb2ceea8c58b;0x7d581ce3d671f;0xf5a150a7454e1;0xda79ebb4bfd];[0x35acae4624716;0x8df9f1cf1a5c5;0xc17038137c979;0xee64b30110a7;0xd6dec4c945158;0x3d24e5f941639;0xffbac0e1ddef0;0xadccbfd8744c9;0xac3ef87804955;0x2cce511cf04];[0x53f7f7cbf262f;0x6e0bef3035735;0x70ca27099c744;0x79ab249d69cdc;0x737e1a267d73f;0xd3c8c84c706af;0xe767040354727;0x1bddd7bbb0e56;0x22250b3147c51;0x1ee1e42a5d7];[0x53f7f7cbf262f;0x6e0bef3035735;0x70ca27099c744;0x79ab249d69cdc;0x737e1a267d73f;0xd3c8c84c706af;0xe767040354727;0x1bddd7bbb0e56;0x22250b3147c51;0x1ee1e42a5d7];[0x597d26d079c9;0x1299db0a924b9;0x424a0dd5862bd;0x310ebf9da4b03;0x9ad6e9929bc8;0x7aee04d21a012;0x7a81cdce19b92;0xd4f32781c2760;0x99884cc0654da;0xe48e28e2265];[0x3014dbd91cb15;0x7b6016c48810c;0x7f262a3df66bc;0xddd78b926c5a4;0xcd3156301b58f;0xc236e12727627;0x8538f313c435d;0xd8d99856b1d69;0x12b6abb79f47a;0x4840283ac9f];[0x0;0x664684b9d270d;0x1d5e9a3339661;0x638d072a7279f;0x9479b62e5c4fe;0xb9d7d874d157b;0x808197dff9661;0x2308f6b822939;0xf91b8da892f1e;0x979ca24b3e068;0x1318fdd0825];[0x0;0x70ce6702d6c93;0xbe57238dd15d8;0xba70f47ff0a8a;0x7a9cf55bd7d24;0x39e8132787735;0xf917f875cbc5a;0x1d2fc56c6aa1;0xce4b94d953a77;0x6289bbb055189;0x1a5b1180160];[0x0;0xbba0f6cf26f91;0xdd6c0b715c73f;0xd77482ff4ffda;0xa8d9847054c1b;0xc82f28a371d24;0x67dfe0020c73c;0x9b753ce28f016;0xd17c10ce26a6b;0x13852817a4957;0x26148c774e2];[0x0;0xbba0f6cf26f91;0xdd6c0b715c73f;0xd77482ff4ffda;0xa8d9847054c1b;0xc82f28a371d24;0x67dfe0020c73c;0x9b753ce28f016;0xd17c10ce26a6b;0x13852817a4957;0x26148c774e2];[0x0;0xe04a66ccfb7cd;0xdf012c7f86343;0x99f664feb7a47;0x105066c63e490;0xdfec2953ed303;0x32d4c39ca7a86;0x81b40c0f5add5;0x5b2ef86960f47;0x3ecd639784ea1;0x1878d5ca9f0];[0x0;0xcc818bcf040d4;0xe6471a11bac0a;0x6ec3171cef707;0x9a24fd912d3b5;0xfd52f6918e10d;0x18194925618ef;0xb6b048263a3d2;0x469e5c1abf432;0x19a3529b3f729;0x3b417739b76];[0x0;0x3833d2903e4d6;0x2f70a4ba7fd7b;0x50c98ed5dd3a3;0x17864c1e1bfb5;0xdf1ab3bee2729;0x6776f0ec2ae94;0xac56e7dc391d8;0xf10d2e3173ea2;0x26fe7b358d63c;0x1d6c5291002];[0x0;0xac1e312f573a9;0x3cd8708f446e6;0x272f0968f86ca;0xf1810f501cbc3;0x90dbe45875c3;0x47fbd8f6166d7;0xd8a00b549138f;0x71f2f382c77c0;0x474412f82706a;0xdb18b2e55aa87];[0x0;0x381342443892a;0xe647422ec3ba5;0xb5b07896685fc;0xf7f95a588d975;0x5ff34162b0a5b;0x43828c7218131;0x6d524cc239e86;0x4831ab6cb8198;0x66844ec10aa50;0x8f69fd04263]]);
 ((V [0x8880e2c90eaef;0xd66e0ac50863;0xdb936561eb9b2;0xc04139c85467b;0xb49ceec9073f7;0x8c88663d69bb2;0xe8d594ef022a8;0x3d3df19efc2f6;0x792f897daf750;0x84734bbb41e] [0xc73c512d612bf;0x31fddb0d634da;0x728098516a1fc;0x35a99d8bc2f7f;0x10a0a98136d8e;0xab6deb8dda422;0xd3831a063924a;0x44c673a8b331f;0x7208279e4c1fd;0x25a30341fb1] [0x83aa0d5c0685;0xb411b3bbb5832;0xeec317d23049d;0x35547de81e8bf;0xfa4c2767f68d7;0xeec6564e6fd71;0x8d271e6e4e405;0x589b850ed0790;0x61f32fce5edbc;0xc134d98c99]),[[0x5ca133125d8d3;0xb518a23daa1fa;0xa114ec3205a6a;0x6f8eb982b81de;0xa4766ec4a8879;0x439a36f9cce34;0xc3d528539e484;0x2b9edac40193a;0x921aa7e37a7da;0xd405a0bd02a];[0x18345feb229a1;0xfe85612d4ef73;0xc98247c46349e;0x9943c21720eb;0xea03d1283e139;0x5a653d07f739d;0x52170dc62d6df;0x8ca88a1e11950;0x279e1abaeec85;0xbd07202ed5a];[0xf82b571c9c802;0x16c537f71ad66;0x3f9eaf6a80640;0x2b5f080015338;0xa49bacc27bd06;0x9684f7349806c;0x8ae711906b9cb;0x7be0ac30dd000;0xab48009ca72e6;0xf19a3393a3c];[0xf82b571c9c802;0x16c537f71ad66;0x3f9eaf6a80640;0x2b5f080015338;0xa49bacc27bd06;0x9684f7349806c;0x8ae711906b9cb;0x7be0ac30dd000;0xab48009ca72e6;0xf19a3393a3c];[0x24b5acb822d6c;0x6bdf31047da69;0x2978a93fb8c92;0x64ab4293581e2;0xcb67acd2430bf;0x56977464522fd;0x3c988dad08c3e;0x1ad1ce0be514e;0x3ffe9594c0fc4;0xa6883e58973];[0xf37eb332ffc36;0x92a63028d1509;0xa0099e84aa80c;0xa4e8f98e19f09;0x1e9c2455fb079;0x3cdc8a3a50a0;0x157e801924aa1;0x71d6bc122c802;0xe79f85262dcc1;0x167ee1d63e6];[0x0;0xd7456981a03cb;0x1571bd33e6c9e;0xacf6b3907d78f;0x5f31f507d67e8;0x79229660211e3;0xd3b81940a73b4;0xa0f6537b1b2cc;0xf4dde2b49ffe5;0xf9659c26f3e5b;0x956812b4301];[0x0;0xb75f70e3f23d3;0x2647b4c386a4f;0x5c5fe9aec587c;0xf8faeb4977d5c;0xa5d1acb8bc0e3;0xdcda6cce271d7;0xac9380008e00f;0x2b4dc8a964a0d;0xd3dc727fc8b10;0xc819026c071];[0x0;0x381342443892a;0xe647422ec3ba5;0xb5b07896685fc;0xf7f95a588d975;0x5ff34162b0a5b;0x43828c7218131;0x6d524cc239e86;0x4831ab6cb8198;0x66844ec10aa50;0x8f69fd04263];[0x0;0x381342443892a;0xe647422ec3ba5;0xb5b07896685fc;0xf7f95a588d975;0x5ff34162b0a5b;0x43828c7218131;0x6d524cc239e86;0x4831ab6cb8198;0x66844ec10aa50;0x8f69fd04263];[0x0;0xddc702bbe730b;0x36ad63cb7896e;0xfc2c56a552722;0x612fa00b4ebb4;0xbc4f89167727c;0x12decd4316297;0x8e5ae40592dde;0x2ac2fc14c8846;0xea2d1feb8a1c9;0xba4f5e82ddf];[0x0;0x5d2f38b8623a6;0x15e1f6a828ebf;0xc2777698af7a0;0x4c95d53e219d4;0xba0e8ab4fbc66;0x8b2d814def9f1;0xd63de9a5d62d5;0x5d2a90cf7a779;0x3a3c39e32f5f7;0x6e64f5dd4c8];[0x0;0xbd87700653f6;0x6a50d7ec12441;0x79f040fbbb142;0x634978ec89a4d;0xacea679f9c2a0;0x75e3dc7fc15e;0x27c601186d671;0xd21d88e770804;0xdc6c1522e431b;0x61ccceb6f67];[0x0;0x846eb0de3d504;0xcba4b6ce26d69;0xd5e0cd0eadfeb;0x8639bbe1e21b4;0x8c298aad803ac;0x63d4fee2e5d3e;0x5af63c5ef7b2;0x4f8deebabdc4c;0xe5852f5269600;0x25acdbdfa501e];[0x0;0xe0a1550b8e1d4;0x9b8cadc4f27f1;0x2e3d35af42350;0xf77a69d263257;0x29d720ae819c1;0xbd37aa8ba3926;0xf1e9cf96a51e0;0x762d316bfa2ca;0x3dd7047464125;0x1379010ac5d]]);
 ((V [0x1587071fe2394;0x1c40392aecfd6;0xa3ca70472a16f;0x6b47e4279236d;0x290f1230e7080;0xbcd97dd21b11c;0x48afeb3fcc01c;0xc87039dbaff41;0x79ef7ee46d8bc;0x1c4f4dc2191] [0x9572300a7b092;0xea32fc3d3bed;0x8d13ed5e434f9;0x625ec0c85ceb1;0x1120f3094aca5;0x3e3573c7ecfdf;0xb8d4f518a19d1;0x61e5fd0e55f6e;0x8c0b91e52eec8;0x975bec078f6] [0xa73c5d132f0ca;0xfa5da53418658;0x4b962f050b4b6;0xad9da502d9655;0xf35a1c98b89fc;0x6a45ff0596b5f;0x187a75e91de70;0x98e448bbc6607;0x4561dde3582ea;0x93d14799ac7]),[[0x2e4eba110350c;0x64723684ce4b2;0x37b2be7d480dc;0x24b3cf67c6b4a;0xfb99e19f8ccc4;0x8cec408e11db6;0x58038ff1b6d0a;0x9d0b60f9f8670;0x8d3f387c8255;0x2379196e3e9];[0x8a3275562ac23;0x4e7d88fa0d8b3;0xf5469af126f97;0x9a553e0e9ab67;0xb9af4245084b0;0xc800c3532796c;0x8a6875cdb86d5;0x16109f001797d;0x493ba1cbae87;0xddabe0de5f7];[0x83aa0d5c0685;0xb411b3bbb5832;0xeec317d23049d;0x35547de81e8bf;0xfa4c2767f68d7;0xeec6564e6fd71;0x8d271e6e4e405;0x589b850ed0790;0x61f32fce5edbc;0xc134d98c99];[0x83aa0d5c0685;0xb411b3bbb5832;0xeec317d23049d;0x35547de81e8bf;0xfa4c2767f68d7;0xeec6564e6fd71;0x8d271e6e4e405;0x589b850ed0790;0x61f32fce5edbc;0xc134d98c99];[0xe8ce173d443da;0xda12acc0c2351;0xfcebb3ec2ca20;0xc7376e090da09;0x2a8a78205847a;0x16f4ab028234;0xc444c5cd278b8;0x4da783b3de484;0xdd697cc57aa00;0xcd986cffdf6];[0xa1645e18e684a;0x746adc394b561;0xf85ae704fa576;0xd31dd0058d15d;0x8f24ca24b0035;0xc69178a2ff738;0xc623b00090e1d;0xc8691b4c394f8;0x272a3d5740486;0x101373de800];[0x0;0xb288d9299465c;0x222582c6e6007;0x19f6a0f909a5a;0x21713b0bf9869;0x33c2450a01614;0xd299fc3e60d3a;0x6759b3768b523;0x98778fccb5845;0x1ccc77f4c27c3;0x777a842dc6];[0x0;0xcaa1de86d101f;0x8ada43a60dadd;0x9f0d6d3c3777b;0x88f766a21ca5d;0x32f6f411a9afd;0x56a11314485e6;0xeb6f597ab3155;0x478899a9e4be8;0x98fdf432572e3;0x1ac59eea69];[0x0;0xe0a1550b8e1d4;0x9b8cadc4f27f1;0x2e3d35af42350;0xf77a69d263257;0x29d720ae819c1;0xbd37aa8ba3926;0xf1e9cf96a51e0;0x762d316bfa2ca;0x3dd7047464125;0x1379010ac5d];[0x0;0xe0a1550b8e1d4;0x9b8cadc4f27f1;0x2e3d35af42350;0xf77a69d263257;0x29d720ae819c1;0xbd37aa8ba3926;0xf1e9cf96a51e0;0x762d316bfa2ca;0x3dd7047464125;0x1379010ac5d];[0x0;0x27af552e51021;0x29f6080e72ef4;0xbbc24e8d24a0b;0xd7b7c213a4091;0x2fd986a46f0bf;0x28bd01bb20595;0x965768b4b7bf6;0x37b6c0da575b3;0x50bbd202b4656;0x58886be38a];[0x0;0x2a4cf8fc8b271;0xc40704947445f;0x8c16851630ed2;0x964427b7fee8;0x50855eca341bb;0x5001c9967850e;0x9803395f8ad25;0xe62cf74c334c5;0xb473571580809;0x44871a063c9];[0x0;0x5ef84d98fb60a;0xb62a0c0a988ed;0xdce85357e150c;0xad0ba74781895;0x7685d414b439a;0x92e36eb109006;0xe1ad903c946d9;0x2b11ddb62d8a;0xd43efe776873a;0x188377f77ba];[0x0;0x91e0fc0d15025;0xe11e953b7cd8f;0x4758e38c48bf8;0xf05936404f6b8;0x7405d0c4eee03;0x824889b493ff5;0x16fdaea82748b;0xbb3285e7ab973;0x4745a57465b0f;0x977037f979dfa];[0x0;0x7d317826b3172;0x72062f0a781b;0x25c18c8c9e018;0x38bf09e1efe39;0x46ba94088828c;0x4e18684ef3e60;0xeb5e3b25e79a;0xaf61183c84196;0x1cb912bb903dd;0x10bcf128128]]);
 ((V [0xccc9f47957be;0x132722de5d571;0x3c5c007650fb7;0x776d0353dfc0a;0xf5dfe58c3c02c;0x1eb63c8ee3bec;0xc0decd24afd01;0x1e0db9349bb22;0xcfac43349e3fe;0x663bd9ba6f1] [0x5d2a55b4bc1b0;0xadfbc36022186;0x3d65bf3bebf3c;0x80b0ade7475fa;0x49b66a8ee4abf;0xdd340140a0d73;0x30335a6aeebb;0xf9795b3e48141;0x23eee0d34a4da;0x41056844bd1] [0xb0d1d3b4b17ab;0x76ffba2c1604a;0x232aafa98043b;0x8bf5260866083;0x1641b470349e6;0xf0e06a00232c6;0x45928020b8b35;0x7b76879b98b2b;0x22a831993fc6f;0x459633fa491]),[[0x9d562a775ee38;0x4b5fb6354b87;0x55d662921ec82;0x7514784158b62;0x7d72498e61af4;0xd3e27d2145d3c;0xf4fa4c9093a63;0x8b254a33443ed;0x2606117f29962;0xa3377eef908];[0xa10edf11715fc;0xcdfd735070bf;0x8ee1d4f8ce7f3;0x7f976526292dd;0x44d514ec6480e;0xfd7da38140cb7;0xedd87805dfd70;0x63939c7fd9bd1;0x926b3eb245ab8;0x44db71481bd];[0xa73c5d132f0ca;0xfa5da53418658;0x4b962f050b4b6;0xad9da502d9655;0xf35a1c98b89fc;0x6a45ff0596b5f;0x187a75e91de70;0x98e448bbc6607;0x4561dde3582ea;0x93d14799ac7];[0xa73c5d132f0ca;0xfa5da53418658;0x4b962f050b4b6;0xad9da502d9655;0xf35a1c98b89fc;0x6a45ff0596b5f;0x187a75e91de70;0x98e448bbc6607;0x4561dde3582ea;0x93d14799ac7];[0xb2636eedf6c4e;0x67bb54c4a3ec0;0x20d263831faf2;0xe7674eb2ca5b8;0xf90f489e2cdbe;0x9cda9f5cfc961;0x2d50ea087b5f6;0x7649e95356c61;0xc104316e05bca;0x67f5d83be55];[0xeeab70237a776;0xa5248270631fe;0x6e0f7175aed00;0x983016735ed25;0x4bc5cc4e37a4f;0x60a3042444355;0xc0878dfd6477a;0xed49b32c82f70;0xd1670d443feed;0xdce5990c367];[0x0;0xf4ac7cb5065d8;0x52492c1d47d5d;0x8d661c5f0c957;0x5730b946276f1;0x40f6b2aec3231;0x115588bb33db4;0x42830a6188908;0x6d7bca31397fd;0xe50fb43bd96ce;0x5b68fdc9cf2];[0x0;0xd0308c3b61c2c;0xc0286db0c27c7;0x99ded32cd32f8;0xb58f0a9a482a6;0x6a17c9dc11417;0x1937bb52456ab;0x54882bdff52c6;0x42b18da982ec5;0x29b601fea905b;0x5e3e4bd88fe];[0x0;0x7d317826b3172;0x72062f0a781b;0x25c18c8c9e018;0x38bf09e1efe39;0x46ba94088828c;0x4e18684ef3e60;0xeb5e3b25e79a;0xaf61183c84196;0x1cb912bb903dd;0x10bcf128128];[0x0;0x7d317826b3172;0x72062f0a781b;0x25c18c8c9e018;0x38bf09e1efe39;0x46ba94088828c;0x4e18684ef3e60;0xeb5e3b25e79a;0xaf61183c84196;0x1cb912bb903dd;0x10bcf128128];[0x0;0x22e6ee172195a;0x2518949e91ee5;0xa2951d7e608ef;0x446eb4744b4b6;0xd77845534de80;0x905841c1b4ea4;0x393078cc5d36a;0xae1ceafd54906;0xb7875b0c770da;0x597d9172922];[0x0;0xf9b14ed6ef116;0xabc283f36f818;0xe7f3929a5ea63;0xc07e430b8e1d6;0xe16af3bd5d1b5;0x7b21c7751b6b2;0x7b9790ad5a87f;0x31ebf1ec0012d;0x6fd9c99084379;0x32171938ae];[0x0;0xc4be04821633e;0x946dc99bdf103;0x6fda0a92d67a6;0x3c5fb8d3ba940;0x7ee1c537979a4;0x38656f81f45de;0x9927ede51623b;0x448abc8ce2100;0x5008a3213ff8;0x1b7f8845ff1];[0x0;0x67e0cc475057;0xd77a5b59b389c;0x5b684cdd81dd8;0x5454f53a413;0x38f35d77ec9d8;0x84ca0630b2de7;0xb22f6328ecfe4;0x7252cff53d271;0xc3174d398f179;0x4134f080e9a6a];[0x0;0x750e8f23f0363;0x4448538772f54;0x582c99db83f66;0x4664df0323e1b;0x6a1680612ea7c;0x3f86a6fbf6007;0xe457ef176cfd6;0xe6c43d693b108;0x592fb8336ebbd;0x19f75b175ab]]);
 ((V [0x93610db1ad1f7;0x1221c0ed8176b;0x497272d24cb49;0x3b89fec70f7b0;0x8c55fd745dac5;0x8d3f1275d0653;0x88a3cca396749;0x12bd19ed61dd2;0x41ca01c237265;0x1c232a56b92] [0x5b0a1d4b95e22;0x985dc99d31a10;0x70db6939d4690;0x6f3da659a3299;0x41d9d490269e9;0xedddf7e2635d6;0x29728276f2cd2;0xa3481d8a9cf16;0xac5302ce812c2;0x473e3fccc18] [0x4e844af42a58a;0x1734b6e6ea216;0x34b2c903ce396;0x79a890527752f;0x5ce61baa96bdd;0xf6819a0c3cfa8;0x98e1b75d4ed7e;0xb0f34c435fe27;0x6e6fa62a9fcfd;0xcb1ec7b1cd5]),[[0x85361f7ec3290;0x2c931e8e96df2;0x9f1d7d1bc2064;0xd287998c82e6f;0xb4275d64d0020;0xbd9d68df9c458;0xed592859b0b50;0xbd008bf39daf;0x616b06a864555;0x473374b29fd];[0xf91350a8e770e;0x309695b72ef99;0x3ae1dd73fa8df;0xf82b41258c676;0xbd9f12f55d959;0x846082e8b2c56;0xf1ab058530f19;0x51f54cac809c3;0xd34acbbfad397;0x1ca472a76de];[0xb0d1d3b4b17ab;0x76ffba2c1604a;0x232aafa98043b;0x8bf5260866083;0x1641b470349e6;0xf0e06a00232c6;0x45928020b8b35;0x7b76879b98b2b;0x22a831993fc6f;0x459633fa491];[0xb0d1d3b4b17ab;0x76ffba2c1604a;0x232aafa98043b;0x8bf5260866083;0x1641b470349e6;0xf0e06a00232c6;0x45928020b8b35;0x7b76879b98b2b;0x22a831993fc6f;0x459633fa491];[0xb9a06f0b163cd;0xabe55473d7de8;0xa0d251a0be9da;0x8087b38c56b17;0xd883d4442a63b;0x3c4febbb6f3f0;0xa73577db5c10e;0xc66c28c5de039;0xc62f56b55d7b6;0xc5d225526a9];[0x3f72e19dd1109;0x84b14143571b1;0x9a0f8bd33bf04;0x77a38d9935b5e;0xe51b3eb13331e;0x4810972d43865;0x4a758da9d4e0b;0x8b8923e6a298a;0xd1b750a4fbe0;0x56d24d55035];[0x0;0xa5b874b285720;0x7e11946a1dc5a;0x20fba993ab84;0x52132732bf7d4;0x1f70b65725dd1;0x42470d14ba738;0x40e486d205a62;0x30bc564122290;0x3d34deb603530;0x2b0846dc22c];[0x0;0x864c2f5bfafce;0x760760482e34b;0xa136cad1fec60;0x1a9bc16e22775;0x697aad3990cfb;0xce59086f68d7;0x253e0cfece90e;0x40b5c910a4229;0xa18ea166672b;0x135aa50f629];[0x0;0x750e8f23f0363;0x4448538772f54;0x582c99db83f66;0x4664df0323e1b;0x6a1680612ea7c;0x3f86a6fbf6007;0xe457ef176cfd6;0xe6c43d693b108;0x592fb8336ebbd;0x19f75b175ab];[0x0;0x750e8f23f0363;0x4448538772f54;0x582c99db83f66;0x4664df0323e1b;0x6a1680612ea7c;0x3f86a6fbf6007;0xe457ef176cfd6;0xe6c43d693b108;0x592fb8336ebbd;0x19f75b175ab];[0x0;0x8beddd272bd35;0xbd7f350ad2be4;0xdd3cef5419fa2;0xb87eb47d60d63;0xd1369c67c840d;0xb870dd7ed639d;0x602c5423c1e0e;0xd598a0aee5375;0xa92bf28780b2f;0x1083bf10252];[0x0;0xb3caa166ddc2d;0x40ed837855468;0xc729097d84f96;0xa6c3b33c1771d;0x57b7e223d4d2;0xc185a363f44b5;0xf39bbf2876782;0x5801fc8b5c9c7;0x7e754b6c5ae89;0x28d3bf7ea5a];[0x0;0xb78311e9d33c5;0x8b4c4ec497089;0xdab61c6346a4e;0x5f77f9860f68a;0xed6f28abd4fcd;0x11a360bf2b7ee;0xa8fc48dff2ecb;0x30b9f07949ff8;0xed6a7f4f4f837;0x325ebc2aba];[0x0;0x43daf033a138f;0x2638eabcab621;0xd6245fa9fa65e;0xece27fb1261be;0x5d83920e0ad1b;0xe74e0ba5f6c56;0xd5890f57b8c29;0x64a5ddc3a9bc3;0xc79af79ce99a8;0x477d8579cab75];[0x0;0xc948769ef669c;0x31e53dc909cd;0x5c75ebde3352c;0x38134c1cde474;0x568fe718c56d2;0xf2bb103c3ed6;0x9da11e8c95197;0xaa61f9a5a6953;0xb2e751d71ccf;0x7d49845771]]);
 ((V [0xbd85e957385d7;0x543832c559d75;0x83894608ed72a;0xb4585313d5bee;0x904939912e929;0xd08553dbeaa34;0xe6ca2f2e12602;0xbac22d85c95d8;0xd766c10062dd5;0x89012d7236a] [0x21a072051a8bb;0xc03300167c9e6;0x2ed96edc5f3;0xd0e910133ae41;0x8913c506cad16;0xbcd757991e79b;0xbc9f7d995c25e;0xac99c1adabf14;0xa93be1e7105e3;0x782e2d24a5] [0x904a710b439cc;0xf3e36e5e61dd4;0x2141ebc6fd439;0xad2add401b5e1;0x73626c32b1b7c;0xdd330ff7a0eff;0x29860b3a61b2b;0xd59b43152998b;0xfbceb4ab0910;0x35afac1d4d7]),[[0x50d4c79659532;0x128e452cc6807;0xa4fc4a6f41062;0xb90d259cfe434;0xd0b3e7a99e564;0xf561c57fcb22a;0xe2256d84604f8;0x7bbd21b655e5d;0x6c5b78a54a557;0xe1fcfe9cf5a];[0x629aa8d6c4ef5;0xdf9f1fd8b0c86;0xff1e5cdd32419;0xba0bc9b776997;0xbf6f1dc56a60d;0x8760204252175;0xb6d50dbfa804c;0x257fd97a641ec;0xf66a3a3ca8958;0x65aae9e5a6e];[0x4e844af42a58a;0x1734b6e6ea216;0x34b2c903ce396;0x79a890527752f;0x5ce61baa96bdd;0xf6819a0c3cfa8;0x98e1b75d4ed7e;0xb0f34c435fe27;0x6e6fa62a9fcfd;0xcb1ec7b1cd5];[0x4e844af42a58a;0x1734b6e6ea216;0x34b2c903ce396;0x79a890527752f;0x5ce61baa96bdd;0xf6819a0c3cfa8;0x98e1b75d4ed7e;0xb0f34c435fe27;0x6e6fa62a9fcfd;0xcb1ec7b1cd5];[0x60835ce925a88;0x524a7e3dfdaf;0x2b9ab06471aa8;0x2cfb45c65b629;0x6ae78e5a47d50;0xc177d47a0d516;0x51edd205c055e;0xb44c929f0e05c;0x902fbc695c60d;0x6d3c740e261];[0x2174bed9f235;0xda7a77f4d0ed7;0xd383ac78c0971;0x8d1083f11b36e;0x54878f6b228bd;0xc5e84bc844c5f;0x64e73bb9e7aed;0x713346db56190;0x663a7dd34c34a;0xf86e75d780d];[0x0;0x683cbbff60a2;0xeca0efd4c92bf;0x46126622536e;0x9920af260aee2;0xa7dd111592d66;0x48f46ce9fb865;0x6dfd49b0dd6bd;0x9bf3a98b95653;0x98a620ce90b53;0x7d9bf7f8a12];[0x0;0x31801b713409;0x8c7274ec32b1e;0xab2fbb526c3c8;0xe69e9c6d21147;0x5ee678eee2cac;0xea0c55398fe5d;0x62bd25dd6d29c;0x79e1e429c0072;0xc6495c08f5a9d;0xb34ec9d4ec4];[0x0;0xc948769ef669c;0x31e53dc909cd;0x5c75ebde3352c;0x38134c1cde474;0x568fe718c56d2;0xf2bb103c3ed6;0x9da11e8c95197;0xaa61f9a5a6953;0xb2e751d71ccf;0x7d49845771];[0x0;0xc948769ef669c;0x31e53dc909cd;0x5c75ebde3352c;0x38134c1cde474;0x568fe718c56d2;0xf2bb103c3ed6;0x9da11e8c95197;0xaa61f9a5a6953;0xb2e751d71ccf;0x7d49845771];[0x0;0x354bca7817e24;0x3af034ad8fb5e;0x9eb659830220e;0x99946fcec2600;0x46c7a6c249fb;0xd455b710faab6;0xf2e85991dabe6;0xab7c4e8eab7d2;0xf239f90c8fe3e;0x13d396868a6];[0x0;0x389935c9a1504;0x353321ed54242;0x916112554ea7e;0x21dbb1ac16815;0x41842ada9cff6;0x15e906e3b734d;0x7f968199f949f;0x65fd1308d9cfe;0x718439d7c6dfd;0x317b617933];[0x0;0xae27fd9ac84a;0x34f47cdc23e89;0x5fe8189c2f66;0xe03254f6c052;0x89871b7483532;0xc999ca06591c;0x40e27bc73f341;0xa97e821746f47;0xc3c5798a17a0b;0x3668eee3372];[0x0;0x7e4a2b3a1afc1;0x6466cde82b7ce;0xdac03347f7095;0xbe4e121c975ca;0x7886a2ff84bb2;0x1851370ee6cee;0x5e285af0c2c54;0x4b159ed87a383;0x7045a6ba744cc;0x7876a0dd8308];[0x0;0x58746c825ffb7;0xe7cdbba7f2c44;0x65f41853c0a8f;0xdf38fe9f1447;0xe90d14b7b1c96;0x7ff2bb23cbda9;0xd1c13fadf5798;0x16a9dc8d45b9a;0xf6ee77e5f268f;0x405143ac85]]);
 ((V [0xe2b10b420dd60;0xf98ed1ebbfb64;0x91740d31c3f8f;0xe111246d33870;0x48a9c9c059edf;0x6f327cc56753e;0xbeb0c3dbb68b6;0xfcf0512552f81;0x110e3d5ca1a92;0x1bee66a9142] [0x226cf6b61f567;0x996ee4898941;0xb91cc324fde7e;0xd2c93105e16ec;0x688dda112fbce;0xbd3cd1f842813;0x891fe93262f43;0xae1cf4b5ff67f;0x790d43d281b61;0x8d36c794b40] [0x799c8e9f67c3a;0xde4337fe25be1;0x7d172a5112c43;0x6484fdd6d01f5;0x60248255f725a;0x835517070c914;0x5410faa926be0;0x620496782148c;0x44e1f63507799;0x6522a5ac708]),[[0xc444781fe9b36;0x8b42d02d2b7ea;0x6b1b4865d6f12;0x3aeb16ac915fb;0xd0da8947f1033;0xea1f12c1f4172;0x56bad7ccd41e5;0xaa2004e2f7ae7;0xe0fb55c48e7ee;0x5ca77d74785];[0x4d8aa3145e853;0x757acd102cc21;0xad91af9addb51;0x13f93870bbbaf;0xb707d68724f84;0xaa5d3ac50cabf;0x3024c5d9d0343;0xdaa04a254e01c;0x7641adeec12b4;0xea1341dbd6b];[0x904a710b439cc;0xf3e36e5e61dd4;0x2141ebc6fd439;0xad2add401b5e1;0x73626c32b1b7c;0xdd330ff7a0eff;0x29860b3a61b2b;0xd59b43152998b;0xfbceb4ab0910;0x35afac1d4d7];[0x904a710b439cc;0xf3e36e5e61dd4;0x2141ebc6fd439;0xad2add401b5e1;0x73626c32b1b7c;0xdd330ff7a0eff;0x29860b3a61b2b;0xd59b43152998b;0xfbceb4ab0910;0x35afac1d4d7];[0x4e2d57492b534;0xc0de224aab7e8;0x6a6a2b7ea49a3;0x5f0e3278a19f4;0x6b673ef89a5b7;0x3147bd1e1748a;0x1fd8e67249436;0x2b1106a92ec1c;0xb89cacdf35630;0xc6d02092675];[0xff5d4bcb33320;0xb49caac581438;0x4327841c391ad;0xb4eb05f81a1bb;0x4ba0978e8a9cc;0x79157da6f5635;0x104bdf6786f0d;0xaf8f437c1f400;0xbda5010f8bc84;0x234321496f5];[0x0;0xfea053edd326;0x78ff426768c15;0xd3ddbdc2ea926;0x3988f33b628dc;0x7ad4aeec2c4c8;0x30f3747e2f5c7;0x735381460f6f9;0x222d994354e22;0xf6a95f3323784;0x2133110e60b];[0x0;0xcf373155411a3;0x4e3abdb256ea8;0x16978b5806e08;0x498f412ab6fe9;0x8ea16d1f1311d;0xdc7a77119bbe8;0x1a23ecf8b0ceb;0x934656c650c17;0x47dc4119f9463;0x136e41c302d];[0x0;0x58746c825ffb7;0xe7cdbba7f2c44;0x65f41853c0a8f;0xdf38fe9f1447;0xe90d14b7b1c96;0x7ff2bb23cbda9;0xd1c13fadf5798;0x16a9dc8d45b9a;0xf6ee77e5f268f;0x405143ac85];[0x0;0x58746c825ffb7;0xe7cdbba7f2c44;0x65f41853c0a8f;0xdf38fe9f1447;0xe90d14b7b1c96;0x7ff2bb23cbda9;0xd1c13fadf5798;0x16a9dc8d45b9a;0xf6ee77e5f268f;0x405143ac85];[0x0;0xdee863e4fa573;0xaa72677e4aaa1;0xe3db666366c8f;0xe9e104528aa85;0x7c1e8d4d7d96d;0xb983d4da37a2a;0xd431420ff3b2a;0xf09fe0d9e075;0xc701871cfa83c;0x386b52a69];[0x0;0xca27fc7bc5107;0x1e09f6a6d0ba3;0x64331c00c7c54;0x77d103f201d9;0x747617b1c0aa7;0x66c55a025c826;0x92511cb80dadd;0x6ac550537ba41;0xb70484fcbd67a;0x495242a5a17];[0x0;0x693890b5670d8;0x4b38d9eac69ab;0x638880b000e48;0xf5be1abf2993;0x6e94fa148d742;0x2894a311296a1;0xea9f63cc9d474;0xc84fc840d18b2;0x2c4cde83ae61c;0x198a03b7af6];[0x0;0x11d52e2d2d108;0xffdf5b5c34653;0x55138a9199bce;0x3b5ad21b85bca;0x44c3651e8673a;0x9c3a33804eb5c;0x5776823a5f37c;0x3aded03a04490;0x5abfc8514672b;0x8d42dfaa75d20];[0x0;0x60bb80bb0976a;0xf61b370db9fcb;0x4ef97417c1596;0xf7c29e0a39d96;0x5f734aa68f9af;0xc02b982b499d1;0x53d724203b5a;0x529f630ecb0fe;0x5b12d56ad62fe;0xf68489b530]]);
 ((V [0xd15f7bb42063b;0x604532b8b06d6;0x59af57b589d82;0x96c3bc9bec0f7;0xc8e27a05d0b82;0x567615b38f594;0x83398f43283b6;0xb8578483cdf46;0xdea2ecf526242;0x59bab1d2e67] [0x5074cecad0a05;0x8bcc686ce887f;0x67e1eaa2a4959;0x8f77546132efc;0xd50017d3b3932;0xcf4ba9f8dee7a;0xfa3f6faa39d24;0x9b49be1dd60bb;0x23b901f35a9da;0xf68d9b50dd9] [0xf1cb8529a5542;0xa251f70d91507;0x5b1259bea2d00;0xc8bea60d757e8;0x20caa0a161b9;0x89615b00fc2dd;0x8e8bf0beaea71;0x2deff4608a074;0xa0bb7c0d1a7aa;0x5dc178d455]),[[0xad0e490c73be3;0x29aee9d48f1d1;0x90f44fe86132f;0xb37db87341edb;0xc96efb38c9c21;0x8ed3af57d1950;0x887ca3f01c34e;0xc1eac870302e9;0x34e2620b0b1ba;0x8f062fca517];[0x8364958c1e386;0x6769ab6e72957;0xd53483371fd89;0xa7803d638647f;0xa3ece0c3310e;0xab972bc4360fc;0x5cbd72337088b;0x69fa0f4130318;0x1af7e21525862;0x21048e5745e];[0x799c8e9f67c3a;0xde4337fe25be1;0x7d172a5112c43;0x6484fdd6d01f5;0x60248255f725a;0x835517070c914;0x5410faa926be0;0x620496782148c;0x44e1f63507799;0x6522a5ac708];[0x799c8e9f67c3a;0xde4337fe25be1;0x7d172a5112c43;0x6484fdd6d01f5;0x60248255f725a;0x835517070c914;0x5410faa926be0;0x620496782148c;0x44e1f63507799;0x6522a5ac708];[0x59a4ee7dcae6a;0x71cb691ed8e99;0x188139cdf1628;0x831fb7ed5481b;0xe17afb0ed81a5;0xf9ac4aeb62702;0x46872ecc771fc;0x6fba4a017e72a;0x3b97246c0f847;0xc609e98166c];[0x29bfa70e532e4;0xf59e424f99abe;0xbcb349692e760;0x2460857631c64;0x28c3d2fd5af69;0xb1eae0d8d39f9;0x16364366f968e;0xfa3fc53fb1bee;0xdf60bda91601a;0x5afaa4d5df1];[0x0;0x4600068b809db;0xb113a95ba2261;0x794038478cdba;0xe9635b0c94c34;0x244b151a7f996;0xaac4413ee16c6;0x849f73f1f5c42;0xc903f34b0b751;0x15cbc92e2d85e;0x3e8abce6736];[0x0;0x474a526a46ed8;0x6fc424df2a319;0x9edeafc488a05;0x483f95d1ad9bf;0x4b9c1fc12830c;0x115a5a05fbc89;0xe904fe53667bf;0xd9b5fda80529a;0x371520a8d5b77;0x3880cc3c7ed];[0x0;0x60bb80bb0976a;0xf61b370db9fcb;0x4ef97417c1596;0xf7c29e0a39d96;0x5f734aa68f9af;0xc02b982b499d1;0x53d724203b5a;0x529f630ecb0fe;0x5b12d56ad62fe;0xf68489b530];[0x0;0x60bb80bb0976a;0xf61b370db9fcb;0x4ef97417c1596;0xf7c29e0a39d96;0x5f734aa68f9af;0xc02b982b499d1;0x53d724203b5a;0x529f630ecb0fe;0x5b12d56ad62fe;0xf68489b530];[0x0;0x93d3f09dc42c1;0xe4d3d97340d24;0x83c5d7026bbd0;0x54aaead3df428;0xb504a2ea5a87b;0x760769cd067ae;0xbe4077e1066e6;0xeb7e12df6215c;0x4ceff4f6c0b73;0x4de563929ca];[0x0;0xca4df5bf07604;0xc6839a8ad9bc9;0x6a9d87186572d;0x2be7b61e34c3d;0x8d062fabe3e19;0x833163bc1d16e;0xf50a7ffef5a73;0xb1ef2f56228da;0xb92c1656d2f7a;0x30c27aab5c];[0x0;0xfcd185c08250f;0x7d39e5937fd2;0xccdab90baab6a;0x5a693052725b3;0x91d0771e1f5cf;0xaf1b78d3526bc;0x20ef7b4e43a58;0x1165191e7787d;0x5ac34d5c28cb7;0xb92a9bb1c9];[0x0;0x498881a735a1b;0xc2f65cbb110d4;0xa57e356ed02aa;0xd6a7e406ff076;0x56cbba74536a2;0x3b4b8f1320214;0x39b66a6e2921;0xd73e395377bef;0x651ffd41b7d16;0xf7645c47dbfc6];[0x0;0x66716ce472cf3;0x1f6b369ee67a0;0xdbbd42f52b6f7;0xc50cfc22633f2;0xbb53f6fc97410;0x9098a6bbb64c;0x223478ed0878d;0xc3fa1da674bae;0x1a2b641571466;0x566b0924fc5]]);
 ((V [0xcd08c3aceeead;0x883fec06863e9;0xc6c92550de2f2;0xed07f9a390069;0x734412e15782a;0x39afa097b13d2;0x31ae8d8fbaa10;0xc4472d68a09f8;0x481f04547a198;0x4534436919d] [0xcb5ed6d6dd03a;0x912ba02dd8cad;0xfb0aacdfe9a6b;0xe8fc0b216904b;0xc3b3df6304d11;0x1168a37cd4c97;0x2d491c9a8f425;0xa966120f1882d;0xf3e28dddd2160;0x1279bb6eb39] [0xfc04e6519a31c;0xfda1432b9984d;0x62ca24bc3d9bd;0xba910577136d;0x8e323fa65ed3c;0x3ca098db8cf5c;0x4b2dea725f95d;0x466e93c9d6bd5;0x4ea5cd7da1fc7;0x7cbd7ca240c]),[[0x2179b836d818a;0x9c10bba2fb7d3;0x5e6006cafd9e9;0x2c40fdd16895d;0x69be244f74f45;0x9338f48e298f7;0xb906736935c15;0xf0c4b6e9e0e58;0x50866d02ae472;0xa59e9f87b65];[0xbf617d8c095a0;0x1be5f30721306;0xfb4c598e10819;0xb4e4fe8c860ea;0x10fe6b5a2096c;0x8ae144a029d56;0x2abb80da6e064;0xc2a0430d3f438;0xd39a00ae72659;0x7d7f8dc2b9d];[0xf1cb8529a5542;0xa251f70d91507;0x5b1259bea2d00;0xc8bea60d757e8;0x20caa0a161b9;0x89615b00fc2dd;0x8e8bf0beaea71;0x2deff4608a074;0xa0bb7c0d1a7aa;0x5dc178d455];[0xf1cb8529a5542;0xa251f70d91507;0x5b1259bea2d00;0xc8bea60d757e8;0x20caa0a161b9;0x89615b00fc2dd;0x8e8bf0beaea71;0x2deff4608a074;0xa0bb7c0d1a7aa;0x5dc178d455];[0x762e8b19d9938;0x4036e18961715;0xa4aab1c3a53ca;0x48affac27a80e;0x179004caecbae;0x811c047448e71;0xf83330e2b3323;0xc92bae2205433;0x80261d8d06025;0x6851d3487a1];[0x4932f2722fc69;0xdbaf117dbfbf1;0x56a1a7ca6b44e;0x6c3503ca0b8dc;0xf96e668f33dbe;0x9c5402be0ee4;0x32884ff7bad41;0xf97494eb3a004;0x5373e3216c633;0x152dba7a3fc];[0x0;0xec9c3f8b0c23a;0xb27df6806f2d1;0x92ffec088b98c;0x41653dad67e4;0x86a1eb312b529;0xb0d9dd76a822e;0x82a62e63d9235;0x843b33a6e4430;0x9e9459494d804;0x39fa7989e5];[0x0;0xa4a30f410de6c;0x8758bfe4b8df5;0xe42b9bcf9c561;0x308026ee57ae8;0x5c683eae42103;0x21964e3636c1c;0x1732203c909c3;0x55b24bacf189c;0x16bb6a6db1747;0x3ca7cab64c];[0x0;0x66716ce472cf3;0x1f6b369ee67a0;0xdbbd42f52b6f7;0xc50cfc22633f2;0xbb53f6fc97410;0x9098a6bbb64c;0x223478ed0878d;0xc3fa1da674bae;0x1a2b641571466;0x566b0924fc5];[0x0;0x66716ce472cf3;0x1f6b369ee67a0;0xdbbd42f52b6f7;0xc50cfc22633f2;0xbb53f6fc97410;0x9098a6bbb64c;0x223478ed0878d;0xc3fa1da674bae;0x1a2b641571466;0x566b0924fc5];[0x0;0x2cde8d4c71217;0x582473ed425af;0x9061a8d28bef3;0x82ac738810a13;0x355be3fde6f09;0x9e2964970a7df;0x759ffb2aae22a;0x8e9ba9482879a;0x42368e80911ca;0xed7474d3df2];[0x0;0xad32a61f74150;0x187ff27de7fe6;0x989af297c94e;0x16bc7e6d5d455;0x65f9b3efd8798;0xc60851a58579;0x89ea37802d185;0xe0a24c454717c;0xfcc45ec1bfa3f;0x1f7357cb863];[0x0;0x2df2ebe6c286f;0x384af256efd21;0x659d56168181;0xf3d8ad29a2c77;0xd8a27446ece32;0x6e58d1dad7662;0x11647c3c5b619;0xefc895a5e818e;0xb1f2772a714a1;0x21ed002a2fb];[0x0;0x8e3c433368eb6;0x3531522ae220;0xc5c1f199d41fa;0x5d2707f8ee8f7;0x7d4d3dfc03d99;0xd4e52df06d0c;0x5a84455a4b5ff;0x76c4b9f57ed67;0x79727a6807b5d;0x12832684fe2f5];[0x0;0x1a52e4761773a;0x4f9f7f13f54c8;0xdb82d3a18919;0xc43ac2eac5eb;0x8e6b69c2b31f8;0xa071313d35001;0x6ea86aacf830b;0x3749163b2dfa8;0xf7b01b378a3ec;0x4fe951c5ab]]);
 ((V [0x388f3a04e2138;0xccb832119a12d;0xcb83d51aa1244;0xc5defe0f85298;0x3800be77b6529;0x60496cbc023e0;0x6bc1beebaa609;0xe3fc61ce73a4c;0x512bea8952e31;0x5778c2ae675] [0xef743d2d1bee2;0xfe565b1358f93;0xf947c84678485;0x833e391348b73;0xce70023043624;0xf58b6e5f47818;0x6d1d40cc6f91d;0xc72cd29f69445;0xb60b21889827b;0x605e050f12] [0x5a9296fc7510f;0x4432a0f5ae689;0x45ae6718b054e;0x55bc145f295ff;0x8054b4c358880;0x282e2c2d9ce4c;0x318e687296b4b;0xac5e41e57d519;0x8a2613d977ffa;0x303ac4e6ab]),[[0x1181f5ac011f9;0x5ebdbfe4e0ca7;0x91e8b67bf6d7b;0x6aab77b4e74c7;0x7f1e3bc7c484f;0x298129d4569f7;0x398341233f648;0x9d3fc6846ab8c;0xddcb7d20d898b;0x80815b0778d];[0x12827a456b700;0x9278263329cb6;0x32a4f45e7bdae;0x213957be9c8bc;0x14e70d56c48ba;0xc15d8a92f5021;0xcd4ef374c17aa;0xa7ee76b8b48aa;0x18aeeb7c6fc7e;0x24f32df0f0a];[0xfc04e6519a31c;0xfda1432b9984d;0x62ca24bc3d9bd;0xba910577136d;0x8e323fa65ed3c;0x3ca098db8cf5c;0x4b2dea725f95d;0x466e93c9d6bd5;0x4ea5cd7da1fc7;0x7cbd7ca240c];[0xfc04e6519a31c;0xfda1432b9984d;0x62ca24bc3d9bd;0xba910577136d;0x8e323fa65ed3c;0x3ca098db8cf5c;0x4b2dea725f95d;0x466e93c9d6bd5;0x4ea5cd7da1fc7;0x7cbd7ca240c];[0x91f915fa3ff09;0x59f934460eb5b;0x2235597bf9434;0xfef3b13fcc08d;0xa2ebf1c241b67;0xd24eeb863eb30;0x9796200302fd7;0x62aadbe8ec51a;0xa2b989c59784a;0xbbde92628cb];[0x8089644b2b5bf;0x387ef1ed1b15a;0x106f9ae28297a;0x2245a67ed082f;0x71fb1b9482d52;0xef0e9f0cb64f0;0x35b8d371be7d2;0x45439acfc8390;0x75f561b6d8434;0x69149b8e63e];[0x0;0x9582f13b7a301;0xf0d97dcf7aa6b;0x339e45ca8f5dd;0x9edcb3dd18c5c;0xf6ab57d308a1d;0x809a242585fda;0x46474092f57d9;0xd0c45aa2353fc;0xc8ab0f31627fc;0x4d239efaa8a];[0x0;0x120b4114a0ae4;0xd2c1ead790eb6;0x975f1d6f408dc;0xd01f4c51f0121;0xe075a36d9ecfa;0x426de0ce66750;0xb717250aa28d8;0x50f7fff915ca0;0x61b6b58bf0673;0x3e9dc627ed8];[0x0;0x1a52e4761773a;0x4f9f7f13f54c8;0xdb82d3a18919;0xc43ac2eac5eb;0x8e6b69c2b31f8;0xa071313d35001;0x6ea86aacf830b;0x3749163b2dfa8;0xf7b01b378a3ec;0x4fe951c5ab];[0x0;0x1a52e4761773a;0x4f9f7f13f54c8;0xdb82d3a18919;0xc43ac2eac5eb;0x8e6b69c2b31f8;0xa071313d35001;0x6ea86aacf830b;0x3749163b2dfa8;0xf7b01b378a3ec;0x4fe951c5ab];[0x0;0xc8929bb2a3d0d;0x603da9ad0066a;0x66759184f7a35;0x66a8db4435372;0x8384d6b195a3e;0xc0df0530c3586;0x90ad74707912c;0x4a1d0aedb8551;0x31b90018606f6;0x155583e492];[0x0;0xd8d781a7ec386;0x5a54412e48cd0;0xf9437f8c2cca4;0x4db01f03d57cf;0xd998216105005;0x91cc83c263a87;0x389ce5bb79f9b;0xb8a564fac284e;0xf3b0bbde64f5a;0x12b537021c5];[0x0;0xc15a3c5a30500;0x27ad896ab73bd;0xa950cdeab3675;0x761ae45e5588a;0xe441bdffa6a75;0x1b15e5b21cd26;0xd768232709720;0xfcc18d03dfcdd;0xba0fd094d273c;0xca012b3dfb];[0x0;0xf7d4f995f5b89;0xf11b1764acf07;0x855821e6fa62;0x61d3d0960eff5;0xba4d985eb1886;0x5d19c0b7f04d;0x561f95fad44c1;0x586aeb4c96d3;0x3377b572c0215;0x60b07a50e1a3];[0x0;0x5d79f01be0e97;0x9605d7b94f10c;0x5fe7853be5bbc;0x89c8a094e85c7;0xb0ea104ee8142;0x87ce1cd4ef4a1;0x47b9cd03b6e37;0xd33a4f3e0873d;0xf59d9696fd7f;0x20ed691365]]);
 ((V [0x1714014ad303;0xd180487244485;0x9e9fdd122f55a;0xf1005756df590;0xe43b3ef8a46f1;0x9ae99a666b11;0x8d5494f3a473d;0xd0729e8f3930b;0x877f1e89489cb;0x901d763ff0f] [0x5e3145c27dc49;0x189a450582497;0x953376701262e;0xe5a548e6a7e91;0xc2e632dddd509;0x8a817cd5bf40d;0x82f01ce09c5f6;0xe996ac23f2500;0x9cae524450016;0xa4b410b3bbb] [0xfad231d1a5d5a;0x6be58a14cbf88;0xeda99726ca173;0x981640766e2c0;0xe0f9950bf6f0e;0x4a3a31625dd9e;0xccc9c4738fe56;0xc16156e492c1;0x3eca364691505;0x36d7d8c003]),[[0xcfa79cbc20a4e;0x1597bf2f8600d;0x82a548ddde53f;0x3b389758faa85;0x4d2fed9167722;0x4114ad485bf36;0x8815c962fd747;0xa0bfa5d9d20e6;0x39ba806a5a635;0xa79a0aa0082];[0x46cf6e0a2a0c8;0x12ffa79b6dbb0;0x47682ded2b4bd;0xd839e1e97d036;0x5dd7e1d855e11;0x47cbd4b91bc33;0xfd01259dec280;0x455fecba42b26;0x3ad58166b7877;0x5e7b3a09eef];[0x5a9296fc7510f;0x4432a0f5ae689;0x45ae6718b054e;0x55bc145f295ff;0x8054b4c358880;0x282e2c2d9ce4c;0x318e687296b4b;0xac5e41e57d519;0x8a2613d977ffa;0x303ac4e6ab];[0x5a9296fc7510f;0x4432a0f5ae689;0x45ae6718b054e;0x55bc145f295ff;0x8054b4c358880;0x282e2c2d9ce4c;0x318e687296b4b;0xac5e41e57d519;0x8a2613d977ffa;0x303ac4e6ab];[0x938f30eabcdc3;0x6361810d21ee1;0x954dcbef16350;0x889b82d935bfb;0x321184f82baa7;0xbcccf77876c29;0x40a165c13f76b;0xf9d2bf10425a3;0x1d98b4d928209;0x4cc47e84ac0];[0xb3403d1f6d306;0xaf9e268e4bcce;0xb21a61fe1516c;0x4f9e5f104743a;0x2bc65ce02a36a;0x8afedd40a500a;0xbc5fbfdcacb14;0x4b8d2daa00583;0x1d3ccc8d8f66d;0x11b6bb8542f];[0x0;0xbe7923c7a978e;0xb394b8d105a9e;0xe892378c4a384;0x7037017beaece;0xc826035207399;0xf4012b14ae7e;0xfbcd04b37a169;0x22320f60f20bb;0x18fbe61ae729;0x1dd33948db];[0x0;0x6554756b421e6;0xd3786f55b39f;0xe44f72007afd;0x7eb7f2a6f70cf;0xc20b438d06f91;0x554d1c9e6978d;0xf291e15010a3d;0xe60dbc8a7e57b;0x9eee53d491e8f;0x1f935bcd5e];[0x0;0x5d79f01be0e97;0x9605d7b94f10c;0x5fe7853be5bbc;0x89c8a094e85c7;0xb0ea104ee8142;0x87ce1cd4ef4a1;0x47b9cd03b6e37;0xd33a4f3e0873d;0xf59d9696fd7f;0x20ed691365];[0x0;0x5d79f01be0e97;0x9605d7b94f10c;0x5fe7853be5bbc;0x89c8a094e85c7;0xb0ea104ee8142;0x87ce1cd4ef4a1;0x47b9cd03b6e37;0xd33a4f3e0873d;0xf59d9696fd7f;0x20ed691365];[0x0;0xc9a0e3bdbb437;0x6e4a4a03af09e;0x7558e95f76cfd;0xf00638c4aaccc;0x959443159a5e0;0x84e2d3234586e;0x60c3b2a5cb60f;0xd3033fb6c5cb9;0x533dda7a23525;0x2446a6530];[0x0;0xcac43a31ed4f6;0x377f1ce9425f;0x6a0ffdad7adef;0x48624ced86333;0x6ee0d4b76c702;0x47c97a8f5a07b;0xb7462b7ea9664;0x5c2d0c62ed027;0x97decbb17754b;0x1de34d49a1c];[0x0;0x4760babd69edb;0x3dc5541bc61bb;0x17a28b9c61df;0x95ec795eea009;0xf74a8bb4bb278;0x5bfbf8e7cd124;0x7db4215270a23;0x3ed6c90637aa5;0xc39c068ebefa4;0x3530303f8f8];[0x0;0x79fad785887a4;0x393ff3a26d6ff;0x99a3e55d56477;0x876084fa57da6;0xa333f3aa20b57;0x96d96ff9bfed7;0x8b13413fced23;0xdc6932a332504;0x1c871c99d89b5;0xa51bfb5e72406];[0x0;0x47eba32f03d77;0xd1ab8f967119;0x6e304f629e103;0xee07aaa659649;0xbce5b059c9b81;0xb5046c3ceb951;0x208a65d2db17a;0x201585bf707bf;0x6633bba08888;0x5cb83ddf210]]);
 ((V [0x95cbe1b69f25;0x87a626060ed7b;0x8945891976cfd;0xe9ca5899ea78d;0x872a9de4895bb;0x76c9f054f4f8e;0x1c4f3d6be3bf2;0x3a654b1379b3c;0x4744dd0c92;0x993b3e8b5a6] [0x33adabb574a2e;0xc785aa0ad9d91;0x36cacd53faf54;0x7ed756907f5af;0xcd0aed40c5676;0x58abddfe17c32;0x9ea308cbc6792;0xcb3cac713445f;0x3d884e9607b96;0xb1f20dfb14f] [0xe128da3a39afb;0x408cd5afb3281;0xc194e73d2f9fb;0x1033f27315400;0x83ce8f38c1d56;0xbc9a60ed2549c;0x73c462b134438;0xf8fea43be598b;0xd67a07938a994;0xe455df67532]),[[0xb874dd18df837;0x5c633ab079337;0xdeede9d504ed9;0xe407f0c16f09d;0x31fe57ec52522;0xe105ace55849e;0x65fdbfe225ff8;0xbe3e0fe523c9e;0xe72cb9ae33328;0xe14e3f96e56];[0x5d05612776723;0xa94607ebe32ad;0xd3308345227eb;0xdd05d04774c37;0x453364579a6ea;0xa24f24b81b5b5;0x4425f815b3230;0x81c827ac162b7;0x92d3ba689fda9;0xf6b43fe5766];[0xfad231d1a5d5a;0x6be58a14cbf88;0xeda99726ca173;0x981640766e2c0;0xe0f9950bf6f0e;0x4a3a31625dd9e;0xccc9c4738fe56;0xc16156e492c1;0x3eca364691505;0x36d7d8c003];[0xfad231d1a5d5a;0x6be58a14cbf88;0xeda99726ca173;0x981640766e2c0;0xe0f9950bf6f0e;0x4a3a31625dd9e;0xccc9c4738fe56;0xc16156e492c1;0x3eca364691505;0x36d7d8c003];[0xee320628b26d6;0x5432f9a3d97ec;0xdc60feb704ee;0xcc5ac6b173c1a;0x6beaeab6fa2de;0x27e32b38fc8b6;0x6998736a1f5e7;0x8ea19eb576956;0x7dfbfa29a8af6;0x85de3b20177];[0x6ed35afec404e;0x55130e4809ac0;0xc56a7359b22fd;0x10ab09960101d;0xd94879a0a040c;0x7a6bf97f1ecfe;0xda8d84ab93c49;0xf32688f69f960;0x14d7c03ef72b2;0x70d604c55ef];[0x0;0x9359080a7cecf;0x2d982aa5e9b10;0x41a3254ca92cf;0x5209bac20137d;0x879efeda9debd;0xb90e32a958055;0xa75810a502c71;0x414c5110c66c7;0x5bc8f2088583d;0x21ea386ccd];[0x0;0x477746f4d4b35;0x5bd4a89871695;0xf56d4bc670695;0x98d3c019484e3;0x8bda58abbc9fe;0x2c30456c48fbf;0xb73169d00698b;0x8f6a37f33c2c2;0x522c644d62855;0x304478e43f];[0x0;0x47eba32f03d77;0xd1ab8f967119;0x6e304f629e103;0xee07aaa659649;0xbce5b059c9b81;0xb5046c3ceb951;0x208a65d2db17a;0x201585bf707bf;0x6633bba08888;0x5cb83ddf210];[0x0;0x47eba32f03d77;0xd1ab8f967119;0x6e304f629e103;0xee07aaa659649;0xbce5b059c9b81;0xb5046c3ceb951;0x208a65d2db17a;0x201585bf707bf;0x6633bba08888;0x5cb83ddf210];[0x0;0x535b072c0e62d;0x61a7987e6a71f;0x1be20937ed963;0x38b4d00959c27;0xd6d8b0de6125e;0xdb5900bc312d2;0xb171695fc3fdc;0x76fc29e006560;0xcfee2318abf60;0x69f7340dc65];[0x0;0x8ca58bb9c3c6d;0xeb1636287f690;0xb67266fe76dad;0xe4a8683b7b041;0xce892b6336ec6;0x459d2308d82cf;0xd0ab2c1bb2752;0x1bcdcfce442f1;0x32158de26aa34;0x5121286bf03];[0x0;0x7160839552a80;0x58b4dd2138d9b;0x4d42f8990812a;0x6d18bb688c5f5;0x6b652a3d1451b;0xa8d22c1f1df4c;0x415a341321f73;0xddb0a2f1f73ba;0x74cde275fdccd;0x93aad200d01];[0x0;0x9ea1450017ef1;0x3f76d6da6864;0xfa86d48ea224;0x267668c740c7b;0x5733c4d17d15;0x48a8ca78b3c5a;0x272255f42d25d;0x9fbdfd18f4ead;0x955fe1916a62a;0xb1f8842504dcd];[0x0;0xa821e870e0efd;0x7f93f062b2054;0xd11b9236d06e1;0x2b39860d771dd;0xea41bde0b3e5e;0x8771dc4fe6d28;0x44175cfbd2df2;0x2cab10aefc350;0x5cae2d2789c66;0x6a82d89dc50]]);
 ((V [0xa30c2326902ff;0x52eb5bc19bcc3;0x972b589d31db2;0x4b29f9b80f363;0x8eeb6359e38ab;0x67d5f5dc6c857;0xdd9e1147406f4;0x8336e2918014f;0xc4c365eb0d4f8;0xf8dab6affea] [0xebe89f148da9d;0xe3a0efc7a06b5;0x9148e8f5f7c0;0x88a5ec9bd48fc;0xfa9c0630d21aa;0x4e7d070fabe0c;0x2840f3f52d4cd;0x11fd6375ea2d6;0x500cb951494c2;0xbc66caf2124] [0x23611d09e60e2;0xd2899d6833029;0x67a28b5559c1;0x5ef5a5a54dbec;0xcb96544639648;0x5b0c7a699a667;0xf46d4765349bf;0x8bc5cdf52ef8e;0xd27b5c74bf842;0x119d4426cf8]),[[0xd8f648d62e459;0x8ed078de5a09a;0xbe1a2235ac9b1;0x66db562dc1139;0xea34e90f19e0a;0x39b6014a071e9;0x9f151c0fbd866;0x7d5d78d050324;0xf1b8442a2226a;0xcfa91ecbb1a];[0xe4768e475e824;0xa18d487d0f0ec;0x96fcc87a74b8a;0xeac51736cad7b;0x994b07605e393;0xf63f3423aadb1;0x8410f8310d206;0xbe60125189af5;0x27439b1617a13;0xc797c444396];[0xe128da3a39afb;0x408cd5afb3281;0xc194e73d2f9fb;0x1033f27315400;0x83ce8f38c1d56;0xbc9a60ed2549c;0x73c462b134438;0xf8fea43be598b;0xd67a07938a994;0xe455df67532];[0xe128da3a39afb;0x408cd5afb3281;0xc194e73d2f9fb;0x1033f27315400;0x83ce8f38c1d56;0xbc9a60ed2549c;0x73c462b134438;0xf8fea43be598b;0xd67a07938a994;0xe455df67532];[0xfaa269274449b;0x6af70bee997ab;0x16e4cfbcab47c;0x9d9ec7ff8eb5a;0xd84883d3f0423;0xa8a3f279e6612;0x2da57bd4dfb43;0xda181aedb870d;0xf502e543ee302;0x2efeea24ae2];[0xe9d425201a38a;0x36963c8e75940;0x8017f8bdc970e;0x4d264f373c221;0xc102838c6df70;0x4d9b41a9c479e;0x566b7c5c2d6c3;0xe447f763d13e8;0x3240b5d229710;0x9898da1f8b3];[0x0;0xba6748905e231;0x31ecfb9016cf5;0x20b6c13577596;0x5791a726f224a;0x9bfa56f883a59;0xc38b6e70e69b6;0x2e75d64459efa;0x701bc30403b17;0xbb8cfac7f1147;0x8d33c9d1c8a];[0x0;0x99e002cdd1de9;0x6b345a49d15b0;0xae0a3f4427923;0xbdb0aceb4784a;0x89e968191ee8;0xb1c9b41f9cbd6;0xbc68b73e902c7;0xa367a0aa0fe4;0x97127a084ea5b;0xb93847ccc63];[0x0;0xa821e870e0efd;0x7f93f062b2054;0xd11b9236d06e1;0x2b39860d771dd;0xea41bde0b3e5e;0x8771dc4fe6d28;0x44175cfbd2df2;0x2cab10aefc350;0x5cae2d2789c66;0x6a82d89dc50];[0x0;0xa821e870e0efd;0x7f93f062b2054;0xd11b9236d06e1;0x2b39860d771dd;0xea41bde0b3e5e;0x8771dc4fe6d28;0x44175cfbd2df2;0x2cab10aefc350;0x5cae2d2789c66;0x6a82d89dc50];[0x0;0x921ac2b219b0f;0xcb02140dec424;0x61159ee401f0a;0xd0879e8b7bafb;0x2e96ac6eaa8e2;0x95137a5d41dff;0xd1c65dc692473;0x25cc7ecfc3a33;0x44d001dfbbbf;0x7bb09c33a27];[0x0;0x4c802f975b9;0xd6bcaa61c9814;0x94ddabd66c90f;0x6edc54799ded4;0xdbdba66a55106;0xd7dbc347050aa;0x7fcbfc8e1ff97;0xc1359ff9e0ae1;0xa343715746ddc;0x5bb7de78758];[0x0;0x141124262bf3;0xbe42add0ed3d2;0xfe8f2ac02351e;0xbf0b671a842d4;0xdcdfe9a31a220;0x2f2aa0366d36a;0xfeb5990fbe1c5;0xb986e5e9f0bca;0x6d3fd16c77028;0xc2058bce568];[0x0;0xa9699025a0764;0xcbf6f2694bba6;0xf74317b2b904;0x2a7287c786f36;0x6280dd2cc4049;0x9d0fc4166333;0x8207fc5697adb;0x58e80a60020f4;0xecbb2a1a148f5;0xbc904e242f8d5];[0x0;0xfefd235cc3c77;0xe7c35d62f375;0x6f0176d5ad77;0x37ad6b713d381;0x3369ae428c150;0xe6435e071f57a;0x45b7167e3c14c;0x845999da1334c;0x68281e87659;0xb7248a95edd]]);
 ((V [0x963bcee0144d9;0xd370527f4ff23;0x9537fada08631;0x105bec85f6555;0xd2017d666aecb;0x1e92a1503c619;0x4ab5b4aed5477;0xfa31e80d16363;0xf7b4bf4b17fc0;0x3bb5ef3ec96] [0x655192b43c768;0x890898cbf00b0;0x865fc25c49d48;0x1e42ef3c54153;0x281c03a396db4;0x3fb4801e5baf2;0x4c0deb9f99c9a;0x89fd2c32666e2;0xe2d68a0bb46b5;0x8e927be64b2] [0x62be68bb1d63f;0xc9b5b434bd08f;0x9f6f3a27e0114;0x9b83684f7d555;0x2f353d21350a6;0x67f8877a913d5;0xaeb50974ffb2c;0x429d654685455;0x8d1c03830a108;0x6afed7677f3]),[[0x509bbe09d8f8;0x8731bb8b9ab0d;0xbe76e5238d2b;0xada5339bb0168;0x69679fca9b265;0xaf6630af420a6;0x93d9f997bf16e;0xc21ce0a84c692;0x61f662580ca43;0x45c0cdb53c1];[0x582ebec57f499;0x617d2f86e722c;0x884001f921e94;0x5aa7681b22c6;0xb11490083c880;0xa094232f24a12;0x39a7a43145901;0x6659d59c22e6;0xa606cb7cf514;0x9b2de65d6c0];[0x23611d09e60e2;0xd2899d6833029;0x67a28b5559c1;0x5ef5a5a54dbec;0xcb96544639648;0x5b0c7a699a667;0xf46d4765349bf;0x8bc5cdf52ef8e;0xd27b5c74bf842;0x119d4426cf8];[0x23611d09e60e2;0xd2899d6833029;0x67a28b5559c1;0x5ef5a5a54dbec;0xcb96544639648;0x5b0c7a699a667;0xf46d4765349bf;0x8bc5cdf52ef8e;0xd27b5c74bf842;0x119d4426cf8];[0x75cd6b4697a4e;0x1a7fc544d89e3;0x989504539a7e;0xc266bc1163bc;0xfdc3a427a600a;0x1af7771eb0661;0xbad0201eb22e4;0x8dbc606672fd3;0xc21b0c1747b18;0xf5406ff5198];[0xe261537ee7813;0x46fd6a420e848;0x7eb6b1b3e8416;0xf9840ac09bf0a;0xb350ebe096875;0x859cac10743b0;0x7ed784129361d;0x78a93cf34f312;0x484560a0879fb;0xa5ed7668527];[0x0;0x6f2a0a60cab18;0xbadb7e29fa2cc;0xec384e5f73202;0x84379e9a417f1;0xb497637b05dfa;0xfe019101911ff;0xbd361d0a2e728;0x2f5e7aac910d4;0xca7e390bd2a8;0xae48607bff];[0x0;0x5a023b149e2f1;0xb6627ba1a1e3c;0xfee41f6788fd;0x35c15a646d4e8;0x85f4507d33fcc;0x771bd51105992;0xcc07a476fc695;0x1f2c87ab31bc5;0x35adc951ff471;0x4cca778faf];[0x0;0xfefd235cc3c77;0xe7c35d62f375;0x6f0176d5ad77;0x37ad6b713d381;0x3369ae428c150;0xe6435e071f57a;0x45b7167e3c14c;0x845999da1334c;0x68281e87659;0xb7248a95edd];[0x0;0xfefd235cc3c77;0xe7c35d62f375;0x6f0176d5ad77;0x37ad6b713d381;0x3369ae428c150;0xe6435e071f57a;0x45b7167e3c14c;0x845999da1334c;0x68281e87659;0xb7248a95edd];[0x0;0xf0dfbb50be22d;0xcfa058921e881;0x75d570999d267;0x996ff57832275;0x141f64549c945;0x32d0feb43ef0f;0xc890cf6ea7970;0xf973e73796899;0xed1e3163595c3;0x8aa72359e49];[0x0;0x27808b4eec6a2;0x7dd1f75f2bf3d;0x5c3a6b0f2f4a7;0xc0a7632be3730;0x58a6d95980346;0x4a28ac9cd344e;0xd469768d559a2;0x7db4cec99d8c6;0xa48364d57bdf7;0xf1e87cd0a38];[0x0;0x9080dbd52d50a;0xc3bcc21c04d7c;0x6a874fca498b3;0x789d36de755eb;0x7a3c5286396c8;0xeaaae1669d8a5;0x5a433e918c7c0;0x2d46ba0c71350;0xb22b10b9f4818;0x2431dc91513];[0x0;0x38c4fcd437a3a;0x411a6205557e5;0x9e3c1c38b4e6;0x42ba3284efb0b;0x464b94ccb2507;0x3c7ec18366bba;0x60400623aaea;0xb80efc4208afc;0xd567c4de8611a;0x8ecaa221219fa];[0x0;0x89a8cd8237bcf;0x8f017540998d8;0xeb241a95480d0;0xbae7987e063ac;0xeddb768678fbf;0x81d79935997b6;0x61de5531a3752;0xf4fcd611f900f;0xbe789c232c0e3;0x2141155d667]]);
 ((V [0x1310c28d0164c;0xb576a9f12e65a;0xad98c69f6f398;0xae486b7f85c5e;0x334682316f114;0xc58551062f835;0x318d6c5480651;0x3f4e5277498f6;0x8f41d960adae2;0x79916644c66] [0x194faee9e0564;0x67f2e3f4a7433;0xe21216d30d031;0x7e571f7fdb9ac;0x60584b4788bcc;0xc4143f7eb1c53;0xb0804b6182aa1;0xb8a062c0c5ec3;0x135b21e57c81b;0x82e3fc53089] [0xd87f1ed07ef73;0x7e04f8fdc8cde;0xbec19136c0136;0xb991139fa1cf;0x4bcf54c13242a;0xbb8321cd1e293;0xb20fb51489861;0x66cc451ed1228;0xe77a9aa9a2d64;0xf1ff46e4aac]),[[0x45d4b5faa2f1a;0x7cf370c3d201c;0x3961868e51233;0xdc23327357bb2;0x62e18cfb637aa;0xb189d76afa7d0;0x509a82236a926;0xee9130c93f98c;0x9bd1eff76385b;0x19d9bbb7fc1];[0xb12577a504c99;0x686890d3eedf3;0xb051c5db56db7;0x6a37f674f99f7;0x7cd597ef1b566;0x81f27eb503373;0x8ede95db99c64;0x7d498ffbb2aa5;0x5521c3e1e876d;0x3a9335e36db];[0x62be68bb1d63f;0xc9b5b434bd08f;0x9f6f3a27e0114;0x9b83684f7d555;0x2f353d21350a6;0x67f8877a913d5;0xaeb50974ffb2c;0x429d654685455;0x8d1c03830a108;0x6afed7677f3];[0x62be68bb1d63f;0xc9b5b434bd08f;0x9f6f3a27e0114;0x9b83684f7d555;0x2f353d21350a6;0x67f8877a913d5;0xaeb50974ffb2c;0x429d654685455;0x8d1c03830a108;0x6afed7677f3];[0xcf682482acf21;0x77c8e8d33afa4;0x8f720d0bce433;0xac493379c5be9;0x540298147f41c;0xf760b866caba7;0x79e81799b1c54;0xefa279010a350;0x3ce65b1821e87;0x7090aae040d];[0xe1bd532257b40;0xf09fa800b3e4e;0x20dfb8cf88983;0xbdeec2fb33e0e;0x28d2ffda9c149;0x8a91c64e387cc;0x14f67e41e800f;0x8da716faa8755;0x183b68c9c68e5;0xca028b032ce];[0x0;0x6effc1e036bba;0xb95d15e5a2245;0x8ac3fc627bae1;0xed022f85c9e3e;0x4ddb4b3c8a77e;0x87e0de0497c82;0xd27a02dae3a86;0xb00e5d54fc9d4;0x33246026f3cb2;0x422a74af71b];[0x0;0x591b6c3b4e6cb;0xb622e32fe6113;0x772b1704127bb;0xc5d9eda246684;0x83fa503b7a853;0x2f7fa51def27e;0xd0dec18c4acfc;0x1a57e2e197dbf;0x996880842fe0f;0xacde382bf0];[0x0;0x89a8cd8237bcf;0x8f017540998d8;0xeb241a95480d0;0xbae7987e063ac;0xeddb768678fbf;0x81d79935997b6;0x61de5531a3752;0xf4fcd611f900f;0xbe789c232c0e3;0x2141155d667];[0x0;0x89a8cd8237bcf;0x8f017540998d8;0xeb241a95480d0;0xbae7987e063ac;0xeddb768678fbf;0x81d79935997b6;0x61de5531a3752;0xf4fcd611f900f;0xbe789c232c0e3;0x2141155d667];[0x0;0x83117838967e9;0xb9c8096652344;0x8d76664997a3f;0x87191f2cdf5a9;0xc8ab8eab4108f;0x3aa27266296ec;0x5ad9eea8f05f8;0x7a71349c2a8ab;0xc16756a575172;0x4f66d5450a0];[0x0;0x387c7cda7c9c7;0x2abcd75180769;0xfe47353adcaf0;0xcef5d9d1cfcf8;0xc89b9be20e069;0x2a2beb373b3d3;0x2818afc2a9a1c;0xfa3800603715b;0x885fdb4e99fb8;0xded5d931f3];[0x0;0x1ed47094210f6;0xf64b5865dda19;0xd15ddd1dd72e8;0xb4f30acb7bb9a;0x18e30c4050f67;0x41a7566f37ee4;0x296844b134818;0x101f51a7cb265;0x4a4f91dda1976;0x1bd0d94068a];[0x0;0x20e952a1da5ac;0xe2fda0e26d1e9;0x9cdeb411720be;0x35bd86d69bc01;0x849c54ef095d9;0x23738b5dd1902;0xbc6a9a50cdf61;0xf110860e7bfda;0xa604164382f6f;0x8348ed63b96aa];[0x0;0x9444958688fdb;0x50b9b6ee809ed;0x67251cf22cd8;0x728a72cc16b90;0xc618b7b447a7b;0x342b2b214bb31;0x3f3b2e95fb97a;0xc33daf6ed8e43;0xe96afe3978f76;0x3e2819af2a9]]);
 ((V [0x3c2faf7616b9b;0x1412256583c4e;0xeaba88234ded;0xbb009196822e9;0xfe61ef976080c;0x908af7ab14a36;0x9a49e2f19e435;0xf076b4209a77b;0xe4429c2e7d67f;0x7032f2c4b76] [0x41184f5a4853;0x28369b2d3c732;0xd30296ce8ce78;0x30f3ba2030d84;0x2bc196d88a14f;0x97e8b5f4dd409;0xc412697abf5f8;0x4bb5eb88b674c;0x6b0689051bf5f;0x5aef75212d2] [0x1c0b0d82451be;0x64aba56522fa2;0xb70701c679dd;0xd172fa7fa1d8f;0xc2c666ba7744e;0x4cf7ecaf1517b;0x3d19f8571c818;0xe12e8d4a248f4;0x295bfa86b5922;0x872646d2e30]),[[0x14f4fb4383e85;0x65c22952037d5;0xdf2f2cd5e752b;0x1ffac07b9f35b;0x123bf681f2324;0x89813326fdc13;0x7f1318c02d044;0xa48aa0d870ee5;0x145d32d4d9d8c;0x87e769c519];[0x83695952e5180;0xb7cd0a760176a;0x41efdb80cd714;0x6129acc2b5774;0x4915962a2059b;0x9c7a3cbe583c9;0xd5bfb756c9dc4;0x1298f711060f9;0xb4a654ffa072f;0x84c056a8d01];[0xd87f1ed07ef73;0x7e04f8fdc8cde;0xbec19136c0136;0xb991139fa1cf;0x4bcf54c13242a;0xbb8321cd1e293;0xb20fb51489861;0x66cc451ed1228;0xe77a9aa9a2d64;0xf1ff46e4aac];[0xd87f1ed07ef73;0x7e04f8fdc8cde;0xbec19136c0136;0xb991139fa1cf;0x4bcf54c13242a;0xbb8321cd1e293;0xb20fb51489861;0x66cc451ed1228;0xe77a9aa9a2d64;0xf1ff46e4aac];[0xb3a601b5c98c8;0x47e8fc17d3111;0x810d9158b86ee;0x9fded95d0cecf;0xd73d8ef3f439f;0xd0a62395ab68d;0xf524a6da52c6d;0xe90a619f0f5ba;0xd2b2b391b3f28;0xa7ba8cdc47c];[0xcfc3579d1b680;0x6fe40e5e2e658;0xc0e24a2815026;0xc14ad365a88a4;0x71d807362c1fb;0xcbd41928acd3b;0xe09b107c77156;0x298e9571f6b3e;0xe1f3a16dec806;0xdd05c9cc884];[0x0;0xebbb2bf6df43d;0x144e7c72dcb5a;0x92992070712ec;0x6e50ac8a65e8;0xbd449c101d630;0xb909c33ff7c84;0xeb43219e25e73;0xcd3f074e00d5e;0xa9788b86c06f;0x95a693f617c];[0x0;0xf46b7f879e2c9;0x6794a6ce6aef9;0xa14912cc2f04c;0xa19ac0355ebe;0xdb2cf935d9ad;0xb28bf5ae3423e;0x572c69fa389ac;0x6c6ff2cb2234a;0xa387663b64ad2;0x80785fb793];[0x0;0x9444958688fdb;0x50b9b6ee809ed;0x67251cf22cd8;0x728a72cc16b90;0xc618b7b447a7b;0x342b2b214bb31;0x3f3b2e95fb97a;0xc33daf6ed8e43;0xe96afe3978f76;0x3e2819af2a9];[0x0;0x9444958688fdb;0x50b9b6ee809ed;0x67251cf22cd8;0x728a72cc16b90;0xc618b7b447a7b;0x342b2b214bb31;0x3f3b2e95fb97a;0xc33daf6ed8e43;0xe96afe3978f76;0x3e2819af2a9];[0x0;0x3b3e860f67778;0x1ed69e2910b9d;0x7dfe935f035b1;0xfb25555658037;0x3644341983e7e;0x94a210e01e232;0x969719be2e980;0x887dbea15ec61;0x83fda90dbd9de;0x42ec574dc8a];[0x0;0x8f4cd99304f70;0xeaf9135ef7278;0x63a9aeee09392;0xdf8fbd11b4157;0x5720df442de91;0x5e4ed17b72ee4;0xe3336f8b57b44;0x353f702a1363e;0x2da3e256a0323;0x39bac542065];[0x0;0x4a4a25480b523;0xf7e3f38491cde;0x48118bfc65be6;0x8613fc822bbd6;0xfdbf428c4ae85;0x38ce4bdfb87ea;0x334d2fffc5a37;0xcdf8eba5cfdc5;0x12fcaa4315dd3;0x3a2e915e9c5];[0x0;0x4593dcd91906f;0x67157b0de7283;0x7b11cf0e65d06;0xdbc0ba369f70d;0xee1b7cf1ce6a2;0x9185187397c02;0x296fdc315ffb6;0xb7892f95317ac;0x3053484a7207b;0x5b1b3ccb88f74];[0x0;0x3d89f2933a665;0x5c8bba3bbb708;0xefe8e68a8600e;0x736f7cfac9941;0x4f5074f08092;0xdb5990a8e1c1c;0x15cd412190fc2;0x58a80415229d9;0x320a6d42c4e3d;0x27dadc3fa17]]);
 ((V [0xef7f5a8de88e3;0xf9c8ea7a3ea73;0xbb3f807bebb98;0x17d7d0e80c964;0xa2e8b669cbe19;0xbffce04f1224d;0xac96a5c31fa24;0x43a0b1e328ee4;0x7ecbd267ff28f;0x44ceebaab53] [0x55b528ba31356;0xc438843545623;0xc29415ecbe88;0xa1a2f1685404f;0x3eec435fd5db1;0x685e94c5c3751;0xa5702d9d59898;0xdfdad4af51cd3;0xd9b235c21557e;0x92b4872e676] [0x72c749f4e5f4b;0x7b7a956b82051;0x68108d72b890c;0xf542fded43078;0xf96c3a98d40f;0xcc361b3952f0c;0x6352ddda54fa3;0xddb85f3d7fafc;0x955457be21034;0x814e4b3e0fe]),[[0x556b59a3778a0;0x3c0a2c3e8af6c;0x67b762d9a3603;0xb711d6d9133fa;0x3b6d478914e46;0x3a5e5006e6015;0x99d301974c06f;0xaac1abb6061c0;0xcb1f29da77020;0x2c8161cdd3a];[0x77a01a2af3d89;0xeab056ffa6c6;0x20144138d390e;0x8229144c30074;0xbb453dd5a7930;0x6c1fe95c5c053;0x8fe29a384e7df;0xb9c4ae03e6286;0xd48b21ff78eae;0xdfc26b848c0];[0x1c0b0d82451be;0x64aba56522fa2;0xb70701c679dd;0xd172fa7fa1d8f;0xc2c666ba7744e;0x4cf7ecaf1517b;0x3d19f8571c818;0xe12e8d4a248f4;0x295bfa86b5922;0x872646d2e30];[0x1c0b0d82451be;0x64aba56522fa2;0xb70701c679dd;0xd172fa7fa1d8f;0xc2c666ba7744e;0x4cf7ecaf1517b;0x3d19f8571c818;0xe12e8d4a248f4;0x295bfa86b5922;0x872646d2e30];[0xcb4ccc34dc723;0x56ac707168ba7;0x7238e2c562fed;0xb17f2caa1a171;0xcdb6ba38dcde9;0x9a437596d515d;0xbe7ee86d0342c;0xa97d70693e071;0xb84497f5f8f03;0xf98636b5be2];[0xac534df61742e;0xb7fe94fe91b1e;0xaddb5e7370920;0xd0a9e7a215f02;0xed8e839ccab46;0xd1dc73c586ef5;0xd163b1cb4b3b2;0x10473d9aa8214;0x1c468a097ffab;0xe63c34cecde];[0x0;0xa2b324f75d140;0xf8583e059491;0xb6f3ad54b423a;0x945ed0ca3ba55;0xbbcb023de6c15;0x403912d84d7f;0x39d29afb0fa39;0xcf156654b4882;0x26cc00deb1e54;0x539385e8d4a];[0x0;0x9d6b77f2c7911;0x515416dffb1cc;0x39d9d62361846;0x97d8245cd6b9f;0x4961b4b8b08d5;0x2b06ff0efd491;0xeadb752782885;0xf14a39f3cd3c5;0x52cf71d8322c6;0x177ee218198];[0x0;0x3d89f2933a665;0x5c8bba3bbb708;0xefe8e68a8600e;0x736f7cfac9941;0x4f5074f08092;0xdb5990a8e1c1c;0x15cd412190fc2;0x58a80415229d9;0x320a6d42c4e3d;0x27dadc3fa17];[0x0;0x3d89f2933a665;0x5c8bba3bbb708;0xefe8e68a8600e;0x736f7cfac9941;0x4f5074f08092;0xdb5990a8e1c1c;0x15cd412190fc2;0x58a80415229d9;0x320a6d42c4e3d;0x27dadc3fa17];[0x0;0x2975c4e2160a;0x3c9d009158ca2;0x4b28c6fcd5fc9;0x76e98d63e4006;0x9542cd7a0874a;0xa83c1a16f0d00;0x3768089672a97;0xde833fc203938;0x8d9d8f1e6a1ef;0x204d3e573d4];[0x0;0xfe9c00078e2fd;0x6e35b69179ab4;0x6f152f2b9a23f;0x1a3ef14384ee5;0x3a4d2b4c889ce;0x6eefd822772a1;0xa7da6ab743073;0xdb9d4cc5f28dc;0xa4ad080127a2;0x312c9e8fdb9];[0x0;0x206e57e28bb0e;0xb7bf4b5c265f8;0x573a38d94d18a;0x612b63776960a;0x87173cab2f153;0xde48c66fcb95b;0x52279f2c5eb55;0xede7cc0a2310b;0xfa44b622f0360;0x3c2480fe680];[0x0;0x706dfe0af3022;0xbc998aed64ffe;0x32b31ea8a0515;0xff72f6021925d;0xa4f89be81de8;0xb1cb3fba6b03d;0x5773764cecc12;0xb6278fe5251bd;0xd7362e3463cd0;0x92c70109688de];[0x0;0x68c42e3308651;0xabaf84970e77;0xcbb4bcad37d11;0x9d01b1eeefcbc;0x66f3f6d0fdad;0xe13c92cd0483e;0x13ae4170e7313;0xb79b4a394b7c3;0x36532332ee30e;0x276e883aa6a]]);
 ((V [0x5124adc335de9;0xcee06ad7adbf3;0xca25586adb0a2;0x92f50f4691d59;0x66858eea563e0;0x68a5ac610d885;0xe3f905b0f74a1;0x78d38240db595;0xfa184392d4d49;0xa80f4680db9] [0xb976341fc84af;0xf912fddc8a74;0xa76e48c06ef59;0x3a7fa3f1098d9;0xd51afb598003f;0x5f37dd22a97f5;0xf60d15b34568e;0x23d37e51cbff;0x4de9077958b42;0xc4fa35575a1] [0x244cf8aeba4b8;0x1930a0196908d;0xdfa69fe2d5af5;0x57b35a5887a21;0xd22510f1ce653;0xbad873df35ebc;0xeb22304c18de2;0x654a9a6d5c554;0xbda857229d754;0x41f4e224d85]),[[0xc785e1e208722;0x55d8dc5287029;0x4ba09e06c9871;0x240b8eb1d59f9;0x5d60599fc1876;0x8b3b10111c59c;0x46217ab565f9;0x59b700a31380b;0x128093f2c112a;0xa7234948960];[0xa7e718fe157b7;0xf16fd559d1bc1;0xeac492c0bc9ce;0x275680e63feda;0x361885f8e1653;0x5acac61b90711;0xde7cc684a4cf1;0x3412a85588a4f;0xafc7391288d79;0x2c0e1a92c0a];[0x72c749f4e5f4b;0x7b7a956b82051;0x68108d72b890c;0xf542fded43078;0xf96c3a98d40f;0xcc361b3952f0c;0x6352ddda54fa3;0xddb85f3d7fafc;0x955457be21034;0x814e4b3e0fe];[0x72c749f4e5f4b;0x7b7a956b82051;0x68108d72b890c;0xf542fded43078;0xf96c3a98d40f;0xcc361b3952f0c;0x6352ddda54fa3;0xddb85f3d7fafc;0x955457be21034;0x814e4b3e0fe];[0x316821f8346fb;0x932090da7c7c9;0x5c1c7c1fcd19;0xba929ead1ab04;0x6e98c02d48d5d;0xd12fcf6a6f251;0x7b047bd1a25c9;0x4e3b32b05eb1c;0x1a24a99bbfdb9;0x26fb31ea699];[0x767ef705e10bd;0x5e4f447f553f8;0xe502cafebfcb5;0x6cc3e239253d6;0xc77fc5cb988f5;0x899af6b1214bf;0x63784ab302727;0xe5d775a529f33;0x95a28f76c8fbf;0x512e8a8571];[0x0;0xb3a624c7a1642;0x6d72c7a78148e;0xf63480e842289;0x51387c0e095d3;0x555a1129bbe7;0xe7dcddcdc5bb7;0xbb683554f9b21;0xf729f1ec64771;0x56691ed7c910;0x4ff668d9aee];[0x0;0xd3e77e03984c9;0xc6ca4f66ab82c;0x71b7783126dc2;0x40b8db6e107e0;0xb19f92de60108;0xf37a11f7635d9;0xa42aff2e6a7ca;0xde314b626249e;0xbb5228f3cda88;0x546be5cdc31];[0x0;0x68c42e3308651;0xabaf84970e77;0xcbb4bcad37d11;0x9d01b1eeefcbc;0x66f3f6d0fdad;0xe13c92cd0483e;0x13ae4170e7313;0xb79b4a394b7c3;0x36532332ee30e;0x276e883aa6a];[0x0;0x68c42e3308651;0xabaf84970e77;0xcbb4bcad37d11;0x9d01b1eeefcbc;0x66f3f6d0fdad;0xe13c92cd0483e;0x13ae4170e7313;0xb79b4a394b7c3;0x36532332ee30e;0x276e883aa6a];[0x0;0x25090367c6acf;0xed824e6b3d98f;0x83726f5679da8;0xd7f3b2dd6da25;0x8eaa805dcae71;0x87763189e51fa;0xb79df8ef7c30f;0x242a0da5e4c82;0xc70956d9c0209;0x5412697f4e9];[0x0;0x3dd2497fb4314;0xc1f8c4675bf58;0xbe8f02fcf3d91;0x2a05c73929038;0x4a61efa57d9d0;0x3bb095a3fde2a;0x8da193b4702f4;0x9064244464769;0x4364f580fbfa7;0x127e9472cff];[0x0;0x3291ef679790e;0xe9bd39c1a3f9f;0x819bc7019ac45;0xb1cb0a5172fdf;0x17fd32a9c4bf7;0xbc1b5e861df6;0xb275352329ae7;0x44a08a0e881d2;0x673096458d064;0x1cebe265e52];[0x0;0xd946c0b913396;0x67ecf378c1cab;0xb65d65ab6c660;0x9b605149c344d;0x4ea90f5ee871a;0x9f75d1c36c0bb;0x59b9ba1a17f0b;0xdc912fa3d77f1;0x4684366009cc1;0xc59d49b1652c5];[0x0;0x62e9dbb214df9;0xc96f3bce56604;0xca9564fcb1593;0x1b7752f370322;0x73642b12fc801;0x8f11112281b5e;0x3f552abb6c3c;0x2bb8cc4649572;0x966e68c1abd76;0x814ff3ea03e]]);
 ((V [0x9be9c6a6b32e8;0x7ef7deb099cbf;0x156aa6ce7dc3e;0xecd7d834c036;0x681f476490679;0xd39bb3b96bd1d;0xa6a14b8079de3;0x1dec837f5239b;0x17fda33a5bcc5;0x86f42110d8b] [0x94c7e52340a3;0x130b361c9b530;0xd5780fd2778dd;0x1da4fb2d53205;0xbda15fd17a1;0xc123611d160ab;0xc0bb2485f46b2;0xb0ba55f47d82;0xc9218c572f24;0x4096df81e5f] [0xdffa508570c6b;0x92e1c4bd973a3;0xc59f6da091e90;0xc3c4b0e94ff8e;0x934a3a56a9eba;0x5891ec8b204c2;0x7559c24609721;0x7eef3281705a;0xbd96dd6fa5b13;0xa04dbf056e8]),[[0x1b951ea466f64;0x2d9c3f5bfcbc5;0x87a54bd33bffd;0xa9866fa2f83c6;0xf59415dabf277;0x77043e519737d;0xdbe6f697a724c;0xc517d81b3354c;0xd48a3f4e6aa52;0x6bd69fe96fa];[0x1dc8a4b5f5c8d;0xbd7745297040b;0xfbf0edc2d9c3a;0xa3ad9bcbb217f;0xb93e26d7149d7;0xc380d8813c0b1;0x127bed5e3170f;0x3a17867651d;0x14eed93e4af96;0xb5fa2a138a4];[0x244cf8aeba4b8;0x1930a0196908d;0xdfa69fe2d5af5;0x57b35a5887a21;0xd22510f1ce653;0xbad873df35ebc;0xeb22304c18de2;0x654a9a6d5c554;0xbda857229d754;0x41f4e224d85];[0x244cf8aeba4b8;0x1930a0196908d;0xdfa69fe2d5af5;0x57b35a5887a21;0xd22510f1ce653;0xbad873df35ebc;0xeb22304c18de2;0x654a9a6d5c554;0xbda857229d754;0x41f4e224d85];[0x6b0b6a8b70804;0x85231d4ee6417;0x45d9e7c1b8f47;0xd20893a782ad5;0x9959563e65e14;0x85723f98b1d75;0xf1bfa268c8635;0xcf08b46e56906;0xc185a68c72d8f;0xa12607a8af1];[0xb2bd3a2a8548a;0x385427da89ff3;0xb617060120cf3;0xd1a508242f6aa;0x1fe4d098aebc2;0x3e0e98e88a33c;0x20bc4af5690da;0x313163181fc16;0x536932b1d8206;0x14d4226adb2];[0x0;0x393d7cfdd7d04;0x1f6081aceb070;0xafd51a0c950ad;0x6d065d0df6cae;0xcd1c5f3e88948;0x4bda9fe16329b;0x6bb2e8e6cb8d8;0x8c48ede14340b;0xcd1e7e9ceaf07;0x28c9963e8f5];[0x0;0x6a8f44f777e15;0xa3a7d065209c6;0xae85392b9d464;0xea89e51d2ce45;0xe9b092eb8990d;0x66ab055e377a4;0x6551e5936d208;0x890ba45602e2b;0x7ca4a54eceae9;0x1bc8a66dae5];[0x0;0x62e9dbb214df9;0xc96f3bce56604;0xca9564fcb1593;0x1b7752f370322;0x73642b12fc801;0x8f11112281b5e;0x3f552abb6c3c;0x2bb8cc4649572;0x966e68c1abd76;0x814ff3ea03e];[0x0;0x62e9dbb214df9;0xc96f3bce56604;0xca9564fcb1593;0x1b7752f370322;0x73642b12fc801;0x8f11112281b5e;0x3f552abb6c3c;0x2bb8cc4649572;0x966e68c1abd76;0x814ff3ea03e];[0x0;0x377dd4fc53f7b;0xecb673d2c5fd6;0x655c3a63b9abd;0x852d04d2e8c1f;0xd791242c1e508;0xaff22889573c2;0xb815e6a3a9fd7;0x5fcecf2927c5e;0x92eaae7505337;0x97901639fba];[0x0;0x1a9855b9bd641;0x31f1e2d3105cc;0x2d5b9962019e3;0x3621910d8614d;0x9403b48a73d12;0x2af27b8655d99;0x2c1149aaaa586;0xb2bd580296ee0;0x5f9aa20ea7e1f;0x6e540d7276c];[0x0;0x2d127fa7412c0;0xb9209eaa9360b;0xb1c9609af52aa;0x9c456c7aba7ba;0xb9f760b1502f2;0xa75cd0a771c4a;0xe111b8445e7c2;0x99a68747bd137;0x65bf46fe41792;0x5fee7bf78e1];[0x0;0xa67064fcf7030;0xa76f118ddd6ef;0xa9d2fdecd150c;0x7f34ed4845b3f;0xcf8e83f722851;0x2b777118bfa97;0x2c0e7aaa10b5d;0xd3230f24cc9dd;0xc6a427fa5304e;0x40a98c976d0b8];[0x0;0x5fb39ff8adc4b;0x4ccd39a111f77;0x35364d55a3a4a;0x9bf1c535f60e;0x3a8dd754ad633;0xe4d202b0de1d3;0x79d391e1526de;0xe76a0e40a1ad7;0x4feb1b5a0153a;0x220c9122b91]]);
 ((V [0xbcc04967b7404;0xfc1ee3f550436;0xc93baf1cbe6bb;0x3146e9857a5c1;0x6b696008b973d;0xfcb1992beb77e;0xa4276122f7416;0x6eb145b735a8d;0x2642424a19047;0xe3fa280a16d] [0x5a9038df102ef;0xdf0b384eb49f5;0x75921c655ca3e;0x84127e7447645;0xeda2dc292e713;0xcc579b9627e94;0xb47d26aba96f4;0x6231fa01f018;0x68013e8982eec;0xcee46f0b58] [0x7cc18bf344474;0xf1a09ccb7437f;0x7cd9c9fad3f7f;0x31e0abbd2edb1;0x6187a7b63264f;0x13266c1534144;0x38bd5dc8d5061;0xe08271dcd76e2;0x3c3ee36e99b16;0x41ad150a036]),[[0x5f1031f5a0913;0xe1cecb1f9dad2;0x4f98ebf619dd6;0x4a8a6544330cb;0x63cac5e8a7645;0xfa42fb3183c55;0x60a5ba30fd7f4;0x849e402b17f97;0xf44e1bebf684;0x627acf0d8a7];[0xee3127b8f07d1;0x24c0484137d23;0x2b975b3f95ea2;0xcf92db1abd239;0xdfc67f509522d;0xb6f5868f6c699;0x5b3729ef0a99e;0xa7b284b2dd507;0x6b66f7a013f69;0xa63cc3679fc];[0xdffa508570c6b;0x92e1c4bd973a3;0xc59f6da091e90;0xc3c4b0e94ff8e;0x934a3a56a9eba;0x5891ec8b204c2;0x7559c24609721;0x7eef3281705a;0xbd96dd6fa5b13;0xa04dbf056e8];[0xdffa508570c6b;0x92e1c4bd973a3;0xc59f6da091e90;0xc3c4b0e94ff8e;0x934a3a56a9eba;0x5891ec8b204c2;0x7559c24609721;0x7eef3281705a;0xbd96dd6fa5b13;0xa04dbf056e8];[0x5d001c1a7000f;0xbd3d351eb862a;0x278c58b9f4cba;0x53a9302a5b4d5;0x7e3f2c6d40a85;0x186b827c9bce1;0x546d237d758e9;0xec4fcf621884c;0xe51a4f477dc7f;0x4c2b44e3403];[0x91310b9e807c3;0x678313227f6f9;0x40b0285a11e7;0x7be9aaf061d64;0x618752e3547a8;0x9e8a0412d09b8;0x6ca0671950b5;0xbb62b550c4cbb;0x864ca858962e9;0x5a117e845f8];[0x0;0xcb03591b6a9bb;0x6c2d21e18cbb5;0xb358fe1a11f42;0x214ec90384821;0x7bb2822cce814;0xd0e8535d11963;0xcaa2a3d656c92;0x271b41899248f;0xfc9dedfee6c16;0x6321ae7736b];[0x0;0x4157d26e89fe0;0xe0c3b47ed6f96;0xe97628734421f;0x347470a89432c;0x991eb1b986b9c;0xce92a5cdb4a02;0x3b16bc2c1e754;0xf7965754c0157;0xf382dfc33bdf;0x3daaa9d4750];[0x0;0x5fb39ff8adc4b;0x4ccd39a111f77;0x35364d55a3a4a;0x9bf1c535f60e;0x3a8dd754ad633;0xe4d202b0de1d3;0x79d391e1526de;0xe76a0e40a1ad7;0x4feb1b5a0153a;0x220c9122b91];[0x0;0x5fb39ff8adc4b;0x4ccd39a111f77;0x35364d55a3a4a;0x9bf1c535f60e;0x3a8dd754ad633;0xe4d202b0de1d3;0x79d391e1526de;0xe76a0e40a1ad7;0x4feb1b5a0153a;0x220c9122b91];[0x0;0x7cb41482aa276;0x2c4bf48e70a83;0x20a7ecc373f33;0x401c12a608942;0xa5d266d297d91;0xc17cd9845ff6a;0x620a694164440;0x59c1e27c1e34b;0x56b3f8317de5c;0x104bc8aba25];[0x0;0x5f8ab89ad259b;0xba1a538017911;0xba3cdc088dede;0x4cab44325e0b0;0x4844f19c71813;0xe93d204da4dde;0x72f4e7f1f36a2;0xa53461d4c94f7;0xc3d2db69634f7;0x47247b6caf3];[0x0;0x32996768f85fe;0xcf5d7cd50bf49;0x14ba20ccf90a4;0x8dd2035b110e9;0x83d6a9dd66db2;0xa9d62b6689060;0x9f27faddd9bd8;0xed42929fdae59;0x8e680b3b65aea;0x940a529bc19];[0x0;0x9a516eb1ec04a;0x5cf2f32dd4038;0xba049a8678b05;0x1a314ae49515e;0x62671ed00eac;0x7e58190523b4c;0x1d3c5a58eca63;0xe4a62be8f2292;0xce4b9afc8c5ba;0xcf2cfa3eec9e];[0x0;0xeec7cd68cf278;0x3609273dd7020;0x4e45dd39d49a0;0xbab5d4991e50e;0xa1d57f70b7fda;0xff0f375a5d23f;0x6ff077a0b406c;0xeaf70143d435e;0x3054c9e14568e;0xb83eb9e759]]);
 ((V [0xd0b71bc222f5;0x290bdb8ac873c;0xdeb63068e7ea6;0xc9aa4370f3991;0x9ed66bcf05e5a;0xd2bf40cc03bce;0xdac0cd3dcb3a5;0x5c7164a39d80c;0xe22d3c7996477;0x5621e3fcfdf] [0xf53971497381e;0xbe483c37f3204;0x15425ed8fcfec;0x64c6e4c5d68ef;0x1282c40dc03cc;0x221bfbc755c8b;0x47ee743fc72db;0xa2adbac9d9672;0xd7139227b7d67;0x9fea12738e1] [0x7432acdec18b;0x6ef75c0c479da;0xdbefc8c595428;0xd6c82912fa43e;0xe141c12e939ec;0xfcafcccd06ad0;0x583e57d0bc8b9;0xbbf8d99e74ef9;0xabd11434ae34f;0xd3e37548e5a]),[[0xdca43b05710df;0xd0838f33c2f6f;0x45fa5c37f1bee;0x363aba8a8e001;0xf9272146b1144;0xfe10a9e95c73e;0x1b0112529adfa;0xb3c0cf56c40c1;0x9a2fed8aa248;0xab475ffedfe];[0x785325b0c7198;0xabda84cae5b9f;0xe0e5d9d478a90;0x61c5e7ca216dd;0x1bbde572a8884;0x7e7c6f4702227;0x94683f1ff91ce;0xbbe1d6404586f;0x49cc33ecc709b;0x25dfa10b21a];[0x7cc18bf344474;0xf1a09ccb7437f;0x7cd9c9fad3f7f;0x31e0abbd2edb1;0x6187a7b63264f;0x13266c1534144;0x38bd5dc8d5061;0xe08271dcd76e2;0x3c3ee36e99b16;0x41ad150a036];[0x7cc18bf344474;0xf1a09ccb7437f;0x7cd9c9fad3f7f;0x31e0abbd2edb1;0x6187a7b63264f;0x13266c1534144;0x38bd5dc8d5061;0xe08271dcd76e2;0x3c3ee36e99b16;0x41ad150a036];[0x99e98e21ecfc;0x98a4e801ebba8;0x4f6cfe59f34bb;0x8b156f78c2568;0xe4481ab26fac6;0x6aaf4fde10b5d;0x7c64d2d5c6f1d;0x34de25353c608;0xdc729a19de1e2;0xd6f94f9ecb0];[0x6eb48ccea8264;0x13359cc8f9ff7;0x9178db7a855d5;0xd6b078515f175;0x3775cac038dbd;0x13cd1f68f16c9;0x18036c4a322b1;0x8703b10b09267;0x6d5999d2e8eb9;0x4ee6516c569];[0x0;0x1232739462197;0x3827bd032b163;0x79aed984136b9;0x15cfc334cb58b;0x8931c0df3cc05;0xc802107584a2a;0xbbd5ffe6570ee;0x66b6867e7a2cb;0xca659092bd2e1;0x289d2f6577d];[0x0;0xc3f5c027ba4ec;0x53b7ce1c41a97;0x7c1bff2ecb63a;0xd73970c03f66f;0x35f4cf28a0051;0x1dccf2043747b;0x9df44528a5a65;0xd7bd825cbb3a5;0x390116487a15f;0x2bf0ecaf240];[0x0;0xeec7cd68cf278;0x3609273dd7020;0x4e45dd39d49a0;0xbab5d4991e50e;0xa1d57f70b7fda;0xff0f375a5d23f;0x6ff077a0b406c;0xeaf70143d435e;0x3054c9e14568e;0xb83eb9e759];[0x0;0xeec7cd68cf278;0x3609273dd7020;0x4e45dd39d49a0;0xbab5d4991e50e;0xa1d57f70b7fda;0xff0f375a5d23f;0x6ff077a0b406c;0xeaf70143d435e;0x3054c9e14568e;0xb83eb9e759];[0x0;0x53475f517e4b3;0xcbff37f4b6120;0x96a540afc8f3a;0x372306f5d14cb;0x5105b83972d20;0xa592af73c2d08;0xd49cca5c1dd38;0x32425dfbf063e;0xea7b26dc53fab;0xa7346e8c3];[0x0;0xade435692e4f4;0x5c3a4e54fc3cc;0x8e509fc8755bd;0x4d580c95e741e;0x3ee9543b8a394;0x3fc01c5d5756f;0xfdf7d0400cb37;0x7c4c4ba0a63f3;0xd80b395205d0;0xcb0597741e7];[0x0;0xab2e34340ff53;0xc75dbc6e1095e;0xe9cc408e980f7;0x2816e200542b4;0xfc7333332eb64;0x950ec78b3a9cc;0xd6d44a4b93048;0xeee8ef6a0272f;0xfa3dcb2d705a8;0xcbe23a8393];[0x0;0x30196da2021b7;0xca1f5590cbb1b;0xc41b63c1d9b95;0xd61098e0bb8e7;0x6600377f3ba;0xe031f8e62f9a;0x27e8436a7a3b0;0x7b50e7ab78862;0xe25bfcaa181c9;0xa07253ffd7bba];[0x0;0xb38653120d37d;0xf56115c785705;0xa8d9f4b1a3684;0x91aae5b2bf0d2;0x2a2c44e71ec68;0xe00710bb3609b;0x3f10d6deca31a;0x1f225432b24f8;0x2ead4ad7d7a16;0x35cdcdc9ca1]]);
 ((V [0x4d7c7058852f9;0x3b3b4dc9fe348;0x46f4a0898c242;0x3d1ab1ea427e5;0x1e666ef0471f;0x2d557a974555;0x2898c13024c4b;0xb044ea82dd9b1;0x2cbcbf67a812c;0x8c9ae57225b] [0xe7e75ef8e586d;0xe9ecfc654561b;0x7cf3ef6672b0a;0x6c0d514658417;0x871a0b0345d5b;0xdf9593d8f7d49;0x94a8ee6c6050b;0x7f47e0117493c;0x16ff82de280f6;0x85e17735ce] [0xa95cc267e7a6c;0xf2efbb2478c25;0x6f1a2a9d53e42;0x8cf6cc450afdf;0x78e1b416164fb;0x25e6e146bffdb;0x7d1f8e0c4ac89;0x71f8ba1a71a58;0xbfd2b5343f48a;0x666b23973ca]),[[0x3e5d79ee1542d;0x66669607ca2fc;0x2fba76cc635fd;0x2a238ba566397;0xb206d3ef3718d;0x6a168cc8543e5;0x6a203791ef3cf;0x98aacbaab5572;0x14bf7c78d978;0xb2de5b25405];[0xd0a067f0a65ec;0x59c20e693346f;0xa8f8248e67c71;0xb4f5046614ad9;0x62567fc063bd6;0xc36bd2cadf2c1;0xc15e35c87ec5c;0x4bd3f125ebb1b;0x247bd3fda3b6;0xea7b88117f9];[0x7432acdec18b;0x6ef75c0c479da;0xdbefc8c595428;0xd6c82912fa43e;0xe141c12e939ec;0xfcafcccd06ad0;0x583e57d0bc8b9;0xbbf8d99e74ef9;0xabd11434ae34f;0xd3e37548e5a];[0x7432acdec18b;0x6ef75c0c479da;0xdbefc8c595428;0xd6c82912fa43e;0xe141c12e939ec;0xfcafcccd06ad0;0x583e57d0bc8b9;0xbbf8d99e74ef9;0xabd11434ae34f;0xd3e37548e5a];[0xf7aec61e69bb3;0x3eeadf4526f4;0x69d9f1025ebb4;0x1e37a477919ac;0x7abaeacf1cb2d;0x5891112331a15;0x33a7f9f2179d0;0x808bcacfb0c0a;0xd4c82aa147713;0x22e5c719fdb];[0xd8f1a1d23ca3a;0x55d36074e0d7a;0x3f1e338c090bd;0x96bd5fee8312d;0xe79b94f1470a9;0x6adac1a7ad8ab;0x8db63bd66728c;0xcb4826563af11;0x2d7f929e92ca2;0xc795c0f781d];[0x0;0x7c058ff9ffba5;0xd8121d7e2c487;0xd747fb6c003a3;0xa20b86266faab;0x37a863eb2ab05;0x9b990d7e42d04;0xc454e5c56c5c3;0xbe125e9caf1c9;0x9ae6b1f8a9401;0x83081301b27];[0x0;0xe76a2288c0465;0x9543f7ef6e41b;0xd61ea8ff06728;0x4d3335e14f776;0xb6f062159fd3e;0x44fe3983962e7;0x83ee67389981f;0xe8a8f08abe7c2;0x3e445fbbbbeca;0x940c323d14b];[0x0;0xb38653120d37d;0xf56115c785705;0xa8d9f4b1a3684;0x91aae5b2bf0d2;0x2a2c44e71ec68;0xe00710bb3609b;0x3f10d6deca31a;0x1f225432b24f8;0x2ead4ad7d7a16;0x35cdcdc9ca1];[0x0;0xb38653120d37d;0xf56115c785705;0xa8d9f4b1a3684;0x91aae5b2bf0d2;0x2a2c44e71ec68;0xe00710bb3609b;0x3f10d6deca31a;0x1f225432b24f8;0x2ead4ad7d7a16;0x35cdcdc9ca1];[0x0;0x411edc0502da7;0x826cfa0869f3d;0x65eff90e64f66;0xb354de1c983c4;0xdf8c9fd3e251e;0x841b1b1b00b6b;0x9098479c37583;0x9164bde791b5b;0xcd49d168cdeb4;0x63e498f1471];[0x0;0xaaefc0e2475c9;0xe6c513fa68ff9;0x17598b2e499ac;0x57d2b9d83c76c;0xb6ee0467ba77a;0xd1ffb17f35e32;0xa2f8cc46feaf3;0xd08db2f7a2782;0xadf60feccf716;0x1cfac9aa8ce];[0x0;0x11618220c2e19;0x5767ee379da23;0x2e647225f9ecf;0xbba66d14fae05;0xac5ff2aecca0f;0x900c3d28bbd76;0x3cc5e5375803a;0x6aa3be575c63;0xb6eca5377775a;0x80c96ee27a8];[0x0;0x489b23c9a1734;0xcdcbbca35425c;0x4dc382d4688d0;0x87a5c58b849c2;0x7af4799dcc952;0x6b136f1feebc0;0x39558be49a222;0x90887a9154848;0xd7bbac858af61;0x85ecb7fb8f81];[0x0;0x5408dd89b959f;0x25d5c4fbccfef;0x20cadca40fa90;0x93fbd3df6b94c;0xc34e50ac73ea;0x89dbf9a5d8681;0x99a1122c075b0;0x79d80727d5da1;0xd3dc75bd6ff01;0x49884ed184]]);
 ((V [0xfebe70952ba28;0xa61f662420390;0x1439376d5e356;0xa07c6e4b43fa6;0xbccff90549be0;0x1d89b818eca78;0x2decbcf967b5c;0x8a6d295a2226b;0xba35f2e63b3a9;0x1d05d648efd] [0x3aa1cfd9fa7f3;0xe1595381d1e67;0xda64b240c4532;0xef99a5b4a0ed1;0x423d222bf30d4;0x2ed475ecb6210;0x41ed67eadec7b;0x1c158d9d729bb;0x7c9df61549e00;0xf4a3d59023] [0xebbfaac3b5e44;0xa20ba794619cb;0xd721a16bdbdb0;0xc648303b6d529;0x7a5890be78862;0x278ea0243aecc;0x59c72dd017ac4;0xad9d0473a3f28;0x801fab0370bcd;0x8bb84e099c1]),[[0xdcbb5309973d5;0xf62e706d9d300;0x5192f62490f84;0xfe39c5c6b8d42;0xe6bde4174b246;0xa77a088e86f27;0x71e3175f7caf3;0x7d8fea27ce4f6;0xb8cd649401da0;0x6982ab95e19];[0x63d45712034dc;0xa3b81d7302208;0x6a6126d86f4fb;0xeef232cf96c2a;0x5012df5085562;0x416dbce53a58f;0x9ec4f6a9b2c24;0xcdb2081755c96;0x119032e769ee8;0xc8b44310bf2];[0xa95cc267e7a6c;0xf2efbb2478c25;0x6f1a2a9d53e42;0x8cf6cc450afdf;0x78e1b416164fb;0x25e6e146bffdb;0x7d1f8e0c4ac89;0x71f8ba1a71a58;0xbfd2b5343f48a;0x666b23973ca];[0xa95cc267e7a6c;0xf2efbb2478c25;0x6f1a2a9d53e42;0x8cf6cc450afdf;0x78e1b416164fb;0x25e6e146bffdb;0x7d1f8e0c4ac89;0x71f8ba1a71a58;0xbfd2b5343f48a;0x666b23973ca];[0x9ca289ee88418;0xeaf6ba3628032;0xeec68a469ad38;0xb399e1bf35659;0xd7d5fecd0df93;0x720fc8a0a2c8d;0xd6a157c0435a5;0xb9d284884cea8;0x8539f1d45d746;0x3a3699af67a];[0xc731cd237b0c5;0xb8c1633cda1d5;0x7b9a9c91d47c2;0x3b585110615d0;0x783ce083775cf;0xcf5df44497901;0xc8239ee96f67e;0x13df838f08ded;0x8c5641130c7a2;0x8e7da961577];[0x0;0x3f3fb413fc2bd;0xf82264703085e;0xc28256757c793;0xd04ab0669742b;0xbfded9289db52;0x6f1d040f558bd;0x712ecc9252f53;0x7b095e9cf9a8d;0xbed3025e0d0c3;0x3f55e074423];[0x0;0xe8c5cc7647d00;0x4158b809881bd;0xbd618636e629;0xf58240ede7328;0x5496306d14d92;0x7b2ee7b4ce356;0xdab4546dab87e;0x53eca5a9f8e62;0x37c39529701ae;0x2a3638a6a21];[0x0;0x5408dd89b959f;0x25d5c4fbccfef;0x20cadca40fa90;0x93fbd3df6b94c;0xc34e50ac73ea;0x89dbf9a5d8681;0x99a1122c075b0;0x79d80727d5da1;0xd3dc75bd6ff01;0x49884ed184];[0x0;0x5408dd89b959f;0x25d5c4fbccfef;0x20cadca40fa90;0x93fbd3df6b94c;0xc34e50ac73ea;0x89dbf9a5d8681;0x99a1122c075b0;0x79d80727d5da1;0xd3dc75bd6ff01;0x49884ed184];[0x0;0xa410b5e6d8727;0x550d8d12cae34;0x1d15dec80561a;0xd29ef120a6204;0xef7645090b641;0x517ee574ce17d;0xad7bd9b723189;0x6ddabc5a20a1b;0xc3b3ad37bda9e;0x46040c70a];[0x0;0x88824f6ecff34;0xac151de292ddb;0x54960cff564ad;0xf40c35fee776;0x5343b240a2eb7;0x24b0bd1ef36f;0xacb99c4e45372;0xf9e3b9ab3a51a;0x6545bc0601d13;0x4d39c8adb43];[0x0;0x6fb979a1ae2d0;0xa39d527b53b37;0xd77b54a7ef169;0x8c1492c242e07;0x2f05e45ff55c3;0xe5f1ed254cde4;0xe69ae23c2189d;0xfa98e2bb365e6;0x9d4ddad458d3e;0x16c0ff1e13c];[0x0;0x98f5c478cc7c6;0x734a637620409;0xabf178da934ce;0x898e34f0f11eb;0xefe9670b97080;0xe39566f625e3d;0x757c55047e093;0xa15828bff349e;0x40555c1c23ff0;0xf4d8ad2391f9];[0x0;0x4d8b04db3b4ac;0xd6f72fa04464a;0x91181883be940;0x9572769351770;0xb8640b5c44412;0x55bccdd5a9a48;0xcd02ac8333620;0x8c41150ad5bb7;0xa73630a6db5d6;0x1bbc232b27]]);
 ((V [0xd9e4304ab2d71;0x2d12eb9c7ddeb;0x24e355452d11d;0xeb5cc3d5a1627;0x85b216336ff72;0x4e8055392fd67;0x6fcc7457a938;0xefef4e7aedfce;0x90ce20d57f5e0;0xd26aec92c05] [0x18a6a24d29af2;0x9eea8839091c9;0x15bfd37642bbc;0x980e3a2d3ecf0;0x30c505e777932;0x2654a10bb5222;0x2d048eb8daf3b;0x5448291f498ba;0x1465f4aeef03d;0x5e31eab878] [0x4073332af7ab5;0x69da0dd719d03;0xee8a7d0701445;0x8ee7da9cb3a91;0x127778bdc9038;0x361ccb01562fd;0x65109075edade;0x18e1989ad5a76;0x7e02dcf44f9e3;0xe5a08e8927f]),[[0x4dfd987f04801;0xcbe43892c4c9f;0x4e481f98290c3;0x4cb29cc284e1;0x41c71a254dfa0;0x2fc9abae0901e;0xeb37f4abc5d1c;0x4b710f8542738;0x87d766c822797;0x519926e3fe0];[0x175200ee1f961;0x77cf8f3332351;0x97d79a47f7a5f;0x30649c449b85a;0x5c0b362efb28d;0x4ba707ffb9081;0x64995ec53fe68;0x39ff5dec8642d;0xa5a7db1e4b20a;0x8c66a778539];[0xebbfaac3b5e44;0xa20ba794619cb;0xd721a16bdbdb0;0xc648303b6d529;0x7a5890be78862;0x278ea0243aecc;0x59c72dd017ac4;0xad9d0473a3f28;0x801fab0370bcd;0x8bb84e099c1];[0xebbfaac3b5e44;0xa20ba794619cb;0xd721a16bdbdb0;0xc648303b6d529;0x7a5890be78862;0x278ea0243aecc;0x59c72dd017ac4;0xad9d0473a3f28;0x801fab0370bcd;0x8bb84e099c1];[0xe960958f8bd32;0xfce331d3ba7b5;0x4e63c88b98e9a;0xd759f30b2d7e2;0x798907a81fbb8;0x63132b4780055;0x2918207824411;0xb73d27235961;0x65a00ac7b93ed;0xa35df6f01c4];[0x2df16b5e939f7;0x7aec5d5f77b9b;0x4973d1bc5ebc4;0x590aa9396e078;0xe2822e86db6d4;0xe893dcb83902b;0x3b813e4d1ba56;0x2e8b8b7a50acc;0x4007d05691e1d;0xe908b088375];[0x0;0xde64474b400c9;0x8afa83fdc5208;0x3ffaae34bf01f;0x941753fc2e9c5;0x7d5c8569dc262;0xacbac9e11eb53;0x7b83eebb6b049;0x54176ccf4ec11;0x2662ee471c0be;0x56671118614];[0x0;0xa34c72cbef005;0x839c2f646cb43;0x52e1beded118a;0x4599fac874b92;0x66027372793f1;0x6c39f44e25465;0xbc0f0924becdc;0x5aa17896545e9;0xa0254139dd990;0x2c88e71178c];[0x0;0x4d8b04db3b4ac;0xd6f72fa04464a;0x91181883be940;0x9572769351770;0xb8640b5c44412;0x55bccdd5a9a48;0xcd02ac8333620;0x8c41150ad5bb7;0xa73630a6db5d6;0x1bbc232b27];[0x0;0x4d8b04db3b4ac;0xd6f72fa04464a;0x91181883be940;0x9572769351770;0xb8640b5c44412;0x55bccdd5a9a48;0xcd02ac8333620;0x8c41150ad5bb7;0xa73630a6db5d6;0x1bbc232b27];[0x0;0xe87f14f2ddcd1;0x293d78831edd8;0xa9410e0605285;0x4dfb8d591f175;0x18a753948c342;0xe4fbbe6970a49;0x4afdf4f5366b0;0x362e5b1999f31;0xb5bea038fec73;0xe9c8b7f46];[0x0;0xc235837d7056f;0x30ab611c320da;0x2a15898f08dd1;0x5edc1b888ac5b;0x24f82e882435b;0x14cce6bd82254;0x1518c51140149;0xdc2a86f0c987f;0xf2762f3a5452e;0x34a52ae988];[0x0;0x8ceeb2b9da876;0x9b4bdaac60d91;0xb73a0f7a06448;0x41923acdbcdcb;0xd95dbc0d47177;0xe0a6b68950e0e;0x4ab2262c2e8b2;0xcbd1a20021dc4;0x38031cec08356;0x7366d9a12ad];[0x0;0xffc13de1a0fc4;0xcd6af591613d0;0xf9a2ad21d7a4f;0x81c0ccb275d1;0x21a94fb740a4d;0x6b3dad1843d47;0xb6696f7e6aee5;0x72b93d0255336;0x80386c8780e1;0x5e5c7391514f];[0x0;0x1b5fa595f4efb;0x794f335b57cd7;0x22a03aa2ac7b3;0xfbee95e32f531;0x8fec9cc0895e1;0x1256a963a3725;0x41568da47bee3;0x13cca3ecfe6f3;0x82941eb09c055;0x4d6c4a4286]]);
 ((V [0x693beb4b18e39;0xa88d6d699c4fe;0x996e2603e0505;0x721e53684992d;0xd1aa3d73dfcd;0x9cf6ef77f592c;0xb1d21a46ec3a5;0x65f27c7a79e9e;0x5891e3317dfea;0xf3082def253] [0x3bd6732189f43;0x13e6542bcf7b;0xf16aa496b8ce5;0x6368d82293f3e;0x27c6072a9f9a2;0x6bfc35467a9ca;0xb63ca65724b37;0x8cc2f417f1c48;0xcae2f932aade9;0x3b5226eda65] [0x7864b614ab862;0xa385f56406f15;0x6bf832027483d;0xf8c8b9ff1e36d;0xf266ac94323c1;0xbf3b44bbffc60;0x44b36986664c;0x3d1b4e8189ed7;0x24c2a9e78b099;0x84dcd1d5972]),[[0x4fae714191803;0xebeb27bc0852;0x2802b38c7ceac;0xf552e3b48577f;0xfe85263b4ffba;0xe01b7320dd7f1;0xaca95bfc4453a;0x6888b4427db7;0x785dbba6d4f92;0x1db937195ec];[0x9d2c88853b4f2;0x7daa8dacec7a6;0xb3e260e163bd3;0xabd6fee830fcc;0x3356641fe3fae;0x6a4710a590245;0xa58e2ef640391;0x7043a1d923ac1;0xb799d7780bd80;0xdc967cb2aca];[0x4073332af7ab5;0x69da0dd719d03;0xee8a7d0701445;0x8ee7da9cb3a91;0x127778bdc9038;0x361ccb01562fd;0x65109075edade;0x18e1989ad5a76;0x7e02dcf44f9e3;0xe5a08e8927f];[0x4073332af7ab5;0x69da0dd719d03;0xee8a7d0701445;0x8ee7da9cb3a91;0x127778bdc9038;0x361ccb01562fd;0x65109075edade;0x18e1989ad5a76;0x7e02dcf44f9e3;0xe5a08e8927f];[0xc4ed213b9eabd;0xfb5704ff05840;0xafe39a5081d81;0xc7dcb93df93e3;0xce077c293be44;0x906e95f3fc0f2;0x2650270c05007;0x304eeb8710005;0xa3541b4971e1f;0xbd9d33aaf54];[0xd83f67499ca36;0x825388ade6f65;0x3fec690e1e51;0xe3fa45aa37be9;0x654ee7f6a8169;0xd9d87ab194152;0x7f3e07ea3b389;0x3ff4b65213abc;0x1445bc2e99f61;0x1ef94907b76];[0x0;0xa6a16eacf5e0b;0x642ab1f7db79;0x40140e484a955;0x40ca5084e7a3f;0x59a46d9ef30f1;0xac8fefceb20bb;0x63fcccf0e97c2;0x2624db82a5157;0xa575d9d08f8ec;0x8e00486d8be];[0x0;0xc31d97afd576b;0x17f48900b2e0f;0xbe0fb52192d8;0xfbcd5a879672c;0x86dcc760c2e2f;0x3f688cca56ebd;0x57b3e56cbb053;0x4b70b99dc5a68;0x645b804df508d;0x1aa95298caf];[0x0;0x1b5fa595f4efb;0x794f335b57cd7;0x22a03aa2ac7b3;0xfbee95e32f531;0x8fec9cc0895e1;0x1256a963a3725;0x41568da47bee3;0x13cca3ecfe6f3;0x82941eb09c055;0x4d6c4a4286];[0x0;0x1b5fa595f4efb;0x794f335b57cd7;0x22a03aa2ac7b3;0xfbee95e32f531;0x8fec9cc0895e1;0x1256a963a3725;0x41568da47bee3;0x13cca3ecfe6f3;0x82941eb09c055;0x4d6c4a4286];[0x0;0x9dabcc5b5b9c1;0x2100bab13d8f4;0x15439ab6e510a;0x3d1f9e70b2786;0x5100b6b51ebd4;0x64966ea01f996;0xca35849592c92;0xdfb61e5d3c00;0xa02b320d82b7f;0x22a8b21b2];[0x0;0x7c869b3260cfd;0xc6e217ae1ee5f;0xbc6102d921481;0xa4c83403d8462;0x53281a63cba2f;0x639ce54d241b8;0xf97e602e6023a;0x176daeb7bf432;0x849a5aef088fb;0xacf398c987b];[0x0;0x15a683bad5fc7;0x15feb6782ece9;0xf2f924ce6e531;0x613fc4a26e16e;0x10c7a332ca40e;0x753d2454a8424;0x69d9c2b0f63bd;0xd59aaee9dc60f;0x5de49d02978a4;0xd169e4a603f];[0x0;0x1737f457718ac;0x10984a8113d9c;0xae22f089d6422;0x4aa914cdc64e2;0x96598e20b12ef;0x359bb6337ebd8;0x2b5efd00bd7df;0x352ce6625745b;0x6a1bb3cb1e93c;0x3b5a5b9c17c6d];[0x0;0x1dd204d8a302f;0x7abba297aacfa;0x8f0f49d6b33cd;0x8f34b957e68c8;0xca594fc680a40;0xf56e7f24490e8;0xea1897a8f373e;0xc5a4fce98b81c;0x91c193de91f6;0x3850e029a78]]);
 ((V [0x2333099d1bc50;0xcf8a52fa45487;0xa95e376f187ba;0xe62411482d386;0xa494a57fa66c7;0xb1db28485ea7c;0xced176cb0cc97;0xf60704050e972;0xd05b6227648a7;0x53c46a04b0d] [0x7dfa4a67c4ab8;0xd44338fa688a8;0x96a8c9c734fb;0x421c72cc28569;0xcfaa28b5e4041;0x8886d4d1851b;0x27d476b9d63f9;0x10ee474b61c04;0xd2713d0cae0f7;0x2adcf644e0b] [0x87129d6f90430;0x2a05711ad9fa4;0xdf7eb481809ac;0xc3e37ce0c3eb0;0x9949457528cda;0xa58bbde591d69;0xcbcc9d7b6c6db;0x551f3ae66a5a6;0x6123ea951ce1e;0xb1d69b3644a]),[[0x145c9d5c94398;0x56ed99bbd9d35;0x3b3b5c733c01a;0x373c9a57def42;0x1d5e52fb7c0fd;0xf4fda1cdb1f0f;0xc6c893c1976a5;0x64e56befcc39;0x2e4f9102b9233;0xdfa52fedcad];[0x88606cb29d53d;0x734e3aec0be4f;0xf9ceba0568bef;0x189c942b3c4f2;0x318103d2feab8;0x3984f81dc9ae;0x9062d3f7d33f2;0x688a79b38b3d8;0x838e4b4a775e2;0x37c11ae9752];[0x7864b614ab862;0xa385f56406f15;0x6bf832027483d;0xf8c8b9ff1e36d;0xf266ac94323c1;0xbf3b44bbffc60;0x44b36986664c;0x3d1b4e8189ed7;0x24c2a9e78b099;0x84dcd1d5972];[0x7864b614ab862;0xa385f56406f15;0x6bf832027483d;0xf8c8b9ff1e36d;0xf266ac94323c1;0xbf3b44bbffc60;0x44b36986664c;0x3d1b4e8189ed7;0x24c2a9e78b099;0x84dcd1d5972];[0xcf3474a71e613;0x70691483a9b88;0x27e1f1dabfd75;0x60501f9e7453d;0x4d6cd8c8e8776;0x310280aab3aa5;0x93654b208a8c1;0xcad9933bb1d83;0xb8ead0fec82ae;0xce4755fabc0];[0xb92bf80b7ecf2;0x2e52668622c6;0xd1ecc82aa8e7a;0xb84c748cc7fb5;0xe4142b0a16341;0xd295ced728f08;0xfcfd88d748b30;0x9db0e677d9654;0xcaa37a4baf333;0x6979c4eeb91];[0x0;0x82190dd0f52b8;0x4649a0abfe823;0x417215e104a0a;0xc4a4bae0775e8;0xc7c51ef93ac73;0x68452b14066e6;0xba2c5fa0d96f1;0xf112878ab3c4f;0x42d72652fde83;0x52297a3375f];[0x0;0x1c9b3dde13975;0xa3e4cddad55a6;0x774ca8eef0cae;0x53080e8d7dffb;0x723d7bedd2b03;0x51db5e86ab7eb;0xc8c6058c50cfb;0xd89c0b7fcd71f;0x9747d06c563d7;0x741215fc418];[0x0;0x1dd204d8a302f;0x7abba297aacfa;0x8f0f49d6b33cd;0x8f34b957e68c8;0xca594fc680a40;0xf56e7f24490e8;0xea1897a8f373e;0xc5a4fce98b81c;0x91c193de91f6;0x3850e029a78];[0x0;0x1dd204d8a302f;0x7abba297aacfa;0x8f0f49d6b33cd;0x8f34b957e68c8;0xca594fc680a40;0xf56e7f24490e8;0xea1897a8f373e;0xc5a4fce98b81c;0x91c193de91f6;0x3850e029a78];[0x0;0xe4397f93166da;0xbd084a431756;0x248d9e8708d87;0xebb35d5965775;0xb7893a1ce3af7;0xca66dd8cd212;0xce63b1a8b9eed;0x94b936bd2f4fe;0x8b5aa7bbceabb;0xdbef84e80d];[0x0;0xeded8c8a1249;0xd76d272e1b398;0x1d218f078faa9;0x9160430efdfd3;0x2323f35172203;0x32f6fd3cbc5ac;0xe65a3b9022fd6;0x92349bd5ef9b5;0x3e8233875adc3;0xe6b88776e7d];[0x0;0x5a028831b2084;0x98613dfaa279b;0x59eed4c25ac01;0xaa881962e450c;0x913a495bb63d8;0xbd7ebcd5ace5f;0x162286c877487;0x8d4d2c6504d4f;0x7b8d95e431650;0x123e62a9466];[0x0;0x3bbaa910c8400;0x3bcbddfa18de8;0x244b63de3cb42;0x2fd2f2dd413ca;0xa3c76e901c6a3;0xfe81bc0071112;0x275d3058cab6c;0x32d75ea999d;0x14cc68b5be68c;0x2afe7d6d259ff];[0x0;0x387c4fadb2030;0x3505d29160383;0xbfd4c8e8d1ca4;0x7027df2eb8f55;0x146182cceabd1;0x10fbe0ccdefde;0x30ca6a46bcb12;0x5e0e2b4516e72;0x2ada3f0a41544;0xe0686c528a]]);
 ((V [0x8d53a415ad268;0xfcb470dba1efa;0x96dac4e7a1922;0x676ac813920c1;0x65a29838ecc06;0x7349fe0141ff;0x1fa90d60d3d80;0xcfb05a1ee758b;0xb6828d68df4ea;0xbd344200c33] [0xa138c7c72e0be;0x6a158ab0cbeb5;0xd97341ec815b8;0x7b12b5ade0062;0xc94a12a2c0622;0x36671db13b954;0x3c695a261d152;0x9b97b5d56ac0b;0x8e09dfc8e0a27;0x15dc233535a] [0xa5800a9307a37;0xa3a22fff15a0b;0xc179905d7db92;0x5e047fd9bbb0f;0x56707b2062753;0x34e4742b0a778;0x97bac183b2284;0xa2925cb180615;0xb09548dc985e7;0x55990fa1e55]),[[0xd64a45443f3a4;0xdea1058f8fb51;0x4e6d2c04ebeff;0xbe2aacb03084e;0x74f3feeeb21c9;0x7fada6b396076;0xa82fdde14048;0x1e649b2983e74;0xd36a363db129e;0x4064bb95d85];[0xeb707580b998e;0x36c29498d96be;0x2a03557d6e969;0x54a8fa7b79c78;0x8233d8990acf3;0xb4221f2d02875;0x4b6a6b740636d;0x2f3a3c13be90e;0x234d84b5e9bd0;0xbed07987a5a];[0x87129d6f90430;0x2a05711ad9fa4;0xdf7eb481809ac;0xc3e37ce0c3eb0;0x9949457528cda;0xa58bbde591d69;0xcbcc9d7b6c6db;0x551f3ae66a5a6;0x6123ea951ce1e;0xb1d69b3644a];[0x87129d6f90430;0x2a05711ad9fa4;0xdf7eb481809ac;0xc3e37ce0c3eb0;0x9949457528cda;0xa58bbde591d69;0xcbcc9d7b6c6db;0x551f3ae66a5a6;0x6123ea951ce1e;0xb1d69b3644a];[0x971a97d2c068b;0x4c283f898d52b;0xf1792e605513;0x11ebe706d95c0;0x4d3eeefcd19e2;0x871d069b892a1;0x7b8783ffbcee0;0xf1f86a96d04e9;0x1b4dd27a109fe;0xf993369b872];[0x5455ddadf90cb;0xea9a550f4c193;0x1aebc29769455;0x42bd1374a06b8;0x34f4e99c39311;0x2d051891795d4;0xcfe2e7744948d;0x3d41d17cee424;0x7ffb23bd91d1;0xc53d42ec1e8];[0x0;0x304ec9d6b09c4;0xc5ae84c3d8703;0x17e9c8294f6ba;0x293b71a789b40;0xfcf09f7f3d904;0x6768b7f9b5af;0x1a96ff3ab9316;0xc900cd3260eea;0x655e6e27b0db7;0x6df996019ce];[0x0;0xbfce565dd593e;0x346bec1668bb6;0x2dfc942f41e5c;0x8390f8ad6b13f;0x6ec41405236f7;0xd99db29875d1;0x323dcd0b91604;0x56f9264128494;0x3240b012e7ef1;0x2cbba0f20df];[0x0;0x387c4fadb2030;0x3505d29160383;0xbfd4c8e8d1ca4;0x7027df2eb8f55;0x146182cceabd1;0x10fbe0ccdefde;0x30ca6a46bcb12;0x5e0e2b4516e72;0x2ada3f0a41544;0xe0686c528a];[0x0;0x387c4fadb2030;0x3505d29160383;0xbfd4c8e8d1ca4;0x7027df2eb8f55;0x146182cceabd1;0x10fbe0ccdefde;0x30ca6a46bcb12;0x5e0e2b4516e72;0x2ada3f0a41544;0xe0686c528a];[0x0;0xf9eb1909978a3;0x2463ded7c69e4;0x779bbcd008e1c;0x4d3b865fc6c4d;0x3d0782d4e171c;0x753a8570994f7;0xef4653fb79841;0xf4f2012138a0c;0x8c8615b73d675;0x72d3f86cd0];[0x0;0x1909af7fefa23;0x1666aa25c2556;0x2c412de67a5;0x1a058318061d3;0x49bfa8a7d38c0;0x1ec747429c2f0;0xce1d7e6a48e42;0x7e916764f6b29;0x606b1e3112124;0x1b68f3718dc];[0x0;0x1838885e7a88;0x75024a8a9f8b9;0x53e774a5d0cc6;0x3aa378641465d;0xb6a74fc908c63;0x6a43195131129;0xe933d629e4396;0x80c40967f8c72;0x72ebb47fd3c5;0x8d06dd4425b];[0x0;0x3641054781553;0xcaba7a2f3d14b;0xc1cf6fb7b385;0x27e8a9ddf5af8;0xa51a5cc43538b;0x6cecb77201b67;0x836b957c43e8a;0x1b991490bda29;0xb1abfe7fa8f3f;0x15e1b4290c239];[0x0;0x94aca9dbeed3f;0xad896efc79b0c;0x470db757c0331;0xd19a8d5818c8b;0x43b454d7e15ff;0x9b39f8a5f4d2f;0xb92b49cfbd393;0xc3a22f00567f4;0xc0d6a5d9d292e;0x1027fc58412]]);
 ((V [0xba5b862e98d06;0x7ba496eb72ca8;0x7703dbf12ba28;0xfa1a7774c3b19;0xbb010b85507f5;0xc6dfccf249541;0xc62497a4eac8a;0xb1a096c9c7bcc;0xcdf1120c882f8;0x360cc4b6b1d] [0xd2c06b3cb7dd6;0x2e27bdbc6fb2a;0xbc362bb1e0d37;0x15ebea0445e47;0x45966426e7265;0x227c39c1700ee;0x5d47f55ab370e;0x870f0e366c15e;0x4bd456dfd3a21;0xe3b0e4f7389] [0xff0b05322e15b;0xf70ed0edadcd7;0x53c228484887a;0x332cfa5202648;0x4a8948f9bfd7d;0x121502adc7d1f;0x5ab77639f1da0;0xcc07cfc761f27;0xb1fd2ab95b298;0xe93b1769a28]),[[0x4e8276c1aed2d;0xc71c813dd1cd8;0xfaf792cc0d4e1;0x123d56e4ebc90;0xcbbbc9eabf716;0x6cb0ec159064c;0x5687d30d008c4;0xef20b1bb649e0;0x1046c408d5186;0xdee568b71a0];[0xae5c8d00e7ac0;0xf201443bbdd94;0xe5f3f9d66a225;0x100dda2dcedb4;0xfa37a3b5acb39;0x192ce7a7b046;0xa9376311eba41;0x1f726fc74dae;0x6024a976c18bb;0x20c8b332ff8];[0xa5800a9307a37;0xa3a22fff15a0b;0xc179905d7db92;0x5e047fd9bbb0f;0x56707b2062753;0x34e4742b0a778;0x97bac183b2284;0xa2925cb180615;0xb09548dc985e7;0x55990fa1e55];[0xa5800a9307a37;0xa3a22fff15a0b;0xc179905d7db92;0x5e047fd9bbb0f;0x56707b2062753;0x34e4742b0a778;0x97bac183b2284;0xa2925cb180615;0xb09548dc985e7;0x55990fa1e55];[0xcd3b60d808a05;0x164af43539e54;0x4333324f264b2;0xb092454f238ff;0x3f0dce7e7c075;0xf7a027d731021;0x1a9a0b17cd3a5;0x3e577f7d46cb6;0xff21d96d72993;0xae48a05404a];[0xe1212c28dee83;0xdbb6500683f3f;0xa2c0c78743d73;0x5f7b94deab4b5;0xbb29d53730ac3;0x9f2a6a34a025;0x8e9d57fa1e69b;0xc39fa77f2e0f8;0x6102d0094ef27;0x728012defad];[0x0;0xf423b66f27ce5;0xe9a6ebdd1fada;0x97eb7569c619e;0xa06507e0bd276;0xc82457965a01c;0xbe7ef1232bff5;0x61e178587dd0d;0xb8c28277a76e5;0x5e7dc52f7fa0d;0x34ef0129296];[0x0;0x9808c736ff0bd;0x1dfa5e9d3d240;0xc6fd0f66b56f9;0x295b0ee259486;0xa6f296e278aca;0xdc9644d0720e6;0xedeea8fc61408;0x5073c5264028f;0xcf118b2c96517;0x4a87707cc82];[0x0;0x94aca9dbeed3f;0xad896efc79b0c;0x470db757c0331;0xd19a8d5818c8b;0x43b454d7e15ff;0x9b39f8a5f4d2f;0xb92b49cfbd393;0xc3a22f00567f4;0xc0d6a5d9d292e;0x1027fc58412];[0x0;0x94aca9dbeed3f;0xad896efc79b0c;0x470db757c0331;0xd19a8d5818c8b;0x43b454d7e15ff;0x9b39f8a5f4d2f;0xb92b49cfbd393;0xc3a22f00567f4;0xc0d6a5d9d292e;0x1027fc58412];[0x0;0x33d555102b109;0x839b239c1a850;0x85fddb144cda0;0x2ccfd69340797;0x14918206ce2e8;0xbc93d035cead3;0xe57121562cdb0;0x5c347fa17e6b7;0x986d76b90f2ae;0x1dddb13431];[0x0;0xd2bd4c1292a5b;0xce975d940f204;0x7514b17436118;0xb95b6d03c4e94;0x859dc263a4ef8;0xd3e1731feafbe;0xd031aa5330e20;0xcc683530e06e3;0x96c99d3fd6266;0x8bd63420019];[0x0;0x656e8858fde28;0x91da65ec1a01d;0x3beef5d5f537e;0x210b01550a8b2;0x25a305439658d;0xdf3f0cb1606f3;0xfd574d10b373b;0x679d2fe7dfb8c;0x3bd996295f8ef;0x6ebf86636f];[0x0;0x87b08471fae61;0x994923f5f1c74;0x61f7717fd9654;0xac0017192f9fe;0x6b0ddbdb03ee5;0x6e2fff69b7c71;0xf53972bd97de6;0x5c75773457fb4;0x13d49fd77e31f;0xe4776d3dfbf93];[0x0;0x67269de84670f;0x1f29236247446;0x5d510e4ed211c;0x1891c1313e7a7;0x6811aea373a1f;0x29b5d3c6590a9;0x490755468dc34;0xa7e5713ec21c7;0x7d6b3a50ac266;0x3012ab8ccec]]);
 ((V [0x4e3ca545398e8;0x6031490747f01;0x38355ab53a68;0x3aac5bc9f1beb;0x88ffdd058b7ea;0x77dd8e16e7f8c;0xe71da145e38c7;0x4cbae65dd67ea;0x5d67d1bb41b52;0xd1c16c3aa13] [0xfc5abb5d67d5d;0xfe03caa5d9712;0xa8c83276f17bb;0x2e9eea52337d2;0xdae0d7de1df4a;0x63e9bc60e6a97;0x3a1dd3b130d90;0xb9b48b5474076;0x5b52db22489f9;0x55c4a13edb3] [0x1d9dd9f2d55e0;0xfb62011abab5e;0xf5f51f8799699;0x41dd2281df12d;0xe0e6219e726d2;0xc9ee95bed29ed;0x1f595acf8b3d4;0x54360af6d8ee8;0x2d434fa8090c6;0x6888cfe5210]),[[0x224ace62e3312;0xbc9cdbcf671e0;0xb7e0dbe6d30fa;0xca9f64d5043c5;0x5acb76130e452;0xd963229a81251;0x63f6ef978920c;0xed04466c5f309;0xb413bd53b643d;0x786b57d30e3];[0x3b05963678dfb;0x3e29454d6606b;0x68d7470bd5a7e;0x1a5cdad448463;0x6769ff32fd66d;0x1c68bb967c568;0xe35d7594b5704;0x4d21b4a209f51;0xa6bfb860786c8;0x209feb46aae];[0xff0b05322e15b;0xf70ed0edadcd7;0x53c228484887a;0x332cfa5202648;0x4a8948f9bfd7d;0x121502adc7d1f;0x5ab77639f1da0;0xcc07cfc761f27;0xb1fd2ab95b298;0xe93b1769a28];[0xff0b05322e15b;0xf70ed0edadcd7;0x53c228484887a;0x332cfa5202648;0x4a8948f9bfd7d;0x121502adc7d1f;0x5ab77639f1da0;0xcc07cfc761f27;0xb1fd2ab95b298;0xe93b1769a28];[0x7cc52b69b22f4;0xe519b3aec5bed;0x38f35d46b519c;0x89e4c5a12bbd8;0xf43d66a18788f;0x6875a76f3dab2;0x951c1d7dcb06e;0xd408bb4f53060;0x4c7138337e940;0xafe59d46e82];[0xbe406accc68cf;0x590f919ea047d;0x2fe3e9c5208e1;0x907815331c88b;0x732c989175ddd;0xb3f314273eab5;0x4e415816ea695;0x7918f952b6ef1;0x5a4e802cf9d87;0x70ba4dffc2c];[0x0;0xf0beb34cac4b2;0xa7cf7aa6839b7;0x157bc51d60fce;0x2c7207fd55095;0xe1c2db4bb6807;0xd1518b3d3f913;0xfc1eda33a2dea;0xbfb867c7e280e;0x8d25c98445bc9;0x903ac6e9711];[0x0;0x315aa4c30753d;0x3ee5f80e37233;0xa04932419a674;0x5b973281e6a04;0xdef4e247aab33;0x2b06a9c9a26a0;0x7ec49c2b308e2;0xff694949f19a4;0x890b3fe084614;0x6db57eafaaf];[0x0;0x67269de84670f;0x1f29236247446;0x5d510e4ed211c;0x1891c1313e7a7;0x6811aea373a1f;0x29b5d3c6590a9;0x490755468dc34;0xa7e5713ec21c7;0x7d6b3a50ac266;0x3012ab8ccec];[0x0;0x67269de84670f;0x1f29236247446;0x5d510e4ed211c;0x1891c1313e7a7;0x6811aea373a1f;0x29b5d3c6590a9;0x490755468dc34;0xa7e5713ec21c7;0x7d6b3a50ac266;0x3012ab8ccec];[0x0;0x7d5c4dda4d490;0x301ba50407bc2;0x7b1a7d54bdb2e;0x126c570188c12;0xdee730bacc0dc;0xd0e98c3684413;0x65a3970948e08;0x7625daa3c2550;0xedfb48d30a266;0xca83304a0f0];[0x0;0x1a6d2b87ef603;0x5e56c5f7d1917;0x3f422c4a15e8a;0xb4e8f1f67ed93;0xfdcfc8d04f1b5;0x889c1e77394c4;0x57c5ca8bf705b;0xaf0be6456e7c8;0x21d8bbaa23ba0;0xb6963a01b5];[0x0;0x3b4ff40f2b106;0xfe83ad20280dd;0xa13f5a285fcdf;0xcb064dba4bc56;0x2896a19aebeb8;0x2634a85bb9988;0x9ab1136563f15;0xe02c2e4141d10;0x8ca6a27205acd;0x1abb357001d];[0x0;0x5fb923fe98d0b;0x38d8e723cf6e7;0x6c9d16ddc3a57;0x1349b2a0c4d38;0x18a1732116aee;0x7c083a9d4ddd7;0x85d83df53f016;0x9882beac82a4f;0xe1e77c5eaf724;0x560f77b7fee26];[0x0;0x79323a542ae58;0xe969159271116;0x92ce7e4e0f44;0xb29627ec660d6;0x5a6b48180956f;0xe8c3afd6854c8;0xc7247e06dc20c;0x2b8d9b6461e4d;0xfdc1a6b72fa1d;0x4646552479e]]);
 ((V [0x189daccefb52b;0xb4434e0101e37;0x73ff1a886339c;0x9093656033d35;0x86bae93a6004f;0x98aef1e3274ee;0x8eecf4d906186;0x30bc603d22b2f;0x36d9f48f01406;0x4b7c2d62aea] [0x36cbd9475c95;0x4462ae8c9606c;0x9df522c23213c;0x797dbcb2e6e7d;0xa046fd0ce4bc6;0xbdd7a5ee4b2b6;0xfe1703501e0a8;0x4246f70369a64;0xa18b4f737ed7c;0x6a9154f9007] [0x5ac2658e6242d;0xecbddab36b560;0x8cebb5a707091;0x445c5d1ada10f;0xf386e4ee0081a;0x4d050a9fec327;0x332312bfc674;0x3b873928c958d;0x787d9e53af6db;0x135dc878a78]),[[0xefdbad7aea0df;0x2a2f6b27575b3;0xb56983ce9a792;0x9c87e16b7a27e;0xf034056f00405;0xaeb92c5fef897;0x9167965bf2d97;0xe26ab5e41fe4a;0xe8ff63580e5b4;0x2a96e700862];[0xca5f250da8e6a;0x2ffc05a558ca7;0xe45fc92db8370;0x33a9305a5641e;0x18087c798fcea;0xbe6aee065b0c6;0x6b82af6a4255b;0x12c5c439012e1;0x2c95a47475b1a;0xc4af78362f];[0x1d9dd9f2d55e0;0xfb62011abab5e;0xf5f51f8799699;0x41dd2281df12d;0xe0e6219e726d2;0xc9ee95bed29ed;0x1f595acf8b3d4;0x54360af6d8ee8;0x2d434fa8090c6;0x6888cfe5210];[0x1d9dd9f2d55e0;0xfb62011abab5e;0xf5f51f8799699;0x41dd2281df12d;0xe0e6219e726d2;0xc9ee95bed29ed;0x1f595acf8b3d4;0x54360af6d8ee8;0x2d434fa8090c6;0x6888cfe5210];[0xb7927a8376566;0xc2eebd9012f9a;0x66d29c6800981;0x5ea37d60f06fe;0xeff04750aa437;0xad7009440ea3c;0x844cb7a8b168e;0x6337718103c7f;0x3310cb00ec02f;0x86f9d0450a0];[0x12ccaa8a326cc;0x6d0d481545d0d;0x7d8d2cc5b79ee;0xd505b2f965d20;0x28183528e58b2;0x10fae4c24c689;0xe735f7c190ecd;0xaf8e52b7fd661;0xf984d97389aea;0x8551273e58e];[0x0;0x318f847f2f5d7;0x9a9a6830d44c4;0x48e607c172df7;0x963022669c7f1;0x992ab3bbf451f;0x1a5c93a24c169;0x94bc6b6eed8dd;0x26119640f6e78;0x8aa95fb1a42f0;0x40a4d8ba710];[0x0;0x81463c162ba9a;0xb40b4300085c4;0xcaff40e661d9;0x46b05d92300d3;0xfe302dca1a579;0x5f78d9b238968;0x876f7762fe433;0x2b93929c1a4b0;0xe2f72d584cf92;0x11641099120];[0x0;0x79323a542ae58;0xe969159271116;0x92ce7e4e0f44;0xb29627ec660d6;0x5a6b48180956f;0xe8c3afd6854c8;0xc7247e06dc20c;0x2b8d9b6461e4d;0xfdc1a6b72fa1d;0x4646552479e];[0x0;0x79323a542ae58;0xe969159271116;0x92ce7e4e0f44;0xb29627ec660d6;0x5a6b48180956f;0xe8c3afd6854c8;0xc7247e06dc20c;0x2b8d9b6461e4d;0xfdc1a6b72fa1d;0x4646552479e];[0x0;0x2b20d0009a85;0xc4ffb927bab08;0x77e4817ec6d89;0xf4cc4d8061c5a;0x16d4c74740537;0x691b000c0a6c2;0xcf2b07d77f7ba;0xee51ec8a61e8;0x173b63de13708;0x1cbc2a1b0b6];[0x0;0x4cf9e612308ec;0x1acc3b4ed4f90;0xf6ee0cd8b267d;0x68b7afa58a5fe;0xf1aa52780b242;0x5eeec9c7ca47d;0x19f9f7cfc55e5;0xf8661a630bee7;0x280d88ec35d59;0xabdd64dc196];[0x0;0x16babf682f2ff;0x75824003f9b12;0xac4fe99b2aea9;0x93a1aa67b2de9;0x33d7a8c26496a;0x37a707003b6cf;0xb1b1b5e16e164;0x245a1678f91de;0x8b482004eaf60;0x39fed014c3];[0x0;0x407ebc8f41003;0x2daf6bd2e0797;0x46d6ca30d6723;0x82e28516a9533;0x136b6b1976a0;0x60be859916da4;0xc6997f962e852;0xca75839fd5ed1;0x7829c2ce180b9;0x6af6c848f2540];[0x0;0x584bec3d07756;0xf4861a18974cb;0xb19df47cc5ce3;0x196b601dcbe02;0xaa5d54fee5534;0x360a4dec1a070;0x8dc7a89fdb7eb;0x8b465da72b13c;0x51cb529d74d45;0x1f6c452ebc0]]);
 ((V [0xc6a73c1265d44;0x901d8d3af81cf;0x10d5e3ea1c478;0x356e4f7a394f2;0x238ccdf728f6;0xe4a808c9de6e4;0x99086c3510fa1;0xd47ae177e39b3;0xf634bfd778a32;0x83141ad1337] [0x1aef0c378188b;0xa686b2bf61e56;0x5a52064fd49e6;0x68ef00bc4dcfc;0x79b0c2b1b1986;0x57a46308d4894;0xf5f28cd6e6d48;0xccd38e7f90f5c;0x5fe03b05013bf;0x159791aae75] [0xddd5b903e1f9e;0xf5ebc45d5238a;0x2f8864267effe;0x7b8e67377a3b8;0x796ec99191556;0xa0c8f1681637d;0xf93162f84f06d;0xa5b6faf99dfd2;0xe2c7443b32def;0xc9a51fb527c]),[[0xf89079567b6c7;0x93f819937dd28;0xf361849389de7;0xc47cb26fa226e;0x754ff3781704d;0x78fc7124d88ca;0x2b1fc84158022;0xadcc03b9d25fc;0xa807ac9321bfa;0xe675b3a8690];[0x3875a8a14f3b4;0x92077ddbd2f57;0x5f57652f510f6;0x4329f48d20ea;0xa34d387e16a6b;0x7d529ef7f3d70;0x45be9e55dfd9b;0x874745d0bff77;0x91653d597c47a;0x63a2a35df93];[0x5ac2658e6242d;0xecbddab36b560;0x8cebb5a707091;0x445c5d1ada10f;0xf386e4ee0081a;0x4d050a9fec327;0x332312bfc674;0x3b873928c958d;0x787d9e53af6db;0x135dc878a78];[0x5ac2658e6242d;0xecbddab36b560;0x8cebb5a707091;0x445c5d1ada10f;0xf386e4ee0081a;0x4d050a9fec327;0x332312bfc674;0x3b873928c958d;0x787d9e53af6db;0x135dc878a78];[0x8163b02fa3ca7;0x7e0fafe129ffc;0xcea871987f6ff;0x471a119b32a73;0xac9af1c5765bc;0x8e329dc51d06f;0x61dd294b974f;0x2fd16ef797b7b;0x10194775de2a1;0x56263c11ab4];[0xb711f871ab70e;0x13f7cdfaa8f5a;0x90aef396d19f7;0xbd188dad9f676;0xf6b246b8a04ae;0xef200132d6d00;0x3fa0cbc12664b;0x5775d6d9283fc;0x814bf5e39e1d9;0xd7c674c4df];[0x0;0xef8f8f8cfe96f;0x3b733606d4661;0x65a5507870a0b;0x7408cae2dbc69;0x7f6fa0e74fbbb;0xf8cae43719d97;0x61e01a73530e6;0xc0c941409b64f;0xbaccd4de861e8;0xbf9e2befdd];[0x0;0xb5cfa5bd07881;0x13a47e342f34f;0x2c214fc08cc1c;0xcb842576a8804;0x55f4c1c9da0fb;0x96cc1671528db;0x868c2431dfa8d;0x790141c7a05f2;0x283ec0f0aac1f;0x116f2990565];[0x0;0x584bec3d07756;0xf4861a18974cb;0xb19df47cc5ce3;0x196b601dcbe02;0xaa5d54fee5534;0x360a4dec1a070;0x8dc7a89fdb7eb;0x8b465da72b13c;0x51cb529d74d45;0x1f6c452ebc0];[0x0;0x584bec3d07756;0xf4861a18974cb;0xb19df47cc5ce3;0x196b601dcbe02;0xaa5d54fee5534;0x360a4dec1a070;0x8dc7a89fdb7eb;0x8b465da72b13c;0x51cb529d74d45;0x1f6c452ebc0];[0x0;0x7f64145b3e55e;0xab6d2ccb98277;0xc1c871968879c;0x2af88c5a9badb;0x3f7cf37843248;0xe99b8f783e996;0x1d17935c51784;0x1b296fbf91db9;0xc0147e7756a87;0x2c5cacdf92a];[0x0;0x2a4599f82c7d;0x9446712492402;0xedcb4e084ae50;0x11439a7f5b58e;0x3897e518c96ee;0xfdab3704eeb67;0xc8e36ea365aba;0x94555ceaa1cdd;0x8c7fd27d7d340;0x1641fed3d1f];[0x0;0x73d175deded76;0xd1ae64303ef99;0xff1a43df4be7;0x9c236fd14a81b;0x7ab3a594ab6c5;0x5607102ed8425;0xdac24ca7385a5;0xfaab648311301;0x994cb2577900d;0x33040cbdca4];[0x0;0x7da645cdc38a4;0x8b2e10106555c;0xa00e9a44b825a;0x1f62bb7ef34df;0xb4f1330a5fffe;0x1f37848fe9321;0x7cc763a8566e;0xe1a84d39f17ac;0x2625b4728aef4;0x15a4c1e78b88e];[0x0;0x9419859cad142;0x9fc26b973fdd1;0xd0ae79cd2c2b3;0x7b41b5b3108fb;0xcb4c568d173de;0xbbda26098dbe7;0x545ed58dcd0f;0x26ad1bbc48c6b;0xc4c4faa800b26;0xb0e41a4df9]]);
 ((V [0xa013b4544a8e7;0xeafe672e9ca4a;0x7c9f892ae6aef;0x216476f53631a;0x7ae35ed32ce4b;0xed043b0c5ddf5;0x9beb0fc0b56ad;0xd3c19f51ca0f5;0xcfcad0b844993;0xb7efe5adaa8] [0xb5d03ae56ebf;0x242d6e498107f;0xe9d01aef686cd;0xc85c78a9d26c9;0x5f2f11e2147c0;0xb329bc917857c;0x59991fb80bbb8;0x51f4886c61213;0xae66b62575c83;0x41b78d7b54c] [0x6f3cd2ab17d1b;0x9587ead781c8e;0xc629cbf586341;0xd521b826c2978;0x717c57797bcae;0xf88f08b3894a5;0x5b00105be7e45;0x89c98de1119f7;0xe626bf939a3b6;0x607526110fc]),[[0x6068b799be1e8;0x44e9182d6c1a7;0x4b9e283830e33;0x2c99e1e0765f7;0xb2ada77280ef4;0x117e200f450f0;0xf7146278f58d9;0x839f5306eab62;0xb7140d2fc9d74;0xa4ed4ce204d];[0xd5b6ac4f9d0e8;0xbd989efaa9fc2;0x1ae61480564a5;0x977da4d68a82;0x369e3ed248929;0x85d30b6e2ac8d;0xcd2f0f90ed6d8;0xa3a337cba3cb7;0x910655ff61b;0x528e868cd46];[0xddd5b903e1f9e;0xf5ebc45d5238a;0x2f8864267effe;0x7b8e67377a3b8;0x796ec99191556;0xa0c8f1681637d;0xf93162f84f06d;0xa5b6faf99dfd2;0xe2c7443b32def;0xc9a51fb527c];[0xddd5b903e1f9e;0xf5ebc45d5238a;0x2f8864267effe;0x7b8e67377a3b8;0x796ec99191556;0xa0c8f1681637d;0xf93162f84f06d;0xa5b6faf99dfd2;0xe2c7443b32def;0xc9a51fb527c];[0x6984d30c1749b;0x221d8a72244d5;0x2d75525afb683;0x2735978cc1988;0x8400b282bd6f6;0xf44cb17042b34;0xc9f158a9f0745;0x7c1f8e279dad3;0xf225984dc3f00;0x8d2dd2b3740];[0x6c31d94385a15;0x9b7b148885aed;0xed70c2255ae22;0xe24242c0a70f9;0xb29d8c4f8b232;0x918659fde8158;0x33db6e6fcf92;0x2783a9a4061e4;0xe6b6e083b71b;0xc560b3d9605];[0x0;0x7372f7bc97ec8;0xad030863e5868;0xa5f06c3c338ab;0xd39f1f8a8c4c6;0x1f505bfb007c4;0xb4af2754ef38e;0x6e30749f9563f;0xfc77d33f1e585;0x738e494ab991e;0x7cb26d35db7];[0x0;0x65d0024464978;0x63a8d547b77e0;0x7ccb74b209af8;0xa5fcde0a31742;0x60ba695aa80e3;0x3a48bb767ee07;0xa9da1007df9e5;0xac7240fcec993;0x9220de346d18d;0x81e8b2bd753];[0x0;0x9419859cad142;0x9fc26b973fdd1;0xd0ae79cd2c2b3;0x7b41b5b3108fb;0xcb4c568d173de;0xbbda26098dbe7;0x545ed58dcd0f;0x26ad1bbc48c6b;0xc4c4faa800b26;0xb0e41a4df9];[0x0;0x9419859cad142;0x9fc26b973fdd1;0xd0ae79cd2c2b3;0x7b41b5b3108fb;0xcb4c568d173de;0xbbda26098dbe7;0x545ed58dcd0f;0x26ad1bbc48c6b;0xc4c4faa800b26;0xb0e41a4df9];[0x0;0xa29246b43fa32;0xe4ca51304d4a;0x1bd42664ce780;0x10891d90232a8;0x1b0484f2570ec;0x93b6ed75c1782;0xe70c16a5772de;0xf746c2747c2e2;0x40f45bc48f9a2;0x1d237a3347];[0x0;0x9cc9d4f495c2d;0xfc4a1452eb19c;0x62f6fa60c024c;0x2e68bec8d8b9;0x7901c03e13b68;0xdb61d667dc4c3;0xe035584132340;0xb58fea6027187;0x394f249cf84a1;0x431d95064e3];[0x0;0xb4d2453c098e5;0xc894d953cf67c;0xb632d0850f4f0;0xdfd6bbc8fe97c;0xa453cae67e8fc;0x139a821812073;0x395f0ae654942;0x831fe12a48e3a;0x7f00fd04e4a0b;0x3b513f4fc8f];[0x0;0xc65ff6a2b6095;0xd703a616ac411;0x21dc157276741;0xa567daf858b75;0xa9d514d0397eb;0xceed1b747eef6;0x55d58daa37a42;0xfb29b73d882ae;0xab54c172111d5;0x41e413a723e92];[0x0;0x35eb3b6ea84d2;0x33986b13e7421;0xef477b90fdd5f;0xc4c30926f9008;0x8a1268fad8cd7;0x3c4e25330705a;0xeea0183a546ae;0xbd485bdd80be3;0x338880fcf00a0;0x2f37cb76062]]);
 ((V [0x68285a466c7c8;0x6f3bd16e7f9ff;0x651393a599fda;0xc44eaa3a1efa1;0x87d99a119e335;0x6e6d78c6ccbbf;0xbaef6d7a2455f;0x92cc951eaa15e;0xd9b3f359c038e;0xa138d389c49] [0xd6d33e1245b1;0xd0a02d2e24c71;0x1991f6c5d2e4f;0x6cec10611cfd8;0xb96db222b34ac;0xfcfc940b7a5d1;0xaa026f60b40b9;0x9948140470cd1;0x32ae8fe5ab337;0x662ba7f8186] [0x8a897f47c6266;0xe0f748553fb35;0x148bf4c3242bc;0xde1d0b3643869;0xb2719691b9ddc;0xa190552abb588;0xb2b9ee495ed84;0x7e118763670b7;0x22397c31d2b3;0x1a0fc2bdd61]),[[0x25e2dd39b6997;0x49b79a5b2f45d;0xb7fc88a1fc307;0xa6652d9721c3d;0xf049793513266;0x7213a90677652;0x7b113cd00dcd2;0x700a8b968b11c;0x67cf314aef5fd;0x7d478a38a2f];[0xad966e8a92738;0x89e3e2f3c177f;0x409580bd4adbe;0x2ee80a94df7e8;0x2ce40803dffe8;0x15f9021f15ab9;0x175d20e573403;0x31e32f0786e25;0x86e49a482c25;0xf34353c9cc8];[0x6f3cd2ab17d1b;0x9587ead781c8e;0xc629cbf586341;0xd521b826c2978;0x717c57797bcae;0xf88f08b3894a5;0x5b00105be7e45;0x89c98de1119f7;0xe626bf939a3b6;0x607526110fc];[0x6f3cd2ab17d1b;0x9587ead781c8e;0xc629cbf586341;0xd521b826c2978;0x717c57797bcae;0xf88f08b3894a5;0x5b00105be7e45;0x89c98de1119f7;0xe626bf939a3b6;0x607526110fc];[0x9f45d4a75d56a;0xbc9269c0599d3;0x68ba05801b1e5;0xa4b272ee90740;0x916e2b6360820;0x5a6b4ba688189;0x9d868b3a18293;0x1f5c49cf8a1b6;0x1227db2724c2b;0xe0d9824de2a];[0xe5099e3351cf;0xcd51793367dac;0xd7db7b3d2fbd8;0x8a3597a64f0a7;0x9b75dca07f7c7;0xbb8db6788d92f;0x79d695ab5b16f;0x1286e537fcc6e;0xf6466e7d5dffa;0x1269d17be9d];[0x0;0xca2f8c1515f5f;0xec341a4fb397b;0xf2bdc992fb5cb;0x5c3586b2cdf63;0x248f39ff8dc8a;0x580ec61aa5abf;0xd661ac10f7e55;0xd905357c6224f;0xa0937bf48444a;0x3ba634e4967];[0x0;0xa676986f0d7a3;0xfa478e6f1ff27;0xf73903576700b;0xb03d086bc6866;0xe1fb8a97f97fa;0x2d577ab7fe946;0xa7a8ef8028962;0xd010925c1b852;0xfb04a70ab43a1;0x2f34282860f];[0x0;0x35eb3b6ea84d2;0x33986b13e7421;0xef477b90fdd5f;0xc4c30926f9008;0x8a1268fad8cd7;0x3c4e25330705a;0xeea0183a546ae;0xbd485bdd80be3;0x338880fcf00a0;0x2f37cb76062];[0x0;0x35eb3b6ea84d2;0x33986b13e7421;0xef477b90fdd5f;0xc4c30926f9008;0x8a1268fad8cd7;0x3c4e25330705a;0xeea0183a546ae;0xbd485bdd80be3;0x338880fcf00a0;0x2f37cb76062];[0x0;0x405033b946631;0xbbb32df0c1e4b;0x55722acf71c31;0xc0c38a1c9c445;0xa7063d57fab18;0x795582c80b68e;0x2f3686888f560;0x989e8faeb5985;0x359ea0e58736c;0x10deb974359];[0x0;0x1a123230fc44e;0xade275c24b97a;0x92f0af58fa8c2;0x87e81a9ad98c0;0xc251fb2c3b790;0x991b9a8cda51f;0x3c1b35ba90496;0x21278e00d56ac;0xa2d6f61cd47ea;0x8428db2cf22];[0x0;0xd41177d7ee41e;0x3eae72952ccdc;0xd00203a7dc7dd;0xd0e2607468886;0xde74d23a83558;0x8628f7c40b873;0x982ae460bc819;0x1a466cbed626a;0xe0b765e928f63;0x9933576fa5a];[0x0;0x8b93eb7041e62;0xafefc9c693684;0x3b18bace47883;0x55034f8fbd177;0x9f6677e6c1c9;0x75804d58da0b8;0xbee904db52d8b;0x807cbc0be6484;0xf2900e201471d;0x6630bd50c2551];[0x0;0x969c540d50a0e;0x5c269c964f6b6;0x47411cac0acab;0xa2f223baa9b5d;0x90040ea4c3b12;0x6962683acdaf3;0xd85f4768e4b71;0xecd5acf0a9ca1;0x266e253086b2b;0x4058229cbce]]);
 ((V [0xcd0a0a7030929;0x5dfad74efc8f1;0x59b1f2e313b4b;0x261f3a1bcd493;0x4d8b11dcdc920;0xd27373c0e271d;0xd068b615f9c2b;0xafc904a93b73e;0x7c7c65badad38;0xa2342e6b8dd] [0xaf473d7e35a81;0x822ad5826ad68;0xa0f5d016ff88f;0xfb10a608c8ff3;0x7e41b04883383;0x76fb2d669d380;0x6829c8856d9ba;0x9130f47aab1b0;0xf404695e846f1;0x7dc09f78355] [0xcfe5b3397efb3;0x7d64099e020ce;0x1ab7221cfe943;0xb72d2bf1eac32;0xf25a902c72352;0x372af92f081f3;0x9032a14f5746f;0x8febdd79942fe;0x44a2090264b40;0x9f12e7c9ff4]),[[0x9b834eb988ff;0x626eab80d5384;0x845b194e44bb0;0x8f2f466ec60ba;0x3b7a41caf5cf;0xf907d81ffed93;0xabbc1523971e9;0xb07b439fafc7a;0x74ea4f89897d7;0x851b3d7b70b];[0xe9cb46aa16529;0x9255cf89d5ecd;0xbca6cce8d8a1a;0xfed921b58b6f9;0x661870bc0fe6d;0xd807572e33be5;0x2371036b5764e;0x252d1e522df27;0x947a3a69b8646;0x7980b680935];[0x8a897f47c6266;0xe0f748553fb35;0x148bf4c3242bc;0xde1d0b3643869;0xb2719691b9ddc;0xa190552abb588;0xb2b9ee495ed84;0x7e118763670b7;0x22397c31d2b3;0x1a0fc2bdd61];[0x8a897f47c6266;0xe0f748553fb35;0x148bf4c3242bc;0xde1d0b3643869;0xb2719691b9ddc;0xa190552abb588;0xb2b9ee495ed84;0x7e118763670b7;0x22397c31d2b3;0x1a0fc2bdd61];[0x710fce1fed5a8;0xd4b592803d5d8;0x8d59e624ea991;0xcbd9d35c254f0;0xe219dba9c132f;0xcf14403dbb7b4;0x70b268372a70f;0x53e1b398e0a3;0x229ae19712fa;0x8cc369a4aef];[0x78bb788a28d49;0xbda03d09988f5;0x2f4ce6c3ee088;0x32ff4e5966209;0x83fe95124eb3e;0x8f316f078430;0xb2be9b342cf3f;0x1fef03189fe83;0x92508c504734c;0xecbd4cdbe46];[0x0;0x44bda001db817;0xa9ff5bd274353;0x30100783eba1a;0x114daee5c959c;0x6f7449dc75c51;0xaebb4e4aed648;0x5aee1ec0c0173;0x248e50d6473dc;0x7528eac39d280;0x101dce943d3];[0x0;0x3304250d03207;0x199399ce0aee;0x1d9898dd23041;0xcf1d20888bacc;0x6ca5d824f5d1e;0xf0e1828157715;0xce0d2dbae22f5;0x77ec10b4537e5;0xf512c07969abf;0xd8cf6187ca];[0x0;0x969c540d50a0e;0x5c269c964f6b6;0x47411cac0acab;0xa2f223baa9b5d;0x90040ea4c3b12;0x6962683acdaf3;0xd85f4768e4b71;0xecd5acf0a9ca1;0x266e253086b2b;0x4058229cbce];[0x0;0x969c540d50a0e;0x5c269c964f6b6;0x47411cac0acab;0xa2f223baa9b5d;0x90040ea4c3b12;0x6962683acdaf3;0xd85f4768e4b71;0xecd5acf0a9ca1;0x266e253086b2b;0x4058229cbce];[0x0;0xc0521cffb8f7f;0xcb4b915034f90;0x2cf508fde232;0xc851944cc1c56;0x3b91402e073e9;0xb5c4b7d357280;0xa3b557ebc4522;0x8f77b72416cf2;0xcd7c2b9679705;0x28c6d14b8ef];[0x0;0x3f03f49ffb551;0x9ed2dca374da7;0x9bdb55056b6d3;0x9c13562c131c5;0x15d218916ef90;0xe00573b86b3f1;0x4fe94eae15f93;0x5a2a2fd341dd;0xa67942b1c382;0x658886b0846];[0x0;0x20731ac9327a2;0x200c0b93ba573;0x2afeaa4b402a5;0xe2cad36370f35;0xe01ce07f90867;0x5e7e6a4d2ada4;0xeb941c2193b8f;0xd6098d89a39aa;0x61e1f07eed164;0x4cfc37aa9c4];[0x0;0x6dee1ded5cc3f;0x4ed5197db5b16;0x55da0ee4785d7;0xb9bad48ab5d3a;0x1d2c2872ff39a;0x5d492193b7072;0x4a54d037febef;0xf545e2246c46d;0xa29144f8fbb9d;0x7e02b0d257ed3];[0x0;0xc19e480dd205a;0xae70be95c6e14;0xf0f8e96aae199;0xb034faea22f46;0xbb1971d6bc4db;0x4d95b1f6ce4e2;0x7a87b87f8aaa7;0x5db8691aff37c;0x8759874e4d752;0x4fad86d7e80]]);
 ((V [0x2ba3269efb4ec;0x6a680ecb9c0d0;0x869c08736e2a7;0x984c669de7b92;0x153ecf09a3f94;0xd6719df208a77;0xc13960c5724ec;0x397b0543e7b3d;0xc60e08de6f2;0xfe161583e18] [0xaa70e30c0ca34;0xac9dac5cb27d1;0xaa98337b47e55;0xaa5471773f499;0x82c8761359acc;0xa48c7bf9d6983;0x6a7313cb6ac8b;0x43e82c870ca33;0x31936eec44691;0x8cebb94f05a] [0x9226f9505482c;0xa6241eaaa8b3b;0x14dd78acd1b2d;0xc58a18a189833;0x1bbf052bca89a;0x3d19dff24066;0x6f47c1ac0165c;0x5062dacc97a99;0x57839794105ae;0xd9e0454ba8f]),[[0xc93df58092890;0xcc4da7d3e9769;0xcf4440486a2a5;0x4af8547263aed;0x8614a57968b5d;0xd288aba0687f9;0x88b65d78d2fd3;0xf73ada0420f62;0x76184a2d6725f;0xc8e7d4af998];[0x38b2c54cde925;0x37e14166f003c;0x54812a3403379;0x3de90998dd09e;0x6c8d0c779781e;0x4bd4468c8acb1;0x189999cd2536f;0xe1216b951e452;0x474da5c0fc05f;0x7f42e143478];[0xcfe5b3397efb3;0x7d64099e020ce;0x1ab7221cfe943;0xb72d2bf1eac32;0xf25a902c72352;0x372af92f081f3;0x9032a14f5746f;0x8febdd79942fe;0x44a2090264b40;0x9f12e7c9ff4];[0xcfe5b3397efb3;0x7d64099e020ce;0x1ab7221cfe943;0xb72d2bf1eac32;0xf25a902c72352;0x372af92f081f3;0x9032a14f5746f;0x8febdd79942fe;0x44a2090264b40;0x9f12e7c9ff4];[0xede16f544edb6;0x472d047869869;0xcf68805a7b708;0xcb154db0fbc66;0xc7fcffe1c34c2;0x1530805146a1b;0x93af4293c4b72;0x9ad06d7117c27;0xc405434ac45dd;0xfb6b339a82f];[0x4ad155f88f937;0xf0b43cee867d2;0x8518a9d987c70;0x72d3bbe7e1437;0xa4900c95d435b;0x36a3c63b44295;0x84ea5739607fd;0x4650fe240682a;0x8348627637a82;0x83d7ada8c48];[0x0;0x794dd96e7ea0;0xe5e59cb26cf68;0xd746da06f7bae;0x6f83a4261427d;0xd95ebaa02f51c;0xd698528a3fd89;0x75ff868133d89;0xca84fd99019d6;0xa27299b890c49;0x625efc05105];[0x0;0x982bd7aa6bc1d;0xbd07ae30aaf01;0x18b3fc69770fc;0x18b84dbefb5a4;0x92da7f4d9ca97;0x2cc5d80fe6f21;0x66ff5dbae78b1;0x4810e2c76e73c;0x8d71aeae953b9;0x7cd6d34dbbf];[0x0;0xc19e480dd205a;0xae70be95c6e14;0xf0f8e96aae199;0xb034faea22f46;0xbb1971d6bc4db;0x4d95b1f6ce4e2;0x7a87b87f8aaa7;0x5db8691aff37c;0x8759874e4d752;0x4fad86d7e80];[0x0;0xc19e480dd205a;0xae70be95c6e14;0xf0f8e96aae199;0xb034faea22f46;0xbb1971d6bc4db;0x4d95b1f6ce4e2;0x7a87b87f8aaa7;0x5db8691aff37c;0x8759874e4d752;0x4fad86d7e80];[0x0;0x5670510f07a5d;0xe6c53fd7c8c03;0x3cbb8c4bb8ff9;0x7dcc1f6d859d8;0x18726b39e3835;0xe8bdc26d5a4d6;0x20b479ea64661;0x629efb30945e7;0x59e63be8a3623;0x3dc5acaafbc];[0x0;0xaed6442e2ddd6;0xe1c2463721284;0x6296ea4bb7d92;0xdc1299e8dd5c6;0xbd0055c97ec5c;0xf66368ac8aeb2;0xca67fe4634b36;0xd7024ae29f5b4;0x18ca9a160be7e;0x66c6156303a];[0x0;0xb1e072ad3e34e;0x1b46520ee9517;0xc92b759b497ea;0xb4bb2d307816e;0x1655035146e55;0x1a46872ef921e;0x101efb4af4d54;0xe08278432bdd1;0xacb32373d1cc6;0x7e4f55f2288];[0x0;0xcc73103f0e77a;0x12f26cbbf98dd;0x70ab7b1e22c7e;0xbb6394f10207d;0xd7dde5fec036e;0xace8b183a62c6;0xf18b901c23a01;0x25a66788db183;0x2b4b0a4e4e6c0;0x8d329746a077a];[0x0;0x7b1653a7aa21c;0x48c52ca8e8326;0x540468ada556e;0xe459cbf726ba1;0x94b9dcdca7ef2;0xcb44cb3d62f77;0x38602cb8143fd;0x742b5610bdec6;0x7487a6b4f674b;0x8bde09f6435]]);
 ((V [0x251eaf8059c9;0x3e4036ce9b73f;0xf362fc753afa7;0xe7e56d6cb48;0xc8850db394c3a;0xafe6aaca5fbf8;0x819c52332a699;0x7047f58021039;0x2520d267c6da1;0x907b4b8ab22] [0x41fc24672334e;0x8d985a1126043;0x541c5d1a76496;0x5d342f98f075d;0x23099cb9ad870;0x4f2da8cc0caef;0xe76e3bbf0dae4;0x9ab46f485a247;0x7dbb10dd1e0a1;0x72c0f93efa4] [0x1a077f87260ab;0xca73d5445c233;0xdd2ba1e1ece4d;0x98ca7b1df1b74;0x9c5e0d1bf5d8c;0x942cac74f520;0x8f048f4835db7;0xe8be16b007715;0xe3bb0844df06f;0x95334bad4a5]),[[0xdba51a25d8a50;0xdc5cebf3d6294;0x7da20cab82234;0x2d1d5169875ef;0x7edf2f49aa9d8;0x38559cc5e443a;0xf9233b3c4b472;0x665ee3bc8783e;0x89229ddf6c8ea;0x526e8dd36ef];[0x1081ca30ba82b;0xa11335e160893;0x359b19c8b0f21;0x76c834dbf6639;0x79e3e8e7489bb;0x6c93836287282;0x7c93087976986;0xaddd6799249d7;0x1cc0b91da13f9;0x5d1cbbf0b01];[0x9226f9505482c;0xa6241eaaa8b3b;0x14dd78acd1b2d;0xc58a18a189833;0x1bbf052bca89a;0x3d19dff24066;0x6f47c1ac0165c;0x5062dacc97a99;0x57839794105ae;0xd9e0454ba8f];[0x9226f9505482c;0xa6241eaaa8b3b;0x14dd78acd1b2d;0xc58a18a189833;0x1bbf052bca89a;0x3d19dff24066;0x6f47c1ac0165c;0x5062dacc97a99;0x57839794105ae;0xd9e0454ba8f];[0x8d319fa4094e3;0x6e417052d716f;0xc5a03f4ecc9e1;0xabcaab6ef5ef6;0x68ec1e6c9d117;0x7b5c3abb0a19c;0x6139e6ca55eb4;0x8fcfb184184bc;0xe74dfb79d1bb1;0xc15e4c45c61];[0x83502a8cb1110;0x32d1c58e89723;0x6ffada79e4540;0xcafd896d00742;0x10f7ca7aab8a3;0xf13748a77d0e6;0x1b5921af20ad1;0x1e0db6150c51b;0x3572bda3cf848;0x9bbe6faae9f];[0x0;0x1e891bb84a510;0xa57559b473d14;0x1e9d9936a2d68;0x99510e5a79172;0x1fd8edaafd655;0x8c94c97f7a114;0xa4ea9a3feea4a;0xc43d3a553e0c7;0x7c10430461b7f;0x86bbf697b5b];[0x0;0x386b40939c3;0xdc48ff3955221;0x76d7a7f63e013;0x3ecd5d3a91e60;0x1830494c10d39;0x1a69ffe946f09;0x2323c2fdf1c02;0xdada2ae76c530;0x6eed6b450b82c;0x4627ed447b1];[0x0;0x7b1653a7aa21c;0x48c52ca8e8326;0x540468ada556e;0xe459cbf726ba1;0x94b9dcdca7ef2;0xcb44cb3d62f77;0x38602cb8143fd;0x742b5610bdec6;0x7487a6b4f674b;0x8bde09f6435];[0x0;0x7b1653a7aa21c;0x48c52ca8e8326;0x540468ada556e;0xe459cbf726ba1;0x94b9dcdca7ef2;0xcb44cb3d62f77;0x38602cb8143fd;0x742b5610bdec6;0x7487a6b4f674b;0x8bde09f6435];[0x0;0x51b72020bf0eb;0x986cf5eeef21e;0x316d88e9ac111;0xca547f1432c47;0x695abe753f0c7;0x9bbfd156cfa2;0xcaf1bcd40e9d5;0xbfdd9de268559;0x20b8e953bc56c;0x4d92abbc2b6];[0x0;0xbb640c4f31380;0x3a8ed36b4b8d2;0x66c4f4948b889;0x42073de586456;0x9460d4cde902;0x5a18b0846833d;0xb48b703a64765;0x2103507fe2898;0x3c181eff71478;0xfc2fd49967f];[0x0;0x6dbbb0dea982c;0xfa7696a7f2d4b;0xeb494af4f8ec4;0x49d5e427f72e0;0x94c79b1b63876;0x7e5a03cc33e62;0xf0a4861357ec9;0xe08691269c01;0x5e4fdf9050c88;0x348d01ff8d0];[0x0;0xd3ec404fdc7e4;0xed276cdbc2306;0xdc37b0965301c;0x64be7d6140d57;0x25f433b1942f7;0xbcccb860419f5;0xae8a19d70bd1a;0x467b480c3016c;0xcc09395ed7c2d;0x7309fd3c53446];[0x0;0x39a94143d29d5;0x7f95d3dea6ea0;0xebbc98b5335e9;0xdcf17618f909f;0xbaf6720e27207;0xe6bbbcc956e39;0x50cfa74436159;0x633b0a690a4ed;0xb16b73772f6;0x40c3d0c7e2f]]);
 ((V [0xb5233bae64ed8;0x5704db65e2af8;0x113b0a23b57bd;0x1d8e54eb2f539;0x419f5f9f02d68;0xfbbdf513aeedf;0xbf3c5070a1962;0xc51ce207102f9;0xc50d418cdf91f;0x44946cc6686] [0x83508a826c6ab;0xc59d6248b280d;0xec40c589e403b;0xfc890a429f50e;0xf3717058a877f;0x6554b4a27084;0xa7f8942fe1a4a;0x91a7e46e2df6d;0xd4bf296d0e4bc;0xeff0e9a9cd4] [0x4a0879551633f;0x4e1c7084d2473;0x2bfaf7e576bf5;0x23f1471ef2832;0x7f60b63a82f7b;0x544ef239fb6c;0x336af3e091ceb;0x4d87d5593de6b;0xde2eaef39b728;0xc2e6b8caf92]),[[0x774bf5de26923;0x24f2cb0994535;0x53fa938d54b7a;0x24a78636282bd;0xe4e5f973c41bf;0x28cf0736ae77e;0x73ad3abc125d9;0xf591bc6a792a3;0xd2866abea4aa6;0xf3c3adfd3ec];[0xfc82155beae95;0x4f47e647c3712;0x81b7bdbccfadc;0xf8c9bfd18c2;0xb12a09e3de7d7;0xe4a3536abbab3;0xf17c07fa6405e;0x9270ab8971e2d;0x4644dc7f1b196;0xeca9e2bdc09];[0x1a077f87260ab;0xca73d5445c233;0xdd2ba1e1ece4d;0x98ca7b1df1b74;0x9c5e0d1bf5d8c;0x942cac74f520;0x8f048f4835db7;0xe8be16b007715;0xe3bb0844df06f;0x95334bad4a5];[0x1a077f87260ab;0xca73d5445c233;0xdd2ba1e1ece4d;0x98ca7b1df1b74;0x9c5e0d1bf5d8c;0x942cac74f520;0x8f048f4835db7;0xe8be16b007715;0xe3bb0844df06f;0x95334bad4a5];[0xc58c948564b09;0xfd356709ac24b;0xf99e6b2607ece;0x8163a2ce269e6;0x1906d0604bd5b;0x5493f6674e41;0x7680a8615240e;0x59d98f0a74e30;0x8982c6d3554e5;0xf5399db24d];[0x36f580d68638d;0x52127f3e174c7;0x88195296c7c0d;0x7f9526f1aaedb;0x9823398392a7b;0xdf5a140446c72;0x7afb5f9911c50;0x38971c7efcffd;0xbcc215abc5cb1;0xdd5648e29bb];[0x0;0xfa7d6401e964b;0x3cb628024fc89;0x7096512ffee09;0xdc1014ddfba1d;0x14e614b62b7e;0x1ac8ca392b56d;0x210ddb0290085;0x73dc92322224a;0x9d295dc3e4556;0x5c43ea0e89c];[0x0;0xe13dc868565d4;0xa19d06ed594ae;0xca5bdd739f25a;0x2443bb370a739;0x8c18916dcf7eb;0x19c563f3de826;0x373a863db15e;0xc2464404bdc8d;0x6fbe79ebe73fa;0x8e11bc4f650];[0x0;0x39a94143d29d5;0x7f95d3dea6ea0;0xebbc98b5335e9;0xdcf17618f909f;0xbaf6720e27207;0xe6bbbcc956e39;0x50cfa74436159;0x633b0a690a4ed;0xb16b73772f6;0x40c3d0c7e2f];[0x0;0x39a94143d29d5;0x7f95d3dea6ea0;0xebbc98b5335e9;0xdcf17618f909f;0xbaf6720e27207;0xe6bbbcc956e39;0x50cfa74436159;0x633b0a690a4ed;0xb16b73772f6;0x40c3d0c7e2f];[0x0;0xd48e7f59a956d;0x91797f82fb3a;0x3ecd1dfa178db;0x8f8048959ff4e;0x2046ac47bf0ae;0x4e348c9273417;0x23ee1a29b365b;0x408fec3cbbc8b;0xafdd132c0eac7;0x33706f72e80];[0x0;0x4e1a85362f19c;0x24c1335f47116;0xe195f97beaa59;0x9ca8a3a071c0d;0x8d07cbe06ddcf;0x270fd80d82e4e;0x5ea0ebde8beb8;0x8d255203895f2;0x858ce48f6e055;0x518af05db5f];[0x0;0x1cbbbe6a67cf6;0xff6cbb1291228;0x158395841d7a7;0x4d71d2f4026e7;0xe0f639f5bd4aa;0x94e4f7a47f139;0xaaf2f7506b2e0;0x26af47d442c9;0x152f21bed1fb0;0x3f665700947];[0x0;0x55dc8e3a26fc2;0x82cc5ed96a3a3;0x9fadf1a48a262;0x82e5208806230;0x643b207ff23d;0xd5b57505872e;0xfc9e2cfed3bec;0x2bf1e981c51ef;0x9465a60222f7f;0xf00309417fc89];[0x0;0x1961c3a8f44af;0x89f643620ebd7;0x918ac94f2acf9;0x3967855f96065;0x934ba0ea86f5;0xef1812318b9f5;0x93e16e3509568;0xff8b0663388db;0xaf91f60f1fa55;0x40471b4bc97]]);
 ((V [0x2d30e87520dd8;0x5a0e51d242551;0xdf49c9f835777;0x42f62b32a3c5d;0x28ec13fd3fd78;0xc52152806c5b7;0x3546b13bac89;0x6c1d5b066c491;0xe4e589573ea5e;0x20baf6ec0dc] [0x85381c81b1201;0xa3969be1909d1;0x48a70ac7dbc;0x91defffa2cf17;0x80c09715aa2e5;0xb0b1e7d8cbafd;0x836355f122d6a;0x437d9876ce4a4;0xf4d86c3d228da;0xecdd3f98698] [0x8759e960bdd3e;0xd16c27227d72a;0xd761abeafaa4e;0xfa0a12f91aae1;0x44de2d770db51;0x930f08e220ff5;0x86214fdb8c7d0;0x9119eac035bc;0x6595312a3886a;0xc18275c411]),[[0x3125e2796e101;0xd2bdf129c2274;0xe2f8f6d5c14c2;0x7f5044c0111c7;0xefb7625eaf761;0x741b3208f379f;0x516b51ce630e2;0xc53a7cef646d3;0x38ed2723562c7;0xbb6062832f1];[0x50aebc6090779;0x75d55a83d3416;0x1514c04fc991e;0x206fc85512a24;0xaa5929d4607eb;0xe56de36e7ec03;0x62598e32cec51;0xbbddc2f1e8a94;0x4e88b7184edba;0x920c220355c];[0x4a0879551633f;0x4e1c7084d2473;0x2bfaf7e576bf5;0x23f1471ef2832;0x7f60b63a82f7b;0x544ef239fb6c;0x336af3e091ceb;0x4d87d5593de6b;0xde2eaef39b728;0xc2e6b8caf92];[0x4a0879551633f;0x4e1c7084d2473;0x2bfaf7e576bf5;0x23f1471ef2832;0x7f60b63a82f7b;0x544ef239fb6c;0x336af3e091ceb;0x4d87d5593de6b;0xde2eaef39b728;0xc2e6b8caf92];[0xb58a735c01283;0xa829e9ac983aa;0x7f6a0a2c9371d;0xba716ba6dbebb;0xfc2540e6a9724;0xff26bd1e1b892;0x658cedae07244;0x901ff37022152;0xb6cf82ebc4e5d;0x89157bbd9d0];[0x9b2449048f4f7;0xcdab70d73b06b;0x95aab62336200;0x65fe5cae36b68;0xae33e8edb70c6;0xe647265063370;0xfccca084c7a0c;0x2bbdcf81c6941;0x97b9342c89f5d;0x8f6a645b8b];[0x0;0xa3ce3ca39b0d9;0x43bc39ed4988b;0x7601377024735;0x56a00d04d276a;0xeaddd5301c0e3;0xb2f44399fab6c;0xa2a23074f4961;0x46265715dfe0;0xe7fef2ccbaa0a;0x7886d278b4d];[0x0;0x1fe6ba020a70a;0x2ae2735af74f2;0xe45849b110282;0x7e159428f36a6;0x40d5f70f73e74;0xcdf2d17f4820b;0xadd4e94ca458f;0x867eb4b90cd6c;0x77900f5b96747;0x8ea7ea81c2c];[0x0;0x1961c3a8f44af;0x89f643620ebd7;0x918ac94f2acf9;0x3967855f96065;0x934ba0ea86f5;0xef1812318b9f5;0x93e16e3509568;0xff8b0663388db;0xaf91f60f1fa55;0x40471b4bc97];[0x0;0x1961c3a8f44af;0x89f643620ebd7;0x918ac94f2acf9;0x3967855f96065;0x934ba0ea86f5;0xef1812318b9f5;0x93e16e3509568;0xff8b0663388db;0xaf91f60f1fa55;0x40471b4bc97];[0x0;0x417f06803f69a;0x419f085aed00e;0x55b82cd346317;0xa63824cfc111;0x9720453e18c74;0xf052bdeadc5e;0xf2cf5bc66db93;0xa5b72bad726c2;0xdcd14c5679291;0xe0e3b70200f];[0x0;0x2234988bce86f;0xa2a0b62edf0e3;0x3f629e152f045;0x659e3de44bfb5;0xd1ff5adf8c8a7;0x3ea3a0559d19b;0xebee43f818cee;0xb6e4f45c365d1;0xa4a0f38c24705;0x125f2fd75b1];[0x0;0x3f442d70199fe;0xfb2be5c98f30a;0x22f5877bbc111;0x4b9b0fc694322;0x87cf40af62297;0x265ee8f7b0254;0x53236646a72df;0x514cdfcdcfd43;0x3cdd07253626c;0x12ac2def74e];[0x0;0xcdc6effc97f24;0xb7fe5c8077750;0x6bf5377b2e14a;0x53a388c501539;0xaaaa9050d8161;0xce738c4e647c7;0x87f6030c8d27d;0x32941467a4bc6;0xe83e200787664;0xed42fb6fe5991];[0x0;0x1c203ee09e296;0x2c81eb6726778;0x66d8de3445bf6;0x4f22c5b2553a1;0x946f0c9c1e64d;0x7392010e37b9f;0x3c3fa72ecd71f;0x7d98159df0ed1;0x7d0817ab70f44;0x1e48a52a45c]]);
 ((V [0x4fe590aa40a07;0xe88b279d143e9;0xfe787fb5fd66;0xa3f4e08d2d328;0xdc473242bd21a;0x1099e5fa38e1;0x2bd72de759dd1;0x45a353f5d2b10;0xfd566b17979ac;0xc176b7ce71c] [0x39f65cb1a725a;0x21b1b0abb8715;0x405ec0d08a0fb;0x749f4ad84716f;0xd451559dee422;0x9e73ef987aee5;0x6b543eba33f76;0x4d818295029fc;0xb26557d0442;0x9c961ee867a] [0xc0987d8949695;0x72b4dc6862ea4;0x2210fb77a6b24;0x979e1beef6c82;0x8c2a0195ab4a3;0x57d8d5b8f21ad;0xc808350972c93;0x2c4039c289085;0x3fbd5759d70f;0xe911be49202]),[[0x455eda85bac9e;0xb32a967f6e258;0x74413705e1328;0x2ecc7a1b53ac7;0x8f4e3909d033f;0xff9ecb42c50ac;0x2d59cd3c08d07;0x4f3c222afc58f;0x8e90d48b91a47;0xbbb99412f8b];[0x1bb1566072e4e;0x2d397988408a3;0x9fc56b31e0b91;0x7362bf6af6714;0x964a0ac988ec1;0xc6e6c1c271b6a;0xaea498daae942;0x2eb4ebde3f09a;0xdb5734233eb35;0x453babf3d11];[0x8759e960bdd3e;0xd16c27227d72a;0xd761abeafaa4e;0xfa0a12f91aae1;0x44de2d770db51;0x930f08e220ff5;0x86214fdb8c7d0;0x9119eac035bc;0x6595312a3886a;0xc18275c411];[0x8759e960bdd3e;0xd16c27227d72a;0xd761abeafaa4e;0xfa0a12f91aae1;0x44de2d770db51;0x930f08e220ff5;0x86214fdb8c7d0;0x9119eac035bc;0x6595312a3886a;0xc18275c411];[0xf0cf9533c7884;0x7d3325e637a71;0x21336666adc04;0x76cc5d24b643c;0x8b5c0e2e149cb;0x208eaa2201a8e;0x6020d39e8c08f;0xf360a73119fe2;0xfc5066850c338;0xe926ae0364d];[0x2ae1c12cab392;0xb00653a208e31;0x7e9204cb32f8c;0xfc966246402d8;0xaedfc9b744f5;0xa65817a0700dc;0x4e83c53c228b3;0x3b5444ad250b8;0xdf06cd9e327fc;0x5c14fdf06c3];[0x0;0x1e062b5e7352e;0x18176158b2b0f;0xb2ba2cda1015d;0x1b5b16468a64;0xde29def9205fa;0x474c83a53d3ad;0x8fbfae83836b4;0x705a9611363cf;0x7f1c2f2b8768c;0x77aa82a793];[0x0;0x4cfe291fdc25a;0xd74449a20f014;0x6a694d48a995d;0x94c3a11703470;0x96aeee32eb623;0xfbd61f9f133b9;0xc559958ee596a;0x6d3a2f19dd8e9;0xa990400b52aba;0x8de6933b16];[0x0;0x1c203ee09e296;0x2c81eb6726778;0x66d8de3445bf6;0x4f22c5b2553a1;0x946f0c9c1e64d;0x7392010e37b9f;0x3c3fa72ecd71f;0x7d98159df0ed1;0x7d0817ab70f44;0x1e48a52a45c];[0x0;0x1c203ee09e296;0x2c81eb6726778;0x66d8de3445bf6;0x4f22c5b2553a1;0x946f0c9c1e64d;0x7392010e37b9f;0x3c3fa72ecd71f;0x7d98159df0ed1;0x7d0817ab70f44;0x1e48a52a45c];[0x0;0xf8cccb298dc9b;0xae7f221caebd0;0xcc3234264b44d;0x2eb4227641201;0x81c7a2dcda04c;0xb219ef63fae1;0xd3fb653588079;0x2f9f8b66f13cf;0x2d70e6194d667;0xdb28ac77df9];[0x0;0x20d410cc5cfe2;0xd0e8b615700b5;0xd5f7042b8bba;0xea0f42725069a;0x39a71cf409fe5;0x183008ec007ae;0x2c49f2f8cfdc5;0xae1a6d5e222b9;0x22791f1c773cd;0x42f4646c0a];[0x0;0xe4bf6e8c306eb;0x23ac2ab588859;0x9ab7811af0451;0x2f6382705b84b;0xb314d4f5c29;0xaf93a185e3be2;0x693eed3e64c76;0x2ce543687395c;0xfe091ff2bf94;0x345217d98fc];[0x0;0xfb0f9d8fd017d;0x3d9a40939a20c;0xd18e46a1d65e2;0x423d68685d050;0x62cd47fedea3b;0xf4ae3d31fed75;0x57e4dd430792f;0xa061d9292e0ba;0xfdd8bc68da077;0x9d085c1134db1];[0x0;0xd47c3504db717;0x17d7976d0089f;0x3e25f98abc7e0;0xa08f4c688de62;0xaf7de8c063847;0x3d2e61cbff2c3;0x17284762e792c;0x1df97205a9e5e;0x1d0d3209f3eb1;0x7655caed0bc]]);
 ((V [0x168fbe20636c8;0x25e94e80485b2;0xa879d1b479795;0x85353f700d960;0x98c38a7be5e1e;0x4fb704a6e095b;0x91db7b335d73f;0x385fa43e34eae;0x9201357309c9b;0x5aed90145a9] [0x43f5ef017d483;0x70645c3ca0f29;0xe0402ec1d678f;0x32004e4a5c1c4;0x7137c751f7c98;0x76234b2cee6dc;0x4c3080d5c0158;0x8c934e5518606;0xcfcebf548831a;0x2ca465d2053] [0xbb451d915023f;0xea2202bd1b4fc;0xc354af56981e3;0xf538579b8abbf;0xbc6b2f868dbd2;0xee56b5e3c852e;0x62fb6514f5178;0x5f7aa64092627;0x44c7c3d3141d9;0x72441222d99]),[[0x2eacb30189110;0x8f364f64b6de1;0xd936118d45c80;0x9f8d01c496e1d;0xd0e15a55664f2;0x35e0d4f00ddee;0xe5d2ace499cbf;0xed1f8a5939dcf;0xed8404cc03302;0x6d89450a1b4];[0x6ed80f426ec21;0x3ec76036356cc;0x84e3d48c63651;0x8af7d338f6c54;0xbba3287f0ee5b;0x9877afdabc0;0xadb131f3ca092;0x1eced55f7b45b;0x8a4761937238e;0xe684ed46612];[0xc0987d8949695;0x72b4dc6862ea4;0x2210fb77a6b24;0x979e1beef6c82;0x8c2a0195ab4a3;0x57d8d5b8f21ad;0xc808350972c93;0x2c4039c289085;0x3fbd5759d70f;0xe911be49202];[0xc0987d8949695;0x72b4dc6862ea4;0x2210fb77a6b24;0x979e1beef6c82;0x8c2a0195ab4a3;0x57d8d5b8f21ad;0xc808350972c93;0x2c4039c289085;0x3fbd5759d70f;0xe911be49202];[0xd57b2827bc94e;0x4beee476b1075;0xe14c2034869ad;0x2cb6a91ed6c27;0xe44c1719f598f;0x6b980f673a1de;0xec9030db8e320;0x22f359787fff0;0xe9a062faf1c93;0x948f780030e];[0x995ce71ab22d4;0xf2d87bbf84656;0xa397b457dcca3;0x5e412a1a2002c;0xd7571165194cc;0x95006848a09e1;0xc12101183bd71;0xfbdb7be6fb46a;0xa0a6fe98806fa;0x51f57546303];[0x0;0xcc4ee9faeb580;0x49c6380d26ddb;0x401af0c4c3bf0;0x6737d0222b22e;0xe0ceab89611a7;0xe17afaafe6f08;0x4c2debcdbf720;0x8e12547a9f301;0x4d24b9cad9813;0x90213515c39];[0x0;0x7b764ca8d1859;0x7b8be11b68db;0x9cde3c6beb35c;0xf8a3476ec952f;0xa93bda5acb272;0x94cc27f5d8a06;0x7245f1a2d785e;0x6e7e29ecc6a54;0x7b844e07e3bc3;0x63b9875ef3a];[0x0;0xd47c3504db717;0x17d7976d0089f;0x3e25f98abc7e0;0xa08f4c688de62;0xaf7de8c063847;0x3d2e61cbff2c3;0x17284762e792c;0x1df97205a9e5e;0x1d0d3209f3eb1;0x7655caed0bc];[0x0;0xd47c3504db717;0x17d7976d0089f;0x3e25f98abc7e0;0xa08f4c688de62;0xaf7de8c063847;0x3d2e61cbff2c3;0x17284762e792c;0x1df97205a9e5e;0x1d0d3209f3eb1;0x7655caed0bc];[0x0;0xc93bbe19006fa;0x9f3a3166ab2b0;0x66571a46da9f0;0xe3b2f78c2515f;0x852171e26d098;0x9fc858d0d1dd0;0x94c71b2ac6c51;0xd4f1b40a606fb;0xfc86947bfea3c;0x5fc74db37a5];[0x0;0x1504ec108afbb;0x35c51d111b5c0;0x490d23feca634;0x8e7ac041b5fc6;0xeb4e9ab5f2d37;0xb5580a50e1f60;0x776df0788f8c5;0xade8e05c89935;0x5189012722b92;0x923438333de];[0x0;0x8c41ea44d736a;0xc66a2b6dcde31;0xc9f5f70bd8fc4;0x44f7157b37cb;0x4be2ad0ef38f5;0x2b4eeb379d411;0x55347b9f913f0;0x25c828c203fa9;0xefa56cf23b803;0x51e0a63781b];[0x0;0xe30917980e02c;0xc1677addfebaa;0x665487f6717e7;0x777516e5dff10;0xa8e4d417e570a;0xe7120df2a2709;0x21bc30517ddf4;0x6aa13b59277a3;0x1c2f98aba50e3;0x2ca8d75637991];[0x0;0x4668be055bd1f;0x8847b2793d0d9;0xdc4a70e76af64;0x1ebbba0f6a6a4;0x6315bd7179eb7;0xfe74eff588896;0x26935ad8b875a;0x7f61705312fbb;0xe1606e34c8f9;0xfdb391e1f3]]);
 ((V [0x18ea724464675;0xd311a3b739778;0x524ce1f13a29f;0xf864b48549d51;0x7f4f37fe4d4fc;0xd7fc3f847723c;0x321540821e8de;0x5b9e2ffe26668;0x18bb51547cfcb;0x8992d8fb932] [0x136ffa93a8960;0x2a0891d82c93a;0x32d0e5c1973d;0x2f86f1658acc1;0x47758a34828f8;0x3b6c17e29a8ac;0xb52a5c8bb44c1;0x8d833a4ecfd1d;0xa1f8b03da5efe;0x4d3bebd38f1] [0x6042eea8946fe;0xfbabab4774016;0x48907cbc1547f;0xf20631e7c573e;0x7ec5f2b77149d;0xe0eb0bed49994;0x3e9bc7389b3e1;0xeb5fb1860c912;0x2317eeda08e4a;0x8c5d8790dcf]),[[0xed02dc217ee26;0x1ba45f94d7fe3;0x4c9f4667ef95a;0x24dee1b91a420;0x41805158213ec;0xe5758a7c3e7ab;0x9cd7e31174c33;0x6c825e32ba82d;0xb64f55a72a909;0x2e1c7a4a917];[0x186c8253b6f87;0xeaaf0a665eea;0x7483606c0e8ed;0x5875ea9b28550;0x406e6ccf80e3f;0xecd3672db9510;0xc067e89ffa78;0x7d5c410e58c1d;0x6e9b8d826446e;0x434bdc6a7e6];[0xbb451d915023f;0xea2202bd1b4fc;0xc354af56981e3;0xf538579b8abbf;0xbc6b2f868dbd2;0xee56b5e3c852e;0x62fb6514f5178;0x5f7aa64092627;0x44c7c3d3141d9;0x72441222d99];[0xbb451d915023f;0xea2202bd1b4fc;0xc354af56981e3;0xf538579b8abbf;0xbc6b2f868dbd2;0xee56b5e3c852e;0x62fb6514f5178;0x5f7aa64092627;0x44c7c3d3141d9;0x72441222d99];[0x637b811c017a2;0x367a8445e9f0;0x62e5907975bc;0xb153336f5fd09;0x45dc7600b89e2;0x5fa3258371136;0xc0d9dbb50e649;0x276f1599f6c9b;0x674075ee503e2;0xa44098127ba];[0xb4f10137b55ad;0xb434862074f9;0x6e55076477331;0xa722b72bc8847;0xfa91f6cec845c;0x8d3041aa483d9;0x4b2ca2d4f142f;0x55ed2b7461f81;0x75b17941408c;0x9f0b445802c];[0x0;0x6add16262f326;0x3faa0cb71241f;0x3b7b1a76a1dd5;0x14c3dba7d1c16;0x6032ea7c7c576;0x4e4d05a48f016;0x24115cb84caed;0xf9ee2d0f812a3;0x58e97a1e595ed;0x46a96ff4538];[0x0;0x316cafa5a2595;0x9f4e4fbd38e4;0xa6a30f6390395;0xc9619d0502f55;0x67cca6ea44e2f;0x2df10d08a11f9;0x5f10b8977e42c;0x2c84b7723cab5;0x9edc4d07c7a5a;0x1494f149f82];[0x0;0x4668be055bd1f;0x8847b2793d0d9;0xdc4a70e76af64;0x1ebbba0f6a6a4;0x6315bd7179eb7;0xfe74eff588896;0x26935ad8b875a;0x7f61705312fbb;0xe1606e34c8f9;0xfdb391e1f3];[0x0;0x4668be055bd1f;0x8847b2793d0d9;0xdc4a70e76af64;0x1ebbba0f6a6a4;0x6315bd7179eb7;0xfe74eff588896;0x26935ad8b875a;0x7f61705312fbb;0xe1606e34c8f9;0xfdb391e1f3];[0x0;0x4cbcdfca82d61;0x4d8c03eb9de0a;0xe6b2873618537;0x63a3febcea334;0xc0467e4a1bace;0x89e109635bf4e;0x41328f3dbd407;0x7cd1fda3f9148;0x31183e25fc50b;0x7c8ec92cf6];[0x0;0xf8a4f2f6480d5;0x87e1ed4e665b4;0x88756d7c6cd85;0x2502686e8442e;0xdce5ec667d698;0x29a77e016f443;0xeba024c0a7739;0x5f41f5b8cb578;0xa519d89306960;0x204be5c2667];[0x0;0x881bb4fff3e06;0xeba46cfebe4be;0xdbe64b5fc637;0xb6518a5e63f55;0x25bc43bfc7435;0xec428e7663fff;0xd19c943a57061;0x8e5793f8768aa;0x981e8566b0633;0x242a3342d66];[0x0;0x44c11cf4a403c;0x95a322f880ff9;0x5107ece7aeb37;0xdfa427d56113d;0x2481436de6a9f;0x3a5778583b06a;0x5e184593623e6;0xf9f2877ee5f06;0xee89d25eb8714;0x4d74da2d9c942];[0x0;0x33ecf02ed170e;0x8fb6df84a780;0x356b14ad1b8f5;0x8ab072d77c079;0x7dd53e3147759;0x594d4fa3a3d3d;0xf8cd1f2b6dfe5;0x3f2672b2c9f01;0xad83cc7d8ea57;0x29815ed72b5]]);
 ((V [0x8636bb4dd627b;0xd4e40f9942380;0x4b5264ff5fe78;0x917d435c63b42;0x685d75681d0d8;0x2be8b102b749c;0x24ed661f485d;0x60a0dbf8beb80;0x169ad4da4a482;0x870fe18d192] [0x385932922c246;0xc209aff331cc9;0x73a6999ddfeb8;0xf427cbbfcfcea;0x8c6b59b71ab5e;0x13ecf56643ec8;0xc8bb78ae354c6;0x642dd0518e092;0xb78ac09cd7d90;0x5a694f7aa4a] [0x4bebe8909dcfb;0x8145a50dae3f;0xd629f6035327c;0x1b8075b02c582;0xfecb6fcae1e01;0xe707ef1df2a00;0x72c96a75f2281;0x5ef9597394fd7;0x7c8e80c460ccb;0x3841e3de2bb]),[[0x4216fe2a47387;0xc18cab2f55a49;0x8c8f0ed4b49e3;0x84802b99646c6;0xd9899f55ef822;0x5583ace3105c;0x55718d0412b2a;0x24f588279a24b;0x53bdb55a1f876;0x6a3b93b088a];[0x2f9999144164a;0x1b970b4fe20ba;0x9510e71b3fafb;0xeaccbca991a8d;0xe01f9ab978000;0x94620fa3ff9f2;0xdd8c51e9c5603;0xca167fa578b78;0xa1b1b2435a18d;0x999ceb7acc3];[0x6042eea8946fe;0xfbabab4774016;0x48907cbc1547f;0xf20631e7c573e;0x7ec5f2b77149d;0xe0eb0bed49994;0x3e9bc7389b3e1;0xeb5fb1860c912;0x2317eeda08e4a;0x8c5d8790dcf];[0x6042eea8946fe;0xfbabab4774016;0x48907cbc1547f;0xf20631e7c573e;0x7ec5f2b77149d;0xe0eb0bed49994;0x3e9bc7389b3e1;0xeb5fb1860c912;0x2317eeda08e4a;0x8c5d8790dcf];[0x18aaa46edb92b;0x92232ed965b8b;0x9bf383ed8ab36;0x98d14bc766bd3;0xc0ef3f948121;0xc459319946a28;0x31dc819f80f0d;0xaeacae3e4607;0x5856a760d4941;0x2ea737e934f];[0x16eef4a565d20;0x8973dc767c52f;0xf91d632db4fc4;0x51fb70e22aeb9;0xd410a6c02fedf;0xd008de0ab8fca;0xabafd04a446f5;0xbf2bb4c194571;0x495b0ae28584c;0x6af5b391974];[0x0;0x2ac154566335f;0x275caf4b91bc2;0x8e7d54f17de62;0xabb7f701d5064;0xdaac2efb0ac0f;0x89af8209d2b9e;0xc24f56bc24b12;0xd9403d657f442;0x8a19fec634632;0x56cd3dd2fc4];[0x0;0x1a418a2320f18;0x2f8c0eb059353;0x1b4fe8c2a649;0xf459cd4addf9b;0x38720ce4e90cd;0xcb2d54a031dbc;0x84626e24a61fc;0x48a1bc713d1a9;0xdfe6168773f1;0x3a3f64aab9f];[0x0;0x33ecf02ed170e;0x8fb6df84a780;0x356b14ad1b8f5;0x8ab072d77c079;0x7dd53e3147759;0x594d4fa3a3d3d;0xf8cd1f2b6dfe5;0x3f2672b2c9f01;0xad83cc7d8ea57;0x29815ed72b5];[0x0;0x33ecf02ed170e;0x8fb6df84a780;0x356b14ad1b8f5;0x8ab072d77c079;0x7dd53e3147759;0x594d4fa3a3d3d;0xf8cd1f2b6dfe5;0x3f2672b2c9f01;0xad83cc7d8ea57;0x29815ed72b5];[0x0;0x90002fe324283;0xbd6d34fa76018;0x35c4c1429ee89;0x465fde5e3d90b;0x9213f294bf11b;0x321f76d5ebbd3;0x91fe955874186;0xe943cfe43cb7d;0x7c493555c8def;0x174d19e3d0d];[0x0;0x3884404661cdf;0x1fa59ca68015b;0x6d90630ad88ac;0xe49eebee809dc;0x221c83990710c;0x4e85ddd8a429f;0x3a3662eb028b2;0xdcda8d878ec95;0x7394d9f6c3628;0x49ee80797a5];[0x0;0x494cb7006558b;0xaa07a7257900a;0x71a18eec28d37;0x1af8c2045a886;0xe66fac1abaa12;0xc98092f13a4d1;0x496f4d1dbd144;0xdb71962b24d72;0xd9b772780ae10;0x510b47b7235];[0x0;0x9de8a81dd494e;0x9c4d8101ae941;0xccb978985614c;0x6e22fd949f706;0xc7529502ba809;0x5425e8f92b361;0x12cccba018c36;0x8f6e5275e45b9;0x76ab92cd2d15b;0x5a8d786e488ab];[0x0;0xed2902a14f021;0xa344df840efab;0x54822c32aa43;0x1354dd4019a5a;0xf2b0ad6306786;0x9d0e05275d56f;0x595b7f399e887;0xc9f3d55ffa14e;0x1b99ed1d46a67;0x2fb324bdb8c]]);
 ((V [0x321002f3fdc03;0xe47bb45bff89b;0x5628ea4d43d01;0xfe1cbb3c127f0;0x9b680960bd5b7;0xb1642e2aa6946;0xbc6905760e288;0xcd87658888fac;0xb6399553434d9;0x6f30dca6128] [0xf5eb1056f5ae;0x618ae530fa0aa;0x542455d212242;0xc65518758365c;0xab5f2c06d7199;0x6293ebc2e74fd;0x1f600ce7b1f7;0x6aaec32550aae;0xac52b8bc0301c;0x49530b3965b] [0xacc5dd2dc6f98;0xe46e8bc8a203c;0x310d0b199f57c;0x19b3ee7e3202c;0x46f6ff764ae9f;0xc3b96d2d6d49a;0xbe516f0fc120b;0x801d65563bff9;0xd08c67519d62c;0xdf49807857b]),[[0xcdc72f442bb83;0xe10185da99ded;0x783b536b31798;0x40a26ee5e77bc;0xedcc6d23507cf;0xbdd04aa7d7d0e;0x3628932d735d1;0xcec057ab9eb0a;0xb3b8e6a0e22cd;0xad360d8ff2e];[0xb96b904edf08f;0x99e0cb5d0e2fa;0x1451c0bea17a;0x997260a946684;0x5f6d7ec3f5aad;0x8b5078662b7dc;0x176ceb43f75ca;0x3d31e7909281e;0xababacfa2bfb9;0xdecc2761d44];[0x4bebe8909dcfb;0x8145a50dae3f;0xd629f6035327c;0x1b8075b02c582;0xfecb6fcae1e01;0xe707ef1df2a00;0x72c96a75f2281;0x5ef9597394fd7;0x7c8e80c460ccb;0x3841e3de2bb];[0x4bebe8909dcfb;0x8145a50dae3f;0xd629f6035327c;0x1b8075b02c582;0xfecb6fcae1e01;0xe707ef1df2a00;0x72c96a75f2281;0x5ef9597394fd7;0x7c8e80c460ccb;0x3841e3de2bb];[0xc227287069d3b;0x1443bc14d8023;0x7b74b8eee7039;0xf89ab97acd38e;0x8d64198a875df;0x3246ef801cac;0xdcfbf632edcd;0xc685435790f6f;0x673077c393c2a;0xa670f6701c8];[0xf74467de75355;0x859d0f48362d6;0x85d0631d03141;0xa0d7a72e792f5;0xd20965396e4cd;0x882c096e29b2f;0x99d2be0c87fd;0x76aca439018af;0x447b35369838e;0x385b30f1b7c];[0x0;0xba77c81a74aab;0x2d244ea57f8dc;0x2cfd957c9b7d7;0xfaf4ed1188e27;0x1af60e40537e4;0xb56e2192f740d;0xe6ba68686e3c7;0x5b56b9a404e2;0xf184745137a63;0x22ca1b8724a];[0x0;0x55d1d5373840e;0x6dc422200cfff;0xfa624da74a7d;0x4f20c1a82665d;0x34ef6abdf297;0xbb6defde60e66;0xa776219496c7a;0x5e6f2d69e8eca;0xaf7d69fbfca35;0x261067de2f2];[0x0;0xed2902a14f021;0xa344df840efab;0x54822c32aa43;0x1354dd4019a5a;0xf2b0ad6306786;0x9d0e05275d56f;0x595b7f399e887;0xc9f3d55ffa14e;0x1b99ed1d46a67;0x2fb324bdb8c];[0x0;0xed2902a14f021;0xa344df840efab;0x54822c32aa43;0x1354dd4019a5a;0xf2b0ad6306786;0x9d0e05275d56f;0x595b7f399e887;0xc9f3d55ffa14e;0x1b99ed1d46a67;0x2fb324bdb8c];[0x0;0xc76d6a83bd6cf;0x600c0d56ce95c;0x2079efced391e;0xc9d9f4d1a6ddb;0xa7fe44aef7632;0x2f6fddb4e4108;0x212ab94c997b2;0x8d834db68e7a9;0x91e525d9de57;0x1fee3734871];[0x0;0xa3a74c2841e1c;0x5828511f6bd40;0xa93ac2fd821b3;0xb83ed885c074;0xa01f3f76aab;0xaba06b7b6558;0xdbbf5c6efaed2;0xfd332bea4bac0;0x38350973b552f;0x4741c0df05c];[0x0;0x5c59b21e3276;0x3587d536be15f;0x21b043864b91e;0xcd83a6604934d;0xae6fb83dae15a;0x8d552ba01e047;0xe10251eff72a5;0x92c0280c653e9;0x17b268c6d3c07;0x60c50b62c7c];[0x0;0x2fb4685cc4e67;0xad81152b563d4;0xc3058c72083f0;0x2267c6dcc7655;0x2af5b485b75d2;0xbe5a69684fa5b;0x95f247f0ed2da;0xb05dec7b71164;0xfbcdecb713b70;0x495c8dc76ebc8];[0x0;0xe2676ce4862fe;0xcdc5e589d2277;0xe1a2d8d0a4db;0x1e6082760c96f;0xb8f8becedd483;0x5022951389ec7;0x9562b1d0c7cea;0xdbdf99e08785b;0xd6c8f7c019be1;0x1fd900a2eca]]);
 ((V [0xfa509412270b7;0xee1b7677ca03e;0xf83e69f53b752;0x8f0b5fe2537a1;0xfdb8efe95f313;0x93012a4c32039;0x615794dc854bd;0x44680d744b205;0x42f701e70512c;0x589cd0bb6b5] [0x81bde12dcf884;0x4e277f27ed6c5;0x6808fd5d100cd;0xca9c3e3c274f0;0x69ab02bb24db0;0x6ea3cd17a843c;0xc67289cab69f;0xd6d76b906947;0x849be62ec99b1;0x5e03fbfd18e] [0xaa0aefee07ae9;0xc733829bf8b33;0xdd99774d5018;0x5d9be5704c91f;0xba575e898c86b;0xd38379164a97;0x4556f970fb9c;0x3acfc3e35e5eb;0xdfa810dcabfd6;0x16d4e197aa2]),[[0x4a6d9d6f318dd;0x66e7141ae8447;0xa265b04a07ccb;0x524cf55c747eb;0xc5ca3894071c6;0x8f574c71f6d28;0x5c1cbaf53aec2;0x314d9c8a3b34;0x8467426fe8c42;0x3874326d5c5];[0xa0da6bb861207;0x1060eb7b7aec7;0x3e767ff6cf525;0x5209ccd9827c7;0x8b5c7de272579;0x1e5391f42d94f;0xb5420e1958b99;0x9f23b487e108d;0x3daba5e7e897b;0xd460a90bd08];[0xacc5dd2dc6f98;0xe46e8bc8a203c;0x310d0b199f57c;0x19b3ee7e3202c;0x46f6ff764ae9f;0xc3b96d2d6d49a;0xbe516f0fc120b;0x801d65563bff9;0xd08c67519d62c;0xdf49807857b];[0xacc5dd2dc6f98;0xe46e8bc8a203c;0x310d0b199f57c;0x19b3ee7e3202c;0x46f6ff764ae9f;0xc3b96d2d6d49a;0xbe516f0fc120b;0x801d65563bff9;0xd08c67519d62c;0xdf49807857b];[0x5a6c40b7c6ae7;0xaf20084665ee4;0x90c6eca0234c8;0x295250a0c2db2;0x94094b5c60dce;0xe303eef03fba3;0x9bf5df9deb0d3;0x8d447ede68e85;0xa5609b6435e3b;0x6814968dc88];[0x466e2b009a721;0x6140e33514fe3;0xadaf9356ac05c;0x28b77c38bfa14;0xf7533286117ab;0x3b4fa303eddab;0x194c2e7b6dac5;0x11df35a978208;0x984b0a83b2b40;0x6c4c127e07f];[0x0;0x3e807a1986845;0x4f23ec719d6a;0xf5b3184c09174;0x15bf7ce0a8ad3;0x9fa511987e4a5;0xdf63ce7338efc;0xd9125e95996ed;0xea57452feaec1;0x4845a47bbb54c;0x8a149690bc7];[0x0;0xc76e3e339ce47;0x6e520c65c7ef2;0x452a518b64b21;0x2a15476c3b548;0xa8e1f7569823a;0x8f4bf9ae03e3b;0x601a700fb8e31;0x92b33d52ba795;0x7b8d67c165aea;0x313d6d6447a];[0x0;0xe2676ce4862fe;0xcdc5e589d2277;0xe1a2d8d0a4db;0x1e6082760c96f;0xb8f8becedd483;0x5022951389ec7;0x9562b1d0c7cea;0xdbdf99e08785b;0xd6c8f7c019be1;0x1fd900a2eca];[0x0;0xe2676ce4862fe;0xcdc5e589d2277;0xe1a2d8d0a4db;0x1e6082760c96f;0xb8f8becedd483;0x5022951389ec7;0x9562b1d0c7cea;0xdbdf99e08785b;0xd6c8f7c019be1;0x1fd900a2eca];[0x0;0xf87adb1da91bb;0xb6fd346144a1d;0x2db9b765af3f2;0xb8764291dd516;0x3065bb1a1f61e;0x4edfc0fc7559d;0x45eb6eba7ca6d;0x9e657c2ab72af;0xa772b327aad4d;0x1500775703b];[0x0;0x750232b7197d8;0x6e5105d397aed;0xcbee09e08b946;0xd4bb306b70e14;0x3781fb79e23d1;0xde322a9d46127;0x59f4ee70dc412;0xcbb132671726c;0x9b03ff2afd49b;0x304b68ab808];[0x0;0x16dd93c11f738;0xb16a19728af3a;0xa51a70a1cd771;0x922acb0089978;0xd98917b2c6e3b;0xce94deafbf7df;0xe64b1377dadb4;0xdc1e63f19ef93;0xfb64ff6b070db;0x4983522d17d];[0x0;0x1695d01c23951;0xfd0df2ab78ec1;0x27e8ed7e54b;0x811f2d4e5ef8e;0xba69b2c08aca3;0x8069b07272ff5;0xa54cc00b031a6;0xf573cab354b72;0xec187269c6164;0x5e14012cd4f18];[0x0;0xf9e6cb24e94f5;0x44dd1d244b04e;0x90a04186cadbc;0x5eb53b77f1d62;0xeaa250a52b0e5;0xfe4bd93d5d140;0x93f3ec76089b;0xc161483ab5a4d;0xc5211b042dbe2;0x208af5b49fd]]);
 ((V [0x6931539b11c49;0xb9f97ca40bc9d;0xd3a51eb90ed62;0x161dc034c33ce;0x5df1438cd5096;0x1f9049672f5d4;0xaf317925b412e;0xab434fed256ae;0x9c5e7a3bc59b6;0x9bbd42d7bb0] [0x39d6cd84a294f;0xf9684fa02b2ca;0x26cf9ebad7117;0x789db42348478;0xfb4ba395653e1;0x942a3a1cbbbb;0xf3708645bda23;0x6efa462dda970;0xf9e4e29732530;0xc0d9abf805] [0x2c35a29e06d6f;0x1ae7685e8d5c4;0xc603fd3764f57;0x1fb7df40f6e1c;0x22a07c41ecd3c;0x77e80bd8581ce;0xaeb641b9fa958;0xf21810655ea13;0xbd7119fbbe658;0x83dd64a1862]),[[0xb25a7113a2e9f;0x4f39fdcfe7763;0x2df07143a0401;0x87d5e08b4ad62;0x5aff2ad72c1a4;0xc07d6ae4c6d61;0x673f3baab1b86;0x487c2e641bca8;0x74b2c926973f0;0x2dda3fc61c8];[0x8972ab8185911;0xcd198efb8d193;0x86062dc12dcd4;0xba80076097d68;0x3861363365ee7;0x9fcaca40e8829;0xea7ff7191daa2;0xad5e94371e522;0x594b6cece784f;0xdfd2c5182d1];[0xaa0aefee07ae9;0xc733829bf8b33;0xdd99774d5018;0x5d9be5704c91f;0xba575e898c86b;0xd38379164a97;0x4556f970fb9c;0x3acfc3e35e5eb;0xdfa810dcabfd6;0x16d4e197aa2];[0xaa0aefee07ae9;0xc733829bf8b33;0xdd99774d5018;0x5d9be5704c91f;0xba575e898c86b;0xd38379164a97;0x4556f970fb9c;0x3acfc3e35e5eb;0xdfa810dcabfd6;0x16d4e197aa2];[0x213c92fd112b8;0xc9c64596ca50b;0x1fa6f75978bc;0x5ecb5721fc2a8;0xe7d705303ccf7;0xd9575c0392e29;0xcb20c48ecfef4;0xacd209f7b437c;0xfa62fdaf854f4;0xac4e5e1331d];[0x683618847465a;0x3534964c2c88;0x840bbe4b96418;0x5bb4b03e9bac0;0x508a3103291f0;0xc6736e3d559ff;0x1f5f328a4dbad;0x8c8a3f6a1a6;0x5ee86f3d6235b;0x33846704fb3];[0x0;0x47e37d5520347;0x1a52da05b483c;0x55e773a22e232;0x8d04bf9c8fb88;0x499fac454d35f;0x9b5fd2ac4cb0f;0x2974ff08e4df4;0xae2f8f47b66fc;0x76404e86dc758;0xe1e77450b5];[0x0;0x71fdf013dff2a;0xc5fa889fd8fda;0xe1100bfb2e53c;0x4a8aaa006b544;0x70599d4bee4b0;0x34748a38fdcf6;0xccbbf5ebb7862;0x9a4a9ab4697e4;0x72802d6dcaf77;0x416e29fd2c];[0x0;0xf9e6cb24e94f5;0x44dd1d244b04e;0x90a04186cadbc;0x5eb53b77f1d62;0xeaa250a52b0e5;0xfe4bd93d5d140;0x93f3ec76089b;0xc161483ab5a4d;0xc5211b042dbe2;0x208af5b49fd];[0x0;0xf9e6cb24e94f5;0x44dd1d244b04e;0x90a04186cadbc;0x5eb53b77f1d62;0xeaa250a52b0e5;0xfe4bd93d5d140;0x93f3ec76089b;0xc161483ab5a4d;0xc5211b042dbe2;0x208af5b49fd];[0x0;0xd1c12856b63e8;0x2a1ead224ac1c;0xab7f1e47ffddb;0x84e6f0f1290f0;0x9767afbebb7ce;0x3534c04e0c6ef;0x63fd171cc277;0x8de977b38ad8a;0x374ab49458b4e;0x2286ed1dbe4];[0x0;0x12bb933f36bd1;0xcbbf4fbe531b7;0xbc8ff90a5dae8;0xf701d91d6d8dd;0x1c3502e647ff0;0x1b4b16b4362be;0x841964e10ae8a;0x3cc9a7bd89321;0x5c6d5aca54b4b;0x1eac2f8fe86];[0x0;0x73aff0ef49530;0xe768dbd49490;0x571a328b00b5;0x982b8e5ea90e;0xf7a39114ec44f;0xa6212aff570f5;0x77b20f4dfa2cb;0x272ed183fd1a9;0x9e50367065bd;0x882a16621a8];[0x0;0x8d8de8eb43a0c;0xac82e04e9fc58;0x5cae67cbd04a0;0xe1815fbc8bcf5;0x9f21ff8934c46;0x9ccf46c8c18f9;0xbd706a18dcf7d;0x32f0dcfdeb774;0x80b1238704e61;0xc0f1e9402829];[0x0;0x16140a777f128;0x3c3c2f9fa6929;0xd0d5467d14fe8;0x79b337541c9c7;0xbd24280bd83b;0x924a3ab450e1a;0x3b80d7b284621;0x4346c0ac4f8f7;0xc67345d7e5030;0x75525e2dc3]]);
 ((V [0xd2a3121f83a1d;0x2da330b022d82;0x1d9f55c07fec;0x8575c9ffc47aa;0x1c8bca5133f71;0xdc944bafe4083;0x2eefc60bcb700;0x4e4e44c1e97b3;0x1a07535c3f303;0x9adda4697f8] [0xb1c9f041d3f61;0x5d2fde93ec1f5;0xbb39bee07ba26;0x5088c14d199af;0x66809d0c6a2bb;0x8c7436cce8b11;0x805ea39299931;0x33c82f4c03424;0xe42a016b4cbf;0x476f9d12ba] [0x3effb814e2197;0x852a305be11b;0x641cb6e836219;0xd50357164d766;0x76b5d5acf2817;0x48ca943925f50;0x2ef245be65855;0x605af3b1d3706;0x8cb9e57a4f113;0xd98971188eb]),[[0xac77d2e3e9679;0xd3c4a0b320679;0xf33989e0476d8;0xbb0b151e39ab2;0xb6c5ab6d877da;0xbfd33bb88ccb5;0xca754feb2ac54;0xeb4721bbbd493;0x446c137ec35be;0x3b75b2fa347];[0x4cf75f009e0c6;0x11dbf5f9a668d;0xe7043f602f134;0xcfb96f75683a9;0x60953e1eec5e;0xe1d7c55acdbe;0x412d9af94e383;0x551a6d4639a6;0x6898ab7d11c20;0x463f5fe8f66];[0x2c35a29e06d6f;0x1ae7685e8d5c4;0xc603fd3764f57;0x1fb7df40f6e1c;0x22a07c41ecd3c;0x77e80bd8581ce;0xaeb641b9fa958;0xf21810655ea13;0xbd7119fbbe658;0x83dd64a1862];[0x2c35a29e06d6f;0x1ae7685e8d5c4;0xc603fd3764f57;0x1fb7df40f6e1c;0x22a07c41ecd3c;0x77e80bd8581ce;0xaeb641b9fa958;0xf21810655ea13;0xbd7119fbbe658;0x83dd64a1862];[0x2d3cc2529737f;0xb67c1b295d699;0x7ecf669d2b906;0x435ab4150133c;0x2a7178857f71c;0x182cc145befc0;0x4647e76bf23fa;0xd730d1ad8334e;0xf1edf3eb29f73;0xcf9bd5fc2d7];[0x1fba9cae06b0f;0x5b5fdad048ff4;0x6834d8c30382d;0x8c5ebb606706d;0xdb97db5c6f542;0xf5f0bb0feddfd;0xfae5b38d5bf88;0x2e20d526e0657;0x76aab791e7cac;0x76a389ecc8e];[0x0;0x308be26fe9b11;0x9fe508b9f28c1;0x31aa9d6fba4c3;0xd2a68244fac1b;0x437c7cd23a5d1;0xa1b839623ef7c;0x6602febff4fb2;0x6098059f4015c;0xdb5c931934532;0x518b859d4a0];[0x0;0xab991cff27bc7;0x91ba26a8a75fb;0xa569d67909a41;0x86628489305eb;0x3aefbeba4af42;0xf111711410646;0x2f13d2de3e996;0x3c77994c63f25;0xfded655e58fa7;0x1ea0a69108e];[0x0;0x16140a777f128;0x3c3c2f9fa6929;0xd0d5467d14fe8;0x79b337541c9c7;0xbd24280bd83b;0x924a3ab450e1a;0x3b80d7b284621;0x4346c0ac4f8f7;0xc67345d7e5030;0x75525e2dc3];[0x0;0x16140a777f128;0x3c3c2f9fa6929;0xd0d5467d14fe8;0x79b337541c9c7;0xbd24280bd83b;0x924a3ab450e1a;0x3b80d7b284621;0x4346c0ac4f8f7;0xc67345d7e5030;0x75525e2dc3];[0x0;0xa25b8e4125e0e;0xd30c3a0de9c7f;0xb62d1a6b16db5;0xaf8e66f8f4ef6;0x4359cabb43fc5;0x3c1b0851137f5;0xc511250beb0ed;0xbd3cfb7796bf6;0x6f641415705b3;0x91473b090];[0x0;0xcdec71cddb82e;0x2a9a1a95c62c9;0xa121bff00eb20;0xcd0ae715504a0;0x59d16667ccb0f;0xe179190ccf02d;0x19285dfdb7a9e;0xbc3a473785821;0xbf451756afbc1;0x5ebebadd007];[0x0;0x9f7d2417564eb;0xf921ea2af92bd;0xfcd6f4d359d47;0x882d7893417af;0xf5ceeca4fe397;0x7b793d0b8d73b;0xd6f5387b10f83;0x1247a497fd69f;0x2fc349bca1d48;0x2a7ef1857cc];[0x0;0x5e65dca33fa1d;0x85a9d0312cd3e;0x3374cadbf62ea;0xadc619cfe1a3;0x76e75bd4d997e;0xa899dae4b653c;0xa2d9e92985032;0xc4dadce8cc747;0xa3092eb37b44c;0x47a3727b9e94];[0x0;0x38da99a197e6a;0x51b417cf37ef6;0x87cca82bde618;0x1d18dd8b5c43f;0x8c231613a2772;0x4a3d065ddf960;0x9b86eb73517d;0x7da5344fd5ef4;0x1329342c505a6;0x2b36fdb8ce]]);
 ((V [0x14518caf933fa;0x5c85d3da023b8;0x30946d058be3e;0xa93dda21a2559;0x6720b3956b509;0x6e71b8751df5e;0xed6e93951471;0xab8c49acd8356;0xb8b767bef6bc;0xab3455af27b] [0x210d801586c56;0x4dcc6fbf0a492;0xf321ec8dd5641;0x77c017c9d79b3;0xb3469c74bff4f;0x93d07c05e7e53;0x22a3b4fa6978b;0x69b21169ee3b0;0xb1c98b861a462;0x3c5c3a7af7] [0x91588d0b072c2;0x3973771a92c21;0x5315e7c93c33f;0xa6a5970ec6168;0x4a7c07bde0b4f;0xaeca12457776c;0xdf681d8eb9c13;0xe4c793cf051f4;0x5961abef65966;0x6953512f677]),[[0x781ba8ad7609a;0xcf1d68a2eed8b;0xdb0e530d3621;0x740ca92a47703;0x7bf5f2fab0e55;0x43440a45f019f;0x5dc4f0e72cfa5;0x2eb6be06f0bad;0xbb2509c72f054;0xbe43cd57181];[0x62f0ba6471a55;0xe092706a018ec;0xb67ebb605eedf;0x21dd62cdfd58a;0x56c8ca3ca0cc6;0x85f9fb23e36e7;0x5a3788e0c5269;0xb53d510d760f6;0x8ff7bfa1bfaa9;0xaf49fe0a3b4];[0x3effb814e2197;0x852a305be11b;0x641cb6e836219;0xd50357164d766;0x76b5d5acf2817;0x48ca943925f50;0x2ef245be65855;0x605af3b1d3706;0x8cb9e57a4f113;0xd98971188eb];[0x3effb814e2197;0x852a305be11b;0x641cb6e836219;0xd50357164d766;0x76b5d5acf2817;0x48ca943925f50;0x2ef245be65855;0x605af3b1d3706;0x8cb9e57a4f113;0xd98971188eb];[0xdea926b4a2371;0xb62953209fed5;0x9a2a6a951a508;0x7232ba0e023b4;0x1a85c1e5299de;0x24cf34e1056d7;0x967b475163160;0xd87b6b23f286d;0x4f2dea51d5df3;0xe3786e81f42];[0x844793afcf4ac;0x2a691d4961a16;0x1c5450cb449d7;0xafaaa8bffb1d6;0x3c430857772e7;0x612ac642de010;0xc3bc418f62109;0xdcc1e5e983888;0x40c9d54fe9cb5;0xcbd18f88472];[0x0;0x730be17549ba;0x994f93da79497;0xc683b079a581e;0x184648ea246a9;0xd67d920ce84da;0xc7e4ac0023b9;0x5edd5a5e81e2c;0x3fb1d40496593;0xe17def0e30017;0x868644b4f52];[0x0;0x5ab1990da2577;0x40174819e8306;0xbc14041f9da71;0x6fed43ff2a0d2;0x67a388909ee65;0x9e3439ddd9d6d;0xda4fab894232f;0x77a8e1939e0a6;0xd06be96d891eb;0xa1ad9f65e51];[0x0;0x38da99a197e6a;0x51b417cf37ef6;0x87cca82bde618;0x1d18dd8b5c43f;0x8c231613a2772;0x4a3d065ddf960;0x9b86eb73517d;0x7da5344fd5ef4;0x1329342c505a6;0x2b36fdb8ce];[0x0;0x38da99a197e6a;0x51b417cf37ef6;0x87cca82bde618;0x1d18dd8b5c43f;0x8c231613a2772;0x4a3d065ddf960;0x9b86eb73517d;0x7da5344fd5ef4;0x1329342c505a6;0x2b36fdb8ce];[0x0;0xc8cd7661d8630;0xee70496517d44;0xa490ba77ab6f1;0x5dc2a80498375;0xde39edc769a3b;0xfc78edce91e74;0xc79ce65025939;0xe2b7ec47b55de;0x9d13ae6c25e6d;0x13ef19c9f];[0x0;0x54d6ec409c7b;0x295f316bf998e;0xe8b8c4f63d93;0x79cbfa004d41d;0x463ae37138004;0x180189d7ec021;0xd16f4ddfad66;0x1e10465dd933c;0x571b3fc7c4092;0x5daf69b4352];[0x0;0x33a1880ab8ac2;0x9c4a73937ae53;0x3ed6c7376111;0x258d0c89eb9fa;0x896ee68052ef9;0x87704a9522d38;0x6e5ab02cec683;0xde66aba73005a;0x923367290aa04;0x753a4263efc];[0x0;0x3b4c79d720c3a;0xdbdf1cada198c;0x4db712bd49aa9;0x7592676d71325;0x488341c155b49;0xd43c6204d6b11;0xa595f14703524;0xac19f1ef082b4;0x7d6860d0cc079;0x3c6f42374601];[0x0;0xc9ee726fc72f6;0x570a5bb6e87af;0x62e8d1288b65e;0x48a0ccd5a9f8;0xd8a029c018fd5;0x942842a57832;0xddde3d4aec089;0xf165119d740ee;0x4097e8f611961;0x285df1fff0]]);
 ((V [0xaaefa81a0fd34;0xe00c757795ff4;0x339f5b24c924;0x3d78a4dd64e0a;0xeaa118b17de79;0x206efd9f6de2a;0xf1647f4bfe0f3;0x4db9383a1e29e;0xdee86b4dce99b;0x459285e8d2b] [0x91f9766af2e0d;0xd26e96e3b24ad;0x64f657653aefc;0x708a33efee9af;0xef53f61f30e5d;0x4c0461cedbbe6;0x2f7807127dd8;0x9eaa9f6c16c0a;0x863f1b874b2a2;0x512998297c8] [0xaa3e21a18b147;0xb218e35bc3a76;0xd6b542e93e901;0xb57afb0b38265;0xdc68630a64b5c;0xa8e09d5b5fd76;0xe8e0976ef7e63;0xdce662ace9a43;0x73910d1359bcb;0x1a6c510d203]),[[0xfc74e7fb8b801;0x1b0b696e815e7;0x37fc23fa035ce;0xad4dc5add0ee4;0xa40d4dd2a7fc7;0xba0cad915ac53;0x91a873b4277f4;0x7850918bdfde8;0x9dead66650163;0xedc42b16e4e];[0x552e0a1f9b142;0x4ac2140b39f14;0x43f2dd0dcf1e2;0x1473193459447;0x3f398ffcb2517;0xcc52f57e6fbe1;0x5ae96f2b777f4;0xd31374929b299;0xa435b8a4236a4;0x1109752a6a2];[0x91588d0b072c2;0x3973771a92c21;0x5315e7c93c33f;0xa6a5970ec6168;0x4a7c07bde0b4f;0xaeca12457776c;0xdf681d8eb9c13;0xe4c793cf051f4;0x5961abef65966;0x6953512f677];[0x91588d0b072c2;0x3973771a92c21;0x5315e7c93c33f;0xa6a5970ec6168;0x4a7c07bde0b4f;0xaeca12457776c;0xdf681d8eb9c13;0xe4c793cf051f4;0x5961abef65966;0x6953512f677];[0x368cd2fb35cf5;0x4ba6979c36e58;0xd6be82dd1c1a3;0xcd9d2186d0cfc;0xf55eee396e89b;0x9bed7f6a3bb18;0x81430fdb7ff12;0xac2e4c8636648;0x39b91d433bfb4;0x5f6e5db2a0e];[0x1ea1372465215;0xff1b7c6f030bc;0x6d345a30b303e;0x46d5f7ad8874a;0x49daa1c343c7b;0x30657614340c8;0xd9a65f4ff78e2;0x26e5280c64c50;0x6a7c9b60e76f0;0xb19b1777c94];[0x0;0xb5a9f854f8869;0x599de3d303e56;0x364d8ae03753d;0x296b2a0e335a9;0x1c67881f3c31c;0x9772240ba4232;0x40f3baf3014dd;0xb2f768482da78;0x719b44a0bb09d;0x4122134e2e2];[0x0;0xee6a0631a4280;0xe909d5495fdf8;0x59a10a7ff0ad1;0xcca38c0c8a769;0x8dfba4d8e0028;0x9d082f88e7c74;0x8bdaea3eea079;0xfcc72f555ef82;0xd6f3207b54700;0x61d2d7ad750];[0x0;0xc9ee726fc72f6;0x570a5bb6e87af;0x62e8d1288b65e;0x48a0ccd5a9f8;0xd8a029c018fd5;0x942842a57832;0xddde3d4aec089;0xf165119d740ee;0x4097e8f611961;0x285df1fff0];[0x0;0xc9ee726fc72f6;0x570a5bb6e87af;0x62e8d1288b65e;0x48a0ccd5a9f8;0xd8a029c018fd5;0x942842a57832;0xddde3d4aec089;0xf165119d740ee;0x4097e8f611961;0x285df1fff0];[0x0;0xfd86c1bd43c99;0x7a773120fcc23;0x703ee763bfe07;0x5cad572e962e1;0xf7e30c98343e1;0x742c79aa18d01;0x474838212bf03;0xe7cbade5cd406;0x9d9518fd79493;0xe3b5ca3b];[0x0;0x6b1cc133d5d79;0x262f2d8e0234;0xb20d5130e38ea;0x5426d99add23a;0x5f4d5d5028016;0x90eabf27131b9;0x7bd81724a44fd;0x53d4b99149387;0xbfec2b388eb1f;0x727ef52aead];[0x0;0xbb2e62753f428;0x4cf1d566ca4c8;0xeca82196e01b6;0xac34f3c115903;0x8500ff1274fed;0xf643d33a7f817;0x468ecefaa8faa;0x6caa31843b0fc;0x58dd24f1575b1;0x4a14ce2a94];[0x0;0xf3aaed9fb18a1;0x8de4d9076fea9;0xb39de4d2a18dc;0x93ac6a64fb495;0x7932272bddd13;0x7357167fb9da5;0x7ccf471015219;0x8a15d312dcced;0xb5a53cb89f628;0x51755afeef752];[0x0;0x86bae3bbdcebb;0x788dacdb13e6e;0x6d79555f7009;0xa218c86013bde;0xf8a186ec71f45;0xd52842f45b9fd;0x4debf5d36930c;0x96aed7632a482;0x9922b9d76218f;0x160eaa3062c]]);
 ((V [0xaa52ff0729e58;0xf5319dfce8b17;0x46901ee3b1853;0x5368ce802930e;0x40a1ba91d454c;0x92f2bf179a8f4;0x73486432297cd;0x2d0d6a4f685d7;0x794603105242b;0xdece0b65623] [0xfd6b9abd4a8fb;0x624295f5de92a;0x56ae0dc298782;0xaaba43db1d534;0x805172335562f;0xbb71649962760;0xec8a5745727f9;0x92317f55b07c3;0x9ba8ef6ab31ea;0x36ec7cd1f2] [0xd5cef755578d;0xa8ff9cbd8961;0x20e3dad68ada9;0xad1afa0953024;0x80415af3f1ed6;0x685ec5df1250d;0x65acf2bbb6ce9;0xad791b7740580;0x15289f7e7f4ef;0xfd6e052833c]),[[0xb232f3a84ce0a;0x44aa3d82a2613;0x33f9e5a56600;0xbf9e4e7765508;0xd9e282a2524a8;0x506ffe409ef70;0xa8efdf19354d5;0x93992cf0bc5e6;0xd57216b5b1492;0xbeae6d3a268];[0x267e0eb5a0dd7;0x8ca55daf36f10;0xfad8b02601118;0xf18450a1d8167;0xcccf111957d52;0xdf64471d818a6;0x94d8e0c491808;0x333f39fed7386;0x1ae94dfd0364;0x51477577626];[0xaa3e21a18b147;0xb218e35bc3a76;0xd6b542e93e901;0xb57afb0b38265;0xdc68630a64b5c;0xa8e09d5b5fd76;0xe8e0976ef7e63;0xdce662ace9a43;0x73910d1359bcb;0x1a6c510d203];[0xaa3e21a18b147;0xb218e35bc3a76;0xd6b542e93e901;0xb57afb0b38265;0xdc68630a64b5c;0xa8e09d5b5fd76;0xe8e0976ef7e63;0xdce662ace9a43;0x73910d1359bcb;0x1a6c510d203];[0x9015be375b3c2;0x9e90b2a646cb5;0xb5a86510bb5a5;0x35a67bd789393;0x268eec9f206c6;0x6609e7327fb9a;0x47e0fd71ac870;0xe625634ca5a44;0x6024b0710afe2;0x7d55815ef85];[0x9668507e457dd;0xee14ab08f025a;0x45304b1545b72;0xbbddd4ca4edd4;0xa640247a3768c;0x795a5feb01d0c;0x4cf7e352e4f98;0x4d19d6b231942;0xa189e46ec5381;0xd3f1f4186a0];[0x0;0xe3dd5046c53aa;0x75a003f0876cf;0xd5ab5950581c;0x545de08765d9b;0xb59c65d0fe7c2;0xfc32bfc1f8006;0x94473023acfa3;0x38c0027ff7c3c;0x47ff75fb8a233;0x10570b1ae9c];[0x0;0x9f024f1d80399;0xe112d72f0ba34;0xe777b13a1a96a;0x2783e5e41a445;0xc3ef37734d881;0x2a8411213dfd9;0xaa025327734f6;0x284b47633eb60;0xc8042ee1c98fc;0x13ae650cf3d];[0x0;0x86bae3bbdcebb;0x788dacdb13e6e;0x6d79555f7009;0xa218c86013bde;0xf8a186ec71f45;0xd52842f45b9fd;0x4debf5d36930c;0x96aed7632a482;0x9922b9d76218f;0x160eaa3062c];[0x0;0x86bae3bbdcebb;0x788dacdb13e6e;0x6d79555f7009;0xa218c86013bde;0xf8a186ec71f45;0xd52842f45b9fd;0x4debf5d36930c;0x96aed7632a482;0x9922b9d76218f;0x160eaa3062c];[0x0;0x9f40ff331abe1;0x13f60a02c7d7b;0x7e2b70106e2f6;0xa515d2c0ebd6b;0xf1877a041157e;0x5619b37bad988;0xd5252a0c066bb;0x4c8b01fd50448;0x97d8a111a6660;0x19bb590c588];[0x0;0xa77eaa52e8bb5;0xe9bf71ad92ec9;0x372b85b50f4f1;0xe79ad7b8eb8c0;0x470d1bcd35ddd;0x9377e2df575bb;0xd5fd5c8e3f6b8;0x9a0d84731eeca;0x681f0aeb9d63c;0x12e8500c853];[0x0;0xeefb25ef4fabe;0x449cc176f0cc8;0x7f2fafbf73add;0x9d049a4fa51d9;0xe39bd9dfc988e;0xd937d49e03bc9;0x7f2a1edb57f05;0xb599f3152cb7e;0xcfa6db5051ce3;0x46bd62fc4fc];[0x0;0xfd7087f313969;0xc4c7d6df986d8;0xbab1e4a931bc9;0xa0b138ab1674d;0x25236ff40fea0;0xd07ac1679280e;0x1af6fef822b9a;0xb5a024fc9b29e;0x31ef0457d6a79;0x3711f9267bd0];[0x0;0x8fdafc708d6d;0xc32f5c449d568;0xdb9d5e55100bb;0xf66d10e51fd94;0xd4875b98e45b1;0x77d6b377f0b13;0x867143d5e858d;0x332521b7d1e02;0x10ee6f8232642;0x2fcd48fc6b]]);
 ((V [0x62b7b93c07df2;0xdd6f9934faa4b;0xeb5a3c4e5db5b;0x53a4d22945247;0xf4dce61e356c9;0x5a844256e8311;0xfbf3983939096;0x1256de88e506e;0x58fbdc5300f57;0x370fbc9dc25] [0xa4daaa3d91cd5;0x7e644aebfd934;0xaab4176861e3e;0x5c8bae7c5a39a;0xee8b64c15df3b;0x12bc861339207;0x31b2cbf76fd54;0xfa215f9bbad47;0x277fb837b5387;0x2934526260c] [0x2c26dadd6393e;0x79493a46a51ee;0xef610b60b8cd8;0xb65a1c9aabc2d;0xbbd70b5c460d4;0x9b681ac27dc3d;0xda501ad862e5;0x4bcf63100c5cb;0xf80593cde79e3;0x50d78dd6bb5]),[[0x2cdf55ee950c;0xc4f77c34099c5;0x92a943efbddd5;0x22e231230cd85;0xcadc2c6626c8e;0xe1c5dbae129af;0x531de920f256a;0x1c2db072ffcfe;0x72c1be2df0398;0x5d6903890c8];[0xa4d5c8d77c179;0xb6ac63e2f6893;0x5f6f6880671cf;0x9b45f3c162390;0x4e2ab7b7489ab;0x823e8557be25;0x787e13f94265;0xf3e70181e213f;0xa3569e4d9ca7c;0xc43d2e7ca77];[0xd5cef755578d;0xa8ff9cbd8961;0x20e3dad68ada9;0xad1afa0953024;0x80415af3f1ed6;0x685ec5df1250d;0x65acf2bbb6ce9;0xad791b7740580;0x15289f7e7f4ef;0xfd6e052833c];[0xd5cef755578d;0xa8ff9cbd8961;0x20e3dad68ada9;0xad1afa0953024;0x80415af3f1ed6;0x685ec5df1250d;0x65acf2bbb6ce9;0xad791b7740580;0x15289f7e7f4ef;0xfd6e052833c];[0xaf3a7abe5619b;0xeffe66968649e;0x63ef347f71275;0x688d9c35b5f76;0x6d9d9612c823a;0x2e81ff1eaf5c6;0xb38793121e1d1;0x6fdfff8cd1016;0x3984c0561dbe4;0x3db3bb853c2];[0xf59b4e1925fdf;0xc6adfd4c703f4;0xfb803400f5f59;0x32b8578bac419;0xe08d21a480771;0xd9a1e936cc85e;0x54004e2d76093;0x840701f511128;0x69d1ddf77ee98;0x868972f76b5];[0x0;0x3760e69ad7dc;0x9381225e85030;0xbbc55ba88981d;0xa14cd4c4d4afb;0xd6b55833ea42f;0x9d33006f22b85;0x1af74e52221f1;0x588dd637fee40;0xd6f53e8be9ae8;0x9cb878bdf8d];[0x0;0xc677f8941e0c5;0xb64fab66478ef;0x886e24c22484e;0x564e0fa475437;0xc67b68c3a52df;0xe5e882193a875;0x2d4aadff6aa66;0x74459b3cbcce9;0x1a9530ec871c2;0x5c78ed7faea];[0x0;0x8fdafc708d6d;0xc32f5c449d568;0xdb9d5e55100bb;0xf66d10e51fd94;0xd4875b98e45b1;0x77d6b377f0b13;0x867143d5e858d;0x332521b7d1e02;0x10ee6f8232642;0x2fcd48fc6b];[0x0;0x8fdafc708d6d;0xc32f5c449d568;0xdb9d5e55100bb;0xf66d10e51fd94;0xd4875b98e45b1;0x77d6b377f0b13;0x867143d5e858d;0x332521b7d1e02;0x10ee6f8232642;0x2fcd48fc6b];[0x0;0x2042e1b036f92;0xcced8dbd9339;0xccbafce1b5bda;0x44fc8b62d0788;0xd93b3c314c69d;0xd1c514d02febb;0xfa2a91be0de0f;0x8447f3b0abb03;0x24d09794e2cbb;0xbc89f1ef];[0x0;0x64762299ae297;0x781a5061834f;0xe169f556e879c;0x75070b79ac8f2;0xe2ec39a2238de;0x7ae6505789664;0xc6010701bdaef;0xf3a662a2dca26;0x455610c1dc0c8;0xc1ea019a2e0];[0x0;0x5fea9d98fbdf6;0xfd8e6e6984bc8;0x93229e7947a06;0xd134600c19c2b;0xe56856748fd66;0x84de88497b7eb;0xaf799964d5b80;0xdd76ebfbb5d5b;0xa12cde224d0e8;0x2a3535285de];[0x0;0x5ab4b411ed008;0xdea7009c869d3;0xb3189d2676d55;0x828728523c591;0xd2706f6824e0b;0xd70f34962d08;0x28d85a32845ae;0x3370f25f9113a;0xa1efbb71a0312;0x293df0ccbcb89];[0x0;0x2d7e207945e04;0xe58097b6c8d1c;0x438b86031712a;0x8a27a7133a0fc;0xb0c0ce033cc49;0x5d7af78d92722;0xd900d4fe789ef;0xbe4510b07c3c;0xba480e5bcc2d4;0x8dcc61fc76]]);
 ((V [0x8743dc588e30d;0xe460fa05aca1a;0xd35f1b4950838;0x77295cbb0fd4;0x67987b0ff822a;0x8f3eea269580a;0x1e99e6a0a0a31;0x814c8fe07b604;0x9d139a5081973;0x811e50537e6] [0xbe40ac6b8ea41;0xdb486f116507d;0xc0fb35a335b79;0x463b8a552303a;0xc75507e25569;0x2a55354d428f2;0x9194c63651d6c;0xc667f5b2a98dd;0x5aacdd62336ab;0x4b08de29a] [0xc81598d4bf603;0x9b294ef878a2b;0x3ec1ba8270c0;0x7ee6a47b56a93;0x106c0246cb9e3;0xb6f7064d9dd80;0xc6ada9cac88ee;0xd22644ca7bf45;0x6cdec6a727ab4;0x2d8e65bc197]),[[0xf80c22ff18f81;0xc2b51008510ae;0xbb4fb9148ac6a;0x953791f953bc6;0x375dd6c3ebf6;0x471cecb7e6af7;0x53d477888e50d;0x53af875bad6ae;0xa3681a1be84e7;0x73605b179a5];[0xf3810eec5e505;0x18dc5abbe7e6c;0xb045463ba1fe4;0x1fa17be57612c;0xa49f71bca768e;0x5e9f654c8e8e1;0xc5121960ec817;0x34e7c4693e8c9;0x2fab86cbff9d3;0x46056696aef];[0x2c26dadd6393e;0x79493a46a51ee;0xef610b60b8cd8;0xb65a1c9aabc2d;0xbbd70b5c460d4;0x9b681ac27dc3d;0xda501ad862e5;0x4bcf63100c5cb;0xf80593cde79e3;0x50d78dd6bb5];[0x2c26dadd6393e;0x79493a46a51ee;0xef610b60b8cd8;0xb65a1c9aabc2d;0xbbd70b5c460d4;0x9b681ac27dc3d;0xda501ad862e5;0x4bcf63100c5cb;0xf80593cde79e3;0x50d78dd6bb5];[0x756317ad2ae20;0xf307ea1db1aa9;0x38084f4c083ce;0xda656c3f8678;0xa03ce6e5bcc54;0xe468e1da39833;0x74dfdddf7081;0x8613c80ba7e73;0x6d2425a864759;0xf3232453d45];[0x7e1df73f334ad;0x25d4709e363c3;0x783cf6ef99c15;0x11fb25217dab4;0x4628ad6eaa3a;0x7a368372550ae;0xbdc41b82f5795;0xaed3fc5d96a56;0xc28761239b279;0x52e24242da9];[0x0;0x6d5fc0845d329;0x1e0c6a2820254;0xb0e95d0a556ba;0xe9567457a53bb;0x7d454b56b05af;0x831b6dad96927;0xe5de537255288;0xe0bfa0705ef87;0x9d4b6e6bf4a66;0x31fe1999d1c];[0x0;0x70620a1b2d4ff;0xdc2f30ea8a4cd;0x3901fa9a77a96;0xf4fc62aeda2ed;0x6ac0494677188;0x5e01e7aeb26c6;0x44994362686f0;0x3f12390af956b;0x965af71d5d681;0x246f4250ba3];[0x0;0x2d7e207945e04;0xe58097b6c8d1c;0x438b86031712a;0x8a27a7133a0fc;0xb0c0ce033cc49;0x5d7af78d92722;0xd900d4fe789ef;0xbe4510b07c3c;0xba480e5bcc2d4;0x8dcc61fc76];[0x0;0x2d7e207945e04;0xe58097b6c8d1c;0x438b86031712a;0x8a27a7133a0fc;0xb0c0ce033cc49;0x5d7af78d92722;0xd900d4fe789ef;0xbe4510b07c3c;0xba480e5bcc2d4;0x8dcc61fc76];[0x0;0x85b33f1c2201f;0x77d8a5b62ce0d;0x54608358648e8;0xf36b1b2c149ce;0x8e44d9a8363cd;0x77ec912c32b1b;0x6785e29c719c5;0xdd56ef6ff09eb;0x8c53a1c9e555d;0x6a1cd15157];[0x0;0x9796b2550731;0xf22e1908eefe4;0x4a2ac557f051f;0x3e8fbdfbd3bfb;0x2dc38ef310558;0x2b4f7ea218115;0xac6847638a7f6;0xd2785ab95749;0x5a06ffe8e9510;0xbd7c4036ef];[0x0;0xf2dfedcab209e;0xb3757a6788fab;0x5929a41f974b5;0x1adcc9fcd891d;0x9e0ff07393bd1;0x6120fbdb6ad5e;0x6bea02dba4480;0x54f6024ed1e79;0x3e446628c4edb;0x2351034c7a3];[0x0;0xf99f19eca016f;0x4faa206b23252;0xfe98ec999864b;0x75d1e7dee1ac;0xace75a7d25ec0;0x51db5554da14a;0x8b48235ce3f7d;0xfd7cdfebb8a68;0x35db0129dcdd1;0x4b3f6105d1e];[0x0;0xde10f1e27e366;0xa9a49439d3820;0x9982924b12c4;0x4dd7f3932077e;0xb1a0f1be9449c;0xb6d5f0a936b02;0xd31a97ac4f25;0x3744efbbadafe;0x3b6e851dee1e7;0x25d85a884]]);
 ((V [0xe265fb93c3527;0x876e311a25851;0xda90117962c41;0xc6c5e162c6756;0x7ce2ee56829a7;0xac926c1470816;0x77e59ae827f0a;0x14847a48d5b08;0xefc4d0f1301eb;0x2be622087c7] [0xcf252f9a71635;0xe0ee15fd82d82;0xeb3daa2a82d09;0x481291b39a189;0x54dda4aaecb68;0xf35a44d242826;0x981672f2883f2;0xd6162481133fb;0xfd3bf139ebd4;0x1e8b61db359] [0x5b18fbeb4d216;0xfb10e0644b908;0x2f8726126aa73;0x7bff99d5b7102;0xc61621cd0cba7;0xe8c4455dc525d;0x38f460de6835f;0x96fd0c81463fc;0x8696762bb3e29;0xad06ca20bd6]),[[0x566e8d0d8bed4;0xbf0f03c44d08c;0x1336d154b659;0x73a58b7500faa;0x77960541b346e;0x7ca0ac225cd15;0x6d4a25e203493;0x62592c7276ca1;0x1415d284ee902;0x183d3a40fd0];[0xfb9f01b65e1ce;0xe356416e621f4;0xcb973c5b44c05;0xb1fefe3a59656;0x8eb6e44a8e342;0x30145c9ba96ff;0xd70af8e260a8e;0x9f781c36633a1;0xd3399ef78bf2;0xa9a2db60c25];[0xc81598d4bf603;0x9b294ef878a2b;0x3ec1ba8270c0;0x7ee6a47b56a93;0x106c0246cb9e3;0xb6f7064d9dd80;0xc6ada9cac88ee;0xd22644ca7bf45;0x6cdec6a727ab4;0x2d8e65bc197];[0xc81598d4bf603;0x9b294ef878a2b;0x3ec1ba8270c0;0x7ee6a47b56a93;0x106c0246cb9e3;0xb6f7064d9dd80;0xc6ada9cac88ee;0xd22644ca7bf45;0x6cdec6a727ab4;0x2d8e65bc197];[0xb9f949c5bdd3a;0xa49b66834cdf4;0x55d57d5ad9e9d;0x4e898e0a84687;0x93e65f618a0c7;0x379ac77e0f6d8;0x325bbd27f28e1;0x7febe2a351123;0x8239032a24d6a;0x73b2f3741ac];[0x41a5b7f0a0495;0x3ebadaeb15400;0x75c1bf006ad68;0x6375702fd4fcf;0xfad084e90427b;0xf879951d9a026;0xa4af3bba6e1ac;0x1f8c39931227e;0x8afa96c553e88;0x35efe7eca78];[0x0;0x2a303d5fe2604;0x19bb350ca4e2b;0xdf0227421375b;0xc0f3fd182df20;0x9157f8641f714;0x66926089c810f;0x7aac84ff4094f;0x7f41615d3da0a;0xc0d00b159c3e5;0x1c2c026121d];[0x0;0xff707bea1afe2;0xe6098b3f9971b;0xbc3651e5d7d59;0xa84776f0e01ce;0x62caff0403e82;0x160f39ec273d4;0x126671c508677;0x5466464bb5a5;0x135238a4da986;0x4503ed5b3e];[0x0;0xde10f1e27e366;0xa9a49439d3820;0x9982924b12c4;0x4dd7f3932077e;0xb1a0f1be9449c;0xb6d5f0a936b02;0xd31a97ac4f25;0x3744efbbadafe;0x3b6e851dee1e7;0x25d85a884];[0x0;0xde10f1e27e366;0xa9a49439d3820;0x9982924b12c4;0x4dd7f3932077e;0xb1a0f1be9449c;0xb6d5f0a936b02;0xd31a97ac4f25;0x3744efbbadafe;0x3b6e851dee1e7;0x25d85a884];[0x0;0xd35fadbc6aa81;0x71db8d874d1cc;0x25067499f731;0x450d245ed2156;0xcc5f53cbf2f36;0x2c4b524d9b7a5;0xb271a32a2c63f;0x2f07260b7d744;0xb0a78b1630eef;0x15fe327];[0x0;0x1f45f2a7fb54c;0x6a7a7f06ac10b;0x874d1149f59d;0x411cdb237539;0x3831587f37d0f;0xb326c93d61e43;0x3b7230dda5882;0x7d46aecc5c1a5;0xc8fe67ba2dfc4;0x411f908b122];[0x0;0xd0354d7341a65;0xfd0c536244704;0x7fb7896d4adc7;0x7a29f86702e45;0x4a2a45a9ac7f3;0x8d6387d0d7022;0x521a4510f206d;0x9333def39b8ad;0xae48779b7d083;0x1d16d9b79a4];[0x0;0xe1d234103b8fa;0x518fa8166478;0xb7c45c1cddd9d;0x8dc31ba892f4e;0x4809a2f7636e0;0x4eb850767a7d4;0x7773eec527f8a;0xd7b9608de8ca3;0xf1e4ec535fbbd;0x1e95afcb165b4];[0x0;0xb2ad89199131b;0xc3e8f6571ebdd;0x3f104c88dd573;0xd4944d276a7f3;0x462b3bfa76585;0x87cc102cdccf3;0x88f717eb0dc91;0x11bb827996f9c;0x650de416c938e;0x53cdeb9432]]);
 ((V [0x76f9683ea02ef;0x5e7c903a64f6a;0xf3db60e4cb947;0x20cc3295a7f0f;0x5a735be88e65b;0xaa8b46edcfabe;0xc6c6ad8d361b7;0x9af4183d67cd4;0xa550ff275df00;0xccf1bf6339a] [0xcbdbc71236b47;0xb9b11434aa3d4;0xb94bd4d10f36a;0x31a854467a062;0x7b74e19f47bf1;0x10a8d2d4ec79;0x9715fe55f4cbd;0xfc4a0ba8d8ccc;0x151495114fa91;0xd642870d845] [0xc23f11c1faf7e;0xd4088745253d1;0x188003de3482b;0xc1d0738f71663;0xdf8a14283c0d9;0xfe1678e9497c;0xb6ecafbbf2e70;0x7173fbf307156;0x3502d5b66b327;0xbaa7316aa51]),[[0xdb288952605fd;0x620978288ec37;0x25d405e351356;0x558af7347a839;0xe56cef834dcbd;0xb5d041864534e;0x995214be50760;0x26b8d228fdd6a;0x73db1578999c6;0x295837ff998];[0x7d15c16caac33;0xb5971fe858c04;0x17a1ef8f958df;0x9716fc5ac23e;0x29f7d0b614702;0x4ef4f2994e3b8;0xadd8d7a7ed424;0x6e5cb3d83cc2d;0x607a3d977d871;0x3fdc5c8b44c];[0x5b18fbeb4d216;0xfb10e0644b908;0x2f8726126aa73;0x7bff99d5b7102;0xc61621cd0cba7;0xe8c4455dc525d;0x38f460de6835f;0x96fd0c81463fc;0x8696762bb3e29;0xad06ca20bd6];[0x5b18fbeb4d216;0xfb10e0644b908;0x2f8726126aa73;0x7bff99d5b7102;0xc61621cd0cba7;0xe8c4455dc525d;0x38f460de6835f;0x96fd0c81463fc;0x8696762bb3e29;0xad06ca20bd6];[0x4aaa5a5ac7db4;0x4e6c4bc27b1a5;0x2d5a756a7679d;0x53f747556dde5;0x9c3f7298a4ac;0xfbe925a014e44;0xb1cdac31e8a2c;0x33c2978ae17ae;0xa420f03a20d9f;0xcfbcacc8485];[0x326b6711e2c47;0x672ad425dda5f;0xea477a251f142;0xb57a28703e458;0x2033d98c8a255;0x530bccf939574;0xfc0b2b76049f7;0x3a9a1c4d5b47e;0xbc594d5d5cad2;0x701fafc2fc6];[0x0;0x44b1316567605;0x7c8ba6b2b92a4;0x41137c739dd8a;0x2dfcb1ff067fd;0x72a9dd315723;0x3325a96a3a8f9;0xe9c58736fa9c8;0x39edfdfa243d5;0x735cfedc8450d;0x6affd512ad2];[0x0;0xb6eb61c634e1d;0x1dd5754a36109;0x96e0dba2fd725;0x2cdb6aebd5803;0x4a10dd597bf04;0x852c93ffe253b;0xe4902d4358009;0x184b70e72397f;0xbab28877d4799;0x1bf1b68df08];[0x0;0xb2ad89199131b;0xc3e8f6571ebdd;0x3f104c88dd573;0xd4944d276a7f3;0x462b3bfa76585;0x87cc102cdccf3;0x88f717eb0dc91;0x11bb827996f9c;0x650de416c938e;0x53cdeb9432];[0x0;0xb2ad89199131b;0xc3e8f6571ebdd;0x3f104c88dd573;0xd4944d276a7f3;0x462b3bfa76585;0x87cc102cdccf3;0x88f717eb0dc91;0x11bb827996f9c;0x650de416c938e;0x53cdeb9432];[0x0;0x89aab2a189093;0xa5b5684c58908;0x7a71c11c62f9d;0x37614461242ae;0xf0937789782af;0x68146e733c0aa;0xe858ef804ef84;0x48ef5aa1f6739;0x201199ccf9481;0x3a4f6d2ca0];[0x0;0x7247721588b06;0xc1621a901ecdf;0xbd0dbe94e8bb0;0x6193590164485;0x4761be227abb6;0x4f19f54b5fa47;0x5914a65eb363;0x641cfcb5c8ce0;0x89e48fd06f906;0x7871e50059];[0x0;0xe15b1c5c9b4a0;0xbed31fa871a6e;0xcbebd1b76c268;0xb0d13cbd2a3ef;0xa45b20c65a2dc;0xb9b4ab2d7d56d;0x33f3e1eb5c506;0xedc72c2d51bb;0xfccd7b6be91f1;0x331fe7f0438];[0x0;0x314cd220b8e9;0xeac5541cbd1b2;0x8157efdc76bd;0xbdbf28b6c36cb;0xcae94935aef79;0xec6d6f7564a71;0x432e3df287b4c;0x53fb7b9de92e6;0xd481a6f1239a6;0xd6e356c6b4fa3];[0x0;0xbd737014487dd;0x4b05fc17bc8e7;0x940bee43fce3b;0x8b7fb11ea83ff;0x8923abce5f956;0xe915a94735d2;0x623ed072731e4;0x3e9f62d4ba6dc;0xb0cb7ead519cf;0xab87586e97e]]);
 ((V [0x2eeb9efdce525;0x69396f069b19e;0xebf3573972cdb;0x3f67fc2472552;0x44652af2c39e8;0x80e602b23bf28;0x7f16abb859679;0x9ad4d08f48b3f;0xda39a3d454783;0x97145eee3cd] [0x54edaaaa6e25d;0x7c619dc1c2f49;0x5bb2e28cdb675;0x2d896b63ec5c2;0x97ee1100cce66;0xf8c4c8e5c4f95;0x928ff1dae088a;0x6d31dc014246b;0xc2de076a4027c;0x6e6d0f63eab] [0xe48fc33d04d53;0x8f67718b6e3fb;0xba27c07c8bc1e;0x4d3b3f230f58c;0x5e59513b4d167;0xfe1aff9b4cfc4;0x344f14f312f93;0x2d33af8b09995;0x95ce92708c2b3;0xd4a5d239e26]),[[0xb4ede975ca244;0xaa2a702da2b0e;0x5c75a685a75b4;0x7e42794ed12a0;0xaa44d38110c46;0xfa8188c9eca98;0xf127c07bd789d;0xb52d14767c680;0xe8bebd2d44dc1;0xaf039ac133b];[0xab9e8320f334e;0xa568060fde6bb;0xb4a3e80e03bbc;0x5fd6d211685f1;0x80b3e8677d0d0;0x303bc62366a13;0xf155e1bb765d4;0x11b4aebb2c5bd;0x28448ccb22392;0xd27981f55bc];[0xc23f11c1faf7e;0xd4088745253d1;0x188003de3482b;0xc1d0738f71663;0xdf8a14283c0d9;0xfe1678e9497c;0xb6ecafbbf2e70;0x7173fbf307156;0x3502d5b66b327;0xbaa7316aa51];[0xc23f11c1faf7e;0xd4088745253d1;0x188003de3482b;0xc1d0738f71663;0xdf8a14283c0d9;0xfe1678e9497c;0xb6ecafbbf2e70;0x7173fbf307156;0x3502d5b66b327;0xbaa7316aa51];[0x99883c0a0800d;0xd2d176f955a5c;0x3f86aceccd620;0x63779f5e323c9;0x45a1561e3556a;0xfd559c21cbcb0;0x82e06349b9fe6;0xb8077f3525443;0xda08cab1f36bc;0x1c6d655f593];[0x12164716eb342;0xd2968f1688c5f;0x751d3b213659b;0xfc5f32b336228;0x3b12924947b65;0x32e62a019ad63;0x6e757e71bc5ed;0x59ad2f860717a;0x4e3bc2192ecd5;0xb60c1c96028];[0x0;0x8ce18d7168c04;0xd49d0fdab2eac;0xc659871129a85;0xba84cb0a7ed4;0xd8dd918432725;0x91513f34adb5f;0x9737db1b76d24;0xc116113437bff;0x3d2d2a53353b3;0x736d0e4ce34];[0x0;0x65f08f3fb3086;0xa7053660cad98;0x38169976537ea;0x8912b491ada0e;0x700e1eb657c2d;0xe079f8552520;0x6f0090ed96005;0x3e16e3d1486db;0x8c8b0a8de955f;0x7f9aeb92ec9];[0x0;0xbd737014487dd;0x4b05fc17bc8e7;0x940bee43fce3b;0x8b7fb11ea83ff;0x8923abce5f956;0xe915a94735d2;0x623ed072731e4;0x3e9f62d4ba6dc;0xb0cb7ead519cf;0xab87586e97e];[0x0;0xbd737014487dd;0x4b05fc17bc8e7;0x940bee43fce3b;0x8b7fb11ea83ff;0x8923abce5f956;0xe915a94735d2;0x623ed072731e4;0x3e9f62d4ba6dc;0xb0cb7ead519cf;0xab87586e97e];[0x0;0x8b9c5cb29f53c;0x82c60efdaa1e5;0xd3da7ee6b5288;0xc432773bf479d;0x394220b37701c;0x21faa2ff2ada3;0x24227ca9205c7;0xc74bb891c01b0;0xf7018f5be6c5b;0xb3534b14836];[0x0;0x84b2e8563a529;0xb28e72b9b71a7;0x6ea70f2e123b2;0x5728555106a64;0x9c6e48f402275;0x9aeb5f2c20c21;0xa8fd77db62610;0x6f7041c29d5b1;0xf40c7641b3eae;0xa4122d500bc];[0x0;0xc3fdfd3b3a219;0x276a700281310;0x4f095232d5b1;0x7a25f1daf7251;0xb2b17436dbc19;0xd2331d1f4493;0x449327fbf3881;0x5b1bbff4043b7;0x484e2e15fe634;0x7c366b325d0];[0x0;0x516ef1ed62640;0x2dbed46908aa5;0x8685261a2fb3b;0x5d3313e343ea;0xb8458f3dada30;0x2e2862ba3b27d;0xa29f29e7961aa;0x5821a31726a1e;0xbfdacfff57e43;0x6e80b293139f6];[0x0;0x3fca5bbca3f2;0xb7e25243fb8e3;0xa4aeecd32263a;0x8fbf0084b1548;0xfa18eee82b37a;0x210302d6e48e;0x64caa5f92c4be;0x513d6a984a1b0;0xf7f2bfc6a9334;0x412b1d8bf28]]);
 ((V [0x4fa6c32028409;0x5935ce60b0993;0xa19b2568c8c9f;0x57f4b4be2a2c;0x94e288c5e4ac9;0x8347ce3b299ca;0xe2b9d23e845f0;0x6ee557e4a26e0;0x7175155a9b71d;0xa225b8cd6b1] [0x96bb757d6c29a;0xcf73c122feb9f;0x2c1153167ea4c;0x87242171ba46e;0x1ed94c28dd235;0xcf9a24d805854;0xdd9587c824322;0x937e4a226aeaa;0x84b64f6727254;0x55fd50f7964] [0x6f495196bf5f5;0x98971933c8282;0x2e097c27b9fc3;0x48497a58fc10f;0xc420c4a6d060b;0xffd393c0c3e43;0x43cf472528995;0x7fea39dcaf0a1;0x64cd14c085615;0xf5f83aa1c95]),[[0xbae01691fb3e4;0x7e6bd6ec230fd;0x24563c2a152b5;0x5e9d61b3651b6;0x13f468d79566;0x9ddff6a14f22b;0xa6185296b6173;0x6aad2b0b04d02;0x48f794ef26805;0xaff5d3d91b1];[0xd2927c5bcd8de;0x1bd114b078e3;0xd23c78b804268;0x53d4042ee384e;0xcf61ebfddc7ca;0xd6566a87761a6;0x903db456b5a57;0xf2f85dd6d0e54;0xff8758cf49ca8;0x62f0ebe6ebc];[0xe48fc33d04d53;0x8f67718b6e3fb;0xba27c07c8bc1e;0x4d3b3f230f58c;0x5e59513b4d167;0xfe1aff9b4cfc4;0x344f14f312f93;0x2d33af8b09995;0x95ce92708c2b3;0xd4a5d239e26];[0xe48fc33d04d53;0x8f67718b6e3fb;0xba27c07c8bc1e;0x4d3b3f230f58c;0x5e59513b4d167;0xfe1aff9b4cfc4;0x344f14f312f93;0x2d33af8b09995;0x95ce92708c2b3;0xd4a5d239e26];[0x1323ea6b709e;0x9160623ae5e0a;0x8365485bc4719;0xca4c85652b74b;0xd4d76d63ddc3c;0x69e2a4b018bdb;0x820567b1988af;0x23ddfb0ffdfaf;0xbc9fecb25007b;0xaf14c9ea937];[0xd1603db516608;0x705caf1021ad9;0x4ed7305c3fb4e;0x89877ec9b8103;0xfa8a7e99feb8d;0x6c73c5d75d5ca;0xe384ca51d1a8;0xcf1a62c6d2ea5;0x42e76c1cf9c2d;0xb3dc21fc585];[0x0;0x8357abf07e294;0x28098703743b3;0x89eb3d9015668;0x785442887f379;0xd2e1ba7496e40;0xa3a2dd983c885;0x99d0267889fe4;0x91d251cdf5b71;0x4d53102a96aa4;0x838044a022e];[0x0;0x43869bfeb5982;0x9537bb7732d8b;0x4ece7fc1b03ed;0x660ee5a09b2b5;0x7e311b57f44bd;0x993852ed6b8d3;0xc5796ac9603ae;0x1344b1b48c2f7;0xf2f54fb7ea65c;0x92298d60c67];[0x0;0x3fca5bbca3f2;0xb7e25243fb8e3;0xa4aeecd32263a;0x8fbf0084b1548;0xfa18eee82b37a;0x210302d6e48e;0x64caa5f92c4be;0x513d6a984a1b0;0xf7f2bfc6a9334;0x412b1d8bf28];[0x0;0x3fca5bbca3f2;0xb7e25243fb8e3;0xa4aeecd32263a;0x8fbf0084b1548;0xfa18eee82b37a;0x210302d6e48e;0x64caa5f92c4be;0x513d6a984a1b0;0xf7f2bfc6a9334;0x412b1d8bf28];[0x0;0x288b00f522d7d;0x2e64723f10615;0xbd527ba90d3f0;0xacc89c3d8a15;0x863e2e1000a23;0x89e5a658d7241;0x1046644e731de;0xc9bb1a83579ec;0xc782d69425181;0x2fa1e7aff9b];[0x0;0x91f73a9ac9827;0xe189f9f939d17;0xec9dfa8dd4823;0xbbb429a4444bf;0xeeb491f7e5f91;0xc2793d832b6d3;0xbf5c6269fbb09;0x6820e7c8f3e77;0xacc09831b698d;0x5929099c043];[0x0;0xeacbb07926947;0xbcddc010e3e95;0x473f930ef2b84;0x8f32f474ef420;0xb202f9c9d14dd;0x9b639e83fa788;0x9c8cfdd14d625;0xffc7ede1c3c28;0x830f36725b3dc;0x3eab0986c77];[0x0;0x73bb1ccbf8161;0x89427acf6ca6c;0x7c555380cf307;0xbba0ef46175;0x1a987de6aed9a;0x9330b52a817e4;0x108ae7abf32cc;0xfbf32d5c35650;0xfb5b610071227;0x56321262d614c];[0x0;0xfb2d87e47aee3;0xa1c10583081af;0x84aea48f1d602;0x7a1afd6520de7;0xd79f02c8a790b;0xd7ef9871867a7;0xc4b83a6ef61d7;0x4c46bc34f4134;0x6e4deede2ae57;0x3676f8ec72e]]);
 ((V [0x3d704bf588134;0x140c97cfcd58;0x831ce4d889b0d;0x54c1526805fc5;0x8eaabede5a50;0x29efeea94469b;0x1d766bd2a47f5;0x35d2153d93738;0x1ffda306dbc7a;0xa8bcaaff38] [0xb8c0412bdb5c1;0x571d92bb90165;0xa01db5e3c9ab6;0x9a0d02eeedffc;0x1180d717506d5;0x507e9a993d461;0x25c16d24efeda;0xe1271899351c2;0x502849b62ad72;0xfac45eb2df8] [0x7a3ec46fb6b47;0x8952d1a71098d;0x4813ecebf36fb;0xeefc77d7b3e0e;0xb58b05b7e0a;0x42250b66a578f;0xd8909b366b995;0x15592faf071f9;0xadd69daa259cb;0xff70d084455]),[[0x3f758215f2405;0x435f111e1ff83;0xb573c0278ffa2;0xd6f6bd726d14d;0x321b1116e7964;0x564e48aa7f478;0x85125b41c861a;0x52e4a6a334162;0x1930308caff3c;0xd9b8feeee46];[0x986bf9a1f45d5;0xdf5fb79688950;0x4237e68eee0eb;0xbc04e4aa7baf5;0xe9dbde8587dbb;0x661937e048a67;0xaebcb11b7b75c;0x52a9df88c6d7c;0xefc585e15fbc1;0x1e36957f173];[0x6f495196bf5f5;0x98971933c8282;0x2e097c27b9fc3;0x48497a58fc10f;0xc420c4a6d060b;0xffd393c0c3e43;0x43cf472528995;0x7fea39dcaf0a1;0x64cd14c085615;0xf5f83aa1c95];[0x6f495196bf5f5;0x98971933c8282;0x2e097c27b9fc3;0x48497a58fc10f;0xc420c4a6d060b;0xffd393c0c3e43;0x43cf472528995;0x7fea39dcaf0a1;0x64cd14c085615;0xf5f83aa1c95];[0x233744298908e;0xa649d6cc96458;0x789c6f34dd341;0x8cb72f991ef01;0x29c13e32eca97;0xeca02ab6b28ba;0xfe79a4d428893;0xf88f24c799144;0x71c30ffb64c5e;0x3c4548b98d3];[0x7534b5786b30f;0x3915e0c9f24f8;0xc99b775a10daa;0x2f4db5115cbf3;0xc01aa0529b324;0x79790d29961ad;0xb0430c4752ec8;0x5a1abac12dc37;0x7e0275e5faf62;0xe1f14cc58a0];[0x0;0x2188755337e1d;0x38b090f7083de;0xb7e6343f12d11;0x32cd6fc4c72e5;0xfee0e24c84f75;0x714ffc01db017;0x85d6f4a2aa634;0x5a3b6c30bcfcf;0xbd62b29be8f0f;0x981b75aba4a];[0x0;0x523511b79b46c;0x61fabf7db7e8a;0x476f7900a9410;0x8ba2506d83687;0xcdcb3883a433;0x63e6a93248c85;0xf4b66dd0c028f;0x55cd32c87b92;0x4b9d830f9548a;0xd131290f1a5];[0x0;0xfb2d87e47aee3;0xa1c10583081af;0x84aea48f1d602;0x7a1afd6520de7;0xd79f02c8a790b;0xd7ef9871867a7;0xc4b83a6ef61d7;0x4c46bc34f4134;0x6e4deede2ae57;0x3676f8ec72e];[0x0;0xfb2d87e47aee3;0xa1c10583081af;0x84aea48f1d602;0x7a1afd6520de7;0xd79f02c8a790b;0xd7ef9871867a7;0xc4b83a6ef61d7;0x4c46bc34f4134;0x6e4deede2ae57;0x3676f8ec72e];[0x0;0xc8c2e4608a33a;0xd9cd5c9c6d6db;0xa549da71bf070;0x3b87233aea1d0;0xf2fe319eb4b15;0xaaacb867fd878;0x9d8c679a4d7ec;0xd37eed0e121b;0x6ba56981081c2;0x1ce2326d8cc];[0x0;0x890956a6728ae;0x28cb72d268f99;0xfceb38e44ca94;0x6bbff401c7a01;0x8a443ccc341a4;0xcb7ec46ffafe9;0xec2c563f4ae96;0x883ee0e362469;0x21cf58f3a21ca;0x66b3c372ec5];[0x0;0x5f9a37dbbf202;0xf30e5c212513;0xc417a2d4bf569;0x48bd0427457f6;0x2ad77fb431e65;0x6646f8269e6a6;0x2ce272abc9e9c;0x7954ba5eaf407;0xdb6e2260bc295;0x13ea165f8e];[0x0;0x3a8cf3a7cb2ab;0xa1da3b50b80dd;0xbe9cc40876d3a;0x59f5438207019;0x61a15c0e77e0;0xd72992980c023;0xd60b0d189fd46;0xd1d58fd72c546;0xc5cafc0250084;0xfba18a969cab4];[0x0;0x6b15ed97cdbab;0xafe5614d9e259;0xc0bbb9b070ad7;0x98dd149d8083b;0x15a66ef8223e1;0xc599dee00b10a;0xf9e0f025e20ad;0x807f3c7070a49;0x82d6e234698fc;0xa549addb55]]);
 ((V [0x6e8831f027f41;0x541c21594ad7d;0xcb534712d83e1;0x986ed635fbd67;0xd108ef3d8f164;0x22cf594d2cb2e;0x798673282d95a;0x5a985055a677e;0x7127fb5ccb9;0x3bbfc3bdb24] [0xa79deaf6d25fa;0x8aadb2597bb4c;0xf8fb2ebec2d0a;0xd68eebdfae8cc;0x61f73c958f14e;0x8d59d00e8e9ff;0x8bf61910ff6ea;0x29f547b4a9a9b;0xa886dde711001;0x518404d59a9] [0xd3951e176df0e;0x9bea6dd94e646;0x8c37dd7f8ce93;0x94ac738ea3e69;0x8286e6d08771a;0xd4a322cbd73e0;0x488ecf0cf6e20;0xab4e18dc7d28c;0xe3eba849c80a;0xb8a610b0a19]),[[0x46459e4f2e6f;0x6ef0ed3d8f8c5;0xe7dba535d0bf7;0xdbad47c91d464;0x7e6aaaae35bcb;0xf37591c145d73;0xcd530d282269a;0xf365e46d669f5;0xedab38f8804c4;0xed9fa1406a9];[0x8e74fc9ba849c;0x7298891471028;0xeae6449a414ea;0x5757c0fc30ead;0xeb1b1acd7a5c3;0x6af7fe4208ccb;0x1ed35fa1914bc;0x9760d26233763;0x500e41fbc5431;0x99845d1babe];[0x7a3ec46fb6b47;0x8952d1a71098d;0x4813ecebf36fb;0xeefc77d7b3e0e;0xb58b05b7e0a;0x42250b66a578f;0xd8909b366b995;0x15592faf071f9;0xadd69daa259cb;0xff70d084455];[0x7a3ec46fb6b47;0x8952d1a71098d;0x4813ecebf36fb;0xeefc77d7b3e0e;0xb58b05b7e0a;0x42250b66a578f;0xd8909b366b995;0x15592faf071f9;0xadd69daa259cb;0xff70d084455];[0x36f70e6f20aea;0xbb3c9bbd0990b;0x3b4ffcfe9c0c2;0x42b9ea314d25b;0x55cce68f6e0d5;0x457bd2526c27c;0x334fa4e03c3d7;0x2d46c45dfbd1f;0xd48021dfa106;0x8bf31d756ef];[0x577dee2c879b3;0xb75bed576771d;0xaf96479ba5427;0x149dd6cae3c52;0x954e343e0c4ee;0x257c2bef9ca4f;0xeb83bac1550e5;0x6a1a0e0437a43;0x42c63fddcb32b;0xd913fa63cf];[0x0;0xd0ca92cd59337;0xa7d022f7eb26;0x64519f7173b33;0xbad7b94617f3b;0xb1d7b66cb276d;0x3577bc57a4b5d;0x4d8bbc4772d6;0x6a7f0f1fbaf46;0xe496fcb1b9c64;0x9df6d1d9aa8];[0x0;0x480a8cbc4d96b;0xadbf4b0e70831;0xe1545538f1622;0xd1b640fb03df4;0x3249edf24dc79;0x2e8d24869900;0x16ffe030f212c;0xd7682efb724db;0x6bb4ab3229f66;0xed1ab902301];[0x0;0x6b15ed97cdbab;0xafe5614d9e259;0xc0bbb9b070ad7;0x98dd149d8083b;0x15a66ef8223e1;0xc599dee00b10a;0xf9e0f025e20ad;0x807f3c7070a49;0x82d6e234698fc;0xa549addb55];[0x0;0x6b15ed97cdbab;0xafe5614d9e259;0xc0bbb9b070ad7;0x98dd149d8083b;0x15a66ef8223e1;0xc599dee00b10a;0xf9e0f025e20ad;0x807f3c7070a49;0x82d6e234698fc;0xa549addb55];[0x0;0x4ad69661436b1;0x9f5e382801750;0xa686a8c108993;0x6c738d324c646;0x9dd3d16c4fd0c;0xcef552623e5ec;0xbc8a27b44a4bf;0x28c866d73b2c5;0xde5b820848be1;0xf5a41f96817];[0x0;0x60b341f96a43b;0x4fc6923805616;0x829039500c8e0;0xc5aa359c7f36e;0xb714e6516f420;0xa403837f51561;0xb9611e0dd22a0;0xadecf0aa16023;0x2bc60ddd9585b;0x6f382b7a9];[0x0;0x707f258f91139;0x227def1a5baea;0xca4b6c771d524;0x8a3a300065b8c;0xdeec5c8da7a30;0xbaf4278cd405a;0xd8babb13deadb;0x814cb90144075;0xc467fd023b291;0x23d480986cc];[0x0;0xf0ba3500a8f36;0xf9298a1ec98e9;0x8d5a33219b19f;0x53d6d6bea9645;0x84239e9316368;0xf763107de213f;0x2737f5536f2e9;0xfdaeac0679ff6;0xeacc73604b6f4;0x51a4a6cdd4482];[0x0;0xcc5298ee6c934;0x7869370f0cd67;0xb2adfaaad35c4;0xafa60ddebff84;0x9415fcecf8554;0xa4fa25f9cea15;0x7f71745fdcc69;0xc2c1f3b7d1683;0x86bd2313a1843;0x13067cf0cce]]);
 ((V [0x4115a148e02c9;0xc39d0334893f;0xe557cc2ca7757;0x449139b062a3d;0xf0647e58a48ad;0x1cbb0ca8d8a06;0x9df6a06a2b781;0x62c9ddd36d3ab;0x86a03871203f6;0xb50fdcce002] [0xdbedecb11ae3d;0x9ab621bdef68e;0xe971a785e198f;0x8bcfcd5db5820;0x359b32d758acc;0x540af4d6b94e3;0x5ddee5abf04cb;0x8a2f47a526aa6;0x6436062f7a47d;0x9a86e21c075] [0xb15d4147c7de6;0x25cf4e2928db9;0x756ebe548304e;0xf820f9729fd22;0x4694414a3d96;0xabf9aea8784e9;0xd3fc80fcc9c62;0x23cebe9998145;0xf0971da9c9438;0x9b4f92b7be9]),[[0xda812e5300133;0xa4988ffa391cc;0x61b037b072c3b;0x40bbf9e689114;0xec918b99ed91e;0x28fd9e29c182b;0x999a8b6bc23e9;0x75783e003232;0xe3b222cd85e1b;0x81a9bdf53bd];[0x170149ca5d125;0xfb8e263fda56c;0x913ba05fceb3b;0xaff513be661f;0xc3bc78f20f710;0x4040db00de23f;0x5bccc3b4bf382;0xb0eec919d01c5;0xecc7841b1a6;0x6026d82001];[0xd3951e176df0e;0x9bea6dd94e646;0x8c37dd7f8ce93;0x94ac738ea3e69;0x8286e6d08771a;0xd4a322cbd73e0;0x488ecf0cf6e20;0xab4e18dc7d28c;0xe3eba849c80a;0xb8a610b0a19];[0xd3951e176df0e;0x9bea6dd94e646;0x8c37dd7f8ce93;0x94ac738ea3e69;0x8286e6d08771a;0xd4a322cbd73e0;0x488ecf0cf6e20;0xab4e18dc7d28c;0xe3eba849c80a;0xb8a610b0a19];[0xec18ecd9f2c66;0x7441a4289ed1d;0x73c7856ad115c;0xf5bd743a5c2;0xff9efd4c6e1f3;0xdf7ce32335a54;0xff5bb1d7101ca;0x2c6704b5ee4b7;0x47c83f1863df8;0xddd9a83d247];[0x2ae85cf06a287;0x874c82173b84e;0x1d741af4fd9df;0xa0993c7ac05d;0xc41d7ba5a151d;0x60c3f7dda87ea;0x5c7111ddaf1b7;0x8487c463e1d0d;0xb924886bb73ae;0x2828c544db9];[0x0;0xbe717109fc16b;0xcf187769518fd;0x52ae2de0db2d7;0x6e60c6a590252;0xb9f7fb3beaa23;0xb43180b167e88;0x8ae502fc7f4ef;0x90a5c9b5b0199;0xdc8f8d101c052;0x722fbd057a2];[0x0;0x140e2cb4ef233;0x4cc7344cb2040;0xac173ade018e0;0x84f69a217b0d3;0x347aacd53a167;0x14cdeb5922d51;0xb9b667d08f035;0xb051cb5384a4b;0x39c54e8f66a04;0x5d861d0d827];[0x0;0xcc5298ee6c934;0x7869370f0cd67;0xb2adfaaad35c4;0xafa60ddebff84;0x9415fcecf8554;0xa4fa25f9cea15;0x7f71745fdcc69;0xc2c1f3b7d1683;0x86bd2313a1843;0x13067cf0cce];[0x0;0xcc5298ee6c934;0x7869370f0cd67;0xb2adfaaad35c4;0xafa60ddebff84;0x9415fcecf8554;0xa4fa25f9cea15;0x7f71745fdcc69;0xc2c1f3b7d1683;0x86bd2313a1843;0x13067cf0cce];[0x0;0x3c2e1a2422e52;0xd2b49685bb401;0x50cd6a3805888;0x48df31f9cbdf;0x902c024537770;0xebf60a425f55a;0x28262a5c1f398;0x8ae9ba59b8861;0x498c1aed9afed;0x19f4cf24283];[0x0;0x1b060cd157c36;0x43f75dbc3aa78;0xfd831f54dce4b;0xe77d039bb771d;0x42ca715df2aa5;0x8e0b9bc2a907c;0xddaeb088c5db;0xb7b4bded6ef4b;0x408eb4de6175d;0xdf1f3df1ae];[0x0;0x9fe6014eadd76;0x700e606127215;0xc9d9c2e4dff3f;0xa963a9b7b6647;0xbc54065e16cfc;0x8546725c17ea7;0xaa1621559fa7e;0x84c4ebb4e796c;0xa24ef7b7ff167;0x44016c040b];[0x0;0xb9a686547a147;0x7551c2a37309;0xe8989716f7f42;0xebb4fa2b255f1;0x70b7a1f9a6b0b;0xbf2e1d2b54a6b;0xc0d4f9741ca71;0x98d9717dbd5c3;0x71cca2eda3f8e;0x9b1dc85daf0a6];[0x0;0x53528b1c13209;0xb32a5df988a48;0x2f9958a3cf248;0x7645ef6262cad;0xef640ba0be503;0xdf2eb99337377;0x8216700faf763;0x2b6508fa25067;0x6d99e710d5861;0x6d4af10d53c]]);
 ((V [0x3279d47c2dd4d;0xfb4156eb255f3;0xc2646525a7eb4;0xc04e4c9ee9ce7;0xb2dfb4f22be87;0xfe2b37bb2c4ee;0xc57fb22ddff29;0xc95b44b90b955;0x6e2b3c57a8f4b;0x501df1ee23f] [0x318b1b75bdc96;0xa8b9016cc832e;0x32544433cef59;0x7463b89232b27;0xd7b26c20b4d20;0xf10ebb1e54024;0x245c24b9ae702;0xd14696bc0ac3a;0x1eff05f2f87db;0x33df0d0c43a] [0x58fac1389a7f7;0x6f35747fc0ce6;0x4d4a3da3d1c51;0x1d1398b4b0945;0xd7932f90f2946;0xf6bc7a84b883d;0x3f57722c90168;0x1655e6a38be4d;0xad4828364594b;0x8f91ed262cc]),[[0x54f054277e79a;0x21e39a43193c3;0x43b8b21c02104;0xaec0a29c9a031;0xbee2ec3c27c7c;0x22ec6879e628b;0xeaeb13b6053cc;0x148aa7c6a0f0f;0x5cf5e164420f3;0x38d52030991];[0x964ffacceb2c3;0x154a696ccd405;0xb5602e648a6a7;0x1b82bcedc90ea;0x4baadaf4c8946;0xc63da77f878a2;0xa0d46e4a98bd6;0xdc6545e235d9c;0x2dc961c853ec0;0x2ca5daaa87e];[0xb15d4147c7de6;0x25cf4e2928db9;0x756ebe548304e;0xf820f9729fd22;0x4694414a3d96;0xabf9aea8784e9;0xd3fc80fcc9c62;0x23cebe9998145;0xf0971da9c9438;0x9b4f92b7be9];[0xb15d4147c7de6;0x25cf4e2928db9;0x756ebe548304e;0xf820f9729fd22;0x4694414a3d96;0xabf9aea8784e9;0xd3fc80fcc9c62;0x23cebe9998145;0xf0971da9c9438;0x9b4f92b7be9];[0xa0fb8f384ac38;0xd6613afa9f15f;0x546cfe9a8f693;0xed0ccb8e1014f;0x76ea392d26911;0xaeb4f56a14066;0x97239b2fe50e6;0x9f77aea7bd618;0xe535dc20b101f;0x63e6b9ada1e];[0xf5546b94a0453;0x3ee92e722e2a5;0x60f32fc9fb013;0x2e75f15fb8f9b;0xd4c0a1c7a2034;0x1788b2157383b;0x9b0d31ab3af0;0x3ced973a78784;0x489385a7a2ea1;0xc8bf20fce5f];[0x0;0x6b2c2296f378a;0xb4d652998df3f;0xe415accf8daf;0x3a43629bc4dc;0xffe1ff3770b1e;0xb9023d24505;0xc4b1e50cd3c58;0x57b1c91402496;0x272fce6142730;0x600b42dc871];[0x0;0xb5fc269d1639f;0x23ad1adc6f30d;0xc983b78ef87b5;0x27032fae17fe7;0x56731ef2d1186;0x5b6f58dd8caee;0xe101e2c049917;0xc1fabe284e026;0x6a8b0a8e97367;0x227ab4d4b2b];[0x0;0x53528b1c13209;0xb32a5df988a48;0x2f9958a3cf248;0x7645ef6262cad;0xef640ba0be503;0xdf2eb99337377;0x8216700faf763;0x2b6508fa25067;0x6d99e710d5861;0x6d4af10d53c];[0x0;0x53528b1c13209;0xb32a5df988a48;0x2f9958a3cf248;0x7645ef6262cad;0xef640ba0be503;0xdf2eb99337377;0x8216700faf763;0x2b6508fa25067;0x6d99e710d5861;0x6d4af10d53c];[0x0;0xdc2ef85723327;0xfd7e2f6b6a389;0x4e1ac0cfeef6f;0xa27817c3b80e4;0x6680c37a973bf;0xe18b71c8d197b;0xd017804411262;0xbe2ed09cca3fc;0xf7646a044dba;0x5d468f1b35e];[0x0;0x2a85969d4ee92;0xa2d472c21b58f;0xff69505ff391;0x727c25d2c1411;0xb0aaf4f6b52aa;0xc3486cda889b2;0xdd5a77ddc36cb;0x8360032f83573;0xfe0af20aa01ec;0x800f6f36eac];[0x0;0x3a45a0d023998;0x8b7cba7c34c6d;0x9871a47494c0a;0xe31c50e433799;0x2ffeac117dfe5;0xeb1952944b0d5;0x1011a522b60b2;0x69dfb13535db6;0x9d9e802634dc5;0xdf90d50bb1];[0x0;0x451339acb87ae;0x8d706f69540a7;0x7747d961a553b;0x7bb2d2b5ccc81;0xb8d49f5aa2d0f;0x38c11872e7f05;0x4d1cf926d7d54;0x789ad59d3defd;0x6c078b2642930;0x3409e027ffe24];[0x0;0x6a0affafcc3a1;0xc6579703254c3;0xe5a6595f20c69;0x609a7e94588d9;0xb20601fa4d4de;0xa96e96d45bbbf;0xb61ead5a0d301;0x9bc2177892f18;0x676742cee8cfd;0x103bc55d8b7]]);
 ((V [0xc1ecbf25889ac;0xaf81b23e0ce73;0xb2e2960054dd6;0xf7c260f276fa0;0xd98e474f85f69;0x6ad1b2ceae00b;0xe09e86e518f79;0xbd7a64eed62b6;0xcc8dc111429d5;0xd9a19d823d7] [0x7d1954a38075a;0x10cc7edc58d3e;0x9b47a40db91b;0xfbfd2e2828c8b;0x8a277c9549430;0x626ed32ad11df;0x149fd82e2b505;0x3e694f111832;0x57b20d2dcb968;0xe75d8bac2ee] [0xd0d962731b23c;0x7840590e2e7a2;0xb4c9ae70e792c;0x6fde304a4c2d6;0x393fcc6d3f445;0xf7bedcfdf0b58;0x305d806640b63;0x81067d7a30748;0xb21efea0ca4f;0xf2bb6829d69]),[[0x6558e68379637;0x40103a593033f;0xa81b374341151;0xd36aaefc8d84e;0x1fc865dd61145;0x68987196e00f9;0x7201800aa1cda;0x27dff2116e430;0x1f125f5dcaf20;0xda69b7a9879];[0xbc8cec897c8e7;0x7ac3df089a57f;0xbfb0c3abb9a24;0x3317595d438f3;0xabb2156724ad1;0x808ac8a48d8d1;0xd7296bce672cb;0xc8b3f60008f9a;0xcd108267666a7;0xdb7daf20137];[0x58fac1389a7f7;0x6f35747fc0ce6;0x4d4a3da3d1c51;0x1d1398b4b0945;0xd7932f90f2946;0xf6bc7a84b883d;0x3f57722c90168;0x1655e6a38be4d;0xad4828364594b;0x8f91ed262cc];[0x58fac1389a7f7;0x6f35747fc0ce6;0x4d4a3da3d1c51;0x1d1398b4b0945;0xd7932f90f2946;0xf6bc7a84b883d;0x3f57722c90168;0x1655e6a38be4d;0xad4828364594b;0x8f91ed262cc];[0xd7f5460b0fb2b;0xa8be85fbc3390;0xfa44146e7e4d4;0x624379258396b;0xc2b81c43310d0;0x9422a26d7d922;0xa286193514adb;0x24bbfb7aa74a;0xfe1ad5a7866cc;0x6fcec69a27];[0xe497a67e6cdbd;0xd205590cd71ee;0xc56caf3d3b54f;0xd0d3e037bff87;0xe8f9f923f3a00;0xec6826370ffae;0x34a35299527ef;0xc66836485e850;0xcef5acbfdffdb;0xd480c2b670f];[0x0;0x7c8b3f5a9fa3f;0xb0da0a7e56920;0xb5a9cc872ca60;0xc7356e45f2078;0xb72030bd36ade;0x965f0052ba59f;0x110980cffdfec;0xd5b0858c5ce4c;0x78c80d793e94f;0x58c892dc463];[0x0;0x45889ee3a4786;0x3b74d5d3bcfe7;0x7b6a3d4062ff6;0x51d5979b6603f;0xa3450d0c1c183;0xb592be2f9ad6a;0xb54a8a1d47cd9;0xc5df06bb8cf9b;0xbd54fbb3e57e;0x7a7d8dcd2ab];[0x0;0x6a0affafcc3a1;0xc6579703254c3;0xe5a6595f20c69;0x609a7e94588d9;0xb20601fa4d4de;0xa96e96d45bbbf;0xb61ead5a0d301;0x9bc2177892f18;0x676742cee8cfd;0x103bc55d8b7];[0x0;0x6a0affafcc3a1;0xc6579703254c3;0xe5a6595f20c69;0x609a7e94588d9;0xb20601fa4d4de;0xa96e96d45bbbf;0xb61ead5a0d301;0x9bc2177892f18;0x676742cee8cfd;0x103bc55d8b7];[0x0;0x939fc35b3817f;0xb70158de35575;0xb4feeb31feec2;0x90dd9151f6755;0x48ff9875abab4;0x93567e221f3f2;0x877e9dd68a8fb;0x85a71739a0099;0xa992ea61dd72b;0xa82a18a9ef];[0x0;0xe580e6012d934;0xf01ce1605e925;0xdacb62328f573;0x84805951afa14;0xb69abb9a5fc79;0x5e9892056b98c;0x8599a981cc1af;0x68f4bd4dbbb42;0xb0dd7318c77d;0x1912bab58b1];[0x0;0x8da7ad35bb47e;0x3208f4f87e088;0x217509f8c3e57;0x766b64f7c282e;0x7a4f753827a44;0x602ac24a8f9ad;0xc717efdc3e2e6;0x944a08065f00c;0x298bf27f51294;0xba981a8912a];[0x0;0x39b79e86932f3;0x14eb95e650ecd;0xbb22381a2936e;0xa133020cdb3b7;0x279e3bbfbf853;0x3ba951b13fe81;0x9fa0cc5b4ac9c;0x6b63cb9271d41;0x67c6494b8f133;0xe77e8a9a6ba56];[0x0;0x11516da485e4;0xe489fdc154af4;0x812b8af88699c;0xf2133b3654ad9;0x9572348b799fe;0xdcc5797d9a51;0xcacedde150533;0xc313684f4bb93;0x59b0376f2bf74;0xc4b05b93dec]])]
 [[0x82cf3a46a2661;0x3d58748264a1;0xc0daa4761fb60;0x30b0655224834;0x7d03aca0bc2bb;0x67dee890e00fc;0xa108f0dafe9c0;0x7037d97e141af;0x31c76bec00f99;0xb80edd0968e];[0x532a71200dc25;0xa7a36f382a456;0x8a751bd1bd7cb;0x4b25b48c9dbff;0x5d00b1792ac7f;0x5cd725a22cde6;0x9f55120b6585c;0x83661425fbe74;0x8495f787aa8e0;0xe24572ce047];[0xd0d962731b23c;0x7840590e2e7a2;0xb4c9ae70e792c;0x6fde304a4c2d6;0x393fcc6d3f445;0xf7bedcfdf0b58;0x305d806640b63;0x81067d7a30748;0xb21efea0ca4f;0xf2bb6829d69];[0xd0d962731b23c;0x7840590e2e7a2;0xb4c9ae70e792c;0x6fde304a4c2d6;0x393fcc6d3f445;0xf7bedcfdf0b58;0x305d806640b63;0x81067d7a30748;0xb21efea0ca4f;0xf2bb6829d69];[0x8e7f680bf366c;0x51e1a41ea10ab;0x7c9a42658d32a;0x40dae66850448;0x63aa4544d8f9e;0x80190808e15c0;0xa60cd38b60e6e;0xb5a36ffa834f4;0xd5d027c5baa46;0x720e16f0e55];[0xc4ab09141a5ba;0x55c1cb19893aa;0xddad96c304a1;0xa4ace244d7b7;0xf9566c3451ce1;0xdcbe1d994b825;0xf9483e80049ed;0xcdc2a42b7897f;0xaec5cfc1efe99;0x70375bdd1f1];[0x0;0xe59a23a8010a9;0x1bada1e47ffda;0x4adf591d1e681;0xbf22e5822ecfd;0x31a5ed675c346;0xc1d02cf131caf;0x3a1666bef3ccd;0xb685c0da4f0d6;0x4759c1438ae76;0x961aead1cc1];[0x0;0x3dde58ee4f2b1;0xa2535d5212c40;0xbb45e76cc0ee6;0x778f89bc26f64;0xdb4f49317886b;0x418d8fa90b81f;0x71bba3ad59831;0xdea107f9dcd13;0x7fd1eec78572e;0xae84cab2797];[0x0;0x11516da485e4;0xe489fdc154af4;0x812b8af88699c;0xf2133b3654ad9;0x9572348b799fe;0xdcc5797d9a51;0xcacedde150533;0xc313684f4bb93;0x59b0376f2bf74;0xc4b05b93dec];[0x0;0x11516da485e4;0xe489fdc154af4;0x812b8af88699c;0xf2133b3654ad9;0x9572348b799fe;0xdcc5797d9a51;0xcacedde150533;0xc313684f4bb93;0x59b0376f2bf74;0xc4b05b93dec];[0x0;0x9fb07f4dde108;0x2f7665fd1c86;0x641842f7bec2e;0xa33f7fda8a8a2;0x82320f41eadcd;0x4ca8b583a8f9b;0x99236d532ea7;0xc6462eaf7cdc5;0xa5acf30dea04;0xd119f43f83f];[0x0;0xd95e0f4f3637a;0x360961296b9bc;0x9c96bcd006628;0x7815c7b55c915;0x9eb0e1e0950d3;0x569f704e7f1bf;0x9ad727e258407;0x20c939e1ac1fe;0x7e52749a04b49;0xb903630e4af];[0x0;0x6dcde3ccbd0c;0x4fbd869a75a73;0x244345f3fdd7;0xd16a1f52946ce;0x2058e7cdfaae4;0x6705ae98828f1;0xb6787058553d7;0x8ab781e3e0729;0x3a11288e68d95;0x9807685f34b];[0x0;0x4a938312dee2f;0x729e3c79e943d;0xb3d2f901d387e;0xdb775349baa42;0x78f08fabd0e3d;0xb8e7152c22c1e;0xd5fc2d2a12691;0x4bd926629544c;0x6896107fbeef1;0x729a5cf231f40];[0x0;0x256e3a4063197;0xf6211c16c55fc;0xd89802c8267e4;0xeb6457d1db084;0xcb1a39b82b947;0x87b592f82db7a;0x808153d4e334e;0xe59d340452591;0x95ea54291d03a;0x4cf7273921b]].
Definition wit_512C_32_6 : colwit ept wit := mk_colwit (V [0x2a79b3d1c7463;0x982806502e0ba;0xb3a985f6a23af;0x1faf23d279a2b;0xe1aec7818d8ef;0x8c4163af039f8;0xe200ef7f973b3;0xd6c4ab2440bcb;0x90a07d5bc6bc7;0x3dc4bba256e] [0xb951359ea71da;0xa68d8714635f5;0xe17f766705d5c;0xfc5acb9085123;0xb2ef034d779e8;0x451cbd41e27fb;0x24da9b4d1daa7;0xe2cba753b947e;0x192a9363b17c7;0x9845fdfecb2] [0x764f61a278f01;0xb3ea07f9a79fa;0x1281f9f2b16c0;0xf55580eabc65e;0x752b0380a3593;0xd5410616a5cd1;0x6d67c2f38b14d;0x816d5a42d9ef1;0x62b1410de4e5a;0x1aa20386228])
 [[0x45a3240c4e7a6;0xc311edafa5f9a;0x5260911e1a64d;0xd8be0fb1f8443;0x39e679e882457;0x4ad4ac7fc9ffc;0x2f718e480b82c;0xf0160abf97284;0x2724d26cd31ac;0x6a6da4bfbaa];[0xdc3f4a9f93fe4;0x6ef632feab265;0x8d2513b5ca401;0x3d3cd648f3b23;0x4c2a6bd3e1f54;0x4db389fd1262d;0x2deff793d5f87;0xa1c2b1f4a5cdf;0x6defb6f0553b9;0x652e862525];[0x32bda702e9f4b;0xecf2172596239;0xce379056b7f94;0x5f90dc6abd82c;0xcf98479ec714e;0x8316be6ad642a;0xe16432ecccd37;0x1e5be2dd36264;0xdbe2f18306eed;0xcd2830f2893];[0x32bda702e9f4b;0xecf2172596239;0xce379056b7f94;0x5f90dc6abd82c;0xcf98479ec714e;0x8316be6ad642a;0xe16432ecccd37;0x1e5be2dd36264;0xdbe2f18306eed;0xcd2830f2893];[0x6612209faf4ef;0xdc33ea42da9a7;0xebc0dac94c82;0x8008f9703bd8a;0x770ba821fcf86;0xf701cac469345;0xf53ee743f2d2b;0xdfbefb9f61e06;0x6be0e0cde9e61;0x947c0d7ef48];[0x762d29ffe48bd;0x92c248bbd08be;0x7e6906093577e;0xbd33dcd8b7d99;0xd51ec3b1e4fcd;0x56b1bf38a92e7;0x38b1104fe325b;0xc203b65543ed8;0x20ed6226b557;0x71d6dae35dd];[0x0;0xf617de2b0aae6;0x35fc11825863e;0xe2212aadf987d;0x11c2947a09808;0xc564b4aa7c129;0x4e971a4167045;0x24244afb41a5a;0x86634d2e447c8;0x11c3cb4f292af;0x7ede6894988];[0x0;0xb7750f2912252;0xca0f419dbd8ef;0xfc0a93c7bea2e;0xedaef7a6885f3;0x5557e41614822;0x4905c60972b9d;0x173ae76f06053;0x4fbc0774084dd;0x14782582542c3;0x554a8268aa0];[0x0;0x256e3a4063197;0xf6211c16c55fc;0xd89802c8267e4;0xeb6457d1db084;0xcb1a39b82b947;0x87b592f82db7a;0x808153d4e334e;0xe59d340452591;0x95ea54291d03a;0x4cf7273921b];[0x0;0x256e3a4063197;0xf6211c16c55fc;0xd89802c8267e4;0xeb6457d1db084;0xcb1a39b82b947;0x87b592f82db7a;0x808153d4e334e;0xe59d340452591;0x95ea54291d03a;0x4cf7273921b];[0x0;0xfc1d268650b63;0x89d430b5e828c;0x19daf8d6dd7c2;0xd7d099fb0c12;0x26f0de8f74190;0x9551cb5e8590c;0x4a476adce34fd;0xc25288f0f0c97;0x8a92a85f5f3bf;0x3341ef86154];[0x0;0x9976fb01f0f81;0x789f5d4558d99;0xa986a4754b672;0x4feb290bc9d21;0xa62ac387cbe85;0x25037b50bd3c1;0xc8ab8e74f67a3;0xf5c75df2eb8da;0x802b661cef657;0x739122bdab3];[0x0;0xa212229af013f;0x7ba70f00f7e85;0x9b1f1e67c588b;0xb8196b8f8f9d;0x3a609477948a1;0x867c14358745;0xdb42a80abb9cd;0x9805396a96104;0x239c82995ff03;0x1869d7beb4];[0x0;0xbc4a7902ac559;0xfcebf93a14f1c;0xdc6f68865c515;0xc6941d81caa3d;0xf144e1437a679;0xa0214695827e6;0x37bb2b31bbe54;0xc56b1e9315a1b;0x268d1e8120bb;0x98da810830ae6];[0x0;0x952d7f1eae14b;0x395d407db11f4;0x89b5f13db7dcd;0xb899afcdff9c5;0x81da6a92ab99a;0x4bcc1a5c48bc6;0xf5eb43eef5bc1;0x292997d320b04;0x8043d6f6622c;0x24bdb2b7de0]]
 [[[0xccf7aaff18237;0xbe9f4ef729479;0x6ba912ad5de79;0x9b96bbc5331a3;0xbef39149be406;0xcb0ec2047bc0f;0x3b695551f3eff;0x3f45a0d71093e;0x7353445e28e79;0xf9379be688b];[0xc94baf59e3e7e;0x3a5db9906dc7;0xc816be8077b02;0xb33cdbd9eea27;0xef1027119b709;0xed8869ff7b9f5;0xcb5902fc36fe9;0x2b8d9b44f63fb;0x6a5312719c9cd;0x273349c75b5];[0xa6b0935afaf1;0xe0a0c2a55a4c7;0x7b6279deccca0;0x40efdef32aac4;0xa07dca3a13c70;0xe801ffbcda2b6;0xf232b90bf3eed;0x85474d053356c;0x9cf4dad0ecf25;0x29acd486a43];[0x209f25bb681c7;0x1b8e9ea2fe199;0xb1d091b298cff;0xe7a95df034e1f;0xc5f2891ae6491;0x73d5f2b09f43c;0x2bd23cf64cc;0xb8ba3ba88f550;0x386f7363f1515;0xe00816b0d9];[0xed99e5a358a73;0x741f7c524725c;0x490f3bf8294b6;0xd78d0e621c55e;0x213ac0fe38bb8;0x1d3968ba7f6a;0x4dfd286b7ee9c;0x9a3030345a79c;0x9441e358db0d5;0x3b49f19cd3b];[0x1d73403476a66;0xdfb3de118fec1;0x69b59b5c02b6e;0xd22c6a4a1812e;0xecc149de7d4cc;0xc3519f592917a;0xefc9565c30fe1;0x8fbeb5dce65a1;0x77b27a9cb7be1;0xcb8d80c7297];[0x0;0x231246c3d81f;0x4637f1493979a;0x33b24f39ed2e6;0xd14b227eaa8c8;0xb38bfda58a70d;0x67fc76059370;0xbaf585d4c41f1;0x9d844b7e8ea7;0xccfbe53ddfb50;0x10783fe74bb];[0x0;0x5d798a8b23669;0xd3aecea5c9e81;0x7715998262478;0xbb6e1810432e0;0x10ee4ae83aa86;0x5fa2ce67dc3ff;0xf3d3726c87c2c;0x3289af4013171;0x7899e66db24f5;0xc7b8a82e80e];[0x0;0xc9f5a7454cda5;0x8786db1a9367f;0xfb69a6629de15;0xed111554a877;0x6e7d392ba97df;0xeec05f37493ad;0xf50f5417816bf;0x3c927165381e7;0x9cb86f04f5c5b;0x664f87598e9];[0x0;0xc688f96804e6d;0xbedea767072a1;0xfc9818cad1691;0x8df0410ed19d2;0x56aa769b1a11b;0xed465ed931d08;0x82ecc43a437a0;0x2666ea795a06d;0xc57d85193fc79;0x1ba3a4a682c];[0x0;0xa53b8be2b56f;0xf1dadd429f457;0xb7df6b6d4a916;0x8a9b9ae3df9ab;0x3f47b41baa3e5;0x86e60ea4c8d37;0xb472a4dc3af25;0x23bf852ae2e9e;0x33e8b722ef6c1;0x442312df454];[0x0;0x2bf473d7cc260;0x4caa2644dee85;0xec933bacdc769;0xf5d7043131ced;0x3143a9af1752;0x9ec90eeee1a24;0xb3eff38201115;0xa7df0c72532d7;0x62cb85d47a2be;0x29806245808];[0x0;0x6ee5df4b8b553;0x8efadd0c7c3c7;0xbd3a53925d223;0x8163ade1428c4;0x1bdeefa9ae6e7;0xb05e0f52edc81;0xf4b724ac48e92;0xa05ddcadd545c;0xd07afd90740ad;0xcff2789874];[0x0;0xc4b2face619e6;0x57f4ddefca9a8;0x9e9f9714895e4;0x8ea24615f82b3;0x263ea3f787b28;0x133a5d6e291c8;0x914eee7f0527f;0xe670221432eeb;0x2e1cd064cbed8;0xeb884a3ca651];[0x0;0xba6da53b70eb6;0x57dd946362c09;0x7e6d9c8463758;0xc7527a6a65ca;0x7e5256e23eb7e;0x8db229e39b141;0x9a678ca7e041f;0x1594931a22e66;0xacaa32c83ad15;0x4dd50c6081]];
 [[0xccf7aaff18237;0xbe9f4ef729479;0x6ba912ad5de79;0x9b96bbc5331a3;0xbef39149be406;0xcb0ec2047bc0f;0x3b695551f3eff;0x3f45a0d71093e;0x7353445e28e79;0xf9379be688b];[0xdee89f3de5885;0xdaaac4908fe1;0xac16821164b3f;0x2c74492eaf887;0x30993600eaf26;0x5599ada8da1ce;0x77165045676bd;0x2f1ee5cb5cddf;0xf6da983f83cb3;0x163f3067834];[0xaf52ebb4c2111;0x346c8aab33b9f;0x514b696a5db34;0xb3bd834af4c42;0xcf3db47c02e94;0x56769bd4f0497;0x81397453f3063;0x7af559ed1cba1;0x568e5b29a370;0xe5262a2ef0a];[0xc4b60f4ec3b70;0x827b699b6de7f;0x398324aab18a4;0xe4e4c785750cb;0xb6ec1aa38211c;0xa54bbd2eea75e;0x98257c17c90c0;0x90cc384bd9d23;0x28fb7844421ca;0x56d45e4cfcb];[0x356c9ecdd21bb;0x198eb8fdad8c7;0x16f9e8187ff8a;0x57cf3fd19333f;0x7e80ff156244f;0x55da1775d395b;0xac79247d0b4af;0x5e8d79ddb0a6b;0xfa24bb61bf1c5;0x7d4a65d763f];[0xfc9efa6af708a;0xfcf80adb73681;0x2aa2b5b831602;0x97d69761953ed;0xc8e36e4a1703d;0x854374193ef48;0x79b411401fb5e;0x1251849d8a723;0x961892246b54b;0x5fa03513f17];[0x0;0x231246c3d81f;0x4637f1493979a;0x33b24f39ed2e6;0xd14b227eaa8c8;0xb38bfda58a70d;0x67fc76059370;0xbaf585d4c41f1;0x9d844b7e8ea7;0xccfbe53ddfb50;0x10783fe74bb];[0x0;0x600c39c85750c;0x124d47b156f91;0xb9d7f9a81ddd6;0xb48d2a52c60a7;0x8619031a596c7;0xeccd562e62d2d;0x2019841d8c386;0x81e751b0eea7a;0x2e51ccb52baf4;0x4a801401737];[0x0;0x549f8dbc3791b;0x4291b2a1dceb0;0xadc0f7aebe4d3;0x782244f1d3997;0x42881944008cf;0xb6f2055863fc7;0x6b0c7b0d4a0d;0x20cfa8104fbd6;0x2c732b8cc5579;0x327c4da5505];[0x0;0x914932bee95f;0x60f840294845b;0xe5e1565263497;0x16a1fa07c276;0xc1ade354c489e;0xbf0307e3c0042;0x90a2018752d05;0x48d28a5284c80;0x17c8a0f26cfd6;0x38a48291a0];[0x0;0xd877f8f8143d5;0x83d83737b7e7b;0x1c7e4a22086c9;0x6f9c0f7939484;0x66675f2b3d351;0x4e47a44f8e745;0xf6f466f8221f4;0x23740db3c948d;0xe3365b8b11e8a;0x8ba3104115];[0x0;0xa274b5ac30fa9;0xbcdc74071df96;0x7d2f134ffb2fe;0xe320f0ecb8ebe;0xd1cc51839613a;0x6d6d7df1a5bac;0xf0fc5f5fd1324;0x7b56b64dadc61;0xac3aa23f43519;0x147aa3dfd43];[0x0;0xaa0b4d10b6e5;0xf0446d6b27849;0x9ed9d38cccc2;0x8edb070c558a9;0x44714d12ce8e7;0x1751a6a3aa34c;0xb0e0134280c58;0xbb76413547e2;0xca562a9880ff0;0x8272058cb];[0x0;0xee0db244a0801;0x7b29d7cf0008f;0xe541ab99fbfc6;0x498f46104f582;0x173cc2f7dd23e;0x8534cb90357f8;0xc7cbf4e22c4c0;0xbc59c3a435a6e;0x76ea2b8d10f39;0xa1f4774c7b4df];[0x0;0x568095b328794;0x59f35621135f9;0xff6f252eb2e;0xfb604980732fe;0xcabf71ffdf324;0x479c25189a3f9;0xdae8a5fbc3e2f;0x6a9ca53303b3a;0xdc631dfab12fa;0x3b24175c6d]];
 [[0xccf7aaff18237;0xbe9f4ef729479;0x6ba912ad5de79;0x9b96bbc5331a3;0xbef39149be406;0xcb0ec2047bc0f;0x3b695551f3eff;0x3f45a0d71093e;0x7353445e28e79;0xf9379be688b];[0xe2a1ddb10cc2f;0xf1c46a99678;0xa0f10082b84a2;0x363cfcc79aed8;0xa0dc2ade477a5;0xeacfb4f07f1bd;0x35ab3b1381e42;0xbe125b307bd4a;0xec7d99ad9e178;0x9685bfe8b03];[0xf5fb15588cd45;0x51ebd77e052f1;0x1a649af4007d2;0xa5cd6a75fdd72;0x28bcedbb0ec91;0xaff61efff3020;0x26fa610da6d39;0xfaf2da27c6258;0x27923e0504c7b;0x2cd4177216a];[0x51abd655781e4;0xe7ff899c8d2ec;0x98f7f01369c0b;0x3372631199ab8;0x36a816b362ab8;0x3cf2e34d609d7;0x803185dd5fe03;0x7a445b5dd0b43;0x1657d8db1f34d;0x7d3dc6fd4];[0xad3526aea7dda;0x52544fa1b932f;0x29d91f86772c0;0x6d2678d8584d3;0x8a0e2317a7649;0x2e3467e81c247;0x813e04a20c5c1;0x132e19f0ac3a;0x9646353223dc6;0xcdfbe2a0e0c];[0x7f4323067056b;0x956442f621630;0xadf4aa49bc627;0x864a4c6287c93;0xafcf11938c3e6;0xe64ac3857c56b;0x89c8a9d9f7aba;0x48347797c1041;0xeece2dd414bbe;0x42707cd1de0];[0x0;0x231246c3d81f;0x4637f1493979a;0x33b24f39ed2e6;0xd14b227eaa8c8;0xb38bfda58a70d;0x67fc76059370;0xbaf585d4c41f1;0x9d844b7e8ea7;0xccfbe53ddfb50;0x10783fe74bb];[0x0;0x310d1940b7909;0x139ac9f8ccb8a;0xdc42cda9a4755;0xedc1dda60dceb;0xc9a6e4e6b3d17;0x5eb53b81386ee;0x687c213557ada;0x4c43447ba781a;0xb34b4f89e0e9f;0xb07e3f29c9];[0x0;0x49a94606e22d1;0x7f637e73b5b60;0x7a05540a444c7;0x2ae00d4308082;0xf29df48291fae;0x405709bb25b20;0xe436c3630fc13;0xb81ad8a6bb581;0x921e7fcc820dd;0x37cdcd4c34];[0x0;0xdbd7117ce2bad;0x38419fdd886b3;0xb1047aa0113a4;0xc05693777413a;0x948f1c1fe5a2;0x20bbb0aadad7e;0x364ba672bfdff;0xfbbba91e506c2;0x972a1979e5f3c;0x26f0286461b];[0x0;0xaa533ad1b2f38;0xa02e2b8c1d951;0x59f59e4b0fdcc;0xd77ff01f5306c;0xf9470a4ff6c99;0xfab7d2f597f5c;0x82cb17f1d549e;0xe39545322ad46;0x61c3696a0a6d6;0x5ffdc822075];[0x0;0xc0cace0d5a131;0x1271f1b122534;0xb6b595ded7a21;0xe110138d7f28b;0xc29e2de92eb2d;0x7c06782203dd;0xbf4be55fb0280;0xfa5b38bf712d4;0x30cda179c3a97;0x16a2ebd0c5];[0x0;0x67b9d20c76c51;0x824ce9dc963de;0x9107fdba797c9;0xb9528cebf5c3b;0x344443ee9920f;0x6e4d1f4273f18;0x919b226f1bd9e;0x8df44f8bd4c17;0xd5b8052acd38f;0x8d815433e3];[0x0;0x2a5e570b29bf4;0x2d2f2d740ed5e;0x476d16e262471;0xf796163dc51ce;0xbf6bbac89d5a8;0x5a95077b05da7;0x2b617b2268703;0xf1903a1a5cf08;0x3b4c9e527a636;0xc23bd65493bb0];[0x0;0xf9ad2599d21de;0x3de6030bce65;0x1ef04524e0072;0xfd403c6f9d743;0x45fb865de5b9f;0x14cac83600d59;0x47ed7b9e0ac5f;0xe09a140d9d7cb;0xb032729d89a4;0xb64df1cc31]];
 [[0xccf7aaff18237;0xbe9f4ef729479;0x6ba912ad5de79;0x9b96bbc5331a3;0xbef39149be406;0xcb0ec2047bc0f;0x3b695551f3eff;0x3f45a0d71093e;0x7353445e28e79;0xf9379be688b];[0xaaa51a42eb0e0;0x9bc6033901fed;0x9328fd37b38da;0xf6bec94304364;0xb1a13f7a49176;0x852acee520741;0x77a764f2aaa49;0x26445cee168d1;0x2698003c6f7c1;0xcdb6be6b3a];[0x930e9a4b59776;0x4fae21142ba3e;0x9851500dec8b3;0x200b8749d61d;0x67b6cc4a932d5;0xfc11157e1f329;0xc6b49a9c497a6;0x4978803f462ce;0x3255972dd5cff;0x66bb012862f];[0x596a614309587;0x97f4080325214;0x510136524256f;0xee23e3fac6743;0x7d77af80f31c3;0x7fc75801298aa;0xa89bc4aedd1ed;0x156316b3de090;0xf7c039134e9d9;0x214b303f04e];[0x14037706c61e4;0xadcf822c9797;0xe63f8e7b63059;0x76ff5de04f426;0x71a5ea2691f6d;0x2128f99fcdfba;0x642d17f756ba8;0x2508396ad3c53;0x4d5cc15f7967b;0xb78cdfc2892];[0xc1b4d21a68ccb;0x34501b3c4730c;0x811cfc32c7e3;0x473b36d808589;0x2a899447b83d2;0xa7a5f5b7efc48;0xaf5346da7fc6a;0x461251d5c56d1;0x19bcf006f2524;0x114f8db5261];[0x0;0x231246c3d81f;0x4637f1493979a;0x33b24f39ed2e6;0xd14b227eaa8c8;0xb38bfda58a70d;0x67fc76059370;0xbaf585d4c41f1;0x9d844b7e8ea7;0xccfbe53ddfb50;0x10783fe74bb];[0x0;0x9e2963c4e9f5a;0x9c07aea8be589;0x799873df9b61;0xf21c3d375cde;0xa415235f5c50e;0xd1eadc2825d5e;0xae0f1d3efff9a;0x166ef0720db97;0x64cbcef02db7e;0xb2d46d4a65e];[0x0;0xb8f53b241f9ea;0xfc7f47579ef83;0x1228b156d003b;0x4cbbb5cc2d1b8;0x53671c9953181;0x19fe9b1ea7d20;0x35dfb8b2f2441;0x8c8ba9f7af5e6;0x4032c5ac9a428;0x8f26b8045a];[0x0;0x751d17e096db9;0xe595fc43f95c0;0x502b59b1d5a67;0x753a9681116c1;0x47254e244e2dd;0x1a08b507b2e10;0x513235263aa2f;0x12d9d7e1836ef;0xf25e570b70640;0x2eca3ef336b];[0x0;0x66dffc227e3d0;0xf549d4b4b0c7a;0x2a410f2cf1741;0xc94bfb5cd5d14;0x81f64293476b4;0x4a7291da6b862;0x5b7a4bd378322;0x8287fafafa6e1;0xcd30fd8dcdc44;0x73591b77d4c];[0x0;0x161e9a5931ee1;0xb7398ab9e124;0x467b9de9b9326;0x4f887f01c173d;0x34a877ba55ec4;0x99e40b44ab833;0xecb8a42db1aa1;0xce66b7a62086d;0xa38b1d6b29d17;0x3a1172b0e6];[0x0;0xe66ca690d99db;0xe7b5e7f469b4b;0x1bc96749f4910;0xb38aff409c17c;0x3f1d6450080fc;0x66e9a5f511e28;0x9657c09eca9ca;0x4bcc93ea280ee;0x9b33ec6095cee;0x99bb0ea9ad];[0x0;0xce915b2a7c230;0xc104cdf3d77cf;0xce072f7f68413;0x2ca341ca5ce40;0x62a73c88f47cf;0xb829f3df297df;0x46dc8c875bd50;0x6864af01e4f62;0x923a9760ba33f;0xb7fee2ec3a9a6];[0x0;0x34d3f3c7578a6;0x31ec1bca9ff0e;0x298bd92d8c28d;0x8e8e1365cac74;0x5d62c765deb65;0x94b2a81cbe606;0xcc60515883dc3;0x7eadf1d484f0;0x3bd64dd34ab03;0x88fe0b319ca]];
 [[0xccf7aaff18237;0xbe9f4ef729479;0x6ba912ad5de79;0x9b96bbc5331a3;0xbef39149be406;0xcb0ec2047bc0f;0x3b695551f3eff;0x3f45a0d71093e;0x7353445e28e79;0xf9379be688b];[0xd2756a1914d13;0x54054e7f1a177;0x614c30f106b87;0xdd06dd79f8792;0x89b26643b5cf0;0x19d80c6934300;0x6766a08342f9d;0x67193811f1448;0x12bb013befa94;0x5105e558eb];[0x5578de89ba45a;0x1250e8abae5c;0x2de9d981b8cb9;0x1dbeaf910f050;0x45e48b220c633;0x7b03a04e68dde;0x75c262cdd2b74;0x91ef87b90cd43;0x25b50b9394431;0x50cdeaeb3f8];[0xb59bea288850e;0xe0416fc5dca34;0xf6cd590f96ae0;0xba91a850a6a79;0xb199d0cdcca56;0x1815771d0b527;0x694e4cf3f4a90;0xfc7b164c8d2e0;0xbfa0bebb93d77;0x2fd4c59c433];[0x825852e60e6cb;0xac16e7ead07d1;0x717705fb3584f;0x7bea58b0f3183;0xef2dfe3ee8385;0x5525244325498;0x13fc0a7ffb23a;0x3592059a3d775;0x44b45302a259f;0x7e6f6d502ae];[0x9c29fbb53c804;0x9fdd3a823a1be;0x2355c5042e8bb;0xab2fccb254c2;0xbcbe5cc6bca36;0x2c6c156384ece;0xa0a730da4df5;0x56c5bc0dfec40;0x1561907c781f9;0x6b4a84ea2c5];[0x0;0x231246c3d81f;0x4637f1493979a;0x33b24f39ed2e6;0xd14b227eaa8c8;0xb38bfda58a70d;0x67fc76059370;0xbaf585d4c41f1;0x9d844b7e8ea7;0xccfbe53ddfb50;0x10783fe74bb];[0x0;0xe6a78e78b2b0d;0x98f3e69336c90;0xe93c6e7e01097;0xec930232fd89d;0xe0a5804e14cab;0xdb2e39e8140af;0x11accc84e2105;0xeb1d111e382e2;0xe4d74642945a7;0x9d1f68f1e7b];[0x0;0xa8a93f6899a26;0x4a80623e9b9f7;0xc5d9a7577aa5a;0xe793b8b610df5;0x92e5dff423ff;0x9275b2987283d;0xc0b504d12b0dd;0xb8ee0ca23cc1c;0x386c601040b15;0x71cb61ec71f];[0x0;0x2c7a4f7663a14;0xc541d74610f9;0xae47f29cdd72a;0xc991d6c602892;0x21892f3fc2443;0xcffab4cb6da94;0x98ac53b2525a6;0xe293b0d1eae73;0x99376b8429b92;0x2c3b1fa2f5a];[0x0;0xc1283e4b56337;0xba3f25b7aede0;0xfa05fb8f8a4cc;0x2c24c92f59a6b;0xc85e62fb9f687;0x1ec2895efbadb;0x81d6a8a648a82;0xe51f206a11b43;0x7e62aaa16a9b4;0x6d0a14d72bd];[0x0;0x69607faec3186;0xbac9833211806;0x73ca50e5783dc;0x18e27db4dff85;0xc4e90cb634829;0x9ac035c652a4b;0xc45d4d70ce419;0x2e3a676d0351e;0xcd612758d9edf;0x2e28e97a801];[0x0;0xf6cbbda0d3d2c;0xe69eef2349ab1;0xe5fa2b2d0c32f;0x184f9cd17fc2a;0xda8138186b952;0x5ea6ac96205ec;0xfa5422476f80e;0xbcfc771a681ee;0x30609e9279ec6;0x14af5f815b];[0x0;0xaadd282927411;0x43bb8d5deb1ce;0x30e69f812ad9f;0xe21008dc733f6;0x92c0d4bc57e14;0x672d38b51debe;0xb7e82d24a2268;0x2cde19e6fdbd1;0xa70b62fc15792;0x50b8b6763808];[0x0;0x3b038d7ab20ec;0xcd4b7d26cb959;0xf2c8b861ef48c;0x69d7c7e79d687;0xde96e4c55288f;0xcace412d09d82;0xeb32ab7ae74cc;0xae25954ac2a1b;0x54c0479b7ec08;0x14878b821d]];
 [[0xccf7aaff18237;0xbe9f4ef729479;0x6ba912ad5de79;0x9b96bbc5331a3;0xbef39149be406;0xcb0ec2047bc0f;0x3b695551f3eff;0x3f45a0d71093e;0x7353445e28e79;0xf9379be688b];[0x5b58668345390;0x54e6b8fc621bc;0xea7d6fb5297f9;0x999c5c4983033;0x7151ebc4a9826;0xee22ff58c474;0x906688ebd2e9;0x67532369c4117;0xac1b7c7a2afc7;0x1f674db43fb];[0x6fcce88caffd8;0x3c22000af4ccd;0xf97a2de00b9d3;0x9986f32de72f2;0xd072a243b2739;0x58d63113e4451;0x9ba1f81e16b3c;0xdbdb5fbb6adc9;0x526762ee30f9c;0xd15f766fefe];[0x42e07f8d10c;0xa3180af7a6602;0x41b4d8467011d;0x67c5ce1e46e04;0xb878c72dc3203;0xf235c3da62314;0xf2736d260616c;0xca5c75b29ef6;0x432739f396257;0xa8cc93afd89];[0xac924f048ec3e;0x7ab00abb4161c;0xc9e722343d04;0x7bf4fa2339c16;0x9a779a67c883d;0x4b308928f1955;0x5803f4fa15d40;0x73346ea8b9af5;0xde1ddad252abd;0x6f5b9e5ab69];[0xbd874ed58969d;0x330d20626ec60;0x56d47b59b1152;0x444ce74a4f1c3;0x52eb711e58dad;0xd22a331ff620d;0x8da25f04c4d8d;0x5fac11cf3a6f9;0x79055babf0eef;0x32c41d4ac4b];[0x0;0x231246c3d81f;0x4637f1493979a;0x33b24f39ed2e6;0xd14b227eaa8c8;0xb38bfda58a70d;0x67fc76059370;0xbaf585d4c41f1;0x9d844b7e8ea7;0xccfbe53ddfb50;0x10783fe74bb];[0x0;0xf4bd5372761f7;0xbe7cdf60cb8e;0xf9b3382bc2158;0x29a01cc6117be;0xae078cb6012f5;0xb8790f53f1779;0xcb0464b59ff22;0x3f6c041b13ae6;0xbec868879778f;0xc7777a26a50];[0x0;0x7fff2eca8bfea;0xddc9658041498;0x31ac83275a2dd;0x41732b4e7fb89;0x52a171732fbcd;0x7e16589d2143e;0xad6be499fa517;0xaf4cc3787575e;0xc19116088fbe4;0x26e00a695ac];[0x0;0xc5406db9cb901;0xa1720c762b482;0x76622223f1f8c;0x877829b3af52a;0xfd00f575bd5ee;0x42d9ef43a4ca8;0x99ba00f6ce9e0;0xe58cb58d1e5ce;0x378517e6bef36;0x136707496d];[0x0;0x3efc7435bd564;0x30f034d207997;0x3dc10e15bfc59;0x6f70a1439ae4;0x87bafa06f7721;0x56712e2d45d11;0xcc6e81b4fa353;0x3d766f2224c1e;0x9633d96c20314;0x2fd4db91e8];[0x0;0x6952b3ee9fdec;0x81eed5dd5d9e6;0x42ef8710239bf;0x2209d2fa7886;0x4cd6ec73844ae;0x942a082e0f16f;0x4c798c2194d6;0x7f557312ca877;0xb9c97c5a0f2fd;0xfc4f731858];[0x0;0x7f2c00f1b37d2;0x63062e25a30ed;0xd9fd1a2538d1a;0x4d183ac6478df;0x27d3487ca8e5b;0x7957b178afe7d;0xde853a5b0d6e0;0x769417ae260a9;0xdf4dedd4b312;0x6357086b61];[0x0;0xe1b975318ed0;0x4522b1154f5a9;0xf92473bb80a87;0x95fb4374f447d;0xfd0077568c785;0x3a21cb757beb9;0x17c288c77205;0xd28c9ddd93a4b;0xc83f2f93d2a59;0xd7dc2e65f4c2d];[0x0;0xdca7d6982475f;0x55d9e6a971779;0x3cd4a6ec50011;0x94416c0aaa58b;0x5185575802447;0x2a484651fe098;0x8d448e0525641;0x816b6b280360d;0xa28d7eaa783f5;0x2a88197b6dd]];
 [[0xccf7aaff18237;0xbe9f4ef729479;0x6ba912ad5de79;0x9b96bbc5331a3;0xbef39149be406;0xcb0ec2047bc0f;0x3b695551f3eff;0x3f45a0d71093e;0x7353445e28e79;0xf9379be688b];[0xa7bf11bf70031;0x35d4973247be3;0x2103a90c2f3a2;0x456a216df74f8;0x6fbc10c50765d;0x55e505944adae;0xb066ea50653bd;0xf1868e11f1285;0x589d56977f753;0xb40942a1231];[0x8716f326397ed;0xb9f34011e4249;0xeb433b06156d6;0x3fb2969c4a110;0xf21148379c60d;0x22e7feefb7424;0x33c015af1b205;0x5b96d5ac8d085;0x34c9704b28f8b;0x4adbeaff613];[0x36ee6a220bf43;0x1419ebf198717;0xfa8bcc56eb1c9;0x409c56597730d;0xbe08214435baf;0x5d3eba5a94ef0;0x25f4f25756bf2;0xed85d28dfa8f2;0x664759f79c804;0x71e2edd983];[0xcab3476186b66;0x5850fd50908;0x626b953810745;0x95e456598312d;0xc1e97c35bfea7;0x5ba1a438d49db;0x7c86703db11d2;0xdbc340f92b1c8;0x46bebcebf45ba;0xaeb53796bf2];[0x375335143f082;0xc39084c595516;0x9dded9bbf38d7;0x66faa27748da9;0x45086e7294fb5;0xc4e233a03bbe6;0x404a018af3ae;0x12e0a8c7056cb;0x5ca198ed98634;0xf70f972727d];[0x0;0x231246c3d81f;0x4637f1493979a;0x33b24f39ed2e6;0xd14b227eaa8c8;0xb38bfda58a70d;0x67fc76059370;0xbaf585d4c41f1;0x9d844b7e8ea7;0xccfbe53ddfb50;0x10783fe74bb];[0x0;0x43c2fcbd234fa;0x372a95a8bec47;0xc46e82311b660;0x8247da6faa8c9;0xb0198298b3d6a;0xa5712e9e156a7;0xac8b35d7e1d05;0x20945c07bc84f;0xa2626e157af78;0xda047d9882c];[0x0;0x584d749cb5201;0x1391479b76053;0xeb3867e81bd86;0xe2d27a778eb9d;0xe1a2d40ef7df8;0x14aee2b02fa43;0xce41a3c6c1eb0;0xfb3a8307acb4b;0x6ea806ea351d8;0x1e1b135c4af];[0x0;0x288dce29ff0f4;0x178158e0b9663;0x7860bd9d7b1d9;0x77117d100f099;0xcfde8ca374ca4;0x6a6127870e761;0x7501a6efefaa7;0x8a8e708152bb2;0x3ea1606b28766;0x33e7d00cb4b];[0x0;0x23bd3d0345944;0xde439e3737781;0x2e9b9f28805fd;0xaf4a19934e6e4;0xf35c5f5f7f4fe;0xf94145e0868c1;0x1637a77904eec;0x7be05fecfb9dc;0xa911a9a647c02;0x7ff57cf0496];[0x0;0x9336add380d9c;0x94b0e028c8d31;0x61dc57b7a2c17;0x48e811e69fc18;0x73039d8b4a6d2;0xc2509941804a3;0x16d3ed918572e;0x45ebfcdd76f6f;0x36fedfe629a8f;0xc3650420e0];[0x0;0xed2b3dd536814;0xe6099eeff120;0x5cae4f9a224d2;0x8e318c610cea7;0xc552a6fa09b9c;0x4070f9453c5f0;0x499da7f0366b1;0x7967aff87431;0x2c4296dfaf803;0x10df38fa366];[0x0;0xdf303372806d8;0xfd495ab54a503;0x8dcd9c9fee339;0x5cafa8e9fe507;0x77ab2b2b2bcb4;0xf877d2f7565b1;0xc1c02b723c435;0xd979231995ec1;0xf7b9614a68542;0xba06e31b70fb0];[0x0;0xadd432536e1ad;0xc736b55f0df33;0xdd235be36b5c9;0xfdbc3a6e67da3;0x8c7a379b01c46;0x9c0b37223374b;0xc38358b24ebd2;0xb29dd81cf4a14;0xce7d7abe73d87;0x1169c73b3a5]];
 [[0xccf7aaff18237;0xbe9f4ef729479;0x6ba912ad5de79;0x9b96bbc5331a3;0xbef39149be406;0xcb0ec2047bc0f;0x3b695551f3eff;0x3f45a0d71093e;0x7353445e28e79;0xf9379be688b];[0xf576649da2719;0x4647abd083527;0x1939769379c66;0xc1fabe3faa2c6;0xc387010cc580b;0x5c289ea2451bd;0xf788981d6321d;0x2312e31a9de1f;0xd8de9e902e08b;0xe38533cf7d7];[0x61a5a15598093;0xb3959eb61ae68;0x727d6d70ee9fd;0x7377586531e41;0x704f2b4d1d314;0x7f3a706441b95;0xc9e6d6ac296d5;0x76064cb900f7d;0x579bc4be91219;0xc1301536b2e];[0x86a4dbac4c3f1;0x85971bcf245ba;0x2774e1638092c;0xde158b87a57b9;0x399607d34492b;0xcc56b888b800d;0xc6c4151491757;0x893b11d845d0c;0x17a1b6e33a31f;0x486ed70463d];[0xa595e48993f4b;0xf58627fe43c4b;0xc457657f96dac;0xae028f0571ca5;0xb884d5054d090;0xb5657f0a3c3eb;0xf2ad7af434489;0x72c436204a2ff;0x210d2888773a4;0xdc99c7779];[0xa8f29bdc19b46;0xac676dbbf940d;0xe5a7b11faf20a;0x294403fc8687b;0xbb4052ccfec08;0x888ea75f6eebc;0xb9eabca4f9936;0x4ae3d2e5c20f1;0xa385e9617e1b9;0xae0e2c97a6c];[0x0;0x231246c3d81f;0x4637f1493979a;0x33b24f39ed2e6;0xd14b227eaa8c8;0xb38bfda58a70d;0x67fc76059370;0xbaf585d4c41f1;0x9d844b7e8ea7;0xccfbe53ddfb50;0x10783fe74bb];[0x0;0x5a84dd180d79c;0xc916daa32e65c;0xdc9808f1085d4;0x4106900eb0695;0x96d3a262019fc;0x802ead9bf1816;0xb46e79dd3a927;0x73934e0ad56cf;0x64d1988c1ce0b;0x214aaec8c17];[0x0;0xbfb1e05640fdf;0xd55f460742ce8;0x516611d10f85f;0xb60e06781d0be;0xa67b16c26f8c4;0x91969ff757f36;0x58fd6449353a3;0xe7b671fdd1ed9;0xbb28352c6430f;0xe452b81631];[0x0;0x22c5e5de5a5f2;0x549b7cf1f0d2f;0xb2c27d4eb9541;0xf33f5647136cb;0xea5bbb5534960;0x4bca148392e75;0xdbd481f13401f;0x2faa88c22a8f7;0xc3132c04546b5;0x2cd54c09028];[0x0;0x6348470ec0691;0x365005436a4b7;0xce4969b253610;0xfacb766fbd3c8;0x8d60041fcf367;0x69ac274492ece;0xebdf5f6d5a034;0x7afdeaa7d17be;0xa98e8958cbd53;0x6e8627713c4];[0x0;0x8c132c11e7cbc;0x739c6662dd096;0x59626a01fcd0f;0x22ba918d455e9;0x8e49d17e7375f;0x6eb561af1d8bf;0x5e4a0b5af4e4a;0xf886e4ce9e635;0x8a0ec85298ea8;0x5c9e10ec9b];[0x0;0x3445286ea543a;0xe0c5785574fee;0x19a4a5b54fd2c;0xf1fa3e078f581;0x7414588f2ea22;0xb8339a4c640e3;0xf01fc1e385e7c;0x525a340019223;0xbb12f37b9c16e;0x13e977d3647];[0x0;0x3aad386b3e59d;0x8e909d87b57aa;0x6da7da55e15de;0xd3d15e995040a;0x61a0fbaf06136;0x38133a83f9b87;0xe493e094e8f4d;0xcee1c619eab6;0x38656687056b;0x596b7f212d8c4];[0x0;0x793699d4f7cc7;0x8a406d68df68b;0x2c2f11141fd23;0x6e77386985afd;0x3d27f17131c8;0x827d2b0b89c5d;0x65250b53616cc;0x2b9eeed63b4ff;0x85c12c3c818c8;0x7d288a6c21]];
 [[0xccf7aaff18237;0xbe9f4ef729479;0x6ba912ad5de79;0x9b96bbc5331a3;0xbef39149be406;0xcb0ec2047bc0f;0x3b695551f3eff;0x3f45a0d71093e;0x7353445e28e79;0xf9379be688b];[0x8ba6b27b5fd1;0xb5cfb2aa28627;0xb66f1ba882e12;0xa816387da4588;0x566c4c3974c52;0xeac8829ed1c42;0x9fa0ab237d720;0x1bb45828bb625;0x2f6e10daf9e88;0xb3bc6de014c];[0x996ba6c3dd109;0xe4890b7c9ab7c;0xfd9293ec9bdae;0xb772c4d732464;0x83fa660bf368b;0xc8fbe2db7d136;0xdae603bda4612;0xaee6bdc2c15ca;0xa961033fcd0a5;0xbb3cedd1cd0];[0x4cbe2a36559a1;0xe39b4caa58d7b;0x76a11abc3a618;0x1ef177dfe1d2a;0x9c606c5e8a26b;0xa2ab5050e204b;0x37eeb8926352d;0x1b85bf24cd12c;0xfe4b05620faa1;0xdca27465656];[0x64451490ce8d9;0xe8a86b1085816;0x529ebe5fba875;0xce59c8e5e8396;0x8603e9e5c35ec;0x8d424bc23543a;0xfa8ba095d421b;0x618606d5c2510;0x9786a0b7de2b6;0xaaef18ecd32];[0xdb4cf208d14eb;0x62cef4a41a1fa;0x6c89caf7eb814;0x6913e34bb1a04;0x3f39815b02e17;0x624721e435545;0x33868cae92ac9;0x8099a26186e8a;0xf7b3d891f272f;0x48782e75ae];[0x0;0x231246c3d81f;0x4637f1493979a;0x33b24f39ed2e6;0xd14b227eaa8c8;0xb38bfda58a70d;0x67fc76059370;0xbaf585d4c41f1;0x9d844b7e8ea7;0xccfbe53ddfb50;0x10783fe74bb];[0x0;0xc1737b33745c1;0x6815aab809e92;0xace9685e9d31c;0x8ca9b8807432a;0xc7316a0884e70;0xeb8774dde758e;0xcae4df5a43a4c;0x5f2a534da66ec;0xc22ae1a2921e;0xcdbec99b5bb];[0x0;0x2af8ea46d3027;0xf73def6da397c;0xda83f02003b19;0xef53aaa5f7333;0xc843c0433a9ca;0xdb30a8a9d4798;0x4da56f4edf650;0x3a136d659c4a5;0xc9e1af9fbaeff;0xd539a29840];[0x0;0xb03e94660a3e6;0x578a7a184d3f4;0xe6ed69f5c7e6b;0x29137db2e0936;0x5282272ec73c1;0x96b94db5f26ed;0x74c85fd319ecb;0xd1f24fd4125a5;0xbc87e7ab01adf;0x1590eef00fc];[0x0;0xbd65667654a87;0x15c60df07af9b;0xb78cf9303ce3b;0xae34246b59722;0xab439b6284543;0x3563f029f83c;0x29be92957846b;0xf3d7b7254bb43;0x3e49fe44ccb74;0x352a5c0a8a6];[0x0;0x9dc72c7ee0f08;0xd1e97643a3485;0x6a480bd38d7f3;0x1b452f9eda004;0xed8ead79412ec;0x5a9928fbc9ef7;0xb936e61be094e;0x6f67b00376ffc;0x6ab70945c75e5;0x567e39cb3c];[0x0;0xcefb7e699c7e2;0xa487d29222239;0x4412c0c5e0be6;0xd39c3acaa2763;0x67d8f5c5b00be;0x6632d2ddcf773;0x88b1048be0e4;0x2a3c9cb9f31a;0x99cef2fe7c8db;0x6408a6941c7];[0x0;0x2ab82b178a59c;0xcbe5fd44df53;0x69b6a94a79e73;0x615ac1d3d7544;0x458024fd6e8bb;0x8c44597f3955e;0x4cb93eb90473f;0xe6bee7c82e017;0xb4e28891fde64;0x9f5c2f05fd23f];[0x0;0x251137c990aba;0x36fb0ba6e3d52;0xbb318f1ecf3ea;0xc2963cde0d935;0x41372f5783b3c;0x8f4ff669dcbd3;0xe35aa54a42502;0xf97f97d7faf4e;0xf7b0f70d0af52;0x58971bcafeb]];
 [[0xccf7aaff18237;0xbe9f4ef729479;0x6ba912ad5de79;0x9b96bbc5331a3;0xbef39149be406;0xcb0ec2047bc0f;0x3b695551f3eff;0x3f45a0d71093e;0x7353445e28e79;0xf9379be688b];[0x5a9cd6b07ab2c;0xef976556e30f9;0x147a3579fde22;0xd377fcea5458a;0x61553232fc178;0xb1ff71c857757;0xee3446bc36193;0x57cab624c1501;0x9c0f8e6c3f225;0x3cf58ab83aa];[0x9d9f1b8c2c0b4;0xb880355f21570;0x143739241cdba;0x1154497d5b178;0xae0dc5a927698;0x7133ee072321d;0x67536098d1d3d;0x66564e8ecbcf1;0xe0f6dc448d5a3;0x1a8f63b5ac1];[0x2c956b1bb1ac1;0x7216cd54e4fc4;0xff6489a0aadca;0x886b7c5805a41;0x24551f12b12b5;0xbe31db49259d8;0x668bc62a66087;0xde8d4f95dcbef;0x8dda493a30f6a;0x8195c8f504a];[0x849461bd90c49;0x8db7c296d9042;0xf01ac9110024f;0x38a67655f1a4e;0x5871d8cc45c88;0x5ea7d4d667f7f;0xaf662abb8cec1;0x553ff0a04be59;0x9d327a9fc478e;0x47942bf3e5b];[0x3dd62f3645257;0x2c49967a5a549;0x5cc619c2166a1;0x17a42d9653299;0x918b9f36da745;0xba70f55e60465;0x258f33faa0d27;0x1b61c9e03a51;0xe0ab6eeeabfe3;0xf8499537b81];[0x0;0x231246c3d81f;0x4637f1493979a;0x33b24f39ed2e6;0xd14b227eaa8c8;0xb38bfda58a70d;0x67fc76059370;0xbaf585d4c41f1;0x9d844b7e8ea7;0xccfbe53ddfb50;0x10783fe74bb];[0x0;0x45571654c22ca;0x1330b0ee90c16;0x23744eb905ede;0x7080f791ca711;0xbf9c61fe1cae;0x1ba9524808b0a;0xb296bca3f9006;0x7c5d95abacf1d;0xb3aa7fc2e31af;0xcdbb3285173];[0x0;0x4e8e37900cdc;0x4fc8c85ee63dc;0xf55fa351d0322;0x59bd37c351d9c;0x455111e070cab;0xc6769b56110df;0xb15a7d81c33e2;0x2f8639827092c;0x260d93384d712;0x54bfcb76422];[0x0;0x76098db05b414;0xec55ec20bfc6d;0xd3a18314f7c91;0xf4eba00be13b3;0x3bf974468575f;0xe5a1396667780;0x453dcbae6bb9e;0xa9584dc208c54;0x7c10d5b630aa0;0x2667fd93677];[0x0;0x8b22b324cf19b;0x46f65ed7f0ef1;0x23d55c75b26a1;0xbe8bf6fb3fa25;0x3cb5af1b5784e;0x997930603b219;0xf7a38adcfbad;0xf6d0bd591b393;0x75aef601a7543;0x5eae1933da3];[0x0;0x5d2ac5792440b;0x1a7ede99b7c72;0xa2f5da23edd4a;0x328175f765847;0x9a9468466ddb8;0xb3e04ff403e07;0x22887fb3df20c;0xfee2eca349835;0x4f3909e470c96;0x2260b9b41a8];[0x0;0x6c5041af57a26;0xad6ca4d25a71c;0xc33fd6e51128f;0x2063a5e6b4d31;0xb645af5859ffe;0x16ebbfc835c06;0x9f0cc01849753;0xdcdd5b58253ec;0xb68137e6630f2;0x204480fc9a9];[0x0;0xeaf3f4603f165;0x3d7b320b6423f;0xba878710ad38e;0x956bb62f106d0;0xfac76e882271;0xd69bfc313d7d8;0x2d22c713dbad3;0x3fa5bda0aefe4;0xd751058dbcefa;0x796079254ff1];[0x0;0x64cd1704f5364;0xb1447087a04e2;0x7c5a8a0944cf4;0x3cd7a47412c58;0xc1ae3fd4b7df7;0x58b954fdada5a;0x5f0b09e3227da;0x98a4133b61f57;0xc778bd942f91c;0x400ed51b3f]];
 [[0xccf7aaff18237;0xbe9f4ef729479;0x6ba912ad5de79;0x9b96bbc5331a3;0xbef39149be406;0xcb0ec2047bc0f;0x3b695551f3eff;0x3f45a0d71093e;0x7353445e28e79;0xf9379be688b];[0x24daf93fbdee5;0xd47be03d44bbb;0xf30822ae7b438;0x6ae053e65a0c7;0xaa54ae243ca28;0x70316fd3d84fd;0x4fe25fbba7442;0xfc73580f25a57;0xdf7dfa9d87423;0x78b15e2e677];[0x1d50f79d9a0ca;0x44d919d739dcf;0x294fd7567c62b;0xf555f21f7a967;0x41a404f5eb1f2;0xd8da20dc3d2ce;0x123b408998bd7;0xc0926db665e55;0x4acd227a1746f;0xef1a20fbbda];[0x654db39b07244;0xc6ff23be32f3c;0x2ec960b430c3;0x2a87c034eedb8;0x23f6607cfce49;0x6bf06bcfb18c0;0xde0f12aa45409;0x74c7fa4e3328c;0xa222bf71a528c;0x63772537885];[0x36748e54d051a;0xf646e5a7124eb;0x9a4fceee11b07;0x967f936a55df7;0xad1e306b29ea1;0xbec9f7e32f4ec;0x768b823277bf7;0x83afc2f213b89;0x642eb803c0bd5;0x4743e5ad5c6];[0xd0c60fffce6bf;0xa69bec71740ff;0xca16317be1dce;0xa7d0590612183;0xd664664762c58;0xfd62a81804534;0xfcc31892b8849;0x74da6985a4a56;0x14809de9818b3;0xe23f9410792];[0x0;0x231246c3d81f;0x4637f1493979a;0x33b24f39ed2e6;0xd14b227eaa8c8;0xb38bfda58a70d;0x67fc76059370;0xbaf585d4c41f1;0x9d844b7e8ea7;0xccfbe53ddfb50;0x10783fe74bb];[0x0;0xcc2f364a34ae4;0x33773a7d9e392;0x7fa622da6a48f;0x611bde1ff9133;0x47ce852651877;0x102ad30d2cef6;0x11f79a9eb4c48;0xd80fa99cb5631;0x1d5d62d9c11ab;0xf599373d3f7];[0x0;0xa1d1de989b2ac;0xce0604cbaf39d;0x7a75b76454467;0xde45eb2a03679;0x729ad4b7fd0ad;0x63dcfa4ae6cbc;0xa6b3e5c23b1af;0x3154c988faa9b;0x8bdb7766bd856;0x509a64d06d8];[0x0;0x9e0b831bef921;0x9f50a61839dc8;0x839a3791999b6;0x5e712eead65f6;0x466c63cbd31e8;0x3b6e874bafa11;0xe68f7dd309e82;0x86f26e8ed6de6;0x622b2e9aca3a9;0x1d3304a32e];[0x0;0xfc2242e297dd0;0x3fb8ac7ce7bdc;0x521bd15fe1598;0xdd0339431db97;0xed571d973da55;0x39ea6bf26c785;0xb93680e0a5c72;0xe906a65f44abd;0x41c03d4ed3945;0x47fb9fc076];[0x0;0x4a8c6c74e4ffe;0xfc2c50a16ab30;0x551a5d5cccd65;0xba51a6cfcd02d;0x9ae29d0e7c915;0x46cd309ab838c;0xf54af3a7c14be;0x622a597d9c6b6;0xe0527c5dc46c4;0x20b22d35c5d];[0x0;0x977c84e8050ec;0x2c14d9b82dfb9;0x9fc8feb1b2591;0xa84d1f43a3a7d;0x823d572bb395f;0xd1b2b5bf79f5d;0xb8db782c5e3cd;0xefbb077b9cd55;0xa117ee9afe34;0x248a62a17d];[0x0;0x602821bca06d4;0xd6304c9274422;0x2d1caa7d27ea4;0x335076898eabc;0x8d30697ae6ff8;0xeca862a70ab24;0x5251ec2843d94;0xb3620a268f2ac;0x13fb4837160b6;0xd16ed03380c7c];[0x0;0xb2e01a6b4efa8;0x9ba718b594b90;0x2c29c5bffc1b0;0xf8aff90c44993;0x35a7a73f464c;0xc9d97b46dda10;0xf112b887f3a3d;0x29aa24dafa19e;0x1dad414c8fb57;0x3f46ccbca4]];
 [[0xccf7aaff18237;0xbe9f4ef729479;0x6ba912ad5de79;0x9b96bbc5331a3;0xbef39149be406;0xcb0ec2047bc0f;0x3b695551f3eff;0x3f45a0d71093e;0x7353445e28e79;0xf9379be688b];[0x7e31c51e2ce2e;0x6e171382ecd2;0x4d3efe18b5f69;0xae67fb7e5577;0x486f079d5008a;0x3abacd3f80bd5;0xb1309994ea85e;0xc52f34b9e5b53;0xe156534f5172a;0x1642cc1c399];[0xcfd4e21da4a10;0x6035bd4fabb7c;0x8a65a2cc912e1;0x56e6eaf123046;0x4235d144e6300;0x9b1010482135c;0x3924ca06e236b;0xc86cf687f5412;0xc4d2d65b620f6;0xc552b21a358];[0x44a57a4f619ce;0x2a8865695979c;0x9fd6be63fdf36;0xb52ac1757415f;0xeb8f3267ce475;0x44db1d382776f;0x6aafce987b4b;0xefdb981cf704e;0x1c6ff25ed300a;0x911a47b6b61];[0x833788b8091fb;0x3b8edb9be4800;0xdc370b27ffb53;0xd5ff2c3ec7e02;0x17f1624406f54;0x4900680365c47;0xed1b5c3e4a93b;0xae7c71a63a987;0x1d14f22de3b80;0x7f4a01769bf];[0x53d2a77b66c23;0x985239baf7a9e;0x9ac60a713914f;0x588aad9c66038;0xd1d59739c2c53;0xe5ea93700fdcd;0x3ad4e890f8b4e;0x842a9bf1d2fc4;0xf702793d86017;0xe762c739f84];[0x0;0x231246c3d81f;0x4637f1493979a;0x33b24f39ed2e6;0xd14b227eaa8c8;0xb38bfda58a70d;0x67fc76059370;0xbaf585d4c41f1;0x9d844b7e8ea7;0xccfbe53ddfb50;0x10783fe74bb];[0x0;0x20751af5312c4;0x989fdef64667c;0x87742a9a8e51b;0x53ad68711caf;0x60349566c5fe4;0xe63b1dcf7a45b;0x93c1311b1a72a;0xf004961a705bc;0xa1a048d741e40;0x36d39812a0b];[0x0;0x40465b495eee2;0x77cba6012d45a;0x570d3777c17ce;0x27d2122201588;0xdbc19942a6dcd;0x640b04398f18;0xa3f4d1acee06e;0x6023db807c001;0xca57fd1254fe7;0x2e1a0f39e9];[0x0;0xe65cf14c2b1e0;0x594ff0d13d537;0x9fea4277c5e7b;0xc99ae7df47e54;0x5abd5b8d5a038;0xf78424f80b83b;0xb9a90d8150dc;0x2c18e4c907e86;0x981e09f080fb;0x326db29df07];[0x0;0x6dbde1807a84f;0x2791a9533cb49;0x8d25d40294f60;0xa4b41366cd22b;0x3f117eb5a902c;0x1469b86ebd7ce;0x5fa2212737b6e;0xcb66daf46603b;0xd2be080d0035b;0x7c515932409];[0x0;0xaf243dceb2622;0x6a4d94960403f;0xec1ecd25d5c65;0x90ef52b5de33e;0xd8f400c3c9b3b;0xcdd8d10870c83;0xda5770fa69af6;0x58bc8ab9d3bcf;0x2bac61b039b9f;0x12b369319b];[0x0;0xaabc74fed356e;0x50b893a283ac7;0xa881e08939d5e;0xbb2f7ecb3182d;0xdeb26d02e8dba;0x86ec14d61a156;0xd6f84166d1d0e;0x322a9c1f486d;0xaf9319342ec9b;0x10c6377313];[0x0;0xa8ed925f92289;0xb27a8ace591c9;0xc9ba63e682c93;0x134aeb021a91a;0xa0827a69e3de6;0x4e74d527b566e;0x6f56db481807d;0x29d5d7d66e023;0xfbafda1a8f2eb;0xbcceb69d49513];[0x0;0xbabf7b4457c2c;0x6e0b85d2bbdcc;0x367f4d5335f64;0x17f9d23c370ca;0x1fcb4a128b434;0x100510f0a1fde;0x9157ab1ea6030;0xa42b4e856b475;0x2ea19bdb9be23;0x8dc43bbf45]];
 [[0xccf7aaff18237;0xbe9f4ef729479;0x6ba912ad5de79;0x9b96bbc5331a3;0xbef39149be406;0xcb0ec2047bc0f;0x3b695551f3eff;0x3f45a0d71093e;0x7353445e28e79;0xf9379be688b];[0x6f914fc13e3bd;0x2f32f2a21e38c;0x3fec9c87bcc0c;0xd430fdc848ff7;0x2776e3c8d3464;0x15898f7c7ee22;0x16480d479a809;0xea6ca291cd226;0x56e1b11609075;0x5a297b3f4a6];[0xef00a7535e3cb;0x8f7d81453635d;0x2c91c43037de9;0xe6b3b896e48f8;0x71104f7a7bd75;0x2ae677cd7abc9;0xccff060cb9a12;0x6aba8c9acf1de;0x4a0e69aceb9fc;0xf3f8a9dbeff];[0x47e7112a5b738;0x485cbb70d0925;0x3bb6943d2e901;0x997259384d57c;0x6f8880e241a23;0x4a4756c0f7576;0xab0d044733c87;0x71c1717f8790b;0x6378888da67af;0x20c6a894aa0];[0x497795c04a0be;0xf2fb4226bd6c0;0xe4720a7b3bb9a;0x450842f1bdae4;0x6f91761d91dee;0xdc33afa1e9d3f;0x607d8f9eda1e2;0xdf571f1337f3f;0x112e74829a777;0xdf36851333b];[0x9abb8f56d5c48;0xdca5c9b0c3f93;0xe7c6f60311c20;0x542f45a760ab3;0x720304754ef84;0xad88212088ef5;0x436c033818db8;0xf8059eb73f4a7;0x344c2ad4b5e4e;0xe219677b53d];[0x0;0x231246c3d81f;0x4637f1493979a;0x33b24f39ed2e6;0xd14b227eaa8c8;0xb38bfda58a70d;0x67fc76059370;0xbaf585d4c41f1;0x9d844b7e8ea7;0xccfbe53ddfb50;0x10783fe74bb];[0x0;0x5a16519a04e11;0x46df10b03dd5b;0xb09cc8099c9bb;0xaec6f4dc03bb3;0xbefa3e090b599;0xccd7171528004;0x927ee7128acd0;0x3d59c75177849;0x232f6d31f595;0xe649959e430];[0x0;0xf88544b150de3;0x38037d3e32582;0x505a11658753d;0xa4276334dd248;0xd54a82fefe020;0x8a7ded7fa0431;0xf0cfab94d9e7e;0x4596d9c5a443b;0xaeb96bda92001;0x72be1d02ba];[0x0;0xcba4c4157c46f;0x9be055623db16;0x9229ceed24a42;0x940f0bc1741f1;0x9c95f7cfc34f2;0xbe49ad68aa04c;0xe33638e80a745;0x130dfad5a346b;0xa7b372e4acd10;0x2d64e7c65f0];[0x0;0xf10eabb24a3e0;0x351be192de72b;0xd842a324e1696;0xec36af4ddb13;0xf087c180987ab;0x80ad65051be1a;0xe42d998b0b9ef;0x8e282a7cd17f0;0x21583f13fff66;0x6fe82e7172f];[0x0;0xcd0f8845f68a8;0x41765921ecbeb;0x433970b9a80ba;0xe210324b74d82;0x305338a0b402c;0xd9185e82ad4df;0x84ad35fda9d53;0x4971eb4e51bea;0xf5c8bfd7cf4ce;0x2e8b5fb398];[0x0;0xc07db3d770173;0x4e8d3c6a194f9;0xdbd3a18972c78;0x4dff38f36a2a4;0x3e4d28506a6b9;0x2e1ff862da8f8;0xd9a9ee41e1809;0x914ef2ea46756;0x64598b6cdf9da;0x33a3ef653b];[0x0;0x4f46905d6f4f2;0xbfdc02def8b5f;0x42e745bcef922;0x52e0360e3c4d;0xaec7af7686741;0x5ac707595c489;0x92c7afe315fd4;0x3cd77f1d6a151;0xbbbbab1fb8042;0x3ea1ce99f5ade];[0x0;0xf2e5e6c632b9b;0x6358545e2aec9;0x147bbe3868fe3;0x12c84ec2306fa;0x107895769a546;0xbb3d60e7d3551;0x13525897c948a;0xc724c0e930657;0xd8ac15b2d9e6b;0x23c831de14]];
 [[0xccf7aaff18237;0xbe9f4ef729479;0x6ba912ad5de79;0x9b96bbc5331a3;0xbef39149be406;0xcb0ec2047bc0f;0x3b695551f3eff;0x3f45a0d71093e;0x7353445e28e79;0xf9379be688b];[0xea7f1fd072adf;0xb6fff70134cf4;0x16e1c79343f5b;0x8046f1bdc7068;0x6651d0d35f618;0xb500bafc8b60d;0x7c433e2052a05;0x8636647d2ee47;0x5287d2e2eadea;0x33abb9d3254];[0xb31ad13659e7a;0x2bfcac9a18625;0x89cc612eb3209;0x8c6204423531e;0x2224ff4a52f0d;0x744fe7f0fb8a2;0xfd069d855d96f;0xd40a3c6e110fa;0xcc811f0625e55;0xc84e942b919];[0x269ba8eb48af;0x73eacc58cd319;0xe9907d477dabf;0x784ec91740319;0xaf27da62d56b7;0x624752211b542;0x97deecb0506e8;0xd9c13530f93f;0x39d9118c5afd1;0x59994eb8147];[0xfd1d29888a5a;0x4431fd438b2c3;0xae5966ba590b6;0xf9021093f46f7;0xf564f52ca751c;0xfb12e88a8df04;0x7052e32736ccd;0x42585f95def24;0x90fda11506dc6;0xb0071c6eb53];[0xb19f5a172e22a;0xbf771d89cdbb;0xd5d6f10201ce5;0x4685c5e72ee4f;0xa889c4156d4f9;0xa3eedd4f81a65;0xc5971e5697b33;0x38ba48792ea32;0x5cbca437aca16;0x435dc1a44c2];[0x0;0x231246c3d81f;0x4637f1493979a;0x33b24f39ed2e6;0xd14b227eaa8c8;0xb38bfda58a70d;0x67fc76059370;0xbaf585d4c41f1;0x9d844b7e8ea7;0xccfbe53ddfb50;0x10783fe74bb];[0x0;0x1d01f959bfed6;0x3bbc90e29dc8e;0x5c3f9284a668d;0x3ba411ab8aafb;0x56a46bb99f0fc;0x9545790538d95;0x532f444a28c0c;0x7919bc3bdad81;0xc7de68fbb7f28;0xf82257d2d45];[0x0;0xaa46bd278f5d2;0x5bc409cdba6c;0x879d93e952df7;0x8ae39f550d12d;0x99cc485376ba4;0xccabd10d49a6;0xa1d7614955df5;0x2c0e80e171304;0xce742f053c635;0x5736f6d12f];[0x0;0xe9499c8fe835c;0x3554a37e25f32;0xc674999471158;0x5bdb733527f52;0xca84c4858b48;0x6fd9a8e833171;0x4c2b415eeb52;0xd930ca80c8cbe;0xb6f0d97608616;0xf12ec30e8e];[0x0;0x7e5be727b3d20;0xe0dfc1e4cdf42;0x8329fbe33cf68;0x7f027ea4e3b72;0x3363caf939b62;0x5fa9770fee35;0xb2c570651f455;0x6354fc5627e5c;0x528ef1ad72efa;0x25291fc737a];[0x0;0x7a21d95c1b3f6;0x90a6b94e676d5;0xe1e8ca2bd3ea9;0xc5e7a8dbeb78;0xc2d1ef83ef814;0x9a12d7ba63130;0xda44800177bb5;0x9e78d8c02ccb0;0xd29a255527d62;0x2360c11332];[0x0;0xd307ef8edbc91;0xff18f62e732af;0xd5fffa74be8eb;0xf8d82c689732b;0x8098e679989c0;0x5ca742d60dd8e;0x41aae9d1cc738;0x93ce8a1b9c274;0xcb681b465908e;0x10ce8f26a43];[0x0;0x9ec86a007a4c8;0x142bcaa9997ea;0x6bb49bda8ab58;0xd8c2e1dc912f6;0x6d827c6e36d95;0xb99dd2817c49f;0xcf434a4e7050;0x608072c475c93;0x9ec31349fdb81;0xe838e567b4889];[0x0;0xbc7315ad5491d;0x24afa06d791b4;0x9fabe0f17baef;0xcdba7c7f5d20f;0xc9463cd92d2fc;0x3cd61be7bf443;0x2268c03526e22;0xdf11e0eef6e45;0x161594c97dc2d;0x4b4cbc9e7c5]];
 [[0xccf7aaff18237;0xbe9f4ef729479;0x6ba912ad5de79;0x9b96bbc5331a3;0xbef39149be406;0xcb0ec2047bc0f;0x3b695551f3eff;0x3f45a0d71093e;0x7353445e28e79;0xf9379be688b];[0x59393b7fbf018;0x8d64f49df1547;0x4d310ae6b0da8;0xf6edb16b03e20;0xf1a9dc7f93ec9;0x1ad9c10143a65;0x3596608d78125;0x935f017e3f3e2;0x4305ee80208fa;0xc1213eb65fc];[0x7ec69d6244529;0xc5fd3d7d6ce52;0x12fee9cfed673;0x7e260ae559258;0xbc8fb5a0fdbb2;0xdbcc19ce7bd6d;0x5f509084f6999;0x1a426b532f502;0x90afb12909246;0x6753b5cbff3];[0xa79699e22ea71;0xda73b751916df;0x4cfc2009284c1;0x12f5491af3bfb;0x4d9d89c893ff5;0xb87fa8e4b9109;0xc380cbf26f455;0x49ba2b83f99fc;0xa8f56c5f38ddc;0xcadf410292a];[0xa3af57378be82;0x1813a0b2420e2;0xd34bd7f55e03;0xa5104c30e1d41;0xc62e0af7a4fdb;0xa86b1e99b3b68;0xa5f9300a9dd00;0xf1dde17e3585;0xc9f7ab9bb501f;0x99f4ac33a0c];[0xa704e95e9dd23;0x86ace324eb1b0;0xd81794a0ffb2c;0x23f748ff65eee;0x8e7ad9230d6ed;0x52f6ecfd56ed7;0xa5446f4c3de77;0x6f2a01b45c670;0x61f1a559643aa;0x7863216ff0e];[0x0;0x231246c3d81f;0x4637f1493979a;0x33b24f39ed2e6;0xd14b227eaa8c8;0xb38bfda58a70d;0x67fc76059370;0xbaf585d4c41f1;0x9d844b7e8ea7;0xccfbe53ddfb50;0x10783fe74bb];[0x0;0xa18e7da024794;0x57e19aed686cb;0x61bdc26d87a24;0x96697f5b97383;0x31e730c099be2;0x6db3a423db6ba;0xa42c2d23d871;0x12a7ac0b70d78;0x6b0e3fe3df25f;0xeec463d9e73];[0x0;0x7b4be8267ba27;0xee0992a65667f;0x442f0918aa8ec;0x265f7d9903129;0xaa9de98a66220;0xd508940d58142;0x83a75c3376fd0;0xad43a87948cfd;0xe5ac77cd503e0;0x31879aabd39];[0x0;0x3888aece8c86c;0x327c4f25508fa;0x499f43625f302;0x523fcae08664b;0x82da34b84ada5;0xfd6558b6a97d0;0x45cf1a705c6f4;0xc1f7cb2eb7836;0x307c5db3b6b5e;0x37db6f2e42b];[0x0;0xe089c1b4e364c;0xe6c52d91a2794;0x56570e62c8192;0x90264f489e21f;0x8c625cb371a65;0xd0b210c96dd3d;0x594d5b42595a7;0xe79b1604da7d9;0xe5079187c0c67;0x89b35daf81c];[0x0;0xaabb0a8da9d90;0x6b949fc52397a;0xcfa36d107ee7d;0xbc6357755f780;0x6e4a15056b06a;0x5831cd05b4f37;0x4a73a9128c35c;0xb375af966a4bd;0x2b96db6c76686;0x14176140dc6];[0x0;0x65d1258ca0c50;0x9498baea8470e;0x9d83e56057548;0x2558bde108ef3;0x17e2ff10e950f;0xdf0103a1c5d06;0xd5cda09686076;0xfb2e6063bec14;0x2a78a44f7f541;0xa32d8426686];[0x0;0x3c0b12e46dd86;0x8b66cbf7bbeaa;0x5cfbd0854413d;0x4a67a2e95a262;0xf5a10724d9c1;0xd5ddbfe34e3e3;0xd2836b095d95f;0x6f512a6b525ca;0x582ce18449634;0x5aa67edaeb876];[0x0;0xbb82fae426deb;0x7f174bd6b2e58;0xbd9704fa03be6;0xdaa26067f9a6e;0xd0e0c6de2ebbd;0x37c7dae566d90;0x7422e86651e5;0x37279d3109247;0x3bcccbb29c7ad;0x4c84a969e3c]]]
 (V [0x2a79b3d1c7463;0x982806502e0ba;0xb3a985f6a23af;0x1faf23d279a2b;0xe1aec7818d8ef;0x8c4163af039f8;0xe200ef7f973b3;0xd6c4ab2440bcb;0x90a07d5bc6bc7;0x3dc4bba256e] [0xb951359ea71da;0xa68d8714635f5;0xe17f766705d5c;0xfc5acb9085123;0xb2ef034d779e8;0x451cbd41e27fb;0x24da9b4d1daa7;0xe2cba753b947e;0x192a9363b17c7;0x9845fdfecb2] [0x764f61a278f01;0xb3ea07f9a79fa;0x1281f9f2b16c0;0xf55580eabc65e;0x752b0380a3593;0xd5410616a5cd1;0x6d67c2f38b14d;0x816d5a42d9ef1;0x62b1410de4e5a;0x1aa20386228]) []
 []
 [].
Definition wit_512C_32 : list (colwit ept wit) := [wit_512C_32_0; wit_512C_32_1; wit_512C_32_2; wit_512C_32_3; wit_512C_32_4; wit_512C_32_5; wit_512C_32_6].
