(** Tables of gosthash2012_precalc.h and gosthash2012_const.h, copied by a script. *)
From Verif Require Import Bytes.

(** gosthash2012_precalc.h:11-710, little-endian [Ax]. *)
Definition Ax : list (list N) :=
  [[0xd01f715b5c7ef8e6;0x16fa240980778325;0xa8a42e857ee049c8;0x6ac1068fa186465b;0x6e417bd7a2e9320b;0x665c8167a437daab;0x7666681aa89617f6;0x4b959163700bdcf5;0xf14be6b78df36248;0xc585bd689a625cff;0x9557d7fca67d82cb;0x89f0b969af6dd366;0xb0833d48749f6c35;0xa1998c23b1ecbc7c;0x8d70c431ac02a736;0xd6dfbc2fd0a8b69e;0x37aeb3e551fa198b;0xb7d128a40b5cf9c;0x5a8f2008b5780cbc;0xedec882284e333e5;0xd25fc177d3c7c2ce;0x5e0f5d50b61778ec;0x1d873683c0c24cb9;0xad040bcbb45d208c;0x2f89a0285b853c76;0x5732fff6791b8d58;0x3e9311439ef6ec3f;0xc9183a809fd3c00f;0x83adf3f5260a01ee;0xa6791941f4e8ef10;0x103ae97d0ca1cd5d;0x2ce948121dee1b4a;0x39738421dbf2bf53;0x93da2a6cf0cf5b4;0xcd9847d89cbcb45f;0xf9561c078b2d8ae8;0x9c6a755a6971777f;0xbc1ebaa0712ef0c5;0x72e61542abf963a6;0x78bb5fde229eb12e;0x14ba94250fceb90d;0x844d6697630e5282;0x98ea08026a1e032f;0xf06bbea144217f5c;0xdb6263d11ccb377a;0x641c314b2b8ee083;0x320e96ab9b4770cf;0x1ee7deb986a96b85;0xe96cf57a878c47b5;0xfdd6615f8842feb8;0xc83862965601dd1b;0x2ea9f83e92572162;0xf876441142ff97fc;0xeb2c455608357d9d;0x5612a7e0b0c9904c;0x6c01cbfb2d500823;0x4548a6a7fa037a2d;0xabc4c6bf388b6ef4;0xbade77d4fdf8bebd;0x799b07c8eb4cac3a;0xc9d87e805b19cf0;0xcb588aac106afa27;0xea0c1d40c1e76089;0x2869354a1e816f1a;0xff96d17307fbc490;0x9f0a9d602f1a5043;0x96373fc6e016a5f7;0x5292dab8b3a6e41c;0x9b8ae0382c752413;0x4f15ec3b7364a8a5;0x3fb349555724f12b;0xc7c50d4415db66d7;0x92b7429ee379d1a7;0xd37f99611a15dfda;0x231427c05e34a086;0xa439a96d7b51d538;0xb403401077f01865;0xdda2aea5901d7902;0xa5d4a9c8967d288;0xc265280adf660f93;0x8bb0094520d4e94e;0x2a29856691385532;0x42a833c5bf072941;0x73c64d54622b7eb2;0x7e095624504536c;0x8a905153e906f45a;0x6f6123c16b3b2f1f;0xc6e55552dc097bc3;0x4468feb133d16739;0xe211e7f0c7398829;0xa2f96419f7879b40;0x19074bdbc3ad38e9;0xf4ebc3f9474e0b0c;0x43886bd376d53455;0xd8028beb5aa01046;0x51f23282f5cdc320;0xe7b1c2be0d84e16d;0x81dfab006dee8a0;0x3b33340d544b857b;0x7f5bcabc679ae242;0xedd37c48a08a6d8;0x81ed43d9a9b33bc6;0xb1a3655ebd4d7121;0x69a1eeb5e7ed6167;0xf6ab73d5c8f73124;0x1a67a3e185c61fd5;0x2dc91004d43c065e;0x240b02c8fb93a28;0x90f7f2b26cc0eb8f;0x3cd3a16f114fd617;0xaae49ea9f15973e0;0x6c0cd748cd64e78;0xda423bc7d5192a6e;0xc345701c16b41287;0x6d2193ede4821537;0xfcf639494190e3ac;0x7c3b228621f1c57e;0xfb16ac2b0494b0c0;0xbf7e529a3745d7f9;0x6881b6a32e3f7c73;0xca78d2bad9b8e733;0xbbfe2fc2342aa3a9;0xdbddffecc6381e4;0x70a6a56e2440598e;0xe4d12a844befc651;0x8c509c2765d0ba22;0xee8c6018c28814d9;0x17da7c1f49a59e31;0x609c4c1328e194d3;0xb3e3d57232f44b09;0x91d7aaa4a512f69b;0xffd6fd243dabbcc;0x50d26a943c1fde34;0x6be15e9968545b4f;0x94778fea6faf9fdf;0x2b09dd7058ea4826;0x677cd9716de5c7bf;0x49d5214fffb2e6dd;0x360e83a466b273c;0x1fc786af4f7b7691;0xa0b9d435783ea168;0xd49f0c035f118cb6;0x1205816c9d21d14;0xac2453dd7d8f3d98;0x545217cc3f70aa64;0x26b4028e9489c9c2;0xdec2469fd6765e3e;0x4807d58036f7450;0xe5f17292823ddb45;0xf30b569b024a5860;0x62dcfc3fa758aefb;0xe84cad6c4e5e5aa1;0xccb81fce556ea94b;0x53b282ae7a74f908;0x1b47fbf74c1402c1;0x368eebf39828049f;0x7afbeff2ad278b06;0xbe5e0a8cfe97caed;0xcfd8f7f413058e77;0xf78b2bc301252c30;0x4d555c17fcdd928d;0x5f2f05467fc565f8;0x24f4b2a21b30f3ea;0x860dd6bbecb768aa;0x4c750401350f8f99;0x0;0xecccd0344d312ef1;0xb5231806be220571;0xc105c030990d28af;0x653c695de25cfd97;0x159acc33c61ca419;0xb89ec7f872418495;0xa9847693b73254dc;0x58cf90243ac13694;0x59efc832f3132b80;0x5c4fed7c39ae42c4;0x828dabe3efd81cfa;0xd13f294d95ace5f2;0x7d1b7a90e823d86a;0xb643f03cf849224d;0x3df3f979d89dcb03;0x7426d836272f2dde;0xdfe21e891fa4432a;0x3a136c1b9d99986f;0xfa36f43dcd46add4;0xc025982650df35bb;0x856d3e81aadc4f96;0xc4a5e57e53b041eb;0x4708168b75ba4005;0xaf44bbe73be41aa4;0x971767d029c4b8e3;0xb9be9feebb939981;0x215497ecd18d9aae;0x316e7e91dd2c57f3;0xcef8afe2dad79363;0x3853dc371220a247;0x35ee03c9de4323a3;0xe6919aa8c456fc79;0xe05157dc4880b201;0x7bdbb7e464f59612;0x127a59518318f775;0x332ecebd52956ddb;0x8f30741d23bb9d1e;0xd922d3fd93720d52;0x7746300c61440ae2;0x25d4eab4d2e2eefe;0x75068020eefd30ca;0x135a01474acaea61;0x304e268714fe4ae7;0xa519f17bb283c82c;0xdc82f6b359cf6416;0x5baf781e7caa11a8;0xb2c38d64fb26561d;0x34ce5bdf17913eb7;0x5d6fb56af07c5fd0;0x182713cd0a7f25fd;0x9e2ac576e6c84d57;0x9aaab82ee5a73907;0xa3d93c0f3e558654;0x7e7b92aaae48ff56;0x872d8ead256575be;0x41c8dbfff96c0e7d;0x99ca5014a3cc1e3b;0x40e883e930be1369;0x1ca76e95091051ad;0x4e35b42dbab6b5b1;0x5a0254ecabd6944;0xe1710fca8152af15;0xf22b0e8dcb984574;0xb763a82a319b3f59;0x63fca4296e8ab3ef;0x9d4a2d4ca0a36a6b;0xe331bfe60eeb953d;0xd5bf541596c391a2;0xf5cb9bef8e9c1618;0x46284e9dbc685d11;0x2074cffa185f87ba;0xbd3ee2b6b8fcedd1;0xae64e3f1f23607b0;0xfeb68965ce29d984;0x55724fdaf6a2b770;0x29496d5cd753720e;0xa75941573d3af204;0x8e102c0bea69800a;0x111ab16bc573d049;0xd7ffe439197aab8a;0xefac380e0b5a09cd;0x48f579593660fbc9;0x22347fd697e6bd92;0x61bc1405e13389c7;0x4ab5c975b9d9c1e1;0x80cd1bcf606126d2;0x7186fd78ed92449a;0x93971a882aabccb3;0x88d0e17f66bfce72;0x27945a985d5bd4d6];
   [0xde553f8c05a811c8;0x1906b59631b4f565;0x436e70d6b1964ff7;0x36d343cb8b1e9d85;0x843dfacc858aab5a;0xfdfc95c299bfc7f9;0xf634bdea1d51fa2;0x6d458b3b76efb3cd;0x85c3f77cf8593f80;0x3c91315fbe737cb2;0x2148b03366ace398;0x18f8b8264c6761bf;0xc830c1c495c9fb0f;0x981a76102086a0aa;0xaa16012142f35760;0x35cc54060c763cf6;0x42907d66cc45db2d;0x8203d44b965af4bc;0x3d6f3cefc3a0e868;0xbc73ff69d292bda7;0x8722ed0102e20a29;0x8f8185e8cd34deb7;0x9b0561dda7ee01d9;0x5335a0193227fad6;0xc9cecc74e81a6fd5;0x54f5832e5c2431ea;0x99e47ba05d553470;0xf7bee756acd226ce;0x384e05a5571816fd;0xd1367452a47d0e6a;0xf29fde1c386ad85b;0x320c77316275f7ca;0xd0c879e2d9ae9ab0;0xdb7406c69110ef5d;0x45505e51a2461011;0xfc029872e46c5323;0xfa3cb6f5f7bc0cc5;0x31f17cd8768a173;0xbd8df2d9af41297d;0x9d3b4f5ab43e5e3f;0x4071671b36feee84;0x716207e7d3e3b83d;0x48d20ff2f9283a1a;0x27769eb4757cbc7e;0x5c56ebc793f2e574;0xa48b474f9ef5dc18;0x52cbada94ff46e0c;0x60c7da982d8199c6;0xe9d466edc068b78;0x4eec2175eaf865fc;0x550b8e9e21f7a530;0x6b7ba5bc653fec2b;0x5eb7f1ba6949d0dd;0x57ea94e3db4c9099;0xf640eae6d101b214;0xdd4a284182c0b0bb;0xff1d8fbf6304f250;0xb8accb933bf9d7e8;0xe8867c478eb68c4d;0x3f8e2692391bddc1;0xcb2fd60912a15a7c;0xaec935dbab983d2f;0xf55ffd2b56691367;0x80e2ce366ce1c115;0x179bf3f8edb27e1d;0x1fe0db07dd394da;0xda8a0b76ecc37b87;0x44ae53e1df9584cb;0xb310b4b77347a205;0xdfab323c787b8512;0x3b511268d070b78e;0x65e6e3d2b9396753;0x6864b271e2574d58;0x259784c98fc789d7;0x2e11a7dfabb35a9;0x8841a6dfa337158b;0x7ade78c39b5dcdd0;0xb7cf804d9a2cc84a;0x20b6bd831b7f7742;0x75bd331d3a88d272;0x418f6aab4b2d7a5e;0xd9951cbb6babdaf4;0xb6318dfde7ff5c90;0x1f389b112264aa83;0x492c024284fbaec0;0xe33a0363c608f9a0;0x2688930408af28a4;0xc7538a1a341ce4ad;0x5da8e677ee2171ae;0x8c9e92254a5c7fc4;0x63d8cd55aae938b5;0x29ebd8daa97a3706;0x959827b37be88aa1;0x1484e4356adadf6e;0xa7945082199d7d6b;0xbf6ce8a455fa1cd4;0x9cc542eac9edcae5;0x79c16f0e1c356ca3;0x89bfab6fdee48151;0xd4174d1830c5f0ff;0x9258048415eb419d;0x6139d72850520d1c;0x6a85a80c18ec78f1;0xcd11f88e0171059a;0xcceff53e7ca29140;0xd229639f2315af19;0x90b91ef9ef507434;0x5977d28d074a1be1;0x311360fce51d56b9;0xc093a92d5a1f2f91;0x1a19a25bb6dc5416;0xeb996b8a09de2d3e;0xfee3820f1ed7668a;0xd7085ad5b7ad518c;0x7fff41890fe53345;0xec5948bd67dde602;0x2fd5f65dbaaa68e0;0xa5754affe32648c2;0xf8ddac880d07396c;0x6fa491468c548664;0xc7c5c1326bdbed1;0x4a33158f03930fb3;0x699abfc19f84d982;0xe4fa2054a80b329c;0x6707f9af438252fa;0x8a368e9cfd6d49e;0x47b1442c58fd25b8;0xbbb3dc5ebc91769b;0x1665fe489061eac7;0x33f27a811fa66310;0x93a609346838d547;0x30ed6d4c98cec263;0x1dd9816cd8df9f2a;0x94662a03063b1e7b;0x83fdd9fbeb896066;0x7b207573e68e590a;0x5f49fc0a149a4407;0x343259b671a5a82c;0xfbc2bb458a6f981f;0xc272b350a0a41a38;0x3aaf1fd8ada32354;0x6cbb868b0b3c2717;0xa2b569c88d2583fe;0xf180c9d1bf027928;0xaf37386bd64ba9f5;0x12bacab2790a8088;0x4c0d3b0810435055;0xb2eeb9070e9436df;0xc5b29067cea7d104;0xdcb425f1ff132461;0x4f122cc5972bf126;0xac282fa651230886;0xe7e537992f6393ef;0xe61b3a2952b00735;0x709c0a57ae302ce7;0xe02514ae416058d3;0xc44c9dd7b37445de;0x5a68c5408022ba92;0x1c278cdca50c0bf0;0x6e5a9cf6f18712be;0x86dce0b17f319ef3;0x2d34ec2040115d49;0x4bcd183f7e409b69;0x2815d56ad4a9a3dc;0x24698979f2141d0d;0x0;0x1ec696a15fb73e59;0xd86b110b16784e2e;0x8e7f8858b0e74a6d;0x63e2e8713d05fe6;0xe2c40ed3bbdb6d7a;0xb1f1aeca89fc97ac;0xe1db191e3cb3cc09;0x6418ee62c4eaf389;0xc6ad87aa49cf7077;0xd6f65765ca7ec556;0x9afb6c6dda3d9503;0x7ce05644888d9236;0x8d609f95378feb1e;0x23a9aa4e9c17d631;0x6226c0e5d73aac6f;0x56149953a69f0443;0xeeb852c09d66d3ab;0x2b0ac2a753c102af;0x7c023376e03cb3c;0x2ccae1903dc2c993;0xd3d76e2f5ec63bc3;0x9e2458973356ff4c;0xa66a5d32644ee9b1;0xa427294356de137;0x783f62be61e6f879;0x1344c70204d91452;0x5b96c8f0fdf12e48;0xa90916ecc59bf613;0xbe92e5142829880e;0x727d102a548b194e;0x1be7afebcb0fc0cc;0x3e702b2244c8491b;0xd5e940a84d166425;0x66f9f41f3e51c620;0xabe80c913f20c3ba;0xf07ec461c2d1edf2;0xf361d3ac45b94c81;0x521394a94b8fe95;0xadd622162cf09c5c;0xe97871f7f3651897;0xf4a1f09b2bba87bd;0x95d6559b2054044;0xbbc7f2448be75ed;0x2af4cf172e129675;0x157ae98517094bb4;0x9fda55274e856b96;0x914713499283e0ee;0xb952c623462a4332;0x74433ead475b46a8;0x8b5eb112245fb4f8;0xa34b6478f0f61724;0x11a5dd7ffe6221fb;0xc16da49d27ccbb4b;0x76a224d0bde07301;0x8aa0bca2598c2022;0x4df336b86d90c48f;0xea67663a740db9e4;0xef465f70e0b54771;0x39b008152acb8227;0x7d1e5bf4f55e06ec;0x105bd0cf83b1b521;0x775c2960c033e7db;0x7e014c397236a79f;0x811cc386113255cf;0xeda7450d1a0e72d8;0x5889df3d7a998f3b;0x2e2bfbedc779fc3a;0xce0eef438619a4e9;0x372d4e7bf6cd095f;0x4df34fae96b6a4f;0xf923a13870d4adb6;0xa1aa7e050a4d228d;0xa8f71b5cb84862c9;0xb52e9a306097fde3;0xd8251a35b6e2a0b;0x2257a7fee1c442eb;0x73831d9a29588d94;0x51d4ba64c89ccf7f;0x502ab7d4b54f5ba5;0x97793dce8153bf08;0xe5042de4d5d8a646;0x9687307efc802bd2;0xa05473b5779eb657;0xb4d097801d446939;0xcff0e2f3fbca3033;0xc38cbee0dd778ee2;0x464f499c252eb162;0xcad1dbb96f72cea6;0xba4dd1eec142e241;0xb00fa37af42f0376];
   [0xcce4cd3aa968b245;0x89d5484e80b7faf;0x638246c1b3548304;0xd2fe0ec8c2355492;0xa7fbdf7ff2374eee;0x4df1600c92337a16;0x84e503ea523b12fb;0x790bbfd53ab0c4a;0x198a780f38f6ea9d;0x2ab30c8f55ec48cb;0xe0f7fed6b2c49db5;0xb6ecf3f422cadbdc;0x409c9a541358df11;0xd3ce8a56dfde3fe3;0xc3e9224312c8c1a0;0xd6dfa58816ba507;0xddf3e1b179952777;0x4c02a42748bb1d9;0x94c2abff9f2decb8;0x4f91752da8f8acf4;0x78682befb169bf7b;0xe1c77a48af2ff6c4;0xc5d7ec69c80ce76;0x4cc1e4928fd81167;0xfeed3d24d9997b62;0x518bb6dfc3a54a23;0x6dbf2d26151f9b90;0xb5bc624b05ea664f;0xe86aaa525acfe21a;0x4801ced0fb53a0be;0xc91463e6c00868ed;0x1027a815cd16fe43;0xf67069a0319204cd;0xb04ccc976c8abce7;0xc0b9b3fc35e87c33;0xf380c77c58f2de65;0x50bb3241de4e2152;0xdf93f490435ef195;0xf1e0d25d62390887;0xaf668bfb1a3c3141;0xbc11b251f00a7291;0x73a5eed47e427d47;0x25bee3f6ee4c3b2e;0x43cc0beb34786282;0xc824e778dde3039c;0xf97d86d98a327728;0xf2b043e24519b514;0xe297ebf7880f4b57;0x3a94a49a98fab688;0x868516cb68f0c419;0xeffa11af0964ee50;0xa4ab4ec0d517f37d;0xa9c6b498547c567a;0x8e18424f80fbbbb6;0xbcdc53bcf2bc23c;0x137739aaea3643d0;0x2c1333ec1bac2ff0;0x8d48d3f0a7db0625;0x1e1ac3f26b5de6d7;0xf520f81f16b2b95e;0x9f0f6ec450062e84;0x130849e1deb6b71;0xd45e31ab8c7533a9;0x652279a2fd14e43f;0x3209f01e70f1c927;0xbe71a770cac1a473;0xe3d6be7a64b1894;0x7ec8148cff29d840;0xcb7476c7fac3be0f;0x72956a4a63a91636;0x37f95ec21991138f;0x9e3fea5a4ded45f5;0x7b38ba50964902e8;0x222e580bbde73764;0x61e253e0899f55e6;0xfc8d2805e352ad80;0x35994be3235ac56d;0x9add01af5e014de;0x5e8659a6780539c6;0xb17c48097161d796;0x26015213acbd6e2;0xd1ae9f77e515e901;0xb7dc776a3f21b0ad;0xaba6a1b96eb78098;0x9bcf4486248d9f5d;0x582666c536455efd;0xfdbdac9bfeb9c6f1;0xc47999be4163cdea;0x765540081722a7ef;0x3e548ed8ec710751;0x3d041f67cb51bac2;0x7958af71ac82d40a;0x36c9da5c047a78fe;0xed9a048e33af38b2;0x26ee7249c96c86bd;0x900281bdeba65d61;0x11172c8bd0fd9532;0xea0abf73600434f8;0x42fc8f75299309f3;0x34a9cf7d3eb1ae1c;0x2b838811480723ba;0x5ce64c8742ceef24;0x1adae9b01fd6570e;0x3c349bf9d6bad1b3;0x82453c891c7b75c0;0x97923a40b80d512b;0x4a61dbf1c198765c;0xb48ce6d518010d3e;0xcfb45c858e480fd6;0xd933cbf30d1e96ae;0xd70ea014ab558e3a;0xc189376228031742;0x9262949cd16d8b83;0xeb3a3bed7def5f89;0x49314a4ee6b8cbcf;0xdcc3652f647e4c06;0xda635a4c2a3e2b3d;0x470c21a940f3d35b;0x315961a157d174b4;0x6672e81dda3459ac;0x5b76f77a1165e36e;0x445cb01667d36ec8;0xc5491d205c88a69b;0x456c34887a3805b9;0xffddb9bac4721013;0x99af51a71e4649bf;0xa15be01cbc7729d5;0x52db2760e485f7b0;0x8c78576eba306d54;0xae560f6507d75a30;0x95f22f6182c687c9;0x71c5fbf54489aba5;0xca44f259e728d57e;0x88b87d2ccebbdc8d;0xbab18d32be4a15aa;0x8be8ec93e99b611e;0x17b713e89ebdf209;0xb31c5d284baa0174;0xeeca9531148f8521;0xb8d198138481c348;0x8988f9b2d350b7fc;0xb9e11c8d996aa839;0x5a4673e40c8e881f;0x1687977683569978;0xbf4123eed72acf02;0x4ea1f1b3b513c785;0xe767452be16f91ff;0x7505d1b730021a7c;0xa59bca5ec8fc980c;0xad069eda20f7e7a3;0x38f4b1bba231606a;0x60d2d77e94743e97;0x9affc0183966f42c;0x248e6768f3a7505f;0xcdd449a4b483d934;0x87b59255751baf68;0x1bea6d2e023d3c7f;0x6b1f12455b5ffcab;0x743555292de9710d;0xd8034f6d10f5fddf;0xc6198c9f7ba81b08;0xbb8109aca3a17edb;0xfa2d1766ad12cabb;0xc729080166437079;0x9c5fff7b77269317;0x0;0x15d706c9a47624eb;0x6fdf38072fd44d72;0x5fb6dd3865ee52b7;0xa33bf53d86bcff37;0xe657c1b5fc84fa8e;0xaa962527735cebe9;0x39c43525bfda0b1b;0x204e4d2a872ce186;0x7a083ece8ba26999;0x554b9c9db72efbfa;0xb22cd9b656416a05;0x96a2bedea5e63a5a;0x802529a826b0a322;0x8115ad363b5bc853;0x8375b81701901eb1;0x3069e53f4a3a1fc5;0xbd2136cfede119e0;0x18bafc91251d81ec;0x1d4a524d4c7d5b44;0x5f0aedc6960daa8;0x29e39d3072ccf558;0x70f57f6b5962c0d4;0x989fd53903ad22ce;0xf84d024797d91c59;0x547b1803aac5908b;0xf0d056c37fd263f6;0xd56eb535919e58d8;0x1c7ad6d351963035;0x2e7326cd2167f912;0xac361a443d1c8cd2;0x697f076461942a49;0x4b515f6fdc731d2d;0x8ad8680df4700a6f;0x41ac1eca0eb3b460;0x7d988533d80965d3;0xa8f6300649973d0b;0x7765c4960ac9cc9e;0x7ca801adc5e20ea2;0xdea3700e5eb59ae4;0xa06b6482a19c42a4;0x6a2f96db46b497da;0x27def6d7d487edcc;0x463ca5375d18b82a;0xa6cb5be1efdc259f;0x53eba3fef96e9cc1;0xce84d81b93a364a7;0xf4107c810b59d22f;0x333974806d1aa256;0xf0def79bba073e5;0x231edc95a00c5c15;0xe437d494c64f2c6c;0x91320523f64d3610;0x67426c83c7df32dd;0x6eefbc99323f2603;0x9d6f7be56acdf866;0x5916e25b2bae358c;0x7ff89012e2c2b331;0x35091bf2720bd93;0x561b0d22900e4669;0x28d319ae6f279e29;0x2f43a2533c8c9263;0xd09e1be9f8fe8270;0xf740ed3e2c796fbc;0xdb53ded237d5404c;0x62b2c25faebfe875;0xafd41a5d2c0a94d;0x6412fd3ce0ff8f4e;0xe3a76f6995e42026;0x6c8fa9b808f4f0e1;0xc2d9a6dd0f23aad1;0x8f28c6d19d10d0c7;0x85d587744fd0798a;0xa20b71a39b579446;0x684f83fa7c7f4138;0xe507500adba4471d;0x3f640a46f19a6c20;0x1247bd34f7dd28a1;0x2d23b77206474481;0x93521002cc86e0f2;0x572b89bc8de52d18;0xfb1d93f8b0f9a1ca;0xe95a2ecc4724896b;0x3ba420048511ddf9;0xd63e248ab6bee54b;0x5dd6c8195f258455;0x6a03f634e40673b;0x1f2a476c76b68da6;0x217ec9b49ac78af7;0xecaa80102e4453c3;0x14e78257b99d4f9a];
   [0x20329b2cc87bba05;0x4f5eb6f86546a531;0xd4f44775f751b6b1;0x8266a47b850dfa8b;0xbb986aa15a6ca985;0xc979eb08f9ae0f99;0x2da6f447a2375ea1;0x1e74275dcd7d8576;0xbc20180a800bc5f8;0xb4a2f701b2dc65be;0xe726946f981b6d66;0x48e6c453bf21c94c;0x42cad9930f0a4195;0xefa47b64aacccd20;0x71180a8960409a42;0x8bb3329bf6a44e0c;0xd34c35de2d36dacc;0xa92f5b7cbc23dc96;0xb31a85aa68bb09c3;0x13e04836a73161d2;0xb24dfc4129c51d02;0x8ae44b70b7da5acd;0xe671ed84d96579a7;0xa4bb3417d66f3832;0x4572ab38d56d2de8;0xb1b47761ea47215c;0xe81c09cf70aba15d;0xffbdb872ce7f90ac;0xa8782297fd5dc857;0xd946f6b6a4ce4a4;0xe4df1f4f5b995138;0x9ebc71edca8c5762;0xa2c1dc0b02b88d9;0x3b503c115d9d7b91;0xc64376a8111ec3a2;0xcec199a323c963e4;0xdc76a87ec58616f7;0x9d596e073a9b487;0x14583a9d7d560daf;0xf4c6dc593f2a0cb4;0xdd21d19584f80236;0x4a4836983ddde1d3;0xe58866a41ae745f9;0xf591a5b27e541875;0x891dc05074586693;0x5b068c651810a89e;0xa30346bc0c08544f;0x3dbf3751c684032d;0x2a1e86ec785032dc;0xf73f5779fca830ea;0xb60c05ca30204d21;0xcc316802b32f065;0x8770241bdd96be69;0xb861e18199ee95db;0xf805cad91418fcd1;0x29e70dccbbd20e82;0xc7140f435060d763;0xf3a9da0e8b0cc3b;0xa2543f574d76408e;0xbd7761e1c175d139;0x4b1f4f737ca3f512;0x6dc2df1f2fc137ab;0xf1d05c3967b14856;0xa742bf3715ed046c;0x654030141d1697ed;0x7b872abda676c7d;0x3ce84eba87fa17ec;0xc1fb0403cb79afdf;0x3e46bc7105063f73;0x278ae987121cd678;0xa1adb4778ef47cd0;0x26dd906c5362c2b9;0x5168060589b44e2;0xfbfc41f9d79ac08f;0xe6de44ba9ced8fa;0x9feb08068bf243a3;0x7b341749d06b129b;0x229c69e74a87929a;0xe09ee6c4427c011b;0x5692e30e725c4c3a;0xda99a33e5e9f6e4b;0x353dd85af453a36b;0x25241b4c90e0fee7;0x5de987258309d022;0xe230140fc0802984;0x93281e86a0c0b3c6;0xf229d719a4337408;0x6f6c2dd4ad3d1f34;0x8ea5b2fbae3f0aee;0x8331dd90c473ee4a;0x346aa1b1b52db7aa;0xdf8f235e06042aa9;0xcc6f6b68a1354b7b;0x6c95a6f46ebf236a;0x52d31a856bb91c19;0x1a35ded6d498d555;0xf37eaef2e54d60c9;0x72e181a9a3c2a61c;0x98537aad51952fde;0x16f6c856ffaa2530;0xd960281e9d1d5215;0x3a0745fa1ce36f50;0xb7b642bf1559c18;0x59a87eae9aec8001;0x5e100c05408bec7c;0x441f98b19e55023;0xd70dcc5534d38aef;0x927f676de1bea707;0x9769e70db925e3e5;0x7a636ea29115065a;0x468b201816ef11b6;0xab81a9b73edff409;0xc0ac7de88a07bb1e;0x1f235eb68c0391b7;0x6056b074458dd30f;0xbe8eeac102f7ed67;0xcd381283e04b5fba;0x5cbefecec277c4e3;0xd21b4c356c48ce0d;0x1019c31664b35d8c;0x247362a7d19eea26;0xebe582efb3299d03;0x2aef2cb82fc289f;0x86275df09ce8aaa8;0x28b07427faac1a43;0x38a9b7319e1f47cf;0xc82e92e3b8d01b58;0x6ef0b409b1978bc;0x62f842bfc771fb90;0x9904034610eb3b1f;0xded85ab5477a3e68;0x90d195a663428f98;0x5384636e2ac708d8;0xcbd719c37b522706;0xae9729d76644b0eb;0x7c8c65e20a0c7ee6;0x80c856b007f1d214;0x8c0b40302cc32271;0xdbcedad51fe17a8a;0x740e8ae938dbdea0;0xa615c6dc549310ad;0x19cc55f6171ae90b;0x49b1bdb8fe5fdd8d;0xed0a89af2830e5bf;0x6a7aadb4f5a65bd6;0x7e22972988f05679;0xf952b3325566e810;0x39fecedadf61530e;0x6101c99f04f3c7ce;0x2e5f7f6761b562ff;0xf08725d226cf5c97;0x63af3b54860fef51;0x8ff2cb10ef411e2f;0x884ab9bb35267252;0x4df04433e7ba8dae;0x9afd8866d3690741;0x66b9bb34de94abb3;0x9baaf18d92171380;0x543c11c5f0a064a5;0x17a1b1bdbed431f1;0xb5f58eeaf3a2717f;0xc355f6c849858740;0xec5df044694ef17e;0xd83751f5dc6346d4;0xfc4433520dfdacf2;0x0;0x5a51f58e596ebc5f;0x3285aaf12e34cf16;0x8d5c39db6dbd36b0;0x12b731dde64f7513;0x94906c2d7aa7dfbb;0x302b583aacc8e789;0x9d45facd090e6b3c;0x2165e2c78905aec4;0x68d45f7f775a7349;0x189b2c1d5664fdca;0xe1c99f2f030215da;0x6983269436246788;0x8489af3b1e148237;0xe94b702431d5b59c;0x33d2d31a6f4adbd7;0xbfd9932a4389f9a6;0xb0e30e8aab39359d;0xd1e2c715afcaf253;0x150f43763c28196e;0xc4ed846393e2eb3d;0x3f98b20c3823c5e;0xfd134ab94c83b833;0x556b682eb1de7064;0x36c4537a37d19f35;0x7559f30279a5ca61;0x799ae58252973a04;0x9c12832648707ffd;0x78cd9c6913e92ec5;0x1d8dac7d0effb928;0x439da0784e745554;0x413352b3cc887dcb;0xbacf134a1b12bd44;0x114ebafd25cd494d;0x2f08068c20cb763e;0x76a07822ba27f63f;0xeab2fb04f25789c2;0xe3676de481fe3d45;0x1b62a73d95e6c194;0x641749ff5c68832c;0xa5ec4dfc97112cf3;0xf6682e92bdd6242b;0x3f11c59a44782bb2;0x317c21d1edb6f348;0xd65ab5be75ad9e2e;0x6b2dd45fb4d84f17;0xfaab381296e4d44e;0xd0b5befeeeb4e692;0x882ef0b32d7a046;0x512a91a5a83b2047;0x963e9ee6f85bf724;0x4e09cf132438b1f0;0x77f701c9fb59e2fe;0x7ddb1c094b726a27;0x5f4775ee01f5f8bd;0x9186ec4d223c9b59;0xfeeac1998f01846d;0xac39db1ce4b89874;0xb75b7c21715e59e0;0xafc0503c273aa42a;0x6e3b543fec430bf5;0x704f7362213e8e83;0x58ff0745db9294c0;0x67eec2df9feabf72;0xa0facd9ccf8a6811;0xb936986ad890811a;0x95c715c63bd9cb7a;0xca8060283a2c33c7;0x507de84ee9453486;0x85ded6d05f6a96f6;0x1cdad5964f81ade9;0xd5a33e9eb62fa270;0x40642b588df6690a;0x7f75eec2c98e42b8;0x2cf18dace3494a60;0x23cb100c0bf9865b;0xeef3028febb2d9e1;0x4425d2d394133929;0xaad6d05c7fa1e0c8;0xad6ea2f7a5c68cb5;0xc2028f2308fb9381;0x819f2f5b468fc6d5;0xc5bafd88d29cfffc;0x47dc59f357910577;0x2b49ff07392e261d;0x57c59ae5332258fb;0x73b6f842e2bcb2dd;0xcf96e04862b77725;0x4ca73dd8a6c4996f;0x15779eb417e14c1;0x37932a9176af8bf4];
   [0x190a2c9b249df23e;0x2f62f8b62263e1e9;0x7a7f754740993655;0x330b7ba4d5564d9f;0x4c17a16a46672582;0xb22f08eb7d05f5b8;0x535f47f40bc148cc;0x3aec5d27d4883037;0x10ed0a1825438f96;0x516101f72c233d17;0x13cc6f949fd04eae;0x739853c441474bfd;0x653793d90d3f5b1b;0x5240647b96b0fc2f;0xc84890ad27623e0;0xd7189b32703aaea3;0x2685de3523bd9c41;0x99317c5b11bffefa;0xd9baa854f079703;0x70b93648fbd48ac5;0xa80441fce30bc6be;0x7287704bdc36ff1e;0xb65384ed33dc1f13;0xd36417343ee34408;0x39cd38ab6e1bf10f;0x5ab861770a1f3564;0xebacf09f594563b;0xd04572b884708530;0x3cae9722bdb3af47;0x4a556b6f2f5cbaf2;0xe1704f1f76c4bd74;0x5ec4ed7144c6dfcf;0x16afc01d4c7810e6;0x283f113cd629ca7a;0xaf59a8761741ed2d;0xeed5a3991e215fac;0x3bf37ea849f984d4;0xe413e096a56ce33c;0x2c439d3a98f020d1;0x637559dc6404c46b;0x9e6c95d1e5f5d569;0x24bb9836045fe99a;0x44efa466dac8ecc9;0xc6eab2a5c80895d6;0x803b50c035220cc4;0x321658cba93c138;0x8f9ebc465dc7ee1c;0xd15a5137190131d3;0xfa5ec8668e5e2d8;0x91c979578d1037b1;0x642ca05693b9f70;0xefca80168350eb4f;0x38d21b24f36a45ec;0xbeab81e1af73d658;0x8cbfd9cae7542f24;0xfd19cc0d81f11102;0xac6430fbb4dbc90;0x1d76a09d6a441895;0x2a01573ff1cbbfa1;0xb572e161894fde2b;0x8124734fa853b827;0x614b1fdf43e6b1b0;0x68ac395c4238cc18;0x21d837bfd7f7b7d2;0x20c714304a860331;0x5cfaab726324aa14;0x74c5ba4eb50d606e;0xf3a3030474654739;0x23e671bcf015c209;0x45f087e947b9582a;0xd8bd77b418df4c7b;0xe06f6c90ebb50997;0xbd96080263c0873;0x7e03f9410e40dcfe;0xb8e94be4c6484928;0xfb5b0608e8ca8e72;0x1a2b49179e0e3306;0x4e29e76961855059;0x4f36c4e6fcf4e4ba;0x49740ee395cf7bca;0xc2963ea386d17f7d;0x90d65ad810618352;0x12d34c1b02a1fa4d;0xfa44258775bb3a91;0x18150f14b9ec46dd;0x1491861e6b9a653d;0x9a1019d7ab2c3fc2;0x3668d42d06fe13d7;0xdcc1fbb25606a6d0;0x969490dd795a1c22;0x3549b1a1bc6dd2ef;0xc94f5e23a0ed770e;0xb9f6686b5b39fdcb;0xc4d4f4a6efeae00d;0xe732851a1fff2204;0x94aad6de5eb869f9;0x3f8ff2ae07206e7f;0xfe38a9813b62d03a;0xa7a1ad7a8bee2466;0x7b6056c8dde882b6;0x302a1e286fc58ca7;0x8da0fa457a259bc7;0xb3302b64e074415b;0x5402ae7eff8b635f;0x8f8050c9cafc94b;0xae468bf98a3059ce;0x88c355cca98dc58f;0xb10e6d67c7963480;0xbad70de7e1aa3cf3;0xbfb4a26e320262bb;0xcb711820870f02d5;0xce12b7a954a75c9d;0x563ce87dd8691684;0x9f73b65e7884618a;0x2b1e74b06cba0b42;0x47cec1ea605b2df1;0x1c698312f735ac76;0x5fdbcefed9b76b2c;0x831a354c8fb1cdfc;0x820516c312c0791f;0xb74ca762aeadabf0;0xfc06ef821c80a5e1;0x5723cbf24518a267;0x9d4df05d5f661451;0x588627742dfd40bf;0xda8331b73f3d39a0;0x17b0e392d109a405;0xf965400bcf28fba9;0x7c3dbf4229a2a925;0x23e460327e275db;0x6cd0b55a0ce126b3;0xe62da695828e96e7;0x42ad6e63b3f373b9;0xe50cc319381d57df;0xc5cbd729729b54ee;0x46d1e265fd2a9912;0x6428b056904eeff8;0x8be23040131e04b7;0x6709d5da2add2ec0;0x75de98af44a2b93;0x8447dcc67bfbe66f;0x6616f655b7ac9a23;0xd607b8bded4b1a40;0x563af89d3a85e48;0x3db1b4ad20c21ba4;0x11f22997b8323b75;0x292032b34b587e99;0x7f1cdace9331681d;0x8e819fc9c0b65aff;0xa1e3677fe2d5bb16;0xcd33d225ee349da5;0xd9a2543b85aef898;0x795e10cbfa0af76d;0x25a4bbb9992e5d79;0x78413344677b438e;0xf0826688cef68601;0xd27b34bba392f0eb;0x551d8df162fad7bc;0x1e57c511d0d7d9ad;0xdeffbdb171e4d30b;0xf4feea8e802f6caa;0xa480c8f6317de55e;0xa0fc44f07fa40ff5;0x95b5f551c3c9dd1a;0x22f952336d6476ea;0x0;0xa6be8ef5169f9085;0xcc2cf1aa73452946;0x2e7ddb39bf12550a;0xd526dd3157d8db78;0x486b2d6c08becf29;0x9b0f3a58365d8b21;0xac78cdfaadd22c15;0xbc95c7e28891a383;0x6a927f5f65dab9c3;0xc3891d2c1ba0cb9e;0xeaa92f9f50f8b507;0xcf0d9426c9d6e87e;0xca6e3baf1a7eb636;0xab25247059980786;0x69b31ad3df4978fb;0xe2512a93cc577c4c;0xff278a0ea61364d9;0x71a615c766a53e26;0x89dc764334fc716c;0xf87a638452594f4a;0xf2bc208be914f3da;0x8766b94ac1682757;0xbbc82e687cdb8810;0x626a7a53f9757088;0xa2c202f358467a2e;0x4d0882e5db169161;0x9e7268301de7da8;0xe897699c771ac0dc;0xc8507dac3d9cc3ed;0xc0a878a0a1330aa6;0x978bb352e42ba8c1;0xe9884a13ea6b743f;0x279afdbabecc28a2;0x47c8c064ed9eaab;0x507e2278b15289f4;0x599904fbb08cf45c;0xbd8ae46d15e01760;0x31353da7f2b43844;0x8558ff49e68a528c;0x76fbfc4d92ef15b5;0x3456922e211c660c;0x86799ac55c1993b4;0x3e90d1219a51da9c;0x2d5cbeb505819432;0x982e5fd48cce4a19;0xdb9c1238a24c8d43;0xd439febecaa96f9b;0x418c0bef0960b281;0x158ea591f6ebd1de;0x1f48e69e4da66d4e;0x8afd13cf8e6fb054;0xf5e1c9011d5ed849;0xe34e091c5126c8af;0xad67ee7530a398f6;0x43b24dec2e82c75a;0x75da99c1287cd48d;0x92e81cdb3783f689;0xa3dd217cc537cecd;0x60543c50de970553;0x93f73f54aaf2426a;0xa91b62737e7a725d;0xf19d4507538732e2;0x77e4dfc20f9ea156;0x7d229ccdb4d31dc6;0x1b346a98037f87e5;0xedf4c615a4b29e94;0x4093286094110662;0xb0114ee85ae78063;0x6ff1d0d6b672e78b;0x6dcf96d591909250;0xdfe09e3eec9567e8;0x3214582b4827f97c;0xb46dc2ee143e6ac8;0xf6c0ac8da7cd1971;0xebb60c10cd8901e4;0xf7df8f023abcad92;0x9c52d3d2c217a0b2;0x6b8d5cd0f8ab0d20;0x3777f7a29b8fa734;0x11f238f9d71b4e3;0xc1b75b2f3c42be45;0x5de588fdfe551ef7;0x6eeef3592b035368;0xaa3a07ffc4e9b365;0xecebe59a39c32a77;0x5ba742f8976e8187;0x4b4a48e0b22d0e11;0xddded83dcb771233;0xa59feb79ac0c51bd;0xc7f5912a55792135];
   [0x6d6ae04668a9b08a;0x3ab3f04b0be8c743;0xe51e166b54b3c908;0xbe90a9eb35c2f139;0xb2c7066637f2bec1;0xaa6945613392202c;0x9a28c36f3b5201eb;0xddce5a93ab536994;0xe34133ef6382827;0x52a02ba1ec55048b;0xa2f88f97c4b2a177;0x8640e513ca2251a5;0xcdf1d36258137622;0xfe6cb708dedf8ddb;0x8a174a9ec8121e5d;0x679896036b81560e;0x59ed033395795fee;0x1dd778ab8b74edaf;0xee533ef92d9f926d;0x2a8c79baf8a8d8f5;0x6bcf398e69b119f6;0xe20491742fafdd95;0x276488e0809c2aec;0xea955b82d88f5cce;0x7102c63a99d9e0c4;0xf9763017a5c39946;0x429fa2501f151b3d;0x4659c72bea05d59e;0x984b7fdccf5a6634;0xf742232953fbb161;0x3041860e08c021c7;0x747bfd9616cd9386;0x4bb1367192312787;0x1b72a1638a6c44d3;0x4a0e68a6e8359a66;0x169a5039f258b6ca;0xb98a2ef44edee5a4;0xd9083fe85e43a737;0x967f6ce239624e13;0x8874f62d3c1a7982;0x3c1629830af06e3f;0x9165ebfd427e5a8e;0xb5dd81794ceeaa5c;0xde8f15a7834f219;0x70bd98ede3dd5d25;0xaccc9ca9328a8950;0x56664eda1945ca28;0x221db34c0f8859ae;0x26dbd637fa98970d;0x1acdffb4f068f932;0x4585254f64090fa0;0x72de245e17d53afa;0x1546b25d7c546cf4;0x207e0ffffb803e71;0xfaaad2732bcf4378;0xb462dfae36ea17bd;0xcf926fd1ac1b11fd;0xe0672dc7dba7ba4a;0xd3fa49ad5d6b41b3;0x8ba81449b216a3bc;0x14f9ec8a0650d115;0x40fc1ee3eb1d7ce2;0x23a2ed9b758ce44f;0x782c521b14fddc7e;0x1c68267cf170504e;0xbcf31558c1ca96e6;0xa781b43b4ba6d235;0xf6fd7dfe29ff0c80;0xb0a4bad5c3fad91e;0xd199f51ea963266c;0x414340349119c103;0x5405f269ed4dadf7;0xabd61bb649969dcd;0x6813dbeae7bdc3c8;0x65fb2ab09f8931d1;0xf1e7fae152e3181d;0xc1a67cef5a2339da;0x7a4feea8e0f5bba1;0x1e0b9acf05783791;0x5b8ebf8061713831;0x80e53cdbcb3af8d9;0x7e898bd315e57502;0xc6bcfbf0213f2d47;0x95a38e86b76e942d;0x92e94218d243cba;0x8339debf453622e7;0xb11be402b9fe64ff;0x57d9100d634177c9;0xcc4e8db52217cbc3;0x3b0cae9c71ec7aa2;0xfb158ca451cbfe99;0x2b33276d82ac6514;0x1bf5ed77a04bde1;0xc5601994af33f779;0x75c4a3416cc92e67;0xf3844652a6eb7fc2;0x3487e375fdd0ef64;0x18ae430704609eed;0x4d14efb993298efb;0x815a620cb13e4538;0x125c354207487869;0x9eeea614ce42cf48;0xce2d3106d61fac1c;0xbbe99247bad6827b;0x71a871f7b1c149d;0x2e4a1cc10db81656;0x77a71ff298c149b8;0x6a5d9c80118a97c;0xad73c27e488e34b1;0x443a7b981e0db241;0xe3bbcfa355ab6074;0xaf276450328e684;0x73617a896dd1871b;0x58525de4ef7de20f;0xb7be3dcab8e6cd83;0x19111dd07e64230c;0x842359a03e2a367a;0x103f89f1f3401fb6;0xdc710444d157d475;0xb835702334da5845;0x4320fc876511a6dc;0xd026abc9d3679b8d;0x17250eee885c0b2b;0x90dab52a387ae76f;0x31fed8d972c49c26;0x89cba8fa461ec463;0x2ff5421677bcabb7;0x396f122f85e41d7d;0xa09b332430bac6a8;0xc888e8ced7070560;0xaeaf201ac682ee8f;0x1180d7268944a257;0xf058a43628e7a5fc;0xbd4c4b8fbbce2b07;0xa1246df34abe7b49;0x7d5569b79be9af3c;0xa9b5a705bd9efa12;0xdb6b835baa4bc0e8;0x5793bac8f147342;0x21c1512881848390;0xfdb0556c50d357e5;0x613d4fcb6a99ff72;0x3dce2648e0cda3e;0xe949b9e6568386f0;0xfc0f0bbb2ad7ea04;0x6a70675913b5a417;0x7f36d5046fe1c8e3;0xc57af8d02304ff8;0x32223abdfcc84618;0x891caf6f720815b;0xa63eeaec31a26fd4;0x2507345374944d33;0x49d28ac266394058;0xf5219f9aa7f3d6be;0x2d96fea583b4cc68;0x5a31e1571b7585d0;0x8ed12fe53d02d0fe;0xdfade6205f5b0e4b;0x4cabb16ee92d331a;0x4c6657bf510cea3;0xd73c2cd6a87b8f10;0xe1d87310a1a307ab;0x6cd5be9112ad0d6b;0x97c032354366f3f2;0xd4e0ceb22677552e;0x0;0x29509bde76a402cb;0xc27a9e8bd42fe3e4;0x5ef7842cee654b73;0xaf107ecdbc86536e;0x3fcacbe784fcb401;0xd55f90655c73e8cf;0xe6c2f40fdabf1336;0xe8f6e7312c873b11;0xeb2a0555a28be12f;0xe4a148bc2eb774e9;0x9b979db84156bc0a;0x6eb60222e6a56ab4;0x87ffbbc4b026ec44;0xc703a5275b3b90a6;0x47e699fc9001687f;0x9c8d1aa73a4aa897;0x7cea3760e1ed12dd;0x4ec80ddd1d2554c5;0x13e36b957d4cc588;0x5d2b66486069914d;0x92b90999cc7280b0;0x517cc9c56259deb5;0xc937b619ad03b881;0xec30824ad997f5b2;0xa45d565fc5aa080b;0xd6837201d27f32f1;0x635ef3789e9198ad;0x531f75769651b96a;0x4f77530a6721e924;0x486dd4151c3dfdb9;0x5f48dafb9461f692;0x375b011173dc355a;0x3da9775470f4d3de;0x8d0dcd81b30e0ac0;0x36e45fc609d888bb;0x55baacbe97491016;0x8cb29356c90ab721;0x76184125e2c5f459;0x99f4210bb55edbd5;0x6f095cf59ca1d755;0x9f51f8c3b44672a9;0x3538bda287d45285;0x50c39712185d6354;0xf23b1885dcefc223;0x79930ccc6ef9619f;0xed8fdc9da3934853;0xcb540aaa590bdf5e;0x5c94389f1a6d2cac;0xe77daad8a0bbaed7;0x28efc5090ca0bf2a;0xbf2ff73c4fc64cd8;0xb37858b14df60320;0xf8c96ec0dfc724a7;0x828680683f329f06;0x941cd051cd6a29cc;0xc3c5c05cae2b5e05;0xb601631dc2e27062;0xc01922382027843b;0x24b86a840e90f0d2;0xd245177a276ffc52;0xf8b4de98c3c95c6;0x3e759530fef809e0;0xb4d2892792c5b65;0xc4df4743d5374a98;0xa5e20888bfaeb5ea;0xba56cc90c0d23f9a;0x38d04cf8ffe0a09c;0x62e1adafe495254c;0x263bcb3f40867df;0xcaeb547d230f62bf;0x6082111c109d4293;0xdad4dd8cd04f7d09;0xefec602e579b2f8c;0x1fb4c4187f7c8a70;0xffd3e9dfa4db303a;0x7bf0b07f9af10640;0xf49ec14dddf76b5f;0x8f6e713247066d1f;0x339d646a86ccfbf9;0x64447467e58d8c30;0x2c29a072f9b07189;0xd8b7613f24471ad6;0x6627c8d41185ebef;0xa347d140beb61c96;0xde12b8f7255fb3aa;0x9d324470404e1576;0x9306574eb6763d51;0xa80af9d2c79a47f3;0x859c0777442e8b9b;0x69ac853d9db97e29];
   [0xc3407dfc2de6377e;0x5b9e93eea4256f77;0xadb58fdd50c845e0;0x5219ff11a75bed86;0x356b61cfd90b1de9;0xfb8f406e25abe037;0x7a5a0231c0f60796;0x9d3cd216e1f5020b;0xc6550fb6b48d8f3;0xf57508c427ff1c62;0x4ad35ffa71cb407d;0x6290a2da1666aa6d;0xe284ec2349355f9f;0xb3c307c53d7c84ec;0x5e23c0468365a02;0x190bac4d6c9ebfa8;0x94bbbee9e28b80fa;0xa34fc777529cb9b5;0xcc7b39f095bcd978;0x2426addb0ce532e3;0x7e79329312ce4fc7;0xab09a72eebec2917;0xf8d15499f6b9d6c2;0x1a55b8babf8c895d;0xdb8add17fb769a85;0xb57f2f368658e81b;0x8acd36f18f3f41f6;0x5ce3b7bba50f11d3;0x114dcc14d5ee2f0a;0xb91a7fcded1030e8;0x81d5425fe55de7a1;0xb6213bc1554adeee;0x80144ef95f53f5f2;0x1e7688186db4c10c;0x3b912965db5fe1bc;0xc281715a97e8252d;0x54a5d7e21c7f8171;0x4b12535ccbc5522e;0x1d289cefbea6f7f9;0x6ef5f2217d2e729e;0xe6a7dc819b0d17ce;0x1b94b41c05829b0e;0x33d7493c622f711e;0xdcf7f942fa5ce421;0x600fba8b7f7a8ecb;0x46b60f011a83988e;0x235b898e0dcf4c47;0x957ab24f588592a9;0x4354330572b5c28c;0xa5f3ef84e9b8d542;0x8c711e02341b2d01;0xb1874ae6a62a657;0x1213d8e306fc19ff;0xfe6d7c6a4d9dba35;0x65ed868f174cd4c9;0x88522ea0e6236550;0x899322065c2d7703;0xc01e690bfef4018b;0x915982ed8abddaf8;0xbe675b98ec3a4e4c;0xa996bf7f82f00db1;0xe1daf8d49a27696a;0x2effd5d3dc8986e7;0xd153a51f2b1a2e81;0x18caa0ebd690adfb;0x390e3134b243c51a;0x2778b92cdff70416;0x29f1851691c24a6;0x5e7cafeacc133575;0xfa4e4cc89fa5f264;0x5a5f9f481e2b7d24;0x484c47ab18d764db;0x400a27f2a1a7f479;0xaeeb9b2a83da7315;0x721c626879869734;0x42330a2d2384851;0x85f672fd3765aff0;0xba446b3a3e02061d;0x73dd6ecec3888567;0xffac70ccf793a866;0xdfa9edb5294ed2d4;0x6c6aea7014325638;0x834a5a0e8c41c307;0xcdba35562fb2cb2b;0xad97808d06cb404;0xf3b440cb85aee06;0xe5f9c876481f213b;0x98deee1289c35809;0x59018bbfcd394bd1;0xe01bf47220297b39;0xde68e1139340c087;0x9fa3ca4788e926ad;0xbb85679c840c144e;0x53d8f3b71d55ffd5;0xda45c5dd146caa0;0x6f34fe87c72060cd;0x57fbc315cf6db784;0xcee421a1fca0fdde;0x3d2d0196607b8d4b;0x642c8a29ad42c69a;0x14aff010bdd87508;0xac74837beac657b3;0x3216459ad821634d;0x3fb219c70967a9ed;0x6bc28f3bb246cf7;0xf2082c9126d562c6;0x66b39278c45ee23c;0xbd394f6f3f2878b9;0xfd33689d9e8f8cc0;0x37f4799eb017394f;0x108cc0b26fe03d59;0xda4bd1b1417888d6;0xb09d1332ee6eb219;0x2f3ed975668794b4;0x58c0871977375982;0x7561463d78ace990;0x9876cff037e82f1;0x7fb83e35a8c05d94;0x26b9b58a65f91645;0xef20b07e9873953f;0x3148516d0b3355b8;0x41cb2b541ba9e62a;0x790416c613e43163;0xa011d380818e8f40;0x3a5025c36151f3ef;0xd57095bdf92266d0;0x498d4b0da2d97688;0x8b0c3a57353153a5;0x21c491df64d368e1;0x8f2f0af5e7091bf4;0x2da1c1240f9bb012;0xc43d59a92ccc49da;0xbfa6573e56345c1f;0x828b56a8364fd154;0x9a41f643e0df7caf;0xbcf843c985266aea;0x2b1de9d7b4bfdce5;0x20059d79dedd7ab2;0x6dabe6d6ae3c446b;0x45e81bf6c991ae7b;0x6351ae7cac68b83e;0xa432e32253b6c711;0xd092a9b991143cd2;0xcac711032e98b58f;0xd8d4c9e02864ac70;0xc5fc550f96c25b89;0xd7ef8dec903e4276;0x67729ede7e50f06f;0xeac28c7af045cf3d;0xb15c1f945460a04a;0x9cfddeb05bfb1058;0x93c69abce3a1fe5e;0xeb0380dc4a4bdd6e;0xd20db1e8f8081874;0x229a8528b7c15e14;0x44291750739fbc28;0xd3ccbd4e42060a27;0xf62b1c33f4ed2a97;0x86a8660ae4779905;0xd62e814a2a305025;0x477703a7a08d8add;0x7b9b0e977af815c5;0x78c51a60a9ea2330;0xa6adfb733aaae3b7;0x97e5aa1e3199b60f;0x0;0xf4b404629df10e31;0x5564db44a6719322;0x9207961a59afec0d;0x9624a6b88b97a45c;0x363575380a192b1c;0x2c60cd82b595a241;0x7d272664c1dc7932;0x7142769faa94a1c1;0xa1d0df263b809d13;0x1630e841d4c451ae;0xc1df65ad44fa13d8;0x13d2d445bcf20bac;0xd915c546926abe23;0x38cf3d92084dd749;0xe766d0272103059d;0xc7634d5effde7f2f;0x77d2455012a7ea4;0xedbfa82ff16fb199;0xaf2a978c39d46146;0x42953fa3c8bbd0df;0xcb061da59496a7dc;0x25e7a17db6eb20b0;0x34aa6d6963050fba;0xa76cf7d580a4f1e4;0xf7ea10954ee338c4;0xfcf2643b24819e93;0xcf252d0746aeef8d;0x4ef06f58a3f3082c;0x563acfb37563a5d7;0x5086e740ce47c920;0x2982f186dda3f843;0x87696aac5e798b56;0x5d22bb1d1f010380;0x35e14f7d31236f5;0x3cec0d30da759f18;0xf3c920379cdb7095;0xb8db736b571e22bb;0xdd36f5e44052f672;0xaac8ab8851e23b44;0xa857b3d938fe1fe2;0x17f1e4e76eca43fd;0xec7ea4894b61a3ca;0x9e62c6e132e734fe;0xd4b1991b432c7483;0x6ad6c283af163acf;0x1ce9904904a8e5aa;0x5fbda34c761d2726;0xf910583f4cb7c491;0xc6a241f845d06d7c;0x4f3163fe19fd1a7f;0xe99c988d2357f9c8;0x8eee06535d0709a7;0xefa48aa0254fc55;0xb4be23903c56fa48;0x763f52caabbedf65;0xeee1bcd8227d876c;0xe345e085f33b4dcc;0x3e731561b369bbbe;0x2843fd2067adea10;0x2adce5710eb1ceb6;0xb7e03767ef44ccbd;0x8db012a48e153f52;0x61ceb62dc5749c98;0xe85d942b9959eb9b;0x4c6f7709caef2c8a;0x84377e5b8d6bbda3;0x30895dcbb13d47eb;0x74a04a9bc2a2fbc3;0x6b17ce251518289c;0xe438c4d0f2113368;0x1fb784bed7bad35f;0x9b80fae55ad16efc;0x77fe5e6c11b0cd36;0xc858095247849129;0x8466059b97090a2;0x1c10ca6ba0e1253;0x6988d6747c040c3a;0x6849dad2c60a1e69;0x5147ebe67449db73;0xc99905f4fd8a837a;0x991fe2b433cd4a5a;0xf09734c04fc94660;0xa28ecbd1e892abe6;0xf1563866f5c75433;0x4dae7baf70e13ed9;0x7ce62ac27bd26b61;0x70837a39109ab392;0x90988e4b30b3c8ab;0xb2020b63877296bf;0x156efcb607d6675b];
   [0xe63f55ce97c331d0;0x25b506b0015bba16;0xc8706e29e6ad9ba8;0x5b43d3775d521f6a;0xbfa3d577035106e;0xab95fc172afb0e66;0xf64b63979e7a3276;0xf58b4562649dad4b;0x48f7c3dbae0c83f1;0xff31916642f5c8c5;0xcbb048dc1c4a0495;0x66b8f83cdf622989;0x35c130e908e2b9b0;0x7c761a61f0b34fa1;0x3601161cf205268d;0x9e54ccfe2219b7d6;0x8b7d90a538940837;0x9cd403588ea35d0b;0xbc3c6fea9ccc5b5a;0xe5ff733b6d24aeed;0xceed22de0f7eb8d2;0xec8581cab1ab545e;0xb96105e88ff8e71d;0x8ca03501871a5ead;0x76ccce65d6db2a2f;0x5883f582a7b58057;0x3f7be4ed2e8adc3e;0xfe7be06355cd9c9;0xee054e6c1d11be83;0x1074365909b903a6;0x5dde9f80b4813c10;0x4a770c7d02b6692c;0x5379c8d5d7809039;0xb4067448161ed409;0x5f5e5026183bd6cd;0xe898029bf4c29df9;0x7fb63c940a54d09c;0xc5171f897f4ba8bc;0xa6f28db7b31d3d72;0x2e4f3be7716eaa78;0xd6771a099e63314;0x82076254e41bf284;0x2f0fd2b42733df98;0x5c9e76d3e2dc49f0;0x7aeb569619606cdb;0x83478b07b2468764;0xcfadcb8d5923cd32;0x85dac7f05b95a41e;0xb5469d1b4043a1e9;0xb821ecbbd9a592fd;0x1b8e0b0e798c13c8;0x62a57b6d9a0be02e;0xfcf1b793b81257f8;0x9d94ea0bd8fe28eb;0x4cea408aeb654a56;0x23284a47e888996c;0x2d8f1d128b893545;0xf4cbac3132c0d8ab;0xbd7c86b9ca912eba;0x3a268eef3dbe6079;0xf0d62f6077a9110c;0x2735c916ade150cb;0x89fd5f03942ee2ea;0x1acee25d2fd16628;0x90f39bab41181bff;0x430dfe8cde39939f;0xf70b8ac4c8274796;0x1c53aeaac6024552;0x13b410acf35e9c9b;0xa532ab4249faa24f;0x2b1251e5625a163f;0xd7e3e676da4841c7;0xa7b264e4e5404892;0xda8497d643ae72d3;0x861ae105a1723b23;0x38a6414991048aa4;0x6578dec92585b6b4;0x280cfa6acbaeadd;0x88bdb650c273970a;0x9333bd5ebbff84c2;0x4e6a8f2c47dfa08b;0x321c954db76cef2a;0x418d312a72837942;0xb29b38bfffcdf773;0x6c022c38f90a4c07;0x5a033a240b0f6a8a;0x1f93885f3ce5da6f;0xc38a537e96988bc6;0x39e6a81ac759ff44;0x29929e43cee0fce2;0x40cdd87924de0ca2;0xe9d8ebc8a29fe819;0xc2798f3cfbb46f4;0x55e484223e53b343;0x4650948ecd0d2fd8;0x20e86cb2126f0651;0x6d42c56baf5739e7;0xa06fc1405ace1e08;0x7babbfc54f3d193b;0x424d17df8864e67f;0xd8045870ef14980e;0xc6d7397c85ac3781;0x21a885e1443273b1;0x67f8116f893f5c69;0x24f5efe35706cff6;0xd56329d076f2ab1a;0x5e1eb9754e66a32d;0x28d2771098bd8902;0x8f6013f47dfdc190;0x17a993fdb637553c;0xe0a219397e1012aa;0x786b9930b5da8606;0x6e82e39e55b0a6da;0x875a0856f72f4ec3;0x3741ff4fa458536d;0xac4859b3957558fc;0x7ef6d5c75c09a57c;0xc04a758b6c7f14fb;0xf9acdd91ab26ebbf;0x7391a467c5ef9668;0x335c7c1ee1319aca;0xa91533b18641e4bb;0xe4bf9a683b79db0d;0x8e20faa72ba0b470;0x51f907737b3a7ae4;0x2268a314bed5ec8c;0xd944b123b949edee;0x31dcb3b84d8b7017;0xd3fe65279f218860;0x97af2f1dc8ffab3;0x9b09a6fc312d0b91;0xcc6ded78a3c4520f;0x3481d9ba5ebfcc50;0x4f2a667f1182d56b;0xdfd9fdd4509ace94;0x26752045fbbc252b;0xbffc491f662bc467;0xdd593272fc202449;0x3cbbc218d46d4303;0x91b372f817456e1f;0x681faf69bc6385a0;0xb686bbeebaa43ed4;0x1469b5084cd0ca01;0x98c98009cbca94ac;0x6438379a73d8c354;0xc2caba2dc0c5fe26;0x3e3b0dbe78d7a9de;0x50b9ee202d670f04;0x4590b27b37eab0e5;0x6025b4cb36b10af3;0xfb2c1237079c0162;0xa12f28130c936be8;0x4b37e52e54eb1ccc;0x83a1ba28ad28f53;0xc10a9cd83a22611b;0x9f1425ad7444c236;0x69d4cf7e9d3237a;0xedc56899e7f621be;0x778c273680865fcf;0x309c5aeb1bd605f7;0x8de0dc52d1472b4d;0xf8ec34c2fd7b9e5f;0xea18cd3d58787724;0xaad515447ca67b86;0x9989695a9d97e14c;0x0;0xf196c63321f464ec;0x71116bc169557cb5;0xaf887f466f92c7c1;0x972e3e0ffe964d65;0x190ec4a8d536f915;0x95aef1a9522ca7b8;0xdc19db21aa7d51a9;0x94ee18fa0471d258;0x8087adf248a11859;0xc457f6da2916dd5c;0xfa6cfb6451c17482;0xf256e0c6db13fbd1;0x6a9f60cf10d96f7d;0x4daaa9d9bd383fb6;0x3c026f5fae79f3d;0xde99148706c7bb74;0x2a52b8b6340763df;0x6fc20acd03edd33a;0xd423c08320afdefa;0xbbe1ca4e23420dc0;0x966ed75ca8cb3885;0xeb58246e0e2502c4;0x55d6a021334bc47;0xa47242111fa7d7af;0xe3623fcc84f78d97;0x81c744a11efc6db9;0xaec8961539cfb221;0xf31609958d4e8e31;0x63e5923ecc5695ce;0x47107ddd9b505a38;0xa3afe7b5a0298135;0x792b7063e387f3e6;0x140e953565d75e0;0x12f4f9ffa503e97b;0x750ce8902c3cb512;0xdbc47e8515f30733;0x1ed3610c6ab8af8f;0x5239218681dde5d9;0xe222d69fd2aaf877;0xfe71783514a8bd25;0xcaf0a18f4a177175;0x61655d9860ec7f13;0xe77fbc9dc19e4430;0x2ccff441ddd440a5;0x16e97aaee06a20dc;0xa855dae2d01c915b;0x1d1347f9905f30b2;0xb7c652bdecf94b34;0xd03e43d265c6175d;0xfdb15ec0ee4f2218;0x57644b8492e9599e;0x7dda5a4bf8e569a;0x54a46d71680ec6a3;0x5624a2d7c4b42c7e;0xbebca04c3076b187;0x7d36f332a6ee3a41;0x3b6667bc6be31599;0x695f463aea3ef040;0xad08b0e0c3282d1c;0xb15b1e4a052a684e;0x44d05b2861b7c505;0x15295c5b1a8dbfe1;0x744c01c37a61c0f2;0x59c31cd1f1e8f5b7;0xef45a73f4b4ccb63;0x6bdf899c46841a9d;0x3dfb2b4b823036e3;0xa2ef0ee6f674f4d5;0x184e2dfb836b8cf5;0x1134df0a5fe47646;0xbaa1231d751f7820;0xd17eaa81339b62bd;0xb01bf71953771dae;0x849a2ea30dc8d1fe;0x705182923f080955;0xea757556301ac29;0x41d83514569c9a7;0xabad4042668658e;0x49b72a88f851f611;0x8a3d79f66ec97dd7;0xcd2d042bf59927ef;0xc930877ab0f0ee48;0x9273540deda2f122;0xc797d02fd3f14261;0xe1e2f06a284d674a;0xd2be8c74c97cfd80;0x9a494faf67707e71;0xb3dbd1eca9908293;0x72d14d3493b2e388;0xd6a30f258c153427]].

(** gosthash2012_precalc.h:711-1411, big-endian [Ax]. *)
Definition Ax_be : list (list N) :=
  [[0xe6f87e5c5b711fd0;0x258377800924fa16;0xc849e07e852ea4a8;0x5b4686a18f06c16a;0xb32e9a2d77b416e;0xabda37a467815c66;0xf61796a81a686676;0xf5dc0b706391954b;0x4862f38db7e64bf1;0xff5c629a68bd85c5;0xcb827da6fcd75795;0x66d36daf69b9f089;0x356c9f74483d83b0;0x7cbcecb1238c99a1;0x36a702ac31c4708d;0x9eb6a8d02fbcdfd6;0x8b19fa51e5b3ae37;0x9ccfb5408a127d0b;0xbc0c78b508208f5a;0xe533e3842288eced;0xcec2c7d377c15fd2;0xec7817b6505d0f5e;0xb94cc2c08336871d;0x8c205db4cb0b04ad;0x763c855b28a0892f;0x588d1b79f6ff3257;0x3fecf69e4311933e;0xfc0d39f803a18c9;0xee010a26f5f3ad83;0x10efe8f4411979a6;0x5dcda10c7de93a10;0x4a1bee1d1248e92c;0x53bff2db21847339;0xb4f50ccfa6a23d09;0x5fb4bc9cd84798cd;0xe88a2d8b071c56f9;0x7f7771695a756a9c;0xc5f02e71a0ba1ebc;0xa663f9ab4215e672;0x2eb19e22de5fbb78;0xdb9ce0f2594ba14;0x82520e6397664d84;0x2f031e6a0208ea98;0x5c7f2144a1be6bf0;0x7a37cb1cd16362db;0x83e08e2b4b311c64;0xcf70479bab960e32;0x856ba986b9dee71e;0xb5478c877af56ce9;0xb8fe42885f61d6fd;0x1bdd0156966238c8;0x622157923ef8a92e;0xfc97ff42114476f8;0x9d7d350856452ceb;0x4c90c9b0e0a71256;0x2308502dfbcb016c;0x2d7a03faa7a64845;0xf46e8b38bfc6c4ab;0xbdbef8fdd477deba;0x3aac4cebc8079b79;0xf09cb105e8879d0c;0x27fa6a10ac8a58cb;0x8960e7c1401d0cea;0x1a6f811e4a356928;0x90c4fb0773d196ff;0x43501a2f609d0a9f;0xf7a516e0c63f3796;0x1ce4a6b3b8da9252;0x1324752c38e08a9b;0xa5a864733bec154f;0x2bf124575549b33f;0xd766db15440dc5c7;0xa7d179e39e42b792;0xdadf151a61997fd3;0x86a0345ec0271423;0x38d5517b6da939a4;0x6518f077104003b4;0x2791d90a5aea2dd;0x88d267899c4a5d0a;0x930f66df0a2865c2;0x4ee9d4204509b08b;0x325538916685292a;0x412907bfc533a842;0xb27e2b62544dc673;0x6c5304456295e007;0x5af406e95351908a;0x1f2f3b6bc123616f;0xc37b09dc5255e5c6;0x3967d133b1fe6844;0x298839c7f0e711e2;0x409b87f71964f9a2;0xe938adc3db4b0719;0xc0b4e47f9c3ebf4;0x5534d576d36b8843;0x4610a05aeb8b02d8;0x20c3cdf58232f251;0x6de1840dbec2b1e7;0xa0e8de06b0fa1d08;0x7b854b540d34333b;0x42e29a67bcca5b7f;0xd8a6088ac437dd0e;0xc63bb3a9d943ed81;0x21714dbd5e65a3b1;0x6761ede7b5eea169;0x2431f7c8d573abf6;0xd51fc685e1a3671a;0x5e063cd40410c92d;0x283ab98f2cb04002;0x8febc06cb2f2f790;0x17d64f116fa1d33c;0xe07359f1a99ee4aa;0x784ed68c74cdc006;0x6e2a19d5c73b42da;0x8712b4161c7045c3;0x371582e4ed93216d;0xace390414939f6fc;0x7ec5f12186223b7c;0xc0b094042bac16fb;0xf9d745379a527ebf;0x737c3f2ea3b68168;0x33e7b8d9bad278ca;0xa9a32a34c22ffebb;0xe48163ccfedfbd0d;0x8e5940246ea5a670;0x51c6ef4b842ad1e4;0x22bad065279c508c;0xd91488c218608cee;0x319ea5491f7cda17;0xd394e128134c9c60;0x94bf43272d5e3b3;0x9bf612a5a4aad791;0xccbbda43d26ffd0f;0x34de1f3c946ad250;0x4f5b5468995ee16b;0xdf9faf6fea8f7794;0x2648ea5870dd092b;0xbfc7e56d71d97c67;0xdde6b2ff4f21d549;0x3c276b463ae86003;0x91767b4faf86c71f;0x68a13e7835d4b9a0;0xb68c115f030c9fd4;0x141dd2c916582001;0x983d8f7ddd5324ac;0x64aa703fcc175254;0xc2c989948e02b426;0x3e5e76d69f46c2de;0x50746f03587d8004;0x45db3d829272f1e5;0x60584a029b560bf3;0xfbae58a73ffcdc62;0xa15a5e4e6cad4ce8;0x4ba96e55ce1fb8cc;0x8f9747aae82b253;0xc102144cf7fb471b;0x9f042898f3eb8e36;0x68b27adf2effb7a;0xedca97fe8c0a5ebe;0x778e0513f4f7d8cf;0x302c2501c32b8bf7;0x8d92ddfc175c554d;0xf865c57f46052f5f;0xeaf3301ba2b2f424;0xaa68b7ecbbd60d86;0x998f0f350104754c;0x0;0xf12e314d34d0ccec;0x710522be061823b5;0xaf280d9930c005c1;0x97fd5ce25d693c65;0x19a41cc633cc9a15;0x95844172f8c79eb8;0xdc5432b7937684a9;0x9436c13a2490cf58;0x802b13f332c8ef59;0xc442ae397ced4f5c;0xfa1cd8efe3ab8d82;0xf2e5ac954d293fd1;0x6ad823e8907a1b7d;0x4d2249f83cf043b6;0x3cb9dd879f9f33d;0xde2d2f2736d82674;0x2a43a41f891ee2df;0x6f98999d1b6c133a;0xd4ad46cd3df436fa;0xbb35df50269825c0;0x964fdcaa813e6d85;0xeb41b0537ee5a5c4;0x540ba758b160847;0xa41ae43be7bb44af;0xe3b8c429d0671797;0x819993bbee9fbeb9;0xae9a8dd1ec975421;0xf3572cdd917e6e31;0x6393d7dae2aff8ce;0x47a2201237dc5338;0xa32343dec903ee35;0x79fc56c4a89a91e6;0x1b28048dc5751e0;0x1296f564e4b7db7b;0x75f7188351597a12;0xdb6d9552bdce2e33;0x1e9dbb231d74308f;0x520d7293fdd322d9;0xe20a44610c304677;0xfeeee2d2b4ead425;0xca30fdee20800675;0x61eaca4a47015a13;0xe74afe1487264e30;0x2cc883b27bf119a5;0x1664cf59b3f682dc;0xa811aa7c1e78af5b;0x1d5626fb648dc3b2;0xb73e9117df5bce34;0xd05f7cf06ab56f5d;0xfd257f0acd132718;0x574dc8e676c52a9e;0x739a7e52eb8aa9a;0x5486553e0f3cd9a3;0x56ff48aeaa927b7e;0xbe756525ad8e2d87;0x7d0e6cf9ffdbc841;0x3b1ecca31450ca99;0x6913be30e983e840;0xad511009956ea71c;0xb1b5b6ba2db4354e;0x4469bdca4e25a005;0x15af5281ca0f71e1;0x744598cb8d0e2bf2;0x593f9b312aa863b7;0xefb38a6e29a4fc63;0x6b6aa3a04c2d4a9d;0x3d95eb0ee6bf31e3;0xa291c3961554bfd5;0x18169c8eef9bcbf5;0x115d68bc9d4e2846;0xba875f18facf7420;0xd1edfcb8b6e23ebd;0xb00736f2f1e364ae;0x84d929ce6589b6fe;0x70b7a2f6da4f7255;0xe7253d75c6d4929;0x4f23a3d574159a7;0xa8069ea0b2c108e;0x49d073c56bb11a11;0x8aab7a1939e4ffd7;0xcd095a0b0e38acef;0xc9fb60365979f548;0x92bde697d67f3422;0xc78933e10514bc61;0xe1c1d9b975c9b54a;0xd2266160cf1bcd80;0x9a4492ed78fd8671;0xb3ccab2a881a9793;0x72cebf667fe1d088;0xd6d45b5d985a9427];
   [0xc811a8058c3f55de;0x65f5b43196b50619;0xf74f96b1d6706e43;0x859d1e8bcb43d336;0x5aab8a85ccfa3d84;0xf9c7bf99c295fcfd;0xa21fd5a1de4b630f;0xcdb3ef763b8b456d;0x803f59f87cf7c385;0xb27c73be5f31913c;0x98e3ac6633b04821;0xbf61674c26b8f818;0xffbc995c4c130c8;0xaaa0862010761a98;0x6057f342210116aa;0xf63c760c0654cc35;0x2ddb45cc667d9042;0xbcf45a964bd40382;0x68e8a0c3ef3c6f3d;0xa7bd92d269ff73bc;0x290ae20201ed2287;0xb7de34cde885818f;0xd901eea7dd61059b;0xd6fa273219a03553;0xd56f1ae874cccec9;0xea31245c2e83f554;0x7034555da07be499;0xce26d2ac56e7bef7;0xfd161857a5054e38;0x6a0e7da4527436d1;0x5bd86a381cde9ff2;0xcaf7756231770c32;0xb09aaed9e279c8d0;0x5def1091c60674db;0x111046a2515e5045;0x23536ce4729802fc;0xc50cbcf7f5b63cfa;0x73a16887cd171f03;0x7d2941afd9f28dbd;0x3f5e3eb45a4f3b9d;0x84eefe361b677140;0x3db8e3d3e7076271;0x1a3a28f9f20fd248;0x7ebc7c75b49e7627;0x74e5f293c7eb565c;0x18dcf59e4f478ba4;0xc6ef44fa9adcb52;0xc699812d98dac760;0x788b06dc6e469d0e;0xfc65f8ea7521ec4e;0x30a5f7219e8e0b55;0x2bec3f65bca57b6b;0xddd04969baf1b75e;0x99904cdbe394ea57;0x14b201d1e6ea40f6;0xbbb0c08241284add;0x50f20463bf8f1dff;0xe8d7f93b93cbacb8;0x4d8cb68e477c86e8;0xc1dd1b3992268e3f;0x7c5aa11209d62fcb;0x2f3d98abdb35c9ae;0x671369562bfd5ff5;0x15c1e16c36cee280;0x1d7eb2edf8f39b17;0xda94d37db00dfe01;0x877bc3ec760b8ada;0xcb8495dfe153ae44;0x5a24773b7b410b3;0x12857b783c32abdf;0x8eb770d06812513b;0x536739b9d2e3e665;0x584d57e271b26468;0xd789c78fc9849725;0xa935bbfa7d1ae102;0x8b1537a3dfa64188;0xd0cd5d9bc378de7a;0x4ac82c9a4d80cfb7;0x42777f1b83bdb620;0x72d2883a1d33bd75;0x5e7a2d4bab6a8f41;0xf4daab6bbb1c95d9;0x905cffe7fd8d31b6;0x83aa6422119b381f;0xc0aefb8442022c49;0xa0f908c663033ae3;0xa428af0804938826;0xade41c341a8a53c7;0xae7121ee77e6a85d;0xc47f5c4a25929e8c;0xb538e9aa55cdd863;0x6377aa9dad8eb29;0xa18ae87bb3279895;0x6edfda6a35e48414;0x6b7d9d19825094a7;0xd41cfa55a4e86cbf;0xe5caedc9ea42c59c;0xa36c351c0e6fc179;0x5181e4de6fabbf89;0xfff0c530184d17d4;0x9d41eb1584045892;0x1c0d525028d73961;0xf178ec180ca8856a;0x9a0571018ef811cd;0x4091a27c3ef5efcc;0x19af15239f6329d2;0x347450eff91eb990;0xe11b4a078dd27759;0xb9561de5fc601331;0x912f1f5a2da993c0;0x1654dcb65ba2191a;0x3e2dde098a6b99eb;0x8a66d71e0f82e3fe;0x8c51adb7d55a08d7;0x4533e50f8941ff7f;0x2e6dd67bd4859ec;0xe068aaba5df6d52f;0xc24826e3ff4a75a5;0x6c39070d88acddf8;0x6486548c4691a46f;0xd1bebd26135c7c0c;0xb30f93038f15334a;0x82d9849fc1bf9a69;0x9c320ba85420fae4;0xfa528243aff90767;0x9ed4d6cfe968a308;0xb825fd582c44b147;0x9b7691bc5edcb3bb;0xc7ea619048fe6516;0x1063a61f817af233;0x47d538683409a693;0x63c2ce984c6ded30;0x2a9fdfd86c81d91d;0x7b1e3b06032a6694;0x666089ebfbd9fd83;0xa598ee67375207b;0x7449a140afc495f;0x2ca8a571b6593234;0x1f986f8a45bbc2fb;0x381aa4a050b372c2;0x5423a3add81faf3a;0x17273c0b8b86bb6c;0xfe83258dc869b5a2;0x287902bfd1c980f1;0xf5a94bd66b3837af;0x88800a79b2caba12;0x55504310083b0d4c;0xdf36940e07b9eeb2;0x4d1a7ce6790b2c5;0x612413fff125b4dc;0x26f12b97c52c124f;0x86082351a62f28ac;0xef93632f9937e5e7;0x3507b052293a1be6;0xe72c30ae570a9c70;0xd3586041ae1425e0;0xde4574b3d79d4cc4;0x92ba228040c5685a;0xf00b0ca5dc8c271c;0xbe1287f1f69c5a6e;0xf39e317fb1e0dc86;0x495d114020ec342d;0x699b407e3f18cd4b;0xdca3a9d46ad51528;0xd1d14f279896924;0x0;0x593eb75fa196c61e;0x2e4e78160b116bd8;0x6d4ae7b058887f8e;0xe65fd013872e3e06;0x7a6ddbbbd30ec4e2;0xac97fc89caaef1b1;0x9ccb33c1e19dbe1;0x89f3eac462ee1864;0x7770cf49aa87adc6;0x56c57eca6557f6d6;0x3953dda6d6cfb9a;0x36928d884456e07c;0x1eeb8f37959f608d;0x31d6179c4eaaa923;0x6fac3ad7e5c02662;0x43049fa653991456;0xabd3669dc052b8ee;0xaf02c153a7c20a2b;0x3ccb036e3723c007;0x93c9c23d90e1ca2c;0xc33bc65e2f6ed7d3;0x4cff56339758249e;0xb1e94e64325d6aa6;0x37e16d359472420a;0x79f8e661be623f78;0x5214d90402c74413;0x482ef1fdf0c8965b;0x13f69bc5ec1609a9;0xe88292814e592be;0x4e198b542a107d72;0xccc00fcbebafe71b;0x1b49c844222b703e;0x2564164da840e9d5;0x20c6513e1ff4f966;0xbac3203f910ce8ab;0xf2edd1c261c47ef0;0x814cb945acd361f3;0x95feb8944a392105;0x5c9cf02c1622d6ad;0x971865f3f77178e9;0xbd87ba2b9bf0a1f4;0x444005b259655d09;0xed75be48247fbc0b;0x7596122e17cff42a;0xb44b091785e97a15;0x966b854e2755da9f;0xeee0839249134791;0x32432a4623c652b9;0xa8465b47ad3e4374;0xf8b45f2412b15e8b;0x2417f6f078644ba3;0xfb2162fe7fdda511;0x4bbbcc279da46dc1;0x173e0bdd024a276;0x22208c59a2bca08a;0x8fc4906db836f34d;0xe4b90d743a6667ea;0x7147b5e0705f46ef;0x2782cb2a1508b039;0xec065ef5f45b1e7d;0x21b5b183cfd05b10;0xdbe733c060295c77;0x9fa73672394c017e;0xcf55321186c31c81;0xd8720e1a0d45a7ed;0x3b8f997a3ddf8958;0x3afc79c7edfb2b2e;0xe9a4198643ef0ece;0x5f09cdf67b4e2d37;0x4f6a6be9fa34df04;0xb6add47038a123f9;0x8d224d0a057eaaa1;0xc96248b85c1bf7a8;0xe3fd9760309a2eb5;0xb2a6e5ba351820d;0xeb42c4e1fea75722;0x948d58299a1d8373;0x7fcf9cc864bad451;0xa55b4fb5d4b72a50;0x8bf5381ce3d7997;0x46a6d8d5e42d04e5;0xd22b80fc7e308796;0x57b69e77b57354a0;0x3969441d8097d0b4;0x3330cafbf3e2f0cf;0xe28e77dde0be8cc3;0x62b12e259c494f46;0xa6ce726fb9dbd1ca;0x41e242c1eed14dba;0x76032ff47aa30fb0];
   [0x45b268a93acde4cc;0xaf7f0be884549d08;0x48354b3c1468263;0x925435c2c80efed2;0xee4e37f27fdffba7;0x167a33920c60f14d;0xfb123b52ea03e584;0x4a0cab53fdbb9007;0x9deaf6380f788a19;0xcb48ec558f0cb32a;0xb59dc4b2d6fef7e0;0xdcdbca22f4f3ecb6;0x11df5813549a9c40;0xe33fdedf568aced3;0xa0c1c8124322e9c3;0x7a56b8158fa6d0d;0x77279579b1e1f3dd;0xd9b18b74422ac004;0xb8ec2d9fffabc294;0xf4acf8a82d75914f;0x7bbf69b1ef2b6878;0xc4f62faf487ac7e1;0x76ce809cc67e5d0c;0x6711d88f92e4c14c;0x627b99d9243dedfe;0x234aa5c3dfb68b51;0x909b1f15262dbf6d;0x4f66ea054b62bcb5;0x1ae2cf5a52aa6ae8;0xbea053fbd0ce0148;0xed6808c0e66314c9;0x43fe16cd15a82710;0xcd049231a06970f6;0xe7bc8a6c97cc4cb0;0x337ce835fcb3b9c0;0x65def2587cc780f3;0x52214ede4132bb50;0x95f15e4390f493df;0x870839625dd2e0f1;0x41313c1afb8b66af;0x91720af051b211bc;0x477d427ed4eea573;0x2e3b4ceef6e3be25;0x82627834eb0bcc43;0x9c03e3dd78e724c8;0x2877328ad9867df9;0x14b51945e243b0f2;0x574b0f88f7eb97e2;0x88b6fa989aa4943a;0x19c4f068cb168586;0x50ee6409af11faef;0x7df317d5c04eaba4;0x7a567c5498b4c6a9;0xb6bbfb804f42188e;0x3cc22bcf3bc5cd0b;0xd04336eaaa397713;0xf02fac1bec33132c;0x2506dba7f0d3488d;0xd7e65d6bf2c31a1e;0x5eb9b2161ff820f5;0x842e0650c46e0f9f;0x716beb1d9e843001;0xa933758cab315ed4;0x3fe414fda2792265;0x27c9f1701ef00932;0x73a4c1ca70a771be;0x94184ba6e76b3d0e;0x40d829ff8c14c87e;0xfbec3fac77674cb;0x3616a9634a6a9572;0x8f139119c25ef937;0xf545ed4d5aea3f9e;0xe802499650ba387b;0x6437e7bd0b582e22;0xe6559f89e053e261;0x80ad52e305288dfc;0x6dc55a23e34b9935;0xde14e0f51ad0ad09;0xc6390578a659865e;0x96d7617109487cb1;0xe2d6cb3a21156002;0x1e915e5779faed1;0xadb0213f6a77dcb7;0x9880b76eb9a1a6ab;0x5d9f8d248644cf9b;0xfd5e4536c5662658;0xf1c6b9fe9bacbdfd;0xeacd6341be9979c4;0xefa7221708405576;0x510771ecd88e543e;0xc2ba51cb671f043d;0xad482ac71af5879;0xfe787a045cdac936;0xb238af338e049aed;0xbd866cc94972ee26;0x615da6ebbd810290;0x3295fdd08b2c1711;0xf834046073bf0aea;0xf3099329758ffc42;0x1caeb13e7dcfa934;0xba2307481188832b;0x24efce42874ce65c;0xe57d61fb0e9da1a;0xb3d1bad6f99b343c;0xc0757b1c893c4582;0x2b510db8403a9297;0x5c7698c1f1db614a;0x3e0d0118d5e68cb4;0xd60f488e855cb4cf;0xae961e0df3cb33d9;0x3a8e55ab14a00ed7;0x42170328623789c1;0x838b6dd19c946292;0x895fef7ded3b3aeb;0xcfcbb8e64e4a3149;0x64c7e642f65c3dc;0x3d2b3e2a4c5a63da;0x5bd3f340a9210c47;0xb474d157a1615931;0xac5934da1de87266;0x6ee365117af7765b;0xc86ed36716b05c44;0x9ba6885c201d49c5;0xb905387a88346c45;0x131072c4bab9ddff;0xbf49461ea751af99;0xd52977bc1ce05ba1;0xb0f785e46027db52;0x546d30ba6e57788c;0x305ad707650f56ae;0xc987c682612ff295;0xa5ab8944f5fbc571;0x7ed528e759f244ca;0x8ddcbbce2c7db888;0xaa154abe328db1ba;0x1e619be993ece88b;0x9f2bd9ee813b717;0x7401aa4b285d1cb3;0x21858f143195caee;0x48c381841398d1b8;0xfcb750d3b2f98889;0x39a86a998d1ce1b9;0x1f888e0ce473465a;0x7899568376978716;0x2cf2ad7ee2341bf;0x85c713b5b3f1a14e;0xff916fe12b4567e7;0x7c1a0230b7d10575;0xc98fcc85eca9ba5;0xa3e7f720da9e06ad;0x6a6031a2bbb1f438;0x973e74947ed7d260;0x2cf4663918c0ff9a;0x5f50a7f368678e24;0x34d983b4a449d4cd;0x68af1b755592b587;0x7f3c3d022e6dea1b;0xabfc5f5b45121f6b;0xd71e92d29553574;0xdffdf5106d4f03d8;0x81ba87b9f8c19c6;0xdb7ea1a3ac0981bb;0xbbca12ad66172dfa;0x79704366010829c7;0x179326777bff5f9c;0x0;0xeb2476a4c906d715;0x724dd42f0738df6f;0xb752ee6538ddb65f;0x37ffbc863df53ba3;0x8efa84fcb5c157e6;0xe9eb5c73272596aa;0x1b0bdabf2535c439;0x86e12c872a4d4e20;0x9969a28bce3e087a;0xfafb2eb79d9c4b55;0x56a4156b6d92cb2;0x5a3ae6a5debea296;0x22a3b026a8292580;0x53c85b3b36ad1581;0xb11e900117b87583;0xc51f3a4a3fe56930;0xe019e1edcf3621bd;0xec811d2591fcba18;0x445b7d4c4d524a1d;0xa8da6069dcaef005;0x58f5cc72309de329;0xd4c062596b7ff570;0xce22ad0339d59f98;0x591cd99747024df8;0x8b90c5aa03187b54;0xf663d27fc356d0f0;0xd8589e9135b56ed5;0x35309651d3d67a1c;0x12f96721cd26732e;0xd28c1c3d441a36ac;0x492a946164077f69;0x2d1d73dc6f5f514b;0x6f0a70f40d68d88a;0x60b4b30eca1eac41;0xd36509d83385987d;0xb3d97490630f6a8;0x9eccc90a96c46577;0xa20ee2c5ad01a87c;0xe49ab55e0e70a3de;0xa4429ca182646ba0;0xda97b446db962f6a;0xcced87d4d7f6de27;0x2ab8185d37a53c46;0x9f25dcefe15bcba6;0xc19c6ef9fea3eb53;0xa764a3931bd884ce;0x2fd2590b817c10f4;0x56a21a6d80743933;0xe573a0bb79ef0d0f;0x155c0ca095dc1e23;0x6c2c4fc694d437e4;0x10364df623053291;0xdd32dfc7836c4267;0x3263f3299bcef6e;0x66f8cd6ae57b6f9d;0x8c35ae2b5be21659;0x31b3c2e21290f87f;0x93bd2027bf915003;0x69460e90220d1b56;0x299e276fae19d328;0x63928c3c53a2432f;0x7082fef8e91b9ed0;0xbc6f792c3eed40f7;0x4c40d537d2de53db;0x75e8bfae5fc2b262;0x4da9c0d2a541fd0a;0x4e8fffe03cfd1264;0x2620e495696fa7e3;0xe1f0f408b8a98f6c;0xd1aa230fdda6d9c2;0xc7d0109dd1c6288f;0x8a79d04f7487d585;0x4694579ba3710ba2;0x38417f7cfa834f68;0x1d47a4db0a5007e5;0x206c9af1460a643f;0xa128ddf734bd4712;0x8144470672b7232d;0xf2e086cc02105293;0x182de58dbc892b57;0xcaa1f9b0f8931dfb;0x6b892447cc2e5ae9;0xf9dd11850420a43b;0x4be5beb68a243ed6;0x5584255f19c8d65d;0x3b67404e633fa006;0xa68db6766c472a1f;0xf78ac79ab4c97e21;0xc353442e1080aaec;0x9a4f9db95782e714];
   [0x5ba7bc82c9b3220;0x31a54665f8b65e4f;0xb1b651f77547f4d4;0x8bfa0d857ba46682;0x85a96c5aa16a98bb;0x990faef908eb79c9;0xa15e37a247f4a62d;0x76857dcd5d27741e;0xf8c50b800a1820bc;0xbe65dcb201f7a2b4;0x666d1b986f9426e7;0x4cc921bf53c4e648;0x95410a0f93d9ca42;0x20cdccaa647ba4ef;0x429a4060890a1871;0xc4ea4f69b32b38b;0xccda362dde354cd3;0x96dc23bc7c5b2fa9;0xc309bb68aa851ab3;0xd26131a73648e013;0x21dc52941fc4db2;0xcd5adab7704be48a;0xa77965d984ed71e6;0x32386fd61734bba4;0xe82d6dd538ab7245;0x5c2147ea6177b4b1;0x5da1ab70cf091ce8;0xac907fce72b8bdff;0x57c85dfd972278a8;0xa4e44c6a6b6f940d;0x3851995b4f1fdfe4;0x62578ccaed71bc9e;0xd9882bb0c01d2c0a;0x917b9d5d113c503b;0xa2c31e11a87643c6;0xe463c923a399c1ce;0xf71686c57ea876dc;0x87b4a973e096d509;0xaf0d567d9d3a5814;0xb40c2a3f59dcc6f4;0x3602f88495d121dd;0xd3e1dd3d9836484a;0xf945e71aa46688e5;0x7518547eb2a591f5;0x9366587450c01d89;0x9ea81018658c065b;0x4f54080cbc4603a3;0x2d0384c65137bf3d;0xdc325078ec861e2a;0xea30a8fc79573ff7;0x214d2030ca050cb6;0x65f0322b8016c30c;0x69be96dd1b247087;0xdb95ee9981e161b8;0xd1fc1814d9ca05f8;0x820ed2bbcc0de729;0x63d76050430f14c7;0x3bccb0e8a09d3a0f;0x8e40764d573f54a2;0x39d175c1e16177bd;0x12f5a37c734f1f4b;0xab37c12f1fdfc26d;0x5648b167395cd0f1;0x6c04ed1537bf42a7;0xed97161d14304065;0x7d6c67daab72b807;0xec17fa87ba4ee83c;0xdfaf79cb0304fbc1;0x733f060571bc463e;0x78d61c1287e98a27;0xd07cf48e77b4ada1;0xb9c262536c90dd26;0xe2449b5860801605;0x8fc09ad7f941fcfb;0xfad8cea94be46d0e;0xa343f28b0608eb9f;0x9b126bd04917347b;0x9a92874ae7699c22;0x1b017c42c4e69ee0;0x3a4c5c720ee39256;0x4b6e9f5e3ea399da;0x6ba353f45ad83d35;0xe7fee0904c1b2425;0x22d009832587e95d;0x842980c00f1430e2;0xc6b3c0a0861e2893;0x87433a419d729f2;0x341f3dadd42d6c6f;0xee0a3faefbb2a58e;0x4aee73c490dd3183;0xaab72db5b1a16a34;0xa92a04065e238fdf;0x7b4b35a1686b6fcc;0x6a23bf6ef4a6956c;0x191cb96b851ad352;0x55d598d4d6de351a;0xc9604de5f2ae7ef3;0x1ca6c2a3a981e172;0xde2f9551ad7a5398;0x3025aaff56c8f616;0x15521d9d1e2860d9;0x506fe31cfa45073a;0x189c55f12b647b0b;0x180ec9aae7ea859;0x7cec8b40050c105e;0x2350e5198bf94104;0xef8ad33455cc0dd7;0x7a7bee16d677f92;0xe5e325b90de76997;0x5a061591a26e637a;0xb611ef1618208b46;0x9f4df3eb7a981ab;0x1ebb078ae87dacc0;0xb791038cb65e231f;0xfd38d4574b05660;0x67edf702c1ea8ebe;0xba5f4be0831238cd;0xe3c477c2cefebe5c;0xdce486c354c1bd2;0x8c5db36416c31910;0x26ea9ed1a7627324;0x39d29b3ef82e5eb;0x9f28fc82cbf2ae02;0xa8aae89cf05d2786;0x431aacfa2774b028;0xcf471f9e31b7a938;0x581bd0b8e3922ec8;0xbc78199b400bef06;0x90fb71c7bf42f862;0x1f3beb1046030499;0x683e7a47b55ad8de;0x988f4263a695d190;0xd808c72a6e638453;0x627527bc319d7cb;0xebb04466d72997ae;0xe67e0c0ae2658c7c;0x14d2f107b056c880;0x7122c32c30400b8c;0x8a7ae11fd5dacedb;0xa0dedb38e98a0e74;0xad109354dcc615a6;0xbe91a17f655cc19;0x8ddd5ffeb8bdb149;0xbfe53028af890aed;0xd65ba6f5b4ad7a6a;0x7956f0882997227e;0x10e8665532b352f9;0xe5361dfdacefe39;0xcec7f3049fc90161;0xff62b561677f5f2e;0x975ccf26d22587f0;0x51ef0f86543baf63;0x2f1e41ef10cbf28f;0x52722635bbb94a88;0xae8dbae73344f04d;0x410769d36688fd9a;0xb3ab94de34bbb966;0x801317928df1aa9b;0xa564a0f0c5113c54;0xf131d4bebdb1a117;0x7f71a2f3ea8ef5b5;0x40878549c8f655c3;0x7ef14e6944f05dec;0xd44663dcf55137d8;0xf2acfd0d523344fc;0x0;0x5fbc6e598ef5515a;0x16cf342ef1aa8532;0xb036bd6ddb395c8d;0x13754fe6dd31b712;0xbbdfa77a2d6c9094;0x89e7c8ac3a582b30;0x3c6b0e09cdfa459d;0xc4ae0589c7e26521;0x49735a777f5fd468;0xcafd64561d2c9b18;0xda1502032f9fc9e1;0x8867243694268369;0x3782141e3baf8984;0x9cb5d53124704be9;0xd7db4a6f1ad3d233;0xa6f989432a93d9bf;0x9d3539ab8a0ee3b0;0x53f2caaf15c7e2d1;0x6e19283c76430f15;0x3debe2936384edc4;0x5e3c82c3208bf903;0x33b8834cb94a13fd;0x6470deb12e686b55;0x359fd1377a53c436;0x61caa57902f35975;0x43a975282e59a79;0xfd7f70482683129c;0xc52ee913699ccd78;0x28b9ff0e7dac8d1d;0x5455744e78a09d43;0xcb7d88ccb3523341;0x44bd121b4a13cfba;0x4d49cd25fdba4e11;0x3e76cb208c06082f;0x3ff627ba2278a076;0xc28957f204fbb2ea;0x453dfe81e46d67e3;0x94c1e6953da7621b;0x2c83685cff491764;0xf32c1197fc4deca5;0x2b24d6bd922e68f6;0xb22b78449ac5113f;0x48f3b6edd1217c31;0x2e9ead75beb55ad6;0x174fd8b45fd42d6b;0x4ed4e4961238abfa;0x92e6b4eefebeb5d0;0x46a0d7320bef8208;0x47203ba8a5912a51;0x24f75bf8e69e3e96;0xf0b1382413cf094e;0xfee259fbc901f777;0x276a724b091cdb7d;0xbdf8f501ee75475f;0x599b3c224dec8691;0x6d84018f99c1eafe;0x7498b8e41cdb39ac;0xe0595e71217c5bb7;0x2aa43a273c50c0af;0xf50b43ec3f543b6e;0x838e3e2162734f70;0xc09492db4507ff58;0x72bfea9fdfc2ee67;0x11688acf9ccdfaa0;0x1a8190d86a9836b9;0x7acbd93bc615c795;0xc7332c3a286080ca;0x863445e94ee87d50;0xf6966a5fd0d6de85;0xe9ad814f96d5da1c;0x70a22fb69e3ea3d5;0xa69f68d582b6440;0xb8428ec9c2ee757f;0x604a49e3ac8df12c;0x5b86f90b0c10cb23;0xe1d9b2eb8f02f3ee;0x29391394d3d22544;0xc8e0a17f5cd0d6aa;0xb58cc6a5f7a26ead;0x8193fb08238f02c2;0xd5c68f465b2f9f81;0xfcff9cd288fdbac5;0x77059157f359dc47;0x1d262e3907ff492b;0xfb582233e59ac557;0xddb2bce242f8b673;0x2577b76248e096cf;0x6f99c4a6d83da74c;0xc1147e41eb795701;0xf48baf76912a9337];
   [0x3ef29d249b2c0a19;0xe9e16322b6f8622f;0x5536994047757f7a;0x9f4d56d5a47b0b33;0x822567466aa1174c;0xb8f5057deb082fb2;0xcc48c10bf4475f53;0x373088d4275dec3a;0x968f4325180aed10;0x173d232cf7016151;0xae4ed09f946fcc13;0xfd4b4741c4539873;0x1b5b3f0dd9933765;0x2ffcb0967b644052;0xe02376d20a89840c;0xa3ae3a70329b18d7;0x419cbd2335de8526;0xfafebf115b7c3199;0x397074f85aa9b0d;0xc58ad4fb4836b970;0xbec60be3fc4104a8;0x1eff36dc4b708772;0x131fdc33ed8453b6;0x844e33e341764d3;0xff11b6eab38cd39;0x64351f0a7761b85a;0x3b5694f509cfba0e;0x30857084b87245d0;0x47afb3bd2297ae3c;0xf2ba5c2f6f6b554a;0x74bdc4761f4f70e1;0xcfdfc64471edc45e;0xe610784c1dc0af16;0x7aca29d63c113f28;0x2ded411776a859af;0xac5f211e99a3d5ee;0xd484f949a87ef33b;0x3ce36ca596e013e4;0xd120f0983a9d432c;0x6bc40464dc597563;0x69d5f5e5d1956c9e;0x9ae95f043698bb24;0xc9ecc8da66a4ef44;0xd69508c8a5b2eac6;0xc40c2235c0503b80;0x38c193ba8c652103;0x1ceec75d46bc9e8f;0xd331011937515ad1;0xd8e2e56886eca50f;0xb137108d5779c991;0x709f3b6905ca4206;0x4feb50831680caef;0xec456af3241bd238;0x58d673afe181abbe;0x242f54e7cad9bf8c;0x211f1810dcc19fd;0x90bc4dbb0f43c60a;0x9518446a9da0761d;0xa1bfcbf13f57012a;0x2bde4f8961e172b5;0x27b853a84f732481;0xb0b1e643df1f4b61;0x18cc38425c39ac68;0xd2b7f7d7bf37d821;0x3103864a3014c720;0x14aa246372abfa5c;0x6e600db54ebac574;0x394765740403a3f3;0x9c215f0bc71e623;0x2a58b947e987f045;0x7b4cdf18b477bdd8;0x9709b5eb906c6fe0;0x73083c268060d90b;0xfedc400e41f9037e;0x284948c6e44be9b8;0x728ecae808065bfb;0x6330e9e17492b1a;0x5950856169e7294e;0xbae4f4fce6c4364f;0xca7bcf95e30e7449;0x7d7fd186a33e96c2;0x52836110d85ad690;0x4dfaa1021b4cd312;0x913abb75872544fa;0xdd46ecb9140f1518;0x3d659a6b1e869114;0xc23f2cabd719109a;0xd713fe062dd46836;0xd0a60656b2fbc1dc;0x221c5a79dd909496;0xefd26dbca1b14935;0xe77eda0235e4fc9;0xcbfd395b6b68f6b9;0xde0eaefa6f4d4c4;0x422ff1f1a8532e7;0xf969b85eded6aa94;0x7f6e2007aef28f3f;0x3ad0623b81a938fe;0x6624ee8b7aada1a7;0xb682e8ddc856607b;0xa78cc56f281e2a30;0xc79b257a45faa08d;0x5b4174e0642b30b3;0x5f638bff7eae0254;0x4bc9af9c0c05f808;0xce59308af98b46ae;0x8fc58da9cc55c388;0x803496c7676d0eb1;0xf33caae1e70dd7ba;0xbb6202326ea2b4bf;0xd5020f87201871cb;0x9d5ca754a9b712ce;0x841669d87de83c56;0x8a6184785eb6739f;0x420bba6cb0741e2b;0xf12d5b60eac1ce47;0x76ac35f71283691c;0x2c6bb7d9fecedb5f;0xfccdb18f4c351a83;0x1f79c012c3160582;0xf0abadae62a74cb7;0xe1a5801c82ef06fc;0x67a21845f2cb2357;0x5114665f5df04d9d;0xbf40fd2d74278658;0xa0393d3fb73183da;0x5a409d192e3b017;0xa9fb28cf0b4065f9;0x25a9a22942bf3d7c;0xdb75e22703463e02;0xb326e10c5ab5d06c;0xe7968e8295a62de6;0xb973f3b3636ead42;0xdf571d3819c30ce5;0xee549b7229d7cbc5;0x12992afd65e2d146;0xf8ef4e9056b02864;0xb7041e134030e28b;0xc02edd2adad50967;0x932b4af48ae95d07;0x6fe6fb7bc6dc4784;0x239aacb755f61666;0x401a4bedbdb807d6;0x485ea8d389af6305;0xa41bc220adb4b13d;0x753b32b89729f211;0x997e584bb3322029;0x1d683193ceda1c7f;0xff5ab6c0c99f818e;0x16bbd5e27f67e3a1;0xa59d34ee25d233cd;0x98f8ae853b54a2d9;0x6df70afacb105e79;0x795d2e99b9bba425;0x8e437b6744334178;0x186f6ce886682f0;0xebf092a3bb347bd2;0xbcd7fa62f18d1d55;0xadd9d7d011c5571e;0xbd3e471b1bdffde;0xaa6c2f808eeafef4;0x5ee57d31f6c880a4;0xf50fa47ff044fca0;0x1addc9c351f5b595;0xea76646d3352f922;0x0;0x85909f16f58ebea6;0x46294573aaf12ccc;0xa5512bf39db7d2e;0x78dbd85731dd26d5;0x29cfbe086c2d6b48;0x218b5d36583a0f9b;0x152cd2adfacd78ac;0x83a39188e2c795bc;0xc3b9da655f7f926a;0x9ecba01b2c1d89c3;0x7b5f8509f2fa9ea;0x7ee8d6c926940dcf;0x36b67e1aaf3b6eca;0x86079859702425ab;0xfb7849dfd31ab369;0x4c7c57cc932a51e2;0xd96413a60e8a27ff;0x263ea566c715a671;0x6c71fc344376dc89;0x4a4f595284637af8;0xdaf314e98b20bcf2;0x572768c14ab96687;0x1088db7c682ec8bb;0x887075f9537a6a62;0x2e7a4658f302c2a2;0x619116dbe582084d;0xa87dde018326e709;0xdcc01a779c6997e8;0xedc39c3dac7d50c8;0xa60a33a1a078a8c0;0xc1a82be452b38b97;0x3f746bea134a88e9;0xa228ccbebafd9a27;0xabead94e068c7c04;0xf48952b178227e50;0x5cf48cb0fb049959;0x6017e0156de48abd;0x4438b4f2a73d3531;0x8c528ae649ff5885;0xb515ef924dfcfb76;0xc661c212e925634;0xb493195cc59a7986;0x9cda519a21d1903e;0x32948105b5be5c2d;0x194ace8cd45f2e98;0x438d4ca238129cdb;0x9b6fa9cabefe39d4;0x81b26009ef0b8c41;0xded1ebf691a58e15;0x4e6da64d9ee6481f;0x54b06f8ecf13fd8a;0x49d85e1d01c9e1f5;0xafc826511c094ee3;0xf698a33075ee67ad;0x5ac7822eec4db243;0x8dd47c28c199da75;0x89f68337db1ce892;0xcdce37c57c21dda3;0x530597de503c5460;0x6a42f2aa543ff793;0x5d727a7e73621ba9;0xe232875307459df1;0x56a19e0fc2dfe477;0xc61dd3b4cd9c227d;0xe5877f03986a341b;0x949eb2a415c6f4ed;0x6206119460289340;0x6380e75ae84e11b0;0x8be772b6d6d0f16f;0x50929091d596cf6d;0xe86795ec3e9ee0df;0x7cf927482b581432;0xc86a3e14eec26db4;0x7119cda78dacc0f6;0xe40189cd100cb6eb;0x92adbc3a028fdff7;0xb2a017c2d2d3529c;0x200dabf8d05c8d6b;0x34a78f9ba2f77737;0xe3b4719d8f231f01;0x45be423c2f5bb7c1;0xf71e55fefd88e55d;0x6853032b59f3ee6e;0x65b3e9c4ff073aaa;0x772ac3399ae5ebec;0x87816e97f842a75b;0x110e2db2e0484a4b;0x331277cb3dd8dedd;0xbd510cac79eb9fa5;0x352179552a91f5c7];
   [0x8ab0a96846e06a6d;0x43c7e80b4bf0b33a;0x8c9b3546b161ee5;0x39f1c235eba990be;0xc1bef2376606c7b2;0x2c209233614569aa;0xeb01523b6fc3289a;0x946953ab935acedd;0x272838f63e13340e;0x8b0455eca12ba052;0x77a1b2c4978ff8a2;0xa55122ca13e54086;0x2276135862d3f1cd;0xdb8ddfde08b76cfe;0x5d1e12c89e4a178a;0xe56816b03969867;0xee5f79953303ed59;0xafed748bab78d71d;0x6d929f2df93e53ee;0xf5d8a8f8ba798c2a;0xf619b1698e39cf6b;0x95ddaf2f749104e2;0xec2a9c80e0886427;0xce5c8fd8825b95ea;0xc4e0d9993ac60271;0x4699c3a5173076f9;0x3d1b151f50a29f42;0x9ed505ea2bc75946;0x34665acfdc7f4b98;0x61b1fb53292342f7;0xc721c0080e864130;0x8693cd1696fd7b74;0x872731927136b14b;0xd3446c8a63a1721b;0x669a35e8a6680e4a;0xcab658f239509a16;0xa4e5de4ef42e8ab9;0x37a7435ee83f08d9;0x134e6239e26c7f96;0x82791a3c2df67488;0x3f6ef00a8329163c;0x8e5a7e42fdeb6591;0x5caaee4c7981ddb5;0x19f234785af1e80d;0x255ddde3ed98bd70;0x50898a32a99cccac;0x28ca4519da4e6656;0xae59880f4cb31d22;0xd9798fa37d6db26;0x32f968f0b4ffcd1a;0xa00f09644f258545;0xfa3ad5175e24de72;0xf46c547c5db24615;0x713e80fbff0f7e20;0x7843cf2b73d2aafa;0xbd17ea36aedf62b4;0xfd111bacd16f92cf;0x4abaa7dbc72d67e0;0xb3416b5dad49fad3;0xbca316b24914a88b;0x15d150068aecf914;0xe27c1debe31efc40;0x4fe48c759beda223;0x7edcfd141b522c78;0x4e5070f17c26681c;0xe696cac15815f3bc;0x35d2a64b3bb481a7;0x800cff29fe7dfdf6;0x1ed9fac3d5baa4b0;0x6c2663a91ef599d1;0x3c1199134404341;0xf7ad4ded69f20554;0xcd9d9649b61bd6ab;0xc8c3bde7eadb1368;0xd131899fb02afb65;0x1d18e352e1fae7f1;0xda39235aef7ca6c1;0xa1bbf5e0a8ee4f7a;0x91377805cf9a0b1e;0x3138716180bf8e5b;0xd9f83acbdb3ce580;0x275e515d38b897e;0x472d3f21f0fbbcc6;0x2d946eb7868ea395;0xba3c248d21942e09;0xe7223645bfde3983;0xff64feb902e41bb1;0xc97741630d10d957;0xc3cb1722b58d4ecc;0xa27aec719cae0c3b;0x99fecb51a48c15fb;0x1465ac826d27332b;0xe1bd047ad75ebf01;0x79f733af941960c5;0x672ec96c41a3c475;0xc27feba6524684f3;0x64efd0fd75e38734;0xed9e60040743ae18;0xfb8e2993b9ef144d;0x38453eb10c625a81;0x6978480742355c12;0x48cf42ce14a6ee9e;0x1cac1fd606312dce;0x7b82d6ba4792e9bb;0x9d141c7b1f871a07;0x5616b80dc11c4a2e;0xb849c198f21fa777;0x7ca91801c8d9a506;0xb1348e487ec273ad;0x41b20d1e987b3a44;0x7460ab55a3cfbbe3;0x84e628034576f20a;0x1b87d16d897a6173;0xfe27defe45d5258;0x83cde6b8ca3dbeb7;0xc23647ed01d1119;0x7a362a3ea0592384;0xb61f40f3f1893f10;0x75d457d1440471dc;0x4558da34237035b8;0xdca6116587fc2043;0x8d9b67d3c9ab26d0;0x2b0b5c88ee0e2517;0x6fe77a382ab5da90;0x269cc472d9d8fe31;0x63c41e46faa8cb89;0xb7abbc771642f52f;0x7d1de4852f126f39;0xa8c6ba3024339ba0;0x600507d7cee888c8;0x8fee82c61a20afae;0x57a2448926d78011;0xfca5e72836a458f0;0x72bcebb8f4b4cbd;0x497bbe4af36d24a1;0x3cafe99bb769557d;0x12fa9ebd05a7b5a9;0xe8c04baa5b836bdb;0x4273148fac3b7905;0x908384812851c121;0xe557d3506c55b0fd;0x72ff996acb4f3d61;0x3eda0c8e64e2dc03;0xf0868356e6b949e9;0x4ead72abb0b0ffc;0x17a4b5135967706a;0xe3c8e16f04d5367f;0xf84f30028daf570c;0x1846c8fcbd3a2232;0x5b8120f7f6ca9108;0xd46fa231ecea3ea6;0x334d947453340725;0x58403966c28ad249;0xbed6f3a79a9f21f5;0x68ccb483a5fe962d;0xd085751b57e1315a;0xfed0023de52fd18e;0x4b0e5b5f20e6addf;0x1a332de96eb1ab4c;0xa3ce10f57b65c604;0x108f7ba8d62c3cd7;0xab07a3a11073d8e1;0x6b0dad1291bed56c;0xf2f366433532c097;0x2e557726b2cee0d4;0x0;0xcb02a476de9b5029;0xe4e32fd48b9e7ac2;0x734b65ee2c84f75e;0x6e5386bccd7e10af;0x1b4fc84e7cbca3f;0xcfe8735c65905fd5;0x3613bfda0ff4c2e6;0x113b872c31e7f6e8;0x2fe18ba255052aeb;0xe974b72ebc48a1e4;0xabc5641b89d979b;0xb46aa5e62202b66e;0x44ec26b0c4bbff87;0xa6903b5b27a503c7;0x7f680190fc99e647;0x97a84a3aa71a8d9c;0xdd12ede16037ea7c;0xc554251ddd0dc84e;0x88c54c7d956be313;0x4d91696048662b5d;0xb08072cc9909b992;0xb5de5962c5c97c51;0x81b803ad19b637c9;0xb2f597d94a8230ec;0xb08aac55f565da4;0xf1327fd2017283d6;0xad98919e78f35e63;0x6ab9519676751f53;0x24e921670a53774f;0xb9fd3d1c15d46d48;0x92f66194fbda485f;0x5a35dc7311015b37;0xded3f4705477a93d;0xc00a0eb381cd0d8d;0xbb88d809c65fe436;0x16104997beacba55;0x21b70ac95693b28c;0x59f4c5e225411876;0xd5db5eb50b21f499;0x55d7a19cf55c096f;0xa97246b4c3f8519f;0x8552d487a2bd3835;0x54635d181297c350;0x23c2efdc85183bf2;0x9f61f96ecc0c9379;0x534893a39ddc8fed;0x5edf0b59aa0a54cb;0xac2c6d1a9f38945c;0xd7aebba0d8aa7de7;0x2abfa00c09c5ef28;0xd84cc64f3cf72fbf;0x2003f64db15878b3;0xa724c7dfc06ec9f8;0x69f323f68808682;0xcc296acd51d01c94;0x55e2bae5cc0c5c3;0x6270e2c21d6301b6;0x3b842720382219c0;0xd2f0900e846ab824;0x52fc6f277a1745d2;0xc6953c8ce94d8b0f;0xe009f8fe3095753e;0x655b2c7992284d0b;0x984a37d54347dfc4;0xeab5aebf8808e2a5;0x9a3fd2c090cc56ba;0x9ca0e0fff84cd038;0x4c2595e4afade162;0xdf6708f4b3bc6302;0xbf620f237d54ebca;0x93429d101c118260;0x97d4fd08cddd4da;0x8c2f9b572e60ecef;0x708a7c7f18c4b41f;0x3a30dba4dfe9d3ff;0x4006f19a7fb0f07b;0x5f6bf7dd4dc19ef4;0x1f6d064732716e8f;0xf9fbcc866a649d33;0x308c8de567744464;0x8971b0f972a0292c;0xd61a47243f61b7d8;0xefeb8511d4c82766;0x961cb6be40d147a3;0xaab35f25f7b812de;0x76154e407044329d;0x513d76b64e570693;0xf3479ac7d2f90aa8;0x9b8b2e4477079c85;0x297eb99d3d85ac69];
   [0x7e37e62dfc7d40c3;0x776f25a4ee939e5b;0xe045c850dd8fb5ad;0x86ed5ba711ff1952;0xe91d0bd9cf616b35;0x37e0ab256e408ffb;0x9607f6c031025a7a;0xb02f5e116d23c9d;0xf3d8486bfb50650c;0x621cff27c40875f5;0x7d40cb71fa5fd34a;0x6daa6616daa29062;0x9f5f354923ec84e2;0xec847c3dc507c3b3;0x25a3668043ce205;0xa8bf9e6c4dac0b19;0xfa808be2e9bebb94;0xb5b99c5277c74fa3;0x78d9bc95f0397bcc;0xe332e50cdbad2624;0xc74fce129332797e;0x1729eceb2ea709ab;0xc2d6b9f69954d1f8;0x5d898cbfbab8551a;0x859a76fb17dd8adb;0x1be85886362f7fb5;0xf6413f8ff136cd8a;0xd3110fa5bbb7e35c;0xa2feed514cc4d11;0xe83010edcd7f1ab9;0xa1e75de55f42d581;0xeede4a55c13b21b6;0xf2f5535ff94e1480;0xcc1b46d1888761e;0xbce15fdb6529913b;0x2d25e8975a7181c2;0x71817f1ce2d7a554;0x2e52c5cb5c53124b;0xf9f7a6beef9c281d;0x9e722e7d21f2f56e;0xce170d9b81dca7e6;0xe9b82051cb4941b;0x1e712f623c49d733;0x21e45cfa42f9f7dc;0xcb8e7a7f8bba0f60;0x8e98831a010fb646;0x474ccf0d8e895b23;0xa99285584fb27a95;0x8cc2b57205335443;0x42d5b8e984eff3a5;0x12d1b34021e718c;0x57a6626aae74180b;0xff19fc06e3d81312;0x35ba9d4d6a7c6dfe;0xc9d44c178f86ed65;0x506523e6a02e5288;0x3772d5c06229389;0x8b01f4fe0b691ec0;0xf8dabd8aed825991;0x4c4e3aec985b67be;0xb10df0827fbf96a9;0x6a69279ad4f8dae1;0xe78689dcd3d5ff2e;0x812e1a2b1fa553d1;0xfbad90d6eba0ca18;0x1ac543b234310e39;0x1604f7df2cb97827;0xa6241c6951189f02;0x753513cceaaf7c5e;0x64f2a59fc84c4efa;0x247d2b1e489f5f5a;0xdb64d718ab474c48;0x79f4a7a1f2270a40;0x1573da832a9bebae;0x3497867968621c72;0x514838d2a2302304;0xf0af6537fd72f685;0x1d06023e3a6b44ba;0x678588c3ce6edd73;0x66a893f7cc70acff;0xd4d24e29b5eda9df;0x3856321470ea6a6c;0x7c3418c0e5a4a83;0x2bcbb22f5635bacd;0x4b46cd00878d90a;0x6ee5ab80c443b0f;0x3b211f4876c8f9e5;0x958c38912eede98;0xd14b39cdbf8b0159;0x397b292072f41be0;0x87c0409313e168de;0xad26e98847caa39f;0x4e140c849c6785bb;0xd5ff551db7f3d853;0xa0ca46d15d5ca40d;0xcd6020c787fe346f;0x84b76dcf15c3fb57;0xdefda0fca121e4ce;0x4b8d7b6096012d3d;0x9ac642ad298a2c64;0x875d8bd10f0af14;0xb357c6ea7b8374ac;0x4d6321d89a451632;0xeda96709c719b23f;0xf76c24bbf328bc06;0xc662d526912c08f2;0x3ce25ec47892b366;0xb978283f6f4f39bd;0xc08c8f9e9d6833fd;0x4f3917b09e79f437;0x593de06fb2c08c10;0xd6887841b1d14bda;0x19b26eee32139db0;0xb494876675d93e2f;0x825937771987c058;0x90e9ac783d466175;0xf1827e03ff6c8709;0x945dc0a8353eb87f;0x4516f9658ab5b926;0x3f9573987eb020ef;0xb855330b6d514831;0x2ae6a91b542bcb41;0x6331e413c6160479;0x408f8e8180d311a0;0xeff35161c325503a;0xd06622f9bd9570d5;0x8876d9a20d4b8d49;0xa5533135573a0c8b;0xe168d364df91c421;0xf41b09e7f50a2f8f;0x12b09b0f24c1a12d;0xda49cc2ca9593dc4;0x1f5c34563e57a6bf;0x54d14f36a8568b82;0xaf7cdfe043f6419a;0xea6a2685c943f8bc;0xe5dcbfb4d7e91d2b;0xb27addde799d0520;0x6b443caed6e6ab6d;0x7bae91c9f61be845;0x3eb868ac7cae5163;0x11c7b65322e332a4;0xd23c1491b9a992d0;0x8fb5982e0311c7ca;0x70ac6428e0c9d4d8;0x895bc2960f55fcc5;0x76423e90ec8defd7;0x6ff0507ede9e7267;0x3dcf45f07a8cc2ea;0x4aa06054941f5cb1;0x5810fb5bb0defd9c;0x5efea1e3bc9ac693;0x6edd4b4adc8003eb;0x741808f8e8b10dd2;0x145ec1b728859a22;0x28bc9f7350172944;0x270a06424ebdccd3;0x972aedf4331c2bf6;0x59977e40a66a886;0x2550302a4a812ed6;0xdd8a8da0a7037747;0xc515f87a970e9b7b;0x3023eaa9601ac578;0xb7e3aa3a73fbada6;0xfb699311eaae597;0x0;0x310ef19d6204b4f4;0x229371a644db6455;0xdecaf591a960792;0x5ca4978bb8a62496;0x1c2b190a38753536;0x41a295b582cd602c;0x3279dcc16426277d;0xc1a194aa9f764271;0x139d803b26dfd0a1;0xae51c4d441e83016;0xd813fa44ad65dfc1;0xac0bf2bc45d4d213;0x23be6a9246c515d9;0x49d74d08923dcf38;0x9d05032127d066e7;0x2f7fdeff5e4d63c7;0xa47e2a0155247d07;0x99b16ff12fa8bfed;0x4661d4398c972aaf;0xdfd0bbc8a33f9542;0xdca79694a51d06cb;0xb020ebb67da1e725;0xba0f0563696daa34;0xe4f1a480d5f76ca7;0xc438e34e9510eaf7;0x939e81243b64f2fc;0x8defae46072d25cf;0x2c08f3a3586ff04e;0xd7a56375b3cf3a56;0x20c947ce40e78650;0x43f8a3dd86f18229;0x568b795eac6a6987;0x8003011f1dbb225d;0xf53612d3f7145e03;0x189f75da300dec3c;0x9570db9c3720c9f3;0xbb221e576b73dbb8;0x72f65240e4f536dd;0x443be25188abc8aa;0xe21ffe38d9b357a8;0xfd43ca6ee7e4f117;0xcaa3614b89a47eec;0xfe34e732e1c6629e;0x83742c431b99b1d4;0xcf3a16af83c2d66a;0xaae5a8044990e91c;0x26271d764ca3bd5f;0x91c4b74c3f5810f9;0x7c6dd045f841a2c6;0x7f1afd19fe63314f;0xc8f957238d989ce9;0xa709075d5306ee8e;0x55fc5402aa48fa0e;0x48fa563c9023beb4;0x65dfbeabca523f76;0x6c877d22d8bce1ee;0xcc4d3bf385e045e3;0xbebb69b36115733e;0x10eaad6720fd4328;0xb6ceb10e71e5dc2a;0xbdcc44ef6737e0b7;0x523f158ea412b08d;0x989c74c52db6ce61;0x9beb59992b945de8;0x8a2cefca09776f4c;0xa3bd6b8d5b7e3784;0xeb473db1cb5d8930;0xc3fba2c29b4aa074;0x9c28181525ce176b;0x683311f2d0c438e4;0x5fd3bad7be84b71f;0xfc6ed15ae5fa809b;0x36cdb0116c5efe77;0x29918447520958c8;0xa29070b959604608;0x53120ebaa60cc101;0x3a0c047c74d68869;0x691e0ac6d2da4968;0x73db4974e6eb4751;0x7a838afdf40599c9;0x5a4acd33b4e21f99;0x6046c94fc03497f0;0xe6ab92e8d1cb8ea2;0x3354c7f5663856f1;0xd93ee170af7bae4d;0x616bd27bc22ae67c;0x92b39a10397a8370;0xabc8b3304b8e9890;0xbf967287630b02b2;0x5b67d607b6fc6e15];
   [0xd031c397ce553fe6;0x16ba5b01b006b525;0xa89bade6296e70c8;0x6a1f525d77d3435b;0x6e103570573dfa0b;0x660efb2a17fc95ab;0x76327a9e97634bf6;0x4bad9d6462458bf5;0xf1830caedbc3f748;0xc5c8f542669131ff;0x95044a1cdc48b0cb;0x892962df3cf8b866;0xb0b9e208e930c135;0xa14fb3f0611a767c;0x8d2605f21c160136;0xd6b71922fecc549e;0x37089438a5907d8b;0xb5da38e5803d49c;0x5a5bcc9cea6f3cbc;0xedae246d3b73ffe5;0xd2b87e0fde22edce;0x5e54abb1ca8185ec;0x1de7f88fe80561b9;0xad5e1a870135a08c;0x2f2adbd665cecc76;0x5780b5a782f58358;0x3edc8a2eede47b3f;0xc9d95c3506bee70f;0x83be111d6c4e05ee;0xa603b90959367410;0x103c81b4809fde5d;0x2c69b6027d0c774a;0x399080d7d5c87953;0x9d41e16487406b4;0xcdd63b1826505e5f;0xf99dc2f49b0298e8;0x9cd0540a943cb67f;0xbca84b7f891f17c5;0x723d1db3b78df2a6;0x78aa6e71e73b4f2e;0x1433e699a071670d;0x84f21be454620782;0x98df3327b4d20f2f;0xf049dce2d3769e5c;0xdb6c60199656eb7a;0x648746b2078b4783;0x32cd23598dcbadcf;0x1ea4955bf0c7da85;0xe9a143401b9d46b5;0xfd92a5d9bbec21b8;0xc8138c790e0b8e1b;0x2ee00b9a6d7ba562;0xf85712b893b7f1fc;0xeb28fed80bea949d;0x564a65eb8a40ea4c;0x6c9988e8474a2823;0x4535898b121d8f2d;0xabd8c03231accbf4;0xba2e91cab9867cbd;0x7960be3def8e263a;0xc11a977602fd6f0;0xcb50e1ad16c93527;0xeae22e94035ffd89;0x2866d12f5de2ce1a;0xff1b1841ab9bf390;0x9f9339de8cfe0d43;0x964727c8c48a0bf7;0x524502c6aaae531c;0x9b9c5ef3ac10b413;0x4fa2fa4942ab32a5;0x3f165a62e551122b;0xc74148da76e6e3d7;0x924840e5e464b2a7;0xd372ae43d69784da;0x233b72a105e11a86;0xa48a04914941a638;0xb4b68525c9de7865;0xddeabaaca6cf8002;0xa9773c250b6bd88;0xc284ffbb5ebd3393;0x8ba0df472c8f6a4e;0x2aef6cb74d951c32;0x427983722a318d41;0x73f7cdffbf389bb2;0x74c0af9382c026c;0x8a6a0f0b243a035a;0x6fdae53c5f88931f;0xc68b98967e538ac3;0x44ff59c71aa8e639;0xe2fce0ce439e9229;0xa20cde2479d8cd40;0x19e89fa2c8ebd8e9;0xf446bbcff398270c;0x43b3533e2284e455;0xd82f0dcd8e945046;0x51066f12b26ce820;0xe73957af6bc5426d;0x81ece5a40c16fa0;0x3b193d4fc5bfab7b;0x7fe66488df174d42;0xe9814ef705804d8;0x8137ac857c39d7c6;0xb1733244e185a821;0x695c3f896f11f867;0xf6cf0657e3eff524;0x1aabf276d02963d5;0x2da3664e75b91e5e;0x289bd981077d228;0x90c1fd7df413608f;0x3c5537b6fd93a917;0xaa12107e3919a2e0;0x686dab530996b78;0xdaa6b0559ee3826e;0xc34e2ff756085a87;0x6d5358a44fff4137;0xfc587595b35948ac;0x7ca5095cc7d5f67e;0xfb147f6c8b754ac0;0xbfeb26ab91ddacf9;0x6896efc567a49173;0xca9a31e11e7c5c33;0xbbe44186b13315a9;0xddb793b689abfe4;0x70b4a02ba7fa208e;0xe47a3a7b7307f951;0x8cecd5be14a36822;0xeeed49b923b144d9;0x17708b4db8b3dc31;0x6088219f2765fed3;0xb3fa8fdcf1f27a09;0x910b2d31fca6099b;0xf52c4a378ed6dcc;0x50ccbf5ebad98134;0x6bd582117f662a4f;0x94ce9a50d4fdd9df;0x2b25bcfb45207526;0x67c42b661f49fcbf;0x492420fc723259dd;0x3436dd418c2bb3c;0x1f6e4517f872b391;0xa08563bc69af1f68;0xd43ea4baeebb86b6;0x1cad04c08b56914;0xac94cacb0980c998;0x54c3d8739a373864;0x26fec5c02dbacac2;0xdea9d778be0d3b3e;0x40f672d20eeb950;0xe5b0ea377bb29045;0xf30ab136cbb42560;0x62019c0737122cfb;0xe86b930c13282fa1;0xcc1ceb542ee5374b;0x538fd28aa21b3a08;0x1b61223ad89c0ac1;0x36c24474ad25149f;0x7a23d3e9f74c9d06;0xbe21f6e79968c5ed;0xcf5f868036278c77;0xf705d61beb5a9c30;0x4d2b47d152dce08d;0x5f9e7bfdc234ecf8;0x247778583dcd18ea;0x867ba67c4415d5aa;0x4ce1979d5a698999;0x0;0xec64f42133c696f1;0xb57c5569c16b1171;0xc1c7926f467f88af;0x654d96fe0f3e2e97;0x15f936d5a8c40e19;0xb8a72c52a9f1ae95;0xa9517daa21db19dc;0x58d27104fa18ee94;0x5918a148f2ad8780;0x5cdd1629daf657c4;0x8274c15164fb6cfa;0xd1fb13dbc6e056f2;0x7d6fd910cf609f6a;0xb63f38bdd9a9aa4d;0x3d9fe7faf526c003;0x74bbc706871499de;0xdf630734b6b8522a;0x3ad3ed03cd0ac26f;0xfadeaf2083c023d4;0xc00d42234ecae1bb;0x8538cba85cd76e96;0xc402250e6e2458eb;0x47bc3413026a5d05;0xafd7a71f114272a4;0x978df784cc3f62e3;0xb96dfc1ea144c781;0x21b2cf391596c8ae;0x318e4e8d950916f3;0xce9556cc3e92e563;0x385a509bdd7d1047;0x358129a0b5e7afa3;0xe6f387e363702b79;0xe0755d5653e94001;0x7be903a5fff9f412;0x12b53c2c90e80c75;0x3307f315857ec4db;0x8fafb86a0c61d31e;0xd9e5dd8186213952;0x77f8aad29fd622e2;0x25bda814357871fe;0x7571174a8fa1f0ca;0x137fec60985d6561;0x30449ec19dbc7fe7;0xa540d4dd41f4cf2c;0xdc206ae0ae7ae916;0x5b911cd0e2da55a8;0xb2305f90f947131d;0x344bf9ecbd52c6b7;0x5d17c665d2433ed0;0x18224feec05eb1fd;0x9e59e992844b6457;0x9a568ebfa4a5dd07;0xa3c60e68716da454;0x7e2cb4c4d7a22456;0x87b176304ca0bcbe;0x413aeea632f3367d;0x9915e36bbc67663b;0x40f03eea3a465f69;0x1c2d28c3e0b008ad;0x4e682a054a1e5bb1;0x5c5b761285bd044;0xe1bf8d1a5b5c2915;0xf2c0617ac3014c74;0xb7f5e8f1d11cc359;0x63cb4c4b3fa745ef;0x9d1a84469c89df6b;0xe33630824b2bfb3d;0xd5f474f6e60eefa2;0xf58c6b83fb2d4e18;0x4676e45f0adf3411;0x20781f751d23a1ba;0xbd629b3381aa7ed1;0xae1d775319f71bb0;0xfed1c80da32e9a84;0x5509083f92825170;0x29ac01635557a70e;0xa7c9694551831d04;0x8e65682604d4ba0a;0x11f651f8882ab749;0xd77dc96ef6793d8a;0xef2799f52b042dcd;0x48eef0b07a8730c9;0x22f1a2ed0d547392;0x6142f1d32fd097c7;0x4a674d286af0e2e1;0x80fd7cc9748cbed2;0x717e7067af4f499a;0x938290a9ecd1dbb3;0x88e3b293344dd172;0x2734158c250fa3d6]].

(** gosthash2012_const.h:30-141, little-endian [C]: twelve constants of eight QWORDs. *)
Definition Cst : list (list N) :=
  [[0xdd806559f2a64507;0x5767436cc744d23;0xa2422a08a460d315;0x4b7ce09192676901;0x714eb88d7585c4fc;0x2f6a76432e45d016;0xebcb2f81c0657c1f;0xb1085bda1ecadae9];
   [0xe679047021b19bb7;0x55dda21bd7cbcd56;0x5cb561c2db0aa7ca;0x9ab5176b12d69958;0x61d55e0f16b50131;0xf3feea720a232b98;0x4fe39d460f70b5d7;0x6fa3b58aa99d2f1a];
   [0x991e96f50aba0ab2;0xc2b6f443867adb31;0xc1c93a376062db09;0xd3e20fe490359eb1;0xf2ea7514b1297b7b;0x6f15e5f529c1f8b;0xa39fc286a3d8435;0xf574dcac2bce2fc7];
   [0x220cbebc84e3d12e;0x3453eaa193e837f1;0xd8b71333935203be;0xa9d72c82ed03d675;0x9d721cad685e353f;0x488e857e335c3c7d;0xf948e1a05d71e4dd;0xef1fdfb3e81566d2];
   [0x601758fd7c6cfe57;0x7a56a27ea9ea63f5;0xdfff00b723271a16;0xbfcd1747253af5a3;0x359e35d7800fffbd;0x7f151c1f1686104a;0x9a3f410c6ca92363;0x4bea6bacad474799];
   [0xfa68407a46647d6e;0xbf71c57236904f35;0xaf21f66c2bec6b6;0xcffaa6b71c9ab7b4;0x187f9ab49af08ec6;0x2d66c4f95142a46c;0x6fa4c33b7a3039c0;0xae4faeae1d3ad3d9];
   [0x8886564d3a14d493;0x3517454ca23c4af3;0x6476983284a0504;0x992abc52d822c37;0xd3473e33197a93c9;0x399ec6c7e6bf87c9;0x51ac86febf240954;0xf4c70e16eeaac5ec];
   [0xa47f0dd4bf02e71e;0x36acc2355951a8d9;0x69d18d2bd1a5c42f;0xf4892bcb929b0690;0x89b4443b4ddbc49a;0x4eb7f8719c36de1e;0x3e7aa020c6e4141;0x9b1f5b424d93c9a7];
   [0x7261445183235adb;0xe38dc92cb1f2a60;0x7b2b8a9aa6079c54;0x800a440bdbb2ceb1;0x3cd955b7e00d0984;0x3a7d3a1b25894224;0x944c9ad8ec165fde;0x378f5a541631229b];
   [0x74b4c7fb98459ced;0x3698fad1153bb6c3;0x7a1e6c303b7652f4;0x9fe76702af69334b;0x1fffe18a1b336103;0x8941e71cff8a78db;0x382ae548b2e4f3f3;0xabbedea680056f52];
   [0x6bcaa4cd81f32d1b;0xdea2594ac06fd85d;0xefbacd1d7d476e98;0x8a1d71efea48b9ca;0x2001802114846679;0xd8fa6bbbebab0761;0x3002c6cd635afe94;0x7bcd9ed0efc889fb];
   [0x48bc924af11bd720;0xfaf417d5d9b21b99;0xe71da4aa88e12852;0x5d80ef9d1891cc86;0xf82012d430219f9b;0xcda43c32bcdf1d77;0xd21380b00449b17a;0x378ee767f11631ba]].

(** gosthash2012_const.h:142-254, big-endian [C]. *)
Definition Cst_be : list (list N) :=
  [[0x745a6f2596580dd;0x234d74cc36747605;0x15d360a4082a42a2;0x169679291e07c4b;0xfcc485758db84e71;0x16d0452e43766a2f;0x1f7c65c0812fcbeb;0xe9daca1eda5b08b1];
   [0xb79bb121700479e6;0x56cdcbd71ba2dd55;0xcaa70adbc261b55c;0x5899d6126b17b59a;0x3101b5160f5ed561;0x982b230a72eafef3;0xd7b5700f469de34f;0x1a2f9da98ab5a36f];
   [0xb20aba0af5961e99;0x31db7a8643f4b6c2;0x9db6260373ac9c1;0xb19e3590e40fe2d3;0x7b7b29b11475eaf2;0x8b1f9c525f5ef106;0x35843d6a28fc390a;0xc72fce2bacdc74f5];
   [0x2ed1e384bcbe0c22;0xf137e893a1ea5334;0xbe0352933313b7d8;0x75d603ed822cd7a9;0x3f355e68ad1c729d;0x7d3c5c337e858e48;0xdde4715da0e148f9;0xd26615e8b3df1fef];
   [0x57fe6c7cfd581760;0xf563eaa97ea2567a;0x161a2723b700ffdf;0xa3f53a254717cdbf;0xbdff0f80d7359e35;0x4a1086161f1c157f;0x6323a96c0c413f9a;0x994747adac6bea4b];
   [0x6e7d64467a4068fa;0x354f903672c571bf;0xb6c6bec2661ff20a;0xb4b79a1cb7a6facf;0xc68ef09ab49a7f18;0x6ca44251f9c4662d;0xc039307a3bc3a46f;0xd9d33a1daeae4fae];
   [0x93d4143a4d568688;0xf34a3ca24c451735;0x4054a2883694706;0x372c822dc5ab9209;0xc9937a19333e47d3;0xc987bfe6c7c69e39;0x540924bffe86ac51;0xecc5aaee160ec7f4];
   [0x1ee702bfd40d7fa4;0xd9a8515935c2ac36;0x2fc4a5d12b8dd169;0x90069b92cb2b89f4;0x9ac4db4d3b44b489;0x1ede369c71f8b74e;0x41416e0c02aae703;0xa7c9934d425b1f9b];
   [0xdb5a238351446172;0x602a1fcb92dc380e;0x549c07a69a8a2b7b;0xb1ceb2db0b440a80;0x84090de0b755d93c;0x244289251b3a7d3a;0xde5f16ecd89a4c94;0x9b223116545a8f37];
   [0xed9c4598fbc7b474;0xc3b63b15d1fa9836;0xf452763b306c1e7a;0x4b3369af0267e79f;0x361331b8ae1ff1f;0xdb788aff1ce74189;0xf3f3e4b248e52a38;0x526f0580a6debeab];
   [0x1b2df381cda4ca6b;0x5dd86fc04a59a2de;0x986e477d1dcdbaef;0xcab948eaef711d8a;0x7966841421800120;0x6107abebbb6bfad8;0x94fe5a63cdc60230;0xfb89c8efd09ecd7b];
   [0x20d71bf14a92bc48;0x991bb2d9d517f4fa;0x5228e188aaa41de7;0x86cc91189def805d;0x9b9f2130d41220f8;0x771ddfbc323ca4cd;0x7ab14904b08013d2;0xba3116f167e78e37]].
