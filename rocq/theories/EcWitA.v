(** Witnesses for checking the table of ecp_id_GostR3410_2001_CryptoPro_A_ParamSet.c (EcTableCheck.v): slopes, quotients and intermediate points. *)
From Coq Require Import List Uint63.
From Verif Require Import IntPoly EcTableCheck.
Import ListNotations.
Local Open Scope uint63_scope.
Local Notation V := unp2.
Definition wit_A_64_0 : colwit ipt wit := mk_colwit (V [0xffffffffffd95;0xfffffffffffff;0xfffffffffffff;0xfffffffffffff;0xffffffffffff] [0x336636160df83;0xd220dc1c4edd5;0xac0d489cad6b0;0x6325d820afa5b;0x726e1b8e1f67])
 [[0x0;0x0;0x0;0x0;0x0];[0x1;0x0;0x0;0x0;0x0];[0x0];[0x1;0x1];[0x1;0x1];[0x1;0x1]]
 [[[0xddbbdbf14beb8;0xc93f6d4276171;0xe2a1cf978c634;0x133c1a94e03c2;0x5e6142f695bb];[0x0;0x973576f7568de;0x2675aeac4da01;0xef6098a7defb6;0x5a39de77c43b3;0x6a2d6b5568727];[0x0;0xfc124c2b83e32;0x22fdb29a7a490;0xb72013bd11c7d;0xec9d4818bbcf0;0x22cb9220e656];[0x0;0xb0113d471957d;0xd0f692ef95ede;0x9dc7833d7d5;0xca870a73bcc13;0x61006860fd720]];
 [[0x945aef4837e25;0x94ea6fb42c004;0xe57bd309fdd8d;0xa8ef2090de6a5;0x899d55fc4c94];[0x0;0x714ebfebceda1;0x5ea44746ff933;0xbfa8efae4c389;0x82f61ba6445bf;0x9609c314da9af];[0x0;0x2b457be5b68e9;0xf9678aed62a6f;0x7a889d862ae96;0x8ea8b9ecfcc8b;0x49f9c6ba9e4e];[0x0;0xdf6db38b896c7;0xe28cc75a5c63a;0xf1dd177bc7743;0x17cea20467a2d;0x9223ea12be002]];
 [[0x25dbd2255232e;0xde14bd0a78e69;0x135def40ca1a6;0x7463ec0f2eb83;0x3624ce59a2e];[0x0;0xad7fb2a7b6f20;0xc2040fe6c6a04;0xcd1a955967739;0x8c2a0b4f22c86;0x3b008d936c93];[0x0;0x11734f658dc23;0x7e48432543da5;0xde9b1d1070ecb;0x43c43d1c921ba;0xb738c5880];[0x0;0xbc1296ff80821;0xc72031c16768f;0xed734e0699a90;0x3bf9421489bb1;0x3acdfbe97928]];
 [[0x73bbe5eeb98;0x80b4d9fb6b76b;0x650e1ba0ceab6;0xa6fb775ff9b3f;0x5040fc7797d2];[0x0;0x46c0401312d6f;0xcb557bf2818f9;0xeebb0cde5405c;0xef3080f87cc56;0x595905c514fbd];[0x0;0xe41cfa1a1d3f1;0x4418d74f595c4;0xb104f9f1e383b;0x3c75e0f82b2e4;0x1928ae49f3ab];[0x0;0xca5d0b3357d65;0x2e9ba82c12aeb;0x38d0f17b35fd2;0x5e03f3fdcbb58;0x529f5c6f79d86]];
 [[0xbe66d7a14c738;0x1933948cd749f;0x89c5de4c9c6a9;0xe1871c599bea6;0x1a8c5f72b2c4];[0x0;0xd4546e4c6b468;0x9e652b55e690c;0x236dec0444af;0xe891545f5cc6b;0x1cae50da06f18];[0x0;0x1630eacaa27ce;0xbf6832f5ba0df;0x827d1af8a4e51;0xd937f11aba17e;0x2c0d05bd559];[0x0;0x381a267923fde;0xa1b8647196152;0x1010068fd8a83;0xcec695885ff96;0x1cbf0d987c798]];
 [[0x9ae8219e3c26d;0x6dae8b6285a27;0x5a2a91e067688;0x931a3f50f7799;0xdc4c75ccbc71];[0x0;0x4b736eb488b68;0x4271d69b4bdb3;0xd457bc11a5279;0x6257a0282dd21;0xf277101b9152e];[0x0;0x43477b246a6a7;0x9236def461e64;0x351f02a243066;0xe041249833929;0xbd93814e0ba7];[0x0;0x3d36a48c77a06;0x912fa7b83b8c0;0xd7eea0a38dc22;0x13d9ccffe2bc;0xeb0db82f57cf3]];
 [[0xe96204902fa6c;0x90b7343b7de08;0x9350bef677f05;0x50bd4afe8514e;0x32c463a12ea1];[0x0;0x9bc36aaa8bbe4;0xf07f7393924c2;0xec887857a2280;0x8adaac06219f9;0x381a4462b61ed];[0x0;0xca5310b8c7994;0x7a76d71d14cb1;0xb2095df40a5f;0x7a1a06fe967bd;0xa114d93abcc];[0x0;0x43103e6b171f3;0x10ee6137c98ec;0x64dc73f8f8812;0x5fb8a8db44982;0x34ef2118512b6]];
 [[0x29b16b0201609;0xfe5f1195594f1;0xf19e04aefed26;0xabbf57f2a6079;0xe0c97437e4b6];[0x0;0xe74c8f882c597;0x1113db3659f6c;0xd58c99a7ee1e9;0xf90bf9ee78ca2;0xf3f4fb5f02e8e];[0x0;0x1bf9cd23e0e4a;0x5a4573fb5d9c7;0xb11d1df544321;0x86e22ad9d5c73;0xc56129e984c7];[0x0;0x883220509a150;0xa73829d0859f;0xb16890504393c;0xec72ae1801df9;0xf48d4ed8f0ec6]];
 [[0x3a86de36eea96;0x1d0b6fecb64d8;0xe4cee2b2c486d;0xc7767ade80402;0xa7969dbb5b8c];[0x0;0xd6dfb3e6bcece;0xb58d7c4632807;0xef3e46d087fac;0xdca516212ea6a;0xba2450c2ffb49];[0x0;0x5b0e5d3dcda6a;0xdca032f0b6fd0;0x256b3d6c17b76;0x4c9fe03665177;0x6db5da67aa30];[0x0;0x1bc3cb57c058;0xe8ab1a44d02f9;0x2b252ae432234;0xed822e6f05fce;0xb0d757b20039b]];
 [[0x424645f8a9a4a;0x6ca800dba3e9;0x83848b1533f49;0xf10ba92e4bfb1;0x7fea6b282f7a];[0x0;0xbf0c0ae40d1a4;0x1ebda1f60b8f4;0x740dfd2573e2;0x8bc8f3fde9c6c;0x8d25123ebe3cf];[0x0;0x6fa0e26dee1d5;0x5c86348ce858b;0x53ef8d3362f21;0x65e9dfe6aaa48;0x3fea6cf9f16d];[0x0;0x8803cc2a993aa;0x40cfbf5dd5c9d;0xade587e798a09;0xd497bd999edcd;0x84b8d3399ecdc]];
 [[0x8b30321f0c3e3;0xb8787fd73319e;0x46324abb13b79;0x60b875cfbf21c;0xfd60f4dad79a];[0x0;0x180bb6b2de1d7;0x8f00934452cc;0x66e0f8df06724;0x6b46f7cf0d20c;0x11447ccb5208c;0x1];[0x0;0x6ee5232072be1;0x75d2f44035673;0xa04b2f86088a9;0xbd07541601e31;0xfac8c8b11c7a];[0x0;0x370fd589f68f4;0x9385416fdb310;0x11eae42804bb5;0xfdd022034b7a6;0xf8de8e00e30b;0x1]];
 [[0x5d3f24214dffd;0x37aea0a7f297f;0xbcd7d3984d90c;0x950cc9396d21b;0x8600385defba];[0x0;0x28271d8391fc;0xca1275b069113;0x218cf01b77c2c;0x733360ecc78d;0x91c1a29b4c9ab];[0x0;0x24fd9c22b7d1f;0x26b2fa7d70fe7;0x128afdc776eaf;0x8f6311ebebdd7;0x46243b026360];[0x0;0xfe5eebdf07e0d;0x70ce36a35ac04;0x73dceed02bf76;0x5697d8482218;0x92d9947f4ad95]];
 [[0x4c59c5ae31341;0x8acdc4c7d4925;0xbf2a982b88b00;0xeffbf73bf3706;0x49f3ee8fe432];[0x0;0x2160b066b8776;0xd8f2b7e2c007b;0x48034f2012835;0xafa0ac697af85;0x52e8e03762242];[0x0;0x24df8b4d7f92d;0xe9b4ea5ca4f0c;0x26420562ec47b;0x22c0bde2ed736;0x155d067cd3a0];[0x0;0x3ccb9dc4b7d66;0xa60afb3126a78;0x154ffb6bb6048;0x5dfe5f44563ff;0x4df7655b1381d]];
 [[0x403ca916e9c70;0x6cf9b2b367d74;0xfc506b6b3e516;0xdbe0db8a726e7;0x5b76b6663835];[0x0;0x811314031f669;0x5ea48d01a7e9;0x50c7554d06838;0x13d85d4d905;0x65c9ebba7beb3];[0x0;0xc27840dfccada;0xab45f28fbf5fb;0x1be20a592de6b;0x9cb5fb455bdb0;0x20ad9cb95427];[0x0;0xf8550d47abfab;0x448f21ccb2f49;0x2503b2f261621;0xa5acc554f94f1;0x605e7d643cadc]];
 [[0x856d799551f2b;0xab045b22e05c8;0xcbdaf76441f49;0x3bf0294180be9;0xb24e0c71fead];[0x0;0x442f074cbea07;0xc05f416bf40c3;0xcd7e6b56ff796;0x2b26846fdf3ab;0xc4da166f35910];[0x0;0x68f310530826d;0x80a01ba43c6e6;0x88324e35e2c90;0xfb8d8fa1e100b;0x7c30a11a1c3a];[0x0;0x7fdb559b0e6c0;0x1dab00228e5dc;0x81ec6c9fc726f;0x4a97b68ea3ba7;0xb9860f2dfd21e]]]
 (V [0x436d24546831e;0x56a64f81dc1da;0xa452c48426b47;0x9745b25af49f7;0xebe8632ca797] [0x931b8d8fcfb9d;0x79c57bc82cf18;0xfc884c3509cb9;0x10778521e87b4;0xaf090855ec38]) [[0x3388f181d0937;0x9d48f6a50db1f;0xda19f7dcfe8d;0x8b5ffc18336bc;0xf1c02a1c852];[0x0;0x3f1a4d3238b25;0x83491aa47b6af;0xf6483abada941;0x7f19b5bf995bb;0xf6773fbf07c9];[0x0;0x436424cac543e;0xb713b8dac6cba;0x6aecae55d43de;0x6bc29b4bde60e;0xe44b5f88e4];[0x0;0x87c47ced5d324;0xe474bc162fe1c;0x208b1828d72e7;0x7675463e7e57a;0xfd54ac1635f2]]
 [((V [0xa7b3f523f1fee;0x3f7f0efd63095;0xf1a6e02578734;0x5a236d9f720b9;0xa1085f92b889] [0xb4024f7a6c745;0x12286096c6556;0x5871dc917f49f;0x7b929467ca838;0x824dd6ee8e9e]),[[0x84e7085f5b802;0x3a446e1d69204;0x6eff9256b9e07;0x871be3336ed0e;0x4366762c4320];[0x7502592b46fd6;0xb485fd6471acd;0x64bde201fde39;0x2f1085757fac6;0xa46e3f8d7024];[0x0;0xf56e7dce9a782;0xb4e7c8f084503;0x4e69e608778d;0xa3e56c994b009;0xd9647907e30b];[0x0;0x92801130e8152;0x45686697ebc01;0x78e01b813f3a0;0xddf949e4d0579;0x5c2ad72878b2];[0x0;0x28dab65ae2436;0xae6f11cb551f2;0x26475dfbecbea;0x5a2d647c2ae1d;0x11becadd8cf5];[0x0;0x1b46668529c54;0xb7fa2ea47729b;0x4619b4d30cf71;0xa9a21777f7a43;0x48d8471b361da]]);
 ((V [0xda045aa1a4ebb;0x1aa29e2e4b362;0x5b565860302f0;0xc8a3d5e6ed2ed;0x1acab87c4078] [0x4c623798a241f;0xd2c35ce6913ef;0x23980708ea444;0x29dc46c0472b7;0x13a9b6351b1]),[[0xae7832cb7b7b3;0x1f23bb583fe47;0x18b18ebe6c431;0xf34bfee78e08;0x958eda05c496];[0xa467b5afea9a9;0xfe108c3276c50;0x8975b4ad16a84;0xfa6912d2e15f8;0xcaa3a59d788c];[0x0;0xa18c5f7e7e9d;0xb34669c71de60;0x6995bf0f3e98d;0x850324b03e73a;0x654b887ca8f6];[0x0;0x625839468a569;0xcea190ef12a01;0xc290a8cd9940b;0x57b13027ec6f3;0x9840087e93e3];[0x0;0x13cf0e3a1c23e;0x233c84f6cc707;0xda804a21e9b0f;0x971d1ca91373a;0x575f99814eea];[0x0;0x885d23ed60766;0x8cb47992461c6;0xd25b4beb2b296;0x8a158c306a59e;0xa3ce9452856e2]]);
 ((V [0x6c2034da5d9d6;0x9a5354e9c2238;0xe157c7dbeb2be;0x12a346e4d9dd4;0x1f543e89c295] [0xf973148f10350;0x6f3cadc766b3b;0xf5a5284fb3e4d;0xafaeebe52b7ce;0xec30033ae3bb]),[[0x3e974bd3dd7b0;0xf78c438d7330e;0xd2bdd690b90c7;0x2f59bb682cb6d;0xe91a03aa9b23];[0x3d7e573216aee;0xbcb66dccbe3a8;0xecb6c437a7160;0xfb6a0ac885a07;0xf161f274791d];[0x0;0xcecca6750770d;0xf0355c3beae40;0xfc7999fe9ecb2;0x205a0faaf81d9;0x2cdce00e621];[0x0;0xa745be731600e;0x20ff6f2f410d3;0xf297a42a76fda;0x18a7437f24114;0x23ceecb5dd9];[0x0;0xe0fae875e4a6c;0x61229d000b98d;0xf61e8e4b7b59b;0xac3138504be;0xd4405d514d1b];[0x0;0x87ab4a2ba83d7;0xe738dde20cb4c;0xf3858363903cd;0x1d6f5c1cf2256;0xf76989d49c1e6]]);
 ((V [0x139792e8fa743;0xe6b1e645bf129;0x89c3cd5163b6d;0x17457fd4f1e84;0xbeb8c33d08fc] [0x5ac79d69fbb03;0xe96defc16319e;0xf1f1cb3a1fcb4;0x7597c8cffe254;0xf97e50c369cb]),[[0xd6b2f7703dd5f;0xda0bc95014b60;0xf1ed7838de3ef;0xdcfbdff3066c8;0xaf9f1b9f1e36];[0x5e3184d54b121;0x8fe7bb9ad1ad6;0x6c83847009634;0xce6815f11db33;0x24f912aaa26b];[0x0;0x8f47c4d9aceb5;0xa2ebace1d158b;0x77b91a4b1a88e;0xd0b9d2cd43197;0x3d582de76ce];[0x0;0xd5e63064dcdff;0x1396f07d3c316;0x2a8eb4def7a43;0x694c4f272b0dc;0x1440f3b064294];[0x0;0x38b989596b27e;0xb21ff283e00aa;0xb4424c2a0076e;0x7d8cfb62fc54d;0x787aeaa6ddf1];[0x0;0xaaac90ee16b25;0x8bec50f86fc00;0x24f4dad149d4f;0x42754ce3fa55c;0xb3c380e395cee]]);
 ((V [0xa4a7c13c2eba5;0xca00642598fef;0xf951d0c37a25d;0x1c167ea9e08bf;0x60939352264] [0xd020fc702ce3a;0x31da25c460294;0x2e878d5db854;0x373c7c2038675;0xb4e0e7c2224b]),[[0x69740bc8f3104;0xf7e113ddff3ef;0x73780674886be;0xeeebb0c6e3d9f;0xf3323835eb87];[0x7be9dd67da673;0xbd6bf73c629e6;0x14869af6de372;0x5ce3f9c280732;0xe1b9d2939085];[0x0;0x96a9247f9825a;0xc9deda60d6f29;0x8a1fc6590619e;0x2729f18f8ac00;0x8e16c727d5f9];[0x0;0x7e7036d41c78d;0x738150c3cbf66;0x8081c72c46d5c;0x611d1f307ef3f;0x1da07b03ae3e7];[0x0;0x275ebe5937e3;0x9b3c15d1ed7bc;0x49e51a133d4cd;0xb3139d2d86019;0xe70860905e8b];[0x0;0xc2c1c500f0541;0x8d6e9dc1cdd28;0xdd30450bb251b;0xad7bacbfdcc0b;0xd5c8967065e8;0x1]]);
 ((V [0x6c0b76640f110;0x889a30d10b683;0x1c22bb360ddf2;0xbd12853d8fe39;0x5b9ce67c6830] [0x956a98edabed3;0x182d90df5cc19;0xf1ad50dc9b469;0x4011562d04277;0x30b84053ffd2]),[[0x4ca688f35d368;0x4259410b82557;0x86c8d4dd3f1fa;0x2ae96ea9d32fa;0x7bebad7f3bf];[0x89df037bb419d;0x7151feef9247e;0xa194957a91791;0x1e889d7bf4e0b;0xee95105aa508];[0x0;0x52f10790aaea4;0x97f0e94bf3741;0x7549aca26527;0xd0b2de1942cc6;0x246f039021];[0x0;0xf2f26a46ed93;0x7daae3ec3dd5d;0x52cd4bb9dbe06;0x82ce3dc97b27f;0xaf1d28c9d07];[0x0;0x6907fa9c2a60a;0xfb01d076fae9a;0x5b0e12699e81f;0xc879941750c0f;0x3bfc51b040];[0x0;0xdc8fc1e4a4a5;0xacc668a6d8326;0x9940d5cb2140b;0xea67bf6d8f9b;0x81139c8a257c]]);
 ((V [0x4f4a9804b8ffc;0xb83023720cadd;0x3aa32c6df3530;0x7a7fe650d469d;0x6b98de3e6fb7] [0x895079b3d3d54;0x98a98a83b7576;0x2277fc16167;0x3e05f31c96c5a;0x3bcb47086008]),[[0x2863f3498f8aa;0x15063f9a6ca21;0x5c4fc60c51dd2;0x9947760688e62;0x3910d78e4fd2];[0x9fccd40249219;0xe1401956704c3;0x9e4a620d09236;0x2c3da28016aeb;0xadfd704841f7];[0x0;0xa73fac0f7c331;0x9d097ff321350;0x8025427a85834;0x697e46a83b955;0x20c8ec062935];[0x0;0x1109bb6ed2c2b;0x47ab265f375b9;0xadd1b0a10e9cd;0xf007811eea5e2;0x15b875b91941];[0x0;0x3088c3cfe8078;0xd97389a5584ba;0x2a50e028ce50b;0x1bc55f7965277;0xcb8811906d6];[0x0;0x8b66be5e77751;0x21309b200e135;0x3240df2cbe511;0x6b7b2457d1ac1;0x3c68e29141d5b]]);
 ((V [0x17ec6f57bed35;0x1dac2ea1bcebc;0x88d866d22a751;0xf6b08b6306d99;0x19778a82f8f8] [0xc7a87086bba2f;0x2da702a578904;0xd0da5a0301964;0xb7ad3901364c2;0x87cd878eaa4b]),[[0x96be816263d60;0xaf879daaec8ce;0x9bd11f94e8574;0xe862d9de5fd5c;0xd010542064fe];[0x2b1c03e6d9789;0x94493fd40bfd6;0xd68a8676c8935;0x4231d2292dcaa;0x7487a2d0a332];[0x0;0x93fb748d7aa91;0xa7151a946ca7b;0xb5d961b13f834;0x6344e87edaafb;0x2d392510dc78];[0x0;0xb36a48d441fd7;0xf827ef9967091;0x9d465548ff0fc;0x8a5cf45d52a3d;0x6131f42305b6];[0x0;0x67d0553e35025;0x596854062d4c8;0xa5a17e1a90a6e;0x1fde5e77b296f;0xa91a89bf43d0];[0x0;0x17cde375593cb;0x360af8fc53f3c;0x2836ee147334;0x6c4ac2978c593;0xe13d5e741952a]]);
 ((V [0x2a50d66411306;0xa0ba872defb39;0x8854546e024e7;0xc8f0f5a8b5a02;0xd352fe5beaf9] [0x6fec1e8f3d33a;0x4c9a016dface5;0xdc16468d3e7ac;0x1db64dd10465b;0xbc84f53cd65f]),[[0xd64578447b87a;0x8fe44bb5a73de;0xc8704b084787e;0xcdd2ac561a8da;0x8d99d97bf78e];[0xcdc7c218ea8e4;0x2c5a8f8a0921e;0x164d6ee85f99f;0x573314e630500;0xaed9386b17de];[0x0;0x54e230d3ad933;0x610a480e415fa;0x3e2b810f14728;0x8f120c4f1f102;0x28890dfa555];[0x0;0x3c55b41dfc154;0x2402d07ecc996;0xe227349152507;0x3498be0718032;0x963ba1bd2615];[0x0;0x2b61a48e1f76c;0xdeb4142606bff;0x4e71352ac830d;0x9d240336a99ce;0x4e52d6083da4];[0x0;0x6cea443d75ca5;0x672a9aae98c67;0xcb2224d68d1be;0x9c651355818fb;0x90069e05fb12a]])]
 [[0xb233109b8f383;0x25eeac7796bf3;0xf4fc5524c7f48;0x272b5133c46d3;0x40aeaee81fa2];[0xf23380ab70877;0xe1e064bff8e29;0x46fd90dbce347;0xec00237398d51;0x4d1be86d2088];[0x0;0x12e63cd2e15b;0xf9e8b638197ca;0xf5046b7ba99ee;0xd08a7f521554c;0xae71ea3374f4];[0x0;0x652147f6c6315;0xb3032e0254410;0xa7814264e75da;0x2f30cf699d557;0x5f43c0f666d5];[0x0;0x45709f93fa1e;0xc2f197312dc93;0x77e0455c989ab;0x717cae8ad1ad4;0x1057cea64adc];[0x0;0x617fb232db98b;0xd3a9205c040d7;0x7ccd4eb47fe2b;0x584e988dd2cb6;0x45db26afa4d9a]].
Definition wit_A_64_1 : colwit ipt wit := mk_colwit (V [0x7c90030b24ebb;0x932930d7315bf;0x7ee1ec9ba246b;0xf640ff47483d8;0x83139625a59f] [0xe50fafa997a46;0xec4e73d43e98d;0x85f5678fa72ab;0xe50d2efa13c2f;0x6de1af89bfff])
 [[0xf578d9d3350e7;0x5d16f3b7e4a53;0x74b6cab4da7ff;0x630a2739e5e1e;0xc53de868959];[0xbda5e4f352cb0;0xfe1e6628948ef;0xbac06d76c6420;0xe1aeedcb61686;0xa48177b295e9];[0x0;0xa35b43a51061f;0x7de02241b695b;0x52e5df225931;0xdcde27eb81eeb;0x4c3c2ba71961];[0x0;0xffc736318a9c2;0x19afd68b8697;0xf6225175cd00b;0xef615ab2ec758;0x111bbda62ab1];[0x0;0xd638eed1b7de0;0x534cf337f483a;0xad79bc8f8c1e5;0xe2a474cf2f89;0x97f856a98b];[0x0;0x3f3a80294edf4;0x47e4c445dd4d2;0x385ed02b69e12;0x5e2f793d92c14;0xd1fc16737245]]
 [[[0x99e95c8057a3;0x6e9b0d9cb152f;0xb38e428927bb2;0x218b3cf77abe2;0x762a63ae933];[0x0;0x5ec9f8ee96591;0x722a9348be2e4;0x9305a52b1ad1a;0x8d8e81825b416;0x7d4d595f06f6];[0x0;0xc9ebf0f42e9d4;0x3d0c1b634cac7;0xa226bbe681af5;0xcaf81b0a199ec;0x368b1ae9cb];[0x0;0x14eb3c1e59356;0x80ba801958c86;0x9de3d33aed3a5;0xae61ff2021031;0x7f3e8de0bd58]];
 [[0xc2076e72585ed;0x9ba64411ea983;0x92a4f65307233;0x53ff3924030f8;0xff1b416f88a6];[0x0;0x35027abb329c6;0x869fa7ed0907c;0x4307a691e8451;0xb16a6e47dd020;0x122b5f5480d0e;0x1];[0x0;0xab960c57fb002;0xcded4536d080b;0x6959fad7b3c08;0x2686b816359a;0xfe374f43107c];[0x0;0x48a1e05ead9c0;0x79aecddcdd894;0xb0e77a786a08b;0x70165dbb19f23;0xeb1a28b4f9e2;0x1]];
 [[0xcf85b82311bd1;0xb0ae2b2a42f06;0xfce8bb5cb7f51;0x14deef5659980;0x5efc6d4408be];[0x0;0x670a8ba3f023;0x4f48dea82361;0xced4d65e9e4db;0xa7669cac277ac;0x65f37af1094a3];[0x0;0xff40bd194833d;0x75c89c8c567b7;0x8ba24cace4708;0xcf1351b7f87ba;0x233e592542ff];[0x0;0x94c64953e3677;0x6c36a213a6b2e;0x4b1b2f377dd4b;0x18199dde063f0;0x626db138e2f76]];
 [[0x70ec0a0286e60;0xfe39bd77c7b7b;0xc54e6661fc078;0xe67ccbd4ca854;0x8104cc182d86];[0x0;0x614a73e27431;0x4d607417f82be;0x7e228fb19a37b;0xcaed8fbb34490;0x87176b53fead3];[0x0;0x2fd2bbe80ebe1;0xefc16bec3a683;0xf950a8f13078f;0xeb588a0da31ff;0x4105d5c76159];[0x0;0xc2e397defaf57;0x23e90ef99e8ce;0x8ff0fdbfa5348;0x2d70210dc1db4;0x88974d1505ae8]];
 [[0xcc056a387868d;0xb67d23cbbdf91;0xcf35268c6d39d;0x116414567a971;0x19f856cb3ca4];[0x0;0xd9c0c2224eb74;0xceaf6286c35eb;0x19a7abedc6a2e;0xa8b3c5ee1a3ff;0x1b17f23cbf207];[0x0;0x575b7c8e24f96;0x388ed4451e3d7;0x6e49abacfbe45;0xb75eb4206f2e9;0x2a271dbf90a];[0x0;0xda969e927a3b9;0x520d2788b5925;0x707f36d20b91a;0xd38b7076bf5d;0x1c1e7bd7ee826]];
 [[0x1be8a862a6e9a;0xc28e507b1e986;0xf4e27f16db3ac;0xb02d9de0da8d1;0x5c995b159b1f];[0x0;0x48609c5ea53d4;0xd50ad46a2bfbe;0x9ffe211c1c40f;0x353cb4ef9dc98;0x627add37b30d8];[0x0;0x167406227850;0xedccc11196a0;0xeed0ddbd9a922;0x909cb8730cd7c;0x217e955587ba];[0x0;0xab29911126cd6;0x435bc10447f69;0xcad39349d6eea;0x911cd5332c149;0x6345198c45f6f]];
 [[0xb2476b2f0c45d;0x41b38551dca83;0x12b4808d49ba;0xb0ca5ac5954dd;0x7307eaa7b32b];[0x0;0x3e1fc4911a3cb;0x47134924f929c;0x80174c03b3796;0xe8c42bb679b42;0x7b6f13811227a];[0x0;0xf782364dfbffb;0x76ab2ff4b0420;0xeeee5070ec2aa;0xea0983731958;0x33b01d11573c];[0x0;0x513a874de4d3e;0xfcbdda2f9f265;0x309dc7fef10b3;0xf9d91a444f4fd;0x7afed4c98907b]];
 [[0x8ee6c4493b860;0x1eb64325d1a6c;0x7e00cc4762b31;0x2415eea1a1e13;0x29abdc4c2a50];[0x0;0xf53c732823414;0xe4f1499742d83;0x9d59525a7772f;0xa0f6e6ce1f9db;0x2cff0617fd5ba];[0x0;0x325d47d8f5c4a;0x1e42ee41de0d3;0xa11fa4bccde39;0x3202205615e1a;0x6c87ff070e1];[0x0;0x792cf4e4c938d;0x9a35315d8ac2b;0xcacd720780f75;0xe85c04e8ea862;0x2c2397f339cab]];
 [[0x4970ec544f0ea;0x71dee4dbc43b7;0xfe69f777ba3d0;0x11d528254977e;0x95291611539a];[0x0;0x69557690ad4bb;0x234859f430ab2;0x3a2766c715d38;0xb9189d46885b1;0xa092792389646];[0x0;0x3fe02b51d4c97;0xf0df1e4d91c16;0xfc27fa9c320a;0x1ba687d688f69;0x56e8da483ec5];[0x0;0x7e9341368d8fe;0x8124bc62564f;0xef867380240d;0xebd9a8ae9ef59;0x9d0eca153b232]];
 [[0xffcc713a00410;0x22941c29cd861;0x4f7e83e7d9367;0xb6f608e4f5bbf;0x73b7905c05e8];[0x0;0x82fd3f3d8e7c1;0xe1c0662e30c77;0xe3eb0f88f4614;0x5c1b61234bdc1;0x7b76e2a84a25f];[0x0;0x7fe9fb3317651;0xaba94dca21aa4;0x6ded976879b83;0x2ed0acf9a1a7e;0x344e6f526247];[0x0;0xc0237ce84afb7;0x495668c69959d;0xa2e1cbe9e1244;0x6e64f51a41feb;0x7b7668190b4c8]];
 [[0x700cabb4d5c49;0x96de55a5db16d;0x311a033b1d878;0x387c74ae36fa8;0x8e0fec2f9921];[0x0;0xdab4eb5b1f565;0x9872ce29c8692;0xc140e0d4ac10a;0x84ed6b59a533d;0x9834102a61704];[0x0;0x3f1a32a61cae;0x79825ab6c6c5f;0x81dfd9dd27530;0x97bd85f7e010c;0x4ed5ab02555c];[0x0;0x4f9377abf4259;0xc3625425c678a;0x32b23bf861617;0x1635df73df363;0x932f241a91432]];
 [[0xa99a77eebd7ff;0x9d4d136022a78;0x7b960ec21f6e5;0x8ca8fb8f71066;0x24d8eaec5b29];[0x0;0x38765c5203c8d;0x17b1f65e61302;0xc7c61c90190f0;0x57d6ca7829991;0x2680d48a14cbe];[0x0;0x1fbf83e0bbe76;0xd389a85ef3822;0x1551680e3e218;0x768d0e1fae091;0x54db9dfc012];[0x0;0x64bf535b6948;0x2fadad541ed37;0x9302d5a50cb8c;0xdf43c5a9bd596;0x26bdc9a17f3c3]];
 [[0xd0ce51258bf2a;0x21b06a97ba982;0xf40a6263edb21;0x989682c37230c;0x259bfe58b8c];[0x0;0x601a29df1000f;0x64f5046535747;0x87c9a2d02d0f;0x5ffe2eab09ab0;0x26e1d204ac66];[0x0;0x63b94b09ea727;0xbca2979c3db3e;0xce95acdf0b32;0x8e3333fd88fe7;0x5867693a1];[0x0;0x951cbb4865c9d;0xdda17c3982344;0x408239a44c32c;0x7b0b0f2451711;0x28650dd3b857]];
 [[0x103cd37fb81a0;0x2c12e7ce0cc09;0x8cdef7cd05cbc;0x28b95fb4b61fb;0x60b7337da5c3];[0x0;0x4313755459c12;0x203a74bbf297d;0xbd7a11311a348;0x33f54e78e225;0x651b567ad3577];[0x0;0x1b633c91467a8;0x65dd4827e9177;0x9405cdccfaccf;0xa9464ef32563a;0x2489e9b8e450];[0x0;0x99285859f32cc;0xedaf5e3c5480e;0xceff1e00d6a60;0x42e04873cdd37;0x671c129e4f2ef]];
 [[0x34ba8ee5ee009;0x30338c8dab00;0xe3a96722c38a9;0x122c0c4d109d6;0x2503e012ae39];[0x0;0x265281d0aec7c;0xf58eac346275b;0xf5337ec81e27b;0x5b272722cd787;0x26d45476b1516];[0x0;0x84abad9099aec;0x9a4b1bdfd7316;0x717d21d085844;0x46d7fefbd5c17;0x55a1ed46aed];[0x0;0x2b6dd5438d37;0x9bde9275fdeb7;0x630458c4d4cb7;0x601c1b243b6a1;0x2753851753374]]]
 (V [0x4613701055580;0x6ade63ae7112d;0x9764d3da489c2;0x33906d949e893;0xe3ea3e6592db] [0xe29fa628b7151;0x2fbf48e2cb29f;0xe4da77d2b53df;0x79728c75b2814;0xf0e55a94cb38]) [[0x420c9d035c88a;0x109e2b0c16aee;0x1381d9f09dedc;0x327c560976d83;0x307574f62a2c];[0x0;0x372f5d646438b;0xddb48958fbc41;0x436547b57aa0b;0x67f373855037e;0x32eed6eeeca81];[0x0;0xee32bf79b63f;0xb31d873bb206c;0x2e3d8bf1cbcec;0x2241e78e6e57d;0x92c41c06e43];[0x0;0xf766c828d38da;0x2d2b745e6286;0x88d52f9e26d46;0x9ec3822f0c617;0x32ff951c6b10a]]
 [((V [0x52de3dc448b40;0xa1f2521af9792;0x5bc425a2a8b07;0x4ef63534a2016;0x730d33c08bb0] [0xfa182b3d06484;0x4a924e5715185;0xad73939a512ca;0x63139b3d6e647;0xa5ad63fae907]),[[0x858ce88ac0a87;0x482767ab21cf8;0x5810ae60354a;0x71088117646f;0x51549a14fb06];[0x84e5f19871bd7;0x36f21a929edb8;0xd6f6a2612518;0xc5ba53ee8330a;0x2f7044e11c86];[0x0;0x530590965a43f;0x84b6b770c1a7;0x350479d9cd816;0x919bc88d4c65a;0xcae940fe4356];[0x0;0xa1fb84e0fb0f3;0xd12ea11a7cf4d;0x5024b15da14f8;0x5d55902dbae66;0x99105bd1077d];[0x0;0xcc5e30f781ab7;0xaf6e2b78df7d8;0x777cfdbb2be70;0xcc28888a28978;0x19d6a576c15b];[0x0;0x5271d085773c4;0xcff38ff1183a0;0xbb71d1d8a9a0f;0xe1709775e233a;0x58a7978389928]]);
 ((V [0x343b133d17d71;0x11e8fd0648263;0xfc245090f58a6;0xf30af361fc631;0x4e4d7c57b568] [0xb2c3c9aeb8233;0x158220438ba7f;0x4e49355c483a0;0xfaf018a802ff9;0xbaf075bbe109]),[[0x25fecd405eca4;0x4f800772e1871;0x452a36f6c9c65;0x35b72b7566e37;0x38ed141b0c18];[0x5b31d6edf3d1c;0x365e8bf955397;0x91467f75e719c;0xb13be450bbfb7;0xafbfd5d6dd38];[0x0;0xd990c5faa8bc;0xabab61576e6be;0x5b64ee0018a0c;0xdf534cf42a948;0x33b4dd2d4984];[0x0;0xf32ea284da488;0xdcbb37489b982;0x72c1008f97e60;0x95c57bb1b3919;0x49aeb8cefe60];[0x0;0x18370093605b9;0xf2f1430f2634a;0x914961322ce4;0x3912ee3c0f24d;0xca8945a10f3];[0x0;0xff7653a6a36c7;0xf3788ad92685a;0x356ab164536b3;0x8c69b6d439cd2;0x3cfea4e4a64d2]]);
 ((V [0x26bd2ce985c6b;0x929a76682c098;0x455cfe5cdbeff;0xf8db92a983f4c;0x79a76c0897db] [0x5090a7c2f0b3d;0x1997ab76c2905;0x7ba97565c28fa;0xd4206c7cddbba;0x12adddb59eee]),[[0x7246003e919a0;0x8436f5a130f99;0x5e5c9210bba35;0x5e40ff62ba0b2;0x9aaad72397e7];[0xcab9570be7021;0xae143cb0d638f;0x1c63968334406;0xef60171b963ac;0x12931e8d4042];[0x0;0x3c212864ba40;0xb2bb6b29ce891;0xfe12818015a87;0x2b075a3b7eaa6;0x17f34f397bb4];[0x0;0xdffbc4295319f;0x6056d6c768d14;0x279c4673b0ac9;0x3b0810fac16a8;0xe1e2cf3649a2];[0x0;0x1f27d73ae0545;0x80f5d5e31dc96;0x32b8b914e409e;0xeac8e54dabfe1;0x5d71fcd942d4];[0x0;0xaeb39930593d0;0xda94b755ddc5e;0x21a7f4b84ded9;0x229363ab311db;0xa2b274104f35b]]);
 ((V [0x8df714c3290d1;0x3e32667fa4965;0xbaac656fdd192;0xdfd67b3253dbc;0x372d938c8e24] [0xaedace6874b34;0xb7db41510de0b;0x477de52e19db;0xb8e494810f6fd;0xdd823ceeb5ad]),[[0xb720242e85fce;0xe31ba53b5812b;0x5446c314c0d54;0x20ded0fa44c51;0xd0d97b30e45];[0x4e5fab65e5669;0xb214b49d6323f;0xc971664a2bb17;0x6c1126ab348b2;0xdeafe4a8241b];[0x0;0x325de66549e30;0xc3b182edf0adc;0xd7b1ba05d34d2;0x52a9b0eba5f67;0x39cfb19e405b];[0x0;0x3b8d9c761b52b;0x4f1398898b0af;0x25a53303444c0;0xce0c334d61192;0x1e7a450335b];[0x0;0x20288bb160e6b;0xe61f3aa879e62;0x67a433ec275aa;0x306e7a1918c99;0xaa6220f187];[0x0;0xe9ddcf80df86b;0x346daa19e3f28;0x6869711b05abe;0x1f0a6bce2a38e;0xe14aca769afa]]);
 ((V [0x3d47bc3495592;0xa574eba1111c8;0x990267281fceb;0xfa53d62d1aa71;0x93a711d7b28] [0xd2091d56a1402;0x3a95440f848a3;0x2c35a5a292749;0x9abf933a3da4;0xbbe0382f5f8b]),[[0x71e1378200db5;0x9c0994f8a4492;0x8f86580586c83;0x1de08cec86919;0xad51eb38492d];[0xe7a503c2a0605;0xba233f0c2a9d9;0xb8bf79c92db28;0xc2feb9216db39;0xcd79a346262e];[0x0;0xfc741b12ebc4;0xfed2d619afee7;0xd8f9134b7f61;0x898efaa9016e2;0xbe49d839988];[0x0;0xc571dde9245e3;0x4310723d75dc;0x4e60c051700ed;0x80e07f262413;0x12befc9d3b417];[0x0;0x88871c505e03;0x6c94879bf9def;0xc39c9b5842a23;0xaba75412f3836;0x7557d220c4a5];[0x0;0x1528801a910f8;0x45a6680cdcf2a;0x495f00a3c46ae;0x245b39391c3b6;0xba18ca1281be6]]);
 ((V [0x29316ad146e83;0x3ab30185cbd22;0xe016a5d5d7971;0x8a8d422737c01;0x4e8757094213] [0x15744d790ab70;0xc90ae383031a2;0x280a0e0dcb052;0x5928ff2659dbc;0x19554b1c73db]),[[0x7b0cdaf7be423;0x9b1181a111d8d;0xc82d37e92a444;0x39b8d466417d8;0x4e1f1f3b56a5];[0xd33f43d2351fc;0x797d1f685eb6d;0xa5e0e5adfc01d;0x75de50aa6b500;0x4c69469a9bcb];[0x0;0x82726b4dc6df8;0xa7100b99a233a;0xa0d65ec18e614;0xba4aa293597de;0x55294b85ff];[0x0;0x5f03fa0577b9c;0xad7cd37c1ec3e;0x40c9f2eb5e7b0;0x660c3e49d234b;0x72aa5061dfd4];[0x0;0x4f186e73e1e2e;0x8c9801d7d30b9;0xd00ac4f202a5a;0x17edada88cbaa;0x17d6fad0bcfb];[0x0;0xce9c60dd0a8f0;0xdf2f8df27d501;0x18417d4b76349;0x2d1257a9c0b73;0x51aeb381eb2cb]]);
 ((V [0xe4cf855d6bd18;0x54b4203fb6f5f;0x7019370c6caa0;0x19a644a1a1507;0x9418eb33c794] [0x22e8f8c42b14d;0xdd923bc666e1b;0xc3d5db324961b;0x9a8014cad248;0x58d1af0ff932]),[[0xe528a4573f723;0xaae990e5f6ac8;0x15e903c56816a;0x24042a27ec96c;0x3b111c1bd53c];[0x14e8ca06db66d;0x5ac818c94d2ee;0x14082a72ec83d;0xc350fb2f9ad2d;0xf99e6338ca5];[0x0;0xb1aa80e27efc4;0xf7e8ede35016e;0xf9fa60bb4377e;0xe44933e58129d;0x1816c0968d9e];[0x0;0x744dd71023103;0x3d7a8159d5598;0x5b6f62b85e5e5;0x65ac8716e5181;0xbb0b38341ce];[0x0;0x3cf66577c0c0d;0x4d90c75435fd9;0xe7f857ac88faf;0x24428829a4845;0xda0e4199312];[0x0;0x716beb5589b0f;0x6078e30d833de;0xdd9a0e7a72ff5;0x267cae99393ba;0x3dc15aa6508e5]]);
 ((V [0x9b5dd39c9f5ba;0x831d273ac2e62;0xccc1864ca1cd9;0xe28837fadc9f;0x6b4111618390] [0x62cd0d1a2ffa0;0x869142eeb7c56;0x60a5f8a8e507c;0xcf4f21450b934;0xf34f1cf2f307]),[[0x7fe04843622d9;0x3999d70b13fd8;0xde6abcd76c84;0x1f015d1bf895;0xf4126d0369da];[0x257cecf93c627;0x177bcf7b29cc5;0x891c0cf29bf79;0xeca940a185465;0xa5335b5fec07];[0x0;0xa7c3b95dc39cf;0xaab79f6616ddd;0x8c4ac649de497;0xc4501638d0a18;0x55acd260d090];[0x0;0xfd8dd52de6da7;0x4f63935dafe20;0xf8a1a8b1cf335;0x6a178ec968ebd;0xa95c7ed7feb7];[0x0;0x4ca6a4e23311;0xecbf7bf3c269f;0x4bc081b226ee;0x5e893be1f4101;0xe8b3212204ae];[0x0;0x3131464bded0;0xafc89fdb4a091;0x1aaa6e883ddb;0x2910836f1d849;0x5c29e9683440;0x1]]);
 ((V [0x8a5056e7a97a8;0xf7fd40fe57f5;0x6753dfa4e44a4;0xb328fc5bf0e5a;0x2c791d1ef345] [0xe7e9b71e56559;0xc5c856b8561ef;0x785e0e1d72a2e;0xdc5d905a14f54;0xa92cc5167a64]),[[0x162af752c611e;0x6bb001190e816;0xcdc89e688a439;0xca3893c50c6f2;0xd541b49a616a];[0x5984cc24cc417;0x26b2d3d6343ae;0x7d61413dd2169;0x78440e1351206;0xf96b4d2b09d7];[0x0;0x7551e7fe7cfb;0x95957fb7736b0;0xaac92f8e07438;0x539b27285dd51;0x2cef751158ad];[0x0;0x611d6c7c79071;0xccb26a1db0037;0xd9e9aa239b7b2;0xd4d8cf052658a;0x1955e8ba5b0db];[0x0;0x29aa5a94183d8;0xfc13b2679bde0;0xa3e1a9e40e5d2;0xa2d45c8de66b2;0xb1a667661bea];[0x0;0x7daf254a3353;0xd3eb78bddfe6;0x813c4ca538cde;0x9fc89e114c37e;0xe5da9798b52f7]])]
 [[0x663047ba8b429;0xd578f55330ae;0xeb6b7371c37f5;0xe4550631d9780;0x879cf175ccc3];[0x649bff3e7d5f;0xc61902fc5aa2;0x653fd6eda487e;0x4d606b0fad1ec;0x992e02b0f0ae];[0x0;0xc41b0c1a61447;0x6028582a26242;0x5011208733ab2;0xf4552998d59a8;0x7b9db4f2e31];[0x0;0x39ace0d6f29d7;0x390bcda6c3cfb;0x228a9fae326f9;0x466d39aaa2cea;0xb33ca58fe51e];[0x0;0x5b03a8ca98bb5;0x58a925f40ad9d;0x5e9e92b6fdee6;0x2b4d96e7b54c5;0x47d6e6e16947];[0x0;0x3a958c8d16d3c;0x9095085d53122;0x1766c1fce1032;0x8917156207ee7;0x9182583fe1401]].
Definition wit_A_64_2 : colwit ipt wit := mk_colwit (V [0xb416a18a985c;0xfc85b8bac6117;0x80a5a263b2aff;0x62d39eac08e9d;0xcb5cb8910afa] [0x85caf99543f68;0xb7205cd3cf24;0xb3f4764701c9e;0x8d44867fe1ca7;0x4c4d7fdc5890])
 [[0x949ea10a34503;0x9bfce027963b2;0x154ef3f2f64e8;0xdfc1def9519dc;0x91ddbb408868];[0xc9268a40dcb07;0x3d9c3f6f105df;0x41b9fdfb06433;0x1d3faa1f67778;0x1fec097504b2];[0x0;0xdbbe59cc3a68b;0xf58310acda6ed;0x3568c0c7d7f4f;0x9ce96f8360be2;0x27b67ebe0];[0x0;0x6c8ea6a49cbd9;0x282e3ac3a3a1b;0x706dad629189a;0x333e83d3345f1;0x7f7a66ec944d];[0x0;0x420a670fcf4f7;0xd1ead9dffde3d;0x748b18fa6b0a8;0xaa19a7561e4fe;0x531cee2bf0e9];[0x0;0xd7c0b300c2ba1;0x52ee6d941c361;0xf265e2a54a193;0xb5b89166543e4;0x93cbf951f2741]]
 [[[0xa368be3c4a48;0xc84b8b5dbb525;0xfecb8ff9ee1d5;0x2c6122c95b7e1;0xdf4a34786e5f];[0x0;0x2de5aefedcd33;0x1f01c977d3268;0xef3f06bd2dad4;0xd7c7cb9f37ba2;0xf83ee6ad8c6a2];[0x0;0x73fcdf7eb2884;0x1c16743fb2f2c;0xc284741477a81;0xc3d53599e8867;0xc2c25cec30aa];[0x0;0x4b251920b9a5f;0x63857f311532d;0xcdf07f783574d;0x6b9cf208044f5;0xe1e7cf52ed92b]];
 [[0x816c2337a507;0x9eefe864eff3d;0x65682ebe1e77a;0x5aecd6d0ddcd5;0x833366506bc4];[0x0;0xc635cc311e305;0xf7b2a90a1a431;0x1f797ae836e6d;0x6cc66d6761b2c;0x8b3381ef75f0c];[0x0;0x393ecce4b687f;0x9d51087c58b07;0xffe1cfd637c6b;0x146e9ec2a40a8;0x433da5083b3a];[0x0;0x4b8c823e1bc8b;0x2d4c48aa762e5;0x5efdb2d4d37d;0xafe20697887e4;0x8ad7da696368a]];
 [[0x5c19daff37a63;0xa482ac1a0c9f6;0x34c3139045562;0x41ec9c3887a8d;0xbd5b11b6ea75];[0x0;0x4b81f0c2db33b;0xe7eaab33817cf;0x813c0bb386065;0x859340d1ca35c;0xc818f795c0264];[0x0;0x326c07f951a53;0x56d31af4d77d;0xd422ea77cd9f2;0xa08a051843e73;0x8c0f988daf75];[0x0;0xe4996d4462602;0x96aa44231fb12;0xeddcb03fc3f85;0x395bd903fbbf0;0xccd94313e5df8]];
 [[0x781d9b5654dab;0x6228d7a7fd741;0x27389c815b261;0x9e3195b14487a;0xe2dbe61006c3];[0x0;0xd90041cb9ecbe;0x22ed42fabeb53;0x240a44d0dd244;0x8fed21773147d;0xf41c6a390598b];[0x0;0x50547d5092bd5;0x94fa7bcf408b7;0xc7fd37524e336;0xc3288e05ba5ca;0xc908ff17ba1d];[0x0;0x4f75b9a6e1d4d;0x3b2745b7ea2ac;0x1e443e1345f6d;0x1e23695d211bd;0xef8da09e40532]];
 [[0x309668cafad21;0x513e9c182ce7f;0x338db72b94d7c;0x82971766d3b3c;0xf1871edd54a4];[0x0;0xf82cc0646566a;0xc70776b3eb024;0x2592b4d10879e;0x18dbc15d9c13d;0x2509fdb23ece;0x1];[0x0;0x3922351328ad4;0xd65e6ee2466cf;0x9dfdce41a607f;0xa294040b8ad0f;0xe3dfaf6e4a85];[0x0;0x5930f617ab3f2;0xa6421d0945933;0x2a3d4d4589b61;0xcb5c676c462ee;0xfe3d0b308863e]];
 [[0xec38e3c0cab73;0x29e201eb2c274;0xf28cc45a4953a;0xc3f6a80c1c730;0x8e1e134a1c90];[0x0;0xd78786280c2b;0x400c0b6a32fab;0x1bce04496654e;0x944212317fc39;0x969788b0f38b4];[0x0;0x73a831e2619ca;0xe96b3fc33f64b;0x343bc74fa8064;0x61059434b6ac4;0x4ee560eebe83];[0x0;0xd50e80a47f820;0xb9d8fe09751d7;0x2a18962f0d499;0x2c19bc1251db;0x9e0c90d1dd5da]];
 [[0x1158e0f356db3;0xa98ca8e5e84d1;0x755763f306476;0xe83ea483898b4;0x65b0438e259e];[0x0;0x5d7c2d653fdb0;0xac799d9e82414;0x13204b3335f54;0x2740bb1aa99db;0x70cbcebaaa050];[0x0;0xa21f2ea60ae52;0x71673a8516e18;0xd49b44cdf0caf;0xd45fb353c0c5f;0x28648eab1ef6];[0x0;0xe5e9cb34796a8;0x29e5df70c4170;0xcd13617be8156;0xee148f3e06d9;0x6b4f454985b8f]];
 [[0xb3407565143e;0xc72dc7d435911;0xbcc51060b50dc;0xff26629dc5a40;0x60a7d221096c];[0x0;0x34a604073a223;0x41bc8338e6f1c;0x2cb51c18abe18;0x14703637ba7fa;0x6a83ebe881808];[0x0;0x3814d83049a98;0xdf40f6a57029;0x36e843885c932;0x434bef18981c2;0x247e4b9c9aa6];[0x0;0x79c067aa440f4;0x3d79d8965a8af;0xaef1b0c8a5ed1;0xd6e04929e00fd;0x65cf1fc11c128]];
 [[0x9879c43fc2e4f;0xf6951f09c0c5a;0x595be15ac0c49;0x375a87d66e29b;0x41f34b1b2620];[0x0;0x1bb03a2af9fd5;0x6e8101517ac;0x667915802cf35;0xcf9321a52d79c;0x481288671e5d4];[0x0;0x1068bfa33c2;0x4973e3f52300c;0x1a16b1c3febf;0xa87cffc112336;0x10fd735b74ef];[0x0;0x65ef7b32a7c62;0xa005e669c31e1;0xea4bf10ee2639;0xb90e5397ce55e;0x43ceb41fa1bba]];
 [[0x3b4e4d1f711c8;0x8a5d88e460396;0xce9764599225f;0xed921e247b8fb;0xb0b15c346e5b];[0x0;0xfbcf11e76f405;0x69c4e6b65663a;0x5bf0207049189;0xd9592c3277750;0xbb06e60e6a55e];[0x0;0xd911f17a8b8f1;0xbf99474bd627e;0xc6666f71b21ac;0xbbd6852c828b4;0x79f459a8b974];[0x0;0x5e8fc225ea687;0xb0c121686180;0xb7aba212afd61;0xbbd5e1a7598ba;0xbe603275c47c1]];
 [[0x7513b3c3c2be6;0x448a538210f50;0x73f678f932244;0xb649af13a58d7;0x6e5bbb580c2c];[0x0;0xe6fc25470645e;0x8ab30ccb5a5e4;0xba9776ae45c1;0x242b72b442875;0x7676227156d78];[0x0;0xe4d896f558128;0x47468c3882a48;0x9f6a1f70b8b5e;0xd4829c788b926;0x2f92f5de6428];[0x0;0x204d5f0d5b092;0x9c0e32820b9b3;0x6a40deed69900;0xbfdbcf5409e18;0x785d6e5a3911d]];
 [[0x680f4f4b395c2;0xeaaa935c0f94f;0xba53e2b07bd01;0x7002ad117225a;0x3c953d93faca];[0x0;0xd0f9d0e59d224;0x7a794567bac2d;0x3e068f8823d4b;0xfb83a0fe9f052;0x42bcf9b52b006];[0x0;0x56a4b7bbe31b6;0x75e2fd5d54199;0x9ffd87e8cf674;0xaf3617cb9037c;0xe564bde1aa0];[0x0;0x809d1569c40ef;0xf3e2b935634a8;0xc1557eb9a1598;0x22e492f822a5;0x3f929eb10419d]];
 [[0xae9cdfaffe316;0x8b88fd478847a;0x6d30dbdf237c9;0x1ca81a1d59c07;0x3cb1d71c9c2e];[0x0;0x6859dee1e1e5d;0x5d3e20f842e26;0x6cd461ff6acd2;0xde22927c85ce5;0x42102817dba3e];[0x0;0x8e104816549c2;0xcfe8966c49b18;0x67684021040f2;0xa6ba6a32ba868;0xe63d8609386];[0x0;0xd255f84333255;0x25eab84fbe9f8;0xdcfd69e082017;0xbf5b948b1b38f;0x3f8b05cd312ca]];
 [[0xba99e72590755;0x7b6f38e44af9e;0xe26fe00139dc8;0x451f9c29e1ae4;0xbb6e1a9a4ba9];[0x0;0xda7a99cda5a42;0xb6c9eab255c89;0x8030672e0013c;0xabc88faf7c7ee;0xc916ff00a8d06];[0x0;0x40435dd74f379;0x1e1f1d4c02401;0x819d5ca3638b3;0x4d1155d97dfd;0x893a0a3849e6];[0x0;0xe078f60cdc8c5;0xbec4d103b9996;0x1c7e795b1aa2b;0xb93900c6cf8e1;0xca629f4b6f668]];
 [[0xc3953af2c8ce4;0x7e7aeb32f9855;0xb0d2635b43455;0xb8ad3889d5a58;0x9c7eb46ceb35];[0x0;0x2098dfd652194;0x42dfce2ff4561;0xe159311dab359;0x1145c405055ab;0xaa9b24fa19928];[0x0;0x7520585592a55;0x57fecaa8b5f45;0xbe9e486df0bf7;0x5b0fc08eba0d9;0x5faaaa9ad90a];[0x0;0xd944ccbba14d2;0x6f1117bc05dbc;0xba65fa4bb91a1;0xc4685d05da3ff;0xa127a6d6dffd7]]]
 (V [0xccfc1e05162b4;0xc28ed0329d6e9;0x5d771fd58eec4;0x6f1454d121687;0x32cbb1a1121a] [0x163212bb727d0;0x76c99278b33d8;0xb62d28b61ebca;0x290ffa539f4e1;0x4b4f1de4275d]) [[0xa0c77aeef831c;0x1efc05193c049;0xeef7bb5fb1b2b;0xfe3a496dada7f;0x736c822d5a44];[0x0;0xf53b852dc1688;0xd99ae2643a5ab;0xfb3c47a540cbf;0xbf4dd84720334;0x745e4877d5f8a];[0x0;0x1659c1c2ed3c8;0xeba967b09ecb7;0xc7c68a1ad834;0x3e55cd6fa6f9b;0x340aaaf2d790];[0x0;0x8aa0ed68f45d3;0xd66d79202dec7;0x35289a451ae12;0xa3355186f7cf0;0x7f8539248bd71]]
 [((V [0x7e64e130da71d;0x4c796d991a477;0xdcccf9565b251;0x6aaa85d8152bf;0xc9b98b2ede21] [0x8572456c64ced;0x800976b53c255;0xcf4a585bcd25c;0x4862386efeeba;0xe6b66bdc16a3]),[[0xbeac0ab203505;0x42329cb2386df;0x71e2d58a087dc;0xfc36eb5596bc4;0x24c91d18ef0f];[0x7ba82c898b6a0;0x8e0bc3598a67e;0xecf66268a7b06;0xc9f670c7af219;0x4255caafe0b8];[0x0;0x43bf7b4d0590;0x3e397d64a1770;0x532cae614aff8;0x29b06f81c3ed4;0xa1433761bc5];[0x0;0x8cdcb5f6b8634;0xa0f53238ec59d;0x266b45b33a521;0x71030b2fe344e;0x15a493c3b39a];[0x0;0xfc56b3a70a18c;0x48b20bc1ca0f4;0xe30a422265011;0x8ea0d1d034573;0x5492e2db7b2];[0x0;0xb241a66c0218f;0xd742b45013c;0xff3b786062a71;0xa2a369da318ac;0x25baaea287a26]]);
 ((V [0xcc1ee0b8aec7a;0x815dc4728347b;0xc9e12887d5f4;0x423b780ad7f83;0x44f00fcc8223] [0x2ebe4dcd1858e;0x97b624425de7b;0xdbce8a2abb5e0;0x7149a6b62c5a7;0x3c236ea8829a]),[[0xd2118d9b7c297;0xb249cf406cfce;0xfdf189187a5f;0xe61ae58214da0;0xaa593b0d7851];[0x1e4c6472936b2;0xedf7b14775292;0x206da633710a6;0x8537fe1c101d4;0xed8773b5c260];[0x0;0x56e554aec2301;0x568a181e49e89;0xb50c042faab45;0x7398cf383f8ad;0x9ef4e30a0e39];[0x0;0xa6892b42212f4;0xc8e7feb163962;0x5ff95cf486310;0xa3c3323ae41fc;0x1330b1c87aa35];[0x0;0xbf3979f15ee2b;0xff4eb6369f168;0xbc170be97de9;0xa4b8e872fe95f;0x715aa18800c9];[0x0;0x983b3391718ed;0x21f203e513fcc;0xe414d3921efa1;0xe622683df8cdb;0xba84900819fcc]]);
 ((V [0x6ea7f8c487c28;0x74a58cf8fc684;0x75731ffaf5a95;0x6b6ea2bcc942a;0xff68d4fa23d5] [0x6abb9c7674f9f;0xd2ea26665432a;0x825946f1c4c8;0xe646be57605c2;0x6484f5ab0dd8]),[[0x94744657425df;0xd535e5bca03f7;0x3b247bad92081;0xe7eecfba32b54;0x85c6f18b4e7f];[0x61d27e7e3b239;0x55703befdf225;0x67bfcd033a7b8;0x9a35eeba631ea;0xc340e0067086];[0x0;0x714d72c3c8acd;0xf04f8a0951573;0x52e916e625a03;0x57eb93633208f;0x129069824590];[0x0;0x10c0e325b02a3;0x95157e4ac964d;0x575785d453b0d;0xa1110221354fd;0x3eda49466e13];[0x0;0x5b7b5079b74a3;0x24df2050df564;0x810bbe9fcad34;0xea7412e87e666;0x45e8519546f5];[0x0;0x1cb84d594e3b6;0x9f1cc589dd4c8;0x69255c0fdd145;0xcbba2dac16b09;0x880c46275d5d0]]);
 ((V [0xad0225d7eab4e;0xb69de1b71eec2;0x2c9f46c330326;0x641a28ed10bb8;0x5bcecba7ce73] [0x3ff60c4e99cf1;0x6baf4c58c6ac5;0x280bada3aeb06;0xa81d877bb0fa1;0xacba783d8cdb]),[[0x7e11a71a7bd1d;0x56b7fd2de8b3b;0xe9c50a15e8492;0x11629255f3463;0xc80aff441b8d];[0x6f09769f575bf;0xaed51116cfc6c;0xd381c16c20de4;0xf3dc1ae5769c1;0xe4e15f56fee4];[0x0;0x6b21ba06695a7;0x8b91b99fba90;0x94740d474cc87;0x89312de171410;0xfed203380fcf];[0x0;0xb6a09e80c3913;0xe2e27f7028ac5;0xcc1944aba8057;0x1925c19ba2067;0x9d1862b4d4b0];[0x0;0xf7a4ad794570d;0xac618c05096f0;0xe41e1a1b05084;0x53310ee46620a;0x9c512f535ae7];[0x0;0x13a50b376fa1b;0x725a4ee8382c9;0x29954e281f189;0xf5f45df877998;0xdc89251f47a18]]);
 ((V [0x2e6ec32355326;0x607c2dff7e271;0x49d5445be616f;0xdebbe45a66ef;0xfdf7a53220] [0xd7f76f7f0d79a;0xcb2d6a43f4652;0xaaebbaa04debe;0x7afac7d0e3a3f;0x4131899d6fb]),[[0x56a686bb811f;0x1586b38fd5102;0x4cc1a0f724950;0x29582d82dc42a;0xa3f045366987];[0x2038494aec918;0xa46e10f8e1105;0xd5df7d88c0e37;0xdbe4f57027e7;0x8f895424116];[0x0;0xfe5a5687d0034;0x80581705121c4;0xb1a056b924030;0xda49b4fe6792c;0x20ecabd5b0d9];[0x0;0x91a8acc90e4ce;0x4ebfa6dc17342;0x867e48e82cb2a;0x16eeadc7a8ad0;0xdd39b025c6ab];[0x0;0xe3dfe89fdd5d9;0x2401d5e4d2e48;0xfc4767a4abc3f;0x5c875c191adc8;0x68fbd9a5231e];[0x0;0xdd8da2d09e8ca;0xf7749ea7312ed;0x1c9942e506c32;0x634a684cf246c;0xb1d1ccbef0496]]);
 ((V [0x42bcc00d6475a;0xf7b23a44bd09;0xca4f3b51b233b;0x140a97f19724;0x9c44d63f2045] [0x3372d5204158c;0x6a39233d3e9eb;0x89e5b687674d7;0xaefa4a5f321a;0x81ae236a7fa0]),[[0x4d95b0727cabd;0x89c26911514fc;0xaf50c5fa4920a;0x908c72b848f72;0xb766305c86bd];[0x8049848ced583;0xbe5fe840970e3;0xf7e555e529455;0xb50bfbd430c49;0xa49f80a3b243];[0x0;0x9b873bcbee307;0xaacd8e2564e8e;0x646b6de64c46a;0x44af05f57a2c3;0xfbf36c15];[0x0;0xaf846e995dd1;0x279c33af78cfd;0x4202114812af7;0x3ff6b0cfdcf6f;0x5d68deda730];[0x0;0x721b3a8501f95;0xfe907358e7fc7;0xd4a5354db412c;0x37b0314e72d4d;0x836341eedb81];[0x0;0x58496b8129487;0xe87d49be81501;0x22cd1009dea2e;0x5d2c7b7fde93d;0xbbe8b9172cf16]]);
 ((V [0xfb0e41b5c5d03;0xd2fe2e847f308;0xdf151ea919b80;0xdc3dfa775cfdd;0x28eff274aa5f] [0x95a3b04227cae;0xb6e71801e92bf;0x2d6fbe782ccdb;0xe57311450b644;0x7da736ee397e]),[[0x59590ee28ca3c;0x84c395892421d;0x12595123726a0;0x3c0825c73ec2c;0x39922264ab01];[0x7d1434e797401;0x928dfe024e317;0xb4eff99eef990;0xa6fd58ce263b9;0x1752ea3f529f];[0x0;0x42ba26cae4fd5;0x7fee4dde9eeae;0x47815942aab51;0xd7b3bd0cfea69;0x5f63f79f742a];[0x0;0x4ac737569b35f;0xd87a7f32c9c8c;0x1e652a6ba99dd;0xb003d7b10967c;0x3a53993e1102];[0x0;0xb5cdc17898d8f;0xc9ad644c47bea;0x9181a13794b89;0x7f26794187d12;0xcf266bc1398];[0x0;0xdbfcb05c1e862;0xd5f1d68810653;0x64b187f17b32c;0x5fbe64c2a65c9;0x3eca4054ff940]]);
 ((V [0x4dc23ad10b9f6;0xe57995c7b3f52;0x56d4bf0301c78;0x7aa63be440d48;0x198d9468828c] [0xcfc9c584a11ef;0x4817f2fff561d;0xc6def6d1cfe8d;0xe17a26d3d72b7;0xf907e365d224]),[[0xd3233b38a3e76;0x48b772d725691;0x52c943c697cf;0x76ff7cca6499c;0x64e91db20fd8];[0x49f75b74cb08e;0x9ceccc2e5d59d;0xc4b1584160e62;0x5bb162bcd0958;0x5b66af84c121];[0x0;0x4b9f75bbc83bd;0x1ab86eb6361fc;0x37d11744c016a;0xdb18aea7320b2;0x68bdcab10b4];[0x0;0xdcd491160b966;0xfe765b95723a6;0x71421032b9202;0x3ffbd66822fbf;0x630f7a72c918];[0x0;0xb1a681a5605d8;0xe1985aec994a6;0x97252a9ba046f;0xc8714b85b98d9;0x27c6f37a2df3];[0x0;0x3c382dceb5f9d;0xd5f3ac7019560;0x3e3db912fe60f;0x4319c872b9f4d;0x6b98b67e03dff]]);
 ((V [0xa6070babc2544;0x61db75997b1a7;0xa09774e5f54e0;0x92d0f77e68883;0xdaa30467d636] [0xd64d4e65a41af;0xca2182b1ded4e;0x4f1145471a915;0x8cd5ded7512fe;0xe2d9e2ee4c14]),[[0xc90c63eca2450;0xaef2e056f1634;0x96743af79a79a;0xad63df70ee39;0x2d4835c81de9];[0xc23a1c597a88c;0x4b841b7394bbf;0xe6961ad80d330;0xb64d6f07f649b;0x5037de9084a6];[0x0;0x39f45436dd9e8;0x9bb79cb121cfe;0x5fceab3605c8e;0x405055576410b;0x28cf5493aa8];[0x0;0xe86bccff7d018;0xef82d252a506a;0x8abdf2036b7a6;0xd315d5d0a52c0;0x581943044fd3];[0x0;0xe3dfbc0ef98b0;0x8bb3ced458ca0;0x6a24e41d71ec0;0x39b6a867fb36c;0x8027746a661];[0x0;0x8c1fae0d0c19e;0x9fe678055f1cd;0xc83b800f262a8;0xbbf8f19ff0b2c;0x2dfa457023b76]])]
 [[0xbf894ac47ae36;0xd2d3ec31f52be;0xe20b08fda3538;0x4242fee72b21a;0x35a0cc7dab97];[0xafb10fb5445bb;0x3ea947b3fa630;0xdc2a080831ac0;0xaa0c9eba98d44;0xd63fd81b1717];[0x0;0x94934560ef2f3;0x702c611efb749;0xd712ba58ded23;0x245aa35e69fbd;0xbaba0b4f7523];[0x0;0x3653558fdbd49;0xcfdfbea9b55bb;0x393ce7c25a25c;0x299aca013f3d1;0x5f0b32bc4fee];[0x0;0xb660fff6d9b7a;0x3b0c83613d6e4;0x36923abe916b8;0xa5aca79f4063f;0xb3bf9ac497b];[0x0;0xecb60966193ca;0xfaf934d23b953;0xb7ab7da08f886;0x82fe6db781608;0x3ad7506c53755]].
Definition wit_A_64_3 : colwit ipt wit := mk_colwit (V [0xa4e5f9e1649e0;0xb4c0b4028cf9b;0x4f74ee54a8b10;0x378ec2440686;0xde8709af4283] [0xbb1a6e8ecff0;0x558d887881b4f;0xf9fac293ae90b;0x59e9a09142d60;0xac40ce9e02c9])
 [[0x80ff5ca852f60;0xee583952479d8;0x11740061129ec;0xb8fbd46eb3966;0x2f4229c42e9b];[0x9c226805e3f5b;0xb359c7551c27d;0xf66c2c5460f41;0x13dfc0d2072fc;0x355f701d5bc1];[0x0;0xeeb6be409ca1f;0x57e901b1e3b6c;0xc056da0c28389;0xd1fd91bed76e6;0x16d9a15e94ab];[0x0;0x5e7c82aa9651d;0x9058f74b93594;0xe8fa3fcce854d;0x391e42ea42a5e;0x12a3ab8cc86e];[0x0;0x51b8256180ecc;0x54ce8b639c2b4;0x72fc28e420c04;0xa37d220a6fe29;0x8b95c6f9915];[0x0;0x7080837fda021;0x973ed699444af;0x79936e06a62df;0x3f498d890c8e9;0x3086eee71b597]]
 [[[0xa8ddd423a530;0xbe2fff4d11a76;0xe50df2cb56221;0x8b2d1406bbcc5;0xa2b2e72a84f];[0x0;0xf6625d403721e;0x57a365c65e776;0x16c02b356143a;0x5d5fc4a0103fc;0xb2ab2a3ee014];[0x0;0x830cd89b4b91c;0x39adb17d9097b;0xb47e2d70736cb;0x296f3239e7a9a;0x6766e99818];[0x0;0xb81df8ffd2397;0x15bb9203a9dab;0xcab208c42ed5c;0x27aeac3f8eba6;0xabdd204a51e3]];
 [[0x50b5a611387e2;0xe982766c09a62;0xec0dd787d75b1;0x5e57b2c385752;0x200a9b4589d1];[0x0;0xa64eab07bfe97;0xd65579fe705bb;0x4ac453a1b5850;0x5ebb51294f4c8;0x22fd21da44832];[0x0;0xea7bd437be877;0x67f79ab4c3d57;0x52563a2160a87;0x63b868d7a897e;0x402a741e210];[0x0;0xed3f7f8efe8d5;0x5ab1394bba647;0x76ae864be7038;0xfc1bf6f9a1951;0x22ba88fc2aa43]];
 [[0xc10b7692e5454;0x35641f34d2ec8;0xce8884613e28b;0xadd994e2e5871;0x194900744c7f];[0x0;0xd40cc6fb3b0d8;0x78c1e8650610c;0x301d882fa81c0;0xe6655dd367a41;0x1c26bcaa8f5eb];[0x0;0x201ebb208024c;0x263cd23ec4ee7;0xcac273df946b4;0xc59b0fbcd6515;0x27f56e7f944];[0x0;0x315da548f4230;0x643000d6bd8e8;0x4fb0848838a97;0xa2f1f0e9cdedf;0x198f1abe559db]];
 [[0x33e6ee091637e;0xcb77d7c5a7311;0x29e543b9d3792;0x317cea07cf36b;0x37681d48cfa];[0x0;0xfd40c7f8ba9ba;0x866fd4e519005;0xccae581aeae9b;0x51cff5d16ad98;0x3ad3091aceb4];[0x0;0xc6a079c2c7784;0xa2d7a2b58c62a;0xbe362f988cbd1;0xba5c7e8863731;0xbfde6ed17];[0x0;0xd53536211f2e9;0xe311198eb16c4;0x4891b7a1376f7;0x177208ff92806;0x3dc92991b924]];
 [[0x49bb6794770a5;0x4bef8286c6da1;0x7392ed4b7a125;0x7fe07fe5b124b;0x9176ca0abbea];[0x0;0x2d776c8dd078f;0x5915cf43bb8f9;0x956a451b64252;0x170fc65a46960;0xa217c1255a71a];[0x0;0xa6be9eb6f9b0a;0xfa481ddd885b;0xb5c4224e7d0;0xd20b7de8cf6b6;0x52a7c7ff0a39];[0x0;0x8a8dfaa049e2d;0x5b8538143c796;0xda2a8b79246b;0x9d225fcfe43a6;0x953ec91eccfd7]];
 [[0x1c24a726ba576;0xd8fe1407552ac;0xdad407a563580;0xe756344ccdc72;0xa36e1d489a01];[0x0;0x4519f939bf220;0xbe2670e9719;0x844468b8d3979;0x97b4ed1371907;0xb025860b928a2];[0x0;0xa9f1eb0fb35f8;0x3a74fcbe9244d;0x3ce40f92d2402;0x4db600d0b2baa;0x685568a7a1dc];[0x0;0xecf94b622883c;0x88fd45280e34d;0x9e8e2bfbb3465;0x70609c5df3900;0xb2453eb8189f8]];
 [[0x4d56d0340a708;0x8bcb73960418c;0xaf0cb837ec845;0x4af8edf69e1fd;0x5de3b933c3a3];[0x0;0x59b1913fd1a52;0x1760e5b1db44f;0xce0ce271bbd0a;0x4e62aee7168f;0x67da471d0c5ef];[0x0;0x26ee2ee32cdfd;0xa9071d6298ae9;0xbd7de9a19f078;0x73495d4905bc9;0x226f3f2193ed];[0x0;0x38bd9e2d11a93;0x768a39e0f5a09;0xaa49de19c6212;0x9696bbf8f0668;0x62e71c219f537]];
 [[0xb70966663a853;0x4deac4355bf1a;0x4d11488ff5024;0x7a6b23100d44e;0x95f063833cbb];[0x0;0xe9af81ca57325;0xf257fe5fd2ac2;0x2a73aeab99be0;0xe9ecee23eb40c;0xa47c0ff443847];[0x0;0x1ba129a84ba42;0x99538426d217e;0xbb851572cb56b;0xe04676a8fefda;0x57d1b5918172];[0x0;0xfe5160a6d227b;0x38ed52c6dcf66;0xac2db2ffa949d;0xe48e1ecc86d8d;0x9f9c5e3311a97]];
 [[0x6c31f094105d7;0x458b9c4478405;0xc3fb254a567c1;0x154d97d5b783e;0x9c81c214d60b];[0x0;0x991438399aefb;0xa7bc702ae13db;0xdba745c1f95cb;0x704fe8acdf4f;0xac00de0dcd45b];[0x0;0x524992cc407fd;0xae928bbf9cef7;0xeb485d26c2bf4;0xcf3cfa3af363e;0x5fae664e9100];[0x0;0x399e4e712fa37;0x7851923158823;0xb7fc7b18b49a4;0x8612e6b49ff1f;0xa2b16265767de]];
 [[0x4232fb2ab1381;0xf7bf71e074e6d;0xd53aa2daa86d0;0xe1baceb56fb51;0x4ad441d0e439];[0x0;0x1f92cf75469fb;0xb25178b49179f;0x8d54472ff4842;0xee71bfdf6c406;0x5084e9380a245];[0x0;0xcb73b9fcca9d5;0x64570e9e4e92e;0xee9939ab66762;0x34b6eb0e14c8c;0x15df6609d6d7];[0x0;0xba27845627a53;0x512ca3c177016;0x70978ffcb4d8b;0x119991190a5c1;0x510f486b88ed0]];
 [[0xeec616dba230e;0x1bc352f45d29e;0xa38b9cbf5a27e;0x42fe32e7bc2fb;0xa43e92fc89e3];[0x0;0x79c25f46aae10;0x1a03eea66d6a6;0x92b42d8039be8;0xe8303286b0cd0;0xb424e02802a2b];[0x0;0x910954cd2c56;0x79f9a6989dabe;0xb6a2cf20213f3;0xfe511e746f54c;0x69603b9f1762];[0x0;0xfa39a3513ab47;0x550087c1da69c;0x83a37a6ab3134;0x5a9142f2f75be;0xaa492709f1b99]];
 [[0x2d105fb0080bc;0x4a5d8d355d924;0x5881b246f6d88;0x9590753eca44f;0xf2054c982540];[0x0;0xf5d96cf689b63;0xca96225e685d1;0xdffe975d7108c;0x11516f8ea265b;0x339a9e9c6229;0x1];[0x0;0x8437ecff4d54c;0xf5ab8f2feb07c;0xb104e2a9913b0;0x3fd5903a678da;0xe4ce04ebbb4a];[0x0;0x7c0e0266976cd;0x279692a136f97;0x3b27e13416d46;0x9f02e4f75ddf8;0xfdd52f15e52b4]];
 [[0x63ddf3edc8f2b;0xf9aeefcd1abe9;0x19fc2ba4df4bd;0xa898ac585ca0c;0x2d66b99d984a];[0x0;0xc64154d8e9adf;0xfdff81afd4074;0x828eb0b8decda;0xa8c7c10ebfc05;0x3001c9e480a91];[0x0;0x42fcd5dbda195;0x99c506ca8bc7e;0x263b9209aa9c6;0xc1e414189950a;0x80d4679d7b4];[0x0;0xc63b355d817a;0xfcb249378ab6f;0x49c722929bf5a;0x146d75198f765;0x30a77f3973650]];
 [[0x5f764e61aad3e;0x2f176d7ccfa37;0xbbfcb43453b62;0x928657d1b6618;0x8976a23ad559];[0x0;0x541b837fc00cd;0xac3288dfd7b06;0x5994ae656d7e1;0x914f8a6cb9787;0x929c563293d63];[0x0;0x35e25b99867b;0xcf6276bcc4d96;0x2c3c169d6595a;0x10f199ae03b88;0x49d0309ced65];[0x0;0xb1bb62ce147eb;0xa67f21295b10b;0x4c1e253f0efd4;0x4b927da53a192;0x956eaae58f257]];
 [[0x8a9d5c932e980;0x25e25bc3024f3;0xd3e311b7d5f61;0xed64b1c7feed9;0xdb9bedbc17b3];[0x0;0x23081411e8a6c;0xa57a6ba8f1eb4;0x869ad6bfbecc6;0x20c2e00270de5;0xef9e4ab862d9b];[0x0;0x446fef0d4bda6;0x8fb6528125f78;0x96d59bd7a5463;0x5a21b81e66889;0xbc6427b98f18];[0x0;0xd07b50a7d205;0x5cad2154541e7;0x5c312ca1fb32a;0xf3a24c62e9620;0xea7785a28f6a2]]]
 (V [0x4e95bade8dd29;0xe228db604fbdb;0xc2e763d65f31e;0x8c6048b7eb7fa;0xe78b83c002dd] [0xe009004617d4d;0x1f118fcba523;0xa2966593d94c9;0x548bbd682cdbb;0xb9886fceb4ee]) [[0xdf01d79d4d2c;0x705a03abbbc72;0x6b17c33b54b10;0x2787b4cff027c;0x15b27fcf016a];[0x0;0x197e8dde07336;0x19ec0dcf023c7;0x6a7982a08d704;0xc1e29cda9a8db;0x17032cc108c5d];[0x0;0x90d3655c8f5c2;0xa40b02d2c3e7c;0x85d41c35e96ff;0x6ce5d94821c10;0x1d6c56df1e8];[0x0;0xd1553ac7bd04b;0x48e6465a3f55e;0x11c4b8ac3ceb5;0x505895454690a;0x1645dc117f4e0]]
 [((V [0xf0d2967acd037;0xaf0d760a2d29c;0x622673f7ee3bb;0xc8037112a284;0xced2aa67bbd] [0xfc10a3ee36d4c;0x29a06dccfd3a3;0x99b50526d7487;0xecdaabf0c384e;0xb190d4550dbe]),[[0x57b3c2a3f4314;0xb467d8aa6befa;0x9525858bf2b2b;0x3d3a95b40dc3a;0x77768589d2c7];[0x42fc11fbe5ddc;0xfeb9d5783a359;0xbbc5354ca3a;0x3fb0e3fae580d;0x4e4afaffc0ad];[0x0;0x164ec8087393;0xeed769a99eb3f;0xa09e8b68a9e8;0x2df3dd03380a;0xd16d13ccdb7d];[0x0;0x49e95e5bea820;0xc3754009a31a7;0xdf566ffab8415;0x73da0a266d342;0xad28a348c87d];[0x0;0x288ab4ccea811;0x7847d2cb0264;0x623cca921260d;0x9cf35994a8e4;0x37bf670582ac];[0x0;0x19649c4ba905d;0xb2d9ffa405a22;0x6b434fabed0bd;0x71a533e94de84;0x854e3b098e5d7]]);
 ((V [0x239af925011b;0xe210c58368cbd;0x365427a5e35be;0xeade926ba72f1;0x290788c7ec50] [0x96324d42f2ee5;0x3baa977088788;0xb2a1cb12967cb;0x52b9996a21829;0xa86f7a0862d9]),[[0x26365c0ec1a68;0xbee639621cb85;0x37f2dffa116f9;0x1771ca77c2189;0x6ed15983e5c1];[0xc71690d0e36c5;0x7426d8cb0b310;0x3e6f06c465b;0xf12360dadaefd;0x16194774e7ab];[0x0;0xe0bc32c2ecd4;0x5df681913d1f8;0xc150bdb09c7f5;0xe213e7a50fb38;0xa717b79af5];[0x0;0xd87cbadfd88ab;0x3793ce090c26a;0xceb5f45d5b876;0xf0abae9dd4aad;0x99bae1217745];[0x0;0xc1d07434051e1;0x5b3fad3045c38;0x65b0baeafa480;0xf2345e9a52a7;0x2ff89420a21c];[0x0;0x74b21decd4f11;0xcf713a0cde25c;0xe72ae9b511c4c;0x88619a742de1b;0x74fbca1f564b5]]);
 ((V [0xbd84b65841c1a;0x260a0b37f7e18;0x2e9beaa756558;0x90739d98408c3;0x1b9dc7181b30] [0x74d3db684f43d;0x96ea30e6a6c4e;0x66a2d0063611e;0xeb07be2a1e957;0xf66572652651]),[[0x5123728f700b9;0xae2170e026830;0xb1f96c3933e90;0x1520bcf6822fc;0xa2dad4a95968];[0x743a7647867b9;0x633b30cc8659c;0x6b5f22173dc3f;0x84a0700950a7a;0x3f034c8aa23a];[0x0;0xac128f0761be0;0x5938184899d53;0xe571356f0338b;0xdedf5c9169a83;0x6936a08cdb5];[0x0;0x8e008251d2cfd;0xdfb5bd793ba4b;0xb488e22f486a2;0xe2d8984da5824;0xd64d0c25ee56];[0x0;0x3ab397366d1c7;0x1bed6f811299d;0xb4c4a22096350;0xec1cf88d77cde;0x6799b035363c];[0x0;0xc38bd7cf7374a;0xd60570b6453fe;0xe601447ad9738;0xa49946c096e4c;0xad910830395dd]]);
 ((V [0x1d4ba9d3a6e21;0xc83520ba4f751;0xf73f315fd1868;0x6fa2b4d91efb4;0x1e8f25e7077c] [0x6ad56c9a57ba9;0x5c31970ad4be5;0x65b853bcd88b6;0xba41204bfafea;0x8ee5ed45c494]),[[0xd1adae40812cb;0x515720c79172c;0x4f92ee6c7f99a;0x95cd710aa1905;0x207934551fea];[0xd80c885112329;0xa29932e56ddbc;0x223f91bbdc2bf;0xc8b20e8ec1185;0x82d92db5cb04];[0x0;0xdc347728541bd;0x348d3861ccead;0xfb54e94cbd458;0x14942d9f86bbd;0x2faa93ce424];[0x0;0xb911c724c6ba9;0xddf4d10e05f22;0xb9a43bb118003;0xe676062c630f9;0x3e82ad3c8079];[0x0;0x3f5fff07f0afc;0x10a361597d5c5;0x6fc90aa9e212f;0x827a7b151c082;0x41e8677cb25];[0x0;0xb798f1e6f68f6;0xafb807c2ad421;0x2776f6316b093;0x5759b27ec3042;0x227ace91d6f78]]);
 ((V [0xa2cccbe38b996;0x9cc4879dd858e;0x2e225cec5fc93;0xe6a7ecdef8367;0x41fd079c35a2] [0x24d60ee2c6327;0xfae84b54940e2;0xf3104659c19f;0x4f2b278fa3608;0x3547d3ab4f02]),[[0xfe6e478106a55;0xc9b3b77507a5d;0x484fe05a6efb7;0x849a70eee1c28;0x3340d8d586df];[0xd83d62c1e5e42;0x21e90c6ea7aad;0x56b91c71812f6;0xdf327e56a0dec;0x1a524d51a461];[0x0;0xfa8155ab3fbd9;0xf88aaedb5327e;0x25e11490ea006;0x1fd755377853e;0x3a5dced8378];[0x0;0xa3251d65fd120;0x135f5d69edaea;0x71f9650ae0103;0x5b691df7bacd0;0x39380192d0ca];[0x0;0x96530764c6c7;0xf662ceac8fc57;0x485a32d92f76e;0x844abcfdaef16;0xa42e6d23629];[0x0;0x9ecbe617381e6;0x9af51b167b058;0xed62ee7e9190a;0x7d075ee0b8d38;0x3603688bc2bd2]]);
 ((V [0x742d890a1d499;0x21e9092969889;0x85b20f4370426;0xdc74bd979a573;0x68e3f247d621] [0x76a01b8423fda;0xcccfe55ef16a1;0xe2d2ce510d64a;0x7f1c13cd1f50a;0x4084ae48d028]),[[0x370161b805248;0x29afb30b6ba07;0xc782bfe3860fb;0xa2600fe6d51f1;0x1d14ee4e7854];[0x4d3cd27355480;0xd91339b045f59;0x307338b0d683e;0x4e6d558196b28;0xf13090b292];[0x0;0xfdf520621a03c;0x3605239470531;0x7b5af96597d8e;0xa75d809691896;0x110277f55e38];[0x0;0xeb774b66cc384;0x20223839dc795;0xf7f22724fe6a3;0xf2c2fd314a1c0;0xc1afc601a18];[0x0;0x5764fd3636cbd;0x634e954407cd1;0x32ff4185e79b4;0xf9ce0ca9ccaa4;0x34dbfb3e15b];[0x0;0x5cf1565495cb9;0xd523aab2e6239;0x3b9bc8e78fa10;0xb2aa8a6c3b6c5;0x1e9f87c5f9c37]]);
 ((V [0xea2a8c2b4d769;0xdf33631383438;0xb230bc3c70fe5;0x96d3e70b9bdf2;0x51515f971831] [0x4f34e8ca158a8;0x3c6fd30e3bb49;0x957da5724341e;0xf7a97df903d20;0x7bdeeebd90]),[[0x6a8f21f52017a;0x89c684302527d;0xff0db2866b276;0xa509aa5c2088f;0x8becd25ac95e];[0x3a814a23c189b;0x2b19a80d081e7;0xb7e7825b8cb5;0xef57b5383e64f;0x2cc0a3097096];[0x0;0xd1c7107a3929a;0xfc4132cdabc07;0xf47b188f66ecd;0x282c4fc508841;0x2af9ffd1eead];[0x0;0xc9c6aaca0bd15;0xe39fabbedd381;0x642dd9ec3829d;0xd3b5e27dec744;0x468773ebd905];[0x0;0xa2c82b9a151df;0x9b62767a7a91f;0xbb25304433913;0x204a4487cda27;0x4c7b07831ae9];[0x0;0xb8425d4ac036c;0x97cf698b61ae5;0x20ef5023a259b;0xdf15b2e2a8797;0x9579c5c2b29c0]]);
 ((V [0x364c21d96e6fb;0xf6fdf169dd7f2;0x1d527de982b1d;0xdec1d55ac0697;0xf601890b8f12] [0x7089dc1ff30f3;0x1aa5838e27eff;0x1fb0c3b9e6073;0x814ababc2bc0c;0xa0b76602410a]),[[0x909df4e155f37;0xdf7e64f37ec58;0x12bf616584b96;0x2df501e81e143;0x3a856f1f40e4];[0x5929343490a3c;0x1d4fe241130e4;0xe76de0c68befe;0x46b7bc8214f25;0x7c643085e4fc];[0x0;0xc5b04c9058c73;0x1a3ee302b5227;0xb349ebc07c6b8;0x2df5e5081753d;0x19d4985b3e9e];[0x0;0x99930b7ad8058;0xfaaceb4790a26;0x58633ab8811dd;0x7b58b49752cc5;0x38a2255b88];[0x0;0x964c683ad409c;0xdebfc39592e70;0xd2f505fc8b4d8;0xf0016d01a42a8;0xd60bbe6d01c];[0x0;0x88dbd996c21b8;0x81fe1fd778f22;0x4a4afa89749e3;0xe67627ca06aa3;0x3bd36a0ace5a8]]);
 ((V [0xcb123215ff572;0x3530d4f81fff5;0x78a38fe8b5203;0x428beaf2dec7b;0xf0fd717156d8] [0xaabe733551e71;0x92a9e20bd4ce9;0xe1bb044065afd;0x9075a0a33d3cd;0x1b168e7bcb67]),[[0xdacc27992f099;0x84ddc9a622314;0xa9d774b49c342;0x253571cfbb6df;0xd14496c251b5];[0xed029ed49fe87;0x1cb3da0cfeb1e;0x752f2b3fb94d9;0x7f15ac506b8c6;0xe871fcfb7746];[0x0;0xd5dd00f96173e;0x3715c9b5dbda8;0xc815b5af8b03;0xc1ea118ec5c44;0xec66f364926c];[0x0;0x954b02474f4bb;0x6efc16f856a35;0x41bf78bf53c55;0x74ef62b639e29;0x106c19348c77e];[0x0;0x13c9349322b5f;0x1041c4c9b879e;0x9201739adcb85;0x7a3d4074ce7e8;0xab111089b96d];[0x0;0x189ae36f0d434;0x5c7ce616c5694;0x8d92f7ee95c7e;0x598e24bfd7a10;0xde9a7b236ce6e]])]
 [[0xfab0b0b8a55ec;0x598d52a4c200;0x7908417246f8b;0x108e6acf93a0f;0x532c0049e236];[0x1520805a70c;0x6ecf26b118460;0xb539c46f5dd94;0xd0ae6ad5a15f3;0x7f01c737e0de];[0x0;0xa8e77de352508;0x924f8fa8b5f7a;0x13d078e514492;0x651294360e190;0xe2dc2f9def20];[0x0;0x3df58ffbfb960;0x3cd649efbe0ef;0x51b45d2d8f85d;0x9a77947646224;0x1199f034e32f];[0x0;0x4406551e8d892;0xf6de081543193;0xbfcadf0b4503d;0xe6a4d4f042f47;0x1b058fc00214];[0x0;0x24e7354bac05a;0x57d5cfd17a5a7;0x757148fa66ccb;0xcb5e115f46d5c;0x59cbe7cda3df0]].
Definition wit_A_64_4 : colwit ipt wit := mk_colwit (V [0xc0b8e34056222;0xf80ff42d03e53;0x3f54fef837c6f;0x4a4974a2eeb94;0x9625f2c321ef] [0x3efef883dc0e6;0xd65016029bbc5;0x9f3c0c222a17a;0xb35175a39acf;0xbedd53067627])
 [[0x863464ad7b107;0x32bcf7b98399a;0xbe3553fcf2852;0xfadf95597a62c;0x35198af31abc];[0x1629519d957a9;0x7af71282bb786;0x1efdaa742ddcb;0x44be76e23a9c9;0x64d0a8906b6f];[0x0;0xf98564744431d;0x2bf3c06fc39f1;0x17029e37a7b38;0xb2d8ab8077c79;0x71e19d06fbd1];[0x0;0xef7fd87ea2c11;0xffb0efe64cb55;0x748e8649ccc12;0xcf5c2988f55e1;0x4c7f45e217c9];[0x0;0x55b96c0641d05;0xae88388ab4348;0x81bca535a4ce3;0x7879178a7817a;0xb03961517f8];[0x0;0x8179739d1952e;0x45645da4659cb;0xca023f0c9a62e;0x131fc5b1c3c7a;0x38af7df862378]]
 [[[0x79b760c65c246;0xea21dafe512d4;0x5c1c8b175293d;0xdb31666e44f3;0x7db736a1dec0];[0x0;0xa671f95a8f03e;0x280a03da7a85f;0xd306399b58c21;0x42cb3cb70f20a;0x84f0d61746e9d];[0x0;0x1fb579c75d194;0xa3f28832b6a4d;0x1b26b38399ef9;0xb4476f14f29c8;0x3dbc6e793a9c];[0x0;0xd92de3773473d;0x4ec56e1318d9f;0xc20a6e264c32a;0xf37d2781c3626;0x88da7bf1fa585]];
 [[0x1a60ef35bbc41;0x4f4c36cfb194c;0x9956a81ecee32;0x22c36bc25fcbd;0x849bbe709150];[0x0;0x11f6707ff9686;0x815d5bdbf4b3;0xc1004a3a9be40;0x3fb999aa2febd;0x8fb0a48016c57];[0x0;0x2cd444166271b;0xc03beed51be6c;0x87001eae74fff;0xe4160bf94f942;0x44b0fb243fd5];[0x0;0x63e439c3f543b;0x72a1eccfcf09f;0x516c11f89418;0x70be4162075c6;0x8ca0629e63208]];
 [[0x2b1f30fcc6b59;0x8e1adc8e076c8;0xa26f1310bb0e9;0xbbeabe297d3b6;0xb7b82ff770a0];[0x0;0xf7c752741fe24;0x3c79c07304d7f;0x699d9ec436923;0x60fa2526bed9;0xc6b2c93408e25];[0x0;0x4767d0cf3df1e;0x3152c7ae5fe7e;0xcfa88f14e2349;0x7e3d4a0886d5f;0x83d8d918bfb4];[0x0;0x8d0816e9fca6f;0xba0afa41b71db;0x3038251df07a6;0x28288d694a289;0xc3091a88e2ae2]];
 [[0x7427176ba2ded;0x12abe97d3a96e;0x73e30c8252407;0x27096a6ac3515;0x2d9abc755be];[0x0;0xfaba5c494533c;0x64ae7e6d2c666;0x410d21d37fbdc;0x269a09cde2529;0x3148051ce195];[0x0;0x486696726144b;0x403f6b44b41c7;0xc5ee27abaca7;0x3cbcc61f2c04b;0x81fc3c88a];[0x0;0x57f535c1062dd;0x8c38c3ee18c69;0x91e10413d3150;0x7901ec6157c86;0x2fd9d6df153a]];
 [[0x89efd504fe906;0xb32639c371bc9;0x8cbdd4e200c80;0xa3eecdab96156;0x5f753bfa0095];[0x0;0xac25a17feff28;0x349e2c614e8b1;0xf36da3a7ea089;0x88bb17d6930e2;0x65e3f76344e99];[0x0;0x8b8f523e36357;0x412c1da363b5e;0xa9d7b1f31b364;0xc8dd32c1f0ea1;0x239838336d00];[0x0;0xd184ac36a6099;0x3ad99ff6333cf;0x8fd6f9082d582;0x8c7896f2185c5;0x62be131cdd462]];
 [[0x839eef52e5b00;0x648306f18dbd3;0x4a79ce8b3e070;0x5be51ac82329a;0x1a65b8540dd8];[0x0;0x6f2097eba8765;0xd053eaf705e84;0xa802cafd98349;0xcdd32bdb6bad3;0x1b6f42a0f28a3];[0x0;0xf1065e19ea4ba;0x295a7f44c7070;0x2831b86da8fa9;0xcee3270d1e19f;0x2b8d1dc09db];[0x0;0x3c6b73274a4cd;0xcd82fa9c6fb65;0x7f638aaf5a70f;0x432ca9e5848ba;0x1ce387d1c67c1]];
 [[0x892cfce1e4c22;0x1e000eb2f8c87;0x863ca1f731e6f;0xf9526d8bb75fb;0x9a5f514244bf];[0x0;0x3d91b10de4ab2;0x8bd7b8254d2b5;0x8c572ed697544;0x6e2d4d8e1f87b;0xa55c2d95c93b1];[0x0;0x682a6d410d154;0xbe5ddd22b7d2;0xefb2cd2b5184a;0xff1b3832aa8de;0x5d16d14123b0];[0x0;0x40426e315e7cf;0xfb9a24908ae17;0x9de45a90ad8f6;0xec347a3df879;0xa794c9d9e51eb]];
 [[0x5c38ca94d475a;0x1494560ad8893;0x17e24fab4d9d1;0xc72dadf3b289b;0xc3a76711af];[0x0;0x5031b48b2096f;0x8ebc439b689bc;0x9d61ac44d625b;0x2570afa047ad4;0xd617bbac641];[0x0;0xd9f5047b6faf3;0x8b21d74062de9;0x753f4079cf5e6;0x945c021fb21de;0x9588747c];[0x0;0x8c3c9054e08e6;0x63183f440d66d;0x22902c0609364;0x4e6b31f77568d;0xc608cef7cb5]];
 [[0x6a21e0e9b333a;0x73c7344f10f0b;0xcbae37e7d2bbb;0xdfd74a6d4452b;0xa76e64008cd3];[0x0;0xe13d926e8f81f;0xcc3a2c7c97096;0xd876dadc1ad2a;0xade49809dde77;0xaec86c5ccecca];[0x0;0x25e74f1868e71;0xbf5b4f5d0e92f;0xbba46e1ec138;0xe2251477235e4;0x6d813612cf45];[0x0;0x26ec2be9337be;0x5de31d163cb37;0x2c15f3ded6420;0x1c9f2f229a971;0xb0b71a382f628]];
 [[0x660e2a9e954e0;0xa0365debc295a;0x3903c93d25e67;0x3c9abb41d21a0;0x476e98782c49];[0x0;0xe315744d74489;0xeacb514740444;0xb14dbae951dc0;0x9c16ca849df8d;0x4a109cdd48884];[0x0;0x852e19b880ef6;0xece0cc0a66a59;0x27f3f3c1f974a;0x9b8e6d2140518;0x13ee885a0aa5];[0x0;0x26cc8b465d4e0;0x2c7e787dfdb79;0xa5f1b2896aa1;0x7a17f2a5417aa;0x4f651cd0f05c3]];
 [[0x605e715845685;0xffb166ea6d317;0x2980f1c521b46;0x926080a4e1aef;0x2118b3882767];[0x0;0x169d5d572f392;0x1e24a1653a03d;0x27e24b3ce77bf;0x843a0542e4710;0x23eff3afd003c];[0x0;0x320dc58b14cf1;0x17acbcb1e5e53;0x2af1a183f97bd;0xc6ad0e11d4093;0x44760ab4197];[0x0;0x640711a22945a;0x3957b8990aa12;0xf29020b4e7209;0x52ead6290b141;0x22b6537d906fd]];
 [[0xd69b979732a8c;0x2f7f2a1981a7f;0x793c81bff878f;0xe4b1dbee315a9;0x4473a2d37f5a];[0x0;0x1d698410e0c14;0x10a11d80621d0;0x51cf78b384007;0x25ebfa6d1df0f;0x49640545d84bd];[0x0;0xfa13418399036;0x34ca3a011cccf;0xa98f8064a191d;0x11122d4388f08;0x124da2bc0d3d];[0x0;0x3f5975b45d1bb;0xeea88923e5561;0x276372a083df4;0x4b9ce7cec4fc9;0x47aeac6615e1e]];
 [[0x2ec9f74a2ba15;0x53d5f3f946b1c;0x447756db0e0ea;0x77d20be76d97;0xa78258436fbe];[0x0;0x895eadf55ce88;0x89cc0f6e089ce;0x6cfd5c9959efc;0x5db45f351db7f;0xb10825b6e41ef];[0x0;0x559ec610f7a6;0x36788fd32ea28;0x50e448c49ea9;0xd95b2f320a102;0x6d9b5185beb5];[0x0;0x846bb29799925;0x1deeae2e227c0;0xf735246cb146e;0x3ceeb01eacf8c;0xaf1023b44aae8]];
 [[0x23558dd8e4da5;0x474f4d4e51d83;0x51190599fbf9b;0x3f3e3de7b7479;0xa153e538e866];[0x0;0x16b48e920f3f6;0x39af18b316ef5;0xb79ff264c5f37;0xfc45ba6c966cd;0xa7b0ed8f7b1f8];[0x0;0x8ea8392cbbbf6;0x51c7939981c18;0xa9e0368dba0f7;0x2a46b9141a3bc;0x65aaa1d00476];[0x0;0xd1a739a8aa81f;0x2f0c3d7ff9eff;0xdd9fdb06e7a86;0xef9a2904a574d;0xb0ce42fe394cb]];
 [[0x8263308cdd28e;0xd1bad9db44c0a;0x341478e332c9d;0x3a9b1f89cd8ae;0xf5d0e7c3d3b0];[0x0;0xaf308962eda8d;0x448b86c75707d;0x36b898316dc7b;0x858d4f7a1c5fe;0x7bb7f67fbdfb;0x1];[0x0;0x2853675b96b9e;0x65375151d4035;0xe3f3357b116c6;0x4c605dba3882e;0xec098616433a];[0x0;0xf9c4d734cb1f5;0x3b7cba52ed128;0xb6cde5c21ff79;0xf4bd3f8ba1443;0x915c1204924d;0x1]]]
 (V [0xf63de7b05a5f8;0x399c7091463e7;0x10fab0fa80609;0xc02d111920969;0xa3140c8fafc5] [0xb6a569529e252;0xf2bd79043c722;0x6c4f61a83b2c7;0xb21ed4d0b43db;0x1d44f6cd89e0]) [[0x806716040c2bc;0x70add76af367c;0xbd6843872bf6b;0x28275019c8fab;0x1ee18ac8f685];[0x0;0x8174b29b68567;0x87956f2254e28;0x13c27f39e4c7d;0x31307124d7cd1;0x21c7179836f0e];[0x0;0xd045d5377d5a4;0xe2a7c1f543974;0xed3e878b11b2f;0xd303789e26a54;0x3b9a33c5a45];[0x0;0x85ae3a4f85caf;0x1a38dc232a9e6;0x33757b4a0576d;0x9a4ac49289a7a;0x1fe6fb0deffbf]]
 [((V [0x5ee57eca9fd45;0x7e33dc9249fa0;0x2ad4a39bc1359;0x59c1ce729e7aa;0xcd862f8bd94e] [0xa14acbdf628eb;0xbf592ebb78bc;0xd24b88c855166;0xdf427e1a4872c;0x8990cfc915a4]),[[0x9fa5f5b67aa6;0xfd72a9f93625;0x175d5224e3aa7;0xe98716559e167;0x41c4d01c6c73];[0x6def8c841acb;0x4c75ae0b70fd;0x603c2aacb920e;0xa5c5df43e7076;0xba56dd965640];[0x0;0x5f3b14008ced3;0x3da4905fa8492;0xc6170e6e8ded9;0x12bfcc718cdf3;0x67e28990f0e7];[0x0;0xd30f52bc8c915;0x9347ee9d000f0;0xcf9039102637b;0xe92147fa41f6f;0xf0a0684dbaf];[0x0;0x6725bce6e54e9;0xfb16edb88cd5d;0xad81c317649b6;0x217872fa48bf1;0x10e588fdc3c7];[0x0;0x453350113c979;0xa8a4c3349739f;0x5a34e09fb5d98;0xf2503978e8d86;0x4532a351cf132]]);
 ((V [0xa2ba3a2866919;0x88636a6eb9e8;0x8ca17a99bff34;0x15c9fa87a49d2;0x3b69ff71a721] [0x2332e26463292;0x50c6a3abce63e;0x96b5e44aa4baf;0x3e1f380e4e9e9;0x6577d95849c1]),[[0xdbcd23f8d997a;0x61b80215b04dc;0xa9862ff1edb87;0x9d581d5d28419;0xece688de0818];[0x42f1504ba4809;0x38e1228da718c;0x7203816d89843;0x73e80e5636e2c;0x5c8ac7b58ee6];[0x0;0xbee8692a3e9f0;0x2aef1dedf8d79;0x92569fb911d7d;0x9ff6d4084037f;0xa5002e7bc943];[0x0;0xe1b3ef03e25bb;0xf457dbe035d5e;0x43db8c2b94bf6;0x68e2542db353e;0xfe9ac26899dc];[0x0;0xd7c140b354ba7;0xd70a6b03dc93b;0x652ccb6698bdb;0x9781629895d69;0xdb39dbf39710];[0x0;0xe5c71dca24d7;0xb359015aeee70;0x22f064b561930;0xd17ff28a5e1df;0x4284a6879a0b;0x1]]);
 ((V [0x4969730e98ec2;0x441d47ba65469;0xe50b4cd057549;0xb4fd6dfb718fe;0x5701306ff790] [0x770fdca26de67;0x380699ffa9922;0x3f0beaf71f06f;0x40ffc3ae4dd27;0x9c6395627c40]),[[0xa13d6bc4b0eed;0xaf9d9404a1afb;0xe85a33d9370e7;0x60bdce8a3493e;0x8100027197c];[0x776b5cf788b56;0xa7de949be5b73;0xaee2e9864fa24;0xb44eab44030c2;0x72a17705c716];[0x0;0xe9834d046991d;0xad5191d66479f;0x43358e34f820d;0xf697dae3d5430;0xdca07a1ed27];[0x0;0x96afa30780ef2;0x5bdb156cd804;0xdcadab95051f4;0x862e55eb99e94;0x6642cafae5d];[0x0;0x4a0c533d15d3;0x4040904d9b016;0xe482bc507a9b1;0xfb90bb1175b7a;0x410102767a];[0x0;0x6c53cde0efcfb;0xf812ab2061053;0x44a120e42298e;0x46772f0e7237c;0x88318f997812]]);
 ((V [0x4613e2a65408f;0x520d8bde39cff;0x2f0cd7b0cdeb2;0x3d2ea398afdb9;0x341f9682bdbf] [0xf784c302267dc;0x3b24fcd08b7ff;0x30e920c7bf838;0xfc6dfb8f9842;0x8f761cb448f6]),[[0xff34cc57db137;0xe7ee6f8932392;0xc0fe7c53e65e5;0xba75033fd5fe8;0xccd4d45f0a47];[0xa6e896c39cf84;0xc0be2291c479e;0x8b4e87ba79d4d;0x6d810de4be01a;0xc5556ddf50bd];[0x0;0x8d7dcc1f85080;0x879a20a112a72;0x90979435ad639;0x77f48d804f378;0x1d91ceed844e];[0x0;0xe7568d043272e;0xb6d165dad1e8a;0xa69955618c48;0x999e2539abe7c;0xfa42be7d6f07];[0x0;0xef7febd175f2;0xfb999d5d511f4;0x996c6f5d74b6e;0xe446bd72fdac5;0xa3e3e367e5f8];[0x0;0x6069adf6382c5;0x6571ae84c374a;0xb610b5f20a860;0x579bf4267c114;0xdb60ae0bbf7e1]]);
 ((V [0x89b7bc975afed;0xce5b7796f95b2;0x8234ef9037bfc;0xd749d05351486;0xa80b658d09b3] [0xa8263b6168100;0x152e7792f7081;0x4b3f0d34c5a9b;0xe3851f2809d9f;0x768e2c24f1b8]),[[0x56e01bd453622;0x950fa9c242b5b;0x5267edb9ae175;0x7e2f41f59bb20;0x799409c2e3eb];[0xfa958df4e81f8;0xcdba89fb7b863;0xd14833220eb10;0xa45bf076de02e;0xd05576c16b];[0x0;0x13c6de3c3807f;0x1b5a44f42ba23;0x7ce28f5c63aef;0x1e4d225260b41;0xa9cd90ae93d];[0x0;0x78bef5a3cbb2c;0xb373c75c42dbb;0x47cb56a1221ac;0x8cf9c76b05cd3;0x884392a459e8];[0x0;0x240ea7337616f;0x5b620caea07e1;0x3d60f4b6600b2;0x6df75db47dd64;0x39bd46d5852b];[0x0;0x937857abcc9da;0x66d0f1b4b32db;0x49be5e30e92a7;0xdd39a2cfbe411;0x7dbc728560899]]);
 ((V [0xd8f9a43421a09;0x561e7ccf1c031;0x1ecd9dd330559;0x77c5aaa221a65;0x873765be39a8] [0x524b4d3f89129;0x33ee817f14c9f;0xf5d6b2a32e836;0x783f0849ed21b;0x3157c11299b]),[[0x6f5d44c62e31a;0x6c64ceb5b55d1;0xc3176feebcacc;0xf07f22ee3d921;0x8f5930fb554c];[0x451cdd07834fa;0xde5dce046844c;0x334d053e7fc6f;0xfc22b0d38360c;0x836578b59061];[0x0;0xfc1deaed4d2e9;0xdc5b16d48e9b9;0x5be380d5f5619;0x7760fa1ecb033;0x6e4ef5caff23];[0x0;0x319d00ab27032;0x445184ef85e31;0xd2017fbcad608;0xb84f53e2436d6;0x84c5718a1216];[0x0;0x2433834ffeb67;0xfbaa6dc4b26c4;0xbf7f765545c3b;0x7aea7ce7e7abf;0x5044c3cbe16c];[0x0;0x2cf57c7826793;0xd5dbfd36f69ff;0xc030f455eecf8;0x7f3f1ed2a23cc;0x9974e1c9119fb]]);
 ((V [0x9611667f5428;0x9f29aa700641;0x7c5e90f586376;0x24f41ff8e1c96;0x41d3ac9bb640] [0x794610002ac30;0xf0285f9f6d137;0xcbbe6a3d89f88;0xda60909a57034;0x48002d302e6e]),[[0xabfd0021e3e96;0x1a3197e1d325a;0x543b08898fe22;0x6cbd10be81726;0xbf002bebf6f];[0x1affac75ee7c1;0xb5aa8d2cf1d;0xf8b1ca3d31583;0x368c04cdc2148;0xb5c2d12a0c35];[0x0;0xc2f90fe3029f0;0x85677026ec4d2;0x88bb61e6daaa4;0x1b8e827687688;0x476b794b80fc];[0x0;0x46ca2bb123713;0x103d32f554d89;0x47f29e41d10c6;0x8c58f35463e6a;0x49a1030832];[0x0;0xe24625281aee6;0x184b4239c38f;0x9207b99886bb9;0xd62982f95fbf;0x8e81418a22];[0x0;0x44dc079a0e301;0xc020806b33920;0xb058e20706721;0x2d667166e43a6;0xce2c85db3dc0]]);
 ((V [0x8aba4d9aa8220;0x33218a047c5fa;0x66a9cae9509b6;0xa502cfa641651;0x8e3af87df6dd] [0x1a5d253d537a6;0xc1e382bc311b9;0xd4cda48870ae7;0xc9b7d3c0b4684;0xf1eca24f7e29]),[[0x5af53b6dbbe5a;0x774d7675a9689;0xbb2bf7405cc9e;0x90a06561baaf0;0x2a8425503558];[0x4b969e4ce4b1e;0xc42ff94b9ca3;0xf8428d6c9acbd;0x5e57427677d65;0xea12b6d4ab5e];[0x0;0x647c34d58262e;0x59294f9a39fd8;0xc570d33cf319d;0x9c1d47bd261f3;0x10ed2cad0f9c];[0x0;0xf86554327c1fe;0x6e748ab6377ae;0x85610b4370496;0x51b163dfc9c3a;0x17ea63ff941a];[0x0;0x520da4d5c2aec;0xf1d72592c8bed;0xb5afefa2420e9;0x5b56c2f32a1db;0x70fa074d1a8];[0x0;0xa91d938b74c10;0xe0665d202eb35;0x19903febe7638;0x37016fb6cb5ca;0x2c616177a6d73]]);
 ((V [0xbb3fc4fe003ba;0xbca6e5e9c40d2;0x158a9dabb1b31;0x9d79b0df95ee4;0x1cb661027495] [0x10ed7db862bd1;0x7248b3cffd010;0x6c4c4d01f7d0;0xa1ea8882e6084;0x5bbea6681191]),[[0x2c7421c574446;0x209e1da56a246;0x1e61c683188b9;0xfbed201b524b2;0x73b3e929b38e];[0xdc4808897b613;0x96f8e14c45a3d;0xa5c3b92bfd6e6;0x7d5b8e6cd77da;0xe37a562d503c];[0x0;0xb829bbacb491b;0x2dd26cc3283ac;0x606d0b68712c9;0xbc655d9d7fa6;0x4f0579414826];[0x0;0xe795b634ebe3d;0x9684b435c2f72;0x56e2cc31146eb;0xd46f279e18f8b;0xdaaea36df723];[0x0;0x4961e146c7766;0x2567dc625e711;0x7f3f115785ed1;0x7ff0a0c70cb4a;0x344b21eb5c00];[0x0;0x540efb962df41;0x7240822f4133d;0x452c46c15ea1d;0xf807f506e49cc;0x7e240d2eb7f1b]])]
 [[0x97aab865cd8e5;0xb77e25f5f6175;0x4471cc7129f67;0x70f52dc76528a;0xba584c7d3702];[0x48fe26396081c;0x742f4e5ec097b;0x54c657522d2b0;0xf41b70e1868b6;0xe05f2b127705];[0x0;0xd8251e43aee38;0xb423f19c4aa78;0x8fe3566f010fa;0x5b8df07d02cc7;0x33867269dc1];[0x0;0x5af0bd3e7564e;0x1b05728f6bf3b;0x50c963128c78a;0xaae99e79ce2c6;0x859053b4937d];[0x0;0xe01a729ef3fb1;0xa62407acbe9b8;0x2c90963e208c1;0xf3ba265b27410;0x87a46d9aa0df];[0x0;0xb1e44988e5607;0x2cd1472fcbba5;0xea35f0e70516a;0x14bf337a98f15;0xc4368ad63834d]].
Definition wit_A_64_5 : colwit ipt wit := mk_colwit (V [0x9915506c3097c;0x48bb94cccc86a;0x31e6246bb341;0xeccc87ce12042;0xac872ff43560] [0x26e03f46017f4;0xa892082ed8ba2;0x828d3890d790f;0xdebfbb90d5f43;0xbea71e11beff])
 [[0x3e61f541aa6da;0x86814996a64bf;0x3375330cbaaaf;0x197705d8e5aa7;0xf8ba828ef52b];[0x8c5d0f36bda8;0x816b9988a923c;0x6398f41361c5a;0x505ed005ee285;0x52d2286d0868];[0x0;0xa941b5ffe1004;0xcf300aec1616f;0x90556b290cc7b;0xe05d8a58ea535;0x11f54c5cdbbe];[0x0;0xb27836b78d368;0x9876769605aaf;0x2e56206b35b53;0xa7c9db6db18a1;0x167331bb088a4];[0x0;0x7940a8d9434b4;0x9d3fa6c004df8;0x280189fa3ce1a;0x44cc48c164222;0xf1a9e4d6f555];[0x0;0x471c7dddcf0af;0xc2efc447763f8;0x56b179afdb42b;0x8cfefb8e1d9e5;0x1ea2a5cd7f50;0x1]]
 [[[0xca315fb56ec18;0x586e9b2672239;0xd716d2f44d226;0x9931ef15ecf4;0x48ae3563cc9b];[0x0;0x1e86e18b42116;0x7f0c5d4ae9801;0x240795fc93a2f;0x257a0be2ef7a;0x4f14cfd289192];[0x0;0xe85c169ecc4b2;0xfacf482b55b8a;0xf22121e97f740;0xd1c3dacd9d326;0x14a27494c1e3];[0x0;0x7f8c859c9eeb6;0x12a95585365bc;0x5b76f55281f1b;0x9f90a1dbad6ce;0x4cda402452ac3]];
 [[0x1c0cf4c874c73;0xb923c9b7dd1da;0xc9fc49646e45f;0xf89c96d118fe5;0x19c5d744c2c1];[0x0;0x7c3cc42403c31;0x73549c581536c;0x33273b37e8382;0xc476d7e44763c;0x1be943876d059];[0x0;0x639380821510e;0x7b41fd3a1ccb2;0xec25e25f63d5d;0x32b111429cfb9;0x2983cf072e2];[0x0;0xf942db61aa151;0x672900a197e30;0xf1f32e4d4297d;0x8b1be8f268924;0x1ad50f57dc65a]];
 [[0x8d95d76b5a846;0x3eda7bf6fadfb;0xf261755df8b2f;0x3ae3de958d0e3;0xf8346b6dfebb];[0x0;0x79518cc01e547;0x93170892d3afd;0xb489eabbe1310;0x789d5ca17d08c;0x77d10526d2cc;0x1];[0x0;0x50d51b24fe856;0xeba3df0ee45e2;0xb8b79b014bc4f;0x605cd7f6e1f4b;0xf0a59ae0ef4f];[0x0;0xb2d2853c7cbb8;0x1223d10f60a0f;0xc7c543a896fd1;0x72e7314bd2067;0xd09cd6d7b83f;0x1]];
 [[0xa282d8290c610;0xb2a8fd9b597c;0x513a2d310db2a;0x233b5b5741d8f;0xb1242492a2e0];[0x0;0x3bc417eaf23dd;0xf3c488429a681;0x717388ce4c9c;0x21364cd27fd1c;0xbfd8ad96e4d85];[0x0;0x66b0bd128a994;0x469ab60e49ee1;0xe49c5d9a18773;0x518f3631abd20;0x7a92ffad13b1];[0x0;0x1cd9a93fff75e;0x9540c2930f2a3;0x4781ffdbaa0bc;0xdfc4773a9ff83;0xb79b1ac6982f8]];
 [[0x22f7d277c54a4;0x184e245aa6ef1;0x78eb77b3a2fc0;0xbd1ad7b370d5e;0xc4ca9087bc29];[0x0;0x138537d9b56a3;0xa0c35717990b7;0x4aef10fa65b4;0x1f83ffdb8085;0xd002949019ef9];[0x0;0x977a37a6d2c37;0xcb43225339234;0x56ee6ccd1ec88;0xd7167bb8257c8;0x9746cd983fed];[0x0;0x9d0424f9d8347;0x11c6c9620ab8a;0x86d719ae55362;0x9b9a27fd9d37c;0xd9fe5a1e8f59f]];
 [[0xf5d119909000b;0xaa8faa40a458d;0x6997d16c6eadc;0x78e367420734;0x31b1500b63f9];[0x0;0x86a46678999d5;0x5d808ef84e8cf;0xdfaba770d55c1;0xa9b0191a83ab2;0x36c60ce75461f];[0x0;0xbaefecd9ec7cb;0xf80a97c7bf9b0;0x3ae0d24c80d82;0xb23e46a9d759f;0x9a55b74250c];[0x0;0xbe7489ff6bc40;0x508690efe54ee;0xf4c63831ec985;0xa49c4822b94d;0x327378d6c9dfc]];
 [[0x26d8a00a399ed;0xa60186f7b9dfe;0x55652f390768c;0xb8c84def838a7;0xca28e64115df];[0x0;0x49d4947ec64b4;0x2f72ecc03f18;0x95cf72b13f7b8;0xaa8800ba43db3;0xd547e3d898af2];[0x0;0x2110114b5638a;0x8262141210eb6;0xf901ca70c831e;0xe95ff7189005d;0x9fa491e779f4];[0x0;0x98c52b7299e42;0x4639eadb52cab;0x9063b29fea5f0;0x4ece52edd8e66;0xdbcc5b50580fd]];
 [[0x30dcf5e77521a;0x11cb64eaf7f64;0xcc031aa8fd856;0xa636fa3af2185;0x616a183c08ae];[0x0;0x2d0b01ab80633;0xebacf0a9dec5;0xf5b26cd0bdd61;0x7da06e90afc6a;0x692f3221feca3];[0x0;0x3c39d0c92b5e2;0xa57be547d8a2e;0x9c7b1317bff54;0xda4c207b7e811;0x251192559296];[0x0;0x178410a69ea0c;0x316dddb20f33e;0x3578c4f29c603;0xd1c0a3c0d8933;0x63f89a647b541]];
 [[0x689cf26b3235c;0xec7d1e19229b5;0xd961a7c7a6e50;0x6dc97fca2e92d;0x343280ec47d7];[0x0;0xb8d4e7f8f1d;0x40075b6a324b2;0xb6021d2d5a5d1;0xc2f0148d8351b;0x3677dd4bdc920];[0x0;0x837720f390f07;0xee4ce2f412b47;0x328469f5a23d5;0xb6acb5c52d630;0xaa48e569a68];[0x0;0xca11f5404d36e;0x6280268a6b8b6;0x28f86a7da3b06;0xc5a100b894c02;0x38b2c87fb28eb]];
 [[0xd7a4b6c93654a;0x39457576f2466;0x6ed3c7dbeba4a;0xd44d353f2a9b4;0x344ccef232d];[0x0;0xb5d03c0331199;0xefc84bbe3f248;0x29f9a3db2cbad;0x93997174cbbaa;0x37d10fa0bd5c];[0x0;0x65d294658e8c2;0x8554549f6b730;0xdc439c0be44df;0xc2c65706c9d5c;0xaaf4b1deb];[0x0;0xfd3edfea6f638;0x6fce90262a05a;0xac7410503c8b6;0x200fefadf67ba;0x3728bf35e351]];
 [[0x23ffc2ac05245;0xfa3403964a538;0x67910d6e52a47;0xc97e3521a0541;0xdd8a69ba583b];[0x0;0x37048ef6ea176;0xc63beb665c735;0x892775479fe1b;0xf31e43f845bfd;0xeab3a749edf9e];[0x0;0xfc2b1060b08c2;0x5c8fa7f9dd774;0x7223f9a033138;0xbe5e8460d28a1;0xbfb84561e4e8];[0x0;0xabc7a6dd13171;0xd89499c5dcf0;0xb0c23fb60c40;0xa2de60f1c692e;0xefeca98b9c250]];
 [[0xb44962a51858c;0x3872380ed9a0;0x6fd4d89089b36;0xb904224af56c;0xa2b8bc8d78e4];[0x0;0x39e6bcef685bc;0x6e3c08dc8a2e3;0xf03437470cb62;0xb8fac759f5a3a;0xafb8a343e5b54];[0x0;0x7897afb0ca1e;0x584b4e0d48ad1;0x60528cf6f570f;0x7e30885cb6b07;0x676e53f2a33e];[0x0;0x33c61f9658598;0x8905161f2f0d9;0xecb3f179ceff0;0x87e0dd3385da4;0xa834433c3677f]];
 [[0xcad93c23a987;0x274ae08b00460;0xf74ee2b6a77e0;0x4759831bc40cf;0xf28a8faa4bc2];[0x0;0xb0fa26d55c39a;0x8dd18ebf24c76;0x5dc74ffa948f4;0xeb61e354e0dbe;0xfeee3ab4ac9ea];[0x0;0x6b33cf2aa9261;0xce6b7b9b3c9ff;0x14323fd5a0ee4;0xae45e88a0531c;0xe5ca429d2b74];[0x0;0x1b5e748881dae;0xb18bca0144ed2;0xe9d06b76046bf;0x43c163f65ad9b;0x6255290d0100;0x1]];
 [[0x93201f38f9260;0xad4afdcda803e;0x4b95c20d494d9;0x63d9485ef6fda;0x82d4e6ce6c98];[0x0;0xe2064f1394c11;0xe99c905fc5f66;0xcc65d0bdb320e;0x6fe25c6db4ccb;0x8be9ad9ba0052];[0x0;0x1829978e3ea98;0xd8d4f2fb35972;0xa123054a2cefd;0x3362d41c5ed3d;0x42dceb78bc46];[0x0;0x30c28d8d50a36;0x7651bfac39765;0x4c69038ce3248;0x66fdc2c2da736;0x88c8da7f1da1c]];
 [[0x3167462719ca0;0xc5e662ce13c59;0x7c65817c9fee0;0x8a39e0483ec7e;0x1012390ec064];[0x0;0x3d08fad5c839f;0x4d69261a91390;0xbbb373c678ff;0xdf1305b1b4dc3;0x10e9db482ae9f];[0x0;0x2daa82a050301;0xbeb4ed60a541d;0xd374f7b79b512;0x31f10d506d099;0x102486dead7];[0x0;0xfc5df88c6ff5c;0x1ee0a59a5b6e7;0x4ec7412d6ae4e;0x43b12c4775086;0x116088a1c9dd1]]]
 (V [0x62d30b9042ab6;0xa98277850eea3;0xa3eeeb4df0e97;0x3a5c7c02e941d;0xf9b5403c7b79] [0x2c22b537a3daa;0xcb86d2634bb6b;0x36a62ea3f7c20;0x3dc23f76808b7;0x547635bf5652]) [[0x2743c461c1c00;0xb6ad3f78cba1e;0x7926b82c773e;0xe5b313635c96c;0x64fb511f022f];[0x0;0x77ffc6cc7e46c;0x68d648ec8f219;0xc72898b8d1cb6;0xd5162bdbe4555;0x69962d625f0f0];[0x0;0x565fa380441cc;0x220bcd7d25f7e;0xacc70035429ee;0x58842b47615dd;0x27d54e186638];[0x0;0x63d2321312d92;0xc952981d6158;0x94aecc1a85cb0;0x5da96f1d429d2;0x6883ce5b1446e]]
 [((V [0xff7983f2d0e88;0x400ab21148806;0x20f5ac6ce3432;0x6a32d62cba06;0xe6a19a7989ef] [0x93775a1955f98;0xcf0982517ad5e;0xf41cf5a67ab10;0xe3224544097e;0x8c0cac080451]),[[0x5bf4ad32ffe70;0x401108c3994ec;0xf23a9063d1dbf;0xe6fb7f951c68b;0xd2a0a86bf9d0];[0x5d6ca7fca7b7c;0x680907b1cd3f3;0x22f8c9982db5e;0x7d3bf13bc444;0xca3d1a7c41f6];[0x0;0x7bb768ec43e58;0x132be08f97558;0xf915dd7a25d3b;0xb8fb299456b89;0xf39217498dd6];[0x0;0x5aebedb7d9008;0x9dae66c3afa96;0x7189e4cc193d7;0xb06de6257676b;0x8afbf3137efe];[0x0;0x6158dd162d4d4;0x801506e1712b;0xfbcec3564c9dd;0xe5824f43567d1;0xad4bf9241ba0];[0x0;0x652829c70d942;0x996bb99c14093;0xe6a9c5273a95;0x8fe725f2ccea0;0xe0c5d45fa0b75]]);
 ((V [0x5ee1303f1bd13;0x3f66829a6ab10;0x671079cbab321;0x75a990b3da551;0x4384a010a485] [0xcc56634094c90;0x255913d75c326;0xf6e8805201efa;0xb7d1aa60c5c74;0xb7e8efc1f9e1]),[[0xd0ccaa4f96fdb;0x631a048ef0b40;0xa5ca431b20679;0xb7ecedf833117;0xae46f39f226c];[0x97a273bdef3e1;0x682e07a7fe25e;0x341c92a054d44;0xd68cd251d0650;0x27d3b106db06];[0x0;0x9b6a74406879;0x58cc86002e3c6;0xfbeec91e82264;0x723ad10ee94c1;0xcfc6c7960def];[0x0;0xcaf633941bf0f;0x4e559c7b52a59;0x6f1cc47d5f58b;0xc767cc0a11346;0xbeaedb57263f];[0x0;0xc53ec9f61413a;0x63ab6fa29b1d8;0xe6ac65b6b0ef4;0x1bc0d5e8dc431;0x76a486d675aa];[0x0;0x2584be12beaf4;0x3df5532a2011f;0x6ae4925b6382a;0xe9b90b79b9ae8;0xc01c114eaf474]]);
 ((V [0xa3f4855ccd48b;0x56cb6b7c59cb5;0xfd7c3d9bf5c36;0x2d7c26e279ad5;0xe1c6d945b871] [0xafbad686771c9;0xa536a1e730527;0x7506694cb494f;0x4d5a92179f709;0x665805c55035]),[[0x86fbe129fe02c;0xaa6c6d5114b8b;0x1080e8080ca51;0x3ac84e59e57ff;0x68639d1bf687];[0xd1f93153d918c;0x4e356ceb5968b;0x24e277045c8;0x2b0d7760b795a;0xfd847f71d5df];[0x0;0xa3d7a6b80f6ab;0x2129afdd048d5;0x28f2e6ea0fc2b;0x53f3e6194c295;0x11ceb07e2b5c];[0x0;0xd7f74c7e053f8;0xf2ad87b4b6c26;0xfc3b1bd0d24a9;0x22431bad52368;0x95fc62b2ee7b];[0x0;0x5d0d5934597f9;0xd2d28b2472ea9;0x29716c18a1fd6;0xdbca029de6c24;0x2a9116699c59];[0x0;0xdce656baad0fd;0x707e559f9afe7;0xd35a3c0d56f87;0x9e6ae5a833296;0x6ae14f2e1c8e3]]);
 ((V [0x2a96af2dbab9a;0xb4ad2e6281d2c;0xd079189951bbf;0x6067b171f6d2e;0x3d3b30226339] [0x3d6b9e8379de4;0x80dc9aafccb95;0x773d879161c81;0x95514754582df;0x98530d349675]),[[0xd4916a093ce31;0x49d0d501fd616;0x83f87b5fbc89e;0xda72e1ef1b8de;0xafa4445f70f1];[0xe2070064913e1;0x27bf69826c493;0x562a8d787f956;0x1d53680b4a847;0x15726195bcc];[0x0;0xf58950b52b028;0x194140715bb27;0xa9bd0b3207472;0x86b36968227b8;0xc71f24615e77];[0x0;0xec6f97f40d97d;0xc9c982d2b9908;0x23a98bcfd06dc;0x248c10fdc1fdf;0x8c6faf563b2b];[0x0;0x8761e130dbcf7;0x56e1ec755202a;0x3d8bc4c16558e;0x361e75780ef39;0x7881fee228f6];[0x0;0xa8e3ef49356ed;0x382be7a807748;0xe35e35f0dfa5b;0xf333456fff0c6;0xc1acd9860734c]]);
 ((V [0x26a1a0943e907;0x697bf8dfd7528;0x81779fdbc0ce;0xb1ed3a4908b59;0xba2b9f05fbf0] [0x3a3130e89ea7d;0x9e864d95bf637;0xf154e475dc019;0xf18c85bc06ecb;0x6ad5924c9c18]),[[0xf511d39a5bc80;0xe5cbc41f18970;0x9ed2f80dc622e;0x9c731f27a34fa;0x6e7023145d75];[0x1a3b1fda01923;0xa7c4b92066b0;0xbc1628416673a;0x670f03aaea04;0x90e0612a78c3];[0x0;0x9bdad87963ea7;0x179cdc89b1974;0xebc9e7f3e2336;0xfe37e03605aa6;0xea5429f9c2f];[0x0;0x4ee90934bb375;0x1750e657fb60a;0x6a97726323e22;0x7240a8caa7383;0x836cd1c3b11f];[0x0;0x13ad662161103;0x490adb4517564;0x60f99e62ee9f6;0x6c88b8c7e93d1;0x2fa48f4436f1];[0x0;0x1cb4a09c50a39;0xbefbdda43bffe;0xa7020e48be9e1;0x483af8a994e97;0x71f8c4a65160f]]);
 ((V [0xc76bf02f873f1;0xd5b7bfb707ea1;0x12d3455e6958b;0xe25870596c71e;0xbf8935e73978] [0x8eb8f76e5e4ab;0xd3ee4549071e7;0x1ae9682258d89;0x4b4a90412d576;0x3d7f0bbd8429]),[[0xe48b0734e9b36;0x1844ca4fc5e8;0x7f7e87d2a12eb;0x3ec07e8fd893a;0x36feac761df9];[0x3ed091e6379be;0xc7385bfc88f06;0xd9f9d415990e;0xd68a2c2526268;0x542b7be8728c];[0x0;0xdb68a41114385;0xb4ea1faf9dc2;0xb68f45d470670;0xd4814ac136110;0x87636a8380e4];[0x0;0xc89eac93d5942;0xc58365c7b95f5;0x4b79f4e627721;0x82c418185e700;0x2de6a978345e];[0x0;0xa122ac8a8a863;0x66dd123b7836a;0x60490caa59b34;0x8fd84cfac338c;0xbd06e1c8337];[0x0;0xb6ffa6b9f2c7a;0x45ead81f563a3;0x8189e9bb95213;0xaed7ea07dde6f;0x3a5c25f8b6bf3]]);
 ((V [0x6a1ca32dc8326;0xd13460984729;0x337cb115d6cee;0x18d235054afe5;0xab1807ef680b] [0xc4482423e85e7;0xfd081f0c122;0x372e9c31695a;0x5d4d01cf96182;0x1efd377097]),[[0xbe8565ae37a91;0x5888b375b3541;0x4f93fe796a4f;0x198f901f34d8a;0xf37bf9a21897];[0xbed3f5cfe3a18;0xbaf0535b0ce77;0x26ac4f313b0c6;0xfce19372e23ef;0x9cfed9923485];[0x0;0x81c2ec1a9829f;0xe6cb906a9dcb1;0x53ebe46fc8f30;0x73c70d15d7882;0x8f4e07f9c497];[0x0;0xe92ed8c0a8436;0x6b329df5b2285;0x2b60f5ef1e10d;0x55ecac0e656f1;0x74fac04e1675];[0x0;0x42959d8dd22cf;0x4147fdfa5fa57;0x9bca2d4659357;0x36322ce20a593;0xe79497f38fdf];[0x0;0x534584aee8fa0;0x30b3a5bd50e20;0x85703b728ca9;0x5734fd65d1863;0x3eace8b5fb31;0x1]]);
 ((V [0x157eea2c19a8e;0x6c4df6aaee43;0x5bc8254e47048;0x73d2603bf6c2b;0x871771b3e06b] [0x143be8eab200b;0xedf43b9984117;0xf58e7bcb4f1df;0x6ae415d3f3449;0xeefcca4df539]),[[0xdd33d8ede06b8;0x4a79f0b549a8;0x46b7e5464120e;0x2d6d45d5bebc;0xa103b277293d];[0x2f10b5ea5d9b5;0xacbb8a9ae5245;0x8901e1986cace;0x5e5812490ef25;0x6c4b1227394d];[0x0;0xe47e71088fb69;0xc85ffbb321f1d;0xc65051ad08b8d;0x4cd1849bdf390;0x72591cdb5221];[0x0;0xb9586b9a6db2b;0x8fca416e3dc35;0x276290692c498;0x84e55500be3a0;0x26fb64dfe5];[0x0;0xdd96d0ae4b08a;0xe608cfb143a13;0x1a44d49b86c04;0xa1d07d76644d2;0x6545a6878d13];[0x0;0x2829be0fbfb1a;0xec5bf68b79035;0x2515c83990af4;0x147a866458b49;0xac7e3bd801a93]]);
 ((V [0x32f34e6d89715;0x9f226ecc1991d;0x6bb6737c4b84c;0x2b66de0dc9fcd;0xfd134e6bcc64] [0xe35585fb62a3b;0x70ce6661b364d;0x7b9a283b381a;0xbd8580ce06703;0x93b085d1db5b]),[[0x8074ecc411daa;0x7182fcec66c;0xfc0320b909e7b;0x1c956505144ae;0x33dad70e7f0c];[0xdc3e52eada837;0xc4154f4af25c7;0xb2a477ae89da1;0xfe60e208acf0;0xea18b5ae0b6e];[0x0;0xcbba72489717b;0x76677325bdf7;0x508835c6feb4a;0xf1f9288c71f96;0x4749bc115783];[0x0;0x406fceec71f15;0xba6b8c528e43a;0x95a38c38a8ae5;0x698bcb9e2bd3;0x60d150ab4925];[0x0;0x13eec59458945;0x8fe6e21cf6f6d;0xb38861101848a;0x8e3cb11327b0e;0xa80ecc2bff8];[0x0;0xf14c3ee479256;0xaf67eda9d3e10;0x65d5f801e8d45;0x56d60510ea7c7;0x359a23f66a27a]])]
 [[0x2315d318153f;0x63403c379c863;0xa43c13cde090;0x44d9e2fb3fb1a;0x57935a529c05];[0xafad02499b6f4;0xfe11b33bf3900;0x613560e4e21d5;0xebd86136d1424;0x7b83a907ccee];[0x0;0x3852eb3b3a803;0xe4e90361763cd;0x43262aa59dffe;0x32994d8afaf5a;0xfa2f2a75ce04];[0x0;0x5f4c06e793776;0x1a377d2036e5c;0x6d9a8c85d1a24;0xc64798af89dc8;0x650bffe5c14c];[0x0;0x8a6bc23ca8771;0xa2b8daf9d5d00;0x2955da9e1e2d6;0xf33531612d094;0x1df57c3500c8];[0x0;0xe92ccc179a3b5;0x2f905d9acd1c7;0x369e21cb7a177;0x6fae604a91e85;0x6228614631d77]].
Definition wit_A_64_6 : colwit ipt wit := mk_colwit (V [0x17c0363e4b81f;0x20c9bb2ee171d;0x81421d6cde60a;0x6b305baf7cbdf;0x1ab75a6d7caa] [0xec650a27a19f7;0x3d837cf6ed64c;0x9ff71fcbf6a56;0x36badec1b9985;0x370ebd714fb9])
 [[0xe5eebbdc95ab4;0xb5fea1ea35377;0xaf1d42aac88cf;0x8cfb7b7d6818a;0xedeb365967ef];[0xa16350ac4c168;0x5b0773698131d;0x4b8bc771642ae;0xfe45af36038c2;0x7a4d2a7107b8];[0x0;0x946b6c596828;0x15dd34c720a1f;0xe09ea118d6f13;0xd999f69514de2;0xc7e27bf6f2];[0x0;0xa67e59e15cc7c;0xc287a7b1a950e;0x4239b17c4f13;0xf3e161169f6c4;0xc1197e44ce7e];[0x0;0xdbff645f9d397;0x4cbbd2d32d515;0x77de820306a3d;0x33e8f697ad8a7;0xdd1d5abe5e20];[0x0;0x8dc80507732a5;0x793e8fb3c3c85;0x9a409e825d19e;0x8787e1985989a;0xfc0ee06facf85]]
 [[[0x143820641e855;0x879d4cc2e7bce;0x62b1e39719412;0xb884b9172a864;0xcc3803a69099];[0x0;0x6cfe0de2d582a;0xef0c5a22036ce;0x163a618b7b18c;0xa59e2d2c301aa;0xd99c0f0b2f890];[0x0;0x2ccaea3317195;0xe8d773b7013bb;0x37c13395f0df7;0x9517b4699a429;0xa2e952130f61];[0x0;0xaf7bf71995bdd;0xeafbd6821157e;0xdd98c84a5af44;0x521d4be8b37a8;0xd32d1bd5c94d1]];
 [[0x85b9b24424505;0x31dd3982dce46;0xf3d6defa68c58;0xeff7809ab9e84;0x49efd8a3524a];[0x0;0x14699a83a7f44;0x932c53a4cdcf9;0x5d30825e3db67;0xdc7056b5b0efa;0x4caecfb62e1da];[0x0;0x6c0ec1a755d75;0x2f3b9e7b13e07;0x61f4ae9239230;0x67d7924db4caa;0x155aaa435d36];[0x0;0xa6b9006154228;0x1dc493825b070;0x3b2e123465052;0xa117c78e37ec3;0x4dc12e588573c]];
 [[0xc6bb0bb07cb4f;0x996d105a55858;0x9b0ca26661e1b;0xa46ecf25b7ab9;0x43d09efad23b];[0x0;0x8feef66c73b8d;0x98901cc0e6821;0xa6c2ba6afd62a;0x8f24301e745d6;0x4598c0da819c3];[0x0;0x9e01e577cd850;0x88a75f93e97ee;0xe3a5c0e2f4688;0x6a3e1c9a33386;0x11f6dd3a045b];[0x0;0xb1aef2ca58044;0xeee191d05c8a0;0xe41fd31983724;0x5666ab63a752;0x49e4d7d28acfe]];
 [[0x8da49dc3ba13a;0x1cf7bbd5830a6;0x833ee2d6f1d44;0x554a98abdc741;0x3625c11b725c];[0x0;0x976b8d351a306;0xffe70b37478fd;0x7997b6f657be2;0xc69eb2d5aff1;0x390a2da623ebc];[0x0;0xcbd7c5a5b5914;0x1fb93e703a3ec;0x46ddf7603e3f0;0x680cab2377e1e;0xb73f308f7d8];[0x0;0x72b78e4474857;0x8b433c023306;0xaffa98587579c;0xcd38876b2225f;0x38dbd20211a5b]];
 [[0x90d5c5baa7a19;0x7d56d09c09d5f;0x71041e6502d;0x9f962ed05d955;0x4534f7411ea4];[0x0;0x7732d4025cd44;0x8db009a7b0e42;0x614807e3c2964;0x63b1a8dce9152;0x480b1a93b24ce];[0x0;0xd1e3f612d133;0x766ab3e34bf8b;0xb12af0b04ef15;0xea9a09772ef66;0x12b5983e7bc7];[0x0;0x1222c245deb21;0x222803531d1c8;0xc1fa8eefae1be;0x14917fda5dd2a;0x49f16d2c1ba99]];
 [[0x2a3ed1b19116;0x60eb385ae9cc6;0xcc7d80e2bae04;0x4e2577e4ea744;0x14a4c98542b4];[0x0;0x66f2efe610960;0x98b984ae1739c;0x26edf901635fc;0xce7d477cde490;0x159cc07927d6e];[0x0;0x1342daeb25e45;0x7717c28a33c05;0xb655491ac3c2e;0x2b577e2ee26be;0x1aa298fa3cc];[0x0;0x6211be75608b4;0x388e8a4deec13;0xcd306a909f51f;0x5ca98b50b9719;0x15e5019ab7250]];
 [[0xf2bb895c22f49;0x62cf507a673c8;0xbb274d51de5d3;0x3311886953d8f;0x251a0b0841da];[0x0;0xe57f052518ee8;0x31af7c0a8925d;0x44351a08743de;0x2522e93de78f6;0x26c5944994f9c];[0x0;0xb17f94610d151;0x7749cfa25a034;0xff066bac29316;0x29025ff5625d3;0x56089d6a130];[0x0;0x3e34ae05d95fa;0xd4285d34bb072;0x6582312472333;0xd8463c918c7b1;0x2762d891e3c55]];
 [[0x853e1777c8898;0xf8b8bcd913040;0x75b70a058d024;0x6ce23bdf382a3;0xe972fd80da02];[0x0;0x30109084da8e4;0x4a4f520d676b5;0x7d1801a3da5ea;0x3c727b5e4066c;0xf3bd9456da8de];[0x0;0x142f656d752ac;0x9600a5ffdee8f;0x26a21ad2afb95;0x842051c5d5152;0xd4e2851b4ea2];[0x0;0xc094861894747;0x36db438c7c2e4;0xe9390e745aa28;0x9b869cd780df1;0xf4cd66ca928e4]];
 [[0xff788398d390f;0xb4aef60cd231d;0x4d900a8f8050e;0xd3da016aa6e44;0x90d5696288ce];[0x0;0x38d71e3651201;0x48f6200dc6a15;0x6f787c772f510;0xa3aab383218c1;0x9535c088bbee5];[0x0;0x8d5fc6eb765a4;0xb7c1ef28a5fc1;0xb8a6a0b42296b;0x50a87b9dc77e5;0x51f0c8776342];[0x0;0x45f076c1ff265;0x3735fef30974d;0x1bce4783ce5c;0xf89878e938a03;0x9e4509b79a065]];
 [[0x5fa20110d5e6e;0x549c0539c1891;0x3307010dcb9c3;0x38c730692be0;0x25037b40ec78];[0x0;0xddb042431b98f;0x469eb6d68b4d0;0x49afda2486abb;0x1f09558c09fe1;0x27409b34dca0e];[0x0;0xf1afd9853aea;0x4a99ed7c959be;0x9789611b66f43;0xaf891862d4227;0x55a01ace337];[0x0;0xb33053300b86a;0x78fd8e6bb118e;0xfd431323f1ef2;0xa6d0e56f025f4;0x26d144bd9a4a2]];
 [[0x4a98b967adbb5;0x28f26c2995d2e;0xb9732bd30955a;0x10ce7efefcd0;0xb1a7dbd1f0a4];[0x0;0xc6facdf85d8fc;0x502e4c795d2f3;0x8fabd8d91de1e;0xf96dfe8b2e323;0xb9f4ad39929be];[0x0;0xadf7ba669332d;0x62cb3ca68862e;0xd06b99192a7c5;0x9d509f5a1b952;0x7b498c08d76b];[0x0;0xc2514bb620fe8;0x2fd13a87686ac;0x1950e23bf9349;0xc6b662afa4d3f;0xbd99f0027c2ab]];
 [[0xb527ed40798bb;0x693d089240fe7;0x539e612e5fb85;0x391399c0dc536;0xa71f1cb70e1c];[0x0;0x8d3b04471509d;0xf877e6be7d5cd;0x56f6072a09938;0x1559931a4ee9a;0xafb8be184ef55];[0x0;0x4d3aec006c98b;0x3d8df2988a32b;0xa05c1d3262356;0xcb48bef5d92cd;0x6d199b3ecbf6];[0x0;0x8582af961d5be;0x53415798762c8;0x9864a2d9cd8bd;0xbe7414b86c83a;0xab7cbf7fa8f10]];
 [[0x68b09907c65ac;0x43a6d78a6393;0xf6514109a8603;0x49c0c14de1746;0xeba036db6bf7];[0x0;0x7583821c2290d;0x4c6242c307e87;0xe3b95d7b88fa2;0xb0d34fae80a8e;0xef2e0eda3ba01];[0x0;0x498e320ddced8;0x4abff20835a11;0x5374b86210516;0x44224d94c523b;0xd8df88fb7640];[0x0;0x30c9ca664f45e;0xd8481c4acbc0a;0xec18b73200f78;0xe400f87762e4e;0xfbc618705cb3f]];
 [[0x9cd76b6f823b7;0x9724ad5ac2e75;0x5e21a97891aee;0xfc2578c752708;0xb9b9cdf41b36];[0x0;0xb89beec8ead97;0x1c07cef483f32;0x6bdee4384d79c;0x4dc22ce6fb309;0xbda5c613475a8];[0x0;0xb5e4af0a7b541;0xcb907a61af4be;0xdc272e3d96379;0xaa408a41f5187;0x86be12861fd5];[0x0;0x91dc3aa042b42;0xb559e3d822c1f;0x11dc1c9eaf14a;0x47e36bb2046cb;0xc9ff306b0bbc9]];
 [[0xa3ae363a66a85;0x6232351eaa28f;0xad1fc650460eb;0x2d091e8fcd3f8;0x65cff81b95c];[0x0;0x69398e4a61746;0xd599201613de4;0xbb6832a78ad06;0x4168df4be2b67;0x6a84bdbf8172];[0x0;0xbb153524f3367;0x181c0d0af5804;0xca5126d757b5d;0x3d5ec2d09d555;0x287dc2b8f1];[0x0;0x874d8fee6372d;0xcb9080f5e6298;0xc062b3feecf70;0xc67d5e678fea9;0x68d3636524fe]]]
 (V [0x95c36af33f840;0x314197f30df2;0xca1f17c437a7d;0x1c4297e252ef1;0xdb2b0626886b] [0x3056bcd59632;0x7efe98a14ab9d;0x7c3de444ea84;0x9a08d6697ef6f;0x4a72f8fa711c]) [[0x37f8a3db5220f;0xd9c33edf63d8f;0x6f44d1f753a0c;0x90fdc618c2087;0xb2cb49fae8d7];[0x0;0x648aff558fa8e;0x78d218b6b0a81;0x2b8f66cb3b39b;0xdca31924fbaea;0xb4a0716b89674];[0x0;0x4a17ca31ef459;0x75d7315b90a9c;0x94a46c3fa6129;0x1a376371f0095;0x7cdf544f551a];[0x0;0xf84b1c04294d7;0x63e66d2d1b2f7;0x7a7ca284bd9b0;0x2270e4e98f9af;0xbe5c6950b52d0]]
 [((V [0x53c5e8334c74c;0x5801d5af398a1;0x9f92d92a8f151;0x564e81badf77a;0x8823c29c475] [0x8951c49b05500;0x6cbd91c792ec;0xc15a6150d5523;0x3473bd2d45b13;0x78d9810d93c0]),[[0xdfb792d289bbe;0xeaabc617f7e77;0xae3bceab9c16;0xa27c8b6400502;0xfff8fb203256];[0xf4291b5665bc2;0x70b284c795427;0x662142bd7af2e;0x9a272ec3b73ec;0xf1a545aa42fe];[0x0;0xcc7568e765172;0x85bc5f88940d7;0xe8e97c161d998;0xea873c0dbda80;0xbba2a3c0fe7e];[0x0;0x7769bc9ecc552;0x403a8f52dce1b;0x896393250af3c;0xc7b5797dc7883;0x94e1dcd580d2];[0x0;0x295b8a1d57788;0x133d4df87029e;0x73a3528d6e927;0x4651712e17a36;0xfff1f671a902];[0x0;0x3100c3b93c9a8;0x6d81a42d9e621;0x90dc86e708c38;0xc622257167512;0x1d22bb07fc860;0x1]]);
 ((V [0x22a1ce3bfe88b;0xceaa4b5ad9756;0x2b61d1cf3aee1;0xfbeeec6be526e;0x6476431f20b3] [0x90a4aa8379dbd;0x90e7ec4d0401;0x2a7262d716d3e;0x375dcabfd6a65;0x30aa7abfeee9]),[[0xc69fff9bab018;0xc35104240ec65;0xb19f0bcde1648;0xc2951cbea49f;0x4dd3aed5f746];[0x814499e62d97d;0xfb8815bd5a0ca;0xb3578236769f1;0x8da500255bb7f;0xee7a9ca78874];[0x0;0x5c30611897be5;0xa2a864971e1de;0xe45722910195e;0x777814a5c3a7c;0x486603c4d6];[0x0;0x734ac0b3b0253;0x52e26ff871de8;0x348d0f4d8b0f6;0x3d4b69442aa7f;0x497ab33e9618];[0x0;0x55824a7277b6b;0x5a7e11e17c97f;0x9d617fcdfc6e1;0x4fc1894227aa6;0x17a9063662dd];[0x0;0x7f1321ec41e75;0x2771554c53c97;0x397be57919a51;0xc4a36ba6cbe4a;0x50f1a2d2f2b16]]);
 ((V [0x39cdcee39d18d;0x63440d3818a1f;0x104a80c8692eb;0x3b91d966556a9;0x7f5fcf711a1a] [0x3079cc54db4e2;0x6294ab4a2e8b5;0x944e1641c9378;0x903675ae46622;0x1520b2b74cd3]),[[0x771f6d63f9a9c;0xf038b7991c126;0x34ecca44e75e9;0xfdb8bdfbd24f5;0x57d465cc8909];[0xc34cfea677111;0x968f3757bd64;0x4b0dbe221a1be;0xbe12ead41f1ef;0x848e4145b872];[0x0;0x177d6917625d8;0xfdd6da01bf6bf;0x331b7be3c77c;0x11a60e99cfa16;0x276c9b1243d8];[0x0;0x397a35d6fdf17;0x3ee58ce51362;0x47666ac0ae86c;0x8e237fa62461b;0x2164a07e0aef];[0x0;0x293fdeb6f6e9b;0x95c98fb9a70b7;0x916df66a5f0ff;0xca8c5e97a8514;0x1e220d69c862];[0x0;0xb0dc7c75c509b;0xbc50662077803;0x8b8b57a9e85fa;0x5f456ed15da82;0x5cbdf0fc96525]]);
 ((V [0x7d54414e07cfe;0x6a779ad22131e;0x7408a4cda896b;0xe206d0c9af779;0xe1687978f7fc] [0xc782df1af973c;0x9e0bfea93f12b;0xb55bb307dd66c;0xa4e93693eaa43;0x89db2399bece]),[[0x280fe94b36984;0x12de14f05ee04;0xb96fe826ad165;0xf4307e7d45a7c;0xdc1e3ce7af82];[0xc93fd424c1a32;0x2d7b673abe68b;0x5efc9f60c8ce2;0xa3bea2211e355;0x9903b22a6acb];[0x0;0x4050e369cb21;0xa38972ac4c540;0x3197e3addb731;0x80c1661aadd25;0x3f6033add5ef];[0x0;0x61001ba6b2f0a;0x6b7de8f9c51ac;0x71ed0e4f517e0;0x661dab7379d69;0x245530e280c2];[0x0;0xeca5e50bce2c8;0x6e48e5714b3eb;0xf15cfd8a0fa1e;0xa2582de4acbae;0xbd43fc408a73];[0x0;0xf3bcbe920e1d6;0x37cf5e767d9a7;0x83b885bd6a7ef;0x185d7caf6926a;0xe49b704ed3736]]);
 ((V [0x4b4a139d96c3b;0x41779caa08196;0x9d4ed83a145ee;0xe47a66fa7641;0x720b5ea810ca] [0x4840db7ea07e1;0xde6715f36a476;0x4e14d3e5d02cb;0xd2fc259a93bce;0x4c0c795c55cf]),[[0x4cd23e644c45c;0x9859e50501c78;0x9f10873773fe5;0x6dc796e4eda02;0xbabf4f58dad3];[0x78b93648b9157;0x8fc31442fb136;0x70241d30cb820;0x870c533d5fd69;0xcea2a95fc07b];[0x0;0xd03fe71fd1a5b;0xbc2d31620fa13;0x9de2b210cb17b;0x965e1b8478081;0xc678d0298fd7];[0x0;0xe010e99489991;0xfba66bebfb3eb;0x35ba7e34c6489;0x4b8dc915ccb31;0xc9207a2f7afd];[0x0;0x2e5bc3eb9190f;0x9645f8c9c4117;0xd1142215f2a69;0xb8e9814140d66;0x883a8e449d29];[0x0;0x111bbab9c6bbd;0xb2a5af6dcd303;0x5314c8debbed1;0xa88284e958802;0xcb7f1235db45a]]);
 ((V [0xd70cbf7443d68;0xb5c59761dbfa5;0x91b46e395ed3e;0x95029e2af7404;0x53dd3e316401] [0x9d8c53e7136f8;0xa6f81708f498f;0xa92b0bcfc1d82;0x87fa38230e46f;0x9296a99714b1]),[[0xd48f20e48013a;0xc5d33c0b2f7a;0x61ab15e6ea06a;0xe92cd5664fc7;0xccbc6dd0d00];[0x79872eb51c674;0x4c45e5c9b1510;0x352a4022d0737;0x355fad65d71a8;0x544b939e5dc7];[0x0;0xdc50fece828a3;0x411ca448f9d30;0x9c199928c7cb7;0x40bf772cfc357;0x32ce20cef465];[0x0;0x7fbfd6d59bd9c;0xc625231817e4f;0xd683d9f0a04b5;0x3e85d8d163656;0x79a3d4fc179];[0x0;0xfde7f0cec3aa;0x4e0d0c217c56c;0x885da714cdfca;0x4e70695f010ee;0xa3bcd9b645];[0x0;0xd891a8725dd2d;0x807f56a793cf6;0x1c7abf7b4972;0x89db1ac9df2a3;0xdb0a6438e7ab]]);
 ((V [0x60e0494ddb38f;0x5b37641ebadd1;0x33e985cfa37bc;0xea6a6aef87fb7;0x6e7a978d2433] [0xd23883a602e2e;0xf3b9ef8767a52;0x6f5c42db0b489;0x59b83c5550319;0xa6ebf9fb0c87]),[[0xcb2080c4356df;0xac01a7a677e1;0x8a9f555cb2b9b;0xb2172f9773471;0xd5175033d2ff];[0x5093dd6151ae;0x780d0fd376577;0xbfa1dcb19e019;0x3a77f1b4a7bbe;0xb9b7e946bdc4];[0x0;0xc7c2196d1b23e;0x231d26b0b7090;0xcee8cba30c3b6;0xa7532cee7e8c7;0x1b793588773b];[0x0;0xf5d015703cc5e;0xc64048a8a7f18;0x8333713a02cad;0x25a3ce70cf8d4;0xf4096921653f];[0x0;0x9fb7131cc376e;0x178aab3677446;0x45f27a96506f5;0xd6aa24748598f;0xb15fcd95bf8d];[0x0;0x2d9acb29f8516;0x7e67383aa6429;0x2ffb62485227c;0x8c11035f10b19;0xe1064fb9e159d]]);
 ((V [0xb72671ff4b454;0x7b30d4c5d10f9;0x2cda66b24af6c;0xd5e8105fff1c9;0x971a617169dc] [0xe117d55903ce3;0x9ac47eee4d43d;0x18d0edd6c9874;0x51619804163a;0x75c2ecfd40ca]),[[0x2ad0c1c091857;0xad663ed75eea8;0x679f8cedadf91;0x18246c2667f7b;0x8fa84367dd91];[0x52474ec3c628;0x9bf026cc81624;0xffc1cd84ffabf;0xa522f676bb226;0x4243eda18068];[0x0;0x26d86ed84532f;0x7711ba2d9813;0xc1ac0f37090f6;0xed75062c2cff3;0x2fad94f2175a];[0x0;0x1e89c0e7b3d88;0x6e20e2f7fd57d;0x3b586477b5655;0xdcdce36395257;0xbb570ee5892c];[0x0;0x26d693c6270b9;0x534ce174cff2c;0x292c35f9a0ef2;0x6f865dc92e659;0x509d69e6939a];[0x0;0xedb36b3588b2b;0x96c305335221f;0x5db6a75e91d6c;0x97520b184d411;0x97360849068a1]]);
 ((V [0x5d3dc52694647;0x645e3e59a9050;0x5d4615e9e1c7f;0x5d39b5aaa404d;0x9b46d6c4ddb9] [0x58795a663bde2;0x9aa21238642e1;0xc0de3455e7028;0x679635e654932;0x9a5897bfb964]),[[0x5a3b3197b03f7;0x4c8629969559c;0xa0ad1f208b220;0x4b257d8968bd7;0x60af6c8907f];[0xeaf60e8b92e45;0xf9a87bdf1e77d;0x93dd5ca1c4bf5;0x65b2d9b3cee6d;0x79a88d94c436];[0x0;0x3ecbe1d2d0c6d;0xefcf67872a1db;0x2162c72fbcd99;0x29ab314a2bb37;0x593021abbb03];[0x0;0xb52e1d9936871;0x7fbacb692706a;0xa66f60e395beb;0xf365ad37a662c;0x58f396187cb];[0x0;0xe59a7f97d1ee;0x908d912ddaa1d;0xf01fa825ba843;0x544e5db12b531;0x2484099c57];[0x0;0xacccdd60c8391;0x31e6a46ffa1cb;0x2961bb483ebfa;0x5be4ec52b1de4;0x66a12acf10a5]])]
 [[0x14a320333c202;0x8fe0dcd9b5adb;0x7e4f28f20460b;0xf2221bf0027dc;0x1245fd56ae];[0xebcdf7d6dad74;0x24dbe4651d348;0x22297caf38b4a;0xf72e1278363c9;0xb24bfa2058fc];[0x0;0x8dac834cf694b;0x55aa923fe3642;0x81b85c61d754b;0x72590948c9348;0x5e2edbac8c55];[0x0;0x15fc4ed393628;0xe937abbd7103c;0xcfc02c723abeb;0xd75edab9a8fd6;0x1608da9465];[0x0;0xff768b81fa52b;0x3838974c0ae52;0x99493ddba35a7;0xbc08ce76ea77e;0x14deac2];[0x0;0x30a9bcd980c1;0x3cca5e0549b26;0x25d2f31f00e4e;0xef531a3963522;0x139b29e6ac8]].
Definition wit_A_64_7 : colwit ipt wit := mk_colwit (V [0x4ecacb41d2910;0xa8880abcc3495;0xdb37368a10887;0x2d2191395a894;0x45c07f653d10] [0x384989159449e;0x2f4baa3b19836;0x8b0a1b924d11c;0x325bbe9c32f2d;0xe723f944e20a])
 [[0xd986f0434b91a;0x2d4108176ea40;0xb1901b85744c2;0x69c19186f9b52;0x512fd2f2bfa9];[0xe028a9020e5fe;0x137451c58f397;0xdd17968dae498;0xc42b4bcd8ce44;0xd9ad8dfff6e0];[0x0;0x8493d14170b85;0x811e7bef71300;0x77bb0effb746e;0x75e463df1107d;0x317b1783c8d4];[0x0;0x22b583ceb998a;0xf8b37c800c49c;0x2bb310760448;0x42862a4543068;0x1b2f83809524];[0x0;0xc326a62db2dee;0xf62b1d5e4bf9b;0xf12e40f4b9ac3;0xbdc230769a388;0x19bf4c6cc03e];[0x0;0x301663ab96557;0xde625199884e8;0x8f95f29432bf9;0x8e71538d4327c;0x571bf7f786e6a]]
 [[[0xb14ad1aa264e1;0x7740f1ac1471f;0x6194d798f622a;0x9d0c7a9f914ae;0x4bac95e08e70];[0x0;0x87d357f9fad46;0x1b02bb304eeb2;0x71d9c34b86b2c;0x70105f85aa1c7;0x4f9cf624108bf];[0x0;0xe0bffe1758602;0xb6932a9bfc160;0x92418232088a5;0x8e2103c2c1e51;0x165e942b50f4];[0x0;0xeb08ef169d203;0x887a949b54cbe;0x359fbacf4e1ad;0x61278b06ecd91;0x522bfd271b57a]];
 [[0xe2fea67d3a10f;0xeadc42a19be77;0x9ac76d1c4b1a3;0xa217f8be9db45;0x40dd8b916dd6];[0x0;0x64a4e61cdefb2;0xe18b6dcbfb84c;0xf958218a1c9fb;0xfdd704a9a91a5;0x45c1dc41665f3];[0x0;0x6be22a3ed3f7a;0xcbbd0b438fa1a;0xdf218e8085a12;0x35848a0ce9390;0x106f8582fc1a];[0x0;0x3534e8297a309;0x398b56a996e13;0x34ad031aa1b05;0xb32f399f44104;0x41e78671bda87]];
 [[0x63461f63f8d;0xfd6e9f0022878;0xc985bb171246b;0x869a696f55978;0xa88c31a7596c];[0x0;0xe2be7bea26816;0xa09cc0fd96f22;0x8d314a6fcb962;0x538e4cfda2c52;0xad6c9a0163edf];[0x0;0x1bfa74a900693;0xd95a4b593fa74;0xaadd1801b0fd2;0xbcff39a0cf87e;0x6ef84df1fe09];[0x0;0x94553f08911c3;0x40ebbec78f0fe;0x53a1cfe4d75c8;0x5bd9873526cec;0xb939856967599]];
 [[0x76bf860e77431;0x59285c4a5f9b;0x19f57bf72cad;0xc9ef8f63c53a7;0xfe9f5dc7d9ae];[0x0;0x8c1af81ab4d46;0xce6240825c944;0x7f628877eba2d;0x23aebdda1b0fb;0xf44f848c974a;0x1];[0x0;0x41927fa67d9e1;0xfc16bdf7603e5;0x17bf902f8fe72;0x10035dade39da;0xfd40a14e3492];[0x0;0xc61884339bc7a;0xeeecde155ba18;0xe90d6a6e9dda1;0x3854ec302c8bd;0x4c94808884f5;0x1]];
 [[0x3cfd0c09b7446;0xdb97ac793f4da;0xebce604b37373;0xc8f23f83af1cf;0xa0b5e88f9818];[0x0;0x15b671210232b;0x40895fec385c;0x62ed704f5f5dd;0x600d130f1f0a4;0xa51047755cd30];[0x0;0x4c4b655f13e86;0xec7e70d2497e0;0x68237db452e19;0xa27328376de17;0x64e3e3f62c70];[0x0;0xd15a851fc03fb;0x243dbc67ccca4;0xcf1df8948d43d;0xa4eda1089dd27;0xb110ef7259444]];
 [[0x3474b04e1d2a2;0x198c9db0ba88d;0x993ba880ed7fb;0xaf2d0beafd453;0x3848ac9cd63b];[0x0;0x28421c3b95f1a;0xd06f5bc85b920;0xc668865c5fd71;0xdc697ab3c636d;0x3c04c82452f4d];[0x0;0x5660869bc636b;0x965717d43807d;0x169b26a13543f;0xbe2c3df760b09;0xc5fe0262a55];[0x0;0xe7a825f68190a;0x610bfe4e41ad5;0x376812dba3775;0x6d73ea3456188;0x3b73551b6b4f2]];
 [[0xc75c6d93f0a81;0x11116d7a69098;0x58d1dc197f3ca;0xe5e4d2ea51b42;0x3f9254b3bffc];[0x0;0x7d8917b8c77;0xd8d3b44e17517;0x9748fb0a13340;0x5072e4f5e11e3;0x4364b6e06ef5c];[0x0;0xc7b177da2181c;0xc933117dedc94;0xeed547987f90;0xe9d0db52e8c57;0xfc95955318b];[0x0;0xc613c2cfd8acb;0x8374efb2d9fbd;0x63c312c1f3d5e;0xa2d87fe9f2bb9;0x44471ec730723]];
 [[0xd9b22ab587d5b;0x80ca0c3bb26e8;0x61a78ede51eb;0x2093ff2e049c1;0x9dccc8e69d59];[0x0;0x59b36af185681;0x4051c04f678ef;0xe9da8664f09db;0xe1a7e1339be84;0xa91b24b0f1658];[0x0;0xc395820a2baee;0xb651204fdd8b1;0x4c13a2f7ca34d;0x3d9bd2a15ca26;0x6144d23baa33];[0x0;0xea8e5575d0266;0xdc471d65178e;0x52cbb91e9d701;0xc8bee54093c6c;0xa1ad7aff53873]];
 [[0x19ca68c0a5290;0xa8307a2fb40af;0xbbfbb89d92c64;0x5a4121dd5798e;0x3f2c827796a7];[0x0;0x512e8e486bb3;0x6160a22099e2d;0x8738030a327d5;0x99bbb877b540e;0x414de07ec1373];[0x0;0x1146d10787cc;0xd2e7887ca08d2;0xdd395a18d3ff0;0xd4d274f72f50d;0xf96eff3f7bf];[0x0;0x46f62805ed4d2;0x99090ac742928;0x7facf0d5e1cd3;0xd4ea4ae39ea6b;0x427da88afca20]];
 [[0xf197f49def7e6;0xe982cf22c6b77;0xd59b539d1a2e7;0x71e4eaa16f820;0x64b91fc85e19];[0x0;0x8139803d1904f;0xd84bca08e5793;0x6e9951dd18e52;0x13db7188dbb2f;0x671cf1348b0b5];[0x0;0x5cd3288e0899d;0x72a7fb0f0f142;0x75560ee43a6df;0x55ec817551e0;0x27a126b37d0e];[0x0;0x13e8277bd6183;0xdc306b064dc1a;0x436700670c380;0xcb1dae0b12066;0x6fe8b4f8a6e84]];
 [[0x5d5c95b7a6572;0x927b2540ef1a;0x22cdd7cdd2219;0xb69a84d9ab9a;0xd12c4c38b66e];[0x0;0x25cd4909b570e;0x60d904fa41717;0xfd30ad56a9f17;0x56a27866fc565;0xe04af0456923c];[0x0;0x96ddc737337f3;0xd3675a75e04d7;0xb0c2556aedab6;0x1d581a0cf3000;0xaae95c1ee410];[0x0;0x52eafe728688;0xbfc24099f1f48;0xc312262fc18eb;0x717d974cba53d;0xd4291c9611096]];
 [[0xf8668c834da1c;0x48b1b8e72fcdf;0x71a740752fc51;0x828d3f9477703;0xa10a9e26f846];[0x0;0xf778136ac409c;0x1461b2ec8987c;0x15d71c292e2ac;0x50f07bb7c70b3;0xa4eac5a350580];[0x0;0x2cd035b216fb3;0x4ca2d41220c7e;0x97bc73e8ccac;0x361d8bdf829bf;0x654e5b5dc108];[0x0;0x6d62fe72960d6;0x580ff3131eb76;0x5c5916079a7cc;0x5275c173fbd49;0xb2119d6574718]];
 [[0x64c2ff673daa5;0xbd1e76e32a9ac;0xa7e457b12dc94;0x8648660075393;0x62b25c56ddda];[0x0;0xcceaef2e4e964;0x4ceb6d997ebc1;0xa3b6b757e7048;0xcb2e47d617b19;0x6956bf6ba3daf];[0x0;0x3c74432df6072;0xba95a8214c698;0xac84bb760721a;0x5fa10a5f7ab9a;0x260d0af70bf6];[0x0;0x71b9daa42d550;0x9704ab0bbd675;0x1564cbdb7aa6c;0x692c5a7282ce9;0x69e1748b2b827]];
 [[0x5813853ced783;0x4586bb55c4d95;0x5b432734aaef5;0xd28bc2561d658;0x32d559d06540];[0x0;0xeab7cd17c6343;0x7f81d3c4a79ab;0x3b408b969043;0xe24fa703e7c5e;0x36c70397ed552];[0x0;0x6ea1709896e8d;0x42fa6eb8bab01;0x9edf2e44074eb;0x6028b8428d907;0xa1808e3fbd8];[0x0;0x1d69c073f844d;0x89dc4eabf309a;0x6f99cf5120ff7;0x22ff054ec3e04;0x343cea67fcfad]];
 [[0xe050390781c6a;0x5f0a015b46f5;0x3ebff494b58ac;0x4efdfbee2ef3;0xa8074fd7013c];[0x0;0x75b058b3d398c;0x71bc3374a0cf3;0xce6f930d360a1;0xe59d6079cbaf7;0xaf34cdf2bd845];[0x0;0xb05d4c059cc5b;0xd16d864a186de;0x3424cec6760a;0x3f1938a6a3683;0x6e4998ffa847];[0x0;0xa8bfea6ab36b;0x1cc698fc77eab;0x65987801c64eb;0x7a4ca8ec33672;0xb7bdcb1f5cfa7]]]
 (V [0x6a75148218760;0x14a9100f45af;0xf7c1f01245e5f;0x2affabf3c3a96;0x81d0a4804294] [0x8eddec35734a8;0xaf41ce94ac9a2;0x2d38ce7ab7420;0xf2954ef14ad91;0xe3b34d780814]) [[0x135e9a2916fb6;0x7b9b031ab4370;0xf579136815f92;0x4e25db85d1fc2;0x99700565fbc5];[0x0;0xacdd27fa95d32;0xeb184169323a5;0x7ce884e7ca04d;0xec058a1b4f431;0xa65a8b7a7c432];[0x0;0x41cef8e1cbbd2;0x467d3c3a510a4;0x9a300216cf355;0x4883f7dfadd93;0x5bf71778a04b];[0x0;0x3a8f118f63bc4;0x832c1f8c0dfcf;0x22feb918b18a2;0xa9c623230e2f0;0x9f0de9e454fe5]]
 [((V [0xc39deaf7175b5;0x6cc56a5b54bf7;0xc21f64a0def1b;0xabddf3edce795;0x6f9541ed9aa1] [0x6fc9805e93e09;0xb8f4aea8bbd2b;0xd2e57474730be;0xa520a797b2706;0xbaf0dc2d53e]),[[0xce700d7531ef4;0x1b4e2d6925b80;0x8705e944b2117;0xe5e73cae7f956;0xa54377d248e];[0x104132ec697f4;0xdbba66dda9484;0x798e36ec52e6d;0x3ca8fc55665a2;0xed61885dee9e];[0x0;0x3c596f03bedd4;0xf99f01d8c5f68;0xfa667b9a51287;0x19ac075667388;0x41d3efd4fd3a];[0x0;0x3f3feacc5d5b0;0x849967029d292;0x7b14158d2893c;0xcd119667957b4;0x125fd26de0d2];[0x0;0xd18ac67dc361d;0x1cbf8e056c380;0x78004d03e3d3f;0x2a9f100bd4cc8;0x6ab00a3d02];[0x0;0x916f3171ce1a1;0x69dbc7f0fc09c;0x9a53c88e689e6;0x3c20e9c25f69;0xb05400992bf3]]);
 ((V [0x9c0366f909231;0xd6cea989cc846;0x149291f4915c7;0x2c9e3465668e7;0x2b6947225841] [0x3c8ee5c415317;0xcf65f5998e604;0x203bf3570bc93;0xf4bceca750dbe;0x4c0d3526c86e]),[[0x40086832138d7;0xe11e729f04456;0xd335ef62e6d6f;0x159056c667669;0x6608b98db275];[0x66d51e9c61580;0xae718c7a5a351;0xab6245f84180a;0x665bcb215ca92;0x8f6da21dd2fa];[0x0;0x3dce1c9c8586f;0xd9242e0521af0;0xa5dd2713a95e2;0xb84a4fec0394a;0x30a2c631dba8];[0x0;0xbbfd1efa31886;0xc275703b0ec5a;0xd152d1f92c724;0x1f713301a8678;0x9504ad80f1e];[0x0;0x8e98d9709b7a;0xc32da91cf3552;0x41b31e30634b7;0x8edba8b6ecc00;0x28aaf429098e];[0x0;0xc638b6fc708eb;0x69b941393e3e3;0xd605411bfd446;0xbb716d0e242a5;0x6e1c02b1f308e]]);
 ((V [0x99c050b5fe16d;0x16bff794b6e55;0xb8387623a2ffc;0xee94960540018;0x324ed6c59123] [0x5ebdedc131b51;0x2b951cf450bba;0x90401f155175d;0x1d71aa397e8e4;0xea7125b76a37]),[[0x4f300983b7968;0xee5f6cc39e1a9;0x246d1c5d9e21d;0x3c5b3bf081a8e;0x85c58291c7b5];[0x6ad5562ffac21;0x689cb3199dcbb;0xf8cac3b29039c;0x7577eac011651;0x54d423d16794];[0x0;0x6f2a53c3470c0;0xdeea593f36dee;0x8dcd8487fd247;0x5c0375dd85fc9;0x75c8930f796];[0x0;0xcf653f450d02f;0x1b98ad077a8e2;0xc0b2e1608422a;0x95bc914a131c6;0x4f7b1322218d];[0x0;0x17ef5d135ef37;0xa5ba63f39b62d;0x199ce5f009304;0xf7d9918733f7;0x45e6d20db078];[0x0;0x4d9060b83cb70;0x3451471d30bbf;0x42129edf01640;0xd9dda63745d7e;0x8de8315e26d87]]);
 ((V [0xe4d187cd199c4;0xbd34af61cca6c;0x2211a7b88fba7;0xef01696d0bf68;0x7b6fbb9d04b8] [0x7a8546e77353e;0xb9a0eca30d5d9;0x3cd8ceca199f;0x1152d4ea6a33c;0xf8a8e8185a24]),[[0xc557515235c96;0xb6af31e7e8ec0;0x8847d9e093829;0xa5d39cd178f34;0x163e851da067];[0x5c682f72dfe3e;0xd56d12b968143;0xc2e123dfac4bc;0xda70afacbb100;0x1a7b4c9cb67f];[0x0;0x2eda37676928d;0xcfd24d82ef316;0x37311ca4ed2f7;0x6238339ccd02b;0x9e2e42cc145];[0x0;0xb105dfac212;0x5184ef60bdf7d;0x2f6f14579b1bc;0x5198301da4e4c;0x28bdf5199fb7];[0x0;0x1902a4cf963aa;0xb83873fbce1b2;0x528950d705db4;0x4ece1fbf2262f;0x1eece25d723];[0x0;0x381550c0e2e17;0x1f133004022a6;0x905ced3af4645;0x30d812f5552ef;0x173cc274f2955]]);
 ((V [0x2bf4ec0e71fe3;0x4fea3a25902a7;0xafc753d72f907;0x1ca04022a5be0;0xbf4e971a80ec] [0xd30785b470d28;0x7358bc2f68638;0x3d7d4a8ea48aa;0x683a6e6ba156c;0xa20bb719aa38]),[[0x474bde32b8a06;0xe4683043225b6;0xb3c28909e6beb;0x9b024658ec7d2;0xcaf3b3216a35];[0x7b371002fdecf;0x3827aedce3cb0;0x5669f79b15e4a;0xb2a176d94cacd;0x78e8859e0838];[0x0;0x9e0fb7c58b4e7;0xa51b391b4f642;0xc820e9c2714ac;0x933f969fbae05;0x3b848f0d1e32];[0x0;0x4c8587b6bc531;0xe9c799e7b2980;0xfa2722b0bd6f3;0xf36a81dddf024;0x18a43faec2aed];[0x0;0x39340ddeda2f;0x2050a8ebf26e;0xa8d8cd2f18581;0xf94761fd76946;0xa0e57eae4a63];[0x0;0x5e5b015e47a86;0x74ec2965da8a1;0xc244328a1f211;0x7e704d868d003;0xd44606fff0216]]);
 ((V [0xe7d09ed54735e;0x3e85f463de76c;0xa705fe961295;0xdc55116622533;0xc79af30b463c] [0x52060871d63b6;0x160894e2bcfbf;0x736db739cda64;0xeb33596876654;0xf30062842809]),[[0x35b59b632d12e;0xe910a48b7a05e;0xa815aa4ce9ae1;0x2ee7007ca3c65;0xeb5788ba46fc];[0xa51d0422017ec;0xc78c05aaa4e4b;0x80be8dcffc2ac;0xc45ba4eccb0df;0x26f03413d6a1];[0x0;0xc6800690de52b;0xde2fef5f61e;0x58f9c50a19ac5;0x296d8c029b098;0x8ef65d99f9b7];[0x0;0xf8ea084bf9438;0xa09dc6a9465bd;0xbc228f72c1c7b;0x426c92539dd1c;0x129f05337d764];[0x0;0xf63cd71f47be0;0x71b27572a93cd;0x1c0b04cb7679c;0xb07b27dfa3a95;0xd859d2f435f5];[0x0;0x74a5dbedef146;0xf9f73e6e386fa;0x26df1c1d5784f;0x2b5516d0e2699;0xf992f2596d82b]]);
 ((V [0x25558322ccfe9;0xbe63403e0ebca;0x7f2d423e2ff87;0x70d5bbe810dcf;0x41869e456fdf] [0xc417d4b66486;0x4031314912022;0x4398918b7f9ee;0x52398c13a4d8c;0x3636dbeb824b]),[[0x7853587fddd80;0xcc38e35de899b;0xb0f1663ad78f4;0xe51b1aeb51884;0x596544529a60];[0xa7470189832f8;0x34d6212e754c;0xfe5d6827bd100;0x727970970fd98;0x8a77ac5e2a98];[0x0;0x28537551d0254;0xe8c663da26c65;0xb16a99f6f3ec;0x879bfe2f7d8c9;0x9ba243a4d781];[0x0;0x3a8d0a75f391c;0x8a6d4785e2614;0x38e62e0cd286;0x390f3eb72291b;0xa9b68482a5c8];[0x0;0xd9bf329b212dd;0xd2906160ae177;0x98d2a45e3b067;0x2c6c5cfcc05a9;0x1f3791906ac1];[0x0;0x82c6af26a8cdc;0x4524cb2dec034;0x8e26603a28155;0xf2f4214809a6a;0x61e8ba4c323e5]]);
 ((V [0x56cad34204a5c;0xa36a85ed82c75;0xa6e54c62ec772;0x361a11f366368;0x5a9cb87812a2] [0xa32c988b030e3;0xd49ddedb70c77;0x94f037d35c359;0xe76513ae8ada3;0xdde8d97b1ad8]),[[0x7ee92ec679e1f;0x7839c3b51829e;0x272f72c2df033;0xe51e7cb845e1c;0xe292a3f806a4];[0x236d766c6fa4a;0x40a5e04d6a152;0xbc17a724301a9;0xa31e29f8de03a;0x9af32f76e6c7];[0x0;0x8fcafc10a4d51;0xabbff2b8ec8ee;0xc330ee7fe70de;0x5e23f7cabd8ab;0x10c5a329555a];[0x0;0xc4c896e9cf04e;0x95d8e0a96266a;0xcdb178dc89c04;0x4f3a0979981f;0x5ff6f85193d6];[0x0;0x2c28ba1535765;0xf91df1b6cde98;0x8d1a8b658597e;0x81620668806a6;0xc8873d815ba8];[0x0;0xc7586498ed1f5;0x628a603176520;0xe7ad3bed5e7;0x25e20883fcd7e;0xef58901ab6ba4]]);
 ((V [0x7e0cbfa9f1508;0xd70d0088281e0;0x8d751e74eb80f;0x176082bae4137;0xfd0edd8ca8dc] [0x2c0325983a35;0xefe1a3afbf870;0x7af6e3f28cda;0x118359e62f5f4;0x5236fd1f8dbc]),[[0x4fd3d525f4856;0xc2fddaa5ef4d6;0x6d5d8a73458e4;0xbfde020ad5a64;0xf502b3d72b80];[0x4f67cdfbb99fc;0x6dc145f31ea14;0x2b93d48f59acc;0xe4e9d1c5d7b3d;0x3de1a054f251];[0x0;0xbaa67abb34c0c;0xc174276bbd649;0x1e078da6a0a54;0x96d6eb986d25d;0x201291a5c45d];[0x0;0xcd6caaee8264;0xc0aa7fe608b92;0xe57775eab7e0e;0x7928af356fff3;0x1a8c45fb1affa];[0x0;0x33d71d5e5b27c;0xd1cd87dd5dd45;0x1a68690acaa35;0xb8f2155804133;0xea7e2c4126f7];[0x0;0x498e322fdcb96;0xd554bcf2496b8;0xe88a6b6aab978;0xc45049a2d1fa0;0xfa9b4fcca8c38]])]
 [[0xfa63f2d09554;0x5973d63fff670;0x31e7f76ab6d80;0xed5747457718e;0x78683b508455];[0xa2f2cf6928eb5;0xaa4b617a5f6c;0x6e676f84cafe7;0x4a11b058020fe;0x26beaaaa91ee];[0x0;0x2ae273b6b022d;0x525d31f0698df;0x4c65bd189ca92;0xa71c716b826bf;0xfa2662c500e1];[0x0;0x83bfc62d7ba33;0x3380dd1000231;0x6dffe800e156d;0x1e45258ffc56c;0x4d5680144e8e];[0x0;0x189b89c710b66;0x88d8010b3b993;0x2f4b72fb74336;0x4aa53f3e53182;0x38a1e20bbb3a];[0x0;0xacbb566534a63;0x3ed247dfb011a;0xc34d5d33caa88;0xa85901bc90b4b;0x82f274ecdd091]].
Definition wit_A_64_8 : colwit ipt wit := mk_colwit (V [0x41296b1e76d89;0xdd370329defa0;0x78dcc58c867f4;0xb8c6484e016d2;0xb0f2dc0bd4dc] [0xa2516ee54a4c0;0xf7d2dae2a99e0;0xf8a96c25ef3cd;0x3430dec80fd26;0xdcd963d10630])
 [[0xf603db57691d;0x457925c33953;0x1de04381e8be4;0x9b8f0e1129f2e;0xc9ec2a61b089];[0xb21164ecd6939;0x1bb450b28ea0a;0xf915a4543bc7a;0xc0a069c8ca310;0x1784ae111927];[0x0;0xb6bfa91724d0d;0x9068d1de67267;0x3d4faa4197acc;0x4a67e2fb2ec26;0x587da3f858a2];[0x0;0x6b6538cac9b23;0xc639f7dfea0c0;0xf7739dcda6305;0xffe66b492adfe;0x15d480c6f493];[0x0;0xf0c52bba6a80c;0x8e4d6534548d2;0xa3fc32a48577c;0xc731dce936679;0x9f44b46b9259];[0x0;0x7ab3ee3e8c066;0xc4f5a9e55ae1d;0x47e57f420cee;0x89ce975487dbf;0xd53d481b2b584]]
 [[[0x8113002ff1ae5;0x292ee75194410;0xb55e68a302c2f;0x48151133b779b;0x508256167785];[0x0;0xa1a5de004f013;0x41b96307dd759;0xd30f9d280f61c;0x9675fc8b81139;0x560f82b5418a5];[0x0;0xe9472397f8e0b;0x377571fc98af4;0x10f15d7279c02;0xcab0af4984c7b;0x1951b8299677];[0x0;0x519047c840069;0xb65edae139cc0;0x52fe7c254eeb0;0xb83714f0c24e4;0x53ffa7344fa1a]];
 [[0x84a4726fc103e;0xf32ab73d887ba;0x71b57f3ed11c0;0x4daccee2cb6c3;0xbf711e201b2];[0x0;0x6d4ccce801b66;0x82940c6795bd7;0x4df6e8e8612b5;0x57355278c4489;0xc8f9a75e5571];[0x0;0x136a91645a8b0;0x96d5fdfd7374c;0x4811cca6e45c2;0x647f6a63b082b;0x8f29fcef84];[0x0;0xa1a38b37e653;0xabacf65d4c291;0x8525919d5116e;0x2691b59f94479;0xd4c9c134847a]];
 [[0x45f066ba16aa3;0x3b60c050f0937;0xed7d5f5c22cc4;0x9a0d421e46e5f;0x36455a3bf64c];[0x0;0x6aad4228bd2f1;0x27fce563bd012;0x7684011fa87d2;0xf33190c77a64f;0x3ba20432a9e60];[0x0;0xa41a8969c8be4;0x3002d1d469f9d;0x2f23a48921ca4;0x4d81f3a20dd25;0xb8154db1009];[0x0;0x40173c93b557;0x122b0fddd6aa;0x3538fc2e2c81d;0xc727616713a9e;0x386685ae5eca5]];
 [[0xfb4ef05fb507f;0xb3304c08b95be;0x50c9bfa64c634;0x8a63c2b262699;0xcbfd2ccacd1];[0x0;0xa31d939cd78d5;0xb88465d79a99b;0xf3a09c54eca03;0x496a91c49f784;0xdb65f1d851f9];[0x0;0x887ae97a7f81d;0x18470009743fc;0x49af88981e775;0xf4d184c7b74d0;0xa28b7f6b31];[0x0;0x71d4a93a04f9a;0x24bdd96c26490;0xcdde3f1cfd9ea;0x70a2631af1054;0xd4a25e0bbfa4]];
 [[0x3f7026fa4fedb;0x55cf9fe097d90;0x790781e2d5ef9;0xf33d9259d5d7a;0x783746275e01];[0x0;0x8bf83acc8f844;0xa9f09f037b10c;0xf18ee19c18167;0xa8e999e135e9f;0x7ee0dd2ecaacd];[0x0;0x2dc54a98ebf26;0x3aeef47f45acf;0xd25986ba064f2;0xc65715cc5284c;0x3873ddb42045];[0x0;0xd7994d04d477;0xb0d580b14368f;0xf41ece08c774c;0x5cc7376be7c94;0x8124650c6c445]];
 [[0x6a056828370e5;0x20f2383f34aff;0x15d5a15735e7d;0x5dd920283659e;0xee4005ca5173];[0x0;0x49adfb71e4f6e;0xd4ef1ec59de00;0xa45f626fd687d;0x1342bf3710e3c;0xfe41045b747e6];[0x0;0x83a9faec9558b;0x297ad001b0e59;0x7635adcaf2573;0xc341c9ffa4737;0xddbb1ac714bc];[0x0;0xfd2016aa3159d;0x1c8d59fa63dd9;0x6192f9b14630a;0xfdb247ff0fd8;0x32fbb2554d1e;0x1]];
 [[0x2da148df9d6b3;0x5510e9b84bfe9;0xe59f276ed6a;0x975c2e7f34e2f;0xa6aabf739b3a];[0x0;0x27e9b40fcc9e8;0x90cf49cd208d9;0xb962b6377bca3;0x31673440c41e3;0xb6177a6ccc382];[0x0;0x889d2a2dc3206;0x75918c6b40f57;0x37e918949284e;0xdbf2d55a446eb;0x6c81e22cc207];[0x0;0x3bbc69a99299e;0x1db2a3f49b2a1;0xab712b3b10151;0x3c8a4606dd9ed;0xaeb481753c9d0]];
 [[0x8656d2750ddb7;0x51d6cba2be12b;0x4c1b098a63239;0x4d2453c515a1b;0x66f3bbb98418];[0x0;0x5bb241130628f;0xa4a6191439fab;0xcdef048ab2b4;0x8c23e34a21701;0x6f02c6975794e];[0x0;0x979d066de8aa9;0xdaa77ea035e03;0x1ecd50828c02a;0xb10715b3b822f;0x296721a5c11c];[0x0;0xc55eb3782a4eb;0x7e17d8f9dbd19;0x672dfcc9b3763;0x3303a2e604d22;0x6b23f60945d0d]];
 [[0x6483d6d37f5b5;0x47bf9bf7ed20f;0xa831063530c8d;0x186277954dad3;0xa1347cf59efa];[0x0;0xdc6a083bc9c5f;0x98bc4632308f0;0xf5e3669e3624;0xe3f50478b3791;0xaa4e7ea73124a];[0x0;0x5b4eee9629c1c;0x794e9670e7aa7;0x73f95e5dcd946;0x5f1b7761b1a2;0x65830feff2be];[0x0;0xd376e95f49838;0x6bf8385dbd4c2;0x8ae584dcfe014;0x71e016aa5ce28;0xb1ff98e43dd4c]];
 [[0x9ea39a776126a;0xbc3b410f27aa6;0x54273001b2945;0x3d95cb8f6ee84;0xfda3754ab8e8];[0x0;0x1f17e8c275e0f;0x9a4034fe0e49;0x46423e742d233;0xa368f30b07b93;0x16876e777469d;0x1];[0x0;0x26512b6eb4da8;0xac9f3216c90ba;0x1e9d593499662;0xe44c3537ebc02;0xfb4c7e34445f];[0x0;0x3c294aa20896d;0x7dbb68ed14142;0xa1ab623f72be8;0xc1cb7b17f30ad;0x7c033809b1ca;0x1]];
 [[0xd129c3d3e58fc;0xd8d7cf8a66ea9;0xdbc574d52c0b1;0xa6c7a5f1a782d;0x299e1886b8b6];[0x0;0x6c3d30c55d000;0x31b21c1ba5890;0x36e372fec3dc5;0xe443d0382a4c7;0x2cc2823ef6610];[0x0;0xf7c7d2891a993;0xa588a2a68183a;0x806ca5514d153;0xc69f55b58224;0x6c4057d6fd0];[0x0;0xf2cd39deea577;0xe8f4538492b60;0x863c2de844fb5;0xc1d39cbf6141c;0x2bb647dc978f3]];
 [[0x21cd618a9326b;0xbba6e5b34e209;0x45c6b2cfdff1a;0x151ee1504aa6f;0xc87faa76ccbc];[0x0;0xd92fa179fb82f;0x108027855352e;0x6b7708150938c;0xcbb6ebaa214d9;0xd532369530ec8];[0x0;0x6d1a50340d9c;0xe0776ea089f1c;0x6d2633523167d;0x2a861ddc9dd8;0x9d07ba043347];[0x0;0xf97c7d55b858a;0x8d26ada181628;0x72f455613b8d3;0xdbbe9e83f5d57;0xdcf441d6b20e6]];
 [[0x597a86b278a6e;0x87ee67abf697a;0x29ed9586639c9;0xb3fabe129ed95;0x9148755ea455];[0x0;0x68e4778192598;0x2f67b2fd3f38a;0xcb6e50b2d2277;0xfe38a495497ad;0xa039c82940a2d];[0x0;0x74fd5f63b0442;0x43a6d23a7d68a;0xb4867f806a794;0x2b4ab74d4b966;0x527329777135];[0x0;0xdc5faecd2bb1a;0xcffd6aeb3a439;0xb6db877dd055;0xaaf52742bac2c;0x995fc0b622a20]];
 [[0xb0386822842;0xff0cfae2f527;0x552e0df16d0ac;0x5e676d7456649;0x448b3bdbda8d];[0x0;0x154d20b7310ea;0x23a1dbc5718c;0x3014641d6ef16;0xe818278296e6f;0x4b20877fe505b];[0x0;0xd896f56c524d3;0x89477a83f6c54;0xc952fd790ce81;0x8338486eee7d6;0x125a4386dad9];[0x0;0xc8431ee11c1fb;0xffb7b779a93a4;0x63df5209cc057;0x12c0407f81b91;0x46f780166bd9b]];
 [[0xf9129d51d0dba;0x35c3112db4ce2;0x98c157c1d69b1;0xa665d2572f1fc;0xafd950660d9c];[0x0;0xa0402be30c937;0xa7f8131306ed;0x944bd64bf0007;0x8dc242d69d3f2;0xbbf6a2ddabc20];[0x0;0x47cda9406aca6;0x202268ffacac5;0x3fc0a7ba5a07b;0x30420fbf4f970;0x78cad464ecdf];[0x0;0x86ce797c6b25f;0x154c48725e721;0xc8387033a1b68;0x40c68df848cdc;0xbe1b1eb323d4f]]]
 (V [0x2d4ce7bf6e507;0x17ff485a60de;0xf5757eb16454f;0x874c30efdd985;0x2e4b435889b4] [0xade23d8b3724f;0x327ce06208f5a;0xe68ddb72813a0;0x4bdc019c8076b;0xf8d93e5e55fb]) [[0x9622d1ff8eb5a;0x8fdba0e0ca397;0x7d6ff5e7b65fb;0x7ce36d0218e9e;0xc493c5b4427f];[0x0;0x59cc3607142a;0xdca232d63713e;0xc25e45de69039;0x7942c7aa552f8;0xd480a5e748611];[0x0;0xa058c56899e1;0xbec7a6914c46c;0x7b4d842bab8da;0x82eb76de0807b;0x96f29c08ab86];[0x0;0x7bbe636a391e4;0x425f745012ac3;0x1b4d17ea33f20;0x4860581d48a76;0xd239ca1841853]]
 [((V [0x326d7d53e8d61;0x40def13f04b1b;0xe9152297bb7e4;0xdce2df88c6c73;0x636ff3b33646] [0x8f73d70383768;0x41de389968384;0x559904e7fb278;0x1585f6a5b5147;0xe6d0613867e]),[[0x7d8644b0ca243;0x859d3aa4231d9;0x8024ef31b7655;0xf25d6ece128c3;0x27dc54cfea8a];[0x517ce20a3d44b;0xdc7596d304db0;0xc98835e449d3d;0xb465862d853d9;0xda7079bc509b];[0x0;0x869464365c60a;0x150cf4cdc5743;0x3785a360ba01e;0x71a1d3c7e4be;0x85f22545915];[0x0;0x5135144ce96e3;0x1cad2230126aa;0x2a126500eb07f;0x656f72de9af87;0x4d7e8b46b892];[0x0;0xe85031378c1f6;0x6bb6f28c751c;0x83ff3357e1165;0x8f715afcce240;0x634df793aea];[0x0;0xa999e434f46f0;0x2f421946604a9;0x19d272f147674;0xc42d448621e86;0x29d5b4dce01ca]]);
 ((V [0xc057cd4b3fc31;0x7f78ee36b5e21;0xef149710a7269;0xafe70522d969;0xfc26c120a248] [0x2f09bb8c7e356;0x624704e2d366c;0xf55494c1fb8e6;0x9346ea6c23001;0x927ae23f97f0]),[[0x56ecfe1a64fb6;0xa38a9482fbb8d;0xb47a1bc2234dd;0x6576ffc54d9c2;0xd218deda4f10];[0xf5861dfa806b8;0xc9cbefdfa8bed;0x4424aae658eb0;0x59fc35a07b35;0x37aa8f87f3aa];[0x0;0x858c28dc3ab5f;0xbdd4e6580d6ef;0xec78ee6008daf;0x96ca7f9334c9f;0x269fc771d961];[0x0;0x4c52ee6fa977c;0xf618b32588764;0x43980e2777796;0x6c47cd6a2de74;0x17adab86dd71];[0x0;0x39c6323f3537;0xda38d9d7349bc;0xbdf87837ccdf2;0x14d57241fa44d;0xac6cd008b4a5];[0x0;0xb923565cd904;0xb8a6f1da1f20a;0xab73a6d31bcb;0xa0c856b4702d5;0xd765201e77a41]]);
 ((V [0x36e9ef6c2c213;0x32b20264445bb;0xdb0a09fbc1b13;0xcf55f8ede6382;0xa57166d40a9c] [0x419598107a5e5;0xd7a189a013870;0xc1a5a603f7ff7;0x2e81fe8d47c3c;0x3a3748126c20]),[[0x97e0756c512a7;0xf2751ba9d42d5;0xf1d6459429ab5;0x496c5608394ed;0xa7d2b6ab224a];[0x9bf8d1f99f22a;0x144155294eb77;0xe89c1fb9c0d3f;0x219eb375df077;0x8d64fcb38139];[0x0;0xc5efc33ff6f61;0xed10a1f4fb840;0x4aac71dacfc2d;0x3be1ca20c94e4;0xf85c521626e0];[0x0;0x6ff709d0cbb2e;0x17292994b5d29;0xe939cdb33af66;0x7b00f34a26ebb;0xc00d75d4b9ab];[0x0;0x9cdd273a3cce4;0x5d28f31f5d4ea;0xb81fca46cafc1;0xf4d44237d260d;0x6e0497c379d8];[0x0;0x9e895ec720c58;0xf16154846b9e;0x71b5bf804c92b;0x2d9471901dc1;0xb5dd5cde835a7]]);
 ((V [0x11b91b92a4d06;0x4c0609a7e91e3;0xf3ec0c0af61fb;0xc4a3ee9cfa287;0xf6a60a503952] [0x38d79d52a73da;0x7de2f9065ffd1;0xd6c5dfbe52303;0xb8d263e4e7a25;0xba1f0a27146e]),[[0xb30d412a03ac3;0x8304fe547ddc8;0xefc10e998197;0xd4619f02afedb;0x9ca8b1e2b3e8];[0xe339231b2d7e2;0xc788118222d31;0xbc5044226e5af;0x64626706dc045;0x41f21209d904];[0x0;0x647212d9fa591;0x3e905c969fb76;0x61e33cd14694b;0x29ca6628f5cb9;0x6aeb60c9462d];[0x0;0x60f1d57f38ffc;0x4217d0f20b3df;0x5644f8dd07590;0x108b3c2a293aa;0x4740194c990d];[0x0;0xa31353acd912b;0x10c3588f3fa08;0x52187cab8f5c9;0x29f7d52160f13;0x5fde07f6406b];[0x0;0x9d076f31ee40b;0xe1ee4cda7e498;0xa0b7e854c2b50;0xb8477b176a224;0xa35823975aded]]);
 ((V [0xe8f0f0f10a01d;0xf98b153e7892e;0xf28c4f71113d1;0x8419fdacd2235;0x316a1d5c5878] [0x1cf037c699762;0xd71ba7a8d0c55;0xe63c48f496b23;0x135eed25a0abc;0xd041adc03b32]),[[0x186dcfeee3eb4;0x393ed1a32a2cb;0x998586b8235a3;0x7d97cd550410e;0xa68207a661fb];[0xab0e29dd92d87;0x47cb4a6281355;0x2f40719a7d741;0xfbe309cd7704a;0xe80866b1bd97];[0x0;0xb1bcd49ae23eb;0x1d412c3a04ab;0x70b55651d3392;0xc6e06b1ccfc73;0xeda387838e9f];[0x0;0x108c90ca971b1;0x54eaa4bca2bdd;0xf7ef4bc6b4639;0xdb1fae24f536d;0xf21d53d09f78];[0x0;0x37e1ad58ab9b1;0x43cd11683e790;0xf7dae6e2f9a73;0x2fcb64fc85f38;0x6c4ce3f78c48];[0x0;0xb5e5fa7856b1c;0x3796d6eb55e60;0x29620aea6c6de;0xd45992c575eca;0xb8eeb8c05cd2c]]);
 ((V [0x131925167fc96;0x4867f65374480;0x39f2d9274d6f6;0x25cbb09920851;0x389abb6fb52f] [0xda8ade1f51d4c;0x57968045d2698;0x2d7eb336020d6;0xb18aa6c0b03ec;0x635e67cdfb5f]),[[0x327afa64fc5f9;0x205faf82e5204;0x5aec209e7f26d;0x8450c06ee0fda;0x25ff4ffea644];[0x1a74aead5411;0x79e22e0994da;0x907c2de1bd533;0xda58eb751ed8;0xbecd834b44f3];[0x0;0x92d38844e6188;0xf048462a49eae;0x67ae8e0657b14;0x73ba5bc225450;0x989cb39adb5];[0x0;0x6ad4d6f3105ab;0x20aa5f18ec75c;0x27478baa53e89;0x7cdb1f327c2ee;0x3dd261389028];[0x0;0x974aef30689c7;0xb2f23460fc76d;0xef1006fb6eaac;0x32ab961cbedf1;0x5a3cbc0125e];[0x0;0x683acf842f410;0x3e6ee8f368b1e;0xe02f631fe724e;0xc61ece07489fe;0x284e31d63a12c]]);
 ((V [0xf75c7e162bd17;0xe20b517821f32;0x8bd2ebcd56502;0xe8ba778098a7f;0xb70ce07a1fb4] [0x95f999002587c;0xe3e678f51cbe6;0x8648541889bb8;0x2021ee0100c6b;0x56cf6a4b7c4a]),[[0xbe943dbcc6c1e;0x57c2efa554a4e;0x87ea537eacdb4;0xb0ed1dba5e276;0x17723eaa7e2];[0xe090610be891e;0xcad0ba8ee9038;0x42201dc52f20c;0xfc722c849b9c8;0xd04a88ce21dc];[0x0;0x5a13576371c2a;0xff2f9b8bca98a;0x115c0d8669f57;0xb416a985392;0xc840f86eae7];[0x0;0x64d750cbcc26e;0x37c0e7d9f1289;0x6042edfc257d;0xb11dc1f33100b;0x1233a7618c3];[0x0;0x2587b3acac6e7;0xe602ca0af98a7;0xf9f920baa6b3b;0xdb21ab92eb2d5;0x225ba3e81];[0x0;0x8f11fe8984ef4;0x4807190177caa;0x9a79c38951923;0xff66af2e54569;0x183017a36178]]);
 ((V [0x6ea300c5ffaa3;0x12c61298cedd1;0x8ec612c651004;0x16352d8bf2607;0x1491f8f4400] [0xc3d6115c525d4;0x12e23fd88c4e6;0x9493009880f4e;0x53545be11bd09;0xa7a7791b765e]),[[0xcd47b8cfc0eb2;0xc29885eeb1362;0x17a9258dae075;0xbfe8d59505841;0x3c8f5be60629];[0x45b32bfbd9ecd;0x466f42676a65b;0x4ade56beb6e14;0xdaf9430659536;0xf757de0a3ddb];[0x0;0x9b73e39ac615c;0xd093cb1aca8c9;0x9d0f02cceb01d;0x8f6f3bf6815ea;0x82e36994699d];[0x0;0x87209055a19d3;0x7dddde0b658c8;0xdb83773f1dd82;0x4d72d4eb07412;0x291273df990a];[0x0;0xb929093c92d05;0xbc762455b68ab;0xde371bbd5cd9c;0xcbaa4bd6d117b;0xe53835b9edb];[0x0;0x3fefb1741593a;0x848b9e2084579;0xb93153da47fb5;0xe40b74b8b3765;0x43084c5161f47]]);
 ((V [0x715b5d801804f;0x3a646a5146d70;0x8349a6f1d33f2;0x4525089a0d2fb;0x8998275c4a86] [0x6349e74df7f7;0x3308831b74311;0x9a00296f3eeff;0x1dd556fb24450;0x81ce05d58a8e]),[[0x8d10a685690e2;0x682aaec93c227;0x56fe4123d2b7;0xf533756391b57;0x8de727c8303];[0xab95a289d3435;0xddf0289d12983;0xe2fbf27eb493e;0xd5951440a9c31;0xd5334537fde6];[0x0;0x887199e74478c;0x4e8e27887e13e;0x5227c454dac17;0xcade2438cdf20;0x1a7222220];[0x0;0x98b449f911e6b;0x5a57fc207b593;0x7e4fb500cbce1;0x8ddd5fb8e7cae;0xb9dd3fc00bb];[0x0;0x80e29423dc969;0x6abe45535b159;0x8233715058ecb;0x9b6f31da3d34c;0x4ea8728b56];[0x0;0x2521f8c68572d;0xf07fe190df38d;0x5e66b083ae09;0xcde5a46a14dc4;0x920cb08809bf]])]
 [[0x8b4b714bc4cdd;0xb421bb08a77be;0xfcb6ac87cdc70;0x165a6ecaca64b;0x575e499cfe7];[0xbde280ed3cc54;0xd2441797b2cff;0x581ef735cd92f;0xea642af91f2f1;0xc4653420e3a3];[0x0;0x70b976858bffb;0xad5338dca1ef4;0x8fc1d12aa71e8;0x756e4e73faafb;0x49f4348f8b69];[0x0;0x8ba195e12320a;0x5024eef6c6bc2;0x1bc3000faabc2;0x110759145efde;0x5899a5ea217];[0x0;0xc0c0d120122ea;0x1f532bb85289b;0xed2347028cd1e;0x66d7c1de85762;0x1dd138c2d9];[0x0;0x7dd3d7c2a1b42;0xaec6e11a90c5;0x3140c6768b560;0x18c3c2a9dd207;0x5efbf56c30aa]].
Definition wit_A_64_9 : colwit ipt wit := mk_colwit (V [0xec6c29cffee19;0xf71c6e8dffaf3;0x7e6e09f2961d1;0x7632baa021fde;0x884d066f5927] [0x8847a7b965845;0x4599b19e1e6cb;0xf82e3225b779;0xded39393ca58b;0xda0ee935c427])
 [[0x23eb4bf2b17fa;0xea65baad7d92d;0x4128d02b858dc;0x229f6e94ca15c;0x45f1487a635];[0xc654a40194a13;0xfcff3e4c43645;0x59ec5236df454;0xe42a22e4d8a0;0x30d1d9a11ebc];[0x0;0x640366fde9baa;0x649f12251a013;0x6a91a2ab921e3;0x4537b12b764b;0x53796711ff9];[0x0;0x62c0ef8222fa5;0xe6ef51f1f0e3a;0xf7ada818aa7ff;0x3af9dd1ff2e0f;0x13aba441af4];[0x0;0x665182e081e67;0x58fd476ca19d2;0x8e4201e68f100;0x7e5db3251a1aa;0x131bf47b84];[0x0;0xa04397b3feb47;0x3765255810c7f;0x4ee25d78d5e85;0x50026230c7711;0x489c4af44b95]]
 [[[0x842741d9be355;0xb0b3cb7c9a771;0x9f5ad4e66a549;0xe6fb0e657ea42;0xcb12aa4b1daf];[0x0;0xbc0f737006b85;0x44c03b12da962;0x378f42ad46dc0;0xeeea6361a682e;0xdcb5ee27a52b1];[0x0;0x238bf0a85b8be;0xedd5185acc1d8;0x23484d98747d8;0xfe86ab6b1689e;0xa1169b6f84ec];[0x0;0xb03c216f464e5;0x1501063024502;0xa03fbf0f58e4c;0x53c1fc9071fc5;0xd127b1f55b1e9]];
 [[0xc660ab4a7245c;0xa7a8dd2226909;0x2070f8b0d988a;0xfc6b3abb8a50b;0xd07e85e8b6ac];[0x0;0xc41cb002e9424;0xbf9b03e477b43;0x71158743f104c;0x96bf1b3a44dde;0xdbd104da4bfdb];[0x0;0xa394c6add782d;0x3b53f96461976;0xada20ab3e0b31;0x8dd21329ea8d3;0xa9cdd8223ff8];[0x0;0x2a8c5a7f35499;0x4ce82908ef39f;0xc329b8be85d12;0xa9a9663b4d635;0xe27981433b3ee]];
 [[0xf53824a454784;0x5c0f90621ccb6;0x45004aeb474d5;0x916bfe5001098;0xaf492505c3c8];[0x0;0xeffb40f342ed7;0xb5d84d373911b;0x704d8c24f38d0;0x322e35334459d;0xbcf73b4f1743c];[0x0;0xe3d3058c3421a;0x629e9d8d534ac;0xa8668e325f67a;0x89edcae27b74b;0x780515840450];[0x0;0xf41c5af64e49a;0xa4a9063153154;0xaddaeb1e5d413;0xd4cf9d065265c;0xbb27e9621e917]];
 [[0xb6ed50c2bef42;0xdb59ec3cf82ca;0x9bf1c184794d5;0xa702ba6cc1038;0x1f7936894769];[0x0;0x7bebf5550137f;0xc46eb19bedf73;0xec028fe156b76;0xc7b5958a4af62;0x2218152160ea5];[0x0;0xc134dffcd7888;0x7942974f19b69;0xb2262e41f46df;0x4c109f303f5ca;0x3de9499d8af];[0x0;0x2004fff3b6e7d;0x3ee0aef50e00;0xb6acac05201ed;0xa54cbb8767c9e;0x21a4453cc798d]];
 [[0x5ef53d4d7acc;0x7d25b1df98a7b;0x1326997b02030;0xe9f83591b4a44;0x7f425c560c15];[0x0;0x241a12b2684b4;0x241fd7a79aeb7;0xf18b0a6b8dd77;0xbacb17cdd6e52;0x8aab197d1167e];[0x0;0x41b99a77d170e;0x86a3930f85e7;0x2b144fd1620ca;0xef0cc897d9705;0x3f42e8d11da9];[0x0;0xe544b23b8185f;0xf309bc2895e90;0x36cdf9573206f;0x5aff46c180d93;0x87b9c18f5ec0e]];
 [[0x5b061dd7dcc0f;0xdfaeb1514c564;0x88b301bf68a67;0x9041c93bf0127;0xdd530c81e2b1];[0x0;0x511f4f47fe0d1;0xa220e2ef152ab;0xfc7daa8578dcf;0x828202e16bbbf;0xf20ef2ca4c702];[0x0;0xf597d063a3a49;0xd03d99088eea3;0x945549d5aa3f;0x15c05518464f;0xbf587e895e3c];[0x0;0xb48a1f3f0261c;0xf0b099f89daca;0xa40b66cfaf650;0x441d833581a22;0xe5294a382c366]];
 [[0x584eda15110cf;0x8c743ed816c78;0x3c4537b38d354;0xfba4f5af60e49;0x5061cabb343f];[0x0;0x5ba9e46cb79a8;0x6b3bf3bfaa27d;0x88fe197efaf4f;0xd6816dd155b03;0x55bc13674ea18];[0x0;0xd2656d5ce1bd1;0x76f640fe1da88;0x31005d6247b93;0x8d1e25d3d066d;0x193d44104311];[0x0;0xf64464c283c5;0xb44120a568980;0xb00e293d889b8;0x49acb40882e7a;0x546f74fa284e2]];
 [[0xf5415603a219b;0x92f85b3208c70;0xbe4532b31a887;0x24f8114aca870;0x80c2e3fbb511];[0x0;0x8de648ab8637a;0xf5bb7268a63af;0x8d6c229fe5568;0x5a8fe06cdbfd3;0x87c7eca134efa];[0x0;0x90d2a6f16e275;0x71bb9ee5b27b7;0x323c0b1e42353;0xed8d1084ac6b4;0x40c3785a0997];[0x0;0xa13bb4a516dc0;0xa8c47a0f92633;0xcf8dc67441fbd;0xcd5890109da5b;0x8d89fe36d96fe]];
 [[0xcdaa1466e63d;0xec5c3daf0a899;0xded6f335e7b6d;0x188c3ca92480e;0x7c780011e05c];[0x0;0xf7a62bef14fe1;0x5ebda15b01489;0xd333fe63dc0cb;0x105dd6ac002c7;0x87d3add673016];[0x0;0x50567df0e0014;0xc6cd1bf33c263;0xf221d17987b42;0x8f5e6f1948a63;0x3c847851621b];[0x0;0x82a3d9b77e255;0xd9f17fd88599c;0x25ae39206797d;0x1d8a2f925cad6;0x80271cf39c102]];
 [[0xd8d15d0aedb32;0xa59caada94b1b;0x1610759eec517;0xa2fa04aeae01f;0xd0384825bf04];[0x0;0xcdf01d99ba068;0x5ff4cf9fb4174;0x2abbed315cf59;0xc5d2db92a24f;0xdc5ea1d2757db];[0x0;0xb1cf51ea5b3ac;0xe115afb57ec81;0x804d9f2454204;0x5be0f689915d7;0xa95b819cfb40];[0x0;0xaf940817f9bba;0xa104e11bee350;0x332f7d44da2cc;0xd9985e55a1d7c;0xdde66f14ab9cb]];
 [[0x1e4cd585f129a;0x31c046037ee12;0x868ce68893056;0x9963bc3388a17;0x6ce1b689d61b];[0x0;0x16219b85a3b68;0xca6b07b10d259;0xe6183cb4eaee3;0xfeefadc6ec06e;0x7395654754308];[0x0;0xd00fb8f30d90d;0xb4a748447f982;0x4742388681287;0xec95e2d271a39;0x2e4f3906ad19];[0x0;0x3522c9a615ed0;0x7fd6649aec543;0x4fb539979a276;0xcafd41a80954e;0x7509fd0dd1142]];
 [[0x148cf46c79acc;0x19bf45d5919ff;0xbf3faf551a5d;0x6c8d332cb7a7;0x70269c67547f];[0x0;0xbf8c7f2d1856a;0x176f64e3c2ee0;0x7afb9e8ccfe09;0xcbf91bc6794d7;0x78725e443a024];[0x0;0x1988a9903aa6e;0xbe1cba5db2320;0xbe6afcf6ea515;0x5455a6caf79ae;0x3121cead382a];[0x0;0xa25a7d63f0dd6;0x851fdbe7cc7f;0xcfac4921319ab;0xd99dcd4394859;0x78b3e51a4f2e8]];
 [[0xb350e9e5c1608;0x97e906901e7c7;0xb888029ef9feb;0x3262d30c58f;0x7bf8f5aab91a];[0x0;0x6c2a72d0c008;0xf0b585fa11b3c;0x517b6e2439329;0x2daf6a007a12;0x86d912b467171];[0x0;0x8a0d16bd2f022;0xc12b9cf001a8f;0x11c5fe3d253e5;0xd6b6ed5591c58;0x3c092e2ef465];[0x0;0x805b80697640a;0x6fb916d1fc7d6;0xe37fe3e16ff88;0xe4f05aecc087c;0x84a9c69b0cb22]];
 [[0x7d021fb43e0c3;0x11c95ddef2d18;0xa8de2ad458838;0xf6f06f8909cae;0x44835f312158];[0x0;0x170199a6717a2;0x355e1d0847eba;0xf5d04a696c3df;0x8c2295922aef8;0x4b0b5635272cf];[0x0;0xc422ee9708c2e;0x38fca18d29130;0xa42c24edf2934;0xe46a44fffcdae;0x12560dfca964];[0x0;0x2bf261ab41eab;0x1ff4699ce8132;0xecebad7e632f8;0xe6cdf6cc8e3f0;0x448d379df7102]];
 [[0x42553f9ac53e4;0x2d6adba971175;0xa5c9ffb4937cb;0xae001bf0f19ad;0xcb21f923f382];[0x0;0x714ea43dc16c;0xf5429e72c9a66;0x9c014469dc585;0x61ababfb7309e;0xd1ea3349e58f7];[0x0;0x99cdd4960d2de;0x1cf9cb97c8cc8;0xd88701690bec4;0xfc65bc3076b59;0xa12ee5a131ec];[0x0;0x750fffa24b57;0xd2605cd3a3bdb;0xb4cbeb6704b6;0x3a5f0a601b89e;0xdee68cbfc4870]]]
 (V [0x27b78a27ee516;0x26791165b4bc0;0x2736c2d2f8c3e;0xd2f45005bf980;0xf08c56d23853] [0x3eea87a212357;0x2b7c7a5a8472f;0x2fbc30cd02605;0x3ebd743f5164c;0x4e13c8caa18f]) [[0xce3a68d68e241;0x561deef1222be;0x120cc2524505f;0x167a2ca33aee1;0xb4d99c3b8c1a];[0x0;0x7eca9a4cae71f;0x1c542a687354a;0x3467362a88575;0xfedb5d026de8;0xbcc7b1099a22b];[0x0;0xb22789d866265;0xd5678db9af495;0x65b4ae12c88e7;0xd46f95fd058e6;0x7fc2bcadf950];[0x0;0x21a330e801e2;0x351f9c767abba;0x5d73371c4ed14;0x4a42aa5455694;0xba84dd2be7b83]]
 [((V [0x60187b1a4f78c;0x367f56ac18b70;0xfc795bf90a828;0x857811cd95bb5;0x6512c28e6dcd] [0xae385024c9591;0x69c1b36e1ce3c;0xbf7f72e94f52d;0xc52a87b7253af;0xf5e459b5d5de]),[[0x2a1d7a99d9019;0xdb1e432188638;0x70e8ab9f46d65;0x7eacbb09879e1;0x6f6d6a466663];[0x1793d05a2f562;0xcaa5c372a4956;0xcc7064255051e;0x3f7c21ce0581;0xeaba9396e55e];[0x0;0x7b176fca08fce;0xd65963cc7fe64;0x447b41b6c9117;0xb1b198e953db1;0xe2076fb93cfc];[0x0;0x6abbe6f14515c;0x46e7a3e231f51;0xede1c10f0a3f3;0xdd924e3a33f1b;0x43f7e5cc0835];[0x0;0x8c30a0fb8fe2f;0x1925bd109ba4;0xf76125628c113;0xd8ba358d4aaf9;0x308010ecb8db];[0x0;0x8274413953ae7;0x39a979b80c5c7;0x872c32f96824c;0x22c090ca4bcce;0x7a2f962a104b4]]);
 ((V [0xe728cf7a37a49;0xb88c5205097ba;0x85bf0a0f4a549;0x963752e47ba40;0xfe4b6ece957c] [0x26a20f14363d8;0x2dc1dff204637;0x5959907683fb3;0xa1045a74e5c5b;0x263ced679b2]),[[0xd5f5e7516034b;0x90437955f7962;0x694436917cc97;0x4a3d6c87cf1b;0xb792f9318e83];[0x8be3a1e42eb9a;0x6f40c131f7c10;0x3d84de055fba2;0xffd04d37c1822;0x1af3551c4fdb];[0x0;0x671489733a97a;0x7a2ab95f1227c;0x5fa9cd6a4aade;0xc9e100516de58;0x27e7cee45287];[0x0;0xdc6b85bae768c;0x5ea12906709c8;0x9409274ce476f;0x85c656edb62f0;0x160a6cf6db4df];[0x0;0xb001a66948928;0x8486f3c159af3;0x494068ef521b2;0x4ee64477ba0dd;0x83a374a608d7];[0x0;0x5f8ba613efe83;0xf2dbb28a41f7b;0xa95b5e8856b1a;0x4edd71be1d55f;0xbc2e311b0950f]]);
 ((V [0xd486b829e0e89;0x4580f031e50e1;0xcccc0e765d8d4;0x81ffbe2523cbd;0xcaaf4b378433] [0x616ef2d69fec0;0xddf88452c7f40;0x3b895cd30f89e;0x2d1fce77a067d;0x43ea1afa0daf]),[[0xd229f0a720503;0x69a6bbb63580d;0xa7db237f4f743;0xf6fe38b4d5274;0xf158ccd56832];[0x9fb2cb86635ba;0x3e83d6a164320;0x8412c77d71100;0xaf5f9ebf633bb;0x3842d15e0752];[0x0;0x4c326fca3e681;0x8966767fef9;0x8e670e80d1491;0x41c9cb86fdf;0xfc99c61c0da5];[0x0;0xf597793531fe2;0x8a52619b670b7;0xc7f6a16c97f3d;0xc7bb877854fc;0x48193e11244];[0x0;0x8e1bb61d05642;0x79159e8d92298;0xd93d75577d30a;0x680c3e6915e50;0xe388507744cc];[0x0;0x62a609b3b9ecb;0xe3e079cb546e3;0x180f03cd5fddd;0xd7404523af62b;0x378d7ea4d0dd;0x1]]);
 ((V [0x1cf1d887c1094;0xeee03886ae0cb;0x259e72543c315;0x2b3dd43966c10;0x6ce110b86d22] [0x61bafe6c08aa0;0x4075871052f4;0x7e42d52bd4901;0x7e9ce0a900c95;0xce6f4cf67671]),[[0xc39f020f85c25;0x5bcb1bff1cad1;0xb6f4146192cdc;0xc3cb60552654e;0x315dd15db57b];[0x31d5d8737eb96;0xf09d1df92d8a0;0x4b50ab8777777;0x2969761de9297;0x7ed56647b97d];[0x0;0xa3a7fff5a917d;0x3c674819b8a86;0xa19a22a0a52f2;0x9b13944b70fee;0xa0791abb88a1];[0x0;0xcab6cd0fd0f66;0xef903e82b529d;0xd4562dc9d2a49;0x99910039de248;0x1a3165814b59];[0x0;0xa4b8dbb645a45;0x9dac655177bc9;0x3ae984b88310a;0x61818eeb2a4cb;0x9850c87a8c9];[0x0;0x6f700c07e62d4;0x1c3051240640e;0xbfb14ab5d8c31;0xde9a23c38c5be;0x35951c10e54fa]]);
 ((V [0x26db67a356407;0x3c97751f2aada;0xb471febb4d994;0xe776de8d2dc75;0x8b070ffc6778] [0x7332c05d2d302;0x28a4b68b06cfa;0xb50e390e7ffee;0xac9990c44bde;0xccfcb36ffd26]),[[0xaed1ed743dbc9;0x5edb4218c3e52;0xcfd0c6995604d;0x93454a1a4cc15;0x1bc1221a33eb];[0x8db9134cc830;0x846a89f5c3567;0xacb8fc395325;0xba79a9d818710;0x5b292f510f6f];[0x0;0x3208772d4c9a0;0x2f17257b0e41;0x310e7c821e2c2;0x3d0d82cb7c63e;0x2e4eabfa015c];[0x0;0xb50330a6dcb44;0xd8fe6ad449a;0x2ceac8b7d821d;0xe7e14631c11f6;0x2cc2f50ddb63];[0x0;0xf76cc0079aeae;0x47a7769454de7;0x5bb6de493c50;0xf2bdd59b4f0fe;0x3024ee5f700];[0x0;0x4c7b01995553e;0xfafa5ade78833;0xb2c7854ca7c2f;0xa2213606c8a63;0x1d48e8327b31d]]);
 ((V [0x4cac5f74c51fb;0x6b6df6ea09e0b;0x8f1bb8995f9bb;0x2844e3ab6ef4;0xff0ccbf5f733] [0x1e59ce56c4e94;0x33bedf6b8cfda;0x6d07c8564319a;0x6917c7217ef6d;0xbf1c59ec1332]),[[0xfa71a8728447e;0x5cccc15eb3189;0x7e566a15b34c8;0xc32aa2b843905;0x9baf42f20826];[0xec987f87ac31a;0x2fe61c3eafa86;0xf05f3fdbbfe18;0x83533c53694ab;0x5118734e410a];[0x0;0xf33b9ec62f481;0x3ec54b7145138;0x723b3c1c9a294;0x80f3c9279ee52;0x4b80ab8df92a];[0x0;0x45d567014685a;0x8f4791c6b1988;0x3ee190eaa6bef;0x81e9e6061019;0xf952adfcd6ff];[0x0;0xbedaeb0fb713d;0xceb5b82f359d5;0x9bee0dc2d812;0xc65bdb8304510;0x5eadb30dae47];[0x0;0xbc4f20f6d6cdc;0x698b8e0864f51;0xd6d6321718f5c;0x3f15f01fcfd4d;0xa10148affc560]]);
 ((V [0x953fb1d36ef78;0x3e161dd7964df;0x377925fc73df7;0x2e99be3f5d3df;0x3fcfbaf7706e] [0x311ee48001790;0x26423b65b15f6;0x60e7345950d65;0x45feb2e3bf358;0x606ac29a5790]),[[0x8d075320381b2;0xb5059aff8281d;0x8c2719ddaea0b;0x31d071b0f23ef;0xbd596763604];[0xdb3887ba63e39;0xe807ae28bb509;0xbd518e8830be5;0x2d32d2738e1f2;0x617c2b99a613];[0x0;0xce7f553f55d20;0x9266bfe020c5;0x3f4dbf6fd347d;0xce29cc946c460;0xfe1a7ef7c406];[0x0;0x6e68d5ab31b17;0xb36e1235dfdb7;0xc7bf3f809ae03;0xc3e2c0692dcc;0x11ab558da4a8];[0x0;0xf7e70e7322d1a;0x43835f075de87;0x9576fdea39160;0xfd2590465bbe3;0x8c0d21e1c8];[0x0;0x8b83b5a2062b0;0x800dfe8d09d17;0xc392e38b991a8;0xe1c0c13317792;0xd2062bc9c04c]]);
 ((V [0x75665cdbfa310;0xd5351cef03b44;0x870127cc4e1c6;0xe30caa03d518d;0x7070132ab7f5] [0xb2b7d7e70da7e;0x43eeca71cbf51;0x6bf8bb3679c83;0x9a13a27564401;0x622f7c31096]),[[0x31c00f1a14679;0x51da921cc6d92;0xec3edb8886121;0x5c089abbcd844;0x8964d7b688e4];[0x922ef1a4d292e;0xa72ea00d033af;0x26e4f24470ec4;0x70b2e9a5338dc;0xe4e45f16d3a3];[0x0;0x5cff92fb87fbe;0xb77c29fe00e9b;0x4db157d7d4c08;0x8ba949fac7b11;0xfe7e695ae0a];[0x0;0x67eed340b1f4e;0x14e2c27b0f800;0xd4e0ff4feb701;0x386bf837200ea;0x677e3a2e0c16];[0x0;0x4656fa4184e77;0x7f07b79736989;0x6b90a51fe5b60;0x78ff9cd2a250d;0x49bd169a9ae3];[0x0;0x34c75c431a2ff;0x2e2cf90fb73dd;0x32f852a3468e0;0x3751689c7def1;0x905995c4fdbc8]]);
 ((V [0xeb124dc1658e1;0x57da1b978bc38;0xb4b2bf6a4a21d;0x51510e8ea2fd5;0x76da6cf634f9] [0x6bc5f60969632;0x1f585d34ea7c2;0x871e08f18250b;0xa5da4ea50c491;0xa1bd901c452f]),[[0xf6e9261976f57;0x940755cdfd98a;0xfd76622943ce3;0x158590b020a02;0xd97d190f101d];[0x65dd57fffaf7d;0x74dab398dc53c;0x12785ac608b9c;0x70b9c0d91738b;0x74c9581e3fff];[0x0;0x1cbeaac4000f5;0xe325a397544af;0x8b16aa795240b;0x7c41206bf5fd0;0x316241d627c7];[0x0;0x7f8c092a7484f;0x86ca69afdb66d;0xdd3e107147a6d;0x6a4dc4855dca5;0xa6d476233e0];[0x0;0x2c549c01ac5f0;0x60fbfbf8dcfe;0xcb4fb0602ad46;0xfcec065a25375;0xb8c5519d047a];[0x0;0x63c15ef8d9be6;0xab09e0dc5f9fd;0xf98779ff381e5;0xf8652bff51cff;0xe6bdb6153f932]])]
 [[0x59589fa4110e7;0x9a3f162923a9d;0xa7e0aa77ca04a;0xcc7271a063a1b;0xdedd6b3b866b];[0x515937c378eec;0x51d4e1e0e93e1;0x4dcefb6fd9a75;0xb5cff9d16fd65;0x9b58b35f49aa];[0x0;0x7650bdc0e6473;0x9225e89399684;0x2bc75119993f3;0xb9116e333117b;0x372e16d0ba88];[0x0;0x674b213a9ffbc;0x5367c402030f7;0x47f0b55895b5f;0xd0737e121d9d0;0x1199c8ebb8680];[0x0;0x446dd92daec22;0xbe7343f6b38d6;0x1cb332bd0d36b;0xdcead3d74ae15;0xc204c57d8ed3];[0x0;0x2d97b6b2e61ef;0xafead93260757;0xb9afeaff696bd;0x1b9b1bd66b876;0xe993d61358d74]].
Definition wit_A_64_10 : colwit ipt wit := mk_colwit (V [0x62bb6a75db4f3;0xa7edc35cb79e;0xc5b9005b2c23f;0x5907ce707fa08;0xc2ce1d0be474] [0x406d3c2b23e5;0x47f6d5987ecf7;0x87c0da52c68;0x278357d2d74ea;0xa5d785d3d34e])
 [[0x760163a5c9215;0x4736fe1ddf714;0xd1cad5a374bbb;0xdcc2e3e89c726;0x4d8a25b4f904];[0xaca8ee7b59732;0xb2f91e5f12858;0x25c81e784359b;0xe7a59da24c99e;0x21e2d3b0431f];[0x0;0x57af382f5ba49;0x96eeeecbf98a2;0xcbd2c0c72fa39;0x9500450f6bf89;0x7bb8d1c81220];[0x0;0x4cffbff447a3e;0xc6dbe12ce510e;0x71896ab155d83;0xe92b4ae0bea02;0x543121e8058];[0x0;0xc442f178f6d1c;0xcd6cd39f845c;0x127235865245b;0x35f5c818e2620;0x177c653b8a77];[0x0;0xc7780d0bb8322;0xb0513777a9a16;0xf8ab4ce6b879a;0x408fe2204e34e;0x52113013a90eb]]
 [[[0x3967a0198698a;0xb26b4f3921e5a;0x5ff786daf7e04;0x8f29f7bf093b;0xf15c8122f6e6];[0x0;0x6b347d1ee722c;0x103f10e85afd3;0x60a840c521bec;0xca508aeba406d;0x170443eadbf4;0x1];[0x0;0x5e4b395007e69;0x66b97af16bbcb;0xaff69feb66535;0xd3c996e7c91ea;0xe38f4c90e722];[0x0;0x1665b9d9acb51;0xecd306ae2fcb8;0xa378902377f70;0x2a955349dcd6b;0x3fe901480dab;0x1]];
 [[0xe3c5980d15068;0xad2aa1e6dfc03;0xb4c64a57da682;0x8c0b481ffc910;0x2c6ac93b40a2];[0x0;0x16867bb164d73;0x66af9f5014209;0x9eebd8fd78547;0xb8d3d456f5db8;0x300758f9dc282];[0x0;0x57b474008f570;0x4c8398a3788c3;0xc4d6a9bd80868;0x7ff5f54aaaffa;0x7b4e1b7a177];[0x0;0x53d179d15a0ab;0x23fdeda8ad119;0xdbd0010e021c6;0x9f087e7416bf9;0x304d78cc69d12]];
 [[0xa2ba15bc78a60;0x27bd74830c263;0x375c7a17978eb;0xebaeff68c2fd9;0x9dcfcf999e64];[0x0;0xba2d0a5e52ef2;0x76e23f87c5d29;0xd5be28825b476;0x5f149077f8f88;0xae95cefc638e6];[0x0;0xd4c02312bcf59;0xa1ee80645ecc3;0x79b1fb811996;0xba9fb60efd841;0x61488d53cf0f];[0x0;0xe04894ad38bbf;0x8f315222752af;0x8b3ae7740954a;0xd2166ba570866;0x9f1b4d85b2866]];
 [[0xa5dfe534fb23c;0x25bf5f1c04830;0xfbee64663a8f1;0x7007202f05fb;0x3e96de5b0531];[0x0;0x7e57561549ee7;0x3723e1ed41cce;0xe8b377f48a6ab;0x65c03dd2703cc;0x41d7f173eca0c];[0x0;0x2b09c5c0f004a;0x59feae86b9270;0xae2e8a179ed20;0xd23624d9bb97e;0xf4d6c9d6a4f];[0x0;0xb7bc089c6ff99;0xf2f6659e6179b;0x3b09373544bad;0xd6aaf3137150e;0x44a8076013899]];
 [[0xd771d660138b7;0xfe84e16a7d337;0x130875f594e2d;0x337f52bc7482b;0xed552b65059e];[0x0;0xc7979ea01d01d;0xc71dd02a3fb01;0x57e3d69a756c8;0x6a2953d9ddc4e;0x1d837e533a58;0x1];[0x0;0xdc04b5aea1e74;0x258df50a1de93;0x776d2fdc2d477;0xbe2885fed8e88;0xdc06ceaee4d7];[0x0;0x5fbb9de93a664;0x384c83f593cc8;0xdd61af3d2a640;0xdece06f5429d1;0xf702f3ecc2102]];
 [[0x61d5303810879;0x4ca47376e6d7d;0x8d9862d7fd10d;0x49aa937ff1a0f;0x974b60092593];[0x0;0x255ea9bf90fce;0x688d89c923c27;0x9cb7534b4c360;0xf2d56147e92c1;0xa115a070cbd3f];[0x0;0x49fbbe8da0593;0xfe49c58d93825;0xbd53e4228e2a2;0xa1b6851260aac;0x596a017c33b6];[0x0;0x14b7042578017;0x62234a53d32f9;0x58130d5a7d632;0x8acaa34069651;0xa4b55b2cfc58c]];
 [[0xfbeb9222b37f8;0xdd560c4783c00;0x1636eeb4f58f2;0xcab8c747043ad;0xee49a391631f];[0x0;0x9144cbfb3e42e;0x425aee6826c96;0x26cb6aaf13add;0x71d9761e8f9a6;0x3f0dc418638a;0x1];[0x0;0x1c56faada88a6;0xcc6d450cd543;0x81f4e8c43b3f3;0x1bdd1c7640319;0xddcd015105bc];[0x0;0x6bc44ce30982c;0x9bf495a829de;0x472ff52115989;0xa3c92ae1ff75c;0xf3ca53d78b43d]];
 [[0x3f016d084bdc3;0x6d61e155395e1;0xfd8ab7ed97dd2;0x1bf5a3a08a9c3;0xde0123114f38];[0x0;0x7c912ebbedfdd;0x8e09072d23dc8;0xa46db8f3f44aa;0xe00d54a81e53c;0xe96dec1b59d26];[0x0;0xc47364a2402e5;0xa06727cde28eb;0xeafd3569cbf24;0xabc3355246938;0xc085f8d35055];[0x0;0xdd49008766fe7;0x66273e6323813;0xa8cb6dbef0360;0x5640ab9e47a06;0xf864e06a3e4de]];
 [[0x3d61b5bfbf28;0xab2338462cfa;0xf923d05330d26;0x65e563da10771;0x84898a7d33b7];[0x0;0xd3cd39f11612d;0xe7e026919844;0xbcf50dc3ca0e5;0x41c1ef9ec8db7;0x92d43eb86b60c];[0x0;0x52a52b27ff86;0x5324fc05681c9;0x10f8e7a07c4a3;0xb45ce3e528075;0x449e20b6a241];[0x0;0xe9eb5ffed7f09;0x3e8042d603d90;0xc22cb78f2c17e;0xfcbb7da76ab6b;0x88d7c6c307ef9]];
 [[0x75c12d7ce6f23;0x55eec7f590c28;0xbab7a49a6b35;0x3e70c034afb88;0xd44eb571e2ca];[0x0;0xb5d4cdd132841;0x4ce50dfad7921;0x977076b42ed3b;0x9c5011f1d771f;0xe4d431e32baf1];[0x0;0xc36f675e3c3b0;0x76e150d48dfbb;0x528e1038a8f90;0x6804c6cca87e8;0xb01274b7b19f];[0x0;0xdca512bc74fcb;0xdec4130d99852;0x49d61cbc66586;0x17376639c47b4;0xe84cf6f6c8cce]];
 [[0x5de016016b9f7;0x99e3e6786c9f4;0xb59d08506e595;0x3c705793f11b9;0x83a4752d8085];[0x0;0x5dce786651f11;0x39360861f294c;0x17bbbe2daa2a1;0xafaf1fb8d3ca3;0x920e4c5d08280];[0x0;0xfce48c44441e7;0x86b9b323165d5;0x356c15e4023bc;0xa620a22d0fa36;0x43b1b992e977];[0x0;0x564ad2cd74cea;0x823f865344ce1;0x9cbf05044bf68;0xcc930a8cae27b;0x8478cb1f673d0]];
 [[0xe5b8f31bb00b1;0x6ea0438f3d5c4;0xcda5200565fd2;0x25a89e7409a9e;0xb612353e2815];[0x0;0x10d4507925e24;0x8368a3bc65c8b;0x607e231addad8;0xe3b64b990a1f5;0xbfc610fd5a221];[0x0;0xdd009b302503;0x1272ffb285ced;0x9993499b7a094;0x80353f1ff2dba;0x817de4ffe8ce];[0x0;0x1e7bdca5d80c1;0xa83b89488058;0x33617d96b9034;0x49b11115302d3;0xcb42746d7b450]];
 [[0x3b34f933e93bd;0x2f66ac7b74f7f;0xed8c03c164213;0xcef7c5c0b90d5;0xd81b4bc0047c];[0x0;0x78c1a014e7892;0x211fa1f8b1a71;0xb547b72689302;0xbfacb1a2f6bae;0xef43ff8bd5a04];[0x0;0xac5fe601ec155;0xcec7f4bf20bb0;0xbec7a4c446333;0xa23da288b3c60;0xb66e12bd187d];[0x0;0x325cf7e2817c3;0xcd6881221d84b;0x31ec580fc7420;0x53cbf08a2dd39;0xe5a117914761f]];
 [[0xb747981a26934;0x23453d3f105fe;0xb6ae68118b5a6;0xe8f8432573d7d;0x3d9c953a0ac4];[0x0;0x793792ff8e6ee;0x11ec2f75d47cd;0xd25c45971106d;0x2a29772f70901;0x44380335e32e2];[0x0;0x8d59e2d390bbc;0x8d89df8e04224;0x8dec8389bb00d;0x94b45770372b0;0xed3fee3dedb];[0x0;0xb1f0b58986f45;0x6b262dd209fe8;0x82228f2489037;0x3f855eb29bb43;0x3f8930a1aa7a6]];
 [[0x3e5d7d22213a5;0x2dd24a4d0b38e;0x779699aa22478;0x112b6afe36b90;0xa860770293cf];[0x0;0xc6b87c56ae900;0x5a024fecdfd6;0xfe6b160e2db4e;0xfe2962bfc769;0xb52b216a83d95];[0x0;0xf8c404ad0097;0xc794d1c8cfcd1;0x9ab9b09060ede;0x7470387fdd68;0x6ebec08cdb42];[0x0;0x5238e9a5638f;0xf242c9aa079fc;0xd4ee67d712e5;0x1d8bf7e95cfc5;0xb08fb03d367c8]]]
 (V [0x1269b29146b16;0xbd936090106d4;0xad33a65c461d7;0x597dc5613f266;0x8ffe76698412] [0x9217854894d0a;0xd682706046827;0xb8b8f8208180c;0xd3476307d98a4;0xaf15abbd4248]) [[0x6b46e8e516fbb;0xeae1b8688a69;0x2d512e9dd832d;0x6cc56a19dbd7e;0xe85821fb7475];[0x0;0x41b85d1789d0d;0x879588f52e264;0x86d3522a36a1;0xd44bf788908c;0xf5d013da4cb1a];[0x0;0x53d9ecfe68412;0xc759b759717c0;0xbc27b378123cb;0xb0e47150a126a;0xd2dfdbef2477];[0x0;0x9c0a2a58f307;0xfbb0c23936dad;0xfe79490e7e81c;0x530eff470e17;0xf9d8913491492]]
 [((V [0x589420b01896d;0x5b8f337b571b9;0x5391ef581c95d;0xce7010c3ccb6c;0xc036f59f3bc3] [0x765d794b3ff43;0x5ecbda6473387;0x87d45c1db8a69;0x679cd8ab49c49;0x83e53405f5ea]),[[0x6e4cdf8c46700;0xb10146960150d;0xad93095a27730;0x67584e9c2dd8d;0xa3c9570a47ca];[0x77b3a5f2523e3;0x18e3a4b1a58c8;0x61d3dffacaf64;0x8886d8f2b59ac;0x7af05004e7b2];[0x0;0x4260f35b26027;0x8d96cc5a66864;0x415ea386512c5;0x5a29dc69a423;0x50fe453911b4];[0x0;0xfd395d70b41b5;0x7816a1eb0747a;0xcdc2dbedba943;0xc2119790bb96d;0xe008ffc97c39];[0x0;0x222c09d096db1;0x6686855836b9b;0xd44143c03dfcf;0x78a5fef65150a;0x68ca0330e328];[0x0;0x106ff98786645;0x1ad535f89f42b;0x9767aa5b8cb21;0xa03800b70f255;0xac184e1ee8c57]]);
 ((V [0xc7aa42e9ae82e;0xe683986ded734;0x2b99ba7a1b22c;0xdfb044ee48ea4;0xec2598cb6c9] [0xc57898042894;0x82445113a0f01;0xd9d751f00c6f;0x4a1a901ee0e88;0xe2d9a067eec0]),[[0x89b1a0cc48bd6;0xbdd4fa0f4bf6c;0xd7699651e9ff1;0xc8d0ca1cb5be8;0xc57d3120326d];[0x9fb0a2ec7c1e3;0xff91e6a00e4e1;0xeb52f0a35edcd;0x80605dbe4bbf9;0x155d408ef642];[0x0;0x3f697731e5a6a;0x568cb0fdc116d;0xaeb59c18bb24a;0x17b344bd8be3e;0x90527c3b647d];[0x0;0x6cb4f4501ea51;0x793fd70e6744d;0x7b0555d457dd5;0xdc6fb20b487cf;0xcb7fc284e57a];[0x0;0xcca0ecdb4b684;0xe36a20e36da46;0x4d549394ffa50;0x8da21f36c2d87;0x9859ead4907b];[0x0;0xfc1cd2a4ac05b;0x7c1dac0d82c1f;0xc0c16d30f94ab;0x86baf3fd15311;0xda635c73b7211]]);
 ((V [0xbc74e3bbfb4c6;0x4ac61c4890ae2;0x2c5ee80894d02;0x60c3ee7281e95;0x7c7157044346] [0x513be7c10efc1;0xa14a902e5c01;0x130b76ecb3357;0xad2b1951486c5;0x518a5393bd9a]),[[0x6de534e374d9b;0xed5c399791b83;0x1c2df26e41232;0xce62cee4e3e4d;0xf517ab90300b];[0xfc12790692dc4;0x9c6f0fa0aee0c;0x8202fa6c16713;0xe0f17a848b74d;0x33bedfc60b4d];[0x0;0xf8e7a6a93e980;0x6801321e3671c;0xdefb045dcf5e4;0x42df1b8b6b18d;0xd9d5573c96];[0x0;0x4aa6bab8f3968;0x13b9994faf592;0x1a8afcffba3b7;0xcae5c1dc7445e;0x1b25e803007ee];[0x0;0xf9834a0dd13e1;0xcf54edeaf61df;0x7078a07ac6bd3;0x2c8e11c7e6d3e;0xeaa6509242d9];[0x0;0x48d02dd2f7f20;0x206f417d85558;0xf106cbe374f8e;0xa149aee021a8a;0xfdd8fc7c55744]]);
 ((V [0xd316d98cb2983;0x4e4a10042867d;0x4a57fe910d594;0x30aa4a6c9560e;0x47677c821c07] [0xc97854df66c94;0x9fe879e5e4bb0;0x31b437ddb9743;0xdfaff8db71d75;0x78dbcf6c78ec]),[[0xed82e46b88cb4;0x3e7bfe76eab09;0xde1dd56f9690f;0xfe734ea3ccd12;0x58a781f0d44b];[0xaff1d8a9de24;0x76a08b5477c65;0xd921c3c735e60;0x40d237e16073;0x75c82b14b899];[0x0;0xc0d9945038d00;0xef261b0e2f9f7;0xe9556c05fad84;0x77ab3d9d8b219;0x3c7dfe7a1083];[0x0;0x10a944efad0d8;0xa8eb845067b1a;0x6491692ac7a67;0xd48690ff3824a;0x3879ceb56ff0];[0x0;0x9c3d56a3e52a7;0x857783fa4b33b;0xeb8607f7bd299;0xd298957c77f79;0x1eb396f05c1d];[0x0;0x10a1edc2fd245;0x5705e6b5c61e;0x8e11917bf90f;0x8fc3839db5caa;0x5f57db8743dc5]]);
 ((V [0x9ed53bbc06b6f;0xa30d27b604b2f;0x6656febc0ce04;0xdb36a30dcfbd0;0x902020cc8114] [0x9456e3f1e6098;0xf3204b860ea93;0xc4c19a622926e;0xae47fcb437e3b;0x43e4fb7809b5]),[[0xba1afb2432c28;0xcce93ec285385;0xd3e2115c6e66f;0x104e8cdde1329;0x22c42b8b4d38];[0x7edf5a993456d;0xe364916168de1;0x1ac773c156e39;0x6c4a2ab986b88;0xe0e688a5b653];[0x0;0xba5c6b14414c4;0x4dff866d9c7c;0xca17dd5c41019;0xd80f0fd41621a;0x13ea90e598cc];[0x0;0xea62e18976963;0x354fb5379f0f9;0x1d37cf3a56e25;0xf0e3cd04a7637;0x20d39ccbcd82];[0x0;0xa174c1f2f35ed;0x38242c0cb7c2f;0xe03d9f6ec5e2d;0x39eb9d5982482;0x4b8b1e3b539];[0x0;0xbcb948b932ed4;0xf1bdbf572a0d1;0xaf70383d641bd;0xbc4bce3b9497f;0x24526a4b1e08e]]);
 ((V [0x57aef6f68f2d0;0x828f16c81056b;0x1e916be8d11;0xdb103a23dd411;0x29d1648b1e8a] [0x803895079a094;0xecfe682cbf205;0x18daa5de6f414;0x5f1349833b057;0x7bb75df33f40]),[[0x2034791278817;0xc187de4f8a5e7;0xd045c0449324a;0x38c58501da164;0xa6e15790358];[0x572c478e5c3fd;0xa54edd8e93ad3;0xf99f2c4c312aa;0xd2bc19dd6445a;0xd558e575940c];[0x0;0xd8ad27217c77c;0x462e6980caa14;0x4f9fa488a9427;0x7f7776395b9ff;0x512428ee488b];[0x0;0xd315a37ac4f03;0x87766b055c2b;0x6c0370d37ec55;0x1c3f07af317eb;0x58847d13d68];[0x0;0xfdf6e2f575d15;0xe9365aaa34968;0x836d7a02d1fe6;0xd800dae3b4e6e;0x6cc903ea0e];[0x0;0xc6b4c523812f2;0x4f2a0540f5552;0xc9d55aa0311f6;0x65dee853ad11;0xb57a7ecd7ccc]]);
 ((V [0xe48fa133fbb1b;0x56fe0bfab17fd;0x53995e97c0dec;0x558c6cd76cd16;0xbc2f4d20103] [0xae45b4e6073;0x7a9d202815c99;0xa5b4fc07f8c3b;0xb3c74b3d5c7ef;0xa5f21c6b6f76]),[[0x2805d45cbc260;0xed487b907a8db;0x39ebffaac72b7;0x45724cc9bb8c8;0x14c8c70566c8];[0xa3ec23e62815f;0xa3e608c92758d;0xfab73a796f75f;0xea65f525f9ad3;0x2ee8aa63fb25];[0x0;0xacdfa85785b87;0x12c5f2438365;0x9bdb3f7387c29;0x545b8cb1d321f;0x6d4bd79e26d];[0x0;0x5e57d06e1a509;0xb982ca5c8c5a9;0x4fd9da71e22af;0x6bc61299d9649;0x1416b58d1a86];[0x0;0x5df08c53a9983;0x558caf26522eb;0xc33cb3f5387ef;0x49aee7a61e5f4;0x1affc906b39];[0x0;0x8c31458e5f6f;0x45181de3b2c6a;0x43169995e8273;0x9d69fac88ffbf;0x163c5eabb6d6c]]);
 ((V [0x8db22e10a35a;0xd1af1aa957911;0x718fc93355c54;0x732f1134d8b77;0x37cc07f537db] [0x3fe1afbecc7a1;0xab3e2cc3b0e4a;0x334b35870168a;0xe9bda0d2b4af0;0x3790f6b1829e]),[[0x4ad12f8dad2ec;0x8e0fd4cfd9733;0x46f91856f61b0;0x9c3511da0858f;0xcd81a8878697];[0x9a1b804bf0be9;0xab744a692a9ff;0xa35562e645634;0xd4f17a188805e;0x520a5782f490];[0x0;0x3422bb579dc90;0xd0ad67a285d32;0xba8d7dd96a39c;0xd09bbebc8a6e5;0x8a55820480];[0x0;0xd95b466eab02f;0xfd47cc2bffaf5;0x4151d5df55902;0x710b97f6926f2;0x10a6dda022def];[0x0;0xb82255f59000;0xa3b916cc916bf;0x4a69ed9b20f07;0x9d5ea3c2a7d31;0xa4f8e9945516];[0x0;0x55ef20bd09b94;0xef33d193490ff;0x1ed3594185a30;0xa516e2658ea9c;0xd82429f1cd3e8]]);
 ((V [0xa5190ce7ace07;0xc5796de827153;0xa77cf9502ed29;0x8d59137b7a52d;0xa0ca4328280e] [0x8743764703b12;0x6fc654c129ba0;0xcdaf56d6495d;0x4aa48100f169b;0xe9f4777abd7d]),[[0x24f14c63bef02;0xc4f5c041f1ff7;0x553c9bf761c6c;0x53dab14829952;0xe38f6c6d8924];[0x6b36ea3e670a7;0xc85f23271db73;0x935df63cc2fb;0xc907542be3b41;0x3ec6f112b5dd];[0x0;0x7820a2945768b;0x9f297e20bfb68;0xc52dbad8b852f;0xa52fc2ef33fc8;0xc294e080d10];[0x0;0x50d2ef53003d;0x7e685e34afc12;0x535e689bf3331;0x86a50d263f9e9;0x62c958844516];[0x0;0x98bdbdc54de1f;0xe899e5aedadeb;0x2142e79f37848;0x3de03ddfdd149;0xca47aaa49182];[0x0;0x2c355e25c5627;0xfe2988a28aeba;0x1cd053427af2;0x6eee5f68925fa;0xebf31f24cb180]])]
 [[0x4be006fa91ca9;0x65c1ee958a894;0x17fe472d40639;0x5202022c73721;0x531cb6965195];[0xe9dd8e2a51f2e;0xd9163b38625ab;0xc6ac3f66511e3;0xbfaed201e0c9e;0xcd54dc138c73];[0x0;0x4e6e9cbf89975;0x8a0b1523b8bb3;0xe5416fcae5528;0x72ea91ba70cce;0x64fd73c03f0f];[0x0;0xe6fe0108d834a;0x39e8009a6e666;0x13e8eca941f72;0xdb263db7a2413;0x97e900ae1334];[0x0;0x57bfb85f29ba6;0x9252a6a76c5eb;0xe862edfddd44e;0xc01b43701704c;0x1afba19dec02];[0x0;0x9002d7d0b138b;0x37a65c01c2d9b;0x2c6ff97ee48cc;0x97af3fe2c073a;0x5a141f8bc6f8b]].
Definition wit_A_64_11 : colwit ipt wit := mk_colwit (V [0x8b14e62f13d56;0x31f67be5baa91;0x3a4f0f279c825;0xe526ba01ee211;0x77ce99390849] [0x57c0e6f1a110b;0x2875eb388ed9a;0xf53f55d47502e;0x7e0077a1b5467;0x68d35117ae1e])
 [[0x9633b057b7613;0x59d94cbfdbfef;0x316138a74c21b;0xdb0249bfcab88;0xc5853a736688];[0x9b5adc62e7848;0x9fac2260f968b;0x335519f91167e;0x4d90ea39014b2;0xd16d1ba4f254];[0x0;0x8056572eda13f;0xcb3398c41a2e5;0x49dbbf431201d;0x3c1752a9de2c9;0x1514fb85cb39];[0x0;0x561dbb6f343d8;0x97609042bc60e;0x7bdefd92b90e0;0x19eb9ae603ac9;0x72cda4f8977b];[0x0;0xe21192e265a47;0x93d3210620323;0x83407b4f9d706;0xa9c06124f4710;0x9866514b650f];[0x0;0xbce73d6a5aa83;0xae22c263a8abc;0x2ebab967089e4;0x677970d8467dc;0xcfa1737fcb879]]
 [[[0x439210f556833;0xda4f901043560;0x21abcebae82b7;0xfdf8ea3468804;0xa9756a762ba7];[0x0;0xea1921f34da18;0x66d571e722ff9;0x253b3a23bf211;0x56e8e797c378e;0xb5f79450df643];[0x0;0xf3245b31d8e7;0x4b184ce05f9db;0xc3634890d67f;0xc7942f6166db2;0x702c3c6a81ed];[0x0;0x631cee2fb5338;0x32f0b0ae58809;0x271619c7e7b10;0xac79628b01ece;0xaef486b91371a]];
 [[0xb7fb16fe89afa;0xf800a16cc1e7f;0x76426b01d85a8;0x225cc36bc20df;0xcf6b2c1654a];[0x0;0xc093ba5892523;0xdda0a28caf2a7;0x6181519d71dd7;0xe994b91c5feb9;0xd87e4254db52];[0x0;0x3af7784b3a30d;0x7d3039aaa637f;0x8cfa422078116;0x20a7b63e117fd;0xa80e7e29ff];[0x0;0x4f3023d980602;0x2ac674b88eb3e;0x5aceccaa5836f;0x5f3e1c398d57a;0xe4ec3350259a]];
 [[0xd001adebb26cf;0xd803c8c2cf559;0x9eb89069642bd;0x74da242bbd681;0x546d159b542a];[0x0;0x589b4fe9418a6;0x33387a661b554;0x69b239519ee2f;0x36e5a63cede14;0x5b989030a42d0];[0x0;0x186ed4d3ba68;0xc9aae49326a9b;0xa5a121ec45718;0x62e4a7c0af5c4;0x1bd7c4a95754];[0x0;0x4fa1a68b4d04a;0x8227c601ce9d1;0x5a7d027c4b68c;0x431d28f0893fc;0x5810f2afab7a8]];
 [[0x711f03c174a64;0x9921006f93229;0xa58395fdd3aae;0x6fd81e91e8124;0x6108579a19c1];[0x0;0xe0048b13d9377;0x372520e38796b;0x3447e0b487471;0x44d9e7cde9461;0x676461bd1fce6];[0x0;0x97878932d3f50;0xcd34c392e3c3f;0xb76ddd143ffd0;0x4d1d3e0349ca5;0x24c752a85f20];[0x0;0xae474b5b41263;0x98ecefed81c09;0x6284249df000f;0x12b57867ab9b9;0x65fb53273def8]];
 [[0x69a8c76ec73b4;0x346509b883c95;0x3c64aeeafeaea;0x71e3055a3eda9;0x99a9d72fd714];[0x0;0xb6285dc57edae;0x5e06086fdce25;0xd9ecaa0cbfc4;0x63374c7b32d4a;0xa1f7dc81b79c5];[0x0;0xf9ae989694817;0x719314f3969b6;0xf10f992b21abc;0xcd54bfa36d8f1;0x5c3c73e50121];[0x0;0xac807f757df32;0xf3239cdf471e6;0x2ebfa8b562715;0xbf8b6689e724e;0xa8232785a2da0]];
 [[0xd8dd641c750ae;0xb8b5fa51a4ead;0xdbef49c154248;0x1865e089261f0;0x16a6f53fc2ac];[0x0;0xbb5e9818892de;0xd4c6c474f72e3;0x92680eb3e71b8;0x8768b6976d689;0x18982518839e8];[0x0;0x9bc006379af9a;0x93781bca9fc58;0xa3b1ff452032;0x25dff2270f010;0x2011f09ef19];[0x0;0x2b6abc882268e;0x68381bfd36510;0x1583f6b267704;0xa8b0ac154dcb2;0x17e2937130f7f]];
 [[0xea1266ad2af69;0x2df67fa69f93c;0xee19b72400687;0xfd32dd5fe1dd7;0x7a1ac512f59e];[0x0;0x5faff3b21ad13;0xaa98fe97c19e6;0xd0acadfe60247;0x1b7d433edefff;0x839673031b731];[0x0;0x91f0ca6a2ce7a;0xfc34f0591156f;0x1f7d2c108ca15;0x9d0e1109f1fe9;0x3a3d86a2b1ab];[0x0;0xd4e29e757efac;0xe0ffa04ba3546;0x391ce96ca255f;0x38abf833c44ef;0x813a872a338e2]];
 [[0xbd5ae1f6fcd9e;0x1604316a2b9af;0x700f13a3a31fb;0xa896a4c0c81a7;0x41313ed20ae3];[0x0;0xe79bd71686046;0x4b33e9880f92b;0x4df5612f1edd5;0x89c45f7bbdc57;0x45fc092315884];[0x0;0x82475b6440d82;0xa2b4489904b5b;0x6d274530f0b8b;0x305f2cf519fde;0x109a0b5fc55a];[0x0;0x9e2ee7e6f2e69;0xf1d07942844df;0xdac9b9d861a10;0x8aad0175c1ddc;0x431f1c5d0a8cf]];
 [[0x5841de5abebeb;0xb51ffaaeddb32;0xf8d0e421240b1;0x7814e3da1c9a3;0x815bad612d53];[0x0;0x132a068c31ae1;0x229df97596fef;0xa9a10a0247f01;0xc2b8b483307b;0x869c29b08d73d];[0x0;0xfebd314054cc8;0x8b117a17280b5;0xda1823d2d96b0;0xd4829e0f7d1ba;0x415d8590a830];[0x0;0x42c30d6ebc531;0x8025f450f3143;0xf0da8671ce81e;0x597c2283c34e3;0x8dec5b18aaff8]];
 [[0x419eba8a4bc61;0x68c8aeaae0949;0xbae89b57c9e45;0x383241cbd26ae;0x2c97e9310959];[0x0;0x8ae12a5aa2cd1;0x3c6911b1ba424;0x53d8b4320a50;0x1f29c420418fd;0x2ff2c76035518];[0x0;0x2e3124e0d4850;0xf0531d109c09a;0x81b505989ecbf;0xfefa8eb212d4d;0x7c4924dc779];[0x0;0xa930e041c3050;0xae9d79b8c1499;0xf597b42a1dd11;0x747b9228f8552;0x2de2f27ed273d]];
 [[0x4e03cd1fb13a9;0x814fff1ca97c9;0x3a4c9953667d9;0x46e5bd8656230;0xbaa8430c4ccb];[0x0;0x1833faa56d520;0x2c3f360738fad;0xfe4458b41ffd1;0xe0e7bf7bd1990;0xc2726625d7a4a];[0x0;0x6314b459d4a7;0x2dc292a66cdcd;0x1736c697b4fd2;0x9e9c96242fbbf;0x8818f005f14b];[0x0;0x5f41574dc9da1;0xf001cf1793cd7;0xd78e32b0f26f8;0x550dd861c06ec;0xc437191001325]];
 [[0x687280535fcdb;0x3ab5847aed705;0xa30c10b19a9a3;0x5e502c847d8be;0x76e572b22483];[0x0;0x3c04e9726b344;0x1a89699e41341;0xc596c541b178c;0x8620665079d98;0x7a83e715878f2];[0x0;0x1be2699fbff0c;0x9b96d322c2111;0x596ed09af0d0d;0x9274705d8dd9b;0x373853629fc1];[0x0;0x3658bf884b9dc;0xb0b8cbbe0cf35;0x23f2b504f2a35;0xa59a2928234c4;0x7e4c22a743e1d]];
 [[0x94a5658a9e715;0x532d31f6ae3c6;0xb41d19ac7268e;0xf5b07ef748fa1;0x517cc2d06a9a];[0x0;0xfd01266236e3f;0x66f776311f03c;0x400bdcd589263;0x494e113c8ab73;0x53f279b05b4cf];[0x0;0x662f7309e26ac;0x4e7ca3c3713f1;0x1448cca1cc13c;0xe0d7f7e6ec3cc;0x19f03015319d];[0x0;0x6f4c022345568;0x660fc8bee8ee;0xcbb6fc6d4ee28;0x1233aab4417ad;0x5a6f0c88a0ac0]];
 [[0x58a0784513b44;0x25df53b3516c5;0x763298c53ff83;0x6600d03f7a0b3;0xbcb704105558];[0x0;0x74099359c1984;0x6f5b8c180030f;0x6efe036c179db;0x6b003cc4eac6c;0xcb55f3af91d9f];[0x0;0xc686ef2c872dd;0xde744240c381;0xca0689020d708;0x5de891b78edfc;0x8b1d50ceccc4];[0x0;0xd5c5dc9594943;0x7eafbde1ac10d;0x959d2efc688d7;0xdd1ccf51bef38;0xc67f40f01fae0]];
 [[0xa33f718809be2;0xe2c170ec1dbd4;0xb8b08d3a5d7d7;0x7715e70895890;0x3930a25bce57];[0x0;0x5c92a24a11e63;0x530552a8c334e;0x5bf94752cfc58;0xbba5286b991f0;0x3d02cc51cc902];[0x0;0xfee6b52fa0eb5;0x83cc600dff7c3;0xffe37439fe47d;0xa5e7744fb9519;0xcc6b18a2b48];[0x0;0x4c19851934851;0x44fc9b663448f;0x74651aef1fd2c;0xef32498adb47c;0x3cd5e27d31e2d]]]
 (V [0xdb921ba92e6fc;0xb11abab18d621;0x3fa4e14150a4a;0x92bec6cfcf70;0xfa414a61680a] [0x16b1b907bd340;0x68f50d684934c;0xdbd8cc3570353;0x976e2c03fbf20;0x19e76d3b48b7]) [[0xdb39fdf8f0ccd;0xab046a873ede9;0x2779a684699bc;0xec0f19e636741;0x9c5743f06fe0];[0x0;0xc768466c3c050;0x86e3837fdec7b;0xdba10ed2f87e6;0x6e4d70894b7e5;0xa5363c686ff28];[0x0;0x5615fd8d59f9f;0x6b64cd0abbcd9;0x61bfb83b722a5;0xe6f48c0383089;0x5f7a788c47cd];[0x0;0x529524056f946;0xe249dbaca6669;0x21366843d0ce1;0x943abb5fcb255;0xa043b9af80d3a]]
 [((V [0x6e019f34c77b;0x1084ec9c7079;0x55ee24013c1b4;0x63c3179a4487e;0x9137545b6f9b] [0xa52c9b2c500c7;0x11415394f0996;0x806c9ede23676;0xe325216802a96;0xf6eb45409b99]),[[0xc611a3cc81664;0xa93aef33c9404;0x4eb71356d73aa;0xca2e5d00e5ec0;0x8f69759c5b1b];[0x6c47d873c83f5;0xdf034565ec3f7;0x87100cb0d6299;0x186ed8cfb31a3;0x8db8fedb643f];[0x0;0x83de7c234061d;0x8cef14f24c625;0xde68b4dff64b9;0xe43841436d3b7;0xf4a395ed1a46];[0x0;0x745924c7cbf7b;0x316ea74294aed;0x27d79f521e7e1;0x39e3884ad1956;0x1d05e3ad0434];[0x0;0x696ac3819c8eb;0x7da80dbe81148;0xff07a9306c4fc;0x13723708d9dfa;0x5056fcd65e14];[0x0;0x5370b33df44cf;0x1ed2bfb86b0f2;0xda4f40b678c2b;0xb87f7cfa698e9;0x9c0d8a526fff5]]);
 ((V [0x58b1b7007c36a;0x5f93905699208;0xca41ecacdb8a4;0x7c3074510429f;0x4aac7130c356] [0x320800fdaca39;0x2817fc7f385aa;0x4fe6f6c0fd6b2;0x1cdf6c5271fe8;0xbca00f3ee3a7]),[[0x8bd4d7db7057a;0x65d1930443a9f;0x70ae4153cf914;0xd9191808a3c75;0xdf0f359feedc];[0xe85bd1e9c8325;0x32ab57dddb17f;0xbe63f1518a687;0x667a5c1b40312;0x540ee022c918];[0x0;0x676efdc9a042c;0x78fb0518fa67b;0xc76c760418372;0x1dae6129f8f08;0x525fb984ef84];[0x0;0x378f315169fbf;0xbdc5838b2499e;0x18b07f0f4e9d6;0x9860bbd80fa95;0x1ae4b39aa9c5c];[0x0;0x54eb806eef2dc;0xa9a5219af8b01;0xd7a14e0dabe9c;0x5ced2fe951a86;0xc25b8053f61e];[0x0;0x8dc8ee5e34b10;0x7484904f15100;0x6b207d8394adf;0x6ff7b2b74cf1f;0xf0d79bc6b2b57]]);
 ((V [0x585faafa9f7c3;0xb5de898591609;0xb2f5a977a73b9;0xba8db45f7ed3e;0xa572fc1a831] [0x5fff576b15772;0x41495a233825f;0x1daf8386fb9f;0x7ed109a583304;0x477845415d43]),[[0x39991d0556636;0xa0f9f9cb5dbf1;0xdd28d2c8be773;0x3526b8a8610e7;0x5664d70a9c6b];[0x875fdaa1160ee;0x463c571988177;0x47e1cdd502a11;0x9abe2b9014e60;0xc0b5b5e8c2e3];[0x0;0x510bc8a049b7a;0xe358b9387d044;0x898bbf52894b;0x91bf13795a8a8;0x15c825987c80];[0x0;0xc4fce8f297382;0xc233d9a3a4a1b;0x8bc4fb4313696;0x3f5e0da4f3d4;0x7f50242ea6b4];[0x0;0x902a6fa19553b;0xb76369bb4213f;0xa7e512d9135bd;0xea4358b6b9f7;0x1d27e833d605];[0x0;0x64ecbc173d85f;0x5c2c0f4bef936;0xeea339f22301c;0x3dfaf0e1db802;0x5d26843078a3b]]);
 ((V [0x2321e94472ae0;0x8b9ff0944d102;0xbed444c279843;0x5f174365a0913;0x1af1eb219e2c] [0x6eec381597e2a;0x6574a7ea350cc;0x6324aff38b5cd;0xbbd70997c162f;0xa65433fd27c3]),[[0x6b00564fa4033;0x48078e2f29d9c;0x9dbe9cdcdae4b;0xd6d46b32a7eac;0x3809949ff170];[0xda1fdbad6173b;0xc45f403f40470;0x3181fcb26583a;0xa7f4703ea26e2;0xd4567ea55e1c];[0x0;0x8aecbf2c058e2;0xba5309e82b6db;0x9e734b70f92c0;0xe2a12a64af38b;0x6aed6c9fac];[0x0;0xfbe4c36820ff1;0xef8bd122b76d1;0xa3bbdfee5b4;0x24d79d05d07f4;0x1f49f7bdd5af];[0x0;0x9af9157d17cb5;0x82ef9d5dee3b;0x1e176c2e6fdd2;0xab04501bd10ee;0xc443161c329];[0x0;0xe0675a9b224e;0xe5c3af1b84f8f;0x9b9b821a2118e;0xf378202c24ccd;0x3b500668da038]]);
 ((V [0xe8e47e7d0895f;0x8f464c83987a3;0xba8b21ba46cdd;0x6797d873f6a1e;0x9a67817a831] [0x830296251e8ef;0x86048ca533f68;0x542c952da6bc6;0x8617d356e681d;0xb562e90460c0]),[[0x1d5350f151b99;0x50dac5120d961;0x1fbc35ee1e873;0x31932f6cc0b9d;0xea33edc9f24e];[0x190c98868d186;0x144f8fe9780e4;0x3180e5be2d75a;0xb6656d7983456;0x4f5f0410b3ce];[0x0;0x37a411c838496;0x8fbfb175c8c49;0x11ff356310f5f;0x8fab633d90c35;0x2d6085f6163];[0x0;0x19436fce20622;0x270199cafb390;0x87eaea7a2d7b7;0xd8909c0d84603;0x130556995d6e8];[0x0;0xee3f7c83bde7e;0x404884eeb082c;0x87ccd7d1592f6;0x7bbff440234d;0xd642f93dca4d];[0x0;0x39d290ff2b29;0x7dfde1403b5be;0x29537cc3cd1a1;0xd8a13fa5a310e;0xf9d4543a89b20]]);
 ((V [0x4d8ae18d574e1;0xa66847f0ff39e;0x2a3408e95d901;0x7a2efddb879c7;0x71847016e9f4] [0x4baf32e6b3496;0xb392d2d665860;0x8e08e0858336;0x32e818fd011a8;0xc52916a50ea2]),[[0x628f1c2f2158;0x3332a96f2a551;0x628fd831fa2da;0x717d22df55eaf;0x411fc7c89971];[0xceef7b3a7c5e7;0xe9250cfe35e8d;0x5b1f39eec21;0xefc778f41d84e;0x983409e18352];[0x0;0x3435b11518eb6;0x97fb80daf7530;0x6c233aabc4393;0xc938fea4b770f;0x5d20b1a0d7];[0x0;0x47b8ded27c411;0x8d547cdd7db2d;0x5a4c82ee2d12b;0x14a6a79d97cc2;0x5c494364b273];[0x0;0x3abc4a68b5487;0xf3c8ca60ae234;0xae96c4f465e0d;0x40d983ae8762c;0x10912765dc6a];[0x0;0x25a6f9e4e8c5;0x100ddd7aedbf;0xbc71978fd9917;0x2f2fe634640eb;0x438b0036a697a]]);
 ((V [0xa06155c2e7570;0xcff0a9b58eb09;0x12c3bfbba82c7;0xdb0185e30fd8f;0x5e24b2cbf9bd] [0xf5789e96ceb99;0x2970748332754;0xef5d99ce8926e;0xef6e529bc61d1;0x28c9acdcb061]),[[0x84c91bdfafedb;0xa9de9479d8fc7;0x2408ec0d89ad1;0x54d00ef2cc721;0x132aab006a79];[0x5bd8a468f128a;0x9f820fe952c02;0x6bb534b92e90d;0xb27344b714bf4;0x919395a0b302];[0x0;0xb96cce0364361;0x5e2f47e6f5d6a;0xcece475bea929;0x26be734ea6325;0x32562f78033f];[0x0;0xc1d8b9c9ee25e;0x414d2c6acfce6;0x6cab377f2d4bc;0x4c8f60ad92f0e;0x1d85d23d7696];[0x0;0x23472e9c613f1;0x852813133f222;0x66c5c7d12acf0;0x80a4fa1399b9f;0x16f5c7e9e2a];[0x0;0x69e709ce4ac6f;0x74e4611351ee1;0x694acaad86e60;0xfa18a0ba3a207;0x14748b0b9abad]]);
 ((V [0x56b9789797dba;0x746c907706b6a;0x637e49a2379c0;0xe1d42f72de87a;0x15dd0cd9b24a] [0x765be80399b97;0x3d67cef34e5e0;0x4f63f59235cfa;0x8f74312610156;0xe86dd9132334]),[[0x1d261825be5c0;0x225a0be3e0a99;0x3fab5fb57e952;0xf2d04c86638d9;0xee1a9a805783];[0x5b702a5a7fffc;0x1e60c647b0f98;0xefdc1bad92aeb;0xbbbd96e40e42a;0xf55cb7fa7ed2];[0x0;0x3a99aad525f9c;0x4cea4a254546a;0x54231bf5badc;0xf40cc20abaeff;0x229ef89091a5];[0x0;0x40b31543f9cc8;0x5556bf685c3;0x1420d168ba52a;0x6d408eae60455;0x4bdf779cfe53];[0x0;0xfb9020baa2c8a;0xff29c9eb55c18;0x99240488f1f6e;0xc7eb0299cbd1a;0xdd757a0a6209];[0x0;0xfd843730136f0;0x50329a393990a;0xf57a6118f833f;0x97e7393944193;0x12fe61b33f27;0x1]]);
 ((V [0x53d601a841f76;0xa38d180726a70;0x3daa7ae074ba8;0x73eb227acca22;0x6f1aa9301d3a] [0xfc6978a8703fc;0x32e8972a189d5;0xe387468664f31;0x8b8823c793a19;0x78878f3e2638]),[[0x8d4e41804e761;0x8533ff89f9b2a;0xb8c53c8fd5a42;0x18a8f2d367e5d;0x5d54adff13da];[0x64db88d89c217;0x7243ece74b3a2;0xc5f4272b18861;0x5b3fa42cd2b21;0x8bbcccdf4ddb];[0x0;0x53e5655372afb;0xbdc169d410018;0x4f1f8b2d7eb70;0x402d7c6dbaf41;0x1de02fae7c3];[0x0;0x4ff923c4e9ab3;0x560a581888f33;0x20179c04c513b;0xf283aa308f3ee;0xa97993c20269];[0x0;0x458f0c5e37fc1;0xb128e0df44ffd;0x21abe1e601efd;0x3c0842a88675c;0x2206a26dfa14];[0x0;0x528ce09e7c2e8;0x26c0c41c2f761;0xdd2b7fbe0b930;0xca873898c4b12;0x61216a7461256]])]
 [[0x3ec176e1330f1;0x5745a31c0f2ac;0xbaba5fa887a98;0x768c596166d;0x59c78b0abf73];[0x957822b3bdc4;0x159ad93e1fa80;0xe507735265770;0xd7710d8065033;0xc3df40bc7000];[0x0;0x423d91832c60;0xb924d664085e7;0xd1a40eb3899be;0x300799f7b5b53;0x3038217e86ef];[0x0;0x499f708a16628;0x9dde62bc2ede9;0x17617259a7dc3;0xfd430a78555e5;0x548a27473d9d];[0x0;0x60140524259c7;0xc028ee80a4f06;0x957db647b979e;0x47778c8decb54;0x1f7c5a36ef58];[0x0;0x1cddf301bfa83;0xdcc47c1ed1301;0x11edd4d61835f;0xd87c7c1bf49b;0x5ee00c74bf7b7]].
Definition wit_A_64_12 : colwit ipt wit := mk_colwit (V [0x8d839d7a06144;0x48200ce71e07e;0xf718af6abb5f8;0x202875db24887;0x4f1390f2d09c] [0xba9f570a6dfd7;0xaa1b82487d94d;0x52b421aa1474c;0x636a666896f32;0x85d8e1aa34cd])
 [[0xaf8aca6080b6c;0x114c888fe3ed4;0x1bec70bfb7371;0x7d1194b4e830f;0xbe6035b89775];[0xde1d11b9581df;0xc2fd6e2f32376;0x81c015f476971;0xeebc13501f9d7;0x2e2bbf759f1c];[0x0;0x3603d06b451f7;0x701d4f8cf0589;0x96d976fb97d69;0x303ffda9298ff;0x46cb2f7e6e7a];[0x0;0x15d3c6feb0749;0xb6f80c10679f3;0xde473deb0275b;0xf619e96e2b61f;0x97597a3451d];[0x0;0x9a32006a1fa7c;0xd829974291cb1;0x4580cb34df95f;0xf1949e34f0a5c;0x8d92f3e65689];[0x0;0x531193126c503;0x1dc884443883;0x38b68980d2a92;0xec6fe20d73a15;0xccdb22c5e601c]]
 [[[0x73d5ea3a51025;0x2fbfdce222bf8;0xba1f46a51d1a5;0xe9072f46c8cb2;0xd0eed34662c];[0x0;0x751ac7ea4645b;0x5ea6104b78774;0x6533b6e7956b0;0x299b8c2658b91;0xdb286a71caf5];[0x0;0x61816c98cd9ba;0xab49de6ff4198;0x573b676850054;0xcc7d0a1426298;0xaa84f61fe5];[0x0;0x4cdb5ac9fff98;0x46ecbf8d73e3a;0x3ae4ffc431d22;0x5601e36b6e767;0xdb8d1bf43e86]];
 [[0xde099fc496f5;0x8f1897a28cddc;0x26d2716277207;0xfb6ad2e0a1b46;0xd4f2bc585130];[0x0;0x2d336af0d53de;0x7a55b2c7bdf54;0x2d84d62d24335;0xe04a5fe1ec44b;0xdce1fbea6442e];[0x0;0x12936ea99601;0xbb725f7bb2831;0xc6adc572a6bc5;0x76bc1fec84283;0xb122ee1ae804];[0x0;0x5418cdd375b08;0xa921ec5c9ab69;0xccdf870467297;0x26f3c5ffb2bf8;0xe7e20fd1c3512]];
 [[0x6f460f1321d8d;0xacdcbf909cb24;0x9e1431a839f3a;0x66bb484fe5f24;0xaccc42b182e7];[0x0;0x250b938e8ca4b;0x110094c2e7dd2;0xa61a84cba60ca;0x4d07612c8440e;0xb7cd260677752];[0x0;0x6007b71d2dca8;0xf3644d9752cbf;0x320c4ae55e65c;0x956cfb8b12180;0x74a31c98e42f];[0x0;0x4ea58131dbbe8;0xb18a6739a1f53;0xef451299b76cc;0xd75c8338dddb;0xb5adb81120ef9]];
 [[0x7856364cc43c7;0x9308170a26883;0xf0edcff9dc87d;0x61a14345d0418;0x71a7b278c00f];[0x0;0xf4d03eda98e12;0x4a88932436407;0xca99ede3ce733;0x37bd8bd2d384;0x77a14f820819b];[0x0;0x1ec82601904a1;0xa721ff7e0195f;0x7ec62061da1cf;0x4c4bc010430a3;0x32757968ef84];[0x0;0xfc8ff3f664ae1;0x1e3a56f30add5;0xe1518bdb50e13;0xfcf14928b2b46;0x7b36248fdc7bf]];
 [[0xf35b8fbc6fe6b;0x9f9794847447e;0x8c2d80645fcae;0x55254aeb7cb3;0xfd3204f2c6fa];[0x0;0x1e600a7aa6162;0x84d363fd2e18c;0xfb059b3e59d70;0x6a0a69f13b249;0xff891d6f20ba;0x1];[0x0;0xf37becdc8ca6e;0xe3325d4bc8d84;0x98d1c6cb3c076;0x64a36b0ec23ec;0xfa6be78dcc38];[0x0;0x240ba7ee8d64d;0x7715e847d2be;0xcac2a89ae5a5;0x205a01456df52;0xddbf7e065e9b;0x1]];
 [[0x7914913da2553;0x9b1ce69222e1c;0x723b2688bb020;0x3987b19b03d27;0xadf67ab1d5df];[0x0;0x997d89819e7f0;0x76349a9d69c5b;0xca3f9a2aca945;0xec69c72e8cacd;0xbb7082ddbcbff];[0x0;0x88aef4c31b6d;0x865925840188e;0xa642fc3aa774d;0xb8262b04f4623;0x76370f2463a4];[0x0;0x45c90ce48cec2;0xd550705518ce3;0xe35bdc9839161;0x63f69bb0c1594;0xb53f67ac545eb]];
 [[0xb4b3cfb26075e;0xe849b31fd7f1f;0x7842b2f2020f7;0xec3494dcaa221;0x20bc0c3589e5];[0x0;0x925652aff5765;0x51cc4f6242d5a;0xd34e6608f6981;0x48594b97e099b;0x229868df420af];[0x0;0x4a549d46648cd;0xbbcb5b2fb68c8;0x29cb761de131f;0x14e004126fad7;0x42f8d2f51b1];[0x0;0x845548ac2a7d3;0x5bc8fa4d55783;0xf66df8ef28c43;0x9a65ae3f91671;0x21aee9b0d1c5e]];
 [[0xfb8847763702d;0xf74573addb25d;0x549ee0b07562d;0xad4f02aa0af72;0x3a95461448a7];[0x0;0x7dbef20df0ee7;0xc415954fdb181;0x6d8d7b3c9b949;0x93823f94f22e9;0x3bf31a2b0d9a1];[0x0;0xc7b6100e5ba4d;0x49f714767cefd;0xd10c8f0251cf3;0xa70eacc730062;0xd67facbd7b7];[0x0;0x78e226320cb32;0x37b51ac217860;0x9dcffd5b1262;0xd90431562d709;0x419bb71db9599]];
 [[0xc3f82bc66f6c0;0x47d1d687312b9;0x54c13f1fb176c;0xfdcfaa13422e9;0x63f4e9c5869b];[0x0;0x8bb81f8160d71;0xecc282d27e623;0xf4af6f45574e;0xaea4641510717;0x6c0710b78456b];[0x0;0xd45c9957ae26a;0xab1701b0996e5;0xb8a5322e6870e;0x671ad8476bdbb;0x2707571d3c1e];[0x0;0x9074e363306d0;0x2ab657b20496c;0x20548bf111e41;0x475a85020449c;0x667411d607b8c]];
 [[0x8ecfa3393d57e;0xbc3e8778c2e92;0xd899d5636ceb4;0x41b615857fce0;0xf975225c01e3];[0x0;0x4a5c230b52405;0x63a50094fb36d;0xcc9eef07973ba;0x9bea854dc727f;0x43d558494644;0x1];[0x0;0xb68daf3761a7;0xc6614da327521;0xc87d9be7a2ece;0x611fff1c877d9;0xf315126f6862];[0x0;0xc2d5124d2f1f;0xcfbaa58ca2d37;0x119a17f9aa80e;0x1d5b6fd2cb80d;0xa60daba02f31;0x1]];
 [[0x459f00c5dc7a1;0xc7a63983232ea;0xdb439b33e2005;0x2a86a5ad4ded6;0x307296a9f98f];[0x0;0xfae4ec2fff0e0;0x659a02a25d749;0xdb0c129061ea3;0x78c1692f465d4;0x32ccc2f84d0ef];[0x0;0x5901d6cf26e27;0x112bf16801000;0xe8518944f6312;0x94c396304c4ab;0x92b2bca45a3];[0x0;0x932c188d9bcba;0x7a44078699410;0x2f8c606d63f48;0xdd227daacb1be;0x349b87454c12f]];
 [[0x6a8717ddb3485;0x7ef40cecbf40d;0xebcfd7f928bcb;0x8e3ec2461eed5;0xdc67b52cf7a9];[0x0;0x99fd145c6b673;0x7697681472d31;0x3890da5901f3d;0x707f586d48877;0xec41814ec5540];[0x0;0xc22ef6c040099;0x2f1e8e5f89f2d;0x676d88269e22c;0x5508296f1ea90;0xbdc269689413];[0x0;0x85cc6254ca048;0xf03649310f3e6;0xa6e742c1b60f;0x2c5834fedd910;0xe801035b50b5a]];
 [[0x8d526323393e5;0xb803076ae43b5;0xeb3aab56461c4;0x4778a3fc98224;0x3739bdaa1a04];[0x0;0xdd935d0099076;0xffd5ee48f2a9c;0x906e44e0e2b4;0xc9c20ff1bb698;0x3aa6deb3c42d2];[0x0;0xa82870f184215;0x4586eba801ef8;0x23d87bdc1e384;0x80e8c0b7cce1;0xbe9dc851972];[0x0;0x4ba2087c35edd;0x87eb9fb25a5d1;0x7e04ea29643b4;0x5aa6bb4159d4c;0x3a71b5932ae4d]];
 [[0x78de76da145d;0x6fc3cfee0bb0a;0x68bee6fc3f9db;0x462da08e64e2f;0x92a6a74e52c9];[0x0;0xea6b597dd7ab6;0xc20c9f39443e6;0xc5135119570a2;0x707ec0e457ffb;0x9b217ce466cdb];[0x0;0x2a3974dc7f261;0x8a7937ef46287;0x7b345950b1cf4;0x390c354a7e39d;0x54028352bd58];[0x0;0x2560270c0b46d;0x628e9ab381c41;0x900fd0ed8590f;0x84417ee7f149b;0x9b08e55607cde]];
 [[0x89ca8d20e7868;0xc8d187bbcd70;0x41742f21604e3;0xefe007a8b77ea;0x96dcd5fc2bd9];[0x0;0x1aeb93f1ad612;0x59ca8de9b7541;0xcf089eae407a5;0x59209a58359a0;0x9ec8178003b9a];[0x0;0x2b6fd3d0fd6f8;0xe21e982d59969;0xc9b04d6930274;0x5d0dd7c4deef6;0x58e78943ffac];[0x0;0x83b6d16992809;0xe0aedf05f1992;0x3aac99c02b4c5;0xfebda8c66b816;0xa1e38fd0f56c9]]]
 (V [0x561ab34f642a7;0x59a8cdfaf725c;0xfaca82f528e44;0x8897746b84981;0x9ad1e3dbd162] [0xcbef4ee42a291;0xb40e6911c0c05;0xf7b139c71b77a;0x7800beb6d2536;0x2d66c31ba9da]) [[0x667db8ac68388;0x919acf7c297ad;0x2c7b11672a466;0x171cc61fd8a71;0x278ee4794be4];[0x0;0xb7e6010151a2;0xb6ecae67c5714;0xd7fa18b963401;0xe3a27e51abdea;0x2a97059bfa984];[0x0;0xa7969c6e81908;0x8a925664e10ab;0xe83d56237dfcf;0xf8bb85920a374;0x61cd95f3797];[0x0;0x34ecee8fee1f6;0x7c2ec86d74243;0xc28deff6191c0;0xb050c62ef50b9;0x2946b046e5e05]]
 [((V [0x6953ab4353ace;0x595ca764c60a3;0x5337fdafa7c66;0x86919f81c622f;0xc720b00c420c] [0x7b48f54d8e4b6;0x91e245f7bdb57;0xd18bf2d7998d0;0xabd5eb967cb7d;0x6e84cf340640]),[[0x69a95a6a908d7;0xa28eed6a70724;0x77e08cd8b1bf9;0x224e8884b3615;0xe42f0b4165df];[0x4eee4296c0586;0x9fd3b9725abe4;0xea1298b70dd93;0x438757c808adc;0xb41450b9c4a5];[0x0;0x8079ed6284b4d;0x23d811c2e9abf;0xc880cd4a11d79;0x14de771c7a18;0x5da1323a4fa6];[0x0;0x87baada01f6d8;0x6a597eb21cc15;0xdaa5bd7105bf6;0x33c550537ab86;0x50efbb42f1cb];[0x0;0x34740d0f4c7d3;0xb97bf9ea36e16;0xd8795fea9f559;0x8c808cce7f6ab;0xcb63d4b19ff7];[0x0;0x26ea8c7deed0f;0xe5799920981ed;0xd3186c9640ad7;0x8f87af08427a6;0xeffa16d126e2b]]);
 ((V [0xe238443c9af75;0x7e01e7c780dcf;0xfb0fedf18f9b9;0x43b0f4eb56ce9;0xe77de0ce261c] [0xff9d026a46566;0x3b9d5e83e0094;0x24bba7087ab69;0xefdb114cb0186;0xedd055ceda1a]),[[0xdcaf11a772e23;0x62843ab067459;0x357606974a820;0x40a2ae5a5d14;0xf6e233c38f72];[0xa4292c5a5e84f;0xc5dbdb69ab1c3;0xe6e22eb15ce23;0x23d12fcd70ee5;0x4306c86492db];[0x0;0x4ef5ecb2cbed3;0x2055d2c3d02c0;0x130a63abe5428;0xd7bf85a2f1754;0x9ae3d5df8ad0];[0x0;0x2b9dc6907d35;0xbbc2d3f2aa48a;0xfddffcf25199b;0x896f68abafc09;0xd52a8d67989c];[0x0;0xd17249a9c9108;0x9fa313f90ac90;0x1dde6b853d73a;0xe59df213e006c;0xee17835b476f];[0x0;0xe2fa4b28d479c;0x8e4590b85ac7a;0x214380a3ea5be;0x92ad2a4942afe;0x45cf4a51e06a;0x1]]);
 ((V [0xa8997b5bc7510;0x9a8c5648f67be;0x96c5edcfd3a64;0x4c7eff7ddb8d2;0x4d7b87bcd217] [0x29ff0174adbcb;0x9391843c48262;0xc1222cb237b49;0xfcf2c83b8d0a2;0x7d898adb0739]),[[0xa47264b1421de;0x68cb55f693e6e;0x5a2af8269ce69;0xad2ff98314394;0xe407e4914d0b];[0x5b048220e4d0;0xd811338652cb2;0x7479a024f960e;0x5cc11886aeac3;0x578fc2cb2e63];[0x0;0x29576ec9ce5bf;0x48553212e8a05;0x5f4369375c61f;0xa276466ee9191;0xd15469995781];[0x0;0xdef0683530ebc;0xe9d73cccd04c0;0x1cfaba8e344d8;0x96d4e7944fe55;0x1a7a9c2e633ce];[0x0;0x1b25602036106;0x6a0efd067925b;0x510b0177bfb82;0x26d617f8ccb27;0xcb1e0f611d42];[0x0;0xba038e7425a21;0xc3cecd36c7870;0x9a41bcb1ad00;0xd534525e5ffa5;0xfadb5048b7d15]]);
 ((V [0x3fd26058a147b;0x3780dee4b67b9;0xd5246be223c45;0xc040191b7a695;0x7112d5ed05b0] [0x193413622073d;0x7e6b92ef5727e;0xc9bf0fb126287;0x5f1fbb1d56d5d;0x77134ea09cbb]),[[0x4868d85d11381;0xfafd0144e2168;0xbca7c23abf448;0x37f744da54a8c;0x7e9e0c18aa1a];[0x59ef8df06db8d;0x2169966d8444c;0x7039b9bdf88b3;0xad528791c30ca;0x2ea417974476];[0x0;0xaf9edac3aea85;0x353fa296c60cf;0x3d263bd807804;0x9741b90bc0a11;0x17738b434dcc];[0x0;0x91923cafb3fdd;0xb8b0dad4f3a2a;0x48dab010e4f21;0xf590ba11b72c9;0x7c2e6654171c];[0x0;0x1d8d76d59938a;0xa91cf2df43754;0xbbeb61aac0e46;0x19c748306aabd;0x3e9ff57b3676];[0x0;0x14a2c670a388c;0x94862443ac63d;0x3307051aa3fca;0xa1bb3961d9011;0x856e45c16cb18]]);
 ((V [0x7e5d28df75b49;0xf7fd4bc3452ba;0xea0d6ad6de2e9;0x9f6330a434548;0x69972fdfd847] [0xa34b6f67c22bb;0xbe2df1a0f0814;0xf8fef6022cd66;0x1c5b0e8a538e4;0x1d9771b3168a]),[[0xabd75b5a4d04a;0x10e4813888d7b;0x41633729c8ff;0x3bf4f0d0d5683;0x7d391775755d];[0x5ee9a819e3244;0x582da0b65c69d;0xb5624c4a49918;0x6ecad44f85374;0xb72d6dc2d23f];[0x0;0x80ef522471a73;0x2d15bc3f3cf1;0xb458cadb75c90;0x1d7f487ccbefd;0x31f1a23e071f];[0x0;0x37c47980580bc;0x4333fa8a281de;0xc7e490e93d6eb;0xe2fafa4029510;0x747df7349989];[0x0;0xe9a3e2b53b6a3;0x11dc9053d6ab0;0xee1ce1265c362;0xa10d240c5952e;0x3d40cda42911];[0x0;0x21593336151ce;0x3a003dfc6b449;0x90f5140197cc2;0xbc626043e9278;0x854739a18be28]]);
 ((V [0x79b2922897109;0x1041ab13cba4e;0xea57e6b80b9b0;0xe1691260a3ea0;0xb286ef44579f] [0x2cc2bcaee67b6;0x6a98e236df65f;0xd7f0844d37839;0x8607d7f8596c7;0x53697dbbec6d]),[[0xff2c3e532fb19;0x5447b4f07e12f;0x441e9bb924d8b;0x8721d0ceced6;0xd3462a15945a];[0x99745d1e2386e;0xdc05f1b7b7a08;0x85e3c7bdb2e29;0x20d481848ef0e;0x980ddd641c7d];[0x0;0x3b411e575315;0x1cd8ca7e62abe;0x60d9c5689b7d;0xda6234f1204f5;0x2b8d5e8f226f];[0x0;0x42b83356e0e98;0xd8a38bacbada7;0x3d1f6eee90153;0x54f37c69cca15;0x30d7ddfa138b];[0x0;0x9915de8f5cc9a;0x7c0f574cafc3c;0x90ef2e6ddb637;0xa1a7f1ce3f4fc;0xae5cbc9a9d44];[0x0;0x9c767f8a4d32;0x3b74f2da27021;0x82fe1f35516b2;0x8d8cb6264f666;0xdcb7733233434]]);
 ((V [0xec2ca7458c3d1;0xa86fbaf90f88f;0xe3733d4dbbca1;0xeb18ab19d46f9;0x1018efb218a9] [0xea8706e245175;0xf8f54350fd7d5;0xfeeaf6c6c6b9f;0xf4afc35a18f85;0x18b6ea7b3986]),[[0xc5388fcbb9095;0xb19f5f652a2bb;0x6a826f2ce7211;0xf47f3c9632d6f;0x6814c0c5be78];[0x7101b718f3c05;0x36f434ff62047;0x8cf723bf7edf6;0xab4c226ff803b;0xc064b9a3c9de];[0x0;0x7825960351d94;0x794f4b7935721;0xc47f5a148f12b;0xbeb1495da04e7;0x7c7febda6506];[0x0;0xcb002fc4bc2af;0xe462e1e97c042;0xaa49406059581;0xbcbe4f441bf46;0x43d33c436e8a];[0x0;0xeed4d0fb2dc9a;0x728020fb596bf;0x42665c172d4e6;0x4001b7ba6b8e2;0x2a50de4f5ad1];[0x0;0x3dae6748fbc80;0x1c2af8406f774;0xd7398f94e5205;0xd0ddc41b61b39;0x72b6aa7dcfe36]]);
 ((V [0xeec71ea2d8e8;0x18b873e176f44;0xe3ac057c291bf;0x7f920fbe287ab;0xba7828adf4db] [0xa20a27023f269;0x43a025cb9762e;0x26969a9efae3c;0x2cadf7009fd72;0xfe3ea9582271]),[[0x4b03e9146b3e1;0x234900bca859f;0xc07ae7163c856;0xeae9d3a102079;0xf588e35c0938];[0x3c2fa7d2724eb;0x1e30fd9995258;0xdc36c37266417;0xe202dd77478af;0x8bbad887ead3];[0x0;0x79d019fb034ba;0x48cce9567a2b3;0x1d571e8c72dd2;0xe332bda69a0ad;0x103206414e7];[0x0;0x3765c4dff0df3;0x88c944e785fc6;0xbc9b8772b187c;0x5a31e00af5035;0x2f688b0f2820];[0x0;0x9cdb484e35361;0x848447131edc3;0xccda546d46529;0x178eb95b9b806;0xeb7f4c60855d];[0x0;0xa3fcbf217c6be;0xf9b90ba33f4f7;0x9ad36d168fc4d;0x2328edfac6227;0xfaaaeddad9d5c]]);
 ((V [0x7980617fdaea0;0x5756745955e80;0xbd0412c87aaf7;0x4db4f3bd45d9e;0xf2c298cbf438] [0x8470e6bede5d4;0x99df49d27e073;0x5dd189ad95c3b;0x259dfbca6e860;0x40338a85c98c]),[[0xe14b4e97ab0a2;0x8a1c7f4d381fd;0x46a5e4ca8338c;0xaf5a71285e15;0xf452500b9ebc];[0xa109f63e1e37f;0xf2ec31a7ed10c;0x8e0c37c87a37;0x2ad2ccb69bc3b;0x9f40391de255];[0x0;0x2265089eb167;0xa7bdb45a285fd;0x4a473632f2ed7;0x55e14a8a4ccef;0x87d2d382f15b];[0x0;0x2343f7188d225;0xc0ceeaa239896;0x90000b15e55ee;0x4b9c48edd8dcb;0x1e54af1f2bca2];[0x0;0xa8d90924d950c;0x2c14150986a29;0x98b43b5ec59;0x6917d94978429;0xe92d030d870f];[0x0;0x1929d15dc5c67;0x5094744cb45dc;0xbda31ec961622;0xfec0105907a15;0x3be44773858;0x1]])]
 [[0x5bc8651de526f;0xf8939fd51c26b;0x4d7a09c62607c;0xcd22dcc024b5;0x21006a2cdc46];[0xecffd52811c06;0xcb125799212df;0xf853c7b2a7328;0x77392624a7968;0x92e348962fcb];[0x0;0xf166e40b48b16;0xae655b6ecc146;0x8a07cfbc0c570;0x6cbff9a0c1dc3;0xe6347ccd8a0b];[0x0;0x3be63b84e1f9e;0xaf4b1e1139c97;0xc3ddae50392f8;0x434c06554cff0;0x108d7ef7ace0];[0x0;0x2ad980e6426ad;0x57fa0e1b9b89e;0xe32d3ed129ec8;0x3d94a80987f85;0x4411b5fbcd3];[0x0;0x1baf5ef29eb89;0x62ff2d08808f0;0xe712b3aa81055;0x119df3fc5be6d;0x230685b82443d]].
Definition wit_A_64_13 : colwit ipt wit := mk_colwit (V [0xd497e3a626fc9;0xe6ac31c6baeda;0x9e702001fbf92;0xb0473dc9a41bf;0xf9a119e3c282] [0xa186fe0b1ccf4;0x2b94e622fc5e2;0xafd31b38146d0;0x26de2d11b9ce9;0x1d47868226e5])
 [[0xfa9b542fb75b0;0xfcdb777f10381;0x35f6af03b6316;0xe07446d2fe154;0xd9f1d6eebdc3];[0x222b3ea3d86cd;0xc33376f89a1cd;0x34ae7e22b829d;0xcd2806b3be6ef;0x5d76dbed9972];[0x0;0xdd27bdd89981;0xf5724d865f5da;0xac9f0b8bf64b7;0x1074651b2842d;0xef6a4ecb8af6];[0x0;0x245ee92b90e43;0xc57731e89a0f9;0x2954e96beee1f;0xc62295db2171d;0x1aafca89eda9f];[0x0;0xdce224e77862d;0xcb2e044e807bc;0x7dfba7b628558;0x613a9b2199ea4;0xb98be2d71fab];[0x0;0x66716ea4908b0;0x47d842051d472;0x66cfcb2b507c2;0x276e72f132c8b;0xe774e323e6f4a]]
 [[[0xbfbba63d694e0;0xb84b00991f7fb;0x41c1d863fcbc7;0x567c8ff4df257;0xa8a41b177d42];[0x0;0xf928f0f536467;0xdebb22bfd7306;0x96a442bea8e88;0xc0209cada44ad;0xb344148ff04db];[0x0;0x249febfb5d197;0xf3e5875c0cd1b;0xf7af380c1d0f7;0x851609fd8104e;0x6f17ccc18d5d];[0x0;0xa3f1b14b5e162;0xc99e70f02791a;0x7b32f3695b975;0x23ae47997f0b9;0xbbd5504687a61]];
 [[0xae41491d172b8;0x94ca332c05f8b;0xb0ddf0a3cedaa;0x86ba6322588ce;0x904dd00eb1ef];[0x0;0xe0878eb1fe69d;0xaada30d2c54d8;0x9417f4d441eb5;0xd6849fa24726a;0xa0cc90950f11c];[0x0;0x5ce8ebb6453b4;0x44350d3ad4b41;0x8ddeeb44dd0e9;0x63a5e874fc2d0;0x5157a1b75a1c];[0x0;0x86d7e61df136d;0x100bced7bcd50;0x3000ad215a6aa;0x4ee72625f9748;0x94b5d4fa21047]];
 [[0x8e29171f5f09;0x337808a48acfb;0x587c24b0051bb;0x70dbbad10a16d;0x870131ae3e8d];[0x0;0xc60c348c04d67;0x50df5241e0d60;0x18f9d7e44c699;0xa0465867cccc1;0x921f130027774];[0x0;0x41d87fba26207;0x129ac9f18d9ae;0x5b359fb1b3dad;0xd4addd82474c1;0x4732426732f9];[0x0;0xff69820111c6a;0x990269db4e0c3;0x3466e95642e18;0x7c841c33aefab;0x8e3f4c4ace680]];
 [[0x691bfba5d1410;0x75273c45b294a;0x58ae36d399954;0xf8db959cd76f3;0xebbfe6a89a81];[0x0;0x4422c1f5da92a;0x43f0ab4c8f767;0x39dd0a16a6fc0;0x80b015a1e22b1;0xfd132ccd6b43c];[0x0;0xbb4dce8acba2a;0x3044a8bd0870c;0x46d2271d95d49;0x91812f5905fec;0xd919e1538b14];[0x0;0x419fca9c64a7b;0xed72a1cc3f9a0;0xceb98d9c51859;0xc55dbe4613597;0xf891046abcc99]];
 [[0xa30dfd7447e3b;0xfe7fba24ec661;0xdeda18f43c6bc;0x20d6f383ad87c;0x81bc33e12974];[0x0;0x46eb26a7d8f60;0xb3c8c75e0770f;0x668a0f6a140f9;0x9d710b4a1149f;0x8a36d70de420c];[0x0;0x58e1d325ec18d;0x143f288404b0;0x29e64e40d02f8;0x6837070e245ae;0x41bf36a528ff];[0x0;0x9d1e071681ad2;0x9462709279dd4;0xc914ffc508f3b;0x4f469abede148;0x8d2b467622c2f]];
 [[0x329fe2b7b64f;0x973617f91bec;0x3af6cf1a3cf61;0xe0848579cea9d;0xf2374f3c5f58];[0x0;0xba7cec21245f;0x39a0b3a8c3e62;0x13dde21bdf0dd;0x21aef4ea22b8d;0x8414bf6b8439;0x1];[0x0;0x1170d97cbdb23;0xad59e51f8bc22;0xaeaa8ea5dbc82;0x51c0b509c30d1;0xe52c9dc148bb];[0x0;0xcf6837909c69a;0x4e66b0c7ffac9;0xdb23ba80bfdb4;0xa68a1b3a8ffa7;0x829a30289738;0x1]];
 [[0xef11c461e9023;0xcc5f3a4ad967c;0x9a9d0a85ae69c;0x947b951c59264;0x3b765cc98f5c];[0x0;0x37249002d76b2;0xa50bbd9fb940a;0xd831864022c80;0x490228a3c057;0x428b4b2587dc0];[0x0;0xf0dbb5aada9af;0x9ea14d58674f1;0xb5fa9d5f0b95e;0x5386d30b13d37;0xdcfc57e9386];[0x0;0xaeceaebb9c32a;0x71bf912b2c1be;0x853746fe6b087;0x11f64780c76e7;0x3e81a2fb9415a]];
 [[0x2fe1d5e924b89;0xa9e50a1b4ea69;0xab8e74ce436a;0x402f3e7632602;0xf805fd4833d6];[0x0;0xafbbc2c4e30ad;0xec3c2d89fbfb5;0x2f260d7ef4c04;0x674fdf58142ba;0x12c1f61edd689;0x1];[0x0;0xdccd3b13d2738;0xe02331a8d32ae;0xb132efcf5d4ae;0xed8cb8bdff232;0xf04b9adfc3d8];[0x0;0x5604edd52a51f;0x9447a2780a7d0;0x18304cf0a382f;0xe0cc1ff67227e;0x81b7bde9ca10;0x1]];
 [[0x573f1fdec95eb;0x252d031858a2d;0x5b98c9f9de7ba;0x62e80270124bc;0xb0afc5ebc94b];[0x0;0x888bdf61be783;0x730cc51412d30;0x6e518298f9d19;0xf0edf94243b74;0xc42580fd6bdd6];[0x0;0xccce85def20;0x72d6cce84eb69;0x75d88fe3e7ab0;0x9a0971758f999;0x79f228d46629];[0x0;0xc9e926bee14a7;0x89f03751e103;0x8ee43da6618a1;0x52840b9e8385d;0xba2fe4c7d5ea9]];
 [[0x5d0d3f8113856;0x1b7876064b0cd;0x9270577b298ae;0xdd465a2515d72;0x8bb51b895632];[0x0;0xaaec867e820b;0x47e55a2740d41;0x7df10e84afe5;0x4328f8634717a;0x99dffa1e5c5de];[0x0;0x73a1a8ad36026;0x1e6e52fdb044b;0xa8c0038898d45;0x62136583a13f4;0x4c3e2c0716c5];[0x0;0x485f787c42576;0xf312e2023c7e6;0x401bf14a120ea;0x499129ac5a81;0x93cbb78c820e6]];
 [[0x7e8c9cd796fac;0x706c12fb2b653;0x87a2bedf29193;0x21af3699b6f68;0xc74a067a8658];[0x0;0xb69397da1da65;0x73bfd4655e1f8;0x8924c4c5702dc;0x9a42bd85c2fd3;0xda94b5793d5f8];[0x0;0xfc14bbc45b341;0x41a5968001fa8;0x7d7e184568639;0xa84254433e7ae;0x9b242b7a3bdc];[0x0;0x136d53b8ae2ff;0x6dab116ff977;0x7c76c8d8c7925;0xbb78e2add9bb6;0xd5e191e7888a6]];
 [[0x60329c3e16a5e;0x126dc7d242b0c;0xfbaac6276573b;0x16edbabf18c1f;0x4fc2d209a701];[0x0;0xd169e50ac145c;0xd91bf26487c9d;0xafce112774d1f;0xc9806106dba01;0x58564f3a74579];[0x0;0xd95d8f32026c5;0xe396a6be70e65;0x179532bbbafd5;0xa0286e3509ed4;0x18d9d1e4f807];[0x0;0xcd763cac97152;0xfc5f5bbeb92eb;0x443ee9445d512;0xcae89b6340630;0x531ae960f3445]];
 [[0x68dc8bf900b1e;0x210cf86987963;0x6741511422da6;0xb87bdc7ee58c3;0x838d94ec765c];[0x0;0xcc563b4bde0e2;0xfd69d7a89315e;0xba5672409655;0x5eca3896439ad;0x8efdd3aa96254];[0x0;0xad260d7502b2f;0xf3a09f01f2ec7;0xccde29fc5ef0d;0x8a37a317b9aee;0x439a34b7643f];[0x0;0x4e88a6e42a49a;0x7c17f29f775bb;0x7be4082f99d7f;0x5c5fa25516b3c;0x8f18147603b75]];
 [[0xa7851baffc525;0x9231f05bb1c1d;0x4bb1bf7d7055b;0x191a5c66af217;0x9f36a5fea8cc];[0x0;0x3fa8bfd3e477;0x730931fb41778;0x3ea8e454a9979;0xa80bfdeadc6c6;0xb112e28e05db3];[0x0;0x7d32e66d3008c;0x90036de004823;0x86284d079f20a;0x33d290d7f3c;0x6304eddcc8bf];[0x0;0xcb2f3431babe4;0x72ced7a11fbac;0x7a86cf06b2b5d;0xa2eef31f15c0;0xa2aa13d7a6947]];
 [[0xfa7859deb09ce;0x8a3f12758e986;0xfeeaa3702722;0xa1dfe5541e60c;0x86a70959b7a4];[0x0;0xdf8360acc24f5;0x4adb864f8be46;0x598b08bd35b35;0xe66f0251a2674;0x9042a59e4d1e5];[0x0;0xc10f4c4583e0c;0x1ebd68e3e9c53;0x1fe108bbc79e2;0x609c5dc858a83;0x46d34ac71fa5];[0x0;0x37c10c8f3b072;0xdd56ff815eb27;0x89c141a3ce07d;0xeffe23ea66f03;0x90299b2bb2bd8]]]
 (V [0x973ed0578c99c;0x71b3fb9b12f22;0x846e117162808;0xc66c593e79d12;0xf756aeef2c36] [0x5e0558c0f1676;0x98a8a8b725488;0x4e5b9b4ff4220;0x8a103e88a894f;0xfcdfdde0e167]) [[0x61e71136db9d8;0x64d6d21c9a7e5;0x774f963729ff;0x4c44afa700529;0x351a97df26c2];[0x0;0xc1bab8097deed;0xdb29db03dc039;0x28563670bcce1;0x2788f5b5ae16b;0x394c3ee764054];[0x0;0x9bdb149d9844a;0x8a63cdcac13d6;0xae35d62be8fc6;0x5549b106fd0b5;0xb0405a59979];[0x0;0xa617269f8b7e4;0xaaab10a28a1dd;0xe9de67cabf3c5;0xf3abdf75791ae;0x378d0767a4f99]]
 [((V [0x8c9563794acd;0x3c588c24958b6;0x6496d5bf6ffe8;0xd2bc8759418f0;0x53792630c585] [0xd7edec43d27a;0xd6043090a7565;0x6640264d92b9c;0x73bbc0b4be9d0;0x3de30b878a7a]),[[0x98b1576a232ec;0x199a08f0296c6;0x9cf49d96da08b;0xd03450ac27882;0x72105a2cf79e];[0x6933827ab19f3;0xca161fa5af7dc;0x9e5e90921a78;0x99d06cbc0e992;0x3495c8c4e9dc];[0x0;0xd93c9073b996b;0x6c0e8fb29afab;0x2ae8566b0effc;0x674070a72c989;0xeef862eb878d];[0x0;0xfa2ef035f7555;0xbd7869ff0eb92;0x2805dc1eaeb03;0x8582f9d0083cd;0xe157afbe4304];[0x0;0x7254bee51282d;0xe38ebbfb0b680;0xad002752c59ef;0xb4a56e39bb99;0x32d2915b71ec];[0x0;0xca729f694d968;0x4813cc7696318;0xb7afb46c990fa;0xe2d0544f86c15;0x7dc191b7271d3]]);
 ((V [0xc97e939e45a7;0xe2bc444610a70;0xe4cb151054e09;0x3e66a84840ef4;0xbd943737066] [0x83ba8c506fa23;0x8234039d31abc;0x7878cfcad357b;0xedaf13fa53530;0xe81fa74a2dcf]),[[0x6d84e4469393;0x50fd25acfdf65;0x17cff3ddd5d31;0x336cbca1f848f;0x77e6bf53e5cd];[0xb6a8c09fb0546;0x20294879e654d;0x3eb5e38775749;0x2e487fbd31579;0xa265b7a17752];[0x0;0x50f1b9560695;0x91a135583f853;0x5e4745ceb997b;0x315db220e0ec;0x1b37c818bfe2];[0x0;0x3927dd28e91ba;0x1d2ff072cae0c;0x94dde97537161;0xcf4504cfe28cc;0x39f8a53215d3];[0x0;0xe8c8ae3914318;0x7ae868bd71ec5;0x50c5c7da45375;0xfeee82d5e455e;0x382855dc5963];[0x0;0x234e78483e4d6;0xe90b8c66e19cc;0x640064c558517;0xc7b014aa7c059;0x817de9625be99]]);
 ((V [0xb432b9f092e74;0xadcf05614d236;0x1f2e9fd4a966a;0x87527b2e67362;0x3e95cc05e0fe] [0x93250c24d84dc;0x9b586f94df8f7;0x4434db35b7fad;0x9958358b64b5d;0x9ee03edbe291]),[[0x1eddd8a2a765c;0xa0b3574937e0f;0x38f7b53d32331;0x7b6e26a5bf119;0x43c72194c41e];[0xc9c1cd455a3e0;0x218c12f0a7c01;0x914520ea530dc;0x860ea7e597468;0x3ffae44ccf07];[0x0;0x42671a2a3fd97;0x3a45e8e2b51d5;0x5982450ba637d;0xf7964e5eebd34;0x8c642f5722];[0x0;0x8b3742d12a22c;0x24d7000331471;0x34f2456b850c7;0x5cacb5ec31cc6;0x7ae9afacdab0];[0x0;0x25a96796068e2;0x757f094634cf8;0xff9dbf16c7be3;0x8d02c2caa5a77;0x11f1d6791858];[0x0;0x8a8ef3277b20f;0xd5c3552530271;0xbc124788165c0;0x988ee6664a5e5;0x472ca6becbf40]]);
 ((V [0x8571ea0bc9c1d;0x687155b1e53bd;0x3f8b43cc919f5;0x764cf635e05a7;0xfb2fb9b6aa60] [0x6deadc6217af5;0xb9ad1f3340d0e;0xec486e7de43b0;0xf13f062d4f28f;0x15044fd97e17]),[[0x64b43e45d4f5c;0x4bdf076f3fda6;0xdeb608386a4f7;0xe42a87a99fbd3;0x49cc12b20f88];[0x51611ba65b81;0xde059ddfdd9;0xfaf966738f614;0x612e5b92da5fe;0x1bb1f8b1f11];[0x0;0x435c468daaf49;0x1fcfbd4722de4;0x88939852a11cf;0x908db109056e4;0xf4ce679fa6c];[0x0;0xa537f64951d5f;0x98d08c6755fe2;0x318a40b799815;0xa7f907459ed39;0x5b993072219e];[0x0;0x1e510278417ad;0x7143cf38c999c;0x9b579b4dfb698;0x5a54c08b8d993;0x154605575a02];[0x0;0xe096869353ca1;0x7a64abbb8e1c6;0x79b90609c7b79;0x2dc22e125a381;0x4b02f009c349a]]);
 ((V [0x98483558834cd;0x6bee3b06292f;0xdfbfb283f0012;0xe4ede77e71541;0x69d1f9a20367] [0x31c9e8a129212;0x1b011f06f38f3;0x17f512ffa2b5;0x5ad065bab269e;0x953849bbd0a8]),[[0xdff5a2857d4;0x1304d5aca2677;0xb556e8c390c9;0x3b1188882e7cf;0xa534ddf1bada];[0xe3e890843e32f;0x96d9d884f72c9;0x2a6131f9c3179;0xbe55b84bad587;0xea8157af5d2e];[0x0;0x8ec59785f9ff6;0xe2eba651c85f7;0xae14378e84458;0x3bfc7897c078d;0xf6769f11e9e5];[0x0;0x7f2d46bdb371;0x668bb4b7a325c;0x732e612a9283b;0xafce69d4b2d1;0x1b203d1fef90];[0x0;0xa161dff27acdf;0x70616cafd3335;0x39a4c289309ce;0x79aaba6057dc4;0x6a9d3104857c];[0x0;0xc68a0522216c3;0xbba9407591532;0xe36d9d971a437;0xbcdec542a7b2d;0xb56522eecee7b]]);
 ((V [0x35ce20ce7807f;0xd5c7edf8892c9;0x357f8ff23ae74;0x32739d7dd4f8a;0x624e768c6add] [0x7af59f76c02ee;0xb238b3e2865c7;0x1e4d5e076b5cf;0xd412e0160b2ae;0x59e1800d1da9]),[[0x4bf788f4c8e0;0x392946caf05c1;0x9d624337e2da4;0x6bf90efd39c1;0x4da5dcb9de78];[0xe1ab538b7780c;0x702d03d972b12;0xa205180c63093;0x579faf1b5dff6;0xe10be0df8a71];[0x0;0xd8c35ad68fa6b;0x2dcda372f8d4d;0x8049a18129839;0x5a975f39d8609;0x2bbdeb0074c1];[0x0;0xa13917882bd78;0xd9bc28428ec8;0x6beacc78073d7;0x2c4031a03a272;0x5a85383b750f];[0x0;0xf96d4811d3031;0x57248b1f9b10a;0x3da1d4ff0051;0xf81986888068f;0x178d323e15bc];[0x0;0xee094259499a0;0x5b5424bb81192;0x8f2deb2ef2dba;0x5703bf771af54;0x52a4b15033afd]]);
 ((V [0x361921c32407d;0xdf418d0da38d1;0x56c3d01d8a490;0xa8eed9938069b;0xbac0f2e3ac4c] [0x4d3af80569730;0xd2a4adcfa6d74;0xb97252319ab7c;0xc0424146b193f;0x1a2fb0101370]),[[0x2d014e5fe32dc;0x1bc79736f6fba;0xb5e5c8bd8db0f;0x88fc9546e205a;0x546b5af5ddb6];[0x3058d12faa9c4;0x10f1ef29747cd;0x6b01ee62a1a4c;0x6105240d309a1;0x74fe9e247fad];[0x0;0x9ff500ba0464b;0x11ae9083e8302;0xa848822783fc8;0x38f43c1600484;0x25c02acff648];[0x0;0xfdcc7690a5150;0x73e6528db200;0xa7c60b8ace2e8;0x150387b4af824;0x3b475e68d9c6];[0x0;0x38524beb71db3;0x1da19f734fa9d;0x3f9c3ce3395af;0xec82bcd3c4ab6;0x1bd6a0b68358];[0x0;0x33447175fb912;0x58c4af666131c;0xc24a514d5e9c;0x99bc554e730e7;0x57df6623fed4c]]);
 ((V [0x2123aed8171ce;0xe2bc5a21e26c2;0xc7e82a5c865b7;0x6f07e01dd82ca;0xf5d06f466fb5] [0xde0a27f97c9b2;0x4ca072fcf11b3;0x3681afea3ce8b;0x53de4ffd63c69;0xbd945164763b]),[[0xffbd11395a48a;0xa057f07dd2d2f;0x661392c33e243;0xeef771d368f42;0x1a3ec327ce68];[0x9860a288c3934;0x58e1dbad58e83;0x23c44d2b21502;0x5648dd2d2cc3;0x493e56dae229];[0x0;0xdf3a3adaa4f73;0xd518cdaa39a2c;0x638c207bd25d9;0x14b46dbef8c0a;0x883cf2601255];[0x0;0x1e9b32ee7cff0;0xae09601677335;0x6436db671ef0f;0xab2a7d9fbba6c;0x55e86c956b6];[0x0;0x6a45da700c4;0x95fa338416365;0x1aa03109e8650;0xf602696ce61e7;0x2b0cf0731fa];[0x0;0xa4269aef8c9d6;0x1ec123da6caa3;0x2ba21a65571a2;0xd87f93ff52fd;0x1b81ce83c927a]]);
 ((V [0x4240e81067402;0x4d8a9ce0f4f06;0x9eb41db0dd103;0x9b0a6fa57c126;0x1193c945133c] [0xce04411219e9e;0x5450730320d5c;0xdeabc58da04b1;0xcb66c6d6c7661;0x90a1619d451f]),[[0x9eaf00631d142;0xbb65999049805;0x1eb2e11abc00b;0x20b82b786c061;0xf43757c80a95];[0x481e93470a1dc;0x9b9a49748f57e;0xb5629c154e25e;0x1d245454c6e07;0x47b459ab1230];[0x0;0x1508272786c58;0xb51f0228fa630;0x23009ebfd81fb;0xf59a1e05b3cc4;0xec089eb1d4a4];[0x0;0xf417b5a369860;0x906b24b6ee257;0x76914973cda38;0xd02b53d41ac69;0x169b4b2e59149];[0x0;0x19f484dcac68a;0xbc351c96ecd6c;0x4f7e842bbb96;0x65f507b086674;0xe8f98b4c2a3a];[0x0;0x9a9b80b0d3e5a;0x8b4ea20059894;0xbe49ca2556fd4;0xaeafbf966108a;0x11167f9cc9f90;0x1]])]
 [[0x4c8f21719443;0xbb63750de34bb;0x992c5eb68ff11;0x77107f77585f8;0xaebae499c772];[0xec06c08010779;0xb4dd19f839a65;0x5cb38f6c039cd;0x537dc290e7315;0x80513dbf3425];[0x0;0xb0cdc5ec1132d;0x936fe5de1f035;0x29d38c971da98;0xaf09fc6436d59;0x134f60bf01f];[0x0;0x750a3c830c393;0x544f0e55f60bf;0x5d5bd49840b15;0xb7d6a8717b65a;0xc56e8d80daa2];[0x0;0xff41d5481873c;0xc0530ba2f5cda;0x426a6d3de4f6a;0xb3d3578a529d2;0x7742973206b7];[0x0;0xd6a1f3387f391;0xa8474c25ffd0e;0xa0f1d3ce05eac;0xb71844b5c3e75;0xb8458374bd252]].
Definition wit_A_64_14 : colwit ipt wit := mk_colwit (V [0x796a213f19373;0xb724a002491a6;0x2afedaa184b4b;0x88ced08a25210;0xfe48d906b32a] [0x7eff5c2b13d14;0xec9e0fc6ecfa4;0x83da7a0bc4de2;0x99e2ca3640c94;0x12e7e86e947])
 [[0x529af49c14eaf;0x8b017a53cedef;0xca03bc220b8e5;0x3df77acd18933;0xeb14d0b07759];[0x79d2aa1129d9e;0xec9bfec8fe75c;0xc7ff1ceec1e7f;0x98035eb4fadbf;0x2125f16f2b4f];[0x0;0x5ecf9e9ebc6d5;0x194e7f3d262f9;0xce9c5bb3c628d;0xe90e149939be3;0x9bab456065e];[0x0;0xe5d9764980954;0x56a1155c9a01e;0xbb1f608dde3e3;0x4b39b25eed20d;0x1cad16a83d7bd];[0x0;0xf73cb261d1ef4;0x229ab48e4f43e;0x37ea2ef64f708;0xb94b612b2db88;0xd7df38d540cf];[0x0;0x2131326b240c;0x58025e64f4622;0xe1596d63c66d8;0xac295feddb55f;0xee0b480eaf0f2]]
 [[[0xeced8dd50bf6;0xeb2dc6e7c6d0;0x17767638038cd;0xcd28f9eb6d4e5;0xa5d5c0f7fcf8];[0x0;0xecec3bdd26fb2;0xf500a472664ef;0x3fad981ad92c9;0x65fd499f280ad;0xb8796c4efbce3];[0x0;0x4fa57fe62071f;0x2beb4515c61e4;0x1704174b119ae;0x9a2b8e2d7e551;0x6b6d3d3a5a38];[0x0;0xed8ddfdf53f2a;0xf2b2af14cc1b5;0xe9f012851836e;0x423f1b42147d4;0xa865622fe3dbc]];
 [[0x6af475fd87031;0x1bd0efb4b5f66;0x6a070f7f3d7d7;0x497c9b89bc6a8;0xd3adea0aa175];[0x0;0x978e650ac6e03;0x97fee331d65a2;0x505f61a431a34;0x7daabda9b4eb0;0xe182b28e103be];[0x0;0x43eb28af946d8;0x737b0b6bb63d7;0x1bd9dc10e3bb4;0xff4428258aff3;0xaf0825f3ae7c];[0x0;0x208dce3e433eb;0xcfb66731ebe43;0x68a9ced030884;0xaf8c85ab346d6;0xe16c26257e06a]];
 [[0x5ebfe15614d9;0x386aa82c8ccb2;0x39ce32fe78198;0xb97f2655f1b8f;0x94fcb0d4952a];[0x0;0x287abb9f64f7b;0xdb7c6411a2e6d;0x86d7be52d9a9e;0x98b5ab0f67e07;0x9f1545d21daea];[0x0;0xe3e61f99fe97b;0xf6a0f1b07896b;0xf4550fdc0dd1a;0x103a5b63ab0ec;0x56b525e26924];[0x0;0x763bcd2a1b628;0xecf776cebbecb;0x28426d34e88d9;0xe022e855eb7dd;0x9d86f5967b333]];
 [[0x7cca5f09b264a;0x93704ca74ccab;0x74052a8a849cf;0xd0043233c61b;0x1449d613723a];[0x0;0x960d1fbd9fcb4;0x914d32f438e20;0x41d0752a91386;0x78bcdc4d5ca51;0x158ee54008d2e];[0x0;0x50e20a1f20501;0xc0b7362ef4855;0x51db90a457376;0xbb96a9f5ea8eb;0x19b9ebed3f4];[0x0;0x7cf05e9947e8a;0x4883f6c34d087;0x28bb16bcaad40;0xad6954a81f71e;0x15e26369f945c]];
 [[0xf57ca0970eb21;0xfe28bd148e64a;0xba35bc561c818;0x73b08a4c7a431;0xb8bd97acad25];[0x0;0x6e02336d3dadc;0x64c3659a37709;0xc65cc119260b0;0x2871a8c63b60;0xc749cc8eb3ab3];[0x0;0x22f98df08e045;0xfcf2862910460;0xe0c85424c3fe8;0xa855e76380e44;0x8551167187ba];[0x0;0x7b0cb1d1cc22f;0x76a419a689a6c;0xd4365799041d8;0xebb7c1ea691c7;0xcb6273b206089]];
 [[0x30e66bf1bcc0;0x56e10fb001d26;0x9eec768ea043;0x1a42afd0b0622;0x732ec0dee2f7];[0x0;0x147215dd4271d;0xdbcbbb0012924;0x22ea30c06ca15;0x7821fa82e67ca;0x80ad9ba485b8b];[0x0;0x76febfb5c74c1;0x54008da44e0cd;0xe4f5e598349a;0xa8e66f1b79baf;0x33d309d22152];[0x0;0xd2767cc72958;0xbe6f5eaa8f79;0x72c9f3e8acb60;0xa8501eeea93f2;0x76702ae13f1d2]];
 [[0x1dc80a78a646b;0x1b1d9c1e1bd2b;0xf46c8ef0946fb;0xdd40bf706fccf;0x39994d8cf209];[0x0;0x838d846d7599c;0x8d472a55e5107;0x3d75b8180a479;0xfc65b02205dba;0x3e6022cee5c52];[0x0;0xdfc3c99a01005;0x4e4124e0e857;0xaa9260e419ada;0xcb84db5e7ed9a;0xcf5a0568dbf];[0x0;0x470a2efb85163;0x41f3f227309ba;0xeff361f1865c8;0x6f613c50fe24a;0x3c35b258e3e5e]];
 [[0x83b2912387b0e;0x89e88a4bcf333;0xb4030372d1bfc;0x3305d08b7d2a4;0x9a8f2422b09d];[0x0;0x883b023fbd418;0x7e13960bbd674;0x9db9d6c31bf62;0x2918ea208873f;0xa4b90f93bd8a8];[0x0;0x2529df219b95b;0x81512213f86b4;0x61758895b13a8;0x3761995a854ef;0x5d5087832058];[0x0;0x5642c0be63a63;0x5c9be4b51768f;0x7ea419618b6c4;0x3af38ae3d09c4;0xa5644e4179051]];
 [[0x15fa3eb02f677;0x8cd7d79ba8bd6;0xf1fb08be8aa08;0xecce5a1c7b03a;0x82bcc2fbff55];[0x0;0xc87e96f1c822b;0xb4a54bba0de86;0xf118f34d0a836;0x4690b71f96059;0x8c5399c5a81cd];[0x0;0x7b555952b6369;0xa38270af93423;0xd29e4f38532e4;0x31c24eacae967;0x42c44136e5f5];[0x0;0x92e7b9c8c9e07;0xc8836f9e82eac;0xef8bb1d984f56;0xba7373b2b0425;0x8d4d5cc3aac6e]];
 [[0xefa850985039a;0xe539c5b62cb40;0x8b47c5856cf03;0x62001816ba5ef;0xe3b108ac01b7];[0x0;0x7ac56d7ab4204;0xe8fd3f71ff403;0xf8ff3660e6729;0xe439b726e2e4f;0xf88f9fe4c0850];[0x0;0xa6421e4299a7b;0xb082aa2b88d3a;0x6b0da6b115bd;0xcb0f736841b53;0xca836fce0930];[0x0;0xa5d822f3e0fed;0xba24af0b0e41e;0x2cac70f4e5cc8;0x13dbd4fd51623;0xee08952269e89]];
 [[0x55d4a668cb72c;0xd99d389bf41da;0x65d23c9712539;0xce9fb876c9124;0x7a883f10d73a];[0x0;0x7e746ad071f99;0xdcc68608074dd;0x39f8e7445c72b;0x54eab7332baf7;0x83ab9ff5fb0cd];[0x0;0xb699bf10896fc;0xf978bc3ed6e07;0x34836124babcb;0x67653857b2f2;0x3aa6249f1e92];[0x0;0xa2715f3981221;0xa797eb87e8d51;0x9ec3684100ee8;0x89d49223f75aa;0x86fe8554577fb]];
 [[0xec962abedb77e;0x93d275b997f43;0x21049d309fea4;0x49258be273797;0x9e8dfbda1ca];[0x0;0x691d244b1baf4;0x39efaae6f8a9d;0x1fb2c63ce0890;0x171e4ebb7189;0xb0986349fbbc];[0x0;0xe0b6c94143ae7;0x91444175f1e13;0x5c9fea750c186;0x641fee42f18da;0x623391a0a1];[0x0;0x52fdfe6de7c72;0x7cff3c7427c84;0x143b71d912063;0x9db53c4a987d4;0xa15cf0ce836a]];
 [[0x760d87a9d7c31;0xe2e693ee85a2b;0xec9df2a1dd08d;0x8801b05ffad7e;0x71613ce03bd4];[0x0;0x85db2ee655268;0x1e0d4aefd2930;0x2db19f12d488d;0x9d769b89342c9;0x7933d20b12dc3];[0x0;0x37f4e0e83cf78;0x7e318f3fdbc60;0x5785cea09d08;0xd794f0a6d8f2b;0x3236fcad2538];[0x0;0x1e0ae140af188;0x6fd1b976419d0;0x3891269d97eb7;0x5c8bfb81a976d;0x7e6da23077202]];
 [[0x6f7c82bbbea47;0x9baeeebe01c1c;0xedcd1c915a44f;0xe77d220031da6;0xffebe1464e23];[0x0;0x9457b82905b7;0x13306207946f5;0xf89462cf7bfdd;0x8c640d6e737bb;0x1f09544a49160;0x1];[0x0;0x595f74883effd;0x1db3afcae4eb4;0xde328a1d9c715;0xa5c039df43f8f;0xffd7c4216cfb];[0x0;0xf095cbd4a80fc;0x9dee937e23c38;0xaeb147de5ca3;0x1848cc50a9263;0xee264829661f;0x1]];
 [[0xc9a747a4e28ee;0x2c09fca0ea66;0xe707400b9fc28;0x1eab29a84e60a;0xdcf40dc2ec81];[0x0;0xc4bcda6e19cd1;0x3e7d8b744364e;0x64231f804c30f;0xacb529627a16c;0xf6ed027146553];[0x0;0x1dabe8fce9a5c;0x72126245a3cb4;0x2546538e51aa;0x2349112ededd5;0xbeb4605142ce];[0x0;0x5d5e093ff9f3;0xa8bcd6e3f89bc;0x2880444a08cb4;0xfdc8672eb2bfd;0xe366f3fefa4e1]]]
 (V [0xa9807e49a2920;0xcae6c131ba27d;0x13028e8f73581;0x4dad3d6f0c8d5;0x2813dba6c501] [0x2c2ca3d9cc636;0x4d403a9333c39;0xed7a5cee06c31;0xbd60b20df11b0;0x199c421c0c3b]) [[0xd29eef1c1aa7e;0xc26a6fcb84a7b;0x944fb6167d24f;0xb70198854046a;0xe5b6cc12080b];[0x0;0xceecf0c0a907b;0x81c821b4ef8bb;0x3e993ca93cb18;0x628775c26b415;0xed9a09c30e1cf];[0x0;0x9a0e76a639805;0xc668e8e89eb5a;0x6fa77106f095c;0x2428deb445bcf;0xce208b9f0eb5];[0x0;0x128b0effa97c3;0x726abd8d39ec0;0x669a653a0352b;0x5d54d3690b69b;0xfb17870ff4fed]]
 [((V [0x32c14fe5208a3;0x254639245f4f2;0x5aab7f634205d;0x3b819eb010651;0x750a9b7f01c7] [0x46a0a152f16c5;0x92e088be133fa;0x2dde31ceb4fa7;0x8d901bf8fb852;0x36ab3e77908d]),[[0xc1e06ff32869b;0x62c5a46b4ea6e;0x83a2ace9b5723;0x5777dfba1d9af;0xb1288ab3e4c0];[0x8565b168b14a9;0xafe5ede82ed20;0x32d30d39cc0ac;0xde077025d2c8e;0x1554a6645707];[0x0;0x21a915671441;0xeb9f88bacc815;0x5503a7d0cb9e6;0x682bfb1bf7be0;0x646362e74c8];[0x0;0xdbb920ebdb173;0xc703736beee84;0x9970486d155e6;0xf099b8fac2706;0x23722fffe73d];[0x0;0x57f6379359b7a;0xbe61081187878;0xa1449cfa0263b;0xe61828840241e;0x7a99163865af];[0x0;0xb2ec6f5cad7b7;0x7bf015035d3f8;0x231d55aafd147;0x2b6b4cde9dd25;0xb8e6e6b0c9c3f]]);
 ((V [0xbefd8301fabe9;0x59b34f31ee6ea;0x70c5cf6bc468f;0x6fa208d71e0cd;0xebb0066c15b8] [0xe1f22a24af8e8;0xd178ef18d926c;0x61d209fc424e;0xe2ca59268a7dc;0xaa7d598fab4a]),[[0xc01b882215bdd;0xc584d97271463;0x1e380065cb08e;0xe63dc95cc25fa;0x7986e4d86380];[0x54c792bfd5464;0x16195882ac9f3;0xb706aaab3750;0x29efe45670fac;0x805b6cc3538c];[0x0;0xb84c8a4619e63;0x1c08d0c35daef;0x8d580a663b841;0x4b1f26ec7f06e;0x3582b2929bff];[0x0;0x6bb93800187ee;0x40d2f8134e915;0xbef1d056377ef;0x727898f67632;0x33e77e0fde8f];[0x0;0xb9b032f432476;0x766da9c3fbba1;0x8312c30eee6b;0x2cbd1b5806c5c;0x39b0cb68ed2a];[0x0;0x216c6b4fa8c90;0x9a0f8da845560;0x8ea1daf6172a0;0xc4a5b8056fe8a;0x7d9a27e2ef81e]]);
 ((V [0x66e0ea9a33933;0xc01880630972d;0x1ed6c04e8f68d;0xb40481832f88e;0x225e2c714ce] [0xe9f0d34b5d52a;0xb6115fddfaea3;0x452946b598c9f;0x8533663024f4e;0xdb9af41fe245]),[[0xb0c3880232afa;0x14a819039d585;0xa5e2d9501d22e;0x3edd4fb5c9947;0x25457efe8de8];[0x86cb2c6475a72;0xf5ad7bd68133a;0xcea4be91724fb;0x2fc68400c1752;0xf991598065d5];[0x0;0x813a881951f39;0x9d4129f2c4fff;0xe7042f9e212e7;0xb933f5b8a947a;0xd8fca4d344a7];[0x0;0xaedc95a51dc3a;0xe8ed6f155ac90;0xfc0b86ac51cef;0x8d3873c319b3b;0x31a4cc9c40e0];[0x0;0xab11db1463fb9;0x234722fa6ee02;0xef20682ded810;0x322c61bfc5d67;0x56d2993493d];[0x0;0x675977d864d80;0x561c34afa8729;0x8dad562aeb532;0xbc251bfa703e4;0x29b9dcc241716]]);
 ((V [0x6f3779c3eed9b;0x2bcaa27a2aa6a;0xb5f83cfd12389;0x639ef156be759;0x57160920e704] [0x523d2769b185d;0x8a4fb4edb6b3f;0xcda3ed8d216;0xec99b442a0c7f;0xee9ca5d3b03e]),[[0x2a9c5e640cde;0xad553bad61a13;0x79fbb8c5d3168;0x9e189dcb254c2;0xf141d7ac0c54];[0x9c632ecdea2a5;0x8344bac5d0247;0x60b3bea58d08a;0xb88aa77354c20;0x2a6bff0799ab];[0x0;0x1efb9e47dc71c;0x8aa9bc6945322;0x50ddeca6af5f2;0x5a1e6c38435dc;0x49d2672c3];[0x0;0xe4b7d49d35ff3;0xc4bded2b62a2;0xa6ff967b3590d;0x18d1f0e8974e3;0x19deab65973a5];[0x0;0xd0397a2ff59f5;0xe025d587e55ec;0x57be513677ce9;0x4f95572724c0;0xe35d09012a48];[0x0;0x9f262f8b887dd;0xf72802ffee2e;0x14a2b020ab2ba;0xcbf009707c78;0xfb55365c9c045]]);
 ((V [0x681ef10320642;0xcc8754463b31c;0xdc4c53a97c906;0x87af1f6a11b53;0xeb6117a1c3f7] [0x84aa32c028b33;0xe672f5ada46d5;0xc0b0292e8a9b0;0x2615a411cfc2c;0x66de1d5d68a0]),[[0x80eb1fa6bbf2c;0x32938f7f128ef;0x108f75f57b1ff;0xb09f0d5c2e30c;0xf94523fda481];[0x6137d76c4fe08;0x28a34c3eb221a;0x398791903d41a;0x4d495e466af76;0x40a483153f78];[0x0;0xd96ae67263cd7;0x32e6cfc01c097;0x62bea1b8afd64;0x4f007ed70ed3;0x1d9ffc19ef00];[0x0;0xb0cd5ce496594;0x3346e2cf10b43;0x3ff633191c331;0x8860593f852cd;0x1d0ad9e1eda99];[0x0;0x9a1a8934915a8;0xabb89ef676d5c;0xde4c8782e877c;0x4dc8a61389929;0xf2b792afd5ce];[0x0;0x87cf6d3147090;0xd9c148ff486c8;0x580abe03b0149;0x85f73aea16bce;0xffd3255a87c84]]);
 ((V [0xd4aee26afaeff;0xb94bc5968c9e3;0x45997d4b1d21d;0xb4fe7906bf5d0;0x99e5ed92c532] [0xd81d147fcfb04;0xc9c06e5a54b6;0xa9c43524fb118;0xc6078bce1fc31;0xbcc0f26e19c9]),[[0xcefaceaccbff3;0xd06af639c709;0x3ab04ec9e7636;0xd7d63c2a62b3b;0xadb837bff88a];[0xce8bedb6ed09e;0x51126f6dbd7f2;0x1f6395daa6d1f;0xaa15832afc99a;0xae22cc74feb2];[0x0;0x81aba469a238a;0x2417238e15905;0x30d48de3365e3;0x6c1ee41fb4daa;0xd86b6635e88d];[0x0;0x370a431d9323c;0xbb0bb3a56abc4;0x7c35e0b9d4a9b;0xbbd8d2a34f853;0x8b9c3fc82d7a];[0x0;0x72dee686034ca;0x94b8efa91f2df;0xe54731ee44263;0xfc0e4a8133593;0x75e27fe9a604];[0x0;0x82f789659f11;0x554ad2f36cf3d;0x3d5703c82a02c;0x90d4ffa887b2f;0xbc08691706e33]]);
 ((V [0x190f94d18cb52;0xc082623c922be;0x3cf278e1aa913;0x935b402fa349d;0x4aa2991c088e] [0x3dc4667503725;0x12408972e60c3;0x2fc8e50d9395d;0x439f2c52c7004;0x7c33ef39258d]),[[0x1a31d1a2d801c;0x6088834e48291;0x658fc778e7702;0x4fd3b9458066f;0x820c24ea7901];[0xb29cb8cce1e06;0xa443b17e30da7;0xcc34972d03bf9;0x406a31050dc5e;0x7c0cc162afc8];[0x0;0x347ab000d813d;0xbd465acb10dc6;0xf43e03a8121cb;0x7e5564cb49c2e;0x5c84a47c54c4];[0x0;0x38e7d886b3d6;0xec9908c72cb7f;0x3408eb484615;0xd4f765647aa10;0xbfc5debe93dd];[0x0;0x68aa9711dac40;0xc775ffc37dccc;0x8b4aba4a32a2b;0x75fc520fad8eb;0x421056119e33];[0x0;0x4986445770191;0xd22f2cb833828;0x6da6ba57e3502;0x9fcc0f6fdfed2;0x8cb12670c5b55]]);
 ((V [0x1e6a236502974;0x3e2fdff1716e;0x7a5e29a7c1116;0xa2d03bf1d5678;0x676fa530777c] [0x49fa3d764b1f6;0x8b7ab8157ac1e;0xde5954b3972c7;0x3a67182829480;0x9dadfc23183d]),[[0xf6184efef47d1;0x87795b6567c30;0x19350e2629e30;0x3536c872eb6b;0x785d05e339a6];[0x64bf46094d5d7;0x5a16a0afd4516;0x92ba4d10015d;0xd02f04f5eb1d0;0x816ad0d9e33e];[0x0;0xcedff05b2a9b;0xe3c0cc269e0a2;0x58de7ab547ca6;0xc6ef8c354dfdd;0x15c267ca57ff];[0x0;0x77ec9f0309557;0x5f572203aae59;0xefe87f2673f4d;0x69f453cb01eb5;0x74caf3b7e61c];[0x0;0xfa65a293ddedf;0x42189b0e26e56;0xd571da4561f0c;0x2fac65e217566;0x389757524d46];[0x0;0x7b59e3e658936;0xf67e8cc446786;0xabdf5d25e319f;0xe380924ad13a6;0x7f0a2cf464b0f]]);
 ((V [0x13190c9ca7a33;0x7cdd403e5cf8d;0x6efaf49c40db8;0xeb18d3470de27;0xd0032752ab27] [0x28540bcac83fd;0x901d5768756a;0x200d628fc4aaf;0x78b44b52ef6b;0xc56acf21b3c3]),[[0xf9d7084f31426;0x52d1e00f0c4f6;0xf4e6088a2265f;0x52e933a69bf3;0x9f2e3878109];[0xdfd9d62350a41;0xfe7996d334dbf;0x4411c7e604845;0x383d39eb311ae;0x71e8f3b61321];[0x0;0xf0a078e86d809;0x7f8185a10cd76;0xfb7b5ce0ba042;0x6c4c71332cd84;0x29cb079daac5];[0x0;0xf87047c0e4f7;0x445cfdf6db427;0xad36fb81b08ee;0xc097156615cbc;0xc4170f4a3a8];[0x0;0x32218e4850edf;0xb122dd339a70a;0xcedf7d994a06f;0x2dfa6a269da28;0x62fa727d7c];[0x0;0x7c1e04560ecb;0x86cf37dc8dde4;0xed9a738a34415;0x82e80d16bdbd9;0xa510b409328f]])]
 [[0xb692ea0b5c9a2;0xc657da1bd4e1b;0xb16f20330005a;0x127ffc61bc0f9;0x6405d8458ec4];[0x8796ce35421cf;0xb7e662b907710;0xfb546033bbd79;0xc07d270e9e522;0x143696e713fb];[0x0;0xb4f34b320fdb6;0xbd530a08fc35e;0x80c0e46b858af;0x2bd01b8af0cdf;0xa9051ff0481b];[0x0;0x30a3ffbe262c5;0x2600591e56691;0x30d3127ac820a;0xd0e6165e354b7;0x9a44758df10e];[0x0;0x4d426deb56f12;0x1ef9ff8f2e728;0x51cd3dbac9246;0x35eddab44452d;0x2714911880f6];[0x0;0x797af718a622a;0x4e8e91e9e3456;0x9f930f8647b14;0xa7d68a9cbd7a3;0x6947168b9dc16]].
Definition wit_A_64_15 : colwit ipt wit := mk_colwit (V [0xf738fec5b47f5;0xd89f53d789921;0x33c33dff926ff;0x80690c9a4bbc9;0x975d101d532e] [0x5281e0c8ccabf;0xc403f27241ff0;0x1585088821592;0xf55499bb26001;0x5e07b2919d36])
 [[0x4d6d0d139500d;0x2c8590f287ef2;0x1b7595b4404cf;0x543d7c77ccc27;0x61ba5d77e501];[0x845d30a5b1790;0xb83409c15d561;0x57dc61786dd81;0x43465bcffc554;0xaf723d83ed00];[0x0;0xd54108cf50910;0x792cfcfc3b39f;0x2cb4bd3994f09;0xa2d712d87164b;0xf1d8a68e7485];[0x0;0xecfe4045cac3a;0xcc734e4970c24;0xa1dd9e748732b;0x95e994963d862;0x6e798141c0d6];[0x0;0x622754b6f146c;0x44620a4f9e04d;0xbc18940967e3d;0x1c4eacf805916;0x254ec280cfe4];[0x0;0x9709b73946c56;0x5ba1d407562d7;0xf2b95ed24b956;0x393efad432102;0x6a294add653ae]]
 [[[0x57d0aecd15fe4;0xb5837266b0dd;0xbcca272c372b1;0xb8e546249b4aa;0x6581b7ed3706];[0x0;0x9c05d1038ea9d;0xa48cee73d48b0;0xd730cdf76bae7;0x62b66d287176e;0x696f87895e4f9];[0x0;0x310b6e0034106;0x5090a83af51b7;0x70a4ce77c4985;0xc325cb0799d95;0x283f9cdc0ea1];[0x0;0xfaf08dfc4d110;0x7dd2704781ce0;0x1357ae79c0100;0x11f595698d0a2;0x704e1a066724b]];
 [[0x150f68ed77589;0xf70eead62702;0x8e52de5a42798;0x17573ef2008d9;0x803a9c30a004];[0x0;0x226634f6b996c;0xeaca25873cc7d;0x5c7f97f0c80ef;0xab6f3d926c2a2;0x8ad1aaae3c768];[0x0;0x229c1a5dd96f8;0x77604127b2c4e;0x4807b6db23f;0xe573347ab8e23;0x403aa99bc557];[0x0;0x1796c4b5b2338;0xcfdee483cb559;0x788de93af19dd;0x96c030e415ae5;0x85dccc0220324]];
 [[0x17c94656c88c9;0x3a93e8f446ddf;0x335315eacc782;0x4377bb83a9a96;0xba930faac522];[0x0;0xb0341634f9af;0x55d9072c028b6;0x4ed712c54afb9;0xf8d19e2f7ff8b;0xc684e1e99df2b];[0x0;0xc10247ba1400;0x72f988ef2445f;0x99ebfaad0793b;0xa467e5340f29b;0x87fa073f2589];[0x0;0xaed37ad522040;0x4b5c26c22840f;0xa8d6ccd07d4fa;0x2cceeded99318;0xc478bfb259d09]];
 [[0x9b19b0785707f;0xc07438443ba74;0x83f49d45afbb6;0x2313287f323f2;0x977062ba4263];[0x0;0x578bfc77fa5fe;0x5359d72166de3;0x962f240d214bd;0x6a887ea59e12c;0x9fb3e28eee055];[0x0;0xad97253c8dcd4;0x6061089ada1f1;0xa8c65db4c42e8;0x2c77baaa63e4b;0x5995c5ce435e];[0x0;0xc20c5554ab9;0xf0da3148ef271;0xfc5fa872de1d4;0x59e2647684f85;0xa59328a0f410f]];
 [[0x35853096cc58e;0xeb23a17834920;0x7c37704cc7;0xd6c6009bf081e;0xf91d9c91c713];[0x0;0x200f5dc47a23b;0xef0ee89fe9499;0x6860f889fc4e5;0x7b92c551d7a12;0xe649513f2584;0x1];[0x0;0x47f0627e555fe;0x8c91af2068d33;0xb78971999cea1;0xafef2315f3ad4;0xf26a9e006e0d];[0x0;0x226daf497f592;0xf6f1c55d20e96;0xb5a891ff0e009;0xbaa154460cd87;0xfe4f56470fdda]];
 [[0x59be0ee3dabc4;0x7523e00301c95;0xc984b84e71c44;0x8cf1dc61bae26;0x90043fcd4879];[0x0;0x7dca2ac482101;0x61d042a8db74e;0x8d7f835f096b4;0x1776501a96333;0x9651ab2dff8d3];[0x0;0x4452127cc033a;0x8d7aa035295a7;0x5f234da5a7d58;0xb0a57a0c341e3;0x5104c7d8ffd9];[0x0;0x968dd13fd86b4;0x1d140203c1cdb;0x7f04dd7b4ac22;0x6d00b9b1a0f5a;0x9f3b7bbe193af]];
 [[0xb996f314d061c;0x196121dc9a5ce;0x8abb3a8e25087;0x767cc4e8b2ca2;0x70c79a21edd2];[0x0;0x29826742da09b;0x2c24ab4a42deb;0x841bfe3f71b64;0xe9e6d8ae46cfd;0x7a94f706c3488];[0x0;0x385a572ef955c;0x34b7608617276;0x51bf457a7af2c;0xbb81c605c3b33;0x31af427eada4];[0x0;0xf57491d62f058;0xecb9c854e5683;0xa9b89b3cd6204;0x71be11a4a8f9b;0x751c7f7f03470]];
 [[0x5b85d71275aa0;0x2d4c68c7c8abc;0x2a3cdee9c13fc;0xe8763f10d3baf;0x9997965fa9b3];[0x0;0x6cca0612f21e5;0x97e2e6cffe938;0x5f38b64271d0c;0xffe4e4d8ef0a3;0xa33dbd1d2af31];[0x0;0x83731a302d19d;0x69a90b43aa4dc;0xae5347dcf8d61;0x7cb7cb50a3f4c;0x5c268b811607];[0x0;0x555f5dd38b86;0x62f9399096ee3;0xb7d496eb79b7;0x736db34014f65;0x9fadd61d734dc]];
 [[0x4a205b4cefdba;0xf503915cea8d5;0xaf04c3132eed1;0x2e9d1bde5bab1;0x897e8c67ec90];[0x0;0x75ce807863e99;0x3af17cf101591;0xb272d0ef3ad18;0x31e3370794d61;0x8efcd3e2df047];[0x0;0x3ca2a17e03c7e;0xf225774a62f97;0x512c8d7de84cf;0x4bff416ed0d2;0x49d8b0d5be81];[0x0;0xd473b2254a03e;0x865b1ff18a279;0x5eb2ae1ee2b94;0x53dfd139462a1;0x982cc3b26788e]];
 [[0x75918a4c9c425;0xd808074a52d91;0x55b49e5c5f059;0x2c987b74c967;0x502db4ccb845];[0x0;0x8f35adf0cd2be;0xdb5f4c6158589;0x77975b87dca2b;0x8fddc4c449894;0x56ee7a1a420aa];[0x0;0x138a0097145c6;0xc32f11f1ca71b;0x9d660c7d4b0a4;0x70d82e3764f53;0x191c992902d4];[0x0;0x230513e9fcbf6;0x875e79cfe7006;0x5ec41b850e9a6;0xc26d4ec2d13f;0x5491981fc07ff]];
 [[0x129bc81da7eb6;0x594b969db28a3;0x3340d354983c5;0xbde1262e707ab;0xc188abbba6d5];[0x0;0xd179ccdb3fd48;0xd429061bbfb82;0x9a9d533d22167;0x39caca4976be;0xd055d67451850];[0x0;0x450740f877b8b;0x7bc0bb96e9ce0;0x9b31d6cbb25b3;0xc5d5ef72ab95d;0x924f5be7dc23];[0x0;0xdb80c8c994e25;0x9fc77e39766e8;0xe25082276bc33;0x852826368084d;0xcf6b5a0fca627]];
 [[0xc0d2ded3ba844;0x5281d9948c2ad;0x277a7de652a7d;0xf2c31dba45acc;0xba8ee2942a5b];[0x0;0x17347f959cedf;0x6f056f96a309e;0x217504d95808d;0xd2cc20e7f7fc0;0xca8d19ef241e7];[0x0;0x8d5806f8b6899;0x562da726a01da;0xb50edfe360ec1;0x8b50319b26aa1;0x87f3f0ff7276];[0x0;0xe3ee6c2ce5c2e;0x27142e937aeb2;0xdbe0b8b498a92;0x5f321c8d0843d;0xc01fac5ca99a5]];
 [[0x8463a47c9f5b1;0x33bf7c9e1a15f;0xb2b1c4c19b14c;0x8c87ce333a180;0x9ebfcb82ae97];[0x0;0x94888d5ce44ba;0x163b4460d3725;0x2e8c11792ee85;0x9d5f9a65b755e;0xa72c21cb38d0f];[0x0;0x98d52e1920f6a;0x4d845c287ede1;0x97ab85e3f2273;0x1b35770963d8b;0x62714ee69e4c];[0x0;0x5b2f48f082d1d;0x1eb3199330804;0x5309c40c6a1ec;0x2427befc2bc14;0xab5badc35d391]];
 [[0x52f58752535d3;0x99f963385cd08;0xde1808d5046f8;0x539ece2256e4a;0x60450d04cbf6];[0x0;0x34fab670116a2;0xee40aca6fed9c;0x3d10f9ebb931c;0xa42660d910da3;0x6701dea2ee595];[0x0;0xede3655c61a2e;0x47832f4f0385;0x303c8c2a67582;0x2e4e34e63336f;0x2433dc639e38];[0x0;0x1110b5ae3e9dc;0xa19007b6ddfc4;0x8aa7fef251ee3;0x5cf85c1fb7348;0x648c09d72db46]];
 [[0x35e05baa324ab;0xc7865fcb5aee4;0xa4654ef775a7f;0xc5a0a4fd86219;0xba5e7561adc2];[0x0;0x1da4ff035cbe3;0x47c54b221173c;0x8876f0a69a6d1;0xf0ff74562d59c;0xc40b6e1792115];[0x0;0xb2bd667594468;0x77dc6b4486238;0x89f35d319587a;0x104fbde8feef5;0x87ad656c5a0d];[0x0;0xe0c80e7e89c54;0xc2ed901457877;0x68539d7be30c9;0x6f3e7a183014c;0xcd1702667db30]]]
 (V [0xb2b21081cf13a;0x8838e840d457e;0x67cd7a7a3ec8e;0xc7cc1d3069bf5;0x3f2352e93c7f] [0xd91de91d9e7cc;0x2733da92b30eb;0x7ed79c0077bdf;0xefdb9a50a4360;0x81243f44594f]) [[0xaeec65e256e30;0x7227f22827888;0xd4318a5d2aaa5;0x50c8e02ad9ada;0x92cfe0443b1b];[0x0;0xe90b7cb27a361;0x130be3be3f1c9;0xd5e9bc441f75;0xfe5683654fd6a;0xa37fb42e53b72];[0x0;0xfa598a6f9ad33;0xb8aff9e3b205e;0xf6381323f07c6;0x37f1061372bee;0x5431c49a463a];[0x0;0x3c1ee0edb4e03;0x971abff4f28a4;0x75ae0c7c7ff33;0x4e20ba4d2943f;0x9b21d3f1190c5]]
 [((V [0xce9719367803f;0x6598e3e798000;0x3ed0f02830801;0x4bf209e266cd4;0xd947f54df3c0] [0x9700b49399ddf;0xe61c4b0e68f6c;0xaa851c4e1febc;0xf9f35bb68975e;0xd9ac8a1f5d01]),[[0x99eda726dc66d;0xeef792babd957;0x82733f5c75657;0xe93a3e4f2a9be;0xa36e2672ec94];[0xf1c0b752d44f9;0xaa0c24079e665;0xf3fad7c5b373b;0xd7e7c5b60babe;0x6fde13457ac9];[0x0;0xe9a2f9baa308d;0x7b9d9daf04587;0x2e4c9b54d338c;0xae88231268f8c;0xf9267ae9267];[0x0;0x91c9ca5f93baf;0xa71835b016721;0xab12fbd4af018;0x4164f7c94a06d;0xa4e34a821e3a];[0x0;0x50e06bfaf18ba;0xbdad7548e6a6a;0x97abe67284cc1;0x42cc5de6434c0;0x6855745b69cf];[0x0;0x6c7b90b5ebe29;0x351c2d6e646ed;0x860335a33bea;0xf7a2e21fe6b50;0xa77e8e7572b0f]]);
 ((V [0x64482f4269757;0xa575ff7d18d4d;0x6a9d96d7fffc;0xc960447834ca9;0xb84061105c20] [0x528fe314b4017;0x301a0309afa39;0xfe0fbd2147222;0x765c55e322b44;0x45c8d690a475]),[[0x12567bb182202;0x156f2092efa96;0x24e28aef8e580;0xfeda75c7caf13;0x2b5afba68375];[0xc9d062d73c0dc;0x6353339911658;0x86a60e70bec67;0xf2e257a02da32;0xb99060f8ff83];[0x0;0xe3db14859d523;0x89df06e34f2ea;0xe54a5d46c605a;0x81b51024e501c;0xb86b12182387];[0x0;0xfce14fa1079cc;0x1a29566963eb1;0xfd89089ef5b24;0xeee23cb7292ed;0x49baafab2977];[0x0;0xdecdd7e0ba529;0x80b98f48146ee;0x57e288982e870;0x4acb774ce24c;0x757b0dfd89e];[0x0;0xe48740144ec58;0x971f32ec133d1;0x3fbab382d4ac5;0xa351e598d143a;0x2e6a2b9171b2d]]);
 ((V [0xd0e0efd501d6b;0xa61320462d509;0x6c66152d2d132;0x6985c60e1663a;0x7cf9ddc0f60] [0x1a1ea1c23e9d4;0xb251045256bd7;0xd3cbe03d25dab;0x30510c3868f7f;0xac98495942e4]),[[0x4ee907333757b;0x20d27833da6ba;0x71a3ddf66c85;0x79316fbcda85e;0xc4e1d1084bc5];[0x7cc95cf8dc34e;0xc485cd5fb74ea;0xd42294185133;0xb0c3ac6d6ead8;0x1f38f60c4eb7];[0x0;0x9e8e281bce435;0xd3dbb53c3415e;0x3996651747a7c;0x98bb906abcd96;0x849c9bb8316a];[0x0;0x3aba4b21dbc4;0x27ef66b18f0fc;0x8f57ee78177e0;0xe02f4e08df913;0x6b56a58d1a49];[0x0;0x367e9eeba2b00;0x4057d29fc1d;0xe8d3164c35d8c;0x1eaffea731752;0x976a8f45cf4a];[0x0;0xcadbca1984b9a;0x7919c05637eea;0x881a637392ce3;0xba895038ccefb;0xd9ab0da2e6af4]]);
 ((V [0x7b169195851f1;0xe98f354fb6a17;0x9e1d2fe46b466;0x5029f79d7ce29;0xa1ac591619cd] [0x6678bea8eb04b;0xc6aee1d2182e5;0xe630ef934dd69;0x91c51fbe3d351;0xb0127cbc02eb]),[[0xc1060fcede667;0xd9df979c71069;0xcf091e404a6d2;0xe8734d05377bc;0x7a4f83d73ea];[0x14110d51d8bcd;0x534f92aca23f;0x16373663a4151;0x8e23abb8043be;0xa5e7ca05d022];[0x0;0xe2faa96968df4;0xf740ed8875cee;0x4fc77894e525d;0xcbb6a73af3885;0x3d0302b40f];[0x0;0x814cc4d9682eb;0x941afcb22bfc1;0xf7f6d18b07628;0xa6e21bc46d34e;0xa4ec5dac703];[0x0;0x4d74bc28b5de6;0xfaeb2346a37d6;0x8dcb73190958f;0x7d07b6c0084a0;0x3a6fe25bca];[0x0;0xeaccad988978;0x70a21c35a0bf3;0x987cb7535b8a6;0x991457904fc5d;0x7d5c4c5b667d]]);
 ((V [0xf428eec40404f;0x4e19a4c74fbe3;0x7f429f57e3c9d;0x8eb3e8a320772;0xd24d825c1aeb] [0x521526fcfdb44;0xf8cdc8e40e134;0x35499007661f6;0xc9d7b626df35f;0x288ba9c06028]),[[0x3d306068354ec;0xe30a897db35ac;0xe8317c6c7b888;0x760f78300d86f;0x19cb81d3a521];[0xd3e5490667784;0xdd4722f4fb562;0xc260f6b57e96a;0x5e7cf83d7383e;0x66bf855f28ee];[0x0;0xc55a32062f32b;0x3d59996012a52;0x4a16f0ac51c74;0x4a91b57986689;0x661a3c15a127];[0x0;0x45deaf4a6a818;0xc6e45f3534610;0xc8cd1c9a49139;0x98e4bec63e714;0x237b8c444e13];[0x0;0x6d4f0379cef79;0xf35234c369d1e;0x602c9234dbc08;0x67859aaa5a09f;0x29961227dbf];[0x0;0x49f7aef5ecf4b;0x87fbec950cc8d;0x3c7252bf0549b;0x79df17c92c69d;0x1b19d3990fc9a]]);
 ((V [0x363917a54204d;0x8abdf23475b4f;0xeb1822d6f6fe4;0x22e9bc7d90ec1;0x4e38e18784d3] [0xd32f5c1b67b42;0x45c15be242d1c;0xd016ba09e90b5;0x92774c5ad6860;0x92ab8070f652]),[[0x5476ec834261a;0xfb858f77a5f88;0x48dcbf8da353a;0x451d77de1c5d6;0x4adaa13e5b3f];[0xd3414ef830aaf;0x8b61d1e2992a5;0xaf41649ff9dcd;0xc0fdc7ffe8e97;0x850a7092197d];[0x0;0x8f4377e289a1e;0xbd0700ad508df;0x8d4a8aa1517b;0x544d9af78eb5c;0xacc34156c9f4];[0x0;0x46e5fc585d929;0x8a474ac2409e6;0x75ebfe4928ee9;0xe19b4a7e7ade5;0x17b5ff13bf4c];[0x0;0xb5f85434c2d2f;0x113dbbd1b348;0x6d63ea0c86989;0x79aca797247fc;0x15e31fef1083];[0x0;0x38f1d6427713c;0x3e91ca28439da;0x373ab4419c7d;0x16b2cf93e88e2;0x51f2378639cd7]]);
 ((V [0x360de75521267;0xc849e68313c45;0x96bd9f481ddb5;0x1d32eab75e723;0x419bea272828] [0xaab04d2f7eab2;0x41a0f7d4339ee;0xaaf0b63ce18e7;0x6b818eecdf8dc;0xc1a9b8368032]),[[0x3d238a128bb94;0x4dd13a85d1472;0xcb2d2f9471713;0xddf56ca5c3d5d;0xec69eabc5144];[0xe44b7f4401992;0x492933d5b7f1c;0x575f2bfa2044f;0xef45494db91eb;0x1c54c479e270];[0x0;0xbdb6b1266c001;0x4add6ae9734fd;0xba09fe3708ef1;0x44de3417153c6;0x17e6b61206ea];[0x0;0x8e11f24d336ea;0x2bba963a8a7fc;0x5907eb4d5aa38;0xe6b9e415f8c1e;0x10ee59278f2a4];[0x0;0xacf0c6121b9c9;0x1564719b470b3;0xb67a01c72af38;0x72d3f05c131f8;0xda53749d9b8e];[0x0;0x9a02f9878e070;0xad1533e83b46d;0x592487e1eb61a;0x3715453e1caad;0xfbeae828072eb]]);
 ((V [0xce73a81dac088;0xdcf58189fe8c6;0xbc8438741dcdc;0xc0836a60ad0c;0x23ec593e74fa] [0x5afa57df6c2d9;0x61215e9e34b97;0x365ef744126c0;0x4c84719046608;0xc78586ada6d7]),[[0x63cb6e252396e;0x61986ff05bdff;0x8b8476a168838;0xc128f3ea4ab33;0xd66160159e39];[0x40d21893315b6;0xdcc84cf3b272d;0xcfa9b8e228308;0x662c0c8d3abd0;0xbc759bfbb648];[0x0;0x187fe12eacb7d;0x25158fd4a008f;0x8991f2e093566;0x9acdcebfe2062;0x10d08bdd43fa];[0x0;0x3aaf2b929e80e;0xac0b88b190d0a;0x77a839aa5fd22;0x6c401862e432f;0x1445b13f8b707];[0x0;0xcb561d0d9e342;0xc6fae3351f962;0xe2c57dbe3ef07;0xaf3380f84b8e1;0xb386f1ae18fa];[0x0;0x5ef93cc8f8a1f;0x8bed1d0386e5b;0x1a0f71b7d37d4;0x6ebb5dd851647;0xe55536f3c47e1]]);
 ((V [0xbbd8d485c1799;0x18203b715f91e;0x8c61a615361f0;0x29b5ee6a6d6a;0xa0cb84cc67f2] [0xa98639c466059;0x85fc496ec63be;0x871a40902e0ab;0x7eb0686cd7dfa;0x24c95b50eac4]),[[0xee0830ad7dc2c;0xe6d950496f0b8;0xb774eec872b38;0x1fc422676d82;0x55f770ec9e6b];[0x825a52f186a5c;0xa9f7f45448da2;0xb51a6492168b0;0xe26031e4eede6;0x602dbb550dc];[0x0;0x80c25c841d5bc;0xab32fe20e1851;0x6c4e204d0e2cd;0x88e329054235e;0x50a7a9bbe40];[0x0;0x2a34f25b69790;0x514f094a5cfa3;0x142e25e08b4be;0xcd62cb0c74a4b;0x86005f1ededa];[0x0;0x347a14d4c4331;0xb38b178f48186;0xb74172caf5323;0xa72171c5d74e8;0x1cde40283b9c];[0x0;0xefb24d0e1445a;0x340e211dd6176;0x1607c5b7bc34d;0x2f596c54971ca;0x58b7fb3d84f69]])]
 [[0xd9180b00d943;0xf3c83681b1a45;0x7fff5836e6953;0xbf6909512c7eb;0xfe6bf30c020c];[0xdb18282c10cb;0x5d1666e9123b1;0x204787ab92d82;0xd5588c0a55a34;0xf54204e935ff];[0x0;0x1ea043667bd4a;0x385608b56a2c5;0xb32616c984127;0xcb79bfa1d6b7f;0x64ff07cb62fe];[0x0;0x63c2289a18a87;0xa7e867545ab9f;0xbd7533859b478;0x283f7afc45de3;0x491e97609e55];[0x0;0x585a8ad255e51;0xc8498ff4d6d31;0x63e83a723217b;0xcef0d4e26b4fc;0xfcda63d0e6da];[0x0;0xcd0ca91984663;0xc850baae51cec;0x4b5fcdc060237;0xbf419bc818460;0x1098668d287f5;0x1]].
Definition wit_A_64_16 : colwit ipt wit := mk_colwit (V [0x3bed0e5aae2bb;0x1c2b29e5010;0xeb8fbf0dd000e;0x6a7fad35e0838;0x4c9e5945002b] [0x9f6575d74228;0x99a4f2814d4c9;0x100739ed54f6e;0x322af4f719087;0xdc9692623b72])
 [[0xd22cad987da89;0x5b126cb612587;0x8a15e2696e00e;0xb402c6fc5929d;0x5a72081f472e];[0x3b1628ba1fe49;0x11f95e261157e;0xeffba1bfb8a1;0x7926b2b647cd2;0x21192e0edcf9];[0x0;0x6363632d17e1;0xc5eb59eedf7fc;0x8c1db552808bc;0xbfd6064dbefcf;0x3c44da4a3b7a];[0x0;0x5e6c444b4c1b3;0x73e6888c6be09;0x21f181c0c8d5c;0x6fabe8fa13c79;0x1b93ca2c79ea];[0x0;0xa927592d2cefa;0x994e3e7c19c8b;0x639ff975e9e0c;0x346f82bd5ceb8;0x1ff460813a2a];[0x0;0xa163a39f3282e;0xde687df6ac2e9;0x6b6fee717c79c;0x79a05eacaf12c;0x612633befc333]]
 [[[0x388f13b4f7788;0x58862ceeebca6;0x1bbd3ae0f5cca;0x62779a4fec64d;0x50c49b5b5403];[0x0;0xe870439906025;0x61743338f5d88;0x47e742c67712e;0x783107fe89247;0x54e0a36b6b5d5];[0x0;0x3ac0dfa212fab;0xe37c1b5f1812e;0xc7c8c97324e2d;0x7b0a76cd4caf6;0x197b781756a2];[0x0;0x465153da14efa;0x202e24a3e1595;0xaadb88d6a47c6;0x4574f2d326bdc;0x546c3f45297c4]];
 [[0xb0a8976abea89;0x611646d4b8c27;0xc7b5637df19b0;0x71c457ba323f6;0x89a6948217e0];[0x0;0x7ca2ee9ec16dd;0x76dbdb0a564f2;0x417f172a6b227;0x989809c794f74;0x8e47b435c3719];[0x0;0xb4be5ebb1bce8;0x990660c8f891c;0x17cf6fc8e3804;0xde8f763fb9520;0x4a03b7582c6b];[0x0;0x5d5d5291c6b4c;0x8c8ef18b2e4ee;0xab87bbf2e5bb1;0x53e48e0665320;0x93a75fd99215e]];
 [[0x8fad45cdc2ccf;0x27462e6c386a7;0x4dc1f75e75cda;0x4d84db3d289fd;0xe9e209373db8];[0x0;0x902214f4a53fe;0xcf38f497ae34f;0x10ff64dbd57f5;0xfab3e87bf769e;0xf4209da1bcf72];[0x0;0x8a695626f0d03;0x63cccf8403902;0x3beb5ad4a95f4;0x64c73f2e6c100;0xd5ad3c5ad437];[0x0;0x2d09e51080fb2;0x8d4825195828b;0xe0b8ca47741c2;0x43b5d22dab516;0xfcab63b373e7a]];
 [[0xc27274cc3aefc;0x3d618ec842f84;0xa02e314c75d68;0x13071228b0ce8;0x4a91cc4163e1];[0x0;0xa521b9bfaecb8;0xaf1c036551641;0xdb7e39726f93e;0x165c3d9f5732a;0x4f2a3a7f32212];[0x0;0x50a9e1c8542cd;0x2faa2630f468d;0x18688e83bb2e;0x8bda3a18e171b;0x15b89d1ed2c9];[0x0;0x3c4043bc4b289;0x47f2be9736dc4;0x4b11fd80be332;0x56ecee063ce98;0x4ffa4beee5ab7]];
 [[0x9443489b02b77;0xbbdb6f35b633a;0xc67026961d9f8;0xc8c9b7379024c;0x5265b797ad98];[0x0;0x795b930c7e888;0x13beea58674a2;0x35f074fb018d;0x94ad8d9fed234;0x584d1e524006e];[0x0;0x14cdbe3f2c2f4;0x70c3ae29d82f8;0x242667cc25ea4;0xf3e578f46a69;0x1a8552078c8f];[0x0;0x29186c6ec145e;0x83b62dd6e1b15;0xe8579511b3d61;0xfa9e016dfed61;0x54e4541553ad5]];
 [[0x3476811d7604d;0xea40278628b17;0x314267504d8b;0x7f09ba8494d58;0x5d9c7cc18a4d];[0x0;0xb729949dcd8b3;0x5fc430e8d4501;0xde6a673056ff7;0xe2b0ccb133efd;0x614d53d87612c];[0x0;0xdf21df52a8ca1;0x1a35a13901889;0x76b1008e863de;0xed0ccc0243805;0x223b124ce728];[0x0;0xb75f2e2405ec7;0x657a68112af17;0x847e7b4027470;0xa2c0375ffa8f1;0x625aca8614bef]];
 [[0xad31da9fecc6;0x38e68ba6c1ca2;0x259e279ec09c5;0xaa33f4e5661dd;0x9c98671c8ee0];[0x0;0x218d39a17ae6f;0x7fd9cba429684;0xa1db45c0ef3b1;0x883a17fc14ece;0xa0eabf9af79ff];[0x0;0xfc572efaeaab5;0x9886466c9eda1;0x5e5c713d33412;0x7861ca037147b;0x5fca18656993];[0x0;0x58300029e246d;0x9b90974a920fa;0x682782264eca8;0x29d444dda6456;0xae984db4e77f1]];
 [[0x8938c94c711e6;0x3dc0f9983499f;0xa46b46fbabea5;0x653583b8e8356;0x8a42ee237da];[0x0;0x8bc610bbcc2d8;0xb612df50d8606;0xfbe7b734ec37d;0xb3192f69a3dda;0x9553fb0a4218];[0x0;0xeeb1b002a2e43;0x1c3589a1137df;0x6c2d6315cb65c;0x4a1e2af5d30d6;0x4aac3a3deb];[0x0;0x2f302a0092a2b;0xf5bae2a3bf759;0x3b68583a8bb33;0xa04ebf7072b84;0x8e9d55adef38]];
 [[0x173a2a025a983;0x503930102d462;0x360f7d6f9d783;0x23310d112870f;0x33db1ca1ca3d];[0x0;0x669c97c1b46e9;0xe057c5fbe2164;0xa7b9432fc1020;0xf942161c0a1f2;0x3665effb2432e];[0x0;0x337c0d80c5241;0x7af3923494d3e;0x57c5eef3fbe38;0x2b1d217eba299;0xa8108f27698];[0x0;0x6bc4166ab23e5;0xc19e932f535a4;0xd49f9e607c00f;0xd1053784732cb;0x37ed0645036c7]];
 [[0xa712d839036e1;0x14459db41d8a7;0xc14481aca19b;0x1d2418c6d7455;0x24a672e9dae5];[0x0;0x930b40a0578bf;0xfade27cbddda5;0x31a8adf402875;0xe4a136663772e;0x27086c13f3f93];[0x0;0x8fdc22b54b799;0x99b6e5f1fc1d;0xe60db15a82f4c;0x6de82ff642df7;0x53f3c8b006d];[0x0;0x90d50cef75662;0xa3bdd889c34e5;0xcfe3f439a379f;0xcbcb742d8e95e;0x265a03343e477]];
 [[0x3d25f319ec9c5;0xaff19e1e8e5fe;0x23559749b01eb;0x2ee0a28c5f59b;0xde79e7728785];[0x0;0x5558180fe29ae;0x73bab30621324;0x2bb4550989a5b;0xba2a1831775b0;0xe95cf752c8363];[0x0;0x6615e10f60320;0x9e63bfbecf2fd;0x6663b06c84e76;0xfd033f3a00367;0xc157a7773e8e];[0x0;0x51d238a0a0bbb;0x8166a7a3f755;0x2f011e192db09;0xcaca1898bf489;0xedde23ea55bc0]];
 [[0x4d6d2fe498088;0x9cd262407c759;0x5fb81b25833dc;0x470a511a8cb4;0x96698730b787];[0x0;0xf9af64f490954;0xc52fa06ee5a6b;0x192aae3ffd14f;0xd43b396d3d312;0x9ec723d8abe4f];[0x0;0x7f06c99f6285;0x85442301a03cd;0xe48e302f05f10;0x30cb62bae22fe;0x585fd5ed446d];[0x0;0x4d2b8bc5513f5;0x773e31596f3af;0xe088775a4a8a0;0xe2b5a488a20c8;0x9e9bcce74901f]];
 [[0x8be455e36d51b;0x3d7a68a3d4d58;0xaaadf6dd9f0e7;0xca5888b30a979;0xa887c78a8dc3];[0x0;0x4408d4e112a61;0x778bed822e4d1;0xf49b234c231d7;0xfb252dbc3e82;0xb08de67627eea];[0x0;0x6e0c82566948a;0x105903b96124f;0xbc9d4262fa0d2;0x317726f839594;0x6ef27de9e9bb];[0x0;0xb876760e9b297;0x60c3ed7bfa54b;0xc4bc097aecb85;0x3b17e58fba5cc;0xb4b062482a002]];
 [[0x1b35df148c7c;0x8f674228f7a2e;0xd6dd7e6779d79;0xae0c68aa9d500;0xfa55225d3474];[0x0;0x2224c52429529;0xddd1c611a5154;0xafcdfe83dd4c3;0x39a010f99364f;0x8aa6410798aa;0x1];[0x0;0xf94b586105c7;0xc1c2c07aae4ae;0xb3c0dc36e7683;0x9d49f66c19416;0xf4ca636de0f5];[0x0;0xffb5446fc40d5;0xa2ff141b7ccad;0xab862247a27e1;0xc3740386363a;0x32a5352f7f29;0x1]];
 [[0x3f2e0f44bba27;0xae0b29f5b4ffa;0x6d396e741c61;0xdb5e6eda1877;0xc7995ae2e212];[0x0;0x71fa1eabc3f4;0xaffac8b3f6e06;0x376fe31f263f8;0x4e0a27bf01454;0xcd9853c35ae87];[0x0;0x63f5339b215ef;0xf951b85a3c5ed;0xfdea55a0410a8;0x9aedd19b76318;0x9b9fc72a7eee];[0x0;0x5377c2689a36b;0x91b5f19994e4;0x5481280c33b4d;0xc1ee85be755d;0xd1f674fce3b2a]]]
 (V [0x53cff554f69da;0x70b045b2b9956;0xab99d925ca21b;0x40cb89194af17;0x8ca65ffe2a7b] [0xc9bd73e8f3684;0xcf2740bfac9c0;0x6b87cf992148b;0x1f78d9a76b320;0x99700de9708c]) [[0xd3e2c1e524ceb;0x3ef986d478af1;0xadc188cf0fd2;0xed71500ac3499;0xe1e435a6f1f1];[0x0;0x3077dd89039b3;0xb633c46782f32;0x7bf620ebae86e;0x55c1cb2d49507;0xe8e9a59ff52f5];[0x0;0xd85adbd4634f4;0xc984b11487b70;0x274d552ae2b2b;0xc75cf743be3bb;0xc752f1bf11e8];[0x0;0x7bbf2b693c3b6;0x95be774b0eb34;0x6be10269a535b;0x2c99bb706ffaf;0xf6333cdaa9f91]]
 [((V [0x4f43fc30fc87;0x968a8c7659b44;0x18b9307d981a8;0x622eadbd03b1a;0x31123ae8c0ac] [0x375401d3f32b;0x3998a04c19bfa;0xfb19dd9dbe5ef;0x4720ce9db83ca;0xfa514dad2a47]),[[0xc358980d7f852;0xbf9f95e052843;0xfd11201a3a749;0xb0532adaa909a;0xe84c6042132b];[0xdcd46e989bd5;0x54344dab5be3f;0x9dc7161835169;0x6e0e552905d5f;0x8b98f7189079];[0x0;0xd528dbc702489;0x8c09a5572aa11;0x2e8e9a57bb42;0x869673a1c7044;0x4d46651ea014];[0x0;0xa485e33857a0b;0x5d40b8d919bb;0xf28623cec4270;0xe17f26509281;0x11676a7229dca];[0x0;0x8e88106e4495f;0xc03b91b7c7e1d;0x1b1121ed1a465;0x30f6174292dd1;0xd2ca85410e2c];[0x0;0x64e6a3ea4aca3;0xaccecbd195090;0x416f5b68df7b7;0xcf975c0095f8c;0xfc02bf868e11a]]);
 ((V [0x217e7278299c0;0xa966dae9e4a9f;0xa19df58e7fb78;0xce796cbdafcd9;0x506a0bd77576] [0xc47bc0e842d00;0xf01372a08801a;0x68e60138049cd;0x3602a1e6ef98c;0x4fd9b7b58095]),[[0xe17491334b3ac;0xe4fdcc7223431;0x966ab143e7c9;0x838ad3b353faf;0xdcea79d11209];[0x146a9e9d30356;0x947589df5247c;0x180cfdd32a54e;0xe3d2385b87c3a;0x7b96e8757f27];[0x0;0x2986503ecf45d;0xb91dd177014d9;0xa121620bfa50b;0x60bf9304ecad2;0x967fbd9700b];[0x0;0x343609a3a8f9e;0xedd791feb7dc3;0x11ed9238095ee;0x5d2757fea2d34;0x1b006485d58b0];[0x0;0x17ebe5ea5198e;0xc89e9a63417ec;0xd942be46510d6;0xa14688ce97d40;0xbea3d822432c];[0x0;0x7d56013a1d34b;0x7967024800358;0xb750ebace5795;0xc8e97fb8f8073;0xe9085ea25fa6a]]);
 ((V [0x741161f22b60e;0xdbf3469af1350;0x117137ddd97f3;0x2d623b88a0c5e;0x1a2993959f19] [0x21df60b45f25;0x77feb15252c5e;0x8349ae71b23e6;0x3b48b6585fa73;0x9af891e4cb7e]),[[0xb604dc51a44e6;0xfb445959814fe;0x8683bcafb90ce;0x4896c578ecac7;0x7870137d49d4];[0xee6c45bcefaf5;0x7c8fb58b56119;0xb9ff0322f2b18;0xad9d3c064a045;0x80d4e4eadf2c];[0x0;0xb49637e46baad;0x30139546d29c0;0x62a05c4d81976;0xc0dd99b7aa210;0x194273547863];[0x0;0x6834cfe9a5a7b;0x396409c2097e3;0x9495501f540c6;0x562dbf6d42bf6;0x4b2206e3614d];[0x0;0xa71b53b7d425a;0x468b543cd0964;0xdeefcb20d9af8;0x74138e6e2dabd;0x38a943568453];[0x0;0xf460d14652a97;0x873370e514d16;0xf8435ace8f2b;0x789b8702eef22;0x818f74406b66f]]);
 ((V [0x31e2090afd29a;0x257180a685089;0x9f9e66a61d41a;0xa3b829abfc768;0xd5da63713ac8] [0x6b5a42bb9e93;0x26e355d6a7d26;0xf161f5f2074d9;0x8e4e00100f71b;0x2c7ce26474d]),[[0x41aef6b8bf001;0x112072728b739;0x19df2ad4d9b11;0xafa8d6a60b3d3;0x4d3456d2df15];[0xecb0a361ecdc4;0x15ab0c74fa06;0xedcd28d27df9a;0xb6fce69916b06;0xafb5c635a1a2];[0x0;0xd784f98411d00;0x964623ae32990;0x1f8373733cca1;0x3f71fddcbffdd;0x2ac78baff53];[0x0;0x7b14c9378e526;0x3499b9d99debb;0xb57626f4366bd;0xfea949cf8fa33;0x5d78e5dd3748];[0x0;0x87b3be03e986d;0x126fe29b7dc55;0x8dd7d86430725;0x81041b7814d8;0x174886ee3d50];[0x0;0x9867954f67b5;0x8adee0ec7691;0xf7c0d87a90777;0x102cb6211d25c;0x4e7df35e98994]]);
 ((V [0x989b607c1272f;0x6069b8bfce588;0xbb8a6f9ed3e51;0xda183e229f710;0xe13191330d6b] [0x64599219c6e47;0xaa2a5ba871a79;0xeb289182c7cf2;0xc62cc20a0df69;0xb6ba835b287]),[[0x56cf18181eff4;0x7fe0a3e237540;0x6d3388e8357a3;0x282325eff3503;0x2ee20c25f7b2];[0x536a93f58102;0xdf7ef013cb288;0xdb535844b4a1e;0x35d7c63dec220;0xefeea2bfdbf6];[0x0;0xa2290e692f1ae;0xb744d90dfe9b2;0x5ec7b13ac0c7d;0xc3b36c3fab46b;0xb2a523c7ef4a];[0x0;0xfeb9d37489b12;0x3559c791f712e;0xb60c7696f4358;0x605aea34719cd;0x104b7214bac];[0x0;0x671a50b03dcdb;0x2cdf1d5805200;0xde159783fcbc6;0xf1d5bc9d62418;0x89603f718a0];[0x0;0x2f302365dae62;0xf19a77a67ad03;0x1ea3c5980c1b1;0xae0c278cb5526;0x31aef20cc7527]]);
 ((V [0xda96a3516357f;0xaac4ee5d0d4db;0x5d77854d3e948;0x7d167fc52a037;0x2c79b5b2a95b] [0x9d51055e06667;0xe0b83ba72012d;0xa0e5b02201a37;0xfc9e1c83dbd23;0x8130a8e4e612]),[[0xd9540e21cdce4;0x36931c2967f76;0xab392d57ed28a;0xa9fe5bfb4a185;0xe6e4df5185f9];[0x7fe32e5bb5a4b;0x1ad58ee845ad4;0x50aa19388d0f0;0x66aa1bfd77b21;0x943971f74f39];[0x0;0x4e422a465991a;0x9ee4caa7be1f6;0xaab69c6883dc7;0x980aa13d23283;0xc6182ad4a57d];[0x0;0xbe465ea9f1c75;0x986b8a1f4460;0xa72852128de9;0x1c54cb751afe5;0x1499ddf0f194];[0x0;0xcd03fb8124ec5;0xbf8e8f86f29a8;0xbbb69234cc5ea;0x638ade9f76142;0xd0400de508c2];[0x0;0x8199738a9a5e2;0x7163e98ce1e8e;0xa7154a0b4ce1f;0x2aaf8f9780035;0xff831950472c9]]);
 ((V [0x5cb276f1a8dba;0x3c92b081222e5;0x4b0d1531ff91a;0x715ce3cba5a43;0x1ef74f747cef] [0x78f46129f0988;0x322559adc4ccb;0x6695bf61204c1;0xc006e94abf79f;0xa588eb63a95c]),[[0x7845740762179;0xa297dedb4c9fc;0xab3b081366754;0xaa919a19170f4;0xb211521d81a];[0xcbbd7f607f872;0xd41e2d4217f75;0x1c1ed3ad347dd;0xe03c456332797;0x2ce06cb44047];[0x0;0xbcbf2f82c67c9;0x654e131a4edc6;0x32eeae4a98fe2;0xaba74d563ea34;0x7ba1052ae11];[0x0;0x3ef26887be5ac;0x774454477ac18;0x176059996074c;0x12694d43b9524;0xb3b92635b27];[0x0;0x3691983b9326f;0x3dda764f5d54f;0x5e07f2d163ea3;0x93764a10c1e1e;0x7bdc175d0a];[0x0;0x2a4da5e95e30b;0xfa979271daf0c;0xf090362ade579;0x68456dddbca04;0xbdc8c090af4b]]);
 ((V [0xcbf11435f9a61;0xe6b1fb6e5652a;0xfa65a982a37d2;0xf0ac230dcee5c;0xddf651603dd4] [0xe87a64288cfb8;0xd90865193475d;0x8bcfc738e5415;0x12cfaa9c33bb6;0xf032770d2ccf]),[[0xab2c6587d4e2e;0xbbf9ca68e1d8b;0x22e7ee0c3c51b;0x89e0ae7d2dff4;0x358534b71653];[0x298da4ac7c743;0x4eb65cd7a934;0x8e79360186ab7;0xd283e38362a6f;0xd00d355be714];[0x0;0x4feeb0e7b0947;0x223650abb281a;0xa52551cf44791;0x4ebbc49234591;0x3bee589b8ba];[0x0;0xe29940951f8f5;0x1746d9bd43e84;0x7eb58e4a2049;0xf8b91555139c5;0x4536f5e83fee];[0x0;0xf9b31d89c54e9;0x660be25f1667c;0xe3a63b3e8bec0;0xade7291a002f1;0xb306d23a056];[0x0;0xfd0017d9cdc00;0x6a50f04aa5aea;0x63a4e12223d63;0xece98cc68f899;0x365ea52f247ca]]);
 ((V [0xce6b650e569c9;0x39d3e749f37f4;0x40a904a050de1;0x54392065d0a86;0x63099bcd35fe] [0x9508519a24018;0x376183601d7c4;0xe4c3b6f6b547f;0xa31e728a2df8c;0x55888747e3cd]),[[0xce58d815dd14d;0xda04ac24f9b92;0xd77ba16c764a4;0x285e31b2a694d;0x7aad7f3f5784];[0x3aefd448be063;0xf431e1b16dbc8;0x3d2b9115d764d;0x7ea4cad972d46;0x97e5c98b5232];[0x0;0xdcc6225f252;0x6da2df2420074;0x98abed50c4ca6;0x8816ee49d0dcf;0xc0733580a996];[0x0;0xd47ad6258fe05;0x82a2896a132c;0xf360a72c20aaa;0xe5751f6fd6450;0xe635ac7665b3];[0x0;0xa819d8b9e5212;0x1f1b80dc3cc03;0xcc761d659581b;0x2799a7b1dd906;0x3ac9d2dd9a46];[0x0;0x563604df77c75;0xb6dadb0d87b32;0x52e9c2e5acaf;0xc80f09e82f905;0x8606d90cd6e39]])]
 [[0xb2c60e358f4cb;0xa28d50b38ab87;0x52f7adccda722;0xae79783ec9fc2;0x72160b5644c2];[0x123ab4b92dcb2;0x8bfb58071ed33;0xa8913602fa82;0xb014844b9d8a8;0x93b466028d6c];[0x0;0x19c28bb39c7b9;0xd8533ec77e332;0xb6f479e72b3bd;0xa4e799c662cef;0x26506edd0b02];[0x0;0xd25e2e3eab98a;0xc53df65ff87f6;0xadfc263a9447f;0xfde1deb708e06;0x4c3c5386a88b];[0x0;0x669a3a745bc6;0x7f513ca00f0be;0x6e501c129e3ee;0xbbd52c3c415ee;0x32d7a3fec891];[0x0;0x2d4be1107a2d;0x292807bea6693;0x1d0ceb89c41dc;0x6193e04f80446;0x77385344efa2a]].
Definition wit_A_64_17 : colwit ipt wit := mk_colwit (V [0xa105e4d5d7180;0x55f13ca47b8a9;0xd550bdf40d691;0xaa8408c3c63a4;0xc423f483c900] [0xbde9fd62cea60;0x885c2cda93241;0x7a0c49841a661;0xe6d2ce29ba0cd;0x667b1d9838bd])
 [[0xbb1c48df13aa5;0xdece67375bed9;0x2a29437d3c1c7;0xf08b691b52d37;0x7114cf67fc67];[0x726667a21f80a;0x82044d4529a1a;0xe14f06d60f0d1;0x3c37b899689d3;0x72550107d84d];[0x0;0x192656e7cdd99;0x49bdcfb85812f;0x10f7fb9ed0361;0xaec9e00f18c5d;0x71d80bb0d162];[0x0;0xd2daca5522436;0x3baa3a0855a28;0xb1c86fa1b1fad;0xec367440869a5;0x3109e40ca43];[0x0;0xd045454bdd39;0x263be7bf24f95;0x94e19d51625de;0x8705d4145b524;0x31f360cadd1c];[0x0;0x83070064ca4ea;0x2f656081815dd;0xe0d0ea3cc98cb;0xae3c570e4dd51;0x77726c638bc5a]]
 [[[0x666f4316d3216;0x57ea5fa9787c9;0x99f2ffd61db53;0xf9c036f8ae0ce;0x6ed867a9999d];[0x0;0x8a04127373f5;0xb29fc75e9dc8d;0x71a9a9d63dd4f;0x2a27b470dcb59;0x7676109037e32];[0x0;0xc488c6aca7522;0x78da38efb7b5b;0xa13633c76f7c0;0xe72ff1551b418;0x2ffeb004d830];[0x0;0x17a4276674cf8;0xbb7a85679b481;0xc4ae7b04dc13;0xd93b75553069c;0x787a5e7af7494]];
 [[0xbcdb43fcd00b1;0x97f2c401f7d88;0x5e5606f35f945;0x4c859371bf8c2;0x44951912e183];[0x0;0x235fef1e6bc55;0xf8ce16e2a66c0;0x8c02f640e44c2;0x508f17c2a7b54;0x4af7d25c292dc];[0x0;0x2d007025e5e;0x3b5f59238f62a;0x570b5b5ee1c98;0xf4ee2be2f99a9;0x125f8c283a3c];[0x0;0xfceee0ace416;0xabddd51e78e21;0xa7d703b89683a;0xd4b6f68268ce5;0x49b3d586963f0]];
 [[0x8ea4da09c5e91;0xde889234848f9;0xef4e50b44b1b4;0xcb3df7f21f34;0x5c1aa4f32e75];[0x0;0xa618081554462;0x7cf5c8c4d011c;0xd490b7b000cfd;0x7f890b6d5707c;0x65cca4355762b];[0x0;0xf6dffeadaba9c;0x9a28dcf425941;0x663952efce825;0xb6f1017a0243;0x21232954b512];[0x0;0x7106ecf666188;0xa560a7b8f0296;0xf2daafe7b6c87;0xfc7f1cbc226e5;0x6106959ec7d7d]];
 [[0xf6407c983a001;0x3195fe9438c76;0x58b6b04c3a2b6;0x1750d3b65108c;0x5d36c7389ea2];[0x0;0x13d163ef35d15;0x5f7de6d5ea6ef;0xa33684be3377a;0x54ff5db7c1213;0x662e6248291bb];[0x0;0x7041a2bf6d1a2;0x3511fc7ee5b12;0xaba57dcf0115c;0xc47859621fb5e;0x21f0d877ca2d];[0x0;0x2fb8451d3d8f6;0x9087fed3962a7;0x46f230910d411;0xba37789d580c6;0x61ed7c76e7f96]];
 [[0x28fa6af614f09;0x1711c71095bd7;0xd1fd6e53f1108;0x792dfda7f9bb9;0x780e5ec13ea6];[0x0;0xece7123dd7106;0x9609e844fe792;0xaee4dac74f276;0x378146276ee4b;0x822c525925cb0];[0x0;0x92492959f92d4;0x1fc9f670d37b3;0xe5e321369e707;0x67b2262ac512a;0x384d79a3aaf1];[0x0;0xf5d0265476878;0xe9b1d734da3ce;0x803d52c01edac;0x19b95c4913663;0x7c1e53522b93c]];
 [[0xe726d183da39f;0x8a01bdb0f7e3e;0xb9588f9d9e032;0xf212193eaa382;0x1f591e8ac99c];[0x0;0x6f80939413109;0xfeea1cdd12037;0x6d095f43f50c1;0x4341564b463e2;0x21175cc3395ed];[0x0;0x5ce789ea32655;0xc9ff7a2f0115e;0x3aa98997bd564;0x43f776bc8923;0x3d6b46bdcf9];[0x0;0xc2d866868654;0xd14bbde3273b0;0x808e94f44ad86;0xe6a33b38bdb23;0x21450556936bb]];
 [[0x6d3362b0236a8;0x87bfbad29bdb9;0x9a2b7c6b91e53;0xb20a6db4199cb;0xbd36c8bb5ee0];[0x0;0x4967acf917592;0x17c0e9394b945;0x54ddfe23cf4f9;0xaf3cfb2a10c27;0xc781e734e26dc];[0x0;0xe1a4e48a3b8de;0x5354376a95b6c;0xbfd9ffd875708;0x1b11580064699;0x8bd9f01df689];[0x0;0xa1ff4ac8e7301;0x6c748fd50c586;0x19bfa3fe7a069;0xfde7966e282f9;0xcfec638f82654]];
 [[0x9b773103f720a;0x8fdee19393ff7;0x355b660e98f88;0x787af91658712;0x29752c09e0fa];[0x0;0x3deb9255b9cb7;0xf6946f9e486c1;0x7e9c0c95545ec;0x8f863dcb729e3;0x2d38a446827b3];[0x0;0x26a2ed28be51f;0x91eb5bdea8328;0x37dfbdfbb7f73;0x454134eedced0;0x6b6bdbc72ab];[0x0;0xfe3d1c1ad97ba;0x10530cf39c192;0xa296c0f7d118b;0xb56e8aa9b92b;0x2a49788a68c97]];
 [[0xd7b2ae169c4f;0x295c84b1d63c3;0x5de27ea91ddef;0x57d219e99a6a5;0x554663e60056];[0x0;0xed9120a46fb52;0x683ad23e3ea19;0x66d85d414d1fd;0xb791833b13b04;0x5964724a752e5];[0x0;0x8ab18453da44c;0xe7ec812d4e37d;0xba6147ac37b0f;0x3870ef2db6fb6;0x1c67d1b184fd];[0x0;0x3a02d6aec2db3;0xcd01e01501b91;0x3140ba3ac462;0xf5c8afa2ea731;0x5d28a6d1c7ea3]];
 [[0xca6706f2c1a25;0x47274234bb852;0x875be27e17d07;0x5bc21e9d89414;0x2051e8b24b14];[0x0;0xfab25e37f2668;0xd3a3ae7c941ed;0x172f1a62e0dcf;0xd5fa9749ab9b0;0x22d9399532765];[0x0;0xcc2c7f82a02bc;0x7c208af0eccbf;0xe6f282a96aab8;0x3e13fd2322d37;0x4149461a71c];[0x0;0xf27c6e577c4f5;0xd274c4c0ea544;0x47a8b5bf58321;0x4a3c7a3a3b986;0x22514c3e6664b]];
 [[0x5c382b00a953b;0x131914b448893;0x2bd7ac4a4aad3;0xaeee1b2de3703;0x17faa7c85334];[0x0;0xc70eee6a676d6;0x7dd3f607ca05;0x6bdf0e8ee6515;0x489b8d64d31dc;0x19d6aa9e76deb];[0x0;0x8aa478355c691;0xa922ea6cefbe;0x4943e2dafc24c;0xf3a54b868444a;0x23eff92202c];[0x0;0xf8b2bcc434147;0x3804aea2ce1bf;0x260ab7df60951;0x2db9528a9338;0x19d5a99d8b1e5]];
 [[0xef1b0683aa871;0x324c5e26a7931;0xde4ccd352ea41;0xbf308fcbde839;0x168806743e63];[0x0;0xe0acb45d62578;0x1bdf1f30053b0;0x35a8f18e8e36a;0x4dbceea8514b0;0x189d1f6e2dd06];[0x0;0x79b1827c35ab;0x95218110c7a81;0xe2a603a114411;0x168cc2dfd513d;0x1fba962d665];[0x0;0xad62d5153e501;0xcefdbd42f6701;0x1d956981cd7bd;0x13b65affc78eb;0x16fb268eeb851]];
 [[0x4457525bf30f9;0xb1f095a3ed02a;0x1b4c875fbaba3;0xff83e8abdb74c;0x5f98812ec978];[0x0;0x873e1b7ebfce8;0x3f2bc8c5bc9d8;0x1d40919e96cbf;0x64112295bb2b2;0x645d3ecdb5881];[0x0;0xe4eff79fad077;0x2603e801614de;0x168c9dcd413d2;0x3cec4ae1d747c;0x23b28aba6247];[0x0;0x271ceee44cdf7;0xe8c5309df7778;0x8b8776db5d7cb;0x687d67d3eb652;0x6624d35063a44]];
 [[0x412492d763748;0x9a577b7c1f5e4;0x67eaa6bb46ae6;0xcefe9512ff61c;0x78b63c14152b];[0x0;0x4b10c1198426d;0x82758f312753b;0xa4ff9635afc6a;0xdb05843f6387e;0x7f750f47388d4];[0x0;0xb4cbd0130b6fb;0x44453f7de0007;0x1249f903ee294;0x97d8d75dab8bf;0x38eb5a0c4e80];[0x0;0x631e9a2046369;0xe9c089bde6afd;0x26ddc8cf8e282;0x5c82bb7616256;0x850feeccb9520]];
 [[0x38cfd3ef0237d;0x107ad30661dd;0x7beaa0d4e4b5c;0xfbaf2afa013dc;0x2a5d760c6de3];[0x0;0x44a2e938f3268;0x7c1a4080328fc;0x859f76a851274;0xc598e045218f4;0x2e6b4c443560e];[0x0;0xd6e8fbc3d638b;0x491c3d142b25;0x7b2d4d1411c40;0x1c22fff045732;0x702ccdb0f86];[0x0;0x19e3a0d3bb6e6;0xaa5145195780f;0x2c119c44ceba9;0x900670cd2eb48;0x2bf7956561d3a]]]
 (V [0x3ca2ba7108475;0x58ddaf8b0efbc;0x6dac8cb258526;0x747268ab739dd;0xf584c1160a07] [0x5abec9493e799;0x37023122f0f2d;0x4ff28f98d92f8;0x838235f0443b;0x562107bb25b1]) [[0x3836acca555ce;0x98c19ad50c271;0x42f86d5e4474e;0x90cd801939f52;0xeebfed06241];[0x0;0xa7e2503fe5ca7;0xb8b13240afb37;0xb69f184cabbc4;0x553375e5b289c;0xfe3892a8813b];[0x0;0xf6802ab608c63;0x349fd9feb6af8;0x5c766bf6590f;0xbcd03ee54c71a;0xdea96c9af5];[0x0;0x298c4c9829f43;0x41b0b6ac36620;0x99fe0c60c2cca;0xf4bb6f2c5e46a;0xf8c314952c2c]]
 [((V [0xbfdee801c3ee6;0x55d2c490eb0c4;0x4b500ebdb3dbb;0x838c63ee35d6d;0xf09f0b06428f] [0x16086e4618773;0xb744dfb3087d7;0xe33015c72fba;0xf258832716eaa;0x25b8688a5f57]),[[0x64fbf55e5c697;0xb470f2b76bc88;0x119ca4efcac68;0xabd843f05fe6a;0x25afaac9cb77];[0x993f8b076efc4;0x6afc9c8f17ae3;0xf73b2e7560610;0xe6d3788ab4c7c;0xd455b726868f];[0x0;0x9062d22f13093;0xe73d2e91b719a;0xd373370235cf9;0xd998099536e85;0xeb775e6bdf8e];[0x0;0x1dd1bea72e712;0xdc1c74776f74f;0x3e34d49538806;0x4ef3696f30901;0x195bc05051ce];[0x0;0x172c92a2bfee7;0xbb67c672ff900;0x8df9ee36be832;0x6695892e74abe;0x58c3fe946a5];[0x0;0xc9f3ab3c983c2;0x4992bce149e92;0x87cf8549edf4a;0xf8746a448d865;0x28162e702a6b6]]);
 ((V [0x58ee688052412;0x3c1689dcb3dd3;0xe751c7db4a753;0x82b5ba0c3b9b2;0x73ade89bb5c7] [0xd2fd7fe79d32;0x83697f8f42b49;0xf24fbb3ec185c;0x4a87001aed036;0xb585aa81baf2]),[[0x913a6418c2b1;0x58c2a1d606e2;0x71d08867996ff;0x5b491108fa602;0x64ba62ea9aab];[0xe5f8ac7123055;0x8665a9c0c332a;0x15cf4a0e20828;0x27478bc7a9f4;0x1d52c7890441];[0x0;0x930c6461a4409;0x7c0d89d78f685;0x5720a1110f438;0x4ecc2919524d7;0xe22a977a6f0d];[0x0;0xcaad5df6d85;0xc9b53831a298c;0xd753d259f10c9;0xac1fb77c3de2d;0x1daefeca564c];[0x0;0xdd56be194df5;0xd64d7dd8bd061;0x30b70c473c5b8;0x15bc0c1533cbf;0x27a224fb2bf7];[0x0;0x4560689dae92a;0x624dccb25a63;0xe466249fb2f6d;0x691b4d3ab51cf;0x6e189ba7fb4dc]]);
 ((V [0x3b3cdf20f8380;0xceb4f04063445;0xd29fc539c4c35;0xea5daf56e020f;0x74978dd5cb66] [0x21c4677381c3a;0xe7e6af0b2ef56;0x5082780e3d578;0xced1a9aab5067;0xc9b70fb187f0]),[[0x1308e4e7d4539;0xafefedd240e1a;0x70964aec4d76a;0x406a90d3a2c4b;0x88d93de75e5];[0x23304f714a11;0x7618a1ceeebab;0x71a8878d7c7bf;0x733891ae1ecc7;0x60a5d11a26d5];[0x0;0x9e3bdc98baec5;0xc4584ee1296ee;0x4ad11431ba856;0x87452c59d5ace;0x3445b5201b1f];[0x0;0x143e31324c50b;0x3c998667713c8;0x15e392fd925b5;0x13989cd6983a4;0xc212198eb6d];[0x0;0x95bb9d58368fb;0x787b55ed6e938;0xb5c7035288f9a;0x6f45965238a18;0x49278a1fd5];[0x0;0x7052e24436f23;0x7b04b4248441b;0x4dd6ee5e0111a;0x2681dab7baca1;0x915f03650da5]]);
 ((V [0xfe74e425de709;0xf832c47da8619;0xd419d44df312d;0x6a830718118c1;0x502072c84098] [0x3c28782ad8d99;0xfd88c02b96c1e;0x6aac9169a7c3f;0x20ff2639979c0;0x6df15d2389ea]),[[0x4001e06ca121e;0x9ddb274b2a19c;0xc58a193e41924;0xdc4bdcc70cf21;0x79301ba73789];[0x1199c6e2be564;0x9580acd350fca;0x9d8e16d7c8e21;0x50dac75df6a4;0xc79ae33f1dac];[0x0;0x3c37d534bc5c4;0x4baab94214d57;0x318e97b92d6ce;0x6c68da7527b5f;0x3519b2426120];[0x0;0x60809fe6bd1e8;0x1d038ebc60cca;0x5bae4a0d680e9;0x73f32d66acba9;0xbefadd0fd6c0];[0x0;0xcc898e6033bd;0x8a9e327363e;0x1a6ae632f662b;0xd8e2e988e753e;0x395e832e7431];[0x0;0x6a3b97697acb7;0x8cd7dd70a4823;0xfa3205041a052;0x8f97dc977aca9;0x81d74fc298ac3]]);
 ((V [0x3ab78ca8e05bf;0xede093b495713;0xea06058b0519f;0xdf74b36581c77;0x8c975cb13405] [0x26dfcf91b8bfc;0x19e34efdfec2a;0x3541d65702ec4;0x22c4bf320f1f2;0x4084a42abc19]),[[0x29ac251b0d631;0x669db4b3fee3c;0x6abd693486570;0x4e8300171dd82;0x62e81bd8772b];[0x851a82a6401cf;0x4ba52a9162ad7;0x46ec6104c71df;0x82ea45b446589;0xeb1fd65cae1d];[0x0;0xd65f5762fdbce;0xd19568fadccba;0x601c1f999ad78;0x5ed942808008a;0x19144bda0de6];[0x0;0xd7b1e7da21317;0xebb8af8fcd3bb;0x80c7c9df9bbe1;0x7bcb33c9b5d61;0x54f428b2dd4f];[0x0;0x1ccc30ef93cf0;0xcf89592155799;0xedb394158070f;0x86c70c9f4625d;0x263687c4369c];[0x0;0xefe41238050f4;0xfe079d7f664ed;0x3ec7fb6c02a13;0x4542d37220462;0x67a0d817d166d]]);
 ((V [0xddad6a4481661;0x7e4d6b77f373d;0xed51d7f495e9;0xbdb0539b60bd9;0x9d18cc02e90] [0x7a16f75903b41;0x707f6d5c8ea8c;0xee6a2a3a8c737;0x51dccf2a355e9;0x8a4a27d21b1]),[[0xdf6fcd0f99319;0x768b57300c2b1;0x5ade0412fd238;0xa0e69ff806717;0xc01320adf75a];[0x8e49035420cbb;0x21d0aaef28f9;0xb217ba019cb84;0xaa33f15599777;0xcb17e038c5cc];[0x0;0x6076dcd8d2b2a;0x1feca5562fdce;0x9f867e10f88a1;0xa362732feaec3;0x4d35e6e04b81];[0x0;0x9df64699a8485;0xa08da63749ec3;0x5868f33103fb3;0xd3d2bbdc98abf;0x60d09a69517b];[0x0;0x265ab72fab43e;0x3b13e2a4ff62b;0xc2b8982ed0586;0x9cdcb9e6eabfe;0x901cb272d106];[0x0;0x38976b7a35960;0x9fdf006f1d032;0x643dd624c6a09;0xbe42d5aa73c7e;0xd23634ce23806]]);
 ((V [0x4701de5476c36;0x33f94d7906b2;0xc3647fb86a3a6;0xbc1e8402c4e1c;0x6cc635b4d3b6] [0x519acaa552731;0x9f5676149d275;0x6e8e99222183a;0xc339d101f95d3;0x228fdae6eebc]),[[0xa81212c5e1808;0x20970d5fb29a3;0xaeeb09b7a004b;0xb49821aeb52b9;0xd64f03eff79a];[0x44dfe6b31dee4;0x8879d02bc9be6;0x4e337d73d488b;0x6a2cca74a046b;0xd2cfd80dfe79];[0x0;0x24cdc415da2ab;0xb99004e634d2d;0x58f80953a723e;0xf8e050d72a71f;0x60676ca274];[0x0;0x688997c79deb0;0x9343f2646a679;0x78f3154146764;0xb88f817c53a1c;0xe7895898d7d];[0x0;0x99a844f274bf8;0x82d2ad2cabae7;0xbd3ed33a1d928;0xf827b0c98b8d0;0xb36832f8a020];[0x0;0x4dc51fbe1e192;0x538b98b14630f;0x7f52a6a4881c4;0xce5a78166e045;0xde86832ad2b9e]]);
 ((V [0x7e1598dd17697;0x2030647cdb395;0x377ee0525eb41;0x4155224a36658;0x1b6d7a44b414] [0x6b4bcb34bbf92;0x1c459a2c496c7;0xa6fac50f53d9b;0x9de95b727d9f8;0xb4c480b95e7d]),[[0x99ac4f57c37a7;0x814278cde9911;0x4b3abae72d7eb;0x8a5c574eee9c5;0x461a05685574];[0xa1e26a115d69e;0x97610aaf9757;0xfd48429a4ad08;0xab62ec5e3ea33;0xedff896de480];[0x0;0xbf5d5033e662a;0x6fb91bf101e54;0xe3d26cca66634;0xcc8d08a74842;0x2e37d6c7b19e];[0x0;0x7f1c4dac99580;0x56bae01eb32e5;0xddb077478dc32;0x992861d584ddf;0x12edb2648bf9];[0x0;0x3bca099685942;0xe8d111af2b7bf;0xbf8aa22229c93;0x5532b31f85e4f;0x13323d9a280a];[0x0;0x5ef56efd28791;0x2995c5b3673f9;0x9a3ea7b930400;0xa8c8b1cd5f1a3;0x4be00e3e941a3]]);
 ((V [0x5ed96a9432ee2;0xb044e8045a725;0x53f1a1cd824f7;0x3306cb5a51308;0xfb9d83e28a42] [0x3813bd72fa8de;0x4a9f884e8a6a1;0xdd62e980b2aa2;0x454dfb95746f5;0x10b7ad8e4c60]),[[0xcc89d2acdb00a;0x349d7637f9b60;0x6c75469441c7c;0xbf8bca69642eb;0x22327e37a39c];[0xc307c18561f42;0xe6738d7e26916;0x1253a5c17d026;0x5e4db32d847ee;0x2b808417d487];[0x0;0x777ddc2240889;0x89b679f46cb52;0xda4f762a731ee;0x2d1b0f6f320ea;0x2f0469bd6e3];[0x0;0xa108bcb798222;0xf7e3d65c81e34;0xd577205db8b70;0xa999807028aeb;0x304b813387b7];[0x0;0x1a3e43310f0cc;0xc7b44d21885ca;0x8262aabf79fa5;0x5d41f6d7f4fe4;0x491737c536c];[0x0;0xf05a87ca8f958;0x512bd4cef1772;0xf54e096921f41;0x2dbe64f22c9b8;0x22767c880a7cd]])]
 [[0xa9720725a5f1a;0xbde786c13a73a;0x53e7c50e17f09;0x14a0c8afc9726;0xc0e92c879caa];[0xaf25c49628052;0xc31803dd28f73;0x5d290ced36f58;0x11da60b540e2f;0x9a35d29e750a];[0x0;0x7c924175e649e;0xdd028abdbcb57;0x2461df2c22777;0x73a10df043be;0xf74e418942ed];[0x0;0xae380f558cfa2;0xf9d7f50226c0e;0xfb83b665292b3;0x77b267aff22e4;0x1931f880396f];[0x0;0xac9095f025c04;0x75dd325fb8d0f;0xc8a1afdc7f763;0x323bcc0dbedbb;0x915e972d8199];[0x0;0xa8404b26f0b4b;0x573a55b83c9c8;0x59f54efb663eb;0x6053c1841e4ec;0xd4a4fe4284920]].
Definition wit_A_64_18 : colwit ipt wit := mk_colwit (V [0xed595e0eb0921;0xfcfc0fa67a515;0x606db823a3def;0x8426edf914348;0x8a36ef7c13db] [0xf199ec266cd1d;0xf5e7b420a1516;0xf6ca9edea25f6;0xa4e48ece1e033;0xfa8e40e0fa68])
 [[0xf697a1fa944d4;0xbec5e337d7433;0xae551556430ee;0xd5916976a34c7;0x584acf447bd7];[0xba86e6de3c63a;0xd0c97456fd22c;0x9d35a2d57b9d0;0xb80a1a19ed646;0x6e533b57a12b];[0x0;0x6123a6c0d879a;0xfa668b07a636d;0xc43aaff4c7ee8;0x5c0a8c1b89658;0x1ead28b8a143];[0x0;0xfa10c7ca9a11a;0x93285d912488e;0x3ae91a1a3ce17;0xa8cb70badf5d3;0x5d96655fc2cc];[0x0;0x5cf3086881cb1;0x3cb6bd65a85ea;0x7939627b5be71;0xce34828643db0;0x1e73845b908b];[0x0;0x29ab5800eb41c;0x2d30f4485ffb0;0xa0cd10bbd637c;0x48248dbbf749d;0x5cbdcc6644dc5]]
 [[[0x66b793bb774e1;0x684ca0d2f78d3;0xc72241c7c3642;0x11ca106db5c11;0xf228c46037cb];[0x0;0xa116035bcfcf1;0x8ae80ca0dcf39;0x691884b16ac30;0x147eb58eb4c7e;0x439f4d26f24b;0x1];[0x0;0x60a77490466a1;0xe02a5dba52aae;0x17a5c18fb74a2;0xd6b06de831584;0xe51119c3de30];[0x0;0xca4423e94f85;0x1a8899e63d373;0x5f2839c58872;0x57e30707d753f;0xfd300306b4430]];
 [[0xc118bd6fbd554;0xbaacb68beb5c6;0xb619f0d8cb2fe;0xa88ec8da4223b;0xfb7dcd68b1b6];[0x0;0x239824f9b83bc;0xceaa360f1d020;0x1acf5e5714b0a;0xda025ec8b5b95;0x9fd6a99973e0;0x1];[0x0;0xdf4b91f603bbd;0x673dfc7bc35f6;0x3587f69d7a0c8;0x92580307dbf0f;0xf70fee9d898a];[0x0;0x6589c2993ca5e;0x44d63c50926eb;0x16b9c590edfab;0x6d37af04dbe1b;0x12bcb6c2d8696;0x1]];
 [[0xc93e7510ba07e;0xcc05b0df75f41;0x8cf588bfbf5cf;0x8f1d3ef9b5e95;0x8a68d4322b3e];[0x0;0x70f3d8aac41d0;0x7bae9220fe544;0xda1ada6e60590;0x844506a58d7e8;0x968817f90b9ef];[0x0;0xa8722d97a06a2;0xb26ea67658d49;0x58151efc730a7;0xb694586ece1b0;0x4ad52fb32f45];[0x0;0x2ede7b67caf08;0x8c1cca2a99ae;0x3074d39f9f8fb;0x9be6caf6a1792;0x8ef32a7540feb]];
 [[0x2cbeb87a90103;0x95cd48605e90b;0x460287c9173e9;0x361cb9c6122e8;0x52758d271428];[0x0;0xbda0ff1df633c;0x4f41690bf8acf;0xa302723c8aa1e;0x98da9e7ebd609;0x573b7d730d798];[0x0;0xffd51eab4efdf;0xb27b677d5417b;0x7248428bdf8a1;0x41974eb722dca;0x1a8f84675c76];[0x0;0xadd5a693a1e77;0x9e42cee23d4f6;0xc0ac45d60e673;0xb7ad82b1cd58e;0x5775385102080]];
 [[0xb6488c8bfb814;0x45ae79c6dbd31;0xdfc9c4d05265c;0xe3969328a59a7;0x309badc1cb46];[0x0;0x7118653c7b57;0xe0bb3f86eed80;0xee5cba679947;0x3506ad0b12fcb;0x335499437c5e5];[0x0;0xac5ddfbd3ff83;0x4a53f5a7b4b08;0x97f1e23fb8bab;0x3ca2016b9dd35;0x93abfd48ad6];[0x0;0x3e34dd1db3c22;0x7401252101bf5;0x7f74b67c8dbdf;0xe760260cafe19;0x34f4c46f5d19a]];
 [[0xa95e5ebf06f28;0x441abf8bf612c;0xc6e451bd6e1e1;0x835a941d9f4ca;0x14e6a083adc9];[0x0;0x789b6e7fe5f1f;0xb1d4af1bc6e2c;0xf0a17d5cfce12;0x4374985d1d5a1;0x16a27e749fb7d];[0x0;0x71171c611ff2f;0xbc0f965fe474c;0x9fa646769d97c;0x9f95644e681ec;0x1b4d8d96468];[0x0;0x336e15c95a909;0xf7f03e293881d;0x4828baad03fe1;0xec10511b66c9f;0x153079f8ea249]];
 [[0x7350ae1a56323;0x55e0f44f7eb6b;0x2005295e2fc54;0xc10168b65fd74;0x7af1b59aa80a];[0x0;0x554e889b1e49f;0x8686e9009e20e;0x180cbcb25d882;0x429ab8f2d63d4;0x7f27f0336d3a7];[0x0;0x1bbb9697654db;0x3008ac728d7c9;0xc32f19133eec4;0xb3428c9f4c42f;0x3b0b454ed62e];[0x0;0x300249ae4bb23;0xecce0add5d3e4;0xe318bd8a8e0be;0x2fd31b1fa61d3;0x87a6c0db136ac]];
 [[0x81088fe52d042;0xafd45e720e4;0x1dc9fcdc9292e;0x2b0c6bf1011ba;0xcfcacca7196c];[0x0;0x504fe2b95bc9f;0x54c308fa2a129;0x3375fa0871c37;0xf70cc364d09d2;0xdf668ec951521];[0x0;0xa30e8c04f96e9;0x9c4b1a54d52ca;0x45f090d6002ea;0xc9e8986c5c7a2;0xa8a9979dd66b];[0x0;0xfd7cc1671f06f;0x16ce6769bcfc2;0x7c869c4493617;0xefe1a880b1d8;0xd60a12859fa9d]];
 [[0x9a4ec981e802b;0xa86781dce071;0x4c46aa6157c36;0xa5498941d4c80;0xeba30a7a197c];[0x0;0xc6357168a3d1a;0xf5b34c9762a5e;0xf8be64e071e54;0xe591eb35d49b0;0xf5b1a180df6b2];[0x0;0x309f07a1152c4;0x5dd1029f95382;0xd98d0543e9bb9;0x106987e484450;0xd8e4bd1282b5];[0x0;0x7114bc15a8ef7;0x5e7b5dfb6cf58;0x2f114bb1ff7e6;0x1aca7bbbd9e19;0xffea8466ce0dd]];
 [[0xb8969443f031f;0x581b8d7d59443;0x84c549dc0844;0x4b729a56752ea;0x3346a79120f3];[0x0;0xf6b5ebbd16eae;0x31a8a6778e122;0xc1e0f81dfc1da;0x814226d1d34ee;0x36ac2e5d732e5];[0x0;0x18eeb681a193;0xa352dbd4595e7;0x4ab3aa0fb3939;0xa060b073913d4;0xa453a43e42d];[0x0;0x56fb6bbd0784;0x6241f1efb96f;0x6912be98ff7d7;0x94f131e8a060b;0x36361d9412c0b]];
 [[0xe50916de24b78;0xfc51aeac7e3e6;0x9009fdc4bc8bc;0x17fe2e541701f;0xd89686e90c9];[0x0;0x99ba6958a7090;0xf9b4d13ab8579;0x51c9ada7ad1fc;0xe04eda04a4353;0xe5cc1d068a2e];[0x0;0xce328f2e23058;0x4f086b36e4b8d;0x9def58b6483ec;0x690fa0f41d5f9;0xb73e5c2ba5];[0x0;0x66b50f7596054;0x808a36071ee86;0xb24e82feed512;0x4b6a457ec9b80;0xe25f45fbe7d6]];
 [[0xcaca4b20067e4;0xcef22e31cf095;0xc605b99d49d0;0x77bdb69909f62;0xaf7687ba262e];[0x0;0x602570514aed4;0x76feb7d91f87;0x2a26240c65475;0x69e6c9b752e5a;0xb71fc7311f0a5];[0x0;0x4a7d42879af76;0x8c5dad876ca76;0xfdfce7939a0f;0x962c460b7af20;0x78434471e7c4];[0x0;0x7154ca851e7bc;0xed52b00be3cf8;0x2db2319aa6b90;0xdb4b7f846cd72;0xb9bd5a86c7222]];
 [[0xd5f061b5830cc;0xbc1d9b5a14a1f;0x6d91064d60e26;0x2275f92cee97b;0x4b6869de9c70];[0x0;0x7f57c31d4792c;0x1eed3e3bc2676;0x86b0a90f16d04;0x490112dc5079c;0x4e67663ea11f2];[0x0;0x32648231db204;0xda9a9a7293412;0x99a59bee7d8b9;0x2d34ce342e6fb;0x1636589ea051];[0x0;0xf1870103ac0b5;0x55b17f8cc32f2;0xc532125667e0f;0x8cce9fb75eb14;0x50f361ceef305]];
 [[0xb6e58a63b325;0x2e307ec300fb6;0x9f9af7385bcb0;0x1fab902f0219a;0x2960065a4fa8];[0x0;0x420405db14983;0xdd0505aa75a53;0x88c5f1c8b8bc8;0x58feb27114cc7;0x2b796bf237586];[0x0;0x2d170abd7075;0xe393fd17afa41;0x8ed645dba5ea7;0xf3d4b156b346d;0x6afe60db167];[0x0;0x5b2b54c3b9443;0x4a613e356a42e;0xb5ce65cfdacae;0x4e4efc36d06a5;0x2d20c75d4b82b]];
 [[0x2db842c822f78;0xdf4274a93c1b7;0xc20f7eb061821;0x42cb7f038f3e1;0x6e610a3538a3];[0x0;0x64522c74a55f0;0xd236d18a6f5af;0x913ff159d21f1;0x1e2b52eea1fa7;0x7717b0ab5977b];[0x0;0xebef62ed4b9e1;0xd060869626eb5;0x40aac682c4858;0x6c9cc0b6b351f;0x2f97898e7969];[0x0;0x606dba3ff802a;0x8dade1c03966f;0x12fe84081cd52;0xf8501f2d5bb52;0x7102c5bf1bfe6]]]
 (V [0xed595e0eb0921;0xfcfc0fa67a515;0x606db823a3def;0x8426edf914348;0x8a36ef7c13db] [0xf199ec266cd1d;0xf5e7b420a1516;0xf6ca9edea25f6;0xa4e48ece1e033;0xfa8e40e0fa68]) []
 []
 [].
Definition wit_A_64 : list (colwit ipt wit) := [wit_A_64_0; wit_A_64_1; wit_A_64_2; wit_A_64_3; wit_A_64_4; wit_A_64_5; wit_A_64_6; wit_A_64_7; wit_A_64_8; wit_A_64_9; wit_A_64_10; wit_A_64_11; wit_A_64_12; wit_A_64_13; wit_A_64_14; wit_A_64_15; wit_A_64_16; wit_A_64_17; wit_A_64_18].
