(** The tables lut_cmb of ecp_id_GostR3410_2001_TestParamSet.c as they are written there, for both widths. *)
From Coq Require Import List Uint63.
Import ListNotations.
Local Open Scope uint63_scope.
(** lines 1872-3654; every 64-bit limb is written as its two halves, the low one first *)
Definition lut_Test_64 : list (list (list (list int))) := [
 [[[0xFFFFF36D; 0xFFFFFFFF; 0xFFFFFFFF; 0xFFFFFFFF; 0xFFFFFFFF; 0xFFFFFFFF; 0xFFFFFFFF; 0x7FFFFFFF];
   [0x471125F5; 0x9AF45A5A; 0xF69BF9AE; 0x7CE5090A; 0xE4B6DDE6; 0x67617A63; 0x4AA3DAA4; 0x3F66B35]];
  [[0x149B5D15; 0xB39BDC16; 0x7309454F; 0x87CE978A; 0x315A7A56; 0xD22F32EF; 0xB69A6B57; 0x4C7DE232];
   [0x466DC64D; 0x9E2DAF6D; 0x4B1C8A55; 0x758C27B1; 0xBD647F1A; 0x74A0CB23; 0x2C2F4C70; 0x27E74868]];
  [[0x55A62594; 0xF2D8F32E; 0x36BC547A; 0x8323D570; 0x98D4B25A; 0x497679EB; 0xB87E0534; 0x61167F2];
   [0x223E4DF8; 0xE1FFFDCE; 0xDCD891E9; 0x7C83AE78; 0x3C1B95D0; 0x74398586; 0x74B3F5AB; 0x11D73205]];
  [[0xACB97F7C; 0x34B9C048; 0xE3B9BCC6; 0x8232E73C; 0xDA2DB71D; 0x81F4B63F; 0xA2DF4C84; 0x4EEE5393];
   [0xAC469C69; 0xCA6E63AE; 0x428E4F01; 0x27BC807C; 0x5F4EC124; 0x4A2C23BA; 0xAAE2668B; 0x74847CFC]];
  [[0x6716AF4E; 0x4435585F; 0x1CDB965F; 0xB872D8B7; 0x746FFAD0; 0x662F1962; 0xDB5D0187; 0x52761A24];
   [0xA57E0E3D; 0xF6A09922; 0xA9C12B63; 0x86C69342; 0x5AF190C5; 0x91FF20B6; 0x4EEEE1AE; 0x10DB7A2A]];
  [[0x74628B90; 0xBB464A53; 0x57A4F25; 0x6E7A1227; 0xB0FA41F; 0x4C309D69; 0x77FE7B93; 0x75482607];
   [0xB612421; 0xF2583EC7; 0x5E2B15ED; 0xFF2CFC83; 0x8CABC5CF; 0x1E97A7DB; 0x925C149F; 0x1EC08FAA]];
  [[0xE9FCBA9; 0xBA0170E3; 0x70D9939B; 0x8976DF7C; 0x21AF14DD; 0xEAE6E74B; 0xD0861F9; 0x9F09868];
   [0x21A781FF; 0x4F7FE26E; 0xD73DCEF7; 0x1725B8D0; 0x7E743498; 0x9DA63217; 0x1B828B99; 0xF51D42C]];
  [[0x9AFE09BD; 0xBABB076B; 0x17C4050D; 0x4AC89223; 0xDA3E57E8; 0xCA3EA6E3; 0xA33242C0; 0x20AAA384];
   [0xEF929BF5; 0x6D3A1F2D; 0xE751A62D; 0xB34E2605; 0xB8CF1F99; 0xE1AC629F; 0xF0BBA01A; 0x7152D4E3]];
  [[0x943E5B8E; 0xA97A6CE3; 0x2D053A9D; 0x1C0F6C7F; 0x64457DE4; 0x9D4A91DE; 0xC6140057; 0x1E19EA8F];
   [0x500995C8; 0xD4766CB6; 0xE70CD7EE; 0xA019D41D; 0x7AB0A162; 0xBA1828AA; 0xB7A4E93; 0xCACA063]];
  [[0xA1B3FE03; 0x1E68315C; 0x1AAB6B20; 0x21FB277E; 0x6A90FB22; 0x210305D7; 0x2E51B9BC; 0x4C3D3EEA];
   [0x89C3A2E8; 0xC5662C6D; 0x1712BF9B; 0x66EA4818; 0x2254FBAB; 0x417F8F04; 0xB057EEC1; 0x2F57DF29]];
  [[0x6509AE4F; 0xF6975C9F; 0xDC89C220; 0x58300438; 0x907FF785; 0xE81DA879; 0x910ED2F; 0x68D600E3];
   [0xB43BF686; 0xFBB25113; 0x50A64FAE; 0x8B391E3F; 0x3112B7ED; 0x8C1190D2; 0xCCB4CA50; 0x617BCD41]];
  [[0xDD780ACA; 0x75036E69; 0x6FBCD996; 0xC90A01DE; 0xC851CEF; 0x75E1A8E8; 0xF71BDCC6; 0x7225D38A];
   [0x868B78D2; 0x74AE6935; 0x1CDB5A1E; 0xE70570F3; 0xBEBD2FA4; 0x3E700C48; 0x325D3214; 0x3E483638]];
  [[0xC0E6D8AD; 0x9F272CD5; 0xE09743A2; 0x9E29687C; 0x93CD64B3; 0xBE0E0D59; 0x504B58F0; 0x5D57A75D];
   [0x5D44B092; 0x81A1A6E3; 0x310D7868; 0x38AD0169; 0xCC297B73; 0xC8D3C9A6; 0x908E0814; 0x34D98A19]];
  [[0xE5A57E1F; 0xFFB946AD; 0x191B6C5F; 0xF7EA0AA2; 0x8DF529C1; 0x52D07058; 0x2AFDA727; 0x6B7BDE5];
   [0x90658555; 0x651E6DC9; 0x1FC416CE; 0x8F910D89; 0xCBF086D5; 0xBA4D84E; 0xC4A4B4A; 0x73DA158C]];
  [[0x521DB62C; 0xE22420A6; 0xBC90EB6F; 0x8EBC1A21; 0xE50F6EB4; 0xE1529AAC; 0x8BE235DB; 0x4025BF27];
   [0x9FFE2B82; 0x40607710; 0x696B4634; 0x7A6BB75B; 0x2B2F25D3; 0xCEF27A9; 0xCA0B7112; 0x6C9CFFD7]];
  [[0xEDA5C43B; 0x12B39FF0; 0x54E0FE3F; 0x2E1FC66C; 0x248A9167; 0xFB2DEA80; 0x3B2BB322; 0x11BCDA10];
   [0x16D2C928; 0xFDDF6E84; 0x36E887F4; 0x99DDF6A1; 0x920092D6; 0x1E56D2F3; 0x2D77AE5A; 0x67433BF4]]];
 [[[0x321BFA62; 0x6C204DDC; 0x2F138A80; 0xA96E42B8; 0xE3EC1A7D; 0x4C98E986; 0x136CADC4; 0x223C8BC4];
   [0xBA3CE54A; 0xFA9F15D3; 0x19963D88; 0xA103B9D7; 0x2F811A21; 0x1ED23354; 0x65A4E833; 0x64D6B14C]];
  [[0xCFBD1039; 0x2485175C; 0x7C92D8EC; 0xC4DAE65B; 0x1859FD47; 0x6FC70F54; 0x33E8305C; 0x6D543444];
   [0x944DDA07; 0x1A65FEC2; 0xEF375B21; 0x7BCF8391; 0xBE4CD8D6; 0xDDCFC356; 0x13850042; 0x4BF93B9E]];
  [[0x88B7F950; 0xBDF7A56C; 0x81B8590E; 0x3A60E5FC; 0x6F6E6807; 0x475B94D1; 0x2F0D49A8; 0x2F1B9F06];
   [0x2E6A01D3; 0x3C36DCF3; 0x30444003; 0x807E1D5B; 0xFECF5768; 0xE3768486; 0xEF12B5CC; 0x73C4D0CF]];
  [[0xF4C6FF93; 0x9D76477C; 0xC5A1A495; 0x3F16687; 0xB41748B2; 0x5071DA3D; 0x971D6A7D; 0xF3A3784];
   [0x2785A782; 0xB9A5AD6; 0x9FF09F9; 0x957E72A0; 0xAE3CF5F4; 0x3072C1DC; 0xCD9CFD7E; 0x63D463AC]];
  [[0xC77B516C; 0xDA0DEE0B; 0xE6AA0E1F; 0x446D7199; 0xBFFA705C; 0xCC0D1590; 0xC35B59BA; 0x6A6FC81C];
   [0x593E3EB9; 0x39DF210E; 0xD0DCC01F; 0x17F331CE; 0xBD176C5B; 0x2E0E5EB; 0x8A2D6290; 0x68946CCC]];
  [[0x9ECFEF2; 0x8D1400D6; 0xE1E76A98; 0x57D5F91B; 0xA12DFF8D; 0x5CF76130; 0x61002939; 0x5C361922];
   [0xFB0FE974; 0x8D45C8C1; 0xF942ED70; 0xC97725E; 0x73C5AA42; 0xB1C66498; 0x7E203187; 0x4A121FC4]];
  [[0xFCEDA76C; 0x58430EE3; 0xF5C88D62; 0x3496699A; 0x14273E7E; 0x1C3FC811; 0x1D6D67DA; 0x3E38E9FC];
   [0xAB685B3B; 0xBB683EA4; 0xB0904BB3; 0xB63F72B1; 0x47A75297; 0x5DFA23C5; 0x38B59560; 0x9E80AA0]];
  [[0x7F4D22FC; 0x7D8325C6; 0x8C2FA282; 0xBFFB01B1; 0x4A89BE98; 0x1A037DC; 0x84EA8C8A; 0x92F6525];
   [0xC52FD518; 0x873D33DA; 0x44AFDD41; 0xA245B15; 0x98FA7FF5; 0x78993737; 0x21D29087; 0x1BB48AD2]];
  [[0x1A59313C; 0xC97A99; 0x5CF9A6FF; 0xBD4F29EE; 0xD839B62B; 0xEA59D87A; 0x97CAB63C; 0x16F18F48];
   [0x6F6C292F; 0xB339789A; 0xD005ABB2; 0xEC52E644; 0xAE24DA46; 0xEEAC93C9; 0xE5C43B4F; 0xECB9957]];
  [[0x20561AF7; 0xD91B2202; 0x55F2CFB8; 0xECA260DD; 0x17B91CCF; 0xF03A8C1D; 0x64B35D9A; 0x55A0491F];
   [0x1A2F8F39; 0xA97E5CC; 0x23B1D80B; 0x2C187D1; 0xDB9FBA1A; 0xA9C13D26; 0xF8051F0D; 0x7CCDDBAC]];
  [[0xED0E9DB8; 0x5CA8EA5; 0x53A8EA3F; 0xE888079F; 0x9209BFA2; 0x6DDBC40D; 0x80DCEAEA; 0x68E5BA9];
   [0xB19D824B; 0xDB69D133; 0xE6A3A462; 0x65154FB6; 0x20B2AC7; 0x9FCF733D; 0xE1329315; 0x15178DDE]];
  [[0x877EE476; 0x76F78865; 0x12B471BA; 0x5824EACC; 0xBBB640A8; 0x71BDFADF; 0x9A631D09; 0x5181B08F];
   [0xFFE978E8; 0x2913CCA5; 0xAEB89AA6; 0x9CEF3612; 0xE02AD6DC; 0x93BB373E; 0x4144769; 0x5D7984F0]];
  [[0x4F98D2C3; 0x3219DB07; 0xBD40ACCC; 0xE3EF888F; 0x31124C73; 0x7A30E3A; 0xB070C53F; 0x5D9C820B];
   [0xDA0661AB; 0x94D41768; 0x21FF87EB; 0x27FC2661; 0xFF17A977; 0xB8DCBC7F; 0x392EB13D; 0x71F75FF9]];
  [[0x9AD71AB0; 0xC5CED56C; 0x39D6C9F1; 0xE744EAB0; 0x839BD904; 0x6E49B00B; 0xD7003054; 0xC0EDE2C];
   [0x1A6A1BB7; 0x792C3F80; 0x4B2C7885; 0x6E5093B1; 0x13EA65F7; 0x28873209; 0xF381C851; 0x85A2697]];
  [[0xDA60A255; 0x84FC6B9D; 0x4B495BC6; 0x12397EED; 0x71A5AA87; 0x4881DF6B; 0x9572CFE2; 0x57BB3259];
   [0x3A10A65F; 0x30677759; 0xDB1758DD; 0x670B82EC; 0xD57B513E; 0xD84F3E8F; 0x89088E78; 0x617A512A]];
  [[0xAE3D7707; 0x83971322; 0x6D34D0B4; 0x66563CDE; 0xC13309ED; 0x95342D9B; 0x82A5887; 0x62C2B1B6];
   [0xC3C27158; 0xD94A8712; 0xA844BF60; 0xDE2C9C9D; 0xCE3E4F3C; 0xDE897386; 0x6ACEBDF1; 0x2C22A82E]]];
 [[[0x604E200; 0x2755028A; 0x44189101; 0xADE23A7D; 0xF0B7F9B7; 0xA6E418F4; 0x212EDC2A; 0x36F5503];
   [0x3F5E0456; 0xE069D06A; 0xF37F2D8; 0x2FAFF7C8; 0x7F5EDE53; 0xFF08E879; 0x797E0427; 0x7F97725D]];
  [[0xB32E5B1B; 0xE44E39C1; 0xAD3EC706; 0x25CD4614; 0xE382C5D2; 0x2E97B090; 0xB00D79F2; 0x3E1A1F6B];
   [0xC2375837; 0x27573C4E; 0x6C8D5CCD; 0xAD53D2C8; 0xFC09725A; 0x94EE5460; 0x2DD0DF4; 0x6E592506]];
  [[0x3D0C7AC4; 0x6CFFA4BF; 0x69ED4317; 0x663B1218; 0xC79AD5C1; 0x933094F6; 0xFFC54767; 0x569F37ED];
   [0x1F338782; 0x954EEE0C; 0xA46CA276; 0x5BE69673; 0x20CB26DC; 0x77BA0009; 0x29316AE; 0x2211CAC3]];
  [[0x184EBD7C; 0xC8DEF3CB; 0x6A4DB0A0; 0x39337050; 0xBE1D82C; 0x6FF7993A; 0xFC9252C0; 0x1D7674A];
   [0xF62D9268; 0xB10BA727; 0x817B687B; 0x6E2338D8; 0xE47405F1; 0x266443F2; 0x6872B879; 0x6A1BD9CE]];
  [[0x2B2BD346; 0x19213765; 0xE2ACFB8E; 0x962CA22C; 0x62FECDE1; 0x518CF45D; 0xA13D9E8D; 0x529AE629];
   [0xBB69D5E3; 0xAF796DB0; 0xD4E596B7; 0xA064209D; 0x47942C73; 0x9F3DFD4A; 0x7810D5EC; 0x7FAB6C6D]];
  [[0x66A3B287; 0x55D15250; 0xEEFDDC75; 0x1ECC6A20; 0x26DE8C01; 0xF683FA60; 0x9FBA658C; 0x4F5DE2A6];
   [0xC66D82F4; 0xE748D78A; 0x3B24C76B; 0x2BA525EF; 0x30EE69CE; 0x5A9539E6; 0xB7861B2D; 0x2DA4C4C2]];
  [[0x820743E6; 0x9D1E982D; 0xAB0CC42D; 0x705D9237; 0x47C4E7D7; 0xBDD01663; 0xF8E69896; 0x3D48EE78];
   [0x41132782; 0x7A822BCD; 0xEE46F715; 0xBD41BEFA; 0xD0B2F4B0; 0x8E5C3B5F; 0x5E47ED55; 0x690A53D4]];
  [[0x65A40E44; 0x390536C1; 0x1C92235C; 0x4B4D7970; 0x8B7389E4; 0xCAC27084; 0x19041D01; 0x7B5B23B2];
   [0x3B5FD5BA; 0x7C18B973; 0x84B72217; 0xFD14865D; 0x267EDE4C; 0x5592547E; 0x8B369753; 0x22DB62E5]];
  [[0xDDF15BDD; 0x6083D33; 0x361925F5; 0x5766555F; 0xB7ACDEA7; 0xECC0F110; 0xA3453B5; 0x3E3F1B27];
   [0x6F7B980D; 0x5A8B7DF9; 0xB44756AC; 0xEBA90E39; 0xAC9A7DB2; 0x954D7ECD; 0x28EA7151; 0x43F688D3]];
  [[0x4638EFAE; 0x51F64569; 0x3D28BF3C; 0x5840A5DB; 0x134D3E8F; 0xDD486261; 0x7B6B466B; 0x9F17E2C];
   [0x78ED7016; 0x30D35463; 0xB86D8508; 0x342E9701; 0x42B19533; 0xA3FF6565; 0x61A4A81; 0x4405F02C]];
  [[0x3D3AAF1E; 0x15C921C0; 0x7D297559; 0x2DD720C7; 0xCB80E3B2; 0x93A07904; 0x6B1EDB93; 0x427C610B];
   [0xF61E2F41; 0xD2CE818F; 0x8252FB3C; 0x1DA53421; 0xED07538F; 0x37A4A997; 0x962454F2; 0x48A928BF]];
  [[0x7A420273; 0x65091E4D; 0xE54C0B47; 0x6AF382AF; 0x8047A423; 0x150DAB08; 0x45BD197C; 0x22C3740A];
   [0xE07C3468; 0x64429AA0; 0x7B37FE10; 0xC506B8C9; 0x3CC5062C; 0x30E2FE78; 0xA9242F2D; 0x2F3B5A5F]];
  [[0x5A40BCA1; 0x2619A3B2; 0x118C2FEA; 0xD012DF23; 0xB73FE15C; 0x2868C8B7; 0xEB10B475; 0x45A9CC5A];
   [0x69050AD; 0x7111AB75; 0xEC2398A9; 0x665182B; 0x9B86A240; 0xD9A5126E; 0x40E2AED6; 0x601CF0E0]];
  [[0xF48C8655; 0xE74C9DCD; 0x900E89D5; 0xEE703CA8; 0x5390F052; 0x6C2DFF8B; 0x1316CC4C; 0x8588E89];
   [0x47E80C87; 0xF2CC83A; 0xD87824E4; 0x23DE34CF; 0x541FE8F9; 0xC530AF41; 0xD142F1C0; 0xBF01DC0]];
  [[0x886C0C4A; 0x210B0B1E; 0x9C56A126; 0x66369DF1; 0xEAC22A5E; 0x5D79AE81; 0xD16F7DB6; 0x4E6C67D4];
   [0x247CDE60; 0x274572F6; 0x54E8454B; 0xF3C92AC7; 0xF08C32D1; 0x784EC1A1; 0xE1FE9C4E; 0x222716D8]];
  [[0x3FB1DB1E; 0xAF6AEF5D; 0xC4C2A4D8; 0xB8B55842; 0xCA5AB578; 0x258A2F44; 0x7D8B2D70; 0x558A803F];
   [0x7E0247A3; 0x9A7345C3; 0xB4D920B1; 0x4E5A6904; 0x76BCBBE1; 0xCF7FAA41; 0xEE112271; 0x66CF993F]]];
 [[[0x84D2C56B; 0xDE7D208F; 0xDDA20F33; 0xD1C77403; 0x9A6F337A; 0xB73FDC09; 0x40CD2CBD; 0x1B2A3807];
   [0x65988D73; 0xB642FA2C; 0x59DAB8E; 0x117E75BC; 0xD6B279AA; 0xC7E2E935; 0xEEA2A445; 0x5EEB9654]];
  [[0xA59D7A2A; 0xA84747C0; 0x1004C5B8; 0x4478AD4A; 0xA22DE791; 0xF55C2B1B; 0x23F8F89F; 0x2FF6097D];
   [0xE117BC40; 0xD079C875; 0x3CB43DD; 0x14AEA360; 0xA20D653; 0x8C730D89; 0x2FD02D8; 0x6956274A]];
  [[0xD46293CF; 0x9F5D0E9D; 0xF0D93AB7; 0x53748DD4; 0xB9C37CF0; 0x6F81339F; 0xF4B041FC; 0xB8677A];
   [0xB5A6FE97; 0xF76E0FFE; 0xF7D198A2; 0x6D3C71F5; 0x11420372; 0xF91E8408; 0x70036AED; 0x36F9F354]];
  [[0x5D446956; 0x503AF4F2; 0x2DC9777C; 0xCA08C537; 0xE1308D3A; 0xDB4BA888; 0x1DB98CB; 0x1EA28EA];
   [0xA7DF5FE0; 0x27CC52A9; 0x7DE31E0A; 0x7DA5186B; 0xF136FAD5; 0x63E32889; 0xA363AF23; 0x1BB010A8]];
  [[0xC0FE56C9; 0x65828B54; 0x4ED3935A; 0x7322CD51; 0x37B4A727; 0x42F068F4; 0xB4C02BE4; 0x7AA9F9F0];
   [0xDEBB2DD4; 0xBB77851A; 0xD105B81F; 0x7757D5F6; 0x52FA1512; 0x7805369C; 0x38B6976A; 0x4CBC43AE]];
  [[0x4096725B; 0x24FE8ABD; 0x3895D1E2; 0xC3FAC73A; 0x6A2360; 0xBCAF7757; 0xC03EBB33; 0x75AE96AD];
   [0xBD1FB6F; 0x31074478; 0xEA386CBE; 0x729E8E6A; 0x4845AAEC; 0xA8BBCC0B; 0xE6582656; 0x1A0A2D19]];
  [[0x69BD55F7; 0x332BC9BD; 0xEFB6F780; 0x93D987E2; 0x14381F4D; 0xE57DE096; 0xFF01C4D9; 0x7BDF4217];
   [0x1956BF02; 0x2A07C4AB; 0x553823D9; 0x7C7B3684; 0xD40F600C; 0x8F750E8E; 0x9693A3C3; 0x63F253E9]];
  [[0xC62CE42B; 0x250ED8BF; 0xE70674E1; 0xE8A1A295; 0x163A92F1; 0x5ED093D; 0x628969A0; 0x515FF44B];
   [0x41CE3AF8; 0xF617DF03; 0xF9E60202; 0xCADE131A; 0x363B87E9; 0xFE83C379; 0x493EF65F; 0x7196A80B]];
  [[0xD7A2047B; 0x4B176FE6; 0x41DCA514; 0x6981D182; 0xDC74AC2E; 0xDDC7EE8E; 0x85CC07D1; 0x3A95A203];
   [0x841E3200; 0x8D4BA2D8; 0x5F654197; 0x837DDD9B; 0xFBFE4D06; 0x388D358E; 0x61143A85; 0x562DE2F2]];
  [[0xCFACB903; 0x3BA1F6E5; 0xBD97A3A2; 0xB5BBA41F; 0xCFCF2547; 0xB86F117F; 0x3D9A13DB; 0x50642859];
   [0x7B5F2A8F; 0xC15C82AE; 0xEF89351E; 0x47E772DD; 0xCAAC4CC7; 0x78C53901; 0x68D72131; 0x6B0F5D30]];
  [[0xA0B407E6; 0x47E17734; 0x34949A81; 0x29E06830; 0xCB1AC772; 0x63D83340; 0xEB84F909; 0x178A6DD6];
   [0x3C27D7BA; 0xA9E94826; 0xDB027A4C; 0xC86AF96D; 0x56D5DF86; 0xE7D04E34; 0x2E8D0EE3; 0x7212EAC2]];
  [[0x8A75F66B; 0xE7E5AA64; 0x8CFD9597; 0x7E86B6AA; 0x834C0271; 0x1B7DDE0C; 0xD4AD306F; 0x397EAF2A];
   [0x1657E32B; 0xA357906; 0x4957B3AF; 0xAAEB2DCF; 0x69D3CEE9; 0x1C0CBD02; 0x5A6E7D53; 0x7434EC32]];
  [[0x85559E86; 0xEB5878F7; 0x4A09C168; 0xB9555F70; 0x80501134; 0xBFFAC5DB; 0x5B53160; 0x4CDBF53A];
   [0x5F90344B; 0x1413BA29; 0xD0DD0CFD; 0xC6A9D1ED; 0xA0C31B73; 0x8C56AA29; 0xF4E58E08; 0x1C9B0B61]];
  [[0xE2F595A; 0xBF8D2237; 0xCBA13CD8; 0x7A646816; 0x5CD728B6; 0xBD2E93A1; 0x7CF9009; 0x30FDF85C];
   [0x6122B98; 0x3496D949; 0x5A80B3AF; 0xE63EC741; 0x82838A44; 0xA2A39CF7; 0xC015E1D4; 0x4A064F99]];
  [[0x456CB242; 0x9CCDF95B; 0x6F4517DC; 0xDA1CB24E; 0x931A1115; 0x60450E0F; 0xB5680A8D; 0x6780D774];
   [0x1FDA4243; 0xAFE48DCD; 0xAE9733C7; 0x6BDD541C; 0xD79D1D52; 0xCBBCC69C; 0x1A513B3E; 0x334F4F67]];
  [[0xDF49E1A0; 0xCE7712C4; 0xE0B96135; 0xB5444862; 0xF050D010; 0x10564C4B; 0xFEBEFCC8; 0x531AEC8];
   [0x70DF6D29; 0xD45B4BE7; 0x6829054E; 0x1ACC2D70; 0x54E56E05; 0x9744CDE1; 0x6EE02696; 0x3C5DE93E]]];
 [[[0x3951B674; 0xF43A2B99; 0x5E72FC98; 0xE82789E8; 0x86992601; 0x2AD48436; 0x1A2B65A; 0x3FDEB172];
   [0x3666322B; 0x926B4839; 0x44B3FDB7; 0x68847D5C; 0xF2F5E247; 0xD06C450D; 0xBBA7C892; 0xCEC0646]];
  [[0x61F9C9DA; 0x76446D26; 0xAC60376F; 0xEF2C7B98; 0x2410C057; 0xEEA8CABE; 0x3672A2B6; 0x4C2CE2A7];
   [0x12879BA5; 0x3F770945; 0xAD913022; 0x719D5BD0; 0x36D445A4; 0x28A82DD9; 0x965965AA; 0x26382C23]];
  [[0xB8AA8419; 0x66709D92; 0xAB5C241; 0xFAEFF2E4; 0x1DD46DEB; 0xABB7C5DD; 0x39DB6CB5; 0x7DD03C33];
   [0x9E160F01; 0x76CDD1EA; 0x81C5CA37; 0x598D56; 0x241772EC; 0x16D23B04; 0x52A6B807; 0x5132B028]];
  [[0xCC041445; 0x6D48D4B5; 0x1528DF63; 0xB1CD923; 0x4A815F60; 0x82EE4DC6; 0x451E242; 0x29DA6059];
   [0x17A8A6D0; 0xCD90BFB0; 0x52A7FC3D; 0x8BCF4392; 0x1974860C; 0x49AD55F2; 0x5EDCB1D2; 0x20BBF010]];
  [[0xA8F6C08C; 0xB4F0EA84; 0xD50164F3; 0x4341BEA7; 0x6320C0F; 0xE5389019; 0x8BA6F033; 0x69D4851A];
   [0x77902045; 0x1CE58660; 0xBD8579B3; 0xF3B88D85; 0x4FB0A17B; 0xF84FF63A; 0xDE6581BF; 0x9EE62EE]];
  [[0x7C0516DE; 0x8B8C15B5; 0xA530B89F; 0x3B448FC3; 0x500B0251; 0xE385BBE5; 0xED70804B; 0x5F643F85];
   [0x239E85A5; 0x550D9B7D; 0x8666E41F; 0xDC910B5B; 0x7D4E390F; 0x65522181; 0x3162FE10; 0x5DD2D3E8]];
  [[0xDF024A25; 0x59609390; 0x8CCBA91; 0xE66A77E9; 0x65E24DB6; 0xC5CEA91A; 0x3DCEA0A7; 0x888DFB5];
   [0x92FA0754; 0x8C8E58CC; 0xF7DC9538; 0x99C259AB; 0x9BEFE750; 0x3A06D8ED; 0xFAACDC97; 0x71AF22E1]];
  [[0x250AC059; 0xCC41D094; 0x3BE3DA01; 0xCD792A73; 0xCC61EFE1; 0x2DA07802; 0x57053A5D; 0x293AFB08];
   [0x2FD8A8A0; 0x3E7E4884; 0xB9B48D3; 0x183FA500; 0x431AACF6; 0x9CAC07BE; 0x2DF89F10; 0x4F82D799]];
  [[0xA84935C; 0xFD9F61A8; 0xBB5A7E56; 0x78B948D0; 0xACCEEB3; 0xDA478766; 0x53C3851D; 0x47BDAE44];
   [0xCFE8D0D; 0x5AE2C60C; 0x1D8A79C9; 0xAC8F79B3; 0xA79CA31; 0xA958C15E; 0xF0952018; 0x1C46E20E]];
  [[0xF04AC529; 0xAE552ECE; 0xE2BFEFBC; 0xB295B601; 0x54733412; 0xECC1EE55; 0x12282094; 0x28BCBA53];
   [0x50B25069; 0x306C0781; 0xE9A18FFE; 0x10D5D23C; 0x1BD5489F; 0xC34FC5C7; 0xE191867D; 0x2B610028]];
  [[0x3E17E84D; 0x458A1CC1; 0x5D7CFB98; 0x6EAE343D; 0x101F0B7E; 0xC6E0FDAA; 0x2A023288; 0xB9F7C2C];
   [0x6F3FCAA0; 0xBEA893A8; 0x452B07C0; 0x7D711B2B; 0x98E2C88D; 0x28958737; 0xDFD99A2A; 0x553A0180]];
  [[0xDBA5986; 0x8D617BE8; 0x13D18594; 0xDB763C14; 0xD2DAD82F; 0x822CB0DA; 0x93239947; 0x37ACD99F];
   [0xCDC08BE6; 0x6A2A7070; 0xCF6D63FF; 0x86B3B66A; 0xF7D4A67; 0x5BEFF3FB; 0xEBC94AE5; 0x5C25557]];
  [[0x89183418; 0x5D1DC087; 0x6EA5A960; 0xA25C7AE2; 0xD31F3AAE; 0x74698B9; 0x221788A4; 0x5A5B510B];
   [0x1DCE95FE; 0x896A8787; 0x7F24020C; 0x89E7B93D; 0x865B4334; 0xFC19BF42; 0x5B78B06D; 0x389FBF7]];
  [[0xBB3A3E2; 0x73B6DA7B; 0x44D56755; 0xDBC12670; 0x7CC1C589; 0x7AF2DE28; 0x697CB6B7; 0x7E248FCB];
   [0xC64202C0; 0x9410EC06; 0x75EB3A8C; 0x79C82158; 0xE95C5EA9; 0x74FDD2F6; 0x1CCA72C7; 0x2A40B5B5]];
  [[0x5C29E320; 0x56984223; 0xE871D9E2; 0x8266392A; 0x7B391763; 0x9D86C6C7; 0x2543C9E; 0x5E9E61E2];
   [0xD2501D1A; 0xD62A9334; 0x9211135D; 0x9D19F54D; 0x8FE81272; 0x66D0B961; 0xD09C2033; 0x6E64635A]];
  [[0x6F84E11; 0x93BD0AD8; 0x131AFDBF; 0x45F18F2B; 0x6058EB37; 0x881F053F; 0x948AD0D5; 0x36B8D656];
   [0xE1934E38; 0x53DC2E02; 0xC0435B6C; 0xA8AD5055; 0x4BD7154F; 0xDF7BD11; 0x73BC98FC; 0x6350B05E]]];
 [[[0x4BF927A; 0x12AC5496; 0xE749323E; 0x9BB322DB; 0xF6D99AD6; 0xC10C666D; 0x4C883E0A; 0xFDF8FB3];
   [0x665272E8; 0x10667F92; 0x5BF8702F; 0xA30D4CE1; 0xA2D6033D; 0x56314B47; 0xDAC1A10E; 0x9EC90D9]];
  [[0xC9EB81D1; 0x364F06DD; 0x4DC5CB76; 0xFD181A56; 0xE264567C; 0x91CF010C; 0xA05C02FC; 0x71D9A95B];
   [0x53967407; 0xAB5AFBA6; 0x9B0AA089; 0x3FC77913; 0xAF29EF02; 0xDF1D4912; 0x5796A0A5; 0x1C3D61C]];
  [[0xB376E8DE; 0x11503A1C; 0xB8B98321; 0x5CB17D6D; 0xBD8FE9C2; 0x96C9D585; 0xD117171D; 0x48C8DA7];
   [0xB582282A; 0xDF7FABB8; 0x24FD6BB7; 0x75C2A937; 0x633701; 0xDF0DBD32; 0x39B3E72; 0x4FB7AEC]];
  [[0xE20C09A; 0xE60CCE96; 0x116E1C38; 0xAD295B31; 0xC04477D0; 0xCA6B625D; 0xFFA32E36; 0x32FE03B];
   [0xE2AAABC6; 0x46334FEE; 0xDA1C6871; 0x9808B03C; 0xF934A482; 0x76D0E3AA; 0xF9CB8F97; 0x2B0BF54A]];
  [[0x2CA29D02; 0xB5D52717; 0xDBEACF03; 0xF9DAEAFB; 0x113A3811; 0x3786E64B; 0x5C30569D; 0x6A01A1A5];
   [0xBA1C28B6; 0xA91E160; 0x929D3F05; 0x5BFA32BA; 0x40C51084; 0x1108F875; 0x42FD5AE1; 0x37FD2383]];
  [[0x2A79BFB8; 0xABF14EDE; 0xAA34300C; 0x8B34155; 0x64077041; 0x85C0DFA0; 0xF542D447; 0x3AE5D28D];
   [0xB74DC4FB; 0xC303A0FE; 0x556E0B87; 0xB75292FA; 0x51BDC64C; 0x785628B0; 0x13C579F6; 0x43FE786E]];
  [[0x5F08790F; 0xBC5898CB; 0x125644EC; 0xA298A59A; 0xB048217A; 0xD2D9627B; 0x7B1F23F7; 0x6DCEEF32];
   [0xFA7B9C6A; 0x7F02FC44; 0x73597BF7; 0x90C64960; 0x2CB0B3A2; 0x5DD7E4F4; 0x43E83553; 0x5EC5F92C]];
  [[0x59E2C8E9; 0xC06B4D49; 0x1DF8AD8B; 0x7DBC8218; 0xDAE8B6D7; 0x35570120; 0xCDE2691; 0x4222A1BA];
   [0xC1693046; 0xD2F1EFA6; 0x7D36D9CD; 0x2707228D; 0x62D499C; 0xD668EE25; 0xCE2621A0; 0x7AC81BDF]];
  [[0x16F6A215; 0x3A9F04BB; 0x89E5494E; 0x739BB2BC; 0xD1CEB043; 0xCB8DBAE8; 0x9A6B465; 0x6B177DF0];
   [0x1A529744; 0xB7C4980E; 0xE9012B5; 0x3941B997; 0x4C6D677; 0xDF317B95; 0x829F51D6; 0x17898D81]];
  [[0xA12282BA; 0x3D48FD66; 0x899E5A1A; 0xB775465B; 0x55D95C35; 0xDE0CCB99; 0x950AB9DF; 0x4CB3CCDD];
   [0x175C4CAE; 0xB4ABA02; 0xCF86187C; 0x2DA7C698; 0x9A9BF6CA; 0x3A4453DF; 0x8BB9F543; 0x53C86F9C]];
  [[0x5B7DB133; 0x806B815E; 0x118FA7C1; 0x2451D6AC; 0xFB0BEFC3; 0x32C148B6; 0xE433031E; 0x2E6ECEF6];
   [0x54B2EE29; 0x2B78F317; 0x5A73BF01; 0xBC321BF9; 0xF8F7F981; 0xDF6F7840; 0x22280C40; 0x751A917A]];
  [[0x4F9161C8; 0x73EFA631; 0x21145C52; 0xB61C5E68; 0x6A04DC52; 0x60947773; 0x2C2073B2; 0x758E38FF];
   [0x3A54541; 0xDC6FEA73; 0xB6E65787; 0x5E77682C; 0x37370FD0; 0xAFEF6C1C; 0xD5AC255A; 0x33DEEF00]];
  [[0x61D35CC; 0x1AD81101; 0x8A77D246; 0xD55EED7D; 0x926E64C3; 0x8D59DC22; 0xAFC6FFA6; 0x76C9D6CE];
   [0x3F4FCC0F; 0x945A89B5; 0x9087F46A; 0x65EB52CF; 0xAE9F09DE; 0xC3380377; 0x43DFD5FB; 0x59067EDD]];
  [[0xCF841445; 0xCBB7BC66; 0xA3BE7C94; 0x9ED681D3; 0x396C6DD5; 0xF5CF59BE; 0xFA763634; 0x2598A5DC];
   [0x85CF4FDE; 0xAD2B445A; 0xA0D92F4C; 0xC8CE3F42; 0xF01CD0F5; 0x78356D5B; 0x5D50C9D7; 0x26E44A45]];
  [[0x4EDF35A5; 0x22EB53E3; 0xAF1A8A60; 0xA0C6CDEF; 0xD07C1EBD; 0x1D31BA2C; 0xD2C2ADE1; 0x513511A0];
   [0xC4449889; 0xBD3772D4; 0xD3F49C61; 0xAF5EF819; 0x40047745; 0xAAF21599; 0xA54B8080; 0x2128938C]];
  [[0x73ADBEC8; 0x9761A94A; 0x1FB2F257; 0x4710BBF0; 0xB3920007; 0xFE52603E; 0x7DE06F13; 0x66393750];
   [0x965AC706; 0x35F4E633; 0x33F953E5; 0xF49DC418; 0x31CFE467; 0x1562AD51; 0x8ADB1F7A; 0x35FB54D]]];
 [[[0xFD73062E; 0xF632081F; 0xCB740B59; 0xB2740C19; 0x8751E315; 0x2DFD957F; 0xC21039C2; 0x5722E015];
   [0xA4E56D39; 0x44781BFC; 0xDA2FBE63; 0x894BD2F7; 0x5DE22DE0; 0x9E81007B; 0xC68788FC; 0xCED0859]];
  [[0x8DDA6292; 0x97DD8CF1; 0x27FCF7F1; 0x3E9191F7; 0xDAA6AD44; 0x7885E32; 0xBE9F7E62; 0x624CE66E];
   [0x1893A3D9; 0x483DA42; 0x8F2A105F; 0x1041B7EA; 0x429A24B9; 0x5B706F99; 0x167C12E1; 0x30BFBCEE]];
  [[0xC38251D8; 0xEB2C7218; 0x22B6411; 0x5FE5D8F6; 0x93DCCB63; 0xF62200C1; 0xCFF221E6; 0x2CF0F8F1];
   [0x9217EE42; 0xDCF1BCD6; 0x9DB2580B; 0x1904879C; 0xF6510164; 0x2DDB7E5D; 0x8A0EAC6B; 0x7BB29985]];
  [[0xFCF8397; 0x98313C0E; 0x42C8EEF1; 0xB594D0B7; 0x97E842F7; 0xBD31FC34; 0x8F3ADB9B; 0x49476B9D];
   [0x50B45445; 0xD1B5FD37; 0xD583A89F; 0x526C51CA; 0x6782C060; 0x5D461F09; 0x27274A60; 0x414023EC]];
  [[0xEAE4285A; 0x7C809B26; 0xA066043; 0x939814BF; 0x6C640E3D; 0x9CBAC0BB; 0x30EB1B86; 0x647E22E1];
   [0x3C7DFA0D; 0x21E2A42D; 0xE2CD0CCE; 0xFF8CC304; 0x3496964C; 0x3DC8C920; 0x2B4DF7C2; 0x5D91FE78]];
  [[0x96D84346; 0xD5BBBD6E; 0xF91FFA8C; 0x8363527B; 0x7F408588; 0x931D0FDA; 0xB0B19D0F; 0x2C51F17B];
   [0xFF61C86D; 0x7A693804; 0xB3FFD529; 0xBAB4AC45; 0x4C171C84; 0xEDEA275F; 0xD59B94D9; 0x520925C]];
  [[0xE8718BB4; 0xB6A620AA; 0x88D37A61; 0x67851F0F; 0x9984A787; 0xCBEE8DBC; 0xAE834635; 0x7190B766];
   [0xC9AC1A8E; 0x3A1D7DB4; 0x7B97BCB7; 0x6EEBD5AD; 0x9D0AB769; 0x60978625; 0x7C7F02DD; 0x5AD56C0C]];
  [[0x2DB3B6F2; 0x2C0003DE; 0xEFCF1DD8; 0x3BE1CE3F; 0x379E6B8A; 0xE2F79872; 0xB898094; 0x3F9640D8];
   [0x15B29D41; 0x11EBD937; 0x3EF17D8C; 0xD6A076B9; 0xB38ED3BA; 0xA2C0016; 0xCCB161CC; 0x64329A02]];
  [[0xB1ED1DEA; 0xD135032D; 0x42F734A0; 0x43F76848; 0x3C18D8C5; 0x1F6C12BD; 0xC0A304E8; 0x7D7757B7];
   [0xDE3B6B9F; 0x3F0C2867; 0xB7201E4F; 0x72F98EBB; 0x940E748D; 0xCC408000; 0xAD74B322; 0x34FE6D8F]];
  [[0xE6D884FE; 0xA12A9359; 0xDE063103; 0xB080A081; 0x97ABB854; 0x672DE27D; 0xEE6F3485; 0x712B0883];
   [0x2044A2A2; 0xF430BF2D; 0x7D12027A; 0x66561020; 0x2C539C3B; 0x5ED63AD2; 0xFE5EE1D1; 0x7982AAD0]];
  [[0x3BE94D26; 0x873DC8F6; 0x4B41BD76; 0x90923639; 0xCBE4B5C; 0xE439A496; 0x11782BF1; 0x424F8D24];
   [0x49686ED9; 0x6612BD99; 0xFB04E27E; 0x78157AA9; 0x805F809C; 0x844E1616; 0x62CB8BCD; 0x717AEB32]];
  [[0x5248CF6A; 0xE98C1A0E; 0xB0E4ADF8; 0xC84294A8; 0xA7769275; 0xD35748A4; 0x3363C82; 0x2C3867E1];
   [0x8F43885A; 0x2EC7AF43; 0x3AE516C7; 0x7979D1A2; 0x8B81056C; 0x59939EC; 0x7E358480; 0x434AA4DD]];
  [[0x4A5228EA; 0x12EA1C87; 0x4D293B9F; 0x47B48198; 0xE9696688; 0x319CE379; 0x7CE6FD05; 0x7C9FF595];
   [0x3093E3E4; 0x15E954DF; 0x304015AF; 0xBC98307C; 0x975C69C5; 0x66522DF8; 0x963CE892; 0x4C9EBFB3]];
  [[0x628FB125; 0x1CEEF18A; 0x4BF30BB6; 0xFB69A234; 0x70C9C864; 0x510EB339; 0x8A89151D; 0x1EE9D1ED];
   [0x4EE1A486; 0x34094028; 0x2FC79CEE; 0x66440167; 0xC7DA3A75; 0xB597625A; 0x65205AF9; 0x6E5B920E]];
  [[0xD87C914C; 0x749D0CA4; 0xD60C59E; 0x55ECBEBB; 0xA65B4652; 0x916A1127; 0x4E4767A3; 0x503964D4];
   [0x1B1F94D5; 0x8899A4C2; 0x33E0D94D; 0xEFFCAF52; 0xA3DAD87D; 0x61B89B3F; 0x5088D6BE; 0x3CB455F5]];
  [[0x70678C14; 0x5088A52B; 0x41B00FC3; 0x212823D9; 0x19865BDB; 0x38D5CEB6; 0x12E63491; 0x2E9C7FD7];
   [0x59E73913; 0x6656F916; 0xE9035A63; 0x57AE9A47; 0xF02B8DAE; 0x970DCF2B; 0x950FF8A9; 0x3366F8A6]]];
 [[[0xAC4A8F83; 0x93DABD6F; 0x1CFF0AAD; 0x27233488; 0xF500EDFB; 0xBCAC3181; 0xB5297515; 0x27C6DB15];
   [0x2F08A89F; 0x9CD142D9; 0x2EAD0A80; 0x3C005423; 0x44A7623A; 0x82845F95; 0x72BC4862; 0x51047070]];
  [[0xDC1B9159; 0x4303797A; 0x5D9C9AC1; 0x7842434B; 0x6009FE2E; 0x8A36ED2D; 0x5106429C; 0x11FE35C9];
   [0x23554A92; 0xDF20A393; 0x932E37C2; 0x59364A48; 0x7754A5DF; 0x6D7DE6AE; 0x462725AC; 0xCCC6A3]];
  [[0xBAE83077; 0xB1F86CA5; 0x5110782C; 0x82FE28A5; 0xD942182C; 0x8031BBF3; 0x410D9F83; 0x4F1F3815];
   [0x835ABA65; 0xE57F9907; 0x5AA10903; 0xA8220C2; 0x8812602E; 0x2E984717; 0x2A7D2C6C; 0xAEC467D]];
  [[0xC4DBED03; 0xC779F708; 0x8582BD4E; 0x10A30CD8; 0x243FEAEE; 0xFA5646C5; 0xCA459EF7; 0x1CFAF38E];
   [0x95BC8077; 0xCCDD0146; 0x65858C49; 0x4ECDE919; 0x77FEE1B6; 0x562764C6; 0x43524407; 0x3CF5A3AB]];
  [[0xF6EF445; 0xCCEAADD; 0xC297AFAF; 0x690C12C1; 0xC15B3D7B; 0xD67AA6EA; 0x9FF8884E; 0x445D233C];
   [0x6CAD3234; 0xC38FFD09; 0xC7002F6F; 0xA690FFD1; 0x11ACB469; 0xD445E851; 0x97166E52; 0x64EE1380]];
  [[0xCEFBFB0A; 0x1EB031CC; 0xAA40D6A9; 0x60F3DEF4; 0xF96FCAFE; 0x240F7CA5; 0xE4450A06; 0x53AF2F10];
   [0xA84058EF; 0xE8AF980F; 0x34AFFC6E; 0x3E300017; 0xC86B458C; 0x62D1D094; 0x75732C7E; 0x5338383D]];
  [[0x4D82638; 0x6BD46AEB; 0x62E645A0; 0x86940A31; 0xA5736B40; 0xD025B4B1; 0x924E8E5E; 0x1056D9D0];
   [0x1DB58101; 0x3D0495CC; 0x2D677581; 0xC300C6E7; 0x610AECEC; 0xFE38B898; 0xD66F64ED; 0x1C8B94E2]];
  [[0x6D0C7EC; 0x5C9C3A37; 0xB8A74918; 0x6B4B5437; 0x9052A235; 0x85689C98; 0x87B53AA6; 0x4F7C2C8D];
   [0xD8F1D334; 0x9FCD866F; 0x6898223C; 0xDBAAA227; 0x95C7B35A; 0x933DE9DA; 0x3EA949FD; 0x329AE20F]];
  [[0x948A2ECD; 0xB83547AF; 0xBE34890C; 0xEBF7C1E7; 0xF8211C33; 0x5F0F44F3; 0xC6927638; 0x14A10BDB];
   [0x5B579BF5; 0x7FD88567; 0x5B7417F0; 0xD7C71281; 0x2083502E; 0x7C04F111; 0xE9AD6283; 0x42029128]];
  [[0x2C5C0928; 0x32FBFFAE; 0x1469F1D3; 0x4E31D312; 0xD79F51A2; 0x17307E28; 0x79A51EBD; 0x546C91AF];
   [0x668086A6; 0x41D464D; 0xDB695DB; 0x4986BDE5; 0xEF317AA0; 0xCBA5F6EE; 0x730221D3; 0x5879259F]];
  [[0x253BB4BA; 0xBD9C5CA5; 0xE2A75BB; 0xBBFC6079; 0x67AB9033; 0xB5F11AE3; 0xAC2BFAFE; 0x6411CB1E];
   [0xBF5390B0; 0x750734FE; 0x879A3D3D; 0xA044BED4; 0xA0C47093; 0xE1E9F0E4; 0xB64DA48C; 0x3BCAD93E]];
  [[0xB37E16C2; 0xAFC6BCB6; 0x2331B0CD; 0xB54F56C0; 0x5BBFBEE7; 0x725E81B4; 0xE8B9D922; 0x2AE0C039];
   [0xDB958319; 0x85301041; 0x681C4A4; 0xDFAE34DD; 0xCBF7BB2B; 0x906C9219; 0x10A1710A; 0x1463E9EF]];
  [[0x21E6FC9D; 0x41E6C388; 0x24A39EC8; 0xB629A1E; 0x1AEF7A46; 0xC62F60BE; 0xC5A16B6E; 0x59A50B54];
   [0x285B891E; 0x41CA367A; 0xE2F8AF59; 0x70A6CE6B; 0xCBCEEF98; 0x74058747; 0x601C375F; 0x4B912170]];
  [[0x734EE866; 0x7D975CE2; 0xA09F5F14; 0x8D3572C6; 0x2232EE5E; 0x1DB4CC88; 0x7C04C250; 0x6C979049];
   [0xAE1EBC20; 0xB5EC7706; 0xE21AAA32; 0x7BDBD34D; 0xC5D1C733; 0xAD4125FD; 0x731E6B09; 0x28B0302D]];
  [[0x1521415E; 0xD68EEC49; 0x92763C0; 0x31963424; 0xBFB513B; 0xCA90F48D; 0x573A056A; 0x4814DDFF];
   [0x400E804D; 0x7E67599C; 0x51FD0596; 0x35452750; 0xDB331B66; 0x45EDD7FB; 0xBDEDE107; 0x172DA8B3]];
  [[0xB5BEB1C8; 0xD46F284C; 0x7B125701; 0x5DE5D3F1; 0x248053D1; 0xC3BA591E; 0x9C8F487C; 0x4E67F1F2];
   [0x8C252EC5; 0x380D93E4; 0x22BC5CF6; 0x913F96F1; 0xD7BAA634; 0xC1F06BBD; 0xA30BF1B9; 0x7B625179]]];
 [[[0xABD424AC; 0x125D398D; 0x9CC70479; 0xFE65DF03; 0xFB5EC82C; 0x89A31794; 0xA31C5DCA; 0x63EFFB55];
   [0x45B576A; 0x948F7571; 0x22B5FC8; 0xEC9F6FAB; 0xBD9F0DD2; 0x174DC936; 0xF4C4EE8B; 0x5EEA65E6]];
  [[0x8B800D67; 0xE97070AE; 0xB59B433E; 0xB9CB66FA; 0xC6141364; 0xC4496574; 0x6A9677EA; 0x530AA9B5];
   [0x75200533; 0x4A4E2EE3; 0xF20A9BE; 0x4C38A509; 0xEA683510; 0xA6FFBA4; 0x65732EA9; 0x7340EFEE]];
  [[0xE41C2B43; 0x3A5612E4; 0xFCB5C0A8; 0x31F51B80; 0xBD1F03E6; 0x4C5BBA64; 0x3694ADCA; 0x25387243];
   [0x1F7E4D5C; 0xF114EFAF; 0x4EA3A59D; 0xBEA5223A; 0x67EB414D; 0x82CEF46F; 0x9B6CAC3D; 0x9D351C1]];
  [[0x810F5054; 0xC69F25CE; 0x548A2CDF; 0xE33E5E97; 0x36946D3C; 0x20B3F442; 0x65DF2D3B; 0x572C0F5C];
   [0xCC953CC8; 0xFC5B2DF3; 0xD1CCADC6; 0x934D54C0; 0xA6E7B4DB; 0x828A906E; 0x5AD3076F; 0x610D36C1]];
  [[0x74F56E27; 0x960B0A01; 0xCF3FEA75; 0x9942C6AC; 0x82C51490; 0x2E4D786D; 0x9A4749C9; 0x23A51636];
   [0x2F7560FC; 0xD86AB36A; 0xDDB852A9; 0xDA66B49D; 0x544C1023; 0x84E1587D; 0x6AA3C1DA; 0x7AB8BC69]];
  [[0xA5F30701; 0xFD0397AF; 0xDFC8B187; 0x96FFB15D; 0x1475E520; 0xF2C86453; 0xEF37300E; 0x71521986];
   [0x68006D45; 0xD81F75A8; 0xCBC06D4D; 0xDF7814EA; 0x2E8E9150; 0x5BCF959B; 0x56668C18; 0x146D37D7]];
  [[0x88E8DC77; 0x1ABD7312; 0xC1C3A4DB; 0xB34B877; 0xF844BACE; 0x85739093; 0x4A7CF80; 0x5DEDCF8F];
   [0xD87CDBDC; 0xD8BB237E; 0xCCBA784F; 0x89852174; 0xB2FAECC3; 0x6843BAB8; 0xAA4BBA32; 0x15268302]];
  [[0xB23D3770; 0x3B58225A; 0x10CC9DE6; 0x9357EB59; 0x42ECF80E; 0x8665F92A; 0xC875C031; 0x4819CC9D];
   [0xC34B979B; 0x9CBE5D8; 0x7E1D0E63; 0x161E8AC0; 0x282E36E8; 0x874DF24F; 0x712A0CD; 0x6528E6FA]];
  [[0x107633E4; 0xE37AD786; 0xCF1FE646; 0x122D7123; 0xCFA93AC0; 0x1E6E682B; 0x276200DB; 0xA25F4EE];
   [0xE25FBB01; 0x44E290ED; 0xC3C1B418; 0x3E392DF5; 0x83EBE689; 0xE5E15745; 0x4B999926; 0x16139D2]];
  [[0x65D7DA58; 0x48915B0; 0xA78F3D9E; 0x6EF7C4EF; 0xAD614974; 0x78CCCE55; 0x54B95643; 0x43DB7DA0];
   [0xE53F1A67; 0xFC423B70; 0x4EFE2427; 0x8F8BED81; 0x95B045EB; 0xF5D6AD5F; 0xD7407716; 0x23582D5D]];
  [[0x9F674472; 0x9E5D24FB; 0x68626041; 0x1AE18636; 0x7ABC4380; 0x8977E68F; 0x5AF2D04; 0x7D9FF8E8];
   [0x4197C4E1; 0x9D31195F; 0x4400F35E; 0x9F3F6E11; 0x7BBEF801; 0x1A87D586; 0x952BB025; 0x42AE0380]];
  [[0x6B96482B; 0xC6A3ED75; 0xA9C6DD2F; 0x58B38724; 0x9297FB47; 0x464C8CE8; 0xFB6D6C55; 0x245797E];
   [0xC0B58C8F; 0xBE141C80; 0x77766C48; 0xC4C405CB; 0xD10C0F31; 0xD57EE428; 0x50E8FE7B; 0x3D4862B]];
  [[0x1DC3722C; 0x21976F8A; 0x5F476F0D; 0x2EC30D5; 0xCA434B06; 0xD711E01D; 0x99FF2488; 0x551AC910];
   [0xA56CA3C7; 0x24AEC72D; 0x891896CE; 0x2DD1219A; 0x67882925; 0xD84BAD19; 0x9D4778EF; 0x27E65D7F]];
  [[0x4685687F; 0x9F19C8F; 0xBBB58BD3; 0xB7C7B9E3; 0x8FA34DD5; 0x349D03A7; 0x8D59E889; 0x41F9D003];
   [0x2B3ED6FA; 0xCF3367D4; 0x378DA1ED; 0xCF3C6715; 0x4E935E9A; 0x86DC3903; 0xF08CB23A; 0x50692CFF]];
  [[0xC2D65C87; 0x18CA772A; 0x4F1D0CB6; 0xC9092B38; 0xBBD2015A; 0x91E71CF1; 0x4F3DEF26; 0x4A09DAAC];
   [0x735C9281; 0x7CCA7B4A; 0x1BF0AAEE; 0x2028F144; 0xACB5B748; 0xCF72A082; 0x43299B85; 0x58957D5D]];
  [[0x901F1789; 0x64BB164E; 0x5AEF97BF; 0xC68766E6; 0x942B6DCE; 0x30ECA3E2; 0xF9E798F3; 0x632676FA];
   [0xF13896EE; 0xB52533D3; 0x2D8A29C1; 0xAD912831; 0xBC14E7FF; 0x12F1B9A4; 0x8828D196; 0x4E1D23FD]]];
 [[[0xEF494793; 0xC4F89E00; 0xC93D2F55; 0xA6044BC3; 0x8797F8AF; 0x68E60B58; 0x841E4B5E; 0x4D5969FA];
   [0xD759BB2D; 0xB1EE70FB; 0x66D8AD01; 0x9AC30433; 0x84E9F677; 0xD93F23DB; 0xC53029A4; 0x2AD9D16F]];
  [[0xDD882D23; 0xD01FC16B; 0xFA5B4128; 0x3BF921F1; 0x235BC9CE; 0x3D3FE145; 0x62E686E1; 0x59556716];
   [0x79F99D69; 0xE329A7C2; 0xA4F5F5F5; 0xA67EF5EC; 0xD5A34FF0; 0xF96A41EE; 0x74674B5F; 0x9D0CF06]];
  [[0x6135B7E2; 0x8CCDF71C; 0xAFB6AD6B; 0x91F1E33E; 0xDB0CFEDF; 0xC452F439; 0xC05B06D4; 0x15724711];
   [0xA3BC1277; 0x5FEE0E0E; 0x8D8BA081; 0xD6847FAD; 0xD4C8DDD; 0x8B02666C; 0xC35559DB; 0x149E5009]];
  [[0x5461D9CA; 0xB4D0D2C9; 0xCE0A3973; 0xFE7993B6; 0xD6032E95; 0x42B2A500; 0x217131C6; 0x4DEEE35A];
   [0xFFE7C2EB; 0x94E65C8C; 0xB19D4B4A; 0xDAD7785; 0x925613F9; 0xEEBA6794; 0xE30494CB; 0x6AF45BBE]];
  [[0x32F43F67; 0x41352A61; 0x48F886D3; 0xD218DE9; 0x9B33B0F6; 0xCDFC0C55; 0x6C5B90CD; 0x21FC6353];
   [0x7898AFF2; 0x5D8CA5AD; 0x24287C30; 0xA743F80E; 0x9084A3A2; 0x4D037131; 0xB5EFC978; 0x52041EED]];
  [[0xCC1BCFCB; 0x80B588EE; 0xE5CE0035; 0xAD871A11; 0xF966D746; 0xF47224D0; 0xB387FCC2; 0x5215A9D2];
   [0x695C02AF; 0xC54EB2E7; 0xDFC8493D; 0x36FD06BC; 0x98CE7C76; 0x1CE8A9AA; 0x644D398B; 0x58DFCBF]];
  [[0x5BB81464; 0xCD7E67DC; 0x47A7789; 0xE7A19301; 0x573E837B; 0xCCC31EE5; 0xAF7703D5; 0x25EE99AF];
   [0xDDB3E807; 0x34FDD6DA; 0x109092DD; 0x273D8288; 0xB7357633; 0xF8F2464F; 0xCCAA31D5; 0x26B2CBAD]];
  [[0xF707F9F7; 0xBA9CFEDE; 0xAC4975FB; 0xA9A6896C; 0xBB1C35E4; 0x62135D9D; 0xCBA133D2; 0x13AE840F];
   [0x4C2BA3A9; 0x6ABF3913; 0x6D8A62C1; 0xE4D8508A; 0x66D96607; 0xF2565354; 0xB6CABAE8; 0x5C368CCE]];
  [[0x8B3999BB; 0xC3B52E8; 0xEF691871; 0xB752E28F; 0xF17D0D2D; 0xA0460ABC; 0xB7741F2C; 0x7DDCE3C1];
   [0x3673000F; 0x76A6BAB; 0x425E8A9D; 0xCDB1CD2B; 0x2606EAB5; 0x357FCFFF; 0x35DE7B4; 0x308644F8]];
  [[0x6D6FF45E; 0xBA64A127; 0x6B0C3CEF; 0x1F52B6AE; 0xCBF496CB; 0x91295179; 0xA1B12BE4; 0x2B986FAD];
   [0x44DBAF57; 0x243D2366; 0x346E88C2; 0x48E22BBA; 0x8BBAFA0D; 0xCDFB7957; 0xD70670E; 0x94ED36E]];
  [[0xA0D60407; 0x2BAD1539; 0x6E744111; 0xC1A9286E; 0x81A6DCAA; 0x6D08C0DB; 0x80AFB34F; 0x108F35EC];
   [0x1E3E34AE; 0xBE79A6E3; 0x16D524E5; 0x206EAA28; 0x344ABA64; 0x563B6E1C; 0x3207CA68; 0x6C362A61]];
  [[0xEF9A9A0F; 0x4D8145B; 0xA15B6247; 0x8B57559B; 0x303AFBF3; 0x72D53570; 0xD6DB5736; 0x1C36B41];
   [0x1173B5FA; 0x94D583C9; 0x13C8AAA; 0x71F8E12D; 0xF29CB838; 0xA4B5A532; 0x7CE4EBA4; 0x4B179700]];
  [[0xCE86FC3; 0x69CFA7B0; 0xD60E076C; 0x3705D7C0; 0xB1091E10; 0xB1A1464A; 0x7FE80950; 0x97945A9];
   [0x9AA381E3; 0xD9C71A95; 0xA410FF56; 0x2A929073; 0xF0FEB121; 0x79EF8353; 0x5F3107E5; 0x1437C4B0]];
  [[0x621DB2E5; 0xC5128C8B; 0x51A9499A; 0x4E9C9B2E; 0xD8CD7594; 0x11535880; 0xB0697C07; 0x35A26F59];
   [0xC43B624E; 0xAB3F4B75; 0xB8E03E6B; 0x69F82105; 0xFB04E036; 0xFB268288; 0xA0BDB41C; 0x6A5E6BD3]];
  [[0xC8082916; 0x8C716A1A; 0x4592472C; 0xB1D1B152; 0x3AB6938A; 0x63657A6D; 0xF03214AE; 0x44882EB6];
   [0xC615AF7D; 0x19575B8A; 0x35EE3D98; 0x14D740C1; 0x57768D2D; 0xBC478E89; 0x13FC5E4C; 0x30CC8FA2]];
  [[0x4EBE1E7C; 0x705607C5; 0x284EDA2B; 0x631E5B88; 0x7F54DDB; 0x7E9E39C; 0x8DCF6BC5; 0x4E554D88];
   [0xCBAB0FE; 0x12E9FB20; 0xBA5E007F; 0x6F3BC7CE; 0xBC871DF6; 0xA770BA1D; 0xFE01142C; 0x541AA4C6]]];
 [[[0xF2412EC7; 0xBFE26700; 0xCFE96AF4; 0xE975796; 0xDD6B04F7; 0x7D30BF7C; 0xF1D8FCE4; 0x5421925D];
   [0xEC709107; 0x1CF5E9F5; 0xB4580AA9; 0x124FCFC2; 0x67A835B3; 0x2F7012B; 0x47C0760F; 0x753FE01B]];
  [[0xB1D2A896; 0x82FD5D47; 0x54E75DDB; 0x7EABC175; 0x1AB080BC; 0x724FC3A8; 0xA75C31DD; 0x363D6016];
   [0x863F308F; 0x5D465FF2; 0xE515ADCB; 0x9EC70664; 0xB3BC206A; 0x4BD7A1A2; 0x4A167D34; 0x2022576C]];
  [[0x5CD6AC65; 0xF5AC3451; 0x5839F554; 0x7629731E; 0x93545A60; 0xA3260AE3; 0xA7AD1979; 0x49D190E8];
   [0xF0B35045; 0x5AA8492F; 0x2584E651; 0x4A5FAB7B; 0x395E2AAE; 0x5A05420E; 0x547B4038; 0x30613C78]];
  [[0xF9DAE7E6; 0x47E1C59D; 0x247A5A9D; 0x8D68839B; 0xC1A80D5E; 0x663B5977; 0x40D8CF32; 0x5E51F872];
   [0xECE49494; 0x88ADBF9E; 0x1792BAE8; 0x40B4AC5C; 0x9A1B3314; 0x278200D1; 0xD9F83584; 0x7D15320E]];
  [[0xEAF2BFF8; 0xFE6DAA74; 0xC156AA6B; 0x6E4EE4C0; 0xD0F4E7D5; 0xD9310FF8; 0x7BB0C42D; 0x552EEF9E];
   [0xFDC69E1A; 0x323FF6F1; 0x41D79365; 0xFA66B7; 0xA96B22B4; 0x6B16E; 0xD20F07BE; 0x71BBC653]];
  [[0xA440FA1C; 0x89A7B7EE; 0x757CD658; 0x52BB5278; 0xB0CDDEA4; 0xC5906F4B; 0x5DE2D8DA; 0x66AAAFEE];
   [0x53B6E226; 0x4D5E016A; 0x1993A1D7; 0xA2F73DC6; 0xA09DD554; 0x7CDD4C1D; 0xAB416627; 0x6F723079]];
  [[0xC4E5C4AF; 0xE641639E; 0x371CC648; 0x8BC6100D; 0x9B216E8A; 0x7BD161B1; 0xF810DB32; 0x58098AEB];
   [0x5AD92372; 0xEE52BB46; 0xEEF938CA; 0x4B2C48E1; 0xAB43A5D0; 0xE8FDE4D6; 0xA5284C83; 0x459274CD]];
  [[0xD015095D; 0xA98925B0; 0x4611A1A5; 0xC8969F5F; 0x2CE4663B; 0xBDDCD62F; 0xA076C8BE; 0x1C9D9007];
   [0x749F7BE5; 0xE8DE8890; 0xFF208E75; 0xC9E455E7; 0x8F5FAC9A; 0xDCEE17A9; 0x68A3A666; 0x776B72D3]];
  [[0xFEE0E89A; 0x28C7D648; 0x463AF60D; 0x621B370F; 0x5ADC8ACD; 0x9DC1548E; 0xA0B49504; 0x48032ACF];
   [0x85E992D5; 0x146C6EAC; 0x5CB491E0; 0x5A2CB577; 0x454C120A; 0x669DD6D4; 0x98203C39; 0x3431AB33]];
  [[0x9DE017BF; 0xE8761503; 0xB60AE61F; 0xAB117D2F; 0x827937FF; 0x846463F; 0x6BD89C65; 0x45E6BD40];
   [0xA613BDB8; 0x3160AD67; 0xB8714A49; 0xBD5266F3; 0x51A233E4; 0xF7D29C47; 0x4DE6A90C; 0x6887B48D]];
  [[0xDFDE1EF8; 0x87290A5; 0xA166950A; 0xC70CCB52; 0x4A170AAE; 0xAA7F095B; 0x5517CA0B; 0x15301F4E];
   [0x302F1F84; 0x3C86B787; 0x44676E39; 0x95D41535; 0x9DF5F751; 0xBFEC4AE3; 0x304923D3; 0x4A0D3986]];
  [[0x79B1390C; 0x70FAABA9; 0x62BA8B9E; 0xA9067EEE; 0x1E17DF6F; 0x98789503; 0x78D5B295; 0x5997E8AE];
   [0xAE0C6768; 0x31E13AD7; 0xEF17A7B1; 0x23262F05; 0x49B7B101; 0x15803227; 0x36B5BA70; 0x1234A9C5]];
  [[0x395793AC; 0xED65C961; 0xCCDE1C47; 0x1157CD8; 0x1D5614DF; 0xD0240B0; 0x568E83A5; 0xF0DA1EF];
   [0xC0B783C1; 0x57C90846; 0x81E2F613; 0x4501048C; 0xA2709DC1; 0x3D8A69B; 0xA97CCE0E; 0x6F365C4]];
  [[0x551580CD; 0xEAF23159; 0x53DD5EE; 0xF1E586A; 0x3CBCC3D5; 0xEB7A78DD; 0xB014B850; 0x39BBC65A];
   [0x79B61AC7; 0x13DA4E85; 0xDA59E37; 0x33E78DCF; 0x2A643C4C; 0x4E65AF25; 0x8869D03; 0xDC38C97]];
  [[0xA3A38837; 0x2B648345; 0x905E261D; 0x2FA6D8F7; 0x66A14946; 0xA23BD786; 0x5E01CC9A; 0x781633FD];
   [0xE2C71AD1; 0xB1352709; 0x83A6D365; 0x9D745052; 0x66567032; 0xD88B5CAE; 0x53D875CA; 0x27FC40DF]];
  [[0x47F7554F; 0xB254E54C; 0xD708614D; 0x33AD0ED6; 0x76CE908D; 0x830566A3; 0xAA1ADD5C; 0x73DF94BD];
   [0x2DBDD8A3; 0x23EC411F; 0x3A979FDC; 0x9BA47338; 0xC667E9F7; 0x56A2C27F; 0x427E6BFB; 0x295647C7]]];
 [[[0xF8E48C13; 0x9B5F4652; 0x9EEF4BA3; 0xE979034F; 0x7CF5AF6E; 0xF95FD776; 0x506CEB46; 0x4236C47E];
   [0xE08D2312; 0xC02A249; 0xC056499A; 0xAA5A38CC; 0x7C188B64; 0xCB26A8E2; 0xAE373D5; 0x38FB961D]];
  [[0x7B23470D; 0xEB179C9E; 0x1EBC44E7; 0xAE70102F; 0x92E0EED0; 0x8184C1D4; 0x5C21BF08; 0x32988281];
   [0x8180D11E; 0x46958967; 0x7FD7278D; 0xEBD5518C; 0xAD2B74F7; 0xFCEB7F68; 0xF9C7B6DA; 0x82D2011]];
  [[0xBBE0299D; 0x65D5AED1; 0xCF565A0A; 0x77F756; 0x344BB90D; 0xD44FCD6B; 0x536F3F25; 0x6C2A19C0];
   [0xBB2A4D91; 0x32EE7439; 0xED9351E1; 0xA97E677A; 0x413A16E0; 0x6752EDCF; 0x1CE4FBE6; 0x5DE1B0C7]];
  [[0xD6009B36; 0x6C10DA15; 0xE5D8CFBE; 0xAAD05F4F; 0x31D58B76; 0xD8BCE0B4; 0x27B2811B; 0x8DE344E];
   [0x80B51E48; 0xD9A78AAE; 0x3E41C63A; 0x1E1D0A81; 0x8076B3C7; 0x844376DE; 0x5FDF9D53; 0x73F0D4A3]];
  [[0x558C7719; 0xF1532922; 0xA8221197; 0xF10188A; 0x5DDC1716; 0x51A97E5F; 0x444789E7; 0xF583A9B];
   [0x97D63B87; 0xAA8FC58D; 0x1CFDA59C; 0xA5AF048B; 0x2DDB34EB; 0x2A4A0C5F; 0x701E2E07; 0x66C0F0C7]];
  [[0x36BE2ABF; 0xC0BC88B8; 0x5C721B85; 0x265CCE74; 0xD54299BA; 0x483EBB01; 0x348ED89E; 0x18F11CBE];
   [0xE42129D4; 0x5E9AE7B9; 0x81DE5B77; 0x6B3E9E8D; 0x7A14A74A; 0xB3ADBAC9; 0x3B266; 0x1B6CEBB2]];
  [[0x15EB200E; 0xD4D4DD10; 0xFB87C57B; 0xEEAEA4C6; 0x72FF6321; 0x48F0B957; 0xB782B01D; 0x187C4B75];
   [0xE9B4D622; 0x3DC1AACD; 0x3F4ED519; 0x358418E; 0x773D019C; 0x981A24F8; 0x3DB0B4F4; 0x6643CA91]];
  [[0xD47670E3; 0xE3254F4B; 0x30B1DDE9; 0x98226125; 0xDA8AF160; 0x61EB6C86; 0x18363269; 0x725C7716];
   [0x2F62462; 0xB051DC9F; 0xAC5531; 0xFF8C9EDF; 0x962A92A3; 0x3909C79B; 0x27790237; 0x25C90D93]];
  [[0x88ADC475; 0xA5DF2CC; 0xE5D27D0A; 0x48D26967; 0x359FF194; 0x21D5F616; 0x89977CE2; 0x38ACD141];
   [0xFDAA8ACB; 0x39B9BD92; 0x35B62D0; 0xDB157DF2; 0xB7D252D9; 0x4E33386E; 0xCF196258; 0x6BD2E33F]];
  [[0xCE8F10C5; 0xE0806297; 0x8A14B746; 0x446AFD6D; 0xBF566190; 0xD7931F29; 0x86FDB72A; 0x4D9CFBFA];
   [0x95009F63; 0x77528851; 0x34C0FF45; 0x5FE50134; 0x6E134B81; 0xC38CABBB; 0xE36DB037; 0x2E60B277]];
  [[0x57184CA5; 0xA614CF67; 0x25BE01E3; 0x6CBD8D63; 0xA0030BE3; 0xE313EE8D; 0x2B1E7C60; 0x69AF0399];
   [0x50423F30; 0x519ABFBB; 0x486B9519; 0x200111FF; 0x3351F692; 0x6FF93CCB; 0x3ED9BE71; 0x32EB3E54]];
  [[0x54052EBD; 0x851ACB9; 0x6D2336D7; 0x3A389B7B; 0x17C6ACD9; 0x50A87925; 0xB807D9B1; 0x31FE845];
   [0xE22F7492; 0xA348BB01; 0x5F39661; 0x9547ED36; 0x68EC4AC2; 0x97DF6756; 0x85B7F81B; 0x5836FEFE]];
  [[0x5F0B2ACB; 0x4E4869A6; 0xDEC46001; 0xC4798F3F; 0x903474; 0x281A4ED6; 0xEFB9AABD; 0x4F22E9D];
   [0xFAA721A4; 0x2AC92264; 0x276F8041; 0xBCE2FF0B; 0xE4943926; 0x5F605607; 0x55506DF7; 0x388C5FAB]];
  [[0xAB5687E2; 0xFF104F6D; 0x3B2D0245; 0x1B6DAFE9; 0x81B2EC4B; 0x6405C026; 0xF489EBBC; 0x2B7676DA];
   [0x6DA1F57A; 0xBAA158F0; 0x27A8457F; 0x9CB044AD; 0xA3BBD6C9; 0xC23737A5; 0x1D2267E1; 0x71FB5B47]];
  [[0xD14F56E4; 0x779BD825; 0x8396F23; 0xD7E672A0; 0xD40BA6EE; 0x23FE3FC0; 0x3B56A3AB; 0x41E749E7];
   [0x72042F67; 0xD19471CE; 0x4989D4D7; 0x8A686DA7; 0x4FA09BC9; 0x52A709C6; 0xB3B6AA64; 0x1DC21162]];
  [[0xF9B3BD1D; 0x62C9838B; 0xCE6384C; 0x1EE59E5A; 0xECE8CC7F; 0xA9F5ABF6; 0x80BDDA83; 0x1961D80F];
   [0xCA406FB1; 0x7A40880C; 0xDFBCE2E4; 0x5035D307; 0x3D637299; 0x590259E0; 0xD6C34E05; 0x1607AC9F]]];
 [[[0x9D818B72; 0x4ABC2710; 0x92607B7; 0x2496CEA6; 0x55C4EC8; 0xFB1087E1; 0x258ADC7D; 0x50A30C6A];
   [0xFF502E3; 0xAF4EB6B3; 0x190607AB; 0x5D5D76AD; 0x34482C13; 0xC9C9B711; 0x42213696; 0x574A9718]];
  [[0x7018FC70; 0x7C90FAFD; 0x2B83291C; 0x36A04559; 0x40D1B175; 0x6120B51E; 0x3DCF9606; 0x45F10B20];
   [0xF20C5636; 0x3C6A9EFF; 0xFFBBC648; 0xB2768BA3; 0xB523B36C; 0x1C9DF90A; 0xD6FF34ED; 0x4148BF06]];
  [[0x3B5F9492; 0x3D29821A; 0x90B24561; 0xAE12C782; 0x8A3BDC5F; 0xEF6FB277; 0xAC3BD74E; 0x6034BF3B];
   [0x4ACB6F85; 0x131D57CD; 0x3BE79B31; 0xDED1C433; 0x78A896B8; 0xB0913489; 0xB287862C; 0x1247C0B7]];
  [[0x7C494054; 0xEB642893; 0x22142D26; 0x79227930; 0x943E8398; 0x8F1C8371; 0x60886DB7; 0x583C7AEF];
   [0x3A12EE0E; 0xAFE46022; 0xB6CB8685; 0xE9C9253A; 0x6316A4C6; 0x5334F9DD; 0xE6F1DEE9; 0x4E2F13D8]];
  [[0xB37D8BA5; 0x7499A5B4; 0x1C9BCDE2; 0xA12AA637; 0xBFD6AE86; 0xCC99471D; 0x92048D63; 0x9966378];
   [0x552E71A3; 0x42CBFA9D; 0x675C1716; 0x84A8B153; 0x4CF00A7D; 0xB9C07C0E; 0xDA504DB; 0x32E2322B]];
  [[0xE671EE59; 0x569F581F; 0x422E86C7; 0x293522D7; 0x15DCEF10; 0x5E4CEA7E; 0x483C0FE3; 0x67C8A9FC];
   [0x47B79284; 0x4DE5AC09; 0x25016BA; 0x22AB8FBD; 0x2A099B37; 0x51318C23; 0x49E06623; 0x542EA0FA]];
  [[0x28909F31; 0xDD240F64; 0x101B7F01; 0x46B66F9E; 0x20481C3F; 0x788C29CA; 0xCA5D5182; 0x3218A509];
   [0x63E9A2B9; 0x64BCC7AD; 0xADDF5C0B; 0x3D213CA2; 0x9960D650; 0x6D93ED4C; 0x284EE5F3; 0x3F13DB22]];
  [[0x6697E0D1; 0x5B678C3A; 0x16D9D878; 0x25A171F4; 0xFAEC362B; 0xC20A6D80; 0xC512EA4B; 0x1BB3F14C];
   [0x2AE35FA5; 0xECE5313B; 0xBBD76B87; 0xE390A01F; 0x882DA3FC; 0xC78EA4C5; 0x42086A77; 0x771BCDAE]];
  [[0x565802E9; 0x8E9E3C8B; 0x53FA1BE7; 0xC37A7B35; 0x4408FB77; 0x9D2F1A26; 0xFF308B7B; 0xB3ECE36];
   [0x1F30FC37; 0x8FB35B36; 0x83E1A3C9; 0x463B44E2; 0x3402233A; 0x7218F09F; 0xFC9A6990; 0x1519638A]];
  [[0x8EAAC478; 0x51FB3E5D; 0x760ED4EC; 0x620E4826; 0x1D865577; 0x46FC5B1F; 0x5244A538; 0x15EF2AD9];
   [0x4BF382BD; 0x8D7E477C; 0x2A5C9EE; 0xCBF170C9; 0x4AFB0EC1; 0xB91A870C; 0x69C31425; 0x52FFC51]];
  [[0x2018D066; 0x1FD43746; 0x4C67FC35; 0xBC501517; 0xBC990EB6; 0xE65BC2FB; 0x73F87F92; 0x538CA6F9];
   [0x8352B03F; 0x42FBDAE0; 0x99A4C9B9; 0xF265B1E0; 0x185CA070; 0x6E3EAB2F; 0x37D0A2C1; 0x6E6F4F7D]];
  [[0xC2D5D73E; 0x9B20D8EE; 0x75844C15; 0x190521AE; 0x26AD08FE; 0x67663AC4; 0xF984EC06; 0x67AEEFEF];
   [0xCBDD87EF; 0x61C71142; 0x63396E3B; 0xFA4995B; 0x85C193B0; 0x3196E551; 0xDACB3A3D; 0x36C0A2A8]];
  [[0x178A1115; 0xEAB89FDC; 0xD7C31303; 0xC7B764D8; 0x90203755; 0xA5B2D6FB; 0xD5F8AEEE; 0x3C360BF9];
   [0x2F1CC3C; 0x8DFDCD05; 0x64E5269E; 0x7F8A64D2; 0xEA13FFD7; 0xA36196EC; 0x77E3839F; 0x35E22415]];
  [[0xE22E0C52; 0x29E7AB0B; 0x8B27DEDA; 0x68BF32C7; 0xDC7971AE; 0x52A762A2; 0x18B0CDCC; 0x4CA43487];
   [0x3FCEAF73; 0xED429DA1; 0x6718D19; 0x49396E6F; 0x5BB3301C; 0xDECB9337; 0xFF489B1; 0x4B7723C1]];
  [[0xABEE6B9B; 0xAE321F09; 0x37318F60; 0xF251BF4D; 0xB63DC269; 0xB0A8A251; 0x71817963; 0x514A25FC];
   [0x55C9B2E9; 0x518F5747; 0x1C9B4845; 0x3E56CC3E; 0x283AE1FA; 0xBDFD637A; 0xC3DE778E; 0x419BA4B4]];
  [[0xBCD2EB74; 0xC7F18E93; 0xFC61FB42; 0x171264C8; 0x85119033; 0x27282E76; 0xD7DB91C7; 0x225006A4];
   [0x1ECF5024; 0x628E0F3C; 0x859CDE; 0xDC5111E0; 0x1F220711; 0x4AB1764F; 0x70DDED3C; 0x7C6916F1]]];
 [[[0x5F0CA58A; 0xF9FFE8FC; 0x22879EBB; 0x9E34F30; 0xED7B0520; 0x648D6339; 0x1AF5ECDC; 0xD6719D0];
   [0xB8590E4; 0x2878714D; 0x90EC312B; 0x827D04ED; 0x3B5767C3; 0xD415C8B4; 0xC09FD18D; 0x4170F0AD]];
  [[0x3C601031; 0x9B649CFC; 0x636DDAE7; 0x478603A; 0x914E100A; 0xDC972DFA; 0x91621AE; 0x519C55DF];
   [0xD4A9963D; 0x863046CB; 0x5ACF7C0C; 0xDF16763C; 0xFF5468A4; 0x4999A93E; 0x424074A5; 0x35543EFF]];
  [[0xDD33307C; 0x27B1DBFA; 0x927CA6F3; 0xA0D04784; 0xA37CF855; 0xBD3EBC5E; 0x49F5AA2C; 0x59D02EF5];
   [0xBDD57BF3; 0xCDABE86F; 0x37819D86; 0x7B3ADD2F; 0x413B7B0; 0x7B90BA15; 0x6B99685B; 0x47071782]];
  [[0xEF0CE97F; 0xB7C3218E; 0x898C79C; 0xDAE3B56C; 0x908877D; 0x6349D83D; 0xC81E8C4E; 0x970C6C0];
   [0xA47F426C; 0xE45C4A7; 0x3FBB194E; 0xAB000A59; 0x3A6DD13E; 0x570FBBA5; 0xC8F44A57; 0x66045580]];
  [[0x12A72F7F; 0x5ABEB749; 0x7AE56F4D; 0x15072A92; 0x222AB2C4; 0x1C77AE00; 0x9AFE63DE; 0x591EAEC6];
   [0xDFD24304; 0xB51D41AF; 0xDFBCC096; 0xDE28DF26; 0x38A20DA7; 0x2F046C8; 0x1AE0A45B; 0x5EC3DBDC]];
  [[0x63DD86C2; 0x7C19BD75; 0x8D78A57B; 0xDB119311; 0x23C5C4E7; 0xF48BB4FA; 0x97DB0A05; 0x65514C1C];
   [0x43CAC49C; 0x1BC1F2F0; 0x2851B4BE; 0x975FEB51; 0xDD60D530; 0xE0A4633; 0x9B1D2C6; 0x32BBBF14]];
  [[0xA670EAC0; 0x79124749; 0x31DD893C; 0x504D89D5; 0xE0654D63; 0xDDCED74C; 0xE2208707; 0x58956BE5];
   [0x437E7077; 0xBE6A3ECD; 0x574095C8; 0xB8AB332D; 0x3869DA42; 0x4E79AC1C; 0x68859F51; 0x79D4C3FB]];
  [[0x7936A831; 0x1E5FC1B9; 0xD74F1F41; 0x1EA42ED2; 0xC4EA3228; 0x33D22EC1; 0x729BEBFE; 0x5705333F];
   [0x64596076; 0xDBD1A67B; 0xFA65BA98; 0x6BFF269D; 0x6C47E715; 0x8451A9C2; 0x22898DB3; 0x243D679D]];
  [[0xB8323FD0; 0xE935D705; 0x6937E5CB; 0xE2DA8845; 0x4A5EAE1E; 0x1C9DFFF8; 0x45DF7A79; 0x796F0B95];
   [0x640DBA32; 0xC24D573F; 0x2E4B792; 0x2B775217; 0x94D12C40; 0xD437EB63; 0x4AD371F0; 0x6182AF6D]];
  [[0x41FC7551; 0x133EDA52; 0xE91714AF; 0xA0088A2B; 0x5E0A73C0; 0xB41B9AC2; 0x1D3B3953; 0x4808BB5A];
   [0x2B9AE648; 0xD875AA14; 0x2408244C; 0x4F38C946; 0xFF051A87; 0x4B6B941; 0x6DF48ECD; 0x1D5B0B9E]];
  [[0x169E757F; 0x27FD368A; 0x7B94D9DB; 0x2ACB3560; 0x4D4C9B5F; 0x81903F4B; 0x169B81DE; 0x641F806C];
   [0x9E957475; 0x574E9444; 0xC6C8EE52; 0xE08814AE; 0x6C84FDDF; 0xD1AE71EC; 0xFAA040D9; 0x44A56014]];
  [[0x75A48F60; 0x6DA6908; 0xBB2CD408; 0x7BA6C9CB; 0x3A1BCBFF; 0x57D2D0FF; 0x8928CE36; 0x186F1A8B];
   [0x7A40F877; 0xFFD205B; 0x1AF68F7; 0x2915BC8E; 0xC36A5FB1; 0x816AC4DF; 0x2C9E1F7D; 0x609B0A87]];
  [[0xB97536FB; 0x4032AC5E; 0xA7C5EDB6; 0x53E6FE68; 0x5F0DCBA1; 0x2F414930; 0x2837E314; 0x20975256];
   [0x3C3C1D27; 0xDF5DC496; 0x71797C36; 0xDFDAAF3; 0xDA504E04; 0x5F3E9229; 0x8C234246; 0x354EA88D]];
  [[0x922D317; 0xAF6741C3; 0x9DF0A572; 0x7429853B; 0x1DC207A8; 0xEA1AE04; 0x450075F5; 0x2C1DAA1C];
   [0x6ED729B4; 0x27C71F16; 0x53AB8EC0; 0x785718A6; 0xA8465487; 0x1EEC7BBF; 0x4C578BA9; 0x78DA9B04]];
  [[0xB3B707FA; 0xFF9ED65E; 0xF5D28D33; 0xF8C8301F; 0xA65F5C0F; 0xB15D498F; 0xB0EF2B89; 0x6DEF256D];
   [0x52184EF6; 0xD40A6B2; 0x2BF06F5A; 0xC702EBE5; 0x4BA041AA; 0x13E50E18; 0x7EC4C784; 0x53552D88]];
  [[0xF28ABB3A; 0x2CD09B19; 0x724EDB9B; 0x4F5C040F; 0xE0DCBD16; 0xD6820590; 0x1B7155A3; 0x45D84DE9];
   [0xA251B1BA; 0x995BDD01; 0x37CAA4DC; 0x607F9517; 0xA15D9674; 0x747FEA1C; 0x73E97C97; 0x646C1876]]];
 [[[0x6FAC1486; 0x1951682B; 0x4A4D14C5; 0x8B578E1E; 0xB7384D42; 0x83FA101; 0xED1C8A87; 0x13380CE9];
   [0x732A493B; 0xC7052ED8; 0xB32E3D69; 0xD5FEF40F; 0x88833566; 0xA64ACE87; 0x4177DC00; 0x6E36CFDB]];
  [[0xE742C3B4; 0xAA14E281; 0xEE5AF40A; 0xB75E7B2A; 0x1616EFA2; 0x3FC5FF0B; 0xAD763298; 0x90259B0];
   [0x38753438; 0x4105B57E; 0xCF2D8926; 0x70ED1A00; 0x322F40BB; 0x78921395; 0x67A3FF56; 0x3AEE8199]];
  [[0x11EA75FC; 0x88073D00; 0x6A4B4EB; 0xD23D2796; 0xD85D3A6B; 0x1FD22F9E; 0xAFB43B70; 0x6B5EA051];
   [0xD99BE576; 0x96C9C176; 0x4C47261E; 0x85AC2B6C; 0x99A9C378; 0x27263959; 0x8B5CABDA; 0x6D36E9FE]];
  [[0xA58F614C; 0xC9FC7661; 0x2E45AE73; 0x82AA317D; 0xC8CB9CC7; 0xDCB1925F; 0x27813205; 0x1341C1AA];
   [0x6CD478AB; 0xDD06745B; 0x1E28F6A3; 0xC2534B2; 0x9D27FE63; 0xE2183345; 0x6466147; 0x7F1E2A33]];
  [[0x5AEE2471; 0x378D727E; 0xD47739B6; 0xB718FC17; 0x4145E8EF; 0xDA27CB9B; 0xEF2AB20; 0x3F8AB1A3];
   [0xE16C0141; 0xA89ADD37; 0x59DF1C95; 0x2127823B; 0xB7455CC2; 0x53F90B73; 0x1183FBE5; 0x7F960586]];
  [[0xE77235C3; 0x56D0475A; 0xB18ED61A; 0xED2907C5; 0x7D73F6F8; 0x2D02C4CB; 0xC42E7AED; 0x35EF69B4];
   [0x31B7324A; 0x53A6120A; 0x59F1A395; 0x982DD221; 0x835CFD94; 0x3ECA86F; 0x73CA1BD5; 0x4CBA837D]];
  [[0x41B17E6D; 0x64F66D39; 0xCB14F3B3; 0x3C869BF5; 0x28350EFA; 0x1EBA045A; 0xC7CDEC47; 0x7ACFB882];
   [0x8FB3097B; 0x7ACFD28D; 0x62986426; 0xDA397C31; 0x2A1A7A94; 0xD49F8421; 0xFAB65156; 0x7B372E2D]];
  [[0x1D9DB0F; 0x3ADBDD07; 0x94FF0CFB; 0x617521E6; 0x3F5BD583; 0x5BA5905C; 0x78670CD1; 0x6F896033];
   [0xFB98EA11; 0xA59C447; 0x653EDC59; 0x59B918CC; 0x9F72C01E; 0xBF4D2A; 0x47DEE00F; 0x748455D1]];
  [[0x386E7491; 0xE371A7A8; 0x621A3484; 0xF71711CC; 0xE0015C3B; 0x1568256E; 0x7D3FFDE9; 0x5ACEF7A6];
   [0xB08E4219; 0x2ED70E5; 0x832AC3AA; 0x7ECE1726; 0x951D1CA2; 0xC3C0D32B; 0x38DECC59; 0x4C991664]];
  [[0x96EB21A4; 0xB99DF8BA; 0x2BBF8E6D; 0xB88D25F4; 0x686DAA3C; 0x16B3E0B1; 0x70D47C57; 0x11314561];
   [0x3338342D; 0x8DCDC3D1; 0x88E028A7; 0xE6D39B01; 0x72855B5E; 0xB781F1ED; 0xCC192572; 0xE0D82F6]];
  [[0xCF1E20AA; 0xC86A8E5D; 0xF9AB96D5; 0x1A87AEF3; 0xF3D19051; 0xA8941635; 0x654FFF15; 0x67B1D0A2];
   [0x92862ACD; 0x266FD5ED; 0xD11DEEAC; 0xB72587BE; 0xD09320AA; 0x5CF0D2E2; 0x515E0277; 0x68456EBA]];
  [[0x771F64CA; 0x86A5461C; 0x48FF8D7A; 0xB7A220B7; 0xD7A568D1; 0x9A0DD72A; 0xF644D858; 0x18F5E1DC];
   [0x3E00364F; 0xB7AE1BC2; 0xCEE8D9F7; 0xD7EA31F3; 0xDCDB883D; 0xD18DA30F; 0xCBA00F48; 0x179CFCA5]];
  [[0x39E7860C; 0x496F2C01; 0x27F15EAF; 0xACDF8B40; 0x687AC815; 0x8871966C; 0x8DB8FDB5; 0x6228F1B5];
   [0xF30ECF2B; 0x8644656A; 0xAE1DEAFF; 0x15576CC2; 0x697AB3FC; 0x93D86D56; 0x811E3FF2; 0x3E4A428E]];
  [[0x91B9F5DF; 0xFB85DE3D; 0xB20A9C71; 0xCDB595D4; 0xB44D671E; 0x55CB08F3; 0xFCD7D5ED; 0x780FC2E5];
   [0x7F939366; 0x815AB41F; 0xECD52B20; 0xA7597A02; 0x4648E3C5; 0x9BE078F0; 0x17BD3DC2; 0x7A3E2179]];
  [[0x9D9E5E53; 0x22758C41; 0x9EF09FAE; 0x44D675F4; 0x27159F97; 0x1AB7986D; 0xB6B9465B; 0x72B3F02B];
   [0xFE56F578; 0xA372FAC7; 0xDA534F4A; 0x33FA6479; 0xDF63BF2D; 0xB0003307; 0xB80D0F64; 0x34D40B4D]];
  [[0x3D2B9FC2; 0x8A8929DC; 0x55EE75E5; 0x7D12E86C; 0x92E1A870; 0xB3FE1AD3; 0x729CFE4C; 0x27148C94];
   [0x18BA868B; 0x6A8C3B52; 0x7F038A9C; 0xDD2006E4; 0xB7124908; 0x4606FA9E; 0xF4940CB1; 0x434A8C07]]];
 [[[0xF98B91EA; 0x15F36EBE; 0xC1ED17B1; 0x94D802DE; 0x85D77F8; 0x3C45FA08; 0x2FF571A; 0xA30B3C3];
   [0x264C93D0; 0x70F5852D; 0x191AEE57; 0x5E51BCAB; 0xFAD8E96E; 0xD5C14AE9; 0xD4BC414B; 0x73B00534]];
  [[0x12AFF5E7; 0x21CF876B; 0xF75799A6; 0x3E9F664C; 0x9A0E73CD; 0xC23B7D19; 0x427EEA36; 0x77AAB691];
   [0x604EE854; 0x2E74F972; 0xF867C81A; 0x8712C7A0; 0x953A4C56; 0x6085980F; 0xF7707E1; 0x2DB99707]];
  [[0x78BDB7A7; 0x5ECC087F; 0x4C693F2; 0x43CC156C; 0x39BD7F1; 0x965067CF; 0x6E3FAE2F; 0x72140E56];
   [0xE019DED1; 0x26452E4D; 0x2EDEF154; 0x6F4C2349; 0x54DFC0F; 0xA7066D7F; 0x3381AB44; 0x544E6F6D]];
  [[0x9214C791; 0x9B6E9469; 0x86938BDC; 0xD74F9C55; 0xFC2928FD; 0xF1527F6; 0x63C3A053; 0x5B0FBF0F];
   [0xFC41FF10; 0xAC1F442C; 0x787B4932; 0x34EF88EF; 0x316732AC; 0xF8120F08; 0xA655DC4A; 0x7BCCF12C]];
  [[0xA6C7760E; 0x750DF97F; 0x609BF215; 0xF1A0A827; 0x67FD04B4; 0x7348C1B4; 0x615C8145; 0x6A581016];
   [0x9A11AAFC; 0x9DC01225; 0x3F2B0C8B; 0x24F65B05; 0xDCB1B2A4; 0xA27CB8BF; 0xE48C1A71; 0x3C44B811]];
  [[0xF780B295; 0xBC059AF2; 0xB6B247D; 0xDF58928C; 0x1903F3D; 0x224D4C3C; 0x818EE0AC; 0x7152E120];
   [0x54BFF1BE; 0x6C8F4745; 0x431ADEF7; 0x98A6C7EC; 0x91B2CFB6; 0xDCB6BB75; 0x7E83A5BB; 0x145F6D39]];
  [[0x81D23BC1; 0x827C000C; 0x403956FC; 0x5CDC1135; 0x3C751158; 0xD967A5B1; 0x96201D7D; 0x52AF85BC];
   [0x644558F7; 0x522BC492; 0xED7A060D; 0xF74A35AF; 0x4DC4619E; 0x10E5F9FD; 0x324F60BB; 0x6071F1F]];
  [[0x65921C34; 0xC5FFD5EF; 0x302BAA5D; 0x46CE1A69; 0x4E22FF1D; 0x89CC84EC; 0x68131754; 0x16A481AE];
   [0xB89039F5; 0x2A06A156; 0xB3A95AB9; 0x40B6401B; 0x313820C3; 0xFFCC53EB; 0xEA959F76; 0x256B00E7]];
  [[0x54FBDD74; 0xCCE87FC9; 0xB23C6E1D; 0xEC258542; 0x9E5E1928; 0x5BE392B4; 0x47A8A759; 0x65AF3110];
   [0x47DFFD31; 0x943F7A25; 0x51E896FA; 0xDCCDA186; 0x933E747F; 0x71A93B1E; 0xDFB043AD; 0x44F5C468]];
  [[0x786FCCBA; 0xF6AEC52C; 0x6D51FA78; 0x23D49DCF; 0x9B40D8E6; 0xF81463B; 0x708D3DA2; 0x18B9D932];
   [0xF986DC6D; 0x796F94ED; 0xFC2622C3; 0x33B2CCC1; 0x9CCEC606; 0x16790DFB; 0xCFD31481; 0x6F5D1452]];
  [[0x6C3A15D6; 0x91F15DDC; 0x4D360E75; 0x45D12F40; 0x1DAFFC9C; 0xF2E28EE8; 0x6CDF5566; 0x5CC6A056];
   [0x1779B9BF; 0x855166D2; 0xCF94D9FE; 0x92BA5EF4; 0x985BC1DD; 0x1266FB2A; 0xCA3018AD; 0x4572CE8F]];
  [[0xBE4BB604; 0x8729A12D; 0x4E99E9AB; 0x6A29C849; 0x7A89894D; 0x54AE5011; 0xCDB0EEBD; 0x5E66A255];
   [0xCBEE153B; 0x6736EA; 0x225E7B86; 0x8A36CC2D; 0xEC0598EC; 0xF731E430; 0x7FD9A11F; 0x49338E4D]];
  [[0xDA6DABAA; 0xE038CE03; 0x7C1BCE0C; 0x13A08DCE; 0xDA89EFBF; 0x12D00DD0; 0x6FCF0510; 0x70A13FB9];
   [0x5CDB03E2; 0x16ED1C92; 0x8E9EE4B; 0xDF1AB61D; 0x3AF3E3D; 0x48983DA8; 0x429DB770; 0x63CCA113]];
  [[0xCFB805E5; 0x6D9AC1EB; 0x50FA37B8; 0x47C3FE69; 0x2C33D457; 0xD308EC73; 0xD4CCA340; 0x3CB08E00];
   [0xBE862794; 0xC078DAD0; 0xF4E10A57; 0x2D147F83; 0x3DE1B3D5; 0xE91820FF; 0x6F30491B; 0x3D85DD72]];
  [[0xF5CBDD3A; 0xD486A022; 0xCAC0B99E; 0x2663134A; 0x5F3ABFCA; 0x42DE13F5; 0xB365B973; 0x4967A225];
   [0x10F1F997; 0x99C98A25; 0x7714FAB2; 0x23F057C9; 0x1BA2338D; 0xCE07CA6E; 0x69F65D7; 0x3BA69161]];
  [[0xC026FB0E; 0xCCD8C86F; 0x50407A8C; 0xF49F1FEA; 0x7F19A1DB; 0x72FEA37B; 0x3F457DB7; 0x22A03E25];
   [0x71F736D2; 0x2D6C62B2; 0xA5ACB4E5; 0xCC99F8E7; 0xDE5F380; 0x8F7DBF2E; 0x352B4933; 0x24494786]]];
 [[[0xAE2A5E8F; 0xF020E7A9; 0xD14C5F02; 0x5ADC788B; 0x65C84DB4; 0xC5E5AFE4; 0x35C2633C; 0x392FACC4];
   [0x42DEE269; 0x47D50070; 0x6EB7849C; 0x76706ED7; 0x316548CB; 0x6BF56D56; 0xD37FF4DF; 0x4A466066]];
  [[0xC30283AD; 0xC8EBBFB5; 0x3544E645; 0x31E9CF96; 0x88886B50; 0x90EA9A49; 0x21D3D5D; 0x5E4B8C88];
   [0xDFEB658; 0xA4DB9225; 0x1910FDAE; 0x8AA95DB6; 0xDE400EB9; 0x82E9A997; 0x96769A04; 0x238967E9]];
  [[0x89E2DF0A; 0x1ABB076A; 0x7065929; 0xDA8B09B0; 0x63BD349B; 0x332BE8A5; 0xA2D35385; 0xEB973CE];
   [0x9C7D375E; 0x67F7AE63; 0xE7AE90B1; 0xA235818D; 0x817493B0; 0x2B59C26E; 0x33C4ACD6; 0x39DC1050]];
  [[0x7B7DB3F5; 0x11801ACE; 0x8CC97CA5; 0x79C214C3; 0xBF2674BF; 0xB4BFE1AB; 0x43252011; 0x598EA7DC];
   [0xB08F8EF5; 0x217FF6D3; 0x8B9226B7; 0x9797BBC9; 0x7B0EDB09; 0xAB8E98C9; 0x83A401F; 0x240EC22D]];
  [[0x459ABC3D; 0x55A75BCF; 0x64ECC2DC; 0xB2F98598; 0x9EE84779; 0x271C47C3; 0xBF9BDBF2; 0x166E5D4];
   [0x4215B666; 0xD205380F; 0x64E9FE64; 0xF7041396; 0x2BB0DA40; 0x4C737E94; 0xC8119691; 0x2E763521]];
  [[0xFD2F8593; 0x79550B60; 0xC17A56F; 0x47E00AFD; 0xB44157CF; 0xD900A9D; 0xA81BED76; 0x16CF746];
   [0xAC47A84B; 0xC21E861B; 0x1724BD47; 0xE14387A; 0x2077F7BC; 0xC209303E; 0xBAD12F0B; 0x33B5EB59]];
  [[0x9850FC1F; 0x7152354F; 0x83637934; 0x1239576F; 0x82AF46BA; 0xB00C4E4E; 0xEC3FEEFF; 0x563D5062];
   [0x33D67B7F; 0xEF25E373; 0x50D9845E; 0x3A80A50E; 0xA5787EF5; 0x1DCED1E9; 0xA0F87C3C; 0x15723E9A]];
  [[0x2B4A156D; 0x21743511; 0xCD12BD2B; 0xB75C041C; 0x79F393A6; 0x6947368C; 0x76420E56; 0x32CDE49E];
   [0x43D612FF; 0x67FBA315; 0xE3B87BC2; 0x697F7FAE; 0x7391129A; 0x980DAFBC; 0x6F707469; 0x438B2858]];
  [[0x5E9D085F; 0xDA8AD16D; 0x768FA87C; 0xE636F1AF; 0xB85FF1F1; 0x8520756; 0x6ABB31BE; 0x1B818481];
   [0x2E686F1A; 0x25B3DCB9; 0x2B0CB829; 0xE1282134; 0x3B9B759C; 0x626232BC; 0x38C4338E; 0x797316BB]];
  [[0x4A62DCBD; 0xF8365B64; 0x6BF0EFED; 0xC2CF51BA; 0xABF74764; 0x37E379EF; 0xA350D603; 0x5DC32071];
   [0x5B732100; 0x5465CC80; 0xB3BB5366; 0x3231B4E3; 0xD0D067CE; 0x23F5385E; 0x67D33451; 0x76CD7621]];
  [[0x55D857DD; 0xC6C93A05; 0x8F308F7F; 0xB4B6F176; 0xC0F13577; 0x2371CD88; 0x70807D9D; 0x1E507D6C];
   [0xC73E8E2F; 0x7A77CCE1; 0xFCCBDEEB; 0x1DD96274; 0x3F378B8; 0xA4DBEA5D; 0x2A1C347F; 0x44B4DF55]];
  [[0x8D067A47; 0x9853D282; 0x86813E74; 0xBF0ADAF4; 0x39409037; 0xFDE1F24D; 0x973B045D; 0xE629604];
   [0x3BB92FAB; 0x9880A74B; 0xC6C4D6C6; 0xBC4E3405; 0x5184A2D6; 0x98C24318; 0xC210C183; 0x7D65412]];
  [[0x441A5FBC; 0x3938E528; 0xCCC66B22; 0x2CCD837D; 0x5E606282; 0x75FADE7; 0x4BB0E76A; 0x32181165];
   [0xFC929890; 0xE7240305; 0xE03AAA52; 0x1FA427C8; 0xBC7B9F8; 0xF23C879B; 0xD6BBC908; 0x699A1235]];
  [[0x14124B8A; 0x20C29781; 0x48000278; 0xC6464B3; 0xD644E10C; 0xF1939127; 0x4EC07EE3; 0x47A479E6];
   [0x77023389; 0xB6315768; 0x8BFDD90F; 0xC0FD319D; 0x6CB022D4; 0xEBEC200; 0x302F58EF; 0x6810DF3D]];
  [[0xACB1C3F2; 0xCF97FA07; 0xA2C3F2F1; 0xACC60D84; 0x5DEB73D4; 0x4EF3CAAC; 0xD5472C1D; 0x654D0D90];
   [0xE4729062; 0x5A39A718; 0x8324E0F2; 0x84B286B0; 0xD21E8457; 0xA07A01CB; 0xB094714E; 0xEC091C7]];
  [[0x895736BD; 0x7AB81940; 0xE4679DF5; 0x9AE791B7; 0xF064109B; 0x36163D81; 0xE956B07; 0x3DDEE4A4];
   [0xFEAAE47C; 0xE146E7EE; 0x6A8EEC03; 0x81C0C2A7; 0xA8C315CB; 0x10BB8DD9; 0xD21B9AB0; 0x2CB423D8]]];
 [[[0x166A5B9A; 0x5B11D3C7; 0x8768861D; 0x973627BB; 0x5A3E442A; 0x82A5E2CD; 0xDDE63678; 0x13F6C741];
   [0xD892738E; 0x8DAA3C74; 0xA932376F; 0xA07D651; 0x6892504B; 0xE12612C5; 0xCA3FF301; 0x619D2B1D]];
  [[0x1B07CEB7; 0x2B6D686F; 0x298D0996; 0x90C0260C; 0x102BC73C; 0x8CAAB926; 0xAEB3911C; 0x445A6487];
   [0x57F17290; 0x7EE1E547; 0x417711BF; 0xC055478B; 0x5CFA42C2; 0x29EF9FEC; 0x2B8EA0D6; 0x5A022DE4]];
  [[0xAEEB2675; 0x81A5EC18; 0xAD1BBA8A; 0xA867C5AA; 0x8DB47EBC; 0xAECB3688; 0x26D1038F; 0x77CE00BC];
   [0x3E68504B; 0xADC635EF; 0xDAE8AF4F; 0xEFC21DE; 0xAC70C4C9; 0xDE57FD43; 0xE78FFC0D; 0x123360BE]];
  [[0xD82B61DB; 0xD608DB32; 0x8E45C853; 0x5AF2A90; 0x9D3B0032; 0xF1B8213E; 0xCAD15361; 0x2312F8AB];
   [0xC29EE818; 0xDC8D8E32; 0xDE5CD587; 0x7D7A475; 0xC6C38B8; 0x76610913; 0xD7984BD9; 0x131B6C6]];
  [[0xCF69C844; 0xC05CD4D0; 0x81A9B005; 0x747C092D; 0xD9E39F54; 0xD793551; 0x7FFEF17C; 0x3BBB00DA];
   [0x655AD7C1; 0x6CAB83D9; 0x66A8F590; 0x601BECD0; 0xAE51811B; 0xFADB086D; 0xD69F734B; 0x7768A5D8]];
  [[0xF0E2385E; 0x3BB9B347; 0xF7D39F23; 0x376C8C48; 0xD82EC840; 0xE656C1A4; 0xFC2AC59A; 0x328B25C9];
   [0xA046BEE6; 0xD02B2F39; 0x80066D6C; 0xDBAB19A5; 0xE938B7F7; 0x6A2E8F67; 0xAA7F2661; 0x645A57A1]];
  [[0x9A006FAE; 0x6227904D; 0xB598CB72; 0xA975FC4C; 0xA1120B82; 0x945BFC2F; 0x2AC15CE5; 0x437A8AB4];
   [0xF53317C; 0xA512A107; 0xFF9BD7D6; 0x7B552554; 0x54155AF9; 0xF81213E7; 0xFDCE0842; 0x923F42C]];
  [[0x5216BB55; 0x13523916; 0x599CA117; 0xF27E4C7A; 0x7DD95BE1; 0x464D040A; 0x3C417D05; 0x40897486];
   [0x7C88E5D7; 0xA3D16BF; 0xC13B286F; 0xB94C661; 0xE2214821; 0xF73C7126; 0xF2F6DAFA; 0x4B3D5BF0]];
  [[0xF1A4332A; 0xCFABD8A2; 0xBAAC9A51; 0x56DB1546; 0x4416247; 0x8CC5204B; 0xF0583310; 0x75EC13BF];
   [0xD35B55D0; 0xD68896E; 0x67FC14D9; 0xE89274E2; 0xFC322878; 0x18D425C0; 0x916C714A; 0x69477DD7]];
  [[0x9BDDF0F9; 0x427CBB6C; 0xDB9F52CB; 0xCF6941E2; 0x35E60DFA; 0xEF144DF6; 0xB61DF45C; 0x27B5246E];
   [0xB8D3D1D9; 0xE124518; 0x8B313B95; 0xBB3BA134; 0xFA2B7A9; 0x50DCBDF; 0x1D0A99B5; 0x50DBCF6D]];
  [[0x3924A1E5; 0x8A8B22CB; 0x118F9D55; 0x86CB4C5A; 0x5B339C53; 0xE5330ACC; 0x66A35A67; 0x6D5FDDF9];
   [0x6F6438A5; 0xC9500719; 0x7E5394E; 0x9723F2BA; 0x866B45A8; 0xA9CE2117; 0x45CA2CA; 0x1B737D8D]];
  [[0x6EE00E30; 0x6093F5A5; 0x5DE0A6FC; 0x5CAB98D4; 0x65DE754F; 0xADFB652C; 0x862EFD1D; 0x679900D1];
   [0xAFC5D235; 0x6E5C230F; 0x12CF6DD3; 0x3A1E5579; 0x3FB4FA0; 0x241C20FB; 0x20F6C013; 0x562FFAE3]];
  [[0x397F25EC; 0x6EFC732F; 0xBC1F03B8; 0x304D1F7D; 0x8890DADE; 0xA2FA6001; 0x51A25539; 0x4F91F97C];
   [0x48F4EF02; 0xE75F9C50; 0x218AEE9D; 0xCC53F460; 0x10D76649; 0xE7B40489; 0x42ECDBA4; 0x148F90A2]];
  [[0x1F683AD6; 0xBF45023A; 0x95E868D1; 0x2EA5F70C; 0xA97F2DE3; 0x47A19F33; 0x8A76ED9F; 0x3C8CCA9E];
   [0xE1A268D0; 0x1562C6E; 0xBA4EF01E; 0x9EB6EBAC; 0x342410FB; 0x835E64D4; 0xFFF4594D; 0x6F96B87]];
  [[0xD233612B; 0xE49A383A; 0xC9C14F64; 0x3CA5421F; 0xBB53DF81; 0x25192E1B; 0xA94C046C; 0x3C1451FE];
   [0x423FAA8; 0x72B270F8; 0x3763888A; 0xFF63513D; 0xC1745190; 0xB22F2F20; 0x35DEA32C; 0x2E005A7A]];
  [[0x6305B2EB; 0x6B5A4E7A; 0x9CCD05D2; 0xF017BCA1; 0xD19AD8CB; 0xB37027C9; 0xCBB36A6; 0x2CFCB470];
   [0x663F3485; 0x17F4FE51; 0xDC3467B; 0x7DC20A17; 0x4AF63CBD; 0x6B56BA3F; 0xD5D64AF; 0x4E7CF289]]];
 [[[0x7F59D2E9; 0xE2C5CD1F; 0x9D7FBE1E; 0x6B9ACEB7; 0xA20225B0; 0x84F0441D; 0x8B369FBC; 0x15875CDA];
   [0x659E294; 0xED133277; 0x7AE02043; 0x7FAA913E; 0x9DCEDE14; 0xCA0E58DA; 0xCDE68547; 0x5F6A70FD]];
  [[0xE7282711; 0x524B790D; 0xBCA05694; 0x4B4F6246; 0x949AF774; 0x85169ECB; 0xCC743068; 0x5B168842];
   [0x31FB3BA3; 0xB8D0E9F2; 0x62D471C7; 0x56DD4BC3; 0xE2A34F75; 0xB14D689C; 0x2E8D2D2; 0x7F4E1717]];
  [[0xB17090B9; 0x8EE3491A; 0x6B7EDAF4; 0x67C07116; 0x4D0E6CCE; 0x6876E4CE; 0xBC5A86BE; 0x6D2FBB64];
   [0x70FA8C3; 0x431C67A; 0xF5D65F4; 0x91EFF9BE; 0xE07088DF; 0x332985E2; 0x676EADA8; 0x6D2583]];
  [[0xAA747D6; 0xA1FBCC37; 0xB0DFDF3C; 0xADEA4A90; 0x401ED81B; 0x650162C7; 0xA8B15E22; 0xFBC4841];
   [0xBF98CDAC; 0x1044B4E8; 0xECD1C668; 0x37071115; 0x233C220C; 0x29B93C17; 0xE69BC0C0; 0x4BEBC3CC]];
  [[0x46BF7E51; 0xD1A16E37; 0xF7A7370C; 0x889C7782; 0x3CCB474D; 0xC73F396E; 0xB9D67A2E; 0x1C508F18];
   [0x6B03B7E7; 0x3F17E967; 0xF857BB26; 0x3928F1D8; 0xC0EA8620; 0x3086FB2E; 0x1BE7C3E4; 0x15DC32C2]];
  [[0x11F4D949; 0xF48D4C32; 0xB0357C05; 0xE14A4AE3; 0x151D91AE; 0x77A1121F; 0xE8C6869D; 0x33F85C2F];
   [0x364B77B0; 0x8EA3BB4C; 0x9BD43E50; 0x1F155B91; 0x54748E7D; 0xA6C28730; 0xE7DDC539; 0x5AA34DDA]];
  [[0xA6CF8A82; 0xF0F80DDA; 0x91663B5; 0x87DE6D6C; 0x2FE5519; 0x94798734; 0x96722130; 0x109D411F];
   [0xE661041F; 0xBC47CA73; 0x65741541; 0x71D6059; 0x7E08735; 0x7CD4DF66; 0xE68FC807; 0x175E1F77]];
  [[0xDA58865B; 0xB88BDAB8; 0x20ED2B89; 0x14AD9112; 0x39BF0A3; 0x2B21AEDF; 0x9D4B77E9; 0x78971777];
   [0xD6612EF3; 0x133DA2AC; 0x12AD1785; 0x6260FCF5; 0x9DF08843; 0xDBA784DA; 0x4449FBD1; 0x1A30C4CF]];
  [[0x4EF7ACA2; 0xB6FECE87; 0x13F7C58C; 0x9CE7B61A; 0xF8719A60; 0x6B0223C9; 0xA3B3B088; 0x21199AA5];
   [0x6938BB02; 0x4A717196; 0xE7ABC263; 0x2E9A17C9; 0x4BAB12B7; 0x83F79623; 0x49D7CFBD; 0x15C0C4AF]];
  [[0x56D2957F; 0x99B34139; 0x7218BB6; 0xA51B8DFD; 0xFC91D7C9; 0x47CA4323; 0x3DCFD5F0; 0x44B01E75];
   [0x8CE894F3; 0x29F9D18E; 0x95227C6F; 0x22BCC540; 0x3FC75409; 0x815CD936; 0xD8989472; 0xD58B325]];
  [[0xB6C80208; 0x8B4C6980; 0x8FB77CCD; 0xA5D97497; 0x9477132F; 0x1B896571; 0x3AE45F53; 0x348ABC21];
   [0x14BCDB96; 0xE438C1C3; 0x8007C1BF; 0x63150CF9; 0x8508B903; 0xDB861A33; 0x7B04ECD6; 0x421DFB01]];
  [[0x19430E7B; 0xF2FCE58B; 0xD0F8ECB7; 0x851A5F03; 0xA5A1833; 0xE756C167; 0x227F866C; 0x25A51405];
   [0x3C6EE5F3; 0x40F34CB0; 0xF244B5CF; 0xF4010401; 0x1349BCF; 0xE21BDED; 0x4547F42; 0x1B129D82]];
  [[0x927D153; 0x802EC480; 0x72541520; 0xF75E4FE; 0x26C4613; 0xA4A1557A; 0x7D92BC18; 0x25E8DAFB];
   [0x12F15F05; 0x1D87A143; 0x7B6B4240; 0x79390E3C; 0x492E6273; 0xFC199D76; 0x7EB090C0; 0x53F1C4]];
  [[0xACEE6DFC; 0xE790F1CA; 0xDFEA04FF; 0xC8FB4626; 0x627D88D7; 0xBF03627F; 0x3D81A75A; 0x1B369884];
   [0x917FA19D; 0x83405DDA; 0x8C7DDCD2; 0xFFB23FF9; 0x40F10B48; 0x644F54C7; 0x17FF713A; 0x4636FADF]];
  [[0x27F417E4; 0xDA62ECC2; 0xFD8662BE; 0xC0DBE48F; 0x1011E73C; 0x729EE4AA; 0x3E11C84B; 0x4BAE5D3C];
   [0x6CEF6CDA; 0x854DFFF8; 0xCB7131EA; 0x7939228C; 0xD3EBC607; 0x58B3744A; 0x2049E239; 0x6EB9248F]];
  [[0xED0D4E57; 0x265CAE9; 0x8AA65AEF; 0x92166D02; 0x198345D6; 0x2E337CDA; 0xABE1AD7B; 0x6775330C];
   [0xBF6FBC7D; 0xA9A828A8; 0xCBFEA393; 0x33A56F8D; 0xD811EC51; 0x2DB72F77; 0x8327C78E; 0x3DDFCD26]]];
 [[[0xB46AA2C4; 0x7CF8A521; 0xACF0D567; 0xE3B20937; 0xA440648E; 0xD47D8D1B; 0x1E9791A1; 0x674E7920];
   [0x18366462; 0x27B714EB; 0x8476F588; 0x1526E558; 0x6C240D70; 0x72C8D374; 0x805C1265; 0x66BBAFB]];
  [[0x457034E1; 0x15F1CFF5; 0xDD819FA7; 0xCF7C6550; 0x77AC7AD6; 0x57C2CD53; 0xAFED669D; 0x7DB2A8BE];
   [0xD4697340; 0x2DAFD95F; 0x15A6B6E7; 0x382FF892; 0xBF4A6B1B; 0x36FC753; 0xE4012711; 0x3E7AC46D]];
  [[0x5752A34D; 0xBA5ECDED; 0x6BAA08DD; 0xB08749D4; 0x4A4A47A8; 0x8A2B9897; 0xE42DCE02; 0x7230966F];
   [0x58654FF5; 0xA6FF614A; 0xAB3C2A7E; 0x7F3531D1; 0xD0ED417; 0x282A2F0; 0xEA9755A3; 0x2DC7B872]];
  [[0x2392536A; 0x7678D765; 0x574C657D; 0xC2025F1; 0x795413DC; 0x1701C80; 0x5396279E; 0x63F0D496];
   [0xFA32EA64; 0xB0F9968A; 0x5BB393DE; 0x81265D15; 0xBCD8C10; 0xC05ECC6D; 0x2824457E; 0x4F3769F9]];
  [[0xF13DB92E; 0x9AA58686; 0xED2E1B18; 0x1155CDF4; 0x9823F5A; 0xA06E9194; 0x4257AB0E; 0x7F1BBE73];
   [0xABA6FCD1; 0x2DFB6472; 0xD73D850E; 0x4BE6BCA; 0x297D312B; 0x72AAEC34; 0x7509D9F5; 0x31F4C02C]];
  [[0x7CA72AD5; 0xAA9BA000; 0x7FBCB4D6; 0x21EE2945; 0x1CF8580A; 0xE210AAB; 0xFA8DE10; 0x600479FE];
   [0x54322F70; 0x246FD265; 0x60DF1893; 0xC60BE9BB; 0x5137E38; 0x4D4F99D; 0x6164C176; 0x6ACB9E01]];
  [[0xC1DB7B6C; 0x126F2C7E; 0xCF4DD3C0; 0x4C3B30B5; 0xF782A489; 0x827D57A2; 0xE52621F0; 0x41B897DE];
   [0xDDA0A3CD; 0xED31C55A; 0xA11AD179; 0x21C91BB2; 0x43FD6E23; 0x60E606B8; 0x51ED7FA6; 0x31B8138D]];
  [[0xE72E4BC5; 0x1387B313; 0x82EBFC72; 0xDCCCB09C; 0xAA4432D6; 0xF0B01202; 0x7C52B69D; 0x632599C4];
   [0xBCE9A04C; 0x3922D0C0; 0xB53F4268; 0xC2397D88; 0x669858; 0x50AE5ED9; 0x16C7696B; 0x1B2BD4C2]];
  [[0x2BF7DF06; 0x6FAE1B08; 0x5210DB3B; 0x870B3FE8; 0x9BDC0B91; 0x680BE422; 0xBCC970AD; 0x56BA83C6];
   [0x859D6C78; 0x1AE91BAC; 0x2895A1A6; 0xC5BDD5FB; 0x550610F5; 0xA169E73C; 0xCC7D3EA; 0x1B46767]];
  [[0xEC5ECE2; 0x1E147A51; 0xD0E2C46C; 0x9B612A1F; 0x5E293783; 0x664FDD55; 0x67DC4DBC; 0x52070E15];
   [0x4A4903FB; 0x449B53E5; 0xA8D30103; 0x79B53583; 0xAF7CC314; 0x616C97F3; 0x2849862C; 0x6BEB304C]];
  [[0x19F0313; 0xB9C636D6; 0xD3E0188D; 0xB08E7CB; 0xD704DE15; 0xEAEB1715; 0x837E7543; 0x4990282C];
   [0xFBD3A061; 0xCBB0BD49; 0x1DA124AE; 0x3454A8AC; 0x37D64EAB; 0xD524A02; 0xB3E4ADE; 0x76680749]];
  [[0x95B04835; 0xC293E011; 0x23D0C885; 0x76D304BA; 0xD6552D80; 0x36A63627; 0xC504CCAB; 0x3B4FA680];
   [0xE1FC08DF; 0xF25B3A04; 0x62D080F8; 0x786380E5; 0xDAC0D110; 0xA731427; 0xD628429A; 0x1D65288F]];
  [[0xDC94453E; 0x3CE5E929; 0xB6073324; 0xEC7CF988; 0xDCB35234; 0x23361E7; 0xF5E89B7C; 0x3AF20624];
   [0xA5B2B103; 0x860F188E; 0xCB6D112F; 0x5EAC84CE; 0x914C9FFD; 0x63B200C3; 0x55A1FDCB; 0x327870A0]];
  [[0x155280ED; 0x4F94633C; 0x3654B8AA; 0xF98321D5; 0x489AE89A; 0x9C057A23; 0xD59CA3B5; 0x1124A1FB];
   [0x1F64AFD7; 0x2F4CE052; 0x7C789152; 0x841EE441; 0x59A98374; 0x93531ED4; 0x36BB8F07; 0x69A4F48C]];
  [[0x5FD512A7; 0xD8FFD243; 0x9BEA1738; 0xF48C96F1; 0xFFB4553; 0xF70E1F6A; 0x5FF91D21; 0x29DB63B1];
   [0x77BF7279; 0xC1355C23; 0xA2FC904D; 0xD3946EE9; 0xE7B7A9F4; 0x7223881; 0x56E08ED6; 0x212D8967]];
  [[0x45503451; 0x32B8C22A; 0xE6AB7B3D; 0x9E4FDAF1; 0x4A31294; 0x7A300E3D; 0x5FE2AEB; 0xF529DFD];
   [0x9951B6FB; 0x7EFFEA9E; 0x336B9A2B; 0x18C60266; 0x6C8D0EEC; 0xB78A5EE1; 0x46ED0B23; 0x68C17FE4]]];
 [[[0x96B3222E; 0xF707FAD5; 0x223F804; 0xD6AF6161; 0x4F43A0E9; 0x13FFDC74; 0x3347F487; 0x6A3B70E9];
   [0x6A4AF4F5; 0xBDDF02A4; 0xE4C69950; 0x61B451E1; 0xF9E3BB99; 0xFF854590; 0x7CD54C54; 0x46EB1F69]];
  [[0x8E6848D3; 0x70E643B6; 0x848C2587; 0xC58B8519; 0xEDF4A38E; 0x2F195C54; 0x3D2A52E8; 0x206E6A32];
   [0x417595BF; 0x234845B5; 0xFF5AE3CB; 0x90354373; 0x89C0E555; 0x13BE31CE; 0xCC67E26F; 0x2D18AA43]];
  [[0xF041BD17; 0xC74EE8C4; 0xC2B3CC64; 0x655CF527; 0x160FF053; 0x6735CF0A; 0x4218A0D; 0x35DAB9EB];
   [0xCBC34E46; 0x32BB2E9A; 0x7D190342; 0xF780CEAF; 0x9F0DA1A4; 0x161C0C1A; 0xE7642FD6; 0x7B198C9E]];
  [[0x122FD0B4; 0x936C763E; 0xA7E0C435; 0xA3819ED9; 0xCAAE6D7B; 0x86228B04; 0x7A3C65B4; 0x2E116018];
   [0xD4EB0345; 0xF55BB1F3; 0x630B569; 0x858A0BF4; 0xCB78A626; 0x8CC22657; 0xB45E3005; 0x7CD93BDE]];
  [[0x98E517AB; 0xCAA1F459; 0xB34A6F5C; 0x36E60281; 0xB46F47F; 0x877A49F3; 0x9E7BE761; 0x179824B];
   [0xD455D9C0; 0x6830A2B2; 0x7BA31962; 0xB734BA0A; 0x65C3B51; 0x344665A4; 0x562E7F1D; 0xB1D2210]];
  [[0xB2E22E8; 0x289BAFCA; 0x83390107; 0x38929A0; 0x683E782; 0x968A014D; 0x53D34463; 0x5A1AD5C8];
   [0x9527B2CA; 0xA2613334; 0x310B745F; 0xE8471271; 0x31387F59; 0x49C81A26; 0x343C691; 0x1B955AF7]];
  [[0xA4A9FCA4; 0x69328AD; 0x624FCB94; 0x14EF09A7; 0xE3E0CECD; 0x21C76F0D; 0x6C1BCE0F; 0x5F470B86];
   [0xB15BC8B4; 0x79319A3F; 0xDB06AFA1; 0xB1407CB1; 0x911116E0; 0xD69E9E09; 0x756579E; 0x6E77524E]];
  [[0xE2D851D5; 0xD3EC5EBC; 0x3B63143; 0xC888BC23; 0xDB0C357F; 0x5F3DE41E; 0xC3D47D37; 0x646FFBD3];
   [0x692639B; 0xE53F8BEB; 0xD4FBC3D4; 0x7E194E37; 0x452B2A2E; 0xE1988A22; 0xB013F9E1; 0x5D359A15]];
  [[0xB2A6627D; 0xA48160A7; 0x3CE8789E; 0x5EFDC848; 0xB1CD14EE; 0x264CBFF1; 0x44D84222; 0x288823D4];
   [0x3A6DB1F8; 0x2F091B23; 0xCEA89B44; 0xBFD737B5; 0x17F5E969; 0x682AB86C; 0xABB0FA87; 0x7653005C]];
  [[0xD4B8A43A; 0x619C2629; 0xB6DAF943; 0xBFDAF433; 0x6D640DB8; 0xDC7AA1EE; 0x3B08D55C; 0x35ADEEA8];
   [0xD7AF5382; 0x30935454; 0x3D68A24A; 0x1F9C51A1; 0x78BDBEA9; 0xDBD13CFC; 0x31210A3F; 0x3B6D99]];
  [[0x9C2B515D; 0xD4547A32; 0xFECDAAA9; 0x4AF29AA8; 0xE401D5AD; 0x85C80ECD; 0x8AA315A1; 0x2830332D];
   [0x71DCE198; 0x56758823; 0x6ACBDEE3; 0x55AC9D10; 0x575CF4BB; 0xF6D468CF; 0x576B5C4A; 0x46E4FA98]];
  [[0x20D859EF; 0xAD20F820; 0x2A5462B0; 0x38091588; 0x2135DA7D; 0x35F45C9F; 0xF7F20DBD; 0x6B426F91];
   [0xF96E77D2; 0x4A0D8CBE; 0xCC51D3F4; 0x8FC36F5B; 0xBE16A0A8; 0x7A1870DD; 0x114DB780; 0x29C3E2B3]];
  [[0x21779E6E; 0xFF692A4C; 0xA6026EC1; 0x698231AB; 0xEF03E21B; 0xDAB0D835; 0xC846D56F; 0x770BFFAC];
   [0x3B8B0747; 0xCD28722D; 0x32AE95E5; 0x3DEFE040; 0xF9857D6; 0x6F5D816A; 0xFC630F5E; 0x2E483FED]];
  [[0x967C7140; 0xDBF82EC4; 0xD20A2A5; 0x6265CAD1; 0x5862DEFE; 0x1509652B; 0x94A284E5; 0x699DD939];
   [0xB2CC732; 0xC0116646; 0x94C3EF86; 0x583FE012; 0xCD353430; 0xCD5DAEA8; 0xC7ADA62B; 0x2B39A746]];
  [[0xE4257BBC; 0xF449B989; 0xA90DCCE6; 0x95BA21BA; 0x93CA4ACD; 0xDD53AD5C; 0xBB4213B; 0x7FCF2738];
   [0xC2E7E54E; 0xE57C1C0; 0xA1A0E975; 0xD1769DAE; 0xC3B6E13B; 0x68F62C4E; 0x781242D8; 0x75152F9A]];
  [[0x24B8B820; 0x4D582768; 0x5BBD9F84; 0x36E37AC4; 0xDA076F12; 0x1F34414A; 0x3E0333C6; 0x8A77C28];
   [0xD9193382; 0xBB1F017D; 0x83A5612D; 0x56E9AA24; 0xD0B4554F; 0x6959B02B; 0xE4559B52; 0x2479BC56]]];
 [[[0xF570A8E; 0x96D631C6; 0xD714B807; 0xE3F566A3; 0xEF7E1550; 0x564DD512; 0x79FA2F58; 0x1C5CF24A];
   [0x897958DB; 0x973BA599; 0x11A9CBB1; 0x93951D17; 0xA37A969A; 0x86BA17F6; 0xA069B195; 0x4807CAC7]];
  [[0x6665B35E; 0xB64AC0D4; 0x7EF72C68; 0xBA9CD394; 0x9C4CBC44; 0x838807B2; 0x82770197; 0x2675D268];
   [0x17087FA9; 0xBFC2F137; 0xE7B79B31; 0x811E644B; 0xC963A061; 0x597CE23F; 0x2EA0DEB0; 0x40BC32E4]];
  [[0x27C85959; 0xC0AEFB50; 0x58E0FDD; 0x76D1087E; 0x7E51A6F8; 0x6ADA5AAF; 0x54A058D; 0x424B16E0];
   [0x63AF9766; 0x9A2C20A9; 0x3CF18DAB; 0x4C1CB532; 0x6C5D6A00; 0x599CD929; 0x8AA311BF; 0x57C39BAE]];
  [[0xCD987F02; 0x3FDF5B46; 0x353175C4; 0x57755078; 0xCD578394; 0x80223EC0; 0xAEB7D278; 0x4BBA6AC];
   [0x8688BFB2; 0xD27FD2BE; 0xC27A62E5; 0xB2F80278; 0x339429D8; 0x8BA6FB07; 0x3AB70AA0; 0x57737FF6]];
  [[0x8EAEB3C9; 0x140E47F; 0x735AC8EA; 0xB91C9798; 0x83D4EFAA; 0x325E0312; 0xD9C5888E; 0x1E7DA3BE];
   [0xF7F1EB13; 0xA210CDA6; 0x936EA9E9; 0xEDC1F6B3; 0x1B097F65; 0x46E831C4; 0x1939A0AE; 0x857601]];
  [[0x1F68BB40; 0x7C26F711; 0x39DDBE6D; 0xEA69C845; 0xE5316F22; 0x590BF426; 0xCC2DF9C9; 0x40CDC921];
   [0xF3F991C6; 0x28A32DDE; 0x5356CA78; 0xD75B59E6; 0xD1F5F318; 0xB5DD3861; 0xE7929834; 0x9EB1A2D]];
  [[0xDBC0370D; 0x701F9A2D; 0x2870B59D; 0x559D0FAF; 0x55367B5D; 0xE89E5DF0; 0x74005A58; 0x22BBD4FC];
   [0x99CDC76B; 0x7ACED1E4; 0xE3C219D3; 0xD41C827C; 0x8221D91F; 0x5AF3F2AE; 0xE5B6BC98; 0x6D62C990]];
  [[0x7FFC9D0F; 0x23B2A0BF; 0x974CA299; 0xED98F71D; 0x151D559B; 0x10F8C07A; 0x8E949C62; 0x40E46FC3];
   [0xBBE55338; 0xCF53E34; 0x115520D4; 0xF2D6CF26; 0x590B4E23; 0x915FF09A; 0xBEDC75F2; 0x72E4233]];
  [[0x997E9BFA; 0xB67A6B60; 0x973BC3E7; 0xE7686AC9; 0xB228320; 0x9525B449; 0x7ADE8F19; 0x6C727583];
   [0x62FF3D5; 0x3D064298; 0x7E22768; 0x5483826C; 0x1F7A64A4; 0xF4ADE921; 0xBD92EB25; 0x70BDDCF7]];
  [[0x5D8A9E36; 0xA8DB3611; 0xFA81065A; 0xAA6A5F33; 0x366DDA90; 0x8EC120A3; 0xD8A15CF7; 0x2AA0AB25];
   [0xA0DFFB9C; 0x5E11E169; 0x118408A7; 0x8C7572E9; 0x35833ADF; 0x4EEFD13E; 0xFC2C1811; 0x2C6732E8]];
  [[0xB1537DF6; 0x15D063F9; 0x414FCFD; 0x864176B3; 0x8FF9E32E; 0x9C0A194C; 0xDDE1540B; 0x4DB14C6F];
   [0x31F6493F; 0xFAA4AED4; 0xD3C41A46; 0x2C479F1D; 0x8E5E85A2; 0xC3119667; 0x84E9A76C; 0x7E567C80]];
  [[0x689A6B95; 0xB9E2C92A; 0x3B635B01; 0xCCEAC383; 0x34AAB952; 0x4FEA465; 0x63B5CF63; 0x772E5027];
   [0x25830581; 0xCB94F5D2; 0xC77FB7DE; 0x791004AF; 0x5140E4AE; 0x53273C33; 0xA524419F; 0xC2D329E]];
  [[0xB307B0E4; 0xB7CEDA36; 0xF8F9667; 0x12DF7FD0; 0xBF62BD94; 0x74274002; 0xC436C319; 0x6765C73D];
   [0xF6EEC946; 0x79B64CE5; 0xDAB258B6; 0x3B1B4B43; 0xEE1F8B84; 0x377819A3; 0x76D0EB1F; 0x1F45F1D6]];
  [[0x58C953AD; 0xCC5BF9B3; 0x7BAD1D2C; 0x8303250F; 0xF164972B; 0xBCA7BC36; 0xB1DFDA64; 0x2CACF8A9];
   [0xD4E2A06F; 0xB03A59B9; 0x1B7FB8FD; 0xFED68E68; 0x7E747AE6; 0x8F75A52; 0x37A4420B; 0x3299EA6B]];
  [[0x932E5BA6; 0x49A00BE6; 0x56114C4B; 0x49212505; 0x376183C7; 0x786B7D31; 0xDD8A5EAF; 0x1F9E229];
   [0x53094AD4; 0xE9B8E990; 0xBFAEDFA8; 0x2EDA305C; 0x7F9E3BC8; 0x34443726; 0x6B55B3C3; 0x1729519C]];
  [[0x50A597D6; 0xEA5A68C0; 0xF1E86D1B; 0xA65147D4; 0x8B47CDEB; 0x554FA36B; 0x9F24FFED; 0x7F38364B];
   [0x1D2A8E2B; 0x657C7E05; 0xE3F64D62; 0x8270F1A7; 0x953AF5A2; 0xFD258B59; 0x43510AA3; 0x6DE01141]]];
 [[[0xD7A5CBE; 0x48390428; 0xDE441E5E; 0xD37E8C1F; 0xDE31C8C; 0x908C88B8; 0xACD87CE; 0x7C0E24BB];
   [0x25ECCCE8; 0x4A781177; 0xCBDA746F; 0xC06C2F7A; 0xAB565DD4; 0xDB9E9A08; 0xBE776F5B; 0x1E9B44C0]];
  [[0x85B54ABC; 0x7CFD4E50; 0xE7A44F8B; 0x41A4A4DC; 0xA4422576; 0x751C5052; 0xD56B6CB1; 0x534FE0B2];
   [0xD5D767D0; 0x22DAA5CD; 0xAF8E22C; 0x9C1999AB; 0x99259068; 0xC70C0932; 0xFD0839F0; 0x459D212E]];
  [[0xFD32D79B; 0xA207E7DE; 0x410B479F; 0xA7B54991; 0xD68E5CDC; 0x806912B6; 0x92AB8B64; 0x1CB7B68C];
   [0xDF98339F; 0x3DB85378; 0x83EA7A18; 0xA24101DC; 0xE25522C5; 0x8892367C; 0x7753A2C3; 0x491A8BB3]];
  [[0x8C7875A7; 0x571C547E; 0xE9747C13; 0x7E5F23E4; 0x1058548D; 0xF3BBB2; 0xE2397102; 0x7081F172];
   [0x6B573034; 0xB4351B8A; 0xC1A094F0; 0xB35A4F44; 0xAE951E96; 0xE2C1DAED; 0xB9DAA081; 0x5CF2A742]];
  [[0x9828ED9F; 0xB4F0D3F0; 0xA9251386; 0x6DB312FB; 0x537203F2; 0xC9A4583F; 0x9CE76D40; 0x5E099639];
   [0xC9F8CEA8; 0x3381B894; 0x626E07E8; 0x8242DAF8; 0x6077DFD9; 0x64A0B68C; 0x563CF051; 0x3CC462C0]];
  [[0x87AF4A45; 0x8937364C; 0x2DE0FD60; 0x8C4ACBFA; 0x472A5D8A; 0xF10AED11; 0x5380C2E6; 0x3F5674B5];
   [0x2BF8A452; 0x8F4FD0F5; 0xC7390418; 0xB436E388; 0xE6EE9406; 0xAFAB7B7C; 0x951739BA; 0x4F623177]];
  [[0xA9B50F2A; 0x90B0ED35; 0xAC6CF217; 0x46DC3F91; 0x2C7B119C; 0x2F142031; 0x7D79225; 0x55A93CBC];
   [0xB304A642; 0x45E0DD7D; 0xD572D446; 0xB743DFCD; 0xAC74B368; 0x867B02EB; 0x169B94B0; 0x67B2B86C]];
  [[0x483CFEDB; 0x18396DA7; 0x8A3A07C2; 0x6C6E0370; 0xAB554998; 0xF32A1AFE; 0x87D1C136; 0x408C9119];
   [0x4BBE0B78; 0x755F6325; 0xD1178550; 0xDC4A7319; 0xB3B9E459; 0x44B49813; 0x4C3D3620; 0x294B9A9]];
  [[0x67FA6FF; 0x6480F6FE; 0xF307A52E; 0x67891400; 0x7F865DA8; 0x9F846EF8; 0xAE02F671; 0x318DAC55];
   [0xE288A317; 0x91119652; 0x38C61B8; 0x4D7CF2B8; 0x5154C1A8; 0x98F80DD; 0xD239A2D4; 0x10C04F87]];
  [[0x5CA6F183; 0x13460926; 0xD52001ED; 0x5E97AD18; 0xE14843DF; 0x7DCD2477; 0x98A30426; 0x27DAB276];
   [0xE120D80C; 0x7939CAE3; 0x51E5B81A; 0xC9F46466; 0xE2E49D52; 0xED620322; 0xFA172BBB; 0x3C0F5A2E]];
  [[0x5DB1196B; 0xBFFE8742; 0x49B7214E; 0xCD45F8ED; 0xC35F5C33; 0x923ABA47; 0x83F3EE48; 0x16ED1F10];
   [0x99274930; 0x42E6DF0; 0xC5F8EA16; 0xE8AE1DCF; 0xF02EA2B2; 0x4462CB; 0xD284B04E; 0x427F9381]];
  [[0x75EFACC5; 0x4CD481F8; 0x21C83368; 0xD98C3FD4; 0x3894CE88; 0x4335E7C8; 0x955A298C; 0x18321F87];
   [0xD1716E18; 0x73DD00A; 0xFE0BFE61; 0x66D82A5F; 0x2310C532; 0x7D869E20; 0x19BF4704; 0x29A376FB]];
  [[0xC149B5B0; 0xA1B12B35; 0x1E828959; 0x3411B231; 0x560D99FB; 0x56417519; 0xEBB52124; 0x4E0EB143];
   [0x6AEF3801; 0x7B594B5E; 0x9ECB536E; 0xAEE12E; 0x56E23145; 0x6BF0FB29; 0x61AE8E98; 0x2B2D83B9]];
  [[0x6AC27F2D; 0x9CB3E2E8; 0x5A6280AA; 0x82BACA96; 0x2C6B7C8F; 0xCBC6C01B; 0xD0C01ABD; 0x390511BC];
   [0x49551C0D; 0xB322D972; 0x7B6489C8; 0x7905E82E; 0x40EEC20D; 0x4DD0CE8B; 0x2409298A; 0x5C0B3EE7]];
  [[0xB635FB99; 0x4418D685; 0x3ACE8B39; 0x652EA608; 0x46FC4047; 0xE586FBDC; 0xD8CC13D8; 0x3C832D34];
   [0xF7AA54A1; 0x14CC9F23; 0x7153B9F; 0x80D094E6; 0x6A2EED8E; 0x776E540; 0x77249085; 0x3CC3BFC]];
  [[0x1308C1A8; 0x5F8F281F; 0xD1AFC4B7; 0x31C8E737; 0x41AE8EF2; 0x67785298; 0xFD028A4B; 0x17716086];
   [0xF922E100; 0x1A2083E0; 0xD53FE691; 0xD67EC9D1; 0xECCA8DEB; 0x2DF8B6ED; 0xBCCC999E; 0x3B595EE4]]];
 [[[0x5A4B8C04; 0x11F03F89; 0x7DAE8E6B; 0x254C3648; 0x637CDB83; 0xAB6EAAF1; 0xFDDED8F6; 0x41F52243];
   [0xBBDF3270; 0x487078E1; 0x339CEA28; 0x98853B49; 0xAB3EDE57; 0x8AF0522B; 0x85EB4CC0; 0x734D711F]];
  [[0xF86BA644; 0xFD1F46AD; 0xA3299855; 0xA5332B97; 0xD9493634; 0x61BE90DB; 0xC2705911; 0x308F09B1];
   [0xB7918A5; 0xD59F1B1A; 0xCF6399E6; 0x9CF333D0; 0xFBB26B6B; 0xD09C63CD; 0xA6536647; 0x76C27913]];
  [[0xAAAB555C; 0x3DF1811F; 0x886C828B; 0x60853351; 0xF1E87F41; 0xF6CA7707; 0x7D7082E6; 0x5B4F6EDF];
   [0x3F672DE7; 0xADE518E0; 0x22541B2; 0xED0B84; 0x618E8969; 0x4FE5DD6; 0xDB9CCA4D; 0x2F5F5C65]];
  [[0x96BDAE2C; 0xB69B45; 0x770604C4; 0x6DB22CF; 0x856585C3; 0xC2EB7F8F; 0x413C614; 0x6E322539];
   [0x70A46872; 0x22C09EA8; 0x1FF23734; 0x143E73BC; 0x575C20B4; 0xCAC5E2DD; 0x3FEBE787; 0x225E5390]];
  [[0xBE9C512D; 0x594FEA4E; 0x92CB73AE; 0x58507092; 0xB0CE2096; 0xFD8EFC7D; 0xE031D6AB; 0x3B58C199];
   [0x479F23E4; 0x55DA1CBD; 0xA6DB6137; 0x60C6BB5; 0x6864488E; 0xD8319CF8; 0x21B02EDA; 0x6C15A31B]];
  [[0x8CA7084D; 0x13C48372; 0xA171ECE5; 0xF7554E59; 0x23A97699; 0x7425C5D8; 0x71E1120E; 0x6F2C68DA];
   [0x24324B64; 0x9591B9B6; 0xC02AC704; 0x2DA33472; 0x81EE1295; 0xC5DE7FC9; 0x5D6E93C6; 0x6A646A44]];
  [[0xA39D6554; 0x48684061; 0xC3DF57B6; 0xB70ABF61; 0x58B9EEE3; 0x9824AFD6; 0x3A14A733; 0x46EBE9D1];
   [0xD74F8E94; 0x8E70F95D; 0x6AFCA4E2; 0xA9D922A2; 0x6988CC16; 0x519A9753; 0xD545AF8A; 0x711DEF16]];
  [[0x811A2BF7; 0x362A5D95; 0x566B90CE; 0x42A84A33; 0x7C41EC87; 0x25CBC760; 0xD4B7DBEE; 0x6B77E39C];
   [0x833015A4; 0xA98B8201; 0xC31B26F4; 0xE412E217; 0xE0090782; 0x518BE8F0; 0x3DB51D4E; 0x8D9F4B6]];
  [[0x297D421E; 0x2C80CE87; 0xADBA1498; 0x2FD137F8; 0x2899AA14; 0xA2ED3D47; 0xFE4F365A; 0x2AC924A5];
   [0x666DC0A0; 0xAC0389B7; 0x8ABF3D9E; 0x3CC99739; 0xDFBFF83A; 0x33060DB6; 0x339C3B8; 0x54EEE215]];
  [[0x820F7E4D; 0x6C3A4F5; 0x8C3D311; 0x86F083E2; 0xFE4B0476; 0x47E29984; 0xCA7DF6CF; 0x218F52E2];
   [0xBF2C2084; 0x59317E26; 0x289A10CF; 0xEA9C865B; 0x2074FEA3; 0x7AA1E50B; 0x4B3EFC31; 0x708A1D8C]];
  [[0x864817D7; 0x34C5C63E; 0xD89E995B; 0xF614043; 0x975E2A03; 0x60CE8BCE; 0x78493E0C; 0x70916E29];
   [0x216782C6; 0xBD0748F9; 0xED32FB72; 0x51C65A; 0x4DD64705; 0x9DC5F558; 0xEEC14B50; 0x674F1A63]];
  [[0xDB633FD1; 0x73D6E68E; 0xF52F9537; 0x7B5F8303; 0x88A74CFB; 0x980FDDDC; 0x47FC32D1; 0x6419C18F];
   [0x870B5D59; 0x93727B4C; 0xCF28021D; 0x4BCE05DE; 0xAB4F0CE5; 0x3C059B47; 0xB85FFDBB; 0x77CA7F67]];
  [[0xC525088E; 0xDBEADDCE; 0x390D2221; 0x561E12BE; 0xD9BA7AF0; 0xCD224FC1; 0x394DC073; 0x3744552];
   [0x21BB6B6E; 0xCFC67B49; 0x1B5F8E6A; 0xD234FD8D; 0x40B7F8B0; 0x6DDBC18B; 0xDAACCC74; 0x79F40857]];
  [[0x9DD71B9C; 0x30E5F990; 0x291124EF; 0xFCBFA5; 0x49B8C570; 0xBE595A25; 0xBC094446; 0x5B4B8141];
   [0x469191B6; 0xB22B4F04; 0xD73C4D38; 0x10845AC8; 0xED0C8224; 0x39C9F0FB; 0xF5813BEE; 0x7E009DFB]];
  [[0xA61D09C0; 0xA47C2989; 0x59E55A9C; 0x3706F456; 0xEA0259B9; 0x2373976F; 0x77D20CC; 0x13FC0E09];
   [0xE78D29CF; 0xBB24DD05; 0x822CFA02; 0xD8757A67; 0x3C55A4C6; 0x36CA7486; 0x3EEABBE1; 0x4234E689]];
  [[0xB46BDB51; 0xA2F54D14; 0x675BB770; 0x8A530B78; 0xDE9F1F8B; 0x617D7E8E; 0x2DCC4712; 0x799B3E44];
   [0xB486FE8C; 0x658A31D8; 0x163D4AF0; 0x45BAFC29; 0xA5289C8D; 0x3A2C7F66; 0xB91FF3DB; 0x4ECC3C7D]]];
 [[[0xDF4DFD43; 0x738CF1C7; 0xE987084C; 0x72943A2D; 0x2491FF24; 0xEA21C05F; 0xDA050094; 0x3D3F4ED7];
   [0x61C4054D; 0xF90644E4; 0x3A50E82A; 0x25379214; 0xC7DEF970; 0x47EDB006; 0xF53F307; 0xF8F031C]];
  [[0x724976D5; 0x50FEB6D8; 0xF40C7720; 0x57AA499F; 0xDAAF428; 0x6B80AC54; 0x1F6FC276; 0x7AC6845E];
   [0x17A4B9C5; 0x8EC7FAB1; 0xED0C8F97; 0x8336DD62; 0xB7B7104E; 0x6014A510; 0xA2911C30; 0x4991A03B]];
  [[0xCBCC9BA3; 0x6D353975; 0xC4564492; 0x23E97E28; 0xF8AEED3E; 0xDF432FDA; 0x6F6B472C; 0x11DB40DD];
   [0x95AA0174; 0x5B87005B; 0x89D9F1A8; 0x1DB41080; 0x689DF208; 0x5A6BC444; 0xBF38FF8D; 0x16153F87]];
  [[0xFFD3C814; 0xD217003F; 0xFD50AF95; 0x1ADE64C3; 0x9FFB8BEB; 0x1936332C; 0xD70CD8D8; 0x6EE322DC];
   [0xF2A60976; 0xE40A0419; 0xEF93B05B; 0xA62F6FA1; 0x596575FF; 0x5978206C; 0xB68BFE5C; 0x5CDCA200]];
  [[0xB7949E33; 0x3FB16AED; 0x40304A1B; 0x34538928; 0x3BCA4239; 0x7FA35A34; 0xEE76919E; 0x22FD1AEF];
   [0xF6A5D50; 0x1F8FE6A4; 0x26BBA46B; 0x27CC704F; 0x3420CC52; 0x230FD0CA; 0xB3A83D85; 0x3E9E4DA4]];
  [[0x7F5CC75E; 0x1D82390E; 0x49D0A605; 0x70256245; 0x4FF4BC44; 0x5B877813; 0xB5EC02E4; 0x28E6A057];
   [0x2E89FB84; 0xBC7A10DA; 0x20E1EA00; 0x3AF182E5; 0x9C507274; 0x4B590FFA; 0xAA7FD65B; 0x26BA94D6]];
  [[0x238CC195; 0xC02CC77C; 0xA97EE3E4; 0x3F175C97; 0xDFA1F9DC; 0x8A28FA23; 0x1F968D15; 0x35CAC0FF];
   [0x37C7C773; 0xFC41B33; 0xBC999443; 0x71E06B10; 0x2C87B0A4; 0x73A1ABA; 0x9E5E8B70; 0x29F29B12]];
  [[0xE491FE70; 0xAA25F348; 0xC1713992; 0x9371F94B; 0x4FA08818; 0x674B478C; 0xB1407431; 0x6F3C31FE];
   [0xD93DD5E1; 0xBB7D37FB; 0x7E04EE7A; 0xE34A40B8; 0xF3C33528; 0xCF82360D; 0x1477712; 0xA3B8FF5]];
  [[0x6B718511; 0xA4591471; 0xD2FD6B9B; 0x7B0CE8DE; 0x6845DBEF; 0xC42544FA; 0x63AF476A; 0x456A6985];
   [0x9CDE4E74; 0x5DD611F6; 0x2B346AEB; 0x86095683; 0x6E75B3D7; 0xD15C5DA0; 0xC72D5D2C; 0x220FFD73]];
  [[0xD2ED888F; 0x478DA345; 0xE04CBCC7; 0xA69D4FB9; 0xB3F1179D; 0xA427150A; 0xD5CEA78A; 0x1DD3B8C2];
   [0xB8628A22; 0x9462EFF0; 0xB2CB44A5; 0xB2FFFF4A; 0x24039BA8; 0x8234A3FF; 0x916DE889; 0x1BE7202]];
  [[0x6DFCEF0B; 0x51066985; 0xDF20CDEE; 0x25729D98; 0x9693E5EF; 0x872FD39D; 0x2D859635; 0x72D03AE1];
   [0xDACAEB82; 0x3F28F84E; 0xCB5284D7; 0x9EB40FD6; 0xC5F54041; 0x66C2DCA6; 0x1C1F2461; 0x4BDBA382]];
  [[0xE0ED176; 0xE5342197; 0xA225A47F; 0xF588547A; 0x1FEB2259; 0xC83B54ED; 0x92F3733D; 0x1B037913];
   [0x2271ECFA; 0x935C9782; 0x53CFE07C; 0x5F7E94A6; 0x1B40CA19; 0xBFF5B0E6; 0x459445E1; 0x36C7851D]];
  [[0x588C9748; 0xB6547971; 0x11970562; 0xCFD8E81B; 0x702FE4FA; 0x41333C80; 0x962A993B; 0x2F153C8C];
   [0x8BDA48AC; 0x28BBD6A; 0xFE1DB02A; 0x7B076F88; 0x78FB3FC; 0xC9560400; 0x35907EA; 0x5DCC0946]];
  [[0xA6233F1C; 0x93D7CF33; 0xDF2A187C; 0x3184BC4; 0xE83DAC32; 0x291149BC; 0xFAEDF216; 0x575F4279];
   [0x86FC141; 0x101427B4; 0xD288562E; 0xC924F2AE; 0xEEF5799A; 0xDB610463; 0x6A09661D; 0x20F18767]];
  [[0xF59D0C20; 0xE39BB775; 0x723A4EF2; 0x18DA90E2; 0xF56B381B; 0x8E747A7B; 0xF98F26DC; 0x7EF67224];
   [0xE1F94B99; 0xB1373AF5; 0xC3B6AA8; 0x1076FBA6; 0xA3A7811C; 0x7FCD0017; 0x46554E7E; 0x6D1A6973]];
  [[0xB9CED2C2; 0xE5734077; 0x1F770914; 0xC94D17F8; 0x1CD248EB; 0x58B47BCB; 0x24804B6F; 0x2E06538C];
   [0x32E7CA19; 0x275D933F; 0x1FC9241E; 0x1B982B49; 0x3986B6AC; 0x8B8A6ED5; 0x35B4EA6A; 0x17568221]]];
 [[[0xE796327F; 0x90AD05A; 0xAD21DD4B; 0xA78DAE5E; 0x9C2F8CBE; 0x8EEC9EDB; 0x653E0F2D; 0x33E375E0];
   [0x8D67AC72; 0xDA19EFF2; 0x2737AB8C; 0xBFC7E62B; 0x4CF53C12; 0xBBF8BD1D; 0x45C6D555; 0x5ABFE23F]];
  [[0xDE39342; 0x32460B33; 0xB8977067; 0x3567454A; 0xF954592C; 0x10A1E47D; 0x4DD019C4; 0x4DE8C6EF];
   [0x1BDAAAFA; 0x1F1D296B; 0x3A75AD99; 0x4E6B8E8F; 0xA27FE061; 0x259015E1; 0x9F320632; 0x6B6A4820]];
  [[0xA0B5E605; 0x8AA089AF; 0x1B4058FD; 0x1D6C1EEE; 0xB4E89BEF; 0x1D920534; 0x16163340; 0x722A3A35];
   [0xF33B49B2; 0xA3B9178C; 0x65558E90; 0xFF8FE9BB; 0x9794EFAE; 0x94766BC0; 0xFDFAEB42; 0x79A1EFA2]];
  [[0xBCB6D558; 0x2FE44B97; 0xDB8B0A79; 0xB4F4F402; 0x247C32E5; 0xF53D8AB1; 0x4DA4C009; 0x3B883CE5];
   [0x2EC9F1C6; 0xB46168BD; 0x6B8FE01A; 0xD40BDE7B; 0xCDFE509F; 0x60A5C168; 0x23BE249E; 0x3314D878]];
  [[0x4D9F5769; 0x2511A85; 0xB49D6A8E; 0x8398F9BD; 0x5D2D7135; 0xE8D773F3; 0x9DECC331; 0x9B3B8AB];
   [0x584C11D9; 0x8D2B269B; 0x6B6B86A9; 0xF7661944; 0xC7659AF7; 0x719A3620; 0x37C27DBE; 0x3CFC8DF0]];
  [[0x1145B14B; 0x5EE0BE06; 0x23193ED6; 0xAC6950E4; 0xDF244C7F; 0x7291C44C; 0x43D744EA; 0x4650C162];
   [0x34A084D8; 0x60B92D3F; 0x376E5414; 0xBBD44A0E; 0x980F36C; 0x5C0E488A; 0xD7991A09; 0x4E53FCCA]];
  [[0x367B55C2; 0x7A2ADBCF; 0x1FED467E; 0x96A88B75; 0xFB263845; 0x8E75E37E; 0xEB508DD0; 0x4C2E47B8];
   [0xB19FCD14; 0x20BF51DE; 0x14CB67D0; 0xD9071749; 0x29EBDA7C; 0xEC90714B; 0x634C0F2E; 0x4ACADAA6]];
  [[0xEC715EC9; 0xA516B9B8; 0x42B8A87B; 0xC7DCA263; 0xDA27B456; 0x2CE450C9; 0xA8819F; 0x3C974812];
   [0xECDED574; 0xF4822C23; 0x19FA48D4; 0xFA737FAD; 0x45D718E0; 0xE34B2F2A; 0xBEA7B540; 0x1D6F19FE]];
  [[0x98E24789; 0xADC8FCE7; 0x45869609; 0xFE2F890C; 0x78A35C19; 0x6466E03C; 0xC1F34AA9; 0x24C70FED];
   [0x57747DD1; 0x89530F75; 0x2B8CDE2D; 0x343DE05B; 0x35CC8D5A; 0xC33134E3; 0xAC9B4F2B; 0x3CCEFC38]];
  [[0xEF923364; 0x84C904B8; 0xBDDD31D8; 0x46E1FECF; 0xFAE79B6B; 0xA8126DD6; 0xFBF05C9A; 0x4A53C034];
   [0xBE8F255F; 0x44CA3ACB; 0xEC319885; 0x6F0FD374; 0xF1836DC2; 0xADBCB4AA; 0x65187EE9; 0x6CC3A596]];
  [[0xB397B5E7; 0x941E7821; 0xFEE2A9D5; 0xD3457371; 0x66382F60; 0x9F69BE44; 0xA1F49E9B; 0x6DCEAD04];
   [0x3BF21647; 0xDC6BC23B; 0xB5271BE9; 0x1500FD7F; 0xF23FDF3D; 0x9B0994DD; 0x45065CF7; 0x38A2ECEB]];
  [[0xDCA8BF4; 0x2667CEFE; 0xE46EB469; 0x8227ACB3; 0xA75C5B8B; 0x4C20677D; 0xB36ACDFE; 0x224FC5B4];
   [0x7A6A01D3; 0xA0007E14; 0xF8A64EED; 0x15C79558; 0x93DEDC09; 0xFB58A76A; 0x26F10A98; 0x2057DDDC]];
  [[0xBDB27AE4; 0x1FF658AE; 0xDDD96647; 0x7F30DF57; 0xC7294313; 0x63490B8D; 0x5435869E; 0xEAEC573];
   [0xDF115B78; 0x85F05C49; 0x62992F5D; 0x95739C0C; 0x2B573963; 0x72F14319; 0x86328FF4; 0x5600E64]];
  [[0xEAB0F425; 0x9BE7331F; 0x74447C20; 0x2E4CF5AA; 0x66243D2A; 0x9B26F512; 0x84AB5627; 0x77C96722];
   [0x601673B4; 0xEC545427; 0x2F127AF7; 0xEF6A34FB; 0xE2DFD269; 0x519559C1; 0x8258E37A; 0x34D7D754]];
  [[0x5E8B5281; 0xC113747B; 0xE04D779B; 0xC085456; 0x1CCBCFC6; 0x3E326052; 0x2A37D19F; 0x5C954CC1];
   [0x9124435B; 0xB1A4A5B3; 0x18ED98E7; 0x5E8B8D41; 0x144A3793; 0xC973D969; 0x88DD8B49; 0xCB98CC8]];
  [[0xB48D04DF; 0xE0233B2; 0x7BEAA4A5; 0x1B3916E0; 0xB672BE8C; 0xA24A4BE4; 0x845AB94D; 0x7A61506D];
   [0xE7F4CA3B; 0x160DFA0F; 0xD84C1148; 0xA9562C89; 0x92A276EB; 0x52979B95; 0x924E86E9; 0x17869B53]]];
 [[[0x1A86D0D8; 0x5D39F478; 0xFB8BC8A9; 0xDE5932DA; 0x2F5B4B70; 0xD706C6D7; 0x8A36AFC2; 0x53F450FC];
   [0x1E550B3B; 0xE1DC3540; 0x8B7EB6D2; 0x475507DC; 0xDFA2E5F7; 0xF803F78A; 0xC48097FF; 0x40B5F263]];
  [[0x226CDB1F; 0x336FB00E; 0x88215C40; 0xDDC1BB02; 0x73C07FD0; 0x6C4DD40E; 0x8F7D15E7; 0x4D0D2E49];
   [0xD2061402; 0xAF96E9B3; 0x1372FCF8; 0x15A3084A; 0x307B02D6; 0x91B571E6; 0x53AE7705; 0x2239592F]];
  [[0xC20B6645; 0x7D8615A1; 0xC7C4465B; 0xF4875767; 0x861702AB; 0xF6D3E718; 0x131F726A; 0x7F014A53];
   [0xDAAB77CA; 0x30809F8F; 0x28F944D3; 0x7CE8DC61; 0x9AEEF6A1; 0xF915111D; 0x206902FD; 0x246D7CC8]];
  [[0xEF806225; 0x7677488B; 0xF4C75EAE; 0x994C8104; 0x4E0C8988; 0x17586D4E; 0x90E33A2A; 0x70E52580];
   [0x22D2FED; 0xB993F26A; 0x689FBFBD; 0x955C130D; 0xA3612E8E; 0xD3D1C63; 0xB91A8DE6; 0x423D73E1]];
  [[0x3027164F; 0x7274BE08; 0x42FDB769; 0xDE907B49; 0xB697060D; 0x61D74449; 0x26602CC9; 0x18A5FDC2];
   [0x49CAF4A; 0xB08DC02B; 0x78DBA1F1; 0xC84AF485; 0x7178E4DF; 0xA5B3519; 0x5B26D0FE; 0x6EC7A7A5]];
  [[0x88554F05; 0xDEF1782F; 0xD8D6DF47; 0xB73E7333; 0x90E9C67A; 0x1DDF9022; 0xD56181AC; 0x5D217B51];
   [0xE27F90EE; 0x7A338C7B; 0xD84A177; 0xB97CCD2A; 0x7C5E3FA9; 0x3E101601; 0x30FF0918; 0x2706E77C]];
  [[0x72A7CB9F; 0x1BD1274F; 0x622DB90; 0x8B60357A; 0x2151BB23; 0x140E14A; 0xE9A30C4C; 0x358D7DDA];
   [0x89BFB2C6; 0x3B153060; 0xB6757C69; 0x47462C79; 0xB43EF986; 0x2B22239D; 0xB774DE3; 0x6793671F]];
  [[0xF6F8EDC6; 0x99EDB02E; 0xC4257DD9; 0x24432760; 0x336EED2; 0x4FDD7301; 0xF6C6506B; 0x44879709];
   [0x13F18D89; 0x107C7DE2; 0xA5701FBD; 0x71C71DFB; 0xC7DE3E0B; 0x97017E24; 0xFC9EDDC2; 0xF8D7E09]];
  [[0x3897E01D; 0x7A0BB3B1; 0xC5892BDE; 0x7FD4F504; 0xAB752928; 0x2EA9AA77; 0x9078B466; 0x19A82F55];
   [0x55A0F0D9; 0xEF2842C5; 0x15B6F2B4; 0x5501EEE9; 0x942AA4B4; 0x9665EA6F; 0xE707C32; 0x15F41F4]];
  [[0x9C6B6FD6; 0x1B4D6A91; 0x68217AFC; 0xCFD2CEE9; 0xBBC9284D; 0xC5076256; 0xAC36547B; 0x4C7F4EEF];
   [0x65EE1907; 0xAB1AAD2C; 0xBAC25425; 0xBCFE8C77; 0xC9048A35; 0x38BA0F85; 0x60A035F6; 0x300E6AC4]];
  [[0x34707CC6; 0xA8EDBC5E; 0x56ADFC16; 0x3DA6BC51; 0xCA8B6F3F; 0x5C7CB5E1; 0x2D612DFA; 0x76E4A028];
   [0x64F49D39; 0x75AB66FD; 0xC387A739; 0x5AF9879D; 0x3E9EDBCF; 0x83964808; 0x7F4C4FFE; 0x555D8BBD]];
  [[0x3C5590B0; 0xAAE8A2FE; 0x8AB34213; 0x461C6CCC; 0x9E719B77; 0xB2F3E822; 0x663188BB; 0x25B8FCA8];
   [0x72548131; 0xAA7A047B; 0x189FA6F0; 0x878FFEE; 0xCE3E17C3; 0x9E7FB402; 0x44418277; 0x6F260D93]];
  [[0xB703B647; 0xEF1C290; 0x651673E4; 0x995009FA; 0xBE46362D; 0x661F76D7; 0x23E56E7A; 0x74B00FD1];
   [0xA1A50E4B; 0x9557D0AB; 0x587688CE; 0xC5A1CF95; 0x7AE08ECA; 0x2A14D1B2; 0x3C23D507; 0x2DA8816C]];
  [[0xB9934883; 0x51CB405F; 0x1A6864B; 0xC99A67D4; 0x6CDFFFC3; 0xCCF62233; 0x98FE0B79; 0x2938F9F9];
   [0x39A5AA28; 0x77666911; 0x2427BFC0; 0xDF56CBB5; 0x189EB66D; 0xA39BE968; 0xA64FD2AB; 0x71E6E105]];
  [[0x60F9D20B; 0xA0C6F795; 0x765670CC; 0xE06DC8BB; 0xA67275E0; 0x9FA1DD58; 0xE2D23BBB; 0xF7F670D];
   [0x33FB15EA; 0xF8F07CF3; 0x723A0271; 0x1D09B592; 0x4E6FCAAB; 0xF1402923; 0xAE301940; 0x5BE1273]];
  [[0x114AFD1E; 0x2D83906C; 0xC88E5761; 0x91474FD; 0xEF9E4F9B; 0xAFF18EEB; 0xF4E646ED; 0x136ECAE5];
   [0xEB01808F; 0xEF4526D0; 0x940C0AEC; 0x3923EBBA; 0xA437F460; 0xAB34160C; 0x421AD57C; 0x7A46966E]]]].
(** lines 8336-10982 *)
Definition lut_Test_32 : list (list (list (list int))) := [
 [[[0xFFFFF36D; 0xFFFFFFFF; 0xFFFFFFFF; 0xFFFFFFFF; 0xFFFFFFFF; 0xFFFFFFFF; 0xFFFFFFFF; 0x7FFFFFFF];
   [0x471125F5; 0x9AF45A5A; 0xF69BF9AE; 0x7CE5090A; 0xE4B6DDE6; 0x67617A63; 0x4AA3DAA4; 0x3F66B35]];
  [[0x149B5D15; 0xB39BDC16; 0x7309454F; 0x87CE978A; 0x315A7A56; 0xD22F32EF; 0xB69A6B57; 0x4C7DE232];
   [0x466DC64D; 0x9E2DAF6D; 0x4B1C8A55; 0x758C27B1; 0xBD647F1A; 0x74A0CB23; 0x2C2F4C70; 0x27E74868]];
  [[0x55A62594; 0xF2D8F32E; 0x36BC547A; 0x8323D570; 0x98D4B25A; 0x497679EB; 0xB87E0534; 0x61167F2];
   [0x223E4DF8; 0xE1FFFDCE; 0xDCD891E9; 0x7C83AE78; 0x3C1B95D0; 0x74398586; 0x74B3F5AB; 0x11D73205]];
  [[0xACB97F7C; 0x34B9C048; 0xE3B9BCC6; 0x8232E73C; 0xDA2DB71D; 0x81F4B63F; 0xA2DF4C84; 0x4EEE5393];
   [0xAC469C69; 0xCA6E63AE; 0x428E4F01; 0x27BC807C; 0x5F4EC124; 0x4A2C23BA; 0xAAE2668B; 0x74847CFC]];
  [[0x6716AF4E; 0x4435585F; 0x1CDB965F; 0xB872D8B7; 0x746FFAD0; 0x662F1962; 0xDB5D0187; 0x52761A24];
   [0xA57E0E3D; 0xF6A09922; 0xA9C12B63; 0x86C69342; 0x5AF190C5; 0x91FF20B6; 0x4EEEE1AE; 0x10DB7A2A]];
  [[0x74628B90; 0xBB464A53; 0x57A4F25; 0x6E7A1227; 0xB0FA41F; 0x4C309D69; 0x77FE7B93; 0x75482607];
   [0xB612421; 0xF2583EC7; 0x5E2B15ED; 0xFF2CFC83; 0x8CABC5CF; 0x1E97A7DB; 0x925C149F; 0x1EC08FAA]];
  [[0xE9FCBA9; 0xBA0170E3; 0x70D9939B; 0x8976DF7C; 0x21AF14DD; 0xEAE6E74B; 0xD0861F9; 0x9F09868];
   [0x21A781FF; 0x4F7FE26E; 0xD73DCEF7; 0x1725B8D0; 0x7E743498; 0x9DA63217; 0x1B828B99; 0xF51D42C]];
  [[0x9AFE09BD; 0xBABB076B; 0x17C4050D; 0x4AC89223; 0xDA3E57E8; 0xCA3EA6E3; 0xA33242C0; 0x20AAA384];
   [0xEF929BF5; 0x6D3A1F2D; 0xE751A62D; 0xB34E2605; 0xB8CF1F99; 0xE1AC629F; 0xF0BBA01A; 0x7152D4E3]];
  [[0x943E5B8E; 0xA97A6CE3; 0x2D053A9D; 0x1C0F6C7F; 0x64457DE4; 0x9D4A91DE; 0xC6140057; 0x1E19EA8F];
   [0x500995C8; 0xD4766CB6; 0xE70CD7EE; 0xA019D41D; 0x7AB0A162; 0xBA1828AA; 0xB7A4E93; 0xCACA063]];
  [[0xA1B3FE03; 0x1E68315C; 0x1AAB6B20; 0x21FB277E; 0x6A90FB22; 0x210305D7; 0x2E51B9BC; 0x4C3D3EEA];
   [0x89C3A2E8; 0xC5662C6D; 0x1712BF9B; 0x66EA4818; 0x2254FBAB; 0x417F8F04; 0xB057EEC1; 0x2F57DF29]];
  [[0x6509AE4F; 0xF6975C9F; 0xDC89C220; 0x58300438; 0x907FF785; 0xE81DA879; 0x910ED2F; 0x68D600E3];
   [0xB43BF686; 0xFBB25113; 0x50A64FAE; 0x8B391E3F; 0x3112B7ED; 0x8C1190D2; 0xCCB4CA50; 0x617BCD41]];
  [[0xDD780ACA; 0x75036E69; 0x6FBCD996; 0xC90A01DE; 0xC851CEF; 0x75E1A8E8; 0xF71BDCC6; 0x7225D38A];
   [0x868B78D2; 0x74AE6935; 0x1CDB5A1E; 0xE70570F3; 0xBEBD2FA4; 0x3E700C48; 0x325D3214; 0x3E483638]];
  [[0xC0E6D8AD; 0x9F272CD5; 0xE09743A2; 0x9E29687C; 0x93CD64B3; 0xBE0E0D59; 0x504B58F0; 0x5D57A75D];
   [0x5D44B092; 0x81A1A6E3; 0x310D7868; 0x38AD0169; 0xCC297B73; 0xC8D3C9A6; 0x908E0814; 0x34D98A19]];
  [[0xE5A57E1F; 0xFFB946AD; 0x191B6C5F; 0xF7EA0AA2; 0x8DF529C1; 0x52D07058; 0x2AFDA727; 0x6B7BDE5];
   [0x90658555; 0x651E6DC9; 0x1FC416CE; 0x8F910D89; 0xCBF086D5; 0xBA4D84E; 0xC4A4B4A; 0x73DA158C]];
  [[0x521DB62C; 0xE22420A6; 0xBC90EB6F; 0x8EBC1A21; 0xE50F6EB4; 0xE1529AAC; 0x8BE235DB; 0x4025BF27];
   [0x9FFE2B82; 0x40607710; 0x696B4634; 0x7A6BB75B; 0x2B2F25D3; 0xCEF27A9; 0xCA0B7112; 0x6C9CFFD7]];
  [[0xEDA5C43B; 0x12B39FF0; 0x54E0FE3F; 0x2E1FC66C; 0x248A9167; 0xFB2DEA80; 0x3B2BB322; 0x11BCDA10];
   [0x16D2C928; 0xFDDF6E84; 0x36E887F4; 0x99DDF6A1; 0x920092D6; 0x1E56D2F3; 0x2D77AE5A; 0x67433BF4]]];
 [[[0x321BFA62; 0x6C204DDC; 0x2F138A80; 0xA96E42B8; 0xE3EC1A7D; 0x4C98E986; 0x136CADC4; 0x223C8BC4];
   [0xBA3CE54A; 0xFA9F15D3; 0x19963D88; 0xA103B9D7; 0x2F811A21; 0x1ED23354; 0x65A4E833; 0x64D6B14C]];
  [[0xCFBD1039; 0x2485175C; 0x7C92D8EC; 0xC4DAE65B; 0x1859FD47; 0x6FC70F54; 0x33E8305C; 0x6D543444];
   [0x944DDA07; 0x1A65FEC2; 0xEF375B21; 0x7BCF8391; 0xBE4CD8D6; 0xDDCFC356; 0x13850042; 0x4BF93B9E]];
  [[0x88B7F950; 0xBDF7A56C; 0x81B8590E; 0x3A60E5FC; 0x6F6E6807; 0x475B94D1; 0x2F0D49A8; 0x2F1B9F06];
   [0x2E6A01D3; 0x3C36DCF3; 0x30444003; 0x807E1D5B; 0xFECF5768; 0xE3768486; 0xEF12B5CC; 0x73C4D0CF]];
  [[0xF4C6FF93; 0x9D76477C; 0xC5A1A495; 0x3F16687; 0xB41748B2; 0x5071DA3D; 0x971D6A7D; 0xF3A3784];
   [0x2785A782; 0xB9A5AD6; 0x9FF09F9; 0x957E72A0; 0xAE3CF5F4; 0x3072C1DC; 0xCD9CFD7E; 0x63D463AC]];
  [[0xC77B516C; 0xDA0DEE0B; 0xE6AA0E1F; 0x446D7199; 0xBFFA705C; 0xCC0D1590; 0xC35B59BA; 0x6A6FC81C];
   [0x593E3EB9; 0x39DF210E; 0xD0DCC01F; 0x17F331CE; 0xBD176C5B; 0x2E0E5EB; 0x8A2D6290; 0x68946CCC]];
  [[0x9ECFEF2; 0x8D1400D6; 0xE1E76A98; 0x57D5F91B; 0xA12DFF8D; 0x5CF76130; 0x61002939; 0x5C361922];
   [0xFB0FE974; 0x8D45C8C1; 0xF942ED70; 0xC97725E; 0x73C5AA42; 0xB1C66498; 0x7E203187; 0x4A121FC4]];
  [[0xFCEDA76C; 0x58430EE3; 0xF5C88D62; 0x3496699A; 0x14273E7E; 0x1C3FC811; 0x1D6D67DA; 0x3E38E9FC];
   [0xAB685B3B; 0xBB683EA4; 0xB0904BB3; 0xB63F72B1; 0x47A75297; 0x5DFA23C5; 0x38B59560; 0x9E80AA0]];
  [[0x7F4D22FC; 0x7D8325C6; 0x8C2FA282; 0xBFFB01B1; 0x4A89BE98; 0x1A037DC; 0x84EA8C8A; 0x92F6525];
   [0xC52FD518; 0x873D33DA; 0x44AFDD41; 0xA245B15; 0x98FA7FF5; 0x78993737; 0x21D29087; 0x1BB48AD2]];
  [[0x1A59313C; 0xC97A99; 0x5CF9A6FF; 0xBD4F29EE; 0xD839B62B; 0xEA59D87A; 0x97CAB63C; 0x16F18F48];
   [0x6F6C292F; 0xB339789A; 0xD005ABB2; 0xEC52E644; 0xAE24DA46; 0xEEAC93C9; 0xE5C43B4F; 0xECB9957]];
  [[0x20561AF7; 0xD91B2202; 0x55F2CFB8; 0xECA260DD; 0x17B91CCF; 0xF03A8C1D; 0x64B35D9A; 0x55A0491F];
   [0x1A2F8F39; 0xA97E5CC; 0x23B1D80B; 0x2C187D1; 0xDB9FBA1A; 0xA9C13D26; 0xF8051F0D; 0x7CCDDBAC]];
  [[0xED0E9DB8; 0x5CA8EA5; 0x53A8EA3F; 0xE888079F; 0x9209BFA2; 0x6DDBC40D; 0x80DCEAEA; 0x68E5BA9];
   [0xB19D824B; 0xDB69D133; 0xE6A3A462; 0x65154FB6; 0x20B2AC7; 0x9FCF733D; 0xE1329315; 0x15178DDE]];
  [[0x877EE476; 0x76F78865; 0x12B471BA; 0x5824EACC; 0xBBB640A8; 0x71BDFADF; 0x9A631D09; 0x5181B08F];
   [0xFFE978E8; 0x2913CCA5; 0xAEB89AA6; 0x9CEF3612; 0xE02AD6DC; 0x93BB373E; 0x4144769; 0x5D7984F0]];
  [[0x4F98D2C3; 0x3219DB07; 0xBD40ACCC; 0xE3EF888F; 0x31124C73; 0x7A30E3A; 0xB070C53F; 0x5D9C820B];
   [0xDA0661AB; 0x94D41768; 0x21FF87EB; 0x27FC2661; 0xFF17A977; 0xB8DCBC7F; 0x392EB13D; 0x71F75FF9]];
  [[0x9AD71AB0; 0xC5CED56C; 0x39D6C9F1; 0xE744EAB0; 0x839BD904; 0x6E49B00B; 0xD7003054; 0xC0EDE2C];
   [0x1A6A1BB7; 0x792C3F80; 0x4B2C7885; 0x6E5093B1; 0x13EA65F7; 0x28873209; 0xF381C851; 0x85A2697]];
  [[0xDA60A255; 0x84FC6B9D; 0x4B495BC6; 0x12397EED; 0x71A5AA87; 0x4881DF6B; 0x9572CFE2; 0x57BB3259];
   [0x3A10A65F; 0x30677759; 0xDB1758DD; 0x670B82EC; 0xD57B513E; 0xD84F3E8F; 0x89088E78; 0x617A512A]];
  [[0xAE3D7707; 0x83971322; 0x6D34D0B4; 0x66563CDE; 0xC13309ED; 0x95342D9B; 0x82A5887; 0x62C2B1B6];
   [0xC3C27158; 0xD94A8712; 0xA844BF60; 0xDE2C9C9D; 0xCE3E4F3C; 0xDE897386; 0x6ACEBDF1; 0x2C22A82E]]];
 [[[0x604E200; 0x2755028A; 0x44189101; 0xADE23A7D; 0xF0B7F9B7; 0xA6E418F4; 0x212EDC2A; 0x36F5503];
   [0x3F5E0456; 0xE069D06A; 0xF37F2D8; 0x2FAFF7C8; 0x7F5EDE53; 0xFF08E879; 0x797E0427; 0x7F97725D]];
  [[0xB32E5B1B; 0xE44E39C1; 0xAD3EC706; 0x25CD4614; 0xE382C5D2; 0x2E97B090; 0xB00D79F2; 0x3E1A1F6B];
   [0xC2375837; 0x27573C4E; 0x6C8D5CCD; 0xAD53D2C8; 0xFC09725A; 0x94EE5460; 0x2DD0DF4; 0x6E592506]];
  [[0x3D0C7AC4; 0x6CFFA4BF; 0x69ED4317; 0x663B1218; 0xC79AD5C1; 0x933094F6; 0xFFC54767; 0x569F37ED];
   [0x1F338782; 0x954EEE0C; 0xA46CA276; 0x5BE69673; 0x20CB26DC; 0x77BA0009; 0x29316AE; 0x2211CAC3]];
  [[0x184EBD7C; 0xC8DEF3CB; 0x6A4DB0A0; 0x39337050; 0xBE1D82C; 0x6FF7993A; 0xFC9252C0; 0x1D7674A];
   [0xF62D9268; 0xB10BA727; 0x817B687B; 0x6E2338D8; 0xE47405F1; 0x266443F2; 0x6872B879; 0x6A1BD9CE]];
  [[0x2B2BD346; 0x19213765; 0xE2ACFB8E; 0x962CA22C; 0x62FECDE1; 0x518CF45D; 0xA13D9E8D; 0x529AE629];
   [0xBB69D5E3; 0xAF796DB0; 0xD4E596B7; 0xA064209D; 0x47942C73; 0x9F3DFD4A; 0x7810D5EC; 0x7FAB6C6D]];
  [[0x66A3B287; 0x55D15250; 0xEEFDDC75; 0x1ECC6A20; 0x26DE8C01; 0xF683FA60; 0x9FBA658C; 0x4F5DE2A6];
   [0xC66D82F4; 0xE748D78A; 0x3B24C76B; 0x2BA525EF; 0x30EE69CE; 0x5A9539E6; 0xB7861B2D; 0x2DA4C4C2]];
  [[0x820743E6; 0x9D1E982D; 0xAB0CC42D; 0x705D9237; 0x47C4E7D7; 0xBDD01663; 0xF8E69896; 0x3D48EE78];
   [0x41132782; 0x7A822BCD; 0xEE46F715; 0xBD41BEFA; 0xD0B2F4B0; 0x8E5C3B5F; 0x5E47ED55; 0x690A53D4]];
  [[0x65A40E44; 0x390536C1; 0x1C92235C; 0x4B4D7970; 0x8B7389E4; 0xCAC27084; 0x19041D01; 0x7B5B23B2];
   [0x3B5FD5BA; 0x7C18B973; 0x84B72217; 0xFD14865D; 0x267EDE4C; 0x5592547E; 0x8B369753; 0x22DB62E5]];
  [[0xDDF15BDD; 0x6083D33; 0x361925F5; 0x5766555F; 0xB7ACDEA7; 0xECC0F110; 0xA3453B5; 0x3E3F1B27];
   [0x6F7B980D; 0x5A8B7DF9; 0xB44756AC; 0xEBA90E39; 0xAC9A7DB2; 0x954D7ECD; 0x28EA7151; 0x43F688D3]];
  [[0x4638EFAE; 0x51F64569; 0x3D28BF3C; 0x5840A5DB; 0x134D3E8F; 0xDD486261; 0x7B6B466B; 0x9F17E2C];
   [0x78ED7016; 0x30D35463; 0xB86D8508; 0x342E9701; 0x42B19533; 0xA3FF6565; 0x61A4A81; 0x4405F02C]];
  [[0x3D3AAF1E; 0x15C921C0; 0x7D297559; 0x2DD720C7; 0xCB80E3B2; 0x93A07904; 0x6B1EDB93; 0x427C610B];
   [0xF61E2F41; 0xD2CE818F; 0x8252FB3C; 0x1DA53421; 0xED07538F; 0x37A4A997; 0x962454F2; 0x48A928BF]];
  [[0x7A420273; 0x65091E4D; 0xE54C0B47; 0x6AF382AF; 0x8047A423; 0x150DAB08; 0x45BD197C; 0x22C3740A];
   [0xE07C3468; 0x64429AA0; 0x7B37FE10; 0xC506B8C9; 0x3CC5062C; 0x30E2FE78; 0xA9242F2D; 0x2F3B5A5F]];
  [[0x5A40BCA1; 0x2619A3B2; 0x118C2FEA; 0xD012DF23; 0xB73FE15C; 0x2868C8B7; 0xEB10B475; 0x45A9CC5A];
   [0x69050AD; 0x7111AB75; 0xEC2398A9; 0x665182B; 0x9B86A240; 0xD9A5126E; 0x40E2AED6; 0x601CF0E0]];
  [[0xF48C8655; 0xE74C9DCD; 0x900E89D5; 0xEE703CA8; 0x5390F052; 0x6C2DFF8B; 0x1316CC4C; 0x8588E89];
   [0x47E80C87; 0xF2CC83A; 0xD87824E4; 0x23DE34CF; 0x541FE8F9; 0xC530AF41; 0xD142F1C0; 0xBF01DC0]];
  [[0x886C0C4A; 0x210B0B1E; 0x9C56A126; 0x66369DF1; 0xEAC22A5E; 0x5D79AE81; 0xD16F7DB6; 0x4E6C67D4];
   [0x247CDE60; 0x274572F6; 0x54E8454B; 0xF3C92AC7; 0xF08C32D1; 0x784EC1A1; 0xE1FE9C4E; 0x222716D8]];
  [[0x3FB1DB1E; 0xAF6AEF5D; 0xC4C2A4D8; 0xB8B55842; 0xCA5AB578; 0x258A2F44; 0x7D8B2D70; 0x558A803F];
   [0x7E0247A3; 0x9A7345C3; 0xB4D920B1; 0x4E5A6904; 0x76BCBBE1; 0xCF7FAA41; 0xEE112271; 0x66CF993F]]];
 [[[0x84D2C56B; 0xDE7D208F; 0xDDA20F33; 0xD1C77403; 0x9A6F337A; 0xB73FDC09; 0x40CD2CBD; 0x1B2A3807];
   [0x65988D73; 0xB642FA2C; 0x59DAB8E; 0x117E75BC; 0xD6B279AA; 0xC7E2E935; 0xEEA2A445; 0x5EEB9654]];
  [[0xA59D7A2A; 0xA84747C0; 0x1004C5B8; 0x4478AD4A; 0xA22DE791; 0xF55C2B1B; 0x23F8F89F; 0x2FF6097D];
   [0xE117BC40; 0xD079C875; 0x3CB43DD; 0x14AEA360; 0xA20D653; 0x8C730D89; 0x2FD02D8; 0x6956274A]];
  [[0xD46293CF; 0x9F5D0E9D; 0xF0D93AB7; 0x53748DD4; 0xB9C37CF0; 0x6F81339F; 0xF4B041FC; 0xB8677A];
   [0xB5A6FE97; 0xF76E0FFE; 0xF7D198A2; 0x6D3C71F5; 0x11420372; 0xF91E8408; 0x70036AED; 0x36F9F354]];
  [[0x5D446956; 0x503AF4F2; 0x2DC9777C; 0xCA08C537; 0xE1308D3A; 0xDB4BA888; 0x1DB98CB; 0x1EA28EA];
   [0xA7DF5FE0; 0x27CC52A9; 0x7DE31E0A; 0x7DA5186B; 0xF136FAD5; 0x63E32889; 0xA363AF23; 0x1BB010A8]];
  [[0xC0FE56C9; 0x65828B54; 0x4ED3935A; 0x7322CD51; 0x37B4A727; 0x42F068F4; 0xB4C02BE4; 0x7AA9F9F0];
   [0xDEBB2DD4; 0xBB77851A; 0xD105B81F; 0x7757D5F6; 0x52FA1512; 0x7805369C; 0x38B6976A; 0x4CBC43AE]];
  [[0x4096725B; 0x24FE8ABD; 0x3895D1E2; 0xC3FAC73A; 0x6A2360; 0xBCAF7757; 0xC03EBB33; 0x75AE96AD];
   [0xBD1FB6F; 0x31074478; 0xEA386CBE; 0x729E8E6A; 0x4845AAEC; 0xA8BBCC0B; 0xE6582656; 0x1A0A2D19]];
  [[0x69BD55F7; 0x332BC9BD; 0xEFB6F780; 0x93D987E2; 0x14381F4D; 0xE57DE096; 0xFF01C4D9; 0x7BDF4217];
   [0x1956BF02; 0x2A07C4AB; 0x553823D9; 0x7C7B3684; 0xD40F600C; 0x8F750E8E; 0x9693A3C3; 0x63F253E9]];
  [[0xC62CE42B; 0x250ED8BF; 0xE70674E1; 0xE8A1A295; 0x163A92F1; 0x5ED093D; 0x628969A0; 0x515FF44B];
   [0x41CE3AF8; 0xF617DF03; 0xF9E60202; 0xCADE131A; 0x363B87E9; 0xFE83C379; 0x493EF65F; 0x7196A80B]];
  [[0xD7A2047B; 0x4B176FE6; 0x41DCA514; 0x6981D182; 0xDC74AC2E; 0xDDC7EE8E; 0x85CC07D1; 0x3A95A203];
   [0x841E3200; 0x8D4BA2D8; 0x5F654197; 0x837DDD9B; 0xFBFE4D06; 0x388D358E; 0x61143A85; 0x562DE2F2]];
  [[0xCFACB903; 0x3BA1F6E5; 0xBD97A3A2; 0xB5BBA41F; 0xCFCF2547; 0xB86F117F; 0x3D9A13DB; 0x50642859];
   [0x7B5F2A8F; 0xC15C82AE; 0xEF89351E; 0x47E772DD; 0xCAAC4CC7; 0x78C53901; 0x68D72131; 0x6B0F5D30]];
  [[0xA0B407E6; 0x47E17734; 0x34949A81; 0x29E06830; 0xCB1AC772; 0x63D83340; 0xEB84F909; 0x178A6DD6];
   [0x3C27D7BA; 0xA9E94826; 0xDB027A4C; 0xC86AF96D; 0x56D5DF86; 0xE7D04E34; 0x2E8D0EE3; 0x7212EAC2]];
  [[0x8A75F66B; 0xE7E5AA64; 0x8CFD9597; 0x7E86B6AA; 0x834C0271; 0x1B7DDE0C; 0xD4AD306F; 0x397EAF2A];
   [0x1657E32B; 0xA357906; 0x4957B3AF; 0xAAEB2DCF; 0x69D3CEE9; 0x1C0CBD02; 0x5A6E7D53; 0x7434EC32]];
  [[0x85559E86; 0xEB5878F7; 0x4A09C168; 0xB9555F70; 0x80501134; 0xBFFAC5DB; 0x5B53160; 0x4CDBF53A];
   [0x5F90344B; 0x1413BA29; 0xD0DD0CFD; 0xC6A9D1ED; 0xA0C31B73; 0x8C56AA29; 0xF4E58E08; 0x1C9B0B61]];
  [[0xE2F595A; 0xBF8D2237; 0xCBA13CD8; 0x7A646816; 0x5CD728B6; 0xBD2E93A1; 0x7CF9009; 0x30FDF85C];
   [0x6122B98; 0x3496D949; 0x5A80B3AF; 0xE63EC741; 0x82838A44; 0xA2A39CF7; 0xC015E1D4; 0x4A064F99]];
  [[0x456CB242; 0x9CCDF95B; 0x6F4517DC; 0xDA1CB24E; 0x931A1115; 0x60450E0F; 0xB5680A8D; 0x6780D774];
   [0x1FDA4243; 0xAFE48DCD; 0xAE9733C7; 0x6BDD541C; 0xD79D1D52; 0xCBBCC69C; 0x1A513B3E; 0x334F4F67]];
  [[0xDF49E1A0; 0xCE7712C4; 0xE0B96135; 0xB5444862; 0xF050D010; 0x10564C4B; 0xFEBEFCC8; 0x531AEC8];
   [0x70DF6D29; 0xD45B4BE7; 0x6829054E; 0x1ACC2D70; 0x54E56E05; 0x9744CDE1; 0x6EE02696; 0x3C5DE93E]]];
 [[[0x3951B674; 0xF43A2B99; 0x5E72FC98; 0xE82789E8; 0x86992601; 0x2AD48436; 0x1A2B65A; 0x3FDEB172];
   [0x3666322B; 0x926B4839; 0x44B3FDB7; 0x68847D5C; 0xF2F5E247; 0xD06C450D; 0xBBA7C892; 0xCEC0646]];
  [[0x61F9C9DA; 0x76446D26; 0xAC60376F; 0xEF2C7B98; 0x2410C057; 0xEEA8CABE; 0x3672A2B6; 0x4C2CE2A7];
   [0x12879BA5; 0x3F770945; 0xAD913022; 0x719D5BD0; 0x36D445A4; 0x28A82DD9; 0x965965AA; 0x26382C23]];
  [[0xB8AA8419; 0x66709D92; 0xAB5C241; 0xFAEFF2E4; 0x1DD46DEB; 0xABB7C5DD; 0x39DB6CB5; 0x7DD03C33];
   [0x9E160F01; 0x76CDD1EA; 0x81C5CA37; 0x598D56; 0x241772EC; 0x16D23B04; 0x52A6B807; 0x5132B028]];
  [[0xCC041445; 0x6D48D4B5; 0x1528DF63; 0xB1CD923; 0x4A815F60; 0x82EE4DC6; 0x451E242; 0x29DA6059];
   [0x17A8A6D0; 0xCD90BFB0; 0x52A7FC3D; 0x8BCF4392; 0x1974860C; 0x49AD55F2; 0x5EDCB1D2; 0x20BBF010]];
  [[0xA8F6C08C; 0xB4F0EA84; 0xD50164F3; 0x4341BEA7; 0x6320C0F; 0xE5389019; 0x8BA6F033; 0x69D4851A];
   [0x77902045; 0x1CE58660; 0xBD8579B3; 0xF3B88D85; 0x4FB0A17B; 0xF84FF63A; 0xDE6581BF; 0x9EE62EE]];
  [[0x7C0516DE; 0x8B8C15B5; 0xA530B89F; 0x3B448FC3; 0x500B0251; 0xE385BBE5; 0xED70804B; 0x5F643F85];
   [0x239E85A5; 0x550D9B7D; 0x8666E41F; 0xDC910B5B; 0x7D4E390F; 0x65522181; 0x3162FE10; 0x5DD2D3E8]];
  [[0xDF024A25; 0x59609390; 0x8CCBA91; 0xE66A77E9; 0x65E24DB6; 0xC5CEA91A; 0x3DCEA0A7; 0x888DFB5];
   [0x92FA0754; 0x8C8E58CC; 0xF7DC9538; 0x99C259AB; 0x9BEFE750; 0x3A06D8ED; 0xFAACDC97; 0x71AF22E1]];
  [[0x250AC059; 0xCC41D094; 0x3BE3DA01; 0xCD792A73; 0xCC61EFE1; 0x2DA07802; 0x57053A5D; 0x293AFB08];
   [0x2FD8A8A0; 0x3E7E4884; 0xB9B48D3; 0x183FA500; 0x431AACF6; 0x9CAC07BE; 0x2DF89F10; 0x4F82D799]];
  [[0xA84935C; 0xFD9F61A8; 0xBB5A7E56; 0x78B948D0; 0xACCEEB3; 0xDA478766; 0x53C3851D; 0x47BDAE44];
   [0xCFE8D0D; 0x5AE2C60C; 0x1D8A79C9; 0xAC8F79B3; 0xA79CA31; 0xA958C15E; 0xF0952018; 0x1C46E20E]];
  [[0xF04AC529; 0xAE552ECE; 0xE2BFEFBC; 0xB295B601; 0x54733412; 0xECC1EE55; 0x12282094; 0x28BCBA53];
   [0x50B25069; 0x306C0781; 0xE9A18FFE; 0x10D5D23C; 0x1BD5489F; 0xC34FC5C7; 0xE191867D; 0x2B610028]];
  [[0x3E17E84D; 0x458A1CC1; 0x5D7CFB98; 0x6EAE343D; 0x101F0B7E; 0xC6E0FDAA; 0x2A023288; 0xB9F7C2C];
   [0x6F3FCAA0; 0xBEA893A8; 0x452B07C0; 0x7D711B2B; 0x98E2C88D; 0x28958737; 0xDFD99A2A; 0x553A0180]];
  [[0xDBA5986; 0x8D617BE8; 0x13D18594; 0xDB763C14; 0xD2DAD82F; 0x822CB0DA; 0x93239947; 0x37ACD99F];
   [0xCDC08BE6; 0x6A2A7070; 0xCF6D63FF; 0x86B3B66A; 0xF7D4A67; 0x5BEFF3FB; 0xEBC94AE5; 0x5C25557]];
  [[0x89183418; 0x5D1DC087; 0x6EA5A960; 0xA25C7AE2; 0xD31F3AAE; 0x74698B9; 0x221788A4; 0x5A5B510B];
   [0x1DCE95FE; 0x896A8787; 0x7F24020C; 0x89E7B93D; 0x865B4334; 0xFC19BF42; 0x5B78B06D; 0x389FBF7]];
  [[0xBB3A3E2; 0x73B6DA7B; 0x44D56755; 0xDBC12670; 0x7CC1C589; 0x7AF2DE28; 0x697CB6B7; 0x7E248FCB];
   [0xC64202C0; 0x9410EC06; 0x75EB3A8C; 0x79C82158; 0xE95C5EA9; 0x74FDD2F6; 0x1CCA72C7; 0x2A40B5B5]];
  [[0x5C29E320; 0x56984223; 0xE871D9E2; 0x8266392A; 0x7B391763; 0x9D86C6C7; 0x2543C9E; 0x5E9E61E2];
   [0xD2501D1A; 0xD62A9334; 0x9211135D; 0x9D19F54D; 0x8FE81272; 0x66D0B961; 0xD09C2033; 0x6E64635A]];
  [[0x6F84E11; 0x93BD0AD8; 0x131AFDBF; 0x45F18F2B; 0x6058EB37; 0x881F053F; 0x948AD0D5; 0x36B8D656];
   [0xE1934E38; 0x53DC2E02; 0xC0435B6C; 0xA8AD5055; 0x4BD7154F; 0xDF7BD11; 0x73BC98FC; 0x6350B05E]]];
 [[[0x4BF927A; 0x12AC5496; 0xE749323E; 0x9BB322DB; 0xF6D99AD6; 0xC10C666D; 0x4C883E0A; 0xFDF8FB3];
   [0x665272E8; 0x10667F92; 0x5BF8702F; 0xA30D4CE1; 0xA2D6033D; 0x56314B47; 0xDAC1A10E; 0x9EC90D9]];
  [[0xC9EB81D1; 0x364F06DD; 0x4DC5CB76; 0xFD181A56; 0xE264567C; 0x91CF010C; 0xA05C02FC; 0x71D9A95B];
   [0x53967407; 0xAB5AFBA6; 0x9B0AA089; 0x3FC77913; 0xAF29EF02; 0xDF1D4912; 0x5796A0A5; 0x1C3D61C]];
  [[0xB376E8DE; 0x11503A1C; 0xB8B98321; 0x5CB17D6D; 0xBD8FE9C2; 0x96C9D585; 0xD117171D; 0x48C8DA7];
   [0xB582282A; 0xDF7FABB8; 0x24FD6BB7; 0x75C2A937; 0x633701; 0xDF0DBD32; 0x39B3E72; 0x4FB7AEC]];
  [[0xE20C09A; 0xE60CCE96; 0x116E1C38; 0xAD295B31; 0xC04477D0; 0xCA6B625D; 0xFFA32E36; 0x32FE03B];
   [0xE2AAABC6; 0x46334FEE; 0xDA1C6871; 0x9808B03C; 0xF934A482; 0x76D0E3AA; 0xF9CB8F97; 0x2B0BF54A]];
  [[0x2CA29D02; 0xB5D52717; 0xDBEACF03; 0xF9DAEAFB; 0x113A3811; 0x3786E64B; 0x5C30569D; 0x6A01A1A5];
   [0xBA1C28B6; 0xA91E160; 0x929D3F05; 0x5BFA32BA; 0x40C51084; 0x1108F875; 0x42FD5AE1; 0x37FD2383]];
  [[0x2A79BFB8; 0xABF14EDE; 0xAA34300C; 0x8B34155; 0x64077041; 0x85C0DFA0; 0xF542D447; 0x3AE5D28D];
   [0xB74DC4FB; 0xC303A0FE; 0x556E0B87; 0xB75292FA; 0x51BDC64C; 0x785628B0; 0x13C579F6; 0x43FE786E]];
  [[0x5F08790F; 0xBC5898CB; 0x125644EC; 0xA298A59A; 0xB048217A; 0xD2D9627B; 0x7B1F23F7; 0x6DCEEF32];
   [0xFA7B9C6A; 0x7F02FC44; 0x73597BF7; 0x90C64960; 0x2CB0B3A2; 0x5DD7E4F4; 0x43E83553; 0x5EC5F92C]];
  [[0x59E2C8E9; 0xC06B4D49; 0x1DF8AD8B; 0x7DBC8218; 0xDAE8B6D7; 0x35570120; 0xCDE2691; 0x4222A1BA];
   [0xC1693046; 0xD2F1EFA6; 0x7D36D9CD; 0x2707228D; 0x62D499C; 0xD668EE25; 0xCE2621A0; 0x7AC81BDF]];
  [[0x16F6A215; 0x3A9F04BB; 0x89E5494E; 0x739BB2BC; 0xD1CEB043; 0xCB8DBAE8; 0x9A6B465; 0x6B177DF0];
   [0x1A529744; 0xB7C4980E; 0xE9012B5; 0x3941B997; 0x4C6D677; 0xDF317B95; 0x829F51D6; 0x17898D81]];
  [[0xA12282BA; 0x3D48FD66; 0x899E5A1A; 0xB775465B; 0x55D95C35; 0xDE0CCB99; 0x950AB9DF; 0x4CB3CCDD];
   [0x175C4CAE; 0xB4ABA02; 0xCF86187C; 0x2DA7C698; 0x9A9BF6CA; 0x3A4453DF; 0x8BB9F543; 0x53C86F9C]];
  [[0x5B7DB133; 0x806B815E; 0x118FA7C1; 0x2451D6AC; 0xFB0BEFC3; 0x32C148B6; 0xE433031E; 0x2E6ECEF6];
   [0x54B2EE29; 0x2B78F317; 0x5A73BF01; 0xBC321BF9; 0xF8F7F981; 0xDF6F7840; 0x22280C40; 0x751A917A]];
  [[0x4F9161C8; 0x73EFA631; 0x21145C52; 0xB61C5E68; 0x6A04DC52; 0x60947773; 0x2C2073B2; 0x758E38FF];
   [0x3A54541; 0xDC6FEA73; 0xB6E65787; 0x5E77682C; 0x37370FD0; 0xAFEF6C1C; 0xD5AC255A; 0x33DEEF00]];
  [[0x61D35CC; 0x1AD81101; 0x8A77D246; 0xD55EED7D; 0x926E64C3; 0x8D59DC22; 0xAFC6FFA6; 0x76C9D6CE];
   [0x3F4FCC0F; 0x945A89B5; 0x9087F46A; 0x65EB52CF; 0xAE9F09DE; 0xC3380377; 0x43DFD5FB; 0x59067EDD]];
  [[0xCF841445; 0xCBB7BC66; 0xA3BE7C94; 0x9ED681D3; 0x396C6DD5; 0xF5CF59BE; 0xFA763634; 0x2598A5DC];
   [0x85CF4FDE; 0xAD2B445A; 0xA0D92F4C; 0xC8CE3F42; 0xF01CD0F5; 0x78356D5B; 0x5D50C9D7; 0x26E44A45]];
  [[0x4EDF35A5; 0x22EB53E3; 0xAF1A8A60; 0xA0C6CDEF; 0xD07C1EBD; 0x1D31BA2C; 0xD2C2ADE1; 0x513511A0];
   [0xC4449889; 0xBD3772D4; 0xD3F49C61; 0xAF5EF819; 0x40047745; 0xAAF21599; 0xA54B8080; 0x2128938C]];
  [[0x73ADBEC8; 0x9761A94A; 0x1FB2F257; 0x4710BBF0; 0xB3920007; 0xFE52603E; 0x7DE06F13; 0x66393750];
   [0x965AC706; 0x35F4E633; 0x33F953E5; 0xF49DC418; 0x31CFE467; 0x1562AD51; 0x8ADB1F7A; 0x35FB54D]]];
 [[[0xFD73062E; 0xF632081F; 0xCB740B59; 0xB2740C19; 0x8751E315; 0x2DFD957F; 0xC21039C2; 0x5722E015];
   [0xA4E56D39; 0x44781BFC; 0xDA2FBE63; 0x894BD2F7; 0x5DE22DE0; 0x9E81007B; 0xC68788FC; 0xCED0859]];
  [[0x8DDA6292; 0x97DD8CF1; 0x27FCF7F1; 0x3E9191F7; 0xDAA6AD44; 0x7885E32; 0xBE9F7E62; 0x624CE66E];
   [0x1893A3D9; 0x483DA42; 0x8F2A105F; 0x1041B7EA; 0x429A24B9; 0x5B706F99; 0x167C12E1; 0x30BFBCEE]];
  [[0xC38251D8; 0xEB2C7218; 0x22B6411; 0x5FE5D8F6; 0x93DCCB63; 0xF62200C1; 0xCFF221E6; 0x2CF0F8F1];
   [0x9217EE42; 0xDCF1BCD6; 0x9DB2580B; 0x1904879C; 0xF6510164; 0x2DDB7E5D; 0x8A0EAC6B; 0x7BB29985]];
  [[0xFCF8397; 0x98313C0E; 0x42C8EEF1; 0xB594D0B7; 0x97E842F7; 0xBD31FC34; 0x8F3ADB9B; 0x49476B9D];
   [0x50B45445; 0xD1B5FD37; 0xD583A89F; 0x526C51CA; 0x6782C060; 0x5D461F09; 0x27274A60; 0x414023EC]];
  [[0xEAE4285A; 0x7C809B26; 0xA066043; 0x939814BF; 0x6C640E3D; 0x9CBAC0BB; 0x30EB1B86; 0x647E22E1];
   [0x3C7DFA0D; 0x21E2A42D; 0xE2CD0CCE; 0xFF8CC304; 0x3496964C; 0x3DC8C920; 0x2B4DF7C2; 0x5D91FE78]];
  [[0x96D84346; 0xD5BBBD6E; 0xF91FFA8C; 0x8363527B; 0x7F408588; 0x931D0FDA; 0xB0B19D0F; 0x2C51F17B];
   [0xFF61C86D; 0x7A693804; 0xB3FFD529; 0xBAB4AC45; 0x4C171C84; 0xEDEA275F; 0xD59B94D9; 0x520925C]];
  [[0xE8718BB4; 0xB6A620AA; 0x88D37A61; 0x67851F0F; 0x9984A787; 0xCBEE8DBC; 0xAE834635; 0x7190B766];
   [0xC9AC1A8E; 0x3A1D7DB4; 0x7B97BCB7; 0x6EEBD5AD; 0x9D0AB769; 0x60978625; 0x7C7F02DD; 0x5AD56C0C]];
  [[0x2DB3B6F2; 0x2C0003DE; 0xEFCF1DD8; 0x3BE1CE3F; 0x379E6B8A; 0xE2F79872; 0xB898094; 0x3F9640D8];
   [0x15B29D41; 0x11EBD937; 0x3EF17D8C; 0xD6A076B9; 0xB38ED3BA; 0xA2C0016; 0xCCB161CC; 0x64329A02]];
  [[0xB1ED1DEA; 0xD135032D; 0x42F734A0; 0x43F76848; 0x3C18D8C5; 0x1F6C12BD; 0xC0A304E8; 0x7D7757B7];
   [0xDE3B6B9F; 0x3F0C2867; 0xB7201E4F; 0x72F98EBB; 0x940E748D; 0xCC408000; 0xAD74B322; 0x34FE6D8F]];
  [[0xE6D884FE; 0xA12A9359; 0xDE063103; 0xB080A081; 0x97ABB854; 0x672DE27D; 0xEE6F3485; 0x712B0883];
   [0x2044A2A2; 0xF430BF2D; 0x7D12027A; 0x66561020; 0x2C539C3B; 0x5ED63AD2; 0xFE5EE1D1; 0x7982AAD0]];
  [[0x3BE94D26; 0x873DC8F6; 0x4B41BD76; 0x90923639; 0xCBE4B5C; 0xE439A496; 0x11782BF1; 0x424F8D24];
   [0x49686ED9; 0x6612BD99; 0xFB04E27E; 0x78157AA9; 0x805F809C; 0x844E1616; 0x62CB8BCD; 0x717AEB32]];
  [[0x5248CF6A; 0xE98C1A0E; 0xB0E4ADF8; 0xC84294A8; 0xA7769275; 0xD35748A4; 0x3363C82; 0x2C3867E1];
   [0x8F43885A; 0x2EC7AF43; 0x3AE516C7; 0x7979D1A2; 0x8B81056C; 0x59939EC; 0x7E358480; 0x434AA4DD]];
  [[0x4A5228EA; 0x12EA1C87; 0x4D293B9F; 0x47B48198; 0xE9696688; 0x319CE379; 0x7CE6FD05; 0x7C9FF595];
   [0x3093E3E4; 0x15E954DF; 0x304015AF; 0xBC98307C; 0x975C69C5; 0x66522DF8; 0x963CE892; 0x4C9EBFB3]];
  [[0x628FB125; 0x1CEEF18A; 0x4BF30BB6; 0xFB69A234; 0x70C9C864; 0x510EB339; 0x8A89151D; 0x1EE9D1ED];
   [0x4EE1A486; 0x34094028; 0x2FC79CEE; 0x66440167; 0xC7DA3A75; 0xB597625A; 0x65205AF9; 0x6E5B920E]];
  [[0xD87C914C; 0x749D0CA4; 0xD60C59E; 0x55ECBEBB; 0xA65B4652; 0x916A1127; 0x4E4767A3; 0x503964D4];
   [0x1B1F94D5; 0x8899A4C2; 0x33E0D94D; 0xEFFCAF52; 0xA3DAD87D; 0x61B89B3F; 0x5088D6BE; 0x3CB455F5]];
  [[0x70678C14; 0x5088A52B; 0x41B00FC3; 0x212823D9; 0x19865BDB; 0x38D5CEB6; 0x12E63491; 0x2E9C7FD7];
   [0x59E73913; 0x6656F916; 0xE9035A63; 0x57AE9A47; 0xF02B8DAE; 0x970DCF2B; 0x950FF8A9; 0x3366F8A6]]];
 [[[0xAC4A8F83; 0x93DABD6F; 0x1CFF0AAD; 0x27233488; 0xF500EDFB; 0xBCAC3181; 0xB5297515; 0x27C6DB15];
   [0x2F08A89F; 0x9CD142D9; 0x2EAD0A80; 0x3C005423; 0x44A7623A; 0x82845F95; 0x72BC4862; 0x51047070]];
  [[0xDC1B9159; 0x4303797A; 0x5D9C9AC1; 0x7842434B; 0x6009FE2E; 0x8A36ED2D; 0x5106429C; 0x11FE35C9];
   [0x23554A92; 0xDF20A393; 0x932E37C2; 0x59364A48; 0x7754A5DF; 0x6D7DE6AE; 0x462725AC; 0xCCC6A3]];
  [[0xBAE83077; 0xB1F86CA5; 0x5110782C; 0x82FE28A5; 0xD942182C; 0x8031BBF3; 0x410D9F83; 0x4F1F3815];
   [0x835ABA65; 0xE57F9907; 0x5AA10903; 0xA8220C2; 0x8812602E; 0x2E984717; 0x2A7D2C6C; 0xAEC467D]];
  [[0xC4DBED03; 0xC779F708; 0x8582BD4E; 0x10A30CD8; 0x243FEAEE; 0xFA5646C5; 0xCA459EF7; 0x1CFAF38E];
   [0x95BC8077; 0xCCDD0146; 0x65858C49; 0x4ECDE919; 0x77FEE1B6; 0x562764C6; 0x43524407; 0x3CF5A3AB]];
  [[0xF6EF445; 0xCCEAADD; 0xC297AFAF; 0x690C12C1; 0xC15B3D7B; 0xD67AA6EA; 0x9FF8884E; 0x445D233C];
   [0x6CAD3234; 0xC38FFD09; 0xC7002F6F; 0xA690FFD1; 0x11ACB469; 0xD445E851; 0x97166E52; 0x64EE1380]];
  [[0xCEFBFB0A; 0x1EB031CC; 0xAA40D6A9; 0x60F3DEF4; 0xF96FCAFE; 0x240F7CA5; 0xE4450A06; 0x53AF2F10];
   [0xA84058EF; 0xE8AF980F; 0x34AFFC6E; 0x3E300017; 0xC86B458C; 0x62D1D094; 0x75732C7E; 0x5338383D]];
  [[0x4D82638; 0x6BD46AEB; 0x62E645A0; 0x86940A31; 0xA5736B40; 0xD025B4B1; 0x924E8E5E; 0x1056D9D0];
   [0x1DB58101; 0x3D0495CC; 0x2D677581; 0xC300C6E7; 0x610AECEC; 0xFE38B898; 0xD66F64ED; 0x1C8B94E2]];
  [[0x6D0C7EC; 0x5C9C3A37; 0xB8A74918; 0x6B4B5437; 0x9052A235; 0x85689C98; 0x87B53AA6; 0x4F7C2C8D];
   [0xD8F1D334; 0x9FCD866F; 0x6898223C; 0xDBAAA227; 0x95C7B35A; 0x933DE9DA; 0x3EA949FD; 0x329AE20F]];
  [[0x948A2ECD; 0xB83547AF; 0xBE34890C; 0xEBF7C1E7; 0xF8211C33; 0x5F0F44F3; 0xC6927638; 0x14A10BDB];
   [0x5B579BF5; 0x7FD88567; 0x5B7417F0; 0xD7C71281; 0x2083502E; 0x7C04F111; 0xE9AD6283; 0x42029128]];
  [[0x2C5C0928; 0x32FBFFAE; 0x1469F1D3; 0x4E31D312; 0xD79F51A2; 0x17307E28; 0x79A51EBD; 0x546C91AF];
   [0x668086A6; 0x41D464D; 0xDB695DB; 0x4986BDE5; 0xEF317AA0; 0xCBA5F6EE; 0x730221D3; 0x5879259F]];
  [[0x253BB4BA; 0xBD9C5CA5; 0xE2A75BB; 0xBBFC6079; 0x67AB9033; 0xB5F11AE3; 0xAC2BFAFE; 0x6411CB1E];
   [0xBF5390B0; 0x750734FE; 0x879A3D3D; 0xA044BED4; 0xA0C47093; 0xE1E9F0E4; 0xB64DA48C; 0x3BCAD93E]];
  [[0xB37E16C2; 0xAFC6BCB6; 0x2331B0CD; 0xB54F56C0; 0x5BBFBEE7; 0x725E81B4; 0xE8B9D922; 0x2AE0C039];
   [0xDB958319; 0x85301041; 0x681C4A4; 0xDFAE34DD; 0xCBF7BB2B; 0x906C9219; 0x10A1710A; 0x1463E9EF]];
  [[0x21E6FC9D; 0x41E6C388; 0x24A39EC8; 0xB629A1E; 0x1AEF7A46; 0xC62F60BE; 0xC5A16B6E; 0x59A50B54];
   [0x285B891E; 0x41CA367A; 0xE2F8AF59; 0x70A6CE6B; 0xCBCEEF98; 0x74058747; 0x601C375F; 0x4B912170]];
  [[0x734EE866; 0x7D975CE2; 0xA09F5F14; 0x8D3572C6; 0x2232EE5E; 0x1DB4CC88; 0x7C04C250; 0x6C979049];
   [0xAE1EBC20; 0xB5EC7706; 0xE21AAA32; 0x7BDBD34D; 0xC5D1C733; 0xAD4125FD; 0x731E6B09; 0x28B0302D]];
  [[0x1521415E; 0xD68EEC49; 0x92763C0; 0x31963424; 0xBFB513B; 0xCA90F48D; 0x573A056A; 0x4814DDFF];
   [0x400E804D; 0x7E67599C; 0x51FD0596; 0x35452750; 0xDB331B66; 0x45EDD7FB; 0xBDEDE107; 0x172DA8B3]];
  [[0xB5BEB1C8; 0xD46F284C; 0x7B125701; 0x5DE5D3F1; 0x248053D1; 0xC3BA591E; 0x9C8F487C; 0x4E67F1F2];
   [0x8C252EC5; 0x380D93E4; 0x22BC5CF6; 0x913F96F1; 0xD7BAA634; 0xC1F06BBD; 0xA30BF1B9; 0x7B625179]]];
 [[[0xABD424AC; 0x125D398D; 0x9CC70479; 0xFE65DF03; 0xFB5EC82C; 0x89A31794; 0xA31C5DCA; 0x63EFFB55];
   [0x45B576A; 0x948F7571; 0x22B5FC8; 0xEC9F6FAB; 0xBD9F0DD2; 0x174DC936; 0xF4C4EE8B; 0x5EEA65E6]];
  [[0x8B800D67; 0xE97070AE; 0xB59B433E; 0xB9CB66FA; 0xC6141364; 0xC4496574; 0x6A9677EA; 0x530AA9B5];
   [0x75200533; 0x4A4E2EE3; 0xF20A9BE; 0x4C38A509; 0xEA683510; 0xA6FFBA4; 0x65732EA9; 0x7340EFEE]];
  [[0xE41C2B43; 0x3A5612E4; 0xFCB5C0A8; 0x31F51B80; 0xBD1F03E6; 0x4C5BBA64; 0x3694ADCA; 0x25387243];
   [0x1F7E4D5C; 0xF114EFAF; 0x4EA3A59D; 0xBEA5223A; 0x67EB414D; 0x82CEF46F; 0x9B6CAC3D; 0x9D351C1]];
  [[0x810F5054; 0xC69F25CE; 0x548A2CDF; 0xE33E5E97; 0x36946D3C; 0x20B3F442; 0x65DF2D3B; 0x572C0F5C];
   [0xCC953CC8; 0xFC5B2DF3; 0xD1CCADC6; 0x934D54C0; 0xA6E7B4DB; 0x828A906E; 0x5AD3076F; 0x610D36C1]];
  [[0x74F56E27; 0x960B0A01; 0xCF3FEA75; 0x9942C6AC; 0x82C51490; 0x2E4D786D; 0x9A4749C9; 0x23A51636];
   [0x2F7560FC; 0xD86AB36A; 0xDDB852A9; 0xDA66B49D; 0x544C1023; 0x84E1587D; 0x6AA3C1DA; 0x7AB8BC69]];
  [[0xA5F30701; 0xFD0397AF; 0xDFC8B187; 0x96FFB15D; 0x1475E520; 0xF2C86453; 0xEF37300E; 0x71521986];
   [0x68006D45; 0xD81F75A8; 0xCBC06D4D; 0xDF7814EA; 0x2E8E9150; 0x5BCF959B; 0x56668C18; 0x146D37D7]];
  [[0x88E8DC77; 0x1ABD7312; 0xC1C3A4DB; 0xB34B877; 0xF844BACE; 0x85739093; 0x4A7CF80; 0x5DEDCF8F];
   [0xD87CDBDC; 0xD8BB237E; 0xCCBA784F; 0x89852174; 0xB2FAECC3; 0x6843BAB8; 0xAA4BBA32; 0x15268302]];
  [[0xB23D3770; 0x3B58225A; 0x10CC9DE6; 0x9357EB59; 0x42ECF80E; 0x8665F92A; 0xC875C031; 0x4819CC9D];
   [0xC34B979B; 0x9CBE5D8; 0x7E1D0E63; 0x161E8AC0; 0x282E36E8; 0x874DF24F; 0x712A0CD; 0x6528E6FA]];
  [[0x107633E4; 0xE37AD786; 0xCF1FE646; 0x122D7123; 0xCFA93AC0; 0x1E6E682B; 0x276200DB; 0xA25F4EE];
   [0xE25FBB01; 0x44E290ED; 0xC3C1B418; 0x3E392DF5; 0x83EBE689; 0xE5E15745; 0x4B999926; 0x16139D2]];
  [[0x65D7DA58; 0x48915B0; 0xA78F3D9E; 0x6EF7C4EF; 0xAD614974; 0x78CCCE55; 0x54B95643; 0x43DB7DA0];
   [0xE53F1A67; 0xFC423B70; 0x4EFE2427; 0x8F8BED81; 0x95B045EB; 0xF5D6AD5F; 0xD7407716; 0x23582D5D]];
  [[0x9F674472; 0x9E5D24FB; 0x68626041; 0x1AE18636; 0x7ABC4380; 0x8977E68F; 0x5AF2D04; 0x7D9FF8E8];
   [0x4197C4E1; 0x9D31195F; 0x4400F35E; 0x9F3F6E11; 0x7BBEF801; 0x1A87D586; 0x952BB025; 0x42AE0380]];
  [[0x6B96482B; 0xC6A3ED75; 0xA9C6DD2F; 0x58B38724; 0x9297FB47; 0x464C8CE8; 0xFB6D6C55; 0x245797E];
   [0xC0B58C8F; 0xBE141C80; 0x77766C48; 0xC4C405CB; 0xD10C0F31; 0xD57EE428; 0x50E8FE7B; 0x3D4862B]];
  [[0x1DC3722C; 0x21976F8A; 0x5F476F0D; 0x2EC30D5; 0xCA434B06; 0xD711E01D; 0x99FF2488; 0x551AC910];
   [0xA56CA3C7; 0x24AEC72D; 0x891896CE; 0x2DD1219A; 0x67882925; 0xD84BAD19; 0x9D4778EF; 0x27E65D7F]];
  [[0x4685687F; 0x9F19C8F; 0xBBB58BD3; 0xB7C7B9E3; 0x8FA34DD5; 0x349D03A7; 0x8D59E889; 0x41F9D003];
   [0x2B3ED6FA; 0xCF3367D4; 0x378DA1ED; 0xCF3C6715; 0x4E935E9A; 0x86DC3903; 0xF08CB23A; 0x50692CFF]];
  [[0xC2D65C87; 0x18CA772A; 0x4F1D0CB6; 0xC9092B38; 0xBBD2015A; 0x91E71CF1; 0x4F3DEF26; 0x4A09DAAC];
   [0x735C9281; 0x7CCA7B4A; 0x1BF0AAEE; 0x2028F144; 0xACB5B748; 0xCF72A082; 0x43299B85; 0x58957D5D]];
  [[0x901F1789; 0x64BB164E; 0x5AEF97BF; 0xC68766E6; 0x942B6DCE; 0x30ECA3E2; 0xF9E798F3; 0x632676FA];
   [0xF13896EE; 0xB52533D3; 0x2D8A29C1; 0xAD912831; 0xBC14E7FF; 0x12F1B9A4; 0x8828D196; 0x4E1D23FD]]];
 [[[0xEF494793; 0xC4F89E00; 0xC93D2F55; 0xA6044BC3; 0x8797F8AF; 0x68E60B58; 0x841E4B5E; 0x4D5969FA];
   [0xD759BB2D; 0xB1EE70FB; 0x66D8AD01; 0x9AC30433; 0x84E9F677; 0xD93F23DB; 0xC53029A4; 0x2AD9D16F]];
  [[0xDD882D23; 0xD01FC16B; 0xFA5B4128; 0x3BF921F1; 0x235BC9CE; 0x3D3FE145; 0x62E686E1; 0x59556716];
   [0x79F99D69; 0xE329A7C2; 0xA4F5F5F5; 0xA67EF5EC; 0xD5A34FF0; 0xF96A41EE; 0x74674B5F; 0x9D0CF06]];
  [[0x6135B7E2; 0x8CCDF71C; 0xAFB6AD6B; 0x91F1E33E; 0xDB0CFEDF; 0xC452F439; 0xC05B06D4; 0x15724711];
   [0xA3BC1277; 0x5FEE0E0E; 0x8D8BA081; 0xD6847FAD; 0xD4C8DDD; 0x8B02666C; 0xC35559DB; 0x149E5009]];
  [[0x5461D9CA; 0xB4D0D2C9; 0xCE0A3973; 0xFE7993B6; 0xD6032E95; 0x42B2A500; 0x217131C6; 0x4DEEE35A];
   [0xFFE7C2EB; 0x94E65C8C; 0xB19D4B4A; 0xDAD7785; 0x925613F9; 0xEEBA6794; 0xE30494CB; 0x6AF45BBE]];
  [[0x32F43F67; 0x41352A61; 0x48F886D3; 0xD218DE9; 0x9B33B0F6; 0xCDFC0C55; 0x6C5B90CD; 0x21FC6353];
   [0x7898AFF2; 0x5D8CA5AD; 0x24287C30; 0xA743F80E; 0x9084A3A2; 0x4D037131; 0xB5EFC978; 0x52041EED]];
  [[0xCC1BCFCB; 0x80B588EE; 0xE5CE0035; 0xAD871A11; 0xF966D746; 0xF47224D0; 0xB387FCC2; 0x5215A9D2];
   [0x695C02AF; 0xC54EB2E7; 0xDFC8493D; 0x36FD06BC; 0x98CE7C76; 0x1CE8A9AA; 0x644D398B; 0x58DFCBF]];
  [[0x5BB81464; 0xCD7E67DC; 0x47A7789; 0xE7A19301; 0x573E837B; 0xCCC31EE5; 0xAF7703D5; 0x25EE99AF];
   [0xDDB3E807; 0x34FDD6DA; 0x109092DD; 0x273D8288; 0xB7357633; 0xF8F2464F; 0xCCAA31D5; 0x26B2CBAD]];
  [[0xF707F9F7; 0xBA9CFEDE; 0xAC4975FB; 0xA9A6896C; 0xBB1C35E4; 0x62135D9D; 0xCBA133D2; 0x13AE840F];
   [0x4C2BA3A9; 0x6ABF3913; 0x6D8A62C1; 0xE4D8508A; 0x66D96607; 0xF2565354; 0xB6CABAE8; 0x5C368CCE]];
  [[0x8B3999BB; 0xC3B52E8; 0xEF691871; 0xB752E28F; 0xF17D0D2D; 0xA0460ABC; 0xB7741F2C; 0x7DDCE3C1];
   [0x3673000F; 0x76A6BAB; 0x425E8A9D; 0xCDB1CD2B; 0x2606EAB5; 0x357FCFFF; 0x35DE7B4; 0x308644F8]];
  [[0x6D6FF45E; 0xBA64A127; 0x6B0C3CEF; 0x1F52B6AE; 0xCBF496CB; 0x91295179; 0xA1B12BE4; 0x2B986FAD];
   [0x44DBAF57; 0x243D2366; 0x346E88C2; 0x48E22BBA; 0x8BBAFA0D; 0xCDFB7957; 0xD70670E; 0x94ED36E]];
  [[0xA0D60407; 0x2BAD1539; 0x6E744111; 0xC1A9286E; 0x81A6DCAA; 0x6D08C0DB; 0x80AFB34F; 0x108F35EC];
   [0x1E3E34AE; 0xBE79A6E3; 0x16D524E5; 0x206EAA28; 0x344ABA64; 0x563B6E1C; 0x3207CA68; 0x6C362A61]];
  [[0xEF9A9A0F; 0x4D8145B; 0xA15B6247; 0x8B57559B; 0x303AFBF3; 0x72D53570; 0xD6DB5736; 0x1C36B41];
   [0x1173B5FA; 0x94D583C9; 0x13C8AAA; 0x71F8E12D; 0xF29CB838; 0xA4B5A532; 0x7CE4EBA4; 0x4B179700]];
  [[0xCE86FC3; 0x69CFA7B0; 0xD60E076C; 0x3705D7C0; 0xB1091E10; 0xB1A1464A; 0x7FE80950; 0x97945A9];
   [0x9AA381E3; 0xD9C71A95; 0xA410FF56; 0x2A929073; 0xF0FEB121; 0x79EF8353; 0x5F3107E5; 0x1437C4B0]];
  [[0x621DB2E5; 0xC5128C8B; 0x51A9499A; 0x4E9C9B2E; 0xD8CD7594; 0x11535880; 0xB0697C07; 0x35A26F59];
   [0xC43B624E; 0xAB3F4B75; 0xB8E03E6B; 0x69F82105; 0xFB04E036; 0xFB268288; 0xA0BDB41C; 0x6A5E6BD3]];
  [[0xC8082916; 0x8C716A1A; 0x4592472C; 0xB1D1B152; 0x3AB6938A; 0x63657A6D; 0xF03214AE; 0x44882EB6];
   [0xC615AF7D; 0x19575B8A; 0x35EE3D98; 0x14D740C1; 0x57768D2D; 0xBC478E89; 0x13FC5E4C; 0x30CC8FA2]];
  [[0x4EBE1E7C; 0x705607C5; 0x284EDA2B; 0x631E5B88; 0x7F54DDB; 0x7E9E39C; 0x8DCF6BC5; 0x4E554D88];
   [0xCBAB0FE; 0x12E9FB20; 0xBA5E007F; 0x6F3BC7CE; 0xBC871DF6; 0xA770BA1D; 0xFE01142C; 0x541AA4C6]]];
 [[[0xF2412EC7; 0xBFE26700; 0xCFE96AF4; 0xE975796; 0xDD6B04F7; 0x7D30BF7C; 0xF1D8FCE4; 0x5421925D];
   [0xEC709107; 0x1CF5E9F5; 0xB4580AA9; 0x124FCFC2; 0x67A835B3; 0x2F7012B; 0x47C0760F; 0x753FE01B]];
  [[0xB1D2A896; 0x82FD5D47; 0x54E75DDB; 0x7EABC175; 0x1AB080BC; 0x724FC3A8; 0xA75C31DD; 0x363D6016];
   [0x863F308F; 0x5D465FF2; 0xE515ADCB; 0x9EC70664; 0xB3BC206A; 0x4BD7A1A2; 0x4A167D34; 0x2022576C]];
  [[0x5CD6AC65; 0xF5AC3451; 0x5839F554; 0x7629731E; 0x93545A60; 0xA3260AE3; 0xA7AD1979; 0x49D190E8];
   [0xF0B35045; 0x5AA8492F; 0x2584E651; 0x4A5FAB7B; 0x395E2AAE; 0x5A05420E; 0x547B4038; 0x30613C78]];
  [[0xF9DAE7E6; 0x47E1C59D; 0x247A5A9D; 0x8D68839B; 0xC1A80D5E; 0x663B5977; 0x40D8CF32; 0x5E51F872];
   [0xECE49494; 0x88ADBF9E; 0x1792BAE8; 0x40B4AC5C; 0x9A1B3314; 0x278200D1; 0xD9F83584; 0x7D15320E]];
  [[0xEAF2BFF8; 0xFE6DAA74; 0xC156AA6B; 0x6E4EE4C0; 0xD0F4E7D5; 0xD9310FF8; 0x7BB0C42D; 0x552EEF9E];
   [0xFDC69E1A; 0x323FF6F1; 0x41D79365; 0xFA66B7; 0xA96B22B4; 0x6B16E; 0xD20F07BE; 0x71BBC653]];
  [[0xA440FA1C; 0x89A7B7EE; 0x757CD658; 0x52BB5278; 0xB0CDDEA4; 0xC5906F4B; 0x5DE2D8DA; 0x66AAAFEE];
   [0x53B6E226; 0x4D5E016A; 0x1993A1D7; 0xA2F73DC6; 0xA09DD554; 0x7CDD4C1D; 0xAB416627; 0x6F723079]];
  [[0xC4E5C4AF; 0xE641639E; 0x371CC648; 0x8BC6100D; 0x9B216E8A; 0x7BD161B1; 0xF810DB32; 0x58098AEB];
   [0x5AD92372; 0xEE52BB46; 0xEEF938CA; 0x4B2C48E1; 0xAB43A5D0; 0xE8FDE4D6; 0xA5284C83; 0x459274CD]];
  [[0xD015095D; 0xA98925B0; 0x4611A1A5; 0xC8969F5F; 0x2CE4663B; 0xBDDCD62F; 0xA076C8BE; 0x1C9D9007];
   [0x749F7BE5; 0xE8DE8890; 0xFF208E75; 0xC9E455E7; 0x8F5FAC9A; 0xDCEE17A9; 0x68A3A666; 0x776B72D3]];
  [[0xFEE0E89A; 0x28C7D648; 0x463AF60D; 0x621B370F; 0x5ADC8ACD; 0x9DC1548E; 0xA0B49504; 0x48032ACF];
   [0x85E992D5; 0x146C6EAC; 0x5CB491E0; 0x5A2CB577; 0x454C120A; 0x669DD6D4; 0x98203C39; 0x3431AB33]];
  [[0x9DE017BF; 0xE8761503; 0xB60AE61F; 0xAB117D2F; 0x827937FF; 0x846463F; 0x6BD89C65; 0x45E6BD40];
   [0xA613BDB8; 0x3160AD67; 0xB8714A49; 0xBD5266F3; 0x51A233E4; 0xF7D29C47; 0x4DE6A90C; 0x6887B48D]];
  [[0xDFDE1EF8; 0x87290A5; 0xA166950A; 0xC70CCB52; 0x4A170AAE; 0xAA7F095B; 0x5517CA0B; 0x15301F4E];
   [0x302F1F84; 0x3C86B787; 0x44676E39; 0x95D41535; 0x9DF5F751; 0xBFEC4AE3; 0x304923D3; 0x4A0D3986]];
  [[0x79B1390C; 0x70FAABA9; 0x62BA8B9E; 0xA9067EEE; 0x1E17DF6F; 0x98789503; 0x78D5B295; 0x5997E8AE];
   [0xAE0C6768; 0x31E13AD7; 0xEF17A7B1; 0x23262F05; 0x49B7B101; 0x15803227; 0x36B5BA70; 0x1234A9C5]];
  [[0x395793AC; 0xED65C961; 0xCCDE1C47; 0x1157CD8; 0x1D5614DF; 0xD0240B0; 0x568E83A5; 0xF0DA1EF];
   [0xC0B783C1; 0x57C90846; 0x81E2F613; 0x4501048C; 0xA2709DC1; 0x3D8A69B; 0xA97CCE0E; 0x6F365C4]];
  [[0x551580CD; 0xEAF23159; 0x53DD5EE; 0xF1E586A; 0x3CBCC3D5; 0xEB7A78DD; 0xB014B850; 0x39BBC65A];
   [0x79B61AC7; 0x13DA4E85; 0xDA59E37; 0x33E78DCF; 0x2A643C4C; 0x4E65AF25; 0x8869D03; 0xDC38C97]];
  [[0xA3A38837; 0x2B648345; 0x905E261D; 0x2FA6D8F7; 0x66A14946; 0xA23BD786; 0x5E01CC9A; 0x781633FD];
   [0xE2C71AD1; 0xB1352709; 0x83A6D365; 0x9D745052; 0x66567032; 0xD88B5CAE; 0x53D875CA; 0x27FC40DF]];
  [[0x47F7554F; 0xB254E54C; 0xD708614D; 0x33AD0ED6; 0x76CE908D; 0x830566A3; 0xAA1ADD5C; 0x73DF94BD];
   [0x2DBDD8A3; 0x23EC411F; 0x3A979FDC; 0x9BA47338; 0xC667E9F7; 0x56A2C27F; 0x427E6BFB; 0x295647C7]]];
 [[[0xF8E48C13; 0x9B5F4652; 0x9EEF4BA3; 0xE979034F; 0x7CF5AF6E; 0xF95FD776; 0x506CEB46; 0x4236C47E];
   [0xE08D2312; 0xC02A249; 0xC056499A; 0xAA5A38CC; 0x7C188B64; 0xCB26A8E2; 0xAE373D5; 0x38FB961D]];
  [[0x7B23470D; 0xEB179C9E; 0x1EBC44E7; 0xAE70102F; 0x92E0EED0; 0x8184C1D4; 0x5C21BF08; 0x32988281];
   [0x8180D11E; 0x46958967; 0x7FD7278D; 0xEBD5518C; 0xAD2B74F7; 0xFCEB7F68; 0xF9C7B6DA; 0x82D2011]];
  [[0xBBE0299D; 0x65D5AED1; 0xCF565A0A; 0x77F756; 0x344BB90D; 0xD44FCD6B; 0x536F3F25; 0x6C2A19C0];
   [0xBB2A4D91; 0x32EE7439; 0xED9351E1; 0xA97E677A; 0x413A16E0; 0x6752EDCF; 0x1CE4FBE6; 0x5DE1B0C7]];
  [[0xD6009B36; 0x6C10DA15; 0xE5D8CFBE; 0xAAD05F4F; 0x31D58B76; 0xD8BCE0B4; 0x27B2811B; 0x8DE344E];
   [0x80B51E48; 0xD9A78AAE; 0x3E41C63A; 0x1E1D0A81; 0x8076B3C7; 0x844376DE; 0x5FDF9D53; 0x73F0D4A3]];
  [[0x558C7719; 0xF1532922; 0xA8221197; 0xF10188A; 0x5DDC1716; 0x51A97E5F; 0x444789E7; 0xF583A9B];
   [0x97D63B87; 0xAA8FC58D; 0x1CFDA59C; 0xA5AF048B; 0x2DDB34EB; 0x2A4A0C5F; 0x701E2E07; 0x66C0F0C7]];
  [[0x36BE2ABF; 0xC0BC88B8; 0x5C721B85; 0x265CCE74; 0xD54299BA; 0x483EBB01; 0x348ED89E; 0x18F11CBE];
   [0xE42129D4; 0x5E9AE7B9; 0x81DE5B77; 0x6B3E9E8D; 0x7A14A74A; 0xB3ADBAC9; 0x3B266; 0x1B6CEBB2]];
  [[0x15EB200E; 0xD4D4DD10; 0xFB87C57B; 0xEEAEA4C6; 0x72FF6321; 0x48F0B957; 0xB782B01D; 0x187C4B75];
   [0xE9B4D622; 0x3DC1AACD; 0x3F4ED519; 0x358418E; 0x773D019C; 0x981A24F8; 0x3DB0B4F4; 0x6643CA91]];
  [[0xD47670E3; 0xE3254F4B; 0x30B1DDE9; 0x98226125; 0xDA8AF160; 0x61EB6C86; 0x18363269; 0x725C7716];
   [0x2F62462; 0xB051DC9F; 0xAC5531; 0xFF8C9EDF; 0x962A92A3; 0x3909C79B; 0x27790237; 0x25C90D93]];
  [[0x88ADC475; 0xA5DF2CC; 0xE5D27D0A; 0x48D26967; 0x359FF194; 0x21D5F616; 0x89977CE2; 0x38ACD141];
   [0xFDAA8ACB; 0x39B9BD92; 0x35B62D0; 0xDB157DF2; 0xB7D252D9; 0x4E33386E; 0xCF196258; 0x6BD2E33F]];
  [[0xCE8F10C5; 0xE0806297; 0x8A14B746; 0x446AFD6D; 0xBF566190; 0xD7931F29; 0x86FDB72A; 0x4D9CFBFA];
   [0x95009F63; 0x77528851; 0x34C0FF45; 0x5FE50134; 0x6E134B81; 0xC38CABBB; 0xE36DB037; 0x2E60B277]];
  [[0x57184CA5; 0xA614CF67; 0x25BE01E3; 0x6CBD8D63; 0xA0030BE3; 0xE313EE8D; 0x2B1E7C60; 0x69AF0399];
   [0x50423F30; 0x519ABFBB; 0x486B9519; 0x200111FF; 0x3351F692; 0x6FF93CCB; 0x3ED9BE71; 0x32EB3E54]];
  [[0x54052EBD; 0x851ACB9; 0x6D2336D7; 0x3A389B7B; 0x17C6ACD9; 0x50A87925; 0xB807D9B1; 0x31FE845];
   [0xE22F7492; 0xA348BB01; 0x5F39661; 0x9547ED36; 0x68EC4AC2; 0x97DF6756; 0x85B7F81B; 0x5836FEFE]];
  [[0x5F0B2ACB; 0x4E4869A6; 0xDEC46001; 0xC4798F3F; 0x903474; 0x281A4ED6; 0xEFB9AABD; 0x4F22E9D];
   [0xFAA721A4; 0x2AC92264; 0x276F8041; 0xBCE2FF0B; 0xE4943926; 0x5F605607; 0x55506DF7; 0x388C5FAB]];
  [[0xAB5687E2; 0xFF104F6D; 0x3B2D0245; 0x1B6DAFE9; 0x81B2EC4B; 0x6405C026; 0xF489EBBC; 0x2B7676DA];
   [0x6DA1F57A; 0xBAA158F0; 0x27A8457F; 0x9CB044AD; 0xA3BBD6C9; 0xC23737A5; 0x1D2267E1; 0x71FB5B47]];
  [[0xD14F56E4; 0x779BD825; 0x8396F23; 0xD7E672A0; 0xD40BA6EE; 0x23FE3FC0; 0x3B56A3AB; 0x41E749E7];
   [0x72042F67; 0xD19471CE; 0x4989D4D7; 0x8A686DA7; 0x4FA09BC9; 0x52A709C6; 0xB3B6AA64; 0x1DC21162]];
  [[0xF9B3BD1D; 0x62C9838B; 0xCE6384C; 0x1EE59E5A; 0xECE8CC7F; 0xA9F5ABF6; 0x80BDDA83; 0x1961D80F];
   [0xCA406FB1; 0x7A40880C; 0xDFBCE2E4; 0x5035D307; 0x3D637299; 0x590259E0; 0xD6C34E05; 0x1607AC9F]]];
 [[[0x9D818B72; 0x4ABC2710; 0x92607B7; 0x2496CEA6; 0x55C4EC8; 0xFB1087E1; 0x258ADC7D; 0x50A30C6A];
   [0xFF502E3; 0xAF4EB6B3; 0x190607AB; 0x5D5D76AD; 0x34482C13; 0xC9C9B711; 0x42213696; 0x574A9718]];
  [[0x7018FC70; 0x7C90FAFD; 0x2B83291C; 0x36A04559; 0x40D1B175; 0x6120B51E; 0x3DCF9606; 0x45F10B20];
   [0xF20C5636; 0x3C6A9EFF; 0xFFBBC648; 0xB2768BA3; 0xB523B36C; 0x1C9DF90A; 0xD6FF34ED; 0x4148BF06]];
  [[0x3B5F9492; 0x3D29821A; 0x90B24561; 0xAE12C782; 0x8A3BDC5F; 0xEF6FB277; 0xAC3BD74E; 0x6034BF3B];
   [0x4ACB6F85; 0x131D57CD; 0x3BE79B31; 0xDED1C433; 0x78A896B8; 0xB0913489; 0xB287862C; 0x1247C0B7]];
  [[0x7C494054; 0xEB642893; 0x22142D26; 0x79227930; 0x943E8398; 0x8F1C8371; 0x60886DB7; 0x583C7AEF];
   [0x3A12EE0E; 0xAFE46022; 0xB6CB8685; 0xE9C9253A; 0x6316A4C6; 0x5334F9DD; 0xE6F1DEE9; 0x4E2F13D8]];
  [[0xB37D8BA5; 0x7499A5B4; 0x1C9BCDE2; 0xA12AA637; 0xBFD6AE86; 0xCC99471D; 0x92048D63; 0x9966378];
   [0x552E71A3; 0x42CBFA9D; 0x675C1716; 0x84A8B153; 0x4CF00A7D; 0xB9C07C0E; 0xDA504DB; 0x32E2322B]];
  [[0xE671EE59; 0x569F581F; 0x422E86C7; 0x293522D7; 0x15DCEF10; 0x5E4CEA7E; 0x483C0FE3; 0x67C8A9FC];
   [0x47B79284; 0x4DE5AC09; 0x25016BA; 0x22AB8FBD; 0x2A099B37; 0x51318C23; 0x49E06623; 0x542EA0FA]];
  [[0x28909F31; 0xDD240F64; 0x101B7F01; 0x46B66F9E; 0x20481C3F; 0x788C29CA; 0xCA5D5182; 0x3218A509];
   [0x63E9A2B9; 0x64BCC7AD; 0xADDF5C0B; 0x3D213CA2; 0x9960D650; 0x6D93ED4C; 0x284EE5F3; 0x3F13DB22]];
  [[0x6697E0D1; 0x5B678C3A; 0x16D9D878; 0x25A171F4; 0xFAEC362B; 0xC20A6D80; 0xC512EA4B; 0x1BB3F14C];
   [0x2AE35FA5; 0xECE5313B; 0xBBD76B87; 0xE390A01F; 0x882DA3FC; 0xC78EA4C5; 0x42086A77; 0x771BCDAE]];
  [[0x565802E9; 0x8E9E3C8B; 0x53FA1BE7; 0xC37A7B35; 0x4408FB77; 0x9D2F1A26; 0xFF308B7B; 0xB3ECE36];
   [0x1F30FC37; 0x8FB35B36; 0x83E1A3C9; 0x463B44E2; 0x3402233A; 0x7218F09F; 0xFC9A6990; 0x1519638A]];
  [[0x8EAAC478; 0x51FB3E5D; 0x760ED4EC; 0x620E4826; 0x1D865577; 0x46FC5B1F; 0x5244A538; 0x15EF2AD9];
   [0x4BF382BD; 0x8D7E477C; 0x2A5C9EE; 0xCBF170C9; 0x4AFB0EC1; 0xB91A870C; 0x69C31425; 0x52FFC51]];
  [[0x2018D066; 0x1FD43746; 0x4C67FC35; 0xBC501517; 0xBC990EB6; 0xE65BC2FB; 0x73F87F92; 0x538CA6F9];
   [0x8352B03F; 0x42FBDAE0; 0x99A4C9B9; 0xF265B1E0; 0x185CA070; 0x6E3EAB2F; 0x37D0A2C1; 0x6E6F4F7D]];
  [[0xC2D5D73E; 0x9B20D8EE; 0x75844C15; 0x190521AE; 0x26AD08FE; 0x67663AC4; 0xF984EC06; 0x67AEEFEF];
   [0xCBDD87EF; 0x61C71142; 0x63396E3B; 0xFA4995B; 0x85C193B0; 0x3196E551; 0xDACB3A3D; 0x36C0A2A8]];
  [[0x178A1115; 0xEAB89FDC; 0xD7C31303; 0xC7B764D8; 0x90203755; 0xA5B2D6FB; 0xD5F8AEEE; 0x3C360BF9];
   [0x2F1CC3C; 0x8DFDCD05; 0x64E5269E; 0x7F8A64D2; 0xEA13FFD7; 0xA36196EC; 0x77E3839F; 0x35E22415]];
  [[0xE22E0C52; 0x29E7AB0B; 0x8B27DEDA; 0x68BF32C7; 0xDC7971AE; 0x52A762A2; 0x18B0CDCC; 0x4CA43487];
   [0x3FCEAF73; 0xED429DA1; 0x6718D19; 0x49396E6F; 0x5BB3301C; 0xDECB9337; 0xFF489B1; 0x4B7723C1]];
  [[0xABEE6B9B; 0xAE321F09; 0x37318F60; 0xF251BF4D; 0xB63DC269; 0xB0A8A251; 0x71817963; 0x514A25FC];
   [0x55C9B2E9; 0x518F5747; 0x1C9B4845; 0x3E56CC3E; 0x283AE1FA; 0xBDFD637A; 0xC3DE778E; 0x419BA4B4]];
  [[0xBCD2EB74; 0xC7F18E93; 0xFC61FB42; 0x171264C8; 0x85119033; 0x27282E76; 0xD7DB91C7; 0x225006A4];
   [0x1ECF5024; 0x628E0F3C; 0x859CDE; 0xDC5111E0; 0x1F220711; 0x4AB1764F; 0x70DDED3C; 0x7C6916F1]]];
 [[[0x5F0CA58A; 0xF9FFE8FC; 0x22879EBB; 0x9E34F30; 0xED7B0520; 0x648D6339; 0x1AF5ECDC; 0xD6719D0];
   [0xB8590E4; 0x2878714D; 0x90EC312B; 0x827D04ED; 0x3B5767C3; 0xD415C8B4; 0xC09FD18D; 0x4170F0AD]];
  [[0x3C601031; 0x9B649CFC; 0x636DDAE7; 0x478603A; 0x914E100A; 0xDC972DFA; 0x91621AE; 0x519C55DF];
   [0xD4A9963D; 0x863046CB; 0x5ACF7C0C; 0xDF16763C; 0xFF5468A4; 0x4999A93E; 0x424074A5; 0x35543EFF]];
  [[0xDD33307C; 0x27B1DBFA; 0x927CA6F3; 0xA0D04784; 0xA37CF855; 0xBD3EBC5E; 0x49F5AA2C; 0x59D02EF5];
   [0xBDD57BF3; 0xCDABE86F; 0x37819D86; 0x7B3ADD2F; 0x413B7B0; 0x7B90BA15; 0x6B99685B; 0x47071782]];
  [[0xEF0CE97F; 0xB7C3218E; 0x898C79C; 0xDAE3B56C; 0x908877D; 0x6349D83D; 0xC81E8C4E; 0x970C6C0];
   [0xA47F426C; 0xE45C4A7; 0x3FBB194E; 0xAB000A59; 0x3A6DD13E; 0x570FBBA5; 0xC8F44A57; 0x66045580]];
  [[0x12A72F7F; 0x5ABEB749; 0x7AE56F4D; 0x15072A92; 0x222AB2C4; 0x1C77AE00; 0x9AFE63DE; 0x591EAEC6];
   [0xDFD24304; 0xB51D41AF; 0xDFBCC096; 0xDE28DF26; 0x38A20DA7; 0x2F046C8; 0x1AE0A45B; 0x5EC3DBDC]];
  [[0x63DD86C2; 0x7C19BD75; 0x8D78A57B; 0xDB119311; 0x23C5C4E7; 0xF48BB4FA; 0x97DB0A05; 0x65514C1C];
   [0x43CAC49C; 0x1BC1F2F0; 0x2851B4BE; 0x975FEB51; 0xDD60D530; 0xE0A4633; 0x9B1D2C6; 0x32BBBF14]];
  [[0xA670EAC0; 0x79124749; 0x31DD893C; 0x504D89D5; 0xE0654D63; 0xDDCED74C; 0xE2208707; 0x58956BE5];
   [0x437E7077; 0xBE6A3ECD; 0x574095C8; 0xB8AB332D; 0x3869DA42; 0x4E79AC1C; 0x68859F51; 0x79D4C3FB]];
  [[0x7936A831; 0x1E5FC1B9; 0xD74F1F41; 0x1EA42ED2; 0xC4EA3228; 0x33D22EC1; 0x729BEBFE; 0x5705333F];
   [0x64596076; 0xDBD1A67B; 0xFA65BA98; 0x6BFF269D; 0x6C47E715; 0x8451A9C2; 0x22898DB3; 0x243D679D]];
  [[0xB8323FD0; 0xE935D705; 0x6937E5CB; 0xE2DA8845; 0x4A5EAE1E; 0x1C9DFFF8; 0x45DF7A79; 0x796F0B95];
   [0x640DBA32; 0xC24D573F; 0x2E4B792; 0x2B775217; 0x94D12C40; 0xD437EB63; 0x4AD371F0; 0x6182AF6D]];
  [[0x41FC7551; 0x133EDA52; 0xE91714AF; 0xA0088A2B; 0x5E0A73C0; 0xB41B9AC2; 0x1D3B3953; 0x4808BB5A];
   [0x2B9AE648; 0xD875AA14; 0x2408244C; 0x4F38C946; 0xFF051A87; 0x4B6B941; 0x6DF48ECD; 0x1D5B0B9E]];
  [[0x169E757F; 0x27FD368A; 0x7B94D9DB; 0x2ACB3560; 0x4D4C9B5F; 0x81903F4B; 0x169B81DE; 0x641F806C];
   [0x9E957475; 0x574E9444; 0xC6C8EE52; 0xE08814AE; 0x6C84FDDF; 0xD1AE71EC; 0xFAA040D9; 0x44A56014]];
  [[0x75A48F60; 0x6DA6908; 0xBB2CD408; 0x7BA6C9CB; 0x3A1BCBFF; 0x57D2D0FF; 0x8928CE36; 0x186F1A8B];
   [0x7A40F877; 0xFFD205B; 0x1AF68F7; 0x2915BC8E; 0xC36A5FB1; 0x816AC4DF; 0x2C9E1F7D; 0x609B0A87]];
  [[0xB97536FB; 0x4032AC5E; 0xA7C5EDB6; 0x53E6FE68; 0x5F0DCBA1; 0x2F414930; 0x2837E314; 0x20975256];
   [0x3C3C1D27; 0xDF5DC496; 0x71797C36; 0xDFDAAF3; 0xDA504E04; 0x5F3E9229; 0x8C234246; 0x354EA88D]];
  [[0x922D317; 0xAF6741C3; 0x9DF0A572; 0x7429853B; 0x1DC207A8; 0xEA1AE04; 0x450075F5; 0x2C1DAA1C];
   [0x6ED729B4; 0x27C71F16; 0x53AB8EC0; 0x785718A6; 0xA8465487; 0x1EEC7BBF; 0x4C578BA9; 0x78DA9B04]];
  [[0xB3B707FA; 0xFF9ED65E; 0xF5D28D33; 0xF8C8301F; 0xA65F5C0F; 0xB15D498F; 0xB0EF2B89; 0x6DEF256D];
   [0x52184EF6; 0xD40A6B2; 0x2BF06F5A; 0xC702EBE5; 0x4BA041AA; 0x13E50E18; 0x7EC4C784; 0x53552D88]];
  [[0xF28ABB3A; 0x2CD09B19; 0x724EDB9B; 0x4F5C040F; 0xE0DCBD16; 0xD6820590; 0x1B7155A3; 0x45D84DE9];
   [0xA251B1BA; 0x995BDD01; 0x37CAA4DC; 0x607F9517; 0xA15D9674; 0x747FEA1C; 0x73E97C97; 0x646C1876]]];
 [[[0x6FAC1486; 0x1951682B; 0x4A4D14C5; 0x8B578E1E; 0xB7384D42; 0x83FA101; 0xED1C8A87; 0x13380CE9];
   [0x732A493B; 0xC7052ED8; 0xB32E3D69; 0xD5FEF40F; 0x88833566; 0xA64ACE87; 0x4177DC00; 0x6E36CFDB]];
  [[0xE742C3B4; 0xAA14E281; 0xEE5AF40A; 0xB75E7B2A; 0x1616EFA2; 0x3FC5FF0B; 0xAD763298; 0x90259B0];
   [0x38753438; 0x4105B57E; 0xCF2D8926; 0x70ED1A00; 0x322F40BB; 0x78921395; 0x67A3FF56; 0x3AEE8199]];
  [[0x11EA75FC; 0x88073D00; 0x6A4B4EB; 0xD23D2796; 0xD85D3A6B; 0x1FD22F9E; 0xAFB43B70; 0x6B5EA051];
   [0xD99BE576; 0x96C9C176; 0x4C47261E; 0x85AC2B6C; 0x99A9C378; 0x27263959; 0x8B5CABDA; 0x6D36E9FE]];
  [[0xA58F614C; 0xC9FC7661; 0x2E45AE73; 0x82AA317D; 0xC8CB9CC7; 0xDCB1925F; 0x27813205; 0x1341C1AA];
   [0x6CD478AB; 0xDD06745B; 0x1E28F6A3; 0xC2534B2; 0x9D27FE63; 0xE2183345; 0x6466147; 0x7F1E2A33]];
  [[0x5AEE2471; 0x378D727E; 0xD47739B6; 0xB718FC17; 0x4145E8EF; 0xDA27CB9B; 0xEF2AB20; 0x3F8AB1A3];
   [0xE16C0141; 0xA89ADD37; 0x59DF1C95; 0x2127823B; 0xB7455CC2; 0x53F90B73; 0x1183FBE5; 0x7F960586]];
  [[0xE77235C3; 0x56D0475A; 0xB18ED61A; 0xED2907C5; 0x7D73F6F8; 0x2D02C4CB; 0xC42E7AED; 0x35EF69B4];
   [0x31B7324A; 0x53A6120A; 0x59F1A395; 0x982DD221; 0x835CFD94; 0x3ECA86F; 0x73CA1BD5; 0x4CBA837D]];
  [[0x41B17E6D; 0x64F66D39; 0xCB14F3B3; 0x3C869BF5; 0x28350EFA; 0x1EBA045A; 0xC7CDEC47; 0x7ACFB882];
   [0x8FB3097B; 0x7ACFD28D; 0x62986426; 0xDA397C31; 0x2A1A7A94; 0xD49F8421; 0xFAB65156; 0x7B372E2D]];
  [[0x1D9DB0F; 0x3ADBDD07; 0x94FF0CFB; 0x617521E6; 0x3F5BD583; 0x5BA5905C; 0x78670CD1; 0x6F896033];
   [0xFB98EA11; 0xA59C447; 0x653EDC59; 0x59B918CC; 0x9F72C01E; 0xBF4D2A; 0x47DEE00F; 0x748455D1]];
  [[0x386E7491; 0xE371A7A8; 0x621A3484; 0xF71711CC; 0xE0015C3B; 0x1568256E; 0x7D3FFDE9; 0x5ACEF7A6];
   [0xB08E4219; 0x2ED70E5; 0x832AC3AA; 0x7ECE1726; 0x951D1CA2; 0xC3C0D32B; 0x38DECC59; 0x4C991664]];
  [[0x96EB21A4; 0xB99DF8BA; 0x2BBF8E6D; 0xB88D25F4; 0x686DAA3C; 0x16B3E0B1; 0x70D47C57; 0x11314561];
   [0x3338342D; 0x8DCDC3D1; 0x88E028A7; 0xE6D39B01; 0x72855B5E; 0xB781F1ED; 0xCC192572; 0xE0D82F6]];
  [[0xCF1E20AA; 0xC86A8E5D; 0xF9AB96D5; 0x1A87AEF3; 0xF3D19051; 0xA8941635; 0x654FFF15; 0x67B1D0A2];
   [0x92862ACD; 0x266FD5ED; 0xD11DEEAC; 0xB72587BE; 0xD09320AA; 0x5CF0D2E2; 0x515E0277; 0x68456EBA]];
  [[0x771F64CA; 0x86A5461C; 0x48FF8D7A; 0xB7A220B7; 0xD7A568D1; 0x9A0DD72A; 0xF644D858; 0x18F5E1DC];
   [0x3E00364F; 0xB7AE1BC2; 0xCEE8D9F7; 0xD7EA31F3; 0xDCDB883D; 0xD18DA30F; 0xCBA00F48; 0x179CFCA5]];
  [[0x39E7860C; 0x496F2C01; 0x27F15EAF; 0xACDF8B40; 0x687AC815; 0x8871966C; 0x8DB8FDB5; 0x6228F1B5];
   [0xF30ECF2B; 0x8644656A; 0xAE1DEAFF; 0x15576CC2; 0x697AB3FC; 0x93D86D56; 0x811E3FF2; 0x3E4A428E]];
  [[0x91B9F5DF; 0xFB85DE3D; 0xB20A9C71; 0xCDB595D4; 0xB44D671E; 0x55CB08F3; 0xFCD7D5ED; 0x780FC2E5];
   [0x7F939366; 0x815AB41F; 0xECD52B20; 0xA7597A02; 0x4648E3C5; 0x9BE078F0; 0x17BD3DC2; 0x7A3E2179]];
  [[0x9D9E5E53; 0x22758C41; 0x9EF09FAE; 0x44D675F4; 0x27159F97; 0x1AB7986D; 0xB6B9465B; 0x72B3F02B];
   [0xFE56F578; 0xA372FAC7; 0xDA534F4A; 0x33FA6479; 0xDF63BF2D; 0xB0003307; 0xB80D0F64; 0x34D40B4D]];
  [[0x3D2B9FC2; 0x8A8929DC; 0x55EE75E5; 0x7D12E86C; 0x92E1A870; 0xB3FE1AD3; 0x729CFE4C; 0x27148C94];
   [0x18BA868B; 0x6A8C3B52; 0x7F038A9C; 0xDD2006E4; 0xB7124908; 0x4606FA9E; 0xF4940CB1; 0x434A8C07]]];
 [[[0xF98B91EA; 0x15F36EBE; 0xC1ED17B1; 0x94D802DE; 0x85D77F8; 0x3C45FA08; 0x2FF571A; 0xA30B3C3];
   [0x264C93D0; 0x70F5852D; 0x191AEE57; 0x5E51BCAB; 0xFAD8E96E; 0xD5C14AE9; 0xD4BC414B; 0x73B00534]];
  [[0x12AFF5E7; 0x21CF876B; 0xF75799A6; 0x3E9F664C; 0x9A0E73CD; 0xC23B7D19; 0x427EEA36; 0x77AAB691];
   [0x604EE854; 0x2E74F972; 0xF867C81A; 0x8712C7A0; 0x953A4C56; 0x6085980F; 0xF7707E1; 0x2DB99707]];
  [[0x78BDB7A7; 0x5ECC087F; 0x4C693F2; 0x43CC156C; 0x39BD7F1; 0x965067CF; 0x6E3FAE2F; 0x72140E56];
   [0xE019DED1; 0x26452E4D; 0x2EDEF154; 0x6F4C2349; 0x54DFC0F; 0xA7066D7F; 0x3381AB44; 0x544E6F6D]];
  [[0x9214C791; 0x9B6E9469; 0x86938BDC; 0xD74F9C55; 0xFC2928FD; 0xF1527F6; 0x63C3A053; 0x5B0FBF0F];
   [0xFC41FF10; 0xAC1F442C; 0x787B4932; 0x34EF88EF; 0x316732AC; 0xF8120F08; 0xA655DC4A; 0x7BCCF12C]];
  [[0xA6C7760E; 0x750DF97F; 0x609BF215; 0xF1A0A827; 0x67FD04B4; 0x7348C1B4; 0x615C8145; 0x6A581016];
   [0x9A11AAFC; 0x9DC01225; 0x3F2B0C8B; 0x24F65B05; 0xDCB1B2A4; 0xA27CB8BF; 0xE48C1A71; 0x3C44B811]];
  [[0xF780B295; 0xBC059AF2; 0xB6B247D; 0xDF58928C; 0x1903F3D; 0x224D4C3C; 0x818EE0AC; 0x7152E120];
   [0x54BFF1BE; 0x6C8F4745; 0x431ADEF7; 0x98A6C7EC; 0x91B2CFB6; 0xDCB6BB75; 0x7E83A5BB; 0x145F6D39]];
  [[0x81D23BC1; 0x827C000C; 0x403956FC; 0x5CDC1135; 0x3C751158; 0xD967A5B1; 0x96201D7D; 0x52AF85BC];
   [0x644558F7; 0x522BC492; 0xED7A060D; 0xF74A35AF; 0x4DC4619E; 0x10E5F9FD; 0x324F60BB; 0x6071F1F]];
  [[0x65921C34; 0xC5FFD5EF; 0x302BAA5D; 0x46CE1A69; 0x4E22FF1D; 0x89CC84EC; 0x68131754; 0x16A481AE];
   [0xB89039F5; 0x2A06A156; 0xB3A95AB9; 0x40B6401B; 0x313820C3; 0xFFCC53EB; 0xEA959F76; 0x256B00E7]];
  [[0x54FBDD74; 0xCCE87FC9; 0xB23C6E1D; 0xEC258542; 0x9E5E1928; 0x5BE392B4; 0x47A8A759; 0x65AF3110];
   [0x47DFFD31; 0x943F7A25; 0x51E896FA; 0xDCCDA186; 0x933E747F; 0x71A93B1E; 0xDFB043AD; 0x44F5C468]];
  [[0x786FCCBA; 0xF6AEC52C; 0x6D51FA78; 0x23D49DCF; 0x9B40D8E6; 0xF81463B; 0x708D3DA2; 0x18B9D932];
   [0xF986DC6D; 0x796F94ED; 0xFC2622C3; 0x33B2CCC1; 0x9CCEC606; 0x16790DFB; 0xCFD31481; 0x6F5D1452]];
  [[0x6C3A15D6; 0x91F15DDC; 0x4D360E75; 0x45D12F40; 0x1DAFFC9C; 0xF2E28EE8; 0x6CDF5566; 0x5CC6A056];
   [0x1779B9BF; 0x855166D2; 0xCF94D9FE; 0x92BA5EF4; 0x985BC1DD; 0x1266FB2A; 0xCA3018AD; 0x4572CE8F]];
  [[0xBE4BB604; 0x8729A12D; 0x4E99E9AB; 0x6A29C849; 0x7A89894D; 0x54AE5011; 0xCDB0EEBD; 0x5E66A255];
   [0xCBEE153B; 0x6736EA; 0x225E7B86; 0x8A36CC2D; 0xEC0598EC; 0xF731E430; 0x7FD9A11F; 0x49338E4D]];
  [[0xDA6DABAA; 0xE038CE03; 0x7C1BCE0C; 0x13A08DCE; 0xDA89EFBF; 0x12D00DD0; 0x6FCF0510; 0x70A13FB9];
   [0x5CDB03E2; 0x16ED1C92; 0x8E9EE4B; 0xDF1AB61D; 0x3AF3E3D; 0x48983DA8; 0x429DB770; 0x63CCA113]];
  [[0xCFB805E5; 0x6D9AC1EB; 0x50FA37B8; 0x47C3FE69; 0x2C33D457; 0xD308EC73; 0xD4CCA340; 0x3CB08E00];
   [0xBE862794; 0xC078DAD0; 0xF4E10A57; 0x2D147F83; 0x3DE1B3D5; 0xE91820FF; 0x6F30491B; 0x3D85DD72]];
  [[0xF5CBDD3A; 0xD486A022; 0xCAC0B99E; 0x2663134A; 0x5F3ABFCA; 0x42DE13F5; 0xB365B973; 0x4967A225];
   [0x10F1F997; 0x99C98A25; 0x7714FAB2; 0x23F057C9; 0x1BA2338D; 0xCE07CA6E; 0x69F65D7; 0x3BA69161]];
  [[0xC026FB0E; 0xCCD8C86F; 0x50407A8C; 0xF49F1FEA; 0x7F19A1DB; 0x72FEA37B; 0x3F457DB7; 0x22A03E25];
   [0x71F736D2; 0x2D6C62B2; 0xA5ACB4E5; 0xCC99F8E7; 0xDE5F380; 0x8F7DBF2E; 0x352B4933; 0x24494786]]];
 [[[0xAE2A5E8F; 0xF020E7A9; 0xD14C5F02; 0x5ADC788B; 0x65C84DB4; 0xC5E5AFE4; 0x35C2633C; 0x392FACC4];
   [0x42DEE269; 0x47D50070; 0x6EB7849C; 0x76706ED7; 0x316548CB; 0x6BF56D56; 0xD37FF4DF; 0x4A466066]];
  [[0xC30283AD; 0xC8EBBFB5; 0x3544E645; 0x31E9CF96; 0x88886B50; 0x90EA9A49; 0x21D3D5D; 0x5E4B8C88];
   [0xDFEB658; 0xA4DB9225; 0x1910FDAE; 0x8AA95DB6; 0xDE400EB9; 0x82E9A997; 0x96769A04; 0x238967E9]];
  [[0x89E2DF0A; 0x1ABB076A; 0x7065929; 0xDA8B09B0; 0x63BD349B; 0x332BE8A5; 0xA2D35385; 0xEB973CE];
   [0x9C7D375E; 0x67F7AE63; 0xE7AE90B1; 0xA235818D; 0x817493B0; 0x2B59C26E; 0x33C4ACD6; 0x39DC1050]];
  [[0x7B7DB3F5; 0x11801ACE; 0x8CC97CA5; 0x79C214C3; 0xBF2674BF; 0xB4BFE1AB; 0x43252011; 0x598EA7DC];
   [0xB08F8EF5; 0x217FF6D3; 0x8B9226B7; 0x9797BBC9; 0x7B0EDB09; 0xAB8E98C9; 0x83A401F; 0x240EC22D]];
  [[0x459ABC3D; 0x55A75BCF; 0x64ECC2DC; 0xB2F98598; 0x9EE84779; 0x271C47C3; 0xBF9BDBF2; 0x166E5D4];
   [0x4215B666; 0xD205380F; 0x64E9FE64; 0xF7041396; 0x2BB0DA40; 0x4C737E94; 0xC8119691; 0x2E763521]];
  [[0xFD2F8593; 0x79550B60; 0xC17A56F; 0x47E00AFD; 0xB44157CF; 0xD900A9D; 0xA81BED76; 0x16CF746];
   [0xAC47A84B; 0xC21E861B; 0x1724BD47; 0xE14387A; 0x2077F7BC; 0xC209303E; 0xBAD12F0B; 0x33B5EB59]];
  [[0x9850FC1F; 0x7152354F; 0x83637934; 0x1239576F; 0x82AF46BA; 0xB00C4E4E; 0xEC3FEEFF; 0x563D5062];
   [0x33D67B7F; 0xEF25E373; 0x50D9845E; 0x3A80A50E; 0xA5787EF5; 0x1DCED1E9; 0xA0F87C3C; 0x15723E9A]];
  [[0x2B4A156D; 0x21743511; 0xCD12BD2B; 0xB75C041C; 0x79F393A6; 0x6947368C; 0x76420E56; 0x32CDE49E];
   [0x43D612FF; 0x67FBA315; 0xE3B87BC2; 0x697F7FAE; 0x7391129A; 0x980DAFBC; 0x6F707469; 0x438B2858]];
  [[0x5E9D085F; 0xDA8AD16D; 0x768FA87C; 0xE636F1AF; 0xB85FF1F1; 0x8520756; 0x6ABB31BE; 0x1B818481];
   [0x2E686F1A; 0x25B3DCB9; 0x2B0CB829; 0xE1282134; 0x3B9B759C; 0x626232BC; 0x38C4338E; 0x797316BB]];
  [[0x4A62DCBD; 0xF8365B64; 0x6BF0EFED; 0xC2CF51BA; 0xABF74764; 0x37E379EF; 0xA350D603; 0x5DC32071];
   [0x5B732100; 0x5465CC80; 0xB3BB5366; 0x3231B4E3; 0xD0D067CE; 0x23F5385E; 0x67D33451; 0x76CD7621]];
  [[0x55D857DD; 0xC6C93A05; 0x8F308F7F; 0xB4B6F176; 0xC0F13577; 0x2371CD88; 0x70807D9D; 0x1E507D6C];
   [0xC73E8E2F; 0x7A77CCE1; 0xFCCBDEEB; 0x1DD96274; 0x3F378B8; 0xA4DBEA5D; 0x2A1C347F; 0x44B4DF55]];
  [[0x8D067A47; 0x9853D282; 0x86813E74; 0xBF0ADAF4; 0x39409037; 0xFDE1F24D; 0x973B045D; 0xE629604];
   [0x3BB92FAB; 0x9880A74B; 0xC6C4D6C6; 0xBC4E3405; 0x5184A2D6; 0x98C24318; 0xC210C183; 0x7D65412]];
  [[0x441A5FBC; 0x3938E528; 0xCCC66B22; 0x2CCD837D; 0x5E606282; 0x75FADE7; 0x4BB0E76A; 0x32181165];
   [0xFC929890; 0xE7240305; 0xE03AAA52; 0x1FA427C8; 0xBC7B9F8; 0xF23C879B; 0xD6BBC908; 0x699A1235]];
  [[0x14124B8A; 0x20C29781; 0x48000278; 0xC6464B3; 0xD644E10C; 0xF1939127; 0x4EC07EE3; 0x47A479E6];
   [0x77023389; 0xB6315768; 0x8BFDD90F; 0xC0FD319D; 0x6CB022D4; 0xEBEC200; 0x302F58EF; 0x6810DF3D]];
  [[0xACB1C3F2; 0xCF97FA07; 0xA2C3F2F1; 0xACC60D84; 0x5DEB73D4; 0x4EF3CAAC; 0xD5472C1D; 0x654D0D90];
   [0xE4729062; 0x5A39A718; 0x8324E0F2; 0x84B286B0; 0xD21E8457; 0xA07A01CB; 0xB094714E; 0xEC091C7]];
  [[0x895736BD; 0x7AB81940; 0xE4679DF5; 0x9AE791B7; 0xF064109B; 0x36163D81; 0xE956B07; 0x3DDEE4A4];
   [0xFEAAE47C; 0xE146E7EE; 0x6A8EEC03; 0x81C0C2A7; 0xA8C315CB; 0x10BB8DD9; 0xD21B9AB0; 0x2CB423D8]]];
 [[[0x166A5B9A; 0x5B11D3C7; 0x8768861D; 0x973627BB; 0x5A3E442A; 0x82A5E2CD; 0xDDE63678; 0x13F6C741];
   [0xD892738E; 0x8DAA3C74; 0xA932376F; 0xA07D651; 0x6892504B; 0xE12612C5; 0xCA3FF301; 0x619D2B1D]];
  [[0x1B07CEB7; 0x2B6D686F; 0x298D0996; 0x90C0260C; 0x102BC73C; 0x8CAAB926; 0xAEB3911C; 0x445A6487];
   [0x57F17290; 0x7EE1E547; 0x417711BF; 0xC055478B; 0x5CFA42C2; 0x29EF9FEC; 0x2B8EA0D6; 0x5A022DE4]];
  [[0xAEEB2675; 0x81A5EC18; 0xAD1BBA8A; 0xA867C5AA; 0x8DB47EBC; 0xAECB3688; 0x26D1038F; 0x77CE00BC];
   [0x3E68504B; 0xADC635EF; 0xDAE8AF4F; 0xEFC21DE; 0xAC70C4C9; 0xDE57FD43; 0xE78FFC0D; 0x123360BE]];
  [[0xD82B61DB; 0xD608DB32; 0x8E45C853; 0x5AF2A90; 0x9D3B0032; 0xF1B8213E; 0xCAD15361; 0x2312F8AB];
   [0xC29EE818; 0xDC8D8E32; 0xDE5CD587; 0x7D7A475; 0xC6C38B8; 0x76610913; 0xD7984BD9; 0x131B6C6]];
  [[0xCF69C844; 0xC05CD4D0; 0x81A9B005; 0x747C092D; 0xD9E39F54; 0xD793551; 0x7FFEF17C; 0x3BBB00DA];
   [0x655AD7C1; 0x6CAB83D9; 0x66A8F590; 0x601BECD0; 0xAE51811B; 0xFADB086D; 0xD69F734B; 0x7768A5D8]];
  [[0xF0E2385E; 0x3BB9B347; 0xF7D39F23; 0x376C8C48; 0xD82EC840; 0xE656C1A4; 0xFC2AC59A; 0x328B25C9];
   [0xA046BEE6; 0xD02B2F39; 0x80066D6C; 0xDBAB19A5; 0xE938B7F7; 0x6A2E8F67; 0xAA7F2661; 0x645A57A1]];
  [[0x9A006FAE; 0x6227904D; 0xB598CB72; 0xA975FC4C; 0xA1120B82; 0x945BFC2F; 0x2AC15CE5; 0x437A8AB4];
   [0xF53317C; 0xA512A107; 0xFF9BD7D6; 0x7B552554; 0x54155AF9; 0xF81213E7; 0xFDCE0842; 0x923F42C]];
  [[0x5216BB55; 0x13523916; 0x599CA117; 0xF27E4C7A; 0x7DD95BE1; 0x464D040A; 0x3C417D05; 0x40897486];
   [0x7C88E5D7; 0xA3D16BF; 0xC13B286F; 0xB94C661; 0xE2214821; 0xF73C7126; 0xF2F6DAFA; 0x4B3D5BF0]];
  [[0xF1A4332A; 0xCFABD8A2; 0xBAAC9A51; 0x56DB1546; 0x4416247; 0x8CC5204B; 0xF0583310; 0x75EC13BF];
   [0xD35B55D0; 0xD68896E; 0x67FC14D9; 0xE89274E2; 0xFC322878; 0x18D425C0; 0x916C714A; 0x69477DD7]];
  [[0x9BDDF0F9; 0x427CBB6C; 0xDB9F52CB; 0xCF6941E2; 0x35E60DFA; 0xEF144DF6; 0xB61DF45C; 0x27B5246E];
   [0xB8D3D1D9; 0xE124518; 0x8B313B95; 0xBB3BA134; 0xFA2B7A9; 0x50DCBDF; 0x1D0A99B5; 0x50DBCF6D]];
  [[0x3924A1E5; 0x8A8B22CB; 0x118F9D55; 0x86CB4C5A; 0x5B339C53; 0xE5330ACC; 0x66A35A67; 0x6D5FDDF9];
   [0x6F6438A5; 0xC9500719; 0x7E5394E; 0x9723F2BA; 0x866B45A8; 0xA9CE2117; 0x45CA2CA; 0x1B737D8D]];
  [[0x6EE00E30; 0x6093F5A5; 0x5DE0A6FC; 0x5CAB98D4; 0x65DE754F; 0xADFB652C; 0x862EFD1D; 0x679900D1];
   [0xAFC5D235; 0x6E5C230F; 0x12CF6DD3; 0x3A1E5579; 0x3FB4FA0; 0x241C20FB; 0x20F6C013; 0x562FFAE3]];
  [[0x397F25EC; 0x6EFC732F; 0xBC1F03B8; 0x304D1F7D; 0x8890DADE; 0xA2FA6001; 0x51A25539; 0x4F91F97C];
   [0x48F4EF02; 0xE75F9C50; 0x218AEE9D; 0xCC53F460; 0x10D76649; 0xE7B40489; 0x42ECDBA4; 0x148F90A2]];
  [[0x1F683AD6; 0xBF45023A; 0x95E868D1; 0x2EA5F70C; 0xA97F2DE3; 0x47A19F33; 0x8A76ED9F; 0x3C8CCA9E];
   [0xE1A268D0; 0x1562C6E; 0xBA4EF01E; 0x9EB6EBAC; 0x342410FB; 0x835E64D4; 0xFFF4594D; 0x6F96B87]];
  [[0xD233612B; 0xE49A383A; 0xC9C14F64; 0x3CA5421F; 0xBB53DF81; 0x25192E1B; 0xA94C046C; 0x3C1451FE];
   [0x423FAA8; 0x72B270F8; 0x3763888A; 0xFF63513D; 0xC1745190; 0xB22F2F20; 0x35DEA32C; 0x2E005A7A]];
  [[0x6305B2EB; 0x6B5A4E7A; 0x9CCD05D2; 0xF017BCA1; 0xD19AD8CB; 0xB37027C9; 0xCBB36A6; 0x2CFCB470];
   [0x663F3485; 0x17F4FE51; 0xDC3467B; 0x7DC20A17; 0x4AF63CBD; 0x6B56BA3F; 0xD5D64AF; 0x4E7CF289]]];
 [[[0x7F59D2E9; 0xE2C5CD1F; 0x9D7FBE1E; 0x6B9ACEB7; 0xA20225B0; 0x84F0441D; 0x8B369FBC; 0x15875CDA];
   [0x659E294; 0xED133277; 0x7AE02043; 0x7FAA913E; 0x9DCEDE14; 0xCA0E58DA; 0xCDE68547; 0x5F6A70FD]];
  [[0xE7282711; 0x524B790D; 0xBCA05694; 0x4B4F6246; 0x949AF774; 0x85169ECB; 0xCC743068; 0x5B168842];
   [0x31FB3BA3; 0xB8D0E9F2; 0x62D471C7; 0x56DD4BC3; 0xE2A34F75; 0xB14D689C; 0x2E8D2D2; 0x7F4E1717]];
  [[0xB17090B9; 0x8EE3491A; 0x6B7EDAF4; 0x67C07116; 0x4D0E6CCE; 0x6876E4CE; 0xBC5A86BE; 0x6D2FBB64];
   [0x70FA8C3; 0x431C67A; 0xF5D65F4; 0x91EFF9BE; 0xE07088DF; 0x332985E2; 0x676EADA8; 0x6D2583]];
  [[0xAA747D6; 0xA1FBCC37; 0xB0DFDF3C; 0xADEA4A90; 0x401ED81B; 0x650162C7; 0xA8B15E22; 0xFBC4841];
   [0xBF98CDAC; 0x1044B4E8; 0xECD1C668; 0x37071115; 0x233C220C; 0x29B93C17; 0xE69BC0C0; 0x4BEBC3CC]];
  [[0x46BF7E51; 0xD1A16E37; 0xF7A7370C; 0x889C7782; 0x3CCB474D; 0xC73F396E; 0xB9D67A2E; 0x1C508F18];
   [0x6B03B7E7; 0x3F17E967; 0xF857BB26; 0x3928F1D8; 0xC0EA8620; 0x3086FB2E; 0x1BE7C3E4; 0x15DC32C2]];
  [[0x11F4D949; 0xF48D4C32; 0xB0357C05; 0xE14A4AE3; 0x151D91AE; 0x77A1121F; 0xE8C6869D; 0x33F85C2F];
   [0x364B77B0; 0x8EA3BB4C; 0x9BD43E50; 0x1F155B91; 0x54748E7D; 0xA6C28730; 0xE7DDC539; 0x5AA34DDA]];
  [[0xA6CF8A82; 0xF0F80DDA; 0x91663B5; 0x87DE6D6C; 0x2FE5519; 0x94798734; 0x96722130; 0x109D411F];
   [0xE661041F; 0xBC47CA73; 0x65741541; 0x71D6059; 0x7E08735; 0x7CD4DF66; 0xE68FC807; 0x175E1F77]];
  [[0xDA58865B; 0xB88BDAB8; 0x20ED2B89; 0x14AD9112; 0x39BF0A3; 0x2B21AEDF; 0x9D4B77E9; 0x78971777];
   [0xD6612EF3; 0x133DA2AC; 0x12AD1785; 0x6260FCF5; 0x9DF08843; 0xDBA784DA; 0x4449FBD1; 0x1A30C4CF]];
  [[0x4EF7ACA2; 0xB6FECE87; 0x13F7C58C; 0x9CE7B61A; 0xF8719A60; 0x6B0223C9; 0xA3B3B088; 0x21199AA5];
   [0x6938BB02; 0x4A717196; 0xE7ABC263; 0x2E9A17C9; 0x4BAB12B7; 0x83F79623; 0x49D7CFBD; 0x15C0C4AF]];
  [[0x56D2957F; 0x99B34139; 0x7218BB6; 0xA51B8DFD; 0xFC91D7C9; 0x47CA4323; 0x3DCFD5F0; 0x44B01E75];
   [0x8CE894F3; 0x29F9D18E; 0x95227C6F; 0x22BCC540; 0x3FC75409; 0x815CD936; 0xD8989472; 0xD58B325]];
  [[0xB6C80208; 0x8B4C6980; 0x8FB77CCD; 0xA5D97497; 0x9477132F; 0x1B896571; 0x3AE45F53; 0x348ABC21];
   [0x14BCDB96; 0xE438C1C3; 0x8007C1BF; 0x63150CF9; 0x8508B903; 0xDB861A33; 0x7B04ECD6; 0x421DFB01]];
  [[0x19430E7B; 0xF2FCE58B; 0xD0F8ECB7; 0x851A5F03; 0xA5A1833; 0xE756C167; 0x227F866C; 0x25A51405];
   [0x3C6EE5F3; 0x40F34CB0; 0xF244B5CF; 0xF4010401; 0x1349BCF; 0xE21BDED; 0x4547F42; 0x1B129D82]];
  [[0x927D153; 0x802EC480; 0x72541520; 0xF75E4FE; 0x26C4613; 0xA4A1557A; 0x7D92BC18; 0x25E8DAFB];
   [0x12F15F05; 0x1D87A143; 0x7B6B4240; 0x79390E3C; 0x492E6273; 0xFC199D76; 0x7EB090C0; 0x53F1C4]];
  [[0xACEE6DFC; 0xE790F1CA; 0xDFEA04FF; 0xC8FB4626; 0x627D88D7; 0xBF03627F; 0x3D81A75A; 0x1B369884];
   [0x917FA19D; 0x83405DDA; 0x8C7DDCD2; 0xFFB23FF9; 0x40F10B48; 0x644F54C7; 0x17FF713A; 0x4636FADF]];
  [[0x27F417E4; 0xDA62ECC2; 0xFD8662BE; 0xC0DBE48F; 0x1011E73C; 0x729EE4AA; 0x3E11C84B; 0x4BAE5D3C];
   [0x6CEF6CDA; 0x854DFFF8; 0xCB7131EA; 0x7939228C; 0xD3EBC607; 0x58B3744A; 0x2049E239; 0x6EB9248F]];
  [[0xED0D4E57; 0x265CAE9; 0x8AA65AEF; 0x92166D02; 0x198345D6; 0x2E337CDA; 0xABE1AD7B; 0x6775330C];
   [0xBF6FBC7D; 0xA9A828A8; 0xCBFEA393; 0x33A56F8D; 0xD811EC51; 0x2DB72F77; 0x8327C78E; 0x3DDFCD26]]];
 [[[0xB46AA2C4; 0x7CF8A521; 0xACF0D567; 0xE3B20937; 0xA440648E; 0xD47D8D1B; 0x1E9791A1; 0x674E7920];
   [0x18366462; 0x27B714EB; 0x8476F588; 0x1526E558; 0x6C240D70; 0x72C8D374; 0x805C1265; 0x66BBAFB]];
  [[0x457034E1; 0x15F1CFF5; 0xDD819FA7; 0xCF7C6550; 0x77AC7AD6; 0x57C2CD53; 0xAFED669D; 0x7DB2A8BE];
   [0xD4697340; 0x2DAFD95F; 0x15A6B6E7; 0x382FF892; 0xBF4A6B1B; 0x36FC753; 0xE4012711; 0x3E7AC46D]];
  [[0x5752A34D; 0xBA5ECDED; 0x6BAA08DD; 0xB08749D4; 0x4A4A47A8; 0x8A2B9897; 0xE42DCE02; 0x7230966F];
   [0x58654FF5; 0xA6FF614A; 0xAB3C2A7E; 0x7F3531D1; 0xD0ED417; 0x282A2F0; 0xEA9755A3; 0x2DC7B872]];
  [[0x2392536A; 0x7678D765; 0x574C657D; 0xC2025F1; 0x795413DC; 0x1701C80; 0x5396279E; 0x63F0D496];
   [0xFA32EA64; 0xB0F9968A; 0x5BB393DE; 0x81265D15; 0xBCD8C10; 0xC05ECC6D; 0x2824457E; 0x4F3769F9]];
  [[0xF13DB92E; 0x9AA58686; 0xED2E1B18; 0x1155CDF4; 0x9823F5A; 0xA06E9194; 0x4257AB0E; 0x7F1BBE73];
   [0xABA6FCD1; 0x2DFB6472; 0xD73D850E; 0x4BE6BCA; 0x297D312B; 0x72AAEC34; 0x7509D9F5; 0x31F4C02C]];
  [[0x7CA72AD5; 0xAA9BA000; 0x7FBCB4D6; 0x21EE2945; 0x1CF8580A; 0xE210AAB; 0xFA8DE10; 0x600479FE];
   [0x54322F70; 0x246FD265; 0x60DF1893; 0xC60BE9BB; 0x5137E38; 0x4D4F99D; 0x6164C176; 0x6ACB9E01]];
  [[0xC1DB7B6C; 0x126F2C7E; 0xCF4DD3C0; 0x4C3B30B5; 0xF782A489; 0x827D57A2; 0xE52621F0; 0x41B897DE];
   [0xDDA0A3CD; 0xED31C55A; 0xA11AD179; 0x21C91BB2; 0x43FD6E23; 0x60E606B8; 0x51ED7FA6; 0x31B8138D]];
  [[0xE72E4BC5; 0x1387B313; 0x82EBFC72; 0xDCCCB09C; 0xAA4432D6; 0xF0B01202; 0x7C52B69D; 0x632599C4];
   [0xBCE9A04C; 0x3922D0C0; 0xB53F4268; 0xC2397D88; 0x669858; 0x50AE5ED9; 0x16C7696B; 0x1B2BD4C2]];
  [[0x2BF7DF06; 0x6FAE1B08; 0x5210DB3B; 0x870B3FE8; 0x9BDC0B91; 0x680BE422; 0xBCC970AD; 0x56BA83C6];
   [0x859D6C78; 0x1AE91BAC; 0x2895A1A6; 0xC5BDD5FB; 0x550610F5; 0xA169E73C; 0xCC7D3EA; 0x1B46767]];
  [[0xEC5ECE2; 0x1E147A51; 0xD0E2C46C; 0x9B612A1F; 0x5E293783; 0x664FDD55; 0x67DC4DBC; 0x52070E15];
   [0x4A4903FB; 0x449B53E5; 0xA8D30103; 0x79B53583; 0xAF7CC314; 0x616C97F3; 0x2849862C; 0x6BEB304C]];
  [[0x19F0313; 0xB9C636D6; 0xD3E0188D; 0xB08E7CB; 0xD704DE15; 0xEAEB1715; 0x837E7543; 0x4990282C];
   [0xFBD3A061; 0xCBB0BD49; 0x1DA124AE; 0x3454A8AC; 0x37D64EAB; 0xD524A02; 0xB3E4ADE; 0x76680749]];
  [[0x95B04835; 0xC293E011; 0x23D0C885; 0x76D304BA; 0xD6552D80; 0x36A63627; 0xC504CCAB; 0x3B4FA680];
   [0xE1FC08DF; 0xF25B3A04; 0x62D080F8; 0x786380E5; 0xDAC0D110; 0xA731427; 0xD628429A; 0x1D65288F]];
  [[0xDC94453E; 0x3CE5E929; 0xB6073324; 0xEC7CF988; 0xDCB35234; 0x23361E7; 0xF5E89B7C; 0x3AF20624];
   [0xA5B2B103; 0x860F188E; 0xCB6D112F; 0x5EAC84CE; 0x914C9FFD; 0x63B200C3; 0x55A1FDCB; 0x327870A0]];
  [[0x155280ED; 0x4F94633C; 0x3654B8AA; 0xF98321D5; 0x489AE89A; 0x9C057A23; 0xD59CA3B5; 0x1124A1FB];
   [0x1F64AFD7; 0x2F4CE052; 0x7C789152; 0x841EE441; 0x59A98374; 0x93531ED4; 0x36BB8F07; 0x69A4F48C]];
  [[0x5FD512A7; 0xD8FFD243; 0x9BEA1738; 0xF48C96F1; 0xFFB4553; 0xF70E1F6A; 0x5FF91D21; 0x29DB63B1];
   [0x77BF7279; 0xC1355C23; 0xA2FC904D; 0xD3946EE9; 0xE7B7A9F4; 0x7223881; 0x56E08ED6; 0x212D8967]];
  [[0x45503451; 0x32B8C22A; 0xE6AB7B3D; 0x9E4FDAF1; 0x4A31294; 0x7A300E3D; 0x5FE2AEB; 0xF529DFD];
   [0x9951B6FB; 0x7EFFEA9E; 0x336B9A2B; 0x18C60266; 0x6C8D0EEC; 0xB78A5EE1; 0x46ED0B23; 0x68C17FE4]]];
 [[[0x96B3222E; 0xF707FAD5; 0x223F804; 0xD6AF6161; 0x4F43A0E9; 0x13FFDC74; 0x3347F487; 0x6A3B70E9];
   [0x6A4AF4F5; 0xBDDF02A4; 0xE4C69950; 0x61B451E1; 0xF9E3BB99; 0xFF854590; 0x7CD54C54; 0x46EB1F69]];
  [[0x8E6848D3; 0x70E643B6; 0x848C2587; 0xC58B8519; 0xEDF4A38E; 0x2F195C54; 0x3D2A52E8; 0x206E6A32];
   [0x417595BF; 0x234845B5; 0xFF5AE3CB; 0x90354373; 0x89C0E555; 0x13BE31CE; 0xCC67E26F; 0x2D18AA43]];
  [[0xF041BD17; 0xC74EE8C4; 0xC2B3CC64; 0x655CF527; 0x160FF053; 0x6735CF0A; 0x4218A0D; 0x35DAB9EB];
   [0xCBC34E46; 0x32BB2E9A; 0x7D190342; 0xF780CEAF; 0x9F0DA1A4; 0x161C0C1A; 0xE7642FD6; 0x7B198C9E]];
  [[0x122FD0B4; 0x936C763E; 0xA7E0C435; 0xA3819ED9; 0xCAAE6D7B; 0x86228B04; 0x7A3C65B4; 0x2E116018];
   [0xD4EB0345; 0xF55BB1F3; 0x630B569; 0x858A0BF4; 0xCB78A626; 0x8CC22657; 0xB45E3005; 0x7CD93BDE]];
  [[0x98E517AB; 0xCAA1F459; 0xB34A6F5C; 0x36E60281; 0xB46F47F; 0x877A49F3; 0x9E7BE761; 0x179824B];
   [0xD455D9C0; 0x6830A2B2; 0x7BA31962; 0xB734BA0A; 0x65C3B51; 0x344665A4; 0x562E7F1D; 0xB1D2210]];
  [[0xB2E22E8; 0x289BAFCA; 0x83390107; 0x38929A0; 0x683E782; 0x968A014D; 0x53D34463; 0x5A1AD5C8];
   [0x9527B2CA; 0xA2613334; 0x310B745F; 0xE8471271; 0x31387F59; 0x49C81A26; 0x343C691; 0x1B955AF7]];
  [[0xA4A9FCA4; 0x69328AD; 0x624FCB94; 0x14EF09A7; 0xE3E0CECD; 0x21C76F0D; 0x6C1BCE0F; 0x5F470B86];
   [0xB15BC8B4; 0x79319A3F; 0xDB06AFA1; 0xB1407CB1; 0x911116E0; 0xD69E9E09; 0x756579E; 0x6E77524E]];
  [[0xE2D851D5; 0xD3EC5EBC; 0x3B63143; 0xC888BC23; 0xDB0C357F; 0x5F3DE41E; 0xC3D47D37; 0x646FFBD3];
   [0x692639B; 0xE53F8BEB; 0xD4FBC3D4; 0x7E194E37; 0x452B2A2E; 0xE1988A22; 0xB013F9E1; 0x5D359A15]];
  [[0xB2A6627D; 0xA48160A7; 0x3CE8789E; 0x5EFDC848; 0xB1CD14EE; 0x264CBFF1; 0x44D84222; 0x288823D4];
   [0x3A6DB1F8; 0x2F091B23; 0xCEA89B44; 0xBFD737B5; 0x17F5E969; 0x682AB86C; 0xABB0FA87; 0x7653005C]];
  [[0xD4B8A43A; 0x619C2629; 0xB6DAF943; 0xBFDAF433; 0x6D640DB8; 0xDC7AA1EE; 0x3B08D55C; 0x35ADEEA8];
   [0xD7AF5382; 0x30935454; 0x3D68A24A; 0x1F9C51A1; 0x78BDBEA9; 0xDBD13CFC; 0x31210A3F; 0x3B6D99]];
  [[0x9C2B515D; 0xD4547A32; 0xFECDAAA9; 0x4AF29AA8; 0xE401D5AD; 0x85C80ECD; 0x8AA315A1; 0x2830332D];
   [0x71DCE198; 0x56758823; 0x6ACBDEE3; 0x55AC9D10; 0x575CF4BB; 0xF6D468CF; 0x576B5C4A; 0x46E4FA98]];
  [[0x20D859EF; 0xAD20F820; 0x2A5462B0; 0x38091588; 0x2135DA7D; 0x35F45C9F; 0xF7F20DBD; 0x6B426F91];
   [0xF96E77D2; 0x4A0D8CBE; 0xCC51D3F4; 0x8FC36F5B; 0xBE16A0A8; 0x7A1870DD; 0x114DB780; 0x29C3E2B3]];
  [[0x21779E6E; 0xFF692A4C; 0xA6026EC1; 0x698231AB; 0xEF03E21B; 0xDAB0D835; 0xC846D56F; 0x770BFFAC];
   [0x3B8B0747; 0xCD28722D; 0x32AE95E5; 0x3DEFE040; 0xF9857D6; 0x6F5D816A; 0xFC630F5E; 0x2E483FED]];
  [[0x967C7140; 0xDBF82EC4; 0xD20A2A5; 0x6265CAD1; 0x5862DEFE; 0x1509652B; 0x94A284E5; 0x699DD939];
   [0xB2CC732; 0xC0116646; 0x94C3EF86; 0x583FE012; 0xCD353430; 0xCD5DAEA8; 0xC7ADA62B; 0x2B39A746]];
  [[0xE4257BBC; 0xF449B989; 0xA90DCCE6; 0x95BA21BA; 0x93CA4ACD; 0xDD53AD5C; 0xBB4213B; 0x7FCF2738];
   [0xC2E7E54E; 0xE57C1C0; 0xA1A0E975; 0xD1769DAE; 0xC3B6E13B; 0x68F62C4E; 0x781242D8; 0x75152F9A]];
  [[0x24B8B820; 0x4D582768; 0x5BBD9F84; 0x36E37AC4; 0xDA076F12; 0x1F34414A; 0x3E0333C6; 0x8A77C28];
   [0xD9193382; 0xBB1F017D; 0x83A5612D; 0x56E9AA24; 0xD0B4554F; 0x6959B02B; 0xE4559B52; 0x2479BC56]]];
 [[[0xF570A8E; 0x96D631C6; 0xD714B807; 0xE3F566A3; 0xEF7E1550; 0x564DD512; 0x79FA2F58; 0x1C5CF24A];
   [0x897958DB; 0x973BA599; 0x11A9CBB1; 0x93951D17; 0xA37A969A; 0x86BA17F6; 0xA069B195; 0x4807CAC7]];
  [[0x6665B35E; 0xB64AC0D4; 0x7EF72C68; 0xBA9CD394; 0x9C4CBC44; 0x838807B2; 0x82770197; 0x2675D268];
   [0x17087FA9; 0xBFC2F137; 0xE7B79B31; 0x811E644B; 0xC963A061; 0x597CE23F; 0x2EA0DEB0; 0x40BC32E4]];
  [[0x27C85959; 0xC0AEFB50; 0x58E0FDD; 0x76D1087E; 0x7E51A6F8; 0x6ADA5AAF; 0x54A058D; 0x424B16E0];
   [0x63AF9766; 0x9A2C20A9; 0x3CF18DAB; 0x4C1CB532; 0x6C5D6A00; 0x599CD929; 0x8AA311BF; 0x57C39BAE]];
  [[0xCD987F02; 0x3FDF5B46; 0x353175C4; 0x57755078; 0xCD578394; 0x80223EC0; 0xAEB7D278; 0x4BBA6AC];
   [0x8688BFB2; 0xD27FD2BE; 0xC27A62E5; 0xB2F80278; 0x339429D8; 0x8BA6FB07; 0x3AB70AA0; 0x57737FF6]];
  [[0x8EAEB3C9; 0x140E47F; 0x735AC8EA; 0xB91C9798; 0x83D4EFAA; 0x325E0312; 0xD9C5888E; 0x1E7DA3BE];
   [0xF7F1EB13; 0xA210CDA6; 0x936EA9E9; 0xEDC1F6B3; 0x1B097F65; 0x46E831C4; 0x1939A0AE; 0x857601]];
  [[0x1F68BB40; 0x7C26F711; 0x39DDBE6D; 0xEA69C845; 0xE5316F22; 0x590BF426; 0xCC2DF9C9; 0x40CDC921];
   [0xF3F991C6; 0x28A32DDE; 0x5356CA78; 0xD75B59E6; 0xD1F5F318; 0xB5DD3861; 0xE7929834; 0x9EB1A2D]];
  [[0xDBC0370D; 0x701F9A2D; 0x2870B59D; 0x559D0FAF; 0x55367B5D; 0xE89E5DF0; 0x74005A58; 0x22BBD4FC];
   [0x99CDC76B; 0x7ACED1E4; 0xE3C219D3; 0xD41C827C; 0x8221D91F; 0x5AF3F2AE; 0xE5B6BC98; 0x6D62C990]];
  [[0x7FFC9D0F; 0x23B2A0BF; 0x974CA299; 0xED98F71D; 0x151D559B; 0x10F8C07A; 0x8E949C62; 0x40E46FC3];
   [0xBBE55338; 0xCF53E34; 0x115520D4; 0xF2D6CF26; 0x590B4E23; 0x915FF09A; 0xBEDC75F2; 0x72E4233]];
  [[0x997E9BFA; 0xB67A6B60; 0x973BC3E7; 0xE7686AC9; 0xB228320; 0x9525B449; 0x7ADE8F19; 0x6C727583];
   [0x62FF3D5; 0x3D064298; 0x7E22768; 0x5483826C; 0x1F7A64A4; 0xF4ADE921; 0xBD92EB25; 0x70BDDCF7]];
  [[0x5D8A9E36; 0xA8DB3611; 0xFA81065A; 0xAA6A5F33; 0x366DDA90; 0x8EC120A3; 0xD8A15CF7; 0x2AA0AB25];
   [0xA0DFFB9C; 0x5E11E169; 0x118408A7; 0x8C7572E9; 0x35833ADF; 0x4EEFD13E; 0xFC2C1811; 0x2C6732E8]];
  [[0xB1537DF6; 0x15D063F9; 0x414FCFD; 0x864176B3; 0x8FF9E32E; 0x9C0A194C; 0xDDE1540B; 0x4DB14C6F];
   [0x31F6493F; 0xFAA4AED4; 0xD3C41A46; 0x2C479F1D; 0x8E5E85A2; 0xC3119667; 0x84E9A76C; 0x7E567C80]];
  [[0x689A6B95; 0xB9E2C92A; 0x3B635B01; 0xCCEAC383; 0x34AAB952; 0x4FEA465; 0x63B5CF63; 0x772E5027];
   [0x25830581; 0xCB94F5D2; 0xC77FB7DE; 0x791004AF; 0x5140E4AE; 0x53273C33; 0xA524419F; 0xC2D329E]];
  [[0xB307B0E4; 0xB7CEDA36; 0xF8F9667; 0x12DF7FD0; 0xBF62BD94; 0x74274002; 0xC436C319; 0x6765C73D];
   [0xF6EEC946; 0x79B64CE5; 0xDAB258B6; 0x3B1B4B43; 0xEE1F8B84; 0x377819A3; 0x76D0EB1F; 0x1F45F1D6]];
  [[0x58C953AD; 0xCC5BF9B3; 0x7BAD1D2C; 0x8303250F; 0xF164972B; 0xBCA7BC36; 0xB1DFDA64; 0x2CACF8A9];
   [0xD4E2A06F; 0xB03A59B9; 0x1B7FB8FD; 0xFED68E68; 0x7E747AE6; 0x8F75A52; 0x37A4420B; 0x3299EA6B]];
  [[0x932E5BA6; 0x49A00BE6; 0x56114C4B; 0x49212505; 0x376183C7; 0x786B7D31; 0xDD8A5EAF; 0x1F9E229];
   [0x53094AD4; 0xE9B8E990; 0xBFAEDFA8; 0x2EDA305C; 0x7F9E3BC8; 0x34443726; 0x6B55B3C3; 0x1729519C]];
  [[0x50A597D6; 0xEA5A68C0; 0xF1E86D1B; 0xA65147D4; 0x8B47CDEB; 0x554FA36B; 0x9F24FFED; 0x7F38364B];
   [0x1D2A8E2B; 0x657C7E05; 0xE3F64D62; 0x8270F1A7; 0x953AF5A2; 0xFD258B59; 0x43510AA3; 0x6DE01141]]];
 [[[0xD7A5CBE; 0x48390428; 0xDE441E5E; 0xD37E8C1F; 0xDE31C8C; 0x908C88B8; 0xACD87CE; 0x7C0E24BB];
   [0x25ECCCE8; 0x4A781177; 0xCBDA746F; 0xC06C2F7A; 0xAB565DD4; 0xDB9E9A08; 0xBE776F5B; 0x1E9B44C0]];
  [[0x85B54ABC; 0x7CFD4E50; 0xE7A44F8B; 0x41A4A4DC; 0xA4422576; 0x751C5052; 0xD56B6CB1; 0x534FE0B2];
   [0xD5D767D0; 0x22DAA5CD; 0xAF8E22C; 0x9C1999AB; 0x99259068; 0xC70C0932; 0xFD0839F0; 0x459D212E]];
  [[0xFD32D79B; 0xA207E7DE; 0x410B479F; 0xA7B54991; 0xD68E5CDC; 0x806912B6; 0x92AB8B64; 0x1CB7B68C];
   [0xDF98339F; 0x3DB85378; 0x83EA7A18; 0xA24101DC; 0xE25522C5; 0x8892367C; 0x7753A2C3; 0x491A8BB3]];
  [[0x8C7875A7; 0x571C547E; 0xE9747C13; 0x7E5F23E4; 0x1058548D; 0xF3BBB2; 0xE2397102; 0x7081F172];
   [0x6B573034; 0xB4351B8A; 0xC1A094F0; 0xB35A4F44; 0xAE951E96; 0xE2C1DAED; 0xB9DAA081; 0x5CF2A742]];
  [[0x9828ED9F; 0xB4F0D3F0; 0xA9251386; 0x6DB312FB; 0x537203F2; 0xC9A4583F; 0x9CE76D40; 0x5E099639];
   [0xC9F8CEA8; 0x3381B894; 0x626E07E8; 0x8242DAF8; 0x6077DFD9; 0x64A0B68C; 0x563CF051; 0x3CC462C0]];
  [[0x87AF4A45; 0x8937364C; 0x2DE0FD60; 0x8C4ACBFA; 0x472A5D8A; 0xF10AED11; 0x5380C2E6; 0x3F5674B5];
   [0x2BF8A452; 0x8F4FD0F5; 0xC7390418; 0xB436E388; 0xE6EE9406; 0xAFAB7B7C; 0x951739BA; 0x4F623177]];
  [[0xA9B50F2A; 0x90B0ED35; 0xAC6CF217; 0x46DC3F91; 0x2C7B119C; 0x2F142031; 0x7D79225; 0x55A93CBC];
   [0xB304A642; 0x45E0DD7D; 0xD572D446; 0xB743DFCD; 0xAC74B368; 0x867B02EB; 0x169B94B0; 0x67B2B86C]];
  [[0x483CFEDB; 0x18396DA7; 0x8A3A07C2; 0x6C6E0370; 0xAB554998; 0xF32A1AFE; 0x87D1C136; 0x408C9119];
   [0x4BBE0B78; 0x755F6325; 0xD1178550; 0xDC4A7319; 0xB3B9E459; 0x44B49813; 0x4C3D3620; 0x294B9A9]];
  [[0x67FA6FF; 0x6480F6FE; 0xF307A52E; 0x67891400; 0x7F865DA8; 0x9F846EF8; 0xAE02F671; 0x318DAC55];
   [0xE288A317; 0x91119652; 0x38C61B8; 0x4D7CF2B8; 0x5154C1A8; 0x98F80DD; 0xD239A2D4; 0x10C04F87]];
  [[0x5CA6F183; 0x13460926; 0xD52001ED; 0x5E97AD18; 0xE14843DF; 0x7DCD2477; 0x98A30426; 0x27DAB276];
   [0xE120D80C; 0x7939CAE3; 0x51E5B81A; 0xC9F46466; 0xE2E49D52; 0xED620322; 0xFA172BBB; 0x3C0F5A2E]];
  [[0x5DB1196B; 0xBFFE8742; 0x49B7214E; 0xCD45F8ED; 0xC35F5C33; 0x923ABA47; 0x83F3EE48; 0x16ED1F10];
   [0x99274930; 0x42E6DF0; 0xC5F8EA16; 0xE8AE1DCF; 0xF02EA2B2; 0x4462CB; 0xD284B04E; 0x427F9381]];
  [[0x75EFACC5; 0x4CD481F8; 0x21C83368; 0xD98C3FD4; 0x3894CE88; 0x4335E7C8; 0x955A298C; 0x18321F87];
   [0xD1716E18; 0x73DD00A; 0xFE0BFE61; 0x66D82A5F; 0x2310C532; 0x7D869E20; 0x19BF4704; 0x29A376FB]];
  [[0xC149B5B0; 0xA1B12B35; 0x1E828959; 0x3411B231; 0x560D99FB; 0x56417519; 0xEBB52124; 0x4E0EB143];
   [0x6AEF3801; 0x7B594B5E; 0x9ECB536E; 0xAEE12E; 0x56E23145; 0x6BF0FB29; 0x61AE8E98; 0x2B2D83B9]];
  [[0x6AC27F2D; 0x9CB3E2E8; 0x5A6280AA; 0x82BACA96; 0x2C6B7C8F; 0xCBC6C01B; 0xD0C01ABD; 0x390511BC];
   [0x49551C0D; 0xB322D972; 0x7B6489C8; 0x7905E82E; 0x40EEC20D; 0x4DD0CE8B; 0x2409298A; 0x5C0B3EE7]];
  [[0xB635FB99; 0x4418D685; 0x3ACE8B39; 0x652EA608; 0x46FC4047; 0xE586FBDC; 0xD8CC13D8; 0x3C832D34];
   [0xF7AA54A1; 0x14CC9F23; 0x7153B9F; 0x80D094E6; 0x6A2EED8E; 0x776E540; 0x77249085; 0x3CC3BFC]];
  [[0x1308C1A8; 0x5F8F281F; 0xD1AFC4B7; 0x31C8E737; 0x41AE8EF2; 0x67785298; 0xFD028A4B; 0x17716086];
   [0xF922E100; 0x1A2083E0; 0xD53FE691; 0xD67EC9D1; 0xECCA8DEB; 0x2DF8B6ED; 0xBCCC999E; 0x3B595EE4]]];
 [[[0x5A4B8C04; 0x11F03F89; 0x7DAE8E6B; 0x254C3648; 0x637CDB83; 0xAB6EAAF1; 0xFDDED8F6; 0x41F52243];
   [0xBBDF3270; 0x487078E1; 0x339CEA28; 0x98853B49; 0xAB3EDE57; 0x8AF0522B; 0x85EB4CC0; 0x734D711F]];
  [[0xF86BA644; 0xFD1F46AD; 0xA3299855; 0xA5332B97; 0xD9493634; 0x61BE90DB; 0xC2705911; 0x308F09B1];
   [0xB7918A5; 0xD59F1B1A; 0xCF6399E6; 0x9CF333D0; 0xFBB26B6B; 0xD09C63CD; 0xA6536647; 0x76C27913]];
  [[0xAAAB555C; 0x3DF1811F; 0x886C828B; 0x60853351; 0xF1E87F41; 0xF6CA7707; 0x7D7082E6; 0x5B4F6EDF];
   [0x3F672DE7; 0xADE518E0; 0x22541B2; 0xED0B84; 0x618E8969; 0x4FE5DD6; 0xDB9CCA4D; 0x2F5F5C65]];
  [[0x96BDAE2C; 0xB69B45; 0x770604C4; 0x6DB22CF; 0x856585C3; 0xC2EB7F8F; 0x413C614; 0x6E322539];
   [0x70A46872; 0x22C09EA8; 0x1FF23734; 0x143E73BC; 0x575C20B4; 0xCAC5E2DD; 0x3FEBE787; 0x225E5390]];
  [[0xBE9C512D; 0x594FEA4E; 0x92CB73AE; 0x58507092; 0xB0CE2096; 0xFD8EFC7D; 0xE031D6AB; 0x3B58C199];
   [0x479F23E4; 0x55DA1CBD; 0xA6DB6137; 0x60C6BB5; 0x6864488E; 0xD8319CF8; 0x21B02EDA; 0x6C15A31B]];
  [[0x8CA7084D; 0x13C48372; 0xA171ECE5; 0xF7554E59; 0x23A97699; 0x7425C5D8; 0x71E1120E; 0x6F2C68DA];
   [0x24324B64; 0x9591B9B6; 0xC02AC704; 0x2DA33472; 0x81EE1295; 0xC5DE7FC9; 0x5D6E93C6; 0x6A646A44]];
  [[0xA39D6554; 0x48684061; 0xC3DF57B6; 0xB70ABF61; 0x58B9EEE3; 0x9824AFD6; 0x3A14A733; 0x46EBE9D1];
   [0xD74F8E94; 0x8E70F95D; 0x6AFCA4E2; 0xA9D922A2; 0x6988CC16; 0x519A9753; 0xD545AF8A; 0x711DEF16]];
  [[0x811A2BF7; 0x362A5D95; 0x566B90CE; 0x42A84A33; 0x7C41EC87; 0x25CBC760; 0xD4B7DBEE; 0x6B77E39C];
   [0x833015A4; 0xA98B8201; 0xC31B26F4; 0xE412E217; 0xE0090782; 0x518BE8F0; 0x3DB51D4E; 0x8D9F4B6]];
  [[0x297D421E; 0x2C80CE87; 0xADBA1498; 0x2FD137F8; 0x2899AA14; 0xA2ED3D47; 0xFE4F365A; 0x2AC924A5];
   [0x666DC0A0; 0xAC0389B7; 0x8ABF3D9E; 0x3CC99739; 0xDFBFF83A; 0x33060DB6; 0x339C3B8; 0x54EEE215]];
  [[0x820F7E4D; 0x6C3A4F5; 0x8C3D311; 0x86F083E2; 0xFE4B0476; 0x47E29984; 0xCA7DF6CF; 0x218F52E2];
   [0xBF2C2084; 0x59317E26; 0x289A10CF; 0xEA9C865B; 0x2074FEA3; 0x7AA1E50B; 0x4B3EFC31; 0x708A1D8C]];
  [[0x864817D7; 0x34C5C63E; 0xD89E995B; 0xF614043; 0x975E2A03; 0x60CE8BCE; 0x78493E0C; 0x70916E29];
   [0x216782C6; 0xBD0748F9; 0xED32FB72; 0x51C65A; 0x4DD64705; 0x9DC5F558; 0xEEC14B50; 0x674F1A63]];
  [[0xDB633FD1; 0x73D6E68E; 0xF52F9537; 0x7B5F8303; 0x88A74CFB; 0x980FDDDC; 0x47FC32D1; 0x6419C18F];
   [0x870B5D59; 0x93727B4C; 0xCF28021D; 0x4BCE05DE; 0xAB4F0CE5; 0x3C059B47; 0xB85FFDBB; 0x77CA7F67]];
  [[0xC525088E; 0xDBEADDCE; 0x390D2221; 0x561E12BE; 0xD9BA7AF0; 0xCD224FC1; 0x394DC073; 0x3744552];
   [0x21BB6B6E; 0xCFC67B49; 0x1B5F8E6A; 0xD234FD8D; 0x40B7F8B0; 0x6DDBC18B; 0xDAACCC74; 0x79F40857]];
  [[0x9DD71B9C; 0x30E5F990; 0x291124EF; 0xFCBFA5; 0x49B8C570; 0xBE595A25; 0xBC094446; 0x5B4B8141];
   [0x469191B6; 0xB22B4F04; 0xD73C4D38; 0x10845AC8; 0xED0C8224; 0x39C9F0FB; 0xF5813BEE; 0x7E009DFB]];
  [[0xA61D09C0; 0xA47C2989; 0x59E55A9C; 0x3706F456; 0xEA0259B9; 0x2373976F; 0x77D20CC; 0x13FC0E09];
   [0xE78D29CF; 0xBB24DD05; 0x822CFA02; 0xD8757A67; 0x3C55A4C6; 0x36CA7486; 0x3EEABBE1; 0x4234E689]];
  [[0xB46BDB51; 0xA2F54D14; 0x675BB770; 0x8A530B78; 0xDE9F1F8B; 0x617D7E8E; 0x2DCC4712; 0x799B3E44];
   [0xB486FE8C; 0x658A31D8; 0x163D4AF0; 0x45BAFC29; 0xA5289C8D; 0x3A2C7F66; 0xB91FF3DB; 0x4ECC3C7D]]];
 [[[0xDF4DFD43; 0x738CF1C7; 0xE987084C; 0x72943A2D; 0x2491FF24; 0xEA21C05F; 0xDA050094; 0x3D3F4ED7];
   [0x61C4054D; 0xF90644E4; 0x3A50E82A; 0x25379214; 0xC7DEF970; 0x47EDB006; 0xF53F307; 0xF8F031C]];
  [[0x724976D5; 0x50FEB6D8; 0xF40C7720; 0x57AA499F; 0xDAAF428; 0x6B80AC54; 0x1F6FC276; 0x7AC6845E];
   [0x17A4B9C5; 0x8EC7FAB1; 0xED0C8F97; 0x8336DD62; 0xB7B7104E; 0x6014A510; 0xA2911C30; 0x4991A03B]];
  [[0xCBCC9BA3; 0x6D353975; 0xC4564492; 0x23E97E28; 0xF8AEED3E; 0xDF432FDA; 0x6F6B472C; 0x11DB40DD];
   [0x95AA0174; 0x5B87005B; 0x89D9F1A8; 0x1DB41080; 0x689DF208; 0x5A6BC444; 0xBF38FF8D; 0x16153F87]];
  [[0xFFD3C814; 0xD217003F; 0xFD50AF95; 0x1ADE64C3; 0x9FFB8BEB; 0x1936332C; 0xD70CD8D8; 0x6EE322DC];
   [0xF2A60976; 0xE40A0419; 0xEF93B05B; 0xA62F6FA1; 0x596575FF; 0x5978206C; 0xB68BFE5C; 0x5CDCA200]];
  [[0xB7949E33; 0x3FB16AED; 0x40304A1B; 0x34538928; 0x3BCA4239; 0x7FA35A34; 0xEE76919E; 0x22FD1AEF];
   [0xF6A5D50; 0x1F8FE6A4; 0x26BBA46B; 0x27CC704F; 0x3420CC52; 0x230FD0CA; 0xB3A83D85; 0x3E9E4DA4]];
  [[0x7F5CC75E; 0x1D82390E; 0x49D0A605; 0x70256245; 0x4FF4BC44; 0x5B877813; 0xB5EC02E4; 0x28E6A057];
   [0x2E89FB84; 0xBC7A10DA; 0x20E1EA00; 0x3AF182E5; 0x9C507274; 0x4B590FFA; 0xAA7FD65B; 0x26BA94D6]];
  [[0x238CC195; 0xC02CC77C; 0xA97EE3E4; 0x3F175C97; 0xDFA1F9DC; 0x8A28FA23; 0x1F968D15; 0x35CAC0FF];
   [0x37C7C773; 0xFC41B33; 0xBC999443; 0x71E06B10; 0x2C87B0A4; 0x73A1ABA; 0x9E5E8B70; 0x29F29B12]];
  [[0xE491FE70; 0xAA25F348; 0xC1713992; 0x9371F94B; 0x4FA08818; 0x674B478C; 0xB1407431; 0x6F3C31FE];
   [0xD93DD5E1; 0xBB7D37FB; 0x7E04EE7A; 0xE34A40B8; 0xF3C33528; 0xCF82360D; 0x1477712; 0xA3B8FF5]];
  [[0x6B718511; 0xA4591471; 0xD2FD6B9B; 0x7B0CE8DE; 0x6845DBEF; 0xC42544FA; 0x63AF476A; 0x456A6985];
   [0x9CDE4E74; 0x5DD611F6; 0x2B346AEB; 0x86095683; 0x6E75B3D7; 0xD15C5DA0; 0xC72D5D2C; 0x220FFD73]];
  [[0xD2ED888F; 0x478DA345; 0xE04CBCC7; 0xA69D4FB9; 0xB3F1179D; 0xA427150A; 0xD5CEA78A; 0x1DD3B8C2];
   [0xB8628A22; 0x9462EFF0; 0xB2CB44A5; 0xB2FFFF4A; 0x24039BA8; 0x8234A3FF; 0x916DE889; 0x1BE7202]];
  [[0x6DFCEF0B; 0x51066985; 0xDF20CDEE; 0x25729D98; 0x9693E5EF; 0x872FD39D; 0x2D859635; 0x72D03AE1];
   [0xDACAEB82; 0x3F28F84E; 0xCB5284D7; 0x9EB40FD6; 0xC5F54041; 0x66C2DCA6; 0x1C1F2461; 0x4BDBA382]];
  [[0xE0ED176; 0xE5342197; 0xA225A47F; 0xF588547A; 0x1FEB2259; 0xC83B54ED; 0x92F3733D; 0x1B037913];
   [0x2271ECFA; 0x935C9782; 0x53CFE07C; 0x5F7E94A6; 0x1B40CA19; 0xBFF5B0E6; 0x459445E1; 0x36C7851D]];
  [[0x588C9748; 0xB6547971; 0x11970562; 0xCFD8E81B; 0x702FE4FA; 0x41333C80; 0x962A993B; 0x2F153C8C];
   [0x8BDA48AC; 0x28BBD6A; 0xFE1DB02A; 0x7B076F88; 0x78FB3FC; 0xC9560400; 0x35907EA; 0x5DCC0946]];
  [[0xA6233F1C; 0x93D7CF33; 0xDF2A187C; 0x3184BC4; 0xE83DAC32; 0x291149BC; 0xFAEDF216; 0x575F4279];
   [0x86FC141; 0x101427B4; 0xD288562E; 0xC924F2AE; 0xEEF5799A; 0xDB610463; 0x6A09661D; 0x20F18767]];
  [[0xF59D0C20; 0xE39BB775; 0x723A4EF2; 0x18DA90E2; 0xF56B381B; 0x8E747A7B; 0xF98F26DC; 0x7EF67224];
   [0xE1F94B99; 0xB1373AF5; 0xC3B6AA8; 0x1076FBA6; 0xA3A7811C; 0x7FCD0017; 0x46554E7E; 0x6D1A6973]];
  [[0xB9CED2C2; 0xE5734077; 0x1F770914; 0xC94D17F8; 0x1CD248EB; 0x58B47BCB; 0x24804B6F; 0x2E06538C];
   [0x32E7CA19; 0x275D933F; 0x1FC9241E; 0x1B982B49; 0x3986B6AC; 0x8B8A6ED5; 0x35B4EA6A; 0x17568221]]];
 [[[0xE796327F; 0x90AD05A; 0xAD21DD4B; 0xA78DAE5E; 0x9C2F8CBE; 0x8EEC9EDB; 0x653E0F2D; 0x33E375E0];
   [0x8D67AC72; 0xDA19EFF2; 0x2737AB8C; 0xBFC7E62B; 0x4CF53C12; 0xBBF8BD1D; 0x45C6D555; 0x5ABFE23F]];
  [[0xDE39342; 0x32460B33; 0xB8977067; 0x3567454A; 0xF954592C; 0x10A1E47D; 0x4DD019C4; 0x4DE8C6EF];
   [0x1BDAAAFA; 0x1F1D296B; 0x3A75AD99; 0x4E6B8E8F; 0xA27FE061; 0x259015E1; 0x9F320632; 0x6B6A4820]];
  [[0xA0B5E605; 0x8AA089AF; 0x1B4058FD; 0x1D6C1EEE; 0xB4E89BEF; 0x1D920534; 0x16163340; 0x722A3A35];
   [0xF33B49B2; 0xA3B9178C; 0x65558E90; 0xFF8FE9BB; 0x9794EFAE; 0x94766BC0; 0xFDFAEB42; 0x79A1EFA2]];
  [[0xBCB6D558; 0x2FE44B97; 0xDB8B0A79; 0xB4F4F402; 0x247C32E5; 0xF53D8AB1; 0x4DA4C009; 0x3B883CE5];
   [0x2EC9F1C6; 0xB46168BD; 0x6B8FE01A; 0xD40BDE7B; 0xCDFE509F; 0x60A5C168; 0x23BE249E; 0x3314D878]];
  [[0x4D9F5769; 0x2511A85; 0xB49D6A8E; 0x8398F9BD; 0x5D2D7135; 0xE8D773F3; 0x9DECC331; 0x9B3B8AB];
   [0x584C11D9; 0x8D2B269B; 0x6B6B86A9; 0xF7661944; 0xC7659AF7; 0x719A3620; 0x37C27DBE; 0x3CFC8DF0]];
  [[0x1145B14B; 0x5EE0BE06; 0x23193ED6; 0xAC6950E4; 0xDF244C7F; 0x7291C44C; 0x43D744EA; 0x4650C162];
   [0x34A084D8; 0x60B92D3F; 0x376E5414; 0xBBD44A0E; 0x980F36C; 0x5C0E488A; 0xD7991A09; 0x4E53FCCA]];
  [[0x367B55C2; 0x7A2ADBCF; 0x1FED467E; 0x96A88B75; 0xFB263845; 0x8E75E37E; 0xEB508DD0; 0x4C2E47B8];
   [0xB19FCD14; 0x20BF51DE; 0x14CB67D0; 0xD9071749; 0x29EBDA7C; 0xEC90714B; 0x634C0F2E; 0x4ACADAA6]];
  [[0xEC715EC9; 0xA516B9B8; 0x42B8A87B; 0xC7DCA263; 0xDA27B456; 0x2CE450C9; 0xA8819F; 0x3C974812];
   [0xECDED574; 0xF4822C23; 0x19FA48D4; 0xFA737FAD; 0x45D718E0; 0xE34B2F2A; 0xBEA7B540; 0x1D6F19FE]];
  [[0x98E24789; 0xADC8FCE7; 0x45869609; 0xFE2F890C; 0x78A35C19; 0x6466E03C; 0xC1F34AA9; 0x24C70FED];
   [0x57747DD1; 0x89530F75; 0x2B8CDE2D; 0x343DE05B; 0x35CC8D5A; 0xC33134E3; 0xAC9B4F2B; 0x3CCEFC38]];
  [[0xEF923364; 0x84C904B8; 0xBDDD31D8; 0x46E1FECF; 0xFAE79B6B; 0xA8126DD6; 0xFBF05C9A; 0x4A53C034];
   [0xBE8F255F; 0x44CA3ACB; 0xEC319885; 0x6F0FD374; 0xF1836DC2; 0xADBCB4AA; 0x65187EE9; 0x6CC3A596]];
  [[0xB397B5E7; 0x941E7821; 0xFEE2A9D5; 0xD3457371; 0x66382F60; 0x9F69BE44; 0xA1F49E9B; 0x6DCEAD04];
   [0x3BF21647; 0xDC6BC23B; 0xB5271BE9; 0x1500FD7F; 0xF23FDF3D; 0x9B0994DD; 0x45065CF7; 0x38A2ECEB]];
  [[0xDCA8BF4; 0x2667CEFE; 0xE46EB469; 0x8227ACB3; 0xA75C5B8B; 0x4C20677D; 0xB36ACDFE; 0x224FC5B4];
   [0x7A6A01D3; 0xA0007E14; 0xF8A64EED; 0x15C79558; 0x93DEDC09; 0xFB58A76A; 0x26F10A98; 0x2057DDDC]];
  [[0xBDB27AE4; 0x1FF658AE; 0xDDD96647; 0x7F30DF57; 0xC7294313; 0x63490B8D; 0x5435869E; 0xEAEC573];
   [0xDF115B78; 0x85F05C49; 0x62992F5D; 0x95739C0C; 0x2B573963; 0x72F14319; 0x86328FF4; 0x5600E64]];
  [[0xEAB0F425; 0x9BE7331F; 0x74447C20; 0x2E4CF5AA; 0x66243D2A; 0x9B26F512; 0x84AB5627; 0x77C96722];
   [0x601673B4; 0xEC545427; 0x2F127AF7; 0xEF6A34FB; 0xE2DFD269; 0x519559C1; 0x8258E37A; 0x34D7D754]];
  [[0x5E8B5281; 0xC113747B; 0xE04D779B; 0xC085456; 0x1CCBCFC6; 0x3E326052; 0x2A37D19F; 0x5C954CC1];
   [0x9124435B; 0xB1A4A5B3; 0x18ED98E7; 0x5E8B8D41; 0x144A3793; 0xC973D969; 0x88DD8B49; 0xCB98CC8]];
  [[0xB48D04DF; 0xE0233B2; 0x7BEAA4A5; 0x1B3916E0; 0xB672BE8C; 0xA24A4BE4; 0x845AB94D; 0x7A61506D];
   [0xE7F4CA3B; 0x160DFA0F; 0xD84C1148; 0xA9562C89; 0x92A276EB; 0x52979B95; 0x924E86E9; 0x17869B53]]];
 [[[0x1A86D0D8; 0x5D39F478; 0xFB8BC8A9; 0xDE5932DA; 0x2F5B4B70; 0xD706C6D7; 0x8A36AFC2; 0x53F450FC];
   [0x1E550B3B; 0xE1DC3540; 0x8B7EB6D2; 0x475507DC; 0xDFA2E5F7; 0xF803F78A; 0xC48097FF; 0x40B5F263]];
  [[0x226CDB1F; 0x336FB00E; 0x88215C40; 0xDDC1BB02; 0x73C07FD0; 0x6C4DD40E; 0x8F7D15E7; 0x4D0D2E49];
   [0xD2061402; 0xAF96E9B3; 0x1372FCF8; 0x15A3084A; 0x307B02D6; 0x91B571E6; 0x53AE7705; 0x2239592F]];
  [[0xC20B6645; 0x7D8615A1; 0xC7C4465B; 0xF4875767; 0x861702AB; 0xF6D3E718; 0x131F726A; 0x7F014A53];
   [0xDAAB77CA; 0x30809F8F; 0x28F944D3; 0x7CE8DC61; 0x9AEEF6A1; 0xF915111D; 0x206902FD; 0x246D7CC8]];
  [[0xEF806225; 0x7677488B; 0xF4C75EAE; 0x994C8104; 0x4E0C8988; 0x17586D4E; 0x90E33A2A; 0x70E52580];
   [0x22D2FED; 0xB993F26A; 0x689FBFBD; 0x955C130D; 0xA3612E8E; 0xD3D1C63; 0xB91A8DE6; 0x423D73E1]];
  [[0x3027164F; 0x7274BE08; 0x42FDB769; 0xDE907B49; 0xB697060D; 0x61D74449; 0x26602CC9; 0x18A5FDC2];
   [0x49CAF4A; 0xB08DC02B; 0x78DBA1F1; 0xC84AF485; 0x7178E4DF; 0xA5B3519; 0x5B26D0FE; 0x6EC7A7A5]];
  [[0x88554F05; 0xDEF1782F; 0xD8D6DF47; 0xB73E7333; 0x90E9C67A; 0x1DDF9022; 0xD56181AC; 0x5D217B51];
   [0xE27F90EE; 0x7A338C7B; 0xD84A177; 0xB97CCD2A; 0x7C5E3FA9; 0x3E101601; 0x30FF0918; 0x2706E77C]];
  [[0x72A7CB9F; 0x1BD1274F; 0x622DB90; 0x8B60357A; 0x2151BB23; 0x140E14A; 0xE9A30C4C; 0x358D7DDA];
   [0x89BFB2C6; 0x3B153060; 0xB6757C69; 0x47462C79; 0xB43EF986; 0x2B22239D; 0xB774DE3; 0x6793671F]];
  [[0xF6F8EDC6; 0x99EDB02E; 0xC4257DD9; 0x24432760; 0x336EED2; 0x4FDD7301; 0xF6C6506B; 0x44879709];
   [0x13F18D89; 0x107C7DE2; 0xA5701FBD; 0x71C71DFB; 0xC7DE3E0B; 0x97017E24; 0xFC9EDDC2; 0xF8D7E09]];
  [[0x3897E01D; 0x7A0BB3B1; 0xC5892BDE; 0x7FD4F504; 0xAB752928; 0x2EA9AA77; 0x9078B466; 0x19A82F55];
   [0x55A0F0D9; 0xEF2842C5; 0x15B6F2B4; 0x5501EEE9; 0x942AA4B4; 0x9665EA6F; 0xE707C32; 0x15F41F4]];
  [[0x9C6B6FD6; 0x1B4D6A91; 0x68217AFC; 0xCFD2CEE9; 0xBBC9284D; 0xC5076256; 0xAC36547B; 0x4C7F4EEF];
   [0x65EE1907; 0xAB1AAD2C; 0xBAC25425; 0xBCFE8C77; 0xC9048A35; 0x38BA0F85; 0x60A035F6; 0x300E6AC4]];
  [[0x34707CC6; 0xA8EDBC5E; 0x56ADFC16; 0x3DA6BC51; 0xCA8B6F3F; 0x5C7CB5E1; 0x2D612DFA; 0x76E4A028];
   [0x64F49D39; 0x75AB66FD; 0xC387A739; 0x5AF9879D; 0x3E9EDBCF; 0x83964808; 0x7F4C4FFE; 0x555D8BBD]];
  [[0x3C5590B0; 0xAAE8A2FE; 0x8AB34213; 0x461C6CCC; 0x9E719B77; 0xB2F3E822; 0x663188BB; 0x25B8FCA8];
   [0x72548131; 0xAA7A047B; 0x189FA6F0; 0x878FFEE; 0xCE3E17C3; 0x9E7FB402; 0x44418277; 0x6F260D93]];
  [[0xB703B647; 0xEF1C290; 0x651673E4; 0x995009FA; 0xBE46362D; 0x661F76D7; 0x23E56E7A; 0x74B00FD1];
   [0xA1A50E4B; 0x9557D0AB; 0x587688CE; 0xC5A1CF95; 0x7AE08ECA; 0x2A14D1B2; 0x3C23D507; 0x2DA8816C]];
  [[0xB9934883; 0x51CB405F; 0x1A6864B; 0xC99A67D4; 0x6CDFFFC3; 0xCCF62233; 0x98FE0B79; 0x2938F9F9];
   [0x39A5AA28; 0x77666911; 0x2427BFC0; 0xDF56CBB5; 0x189EB66D; 0xA39BE968; 0xA64FD2AB; 0x71E6E105]];
  [[0x60F9D20B; 0xA0C6F795; 0x765670CC; 0xE06DC8BB; 0xA67275E0; 0x9FA1DD58; 0xE2D23BBB; 0xF7F670D];
   [0x33FB15EA; 0xF8F07CF3; 0x723A0271; 0x1D09B592; 0x4E6FCAAB; 0xF1402923; 0xAE301940; 0x5BE1273]];
  [[0x114AFD1E; 0x2D83906C; 0xC88E5761; 0x91474FD; 0xEF9E4F9B; 0xAFF18EEB; 0xF4E646ED; 0x136ECAE5];
   [0xEB01808F; 0xEF4526D0; 0x940C0AEC; 0x3923EBBA; 0xA437F460; 0xAB34160C; 0x421AD57C; 0x7A46966E]]]].
