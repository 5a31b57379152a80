(** The tables lut_cmb of ecp_id_GostR3410_2001_CryptoPro_A_ParamSet.c as they are written there, for both widths. *)
From Coq Require Import List Uint63.
Import ListNotations.
Local Open Scope uint63_scope.
(** lines 1195-3057 *)
Definition lut_A_64 : list (list (list (list int))) := [
 [[[0x1; 0x0; 0x0; 0x0; 0x0];
   [0xCC99C9E9F1E14; 0x2DDF23E3B122A; 0x27E56EC6A529E; 0x73689F7D41691; 0x46C8F238F04C4]];
  [[0x8E38E38E38D2C; 0x38E38E38E38E3; 0x471C71C71C71C; 0x38E38E38E38E3; 0x471C71C71C71C];
   [0x117796B788A51; 0x4C838768E8486; 0x74D9B0424CF52; 0x41075366EBD41; 0x3B5E68E54D11D]];
  [[0x1C387172C029; 0x4279B488F6F02; 0x4F05E34B15AD6; 0x258F0DA65A32D; 0x483B001F0C3C7];
   [0x4823B068D7CC0; 0xC7FD37B58763; 0x67ED904B1D771; 0x1D38686A8A56B; 0x484B93D728EA1]];
  [[0x8EA01E4196EE1; 0x34905BF5B297A; 0x7447C611BEF5E; 0x1829AE7D7ADB; 0x17EEC8CA66B06];
   [0xC10C4D0125FB; 0x20A9F3F3A624; 0x27103CEF472D6; 0xB8216E293D29; 0xE3FA5A98C242]];
  [[0x7A462275ECDA3; 0x18C170DFCB702; 0x241E756E56216; 0x771F4F24A295D; 0x5B7CB06F71A0F];
   [0x328AD395ED26A; 0x1CAF70A8E7168; 0xFF8BE664695F; 0x7E4184137AE67; 0x69DFB4A32D69E]];
  [[0x22F3D1A834086; 0x41ECA3623B485; 0x674297E63115C; 0x406C9C5D3F28F; 0x31EE39C279CEE];
   [0x53F08BBC2FF84; 0x468767960B588; 0x495E5AD5F0D51; 0x7102439DB689C; 0x64070B2980D03]];
  [[0x62E8F3CBBCCCD; 0x4BFF4EEFAA5B5; 0x6C21A84538998; 0x7A46150B4D83D; 0x28C30C35CB4DC];
   [0x9EBBD29C26CB2; 0x7BAF9C97927A1; 0xF1391B4F0F65; 0x1A44160EE4057; 0x1EADEA8B087CC]];
  [[0xBD2800F7C58E2; 0x6AA0FC8C17CF8; 0x12B72E124E103; 0x7A22A20C37ACD; 0x51583FBF07955];
   [0xA705E55B12811; 0x77F24806A4501; 0x16CDB1FF83072; 0x1FE2D523F7B40; 0x2B561CD86E47]];
  [[0xDD0548C39A634; 0x7E5C8D222E7F3; 0x77AFB529FB66D; 0x7FE6BB0F0E041; 0x1D44AD8E8E1BB];
   [0x800FACA51071C; 0x1B75CB6825594; 0x524055248074A; 0x1FEC05998A037; 0x418509ED45EDE]];
  [[0x4116786EF5595; 0x2FDC9F0A70AF6; 0x1393C9E2010EB; 0x159CE63616097; 0x2C31D8791CB8B];
   [0x8485469328440; 0x10DBB94FF5733; 0x187E16B5054CE; 0x7A1C20E552236; 0x74B00D96EDD39]];
  [[0x21E11C9041497; 0x484A9E464D228; 0x38D73E99FC3A5; 0x37B99E592B813; 0x5F3E5DF4C9D8E];
   [0x369BDE19C53EC; 0x6C90BB44FF031; 0x2730C7A423157; 0x4733CD7C2CEF1; 0x1779F421C860]];
  [[0x6444B2FC84A66; 0x45CDBBBD00846; 0x3B7859658B40F; 0x6F9C075FA8F30; 0x4C55A76F5ABEE];
   [0x9AE065EC53CD0; 0x26684080415BE; 0x5AA8D964E4BA5; 0x230B8100D807C; 0x415674003896E]];
  [[0xF7D10028B07C5; 0x1CCB108309571; 0x58D8CE498E384; 0x54AA65A376DB0; 0x7F4C660D79DC];
   [0xFF278A9B6438D; 0x4E340FE2BB231; 0x699E71D615994; 0x655479DBE2221; 0x5C130AB3BD570]];
  [[0xC6388B4B53E9C; 0x402286282147; 0x2516CD8798759; 0x7B179435AC419; 0x18CEE31A89C76];
   [0xAB9AD0EC3379; 0x65281151DE966; 0x71CA903B27001; 0xE28FBCB94233; 0x60976D76A3184]];
  [[0x6D77EB1685C39; 0x3CF8EE0115505; 0x78D2B24AB1841; 0x61B46CB0C6A81; 0x2AF8490D4D499];
   [0x56E3A3305760A; 0x43B60E22B14EE; 0x20C4845CFE0F; 0x3D68AC0F06CA8; 0x722A37E92E49C]];
  [[0xA5F6FECDB7020; 0x42B43E7540E44; 0x2BD2B2059E2FE; 0x631E18BEC8A26; 0x580E22EFE7168];
   [0x3035DF13C5516; 0x682989776C95E; 0x49780CDE914A; 0x182478A356286; 0x2945A3EE07E65]]];
 [[[0x5A339F915A14B; 0x715D733BA9825; 0x23A52A2A78CA6; 0x5B164EB92A51B; 0x45D9A30B0E65F];
   [0xADD23F0E6BE0F; 0x4271FA00AECFF; 0x6F2881FB40864; 0x34A01B35FC99B; 0x58D1D8F643FFF]];
  [[0xA0A4C877DD1B7; 0x2B58C866A837; 0x4B11FDE6972BD; 0x525D5FEF644F2; 0x28801D60D33EB];
   [0xB74AA40171DE8; 0x1482D80E7BB1C; 0x6C7B54BF123BD; 0x44EE83E8AAB32; 0x1F0E12809FA9D]];
  [[0x66A9CFB2131C9; 0x1579B4E7D1E27; 0x4032CBC5CCC2F; 0x212394FCE5D79; 0x2B5D4452CFFBB];
   [0x6A4C542C01BA9; 0x25184A46BB2DA; 0x5344AC81105B; 0xFA6310182DB0; 0x5AC302692942]];
  [[0x19D20E0248E22; 0x5CA354C3BCB85; 0x2894DADACB4EC; 0x276F52507A08E; 0x61243F4DB4E50];
   [0xFDF4AF08FAB34; 0x4350560FCCBAC; 0x5B2D27BD7791E; 0x38BE1B282CEDF; 0x645850A8CE169]];
  [[0x568A7C178486C; 0x1F2D08012728C; 0x402DE36CAB91; 0x709B6DD2BAFBB; 0x68F1171227D8D];
   [0x68279A889EA5B; 0x6E2F73FBCFF46; 0x6DA5825DC94E7; 0x250F1787A7A74; 0x104623421C27]];
  [[0xB4A1DF4B52308; 0x37F70383BCE58; 0x5B4B440F91C99; 0x4DFE0E63344A6; 0x3F78ADB1149D0];
   [0x5EE5A5CF1B775; 0x6E82328650CFE; 0x53DBD7CEC0ECD; 0x6AD64013C83E3; 0x3BAECE58084AC]];
  [[0x3535E55FD3BB1; 0x21AA38BD04D1A; 0x30BBC74A0B7B2; 0xD651469A30EA; 0x2BEEBF0135D98];
   [0xBE47EA63780DD; 0x7996630E63D8F; 0x3D71B02D21DFE; 0x72EE70BB7F048; 0x3A0C52A51F7B]];
  [[0xE522DB194B350; 0x1362A59882C6C; 0x5B09E052C570C; 0x2D26AB280800D; 0x1E221931BDDDC];
   [0x4772E6A06F259; 0x7D07B179D230C; 0x71E03FC15549C; 0x4F77A7EDB5E65; 0x510C0C34DF5E2]];
  [[0x4F224FF48904F; 0x48434D5472DD5; 0x4EDEE682D26D3; 0x209BB373C40AF; 0x24DAA1D2897A9];
   [0x21D4977542F7C; 0x74599CAF0ABB5; 0x58BE88021C3ED; 0x4208DC3B55B12; 0x52C47E8541E68]];
  [[0x40C5256AA4EC9; 0x415F8F060E908; 0x2805A8B76EBE6; 0x1873A8DE991C3; 0x386C4A0579BDC];
   [0x17774AE596D94; 0x76ED22CE59EC5; 0x35ED29CE7AADA; 0x6B0362F90D780; 0x2F704527505EC]];
  [[0xFCF13CEEA0CB5; 0x18312ABDF7C32; 0x757802E622B3; 0x490DC4FAFA5E7; 0x2F574211FD5E9];
   [0xFE0FD3DB8102B; 0x250E79DF56839; 0x279E546ADD6E1; 0x145A2755E6C50; 0x1190CE5089C0D]];
  [[0xE3D775DED50BF; 0x2D12CB77299E9; 0xBB582E43FB17; 0xC592B860CC1; 0x6580719B67251];
   [0xFAE99B30AE7B; 0x40F36F14B66A3; 0x1B1A66B1DFF10; 0x7E66D7F84E375; 0x247DD6C1DBF6D]];
  [[0xDE16D4416BAED; 0x7F25B557A5F90; 0x174197A990092; 0x64E76B1B0E5AD; 0x7C3B0A8276891];
   [0xFF3F0D753BB34; 0x4BC7095E070BA; 0x5AE24B0B13E9D; 0x33D3593791BC1; 0x4A5C64A628512]];
  [[0x679BA1D37863B; 0x7E88BAD3CE7BA; 0x7E856BFB2DCD0; 0x1298B3D7E0A07; 0x648DA87B47E6C];
   [0x4116614706E8B; 0x38083A1633124; 0x40275662A5821; 0x5AF932DE19F46; 0x325815252F969]];
  [[0x7431F85A6A2F2; 0x3E366F4DF51AC; 0x7E3FCF91EED; 0x19A60A1F6A15A; 0x5D281D485553A];
   [0xAEE657D07C121; 0x5B6E017CC1FF3; 0x87D40E6AE64B; 0x110B3E1403845; 0x7B4C48BE20679]];
  [[0x2EDBF68793170; 0x433C366D3E8F9; 0x5954AEAA0ACE5; 0x17404AB74C945; 0x5D492DD30DC05];
   [0x664322925053F; 0x443FCBBEB949A; 0x4BC23B86D7ADE; 0x2B04916F727D6; 0x762FF85E51567]]];
 [[[0x956A68246367E; 0x21897DE9A1875; 0x5C9CCFFBCB16F; 0x70E4257F8B255; 0xC9A877C9B00];
   [0xCE0B185E2541C; 0x6D5D853109264; 0x56CC68AD4E64D; 0x2AF2B66927356; 0x37EE9E95C855D]];
  [[0x53A329418B8A; 0x6646D7C973FB6; 0x5395E69EEA7AB; 0x10000B1282007; 0x68CC15F88CFED];
   [0xE8B128FBFD773; 0x7FB20DB05AF31; 0x7739B3F5C4BDE; 0x4039AAFD5F2DC; 0x721C85E9A29EA]];
  [[0xB0D23A656BC62; 0x5AC669CF7C7F3; 0x209617182C48D; 0x218B4CB496794; 0x7180815D1B6B7];
   [0xEEC1FDDEF69D9; 0x3AEF0ADEF2D2B; 0x30326BF4476DB; 0x47E91D24E181; 0x598190A0CFD77]];
  [[0x6D10C22EF9F96; 0x80EC0F94F2F7; 0x7AA4F0AEDAE30; 0x2516F4D4FE6D7; 0x49EFAA3C8BD00];
   [0x98EA4E6E0992; 0x5BF3F949C023B; 0x380A5EEBA5CD8; 0x26413305ED75F; 0xF418433F8A27]];
  [[0x89ECDDD1EBCA4; 0x359E16F504E76; 0x4CF9626CD6FBA; 0x1174C74344098; 0x57564D0F17F65];
   [0x1195CBB8FB356; 0x5A8577B21D169; 0x6489F105E543F; 0x7B3A20275D3E2; 0x7AAB2BB22DFB3]];
  [[0x2CA70745AE235; 0x23A96DDE369C5; 0x5012A48800C95; 0x66B4F8BF4154D; 0x6B8F21F53603C];
   [0xF5462CCFC9D22; 0x30A858C108F13; 0x689819655D129; 0xE720A0FCEA3E; 0x11F9DC5101E53]];
  [[0x1DE0F018982F2; 0xEADE77ECC8D4; 0x3B956FFEE4A79; 0x4B8BBFBD7479E; 0x5F99662FE03E];
   [0x4D7EA312F393C; 0xBD83AE160FCB; 0x1EC8D3FC68C3B; 0x437ABD0A447B9; 0x735FC8AD2BB1C]];
  [[0xB9EE6D50FF37D; 0x4D648636CDB2; 0x39C45B71D2EBA; 0xF0D22EDF891; 0x14C417247C2C5];
   [0x6CAB42B8C5660; 0x18D3158E77BC4; 0x39A7DAB63293E; 0x4410B20B68C38; 0x5143C90B7948D]];
  [[0x4B03CF603CB83; 0xD1179A1254F5; 0xFC1EF688A885; 0x2CDCC95C8E925; 0x2791D839354A1];
   [0x642016F8D0BF2; 0x66E650A9B34E8; 0x41DBF68CBB4A7; 0x512CF961BC16F; 0x3B3E68158737A]];
  [[0x8CF645460D714; 0x7670AA8B430E8; 0x574F16D3AC934; 0x51A943821A714; 0x6DE69E5DF9951];
   [0x7DE4AADCCB9AA; 0x135145C55A55A; 0x238B53DDFBA15; 0x68D2109040438; 0x63397853B65B]];
  [[0x78630F0E679A9; 0x648A3915EA099; 0x1B46B606FA986; 0x5DE57BB1E25B5; 0x4F4E27D03AF36];
   [0xCE066A9452CC5; 0x45772A10AC378; 0x305FFC4931F9C; 0x6B3AE4651216A; 0x1EBD44A8A3E39]];
  [[0x4B0B22DFA4A07; 0x35F7907812083; 0x6F74B674F2672; 0x388F7301DAC59; 0x159AD55DA44EC];
   [0xDE4AFBA89C1F3; 0x7E80CAB614F22; 0x59A999E84955B; 0xFA70D936DB5E; 0x26F2DA8417650]];
  [[0xE186902C85447; 0x464F8386F8A64; 0x53B0F937B7CD3; 0x3B7187584567; 0x308946F3D80A4];
   [0xD1B1C9720BFE2; 0x2400C63A10347; 0x52C5C71281FD2; 0x64118DAD42634; 0x2FB1EB2D89702]];
  [[0x80BE5600FDDD3; 0x2732F61BAFB7A; 0x2E5DE598D6FBC; 0x41E2FDE427CD; 0x506CBA13B20AF];
   [0xFD470BC53488D; 0x5F2E4B029AB6D; 0x96963502BB6; 0x5FD18C530903B; 0x5F0ED95E0A6DB]];
  [[0xA16408A941AAB; 0x21F45EB4DC5BD; 0xF60F2631C101; 0x5AE7748F7EDC4; 0x2D03801D3B95D];
   [0xE8545F3E14DB; 0x1650799114990; 0x686592FD11BE6; 0x434D0445B2D2A; 0x759D194E76A]];
  [[0x8B92FABB27EE6; 0x7CF7A4E4368A8; 0x5ACFDBBB69ED; 0x6891A54C2CC5E; 0x7007C79A1E753];
   [0xFB2099EDFE6F7; 0x4967D75BF94F0; 0x7F61375A45D1E; 0x3B22D99BD3A83; 0x240E6DA8B843D]]];
 [[[0x2B047D234E1E6; 0x51F630DB7224; 0x101E259F37AB2; 0x7C1F58C65113B; 0x263DCEE305FFC];
   [0xD1B3A99462779; 0x5034BF259BEDD; 0x6E55CD8E9F25D; 0xFF1B23C08C9; 0x193E0F15E9D84]];
  [[0x5E42789FDE1B6; 0x1894F4E480D11; 0x2FA3C0071679A; 0x5A18A5FED0EDD; 0x32E050C320BCA];
   [0x129644B586CC6; 0x46490AB54EE67; 0x14EDFB7E99D26; 0x5F72BBB17A488; 0x16D460CA476AE]];
  [[0xED9FF353B3EBD; 0x607194AF236F; 0x4B55C55B42B97; 0x7DF4B19150C4; 0x71DD14E1914E];
   [0x6D2391EE57097; 0x6B5C7EAFAC50A; 0x743B60C540A6E; 0x2052C67ED83B9; 0x7218AF829BCD2]];
  [[0xB925893F33C1F; 0x67B1285BA7F1E; 0x653712C1B3339; 0x5676C8172A410; 0x70EFC597208AE];
   [0x960B5F604A33D; 0x7921F9338E496; 0x49FA1FFAFC93; 0x161F6DCEE43A1; 0x66EEA7D1AFAB]];
  [[0xAF49590893929; 0x70D65CE0014B; 0x140DF3289D3DC; 0x345791D5EA109; 0x5255A323DD85];
   [0x401F6DCF0F1DA; 0x74049990B1B6; 0x618D750975313; 0x287BCB87A0714; 0x1F72793687C35]];
  [[0x168DAE873F26A; 0x1E0AAFF1790B1; 0x459C70C5F4D75; 0x2A897AEB60F5E; 0x4FE8D9CCEFE84];
   [0xC5FA352BD1939; 0xD8AE757A71AF; 0x49805C7DBD1B7; 0x52A2EB32E9871; 0x2C5844141B0C6]];
  [[0x5696DA8028D2; 0x71FFFC7289A23; 0x6341DC5E55F0B; 0x33AE49FFDF4DC; 0x15F09ED39A715];
   [0x674750BC4C3AD; 0x41954C18CE813; 0x694204D31CC9C; 0x7E21A93A0C726; 0x300024CEC65AE]];
  [[0xEBD07C0D77453; 0x7BF58C754CC24; 0xF87F9B37B295; 0x24B9A92A35036; 0x289648E3611DD];
   [0x40BB7D1FD0ECE; 0x1A131BEAD6492; 0x69423BE245B95; 0x669C14214A82; 0x379EBC399963B]];
  [[0x7DDA0CDD635C8; 0x35E41D7F8650E; 0x3F70DD4244C32; 0x67C3E0F50B486; 0x247B2A722631B];
   [0xBFFD05202D9FB; 0x60A9C44DD611B; 0x36DCF6E5FD0D6; 0x54F5818F5DF8; 0x4E905149BD33D]];
  [[0x1A02B8DDADBAE; 0x4B904A0731902; 0x2BCFC886A4F5E; 0x50E5A1340E58E; 0x538853D4322BB];
   [0x4FA19E1071C4B; 0x20DFF018FE134; 0x747F9F7B44E41; 0x1A6855EE03199; 0x23B78B0C2DA8E]];
  [[0xA78F96C2693D0; 0x4E852C54AB8B2; 0x50BD1203E05C7; 0x7EBCB440E392A; 0x2902087BF3096];
   [0x3CE5F90574625; 0x3386306A925F7; 0x6406D4F228721; 0x77FA1131F3503; 0x4E5E2E878636F]];
  [[0x931F13967D25A; 0x39563F11ADEC1; 0x148DC8BDD5189; 0x143E419A5E6C0; 0x5DAD68377E37C];
   [0x68A723527F5D0; 0xF1F89C72A873; 0xCB4FD5169F8D; 0x1C570DC05123D; 0x7DE29900ACC22]];
  [[0x9281B46548202; 0x14A3F78CE6431; 0x75ADDA3C012A7; 0xEA845B0B8C70; 0x79B908BEB53C6];
   [0x19FE799C7C809; 0x7B93B993A157B; 0x77F3826FC8939; 0x23CE645BC7C8A; 0x7E8659F8E036]];
  [[0x33DC53F98B574; 0x7432F5C3CCD27; 0x1E8355E71A3DC; 0x536F3A5B8A0D5; 0x66FBA2484854C];
   [0xBC9ABA085FC08; 0x6CD471084166A; 0x77299B5B548AE; 0xA08F4C0976C0; 0x7ED9BF62B1BFA]];
  [[0x940ECF52AFA23; 0x448C9B9325795; 0x6DAFB14422BE9; 0x331906DED74E7; 0x34AA18796A795];
   [0x17A1089CF42AB; 0x4BBA8E1B7CC68; 0x72F74CCB808A3; 0x18BD75A6C68E2; 0x1B9BDB7DACA2]];
  [[0x18F0E8761113; 0x14856FBD5FE7E; 0x52B8E5AA39575; 0x61A72375DBF30; 0x2A1B12B4FD1A0];
   [0xCCCFE4B5CE5E2; 0x13D03A9E9851C; 0x547736DB57F8B; 0x2C281B74401A1; 0x6AD41C9A8F14A]]];
 [[[0xFAA572EB89E8E; 0x167953742D9F0; 0x19869F9FB4B12; 0x7CBE7B69E4D6D; 0x555F44F93253E];
   [0x652D610CFD61D; 0x450DD0FD70202; 0xFA8099F542AA; 0x28CDD184A6382; 0x5C334A78F9954]];
  [[0x89F7423E24828; 0x6ECC59417EC04; 0x5923FCD743CE4; 0x58E47C67B3854; 0x1FEDFDB0EED94];
   [0x7EEE7E104E1B6; 0x2BAC9B4C39633; 0x719482E22B7DB; 0x289C779B2B427; 0x5A26A1E0E5EC6]];
  [[0x239DE0DF21E4A; 0x3990AE0816058; 0x7B031A49D9306; 0x3AA82A7C3C63B; 0x24190E64F1DA4];
   [0x44CF3369C86A2; 0x3ECD2B5B335C; 0xC07180F70933; 0x65C0B6A34AA71; 0x2462A8EC2EB00]];
  [[0x5C2BDA6A8C3D3; 0x4167C033B9C4C; 0x1CB7DF36DB648; 0x694122F8ABCB3; 0x25F3E2C20B169];
   [0x7E143BB0C3DB3; 0x1781BBE98778; 0x37A2A4A306DA9; 0x5470297B20C04; 0x141CF4B717BAF]];
  [[0x70EB500B9F037; 0x5727999C118FA; 0x6027735DBD10A; 0x7F78C3C18F3DD; 0x4111344448D53];
   [0xB19D3D6D2A8D9; 0x516FF15756C60; 0x2EE628F2DE048; 0x48114031C65C1; 0x585C81048736A]];
  [[0xAB501B01B067A; 0x67899A4477FAE; 0x274F338EBAB9E; 0x47234930DA1EF; 0x7A996A9C60A6D];
   [0x7B7E042371080; 0x76E9E7CA96E5C; 0x14EDEE2498639; 0x20537E3A2932F; 0x6743F9AFE0CF6]];
  [[0xBB8FB7939BAE; 0x595F428F1564B; 0x73AA57A8B8892; 0x443C7156AD97C; 0x394DCDE01C803];
   [0x10277303A2295; 0x36E65529E463B; 0x2050CC0BBF19; 0x7AF642321CFD0; 0x7A578DB9DCA09]];
  [[0xECA0FD78BBA28; 0x140DC5DBBD618; 0x2BEF02AD1BB50; 0x31A4817C3357E; 0xA1117B528B02];
   [0xA242C41E7EE0C; 0x24C715E851E5F; 0x711A22BB49D60; 0x2824BD92ABEC0; 0x43A69559D6B3C]];
  [[0xE68D7A078C305; 0x734955FCFC798; 0xE1E3F52E8AA5; 0x4E9D3FA7AD926; 0x712628E743D52];
   [0x73814D797A50E; 0x153715FFCA99D; 0x558A8FDE19C66; 0x2204AA778B5D7; 0x7BAA676A5FF03]];
  [[0xDF4BDB34B5256; 0x1D965B241D3BD; 0x1271A0805AF80; 0xB84BD41CE836; 0x7F967C3AC88CE];
   [0xFDB1299F7351C; 0x3C874EE7BCAC; 0x39993680976FC; 0x47FE73F6F2145; 0x625098EDAEF41]];
  [[0xD83AF4F7F1E6E; 0xFDC16634A3DE; 0x15FB28A735369; 0x7AF0B085A2FF6; 0x1B48F17A9E049];
   [0x3C8EA301DD7E4; 0x40B69DE358F2C; 0x50BA0AC83C141; 0xE0D532814AB2; 0x65E5F74F8CAB4]];
  [[0xF47568339162; 0x606AFE5A96F3B; 0x2BA3A04C6A76C; 0x2488944DE85DD; 0x374DF90B6C521];
   [0x382B073CF14E5; 0x7C67C95A17E79; 0x15C33E721463B; 0x73EF909CF6359; 0x50141FF3ED74B]];
  [[0xEEEEA5F5DDB32; 0x3ACDE25B0D36D; 0x2CF889155A989; 0x21FD9C628076E; 0x56A5EB7356DC8];
   [0x6C202D420A6E2; 0x31BABD32E4E48; 0x44C3D05F2D30C; 0x7670E334C2F98; 0x4F79A1917FFEC]];
  [[0x51F5BDD58277B; 0x3D523F21BB6; 0x21806DD8F5937; 0xFD12EFB4623F; 0x7A4AF6F3F8526];
   [0x4669EB76FE0E1; 0x43FDD719D5F7A; 0x3CA28B366FB6; 0x248847E6F73B9; 0x65DA146D053AB]];
  [[0xAC0CBD84326A2; 0x4C03CAD532948; 0x5E030FE480B61; 0x3DB7F18BA70C2; 0x35CE1592DE363];
   [0x203476A5CD536; 0x79198612CA2C7; 0x5BB48D8AC89B9; 0x295999FBC011E; 0x3AAA59B60FE8A]];
  [[0xDD31F74351DCE; 0x5B15757FF87F4; 0x2E2B1C4F1048F; 0x69BB62674CD0F; 0x1544612843FE9];
   [0x39BD2752EE3C1; 0x17A2616FD02E5; 0x447AD0B0A32FC; 0x5CE5C96F64A93; 0x29642594BA9AA]]];
 [[[0xDEE95CA3BB6FE; 0x56F0ACB87E096; 0x36182366ABC67; 0x5217F2CD26751; 0x21E6D524F4A17];
   [0xBCE9C99BB07D; 0xC27581F2BA83; 0x20CF33CBD1603; 0x10678FB67FFF1; 0x5C6CD7703A25E]];
  [[0x5BBA8048392C8; 0x2542A96821BD7; 0x75648B3E12141; 0x6D7FBCF181560; 0x2C576A6815E41];
   [0x518AAF86E6DE1; 0x1C518693DD84F; 0x6675DCF58B296; 0x644D5F602501F; 0x77A80CA4E57C8]];
  [[0x159EE8D243A23; 0x6E29DBC72D5E0; 0xDA0A1E2F2981; 0x651B05EAE7237; 0x582761CC33610];
   [0x4C0AF035DD89C; 0x4D1937B5F3230; 0x68AF1E665190F; 0x76067020738A8; 0x3815147C9AEE7]];
  [[0x115871847A6CB; 0x20F85C36D0499; 0x4733334C55205; 0x4D650B5CCA6A3; 0x2C404C377C0C1];
   [0xA12DF826A93D6; 0x7B4188D135AA7; 0x2D01F76CA5FE4; 0x155326D392240; 0xE516B40BA9FD]];
  [[0xF5546A732C66D; 0x18E15DB635DC6; 0x74C7913432090; 0x5F678885345A4; 0x61829FB56D48A];
   [0x677B5BB743208; 0x238E1E35F0380; 0x24F21B26421F5; 0x405586E33386B; 0x200A7DCD0CE5]];
  [[0xE70BA7605C9B6; 0x57F5CC0B99049; 0x42F0C89079EE3; 0xAF253B6AB483; 0x4DBD3447DEE4];
   [0x5CDCCDF6731CF; 0x3ACA58F2B6389; 0x2874A4632D9E3; 0x6EAB51A6C6508; 0x4974444B06711]];
  [[0x83E23DACB58A; 0x3D224DBA9AFFC; 0xAD693FF2352E; 0xEE821C843787; 0x6599DDD43FF17];
   [0x1129BD5E19FA2; 0x1DDF5DE008359; 0x4F3504C03BF84; 0x64EFD7D15539; 0x427DB9DD33F27]];
  [[0xB147505184DFD; 0x5A25B9C7E076D; 0x75CFCA22E44B6; 0x2A4BF3C7632E7; 0x32E9918544496];
   [0x455D9704D3074; 0x37C549C367FB6; 0x4A270B27EFBB8; 0x1428CFA018772; 0x7A9637BAE976C]];
  [[0x311ADC83DB0DD; 0xB4BCB0670913; 0x5D30A2C0F96FC; 0x1F1A1FF4D0BB0; 0x7D2975772506E];
   [0xEFF5E207D306E; 0x68BE603FE3D2A; 0x5C11F5D2A4998; 0x6F76D4F8557F; 0x6F3CFD87A769F]];
  [[0x65185A90EC696; 0x5E67E616805F1; 0xBBF738A1A711; 0x5428B0D45A57C; 0x4C8EE45621C1C];
   [0xFAA46B5E985B8; 0x29F0A5A957DDD; 0x236B91A401AEE; 0x64166423D44F1; 0xA4FE9BC04A82]];
  [[0xF394FC786A4E4; 0x5D5C301931568; 0x16E5A4E0F86A1; 0x3E462D1C459B7; 0x5C99260A907B9];
   [0x94616BF27C9BA; 0x3838C1FBFC98B; 0x1AEFD5463CE2C; 0x2298F2DAA2DC1; 0x2F8398AA1EC1]];
  [[0xB0B54E83EB3CB; 0x46C11CF2C5D85; 0x562C687A5BD26; 0x8CB654C9579D; 0x32A6EC6175F00];
   [0x3D94A727B903F; 0x33404D23AB3CE; 0x47CFD855EC24D; 0x499392AD55820; 0x184705D6FA8F5]];
  [[0xFC2C43A582997; 0x9B163600D952; 0x7D1FD9FDFC13A; 0x6DDB423ABD0A7; 0x6DA6449C5CF57];
   [0xFFEB9DF5F3E5D; 0x104479DCFA27F; 0x21D3A7738DB2D; 0x4045B51B58564; 0x2B174ED65C2FD]];
  [[0xBD918AF2D1DE7; 0x797FE89E388BD; 0x354F756AF6F61; 0x2658B66C8F102; 0x481C3A259A692];
   [0x28B2886FDA782; 0x1ACB2E8319AE1; 0x5E65B509E18EA; 0x602680E0D288; 0x1F8B6C2704BE0]];
  [[0x4DE9DC251E4F5; 0x398DC76312C40; 0x60221101717D7; 0x36E5F8512F680; 0x6AECBBC4FAED1];
   [0x6BCF81AD0F404; 0x56B0D20017CFA; 0x51B33CAE4F06; 0x79BA25FD11B60; 0x6C66B1B94906E]];
  [[0xF2EB0A212B2F8; 0x1291549D895DF; 0x7EA3FDC6E23D8; 0x3A5FB22527356; 0x44827B3CCBCB7];
   [0x569B9A0749338; 0x17A1416DD273B; 0x1E3D333FDA47A; 0xF6320D57AF46; 0x1618E7F9E3803]]];
 [[[0x6E8A84D02A6B0; 0x2A5CE4DBC212A; 0x9BCAB85DD325; 0x33808F9E31F44; 0x711ABE8635FB];
   [0x73EA3098D5496; 0x696F79EEC27AE; 0x7B6463961BEF1; 0x21DAC69DE5F30; 0x33F193BEA04AC]];
  [[0x4886B6B478D87; 0x26385B4323759; 0x13A2BB416CDED; 0x717B3988CF8DE; 0x414C09B6B85C5];
   [0x3390639FE52FF; 0x6CA38DEF7FD7; 0x431C5BCF60FD8; 0x27BCB334EEFB; 0x28319296C6513]];
  [[0x4CB3C06E1AB70; 0x57948510101D5; 0x1C38A22A0693D; 0x2914500B3EA3; 0x578C8D8DD9DD3];
   [0x16C80C1DBD2FF; 0x33044253FB30D; 0x7941DD6AECD7D; 0x4F200061FECF3; 0x546D982BEE1F4]];
  [[0xEDBC39AE757A2; 0x34FE0BAD67FE3; 0x1971E008F362D; 0x6C12B96F5D1A1; 0x1FF6E4EB688F7];
   [0x70C4B4E036FA0; 0x611BA94D0E52; 0x7BFC428F0E251; 0x42A78CA211CAC; 0x78AAB5035F959]];
  [[0x39F022DA3A297; 0x1DA11C9EE4589; 0x7BC8D152059; 0x5CA88E041209D; 0x396B7E030B90E];
   [0x6A3AFDE54F823; 0x2A38ABA40380D; 0x394F10EC351B1; 0x7BFA890FF374E; 0x3ED6D3C141924]];
  [[0x7B3B2AB41AFA6; 0x5EDB0895870A2; 0x4AE56B08A37D7; 0x2E4BCFE71C4CA; 0x2D43D757D8A3B];
   [0x61C756483A39E; 0x3AC62981046BD; 0x1AFB8EAD77A64; 0x2EA1E8FD302B3; 0x4DB0FB226BB28]];
  [[0xE7B1BDB64BA6C; 0x54E041D4FE699; 0x4AC1DEB24137D; 0x74A0697964817; 0x312BDC2D7A256];
   [0xD14A56072B4CC; 0x1382886183F9C; 0x690EC6A92CA38; 0x3B6BD7E019DD0; 0x69DAC1921760B]];
  [[0xCEDF14C9EEC7F; 0x1AD446C451FAB; 0xA7B94D1D1824; 0x3D360209777BD; 0x3312FC6A60827];
   [0x6925365A89852; 0x532B69C2AC275; 0x8D2BFA9C57DF; 0x6B372357986F8; 0xBC6738808C01]];
  [[0xBA8848894762E; 0x7C52B109B74BA; 0x55F874E82108D; 0x6BC4B1AB5D607; 0x4F79A87A0F4BC];
   [0xF22EC08DE0D; 0x19BBD488532BC; 0x1F7CC6A46142B; 0x47951401B8854; 0xEEFD5F254172]];
  [[0x85C1F80C878D8; 0x6E57903F7CB79; 0x7C43EE3AD7648; 0x397051C967FD8; 0x117C19679F176];
   [0x2C5D30697DD3; 0xD3ECE67318BD; 0x1F44996A833CC; 0x15C569BF7DFFB; 0x1E2F38CD9EB4E]];
  [[0x1E36DB36EC447; 0x14967CF4A822B; 0x401B78E38EB; 0x5DAB9A907F31E; 0x2DACF3F0F0C42];
   [0xD33C908C6C4F7; 0x66AA9CCCC7F70; 0x60C3FCBC4FD7; 0x1581BF7C89F6C; 0x611050B8C54AC]];
  [[0xD068F3D4C0908; 0x1A02E029F619E; 0x2B45FEC96D2D8; 0x5A2871779F131; 0x23F7AD0C44BA1];
   [0x4D3B86980DEAF; 0x711D8166CA500; 0x30B3ED70C5899; 0x1D50F687549AF; 0x8B4B9B39707D]];
  [[0x466DD9C839775; 0x27B5FC46C6C6B; 0x212095C5E5D6E; 0xA30F03686D71; 0x6E778BB41401B];
   [0xA1B7784E9C0BD; 0x28B25CB77EDC9; 0x75141ABC6098A; 0x51285E7389DBD; 0x786BB0ADC137B]];
  [[0x2B5755D306294; 0x25D99F2BAD0F6; 0x6E9490307FE67; 0x20FBAA40EBE93; 0x621CE633E61AE];
   [0x63301845BDB1; 0x488A25D032E0B; 0x245B64B6BCF17; 0x5288C9BE6908E; 0x39074BE491684]];
  [[0x9D726AEAA4BC7; 0x6D9CA435F290; 0x399BB955171B4; 0x707C3166A8265; 0x2EB12AACC834B];
   [0x2B20ADA6782ED; 0x2F055CE8BB68D; 0x7C0EB8CC8170C; 0x82AD8CCDBB94; 0x69541FF4BC978]];
  [[0x65D167D224872; 0x2581C711887F8; 0x74BAF45B86A47; 0x5E9E6ABE67A2; 0x7213BD0895F3B];
   [0x72AFCA61A0254; 0x11742392A0ED5; 0x10832281B6C9; 0x5A0949297A0F6; 0xF164D77E14A3]]];
 [[[0xED5760B459019; 0x2228AEA32C7DB; 0x728A39BB925A7; 0x203FA2F13E567; 0x38462A9F1BA7C];
   [0x4BD4EC1ABD7B1; 0xB5AE953DC16B; 0x33E07D29EA8C5; 0x54599995A7CB0; 0x156E38D3AC76E]];
  [[0x20D2F2D61CF6A; 0x773029C680360; 0x5052970E628E8; 0x1743A89EE6C31; 0x86CD11F0DC5D];
   [0x5C5977FD6C080; 0x27FE3AE450F63; 0x21F4ED6717373; 0x22A3B606C8A66; 0x52EAC1F03F5E2]];
  [[0xF339A2B5CE371; 0x65E19D41D0666; 0x7287E48FAD9EA; 0x471066E33BE31; 0x679F03495F090];
   [0x74B03158B9D31; 0x5EA499F4A04EB; 0x5FEEB553C1808; 0x397D697ED49B1; 0xB67F077DD63D]];
  [[0x3C03AE2687F73; 0x79CC5B29E02D3; 0x72367F9DA54CC; 0x7DF9A3AD9529A; 0x1CFAFB9504592];
   [0x68ACC89A8EE8B; 0x4AFC769D61DA5; 0x6F0E9603608BC; 0x6792F936B1E02; 0xF1398ED3BF93]];
  [[0x671CA92F0E827; 0x6525CA7C69927; 0x171200FBFEAFC; 0x7372EE50A7A5F; 0x6B675F2E394EC];
   [0x7DAA7D3D0D62; 0x16FD73FAB54B1; 0x67F158C5CC197; 0x283CEF99745BD; 0x3348A74E2E770]];
  [[0x66F8CDCF522E3; 0x6982F90C04FE6; 0x7F81A0CED981E; 0x43551059F8155; 0x1AFA647940834];
   [0x7CED8C2304313; 0x5AE6CE56CC0C8; 0x137FF230DA040; 0x568D65C179394; 0x283CD25568788]];
  [[0x2AAC2440B7F74; 0x1F509834690FE; 0x45D2233CE00BE; 0x222595A3D079C; 0x27C0FF58F688E];
   [0x1D4B3F39E60B3; 0x4CC3A253B5201; 0x2333A105146C0; 0x69062190DB8DD; 0x5D0790291AD5A]];
  [[0xF2D0FB16FC7F9; 0x619F0C8B78C4A; 0x5A8CCA7C6916F; 0x1916D4D36752A; 0x1023EF9FD86D6];
   [0x168AAB3670612; 0x5D8B15486E18B; 0x63DD0999E8E18; 0x6162366202858; 0x1A4A2C4870979]];
  [[0xCEFE4409994EE; 0x55DA9B44A7A13; 0x106DF8096A1CD; 0x32D3E8584E2B6; 0x5DD046ADEB104];
   [0xB9B4FF6F4202A; 0x4ACB4DBC87A7B; 0x4A78645C47D53; 0x7903BE0C0CBED; 0x6FAA43697CCE6]];
  [[0x5A494E4501DAE; 0x463C338F2697; 0x412F90982A2D3; 0x4A9D3F24715D7; 0x72482CA04194D];
   [0x35900B4AF93E8; 0x492FB85261015; 0x2523C6C2876BB; 0x406C75A05701; 0xBA73DF37C857]];
  [[0xACB525BB4074B; 0x44377012C6937; 0xAC6E54E5EE1E; 0x75073183EEEE0; 0xED70C9270A43];
   [0x1C2882CD5040F; 0x6F51F4C4C0E11; 0x5792A7C9CEA96; 0x5AE0379BAEF75; 0x3DEBB57FC40B0]];
  [[0x14FFB15BBCF14; 0x39E25E41EAB98; 0x7FF955A848443; 0x20BC48CD89492; 0x7196CDE655F9B];
   [0x7849F69377955; 0x3C18A2D36539D; 0x27E1E94033F9C; 0xDE30941EF01B; 0x8B8E3FC11EC7]];
  [[0xB06E3EEF0F157; 0x4007F2ABB1B66; 0x7DFEC2C450329; 0x64D8A2197B0C0; 0x190C79FC2CD88];
   [0x6B06B6D6D97E1; 0x1CA489187DECE; 0x2C0A5779B1894; 0x4B2CA6FE0E365; 0x43EC85DD748E5]];
  [[0x66D07404CC6B4; 0xA577C566F3FB; 0x7AB67D3AD570A; 0x1F1E9C9856550; 0x3FA767C56FD6];
   [0x2CA0442245C81; 0x5F36D42201ED8; 0x2F30D51F27E; 0x4E5D7DA6C00D3; 0x114C4C91AB28A]];
  [[0xCEE008612CF1A; 0x2CF14346EA4C4; 0x6F8B9D96AE467; 0x3F33F3E39A186; 0x4B642581414E2];
   [0xA079B869D7477; 0x30DA90A235CA3; 0x6AD614FDCB2C3; 0x4852A604A706D; 0x157A3839DED1]];
  [[0xB59E444C4EB0D; 0x11676B4ECD851; 0x3D31CB1B12DF9; 0x27C08F496EEA1; 0xBE08415158FA];
   [0xA04AEF0929EB4; 0x2CE3EB2563B82; 0x20C0E6F08D318; 0x6285C2F629C66; 0x21EDBA60C1ABB]]];
 [[[0xFBF96E6D13256; 0xB68470D1AAB9; 0xBC465046AA9B; 0x3D5203520917C; 0x4B417116FA14F];
   [0x9A3647E0FAC1A; 0x71A016007859E; 0xA7B31060BC87; 0x128F617FE1085; 0x6EB4B51971C6]];
  [[0x56FA126BE097D; 0xCA15EBCCDD85; 0x49ED9E3DC0A72; 0x534A6F2D34FF; 0x727D2633CD1B3];
   [0x77AEFB30F457; 0x24BD5A728DA2D; 0x2C9AF355CE67C; 0x73999222C6A81; 0x5ABF888781842]];
  [[0x7E2B53855E82E; 0x36F75F5B38D7D; 0x1FC3826F69222; 0x551148FF627FA; 0xE21BFC642276];
   [0xCD49503E4AE88; 0x47C1EF9736822; 0x2AEC417D9DE9E; 0x564FF1CD1C7C3; 0x102F631F03439]];
  [[0xA9896A4813696; 0x3523D6EEBE38D; 0x1F9CAD687DDF8; 0x71E17B9265FA2; 0x3DC4E4A6526C5];
   [0x380987DFF3364; 0x31775ED80285C; 0x3F94142B2664D; 0x19B13FD7656C1; 0x3839548BAC133]];
  [[0x9059C15C5F8C7; 0x5DCE55CE2EB32; 0x64F44509419F0; 0x5813AAEBDF343; 0x66F8F9B0F508F];
   [0x4D3AC3084DCF0; 0x46DB6042359EF; 0x707D3EFD6F04; 0x39BE123FBD3E7; 0x374429C7AA556]];
  [[0x9049F51AC9B9F; 0x69F045B69DBA5; 0x3599C0A66FE14; 0x7E37C062CF77A; 0x4EE7A09B3E7EA];
   [0xBBEBF02917C14; 0xA62E0342107; 0x18B2A672798B2; 0x5D31A994A35E2; 0x25FE7CA47E56C]];
  [[0xC0FA78FD24FB4; 0x14B8508F3AF59; 0x1D75539AA97B4; 0x30FD522CD0AED; 0x1AEF85FCB95C2];
   [0xCE2C59DBEBDCB; 0x2F12AEBAFF60C; 0x4DE71444F1374; 0x53A44DD8A0024; 0x43DEE537DC07]];
  [[0xF9CB8CD409462; 0x7A5EA9DCFC77; 0x15B9C5672DDAC; 0x2DEC06E0CD7B9; 0x3829D7DBD8C4B];
   [0x148A317174A3E; 0x6C135D451348E; 0x614DB1EF72449; 0x5EA3039A699C9; 0x5F393C9921CFD]];
  [[0xBD8E78399A837; 0x326AC044CB6BE; 0x421B7FF19FDFB; 0x4F2CE100BD03E; 0x64D848DAF30F8];
   [0x9B499ED1FE2E3; 0x6841BA92C3FA2; 0x61A84C7C8363B; 0x14616602672A2; 0x56FFF0F1EB104]];
  [[0x6C40BEAC31BB5; 0x18E17F67F79D1; 0x226CDC803E440; 0x1B07C6F9AA066; 0xF7F08F44D7E2];
   [0xA2B8B71A878F2; 0x5451E156E406; 0x3F11116E5324A; 0x7F48FABEB6CE3; 0x41EA4652B5893]];
  [[0x80127877EB48E; 0x4F352E0372300; 0x4B4EA89740CB2; 0x2DA8620AA1FD0; 0x3DD845928A4A7];
   [0x3B8912897B9CF; 0x24BFED91B1D58; 0x2574ECC3E424D; 0x37D04B7723902; 0x6D7693B13AD1]];
  [[0x59E9FDEA9C944; 0x428DEC2AC2842; 0x497AAFFA03EFC; 0x5FB9332E47452; 0x56C69D8A0C638];
   [0x9A23A2C6E31BC; 0x3ED95E52136D; 0x34F2DF9A2277A; 0x6E2B8948FCBBB; 0x2E56F673B687E]];
  [[0x11F6068178EE8; 0x571D59E914ACF; 0x53B116D7B9565; 0x819A7CA2F5C6; 0x5D54B6D9C418];
   [0x117E6E5F4423F; 0x7BB7D377A5DF8; 0x46F1DCCE6741F; 0x624C8A21373BD; 0x23E4D22A016DF]];
  [[0x3C0EAC69D0DE5; 0x6CF31DC831402; 0x2BAD0A426ACA; 0x7864FD5F0E1A; 0x13C70B1A51E7D];
   [0xE7A74CF7DE7B7; 0x59198080C0E1F; 0x2341CEA45F848; 0x640334A0B0BD2; 0x73CF34A927A18]];
  [[0x78BB4A9FDF621; 0x42F21FD366CA; 0x39E15CF3E8543; 0x371C9BC5AD61E; 0x4B624E18568CB];
   [0x78D62B4ADE692; 0x4A079DD8E7902; 0x29FA46937F35F; 0x1C7744CC75169; 0x7C882CBF3BBAA]];
  [[0x5C23B09112390; 0x1091F52EA9318; 0x47D031BDBD618; 0x42176E850AF62; 0x255756EBA373D];
   [0x8E197B7FDF0D5; 0x1277E4F639650; 0x2E5B807E9012; 0x5C7BCAB505A9F; 0x1A25FDD4D5CF9]]];
 [[[0x5828E38661C25; 0x14BC3733F569B; 0x3412CB1C71958; 0x4DC731462284; 0x1245D94326762];
   [0xEBD2384BE5F68; 0x697E3904C2BC5; 0x5D783FCBC6030; 0x4CB401C37BE4C; 0x11FFCCA4123CC]];
  [[0x10495DBB211E9; 0x25442F7CC4E5C; 0x561DB7856A6B7; 0x52325F162CCFC; 0x54EF209D81AB5];
   [0xC391A115200C4; 0x138919D37F23E; 0x38909464B887E; 0x5167B307E5774; 0x32242323F9935]];
  [[0x7ED46EC46A583; 0x392288DCC4F7A; 0x7FD2EB94B33B0; 0x432CF9FE955B4; 0x2450E4D8A038A];
   [0x7AFF478477329; 0x4D48903D3CD08; 0x708276A425531; 0x606FD71DB1D37; 0x142BEBD75DEB9]];
  [[0xB1FA45676391E; 0x69692EEDD270E; 0x498670EBF7399; 0x45C7632B7CFC2; 0x19A09AE2A79FB];
   [0x2CA58A8153BB1; 0x31337FF678477; 0x418997426A417; 0x655A7996C5020; 0x1936EB94D8E93]];
  [[0x9A2630289A595; 0xCA8CFCDBA537; 0x56FF9F6E6FE48; 0x5B53BE7E2FC07; 0xC8AA9E431C96];
   [0x8F62B7EC7F8B4; 0x759CD5D73D9A2; 0x15AB8E3A25009; 0x4CC8936067C91; 0x54FC0E3CFD648]];
  [[0x6FA9F5E920FA0; 0xB770A49D3EEC; 0x582B079BCD64F; 0x1C35560408E28; 0x44A7950A6FFB];
   [0xB3A87FED1B513; 0x67CE537DA0A6A; 0x707594DB6F3AF; 0x57EC75ED66C23; 0x69E23F2649E30]];
  [[0xAA072D6126519; 0x1BE00610679A4; 0x6C412907F1A7D; 0x163773E6AAA30; 0x3BC5F3E291E74];
   [0x809166205E3BB; 0x785499CE64078; 0xE3D8FC7F29B8; 0x7E0EF22E29934; 0x30E9A8D252A88]];
  [[0x3A829DCC73EE8; 0x699D7B9BF4EAD; 0x7D4B17CC3C7C2; 0x2905BEE0EE901; 0x547FF8275C891];
   [0x52B2910F7F25A; 0x68F778D2E5A27; 0x1B85563815942; 0x13DF08225311A; 0x7609FDFF08594]];
  [[0xB2E2EC305F2D5; 0x996BBC6E4FA9; 0x30B4CB4168F67; 0x7426FB602045D; 0x943C5ADFF99F];
   [0xE48A53EA42C24; 0x57678B9589CBD; 0x52006DCF8D83F; 0x53D7E245AD4FD; 0x77A9E12D48B9D]];
  [[0x7CAC10865F9CF; 0x578B7D35B3A19; 0x708EEEBB1E6E7; 0x2ABFEA46C5555; 0x4CA5DC5AE086E];
   [0xA36376B7A93D2; 0x188095575D2D0; 0x393EF6F8634C; 0x7C039388938C2; 0x31010E90AC0B1]];
  [[0x7DF172B9EB768; 0x178D003BB4489; 0x783A956E76079; 0x25ACCD6C14EC3; 0x46178A9DC6279];
   [0x15D4ECB7BD0F4; 0x6C0DC296E2C56; 0x53C51B36422FB; 0x549E0F4E67DE5; 0x389CCC23186D0]];
  [[0xC532F03C27F78; 0x14A6C28ABF4C3; 0x3F90A141B9A5B; 0x69B2DDF5CD3B9; 0x2CA851CF01E00];
   [0x59440324910F2; 0x729FD333620F7; 0x3CD70BDC8C7B; 0x40C73BD640FDD; 0x4332FAA2FFBA1]];
  [[0x6664ABFD5681D; 0x74E8C029237E; 0x6201249B2B7BD; 0x529E03D66B256; 0x107D890CE2D92];
   [0xF2B9FEE1231EC; 0x37A3DA4060374; 0xD270F3481DAF; 0x748DD10EC51C1; 0x313AA5B16B013]];
  [[0xDF0E13A34CBFC; 0x3631767D8B18E; 0x6B84D66D0E80; 0x3C82463233CE9; 0xEC0876ED459];
   [0xBFA9BFE16F36E; 0x2B16C346CBE77; 0x1F03779578316; 0x5B6D0ECC3F5EA; 0x392C5DC949B1E]];
  [[0x3CA709674F552; 0x4286A064869F6; 0xE2BB1ED6DF2A; 0x4B163E6232515; 0x7FC5BBC23EE21];
   [0x48D96D1562488; 0x4D9D561FE91F5; 0x5807F49D14F0C; 0xA483741FDC4B; 0x2562EC3A9714B]];
  [[0x77D2D04C4F8B3; 0x3A4D092998582; 0x36F34A3156092; 0x36043316B80D2; 0x387899C0D0389];
   [0x1D232B890C1FF; 0x2BB8E2A3A7B1E; 0x674044C311F30; 0x42AABC2D14B2F; 0x5FA4E41857301]]];
 [[[0xB8C87FBE21CA1; 0x4654DD4516E9E; 0x4D4C04111E84C; 0x52F54D6883A97; 0x58FBFACC04077];
   [0x8B1B2BD6C47E6; 0x406C2B52FDDD1; 0x5CD0AC07AFC39; 0x25702B023D878; 0x457D9E01D39B]];
  [[0x357AC0E5357E1; 0x603BB8F446D94; 0x526C39B423BF6; 0x652EC95741E38; 0x3AE110F98F0B7];
   [0x62637EE945699; 0x49EF673613CC9; 0x16CE0E4F9387C; 0x651CEC355D9BE; 0x268F9AB67FA18]];
  [[0x93F3302F7A85C; 0x45C7103A537C2; 0x19C168EFCF12; 0xFCE8AC30255C; 0x7B9C2CD636AF];
   [0xC7C15BA124E6A; 0x6096943B520B1; 0x62EFD361E552A; 0x1B396CD943BA3; 0x246C5ECE49CB6]];
  [[0xC8B07844D0432; 0x193AA51F64178; 0x652032368D613; 0x584636777EBD; 0x76EBD45AE24F8];
   [0x83A8832371D4D; 0x31C19F58C6C5D; 0x6B31CAFC81A4C; 0xF4FB72B9C793; 0x51077AABFF976]];
  [[0xAFF8E199C7745; 0xB6C8E8C41D7; 0xE037DBA37A3B; 0x5BFBB2E8C259E; 0x3066835FD1B75];
   [0x612167989FFA4; 0x7902FB713C890; 0xA6D25B2214DB; 0x60B1391B6BBD8; 0x4E350B3BCA4E4]];
  [[0xF3F02AF47CC2D; 0x60388DA43D42C; 0x632F6353FB249; 0x5F31E07849F64; 0x5CE122608D9A5];
   [0x6007E5350D389; 0x7742ACF4259FE; 0x701EBC914081D; 0x531138485C0D1; 0x76919B7CB5969]];
  [[0xEC0DD3F0BB75C; 0x517421A5944B2; 0x64E3D5BDAF79C; 0x77DAC3841BA0D; 0x274CFC101EC2D];
   [0x8CD42DD1C1CFE; 0x572F81FDFD0F; 0x7BBC498B713BC; 0x34B4691EB371D; 0x64FF50BFB9339]];
  [[0xA74289BD66C07; 0x41AE49E4EF440; 0x16BD641D76BFB; 0x6217734484D42; 0x7801CB15FA7FF];
   [0x6A7999951B22E; 0x73B7132140BC1; 0x1CB156A92521C; 0x47DAE07D429C2; 0x34176AE2F6DD1]];
  [[0xF38AE8B585B7C; 0x7D0F5E5336093; 0x634B7780008CA; 0x6CBB99339E01D; 0x48FD2054F121];
   [0xDA75057482FC7; 0x659E2C0AC4ADB; 0x2839CEE7F858A; 0x5F0AC5233F317; 0x7DB0CE3A922D5]];
  [[0x26BED2D1D7FC7; 0x40FD51645942; 0x1C6893567FE50; 0x7BEAA7D726BFC; 0x4207CB6F8125B];
   [0xC744046E92E4A; 0x4889DCCE9C25F; 0x298D4EBD978FD; 0x538378F3B449E; 0x103ECF3526132]];
  [[0x70E6E240ACD3F; 0x2D0E910C2C5C5; 0x47C4B7A150503; 0x7E03610CFC713; 0x12B1D48802DF];
   [0x5F52F4DB5F186; 0x214FE444DAC5B; 0x40B88A70B4E77; 0x28DB30B535336; 0x269074FCBDB43]];
  [[0x7D8A7FAA53FDE; 0x73B94B3141959; 0x479FD2A22E7BB; 0x23433E0E79ABC; 0x7443BEA34A6F6];
   [0xFEF139C8576CC; 0x50FBF061F5893; 0x4558E31BB1220; 0x315C237E0227E; 0xB5335F077DD7]];
  [[0x45CB3299CB9CB; 0x6C0467C3B394D; 0x4E14A26B6171B; 0x38CC5A50E5AA7; 0x5EDE90305A8E];
   [0x7D811A19C3957; 0x4D84D2FDD61E8; 0x3F360AB0C2427; 0x6D66D2AB4A909; 0x7376DB64F64BE]];
  [[0x51348CBF420A8; 0x3D930ED834A4F; 0x189403BF27676; 0x181B04E39E3D0; 0x5C72602F7C87];
   [0xFF27D92F3F8A6; 0x57F1C3BE718B0; 0x7DB5FE00D8AC2; 0x6508234B8F600; 0x68F5AC550C57D]];
  [[0xB437344372511; 0x2CC307D9DF3CA; 0x65755E585F5C; 0x4484FE311448A; 0x45D0A928F957F];
   [0x9DC33DF29CABF; 0x58AABC130136B; 0x6DD896642EBED; 0x3DD5E6A93CDB6; 0x58BBD544A9587]];
  [[0x23F2F46B77A44; 0x22E0E5444326D; 0xC682DDCB6C24; 0x174710E87D9FD; 0x62440C79CB254];
   [0xC0B15406C928C; 0x4D56FB1459CB2; 0x12D1E88446D8A; 0xD1CDDEF21AA8; 0x2C8A130076C5D]]];
 [[[0xA20A5A11AEE99; 0x658F7C4C596BF; 0x31596DD0E0F0C; 0x7FC75CBADE15C; 0x24BB69877DB99];
   [0xF47EE95A31E2E; 0x6090BCAD2326F; 0x3F84B5AAC8FE6; 0x28823088CE92F; 0x2532BF86570CF]];
  [[0x5E2861D5F12F9; 0x537E8118D77D5; 0x631B8799698AE; 0x3CC1412721F76; 0x624DB7CBC35F6];
   [0x7E4CF1383E30F; 0xACF29C3392AB; 0x27424E45CBECE; 0x531D9F8ABB684; 0x76C6093C294A1]];
  [[0x536AC6395662A; 0x239188AAD2807; 0x31EADFE0E7BEB; 0x36455A85285DD; 0xDFA70C45530F];
   [0xAA7B94BEC12BF; 0x127AF29368714; 0x5B0B1FF2913B2; 0x5B474E2A2BCDF; 0x5B2B977212BD9]];
  [[0xFFD50E811BC89; 0x3FA8AA1288DF8; 0x4CE42359D496A; 0x5AD22EC8B66B0; 0x35AD636E886A1];
   [0x36AEC1F03E773; 0x4DB5A8BCA9BB7; 0x378BD3B9E00D0; 0x2F9A1B2588A18; 0x59374C4B84DCE]];
  [[0xA5C78C0A09501; 0x438418122FEF3; 0x36F391A493F51; 0x1C1581DA10D11; 0x4D380EFB19759];
   [0x7AE14448E2F04; 0x3E5E01CA7FD7A; 0x14C4162795998; 0x7BBA0161739BC; 0x1CC54400F1EC4]];
  [[0xB4104835823A8; 0x49050C8FF31A; 0x78137F3671127; 0x291A0D2FD7BCD; 0xC5045563A528];
   [0x216E06610C3FE; 0x6D4EB6BA949C6; 0x5980545DD7A0A; 0x3C47D2617FCCA; 0x4E4B15E594DAD]];
  [[0xF8BABBDF00F70; 0x63DF37D0B03B9; 0x3D691146AF8DE; 0x2891C5C93DC5; 0x1CD90615B01A9];
   [0xD5D595EBCBD12; 0x179C70C411F6B; 0x470395C25F3BB; 0x5F2DBD08ADC8; 0x177CA728981CA]];
  [[0xE456B1F71055; 0x7362E63D73807; 0x40975D13C6956; 0x77C8546A0DDEC; 0x255C05FCBFFB8];
   [0x9D08BF388FA6C; 0x5479123177C4E; 0x6EF2CA17DD9CC; 0xA28B766E8543; 0x725EF11C998DB]];
  [[0xAFD776D46AE2B; 0x3A2987F39DE71; 0x4318A4AD86B8; 0x29CB17C4E8BA2; 0x68C1611368562];
   [0x72BB4043C69E3; 0x355B0D908C97C; 0x1D84483454BEA; 0x1086B129DA054; 0x77E8521E8B03C]];
  [[0x483BAE3E96C40; 0x1033C465DCD03; 0x144124D4C7602; 0xF90A0A3F2373; 0x21D2DDA9344D1];
   [0xBCC16AC03E55C; 0x7907B7596D0A7; 0x1FA7957776F16; 0x330182BCE6E91; 0x44B0FCEC99956]];
  [[0x57F6C0E0F3BFB; 0x162B3C9264F2C; 0x41C4E863CD2BE; 0x44D72FE16345A; 0x666FAA55BBB69];
   [0xE5AD6ED951F40; 0x420A55FD6D09E; 0x45DEBB67E01E4; 0x57700CDA6B2E2; 0x2385BC90BA9CD]];
  [[0xD7FBDBC6992BF; 0x326A5E14A7861; 0x542159B191B29; 0x78DF87B779043; 0x7D91072D769FC];
   [0xF81B25D9A6F04; 0x4F3DE069B4E88; 0x3D1D943A8CBC1; 0x3F1FE40D629B; 0x3EC7B27C110AE]];
  [[0xA3FB03B6CC730; 0x23C7A1AE1D095; 0x4D884FC7D66EE; 0x6892EDA82276A; 0x7E14DAC6F262A];
   [0x78183982428A; 0xF555B51769F7; 0x2C306A05F265D; 0x7359935B2E81E; 0x17E43ECD283C0]];
  [[0x3A82E91E17BF; 0x2819AB5CB8AC3; 0x4CCB84250F825; 0x5B7B331D46BB5; 0x1D3BA6D0D999A];
   [0xFED56D79EE4F6; 0x159B4CD69EF9F; 0x1BFFE18B5C9B0; 0x4736AD2A4D805; 0x34F5F044BA570]];
  [[0x1343287CDEBA0; 0x13D882BADAB71; 0x5CAD7B607FCC4; 0x23E01BF809A99; 0x3312CA1620AC9];
   [0x282755193459D; 0x4995E4E82E3E5; 0xCBCB85F02225; 0xD409BC19F795; 0x2E6EDB143CE9]];
  [[0x4F31CB2D9BCCB; 0x628A63902A713; 0x4F007BD385C5E; 0x1F74B1F93394D; 0x3086A647FCB5C];
   [0x398B0975F65D4; 0x4AA9FDC040688; 0x332D91719B6C9; 0x40BC443E8E4C7; 0x20AA4BACC6B0F]]];
 [[[0x82C1376036494; 0x381809A5DC13F; 0x7A768F09F3FDD; 0x24F9AD059DDF; 0x434FAA3001A00];
   [0xF6C7E5397CE18; 0x473965DA5203F; 0x22D664316484; 0x17D08DDE3B42A; 0x32E15813D1D4]];
  [[0xA24C7658BA0CB; 0x4DAFAE0752E4D; 0x57FEE62416FAC; 0x7CE89A50A1C66; 0x5B3A87DDA42C5];
   [0x15A6DCD0D9750; 0xDC64FF4D1D60; 0x62BE62D48588D; 0x44CED6F7DC105; 0x51FD1713A7272]];
  [[0x31C0A4FBA8CD3; 0x4D85D27BFFBD; 0x73687DDD1897B; 0x3C18CABEB4462; 0x252009593038E];
   [0x6A4B0F43B1F03; 0x3596CEF096CE4; 0x370A6BA70C9EC; 0x504FA8F22F8D9; 0x42EF23D58A32E]];
  [[0x18C743658227A; 0x59EB06D4851E7; 0x765C0B448C135; 0x2B1CDBE044E7F; 0x3BDF03C33FC4C];
   [0xB8DD5FB4A505; 0x42CD448FC94EE; 0x41528FB2A0C40; 0x6016CCFD12E3D; 0x50D6616BCB42A]];
  [[0x40B651D6D68FC; 0x4F96B3665F295; 0x32453022450B6; 0x62498B1682588; 0xFAB72B2FCCDF];
   [0x274624DFAF9A7; 0x4DA952FBAD71D; 0xC06372160275; 0x65F4951C1680C; 0x20B63127A4A88]];
  [[0x50A3603E9997; 0x3A6ADCDF25D68; 0x1ADDCEB37FF27; 0x4AE1B473A39F1; 0x8E1D46706170];
   [0xBDEA888583D12; 0x58B06E62135F6; 0x6B07EE1CF9CF1; 0x7166BD7374570; 0x1B932B291A438]];
  [[0x5AF929B2B37C3; 0x7549202796660; 0x513E2660DE7FC; 0x6B6381885392; 0x331EBF4C330BC];
   [0x5604DFD132A81; 0x18FFB2CF41F7A; 0x5BE1FFDB10454; 0x789C57A8EB47D; 0x3C7003C3CC193]];
  [[0xFF74CFBD82392; 0x381F44F448A49; 0x37DADAB5742D4; 0x3385CD8013C8C; 0x77C42B4529B16];
   [0x9C56F0944379A; 0x383BFA2B1C2B2; 0x3E4ADF6856612; 0x4D8EDC69A18AE; 0x782A2F6102155]];
  [[0xC8496202AE6A8; 0x433B75E48A25B; 0x5141D4B503E98; 0x5226A88155633; 0x22CA7649B49E];
   [0xDDE29F41E7545; 0x51980467DCE98; 0x5452CD2F2E90B; 0x44681E5A6B9BC; 0xB18699C70658]];
  [[0x454DCDC35F98E; 0x4D3A9A9B829BD; 0x5C82A6F53D23D; 0x54F2336A35986; 0x4F050EAA88BC5];
   [0x91AE73A0DC4CB; 0x6739166A25EC5; 0xF8DCFD062057; 0x680C6E9553F2E; 0x16C70FF5900AB]];
  [[0xC54EBAD62EAB1; 0x6A7C01E68F92A; 0x4C8F6FC7D7E91; 0x71F7B41EA0338; 0x441A714BEC729];
   [0x4B4DAD4F8A724; 0x33ED22AE26116; 0x79F365BF781AB; 0x2CA67E4CAEC5; 0x55A4A1A0081CE]];
  [[0x856B7CDEDE34B; 0x46FA048E577A5; 0x38378B91B299E; 0x4C31EAC28396A; 0x1440CEEBF654F];
   [0xDE3FD4ACED2B3; 0x7A22FF45E43F3; 0x7CC601E3B097; 0x2A04F943FBC69; 0x5C5F64D0D7533]];
  [[0xDBE80786B794B; 0x34C0F990B92EF; 0x330FBBBF05942; 0x27E782DC51868; 0x287A147D07324];
   [0x213F588BDAF78; 0x435D0191F486; 0x6F097D291A15C; 0x339AFB6E98B50; 0x55B5A4EA63E71]];
  [[0x12AEEC81A34E7; 0x3DBAAF67991EA; 0x737806F56C38C; 0x43D356C504230; 0x311DCD3F757D5];
   [0x73E6854BEEAE4; 0x5FB95F72D5723; 0x411187F7CE78E; 0x77E7ED750A498; 0x5993AA33720F3]];
  [[0x28A5A432F3F67; 0x75D0A5CAB6768; 0x6396B9CAB93D8; 0x546258D80855A; 0x3C09404670F46];
   [0xD1A71F0C8DC; 0x1CA62AD6C1C14; 0x494E0150B4553; 0xB039392E5564; 0x2EF65688DCB46]];
  [[0x82CA0145F254D; 0x1317C70253A1C; 0x6973D40E8D54D; 0x10E78CCE403C7; 0x265A013FD1B69];
   [0x339C480223D; 0x55E9E7BB6DB26; 0x58F178B4BACE4; 0x71F32575FDCD2; 0x1C71C69B2119D]]];
 [[[0xAF8DFD07525D6; 0x5ABDDBE90D603; 0x4A248FDF2D0CF; 0x5172B1CA46E8D; 0x7BC8CE3E6B3DD];
   [0xF6A2BEB2B44FC; 0xD349B42C8CF; 0x4B7CD7C88C973; 0x5ECA8F4485D17; 0x7D62C28C79894]];
  [[0xB55207F725350; 0x155DFEC40CDAB; 0x27B783F369EDB; 0x11A983C2841D6; 0x12B6224AE4C25];
   [0x9BF92AE68CF96; 0x1147BF976A441; 0x2CCF3203AAF22; 0x69BD39DE1693; 0x32BC9448C60DE]];
  [[0x6D373DED15DFB; 0x6BAD3E5311A3A; 0x12CCBC4FCB6F2; 0x2A5A3B3908623; 0x542CFC756FE18];
   [0x657D935ECDC3F; 0xA8A6A301FE80; 0x394A934538AE2; 0x1DB171CCFA8F2; 0x490705EEEAB8C]];
  [[0x8239926A0236C; 0x4072433544306; 0x7BB7A8ED39FBB; 0x1F54925C1C4E3; 0x664E83A948559];
   [0xF11625DBAE781; 0x692D219D5FF95; 0x73D91B99DD9EA; 0x50FBE7DF80371; 0x57654A7F31CC1]];
  [[0xAEE343C7C9D05; 0x90117343650E; 0x6CC575AEDA322; 0x4F1E2F2B51775; 0x76F6DB85D5F21];
   [0xB8CF913A709D2; 0x7FB116D7DC97E; 0x1529FD6EEF6A5; 0x56A6B91E47DF0; 0x2E9B775561208]];
  [[0x575D0571791A0; 0x578E1DBFBEA77; 0x3A703A52790E7; 0xC97F49B37153; 0x4278132554EB7];
   [0x157EE9EA2F134; 0x3BB0E79C3342D; 0x2C36A38226E01; 0x7C88322ACB85B; 0x4FB186883785F]];
  [[0x2044FEB9F9253; 0x22FA260775335; 0x39F6E84F28A2; 0x1836DD1BAB756; 0x8E7A67948E3E];
   [0x54204D45393E2; 0x3CECF402108D1; 0xC701A3210E7D; 0xBEADB8DF7D41; 0x17AC9DF9C5498]];
  [[0x2F2E0A3E75974; 0x2A9F168A74A87; 0x29F4A8513C289; 0x18E556097BC48; 0x200FEB5BAD923];
   [0x1B9CE667358CA; 0x55AE551A801F4; 0x42DE696A62306; 0x2C75B9C6C564B; 0x164A218F9F79]];
  [[0xF29F428A74C0C; 0x63F194651B933; 0x528FA6E64E1E3; 0x68143117910EA; 0x1B40977C6BA02];
   [0x7F5D2BC286354; 0x402F53D46EBF9; 0x3B2C2080B52C; 0x63D348A76083A; 0xFD0D6C7223FA]];
  [[0x147D6E66EFE04; 0x5E90EE23C1075; 0x6E84476D5B541; 0x52A8100787130; 0x2D2188343EDC6];
   [0x1F9FAD89722F0; 0x4A9F2401F68AE; 0x293427A23D1F0; 0x1D52B70F2E2E3; 0x3C937077DA4B5]];
  [[0x874B69E730AAD; 0x646B3E1A4C500; 0x7077863F9D016; 0x60558644A040D; 0x36900BEB6A2F1];
   [0x5C370223FB20A; 0x447FB93D1E921; 0x64D502A1F13B6; 0x4251BECD4B787; 0x7D125955B235D]];
  [[0xFF3E0247628C3; 0x5612C7EF51C2A; 0x2EF572E567422; 0x3F06B0469AB7B; 0x209BA13287307];
   [0x8994050632779; 0x9A3E92F3709F; 0x16204EE7B6320; 0x2F94D7B3DCAF7; 0xB4460F41EE3D]];
  [[0xC5F26F312D2C5; 0x71E7C34CDFED2; 0x2A8304ADF0D4F; 0x5133E4EAA736F; 0x4ABE07C40CFA9];
   [0xA08F9029290FF; 0x3EAF403C6D98B; 0x60DBC0EDB37B6; 0x7CEC6635832C; 0xC81F88E255BC]];
  [[0xC0F4508FE693D; 0x57782552C17E7; 0x167570039C207; 0x6114C8419F3C0; 0x1712CE2C1CBEA];
   [0x6787A0AA1DBED; 0x2B18B64E45E6A; 0x5FCE592027594; 0x2E88EBA3ECFFD; 0x476FD0C587C15]];
  [[0xCBD80AAB36FBF; 0x6ABA6598D0A0A; 0xD1C530FCAC66; 0x2286C6B68E8F6; 0x6AAF0D091C807];
   [0x5BDF3CD0E8D0; 0x6960A3E5D2C66; 0x638B2EBDA0973; 0x4EE54544D3339; 0x40BDB62E2C15A]];
  [[0xBECCC002BCD28; 0x7346E8C2A60E7; 0x3B9F742D1704B; 0x1370F879A06B2; 0x5A0A68F92C852];
   [0xBD4FD9CD7C516; 0x4D3D2354F933; 0x3175E3418C5B6; 0x415E970F01D4A; 0x277440ED12C8]]];
 [[[0x4F80B29259121; 0x4C7AD79241CBB; 0x31A2024B0C285; 0x2905F7DC32728; 0x18F4173185CE8];
   [0x8D35E043B3193; 0x294DB8F82806B; 0x6E11FA9EFB7F8; 0x7EC8CC6030101; 0x7CE956AED6CFE]];
  [[0xCE55CC1171587; 0x54B3932A64433; 0x5BA7C98FD8209; 0x56CCE0ED96A42; 0x79534ED8A0FAF];
   [0xAB036181F5C5D; 0x2C036C8A43EDE; 0x1D4508E4C7ED0; 0xE128F1A3971F; 0x417208F6464E5]];
  [[0x633C1FF9DFEFF; 0x5208BBFBDE89E; 0x256F7BBEE3FF4; 0x577F9D2D9026B; 0x745C594B0BDC9];
   [0x21489A9DCD65; 0x77418195C0224; 0x43817466CDB80; 0x1F3BC7125C1D7; 0x22C79F6BB84F9]];
  [[0x175240458C6F2; 0x3FF9B00DB6449; 0x1764BB4C86102; 0x4BCC4DB3AF4F4; 0x7EF78D9E386BB];
   [0x2DFBA149190F7; 0x3DA9B88D643CF; 0x1C3155190EEEC; 0x5D430C2250A24; 0x2593ACE56A866]];
  [[0xA92165B59C268; 0x7B4FD61C8ACFF; 0x25086FD2DA482; 0x694EDA01406D5; 0x5DDE8F63674A6];
   [0x70F2A7161678D; 0x5D1DAA454FEEB; 0x3E403685BEC15; 0x3DA80C68EC0D1; 0x190B8FD47B2F4]];
  [[0xD2F2403EECAB3; 0x6EA952EBF1B65; 0x7D581FECF7ECC; 0x306921DE856F0; 0xF2F865D32B26];
   [0x6463217B9D5F6; 0x5BC460EE03A7D; 0x2C7357E245644; 0x336E4E5BEB241; 0x4EAA60FB21263]];
  [[0x31B08269F9703; 0x5209A523B7D2; 0x39942D5F26A4; 0x2779B510C5171; 0x554D0A38E2ED7];
   [0x9D61A3EB63C62; 0x6B3C74DDABF3E; 0x180175FCCD722; 0x5DDF5EF9271A6; 0x5D1B2EB83F58D]];
  [[0x269380CF53650; 0x478CBA29C961B; 0x3DCE7E460A8AF; 0x5DC0399EB13A3; 0x78777353BF27D];
   [0xED3B71CB3DDF7; 0x4937FD2AC37C7; 0x7A97F8A99835C; 0x7E9175E349529; 0x49AD7788A8375]];
  [[0xAFB12685F6754; 0x1CC137990650F; 0x6EC6C0DB127EC; 0x2F3F9C92B06; 0x68ED61BED7B48];
   [0x48477FEC95FCE; 0x516ED0BB6C079; 0x58AC37081FA80; 0x52743D6E32AAF; 0x135B867D60FA5]];
  [[0x17A14A66889B; 0x5B0AEEAE56F98; 0x2236BACAE8AF2; 0x3C2257520A874; 0x436DD2F42BB1A];
   [0xE73DEE8E27B51; 0x26156FABFD33E; 0x2E3A732B167EF; 0x593856E3BA35D; 0x572BAFD316337]];
  [[0x4CCCD1BFE2F09; 0x1EB388A46DB63; 0x52EC6A89BDB63; 0x3F464068D9320; 0x66681DD5542FC];
   [0xADA67B76DEDEE; 0x20BC1E48F374E; 0x10A381907FB3D; 0x2A188EFB7D771; 0x204A6CB902379]];
  [[0x17228A8F41270; 0x3861FA7811FF1; 0x5C24BAA43480B; 0xD91805B4EAEF; 0x161DF51FF7C92];
   [0x2E8C34073031B; 0x4FC9FC002E034; 0xC517474BD432; 0x5B028CC00B4FC; 0x32CEE00379E56]];
  [[0x4483DBEADB2E0; 0x6513EDE13135B; 0x16DAD5C521A87; 0x5A3E8526657FC; 0x71D76B3E6D02E];
   [0x6473D1426BAF9; 0x4AA50405810D9; 0x775BF4EA667B2; 0x28F630F480B2A; 0x541E49B3C2921]];
  [[0xC2316D694346; 0x6BB5D8DD7AC20; 0x544BA02C52F67; 0x1A8380E0C329B; 0x6254291B6D56];
   [0x23469E53DE6A0; 0x67B362FC9815B; 0x78587A6ABE2A0; 0x1E2DDC24C52FB; 0x2969D891424B8]];
  [[0xDD3BE38C271BD; 0x8AADD395B9D4; 0x41097DCD173B3; 0x377212B3119E9; 0xE67BF82272D5];
   [0x6E0BB94CF58AC; 0x408F1A38E35FD; 0x29EF91D563A40; 0x56766929B4B6C; 0x5C011DCB741EA]];
  [[0x4D1781BD13FD0; 0x4CE399554755; 0x3A691DA00B124; 0x7283232CCD5CF; 0x52A1AF5A0D851];
   [0x7BEE24A3684D7; 0x5652266B2A4B5; 0x289E5435AFE4; 0x15FEFBEE25260; 0x7347EAFAF74A5]]];
 [[[0xC05E66D978880; 0x25A3CB58DEACC; 0x220AB73235F4C; 0x490D8F0DF59E2; 0x7C69489BD76E1];
   [0xDBD924D1922F1; 0x5833BE28C2F2F; 0x35B00E5DE675F; 0x2F1B35D5A7675; 0x4858F6235F10C]];
  [[0x2A925A417EA11; 0x56E31BC4D175E; 0x38E61D9A3B411; 0x3812AC6AEFFE2; 0x228B12A98C126];
   [0xA7B3E73B423B7; 0x66CCB2668379B; 0x65B91202BD9C8; 0x29ED3BE98ABF3; 0x273C6405F5146]];
  [[0x5C609D0B22D03; 0xE2D4E998729A; 0x4FCCD77C349D1; 0x61B1D24B06088; 0x4891488BBB2D2];
   [0xD2AE5BCA0967E; 0x50335CABFCB67; 0xDDE04AEEADB4; 0x28AEBB9AD957F; 0x4D067C74CCBC3]];
  [[0xDA73F6F1AECD9; 0x79BFF45612FC1; 0x51867E472C99F; 0x1A560565247F0; 0x5BED5F4CEB10A];
   [0xC2D41FFEE613B; 0x48CDF00CF0891; 0x5E4502AA3852C; 0x656DF596B0089; 0x58D53AE7B7AC]];
  [[0x5633B9B0B6527; 0x2F32BC7DCAE54; 0x50DF012CC4A7F; 0x1DC2DC80CAF77; 0x1CC28BCE8B4B0];
   [0x352FCCCD0A46D; 0x20A7D1A52DB7F; 0x3E924D7CB5F73; 0x5E0F520791FAC; 0x6FBACACFAA219]];
  [[0x7DD39E4996ED6; 0x285231A44D102; 0x2FEC0C9BAA76E; 0x1D126BB5F5562; 0x720EC42A4351F];
   [0x2C4D634B2D745; 0x7FFF3E43B229C; 0x3A4E652046B82; 0x7FDDB53AF519; 0x3FD6A967B2866]];
  [[0xDF55AD8667E0F; 0x473081C72AAFB; 0x2E3E9DD231D51; 0x638B70AA3F97; 0x19AE4400E8136];
   [0xE28055BC46447; 0x760478B05575; 0x5AA7505F4850B; 0x5BA7632BE614C; 0x4C7DEAF3BFA9E]];
  [[0xF0AA2A3AA87C8; 0x19FBB01D0DFF; 0x6DE474AD0CB2C; 0x1B2D3AFEE81F5; 0x4B057E9DF9F8F];
   [0x8A62F51812859; 0x96944166A90E; 0x6E95AB6851BA6; 0x55E80DE3635DA; 0x7F910349B50D7]];
  [[0x24BD4E9A47A8; 0x44E53AC4823A9; 0x60A0B2A2844E1; 0x6CA7FA0EC1AB9; 0x79DBC726A893E];
   [0x2ECBD617D4BFD; 0xED06A79CD79B; 0x1128125B8C751; 0x1A3CDAF24D9F6; 0x76D2644374FB2]];
  [[0xBB495334D6735; 0x48E4E318D35A5; 0x65CCC9FD612CE; 0x48647BF9AD225; 0x1F308CFFC4D92];
   [0x993066FB5CA15; 0x1024A9DBAAA76; 0x1D8206F56BB3E; 0x791789CB797FC; 0x28DAF3708084C]];
  [[0x5F4D6A2BB2865; 0x411783ABFEAA9; 0x285FE4D07FDEA; 0x12C2888BBAB91; 0x2F0D1613CBFEA];
   [0x761DD1F118DE4; 0x77D77CAB21417; 0x104DF213824A8; 0x19BDCA8BF3BBE; 0x228E1468298F4]];
  [[0xAD4D25721FB0D; 0x5BBEC9D9B8FCB; 0x6F18917A24A9; 0x1AF194E249824; 0x1C1D002C78C5F];
   [0x5FCEA6541A6D3; 0x12B0A3891C25A; 0x1CA915EF579A4; 0x6A1530D0CA296; 0x405353E349C62]];
  [[0x7DD87797327CF; 0x49A24A1519C3D; 0x7E2D3194C7738; 0x4ADE201A4F2B4; 0x5F03F2024D796];
   [0x3A8A2BF24065F; 0x28B98E4E34848; 0x6CCE4BE857549; 0x1BFEA602C4AB8; 0x57C821F831EFA]];
  [[0x117A2CF6FB17; 0x3D763A3738149; 0x74936049CAC1E; 0x7F5A417605453; 0x3C597E1AF5EA2];
   [0x3FBDD76DC1695; 0x3C1FDAC636FA3; 0x2045F1403CA79; 0x34AEC03F7A823; 0x862068283073]];
  [[0x78F961971E1BB; 0x7027C711936C2; 0x69D7EBBB0EDBC; 0x2680D032F1C61; 0x615B3503A9F8A];
   [0xBC2A332182D40; 0x706CF8E7CBE3C; 0x4537D7373214F; 0x2F1C7690B885E; 0x22B7364CF32E1]];
  [[0x62087435B3F31; 0x7EA9C3772E730; 0x6CBD6A025839C; 0x2E4060C1FA411; 0x13A216F147ECC];
   [0x8E787A8F7310F; 0x7C9628A16653F; 0x4B18B674CF1D2; 0x42C9C4340922B; 0x12DD24A757E97]]];
 [[[0xD0DAB38BAC990; 0x14AB1DE778BDD; 0x44AAC030B8EE5; 0x35662B41D1CA8; 0x3E1B41627AA05];
   [0x93D56AB528772; 0x56A1F801B8BDD; 0x2395FB846157; 0x55F0166143AAB; 0x138392048CE38]];
  [[0x629076955EF18; 0x1F5903EDC6036; 0x3B60DF38E1955; 0x7D3533D1A0956; 0x616E9E879B346];
   [0xCC4D2E5A62590; 0x8DF009361C78; 0x60924BE5F5C3F; 0x5698777D3EB64; 0xBD31C925896B]];
  [[0xCAF98364436A6; 0x1984F8F41D0B8; 0x6839D748040E7; 0x3647A88D1C1; 0x4C9A82C439698];
   [0x9F1BB2D35D65D; 0x656D1E3913D0B; 0x25D8A8DB01F82; 0x716C168BA26FC; 0x5F7EAE6DA00DF]];
  [[0x6900AF557123B; 0x48AD482A31C95; 0x224E02FA0D5A3; 0x49F121BC5BB9C; 0x2819539DBCC91];
   [0x52AA36806E6D3; 0x75D00DA560416; 0x20C8D5835B70C; 0x42F7FCE2FDE3F; 0x18D1671FEA942]];
  [[0x126788DAF932F; 0x1A2486598E1EB; 0x1FA9390F89087; 0x465B8FBA99789; 0x1391087EBF066];
   [0xD560B9EBE0A12; 0x45DF4FD156260; 0x4C0F5BB97F89C; 0xC02D902AD41; 0x6D6ABD8B710CB]];
  [[0x240C819BE997B; 0x79702659A3FCC; 0x38FF0842940FF; 0x3BE2FC37F5DD7; 0x55903D1BF4D50];
   [0xF7788BBCF7C69; 0x314F86B17508B; 0x759BA40AAA5DE; 0x8F55D89B53DA; 0x40CD6FEF17AC]];
  [[0xBCF2803B34AFC; 0x15BCEC54183DB; 0xE63B583C38D3; 0x543CEC0DD9AC8; 0x6DCA0EDABDF99];
   [0x6AD8FCA4B7A84; 0xECF4C9B4756; 0x2EA049D3C90F8; 0x434F3AFA9C904; 0x5BB44FDA046A9]];
  [[0x456FFF38CE9AA; 0x7628838C3FB34; 0x47DEFE5F449AB; 0x2EBE6BAC977B1; 0x2629151FD158];
   [0x56D1807A2F107; 0x37D8DA4EE56AD; 0x64130E6C56675; 0x59823CCD4BAE; 0x351D4561A3074]];
  [[0xD0D5151460DBA; 0x41AAD3DC6D3F7; 0x30392B1D25432; 0xEC685A8F63C0; 0x41E76ED18C1CB];
   [0xDC86815DBE186; 0x1744C18B22C78; 0x7FFF9EFE95AD9; 0x5EE221F3A7F26; 0x2ED76DDD0673C]];
  [[0xBE8E0AEDD873D; 0x5C21AD1208B00; 0xC2B71802C36; 0x3CEE802954BF7; 0x212A13C9706C1];
   [0xC1F2261D59FF3; 0x5FE776BC7F5CB; 0x52FBD0C5EC34E; 0x431CC02ACD223; 0x24D9DB51E1E1F]];
  [[0x2C7CAE989C78A; 0x53B83FF5723A2; 0x8A8E6302E842; 0x28299A28F9921; 0x4216EE9364122];
   [0xC023A772C47B9; 0x773C2D287BB4D; 0x6DA1F1AA10221; 0x3A3241B2B09FC; 0x8CDE7A649B22]];
  [[0x7450C29EBCF74; 0x4439DBEEB77A6; 0x343C10D713C0F; 0x59B68D7FEB70F; 0x34672B08F9529];
   [0xEB776F7FE244B; 0xA1574415007C; 0x2E545671DDCC2; 0xC8F00787B92C; 0x4CCFCC6C1C843]];
  [[0x752C74FA6089E; 0x43769AF9D8146; 0x76A2097C10ACD; 0x21E5FD7934DFC; 0x44CD453C591F0];
   [0x5D742FEFE529A; 0x52812A2132236; 0x63A0FF82BAAA3; 0x3821492FA5799; 0x6C3D3D91E5995]];
  [[0x7F5965BB5061A; 0x33DD3B61A3ACD; 0xED9A94EAF477; 0x5E2154735C2D; 0x310C8E2DC1FA9];
   [0x9C12CA0FAB3FE; 0x645039E999A55; 0x27E092D9877A3; 0x234C26B632A1C; 0x1112B3978BBB5]];
  [[0x643EF08EEDFDA; 0x41557FC7F909E; 0x7D194BE89C579; 0x13E7D0EB4169D; 0x68C97C0B130AB];
   [0x5670E75F30FC3; 0x12ABE1F6F59DB; 0x31C4929892E23; 0x67C5926EE61D5; 0x5EA09499EB737]];
  [[0x68E5711D3CC63; 0x355284FF4EE0B; 0x2ED6C094527F4; 0x18FD4F583BBBD; 0x7E732542EB790];
   [0xFBD7D6A2B1252; 0xD8B42A24E7BC; 0x64FE14876840C; 0x128C33F1AE9C6; 0x47654D530ABA4]]];
 [[[0x3BD937849F59D; 0x63606C7698D1; 0x54B2A0FD2FD04; 0x29E53F79F11A6; 0x555BAED07F9C6];
   [0x2D0A2306D73CE; 0x29DFF85DCB561; 0xC1C9000DBCD2; 0x21A0F680519E0; 0x1BC10E993DB9]];
  [[0x10A2BB8D581B9; 0x43123D8B4D328; 0x3D3F6518C92CF; 0x5EF4037756EF4; 0x23620C43DD673];
   [0x758B33A3A641C; 0x201801C92394E; 0x7381BD7F0EF26; 0x7C1BDA98CF272; 0x446E3CF2318B9]];
  [[0xCAA4017FCF7B6; 0x5167AEA33B820; 0x455C15B6B0603; 0x3795DAA8317AF; 0xA7CFFBD6A356];
   [0xCDF21A7146CD4; 0x5D9C22C0B9910; 0x21D488F79ACFF; 0x5857D2A8817A3; 0x418B1F899B332]];
  [[0xF3021477826E7; 0x1E04BD00E11CF; 0x6EA82EE2CF354; 0x576E72ADFAF95; 0x1D0D5496B0BCA];
   [0xD490F0DD8482A; 0x49D8CFF1AC3F4; 0x3460BFA5563D1; 0x55034532A88B0; 0x6A47213652104]];
  [[0x11F911810E70C; 0x2D6B48D33D172; 0x34AB16D9AF3D1; 0x561679C3033DD; 0x357CCE137A82D];
   [0xB31F0EF17F79E; 0x6EA6CD3094B9C; 0xB35F3599DBB1; 0x7F52CCB68649E; 0x5046AE5A46633]];
  [[0x6B212836316B9; 0x55299B1C49A9A; 0x705EEFD2620E8; 0x46DC053B6EE87; 0x7030884C7FF32];
   [0x6B7B8E9DC79C4; 0x13A8B2116229F; 0x4292D01383268; 0x265411FE1DFD7; 0x51B40396F7F2D]];
  [[0x46D30B8D0B765; 0x447051A08754C; 0x2C393E136A77; 0x92C51BEF8B5B; 0x72A82D90D0C54];
   [0xE14BC9577FA35; 0x2613D84E90001; 0x7DCD817FC6B73; 0x4CCB07A61114E; 0x128DDAE580395]];
  [[0xA65F62B5B469; 0x1449CDF3BA068; 0x2B322E44F8B5C; 0x637CD9DAA7CD9; 0x2826D20F6B6E0];
   [0x935F7AE7CE72C; 0x427C2F3C89114; 0x2BC82197EEC1E; 0x1D3AD81C2BB09; 0x113864CB480E5]];
  [[0xDF31256D0FA32; 0x658162F4C433B; 0x357078BBD48E7; 0x5D6C0B50101C9; 0x7F2F4FDFD19FA];
   [0x8F60FFAC3108A; 0x301C7448AFA71; 0x15EB2F2A78BEF; 0x17F839739C650; 0xC63A5C9B4465]];
  [[0xD2864DE66EFDB; 0x19367AA93908D; 0x42D4DF0EA2C9B; 0x63DABB09387B7; 0x41D7E1B815D0C];
   [0x94DF2A88CE7E3; 0x3E4681539CE25; 0x65386E54F328E; 0x45204F7EB68FF; 0x152316128558C]];
  [[0x85DD706DFBF1A; 0x1CD3A8A2F3283; 0x389177C3B129F; 0x266A3AF43485D; 0x4343000537F1E];
   [0x4EDE550CB3A82; 0x7920ADCB60EE2; 0x508D86EC186E3; 0x459BB98AE049A; 0x3C8621E0C7957]];
  [[0x3F7B355181E78; 0x34B66A3DA0C48; 0x75B38F80B96F; 0x1E51DE76B5138; 0x24C9C3D9E4494];
   [0x3623DEB850A90; 0x4C35B7E8127CD; 0x657A5BF58646C; 0x5C440DB594283; 0x49678D88DAA4E]];
  [[0xF586E6CF04B0C; 0x56B294784ED4; 0x6ACFA4C41FBCA; 0xF85BA1E98BC9; 0x7BE95FD49B8CB];
   [0xC7F0AEF19999C; 0x710B40227E43B; 0x5D2D5948B666C; 0x7C2DEF57822E5; 0x5E9DD0BCA2B4C]];
  [[0x4CD7C5A1F0474; 0x703184E03D953; 0x8847256A3A0A; 0x23256A8F362CE; 0x6FA0A053C19F6];
   [0x4FDA4EC4F6E5A; 0xEAAF716D7474; 0x31B1D9BEEA00A; 0x6E77CC7B43BEA; 0x68B7FE52A5418]];
  [[0x182C3893C913F; 0x5BD035564DDCE; 0xEFB789EEEA1D; 0x2FD7231BCE945; 0x1E172F821BFD8];
   [0xB79C4B183EE97; 0x5AA4E66EB8680; 0x3F0999EA39964; 0x4CCC4C10842F5; 0x1D9639116EB1B]];
  [[0x1F4CFF4A6524D; 0x77A87CA5D36AB; 0x79C9CFA901FD4; 0x7141692444638; 0x50A52B8F11178];
   [0x606812D21A754; 0x6CCE87ECEFD; 0x70CF16EA53DB0; 0x64231A76B8461; 0x1CE749122C65F]]];
 [[[0x7BB82D3C5B684; 0x665B3553FDD82; 0x622B712414BE5; 0x68A66023FD004; 0x2C4F1C507E8E9];
   [0x67B5C49251A27; 0x767A5FEFDECEA; 0x6D5127E924F9E; 0x1FAEF3DFFBBB1; 0x43D69E32FAD1C]];
  [[0x34E704BF54825; 0x49BDB19E6DC0E; 0x7F28264FB6501; 0x38880B959C688; 0x4F0A3D37E757E];
   [0x3CAC81F94C40C; 0x58393688FFF80; 0x347B9E5A5C961; 0x7E8D8D772B424; 0x6C42A57B3ABF7]];
  [[0x97FC2E68C8CCF; 0x475CEE29F1E8F; 0x298E28356667E; 0x949DE8DE0D9F; 0x11BD78F109CE1];
   [0x9593D9CE46006; 0x57E6F9033002A; 0x5DEF40003F782; 0x18A1E90F301F2; 0x1C9DF45910326]];
  [[0xC11204B142486; 0x1DE83CFF6A309; 0x28E98BD4FBE39; 0x7FF81C2722301; 0x4E8EC07E39C5C];
   [0x1EACFEACEA3A2; 0x121B16B6B2243; 0x28A37B9BD6CDB; 0x21A158458C7AE; 0x633B208185C49]];
  [[0xEFDE020DF8D9; 0x3D774591FDE3B; 0x7A513E2E25CA3; 0x5E307A27F1A86; 0x526839795FF69];
   [0x5D1C8482D8549; 0x6DFD24C6F2ED5; 0x3185AD6610EDB; 0x11600733CB20B; 0x561D0593758D]];
  [[0xE7303812E9251; 0x60FAA9640AC68; 0x6990E9E84EAAB; 0x13205597A21E0; 0x1B36994783E3B];
   [0x5F117AC96FFD5; 0x726340518125B; 0xB4C646458726; 0x30611FCE4A03F; 0x24DA1C03F5846]];
  [[0xA7E110A8A2315; 0x7B5EFABE2F3DF; 0x6DCE7CEBCDB02; 0x58F4E8DC9C7E1; 0x7EF25DE94461B];
   [0xA9AD49C0F6E54; 0x3CBF884AA9599; 0x6A88C60115D4E; 0x2C8D6CB6A4B63; 0x5526619B4F14F]];
  [[0xA7E10BA3F6E66; 0x4F52AE281A0EC; 0x3476B97096769; 0x11AD428A9FA42; 0x2B4544F28575F];
   [0x6446F85BE14E9; 0x1E6FBEEDFAD52; 0x581F0641BDAA7; 0x6637991AE7F02; 0x27E73BCC450A7]];
  [[0x4837DF05B910E; 0x2779AC207231D; 0x5394BB62F9685; 0x6AC7DB912D183; 0x6DB2D56A1A285];
   [0x50EB1AA8E171C; 0x6CB734D7871D7; 0x3489E3A49926A; 0x7A7AF3C7269B9; 0x506FB61E5D9D0]];
  [[0xD3E9FBCB8E76E; 0x6BC0CE3973127; 0x3FEA5962A9166; 0x10E5CB8B98D3B; 0x3D71F40DFE3FD];
   [0x66B6980E59640; 0x4772E1BF69616; 0x382F325F1D096; 0xE79B55D3B181; 0xE77D96C328F4]];
  [[0x349B94216387D; 0x4B7A80220D9FD; 0x6912F408CE0C6; 0x539E83F596047; 0x4834100723280];
   [0xC9832C2F9A7EC; 0x48534033E2CC1; 0x52157F1129FA5; 0x32B2C4930BA32; 0x7D34399534663]];
  [[0xC589FC644CABA; 0x3362B2512BAEF; 0x746159FCE3F0; 0x40AAF0341039E; 0x6BAFD459922FC];
   [0xA089C7902EF38; 0x7C692F2F9CE42; 0x26F314BA444B4; 0x70534A8C26791; 0x6A5CF6D52A467]];
  [[0x15CB92041529B; 0x49F22868AF3D0; 0x5F3105D324FC9; 0x1AB468A5313F8; 0x73BCEBFF704D3];
   [0xCFCBCD02F5CBC; 0x766C24804981A; 0x181E80B278C77; 0x6CB8FBE114DA9; 0x57C201DD17423]];
  [[0x47BCA3EF2D278; 0x9EAE1A7C039D; 0x1EEDA0A098A7E; 0x3B5B1C05F89EE; 0x5D3332A3A6013];
   [0x6490FECA06CF9; 0x3EE7D19213955; 0xA5B59824F8E4; 0x4F3FDCFB627E2; 0x56F87225E3ED3]];
  [[0x1B52B2B0F1BD; 0x1AAD95A0BF6D7; 0x529216F79E19E; 0x14CF4A2BF207B; 0x236F709D78288];
   [0xEED40ABFA1D8C; 0x6115A9FA586E3; 0x5AE4248864CF2; 0x343CBDCFD5D69; 0x55F0CDAC28BE]];
  [[0x94B3C9C54CAB; 0x34BE83CF2DCAA; 0x798965804267E; 0x1968C2A055D56; 0x729AD776CB05C];
   [0x8022B51AE8A66; 0x4CB32422B0432; 0x69790787ABB62; 0x2F124051391FC; 0x3C38C28CBE53C]]]].
(** lines 5528-7998 *)
Definition lut_A_32 : list (list (list (list int))) := [
 [[[0x1; 0x0; 0x0; 0x0; 0x0; 0x0; 0x0; 0x0; 0x0; 0x0; 0x0];
   [0x9F1E14; 0x499C9E; 0x624559; 0x7C8F8E; 0x253CB7; 0x5BB1A9; 0x2453F2; 0xFBEA0B; 0x139B44; 0x1C7826; 0x46C8F2]];
  [[0xE38D2C; 0x638E38; 0x471C71; 0x8E38E3; 0xE38E3; 0x1C71C7; 0x38E38E; 0x71C71C; 0x71C71C; 0x638E38; 0x471C71];
   [0x788A51; 0x17796B; 0x5090C2; 0xE1DA3; 0x1EA532; 0x6C1093; 0x507A6C; 0x9B375E; 0x76083A; 0x72A688; 0x3B5E68]];
  [[0x72C029; 0x1C3871; 0x6DE040; 0xE6D223; 0x35AD09; 0x78D2C5; 0x4B6782; 0x6D32D1; 0x1D2C78; 0xF861E; 0x483B00];
   [0x8D7CC0; 0x23B06; 0x30EC69; 0xFF4DED; 0x2EE231; 0x6412C7; 0x5AF3F6; 0x435452; 0x4E9C3; 0x6B9475; 0x484B93]];
  [[0x196EE1; 0x6A01E4; 0x652F51; 0x416FD6; 0x5EBCD2; 0x71846F; 0x36FA23; 0xD73EBD; 0x180C14; 0x653358; 0x17EEC8];
   [0x125FB; 0x410C4D; 0x74C481; 0x2A7CFC; 0x65AC08; 0xF3BD1; 0x4A5388; 0xB7149E; 0x85C10; 0x54C612; 0xE3FA5]];
  [[0x5ECDA3; 0x246227; 0x16E04F; 0x5C37F; 0x442C63; 0x1D5B95; 0x57520F; 0x792514; 0x3FB8FA; 0x37B8D0; 0x5B7CB0];
   [0x5ED26A; 0x28AD39; 0x4E2D06; 0xBDC2A3; 0x52BE72; 0x2F9991; 0x19C7FC; 0x209BD7; 0x7BF20C; 0x5196B4; 0x69DFB4]];
  [[0x834086; 0x2F3D1A; 0x7690A4; 0xB28D88; 0x22B907; 0x25F98C; 0x23F3A1; 0xE2E9F9; 0x3A0364; 0x613CE7; 0x31EE39];
   [0xC2FF84; 0x3F08BB; 0x16B10A; 0x1D9E58; 0x1AA31A; 0x16B57C; 0x2724AF; 0x1CEDB4; 0xF8812; 0x14C068; 0x64070B]];
  [[0xBBCCCD; 0x2E8F3C; 0x54B6AC; 0xFD3BBE; 0x13312F; 0x6A114E; 0xF7610; 0xA85A6C; 0x73D230; 0x1AE5A6; 0x28C30C];
   [0xC26CB2; 0x6BBD29; 0x24F433; 0xBE725E; 0x1ECBEE; 0x646D3C; 0x15C789; 0xB07720; 0x30D220; 0x45843E; 0x1EADEA]];
  [[0x7C58E2; 0x52800F; 0x2F9F17; 0x83F230; 0x4207AA; 0x4B8493; 0x33495B; 0x1061BD; 0x57D115; 0x5F83CA; 0x51583F];
   [0xB12811; 0x705E55; 0x48A034; 0xC9201A; 0x60E5DF; 0x6C7FE0; 0x500B66; 0xA91FBD; 0x1CFF16; 0x66C372; 0x2B561]];
  [[0x39A634; 0x50548C; 0x5CFE7B; 0x723488; 0x6CDBF9; 0x6D4A7E; 0x107BD7; 0xD87870; 0x6FFF35; 0x47470D; 0x1D44AD];
   [0x51071C; 0xFACA; 0x4AB290; 0xD72DA0; 0xE946D; 0x154920; 0xDE920; 0x2CCC50; 0x78FF60; 0x76A2F6; 0x418509]];
  [[0xEF5595; 0x116786; 0x615EC8; 0x727C29; 0x21D6BF; 0x727880; 0x25C9C9; 0x31B0B0; 0x2CACE7; 0x3C8E5C; 0x2C31D8];
   [0x328440; 0x485469; 0x6AE670; 0x6EE53F; 0x299C43; 0x5AD41; 0xD8C3F; 0x72A91; 0x67D0E1; 0x4B76E9; 0x74B00D]];
  [[0x41497; 0x1E11C9; 0x1A4504; 0x2A7919; 0x74B21; 0x4FA67F; 0x4DC6B; 0xF2C95C; 0x39BDCC; 0x7A64EC; 0x5F3E5D];
   [0x9C53EC; 0x69BDE1; 0x7E0626; 0x42ED13; 0x62AFB2; 0x31E908; 0x3C5398; 0x6BE167; 0x2399E; 0x210E43; 0x1779F]];
  [[0xC84A66; 0x444B2F; 0x108CC; 0x36EEF4; 0x681F17; 0x165962; 0x4C1DBC; 0x3AFD47; 0x3B7CE0; 0x37AD5F; 0x4C55A7];
   [0xC53CD0; 0x2E065E; 0x2B7D3; 0xA10201; 0x174A99; 0x365939; 0x1F2D54; 0x806C0; 0x39185C; 0x1C4B; 0x415674]];
  [[0x8B07C5; 0x7D1002; 0x12AE3E; 0x2C420C; 0x470873; 0x339263; 0x6C2C6C; 0x2D1BB6; 0x72A553; 0x306BCE; 0x7F4C6];
   [0xB6438D; 0x7278A9; 0x76463F; 0xD03F8A; 0x332938; 0x1C7585; 0x874CF; 0xCEDF11; 0x432AA3; 0x59DEAB; 0x5C130A]];
  [[0xB53E9C; 0x6388B4; 0x428F8; 0x8A18A; 0xEB210; 0x3361E6; 0x6528B; 0xA1AD62; 0x5BD8BC; 0xD44E3; 0x18CEE3];
   [0xEC3379; 0x2B9AD0; 0x3D2CC1; 0xA04547; 0x600394; 0x240EC9; 0xCF8E5; 0xDE5CA1; 0x107147; 0x3B518C; 0x60976D]];
  [[0x685C39; 0x577EB1; 0x2AA0AD; 0xE3B804; 0x3082F3; 0x2C92AC; 0x207C69; 0x658635; 0x670DA3; 0x6A6A4; 0x2AF849];
   [0x5760A; 0x6E3A33; 0x629DCA; 0xD8388A; 0x7C1F0E; 0x121173; 0x2A0106; 0x607836; 0x71EB45; 0x749724; 0x722A37]];
  [[0xDB7020; 0x5F6FEC; 0x1C894; 0xD0F9D5; 0x45FD0A; 0x2C8167; 0x995E9; 0xC5F645; 0x2318F0; 0x77F38B; 0x580E22];
   [0x3C5516; 0x35DF1; 0x592BC6; 0xA625DD; 0x2295A0; 0x60337A; 0x21824B; 0xC51AB1; 0x14C123; 0x7703F3; 0x2945A3]]];
 [[[0x15A14B; 0x2339F9; 0x5304AB; 0x75CCEE; 0x194DC5; 0x4A8A9E; 0x46D1D2; 0x75C952; 0x7ED8B2; 0x58732; 0x45D9A3];
   [0xE6BE0F; 0x5D23F0; 0x5D9FF5; 0xC7E802; 0x10C909; 0x207ED0; 0x66F794; 0xD9AFE4; 0x7DA500; 0x7B21FF; 0x58D1D8]];
  [[0x7DD1B7; 0xA4C87; 0x5506F4; 0xD63219; 0x657A0A; 0x7F79A5; 0x3CA588; 0xFF7B22; 0x2E92EA; 0x30699F; 0x28801D];
   [0x171DE8; 0x74AA40; 0x776396; 0xB6039; 0x477A52; 0x552FC4; 0x4CB63D; 0x1F4555; 0x762774; 0x404FD4; 0x1F0E12]];
  [[0x2131C9; 0x6A9CFB; 0x23C4EC; 0xE6D39F; 0x185E55; 0x32F173; 0x5E6019; 0xA7E72E; 0x6D091C; 0x2967FD; 0x2B5D44];
   [0xC01BA9; 0x24C542; 0x765B4D; 0x61291A; 0x20B694; 0x12B204; 0x6C029A; 0x880C16; 0x87D31; 0x13494A; 0x5AC30]];
  [[0x248E22; 0x1D20E0; 0x7970A3; 0x8D530E; 0x69D972; 0x36B6B2; 0x23944A; 0x9283D0; 0x413B7A; 0x26DA72; 0x61243F];
   [0x8FAB34; 0x5F4AF0; 0x19759F; 0x41583F; 0x723D0D; 0x49EF5D; 0x37ED96; 0xD94167; 0x25C5F0; 0x54670B; 0x645850]];
  [[0x78486C; 0x68A7C1; 0x4E518A; 0xB42004; 0x57227C; 0x378DB2; 0x6EC201; 0x6E95D7; 0x3784DB; 0x913EC; 0x68F117];
   [0x89EA5B; 0x279A8; 0x1FE8CD; 0xBDCFEF; 0x29CFB8; 0x609772; 0x1D36D2; 0xBC3D3D; 0x1D2878; 0x1A10E1; 0x10462]];
  [[0xB52308; 0x4A1DF4; 0x79CB16; 0xDC0E0E; 0x3932DF; 0x5103E4; 0x29ADA5; 0x7319A2; 0x426FF0; 0x588A4E; 0x3F78AD];
   [0xF1B775; 0x6E5A5C; 0x219FCB; 0x8CA19; 0x1D9BBA; 0x75F3B0; 0x78E9ED; 0x9E41; 0x3356B2; 0x2C0425; 0x3BAECE]];
  [[0xFD3BB1; 0x535E55; 0x9A346; 0xA8E2F4; 0x6F6486; 0x71D282; 0x3A985D; 0xA34D18; 0x606B28; 0x9AEC; 0x2BEEBF];
   [0x3780DD; 0x647EA6; 0x47B1F7; 0x598C39; 0x3BFDE6; 0x6C0B48; 0x121EB8; 0x85DBF8; 0x6F9773; 0x1528FB; 0x3A0C5]];
  [[0x94B350; 0x522DB1; 0x58D9C; 0x8A9662; 0x2E184D; 0x7814B1; 0x36D84; 0x594040; 0x716935; 0x18DEEE; 0x1E2219];
   [0x6F259; 0x772E6A; 0x246188; 0x1EC5E7; 0x2939F4; 0xFF055; 0x1978F0; 0x3F6DAF; 0xA7BBD; 0x1A6FAF; 0x510C0C]];
  [[0x48904F; 0x7224FF; 0x65BAA9; 0xD3551; 0x4DA721; 0x39A0B4; 0x2BE76F; 0x9B9E20; 0x2504DD; 0x6944BD; 0x24DAA1];
   [0x542F7C; 0x1D4977; 0x1576A4; 0x6672BC; 0x7DBD1; 0x220087; 0x44AC5F; 0xE1DAAD; 0x221046; 0x42A0F3; 0x52C47E]];
  [[0xAA4EC9; 0xC5256; 0x1D2108; 0x7E3C18; 0x57CD05; 0x6A2DDB; 0x70D402; 0x46F4C8; 0x70C39D; 0x2BCDE; 0x386C4A];
   [0x596D94; 0x7774AE; 0x33D8A2; 0xB48B39; 0x55B5DB; 0x4A739E; 0x601AF6; 0x17C86B; 0x33581B; 0x13A82F; 0x2F7045]];
  [[0xEA0CB5; 0x4F13CE; 0x6F865F; 0xC4AAF7; 0x456660; 0x600B98; 0x79C3AB; 0x27D7D2; 0x26486E; 0x8FEAF; 0x2F5742];
   [0xB8102B; 0x60FD3D; 0x2D073F; 0x39E77D; 0x2DC294; 0x151AB7; 0x1413CF; 0x3AAF36; 0x34A2D1; 0x2844E0; 0x1190CE]];
  [[0xED50BF; 0x3D775D; 0x533D3C; 0x4B2DDC; 0x762EB4; 0x60B90F; 0x3045DA; 0x95C306; 0x44062C; 0x4DB392; 0x658071];
   [0x30AE7B; 0x7AE99B; 0x6CD461; 0xCDBC52; 0x7E2103; 0x19AC77; 0x5D4D8D; 0xBFC271; 0x37F336; 0x60EDFB; 0x247DD6]];
  [[0x16BAED; 0x616D44; 0x4BF21B; 0x96D55E; 0x125FC; 0x65EA64; 0x6B4BA0; 0x58D872; 0x47273B; 0x413B44; 0x7C3B0A];
   [0x53BB34; 0x73F0D7; 0xE175F; 0x1C2578; 0x7D3B2F; 0x12C2C4; 0x706D71; 0xC9BC8D; 0x499E9A; 0x531428; 0x4A5C64]];
  [[0x37863B; 0x79BA1D; 0x1CF74C; 0x22EB4F; 0x39A1FA; 0x5AFECB; 0x1FF42; 0x9EBF05; 0x3094C5; 0x3DA3F3; 0x648DA8];
   [0x706E8B; 0x116614; 0x662488; 0x20E858; 0x3042E0; 0x5598A9; 0x51A013; 0x96F0CF; 0x26D7C9; 0x1297CB; 0x325815]];
  [[0xA6A2F2; 0x431F85; 0x6A358E; 0xD9BD37; 0x3DDAF8; 0xFF3E4; 0x56803F; 0x50FB50; 0x68CD30; 0x242AA9; 0x5D281D];
   [0x7C121; 0x6E657D; 0x3FE75; 0xB805F3; 0x4C976D; 0x5039AB; 0x11443E; 0xF0A01C; 0x648859; 0x5F1033; 0x7B4C48]];
  [[0x793170; 0x6DBF68; 0x7D1F25; 0xF0D9B4; 0x59CB0C; 0x2BAA82; 0x516CAA; 0x55BA64; 0x14BA02; 0x6986E0; 0x5D492D];
   [0x25053F; 0x643229; 0x72934C; 0xFF2EFA; 0x75BD10; 0xEE1B5; 0x75A5E1; 0x8B7B93; 0x1D5824; 0x2F28AB; 0x762FF8]]];
 [[[0x46367E; 0x56A682; 0x430EB2; 0x25F7A6; 0x62DE86; 0x33FEF2; 0x156E4E; 0x2BFC59; 0x38721; 0x3BE4D8; 0xC9A8];
   [0xE2541C; 0x60B185; 0x124C99; 0x7614C4; 0x4C9BB5; 0x1A2B53; 0x55AB66; 0xB34939; 0x755795; 0x4AE42A; 0x37EE9E]];
  [[0x418B8A; 0x53A329; 0x67F6C0; 0x1B5F25; 0x4F5799; 0x79A7BA; 0x1E9CA; 0x589410; 0x348000; 0x7C467F; 0x68CC15];
   [0xBFD773; 0xB128F; 0x35E63D; 0xC836C1; 0x17BDFE; 0x6CFD71; 0x373B9C; 0x57EAF9; 0x2A01CD; 0x74D14F; 0x721C85]];
  [[0x56BC62; 0xD23A6; 0x78FE76; 0x19A73D; 0x91B6B; 0x5C60B; 0x65104B; 0x65A4B3; 0x5D0C5A; 0x2E8DB5; 0x718081];
   [0xEF69D9; 0x6C1FDD; 0x65A57D; 0xBC2B7B; 0x6DB6EB; 0x1AFD11; 0x605819; 0x8E9270; 0x5C23F4; 0x5067EB; 0x598190]];
  [[0xEF9F96; 0x510C22; 0x1E5EED; 0x3B03E5; 0x5C6020; 0x3C2BB6; 0x35FD52; 0xA6A7F3; 0x128B7; 0x1E45E8; 0x49EFAA];
   [0x6E0992; 0x18EA4E; 0x4761; 0xCFE527; 0x39B16F; 0x17BAE9; 0x57DC05; 0x982F6B; 0x1D3209; 0x19FC51; 0xF4184]];
  [[0x1EBCA4; 0x1ECDDD; 0x9CED1; 0x785BD4; 0x5F74D6; 0x589B35; 0x26267C; 0x3A1A20; 0x148BA6; 0x78BFB; 0x57564D];
   [0x8FB356; 0x195CBB; 0x3A2D22; 0x15DEC8; 0x287F6A; 0x7C4179; 0x78B244; 0x13AE9; 0x4FD9D1; 0x5916FD; 0x7AAB2B]];
  [[0x5AE235; 0x4A7074; 0x6D38A5; 0xA5B778; 0x192A8E; 0x292200; 0x536809; 0xC5FA0A; 0x7335A7; 0x7A9B01; 0x6B8F21];
   [0xFC9D22; 0x5462CC; 0x11E27E; 0xA16304; 0x2252C2; 0x65957; 0xFB44C; 0x507E75; 0x4C7390; 0x2880F2; 0x11F9DC]];
  [[0x8982F2; 0x5E0F01; 0x191A83; 0xB79DFB; 0x14F23A; 0x5BFFB9; 0x679DCA; 0xFDEBA3; 0x7A5C5D; 0x317F01; 0x5F996];
   [0x2F393C; 0x57EA31; 0x41F969; 0x60EB85; 0x18762F; 0x34FF1A; 0x6E4F64; 0xE85223; 0x721BD5; 0x5695D8; 0x735FC8]];
  [[0xFF37D; 0x1EE6D5; 0x59B657; 0x59218D; 0x5D7413; 0x16DC74; 0x245CE2; 0x9176FC; 0x140786; 0x123E16; 0x14C417];
   [0x8C5660; 0x4AB42B; 0x6F788D; 0x4C5639; 0x527C63; 0x76AD8C; 0xE1CD3; 0x905B46; 0x362085; 0x5BCA4; 0x5143C9]];
  [[0x3CB83; 0x303CF6; 0x4A9EA9; 0x45E684; 0x510A34; 0x7BDA22; 0x4947E0; 0x4AE474; 0x566E6; 0x1C9AA5; 0x2791D8];
   [0x8D0BF2; 0x42016F; 0x669D0C; 0x9942A6; 0x694F9B; 0x7DA32E; 0x5BE0ED; 0xCB0DE0; 0x6A8967; 0xAC39B; 0x3B3E68]];
  [[0x60D714; 0x4F6454; 0x61D11; 0xC2AA2D; 0x1269D9; 0x45B4EB; 0x452BA7; 0x1C10D3; 0x468D4A; 0x2EFCCA; 0x6DE69E];
   [0xCCB9AA; 0x5E4AAD; 0x34AB4F; 0x451715; 0x742A4D; 0x54F77E; 0xE11C5; 0x848202; 0x6F4690; 0x429DB2; 0x63397]];
  [[0xE679A9; 0x630F0; 0x54132F; 0x28E457; 0x530D92; 0x2D81BE; 0x6D4DA3; 0xDD8F12; 0x5AEF2B; 0x681D79; 0x4F4E27];
   [0x452CC5; 0x6066A9; 0x586F19; 0xDCA842; 0x3F3915; 0x7F124C; 0x5A982F; 0x232890; 0x6759D7; 0x5451F1; 0x1EBD44]];
  [[0xFA4A07; 0x30B22D; 0x241069; 0xDE41E0; 0x4CE4D7; 0x2D9D3C; 0x1677BA; 0x980ED6; 0x31C47B; 0x2ED227; 0x159AD5];
   [0x89C1F3; 0x64AFBA; 0x29E45B; 0x32AD8; 0x2AB7FA; 0x667A12; 0x57ACD4; 0x6C9B6D; 0x407D38; 0x420BB2; 0x26F2DA]];
  [[0xC85447; 0x186902; 0x714C9C; 0x3E0E1B; 0x79A719; 0x3E4DED; 0x59E9D8; 0xC3AC22; 0x101DB8; 0x79EC05; 0x308946];
   [0x20BFE2; 0x1B1C97; 0x2068FA; 0x318E8; 0x3FA490; 0x71C4A0; 0xD2962; 0x6D6A13; 0xB208C; 0x16C4B8; 0x2FB1EB]];
  [[0xFDDD3; 0xBE560; 0x5F6F50; 0xCBD86E; 0x5F789C; 0x796635; 0x73572E; 0x7EF213; 0x3C20F1; 0x9D905; 0x506CBA];
   [0x53488D; 0x5470BC; 0x356DBF; 0xB92C0A; 0x576D7C; 0x258D40; 0xEC04B; 0x629848; 0x6EFE8C; 0x2F0536; 0x5F0ED9]];
  [[0x941AAB; 0x16408A; 0x38B7B4; 0xD17AD3; 0x20287; 0x3C98C7; 0x7107B0; 0xA47BF6; 0x76D73B; 0xE9DCA; 0x2D0380];
   [0x3E14DB; 0x68545F; 0x293201; 0x41E644; 0x37CC59; 0x64BF44; 0x4AB432; 0x222D96; 0x2A1A68; 0xCA73B; 0x759D]];
  [[0xB27EE6; 0x392FAB; 0x6D1511; 0xDE9390; 0x53DBF3; 0x3F6EED; 0x1782D6; 0x2A6166; 0x4F448D; 0x4D0F3A; 0x7007C7];
   [0xDFE6F7; 0x32099E; 0x729E1F; 0x9F5D6F; 0x3A3D25; 0x4DD691; 0x20FFB0; 0xCCDE9D; 0x75D916; 0x545C21; 0x240E6D]]];
 [[[0x34E1E6; 0x3047D2; 0x6E4485; 0x7D8C36; 0x756414; 0x967CD; 0x4EC80F; 0xC63288; 0x73E0FA; 0x7182FF; 0x263DCE];
   [0x462779; 0x1B3A99; 0x37DBBA; 0xD2FC96; 0x64BB40; 0x7363A7; 0x32772A; 0xD91E04; 0x1007F8; 0xAF4EC; 0x193E0F]];
  [[0xFDE1B6; 0x642789; 0x1A22B; 0x53D392; 0x4F3462; 0x7001C5; 0x3757D1; 0x2FF687; 0x2AD0C5; 0x61905E; 0x32E050];
   [0x586CC6; 0x29644B; 0x1DCCE2; 0x242AD5; 0x3A4D19; 0x7EDFA6; 0x220A76; 0xDD8BD2; 0x3AFB95; 0x6523B5; 0x16D460]];
  [[0x3B3EBD; 0x59FF35; 0x646DFD; 0x1C652B; 0x572E18; 0x7156D0; 0x3125AA; 0x58C8A8; 0x383EFA; 0x270C8A; 0x71DD1];
   [0xE57097; 0x52391E; 0x58A14D; 0x71FABE; 0x14DDAD; 0x583150; 0x6E7A1D; 0x33F6C1; 0x490296; 0x414DE6; 0x7218AF]];
  [[0xF33C1F; 0x125893; 0x4FE3D7; 0xC4A16E; 0x66739E; 0x44B06C; 0x4329B; 0x40B952; 0x3AB3B6; 0x4B9045; 0x70EFC5];
   [0x4A33D; 0x60B5F6; 0x1C92D2; 0x87E4CE; 0x7927E4; 0x687FEB; 0x68424F; 0x6E7721; 0x2CB0FB; 0x3E8D7D; 0x66EEA]];
  [[0x893929; 0x749590; 0x2975; 0x359738; 0x27B81C; 0x7CCA27; 0x424A06; 0x8EAF50; 0x15A2BC; 0x191EEC; 0x5255A];
   [0xF0F1DA; 0x1F6DC; 0x1636C8; 0x12664; 0x26261D; 0x5D425D; 0x4530C6; 0x5C3D03; 0x5543DE; 0x1B43E1; 0x1F7279]];
  [[0x73F26A; 0x68DAE8; 0x721622; 0x2ABFC5; 0x1AEA78; 0x1C317D; 0x57A2CE; 0xD75B07; 0x11544B; 0x6677F4; 0x4FE8D9];
   [0xBD1939; 0x5FA352; 0x4E35F8; 0x2B9D5E; 0x236E36; 0x171F6F; 0x1C64C0; 0x59974C; 0x1A9517; 0xA0D86; 0x2C5844]];
  [[0x8028D2; 0x5696DA; 0x134460; 0xFFF1CA; 0x3E17C7; 0x771795; 0x3731A0; 0x4FFEFA; 0x559D72; 0x69CD38; 0x15F09E];
   [0xC4C3AD; 0x74750B; 0x1D026C; 0x553063; 0x193906; 0x134C7; 0x49B4A1; 0x49D063; 0x3BF10D; 0x67632D; 0x300024]];
  [[0xD77453; 0x3D07C0; 0x19849D; 0xD631D5; 0x652BEF; 0x7E6CDE; 0xD87C3; 0x4951A8; 0x7525CD; 0x71B08E; 0x289648];
   [0xFD0ECE; 0xBB7D1; 0x2C9248; 0x4C6FAB; 0x372A68; 0xEF891; 0x20B4A1; 0xA10A5; 0x6C334E; 0x1CCCB1; 0x379EBC]];
  [[0xD635C8; 0x5DA0CD; 0xCA1CF; 0x9075FE; 0x1864D7; 0x375091; 0x219FB8; 0x7A85A; 0x6F3E1F; 0x391318; 0x247B2A];
   [0x2D9FB; 0x7FD052; 0x2C2377; 0xA71137; 0x21AD82; 0x3DB97F; 0x7E1B6E; 0xC0C7AE; 0x742A7A; 0x24DE99; 0x4E9051]];
  [[0xDADBAE; 0x202B8D; 0x632043; 0x41281C; 0x1EBD2E; 0x7221A9; 0x6395E7; 0x9A072; 0x6E872D; 0x6A1915; 0x538853];
   [0x71C4B; 0x7A19E1; 0x7C2689; 0x7FC063; 0x1C8283; 0x67DED1; 0x667A3F; 0xAF7018; 0x38D342; 0x616D4; 0x23B78B]];
  [[0x2693D0; 0x78F96C; 0x571654; 0x14B152; 0xB8F3A; 0x4480F8; 0x4AA85E; 0xA2071C; 0x5BF5E5; 0x3DF984; 0x290208];
   [0x574625; 0x4E5F90; 0x24BEE7; 0x18C1AA; 0xE42CE; 0x353C8A; 0x40F203; 0x898F9A; 0x3FBFD0; 0x43C31B; 0x4E5E2E]];
  [[0x67D25A; 0x31F139; 0x5BD832; 0x58FC46; 0x2312E5; 0x722F75; 0x300A46; 0xCD2F3; 0x70A1F2; 0x1BBF1B; 0x5DAD68];
   [0x27F5D0; 0xA7235; 0x550E6D; 0x7E271C; 0x3F1A3C; 0x3F545A; 0xF465A; 0x6E0289; 0x8E2B8; 0x5661; 0x7DE299]];
  [[0x548202; 0x281B46; 0x4C8632; 0x8FDE33; 0x254E52; 0x768F00; 0x1C3AD6; 0x2D85C6; 0x187542; 0x5F5A9E; 0x79B908];
   [0xC7C809; 0x1FE799; 0x42AF63; 0x4EE64E; 0x1273EE; 0x609BF2; 0x22BBF9; 0x22DE3E; 0x591E73; 0x4FC701; 0x7E865]];
  [[0x98B574; 0x3DC53F; 0x19A4E6; 0xCBD70F; 0x47B9D0; 0x5579C6; 0x354F41; 0xD2DC50; 0x329B79; 0x24242A; 0x66FBA2];
   [0x85FC08; 0x49ABA0; 0x2CD57; 0x51C421; 0x115DB3; 0x66D6D5; 0x303B94; 0xA604BB; 0x685047; 0x3158DF; 0x7ED9BF]];
  [[0x2AFA23; 0x40ECF5; 0x4AF2B2; 0x326E4C; 0x57D312; 0x6C5108; 0x39F6D7; 0x36F6BA; 0x5598C8; 0x3CB53C; 0x34AA18];
   [0xCF42AB; 0x7A1089; 0x798D02; 0xEA386D; 0x11472E; 0x5332E0; 0x38B97B; 0xAD3634; 0x8C5EB; 0x5BED65; 0x1B9BD]];
  [[0x761113; 0x18F0E8; 0x3FCFC0; 0x15BEF5; 0x2AEA52; 0x396A8E; 0x4C295C; 0x1BAEDF; 0x30D39; 0x5A7E8D; 0x2A1B12];
   [0x5CE5E2; 0x4CFE4B; 0x30A399; 0x40EA7A; 0x7F164F; 0x4DB6D5; 0x686A3B; 0xDBA200; 0x296140; 0x4D478A; 0x6AD41C]]];
 [[[0xB89E8E; 0x2A572E; 0x5B3E1F; 0xE54DD0; 0x162459; 0x27E7ED; 0x5B4CC3; 0xDB4F26; 0x7BE5F3; 0x7C9929; 0x555F44];
   [0xCFD61D; 0x52D610; 0x60404C; 0x3743F5; 0x55514; 0x267D5; 0x6087D4; 0x8C2531; 0x51466E; 0x3C7CCA; 0x5C334A]];
  [[0xE24828; 0x1F7423; 0x7D8091; 0x316505; 0x79C9BB; 0x7F35D0; 0x152C91; 0xE33D9C; 0x52C723; 0x58776C; 0x1FEDFD];
   [0x4E1B6; 0x6EE7E1; 0x72C66F; 0xB26D30; 0x6FB6AE; 0x20B88A; 0x9F8CA; 0xBCD95A; 0x1944E3; 0x7072F6; 0x5A26A1]];
  [[0xF21E4A; 0x39DE0D; 0x2C0B04; 0x42B820; 0x260CE6; 0x469276; 0xEFD81; 0x53E1E3; 0x11D541; 0x3278ED; 0x24190E];
   [0x9C86A2; 0x4CF336; 0x666B88; 0xB34AD6; 0x12660F; 0x4603DC; 0x1C4603; 0xB51A55; 0x32E05; 0x761758; 0x2462A8]];
  [[0xA8C3D3; 0x42BDA6; 0x73898B; 0x9F00CE; 0x6C9105; 0x77CDB6; 0x2CCE5B; 0x17C55E; 0x274A09; 0x61058B; 0x25F3E2];
   [0xC3DB3; 0x6143BB; 0x30EF0F; 0xE06EFA; 0x5B5205; 0x2928C1; 0x11BD1; 0x4BD906; 0x3EA381; 0x5B8BDD; 0x141CF4]];
  [[0xB9F037; 0xEB500; 0x231F4E; 0x9E6670; 0x22155C; 0x5CD76F; 0x777013; 0x1E0C79; 0x4FFBC6; 0x22246A; 0x411134];
   [0xD2A8D9; 0x19D3D6; 0x2D8C16; 0xBFC55D; 0x409145; 0xA3CB7; 0x705773; 0x18E32; 0x2A408A; 0x2439B; 0x585C81]];
  [[0x1B067A; 0x3501B0; 0x6FF5D5; 0x266911; 0x573D9E; 0x4CE3AE; 0x7BD3A7; 0x4986D0; 0x36391A; 0x4E3053; 0x7A996A];
   [0x371080; 0x37E042; 0x2DCB8F; 0xA79F2A; 0xC73DB; 0x7B8926; 0x4BCA76; 0xF1D149; 0x59029B; 0x57F067; 0x6743F9]];
  [[0x939BAE; 0x3B8FB7; 0x2AC961; 0x7D0A3C; 0x112565; 0x15EA2E; 0x5F39D5; 0x8AB56C; 0xE21E3; 0x700E40; 0x394DCD];
   [0x3A2295; 0x27730; 0x48C762; 0x9954A7; 0x7E32DB; 0x43302E; 0x740102; 0x1190E7; 0x27D7B2; 0x5CEE50; 0x7A578D]];
  [[0x8BBA28; 0x4A0FD7; 0x7AC31D; 0x37176E; 0x76A050; 0x40AB46; 0x5F95F7; 0xBE19A; 0x98D24; 0x5A9458; 0xA1117];
   [0xE7EE0C; 0x242C41; 0x23CBF4; 0x1C57A1; 0x3AC093; 0x8AED2; 0x30388D; 0xEC955F; 0x714125; 0x2CEB59; 0x43A695]];
  [[0x78C305; 0x68D7A0; 0x78F31C; 0x2557F3; 0x154BCD; 0xFD4BA; 0x49870F; 0xFD3D6C; 0x4A74E9; 0x73A1EA; 0x712628];
   [0x97A50E; 0x3814D7; 0x1533AE; 0xDC57FF; 0x38CC54; 0x23F786; 0x75EAC5; 0x53BC5A; 0xD1025; 0x352FF8; 0x7BAA67]];
  [[0x4B5256; 0x74BDB3; 0x3A77BB; 0x596C90; 0x5F0076; 0x682016; 0xD8938; 0xEA0E74; 0x385C25; 0x1D6446; 0x7F967C];
   [0xF7351C; 0x5B1299; 0x77959F; 0x21D3B9; 0x6DF80F; 0x4DA025; 0x515CCC; 0x9FB790; 0x63FF3; 0x76D77A; 0x625098]];
  [[0x7F1E6E; 0x3AF4F; 0x147BDB; 0x70598D; 0x26D23F; 0x4A29CD; 0x7D8AFD; 0x842D17; 0x27D785; 0x3D4F02; 0x1B48F1];
   [0x1DD7E4; 0x48EA30; 0x31E587; 0xDA778D; 0x28302; 0x2B20F; 0x2CA85D; 0x9940A5; 0x50706A; 0x27C655; 0x65E5F7]];
  [[0x339162; 0x747568; 0x2DE761; 0xABF96A; 0x4ED981; 0x68131A; 0x7755D1; 0xA26F42; 0x52444; 0x5B629; 0x374DF9];
   [0xCF14E5; 0x2B073; 0x2FCF27; 0x9F2568; 0xC77F1; 0x4F9C85; 0x564AE1; 0x84E7B1; 0x2F9F7C; 0x79F6BA; 0x50141F]];
  [[0x5DDB32; 0x6EEA5F; 0x1A6DBD; 0x37896C; 0x5312EB; 0x224556; 0x5B967C; 0xE31403; 0x210FEC; 0x39AB6E; 0x56A5EB];
   [0x20A6E2; 0x4202D4; 0x49C90D; 0xEAF4CB; 0x2618C6; 0x7417CB; 0x662261; 0x19A617; 0x33B387; 0x48BFFF; 0x4F79A1]];
  [[0x58277B; 0x1F5BDD; 0x4376CA; 0xF548FC; 0x326E00; 0x1B763D; 0xFD0C0; 0x77DA31; 0x187E89; 0x79FC29; 0x7A4AF6];
   [0x6FE0E1; 0x669EB7; 0x2BEF48; 0xF75C67; 0x5F6D0F; 0xA2CD9; 0x6E41E5; 0x3F37B9; 0x2D2442; 0x36829D; 0x65DA14]];
  [[0x4326A2; 0x40CBD8; 0x652915; 0xF2B54; 0x16C330; 0x43F920; 0x30AF01; 0x8C5D38; 0xDEDBF; 0x496F1B; 0x35CE15];
   [0x5CD536; 0x3476A; 0x1458E4; 0x66184B; 0x1373E4; 0x2362B2; 0x47ADDA; 0xCFDE00; 0x294ACC; 0x5B07F4; 0x3AAA59]];
  [[0x351DCE; 0x531F74; 0x70FE9B; 0x55D5FF; 0x91F6C; 0x4713C4; 0x43D715; 0x133A66; 0x274DDB; 0x1421FF; 0x154461];
   [0x2EE3C1; 0x1BD275; 0x205CA7; 0x8985BF; 0x65F85E; 0x342C28; 0x24E23D; 0x4B7B25; 0x2AE72E; 0x4A5D4D; 0x296425]]];
 [[[0x3BB6FE; 0x6E95CA; 0x7C12DB; 0xC2B2E1; 0x78CF5B; 0x8D9AA; 0x545B0C; 0x966933; 0x5E90BF; 0x127A50; 0x21E6D5];
   [0x9BB07D; 0x3CE9C9; 0x575061; 0x9D607C; 0x2C0630; 0x4CF2F4; 0x7C5067; 0x7DB3FF; 0x78833C; 0x381D12; 0x5C6CD7]];
  [[0x8392C8; 0x3BA804; 0x437AEB; 0xAA5A0; 0x428295; 0x22CF84; 0x583AB2; 0xE78C0A; 0x76BFD; 0x340AF2; 0x2C576A];
   [0x6E6DE1; 0x18AAF8; 0x3B09EA; 0x461A4F; 0x652C71; 0x773D62; 0x7F33A; 0xFB0128; 0x23226A; 0x5272BE; 0x77A80C]];
  [[0x243A23; 0x59EE8D; 0x5ABC02; 0xA76F1C; 0x5303B8; 0x2878BC; 0xDC6D0; 0x2F5739; 0x4328D8; 0x6619B0; 0x582761];
   [0x5DD89C; 0x40AF03; 0x664609; 0x64DED7; 0x321F34; 0x479994; 0x2A3457; 0x81039C; 0x1FB033; 0x3E4D77; 0x381514]];
  [[0x47A6CB; 0x158718; 0x209322; 0xE170DB; 0x240A83; 0x4CD315; 0x28E399; 0x5AE653; 0x66B28; 0x1BBE06; 0x2C404C];
   [0x6A93D6; 0x12DF82; 0x6B54F4; 0x62344; 0x3FC9ED; 0x7DDB29; 0x101680; 0x369C91; 0x74AA99; 0x205D4F; 0xE516B]];
  [[0x32C66D; 0x5546A7; 0x6BB8DE; 0x8576D8; 0x412063; 0x644D0C; 0x693A63; 0x4429A2; 0x2AFB3C; 0x5AB6A4; 0x61829F];
   [0x743208; 0x77B5BB; 0x60700C; 0x3878D7; 0x43EA8E; 0x6C990; 0x1AD279; 0x37199C; 0x1602AC; 0x6E6867; 0x200A7]];
  [[0x5C9B6; 0x70BA76; 0x32093C; 0xD7302E; 0x3DC75F; 0x32241E; 0x20E178; 0x9DB55A; 0x105792; 0x223EF7; 0x4DBD3];
   [0x6731CF; 0x4DCCDF; 0x6C712B; 0x2963CA; 0x33C6EB; 0x2918CB; 0x42143A; 0x8D3632; 0x47755A; 0x258338; 0x497444]];
  [[0xACB58A; 0x3E23D; 0x35FF81; 0x8936EA; 0x6A5CF4; 0x24FFC8; 0x61C56B; 0xE421B; 0x5C7741; 0x6A1FF8; 0x6599DD];
   [0xE19FA2; 0x129BD5; 0x106B22; 0x7D7780; 0x7F0877; 0x41300E; 0x4E679A; 0xEBE8AA; 0x1C3277; 0x6E99F9; 0x427DB9]];
  [[0x184DFD; 0x147505; 0x40EDB6; 0x96E71F; 0x96D68; 0x7288B9; 0x39FAE7; 0x9E3B19; 0x59525F; 0x42A224; 0x32E991];
   [0x4D3074; 0x55D970; 0x4FF6C8; 0x15270D; 0x7770DF; 0x42C9FB; 0x5CA513; 0x7D00C3; 0x30A146; 0x5D74BB; 0x7A9637]];
  [[0x3DB0DD; 0x11ADC8; 0x612266; 0x2F2C19; 0x2DF82D; 0x28B03E; 0x6C2E98; 0xFFA685; 0x38F8D0; 0x3B9283; 0x7D2975];
   [0x7D306E; 0x7F5E20; 0x47A55D; 0xF980FF; 0x1331A2; 0x7D74A9; 0x5FEE08; 0x6A7C2A; 0x7C37BB; 0x43D3B4; 0x6F3CFD]];
  [[0xEC696; 0x5185A9; 0xBE2C; 0x9F985A; 0x4E2379; 0x5CE286; 0x5F05DF; 0x86A2D2; 0x72A145; 0x2B10E0; 0x4C8EE4];
   [0xE985B8; 0x2A46B5; 0x2FBBBF; 0xC296A5; 0x35DCA7; 0x646900; 0x3C51B5; 0x211EA2; 0xB20B3; 0x5E0254; 0xA4FE9]];
  [[0x86A4E4; 0x394FC7; 0x62AD1E; 0x70C064; 0xD4375; 0x69383E; 0x6DCB72; 0x68E22C; 0x65F231; 0x5483D; 0x5C9926];
   [0x27C9BA; 0x4616BF; 0x793172; 0xE307EF; 0x1C58E0; 0x75518F; 0x704D77; 0x96D516; 0x514C7; 0x4550F6; 0x2F839]];
  [[0x3EB3CB; 0xB54E8; 0xBB0B6; 0x473CB; 0x7A4D1B; 0x1A1E96; 0x676B16; 0x2A64AB; 0x465B; 0x30BAF8; 0x32A6EC];
   [0x7B903F; 0x594A72; 0x5679C7; 0x1348E; 0x49ACD; 0x76157B; 0x823E7; 0x956AAC; 0x564C9C; 0x6B7D47; 0x184705]];
  [[0x582997; 0x42C43A; 0x1B2A5F; 0xC58D80; 0x27426; 0x767F7F; 0x29FE8F; 0x11D5E8; 0x5F6EDA; 0x4E2E7A; 0x6DA644];
   [0x5F3E5D; 0x7EB9DF; 0x744FFF; 0x11E773; 0x365A41; 0x69DCE3; 0x5910E9; 0xA8DAC2; 0x76022D; 0x6B2E17; 0x2B174E]];
  [[0x2D1DE7; 0x5918AF; 0x7117B7; 0xFFA278; 0x5EC3E5; 0x5D5ABD; 0x409AA7; 0xB36478; 0x4932C5; 0x12CD34; 0x481C3A];
   [0xFDA782; 0xB2886; 0x335C25; 0x2CBA0C; 0x31D46B; 0x6D4278; 0x222F32; 0x407069; 0x3013; 0x13825F; 0x1F8B6C]];
  [[0x51E4F5; 0x5E9DC2; 0x258809; 0x371D8C; 0x2FAEE6; 0x4405C; 0x203011; 0xC2897B; 0x45B72F; 0x627D76; 0x6AECBB];
   [0xD0F404; 0x3CF81A; 0x2F9F4D; 0xC34800; 0x1E0D5A; 0x4CF2B9; 0x58028D; 0x2FE88D; 0x3BCDD1; 0x5CA483; 0x6C66B1]];
  [[0x12B2F8; 0x2EB0A2; 0x12BBFE; 0x455276; 0x47B04A; 0x7F71B8; 0x55BF51; 0x912939; 0x5DD2FD; 0x1E65E5; 0x44827B];
   [0x749338; 0x69B9A0; 0x24E76A; 0x8505B7; 0x48F45E; 0x4CCFF6; 0x518F1E; 0x6ABD7; 0xC7B19; 0x7CF1C0; 0x1618E7]]];
 [[[0x2A6B0; 0x68A84D; 0x4254D; 0x73936F; 0x264AA9; 0x2AE177; 0x5104DE; 0x7CF18F; 0x6D9C04; 0x7431AF; 0x711AB];
   [0x8D5496; 0x3EA309; 0x4F5CE; 0xBDE7BB; 0x7DE3A5; 0x18E586; 0x4C3DB2; 0x34EF2F; 0x310ED6; 0x5F5025; 0x33F193]];
  [[0x478D87; 0x86B6B; 0x46EB29; 0xE16D0C; 0x1BDA98; 0x2ED05B; 0x3789D1; 0xCC467C; 0x178BD9; 0x5B5C2E; 0x414C09];
   [0xFE52FF; 0x390639; 0x6FFAE6; 0x28E37B; 0x1FB01B; 0x16F3D8; 0x3EE18E; 0x599A77; 0x4C13DE; 0x4B6328; 0x283192]];
  [[0xE1AB70; 0x4B3C06; 0x203AA9; 0x521440; 0x527B5E; 0x288A81; 0x28CE1C; 0x28059F; 0x4C148A; 0x46ECEE; 0x578C8D];
   [0xDBD2FF; 0x6C80C1; 0x7661A2; 0x11094F; 0x1AFACC; 0x775ABB; 0x3CFCA0; 0x30FF6; 0x527900; 0x15F70F; 0x546D98]];
  [[0xE757A2; 0x5BC39A; 0x4FFC7D; 0xF82EB5; 0x6C5AD3; 0x78023C; 0x684CB8; 0xCB7AE8; 0x5F6095; 0x75B447; 0x1FF6E4];
   [0x36FA0; 0xC4B4E; 0x21CA4E; 0x46EA53; 0x44A218; 0x10A3C3; 0x2B3DFE; 0x65108E; 0x66153C; 0x1AFCA; 0x78AAB5]];
  [[0xA3A297; 0x1F022D; 0x48B127; 0x84727B; 0x40B276; 0x723454; 0x27403D; 0x702090; 0x3AE544; 0x185C8; 0x396B7E];
   [0x54F823; 0x23AFDE; 0x701AD; 0xE2AE90; 0x2362A8; 0x443B0D; 0x539CA7; 0x487F9B; 0x13DFD4; 0x60A0C9; 0x3ED6D3]];
  [[0x41AFA6; 0x33B2AB; 0xE144F; 0x6C2256; 0x6FAF7B; 0x5AC228; 0x32A572; 0x7F38E2; 0x6D725E; 0x2BEC51; 0x2D43D7];
   [0x83A39E; 0x1C7564; 0x8D7AC; 0x18A604; 0x74C8EB; 0x63AB5D; 0x2CCD7D; 0x47E981; 0x21750F; 0x1135D9; 0x4DB0FB]];
  [[0x64BA6C; 0x7B1BDB; 0x7CD33C; 0x810753; 0x26FB53; 0x77AC90; 0x5E560; 0x4BCB24; 0x5BA503; 0x16BD12; 0x312BDC];
   [0x72B4CC; 0x14A560; 0x7F39A; 0xA2186; 0x14704E; 0x31AA4B; 0x743487; 0xBF00CE; 0x2DDB5E; 0x490BB0; 0x69DAC1]];
  [[0x9EEC7F; 0x6DF14C; 0x23F579; 0x511B11; 0x30486B; 0x653474; 0x6F453D; 0x104BBB; 0x1DE9B0; 0x353041; 0x3312FC];
   [0xA89852; 0x125365; 0x584EAD; 0xADA70A; 0x2FBF4C; 0x2FEA71; 0x3E0469; 0x1ABCC3; 0x759B9; 0x440460; 0xBC673]];
  [[0x94762E; 0x288488; 0x6E9757; 0x4AC426; 0x211BF1; 0x1D3A08; 0x1EAFC; 0x8D5AEB; 0x735E25; 0x3D07A5; 0x4F79A8];
   [0x8DE0D; 0xF22EC; 0x265780; 0xEF5221; 0x285666; 0x31A918; 0x150FBE; 0xA00DC4; 0x4A3CA8; 0x792A0B; 0xEEFD5]];
  [[0xC878D8; 0x5C1F80; 0x796F30; 0x5E40FD; 0x6C91B9; 0x7B8EB5; 0x763E21; 0x8E4B3F; 0x59CB82; 0x33CF8B; 0x117C19];
   [0x697DD3; 0x2C5D30; 0x6317A0; 0xFB399C; 0x679834; 0x265AA0; 0x7ECFA2; 0x4DFBEF; 0x38AE2B; 0x66CF5A; 0x1E2F38]];
  [[0x6EC447; 0x636DB3; 0x504563; 0x59F3D2; 0x71D652; 0x6DE38; 0x478020; 0xD483F9; 0xAED5C; 0x787862; 0x2DACF3];
   [0xC6C4F7; 0x33C908; 0xFEE1A; 0xAA7333; 0x1FAF9A; 0xFF2F1; 0x5B0306; 0xFBE44F; 0x30AC0D; 0x5C62A5; 0x611050]];
  [[0x4C0908; 0x68F3D; 0x6C33DA; 0xB80A7; 0x25B068; 0x7FB25B; 0x4C55A2; 0x8BBCF8; 0x6D143; 0x6225D; 0x23F7AD];
   [0x80DEAF; 0x53B869; 0x14A009; 0x76059B; 0x3133C4; 0x7B5C31; 0x6BD859; 0xB43AA4; 0x74EA87; 0x59CB83; 0x8B4B9]];
  [[0x839775; 0x66DD9C; 0xD8D68; 0xD7F11B; 0x3ADC9E; 0x257179; 0x5C5090; 0x81B436; 0x6C5187; 0x5A0A00; 0x6E778B];
   [0xE9C0BD; 0x1B7784; 0x7DB934; 0xC972DD; 0x1314A2; 0x6AF18; 0x6F7A8A; 0xF39C4E; 0x6E8942; 0x56E09B; 0x786BB0]];
  [[0x306294; 0x35755D; 0x5A1EC5; 0x667CAE; 0x7CCE97; 0x240C1F; 0x24F74A; 0x52075F; 0x3907DD; 0x19F30D; 0x621CE6];
   [0x45BDB1; 0x633018; 0x65C160; 0x289740; 0x1E2F22; 0x592DAF; 0x23922D; 0x4DF348; 0x129446; 0x7248B4; 0x39074B]];
  [[0xAA4BC7; 0x5726AE; 0x3E5213; 0x67290D; 0x63681B; 0x6E5545; 0x195CCD; 0x8B3541; 0x2F83E1; 0x56641A; 0x2EB12A];
   [0x6782ED; 0x320ADA; 0x76D1A5; 0x1573A2; 0x2E18BC; 0x2E3320; 0x653E07; 0xC666DD; 0x604156; 0x7A5E4B; 0x69541F]];
  [[0x224872; 0x5D167D; 0x10FF0C; 0x71C46; 0x548E96; 0x3D16E1; 0x68BA5D; 0x355F33; 0x6C2F4F; 0x44AF9; 0x7213BD];
   [0x1A0254; 0x2AFCA6; 0x41DAAE; 0xD08E4A; 0x6D9245; 0xC8A06; 0x3D8084; 0x494BD0; 0xED04A; 0x3BF0A5; 0xF164D]]];
 [[[0x459019; 0x55760B; 0x58FB7D; 0xA2BA8C; 0x4B4E88; 0xE6EE4; 0x59F945; 0x1789F2; 0x7101FD; 0x4F8DD3; 0x38462A];
   [0xABD7B1; 0x3D4EC1; 0x382D69; 0x6BA54F; 0x518A2D; 0x1F4A7A; 0x2C19F0; 0xCCAD3E; 0x3AA2CC; 0x69D63B; 0x156E38]];
  [[0x61CF6A; 0xD2F2D; 0x6C04; 0xC0A71A; 0x51D1DC; 0x25C398; 0xC6829; 0x44F736; 0x74BA1D; 0xF86E2; 0x86CD1];
   [0xD6C080; 0x45977F; 0x21EC6B; 0xF8EB91; 0x66E69F; 0x3B59C5; 0x1990FA; 0xB03645; 0x9151D; 0x781FAF; 0x52EAC1]];
  [[0x5CE371; 0x339A2B; 0x20CCDE; 0x867507; 0x33D597; 0x7923EB; 0xC7943; 0x3719DF; 0x423883; 0x24AF84; 0x679F03];
   [0x8B9D31; 0x4B0315; 0x409D6E; 0x9267D2; 0x30117A; 0x2D54F0; 0x6C6FF7; 0x4BF6A4; 0x75CBEB; 0x3BEEB1; 0xB67F0]];
  [[0x687F73; 0x403AE2; 0x405A67; 0x316CA7; 0x2999E7; 0x1FE769; 0x26B91B; 0x1D6CA9; 0x4BEFCD; 0x4A822C; 0x1CFAFB];
   [0xA8EE8B; 0xACC89; 0x43B4AD; 0xF1DA75; 0x11792B; 0x2580D8; 0xB787; 0xC9B58F; 0x4F3C97; 0x769DFC; 0xF1398]];
  [[0xF0E827; 0x71CA92; 0x5324EC; 0x9729F1; 0x55F994; 0x3EFF; 0x17CB89; 0x72853D; 0x339B97; 0x171CA7; 0x6B675F];
   [0x3D0D62; 0x7DAA7D; 0x6A9620; 0xF5CFEA; 0x32E5B; 0x563173; 0x6F73F8; 0x7CCBA2; 0x4141E7; 0x27173B; 0x3348A7]];
  [[0xF522E3; 0x6F8CDC; 0x9FCCC; 0xBE430; 0x303DA6; 0x6833B6; 0x557FC0; 0x82CFC0; 0x521AA8; 0x3CA041; 0x1AFA64];
   [0x304313; 0x4ED8C2; 0x18190F; 0x9B395B; 0x40816B; 0x7C8C36; 0x6509BF; 0x2E0BC9; 0x22B46B; 0x2AB43C; 0x283CD2]];
  [[0xB7F74; 0x2AC244; 0x521FC5; 0x4260D1; 0x17C7D; 0x8CF38; 0x6722E9; 0xAD1E83; 0x39112C; 0x2C7B44; 0x27C0FF];
   [0x9E60B3; 0x54B3F3; 0x6A4023; 0xE894E; 0xD8133; 0x684145; 0x375199; 0xC86DC; 0x6B4831; 0x148D6A; 0x5D0790]];
  [[0x6FC7F9; 0x2D0FB1; 0x71895E; 0x7C322D; 0x22DF86; 0x329F1A; 0x4AAD46; 0xA69B3A; 0x58C8B6; 0x4FEC36; 0x1023EF];
   [0x670612; 0x68AAB3; 0x5C3162; 0x2C5521; 0x1C3176; 0x42667A; 0x1631EE; 0xB31014; 0x670B11; 0x24384B; 0x1A4A2C]];
  [[0x9994EE; 0x6FE440; 0x4F4279; 0x6A6D12; 0x439B57; 0x7E025A; 0x2D8836; 0x42C271; 0x11969F; 0x56F588; 0x5DD046];
   [0xF4202A; 0x1B4FF6; 0xF4F77; 0x2D36F2; 0x7AA72B; 0x191711; 0x7B653C; 0xF06065; 0x1BC81D; 0x34BE67; 0x6FAA43]];
  [[0x501DAE; 0x2494E4; 0x64D2EB; 0x8F0CE3; 0x45A611; 0x64260A; 0x75E097; 0xF9238A; 0x3654E9; 0x5020CA; 0x72482C];
   [0xAF93E8; 0x5900B4; 0x4202A6; 0xBEE149; 0x6D7724; 0x71B0A1; 0x405291; 0x3AD02B; 0x5C2036; 0x79BE42; 0xBA73D]];
  [[0xB4074B; 0x4B525B; 0xD26F5; 0xDDC04B; 0x5C3D10; 0x395397; 0x380563; 0x8C1F77; 0xFA839; 0x493852; 0xED70C];
   [0xD5040F; 0x42882C; 0x1C223; 0x47D313; 0x552DBD; 0x29F273; 0x5D6BC9; 0xBCDD77; 0x42D701; 0x3FE205; 0x3DEBB5]];
  [[0xBBCF14; 0x4FFB15; 0x557302; 0x897907; 0x886E7; 0x556A12; 0x24BFFC; 0x466C4A; 0x6D05E2; 0x732AFC; 0x7196CD];
   [0x377955; 0x49F69; 0x4A73AF; 0x628B4D; 0x7F38F0; 0x7A500C; 0x6D3F0; 0x4A0F78; 0x1C6F18; 0x7E08F6; 0x8B8E3]];
  [[0xF0F157; 0x6E3EE; 0x636CD6; 0x1FCAAE; 0x65300; 0x30B114; 0x303EFF; 0x10CBD8; 0x2326C5; 0x7E166C; 0x190C79];
   [0x6D97E1; 0x306B6D; 0x7BD9CD; 0x922461; 0x312872; 0x15DE6C; 0x595605; 0x37F071; 0x165965; 0x6EBA47; 0x43EC85]];
  [[0x4CC6B4; 0x6D0740; 0x5E7F6C; 0x5DF159; 0x2E1429; 0x1F4EB5; 0x543D5B; 0xE4C2B2; 0x58F8F4; 0x3E2B7E; 0x3FA76];
   [0x245C81; 0x4A0442; 0x3DB05; 0xDB5088; 0x64FD7C; 0x4C3547; 0x34C017; 0xED3600; 0x2A72EB; 0x48D594; 0x114C4C]];
  [[0x12CF1A; 0x6E0086; 0x549899; 0xC50D1B; 0x48CEB3; 0x6765AB; 0x61B7C5; 0x9F1CD0; 0x9F99F; 0x40A0A7; 0x4B6425];
   [0x9D7477; 0x79B86; 0x6B9474; 0x6A4288; 0x6586C3; 0x53F72; 0x1B756B; 0x302538; 0x464295; 0x41CEF6; 0x157A3]];
  [[0xC4EB0D; 0x59E444; 0x1B0A36; 0x9DAD3B; 0x5BF245; 0x72C6C4; 0x285E98; 0x7A4B77; 0x693E04; 0xA8AC7; 0xBE084];
   [0x929EB4; 0x4AEF0; 0x477054; 0x8FAC95; 0x2630B3; 0x39BC23; 0x199060; 0x17B14E; 0x6F142E; 0x3060D5; 0x21EDBA]]];
 [[[0xD13256; 0x3F96E6; 0x35573F; 0xA11C34; 0x55362D; 0x19411A; 0x5F05E2; 0x1A9048; 0x3DEA90; 0xB7D0A; 0x4B4171];
   [0xFAC1A; 0x23647E; 0x70B3D3; 0x805801; 0x790FC6; 0x4C4182; 0x21453D; 0xBFF08; 0x18947B; 0x28CB8E; 0x6EB4B]];
  [[0xBE097D; 0x6FA126; 0x1BB0AA; 0x857AF3; 0x14E432; 0x678F70; 0x3FE4F6; 0x37969A; 0x4C29A5; 0x19E68D; 0x727D26];
   [0x30F457; 0x77AEFB; 0x1B45A0; 0xF569CA; 0x4CF892; 0x3CD573; 0x20564D; 0x911635; 0xB9CCC; 0x43C0C2; 0x5ABF88]];
  [[0x55E82E; 0x62B538; 0x71AFAF; 0xDD7D6C; 0x2444DB; 0x609BDA; 0x7E8FE1; 0x47FB13; 0x5AA88A; 0x632113; 0xE21BF];
   [0xE4AE88; 0x549503; 0x6D0459; 0x7BE5C; 0x3D3D1F; 0x105F67; 0x70D576; 0x8E68E3; 0x66B27F; 0xF81A1; 0x102F63]];
  [[0x813696; 0x1896A4; 0x7C71B5; 0x8F5BBA; 0x3BF0D4; 0x2B5A1F; 0x688FCE; 0xDC932F; 0x178F0B; 0x532936; 0x3DC4E4];
   [0xFF3364; 0x987D; 0x50B87; 0xDD7B60; 0x4C9AC5; 0x50AC9; 0x305FCA; 0xFEBB2B; 0x4CCD89; 0x45D609; 0x383954]];
  [[0xC5F8C7; 0x59C15; 0x5D6652; 0x395738; 0x33E177; 0x114250; 0x50F27A; 0x575EF9; 0x3EC09D; 0x587A84; 0x66F8F9];
   [0x84DCF0; 0x53AC30; 0x6B3DE9; 0x6D8108; 0x5E091B; 0x74FBF5; 0x79C383; 0x91FDE9; 0x59CDF0; 0x63D52A; 0x374429]];
  [[0xAC9B9F; 0x49F51; 0x3B74B2; 0xC116DA; 0x7C29A7; 0x70299B; 0x5E9ACC; 0x3167B; 0x2BF1BE; 0x4D9F3F; 0x4EE7A0];
   [0x917C14; 0x3EBF02; 0x420F7; 0x98B80D; 0x316402; 0x299C9E; 0x788C59; 0x4CA51A; 0x32E98D; 0x523F2B; 0x25FE7C]];
  [[0xD24FB4; 0xFA78F; 0x75EB38; 0xE1423C; 0x2F6852; 0x54E6AA; 0x3B4EBA; 0x916685; 0x987EA; 0x7E5CAE; 0x1AEF85];
   [0xBEBDCB; 0x62C59D; 0x7EC199; 0x4ABAEB; 0x26E8BC; 0x45113C; 0x926F3; 0x6EC500; 0x1E9D22; 0x29BEE0; 0x43DEE]];
  [[0x409462; 0x1CB8CD; 0x1F8EFF; 0x97AA77; 0x3B581E; 0x7159CB; 0x6E4ADC; 0x37066B; 0x2D6F60; 0x6DEC62; 0x3829D7];
   [0x174A3E; 0x48A317; 0x2691C2; 0x4D7514; 0x4893B0; 0x6C7BDC; 0x7270A6; 0x1CD34C; 0x76F518; 0x4C90E7; 0x5F393C]];
  [[0x99A837; 0x58E783; 0x16D7D7; 0xAB0113; 0x7BF6C9; 0x5FFC67; 0xFA10D; 0x805E8; 0x627967; 0x6D7987; 0x64D848];
   [0x1FE2E3; 0x3499ED; 0x7F453; 0x6EA4B; 0x6C77A1; 0x131F20; 0x28B0D4; 0x301339; 0x10A30B; 0x78F588; 0x56FFF0]];
  [[0xC31BB5; 0x440BEA; 0x6F3A2D; 0x85FD9F; 0x488063; 0x37200F; 0x199136; 0x37CD50; 0x8D83E; 0x7A26BF; 0xF7F08];
   [0xA878F2; 0x2B8B71; 0x5C80D4; 0x147855; 0x649415; 0x445B94; 0x38DF88; 0xD5F5B6; 0x4FFA47; 0x295AC4; 0x41EA46]];
  [[0x7EB48E; 0x12787; 0x646010; 0xD4B80D; 0x19653C; 0x2A25D0; 0x7425A7; 0x10550F; 0x1D6D43; 0x494525; 0x3DD845];
   [0x97B9CF; 0x389128; 0x63AB07; 0xFFB646; 0x49A92; 0x3B30F9; 0x4092BA; 0x5BB91C; 0x45BE82; 0x1D89D6; 0x6D769]];
  [[0xA9C944; 0x1E9FDE; 0x5084B; 0x37B0AB; 0x7DF90A; 0x2BFE80; 0x14A4BD; 0x99723A; 0x62FDC9; 0x450631; 0x56C69D];
   [0x6E31BC; 0x223A2C; 0x426DB3; 0xB65794; 0x4EF40F; 0x37E688; 0x6EDA79; 0x4A47E5; 0x7B715C; 0x39DB43; 0x2E56F6]];
  [[0x178EE8; 0x1F6068; 0x2959E2; 0x7567A4; 0x2ACB5C; 0x45B5EE; 0x71A9D8; 0x3E517A; 0x6040CD; 0x36CE20; 0x5D54B];
   [0xF4423F; 0x17E6E5; 0x4BBF02; 0xDF4DDE; 0x683FEE; 0x773399; 0x6F6378; 0x5109B9; 0x7F1264; 0x1500B6; 0x23E4D2]];
  [[0x9D0DE5; 0x40EAC6; 0x628047; 0xCC7720; 0x5595B3; 0x342909; 0x6815D; 0x7EAF87; 0x743C32; 0xD28F3; 0x13C70B];
   [0x7DE7B7; 0x7A74CF; 0x1C3FC; 0x660203; 0x709164; 0x73A917; 0x7491A0; 0xA50585; 0x632019; 0x5493D0; 0x73CF34]];
  [[0xFDF621; 0xBB4A9; 0x6CD94F; 0xBC87F4; 0xA8610; 0x573CFA; 0x79CF0; 0xDE2D6B; 0x2DB8E4; 0xC2B46; 0x4B624E];
   [0xADE692; 0xD62B4; 0x4F204F; 0x1E7763; 0x66BF28; 0x11A4DF; 0x5A54FD; 0x2663A8; 0x28E3BA; 0x5F9DDD; 0x7C882C]];
  [[0x112390; 0x423B09; 0x52630B; 0x47D4BA; 0x2C3042; 0xC6F6F; 0x58A3E8; 0x742857; 0x7610BB; 0x75D1B9; 0x255756];
   [0xFDF0D5; 0x6197B7; 0x72CA11; 0xDF93D8; 0x202449; 0x6E01FA; 0x27C172; 0x55A82D; 0x66E3DE; 0x6A6AE7; 0x1A25FD]]];
 [[[0x661C25; 0x28E38; 0x6AD36B; 0xF0DCCF; 0x32B052; 0x32C71C; 0x211A09; 0x98A311; 0x826E3; 0x21933B; 0x1245D9];
   [0xBE5F68; 0x3D2384; 0x578BD; 0xF8E413; 0x4061A5; 0xFF2F1; 0x132EBC; 0xE1BDF; 0x3265A0; 0x52091E; 0x11FFCC]];
  [[0xB211E9; 0x495DB; 0x9CB82; 0x10BDF3; 0x4D6E95; 0x6DE15A; 0x3F2B0E; 0xF8B166; 0x569192; 0x4EC0D5; 0x54EF20];
   [0x5200C4; 0x391A11; 0x7E47D8; 0x24674D; 0x10FC4E; 0x25192E; 0x5D1C48; 0x983F2B; 0x568B3D; 0x11FCC9; 0x322423]];
  [[0x46A583; 0x6D46EC; 0x9EF4F; 0x8A2373; 0x6760E4; 0x3AE52C; 0x6D3FE9; 0xCFF4AA; 0x2A1967; 0x6C501C; 0x2450E4];
   [0x477329; 0x2FF478; 0x79A10F; 0x2240F4; 0x2A6335; 0x1DA909; 0x4DF841; 0xB8ED8E; 0x67037E; 0x6BAEF5; 0x142BEB]];
  [[0x76391E; 0x1FA456; 0x24E1D6; 0xA4BBB7; 0x6733A5; 0x1C3AFD; 0x70A4C3; 0x195BE7; 0x6E2E3B; 0x7153CF; 0x19A09A];
   [0x153BB1; 0x4A58A8; 0x708EE5; 0xCDFFD9; 0x482EC4; 0x65D09A; 0x820C4; 0xCCB628; 0x4F2AD3; 0x4A6C74; 0x1936EB]];
  [[0x89A595; 0x226302; 0x74A6F3; 0xA33F36; 0x7C9032; 0x67DB9B; 0x1EB7F; 0xF3F17E; 0x5ADA9D; 0x7218E4; 0xC8AA9];
   [0xC7F8B4; 0x762B7E; 0x7B3451; 0x73575C; 0x2013D6; 0x638E89; 0x244AD5; 0x9B033E; 0x226644; 0x1E7EB2; 0x54FC0E]];
  [[0x920FA0; 0x7A9F5E; 0x27DD8D; 0xDC2927; 0x2C9E2D; 0x41E6F3; 0xA2C15; 0xB02047; 0x6CE1AA; 0x28537F; 0x44A79];
   [0xD1B513; 0x3A87FE; 0x414D56; 0x394DF6; 0x675F9F; 0x6536DB; 0x8F83A; 0xAF6B36; 0x42BF63; 0x1324F1; 0x69E23F]];
  [[0x126519; 0x2072D6; 0x4F3495; 0x801841; 0x34FA6F; 0x4A41FC; 0xC3620; 0x9F3555; 0x50B1BB; 0x7148F3; 0x3BC5F3];
   [0x5E3BB; 0x91662; 0x480F10; 0x526739; 0x5371E1; 0x63F1FC; 0x4D071E; 0x91714C; 0x23F077; 0x692954; 0x30E9A8]];
  [[0xC73EE8; 0x2829DC; 0x69D5A7; 0x75EE6F; 0xF85A6; 0x45F30F; 0x407EA5; 0xF70774; 0x45482D; 0x13AE44; 0x547FF8];
   [0xF7F25A; 0x2B2910; 0x4B44EA; 0xDDE34B; 0x3285A3; 0x558E05; 0x468DC2; 0x411298; 0x509EF8; 0x7F842C; 0x7609FD]];
  [[0x5F2D5; 0x2E2EC3; 0x49F536; 0x5AEF1B; 0x1ECE26; 0x32D05A; 0x17585A; 0xDB0102; 0x7FA137; 0x56FFCC; 0x943C5];
   [0xA42C24; 0x48A53E; 0x1397BC; 0x9E2E56; 0x307F5D; 0x1B73E3; 0x3F6900; 0x122D6A; 0x769EBF; 0x16A45C; 0x77A9E1]];
  [[0x65F9CF; 0x4AC108; 0x67432F; 0x2DF4D6; 0x4DCF5E; 0x3BAEC7; 0x557847; 0x52362A; 0x3955FF; 0x2D7043; 0x4CA5DC];
   [0x7A93D2; 0x36376B; 0x3A5A14; 0x2555D; 0x469862; 0x7BDBE1; 0x3081C9; 0x9C449C; 0x47E01C; 0x485605; 0x31010E]];
  [[0x9EB768; 0x5F172B; 0x68912F; 0x3400EE; 0x40F25E; 0x255B9D; 0x30FC1D; 0x6B60A7; 0x652D66; 0x4EE313; 0x46178A];
   [0x7BD0F4; 0x5D4ECB; 0x458AC2; 0x370A5B; 0x45F7B0; 0x46CD90; 0x7969E2; 0x7A733E; 0x42A4F0; 0x118C36; 0x389CCC]];
  [[0xC27F78; 0x532F03; 0x7E9878; 0x9B0A2A; 0x34B652; 0x28506E; 0x6E5FC8; 0xEFAE69; 0x34D96; 0x6780F0; 0x2CA851];
   [0x4910F2; 0x144032; 0x441EEB; 0x7F4CCD; 0x18F7CA; 0x5C2F72; 0x7741E6; 0xDEB207; 0x60639; 0x517FDD; 0x4332FA]];
  [[0xD5681D; 0x664ABF; 0x246FCC; 0x3A300A; 0x6F7A1D; 0x4926CA; 0x15B100; 0x1EB359; 0x4A94F0; 0x6716C; 0x107D89];
   [0x1231EC; 0x2B9FEE; 0x406E9E; 0x8F6901; 0x3B5EDE; 0x43CD20; 0x704693; 0x887628; 0x4FA46E; 0x58B580; 0x313AA5]];
  [[0x34CBFC; 0x70E13A; 0x1631DB; 0xC5D9F6; 0x1D00D8; 0x1359B4; 0x3A435C; 0x31919E; 0x65E412; 0x3B76A2; 0xEC08];
   [0x16F36E; 0x7A9BFE; 0x17CEF7; 0x5B0D1B; 0x62CAC; 0x5DE55E; 0x7A8F81; 0x7661FA; 0x7ADB68; 0x64A4D8; 0x392C5D]];
  [[0x74F552; 0x4A7096; 0xD3EC7; 0x1A8192; 0x3E550A; 0x6C7B5B; 0x454715; 0xF31192; 0x658B1; 0x611F71; 0x7FC5BB];
   [0x562488; 0xD96D1; 0x523EA9; 0x75587F; 0x1E1936; 0x7D2745; 0x12EC03; 0xBA0FEE; 0x2C5241; 0x1D4B8A; 0x2562EC]];
  [[0xC4F8B3; 0x7D2D04; 0x30B04E; 0x3424A6; 0x4124E9; 0x528C55; 0x349B79; 0x98B5C0; 0x25B021; 0x60681C; 0x387899];
   [0x90C1FF; 0x5232B8; 0x4F63C3; 0xE38A8E; 0x3E60AE; 0x1130C4; 0x4BF3A0; 0xE168A5; 0x61555; 0xC2B98; 0x5FA4E4]]];
 [[[0xE21CA1; 0xC87FB; 0x2DD3D7; 0x537514; 0x509919; 0x10447; 0x25E6A6; 0x6B441D; 0x5E97AA; 0x660203; 0x58FBFA];
   [0x6C47E6; 0x31B2BD; 0x7BBA31; 0xB0AD4B; 0x787301; 0x2B01EB; 0x1E2E68; 0x5811EC; 0x6D2B81; 0x700E9C; 0x457D9]];
  [[0x5357E1; 0x57AC0E; 0xDB286; 0xEEE3D1; 0x77ED80; 0xE6D08; 0xE2936; 0x4ABA0F; 0x5F2976; 0x7CC785; 0x3AE110];
   [0x945699; 0x2637EE; 0x27992C; 0xBD9CD8; 0x70F927; 0x393E4; 0x6F8B67; 0x61AAEC; 0x6328E7; 0x5B3FD0; 0x268F9A]];
  [[0xF7A85C; 0x3F3302; 0x26F852; 0x1C40E9; 0x1E2517; 0x5A3BF; 0x5700CE; 0x561812; 0x3C7E74; 0x66B1B5; 0x7B9C2];
   [0x124E6A; 0x7C15BA; 0x241638; 0x5A50ED; 0x2A5582; 0x74D879; 0x68F177; 0x66CA1D; 0x58D9CB; 0x6724E5; 0x246C5E]];
  [[0x4D0432; 0xB0784; 0x482F19; 0xEA947D; 0x2C2664; 0xC8DA3; 0x2F7290; 0x1B3BBF; 0x602C23; 0x2D7127; 0x76EBD4];
   [0x371D4D; 0x3A8832; 0xD8BB0; 0x67D63; 0x3498C7; 0x72BF20; 0x64F598; 0xB95CE3; 0x587A7D; 0x55FFCB; 0x51077A]];
  [[0x9C7745; 0x7F8E19; 0x83AF5; 0xDB23A3; 0x747602; 0x5F6E8D; 0x678701; 0x974612; 0x56DFDD; 0x2FE8DB; 0x306683];
   [0x89FFA4; 0x121679; 0x79120C; 0xBEDC4; 0x29B7E4; 0x496C88; 0x760536; 0xC8DB5D; 0x130589; 0x1DE527; 0x4E350B]];
  [[0x47CC2D; 0x3F02AF; 0x7A859E; 0xE23690; 0x649380; 0x58D4FE; 0x593197; 0x3C24F; 0x16F98F; 0x3046CD; 0x5CE122];
   [0x50D389; 0x7E53; 0x4B3FCC; 0xAB3D0; 0x103BDD; 0x2F2450; 0x34780F; 0xC242E0; 0x269889; 0x3E5ACB; 0x76919B]];
  [[0xBB75C; 0x40DD3F; 0x28965D; 0xD08696; 0x6F3945; 0x756F6B; 0x37271; 0x1C20DD; 0x37BED6; 0x80F61; 0x274CFC];
   [0x1C1CFE; 0x4D42DD; 0x3FA1F1; 0xCBE07F; 0x277815; 0x1262DC; 0x477DDE; 0x48F59B; 0x65A5A3; 0x5FDC99; 0x64FF50]];
  [[0xD66C07; 0x74289B; 0x5E8814; 0xB92793; 0x57F706; 0x59075D; 0x508B5E; 0x9A2426; 0x7F10BB; 0xAFD3F; 0x7801CB];
   [0x51B22E; 0x279999; 0x1782D; 0xDC4C85; 0x2439CE; 0x55AA49; 0x708E58; 0x3EA14; 0x463ED7; 0x717B6E; 0x34176A]];
  [[0x585B7C; 0x38AE8B; 0x6C127E; 0x3D794C; 0x1195F4; 0x5DE000; 0x771A5; 0xC99CF0; 0x765DC; 0x2A789; 0x48FD2];
   [0x482FC7; 0x275057; 0x95B7B; 0x78B02B; 0xB1596; 0x73B9FE; 0x45D41C; 0x2919F9; 0x56F856; 0x1D4916; 0x7DB0CE]];
  [[0x1D7FC7; 0x6BED2D; 0xB2844; 0x3F5459; 0x7CA010; 0x24D59F; 0x7F0E34; 0x3EB935; 0x6FDF55; 0x37C092; 0x4207CB];
   [0xE92E4A; 0x744046; 0x384BF8; 0x27733A; 0x71FB22; 0x53AF65; 0x2794C6; 0xC79DA2; 0x4A9C1B; 0x1A9309; 0x103ECF]];
  [[0xACD3F; 0xE6E24; 0x58B8AE; 0x3A4430; 0xA06B4; 0x2DE854; 0x44E3E2; 0x867E3; 0x7FF01B; 0x244016; 0x12B1D];
   [0xB5F186; 0x752F4D; 0x358B6B; 0x3F9113; 0x1CEE85; 0x229C2D; 0x4DA05C; 0x85A9A9; 0xD46D9; 0x7E5EDA; 0x269074]];
  [[0xA53FDE; 0x58A7FA; 0x32B2F; 0xE52CC5; 0x4F77CE; 0x74A88B; 0x2F23CF; 0xF073CD; 0x591A19; 0x51A537; 0x7443BE];
   [0x8576CC; 0x6F139C; 0x6B127F; 0xEFC187; 0x244143; 0x38C6EC; 0x1FA2AC; 0x1BF011; 0x5D8AE1; 0x783BEE; 0xB5335]];
  [[0x9CB9CB; 0x5CB329; 0x6729A8; 0x119F0E; 0x2E37B0; 0x289AD8; 0x29E70A; 0xD2872D; 0x39C662; 0x182D4; 0x5EDE9];
   [0x9C3957; 0x5811A1; 0x2C3D0F; 0x134BF7; 0x484F36; 0x2AC30; 0x425F9B; 0x955A54; 0x7B6B36; 0x327B25; 0x7376DB]];
  [[0xF420A8; 0x1348CB; 0x6949EA; 0x4C3B60; 0x6CECF6; 0xEFC9; 0x740C4A; 0x271CF1; 0x1CC0D8; 0x17BE4; 0x5C726];
   [0xF3F8A6; 0x727D92; 0x63161F; 0xC70EF9; 0x15855F; 0x7F8036; 0x3EDA; 0x1A5C7B; 0x772841; 0x2A862B; 0x68F5AC]];
  [[0x372511; 0x437344; 0x3E7956; 0xC1F67; 0x3EB8B3; 0x557961; 0x22832B; 0xF188A2; 0x7E2427; 0x147CAB; 0x45D0A9];
   [0x29CABF; 0x5C33DF; 0x26D73; 0xAAF04C; 0x57DB62; 0x25990B; 0x6DB6EC; 0x3549E6; 0x1DEEAF; 0x2254AC; 0x58BBD5]];
  [[0xB77A44; 0x3F2F46; 0x64DA4; 0x839511; 0x58488B; 0xB772D; 0x7F4634; 0x8743EC; 0x50BA38; 0x3CE592; 0x62440C];
   [0x6C928C; 0xB1540; 0x339658; 0x5BEC51; 0x5B1535; 0x7A2111; 0x2A0968; 0xEF790D; 0x7468E6; 0x3B62; 0x2C8A13]]];
 [[[0x1AEE99; 0x20A5A1; 0x32D7F4; 0x3DF131; 0x1E1996; 0x5B7438; 0x5718AC; 0xE5D6F0; 0x67FE3A; 0x43BEDC; 0x24BB69];
   [0xA31E2E; 0x47EE95; 0x464DFE; 0x42F2B4; 0x1FCD82; 0x2D6AB2; 0x4BDFC2; 0x844674; 0x3D4411; 0x432B86; 0x2532BF]];
  [[0x5F12F9; 0x62861D; 0x2EFAAB; 0xFA0463; 0x315D4D; 0x61E65A; 0x5DB18D; 0x9390F; 0x59E60A; 0x65E1AF; 0x624DB7];
   [0x83E30F; 0x64CF13; 0x72556F; 0x3CA70C; 0x7D9C2B; 0x139172; 0x2113A1; 0xFC55DB; 0x698EC; 0x1E14A5; 0x76C609]];
  [[0x95662A; 0x36AC63; 0x2500EA; 0x4622AB; 0x77D68E; 0x37F839; 0x7758F5; 0xD42942; 0x3DB22A; 0x622A98; 0xDFA70];
   [0xEC12BF; 0x27B94B; 0x50E295; 0xEBCA4D; 0x276449; 0x47FCA4; 0x37ED85; 0x71515E; 0x66DA3A; 0x39095E; 0x5B2B97]];
  [[0x11BC89; 0x7D50E8; 0x11BF1F; 0xA2A84A; 0x12D4FE; 0x8D675; 0x2C2672; 0x7645B3; 0x6D691; 0x374435; 0x35AD63];
   [0x3E773; 0x6AEC1F; 0x5376E6; 0xD6A2F2; 0x1A136; 0x74EE78; 0x61BC5; 0xD92C45; 0x397CD0; 0x25C26E; 0x59374C]];
  [[0xA09501; 0x5C78C0; 0x5FDE74; 0x106048; 0x7EA30E; 0x646924; 0x445B79; 0xED086; 0x64E0AC; 0x7D8CBA; 0x4D380E];
   [0x8E2F04; 0x2E1444; 0x7FAF4F; 0x780729; 0x3330F9; 0x589E5; 0x6F0A62; 0xB0B9C; 0x13DDD0; 0x78F6; 0x1CC544]];
  [[0x5823A8; 0x410483; 0x7E6356; 0x414323; 0x224E12; 0x5FCD9C; 0x737C09; 0x697EBD; 0x2148D0; 0x2B1D29; 0xC5045];
   [0x10C3FE; 0x16E066; 0x2938C4; 0x3ADAEA; 0x7415B5; 0x151775; 0x32ACC0; 0x930BFE; 0x35E23E; 0x72CA6D; 0x4E4B15]];
  [[0xF00F70; 0xBABBD; 0x60773F; 0x7CDF42; 0x71BD8F; 0x4451AB; 0x715EB4; 0xE2E49E; 0x241448; 0xAD80D; 0x1CD906];
   [0xBCBD12; 0x5D595E; 0x23ED7A; 0x71C310; 0x67765E; 0x657097; 0x722381; 0xDE8456; 0x282F96; 0x144C0E; 0x177CA7]];
  [[0xF71055; 0x6456B1; 0x6700E1; 0x8B98F5; 0x52ADCD; 0x5744F1; 0x7B204B; 0xA3506E; 0x63BE42; 0x7E5FFD; 0x255C05];
   [0x88FA6C; 0x508BF3; 0x6F89D3; 0xE448C5; 0x339951; 0x3285F7; 0x50F779; 0xBB3742; 0x6C5145; 0xE4CC6; 0x725EF1]];
  [[0x46AE2B; 0x7D776D; 0x3BCE35; 0xA61FCE; 0xD70E8; 0x6292B6; 0x688218; 0xBE2745; 0x94E58; 0x9B42B; 0x68C161];
   [0x3C69E3; 0x2BB404; 0x192F8E; 0x6C3642; 0x17D4D5; 0x120D15; 0x150EC2; 0x894ED0; 0x708435; 0xF4581; 0x77E852]];
  [[0xE96C40; 0x3BAE3; 0x39A069; 0xCF1197; 0x6C0440; 0x493531; 0x5CCA20; 0x51F91; 0x447C85; 0x549A26; 0x21D2DD];
   [0x3E55C; 0x4C16AC; 0x5A14F7; 0x1EDD65; 0x5E2DE4; 0x655DDD; 0x244FD3; 0x15E737; 0x59980C; 0x764CCA; 0x44B0FC]];
  [[0xF3BFB; 0x7F6C0E; 0x49E58A; 0xACF249; 0x257C58; 0x3A18F3; 0x16A0E2; 0x7F0B1A; 0x2626B9; 0x2ADDDB; 0x666FAA];
   [0x951F40; 0x5AD6ED; 0x5A13DC; 0x2957F5; 0x3C908; 0x2ED9F8; 0x38A2EF; 0x66D359; 0x36BB80; 0x485D4E; 0x2385BC]];
  [[0x6992BF; 0x7FBDBC; 0x4F0C3A; 0xA97852; 0x3652C9; 0x566C64; 0x10EA10; 0x3DBBC8; 0x73C6FC; 0x16BB4F; 0x7D9107];
   [0x9A6F04; 0x1B25D; 0x69D11F; 0xF781A6; 0x17833C; 0x650EA3; 0x26DE8E; 0xF206B1; 0x381F8F; 0x3E0885; 0x3EC7B2]];
  [[0x6CC730; 0x3FB03B; 0x3A12B4; 0x1E86B8; 0x4DDC8F; 0x13F1F5; 0x5AA6C4; 0x6D4113; 0x2B4497; 0x637931; 0x7E14DA];
   [0x82428A; 0x781839; 0x6D3EE0; 0x556D45; 0x4CBA3D; 0x1A817C; 0x79618; 0x9AD974; 0x39ACC; 0x66941E; 0x17E43E]];
  [[0x1E17BF; 0x3A82E9; 0x715860; 0x66AD72; 0x704AA0; 0x610943; 0x6D6665; 0x98EA35; 0x6ADBD9; 0x686CCC; 0x1D3BA6];
   [0x9EE4F6; 0x6D56D7; 0x3DF3FF; 0x6D335A; 0x136056; 0x7862D7; 0x14DFF; 0x69526C; 0x4239B5; 0x225D2B; 0x34F5F0]];
  [[0xCDEBA0; 0x343287; 0x356E22; 0x620AEB; 0x79884F; 0x5ED81F; 0x266E56; 0xDFC04D; 0x251F00; 0xB1056; 0x3312CA];
   [0x93459D; 0x27551; 0x5C7CA5; 0x5793A0; 0x444B26; 0x2E17C0; 0x65465E; 0xDE0CFB; 0x246A04; 0x58A1E7; 0x2E6ED]];
  [[0xD9BCCB; 0x731CB2; 0x54E269; 0x298E40; 0x38BD8A; 0x1EF4E1; 0x536780; 0x8FC99C; 0x70FBA5; 0x23FE5A; 0x3086A6];
   [0x5F65D4; 0x18B097; 0xD107; 0xA7F701; 0x6D932A; 0x645C66; 0x31D996; 0x21F472; 0x3E05E2; 0x566358; 0x20AA4B]]];
 [[[0x36494; 0x2C1376; 0x3827F0; 0x602697; 0x7FBAE0; 0x23C27C; 0x77FD3B; 0xD682CE; 0x127C; 0x1800D0; 0x434FAA];
   [0x97CE18; 0x6C7E53; 0x2407FE; 0xE59769; 0x49091C; 0x5990C5; 0xA8116; 0x6EF1DA; 0x50BE84; 0x409E8E; 0x32E15]];
  [[0x8BA0CB; 0x24C765; 0x25C9B4; 0xBEB81D; 0x5F5936; 0x398905; 0x19ABFF; 0xD2850E; 0x17E744; 0x6ED216; 0x5B3A87];
   [0xD9750; 0x5A6DCD; 0x23AC02; 0x193FD3; 0x311A37; 0x18B521; 0x41715F; 0xB7BEE0; 0x4A2676; 0x9D393; 0x51FD17]];
  [[0xBA8CD3; 0x1C0A4F; 0x7FF7A6; 0x61749E; 0x12F613; 0x1F7746; 0x18B9B4; 0x55F5A2; 0x39E0C6; 0x2C981C; 0x252009];
   [0x3B1F03; 0x24B0F4; 0x2D9C8D; 0x5B3BC2; 0x13D8D6; 0x1AE9C3; 0x365B85; 0x47917C; 0x3A827D; 0x6AC519; 0x42EF23]];
  [[0x58227A; 0xC7436; 0xA3CE3; 0xAC1B52; 0x26B67; 0x2D123; 0x1FFB2E; 0xDF0227; 0x3158E6; 0x619FE2; 0x3BDF03];
   [0xB4A505; 0x38DD5F; 0x129DC1; 0x35123F; 0x18810B; 0x23ECA8; 0xF60A9; 0x67E897; 0x2B00B6; 0x35E5A1; 0x50D661]];
  [[0x6D68FC; 0xB651D; 0x3E52A8; 0x5ACD99; 0x216D3E; 0x4C0891; 0x621922; 0x58B412; 0x7F124C; 0x597E66; 0xFAB72];
   [0xFAF9A7; 0x74624D; 0x5AE3A4; 0xA54BEE; 0x4EB36; 0xDC858; 0x30603; 0xA8E0B4; 0x232FA4; 0x13D254; 0x20B631]];
  [[0x3E9997; 0x50A360; 0x4BAD00; 0xAB737C; 0x7E4EE9; 0x73ACDF; 0x7C4D6E; 0xA39D1C; 0x42570D; 0x33830B; 0x8E1D4];
   [0x583D12; 0x5EA888; 0x26BED7; 0xC1B988; 0x39E362; 0x7B873E; 0x5C3583; 0xEB9BA2; 0x638B35; 0x148D21; 0x1B932B]];
  [[0x2B37C3; 0x2F929B; 0x2CCC0B; 0x24809E; 0x4FF9D5; 0x99837; 0x64A89F; 0xC0C429; 0x7035B1; 0x261985; 0x331EBF];
   [0x132A81; 0x604DFD; 0x3EF4A; 0xFECB3D; 0x8A863; 0x7FF6C4; 0x1F6DF0; 0xBD475A; 0x4FC4E2; 0x61E60C; 0x3C7003]];
  [[0xD82392; 0x774CFB; 0x11493F; 0x7D13D1; 0x5A8E0; 0x36AD5D; 0x231BED; 0x6C009E; 0x599C2E; 0x2294D8; 0x77C42B];
   [0x44379A; 0x456F09; 0x385653; 0xEFE8AC; 0x4C24E0; 0x37DA15; 0x2B9F25; 0xE34D0C; 0x566C76; 0x30810A; 0x782A2F]];
  [[0x2AE6A8; 0x49620; 0x144B79; 0xEDD792; 0x7D310C; 0x752D40; 0xCE8A0; 0x440AAB; 0x7A9135; 0x324DA4; 0x22CA7];
   [0x1E7545; 0x5E29F4; 0x39D31B; 0x60119F; 0x521746; 0x334BCB; 0x6F2A29; 0xF2D35C; 0x622340; 0x4E3832; 0xB1869]];
  [[0x35F98E; 0x54DCDC; 0x537A8; 0xEA6A6E; 0x247B34; 0x29BD4F; 0x61AE41; 0x9B51AC; 0x16A791; 0x55445E; 0x4F050E];
   [0xDC4CB; 0x1AE73A; 0x4BD8B2; 0xE459A8; 0x40AF9C; 0x73F418; 0x4B87C6; 0x74AA9F; 0x2F4063; 0x7AC805; 0x16C70F]];
  [[0x62EAB1; 0x54EBAD; 0x1F2558; 0xF0079A; 0x7D23A9; 0x5BF1F5; 0x4E2647; 0xA0F501; 0x278FBD; 0x25F639; 0x441A71];
   [0xF8A724; 0x34DAD4; 0x4C22C9; 0xB48AB8; 0x356CF; 0x596FDE; 0x317CF9; 0x3F2657; 0x381653; 0x50040E; 0x55A4A1]];
  [[0xEDE34B; 0x56B7CD; 0x2EF4B0; 0xE81239; 0x533D1B; 0x62E46C; 0x5A9C1B; 0x56141C; 0x3E618F; 0x75FB2A; 0x1440CE];
   [0xCED2B3; 0x63FD4A; 0x487E7B; 0x8BFD17; 0x612FE8; 0x18078E; 0x1A43E6; 0xCA1FDE; 0x4D5027; 0x686BA9; 0x5C5F64]];
  [[0x6B794B; 0x3E8078; 0x725DFB; 0x3E642; 0x3284D3; 0x6EEFC1; 0x1A1987; 0x16E28C; 0x113F3C; 0x3E8399; 0x287A14];
   [0xBDAF78; 0x13F588; 0x3E90C4; 0xD74064; 0x42B810; 0x5F4A46; 0x543784; 0xDB74C5; 0x459CD7; 0x7531F3; 0x55B5A4]];
  [[0x1A34E7; 0x2AEEC8; 0x323D42; 0xEABD9E; 0x718F6; 0x1BD5B; 0xC39BC; 0xB62821; 0x561E9A; 0x1FBABE; 0x311DCD];
   [0xBEEAE4; 0x3E6854; 0x2AE46E; 0xE57DCB; 0x4F1D7E; 0x61FDF3; 0x262088; 0x6BA852; 0x4FBF3F; 0x19B907; 0x5993AA]];
  [[0x2F3F67; 0xA5A43; 0x6CED05; 0x42972A; 0x27B1D7; 0x2E72AE; 0x56B1CB; 0xC6C042; 0x1AA312; 0x23387A; 0x3C0940];
   [0xF0C8DC; 0xD1A71; 0x38280; 0x98AB5B; 0xAA672; 0x542D; 0x5924A7; 0x9C972A; 0x18581C; 0x446E5A; 0x2EF656]];
  [[0x5F254D; 0x2CA014; 0x274390; 0x5F1C09; 0x2A9A4C; 0x7503A3; 0x71F4B9; 0x667201; 0x24873C; 0x1FE8DB; 0x265A01];
   [0x80223D; 0x339C4; 0x5B64C0; 0xA79EED; 0x59C957; 0x5E2D2E; 0x34AC78; 0x2BAFEE; 0x778F99; 0x4D908C; 0x1C71C6]]];
 [[[0x7525D6; 0x78DFD0; 0x1AC075; 0xF76FA4; 0x219F6A; 0x23F7CB; 0x236512; 0x8E5237; 0x768B95; 0x1F359E; 0x7BC8CE];
   [0x2B44FC; 0x6A2BEB; 0x5919FE; 0x4D26D0; 0x12E603; 0x35F223; 0x45E5BE; 0x7A242E; 0x52F654; 0x463CC4; 0x7D62C2]];
  [[0x725350; 0x55207F; 0x19B576; 0x77FB10; 0x3DB655; 0x60FCDA; 0x7593DB; 0x1E1420; 0x148D4C; 0x257261; 0x12B622];
   [0x68CF96; 0x3F92AE; 0x548833; 0x1EFE5D; 0x5E4445; 0x4C80EA; 0x24D667; 0x9CEF0B; 0x7834DE; 0x246306; 0x32BC94]];
  [[0xD15DFB; 0x5373DE; 0x23474D; 0xB4F94C; 0x6DE5AE; 0x2F13F2; 0x8C966; 0xD9C843; 0x6152D1; 0x3AB7F0; 0x542CFC];
   [0xECDC3F; 0x57D935; 0x3FD00C; 0x29A8C0; 0x15C42A; 0x24D14E; 0x3C9CA5; 0x8E67D4; 0x30ED8B; 0x77755C; 0x490705]];
  [[0xA0236C; 0x239926; 0x860D0; 0xC90CD5; 0x3F7701; 0x6A3B4E; 0x38FDDB; 0x92E0E2; 0x64FAA4; 0x54A42A; 0x664E83];
   [0xBAE781; 0x11625D; 0x3FF2BE; 0xB48675; 0x33D5A4; 0x46E677; 0x5C79EC; 0x3EFC01; 0x687DF; 0x3F98E6; 0x57654A]];
  [[0x7C9D05; 0x6E343C; 0x6CA1D5; 0x45CD0; 0x464424; 0x5D6BB6; 0x5D7662; 0x795A8B; 0x678F1; 0x42EAF9; 0x76F6DB];
   [0xA709D2; 0xCF913; 0x392FD7; 0xC45B5F; 0x6D4BFE; 0x7F5BBB; 0x7C0A94; 0xC8F23E; 0x22B535; 0x2AB090; 0x2E9B77]];
  [[0x1791A0; 0x75D057; 0x7D4EEA; 0x3876FE; 0x21CF5E; 0xE949E; 0x54DD38; 0xA4D9B8; 0x5C64BF; 0x12AA75; 0x427813];
   [0xA2F134; 0x57EE9E; 0x6685A2; 0xC39E70; 0x5C02EE; 0x28E089; 0x16D61B; 0x91565C; 0x7FE441; 0x441BC2; 0x4FB186]];
  [[0x9F9253; 0x44FEB; 0x6A66A4; 0xE8981D; 0x51448B; 0x5BA13C; 0x5581CF; 0xE8DD5B; 0x78C1B6; 0x3CA471; 0x8E7A6];
   [0x5393E2; 0x4204D4; 0x211A2A; 0xB3D008; 0x1CFAF3; 0x68C84; 0x504638; 0xDC6FBE; 0x605F56; 0x7CE2A4; 0x17AC9D]];
  [[0xE75974; 0x72E0A3; 0x6950E5; 0x7C5A29; 0x512AA; 0x2A144F; 0x1214FA; 0xB04BDE; 0xCC72A; 0x2DD6C9; 0x200FEB];
   [0x7358CA; 0x39CE66; 0x3E83; 0xB9546A; 0x460D56; 0x1A5A98; 0x12E16F; 0xCE362B; 0x6563AD; 0xC7CFB; 0x164A2]];
  [[0xA74C0C; 0x29F428; 0x37267E; 0xC65194; 0x43C78F; 0x69B993; 0x3AA947; 0x88BC88; 0xB40A1; 0x3E35D0; 0x1B4097];
   [0x286354; 0x75D2BC; 0x5D7F2F; 0xBD4F51; 0x6A5900; 0x308202; 0xE81D9; 0x453B04; 0x6B1E9A; 0x63911F; 0xFD0D6]];
  [[0x6EFE04; 0x47D6E6; 0x20EA2; 0x43B88F; 0x6A837A; 0x11DB56; 0x4C3742; 0x803C38; 0x1A9540; 0x1A1F6E; 0x2D2188];
   [0x9722F0; 0x79FAD8; 0x6D15C3; 0x7C9007; 0x23E12A; 0x9E88F; 0x38D49A; 0xB87971; 0x54EA95; 0x3BED25; 0x3C9370]];
  [[0x730AAD; 0x74B69E; 0x18A010; 0xACF869; 0x202D91; 0x618FE7; 0x3783B; 0x322502; 0x4702AC; 0x75B517; 0x36900B];
   [0x3FB20A; 0x437022; 0x3D242B; 0xFEE4F4; 0x276D11; 0x40A87C; 0x61F26A; 0xF66A5B; 0x76128D; 0x2AD91A; 0x7D1259]];
  [[0x7628C3; 0x73E024; 0x23855F; 0x4B1FBD; 0x684558; 0x5CB959; 0x5ED77A; 0x8234D5; 0x1DF835; 0x194398; 0x209BA1];
   [0x632779; 0x194050; 0x6E13F1; 0x8FA4BC; 0x464026; 0x13B9ED; 0x3DCB10; 0xBD9EE5; 0x757CA6; 0x7A0F71; 0xB4460]];
  [[0x12D2C5; 0x5F26F3; 0x3FDA58; 0x9F0D33; 0x1A9FC7; 0x412B7C; 0x5BD541; 0x275539; 0x26899F; 0x62067D; 0x4ABE07];
   [0x9290FF; 0x8F902; 0x5B3174; 0xBD00F1; 0x6F6CFA; 0x703B6C; 0x4B306D; 0x331AC1; 0x703E76; 0x4712AD; 0xC81F8]];
  [[0xFE693D; 0xF4508; 0x2FCF8; 0xE0954B; 0x40F5D; 0x5C00E7; 0x700B3A; 0x420CF9; 0x2B08A6; 0x160E5F; 0x1712CE];
   [0xA1DBED; 0x787A0A; 0xBCD4C; 0x62D939; 0x6B28AC; 0x164809; 0x7F6FE7; 0x5D1F67; 0x557447; 0x62C3E0; 0x476FD0]];
  [[0xB36FBF; 0x3D80AA; 0x214159; 0xE99663; 0x58CDAA; 0x14C3F2; 0x3D868E; 0x35B474; 0x1D1436; 0x48E40; 0x6AAF0D];
   [0xD0E8D0; 0x5BDF3C; 0x258CC0; 0x828F97; 0x12E7A5; 0x4BAF68; 0x4E71C5; 0x2A2699; 0x6A772A; 0x17160A; 0x40BDB6]];
  [[0x2BCD28; 0x6CCC00; 0x4C1CF7; 0x1BA30A; 0x6097CD; 0x5D0B45; 0x2C9DCF; 0xC3CD03; 0x489B87; 0x7C9642; 0x5A0A68];
   [0xD7C516; 0x54FD9C; 0x1F2677; 0x4F48D5; 0xB6C13; 0x78D063; 0x5298BA; 0xB8780E; 0x220AF4; 0x76896; 0x27744]]];
 [[[0x259121; 0x780B29; 0x39769; 0xEB5E49; 0x50B31; 0x92C3; 0x4A18D1; 0xBEE193; 0x21482F; 0x18C2E7; 0x18F417];
   [0x3B3193; 0x535E04; 0x500D71; 0x36E3E0; 0x6FF0A5; 0x7EA7BE; 0x407708; 0x630180; 0x7BF646; 0x576B67; 0x7CE956]];
  [[0x171587; 0x655CC1; 0x488679; 0xCE4CA9; 0x41352; 0x7263F6; 0x10ADD3; 0x76CB5; 0x3EB667; 0x6C507D; 0x79534E];
   [0x1F5C5D; 0x303618; 0x7DBD5; 0xDB229; 0x7DA0B0; 0x423931; 0x47CEA2; 0x78D1CB; 0x147094; 0x7B2327; 0x417208]];
  [[0x9DFEFF; 0x33C1FF; 0x3D13CC; 0x22EFEF; 0x7FE948; 0x5EEFB8; 0x1AD2B7; 0xE96C81; 0x26BBFC; 0x2585EE; 0x745C59];
   [0x9DCD65; 0x21489A; 0x4480; 0x60657; 0x3701DD; 0x5D19B3; 0x75E1C0; 0x3892E0; 0x64F9DE; 0x35DC27; 0x22C79F]];
  [[0x58C6F2; 0x752404; 0x6C8922; 0xE6C036; 0x4204FF; 0x2ED321; 0x3D0BB2; 0x6D9D7A; 0x6E5E62; 0x4F1C35; 0x7EF78D];
   [0x9190F7; 0x5FBA14; 0x4879E5; 0xA6E235; 0x5DD8F6; 0x554643; 0x90E18; 0x611285; 0x1AEA18; 0x72B543; 0x2593AC]];
  [[0x59C268; 0x12165B; 0x159FF5; 0x3F5872; 0x4905ED; 0x1BF4B6; 0x355284; 0xD00A03; 0x1B4A76; 0x31B3A5; 0x5DDE8F];
   [0x61678D; 0xF2A71; 0x1FDD6E; 0x76A915; 0x582B74; 0xDA16F; 0x345F20; 0x634760; 0x51ED40; 0x6A3D97; 0x190B8F]];
  [[0xEECAB3; 0x2F2403; 0x636CBA; 0xA54BAF; 0x7D99BA; 0x7FB3D; 0x3C3EAC; 0xEF42B; 0x198349; 0x2E9959; 0xF2F86];
   [0xB9D5F6; 0x463217; 0x74FAC; 0x1183B8; 0x2C896F; 0x55F891; 0x105639; 0x72DF59; 0xD9B72; 0x7D9093; 0x4EAA60]];
  [[0x9F9703; 0x1B0826; 0x76FA46; 0x826948; 0x4D4814; 0x50B57C; 0x5C41CC; 0xA88628; 0x5D3BCD; 0x1C7176; 0x554D0A];
   [0xB63C62; 0x561A3E; 0x57E7D3; 0xF1D376; 0x2E45AC; 0x5D7F33; 0x698C00; 0xF7C938; 0x36EEFA; 0x5C1FAC; 0x5D1B2E]];
  [[0xF53650; 0x69380C; 0x12C364; 0x32E8A7; 0x515F1E; 0x1F9182; 0x68DEE7; 0xCCF589; 0x76EE01; 0x29DF93; 0x787773];
   [0xB3DDF7; 0x53B71C; 0x6F8FD; 0xDFF4AB; 0x6B924; 0x7E2A66; 0x4A7D4B; 0xAF1A4A; 0x57F48B; 0x44541B; 0x49AD77]];
  [[0x5F6754; 0x7B1268; 0xCA1F5; 0x4DE64; 0x4FD873; 0x3036C4; 0x41B763; 0xFCE495; 0x200179; 0x5F6BDA; 0x68ED61];
   [0xC95FCE; 0x477FE; 0x580F29; 0xBB42ED; 0x750145; 0xDC207; 0x2BEC56; 0xEB7195; 0x1693A1; 0x3EB07D; 0x135B86]];
  [[0x66889B; 0x17A14A; 0x2DF300; 0x2BBAB9; 0x15E56C; 0x2EB2BA; 0x1D111B; 0xBA9054; 0x69E112; 0x7A15D8; 0x436DD2];
   [0xE27B51; 0x73DEE8; 0x7A67DC; 0x55BEAF; 0x4FDE98; 0x1CCAC5; 0x57571D; 0xB71DD1; 0x5EC9C2; 0x698B19; 0x572BAF]];
  [[0xFE2F09; 0x4CCD1B; 0x5B6C69; 0xCE2291; 0x36C67A; 0x1AA26F; 0x482976; 0x346C9; 0x71FA32; 0x6AAA17; 0x66681D];
   [0x6DEDEE; 0x5A67B7; 0x66E9D5; 0xF07923; 0x767A82; 0x60641F; 0x5C4851; 0x77DBEB; 0x6550C4; 0x5C811B; 0x204A6C]];
  [[0xF41270; 0x7228A8; 0x23FE22; 0x87E9E0; 0x1016E1; 0x2EA90D; 0x3BEE12; 0x2DA75; 0x486C8C; 0xFFBE4; 0x161DF5];
   [0x73031B; 0x68C340; 0x5C0685; 0x27F000; 0x28653F; 0x5D1D2F; 0x3F0628; 0x66005A; 0x5AD814; 0x1BCF2; 0x32CEE0]];
  [[0xADB2E0; 0x483DBE; 0x626B68; 0x4FB784; 0x350F94; 0x357148; 0x7F0B6D; 0x29332B; 0x3AD1F4; 0x1F3681; 0x71D76B];
   [0x26BAF9; 0x473D14; 0x21B2C; 0x941016; 0x4F652A; 0x7D3A99; 0x4ABBAD; 0x87A405; 0x547B1; 0x59E149; 0x541E49]];
  [[0x694346; 0x42316D; 0x758401; 0xD76375; 0x5ECFAE; 0x680B14; 0x26EA25; 0x70619; 0x58D41C; 0x48DB6A; 0x62542];
   [0x3DE6A0; 0x3469E5; 0x302B64; 0xCD8BF2; 0x45419E; 0x1E9AAF; 0x3EFC2C; 0xE12629; 0x60F16E; 0x48A125; 0x2969D8]];
  [[0xC271BD; 0x53BE38; 0x373A9B; 0xAB74E5; 0x676622; 0x5F7345; 0x7A6084; 0x95988C; 0x55BB90; 0x411396; 0xE67BF];
   [0xCF58AC; 0x60BB94; 0x46BFAD; 0x3C68E3; 0x748102; 0x647558; 0x5B14F7; 0x494DA5; 0x2AB3B3; 0x65BA0F; 0x5C011D]];
  [[0xD13FD0; 0x51781B; 0x28EAA9; 0x38E655; 0x624813; 0x476802; 0x73DD34; 0x19666A; 0x479419; 0x2D06C2; 0x52A1AF];
   [0x3684D7; 0x3EE24A; 0x5496AF; 0x4899AC; 0x5FC959; 0x7950D6; 0x180144; 0xDF7129; 0x14AFF7; 0x7D7BA5; 0x7347EA]]];
 [[[0x978880; 0x5E66D; 0x3D5998; 0x8F2D63; 0x3E9896; 0x2DCC8D; 0x789105; 0x786FAC; 0x6486C; 0x4DEBB7; 0x7C6948];
   [0x1922F1; 0x3D924D; 0x5E5FB; 0xCEF8A3; 0x4EBF60; 0x39779; 0x1D5AD8; 0xAEAD3B; 0x3178D9; 0x11AF88; 0x4858F6]];
  [[0x17EA11; 0x2925A4; 0x22EBC5; 0x8C6F13; 0x68235B; 0x7668E; 0x789C73; 0x63577F; 0x19C095; 0x54C609; 0x228B12];
   [0xB423B7; 0x7B3E73; 0x6F374; 0x32C99A; 0x33919B; 0x4480AF; 0x7CF2DC; 0xDF4C55; 0x194F69; 0x2FA8A; 0x273C64]];
  [[0xB22D03; 0x4609D0; 0xE534B; 0xB53A66; 0x13A238; 0x35DF0D; 0x2227E6; 0x925830; 0x4B0D8E; 0x45DD96; 0x489148];
   [0xA0967E; 0x2AE5BC; 0x796CFA; 0xCD72AF; 0x5B6940; 0x12BBA; 0x5FC6EF; 0xDCD6CA; 0xD4575; 0x3A665E; 0x4D067C]];
  [[0x1AECD9; 0x273F6F; 0x25F83B; 0xFFD158; 0x133FE6; 0x1F91CB; 0x7C28C3; 0x2B2923; 0x28D2B0; 0x267588; 0x5BED5F];
   [0xEE613B; 0x2D41FF; 0x611238; 0x37C033; 0xA5923; 0x40AA8E; 0x226F22; 0xACB580; 0x332B6F; 0x573DBD; 0x58D53]];
  [[0xB6527; 0x633B9B; 0x15CA8A; 0xCAF1F7; 0x14FEBC; 0x404B31; 0x5DE86F; 0xE40657; 0x40EE16; 0x6745A5; 0x1CC28B];
   [0xD0A46D; 0x52FCCC; 0x5B6FE6; 0x9F4694; 0x3EE682; 0x135F2D; 0x6B1F49; 0x903C8F; 0x66F07A; 0x67D510; 0x6FBACA]];
  [[0x996ED6; 0x5D39E4; 0x1A204F; 0x48C691; 0x4EDCA1; 0x326EA; 0x5897F6; 0x5DAFAA; 0x7CE893; 0x1521A8; 0x720EC4];
   [0xB2D745; 0x44D634; 0x645385; 0xFCF90E; 0x5705FF; 0x194811; 0x465D27; 0xDA9D7A; 0x183FEE; 0x33D943; 0x3FD6A9]];
  [[0x667E0F; 0x755AD8; 0x555F7B; 0xC2071C; 0x3AA31C; 0x27748C; 0x65D71F; 0xB8551F; 0x5831C5; 0x7409; 0x19AE44];
   [0xC46447; 0x28055B; 0xAAEBC; 0x811E2C; 0xA161D; 0x5417D2; 0x532D53; 0x195F30; 0x7ADD3B; 0x79DFD4; 0x4C7DEA]];
  [[0xAA87C8; 0xAA2A3; 0x21BFFE; 0x7EEC07; 0x165806; 0x1D2B43; 0x7D76F2; 0xD7F740; 0x3CD969; 0x4EFCFC; 0x4B057E];
   [0x812859; 0x262F51; 0x5521D1; 0xA51059; 0x374C25; 0x6ADA14; 0x76B74A; 0x6F1B1A; 0x5EAF40; 0x24DA86; 0x7F9103]];
  [[0x9A47A8; 0x24BD4E; 0x47520; 0x94EB12; 0x9C313; 0x2CA8A1; 0x2E7050; 0xD0760D; 0x7B653F; 0x135449; 0x79DBC7];
   [0x7D4BFD; 0x6CBD61; 0x1AF365; 0x41A9E7; 0xEA23B; 0x496E3; 0x7D8894; 0xD7926C; 0x48D1E6; 0x21BA7D; 0x76D264]];
  [[0x4D6735; 0x349533; 0x26B4B7; 0x938C63; 0x259D23; 0x327F58; 0x972E6; 0xDFCD69; 0x4A4323; 0x7FE26C; 0x1F308C];
   [0xB5CA15; 0x13066F; 0x554ED3; 0x92A76E; 0x767C40; 0x1BD5A; 0x7F0EC1; 0x4E5BCB; 0x33C8BC; 0x384042; 0x28DAF3]];
  [[0xBB2865; 0x74D6A2; 0x7D552B; 0x5E0EAF; 0x7BD504; 0x79341F; 0x64542F; 0x445DD5; 0x289614; 0x9E5FF; 0x2F0D16];
   [0x118DE4; 0x61DD1F; 0x4282EE; 0x5DF2AC; 0x4951DF; 0x7C84E0; 0x6F8826; 0x545F9D; 0x50CDEE; 0x3414C7; 0x228E14]];
  [[0x21FB0D; 0x54D257; 0x71F975; 0xFB2766; 0x49536E; 0x6245E8; 0x90378; 0xA7124C; 0x7CD78C; 0x163C62; 0x1C1D00];
   [0x41A6D3; 0x7CEA65; 0x384B4B; 0xC28E24; 0x73484A; 0x457BD5; 0x258E54; 0x868651; 0xB50A9; 0x71A4E3; 0x405353]];
  [[0x7327CF; 0x5D8779; 0x3387AF; 0x892854; 0x6E7126; 0x4C6531; 0x2D3F16; 0xD279; 0x5A56F1; 0x126BC; 0x5F03F2];
   [0x24065F; 0x28A2BF; 0x690907; 0xE63938; 0x6A92A2; 0x12FA15; 0x2E3667; 0x301625; 0x68DFF5; 0x7C18F7; 0x57C821]];
  [[0xF6FB17; 0x117A2C; 0x702920; 0xD8E8DC; 0x583CF5; 0x581272; 0x14FA49; 0xBB02A; 0xBFAD2; 0xD7AF5; 0x3C597E];
   [0xDC1695; 0x7BDD76; 0x6DF467; 0x7F6B18; 0x14F2F0; 0x7C500F; 0x8D022; 0x1FBD4; 0x4DA576; 0x414183; 0x86206]];
  [[0x71E1BB; 0xF9619; 0x26D84F; 0x9F1C46; 0x5B79C0; 0x7AEEC3; 0x1874EB; 0x81978E; 0x293406; 0x1D4FC; 0x615B35];
   [0x182D40; 0x42A332; 0x17C797; 0xB3E39F; 0x429FC1; 0x75CDCC; 0x17A29B; 0xB485C4; 0x578E3; 0x267997; 0x22B736]];
  [[0x5B3F31; 0x208743; 0x5CE60C; 0xA70DDC; 0x739FA; 0x5A8096; 0x4765E; 0x60FD2; 0x317203; 0x78A3F6; 0x13A216];
   [0xF7310F; 0x6787A8; 0x4CA7F1; 0x58A285; 0x63A5F2; 0x2D9D33; 0xAE58C; 0x21A049; 0x5E164E; 0x53ABF4; 0x12DD24]]];
 [[[0xBAC990; 0xDAB38; 0x717BBA; 0xAC779D; 0x1DCA52; 0x300C2E; 0x2A2255; 0x5A0E8E; 0x15AB31; 0x313D50; 0x3E1B41];
   [0x528772; 0x3D56AB; 0x717BB2; 0x87E006; 0x42AF5A; 0x57EE11; 0x2AC11C; 0xB30A1D; 0x62AF80; 0x24671; 0x138392]];
  [[0x55EF18; 0x290769; 0xC06CC; 0x640FB7; 0x32AA7D; 0x37CE38; 0x559DB0; 0x9E8D04; 0x1BE9A9; 0x43CD9A; 0x616E9E];
   [0xA62590; 0x44D2E5; 0x438F19; 0x7C024D; 0x387E23; 0x12F97D; 0x593049; 0xBBE9F5; 0x2EB4C3; 0x492C4B; 0xBD31C]];
  [[0x4436A6; 0x2F9836; 0x3A1719; 0x13E3D0; 0x1CE66; 0x75D201; 0x70741C; 0x3D4468; 0x6001B2; 0x621CB4; 0x4C9A82];
   [0x35D65D; 0x71BB2D; 0x27A173; 0xB478E4; 0x3F0595; 0x2A36C0; 0x3F12EC; 0xB45D13; 0x7F8B60; 0x36D006; 0x5F7EAE]];
  [[0x57123B; 0x100AF5; 0x6392AD; 0xB520A8; 0x2B4722; 0xBE83; 0x671127; 0xDE2DD; 0x464F89; 0x4EDE64; 0x281953];
   [0x6E6D3; 0x2AA368; 0x4082CA; 0x403695; 0x6E19D7; 0x3560D6; 0xFD064; 0xE717EF; 0xA17BF; 0xFF54A; 0x18D167]];
  [[0xAF932F; 0x26788D; 0x1C3D62; 0x921966; 0x210E68; 0x4E43E2; 0x624FD4; 0x7DD4CB; 0x1A32DC; 0x3F5F83; 0x139108];
   [0xBE0A12; 0x560B9E; 0x2C4C1A; 0x7D3F45; 0x713917; 0x56EE5F; 0x506607; 0x6C8156; 0x2C0601; 0x45B886; 0x6D6ABD]];
  [[0xBE997B; 0x40C819; 0x47F984; 0xC09966; 0x1FFE5; 0x4210A5; 0x75DC7F; 0xE1BFAE; 0x41DF17; 0xDFA6A; 0x55903D];
   [0xCF7C69; 0x7788BB; 0x6A117E; 0x3E1AC5; 0x4BBCC5; 0x6902AA; 0x76BACD; 0xEC4DA9; 0x3047AA; 0x7F78BD; 0x40CD6]];
  [[0xB34AFC; 0x4F2803; 0x307B77; 0xF3B150; 0x71A656; 0x6D60F0; 0x320731; 0x606ECD; 0x66A1E7; 0x6D5EFC; 0x6DCA0E];
   [0x4B7A84; 0x2D8FCA; 0x68EACD; 0xB3D326; 0x21F003; 0x1274F2; 0x411750; 0xD7D4E4; 0x261A79; 0x6D0235; 0x5BB44F]];
  [[0x8CE9AA; 0x56FFF3; 0x7F6688; 0xA20E30; 0x1357D8; 0x3F97D1; 0x6C63EF; 0x5D64BB; 0x6175F3; 0x28FE8A; 0x26291];
   [0xA2F107; 0x6D1807; 0x4AD5AA; 0x63693B; 0x4CEADF; 0x439B15; 0x6BB209; 0x1E66A5; 0x502CC1; 0x30D183; 0x351D45]];
  [[0x460DBA; 0xD5151; 0x5A7EFA; 0xAB4F71; 0x286506; 0x4AC749; 0x70181C; 0x2D47B1; 0x2C7634; 0x68C60E; 0x41E76E];
   [0xDBE186; 0x486815; 0x458F1B; 0x13062C; 0x35B25D; 0x67BFA5; 0x49BFFF; 0xF9D3F; 0x72F711; 0x6E8339; 0x2ED76D]];
  [[0xDD873D; 0x68E0AE; 0x116017; 0x86B448; 0x586D70; 0x2DC600; 0x7DC061; 0x14AA5; 0x5E774; 0x64B836; 0x212A13];
   [0xD59FF3; 0x1F2261; 0x7EB978; 0x9DDAF1; 0x69D7F; 0x74317B; 0x8E97D; 0x15669; 0x7E18E6; 0x28F0F0; 0x24D9DB]];
  [[0x89C78A; 0x47CAE9; 0x647445; 0xE0FFD5; 0x50854E; 0x398C0B; 0x484454; 0xD147CC; 0x9414C; 0x49B209; 0x4216EE];
   [0x2C47B9; 0x23A77; 0x7769B8; 0xF0B4A1; 0x443DC; 0x7C6A84; 0x7F36D0; 0xD9584; 0x9D192; 0x5324D9; 0x8CDE7]];
  [[0xEBCF74; 0x450C29; 0x6EF4CE; 0xE76FBA; 0x781F10; 0x435C4; 0x43DA1E; 0x6BFF5B; 0x26CDB4; 0x47CA9; 0x34672B];
   [0xFE244B; 0x3776F7; 0x200F9D; 0x55D105; 0x398428; 0x159C77; 0x4B172A; 0x3C3DC; 0xC6478; 0x360E42; 0x4CCFCC]];
  [[0xA6089E; 0x52C74F; 0x3028CE; 0xDA6BE7; 0x159B0D; 0x25F04; 0x7F3B51; 0xEBC9A6; 0x410F2F; 0x1E2C8F; 0x44CD45];
   [0xFE529A; 0x5742FE; 0x6446CB; 0x4A884; 0x55474A; 0x3FE0AE; 0x6671D0; 0x497D2B; 0x55C10A; 0x48F2CC; 0x6C3D3D]];
  [[0xB5061A; 0x75965B; 0x4759AF; 0x74ED86; 0x68EECF; 0x6A53AB; 0xB476C; 0xAA39AE; 0x242F10; 0x16E0FD; 0x310C8E];
   [0xFAB3FE; 0x412CA0; 0x334AB3; 0x40E7A6; 0x6F4791; 0x24B661; 0x713F0; 0x35B195; 0x551A61; 0x4BC5DD; 0x1112B3]];
  [[0xEEDFDA; 0x43EF08; 0x7213CC; 0x55FF1F; 0xAF305; 0x52FA27; 0x277E8C; 0x875A0B; 0x2C9F3E; 0x58985; 0x68C97C];
   [0xF30FC3; 0x670E75; 0x6B3B6A; 0xAF87DB; 0x5C464A; 0x24A624; 0x7558E2; 0x937730; 0x5F3E2C; 0x4CF5B9; 0x5EA094]];
  [[0xD3CC63; 0xE5711; 0x1DC16D; 0x4A13FD; 0x4FE8D5; 0x302514; 0x6F576B; 0x7AC1DD; 0x40C7EA; 0x2175BC; 0x7E7325];
   [0x2B1252; 0x3D7D6A; 0x1CF79F; 0x2D0A89; 0x81836; 0x521DA; 0x71B27F; 0x9F8D74; 0x109461; 0x29855D; 0x47654D]]];
 [[[0x49F59D; 0x3D9378; 0x531A27; 0xD81B1D; 0x7A0818; 0x283F4B; 0x69AA59; 0xFBCF88; 0x194F29; 0x683FCE; 0x555BAE];
   [0x6D73CE; 0x50A230; 0x16AC25; 0x7FE177; 0x79A4A7; 0x240036; 0x78060E; 0xB4028C; 0x650D07; 0x74C9ED; 0x1BC10]];
  [[0xD581B9; 0xA2BB8; 0x1A6502; 0x48F62D; 0x259F0C; 0x594632; 0x3D1E9F; 0x1BBAB7; 0x4EF7A0; 0x21EEB3; 0x23620C];
   [0x3A641C; 0x58B33A; 0x4729CE; 0x600724; 0x5E4C80; 0x6F5FC3; 0x1CB9C0; 0xD4C679; 0x67E0DE; 0x7918C5; 0x446E3C]];
  [[0xFCF7B6; 0x2A4017; 0x770419; 0x9EBA8C; 0xC0745; 0x56DAC; 0x6BE2AE; 0xD5418B; 0x59BCAE; 0x5EB51A; 0xA7CFF];
   [0x146CD4; 0x5F21A7; 0x732219; 0x708B02; 0x59FF76; 0x223DE6; 0x68D0EA; 0x95440B; 0x4AC2BE; 0x44CD99; 0x418B1F]];
  [[0x7826E7; 0x302147; 0x4239FE; 0x12F403; 0x66A878; 0xBB8B3; 0x657754; 0x956FD7; 0x2ABB73; 0x4B585E; 0x1D0D54];
   [0xD8482A; 0x490F0D; 0x587E9A; 0x633FC6; 0x47A327; 0x2FE955; 0x2C1A30; 0x299544; 0x12A81A; 0x1B2908; 0x6A4721]];
  [[0x10E70C; 0x1F9118; 0x7A2E42; 0xAD234C; 0x67A2B5; 0x45B66B; 0x775A55; 0xCE1819; 0x36B0B3; 0x9BD41; 0x357CCE];
   [0x17F79E; 0x31F0EF; 0x297396; 0x9B34C2; 0x3763BA; 0x7CD667; 0x27859A; 0x65B432; 0x4FFA96; 0x2D2331; 0x5046AE]];
  [[0x6316B9; 0x321283; 0x13534D; 0xA66C71; 0x41D154; 0x3BF498; 0x21F82F; 0x29DB77; 0x4A36E0; 0x263FF9; 0x703088];
   [0xDC79C4; 0x37B8E9; 0x4453ED; 0xA2C845; 0x64D04E; 0x3404E0; 0x75E149; 0x8FF0EF; 0x3532A0; 0x4B7BF9; 0x51B403]];
  [[0xD0B765; 0x6D30B8; 0xEA988; 0xC14682; 0x54EF11; 0x64F84D; 0x56C161; 0x8DF7C5; 0x504962; 0x486862; 0x72A82D];
   [0x77FA35; 0x14BC95; 0x20003C; 0x4F613A; 0x56E698; 0x605FF1; 0x53BEE6; 0x3D3088; 0x566658; 0x72C01C; 0x128DDA]];
  [[0xB5B469; 0x265F62; 0x740D01; 0x2737CE; 0x16B851; 0xB913E; 0x365599; 0xCED53E; 0x31BE6; 0x7B5B7; 0x2826D2];
   [0x7CE72C; 0x35F7AE; 0x122292; 0xF0BCF2; 0x583D09; 0x865FB; 0x4255E4; 0xC0E15D; 0x14E9D6; 0x65A407; 0x113864]];
  [[0xD0FA32; 0x731256; 0x8677B; 0x58BD3; 0x11CF96; 0x1E2EF5; 0x725AB8; 0x5A8080; 0x6AEB60; 0x6FE8CF; 0x7F2F4F];
   [0xC3108A; 0x760FFA; 0x5F4E31; 0x71D122; 0x17DEC0; 0x4BCA9E; 0x140AF5; 0xCB9CE3; 0x14BFC1; 0x64DA23; 0xC63A5]];
  [[0x66EFDB; 0x2864DE; 0x7211BA; 0xD9EAA4; 0x593664; 0x37C3A8; 0x6DE16A; 0xD849C3; 0x331ED5; 0x5C0AE8; 0x41D7E1];
   [0x8CE7E3; 0x4DF2A8; 0x39C4B2; 0x1A054E; 0x651CF9; 0x1B953C; 0x3FF29C; 0x7BF5B4; 0x322902; 0x942AC; 0x152316]];
  [[0xDFBF1A; 0x5DD706; 0x665070; 0x4EA28B; 0x253E73; 0x5DF0EC; 0x175C48; 0xD7A1A4; 0x793351; 0x29BF8; 0x434300];
   [0xCB3A82; 0x6DE550; 0x41DC49; 0x82B72D; 0xDC7E4; 0x61BB06; 0x26A846; 0xCC5702; 0x5E2CDD; 0x7063CA; 0x3C8621]];
  [[0x181E78; 0x77B355; 0x418907; 0xD9A8F6; 0x72DED2; 0x4E3E02; 0x4E03AD; 0xF3B5A8; 0x50F28E; 0x6CF224; 0x24C9C3];
   [0x850A90; 0x623DEB; 0x24F9A6; 0xD6DFA0; 0x48D930; 0x16FD61; 0x20F2BD; 0x6DACA1; 0x3AE220; 0x446D52; 0x49678D]];
  [[0xF04B0C; 0x586E6C; 0x9DA9E; 0xACA51E; 0x779415; 0x693107; 0x727567; 0xD0F4C5; 0x2C7C2D; 0x6A4DC6; 0x7BE95F];
   [0x19999C; 0x7F0AEF; 0x7C8778; 0x2D0089; 0x4CD9C4; 0x56522D; 0x396E96; 0x7ABC11; 0x33E16F; 0x5E515A; 0x5E9DD0]];
  [[0x1F0474; 0x4D7C5A; 0x7B2A69; 0xC61380; 0x7415C0; 0x1C95A8; 0x338442; 0x5479B1; 0x59192B; 0x29E0CF; 0x6FA0A0];
   [0x4F6E5A; 0x7DA4EC; 0x2E8E89; 0xABDC5B; 0x40143A; 0x766FBA; 0x7A98D8; 0x63DA1D; 0x6373BE; 0x2952A0; 0x68B7FE]];
  [[0x3C913F; 0x2C389; 0x1BB9C3; 0x40D559; 0x543B6F; 0x5E27BB; 0x51477D; 0x18DE74; 0x617EB9; 0x410DFE; 0x1E172F];
   [0x83EE97; 0x79C4B1; 0x70D016; 0x9399BA; 0x32C96A; 0x667A8E; 0x3D5F84; 0x608421; 0x6E6662; 0x8B758; 0x1D9639]];
  [[0xA6524D; 0x74CFF4; 0x26D563; 0xA1F297; 0x3FA9DE; 0x73EA40; 0xE3CE4; 0x492223; 0x638A0B; 0x47888B; 0x50A52B];
   [0x21A754; 0x6812D; 0x59DFAC; 0xB33A1F; 0x7B6001; 0x45BA94; 0x187867; 0xD3B5C2; 0x7F2118; 0x91632; 0x1CE749]]];
 [[[0xC5B684; 0x3B82D3; 0x7BB04F; 0x6CD54F; 0x17CB99; 0x5C4905; 0x13115; 0x11FE8; 0x274533; 0x283F47; 0x2C4F1C];
   [0x251A27; 0x7B5C49; 0x3D9D4C; 0xE97FBF; 0x1F3DD9; 0x49FA49; 0x6C76A8; 0x9EFFDD; 0x70FD77; 0x197D68; 0x43D69E]];
  [[0xF54825; 0x4E704B; 0x5B81C6; 0xF6C679; 0x4A0326; 0x993ED; 0x223F94; 0x5CACE3; 0x79C440; 0x1BF3AB; 0x4F0A3D];
   [0x94C40C; 0x4AC81F; 0x7FF007; 0xE4DA23; 0x12C360; 0x679697; 0x91A3D; 0x6BB95A; 0x5FF46C; 0x3D9D5F; 0x6C42A5]];
  [[0x8C8CCF; 0x7FC2E6; 0x63D1F2; 0x73B8A7; 0x4CFD1D; 0xA0D59; 0x67D4C7; 0xF46F06; 0x44A4E; 0x7884E7; 0x11BD78];
   [0xE46006; 0x593D9C; 0x600552; 0x9BE40C; 0x6F055F; 0x50000F; 0x7CAEF7; 0x487980; 0x18C50F; 0x2C8819; 0x1C9DF4]];
  [[0x142486; 0x11204B; 0x546138; 0xA0F3FD; 0x7C7277; 0x62F53E; 0x405474; 0xE13911; 0x73FFC0; 0x3F1CE2; 0x4E8EC0];
   [0xCEA3A2; 0x6ACFEA; 0x644863; 0x6C5ADA; 0x59B648; 0x5EE6F5; 0x6B9451; 0xC22C63; 0x250D0A; 0x40C2E2; 0x633B20]];
  [[0xDF8D9; 0x6FDE02; 0x7BC761; 0xDD1647; 0x3946F5; 0x4F8B89; 0x21BD28; 0xD13F8D; 0x26F183; 0x3CAFFB; 0x526839];
   [0x2D8549; 0x51C848; 0x65DAAB; 0xF4931B; 0x1DB7B7; 0x6B5984; 0x2D8C2; 0x399E59; 0x348B00; 0x2C9BAC; 0x561D0]];
  [[0x2E9251; 0x730381; 0x158D1C; 0xEAA590; 0x555783; 0x3A7A13; 0x7834C8; 0xACBD10; 0x6C9902; 0x23C1F1; 0x1B3699];
   [0x96FFD5; 0x7117AC; 0x24B6B; 0x8D0146; 0xE4DC9; 0x191916; 0xFC5A6; 0xFE7250; 0x198308; 0x1FAC2; 0x24DA1C]];
  [[0x8A2315; 0x7E110A; 0x5E7BF4; 0x7BEAF8; 0x3605ED; 0x1F3AF3; 0x7876E7; 0x46E4E3; 0x6EC7A7; 0x74A230; 0x7EF25D];
   [0xF6E54; 0x1AD49C; 0x52B335; 0xFE212A; 0x3A9CF2; 0x318045; 0x58F544; 0x65B525; 0x3D646B; 0x4DA78A; 0x552661]];
  [[0x3F6E66; 0x7E10BA; 0x341D94; 0x4AB8A0; 0x4ED33D; 0x2E5C25; 0x109A3B; 0x1454FD; 0x7C8D6A; 0x7942BA; 0x2B4544];
   [0xBE14E9; 0x446F85; 0x75AA4C; 0xBEFBB7; 0x354E79; 0x41906F; 0x40AC0F; 0xC8D73F; 0x1F31BC; 0x662285; 0x27E73B]];
  [[0x5B910E; 0x37DF0; 0x6463A9; 0xE6B081; 0x2D0A9D; 0x2ED8BE; 0x60E9CA; 0xDC8968; 0x17563E; 0x350D14; 0x6DB2D5];
   [0x8E171C; 0xEB1AA; 0xE3AEA; 0xDCD35E; 0x24D5B2; 0x78E926; 0x6E5A44; 0x9E3934; 0x43D3D7; 0xF2ECE; 0x506FB6]];
  [[0xB8E76E; 0x3E9FBC; 0x6624FA; 0x338E5; 0x22CDAF; 0x1658AA; 0x4EDFF5; 0x5C5CC6; 0x74872E; 0x6FF1F; 0x3D71F4];
   [0xE59640; 0x6B6980; 0x52C2CC; 0xCB86FD; 0x212D1D; 0x4C97C7; 0x605C17; 0xAAE9D8; 0x5073CD; 0x361947; 0xE77D9]];
  [[0x16387D; 0x49B942; 0x1B3FA6; 0xEA0088; 0x418D2D; 0x3D0233; 0x11F489; 0x1FACB0; 0x29CF4; 0x39194; 0x483410];
   [0xF9A7EC; 0x1832C2; 0x459839; 0x4D00CF; 0x3F4B21; 0x5FC44A; 0xCA90A; 0x24985D; 0xD9596; 0x4A9A33; 0x7D3439]];
  [[0x44CABA; 0x589FC6; 0x575DF8; 0x8AC944; 0x47E0CD; 0x567F3; 0x6783A3; 0x81A081; 0x720557; 0x2CC917; 0x6BAFD4];
   [0x2EF38; 0x89C79; 0x39C854; 0xA4BCBE; 0x969F1; 0x452E91; 0x645379; 0x546133; 0x1F829A; 0x6A9523; 0x6A5CF6]];
  [[0x41529B; 0x5CB920; 0x5E7A02; 0xC8A1A2; 0x1F9327; 0x4174C9; 0x7E2F98; 0x452989; 0x4CD5A3; 0x7FB826; 0x73BCEB];
   [0x2F5CBC; 0x7CBCD0; 0x130359; 0xB09201; 0x18EFD9; 0x202C9E; 0x6A4C0F; 0xDF08A6; 0xF65C7; 0x6E8BA1; 0x57C201]];
  [[0xF2D278; 0x7BCA3E; 0x73A8; 0xAB869F; 0x14FC27; 0x682826; 0x7B8F76; 0xE02FC4; 0x4DDAD8; 0x51D300; 0x5D3332];
   [0xA06CF9; 0x490FEC; 0x272AAC; 0x9F4648; 0x71C8FB; 0x566093; 0x78852D; 0xE7DB13; 0x4E79FE; 0x12F1F6; 0x56F872]];
  [[0xB0F1BD; 0x1B52B2; 0x7EDAE0; 0xB65682; 0x433C6A; 0x5BDE7; 0x1EE949; 0x515F90; 0x20A67A; 0x4EBC14; 0x236F70];
   [0xFA1D8C; 0x6D40AB; 0x30DC7D; 0x56A7E9; 0x19E584; 0x92219; 0x5A6D72; 0xEE7EAE; 0x79A1E5; 0x6D6145; 0x55F0C]];
  [[0xC54CAB; 0x14B3C9; 0x5B9541; 0xFA0F3C; 0x4CFCD2; 0x596010; 0x55BCC4; 0x1502AE; 0x70CB46; 0x3B6582; 0x729AD7];
   [0xAE8A66; 0x22B51; 0x608650; 0xCC908A; 0x76C532; 0x41E1EA; 0x7F34BC; 0x289C8; 0x717892; 0x465F29; 0x3C38C2]]]].
