(** The tables lut_cmb of ecp_id_tc26_gost_3410_2012_256_paramSetA.c as they are written there, for both widths. *)
From Coq Require Import List Uint63.
Import ListNotations.
Local Open Scope uint63_scope.
(** lines 1204-3248 *)
Definition lut_256A_64 : list (list (list (list int))) := [
 [[[0xD; 0x0; 0x0; 0x0; 0x0];
   [0xB2592DBA300E7; 0x3E87F22E81F92; 0x60EC939CFDF1B; 0x6CD212230E3EA; 0x30650F195523A];
   [0xE8752747155F; 0x2CE74C5C99A73; 0x6C037EF8E5465; 0x6AAEBC7B92EB; 0x7521C44952CFD]];
  [[0xA63D93451134C; 0x3F7A46C1C4CA7; 0x2AF35693661CE; 0x5313F13E9CC60; 0x54E15958A5D97];
   [0x4525DDCDB5791; 0x736AACCCB7BC8; 0x174F4885153CF; 0xCB27666A2367; 0x16BDEBB39E143];
   [0xC732788CBC030; 0x5C721E676D06F; 0x24101FDBBCCE2; 0x59473AE8CD7CA; 0x586898AC013B2]];
  [[0xA894E457058AD; 0x47D7F48E61013; 0x35B4A672FE227; 0x2A23302C060B2; 0xF011D09FB149];
   [0xFB80EB0B22BCC; 0x606DA3C1FAC0B; 0x49BB0CE05B2EE; 0x513F1BE099F41; 0x2AEE30C375862];
   [0x4ED5422831C0C; 0x7ED2E735EF7E7; 0x6F38521F75F30; 0x40F086DBFA045; 0x2BA6DCB264756]];
  [[0xE66CD5DB0B356; 0x68408F9A4857D; 0x1F32E8FC1FD9F; 0x6283C082BF3EE; 0x7B28870E5B67C];
   [0xFE1FDB8EFDCBE; 0x3F21273425384; 0x5870EEC15951B; 0x6C844F52108D5; 0x1CD6F3261AFA2];
   [0x712D2BEAA7E64; 0x6CA4E1492A890; 0x1F6F63F92C63C; 0x7E2FFA1F1C544; 0x2725A45A8E238]];
  [[0x3E27F874C6781; 0x80BDDC3E44D5; 0x5AFC7A11A0693; 0x1B7278AA23AFD; 0x4D7CF0D085A3B];
   [0xD80090DD1AE96; 0x2433971543626; 0x276F2FB600A27; 0x5E6BA3FC73B39; 0x5F6DBA95D6230];
   [0xE7885A2499A0E; 0x4547B7F6C185E; 0x3DCACBBA1C5; 0x642667D8CF12B; 0x2EA8E4237A0D7]];
  [[0xFDE7B60226F30; 0x6E61454CC4C1B; 0x479C4C24E0377; 0xB58C33813041; 0x2403059A551B8];
   [0xF0EF2E06AE25F; 0x65B351500FA13; 0x4884D79149E34; 0x20A52F78F4D69; 0x52A46E43D1E6F];
   [0xD0ECC557F4E9D; 0x7D12B76DDBF72; 0x1E35D93266D1; 0x60EC982223C71; 0x1388A4FBA5CC2]];
  [[0x288DD0895A16C; 0x602071D0EFE2E; 0x7DEA3E3BA4068; 0x49DB99EA55E0F; 0x57C4FBA5BF59F];
   [0x15BEBA4E2B732; 0x1F7F8E714E8B3; 0xA952EF156C40; 0x17371509C8E81; 0x362B2B97378ED];
   [0xA85D2D8D51136; 0x5F222A81C7F67; 0x7182E92B465DA; 0x37F522C4E8E6D; 0x4310842F64A2B]];
  [[0x5A383213DC33C; 0x7E9B816CD42C6; 0x7FA8AE87087AA; 0x4E55F40D4A3EE; 0x4F6D263536B6D];
   [0x20F67059F55A3; 0x7763EEA276D3; 0x19A17F705B71A; 0x5944E63EB82FE; 0x7650A0DC5D1CB];
   [0xFCD65DD4C828B; 0x4CA6637691EA4; 0x3CCA5D1052701; 0x712031F0647A6; 0x21CFF42584B2A]];
  [[0x6C8A92F922362; 0x44311FB926B9A; 0x24A255F064898; 0x4502C0490E488; 0x181B9C7BE07A7];
   [0xAC7EB3F012FCF; 0x66FE14D676159; 0xE913992C9940; 0x5A66B28860B80; 0x4FA013BB9A8C7];
   [0xAD18CD3393AB; 0x615E7DB492BCF; 0x65C59E4108193; 0x1C03C21B9CD4; 0x53FD4D84C40B2]];
  [[0x3FC89A2C6B0CB; 0xF3FE6593C6B3; 0x33E7B9EFD7774; 0x202569ACD3FD6; 0x304E71BD74A19];
   [0x70B3E67C53736; 0x62C9877C0935F; 0x5596CE3DED78; 0x65742F67B602; 0x1F8FD1E49E6FF];
   [0xC98D8B880CCBF; 0x2C564715F7115; 0x3131E65C288F0; 0x32E11B2E67FC3; 0x306235C4203E9]];
  [[0x2EE57BC2F49E9; 0x72B3E30AC4A02; 0x7DB1E3840852; 0x1DD33D665342A; 0x1A7633225AEB5];
   [0xB7F7B5B762A44; 0x331A035435FA2; 0x67E3DC1DDB9A7; 0x4B831B6E64D06; 0x6F2281134099E];
   [0xB980EF7392E55; 0xB89E617A9CA2; 0x7ABA1A8BE9857; 0x39ACA46853BD7; 0x75B4D3E20EED0]];
  [[0x250EDAC297799; 0x5F2C18C18BF27; 0x1CA515336C8CA; 0x559E66BDEB0DF; 0x1DEEDAD609A8E];
   [0x955E31C58DEDB; 0x669D9C0842B27; 0x6DEB790D54552; 0x3F019C46019DA; 0x471F509C91C79];
   [0x732102C57B4C9; 0x6A2A9C28278B1; 0x2324651BB700F; 0x35DAF397E77FD; 0x663BBD174F83C]];
  [[0xB929354FC042F; 0x11C492ECCD647; 0x9741F291BEF2; 0x1B4C7302C0158; 0x53AE1A0A0CF65];
   [0x3EF8B2C9BC0FD; 0x2CC7CA0F574C; 0x6D4B65A91C0C0; 0x37510A240479F; 0xC64FA252A385];
   [0xA88BD59ED7C65; 0x7ADDAE9CF1B08; 0x19BA0F9C07F82; 0x678DB16C95452; 0x56623A2D43CD]];
  [[0xB7E8A540D0BB7; 0x584F51D57A3A5; 0x1D8F204E79366; 0x50AB42D36BB78; 0x1F1939E53C5F0];
   [0x6F36130EDF74C; 0x4F887F8A3C1AE; 0x287BA42F1A8B2; 0x59F26236FEDC0; 0x4E7E15665AB6B];
   [0xBEF0A5861C3BC; 0x1C09CD88554A1; 0x61D92810426B4; 0xB7288E75D464; 0x6309911A5EDED]];
  [[0x85B811B64F095; 0x5D8DFEF0DA78A; 0xFAC6BD61618C; 0x4BAAA6C8B2729; 0x4B56E9D2ABD89];
   [0x43E639CD4D3BA; 0x74DEABEABDB28; 0x7E3FBA43ED6F6; 0x3AEE8B7AFF1C3; 0x3F53F79D2EE85];
   [0xD24432D4F4AA5; 0x78D7CF1ED698D; 0x4FF1A468ED10E; 0x401D16C0D8D9F; 0x2F258FE117334]];
  [[0xFB19D593A119F; 0x573B9C8EF8EF8; 0x3D940302F6503; 0x182EF3D826EE0; 0x3F7471C590F65];
   [0x299B06DAA3C6C; 0x7746E79EDD442; 0x3AC79E8C5E3A4; 0x7EEC70EB2D955; 0x725068BB9E5F2];
   [0x2BC325E5A930B; 0x107F46E629456; 0x640B07B73E5D1; 0x1279DBE60561; 0x225709C5657E7]]];
 [[[0x192B0CEABA3B; 0xC849471353C7; 0x7933577181965; 0x142C9EA69016E; 0x4567E065866D3];
   [0xB6B66959B52D6; 0x430844ADC8F3E; 0x6380BD764FFC3; 0x16D901A803EAC; 0x86B9A477DC01];
   [0x23367321E8B93; 0x32EA758921A81; 0x4882218493C4B; 0x363B5842D9A7D; 0x15A99D8110971]];
  [[0x300698CE29666; 0x4EECA6154042B; 0x166B994CFB4CC; 0x4ACF422430E4C; 0x25F72D8D2619];
   [0x675E071BC36F8; 0x4DFF904D1F8C7; 0x3D505499703DF; 0x20099265EDEB5; 0x3CC88B51F7700];
   [0x7D2FCAA25E5B3; 0x265D6E2479291; 0x11547C45B8FB; 0x7BB46D4B019E2; 0x56F6CD9966342]];
  [[0x716456F1AF846; 0x6EC66D0F766DB; 0x46A2790A7CDEB; 0x7D9FE58069E97; 0x6F455E4C8BAF4];
   [0x2DE3D52161A5B; 0x1322EF1230B3D; 0x64226A5D94E2; 0x4F0C2721E80E3; 0x55430C4FD1472];
   [0xF3FE53622B34E; 0x400E37E2F6B5E; 0x786904CA5BE13; 0x447C21E951630; 0x30E6760567848]];
  [[0xB726FC584B729; 0x414D51BCE0A43; 0x618F6813D930C; 0x40A56D66C1756; 0x3D984C56008C4];
   [0xEB2683ACBED46; 0x652CB350659D6; 0x13634382FCA77; 0x2F5D25E61B8FF; 0xB4620F79B12A];
   [0x1E7A57930B5B8; 0x73653EC2B76D1; 0x613302FE0B30D; 0xA6C4E5761F63; 0x6ADF86A72CC92]];
  [[0x19186A824FDD7; 0x11924F7F2750C; 0x29AD4044367A7; 0x7E9538B9DECCA; 0x280D45D483E14];
   [0xBB52AB225DCB5; 0x28B165CB1E4DA; 0x5BC09B05FCBE4; 0x381D12C463328; 0x76D0B0F76F027];
   [0xFEDF306C25C01; 0x3FECB41117000; 0x2FD6A35E50E23; 0x337ED65B03733; 0x574ECBAE7CDC]];
  [[0x6DB58E6ED0D33; 0x6B3191FF18B0A; 0x3EA3B063F5E91; 0x46C617AC41DAE; 0x55B8985867163];
   [0xFE332D0609F49; 0x29E2B6C0590BB; 0x27B083A8281E3; 0x23F54A6691576; 0x1F9B2324B7AF4];
   [0xB28B2B17C7FE4; 0x6080357FBA43E; 0x615C5B81FBEF7; 0x3954270A7909A; 0x1A2F47D0A04EB]];
  [[0xBA17581986197; 0x34870F30008DA; 0x13CA300CCA469; 0xB162692148B6; 0x3F7CF95609F4D];
   [0xBAE83E74F002F; 0x69841112F14B8; 0x78C4EFE35A991; 0x60BCE9ED310B3; 0x754449FD8083C];
   [0xAF607F5B16E11; 0x353A2B8ACC91E; 0xEF1D9E0EF391; 0x4541CFF0EA8DF; 0x16AEAE7B3F2F0]];
  [[0x4D0C351D81066; 0x558E4F8F8B3B; 0x16AB2E6954DA6; 0x1322A57507762; 0x48180B80AB80];
   [0x8458BFFCB303A; 0x22F59A0891BA3; 0x15FD6CA3084EF; 0x96545EB531A3; 0x6E575563BC013];
   [0x51F33B08869E8; 0x26605DC18D15D; 0x55CAC08CDE2C6; 0x688FFA5C8BAE7; 0x1B5E984904B9C]];
  [[0x6B8B443814972; 0x55FB9A76E0CC9; 0x9CE2AAB60A30; 0x3EF83A2F57151; 0x54D67D9A4F513];
   [0x7BECDA40A587F; 0x66610E3756505; 0x667AED7C671A5; 0x45C3E37289FA8; 0x3EE1DEB8BF15F];
   [0x36DA9491A8276; 0x7F3BA7F45D5F3; 0x5491780986582; 0x17D2A21BAB7FA; 0x2173C231405F]];
  [[0xF3DB9923407C2; 0x34756D5DCF8D4; 0x12004CC7C2A34; 0x333FE8258F7D8; 0x22BB7C7E2AFDF];
   [0xF405EE8CE31C; 0xEAD90D22334E; 0x33D2A3C4C1541; 0xC208CD2F4BA6; 0x531D1A514C9B5];
   [0x9F9F19D9C76D2; 0x50FDE66CC4397; 0x7E0C2178203B; 0x2A55E72D96E80; 0x3C184A5AB3FAA]];
  [[0x1563D94E10FCD; 0x2F2A35D0DB543; 0x6E7768E05CFD7; 0x275C5FC14D586; 0x433EC2F348324];
   [0x4D3D54C94DA0B; 0x794DDFDB2EE1E; 0x682353D05BB00; 0x62D8667C93A51; 0x4DADCA5A8CE84];
   [0x8950DCBA27A08; 0x59BB3D4E3ABE9; 0x3822C18A53312; 0x244B26BFD9780; 0x21363F385A671]];
  [[0x8D4A03FC03231; 0x23E2A19529871; 0x7E6F5F8C1E22D; 0x5603802B4085E; 0x3FFA733F66BE0];
   [0xCC0D81C2C08E7; 0x18D23FC4F115C; 0x3051462BF328; 0x4DB5D451FA8EB; 0x10ACD436DB7AA];
   [0x316FC2858C718; 0x1C94A21AE0F16; 0x7FCCA25487FEF; 0x75860E5CD985C; 0x5097BC8151C25]];
  [[0xDD0D0A35B9B1D; 0x69BAAA4B56FF0; 0x4C778899053BE; 0x2FDC9FA10ADD; 0x7A47AFD52F5E3];
   [0xE3285C26BE9BF; 0x33A7071D32E1A; 0x5D4D66BCC2FAF; 0x48588A74F8EA8; 0x67F167FCDC66E];
   [0x8784A422379C4; 0x7470006E5302B; 0x21E9843D3B99; 0x3D41527492DDA; 0x6326EC5940067]];
  [[0xFF43284BB2391; 0x53CD58E6D70AA; 0x6AE6FA42E6DDF; 0x28B006426C7D9; 0x52B4EB53AA929];
   [0x5CDDE09C1B9A5; 0xA96E981F65EC; 0x1B2C7538B9E62; 0x441A392439DEB; 0x6A2B722DC6381];
   [0x900CFD32A9792; 0x1A7B4A6CF54D6; 0x3CBAB4ADCD36D; 0x7B9C1AA60B86D; 0x702520E53679]];
  [[0xC9A305D7834CB; 0x5B7B9FE0CCCE7; 0x16A6095A241B; 0x4B712FDF75B13; 0x2C53655BBD91A];
   [0x8A6ED2314DDC8; 0x7DA70CDF279E7; 0x6D2D0C3606E50; 0x3283DAAA8966F; 0x6EF64B4E41560];
   [0x42A16ECAEB238; 0x5A981B79EAFF2; 0x5427BFC071A2B; 0x49349A5AB5626; 0x41BC86960BD2C]];
  [[0xABCDBE3A9E5D5; 0x405363A4B3483; 0x120CFBB24A873; 0x5AAE474A462D0; 0x35D540394697D];
   [0xA64659EFE52C3; 0x4DB773D047E7A; 0x2162ABB1CFD3D; 0x15B391C39D9D5; 0x45B7D89DC266B];
   [0xB2D1FBC9FC441; 0x12722CD49F3E8; 0x4A0CFFD68110C; 0x1B6ECFF11A156; 0x7D2F58CE5E926]]];
 [[[0xE1788C8C3CC62; 0x43FD128363765; 0x69AE472062EAB; 0x35D256FE91217; 0x67910C5563600];
   [0xF768B1233A3DB; 0x7DF4C7CD2EA86; 0x2CAE86EF8DA2A; 0x2329535DE9283; 0x5A07C9F89C3C4];
   [0x54FF768F9CA3; 0x43D9E4B66B860; 0x7DF913CA8B203; 0x719B3B558DDAA; 0x49B2BB9B923F3]];
  [[0x890BE7F18CD54; 0x44AEBC732FC6C; 0xF98B4946A855; 0x12B28B7A38B2D; 0x30C9FAD322292];
   [0x9D307A4D23D40; 0x56FC224E7F4C7; 0x54A676DE6F4D3; 0x6E886B5E9AB59; 0x5165D23A85BC8];
   [0xED25967873511; 0x6C6A9C182B080; 0x6978A72802608; 0x6BF34B9518468; 0x6871D973DF84B]];
  [[0xF875D00421E67; 0x42EDCCB1C82C1; 0x48FC0A2E1BB9; 0x733FCF9823770; 0x49255AE9DEDFF];
   [0xB76A27F806A6B; 0x2C8618FECD22F; 0x7CA416389DB51; 0x72B231F4E3DF8; 0x37E6C81D4C8A3];
   [0x315AE714C164A; 0x651074CD146C; 0x70A110B6FA83C; 0x292BEB2445915; 0x7BAE86E66340A]];
  [[0x5A42303FA5032; 0x79C0EED4C5482; 0x70FAF28317AA9; 0x252F900BCA786; 0x4C6DF6AC32D72];
   [0x899EF622C1092; 0x24300EA163F80; 0x5D78541F9C58D; 0xA82CF29A5335; 0x57651841E4857];
   [0x2DDAF4534E914; 0x5C3F8E3CEDF3D; 0x7E428DFE30ABB; 0xCFA8EF984856; 0x7F54DE1239314]];
  [[0x3E194BB770B21; 0x5FE5004F0D44C; 0xE420E05B0CD; 0x7F4C1EB04ADEA; 0x42CF75F5849CB];
   [0xDFBFF2F58474E; 0x23E38CACC0A2; 0x7940AAA1D2AEF; 0x66B3671EF7D12; 0x2262304E8FD69];
   [0x8190A96FA31A5; 0x342B2840B29B6; 0x692023CF41B60; 0x438CCB9AD9326; 0x6A74AEEF91383]];
  [[0x18FBC15EE9825; 0x471ADE4E86042; 0x460985BA9C276; 0x273A2CD2F02D; 0x3D497885E0289];
   [0xFB3F88C29D5D7; 0x6A92797F73B7; 0x40AF0BB921EC0; 0x56F0E3B22C834; 0x2624649A67166];
   [0x27A77B2D5B395; 0x485B55DD21EC2; 0x18F0DD390533C; 0x2C22DC574DCED; 0x2023C88609399]];
  [[0x652B6A1715E4; 0x10936CCCDBCBB; 0x75D99584830CC; 0x13967DE55AE9B; 0x497B11ABB2BA5];
   [0x29098D0D4B7BF; 0x148C12832BF02; 0x1ACF592227FC4; 0x361B3459461F5; 0x17789D92B4734];
   [0x51C79B949CE9C; 0x3A90D40F0533B; 0xFF1DE7855E3C; 0x63C0B316F0292; 0x79EE9916B16AB]];
  [[0xBAF756382E001; 0x74E66D14AA815; 0x5B5DA0DFB4345; 0x6A98DDBA8EDB0; 0x36757B46A7CB2];
   [0xD2030D203D167; 0x3C138F45B97D2; 0xD68249398DBC; 0x24992D9AC907A; 0x54B2D81985107];
   [0xC135EB42B443B; 0x459E57D3F091F; 0x7365731E3CB09; 0x37913422A2661; 0x22EB791C1E99D]];
  [[0xDBBF41597ABD7; 0x47A1841FA5CB7; 0x5DFFB8D0489BA; 0x207F59D5AFDD6; 0x5862958391C33];
   [0x23D6607BF974F; 0x447A73195D140; 0x1CEA4FE1AACB4; 0x9432CE509804; 0x2E2C660E2C2A9];
   [0x76405764963F7; 0x7B075E1B18E3F; 0x3C86F3DB152BE; 0x717D762BDBB19; 0x9430702D8371]];
  [[0xAF7F915E85486; 0xB0BBC2BBB069; 0x4A8AC30D65B82; 0x1A98BB8FFCCD1; 0xA60C0955A82C];
   [0x28B7AA8D6E8B3; 0x599AA3AFD1F06; 0x495C8A53271EA; 0x10D4AB4581526; 0x5A91911011B4];
   [0x91E63537A8EAF; 0x4DDC52ABAE41E; 0x3DD0926FDA797; 0x53806DE4C5BB3; 0x5E6F1B98E4E5F]];
  [[0xED0D0E611D440; 0x28F43B4F900C1; 0x4C3467D15A321; 0x3FA40B92F63A1; 0x4EB1D7C0F97C7];
   [0xF31CB2B424218; 0x28FC2CBD4B770; 0x49E2E21B9426; 0x4FBA6C0CA6B59; 0x910A8BCBADA6];
   [0x62AA84E5A1E8; 0x55785384B963C; 0x718EE20099ACE; 0x1AAE6F92CB06B; 0x5C36213B6B09F]];
  [[0x42CD518E7BB1F; 0x621C5EDE20FF0; 0x784AA45E52004; 0x1EF5EE32943D1; 0x20EB45F6DCE70];
   [0x1A99725161F74; 0xC92D8DE52D6B; 0x4943C545783B6; 0xF2A34F6C04CA; 0x4BA95172EB757];
   [0x58B38359EEF2E; 0x72A003FEEF0E3; 0x5A1A497C5B5E4; 0x7346A30D5043D; 0x4DCC170CE73B1]];
  [[0x7FCA11D67A5F5; 0x51F99020E8DA7; 0x32448AD151580; 0x2D682339FD143; 0x5C59954328210];
   [0x65B65920EA67; 0x64F016ACC8DB2; 0x2B54FD32DCADE; 0x7514AC407F433; 0x6FB8E73CDEC87];
   [0x8D3F0CEB6FEF4; 0x8CD1DAF58F2; 0x5E29BD86720C8; 0x1F89E2EA7D372; 0xF12D2FEBC32E]];
  [[0x74C08FE9F6EBB; 0x19BC5A03773E2; 0x2DC6D42FDA236; 0x26B76B5DD35AA; 0x4AC140E7698BA];
   [0x7B671BE5225C; 0x75E4E1423B035; 0x5C5078EE3FB12; 0x18FE0631F18BA; 0x49C97C216ADA7];
   [0x288CA79DE3FDD; 0x5F95B9694502C; 0x7A90B27755E7B; 0xD6B962A5D7B4; 0x2B73E8EABF5E7]];
  [[0xCF4B90C4F175B; 0x38B2E4ADFE275; 0x51C55B83D6C95; 0x55A2D1264C7D4; 0x62E83FE154821];
   [0x8971A5D058482; 0x37DDD623E19; 0x32867F2B615A5; 0x623016E6AEBA8; 0x12A36AB822905];
   [0x120EE148C51AE; 0x40334FADAA4FB; 0x334965ACA2453; 0x6D3E8020844BE; 0x67F6DE44BCF25]];
  [[0x105D43C9E9178; 0x4721A89809540; 0x6FC38C213B1E4; 0x2647D42F65B1A; 0x376348D66B34];
   [0xC9949B00A3DA8; 0xA0919FC02F1D; 0x28254055C25E6; 0x1D9499A0AE6F5; 0x1AACE22F92850];
   [0xAD0E76427572; 0x4C84545B77E18; 0x288F5B54FDDB7; 0x38ED121222ABA; 0x3A0976AA7E43F]]];
 [[[0x81FCF9F18835D; 0x431F4C3B0D6B0; 0x4948FEC6A3648; 0x4A9B64ED01851; 0x5A8976BDBA97F];
   [0xB16BF1437E1C3; 0x37D028CF83551; 0x1D4890BE8B6E0; 0x14CEE0109B29D; 0x1D11B49FC55FA];
   [0xFF921373DC1C7; 0x38DE820056599; 0x120CE481802B; 0x6FFC1F2C088F4; 0x1EE2D0C6B1DF4]];
  [[0xFF81329CB03; 0x68780226033B3; 0x6A2545BA20041; 0x5B2BDDF462150; 0x3958DB9028FB7];
   [0xC6BC63284596C; 0x348523D1DBF57; 0x46E3F936916F1; 0x5F78F7E010886; 0x4BAEFBF32EDCF];
   [0x6B10E2C0DA1C1; 0x39C183458580; 0x12DB6C7B007C5; 0x3F3B7176CF39B; 0x3C1F7265871AC]];
  [[0x85B51F8BCFE19; 0x14E262925BD43; 0x12F59369D7DEC; 0x5891E437C785D; 0x79EFC6B4ADC9];
   [0x57113F86AEFDE; 0x31D2A3CBB809F; 0x33DCF8AE19C6C; 0x2213DF3BA392; 0x2650EDFE84235];
   [0x4FEF6E8E8730E; 0x2E2C593B029F4; 0x2D3E99D33A67F; 0x14E290C55B9BF; 0x4403429D2BE3D]];
  [[0x409570F86A1D1; 0x22B63BCCD0F01; 0x4F7D7B94F1868; 0x1450E62B7DF7C; 0x694DAA72BBCAC];
   [0xF24FC804E499A; 0x1C5150B7A2ED2; 0x4AA24EEC36D37; 0x2132213761A03; 0x75A13822D103C];
   [0x67187C39EB19; 0x7765373B31B66; 0x29CEAE18E4D79; 0x2C737CC0BD795; 0x3193EDEEA0158]];
  [[0x5B52C3101E326; 0x7176502D653B5; 0x1FD26BF9CB194; 0x4FB67EADB3779; 0x4D0C770A8ACCF];
   [0x11F79B7B344FC; 0x6663499E87A4; 0x450DAEF594E13; 0x78C2F195A18D1; 0x7978E36566E63];
   [0x2EB14A8C94333; 0x1C2F764E483AE; 0x31C462060C077; 0x3EF30123095CE; 0x21B6A8AF629FF]];
  [[0x6C49C35F232E3; 0xB80EEFEC6616; 0x680164DFC3701; 0x72FF54666B634; 0x68AB4AFC182CD];
   [0x176EF0C655243; 0x19A1EE66FD2EB; 0x6AF04A498FFA9; 0x2514F98E20D4A; 0x1A0821E95F930];
   [0xD58CC3800FE7F; 0x50C9E092A5673; 0x51CB3347178DD; 0x2C9C1FB2FE677; 0x15EE68A8526B0]];
  [[0xCD72A8856201E; 0x38E8C397ED335; 0xB8E2262FC710; 0x27DC02E17AF3; 0x6A5F450F30E8E];
   [0xB680DE0C07AE0; 0x54D907D909686; 0x757C2922B0737; 0x660842FC9A0BA; 0x3FC7B58E7239A];
   [0x4651B7E8AE200; 0x484D3CB6C7A8E; 0x2F474BA01A0C0; 0x44AA7003C772D; 0x371F52FFC53B]];
  [[0x5C3B547E0B571; 0x209CCABD0AB4B; 0x2D25C9DBF3DB1; 0x32A6A6DE8522; 0x17A0AD8ECF369];
   [0x9010B6E71332D; 0x7B69ECC73F71C; 0xFFC2CCAF6490; 0x64FDB227E8E46; 0x55085B8768622];
   [0x39AD933E2C137; 0x171F8E3C0681B; 0x1BCC516668190; 0x63314F511F47A; 0x2FE194634EA7D]];
  [[0xFE52986682B6C; 0x7C7793C6CFA0B; 0x2F120DB9FC778; 0x56B1B5D1B696B; 0x6F7B105C7285D];
   [0xF08F3C79E5FA2; 0x6714A9E5021DE; 0x556DFCA302233; 0x36A6272A322E0; 0x7958876DF034E];
   [0x1B28B59F70354; 0x7AB27CE51E80D; 0x567BCD43D179; 0x41EF880C69F63; 0x57CCC9DA97DCC]];
  [[0x6BDC7393E9B9; 0x56D46935E2D25; 0x40C99AE846E20; 0x277C2A48B7D6B; 0x6F9657DBA5EC0];
   [0xE84FD78E1468C; 0x1F647949AC006; 0x373B20611C903; 0x15E6FAFF6FA2A; 0x53520AB3070E2];
   [0xCC15CC69411F0; 0x552FB8719E7D5; 0x7C3B5010848F9; 0xE8AF5525076D; 0x58459D1B894E4]];
  [[0xB9009E3531F14; 0x237005679DB2; 0x7BF223FD5732A; 0x6429263F091F4; 0x7493705D2ADC2];
   [0x793C60C5EACBA; 0x332F859C4D8EE; 0xD090DF892E4A; 0x41A3040EC7085; 0x1F585E3FC2C2A];
   [0x84D3FD3FF468A; 0x38C0475145DFA; 0x56070E08A4838; 0x2AC8E15465366; 0xF1485199EC2C]];
  [[0x12693C9129E3; 0x11009F59E7410; 0x5E068432FB821; 0x509F6A285BC64; 0x64B88E6E8B8A6];
   [0x739F7074FD4A7; 0x32712493D3F9E; 0x2E3550E33660D; 0x6EE093485A6A5; 0x4CAE5F8CDBF10];
   [0xBB27495CF7ED3; 0x1CEB73051EC2; 0x686DC320D7C1D; 0x7C5AD5EC9F58E; 0x1B98ED417D210]];
  [[0xBCF4C24A4C93E; 0x2415C387FA3B; 0x4B3C58228DDFC; 0x2037F66598FCF; 0x793FF104F8F35];
   [0xF1F6A9319DCA8; 0x7F0E26C6BFDCF; 0x24F06F6521950; 0x1BF65931AAD98; 0x4DA8B59BE0CB7];
   [0xC49B7018AF82E; 0x264DF5E55202; 0x4C1B40891F09; 0x37D39139B0395; 0x545CEBFF22B6C]];
  [[0x535E19606923; 0x389F3CEB25CB9; 0x771A87A5F04FF; 0x712E80B91B905; 0x1F1EA4402629];
   [0x3A2CFFE51751A; 0x1780B59BF2F57; 0x33B2134560E7F; 0xC2FD87484CD4; 0xC1E827BF8C54];
   [0xBB159A554E7F7; 0x679D0F2669B49; 0x7C8AF96EB162D; 0x739F8391987C4; 0x4FD6BA815924D]];
  [[0xCD58A76375AB1; 0xE0B8DB7493B2; 0x1F26DC2178BD2; 0x267C3B843A318; 0x3B57558845D7B];
   [0x62248E93DA9D4; 0x1B750D5841F57; 0x5825717C4CDF9; 0x395BD7231BF89; 0x5BB6B5E2E6AF9];
   [0x9C6B9394024E3; 0x75C5446BE7237; 0x65E6C801E7BB5; 0x2DB2F90A55CC; 0x45DBB4D1CCBDE]];
  [[0x53CBFDBE0980A; 0x1407AA377A7AD; 0x1290C47515626; 0x6B6C6AB3118E7; 0x2C22D483E81D6];
   [0x12ACDC7AE7440; 0x69C66640BC7A6; 0x2A4F768809CC; 0x14168BEC8D796; 0x52716E75E07B];
   [0x1BB2F947F80B6; 0x73A86D41B9DC; 0xF191E9DE78B6; 0x65DF33E390DB9; 0x3308F79176BD]]];
 [[[0xBA39C423A0F8A; 0x6FF2C4C49644C; 0x527B0CF9945D1; 0x462BF78F17E13; 0x72F5DF073B45];
   [0xA52B0C9431B86; 0x7413199BDB5A; 0x6FF18C34250CB; 0x5F22C96AC669A; 0x9930CFA11CAD];
   [0x49D54A46B4F00; 0x1AA620DEF496D; 0x1FF21C12D3280; 0x6DA8184B69B09; 0x387F6AA984BF6]];
  [[0x1654E2D2F5512; 0x78F8B53D7341A; 0x470E5BC40FE6; 0x6C2A23BF4231D; 0x8AD4AC154BD4];
   [0x25588B0E427F0; 0x4B7426292145; 0x4EFE16DBDD657; 0x737056241360D; 0x503BBEF8BB0A2];
   [0xE71495D3F3EE8; 0x3B55E84166513; 0x5A32066E89C7A; 0x60FD619143FDC; 0x7AF54E13C9A0B]];
  [[0xF35F2359ED4D4; 0x6DAD5A1EDD9F7; 0x33E72BB06FA4C; 0x4CB0BF2699447; 0x78ADC100A9438];
   [0x58677010F1D44; 0xEE3DA34D7805; 0x3C19261DBCE0E; 0xBE1D2B1915F1; 0x4C27417301A56];
   [0x10519E74F0FD3; 0x667928B6E2AED; 0x112B7D96F8351; 0x25AC5C3C73843; 0x64F071A913A63]];
  [[0x134221F75E904; 0x1E877FC436184; 0x1043119533F1B; 0x36E12894B6885; 0x1A97DC3A85DD9];
   [0x5B0E5800AD26D; 0x3C8403B9B7909; 0x578BF28F187B8; 0x6F76A622B025F; 0x1A581506806A];
   [0xB1B3A779043A2; 0x2BD2CCEFC7D40; 0x6880561392822; 0x470820DC7AD05; 0xA8A6DFE39EFC]];
  [[0x3B4AE7341A857; 0x6F61AE4525D94; 0x47463C3F47708; 0x13CE30C0E6CD4; 0x1A4D6B43BC1E8];
   [0x448110CF677D7; 0x2B26F500047C8; 0xA9EDEE30B5CA; 0x74CEAB89A5F26; 0x69DC9E784890E];
   [0x2384FEB025EE8; 0x760169DF0E4ED; 0x679A94C441675; 0x6E39A8B9E9323; 0x4F60517E33211]];
  [[0xD1F112D03827C; 0x3E266C25B8CB9; 0x4DDAE5E9A861A; 0x3FDDD5A19E3FC; 0x525AC4177127A];
   [0x5E3FBAF1DE590; 0x6D0AC9D49EBF; 0x71A842BB0750F; 0x30A965193BEB1; 0x74F0F13CF1];
   [0x569358B8229BF; 0x4D8605014C12D; 0x67CF8F3ABB9E2; 0x1913D15FE7E56; 0x4E005335EB124]];
  [[0xDB4B52128B9C8; 0x286D98EC1991F; 0x57D6985B266D5; 0xD63A8186A6CA; 0x3E458C6D43002];
   [0xFAC1001DCF643; 0x1A63A60E69551; 0x770074385A527; 0x716E487ACFCBE; 0x3AFC421F39471];
   [0x1FF85BA0DD581; 0x185663E421B6B; 0x3D0CC19588A5B; 0x50A4ED90A0BD8; 0x1ADEA0DFB4B55]];
  [[0xF8CD682890618; 0x1B4C0FC4BF1B7; 0x4593054904595; 0x44163E1D05297; 0x4FF913B7848EE];
   [0x44061A1C77BF2; 0x118C6EAF78CBE; 0x121317990C4B0; 0x14F94111D4DBF; 0x50FC488F73A1C];
   [0x3F8A423FF3B98; 0x57AB9DDB49662; 0x307128F5CD0A4; 0x5C206361126E4; 0x58F1A9B6F58C2]];
  [[0x26D3D15CAFC7E; 0x11891BC41E2F2; 0x6F04870D432A4; 0x745C21E77AAA6; 0x3DAC061530272];
   [0x1DAF75081BEA5; 0x56D5195DD18E2; 0x1DCAC8C45410E; 0x4D2DA16F980D8; 0x63744829E7170];
   [0xDF1C42FA10272; 0x741CA2FAA037; 0x467C87311FE7; 0x523429446FA40; 0x68BD1A87367D1]];
  [[0xC458B0171251B; 0x1FE9DE818F3CF; 0x54A1370707A2C; 0x62F84AA462F0; 0x7CF5A9BF230F7];
   [0x54404A1098FC2; 0x2411906266825; 0xA193956A70E8; 0xFE137D04BC1F; 0x4E42D21EFFD81];
   [0xF2EAC10355E39; 0x54F7E065688EB; 0x1A95E0CA9F2C6; 0x7E704C61469A2; 0x7B68ADBD82DC6]];
  [[0x899180C1E2363; 0x7958932146E24; 0x43C3BDBE7E084; 0x59983B137251C; 0x181505C38246A];
   [0xFD89855EFABB; 0x3B63D1B15E2DE; 0x255391D67495A; 0x4DD2784B95163; 0x512AAAA077953];
   [0xF74E51E9D1E14; 0x7A0923F8922E5; 0x481DF01D3BA5E; 0x78147FE69A25E; 0x2677F7C367D95]];
  [[0xC31AE3ACBF754; 0x15B533DE0199D; 0x37F5398951F25; 0x7F6D8289614BF; 0x7A746B03A9AD8];
   [0xA5E8B067361B9; 0x753D2A11E2709; 0x68EB1296DD194; 0x7F60FCC2F2F13; 0x241ECD0A2E455];
   [0xAB9A10A22A500; 0x1B6D59F5E169E; 0x31BBC448574D5; 0x4717C01E2B0BB; 0x3D21E8ACA1878]];
  [[0x499194C8B1C66; 0x23DD23CF4A5FF; 0x260F22A1F1E67; 0x46F48D856E7A8; 0x27B4E0522C56B];
   [0x197955EC21F63; 0x4F7579537C60A; 0x1EED38E27A397; 0x642709A47DD6D; 0xCEC4BAE6CE94];
   [0x7E224BD3DE334; 0x2BC2A4E547CE3; 0x6C9441E441A2F; 0x66ABBA46DB7C3; 0x7D6D7B2C94D89]];
  [[0x94A1B918036C4; 0x7000DC73238D4; 0x77504C3F1AB6E; 0x4E6A5D5C7C6A1; 0x3821648B33D3A];
   [0x81E39CDB93F79; 0x4EBBC689100FB; 0x1DD37C191E986; 0x36795A799602; 0x41C1B41711DB];
   [0xA4A21AC6CAF3D; 0x744CF7594E6F1; 0x30561165E9A9; 0x74B8AB965B245; 0x244902E385A94]];
  [[0x464BD11AFA1E1; 0x2E00B44F4A68C; 0x6C58D5152071B; 0x7CC78F1BEA1EE; 0x3D52810ACC281];
   [0xC04B80D28DBA4; 0x7C5EAA4A27BFF; 0x66248F5BFC255; 0x6BDB404771492; 0x19FA7BB5E292E];
   [0x6358792FF5820; 0x3BB145A4D0D14; 0x647A0D099804C; 0x1CE6985BBEA5D; 0x71F7ADDB5DEC0]];
  [[0xFF792012E3AD1; 0x318FC42C34144; 0x18AA9596D5383; 0x4A1E0677AA264; 0x7C9D08A010323];
   [0xB38DA3FFA9D8B; 0x7B37A58DB49D5; 0x3CAB96E3D6DD9; 0x4877EC3C59320; 0x5F79E6AB22005];
   [0xD9227D42E392D; 0x383E4A65149E3; 0x1FC4C8988D7D7; 0x301C333E8D0D; 0x566D13B877137]]];
 [[[0x2819CD64EC5D5; 0x718864EB85DEA; 0xB38F635D18B2; 0xFA0D19EC1914; 0x7FC6E0B53A132];
   [0x681A57637B42A; 0x9516D77453A8; 0x41747D2AFF787; 0x484C8CAA8775B; 0x69B6EDB5BEB15];
   [0xF673ED008533F; 0x5983AE2E9902; 0x696120C054601; 0x2DD10C21D3665; 0x3650B63683F24]];
  [[0x1C85E071E87C9; 0x38E791D5639BC; 0x7EB7B3E0A3BD5; 0x67F05BA2C2992; 0x5A217D19B8E87];
   [0x9CC57757E7DC9; 0x4C152B026BBF3; 0x7CE941D2BB495; 0x22801029CDB1F; 0x15E56AA9988B8];
   [0x1F20BB815BF7F; 0x45BBFD494947D; 0x752E00CADD615; 0x30A1ADE235D5B; 0x4F475EAAC468]];
  [[0x5DEC978DC22CC; 0x69E99CC23AF7D; 0x1A491C445CF0B; 0x1A2B80570EAF4; 0x519998F23DA17];
   [0x33F2D4F6DFC80; 0x3473C4B91929A; 0x657675912C778; 0x27483C8C74BA9; 0x45AEDD79F572E];
   [0x5B55CF68CF232; 0x5978D5F58C198; 0x463464AA8D74F; 0x768A84F1143; 0x4D85E72D498F7]];
  [[0x65396EB5E1B7C; 0x3AD9BC86D4A9D; 0x7D80AED5F83A2; 0x7BF7E181211DD; 0x53259A33A1C38];
   [0x4ED7967092AA9; 0x37E220CEFD1A7; 0x7D56552E4BE39; 0x467E0E1384212; 0x7CB81AF42B8E6];
   [0xF60010D427117; 0x3FE077DD17DAC; 0x3D70C978E0E1D; 0x4EC475F514EFA; 0x678A033281D8A]];
  [[0x1DDD15D89D0DA; 0x5AE12E0DC3F81; 0x21725313E6CD1; 0x58E25DD51CD68; 0x51CC1640E208C];
   [0xA5BFACD788203; 0x76782156DA54A; 0x6546FAACEBFB5; 0x751697EBD387; 0x403792F66F908];
   [0x1ED1BA791D84F; 0x7C0C66505B59A; 0x3039E8770455C; 0x176EBE864CCC6; 0xA9D7490BB5E2]];
  [[0xADBB841243625; 0x70EF045AE92E4; 0x3ED707AC6DC1C; 0x2EC569D895E88; 0x7A1F82B8A9F9B];
   [0x480ED4CC26515; 0x7142FB964F1D8; 0x2D589D76131D9; 0x2041F5E307B5D; 0x4DC0C8DC698E2];
   [0x639BA125B4EB0; 0x6735AE5885BC9; 0x402130AA29EFE; 0x6483ECF5F928A; 0x5C0C2A7450215]];
  [[0x11E1BA90F4D05; 0x3C4ACA739B18D; 0x6DA6C4D05BB4B; 0x6C9D11A68C07A; 0x7E4FF60853DCC];
   [0xFC3B1EAB98C72; 0x194A565C0D2C0; 0x6774E78078878; 0x2845C8FBE34B8; 0x3FA8FFB470A30];
   [0xDF02100A29B8E; 0x1EDB288FCEFEF; 0x3A1F05EE527CB; 0x800DA11B67CF; 0xF28747F25BA7]];
  [[0xAB1FE778D5AC8; 0x7AC5F7720F73D; 0x1F29E35DE087B; 0x6594AE6F4B147; 0x3BD0E462820EB];
   [0x46E4EE5708B31; 0x5F6D4A65795AD; 0x65A6A14FD4DBD; 0x5175D21ECC1C7; 0x7FE00455D7273];
   [0x7B6F8CC74B2E7; 0x741AB0632D05A; 0x49D46261751F0; 0x6736BD5AEA112; 0x69AD164B202C5]];
  [[0x12BDCF8236C6C; 0x367FF9D0F9B9A; 0x3F319B67073D2; 0x760E8B33BDBA0; 0x56660C3661195];
   [0x6A7EA308B1685; 0x6C261A0B19E51; 0x4E083123A5FB3; 0x47A0C38DD3BA2; 0x53C6D2A152664];
   [0xFAF64FB917431; 0x565756E7FAAF4; 0x3D721A24A3704; 0x13317369CBD42; 0x16612511B5AA0]];
  [[0xE652B12074C2E; 0x59D0BAF050179; 0x3B5736856800; 0x647959933E44E; 0x3D56153518775];
   [0xF380F6F1A960; 0x1ACBBE16F804F; 0x2997050169D92; 0x6923F3FB9A04C; 0x760D8364CDE1D];
   [0x87864C2C7818E; 0x65BCE2C21225E; 0x829D71C17447; 0x624DD657FE09E; 0x78584F6FEFD9]];
  [[0x6D584A0FE7A46; 0x69D33D6A2E6E8; 0x67E621C9A0CE7; 0x77A830F59FBFF; 0x14C1BD946B545];
   [0x1B2A1355A4052; 0x675CBE17382B6; 0x641AF5CC81253; 0x5EB097D44D21F; 0x9FC2AAAE02CC];
   [0xD414D936E58DD; 0xB296AC88EB92; 0x76AB84DD6056C; 0x685E1AB03C5DC; 0x28348D45F6358]];
  [[0x16CC86D940FFC; 0x6FA98A7F59E71; 0x29CA45E235967; 0x1DDB48758B49F; 0x61464300AF54F];
   [0x43C3AC9312B0D; 0x64FC92BC9377; 0x239F95BD3C366; 0x529C3D8CF33A; 0x181E4547EBD24];
   [0xE16213D8C28C0; 0x231D13CE48188; 0x7F4B9BEA03675; 0x4042E3AC3D778; 0x1EAA475E87AA7]];
  [[0x1DAA732854120; 0x2D8C6031F046B; 0x48CA4CD8BA89E; 0x6937503A6724; 0x61B37A983648E];
   [0x13AC756B13B17; 0x7F99EB1FE63B2; 0x12EF62AA29F91; 0x275A63AC0B82C; 0x41F85AC1748DC];
   [0x3C3A345E37216; 0xBC95899511A0; 0x67984E11988E2; 0x3790C6A6BD91C; 0x4AE8857A370C0]];
  [[0x59767D1DC7159; 0x59021E287D705; 0x59EECEC3BE7D9; 0x1EAA18D4EADD0; 0x65A975E23F03E];
   [0xA95AFCF439414; 0x15B75C723F702; 0xBF98929522FB; 0x3085D78E648C0; 0x37D7D62CA4475];
   [0x4A0DA8919F5F5; 0x367D06413644F; 0x354956C041EA1; 0x10755634E2C5D; 0x170791147DD80]];
  [[0x827F7944FE6CC; 0x1C751F20EF72; 0x35F7CA3D66415; 0x5210C82C852BA; 0x4C02A5485650];
   [0x3B5BDD64B5C0A; 0x4689EBDCCFF34; 0x70E43EECF0D36; 0x6DE61D82DCC84; 0x12E98D82A7298];
   [0x1E9E5518D471A; 0x7A1BB46DE49D9; 0x35B2927B223D1; 0x1CCAE464874F4; 0x39DDDEF590E1E]];
  [[0x24A7A1C775995; 0x7157DD78B8376; 0x135892F3211E4; 0x68F7235FB1FF7; 0x7B084D8E8F5BA];
   [0x47354D60A9B5C; 0x5528D484B558C; 0x5EA409EB39DEF; 0x1301D88A26EAB; 0x3E8EEEA1E9E16];
   [0x7E18F66EB4040; 0x3D687AAC18DF1; 0x43407B1B01C5; 0x76026A3612E1D; 0x36AC22C1DA7F0]]];
 [[[0xA1DB3FDA77DAC; 0x4D9593DB5C4FA; 0x2D0C711ADB1E7; 0x4FA1FD3056EC4; 0x1AEA89A06C580];
   [0xB6E56502BC8A; 0x30FB5DA75A109; 0x61CCC955CD549; 0x72ED7E235BE62; 0x4FFC550D2C672];
   [0x1401B07FD2FC2; 0x1363A97814A08; 0x40A250BB0D833; 0x3FDC7EADB00FF; 0x6D0C5F0015D6E]];
  [[0x6C4A3C3DD75D0; 0x35FB0DFF6D283; 0x8EC03452D8B5; 0x660AA38D2E81; 0x70999FB1B3622];
   [0x76C0468E5E93B; 0x691D7E3FC4A00; 0x49CB4185CDAF8; 0x16C0C829B0E8D; 0x6AA160D0C7282];
   [0x5FA2B7F6BD2E2; 0x158DA48E6F8A3; 0x604218B1883CE; 0xCFFE74536FDE; 0x5D042AB776AA]];
  [[0x27DD79FD8B383; 0x4E3C07F0FC4F0; 0x71E194BBE44D0; 0x516439A5B3612; 0x3F479BE23976A];
   [0xD07783284BAF3; 0x44583E7D6E11C; 0x1D132C130CABE; 0x625DDBFB712E6; 0x70A1B85622B32];
   [0x34C89E9034A6C; 0x78F18070D16D9; 0x5C48940FE1968; 0x7B463D52BFF8C; 0x4F9CB24AA3CA3]];
  [[0x210FBD862AF4; 0x42D00326CF364; 0x5909CDA828553; 0x765038B375968; 0x61244E59E8942];
   [0x316B2C8856415; 0x2A4748F779AB3; 0x239C5E875089A; 0x36401DD98269B; 0x11DDAE2A7E2F2];
   [0xE9134B0007750; 0x5EF4908EA5F8B; 0x79BE217CC5E96; 0x599ECA99A489; 0x4C47BBF939482]];
  [[0x3A337C362E13; 0x7780615B15DD1; 0x773A3946A0160; 0x700FAAF105D15; 0x1A74BE2B6494D];
   [0x5CA35FE3DB4CB; 0x71DF8C08DEDDD; 0x5F7E4ACF08CA7; 0x36F543C236FDD; 0x69ABF13BDA30B];
   [0xD0BDB4C5FE93D; 0x2B22A4FA5285B; 0x6FA80F65CB79E; 0x379BFA1F4BF5E; 0x46594A6F4C0D4]];
  [[0x7305A30FD1F79; 0x1C6FFD9905695; 0x4645BE794D673; 0x342101D707890; 0x1BB588F62A0A3];
   [0x105A272D17F2A; 0x7B3D6FA991E49; 0x227280611E9A7; 0x1A93AAA75915F; 0x23FA441B3482E];
   [0x49C1150A4394C; 0x40C4F9BAC625E; 0x19D525AD587E; 0x4FF7128EF9688; 0x4FD444389AB05]];
  [[0x238E42AD5EEEC; 0x5DE60189ED21B; 0x1C3ED84BF7F92; 0x51D4CE9A6E138; 0x4D7509030CE74];
   [0x14535B829610F; 0x6763BE3F420BB; 0x224420EC61552; 0x1D944B492451E; 0x43B7C34AD7E8B];
   [0x8748FB4B47D51; 0x5ABB8E9B2C218; 0x1F774AE8AEF2A; 0x4E251530C1540; 0x2C17E01A2CD3E]];
  [[0xA5AEDEE07B0B0; 0x5F89D3947B76A; 0x2BB62F90E7DE8; 0x654A1AF24BC3B; 0x3546F95E0EE6F];
   [0x85679601B8BC5; 0x4BB095D71C7D0; 0x53ECC1C751399; 0x41FE3795CBDE2; 0x6EA98F1D1D81D];
   [0x64ED26F676ADD; 0x5A7A5BEE185B3; 0x130CC8FEC6AE2; 0x629FDE7C00F10; 0x585D5A1CBFA57]];
  [[0xAE0784632D10F; 0x27BFA28563B52; 0x4DECE15823B3A; 0x10DA131FF58A7; 0x48DEFFB0FE190];
   [0xC811EC58F82EA; 0x326DA9E04E555; 0x71F177799421B; 0x3E3A474D3E8B8; 0x3D5D6D4DE3CEF];
   [0xD9FFAF07322DD; 0x628E14EB89510; 0x75D001D2380EC; 0x50D7E5EF7D399; 0x79765D0A00A45]];
  [[0x90F5A32267E76; 0x19A1B8E57CC65; 0x48B29601AC029; 0x69FA23DE54FFB; 0x2FCBE3187F20];
   [0x125C2704C278B; 0x28493D1EF2120; 0x54F9AD9FF374B; 0x6985537375711; 0x7534EB65121D];
   [0x4BD9A12979647; 0x788B5BC284E24; 0x4CBD296C6FF6B; 0x7FA0CD5EE5D70; 0x2BC98A33DCE4E]];
  [[0x753D51E36094F; 0x11309101DCED4; 0x279505A1BAA2; 0x6AEDE7A85AAE1; 0x37AE84B6FE0A];
   [0x7739A4BFF6011; 0x710D32F9567E8; 0x40FE60EC00E34; 0xE77282D60FC2; 0x12AF7C9905886];
   [0x10065259DAB06; 0x2C1EC736FA56; 0x41E7AC35292DC; 0xDDF0A6E3C65E; 0x60CA6ABEF89FE]];
  [[0xC71B130D21942; 0x650CBCD04857A; 0x3A21705F79DE; 0x441B7586ABB4B; 0x44FFAB824B35E];
   [0x4FC14956E331F; 0x2DF101A872454; 0x1ACAC797EC78F; 0x6FBE58D90CBB2; 0x2083D4F2ED3D2];
   [0x2485E01980997; 0x679010A4C7EE8; 0x57361E75E0DF0; 0x548EBB7B0F63; 0xADFA873F0ADC]];
  [[0xCEBAD25601C16; 0x40CF38C58593E; 0x548AC165085FC; 0xEC8D84A3956; 0x6990D99B70E27];
   [0x2D6F54C35029C; 0x194EECC0B8D55; 0x599D2C75B688B; 0x646453AC905E4; 0x3DAEFFC1F7F77];
   [0x2FB3C155DFF91; 0x666676455E39E; 0x94B59579A3D7; 0x131163E64B240; 0x2BE896BAC1C14]];
  [[0x5372C822B631C; 0x2C792A5D553F9; 0x79A45AF14B5DB; 0x5728AC606211C; 0x59EF170252365];
   [0xB216D3837D4E; 0x49608E9DA7038; 0x71C88398BEB38; 0x1D39322C696DB; 0x3270FEE25BE63];
   [0xF312227C8BD36; 0x6EA625A52C28E; 0x22DD277705C08; 0x2D9A720B669E6; 0x75102EDD2BA08]];
  [[0xCA132F90FE15B; 0x7F9D119339816; 0x6E56945E2B2A2; 0x4514FE66AAADD; 0x17AF1BC738FB9];
   [0x4346FAA16001E; 0x1C1A89BB2AE60; 0x1399CEC955395; 0x3C0BBC0A6E99B; 0x64D29AE483CCC];
   [0x40ACC3E0904B8; 0x36DC23E8EE05E; 0x66D427ADA3210; 0x11F6E098F35F7; 0x39151730A7BBA]];
  [[0x91ADA9145C93C; 0x24194BA72DF78; 0x3678D46D1C849; 0x389372773D592; 0x18C36FC253B2C];
   [0x5F6DDFD39F849; 0x2633241A26C74; 0x474A8B991D2BE; 0x2CE50E2C4FE43; 0x293E1C206D813];
   [0xF47D948A0883B; 0x489F014B14B93; 0x6D2AC8A2E3258; 0xCE310A0B2212; 0x1253D16B5D0A2]]];
 [[[0x1FC6BA4B27045; 0x38F66C4585DD0; 0x44510A543BBBA; 0x1FFA25BB30E5E; 0x2D3C1BD993CDE];
   [0xA2BB5F0A56D1F; 0x26C278F22FDAC; 0x972239E1602A; 0x6D636075CCB7A; 0x255FEE96DB6F1];
   [0xD53D8C21D2AC3; 0x73D8BC6569D5D; 0x611171F31EC1E; 0x7BF39C3FB085A; 0x78CDD196C484E]];
  [[0x7AA3E7172E704; 0x41E6CDC54B308; 0xB05762F3EFE5; 0x444BD48FEF0C8; 0x4428AB2D08617];
   [0xBDD2F9B4370E5; 0x2F2670834C4F7; 0x3BB1958A52A76; 0x47CD537305248; 0x1EFD0574CCBFF];
   [0xAEB5EF88DCA62; 0x117EAA2E61A6B; 0x4FCBB9750C8D0; 0x495792CD27339; 0x1B23C157916F6]];
  [[0x7891B674E71F0; 0x7C4F6FCAD4468; 0x476D6C5509A66; 0x5F5A8B9CC77CD; 0x4199343D1FC80];
   [0x3F18F3D8F0055; 0x752C7D8BA3224; 0x436F715E78E8E; 0x1036795BF501D; 0x236B8319E54B6];
   [0x2E41C100EDD83; 0x58577EB7BBD8B; 0x1F51303AAC160; 0x5DC3CA305853E; 0x72B9415F81A28]];
  [[0x5265E75BE3284; 0x7167FAA26A5DF; 0x123D1A2FDB52D; 0x61BBE43A46D84; 0x261B8D88701BD];
   [0xC87F87048B464; 0x53BAEC34F322B; 0x4DC58AFE19A7D; 0x90CE2820F2C2; 0x6C48AC43ECD33];
   [0xB402CCF1F1A30; 0x429DB8F417641; 0x249FD2DC1A2A4; 0x49F1F51516171; 0x65C94E325A506]];
  [[0x5D0EAFD053602; 0xB2EB6445EFF1; 0x3EBD9F65805D5; 0x3CA4B8EBF6A36; 0x78BFD685BE998];
   [0xF64B891DDF860; 0x529576B60556C; 0x1B37FD3E24669; 0x33818EEF5C8; 0x2B11EBF7E5937];
   [0x3152B742C702B; 0x6632B1ECD6036; 0x7923AFB88728F; 0x6244DA1C3448B; 0xAD2FB0196EC3]];
  [[0xAD563EB3B07A3; 0x1213A17B47AC3; 0x53EC21980E6FC; 0x2C4ACC165507F; 0x7A622F28DA7BE];
   [0xC8F45E5659E8D; 0x2A78FCB23CE95; 0x24430FD4597D0; 0x347620F5EDF93; 0x3DC647EA1BA77];
   [0x7F8F8703A7DCA; 0x795C87DAACF66; 0x7534BD87B9EE; 0x5099B2C521F78; 0x273750C74E81D]];
  [[0x24EDC3D8ABF8E; 0x300DFA97BDDE9; 0x446C6F830946C; 0x68F06F4ACDD60; 0x18F286BEDB687];
   [0x3287C7040CAF8; 0x5A30953D9648B; 0x4C0CED1BF2F16; 0x5022BA173833A; 0x471670E5DD4C8];
   [0x575C7D920A1FA; 0x28011ACAA137; 0x267F433A9BB5D; 0xC0E4B91042B4; 0x1740F314FE330]];
  [[0x9146BFD90884A; 0x24724AE1312FD; 0xCC37AB3544BD; 0x2E4F30E1D877C; 0x78F98059C7CDB];
   [0x80EF557A2B367; 0x34596D52275E4; 0x3D07B43BC2723; 0x485142DA02EA6; 0x52ED77068B052];
   [0x50C37F84E0B1E; 0x7F90DAF676333; 0x14A034E40FE3; 0x1A1CCC5B06FA4; 0x2B57B6AAF5AFB]];
  [[0x5A1EC835F93D9; 0x27C73660ABD19; 0x51ED4ACB98418; 0x5934D9A8C4481; 0x56DCE5E599B7];
   [0xD82F2893E91E9; 0x7DB2ED2F5FC8; 0x470BFB2A14A2D; 0x243357800B12B; 0x1586B880D973F];
   [0x2894A1AEE30F0; 0xA56EEFC3625; 0x328B708D399DB; 0x1E0245E856F01; 0x331A120A8FA38]];
  [[0xB01B89AE8C48; 0x160C2BE55859D; 0x32ED748BC62AF; 0x3A96EF5B049CB; 0x7D5C6C7C53881];
   [0xF575F2E610488; 0x50DD2D252D63F; 0x32900A6CAB78A; 0x52436AFB000AE; 0x1058C522E70B4];
   [0xC32E693EA545B; 0x363FF953257C4; 0x6BB224E619CF6; 0x4725D9B6CC315; 0x28D022032739E]];
  [[0x130FFBDDA7B5B; 0x8B75F47AA474; 0x704583AA71B9F; 0x3F123BF1718; 0xC86888DA8826];
   [0x1E99131EE0CC8; 0x15BD0E81C213F; 0x60DB057C2D8C7; 0x3931F8CDBD796; 0xB711D1643ABA];
   [0xCAE2E3BD0339C; 0x535FE10F2B9B9; 0x3BAC64D32897B; 0x2E04FBE091647; 0x69D6BFB6020F3]];
  [[0x3BF20FBF44C75; 0x3DFDF8AA48E71; 0x755E830F9348A; 0x4DCF2FBC753A0; 0x563C950DED5E7];
   [0x95173064904B2; 0x1AD16621A4F26; 0x190EBCA98F19; 0x25C88E57E353D; 0x7235C78DDE09A];
   [0xAB2477B99C193; 0x787D92E572642; 0x254AE25CB36B6; 0x14FF7F61A68BA; 0x2AE23C86DA540]];
  [[0xAA69FC65B55EE; 0x602BFEB958D5E; 0x41B4D60AAC3E7; 0x6E4587652A12A; 0x538D39DB42EA9];
   [0xA78E9FAE803AA; 0x50F1F50C82CCF; 0x690C7B716417; 0x9E9B33D5B1F8; 0x46AD0D9B59A8E];
   [0xE0FB21CA97546; 0x796398B48AA4B; 0x5BFE2E571682E; 0x79B204C96268F; 0x36514FC4F006A]];
  [[0xAB6ADDA89E077; 0x456219E30B23F; 0x73DF2B5B296A7; 0x7416CF096B608; 0x506FAF22F148F];
   [0x4D01231B41F08; 0x4E0DE454C9D9; 0x1C359EA53295F; 0x5C16FFE73D620; 0x1FD9A40888D64];
   [0x82DD110EAA0DA; 0x2885D3B8FB45F; 0x7AAD0C23075A0; 0x13BF01DF39A9; 0x25FFC049C3BB]];
  [[0x188B1DC7CFBB3; 0x73B99A1AD10BA; 0x799A4C5F58A95; 0x5036A5F90050D; 0x7A61558C47079];
   [0x8E5B50FC0616E; 0x6BE2B98B6BAB1; 0x214A72D8A4D1E; 0x761E21C815E1A; 0x3D750B6148769];
   [0xA9F7E8D06E7C1; 0x28F98763EEF5; 0x79EA1FD1DE978; 0x21613CA3BB40B; 0x70E4362C5401C]];
  [[0x9D08B1089B486; 0x165F2FBD68266; 0x35E25AA132009; 0x44F5F944F1D77; 0x25F71B14DA654];
   [0xBD353769CE1F9; 0x6FA3F3DDDC54C; 0x2B84C2EC34B40; 0x2BC5399680FE7; 0x77DF80D7D51A4];
   [0x4E2691B0328F3; 0x50F4537961493; 0x44E2C41C84DCA; 0x52B780EFDCD69; 0x5376F2A050E19]]];
 [[[0xDA03985F38262; 0x37D5F62914A3C; 0x793B68F7811A9; 0x32B90BCD39CE3; 0x75AA44FE7E19C];
   [0xF05AB91A2B12A; 0x59AF4F8982C00; 0x48CCE588AE51A; 0x49E4C670BBE65; 0x6B3D82691A651];
   [0x8F5698465745B; 0x75BE3EB74331D; 0x737D69788EE86; 0x62141377DCE86; 0x6EFBEF11283CC]];
  [[0xFB2D42C8285AF; 0x6FD40664A5490; 0x57F0694D97426; 0x2A7A28B3356DA; 0x28920886AF6EC];
   [0xA8C24C0BF2760; 0x68C3EC242BF3A; 0xCE0D0E1B7F97; 0x61C58FABECF34; 0x4CA319E801FD];
   [0x325DE46C5736B; 0x468915384C263; 0x6347A5799363C; 0x7210BB1344417; 0x11E398C2404CC]];
  [[0x6351562580ED8; 0x6220AA1C9D62B; 0x1CDF640634049; 0x2FA7088B01B0A; 0x19ACCA28277EE];
   [0xC65B688EBF493; 0x5B03149C63AE5; 0x6AFA8197C4FD1; 0x2D0DA5C748E78; 0x662C002D4D15F];
   [0x1118B8CBBB7E7; 0x4CBAB82FD2BF5; 0x2348B0CE469A5; 0x23EB3398A797E; 0x4E228589713E3]];
  [[0xB4E4D027C85C; 0xD803053DA772; 0x65984BB60A337; 0x7DC2376F7272A; 0xE9430E355BA4];
   [0xA8E389D48606F; 0x21F690AA2DBC8; 0x142274ABC9F41; 0x72BF593710713; 0x2FD7F4AE2EE22];
   [0xBF1C20DDD2691; 0x5411630C2A271; 0x2D6C2990BAF6C; 0x16E01E690E20C; 0xE8F8FFA954EC]];
  [[0x5A3AB6DAFDFD3; 0xD9D486BDD09A; 0x2D2E51B7C9711; 0x17CE407134280; 0x3AD3997FA1672];
   [0x3D8F172453802; 0x2317FA3185EC2; 0xBA91852E2031; 0x5EC464B3ED108; 0x57C6D8CF0E0FD];
   [0x8CA2766DB4A5B; 0x73D443B130A20; 0x58BF472C3BA39; 0x6F5CC0907C053; 0x3FC5C6F14BD87]];
  [[0x4B65645E73CF6; 0x7C5AB1C053774; 0x5018E4FF1FC18; 0x769511D97D00F; 0x6AD6BD6EAA9E9];
   [0x46576871857E4; 0x215AA0839B591; 0x4E1CAA9F6A2CA; 0x7AB0F33E726C5; 0x67F4BE171AA28];
   [0x6531996604B7F; 0x453BF42EC79D2; 0x32113012CCEA4; 0x6D0B5464300F; 0x2176B1E5D6D50]];
  [[0x1D3C100DC72D5; 0x3654CB2834C97; 0x5E965AC7DA69D; 0x78DC0DD9AE1DD; 0x19E21FECCAAF3];
   [0x13C3FDF2B1672; 0x619ED60AD922A; 0x6A134A3138156; 0x74D7A0EB94F4; 0x655B9265AD61E];
   [0x91D8E2767E0B1; 0x65AEFAC257813; 0x38076D1470BE1; 0x3C981EA0EB22B; 0x15A7A2D75B203]];
  [[0xCC309EA9DA550; 0x167109F6B7EEA; 0x36256E39C62A5; 0x23FE04A59A8D0; 0x48F3DCFC704E4];
   [0xDD13D87BC3FD8; 0x1E1039D0C27A5; 0x13884321DFE6C; 0x18DF5EB967D7E; 0x27626CDA767FD];
   [0x81A4C254FE9AA; 0x39710CABEFE25; 0x1FE4ED0D3AF13; 0x36B4C87AE2C9F; 0x11248B666F136]];
  [[0xE797C4CCA0B46; 0x549315E592B39; 0x446B1DF8247A1; 0x30ED36C5BB7F3; 0x2AA80BB30E10E];
   [0x987E78A6334CD; 0x21A51601C5BC5; 0x56CB555352F37; 0x225D060DB2429; 0x385DB17BD6237];
   [0x2ED3E680A5E84; 0x5712851DFAB33; 0x39A12254B9A45; 0x216D42F43EEBB; 0x357331598DA83]];
  [[0xF7C1D3279D8A5; 0x43F72163137B9; 0x42C3FE876167F; 0x3B0E73C83522A; 0x1DB409981C582];
   [0x122CD3118D65B; 0x71763F291C87A; 0x561465C8B3331; 0x4944F4C61C7FD; 0x2AAC9443A36DB];
   [0x4D4FA4218C372; 0x76C45E03C77EB; 0x72FB97E90D33; 0x5082CF2079905; 0x2FE26BFD54FFA]];
  [[0x7D19A42E4631A; 0x6571B981A6AEC; 0x4D393AE74429A; 0x446A87D160168; 0x3AF53BFC0F685];
   [0x2D55D97B6EB19; 0x39E6461F719F3; 0x190259D2C913D; 0x3C976B6FBF37A; 0x19F876AD4BC35];
   [0xEDF4304B4688B; 0xC939FCAC59CD; 0x56BFC00BE589D; 0x4B4C590A12AC7; 0x7EF9566506AD0]];
  [[0xA585FE0E0C2E0; 0x18D0780A3AD5B; 0x6DD4F15327657; 0x9AB856FE2440; 0x750F36E6E9B65];
   [0x8B6024E61BB41; 0x6393F246B2AD3; 0x446AF58B6CA59; 0x520765881CA; 0x61089ABFD62AB];
   [0x633226585ECE4; 0x76BF57CC213CB; 0x484A01C226640; 0x33C1F700F8FBA; 0xB0E1B3037271]];
  [[0x54E468A9EFE70; 0x608519FBFBF2D; 0x5333558A69061; 0x4D0D77DF73B72; 0x5963DB206A396];
   [0x394333A1E85F3; 0x353C23C03493E; 0xC828A97CB1A5; 0x78C43450120ED; 0x555DF3569380F];
   [0x42EFA777C3D87; 0x6535188CEB3F6; 0x711F155E76C84; 0xE3BA9883F418; 0x57A3C7F7ECCF3]];
  [[0xB073EF993682F; 0x33F05FA3CCE30; 0x68B17D4A39381; 0x4A922A545C066; 0x6F6DAE315DA70];
   [0x14D0E6682401A; 0x7CCF46A4DD19B; 0x75F65E59EC735; 0x1444919609445; 0x56DEA40CFB96B];
   [0x16AF62D5F1A62; 0x31733B90868F3; 0x6590B06472897; 0x49790ACFA5796; 0x3AB09B226B35A]];
  [[0x329065372355E; 0x7AB688B6A2989; 0x45AC32571E188; 0x5840E91DC5D76; 0xA0DFC537909E];
   [0x5F472964EF0CE; 0x3D2FA150C40C5; 0x7CBF1211260FB; 0x3709955BA6654; 0x217DBDD3D5D0D];
   [0xA1158C12DB2A4; 0x4C90A2B817CA8; 0x61F4B5B3A38EC; 0x380423D6EF40B; 0xB4B0EF2C8F0]];
  [[0x28D6E002BCA29; 0x7A3997D7D546A; 0x5D8C776975959; 0x317399D2025E; 0x754B217E301A9];
   [0x2CDE1681E8828; 0x380F9FC21B2AB; 0x3AD0F0DC0117; 0x3D01C67CEC59B; 0x39049C45C39C8];
   [0xCE99521AEEAB; 0x3B4C67C5B669C; 0xE043A30EE5B7; 0x3F0C4E94F62CF; 0x1AB4F30E0A8F5]]];
 [[[0xDC91F212AB480; 0x5945E1877E8EC; 0x13573E60D6704; 0x69D9C4A961CA2; 0x3DE09EC8A48AF];
   [0xE81E566BFFA33; 0x33E06B06E4111; 0x2D32A23297AFD; 0x5F9BFCE126AC6; 0x1FF61C1A88D8E];
   [0x8D3EC31CFC3EE; 0x46D8793EAB63; 0xC143A50BCCDC; 0x6EAB8519D9BAD; 0x74830BD46D5B4]];
  [[0x574A2032B148; 0x4328CBA692C33; 0x232F42D123335; 0x181DEF8EAD0DD; 0x451E2578C52D5];
   [0x695C6731F0527; 0x5CD46B5C17880; 0x15EAA924D0904; 0x7F6FB72E84D0; 0xCEB928AFDBBD];
   [0x4D3626FF5B12C; 0x51FE69CA7F94B; 0x772203CEE99E4; 0x5F1FAC7E8C081; 0x3E578A1665444]];
  [[0xB298801B1FE77; 0x2586B0CE008AC; 0x45E778DC50E87; 0xFDCB5F3CC8F7; 0x17C5D39EFC586];
   [0x2A41D8771BA87; 0x4C8102431A7BA; 0xB390AB74C50C; 0x2C546F7C05D4D; 0x6AAD492B3116F];
   [0x8FF03C1367A73; 0x2A4A748616572; 0x605B500CB4A72; 0x5C39BB9BB5B8B; 0x569FE03A16B9F]];
  [[0x275341CBCADF6; 0x430EFD84DCC71; 0x22B997FAB00F0; 0x30C5632CF0693; 0x2A0826D840314];
   [0xC11CD5CF6EE57; 0x1257E6308FBB1; 0x2F7CE59284FB8; 0x57DD9BDD3EF59; 0x3452936337369];
   [0x530B11F6BDDA7; 0x7A51865D93007; 0x76B5BC60F0AC9; 0x212F031E350EA; 0x75AED0A2ADAE]];
  [[0xAD78B391BD2D5; 0x3A11ABEA7FF04; 0x46A25F0F350A4; 0x1543CC7EF57AB; 0x69223D8309EB4];
   [0xB33AD1F86A15A; 0x36B112A03501B; 0x344A2066D4EF2; 0x55436BD4B9A9D; 0x41A71A942A508];
   [0x6FF9618F443D0; 0xF3000CB2F1BA; 0x22C2897DAADE0; 0x4F604C596FCBC; 0x585C83B55AFF4]];
  [[0x84B6AF7D110A1; 0x1EFC9DBBC4234; 0x796661C37007B; 0x10DB07259FC43; 0x202355E8495E8];
   [0xDA5E823077C6C; 0x3C9503E1777C0; 0x1A5E4F1DED645; 0xDE482043B271; 0x4B4CCC6B33E65];
   [0x11797174CD365; 0x242D89859CD09; 0x714A4593BD77; 0x51B9197490AE5; 0x6E6A726266AD0]];
  [[0x6163606CF5614; 0x3B9BA82C96535; 0x75E66F7CF6D4; 0x411E3154EC181; 0x29B40D6F2E74B];
   [0x5D2E429379A65; 0x8B1A72434343; 0x41E8D9808E74A; 0x4F14CB75EB689; 0x4F434008C1B41];
   [0x67B260BE03B58; 0x1EEF4691ADD3A; 0x2850460D0C4EE; 0x5AFCC1FFDAA08; 0x3AB9267B9F6DC]];
  [[0xB5389B777649D; 0x1F24DBD666B73; 0x36DFB5DE2A31F; 0x5EB994849E227; 0x4279FBFCC1BD4];
   [0xB7EA950A7028F; 0x732F69E7CF7DE; 0x66069E71F3D7B; 0x28033D27359B1; 0x183D3130F9EED];
   [0xD74EA5E42F626; 0x4B6BC58EA9C64; 0x3C2C8FEA82634; 0x2CE04C5B571DD; 0x1E397436718BF]];
  [[0xB7484714F9403; 0x4FC7BF02108DB; 0x3678FA400AD90; 0x28EF7C8AC0FE1; 0x504A42505BDEF];
   [0xA0A066ABF7FBB; 0x72AEC8D4433CE; 0x2A0384B583EC1; 0x2AB91E995640C; 0x169BC2751E588];
   [0x9EB12660357B5; 0x77A9937FD5E5F; 0x21FF5CE16F36C; 0x1C906DF80DF41; 0xCC48BA3DF0EA]];
  [[0xE23A04EED9E35; 0x4ADC00E39212A; 0x17453A70FE352; 0x6D407B1DB39B2; 0x5D825F613189B];
   [0x40B93828FA640; 0x17C0D3D748E6A; 0x3E2BC36916CA3; 0x26F60A9DD3D92; 0x2CB47886C390F];
   [0x8E7468212D22E; 0x5E3F127FB8644; 0x6C85DFBC55D78; 0x7DFDFC6C531F3; 0x674E26E15BF6B]];
  [[0x742AB1CE45F49; 0x352695906DAC7; 0x67D9DD8206042; 0x2A8F523687321; 0x209C2CC3DF3F2];
   [0x582E07DACB336; 0x659136B8B103E; 0x75BFAC5E74BD0; 0x30FA01037A173; 0x27A6E9B54A029];
   [0x10636DC94228F; 0x334F99AD2D208; 0x210CE39BF48FB; 0x5CE98A1D2F02D; 0x7E987948C2C36]];
  [[0x60BD25865CC5A; 0x717975E64B3FD; 0x791116DD316E7; 0x27FC70709E15; 0x14CE5C4B9FED];
   [0xFCB5EE438E62F; 0x3918BFDF256E1; 0x122BF1C544888; 0x14620D1E4D6BE; 0x31786B5D1AA6E];
   [0xD8369134DE3F1; 0x358E513D33827; 0x1AD06806E9F25; 0x7751294480EB8; 0x70E23870117F1]];
  [[0x6F3BCD1B2F70; 0xFA5C78F50611; 0x411C55245B3EE; 0x4944F3F6FC1FB; 0x44A8C001AA25];
   [0xD4183C7441852; 0x55D95E60582E; 0x7BCDE3E7457F2; 0x8C8DB0B27127; 0x151434B629450];
   [0xE723B7F1ECEB3; 0x4AD5542379FD9; 0x7AD503D0F9616; 0x7C70002B01072; 0x14758CEF08E44]];
  [[0xC404279D4475B; 0x69FDFED5F482D; 0x4DDA9A420B9DE; 0x442DE4FB067AC; 0x11575126C1A87];
   [0xD4A13CE38DD3; 0x55443D3A075FC; 0x2D0CC46239CD5; 0x37A0D9341BE9F; 0x7D72576A16B0E];
   [0x18F1C0EA31782; 0x17F5C99216478; 0x70B5287151CE4; 0x69D184D521E3F; 0x50B904149AB2A]];
  [[0xB9757956238BE; 0x719EF66129C48; 0x3A4A2018A1497; 0x60697B014C86D; 0x4211842CFCBB6];
   [0xFC466BA4129; 0x5C2C02129FAE5; 0x7CC7E722EDDB4; 0x463EFB0DEA9BC; 0x5CEAB5704312E];
   [0x3CB3EF741A489; 0x447C22A9AC8F6; 0x70DC1AC662C00; 0x643FBD84746C4; 0x47AC14BC4BE7F]];
  [[0x1F0ED4EAB4BF3; 0x3BDBDE234EFD5; 0x7F9817DB30238; 0x5F1CA682E32C5; 0x4EA29A4CB0AC2];
   [0x119149BBD8CE2; 0x53B67849C8636; 0xEE5D57DDF5A8; 0x4ACD87314DB39; 0x50B40A053EECC];
   [0xA4EC0C58B1A27; 0x4144223834F69; 0x6C3A5FA7A66C; 0x1E7C747C08629; 0x6C75F05A9CE16]]];
 [[[0xDA9D6805AB8BD; 0x551D3DA5834BB; 0x44E2A3C850244; 0x3C161B738B16; 0x16FA62C9D5E85];
   [0x2A0101ADD9A68; 0x5F00A8B73A3E; 0x2700C6352EA8B; 0x58F72766D9CF5; 0x786CDD193DF0];
   [0x8EF307292DAA3; 0x78A0B85552DDA; 0x2B5E21BAB14CA; 0x42FBE2B9E130A; 0x6A1FF64B8DFE0]];
  [[0xC37A44368992F; 0x503AD37567295; 0x22D6E783EB997; 0x73209A3FE24D5; 0x61BEA701A085E];
   [0xF79A9906695E1; 0x6563AA33BECCA; 0x6D9C258571274; 0x2082E0EFF1CF3; 0x6858AC5958CD];
   [0x73B5DF922B953; 0x7D833BB16576F; 0x2D7E0952EDC43; 0x4C40B62DE9061; 0x6802A03BBC4A8]];
  [[0xAA4FF9CD029FB; 0x6A8F58A61B495; 0x76DE5AEDD2889; 0x418E79FA28A81; 0x4AC6187BA7E86];
   [0xBB424077E0F78; 0x6BE304793DFB9; 0x1D1A8E8B74E8C; 0x400EE04CA634E; 0xD23EE5F7A76A];
   [0xE8C82769B883D; 0x61FF0A44B7C0C; 0x71C3F9C0C1C14; 0x1A72BC400F4FB; 0x63C977E0C2A2]];
  [[0xB7EA553156CDE; 0x4F77ED1DA0116; 0x5313D6AB54554; 0x68205E8633D72; 0x4C0F6F5D7AA5B];
   [0x2AC03322F3ABE; 0x13B9DB1E063DB; 0x1653067E1D575; 0x68FA0726EBED0; 0x56D9BF5F7ACB5];
   [0x8092305F9E607; 0x50ADE9DDED289; 0x677C866291C9D; 0xA00D6AD82313; 0x204C6129E7A63]];
  [[0xCC52FB8AA29BE; 0x1FD5EBA86F95; 0x3EDEE7EE1584C; 0x7A98D872F3541; 0x41BB59C74740D];
   [0xB91A314979A22; 0x445CC55FA6E68; 0x29A9728593F50; 0x3D453E9BB2BF4; 0x458E9C150C319];
   [0x8B902F4166F58; 0x8BF4504AEFA7; 0x507F7245632D2; 0x46F4236C007FE; 0x5F8B80AB194EF]];
  [[0xE0E279B58D515; 0x494C3FDFB0D3E; 0x6ADD516425B77; 0xC99F3F472FC4; 0x23C04A4713378];
   [0x33C225C70B892; 0x5DEF1B82B20A8; 0x62D4704CA33EF; 0x1505BB87DFBE; 0x18D6306B777E3];
   [0xA6436A9F762A4; 0x102ABB9E7477D; 0x4BD6FA6C8FD0; 0x2E4FAD22E39A3; 0x7D2D079A6B2DA]];
  [[0xB537BD4E0A6B1; 0x64415199F9972; 0x2D496FA892827; 0x29834D9583EE0; 0x1F325BFC1AEE2];
   [0xBE9617256C790; 0x2301EF1F61C9F; 0x2A218C8615200; 0x60780EED8C6E7; 0x4A46B99106694];
   [0x37B99B0CAB13C; 0x78242AB738B41; 0x18258BBD69E1C; 0x43D3E9A166688; 0x55321313F52D3]];
  [[0x67501A6250F6D; 0x51135CC1DB41; 0x5B70CAFF3B24D; 0x7AF6469DAB79A; 0x5A486101FF730];
   [0xB81D6FB3B7613; 0x705F8371DE858; 0x4616EECCC6DE2; 0x3B624C3D98F88; 0x2580784E014F7];
   [0x3C6B7855856C3; 0x2ACC5BCB17705; 0x4E8DA7BC00D1D; 0x6A7AF33BBD40A; 0x4CA608C42E191]];
  [[0x14957F896B8DD; 0x2EE29ED7F94C7; 0x6C535FD580D1; 0x7EE5C2C854B58; 0x390B6176CC0A5];
   [0xD8E851115F82F; 0x57712C2473469; 0x5FED753D7DE49; 0x100E99106EB96; 0x32A5894C01232];
   [0x3F3BD2CBCD3E4; 0x51B2182A69BC1; 0x47F72BDF9D1E5; 0x4386BB2531556; 0x6251703B0886A]];
  [[0xDA5B8DDCC32C8; 0x4B6E439859BAC; 0x565788B32A991; 0x7DA2C259D0EFC; 0x26E2BCA2F2403];
   [0x36BD2B233B8DF; 0x25EC957D6035; 0x421C4260564F0; 0x24C08F5533B05; 0x4195603852EB3];
   [0x7B58166F4C3F1; 0x262CCAD523D27; 0x2167831F73FA9; 0x2330A70233315; 0x1E997E60115B3]];
  [[0xB11A8A180A2DD; 0x740DE93A3B1BB; 0x1A75730E8D6F7; 0x2787677BCD20B; 0x2C62508D0E0E3];
   [0x193FF85DC4853; 0x6FF8B716F7C95; 0x5695A400F15D0; 0x6FCEA3FD445A5; 0x6827935BB527C];
   [0xE756880792D5C; 0x17C4CBFDCB6F6; 0x3621A1F5AD47B; 0x8ACFEC1E2F0B; 0x680EE7BD4FDC9]];
  [[0xB22617017AD54; 0x6D79A05652478; 0x78436BB1A4FC2; 0x588C3017ACA81; 0x721CFE104D7FC];
   [0x58F6241221394; 0x3B5CC42F98968; 0x5B8C26DF7368C; 0x258033A96E20A; 0x6CDFD92327819];
   [0xD5F316E441B95; 0x7262AFF6C2AD0; 0x615C867B8A858; 0x2304A98935CF1; 0x1C346C9D50FBE]];
  [[0xB8D64E6633E8B; 0x4415800321D6A; 0x112873DB9D153; 0x7454E53F98187; 0x6D9C7B5E085F8];
   [0x8054C9FC0114A; 0x60A1D43700A51; 0x7F536F76DCA7B; 0x59A4ADEA37323; 0x6F027E38F2362];
   [0x304C8AA59BE30; 0x7FE5A68FCF77D; 0x6BDE087AB92A0; 0x25E8F669E08C; 0x18E93C6B2C356]];
  [[0x4A344E63D4ACA; 0x7C308BC5ED73E; 0x3A32DEAF4E9FA; 0x4472F4E854593; 0x47D341D3DDFD];
   [0x7532D39E9B3BB; 0x217DF5A0A7433; 0x74975495E1565; 0x2821D2EEF04CF; 0x54FC7406A916F];
   [0x913F345C8BBFF; 0x6989D1646C723; 0x27764F8A16ACB; 0x8C125AF8D5F; 0x6800FE91196F4]];
  [[0x82C098B00AA79; 0x770B1C497ACD1; 0x344FD551B8CCE; 0x23F33BE497F56; 0x2EAF897898B65];
   [0x7F51FA8DC697B; 0x74CE3069BBE12; 0x4C428EA0209F5; 0x2F2D8D0BB62C; 0x4E256AFA4C76];
   [0x1D22BDE52262; 0x6DE17872B5135; 0x66D4BFED89F63; 0x389FDDE527F9D; 0xEB2F6E615478]];
  [[0xC58D612641095; 0x54CA77FCC5570; 0x1DA1FC218000A; 0x37F0150DC6C3C; 0x22955963EF643];
   [0x9C17EB03D6EA7; 0x2DDDAC1318776; 0x4E4B91FA27202; 0x1E2352AB304E3; 0x60A0E261D6691];
   [0xB576743FFBA33; 0x5A197F3AFDA0C; 0x429DD4FCB8A3F; 0x1AF629993F4B3; 0x45EB119867A22]]];
 [[[0xAC144EF178112; 0x94A0264CAF23; 0x4A0AC5A24DEFD; 0x7C7625D1D184E; 0x5737B194A6A86];
   [0x8F38EC35EE99B; 0x6D9BAA844775F; 0x46F84DF77B762; 0x2544D6FE58FDC; 0x77B72BB7289FB];
   [0xDD166D7288C6E; 0x1C67A51DA413C; 0x6973C6FAD10E1; 0x31DE5E5EDA939; 0x393F71ED28892]];
  [[0xB1C84EECF7E6B; 0x56A60AC35BAB2; 0x2F06DF1910A93; 0x618DC5FAEB06; 0x1D49317BBBDF6];
   [0x493F2A36F71D9; 0x40122E257F266; 0x7974D73D3705; 0x1276FD01A753E; 0x756654735EC6A];
   [0x7DB79632DD089; 0x1FE3FA5F4A3F7; 0x1716E3C167A6F; 0x53B6AA21FEB09; 0x23EC2880EEB4A]];
  [[0x25A84454FFE86; 0x780F2E547DCDF; 0x701A2C14FDED4; 0x4B8A116F259A3; 0x695574E1284BB];
   [0xD30440055360D; 0x3410B657F1F4; 0x6EE23795C3521; 0x4C9A2F7E3A24B; 0xFD8B32023BD7];
   [0xAE6F82F35FF69; 0x3F3D6F04FB2C4; 0x5F2596E4AACD; 0x7F09E9725486A; 0x62C57118684FB]];
  [[0x71AB6451B13D2; 0x619FA9ABFE206; 0x4C28E4E8FA08C; 0x2CEE0DAC526F3; 0x5F61B37975A6F];
   [0x15634247F1514; 0x43246C09599E2; 0x502B5C89D4562; 0x55B6E5B70BD64; 0x924E7D2DA3A4];
   [0xDC2A7C58A69B5; 0x7579FCF83B046; 0x490212587ACC9; 0x42C0D4FB52DDA; 0x6EA269EA5E4FF]];
  [[0xFAB3168E74931; 0x9FC282310C8; 0x2E357A087E03B; 0x2E82B3F54812E; 0xA1378335E998];
   [0x9E98B211CF746; 0x294635069D795; 0x66C9A8A94C197; 0x49DBA942CC086; 0x38BE03A6F71F4];
   [0xD42F0FB6C56DF; 0x3D1EF830454E8; 0x225CD3F51B513; 0x2F23E7710F71; 0x7ED09816C213D]];
  [[0x475A30D2F95C3; 0x6534DABA67C75; 0x5FFF4349E9DCF; 0x5741BFE20E51E; 0x7C9C06E28F6DB];
   [0x4C91D367D647C; 0x5DB920659E98B; 0x6E2DC6EDEAE13; 0x45FADDDCD7438; 0x6A3D3CCDD5BDE];
   [0x30AFB5D712D2; 0x4232A6E545B6F; 0x6CC8095D31E5A; 0x5E95D17B4F93D; 0x640826F938DB4]];
  [[0x54E864AE39A36; 0x75453A7420C12; 0x7550FC0647586; 0xCE261F056DAC; 0x6EC06688237F9];
   [0x9D858855A118; 0x35D6E1CAC4C58; 0x51BC56EDB0309; 0x56720925976FA; 0x3095195EC98C0];
   [0x28453ABBCD94C; 0x442BD67826FA; 0x27091B2C7D123; 0x53D5CE098F2DF; 0x33B91CBED8C33]];
  [[0x31BB1AEC4EB7B; 0x404BD71986FBA; 0x789F140F41C34; 0x46319EC635090; 0x62555BCEF03FC];
   [0xB7957AF9DF20B; 0x61499B0C64744; 0x5A1460AB6F031; 0x254B48FE3B63C; 0x138DA1B0B8458];
   [0x8FC31F72B00C5; 0x9260DAF93E82; 0x7724F21722EEC; 0x65104B46DE00D; 0x5C74C4AADE4A1]];
  [[0xC942D7E200CDA; 0x4DCCF2C9062F8; 0x33C6DC30EF168; 0x5876E586F49F0; 0x5C625124B23D5];
   [0xAF942F3B8567F; 0x68DD426ED4B8D; 0x74CE2434E2244; 0x5BC01452BAF26; 0x68D340AA53E01];
   [0x62BADB88E1FEE; 0x1B7927E30590; 0x7FB96EBA04357; 0x63C4C5B983654; 0x3CB27C00B0E03]];
  [[0x3A8ABA3BA06D8; 0x5183A547A5052; 0x2FA684E05B048; 0x37DC680820759; 0x3A758E398D110];
   [0xAE41D00F8BBE3; 0x7C91843988CEE; 0x8AC196646158; 0x4F9CA63F0D300; 0x4AE71F5595151];
   [0x9C5C331E75B70; 0x34AEB589633E; 0x3A2AFA63836A6; 0x71AA62CA57C97; 0x2588D39981664]];
  [[0x2F5861915F134; 0x2E22B903AD5D1; 0x4B62079B373C7; 0x6E593A78A5789; 0x6ACFA4114B928];
   [0x845994C9F8482; 0x18D23FF32CC4E; 0x1EF02A3741210; 0x3A1F60A318F68; 0x74BBE122C022E];
   [0x235F03B8817CF; 0x4136EC580474B; 0x30B5BE4C70BFD; 0x6771287C6A491; 0x4EE10D834F1D6]];
  [[0x9238C49B5B594; 0x6D951D5930D4A; 0x52C92A1704BF4; 0x58049C0061E24; 0x3414A1DFBD8A0];
   [0x3B17B475F899E; 0xA207F4C1C87F; 0x5DAC41647336; 0x17D58BC6FE28; 0x6090A9CB1708];
   [0xE353DF9AED9F; 0x211A100A66400; 0x537F1DBBF53C6; 0x61176C39FF089; 0xED4DD7183518]];
  [[0xD4A93DE96CDC1; 0x1C832B89CB8A0; 0x203277525319E; 0x4CEE0F6725575; 0x70ED69AF9BF53];
   [0xC17F8BAA5AAC7; 0x6AF4ABBDC969F; 0x3A0E69B82101E; 0x6234479D6A63E; 0x2BF20728C2007];
   [0x63FEF01AE2A02; 0x1C86F09FC4AF4; 0x69A1DE168EBCE; 0x63F996EFB8433; 0x72A687DA051BD]];
  [[0xA8952F3FB5F0C; 0x22194DC688FAE; 0x6F9F5064736BF; 0x7A6A4D691B9DB; 0x7F5B139E354FB];
   [0xB63808606E6E; 0x5E413F0FE0384; 0x24FB74A712242; 0x27B1CB73DDC68; 0x6285935149BF9];
   [0xD30A9D3AC7820; 0x2B97ED3978DF1; 0x3681BAB9F5289; 0xD844B826D276; 0x784A758F5FDDE]];
  [[0x5EF9827213EE3; 0x42F84E4310A41; 0x4A5143748EB06; 0x3190974F9FF92; 0x5016A42C2EB4B];
   [0xCB993776C25; 0x5E9694BF91DF4; 0x56BC66736D688; 0x2EC931ADE934B; 0x1A9C364E091BF];
   [0xE211DC7632283; 0x35BE411AEEFD3; 0x15DAFEBCCAC46; 0x37714AEB785FD; 0x6253CC0A245FF]];
  [[0x29AF81A0D1BD2; 0x3B61C799BE14; 0x1C03C6426B11A; 0x7F386EC4C5C3C; 0xB2BC5FE81F9E];
   [0xAD04EE82724D3; 0x5B1D7846B04CA; 0x33D35B52BC659; 0x135A47CD22439; 0x7D7B6CAEA433E];
   [0x850D32772E3DB; 0x582BED8E87C91; 0x198367AE74473; 0x2F5A5839CEAE9; 0x2B8174D7564F2]]];
 [[[0x5F71E4CC72DC5; 0x729408117FF19; 0x309B7A677423D; 0x4839F84C2AB89; 0x8A95BA320E5D];
   [0x78965FDB1CB39; 0x5F0C0D8298F25; 0x55C4EEDD50E22; 0x23DC216E90B73; 0x797D03A50DC08];
   [0xD4CA0AD220D40; 0x28CD933850D3B; 0x4D7EE3B9C333B; 0x2966D4130006D; 0xFBD61D1E8F9C]];
  [[0x9E516DAADA87; 0x4EC925BC0EEEE; 0x6EFFBA132BCEB; 0x724D09DAD4807; 0x452C79585B373];
   [0xF1401F95C5FB5; 0x5A1CE98BCB0CF; 0x216304328D3D2; 0x4BF1910725FC2; 0x4002028E1F6C0];
   [0xBCA6D33FB4AF5; 0x699B08CFF3D9E; 0xEA0CDC3C332C; 0x630F4F9EAC5C7; 0x780B9E89D8FFA]];
  [[0xCF75D097A1682; 0x32545E3AC653A; 0x29DB14F338894; 0x351894CA83CAE; 0x318CEC53A3C6A];
   [0xF2E2D2A2EA810; 0x54DDA2C9BB050; 0x290BE850E8961; 0x287BC5EBC0BFC; 0x62D4620BB48F9];
   [0x5A0F8E756C417; 0x4937AF0050D8E; 0x3DF98E8FBE4F8; 0x73EF8BBA04BAC; 0x3743A4A505CD5]];
  [[0xAC304DDD850C1; 0x116AE8E058E54; 0x3E025C2CAAABC; 0x6FC6FE28AC49A; 0x16E67A015DEA5];
   [0xCF3F158429CD; 0x480063B01884B; 0x363368F078BE2; 0x504AB7790BA1A; 0x6710350B446FA];
   [0xD8B8DE6397785; 0x188CD6C441A62; 0x4AD0920B22E3C; 0x5021ECF3C72DE; 0x3D133001D1ED5]];
  [[0xB60A8C5FAF1CD; 0x4C53C423A845B; 0x520A9E9FA2A69; 0x27D388A1F08D1; 0x32396160EC47];
   [0x38139094FAD75; 0x3CD9876593CD5; 0x71333878088E4; 0x201E8433445E6; 0x112302E7408FF];
   [0xCBFE63FC06EE2; 0x27425B1F20DEB; 0x457B85B95B8B5; 0x76DF4D98AEAFE; 0x4EC884BB0909D]];
  [[0x560BECBEEDE54; 0x355F2A19E2A7B; 0x3AC869895D894; 0x1B3A88FAF6472; 0x30150F70F46D2];
   [0xC4423AB869B40; 0x3A52F86375064; 0x12F5BC0F20340; 0x6CA222C7412D4; 0x32F1254041880];
   [0x2B2DBAB6499A6; 0x11049F2328790; 0x696584124F8E2; 0x142AB6165955E; 0x63E346DAEF2ED]];
  [[0xD39355730C824; 0x3FC8CAC7D5529; 0x51C9605C77F3A; 0x7A2A90B74D60C; 0x6FA2B0304B184];
   [0x4EB3441C3FCC1; 0x2CACCC532F441; 0x5E09ACF224276; 0x58A77259116FC; 0xBDC2A63D5387];
   [0xF8EFB7463FFE8; 0x1057CA428A821; 0x4ED380A470ED0; 0x76F49D6CEF5F0; 0x3F9D2D6743030]];
  [[0xAF30896CC3EF; 0x201D4DF630DBA; 0x52E42F5AFF8BF; 0xEB77C14ACF5; 0x3CA2DFB8C5EDF];
   [0xB5A205B171808; 0x4C56363842D6C; 0x292D70469611A; 0x6D916356CD45A; 0x6B0027CD19FAB];
   [0x22B2713528A82; 0x6E7BE33E7CEF0; 0x9FC8141F131; 0x150A7927D149; 0x3B14B0DA7FF44]];
  [[0x32EFED0F84103; 0x19069CDCE6F9F; 0x5C6ACB2ABA640; 0x6C2B81330E238; 0x3A809BBA9B370];
   [0x4BE6C8B688B18; 0x1351C261FED04; 0x2C96D1BC48370; 0x1E95E38FF6352; 0x7BEAD8D5751AA];
   [0x98F021AA4DB09; 0x78CD1DC9071DF; 0x605F5C2A08E6A; 0x2E7D15E83EE69; 0xE6B2FF6D9875]];
  [[0x4DE5A07C4323E; 0x2D406347B7064; 0x5AA73A0846C15; 0xB5C4D6C73A87; 0x2AA137FBF2494];
   [0x4685341C33279; 0x82B2B0E321E2; 0x5643452806D72; 0x626BA7990B3AF; 0x7CF53B95B4365];
   [0x13532346149FF; 0x5947C275C07F1; 0x34F1270EB410F; 0x514A7C01BF670; 0x407161B0257A8]];
  [[0x54B5C52AC8719; 0x2D86CBEB0D6B0; 0x4F84A08F1266B; 0x4D65F37B998EF; 0x6C27CE40B4135];
   [0x7BF812153FC77; 0x5CDDD65D79B11; 0x54A7071923FF6; 0x34FBFFF7FA918; 0x261A5361256A4];
   [0xB13BCE19AAFB7; 0x6D3B746CE4B8F; 0x53A3635869292; 0x7909536E7719B; 0x8EB20D956CC]];
  [[0x65CF97D492C5D; 0x29D9BCEE03B91; 0x6041F5A49C183; 0x2F8117A3A828F; 0x369E3DAD33DF2];
   [0xD5176A425F79F; 0x343D6AB0DE966; 0x64EFB5C97C515; 0x2BF9162998A39; 0x50EF13FEEC9EB];
   [0x39C0CFD97E85B; 0x770E1CCBB013E; 0x5F03BD9F7D9C2; 0x690F1EE2F80E3; 0x71787D1339A82]];
  [[0xF7F42B80EB7F2; 0x544C8293F8329; 0x122DA47640B5D; 0xFEAFA087BC4E; 0x59F0BB3B97004];
   [0x2AA28745CD9B5; 0x7BC8D5CD03005; 0x1422C4B7A9189; 0x282692E6090A7; 0x867B47D33593];
   [0x3413E422FA5A2; 0x6887164EBB90B; 0x65C5E1BFDB4A4; 0x4B98C578628EE; 0x4E5352F622184]];
  [[0x2549D88E38B2F; 0x4908DEAD628D9; 0x73E0A2E146D7; 0x664C6FFF36209; 0x130159F64A292];
   [0xB964E8ECBEDBE; 0x30E5C798B68B0; 0x4BFD953930A67; 0x7CA03ABB678FB; 0x33FEF5B3D5B01];
   [0x98E12CCF396A9; 0x3A8CA995F3788; 0x7482D4E5FAAC6; 0x31D5A37583FCA; 0x6D982702EDC91]];
  [[0xBE837A054ACCB; 0x4ECB51A8EF070; 0x2F2D57B4FCF60; 0x4C1513045FB2B; 0x47770E3380A5B];
   [0x425BEF82D311B; 0x2005D68620DC; 0x7325F0CD3FBE0; 0x4EEFB9471E0EC; 0x28F8C67917260];
   [0xB0A66B88E76E6; 0xF3A2C9DA4F2E; 0x1EA49E958D92A; 0x26E1BDBB6E03; 0x5029291E8FB70]];
  [[0xE54C9AEAECCC3; 0x361674AC1790E; 0x6F9F28B87D9E7; 0x18B8D2B452066; 0x7DB9345D70FBC];
   [0xF3DF99A78836C; 0x4914D0D5AE148; 0x571EBD41C1239; 0x5A51875241CFB; 0x7336AA1FEBF60];
   [0xA212F131FA1A5; 0xD92E88DEBB89; 0x558BFDAECA4D2; 0x269A780A65DC8; 0x7265543B97C9D]]];
 [[[0x9BE522B9D7F04; 0x4BC705622740B; 0x7E15EA4E4D172; 0x38BD4A6FDEDBC; 0x5E8C142089478];
   [0x48C72EDCC8AA4; 0x6C5E6065406FA; 0x6AF3701C24620; 0x42EA0F2E70B8F; 0x33DFF74481155];
   [0x852E6A6E72D7C; 0x42B699FEF3BF1; 0x5907EE2406991; 0x4D36621FDF916; 0x6D7911C011B7B]];
  [[0xEBFE9B94F7A12; 0x4824A85A9AC4B; 0x14EEF07D3D55D; 0x513B829B2AE5C; 0x6011380B7D9CC];
   [0xA21168961EEA8; 0x63CBB9BA57577; 0x6606B05EF2134; 0x6B72A1D536E54; 0x661849203E9CC];
   [0x4C06869AEA3D6; 0x21F578255BAF7; 0x67D1096E12882; 0x50B150BD416A4; 0x2910322AC87CD]];
  [[0x644D63DB19259; 0x547C0FCA86C59; 0x7A198D5D3FAEE; 0x1E28699860365; 0xEFE6732ABA42];
   [0x888204C12F590; 0x1C8E5F2BFF85C; 0x1772AF32270BC; 0x5D962EAAB3158; 0x1A34AB97418FB];
   [0x8D80BBC8528CC; 0x241D41B76D92E; 0x4513FE5B63EE3; 0x62D1B5DE35CE4; 0x5157C5E57C598]];
  [[0xBDB25BE3A9FD2; 0x302ED2946793F; 0x12C506EF80331; 0x6D13E5DECA318; 0x1A5DF0E20F25];
   [0xBC9FC9FF75DF0; 0xBF1C056F5479; 0x36E0E95E2CF70; 0x58A068DA69D3D; 0x1555FC948F50D];
   [0x998A0950C1A1C; 0x5358898A6636E; 0x1CC47B1220D25; 0x7E929E197B7F1; 0x6FE5D94BC2454]];
  [[0xEABC2EB1D0B59; 0x7A05C59336123; 0x7918FF8448B64; 0x57A94A01CAB48; 0x2FF15B4CC7487];
   [0x8799019AECD9; 0x3D8F58AC75312; 0xD4A7DF2730C1; 0x5E75D83B3FAC3; 0x7180E7E60D802];
   [0x5AEF92672CCE1; 0x6637504959CA3; 0x53E5589BFA337; 0x3A21A8478ED35; 0x2DD36E5AC50F9]];
  [[0x62DF8E260C004; 0x4DE30E71B999A; 0x45C3FA066284D; 0x331D9BB25623D; 0x202123595AEC6];
   [0x47A9FF0131346; 0x3A150D3AAC3F1; 0x29452C6C88616; 0x7CA8D3EC1A917; 0x6EEC72C9A0BF5];
   [0xF10845A21F448; 0x1AAE742835C2; 0x25E4CFB83A17F; 0x7BF8EB92AF3AB; 0x699BE9783E779]];
  [[0x1DC9C52A66972; 0x2C0B904C59FBA; 0x6C89144084C6D; 0x14AB65019CF29; 0x6EA2401AC315];
   [0xADC23F3836291; 0x2F1AD8C01F7C1; 0x205DF0C8922CF; 0x1751FC5AEB310; 0x6F64DB4075476];
   [0xF82F426A80AE1; 0x13C4A6E62FC16; 0x1FBCDF27E0B34; 0x78E30B91EF3E6; 0x59CBEA565341]];
  [[0x62CB978126A51; 0x4E2E7313211FE; 0x66E6E57EED552; 0x9AE384794AC9; 0x77726F8AB9C55];
   [0x6D6C6C9E72C58; 0x69723C749EA4F; 0x5631BCF116547; 0x4E31FAB9D03A6; 0x2B7F538841EE2];
   [0xBD957A2809D3C; 0x317F1DC4351FD; 0x701BA3438D796; 0x9FBD6563EC5D; 0x3E98ABE5B2F47]];
  [[0xAE4190E276A10; 0x1FFB966B8121D; 0x4FEEDA4D78B7E; 0x5DB20D5551162; 0x30DC06EF26E4D];
   [0xA970255208159; 0x1A104788B4AEF; 0x4D4C840BE3BE; 0x6BD8A71949A6C; 0x651C9FF191728];
   [0xA44663267D2A4; 0x1FC0CAB11E883; 0x785A12DE63089; 0x6EC9E0189600; 0x375BF7E8AB1B8]];
  [[0xBFFBBC3B4CE41; 0x3376A2003A823; 0x91EBF7910590; 0x61FB8363DCA05; 0x42807BC01AD4E];
   [0xACF6D9A5C7646; 0x560F4B3AE3DC2; 0x183CCAE76BD95; 0x65764DB513046; 0x214F42294E850];
   [0xF3EDC763536B; 0x4E9D5EF6B046E; 0x150D442C37994; 0x1B54E80DE1472; 0x7A1D71EDF00C]];
  [[0x87407DBA8E90B; 0x7E1C66322205F; 0x4FAC245ACCD04; 0x2B13B4E297D86; 0x323B2D23AEDAE];
   [0x9941B92E19A5C; 0x195BC242E04DB; 0x7CBD2DF69FF04; 0x7CA419CC6C1BA; 0x2904A1B8DDF4F];
   [0x40957907BF307; 0x15C68151C4FE7; 0x3DD3F01FB8E0F; 0x3D31C808FC101; 0x66F1F09C544BB]];
  [[0x3F8A6A6C266C9; 0x1000A75D2D728; 0x149100C338128; 0x48CB6ED6D33B4; 0x69B7380105C27];
   [0xBBCA015BD1302; 0x453E91EF883C4; 0x87A2C55564F3; 0x28661DD26634D; 0x504737350EB4];
   [0x3AE59A5B3D5E2; 0x1545256AA2218; 0x64A0782A0BF22; 0x365507C34B4AA; 0x32799B2146183]];
  [[0x3D6DBFB2DFB8B; 0x22DF9277F3ECF; 0xC42749A48685; 0x1B0E7B30B31B5; 0x75EBF4439768D];
   [0x39F41CE757E5C; 0x7F8600191731B; 0x6B2813E3967F5; 0x15D1CE8E34A7E; 0x72FBC1F6F13D8];
   [0x4F6CF2E028861; 0x20F869603ABDE; 0x42A4AA3F9DAAB; 0x4A8C0AC2A2950; 0x4B1809E50B53C]];
  [[0x62DDA4C355837; 0x2F17314E1EE8D; 0x78EBCB6E2323E; 0x4543455D081FD; 0x791C9DA3066C1];
   [0x7AEA83D07CA0E; 0x601D3C4BBCA6C; 0x438ECD2EB6B9E; 0x5FE33D87D61C1; 0x2C2CD6F6EF8D2];
   [0x2DAEC4B332C81; 0x600000F256A01; 0x647117D50194B; 0x2A7D5456F092C; 0x398A204AC0606]];
  [[0x76419370EC4A0; 0x12369939759B2; 0x23B2960FD0EE0; 0x7AF17DB515E9B; 0x2CC3165DDFC91];
   [0x5EE1C6281CBB1; 0x60699623D7D65; 0xF3D85C23D284; 0x18587E7669D1; 0x227AAF5D77845];
   [0x153114ADB9FC3; 0x164F7102A9765; 0x6E7834D58BEE3; 0x6F111F5E5ACB0; 0x162CF7ADDFFCA]];
  [[0x55D7C37A14EAC; 0x5223EE335640C; 0x291B30C58F170; 0x23A4EB047D54F; 0x2C3DDA0AF63CB];
   [0xC4C6EF153A948; 0x4C4867916BA5; 0x35BE98811B8E0; 0x4F3937F720308; 0x41AC616B68B67];
   [0xD47D0742C184D; 0x63D7733EDA001; 0x609767EC0E926; 0x6C3F5D59B36D0; 0x4B14DD7938C89]]]].
(** lines 5742-8458 *)
Definition lut_256A_32 : list (list (list (list int))) := [
 [[[0xD; 0x0; 0x0; 0x0; 0x0; 0x0; 0x0; 0x0; 0x0; 0x0; 0x0];
   [0xA300E7; 0x2592DB; 0x3F256; 0x1FC8BA; 0x3E36FA; 0x24E73F; 0x7AB076; 0x911871; 0x6B6690; 0xCAA91; 0x30650F];
   [0x47155F; 0x687527; 0x334E61; 0x9D3172; 0x28CAB3; 0x5FBE39; 0x3AF601; 0x5E3DC9; 0x743557; 0x24A967; 0x7521C4]];
  [[0x51134C; 0x63D934; 0x994F4; 0xE91B07; 0x439CFD; 0x55A4D9; 0x181579; 0x89F4E6; 0x5E989F; 0x2C52EC; 0x54E159];
   [0xDB5791; 0x525DDC; 0x6F7908; 0xAAB332; 0x279FCD; 0x522145; 0x59CBA7; 0xB33511; 0xC6593; 0x59CF0A; 0x16BDEB];
   [0xCBC030; 0x732788; 0x5A0DF8; 0xC8799D; 0x19C571; 0x7F6EF; 0x729208; 0xD7466B; 0x4ACA39; 0x56009D; 0x586898]];
  [[0x7058AD; 0x94E45; 0x420275; 0x5FD239; 0x444F1F; 0x299CBF; 0x2C9ADA; 0x816030; 0x255119; 0x4FD8A; 0xF011D];
   [0xB22BCC; 0x380EB0; 0x75817F; 0xB68F07; 0x65DD81; 0x433816; 0x5064DD; 0xDF04CF; 0xA89F8; 0x61BAC3; 0x2AEE30];
   [0x831C0C; 0x6D5422; 0x5EFCE9; 0x4B9CD7; 0x3E61FB; 0x1487DD; 0x11779C; 0x36DFD0; 0x5A0784; 0x59323A; 0x2BA6DC]];
  [[0xB0B356; 0x66CD5D; 0x10AFBC; 0x23E69; 0x7B3FA1; 0x3A3F07; 0x7B8F99; 0x415F9; 0x73141E; 0x72DB3; 0x7B2887];
   [0xEFDCBE; 0x61FDB8; 0x4A709F; 0x849CD0; 0x2A36FC; 0x3BB056; 0x356C38; 0x7A9084; 0xB6422; 0x130D7D; 0x1CD6F3];
   [0xAA7E64; 0x12D2BE; 0x55120E; 0x938524; 0xC79B2; 0x58FE4B; 0x510FB7; 0xD0F8E2; 0x63F17F; 0x2D4711; 0x2725A4]];
  [[0x4C6781; 0x627F87; 0x489AA7; 0x2F770F; 0xD2620; 0x1E8468; 0x3F6D7E; 0xC5511D; 0x6CDB93; 0x6842D1; 0x4D7CF0];
   [0xD1AE96; 0x90D; 0x6C4DB; 0xCE5C55; 0x144E90; 0x4BED80; 0x4E53B7; 0x1FE39D; 0x42F35D; 0x4AEB11; 0x5F6DBA];
   [0x499A0E; 0x7885A2; 0x30BDC; 0x1EDFDB; 0x438B15; 0x72B2EE; 0x4AC01E; 0x3EC678; 0x5F2133; 0x11BD06; 0x2EA8E4]];
  [[0x226F30; 0x5E7B60; 0x9837F; 0x851533; 0x6EFB9; 0x130938; 0x1063CE; 0x19C098; 0x605AC6; 0x4D2A8D; 0x240305];
   [0x6AE25F; 0xEF2E0; 0x1F427E; 0xCD4540; 0x3C6996; 0x35E452; 0x5A6442; 0x7BC7A6; 0x3D0529; 0x21E8F3; 0x52A46E];
   [0x7F4E9D; 0xECC55; 0x37EE5A; 0x4ADDB7; 0x4DA3F4; 0x5764C9; 0x1C40F1; 0xC1111E; 0xB0764; 0x7DD2E6; 0x1388A4]];
  [[0x95A16C; 0x8DD08; 0x5FC5C5; 0x81C743; 0xD180; 0xF8EE9; 0x3FEF5; 0xCF52AF; 0x7E4EDC; 0x52DFAC; 0x57C4FB];
   [0xE2B732; 0x5BEBA4; 0x1D1662; 0xFE39C5; 0x58807D; 0x4BBC55; 0x20454A; 0xA84E47; 0x34B9B8; 0x4B9BC7; 0x362B2B];
   [0xD51136; 0x5D2D8; 0xFECF5; 0x88AA07; 0x4BB57C; 0x3A4AD1; 0x1B78C1; 0x162747; 0x2DBFA9; 0x17B251; 0x431084]];
  [[0x3DC33C; 0x238321; 0x2858CB; 0x6E05B3; 0xF55FA; 0x2BA1C2; 0x7BBFD4; 0xA06A51; 0x3672AF; 0x1A9B5B; 0x4F6D26];
   [0x9F55A3; 0xF6705; 0x4EDA64; 0xD8FBA8; 0x6E341D; 0x5FDC16; 0x3F8CD0; 0x31F5C1; 0x2ECA27; 0x6E2E8E; 0x7650A0];
   [0x4C828B; 0x4D65DD; 0x23D49F; 0x998DDA; 0x4E0332; 0x174414; 0x699E65; 0x8F8323; 0x2B8901; 0x12C259; 0x21CFF4]];
  [[0x922362; 0x48A92F; 0x4D734D; 0xC47EE4; 0x113110; 0x157C19; 0x221251; 0x24872; 0x1E2816; 0x3DF03D; 0x181B9C];
   [0x12FCF; 0x47EB3F; 0x6C2B35; 0xF85359; 0x32819B; 0x4E64B2; 0x600748; 0x944305; 0x1ED335; 0x5DCD46; 0x4FA013];
   [0x3393AB; 0x2D18CD; 0x2579E1; 0x79F6D2; 0x32785; 0x679042; 0x3532E2; 0xE10DCE; 0x480E01; 0x426205; 0x53FD4D]];
  [[0xC6B0CB; 0x7C89A2; 0x78D667; 0xFF9964; 0x6EE83C; 0x6E7BF5; 0x7599F3; 0x4D669F; 0x65012B; 0x5EBA50; 0x304E71];
   [0xC53736; 0xB3E67; 0x126BEE; 0x261DF0; 0x5AF18B; 0x5B38F7; 0x82AC; 0x17B3DB; 0x7C32BA; 0x724F37; 0x1F8FD1];
   [0x80CCBF; 0x18D8B8; 0x6E22B9; 0x591C57; 0x11E0B1; 0x79970A; 0x70D898; 0xD9733F; 0x259708; 0x62101F; 0x306235]];
  [[0x2F49E9; 0x6E57BC; 0x94045; 0xCF8C2B; 0x10A5CA; 0x478E10; 0xA83ED; 0xEB329A; 0x54EE99; 0x112D75; 0x1A7633];
   [0x762A44; 0x7F7B5B; 0x6BF456; 0x680D50; 0x734ECC; 0x770776; 0x41B3F1; 0xDB7326; 0x7A5C18; 0x9A04C; 0x6F2281];
   [0x392E55; 0x180EF7; 0x539457; 0x27985E; 0x30AE2E; 0x6A2FA; 0x75FD5D; 0x23429D; 0x41CD65; 0x710776; 0x75B4D3]];
  [[0x297799; 0x50EDAC; 0x17E4E4; 0xB06306; 0x11957C; 0x454CDB; 0x37CE52; 0x35EF58; 0x3AACF3; 0x6B04D4; 0x1DEEDA];
   [0x58DEDB; 0x55E31C; 0x564F2; 0x767021; 0xAA59A; 0x5E4355; 0x76B6F5; 0xE2300C; 0x65F80C; 0x4E48E3; 0x471F50];
   [0x57B4C9; 0x32102C; 0x4F162E; 0xAA70A0; 0x601FA8; 0x1946ED; 0x7F5192; 0x9CBF3B; 0x71AED7; 0xBA7C1; 0x663BBD]];
  [[0xFC042F; 0x129354; 0x1AC8F7; 0x124BB3; 0x7DE447; 0x7CA46; 0x5604BA; 0x981600; 0x14DA63; 0x5067B; 0x53AE1A];
   [0x9BC0FD; 0x6F8B2C; 0x6AE987; 0x31F283; 0x1800B; 0x596A47; 0x67F6A5; 0x512023; 0x15BA88; 0x12951C; 0xC64FA];
   [0xED7C65; 0x8BD59; 0x636115; 0x76BA73; 0x7F05EB; 0x3E701; 0x148CDD; 0x8B64AA; 0x373C6D; 0x516A1E; 0x56623]];
  [[0xD0BB7; 0x7E8A54; 0x7474B6; 0x3D4755; 0x26CD61; 0x48139E; 0x5E0EC7; 0x169B5D; 0x42855A; 0x729E2F; 0x1F1939];
   [0xEDF74C; 0x736130; 0x7835CD; 0x21FE28; 0x51653E; 0x690BC6; 0x70143D; 0x11B7F6; 0x2ECF93; 0x332D5B; 0x4E7E15];
   [0x61C3BC; 0x6F0A58; 0x2A9437; 0x273621; 0x4D6870; 0x4A0410; 0x1930EC; 0x473AEA; 0x345B94; 0xD2F6F; 0x630991]];
  [[0x64F095; 0x5B811B; 0x34F150; 0x37FBC3; 0x431976; 0x1AF585; 0x4A47D6; 0x364593; 0x265D55; 0x6955EC; 0x4B56E9];
   [0xD4D3BA; 0x3E639C; 0x7B6508; 0x7AAFAA; 0x2DEDD3; 0x6E90FB; 0x70FF1F; 0x5BD7F8; 0x15D774; 0x4E9774; 0x3F53F7];
   [0x4F4AA5; 0x24432D; 0x2D31BA; 0x5F3C7B; 0x221DE3; 0x691A3B; 0x67E7F8; 0xB606C6; 0x5200E8; 0x708B99; 0x2F258F]];
  [[0x3A119F; 0x319D59; 0x71DF1F; 0xEE723B; 0x4A075C; 0xC0BD; 0x381ECA; 0x9EC137; 0x14C177; 0x62C87B; 0x3F7471];
   [0xAA3C6C; 0x19B06D; 0x3A8845; 0x1B9E7B; 0x4749DD; 0x67A317; 0x555D63; 0x87596C; 0x4BF763; 0x5DCF2F; 0x725068];
   [0x5A930B; 0x3C325E; 0x528AC5; 0xFD1B98; 0x4BA241; 0x41EDCF; 0x587205; 0xEDF302; 0x1C093C; 0x62B2BF; 0x225709]]];
 [[[0xEABA3B; 0x192B0C; 0x6A78E0; 0x1251C4; 0x32CA32; 0x55DC60; 0x5BBC99; 0xF53480; 0x4CA164; 0x32C336; 0x4567E0];
   [0x9B52D6; 0x6B6695; 0x11E7D6; 0x2112B7; 0x7F870C; 0x2F5D93; 0x2B31C0; 0xD401F; 0x4B6C8; 0x23BEE0; 0x86B9A];
   [0x1E8B93; 0x336732; 0x435024; 0xA9D624; 0x7896CB; 0x86124; 0x1F6441; 0xC216CD; 0x45B1DA; 0x40884B; 0x15A99D]];
  [[0xE29666; 0x698C; 0x8566; 0xB29855; 0x69993B; 0x66533E; 0x130B35; 0x112187; 0x66567A; 0x6C6930; 0x25F72];
   [0xBC36F8; 0x75E071; 0x3F18EC; 0xFE4134; 0x7BF37; 0x15265C; 0x2D5EA8; 0x932F6F; 0x1004C; 0x28FBB8; 0x3CC88B];
   [0x25E5B3; 0x52FCAA; 0x72522F; 0x75B891; 0x71F699; 0x51F116; 0x78808A; 0x6A580C; 0xBDDA3; 0x4CB31A; 0x56F6CD]];
  [[0x1AF846; 0x16456F; 0x6CDB6E; 0x19B43D; 0x1BD7BB; 0x1E429F; 0x25E351; 0x2C034F; 0x53ECFF; 0x2645D7; 0x6F455E];
   [0x161A5B; 0x5E3D52; 0x6167A5; 0x8BBC48; 0x29C44C; 0x9A976; 0x38C321; 0x390F40; 0x4A7861; 0x27E8A3; 0x55430C];
   [0x22B34E; 0x3FE536; 0x6D6BDE; 0x38DF8B; 0x7C2700; 0x413296; 0xC3C34; 0xF4A8B; 0x2223E1; 0x2B3C2; 0x30E676]];
  [[0x84B729; 0x726FC5; 0x414876; 0x3546F3; 0x261905; 0x5A04F6; 0x55B0C7; 0x6B360B; 0x12052B; 0x2B0046; 0x3D984C];
   [0xCBED46; 0x32683A; 0x4B3ADD; 0xB2CD41; 0x14EF94; 0x50E0BF; 0x3FC9B1; 0x2F30DC; 0x297AE9; 0x7BCD89; 0xB4620];
   [0x30B5B8; 0x67A579; 0x6EDA23; 0x94FB0A; 0x661BCD; 0x40BF82; 0x58F099; 0x72BB0F; 0x485362; 0x539664; 0x6ADF86]];
  [[0x24FDD7; 0x1186A8; 0x4EA183; 0x493DFC; 0x4F4E46; 0x50110D; 0x3294D6; 0xC5CEF6; 0x53F4A9; 0x6A41F0; 0x280D45];
   [0x25DCB5; 0x352AB2; 0x3C9B57; 0xC5972C; 0x17C8A2; 0x26C17F; 0x4A2DE0; 0x962319; 0x1DC0E8; 0x7BB781; 0x76D0B0];
   [0xC25C01; 0x6DF306; 0x2E001F; 0xB2D044; 0x1C46FF; 0x28D794; 0x4CD7EB; 0xB2D81B; 0x719BF6; 0x5D73E6; 0x574EC]];
  [[0xED0D33; 0x5B58E6; 0x31614D; 0xC647FC; 0x3D23AC; 0x6C18FD; 0x6B9F51; 0xBD620E; 0xE3630; 0x2C338B; 0x55B898];
   [0x609F49; 0x6332D0; 0x32177F; 0x8ADB01; 0x3C6A7; 0x20EA0A; 0x5D93D8; 0x53348A; 0x511FAA; 0x125BD7; 0x1F9B23];
   [0x7C7FE4; 0x28B2B1; 0x7487D6; 0xD5FE; 0x7DEF82; 0x16E07E; 0x26B0AE; 0x3853C8; 0x2DCAA1; 0x685027; 0x1A2F47]];
  [[0x986197; 0x217581; 0x11B57; 0x1C3CC0; 0x48D2D2; 0xC0332; 0x2D89E5; 0x3490A4; 0x3458B1; 0x2B04FA; 0x3F7CF9];
   [0x4F002F; 0x2E83E7; 0x629717; 0x10444B; 0x5323A6; 0x3BF8D6; 0x2CFC62; 0x4F6988; 0x7305E7; 0x7EC041; 0x754449];
   [0xB16E11; 0x7607F5; 0x1923D5; 0xE8AE2B; 0x6722D4; 0x76783B; 0x37C778; 0x7F8754; 0x422A0E; 0x3D9F97; 0x16AEAE]];
  [[0xD81066; 0x50C351; 0x716769; 0x6393E3; 0x1B4C15; 0x4B9A55; 0x588B55; 0x2BA83B; 0x9915; 0x5C055C; 0x48180];
   [0xCB303A; 0x458BFF; 0x237470; 0xD66822; 0x9DE8B; 0x5B28C2; 0x68CAFE; 0x2F5A98; 0x4C4B2A; 0x31DE00; 0x6E5755];
   [0x8869E8; 0x1F33B0; 0x1A2BAA; 0x817706; 0x458C99; 0x302337; 0x39EAE5; 0xD2E45D; 0x73447F; 0x24825C; 0x1B5E98]];
  [[0x814972; 0x38B443; 0x41992D; 0xEE69DB; 0x146157; 0xAAAD8; 0x5444E7; 0xD17AB8; 0x4DF7C1; 0x4D27A8; 0x54D67D];
   [0xA587F; 0x3ECDA4; 0x2CA0AF; 0x8438DD; 0x634B99; 0x3B5F19; 0x6A333D; 0x1B944F; 0x7E2E1F; 0x5C5F8A; 0x3EE1DE];
   [0x1A8276; 0x6DA949; 0x3ABE66; 0xEE9FD1; 0x4B05FC; 0x5E0261; 0x7EAA48; 0x10DD5B; 0x7CBE95; 0x118A02; 0x2173C]];
  [[0x3407C2; 0x3DB992; 0x1F1A9E; 0xD5B577; 0x5468D1; 0x1331F0; 0x760900; 0x412C7B; 0x7D99FF; 0x3F157E; 0x22BB7C];
   [0x8CE31C; 0x7405EE; 0x4669C1; 0xB64348; 0x2A823A; 0x28F130; 0x6999E9; 0x6697A5; 0x546104; 0x28A64D; 0x531D1A];
   [0x9C76D2; 0x79F19D; 0x872F3; 0xF799B3; 0x407743; 0x3085E0; 0x2003F0; 0x396CB7; 0x2952AF; 0x2D59FD; 0x3C184A]];
  [[0xE10FCD; 0x563D94; 0x36A862; 0xA8D743; 0x1FAEBC; 0x5A3817; 0x61B73B; 0xFE0A6A; 0x113AE2; 0x79A419; 0x433EC2];
   [0x94DA0B; 0x53D54C; 0x5DC3C9; 0x377F6C; 0x7601E5; 0x54F416; 0x147411; 0x33E49D; 0x1316C3; 0x2D4674; 0x4DADCA];
   [0xA27A08; 0x150DCB; 0x757D31; 0xECF538; 0x662566; 0x306294; 0x601C11; 0x35FECB; 0x452259; 0x1C2D33; 0x21363F]];
  [[0xC03231; 0x54A03F; 0x530E31; 0x8A8654; 0x445A8F; 0x57E307; 0x17BF37; 0x15A04; 0x2B01C; 0x1FB35F; 0x3FFA73];
   [0x2C08E7; 0x40D81C; 0x622B99; 0x48FF13; 0x665063; 0x4518AF; 0x3AC182; 0xA28FD4; 0x2A6DAE; 0x1B6DBD; 0x10ACD4];
   [0x58C718; 0x16FC28; 0x41E2C6; 0x52886B; 0x7FDE72; 0x289521; 0x173FE6; 0x72E6CC; 0x17AC30; 0x40A8E1; 0x5097BC]];
  [[0x5B9B1D; 0x50D0A3; 0x2DFE1B; 0xEAA92D; 0x277DA6; 0x622641; 0x37663B; 0x4FD085; 0xC17EE; 0x6A97AF; 0x7A47AF];
   [0x6BE9BF; 0x3285C2; 0x65C35C; 0x9C1C74; 0x5F5ECE; 0x59AF30; 0x2A2EA6; 0x53A7C7; 0x3A42C4; 0x7E6E33; 0x67F167];
   [0x2379C4; 0x784A42; 0x260570; 0xC001B9; 0x7733D1; 0x2610F4; 0x76810F; 0x93A496; 0x1DEA0A; 0x2CA003; 0x6326EC]];
  [[0xBB2391; 0x743284; 0x2E155F; 0x35639B; 0x5BBF4F; 0x3E90B9; 0x767573; 0x321363; 0x254580; 0x29D549; 0x52B4EB];
   [0xC1B9A5; 0x4DDE09; 0x6CBD8B; 0x5BA607; 0x3CC42A; 0x1D4E2E; 0x7ACD96; 0xC921CE; 0x620D1; 0x16E31C; 0x6A2B72];
   [0x2A9792; 0xCFD3; 0x6A9AD2; 0xED29B3; 0x26DA69; 0x2D2B73; 0x1B5E5D; 0xD5305C; 0x67DCE0; 0x729B3; 0x70252]];
  [[0x7834CB; 0x1A305D; 0x199CF9; 0xEE7F83; 0x48376D; 0x182568; 0x44C0B5; 0x7EFBAD; 0x6A5B89; 0x2DDEC8; 0x2C5365];
   [0x14DDC8; 0x26ED23; 0x4F3CF1; 0x9C337C; 0x5CA1F6; 0x430D81; 0x1BF696; 0xD5544B; 0x1941E; 0x2720AB; 0x6EF64B];
   [0xAEB238; 0x2A16EC; 0x55FE48; 0x606DE7; 0x34576A; 0x6FF01C; 0x9AA13; 0xD2D5AB; 0x3249A4; 0x4B05E9; 0x41BC86]];
  [[0xA9E5D5; 0x3CDBE3; 0x669075; 0x4D8E92; 0x50E701; 0x3EEC92; 0x340906; 0x3A5231; 0x76D572; 0x1CA34B; 0x35D540];
   [0xFE52C3; 0x64659E; 0xFCF54; 0xDDCF41; 0x7A7B36; 0x2AEC73; 0x7550B1; 0x8E1CEC; 0x2CAD9C; 0x4EE133; 0x45B7D8];
   [0x9FC441; 0x2D1FBC; 0x3E7D16; 0xC8B352; 0x221849; 0x3FF5A0; 0x55A506; 0x7F88D0; 0x18DB76; 0x672F49; 0x7D2F58]]];
 [[[0xC3CC62; 0x1788C8; 0x46ECBC; 0xF44A0D; 0x5D570F; 0x11C818; 0x5F4D7; 0xB7F489; 0x1AE92; 0x2AB1B0; 0x67910C];
   [0x33A3DB; 0x768B12; 0x5D50DE; 0xD31F34; 0x3455F7; 0x21BBE3; 0x20D657; 0x9AEF49; 0x11194A; 0x7C4E1E; 0x5A07C9];
   [0x8F9CA3; 0x54FF76; 0x570C00; 0x6792D9; 0x64070F; 0x44F2A2; 0x6ABEFC; 0xDAAC6E; 0x4F8CD9; 0x4DC91F; 0x49B2BB]];
  [[0x18CD54; 0x10BE7F; 0x5F8D91; 0xBAF1CC; 0x50AB12; 0x2D251A; 0x4B47CC; 0x5BD1C5; 0x489594; 0x699114; 0x30C9FA];
   [0xD23D40; 0x5307A4; 0x7E98F3; 0xF08939; 0x69A75B; 0x1DB79B; 0x566A53; 0x5AF4D5; 0x237443; 0x1D42DE; 0x5165D2];
   [0x873511; 0x525967; 0x56101D; 0xAA7060; 0x4C11B1; 0x29CA00; 0x1A34BC; 0x5CA8C2; 0x2F5F9A; 0x39EFC2; 0x6871D9]];
  [[0x421E67; 0x75D00; 0x10583F; 0xB732C7; 0x37730B; 0x7028B8; 0x5C0247; 0x7CC11B; 0x7F99FE; 0x74EF6F; 0x49255A];
   [0x806A6B; 0x76A27F; 0x1A45F6; 0x1863FB; 0x36A2B2; 0x58E27; 0x7E3E52; 0x8FA71E; 0xF9591; 0xEA645; 0x37E6C8];
   [0x4C164A; 0x15AE71; 0x228D86; 0x441D33; 0x507819; 0x442DBE; 0x457850; 0x59222C; 0x29495F; 0x7331A0; 0x7BAE86]];
  [[0xFA5032; 0x242303; 0xA904B; 0x3BB53; 0x7553E7; 0x3CA0C5; 0x61B87D; 0x805E53; 0x49297C; 0x56196B; 0x4C6DF6];
   [0x2C1092; 0x19EF62; 0x47F011; 0xC03A85; 0xB1A90; 0x1507E7; 0x4D6EBC; 0x794D29; 0x5C5416; 0x20F242; 0x576518];
   [0x34E914; 0x5DAF45; 0x5BE7A5; 0xFE38F3; 0x157770; 0x237F8C; 0x15BF21; 0x77CC24; 0x5067D4; 0x91C98; 0x7F54DE]];
  [[0x770B21; 0x6194BB; 0x1A8987; 0x94013C; 0x619B7F; 0x83816; 0x7A8072; 0xF58256; 0x2FFA60; 0x7AC24E; 0x42CF75];
   [0x58474E; 0x7BFF2F; 0x18145B; 0xF8E32B; 0x55DE08; 0x2AA874; 0x44BCA0; 0x38F7BE; 0x27359B; 0x2747EB; 0x226230];
   [0xFA31A5; 0x190A96; 0x6536D0; 0xACA102; 0x36C0D0; 0x8F3D0; 0x49B490; 0x5CD6C9; 0xE1C66; 0x77C89C; 0x6A74AE]];
  [[0xEE9825; 0xFBC15; 0xC0843; 0x6B793A; 0x4ED1C; 0x616EA7; 0xB6304; 0x166978; 0x24139D; 0x42F014; 0x3D4978];
   [0x29D5D7; 0x33F88C; 0x6E76FF; 0xA49E5F; 0x3D801A; 0x42EE48; 0xD2057; 0x1D9164; 0x1AB787; 0x4D338B; 0x262464];
   [0xD5B395; 0x7A77B2; 0x43D844; 0x6D5774; 0x267921; 0x374E41; 0x3B4C78; 0xE2BA6E; 0x656116; 0x43049C; 0x2023C8]];
  [[0x1715E4; 0x652B6A; 0x379760; 0x4DB333; 0x619842; 0x656120; 0x26FAEC; 0xEF2AD7; 0x149CB3; 0x55D95D; 0x497B11];
   [0xD4B7BF; 0x1098D0; 0x57E045; 0x304A0C; 0x7F8852; 0x564889; 0x7D4D67; 0xA2CA30; 0x51B0D9; 0x495A39; 0x17789D];
   [0x49CE9C; 0x1C79B9; 0xA676A; 0x43503C; 0x3C78EA; 0x779E15; 0x2487F8; 0x98B781; 0x2F1E05; 0xB58B5; 0x79EE99]];
  [[0x82E001; 0x2F7563; 0x5502B7; 0x99B452; 0x68BD3; 0x6837ED; 0x6C2DAE; 0xEDD476; 0x4B54C6; 0x2353E5; 0x36757B];
   [0x3D167; 0x2030D2; 0x72FA5A; 0x4E3D16; 0x1B78F0; 0x924E6; 0x1E86B4; 0x6CD648; 0x1D24C9; 0xCC288; 0x54B2D8];
   [0x2B443B; 0x135EB4; 0x6123F8; 0x795F4F; 0x161316; 0x5CC78F; 0x1879B2; 0xA11513; 0x75BC89; 0xE0F4C; 0x22EB79]];
  [[0x97ABD7; 0x3BF415; 0x4B96FB; 0x86107E; 0x13751E; 0x6E3412; 0x75AEFF; 0xCEAD7E; 0x4D03FA; 0x41C8E1; 0x586295];
   [0xBF974F; 0x3D6607; 0x3A2804; 0xE9CC65; 0x596911; 0x13F86A; 0x10E75; 0x67284C; 0x244A19; 0x71615; 0x2E2C66];
   [0x4963F7; 0x640576; 0x31C7EE; 0x1D786C; 0x257DEC; 0x3CF6C5; 0x465E43; 0xB15EDD; 0x478BEB; 0x16C1B; 0x94307]];
  [[0xE85486; 0x77F915; 0x760D35; 0x2EF0AE; 0x37042C; 0x30C359; 0x346545; 0xDC7FE6; 0x30D4C5; 0x4AAD41; 0xA60C0];
   [0xD6E8B3; 0xB7AA8; 0x23E0C5; 0x6A8EBF; 0x63D566; 0x2294C9; 0x49A4AE; 0x5A2C0A; 0x5086A5; 0x8808D; 0x5A919];
   [0x7A8EAF; 0x1E6353; 0x5C83D2; 0x714AAE; 0x4F2F37; 0x249BF6; 0x6CDEE8; 0x6F262D; 0x7E9C03; 0x4C7272; 0x5E6F1B]];
  [[0x11D440; 0x50D0E6; 0x20183D; 0xD0ED3E; 0x4642A3; 0x19F456; 0x68661A; 0x5C97B1; 0x1DFD20; 0x607CBE; 0x4EB1D7];
   [0x424218; 0x31CB2B; 0x16EE1E; 0xF0B2F5; 0x284CA3; 0xB886E; 0x56424F; 0x606535; 0x1A7DD3; 0x5E5D6D; 0x910A8];
   [0xE5A1E8; 0x62AA84; 0x72C780; 0xE14E12; 0x359D55; 0x388026; 0x1AF8C7; 0x7C9658; 0x7CD573; 0x1DB584; 0x5C3621]];
  [[0xE7BB1F; 0x2CD518; 0x41FE08; 0x717B78; 0x400988; 0x291794; 0x747C25; 0x7194A1; 0x40F7AF; 0x7B6E73; 0x20EB45];
   [0x161F74; 0x299725; 0x25AD63; 0x4B6379; 0x76C32; 0x71515E; 0x32A4A1; 0xA7B602; 0x5C7951; 0x3975BA; 0x4BA951];
   [0x9EEF2E; 0xB3835; 0x5E1C6B; 0x800FFB; 0x6BC9CA; 0x125F16; 0xF6D0D; 0x186A82; 0x479A35; 0x6739D; 0x4DCC17]];
  [[0x67A5F5; 0x7CA11D; 0x51B4EF; 0xE64083; 0x2B0147; 0x22B454; 0x50D922; 0x19CFE8; 0x416B41; 0x219410; 0x5C5995];
   [0x20EA67; 0x65B659; 0x11B640; 0xC05AB3; 0x15BD93; 0x3F4CB7; 0xCD5AA; 0x6203FA; 0x1FA8A5; 0x1E6F64; 0x6FB8E7];
   [0xB6FEF4; 0x53F0CE; 0x6B1E51; 0x33476B; 0x419002; 0x6F619C; 0x5CAF14; 0x1753E9; 0x38FC4F; 0x7F5E19; 0xF12D2]];
  [[0x9F6EBB; 0x4C08FE; 0x6E7C4E; 0xF1680D; 0x446C66; 0x350BF6; 0x6A96E3; 0x5AEE9A; 0x6935BB; 0x73B4C5; 0x4AC140];
   [0xE5225C; 0x7B671B; 0x7606A0; 0x938508; 0x7625D7; 0x1E3B8F; 0x2EAE28; 0x318F8C; 0x1CC7F0; 0x10B56D; 0x49C97C];
   [0xDE3FDD; 0x8CA79; 0xA0585; 0x56E5A5; 0x3CF77E; 0x2C9DD5; 0x6D3D48; 0xB152EB; 0x1C6B5C; 0x755FAF; 0x2B73E8]];
  [[0x4F175B; 0x74B90C; 0x7C4EB9; 0xCB92B7; 0x592AE2; 0x56E0F5; 0x7528E2; 0x893263; 0x6AD16; 0x70AA41; 0x62E83F];
   [0x58482; 0x171A5D; 0x47C331; 0xDF7758; 0x2B4A00; 0x1FCAD8; 0x6A1943; 0xB73575; 0x171180; 0x5C1148; 0x12A36A];
   [0x8C51AE; 0x20EE14; 0x549F62; 0xCD3EB6; 0x48A700; 0x596B28; 0x2F99A4; 0x10422; 0x1769F4; 0x225E79; 0x67F6DE]];
  [[0x9E9178; 0x5D43C; 0x12A802; 0x86A260; 0x63C91C; 0x63084E; 0x46B7E1; 0xA17B2D; 0x51323E; 0x46B359; 0x37634];
   [0xA3DA8; 0x1949B0; 0x5E3B9; 0x2467F0; 0x4BCC28; 0x501570; 0x3D5412; 0xCD0573; 0x40ECA4; 0x17C942; 0x1AACE2];
   [0x427572; 0x2D0E76; 0x6FC301; 0x11516D; 0x3B6F32; 0x56D53F; 0x2E9447; 0x909115; 0x7DC768; 0x553F21; 0x3A0976]]];
 [[[0x18835D; 0x1FCF9F; 0x1AD610; 0x7D30EC; 0x6C910C; 0x3FB1A8; 0x1464A4; 0x27680C; 0x7E54DB; 0x5EDD4B; 0x5A8976];
   [0x37E1C3; 0x16BF14; 0x6AA36; 0x40A33E; 0x6DC0DF; 0x242FA2; 0x274EA4; 0x84D9; 0x68A677; 0x4FE2AF; 0x1D11B4];
   [0x3DC1C7; 0x792137; 0x2CB33F; 0x7A0801; 0x56E3; 0x339206; 0x3D0090; 0xF96044; 0x537FE0; 0x6358EF; 0x1EE2D0]];
  [[0x29CB03; 0xFF813; 0x67660; 0xE00898; 0x83A1; 0x516E88; 0x543512; 0xEFA310; 0x5ED95E; 0x48147D; 0x3958DB];
   [0x84596C; 0x6BC632; 0x37EAF8; 0x148F47; 0x2DE2D2; 0x7E4DA4; 0x21A371; 0xBF0084; 0x3EFBC7; 0x79976E; 0x4BAEFB];
   [0xDA1C1; 0x310E2C; 0x30B00D; 0x7060D1; 0xF8A0E; 0x5B1EC0; 0x66C96D; 0x8BB679; 0x31F9DB; 0x32C38D; 0x3C1F72]];
  [[0xBCFE19; 0x5B51F8; 0x37A870; 0x898A49; 0x7BD853; 0x64DA75; 0x17497A; 0x21BE3C; 0x26C48F; 0x35A56E; 0x79EFC];
   [0x6AEFDE; 0x7113F8; 0x7013EA; 0x4A8F2E; 0x38D8C7; 0x3E2B86; 0x6499EE; 0xEF9DD1; 0x541109; 0x7F4211; 0x2650ED];
   [0xE8730E; 0x7EF6E8; 0x53E89; 0xB164EC; 0x4CFEB8; 0x2674CE; 0x6FD69F; 0x862ADC; 0x74A714; 0x4E95F1; 0x440342]];
  [[0x86A1D1; 0x9570F; 0x21E028; 0xD8EF33; 0x30D08A; 0x5EE53C; 0x5F27BE; 0x315BEF; 0x30A287; 0x395DE5; 0x694DAA];
   [0x4E499A; 0x24FC80; 0x45DA5E; 0x4542DE; 0x5A6E71; 0x13BB0D; 0xE551; 0x9BB0D; 0x710991; 0x116881; 0x75A138];
   [0x39EB19; 0x67187C; 0x636CC0; 0x94DCEC; 0x1AF3DD; 0x2B8639; 0x6554E7; 0xE605EB; 0x61639B; 0x77500A; 0x3193ED]];
  [[0x1E326; 0x352C31; 0x4A76AB; 0xD940B5; 0x6329C5; 0x1AFE72; 0x5E4FE9; 0xF56D9B; 0x3E7DB3; 0x54566; 0x4D0C77];
   [0xB344FC; 0x1F79B7; 0x50F482; 0x98D267; 0x1C2619; 0x6BBD65; 0x346286; 0x8CAD0C; 0xFC617; 0x32B373; 0x7978E3];
   [0xC94333; 0x6B14A8; 0x1075C5; 0xBDD939; 0xEE70; 0x188183; 0x7398E2; 0x9184A; 0x7DF798; 0x57B14F; 0x21B6A8]];
  [[0xF232E3; 0x449C35; 0xCC2CD; 0x3BBFB; 0x6E022E; 0x5937F0; 0xD3400; 0xA3335B; 0x3797FA; 0x7E0C16; 0x68AB4A];
   [0x655243; 0x76EF0C; 0x7A5D62; 0x87B99B; 0x7F5266; 0x129263; 0x52B578; 0xCC7106; 0x4128A7; 0x74AFC9; 0x1A0821];
   [0xFE7F; 0x58CC38; 0x4ACE7A; 0x27824A; 0x71BB43; 0x4CD1C5; 0x1DE8E5; 0xFD97F3; 0x4164E0; 0x542935; 0x15EE68]];
  [[0x56201E; 0x572A88; 0x5A66B9; 0xA30E5F; 0xE20E3; 0x898BF; 0x3CC5C7; 0x170BD; 0x3813EE; 0x79874; 0x6A5F45];
   [0xC07AE0; 0x680DE0; 0x12D0D6; 0x641F64; 0xE6F53; 0xA48AC; 0x2EBABE; 0x17E4D0; 0x6B3042; 0x47391C; 0x3FC7B5];
   [0x8AE200; 0x651B7E; 0xF51C8; 0x34F2DB; 0x418121; 0x52E806; 0x4B57A3; 0x801E3B; 0x6E2553; 0x17FE29; 0x371F5]];
  [[0xE0B571; 0x43B547; 0x15696B; 0x732AF4; 0x7B6282; 0x7276FC; 0x489692; 0x536F42; 0x241953; 0x47679B; 0x17A0AD];
   [0x71332D; 0x10B6E; 0x7EE392; 0xA7B31C; 0x4921ED; 0xB32BD; 0x1187FE; 0x913F47; 0xB27ED; 0x43B431; 0x55085B];
   [0xE2C137; 0x1AD933; 0xD0367; 0x7E38F0; 0x3205C; 0x14599A; 0x1E8DE6; 0x7A88FA; 0x77198A; 0x31A753; 0x2FE194]];
  [[0x682B6C; 0x652986; 0x1F417F; 0xDE4F1B; 0xEF1F1; 0x36E7F; 0x5AD789; 0xAE8DB4; 0x76B58D; 0x2E3942; 0x6F7B10];
   [0x9E5FA2; 0x8F3C7; 0x43BDE; 0x52A794; 0x44679C; 0x7F28C0; 0x382AB6; 0x395191; 0x39B531; 0x36F81A; 0x795887];
   [0xF70354; 0x328B59; 0x3D01A3; 0xC9F394; 0x22F3EA; 0x6F350F; 0x58C2B3; 0x40634F; 0x320F7C; 0x6D4BEE; 0x57CCC9]];
  [[0x93E9B9; 0x6BDC73; 0x45A4A0; 0x51A4D7; 0x5C415B; 0x66BA11; 0x5AE064; 0x5245BE; 0x13BE1; 0x6DD2F6; 0x6F9657];
   [0xE1468C; 0x4FD78; 0x5800DD; 0x91E526; 0x12067D; 0x481847; 0xA9B9D; 0xD7FB7D; 0x8AF37; 0x598387; 0x53520A];
   [0x9411F0; 0x415CC6; 0x3CFAB9; 0xBEE1C6; 0x11F354; 0x540421; 0x5B7E1D; 0xAA9283; 0x107457; 0xDC4A7; 0x58459D]];
  [[0x531F14; 0x1009E3; 0x73B657; 0xDC0159; 0x665408; 0x8FF55; 0x7D3DF9; 0x31F848; 0xB2149; 0x2E956E; 0x749370];
   [0x5EACBA; 0x13C60C; 0x1B1DCF; 0xBE1671; 0x5C94CC; 0x437E24; 0x214684; 0x207638; 0x2A0D18; 0x1FE161; 0x1F585E];
   [0xFF468A; 0x4D3FD3; 0xBBF50; 0x11D45; 0x1070E3; 0x438229; 0x59AB03; 0xAA329; 0x315647; 0xCCF61; 0xF1485]];
  [[0x9129E3; 0x12693C; 0x4E8200; 0x27D67; 0x704244; 0x210CBE; 0x192F03; 0x5142DE; 0x1A84FB; 0x3745C5; 0x64B88E];
   [0x4FD4A7; 0x39F707; 0x27F3CE; 0xC4924F; 0x4C1AC9; 0x5438CD; 0x29571A; 0x9A42D3; 0x437704; 0x466DF8; 0x4CAE5F];
   [0xCF7ED3; 0x327495; 0x23D857; 0x3ADCC1; 0x783A07; 0x70C835; 0x63B436; 0xAF64FA; 0x43E2D6; 0x20BE90; 0x1B98ED]];
  [[0xA4C93E; 0x4F4C24; 0x7F4777; 0x570E1; 0x3BF809; 0x1608A3; 0x73E59E; 0xB32CC7; 0x5501BF; 0x27C79; 0x793FF1];
   [0x19DCA8; 0x1F6A93; 0x7FB9FE; 0x389B1A; 0x32A1FC; 0x1BD948; 0x661278; 0xC98D56; 0x5CDFB2; 0x4DF065; 0x4DA8B5];
   [0x8AF82E; 0x49B701; 0x2A4058; 0x937D79; 0x3E1209; 0x6D0224; 0x654260; 0x89CD81; 0x31BE9C; 0x7F915B; 0x545CEB]];
  [[0x606923; 0x535E19; 0x4B9720; 0x7CF3AC; 0x9FEE2; 0x21E97C; 0x417B8D; 0x5C8DC; 0x278974; 0x220131; 0x1F1EA];
   [0x51751A; 0x22CFFE; 0x65EAE7; 0x2D66F; 0x1CFE5E; 0x4D158; 0x3519D9; 0xC3A426; 0x50617E; 0x3DFC62; 0xC1E82];
   [0x54E7F7; 0x3159A5; 0x536937; 0x743C99; 0x2C5B9E; 0x3E5BAC; 0x713E45; 0x1C8CC3; 0x379CFC; 0x40AC92; 0x4FD6BA]];
  [[0x375AB1; 0x558A76; 0x127659; 0x2E36DD; 0x17A438; 0x37085E; 0x460F93; 0xDC21D1; 0x6D33E1; 0x4422EB; 0x3B5755];
   [0x3DA9D4; 0x2248E9; 0x3EAEC; 0xD43561; 0x1BF26D; 0x5C5F13; 0x626C12; 0xB918DF; 0x65CADE; 0x717357; 0x5BB6B5];
   [0x4024E3; 0x46B939; 0x4E46F3; 0x1511AF; 0x776BD7; 0x320079; 0x7332F3; 0x7C852A; 0x7816D9; 0x68E65E; 0x45DBB4]];
  [[0xE0980A; 0x3CBFDB; 0x74F5AA; 0x1EA8DD; 0x2C4C50; 0x311D45; 0x39C948; 0x55988C; 0x5B5B63; 0x41F40E; 0x2C22D4];
   [0xAE7440; 0x2ACDC7; 0x78F4C2; 0x199902; 0x1399A7; 0x3DDA20; 0x658152; 0x5F646B; 0x6CA0B4; 0x73AF03; 0x52716];
   [0x7F80B6; 0x3B2F94; 0x373B83; 0xEA1B50; 0x716C1C; 0x47A779; 0x6E478C; 0x9F1C86; 0x772EF9; 0x3C8BB5; 0x3308F]]];
 [[[0x3A0F8A; 0x239C42; 0x2C8997; 0xCB1312; 0xBA3BF; 0x433E65; 0x4E93D; 0xBC78BF; 0x16315F; 0x7839DA; 0x72F5D];
   [0x431B86; 0x52B0C9; 0x7B6B54; 0x4C666; 0x21961D; 0x630D09; 0x26B7F8; 0x4B5633; 0x36F916; 0x7D08E5; 0x9930C];
   [0x6B4F00; 0x1D54A4; 0x692DA9; 0x98837B; 0x65006A; 0x704B4; 0x424FF9; 0xC25B4D; 0x5B6D40; 0x54C25F; 0x387F6A]];
  [[0x2F5512; 0x654E2D; 0x668342; 0xE2D4F5; 0x1FCDE3; 0x396F10; 0x474238; 0x1DFA11; 0x536151; 0x60AA5E; 0x8AD4A];
   [0xE427F0; 0x5588B0; 0x2428A4; 0xDD098A; 0x2CAE12; 0x5B6F7; 0x3677F; 0xB1209B; 0xB9B82; 0x7C5D85; 0x503BBE];
   [0x3F3EE8; 0x71495D; 0x4CA27C; 0x57A105; 0x38F4ED; 0x19BA2; 0x772D19; 0xC8A1F; 0x2F07EB; 0x9E4D0; 0x7AF54E]];
  [[0x9ED4D4; 0x35F235; 0x3B3EFE; 0xB5687B; 0x7499B6; 0x4AEC1B; 0x11D9F3; 0xF934CA; 0x626585; 0x54A1; 0x78ADC1];
   [0xF1D44; 0x67701; 0x2F00AB; 0x8F68D3; 0x1C1C3B; 0x49876F; 0x7C5E0C; 0x958C8A; 0x585F0E; 0x3980D2; 0x4C2741];
   [0x4F0FD3; 0x519E7; 0x455DA2; 0xE4A2DB; 0x6A399; 0x5F65BE; 0x10C895; 0xE1E39C; 0xD2D62; 0x5489D3; 0x64F071]];
  [[0x75E904; 0x34221F; 0x6C3082; 0x1DFF10; 0x7E367A; 0x44654C; 0x214821; 0x44A5B4; 0x65B709; 0x1D42EE; 0x1A97DC];
   [0xAD26D; 0x30E580; 0x6F212B; 0x100EE6; 0xF70F2; 0x7CA3C6; 0x17EBC5; 0x311581; 0x2B7BB5; 0x283403; 0x1A581];
   [0x9043A2; 0x1B3A77; 0xFA816; 0x4B33BF; 0x5044AF; 0x1584E4; 0x417440; 0x6E3D6; 0x723841; 0x7F1CF7; 0xA8A6D]];
  [[0x41A857; 0x34AE73; 0x4BB287; 0x86B914; 0x6E11BD; 0xF0FD1; 0x3523A3; 0x860736; 0x209E71; 0x21DE0F; 0x1A4D6B];
   [0xF677D7; 0x48110C; 0x8F908; 0x9BD400; 0x6B94AC; 0x37B8C2; 0x49854F; 0x5C4D2F; 0x3BA675; 0x3C2448; 0x69DC9E];
   [0x25EE8; 0x384FEB; 0x1C9DA4; 0x5A77C; 0x2CEBD8; 0x253110; 0x48F3CD; 0x45CF49; 0x4771CD; 0x3F1990; 0x4F6051]];
  [[0x3827C; 0x1F112D; 0x71973A; 0x99B096; 0xC34F8; 0x397A6A; 0x7F26ED; 0xAD0CF1; 0x69FEEE; 0xBB893; 0x525AC4];
   [0x1DE590; 0x63FBAF; 0x13D7EB; 0x42B275; 0x6A1E1B; 0x10AEC1; 0x2C78D4; 0x28C9DF; 0x45854B; 0x789E7; 0x74F];
   [0x8229BF; 0x69358B; 0x1825AA; 0x181405; 0x73C536; 0x63CEAE; 0x15B3E7; 0x8AFF3F; 0x10C89E; 0x1AF589; 0x4E0053]];
  [[0x28B9C8; 0x34B521; 0x3323FB; 0xB663B0; 0x4DAAA1; 0x2616C9; 0x32ABEB; 0x40C353; 0x86B1D; 0x36A180; 0x3E458C];
   [0xDCF643; 0x2C1001; 0x52AA3F; 0x8E9839; 0x4A4E69; 0x1D0E16; 0x2FBB80; 0x43D67E; 0x478B72; 0xF9CA3; 0x3AFC42];
   [0xDD581; 0x7F85BA; 0x436D63; 0x598F90; 0x14B661; 0x306562; 0x761E86; 0x6C8505; 0x568527; 0x6FDA5A; 0x1ADEA0]];
  [[0x890618; 0xCD682; 0x7E36FF; 0x303F12; 0xB2A6D; 0x415241; 0x25E2C9; 0xF0E829; 0x3A20B1; 0x5BC247; 0x4FF913];
   [0xC77BF2; 0x4061A1; 0x7197C8; 0x31BABD; 0x96046; 0x45E643; 0x6FC909; 0x88EA6; 0x70A7CA; 0x47B9D0; 0x50FC48];
   [0xFF3B98; 0x78A423; 0x12CC47; 0xAE776D; 0x21495E; 0x4A3D73; 0x391838; 0x1B0893; 0xAE103; 0x5B7AC6; 0x58F1A9]];
  [[0xCAFC7E; 0x6D3D15; 0x3C5E44; 0x246F10; 0x654846; 0x21C350; 0x29B782; 0xF3BD5; 0x4BA2E1; 0xA9813; 0x3DAC06];
   [0x81BEA5; 0x5AF750; 0x231C43; 0x546577; 0x21D5B; 0x323115; 0x360EE5; 0xB7CC0; 0x42696D; 0x14F38B; 0x637448];
   [0xA10272; 0x71C42F; 0x5406FB; 0x728BE; 0x3FCE1D; 0x721CC4; 0x100233; 0x4A237D; 0x4691A1; 0x439B3E; 0x68BD1A]];
  [[0x71251B; 0x458B01; 0x1E79F8; 0xA77A06; 0x74587F; 0x4DC1C1; 0x3C2A50; 0x255231; 0x5C317C; 0x5F9187; 0x7CF5A9];
   [0x98FC2; 0x4404A1; 0x4D04AA; 0x464189; 0x61D090; 0x4E55A9; 0x7C50C; 0xBE825E; 0x47F09; 0xF7FEC; 0x4E42D2];
   [0x355E39; 0x2EAC10; 0x511D7E; 0xDF8195; 0x658D53; 0x7832A7; 0x688D4A; 0x630A34; 0x1BF382; 0x5EC16E; 0x7B68AD]];
  [[0x1E2363; 0x19180C; 0xDC491; 0x624C85; 0x4109E5; 0x6F6F9F; 0x4721E1; 0xD89B92; 0x2ACCC1; 0x61C123; 0x181505];
   [0x5EFABB; 0x7D8985; 0x3C5BC1; 0x8F46C5; 0x12B4ED; 0x64759D; 0x58D2A9; 0xC25CA8; 0x4E6E93; 0x503BCA; 0x512AAA];
   [0x9D1E14; 0x74E51E; 0x245CBE; 0x248FE2; 0x74BDE8; 0x7C074E; 0x17A40E; 0xFF34D1; 0x57C0A3; 0x61B3EC; 0x2677F7]];
  [[0xCBF754; 0x31AE3A; 0x333B8; 0xD4CF78; 0x3E4A56; 0x4E6254; 0x2FDBFA; 0x144B0A; 0x63FB6C; 0x1D4D6; 0x7A746B];
   [0x7361B9; 0x5E8B06; 0x44E134; 0xF4A847; 0x2329D4; 0x44A5B7; 0x44F475; 0xE61797; 0x57FB07; 0x51722; 0x241ECD];
   [0x22A500; 0x39A10A; 0x42D3D5; 0xB567D7; 0x69AA6D; 0x711215; 0x2ED8DD; 0xF158; 0x6238BE; 0x5650C3; 0x3D21E8]];
  [[0x8B1C66; 0x19194C; 0x14BFE9; 0x748F3D; 0x3CCE8F; 0x48A87C; 0x6A1307; 0x6C2B73; 0x2E37A4; 0x29162B; 0x27B4E0];
   [0xC21F63; 0x17955E; 0x78C143; 0xD5E54D; 0x472F3D; 0x4E389E; 0x5B4F76; 0x4D23EE; 0x532138; 0x573674; 0xCEC4B];
   [0x3DE334; 0x6224BD; 0xF9C6F; 0xA9395; 0x345EAF; 0x107910; 0x70F64A; 0xD236DB; 0x27355D; 0x164A6C; 0x7D6D7B]];
  [[0x8036C4; 0x4A1B91; 0x471A92; 0x371CC; 0x56DDC0; 0x130FC6; 0x287BA8; 0xEAE3E3; 0x6A7352; 0x4599E9; 0x382164];
   [0xB93F79; 0x1E39CD; 0x201F70; 0xEF1A24; 0x530D3A; 0x5F0647; 0x8EE9; 0xAD3CCB; 0x6C1B3C; 0x20B88E; 0x41C1B];
   [0x6CAF3D; 0x4A21AC; 0x1CDE34; 0x33DD65; 0x5353D1; 0x584597; 0x114182; 0x5CB2D9; 0x53A5C5; 0x71C2D4; 0x244902]];
  [[0xAFA1E1; 0x64BD11; 0x14D188; 0x2D13D; 0xE36B8; 0x354548; 0x7BB62C; 0x78DF50; 0x7E63C; 0x56614; 0x3D5281];
   [0x28DBA4; 0x4B80D; 0x4F7FF8; 0x7AA928; 0x4ABF1; 0x23D6FF; 0x24B312; 0x23B8A; 0x3B5EDA; 0x5AF149; 0x19FA7B];
   [0xFF5820; 0x358792; 0x21A28C; 0xC51693; 0x98EE; 0x34266; 0x17723D; 0xC2DDF5; 0xE734; 0x6DAEF6; 0x71F7AD]];
  [[0x2E3AD1; 0x779201; 0x68289F; 0x3F10B0; 0x2706C6; 0x2565B5; 0x190C55; 0x33BD51; 0xE50F0; 0x500819; 0x7C9D08];
   [0xFA9D8B; 0x38DA3F; 0x693AB6; 0xDE9636; 0x5BB3EC; 0x65B8F5; 0x481E55; 0x61E2C9; 0x1643BF; 0x559100; 0x5F79E6];
   [0x2E392D; 0x1227D4; 0x293C7B; 0xF92994; 0x2FAEE0; 0x322623; 0x434FE2; 0x199F46; 0x5C180E; 0x5C3B89; 0x566D13]]];
 [[[0x4EC5D5; 0x19CD6; 0xBBD45; 0x2193AE; 0x3165C6; 0x3D8D74; 0x45059C; 0x8CF60C; 0x487D06; 0x5A9D09; 0x7FC6E0];
   [0x37B42A; 0x1A576; 0xA750D; 0x45B5DD; 0x6F0E25; 0x1F4ABF; 0x56E0BA; 0x65543B; 0x564264; 0x5ADF58; 0x69B6ED];
   [0x8533F; 0x673ED0; 0x53205E; 0x60EB8B; 0xC0216; 0x483015; 0x1974B0; 0x610E9B; 0x116E88; 0x1B41F9; 0x3650B6]];
  [[0x1E87C9; 0x485E07; 0x473783; 0x9E4755; 0x77AAE3; 0x6CF828; 0x64BF5B; 0xDD1614; 0x1F3F82; 0xCDC74; 0x5A217D];
   [0x7E7DC9; 0x4C5775; 0x577E73; 0x54AC09; 0x692B30; 0x5074AE; 0x47FE74; 0x814E6D; 0x611400; 0x54CC45; 0x15E56A];
   [0x15BF7F; 0x720BB8; 0x128FA3; 0xEFF525; 0x2C2B16; 0x32B7; 0x56FA97; 0x6F11AE; 0x21850D; 0x755623; 0x4F475]];
  [[0xDC22CC; 0x5EC978; 0x75EFAB; 0xA67308; 0x1E17A7; 0x471117; 0x3D0D24; 0x2B875; 0x5CD15C; 0x791ED0; 0x519998];
   [0x6DFC80; 0x3F2D4F; 0x325346; 0xCF12E4; 0xEF0D1; 0x1D644B; 0x6A72BB; 0xE463A5; 0x393A41; 0x3CFAB9; 0x45AEDD];
   [0x8CF232; 0x355CF6; 0x18330B; 0xE357D6; 0x2E9F65; 0x192AA3; 0x50E31A; 0x542788; 0x5C03B4; 0x16A4C7; 0x4D85E7]];
  [[0x5E1B7C; 0x5396EB; 0x2953AC; 0x66F21B; 0x744EB; 0x2BB57E; 0x777EC0; 0xC0908; 0x63DFBF; 0x19D0E1; 0x53259A];
   [0x92AA9; 0x6D7967; 0x7A34E9; 0x88833B; 0x7C72DF; 0x154B92; 0x4BEAB; 0x709C21; 0x1A33F0; 0x7A15C7; 0x7CB81A];
   [0x427117; 0x60010D; 0x2FB59E; 0x81DF74; 0x1C3AFF; 0x325E38; 0x3E9EB8; 0xAFA8A7; 0x2A7623; 0x1940EC; 0x678A03]];
  [[0x89D0DA; 0x5DD15D; 0x7F023; 0x84B837; 0x59A36B; 0x14C4F9; 0x5A10B9; 0xEEA8E6; 0x32C712; 0x207104; 0x51CC16];
   [0x788203; 0x5BFACD; 0x34A954; 0xE0855B; 0x7F6BD9; 0x3EAB3A; 0x61F2A3; 0x4BF5E9; 0x203A8B; 0x7B37C8; 0x403792];
   [0x91D84F; 0x6D1BA7; 0x36B343; 0x319941; 0xAB9F0; 0x7A1DC1; 0x31981C; 0xF43266; 0x8BB75; 0x485DAF; 0xA9D74]];
  [[0x243625; 0x5BB841; 0x525C95; 0xBC116B; 0x3839C3; 0x41EB1B; 0x221F6B; 0x4EC4AF; 0x6D762B; 0x5C54FC; 0x7A1F82];
   [0xC26515; 0xED4C; 0x1E3B09; 0xBEE59; 0x63B3C5; 0x275D84; 0x5756AC; 0xAF183D; 0x9020F; 0x6E34C7; 0x4DC0C8];
   [0x5B4EB0; 0x39BA12; 0xB792C; 0xD6B962; 0x3DFD9C; 0x4C2A8A; 0x22A010; 0x67AFC9; 0x57241F; 0x3A2810; 0x5C0C2A]];
  [[0xF4D05; 0x1E1BA9; 0x3631A2; 0x2B29CE; 0x7696F1; 0x313416; 0x1EB6D3; 0x8D3460; 0x3364E8; 0x429EE; 0x7E4FF6];
   [0xB98C72; 0x43B1EA; 0x1A581F; 0x295970; 0x10F065; 0x39E01E; 0x2E33BA; 0x47DF1A; 0x41422E; 0x5A3851; 0x3FA8FF];
   [0xA29B8E; 0x702100; 0x1DFDFB; 0x6CA23F; 0x4F967B; 0x417B94; 0x73DD0F; 0xD08DB3; 0x1C4006; 0x3F92DD; 0xF2874]];
  [[0x8D5AC8; 0x31FE77; 0x1EE7B5; 0x17DDC8; 0x10F7EB; 0x78D778; 0x51CF94; 0x737A58; 0x2F2CA5; 0x314107; 0x3BD0E4];
   [0x708B31; 0x6E4EE5; 0x72B5A8; 0xB52995; 0x1B7B7D; 0x2853F5; 0x71F2D3; 0x90F660; 0x4E8BAE; 0x2AEB93; 0x7FE004];
   [0x74B2E7; 0x36F8CC; 0x5A0B4F; 0x6AC18C; 0x23E1D0; 0x18985D; 0x44A4EA; 0xEAD750; 0x1739B5; 0x259016; 0x69AD16]];
  [[0x236C6C; 0x2BDCF8; 0x737342; 0xFFE743; 0x67A4D9; 0x66D9C1; 0x681F98; 0x599DED; 0x57B074; 0x1B308C; 0x56660C];
   [0x8B1685; 0x27EA30; 0x33CA2D; 0x98682C; 0x3F67B0; 0xC48E9; 0x68A704; 0x1C6E9D; 0x123D06; 0x50A933; 0x53C6D2];
   [0x917431; 0x2F64FB; 0x755E9F; 0x5D5B9F; 0x6E0959; 0x68928; 0x509EB9; 0x9B4E5E; 0x998B; 0x8DAD5; 0x166125]];
  [[0x74C2E; 0x652B12; 0x202F3C; 0x42EBC1; 0x500167; 0x5CDA15; 0x1381DA; 0xCC99F2; 0x5723CA; 0x1A8C3B; 0x3D5615];
   [0xF1A960; 0x7380F6; 0x7009E1; 0x2EF85B; 0x3B246B; 0x41405A; 0x1314CB; 0x9FDCD0; 0x77491F; 0x3266F0; 0x760D83];
   [0xC7818E; 0x7864C2; 0x244BD0; 0xF38B08; 0x688F96; 0x75C705; 0x278414; 0xB2BFF0; 0x67126E; 0x7B7F7E; 0x78584]];
  [[0xFE7A46; 0x5584A0; 0x5CDD0D; 0x4CF5A8; 0x19CFA7; 0x87268; 0x7FF3F3; 0x87ACFD; 0x17BD41; 0x4A35AA; 0x14C1BD];
   [0x5A4052; 0x32A135; 0x7056C3; 0x72F85C; 0x24A79D; 0x3D7320; 0x7F20D; 0xBEA269; 0x32F584; 0x557016; 0x9FC2A];
   [0x6E58DD; 0x414D93; 0x1D725A; 0xA5AB22; 0xAD82C; 0x613758; 0x773B55; 0xD581E2; 0x6342F0; 0x22FB1A; 0x28348D]];
  [[0x940FFC; 0x6CC86D; 0x33CE22; 0xA629FD; 0x32CFBE; 0x11788D; 0x27D4E5; 0x43AC5A; 0x3CEEDA; 0x57AA; 0x614643];
   [0x312B0D; 0x3C3AC9; 0x126EE8; 0x3F24AF; 0x6CC19; 0x656F4F; 0x4E91CF; 0x1EC679; 0x10294E; 0x23F5E9; 0x181E45];
   [0x8C28C0; 0x16213D; 0x10311C; 0x744F39; 0x6CEA8C; 0x66FA80; 0x5E3FA5; 0x1D61EB; 0x1E0217; 0x2F43D5; 0x1EAA47]];
  [[0x854120; 0x5AA732; 0x608D63; 0x3180C7; 0x513CB6; 0x13362E; 0x492465; 0xA81D33; 0x38349B; 0x4C1B24; 0x61B37A];
   [0xB13B17; 0x3AC756; 0x4C7642; 0x67AC7F; 0x3F23FE; 0x58AA8A; 0xB0977; 0x1D605C; 0x713AD3; 0x60BA46; 0x41F85A];
   [0xE37216; 0x43A345; 0x223407; 0x256265; 0x11C42F; 0x138466; 0x4733CC; 0x3535EC; 0x1BC86; 0x3D1B86; 0x4AE885]];
  [[0xDC7159; 0x1767D1; 0x7AE0AB; 0x878A1; 0x4FB364; 0x33B0EF; 0x742CF7; 0xC6A756; 0x78F550; 0x711F81; 0x65A975];
   [0x439414; 0x15AFCF; 0x7EE055; 0xDD71C8; 0x45F656; 0x624A54; 0x3005FC; 0xBC7324; 0x55842E; 0x165223; 0x37D7D6];
   [0x19F5F5; 0x20DA89; 0x6C89E9; 0xF41904; 0x3D42D9; 0x55B010; 0x175AA4; 0xB1A716; 0x83AA; 0xA3EEC; 0x170791]];
  [[0x4FE6CC; 0x27F794; 0x1DEE50; 0x1D47C8; 0x482A07; 0x728F59; 0x2E9AFB; 0x416429; 0x429086; 0x2A42B2; 0x4C02A];
   [0x4B5C0A; 0x35BDD6; 0x1FE687; 0x27AF73; 0x1A6D1A; 0xFBB3C; 0x213872; 0xEC16E6; 0x636F30; 0x415394; 0x12E98D];
   [0x8D471A; 0x69E551; 0x493B23; 0x6ED1B7; 0x47A3E8; 0x249EC8; 0x3D1AD9; 0x23243A; 0x78E657; 0x7AC870; 0x39DDDE]];
  [[0x775995; 0x4A7A1C; 0x706EC4; 0x5F75E2; 0x23C9C5; 0x24BCC8; 0x7DC9AC; 0x1AFD8F; 0x6B47B9; 0x4747AD; 0x7B084D];
   [0xA9B5C; 0x7354D6; 0x6AB188; 0xA35212; 0x3BDF54; 0x27ACE; 0x2AEF52; 0xC45137; 0x58980E; 0x50F4F0; 0x3E8EEE];
   [0xEB4040; 0x618F66; 0x31BE2F; 0xA1EAB0; 0x38AF5; 0x1EC6C; 0x7421A; 0x51B097; 0x43B013; 0x60ED3F; 0x36AC22]]];
 [[[0xA77DAC; 0x1DB3FD; 0x389F54; 0x564F6D; 0x63CF36; 0x1C46B6; 0x311686; 0xE982B7; 0x27D0F; 0x50362C; 0x1AEA89];
   [0x2BC8A; 0x36E565; 0x342121; 0xED769D; 0x2A92C3; 0x325573; 0x18B0E6; 0xF11ADF; 0x4B976B; 0x69633; 0x4FFC55];
   [0xFD2FC2; 0x401B07; 0x294102; 0x8EA5E0; 0x30664D; 0x142EC3; 0x3FE051; 0xF56D80; 0x39FEE3; 0xAEB; 0x6D0C5F]];
  [[0xDD75D0; 0x44A3C3; 0x5A506D; 0xEC37FD; 0x316AD7; 0xD14B; 0x204476; 0x51C697; 0x83305; 0x58D9B1; 0x70999F];
   [0xE5E93B; 0x6C0468; 0x9400E; 0x75F8FF; 0x35F1A4; 0x506173; 0x2364E5; 0x414D87; 0x8B606; 0x686394; 0x6AA160];
   [0x6BD2E2; 0x7A2B7F; 0x5F146B; 0x369239; 0x79C56; 0x62C62; 0x77B021; 0x3A29B7; 0x2867FF; 0x55BBB5; 0x5D042]];
  [[0xD8B383; 0x7DD79F; 0x789E04; 0xF01FC3; 0x9A138; 0x652EF9; 0x4B8F0; 0xCD2D9B; 0x2A8B21; 0x711CBB; 0x3F479B];
   [0x84BAF3; 0x77832; 0x5C239A; 0x60F9F5; 0x157D11; 0x4B04C3; 0x398E89; 0xDFDB89; 0x4B12EE; 0x2B1159; 0x70A1B8];
   [0x34A6C; 0x4C89E9; 0x22DB26; 0xC601C3; 0x32D1E3; 0x2503F8; 0x632E24; 0xEA95FF; 0xFDA31; 0x2551E5; 0x4F9CB2]];
  [[0x862AF4; 0x210FBD; 0x1E6C80; 0x400C9B; 0xAA70B; 0x736A0A; 0x5A2C84; 0xC59BAC; 0xBB281; 0x2CF44A; 0x61244E];
   [0x856415; 0x16B2C8; 0x735666; 0x1D23DD; 0x1134A9; 0x17A1D4; 0x26D1CE; 0xEECC13; 0x49B200; 0x153F17; 0x11DDAE];
   [0x7750; 0x1134B0; 0x4BF17D; 0xD2423A; 0x3D2D7B; 0x85F31; 0x227CDF; 0x654CD2; 0x82CCF; 0x7C9CA4; 0x4C47BB]];
  [[0x362E13; 0x3A337C; 0x2BBA20; 0x1856C; 0x2C1DE; 0xE51A8; 0x457B9D; 0x57882E; 0x37807D; 0x15B24A; 0x1A74BE];
   [0x3DB4CB; 0x4A35FE; 0x3DBBAB; 0x7E3023; 0x194FC7; 0x12B3C2; 0x776FBF; 0x1E11B7; 0x2DB7AA; 0x1DED18; 0x69ABF1];
   [0x5FE93D; 0xBDB4C; 0x250B7A; 0x8A93E9; 0x6F3CAC; 0x3D972; 0x57B7D4; 0xD0FA5F; 0x51BCDF; 0x37A606; 0x46594A]];
  [[0xFD1F79; 0x305A30; 0xAD2AE; 0xBFF664; 0x2CE671; 0x6F9E53; 0x242322; 0xEB83C; 0xDA108; 0x7B1505; 0x1BB588];
   [0xD17F2A; 0x5A272; 0x23C922; 0xF5BEA6; 0x534FEC; 0x201847; 0x57D139; 0x553AC8; 0x38D49D; 0xD9A41; 0x23FA44];
   [0xA4394C; 0x1C1150; 0xC4BC9; 0x13E6EB; 0x30FD03; 0x5496B5; 0x2200CE; 0x9477CB; 0x167FB8; 0x1C4D58; 0x4FD444]];
  [[0xD5EEEC; 0x38E42A; 0x5A4364; 0x980627; 0x7F2577; 0x3612FD; 0x4E0E1F; 0x74D370; 0x528EA6; 0x18673; 0x4D7509];
   [0x29610F; 0x4535B8; 0x41762; 0x8EF8FD; 0x2AA59D; 0x83B18; 0x479122; 0x5A4922; 0x2CECA2; 0x256BF4; 0x43B7C3];
   [0xB47D51; 0x748FB4; 0x584310; 0xEE3A6C; 0x5E556A; 0x52BA2B; 0x500FBB; 0xA9860A; 0x7A7128; 0xD1669; 0x2C17E0]];
  [[0x7B0B0; 0x5AEDEE; 0x76ED54; 0x274E51; 0x7BD17E; 0xBE439; 0xED5DB; 0xD7925E; 0x3F2A50; 0x2F0773; 0x3546F9];
   [0x1B8BC5; 0x567960; 0x38FA10; 0xC2575C; 0x27332E; 0x3071D4; 0x78A9F6; 0xBCAE5E; 0x760FF1; 0xE8EC0; 0x6EA98F];
   [0x676ADD; 0x4ED26F; 0x30B66C; 0xE96FB8; 0x55C569; 0x323FB1; 0x440986; 0xF3E007; 0x5F14FE; 0xE5FD2; 0x585D5A]];
  [[0x32D10F; 0x607846; 0x476A55; 0xFE8A15; 0x76749E; 0x385608; 0x29E6F6; 0x98FFAC; 0x4086D0; 0x587F0C; 0x48DEFF];
   [0x8F82EA; 0x11EC5; 0x1CAAB9; 0xB6A781; 0x436C9; 0x5DDE65; 0x2E38F8; 0x3A69F4; 0x3DF1D2; 0x26F1E7; 0x3D5D6D];
   [0x7322DD; 0x1FFAF0; 0x12A21B; 0x3853AE; 0x1D98A; 0x748E; 0x667AE8; 0x2F7BE9; 0x1686BF; 0x50052; 0x79765D]];
  [[0x267E76; 0xF5A32; 0x798CB2; 0x86E395; 0x5266; 0x25806B; 0x7EE459; 0x1EF2A7; 0x34FD1; 0x18C3F9; 0x2FCBE];
   [0x4C278B; 0x25C270; 0x642402; 0x24F47B; 0x6E96A1; 0x6B67FC; 0x446A7C; 0x9B9BAB; 0x774C2A; 0x5B2890; 0x7534E];
   [0x979647; 0x3D9A12; 0x9C489; 0x2D6F0A; 0x7ED7E2; 0x4A5B1B; 0x5C265E; 0x6AF72E; 0x3BFD06; 0x19EE72; 0x2BC98A]];
  [[0x36094F; 0x53D51E; 0x39DA8E; 0xC24407; 0x754444; 0x541686; 0x38413C; 0x3D42D5; 0x2B576F; 0x25B7F0; 0x37AE8];
   [0xFF6011; 0x739A4B; 0x2CFD0E; 0x34CBE5; 0x1C69C4; 0x183B00; 0x70A07F; 0x416B07; 0x1873B9; 0x4C82C4; 0x12AF7C];
   [0x9DAB06; 0x6525; 0x5F4AC2; 0x7B1CD; 0x25B80B; 0x6B0D4A; 0x17A0F3; 0x5371E3; 0x786EF8; 0x5F7C4F; 0x60CA6A]];
  [[0xD21942; 0x71B130; 0x10AF58; 0x32F341; 0x73BD94; 0x5C17D; 0x52C1D1; 0xAC355D; 0x7A20DB; 0x41259A; 0x44FFAB];
   [0x6E331F; 0x7C1495; 0x648A89; 0xC406A1; 0xF1EB7; 0x31E5FB; 0x6C8D65; 0xC6C865; 0x4B7DF2; 0x79769E; 0x2083D4];
   [0x980997; 0x485E01; 0xFDD04; 0x404293; 0x1BE19E; 0x79D78; 0x58EB9B; 0x5DBD87; 0x702A47; 0x39F856; 0xADFA8]];
  [[0x601C16; 0x6BAD25; 0xB27D9; 0x3CE316; 0xBF903; 0x305942; 0x55AA45; 0x6C251C; 0x1C0764; 0x4DB871; 0x6990D9];
   [0x35029C; 0x56F54C; 0x71AAA5; 0x3BB302; 0x511665; 0x4B1D6D; 0x792CCE; 0x9D6482; 0x5F2322; 0x60FBFB; 0x3DAEFF];
   [0x5DFF91; 0x7B3C15; 0x3C73C5; 0x99D915; 0x47AF99; 0x5655E6; 0x1004A5; 0x1F3259; 0x50988B; 0x5D60E0; 0x2BE896]];
  [[0x2B631C; 0x372C82; 0x2A7F2A; 0xE4A975; 0x6BB6B1; 0x16BC52; 0x473CD2; 0x630310; 0x16B945; 0x1291B; 0x59EF17];
   [0x837D4E; 0x3216D3; 0x4E0701; 0x823A76; 0x567125; 0x20E62F; 0x36F8E4; 0x91634B; 0xCE9C9; 0x712DF3; 0x3270FE];
   [0xC8BD36; 0x312227; 0x5851DE; 0x989694; 0x3811BA; 0x49DDC1; 0x79916E; 0x905B34; 0x216CD3; 0x6E95D0; 0x75102E]];
  [[0xFE15B; 0x2132F9; 0x7302D9; 0x74464C; 0x6545FE; 0x25178A; 0x37772B; 0xF33555; 0x6628A7; 0x639C7D; 0x17AF1B];
   [0x16001E; 0x346FAA; 0x55CC08; 0x6A26EC; 0x272A70; 0x73B255; 0x66C9CC; 0xE05374; 0x31E05D; 0x7241E6; 0x64D29A];
   [0x904B8; 0xACC3E; 0x5C0BC8; 0x708FA3; 0x6420DB; 0x9EB68; 0x7DF36A; 0x4C79A; 0x688FB7; 0x1853DD; 0x391517]];
  [[0x45C93C; 0x1ADA91; 0x5BEF12; 0x652E9C; 0x109290; 0x351B47; 0x649B3C; 0x93B9EA; 0x31C49B; 0x6129D9; 0x18C36F];
   [0x39F849; 0x76DDFD; 0x4D8E8B; 0xCC9068; 0x257C98; 0x22E647; 0x10E3A5; 0x71627F; 0x4D6728; 0x1036C0; 0x293E1C];
   [0xA0883B; 0x47D948; 0x29727E; 0x7C052C; 0x64B122; 0x3228B8; 0x4B695; 0x850591; 0x86718; 0x35AE85; 0x1253D1]]];
 [[[0xB27045; 0x7C6BA4; 0xBBA03; 0xD9B116; 0x7774E3; 0x42950E; 0x17A228; 0x2DD987; 0x78FFD1; 0x6CC9E6; 0x2D3C1B];
   [0xA56D1F; 0x2BB5F0; 0x5FB594; 0x9E3C8; 0x40549B; 0x8E785; 0x5E84B9; 0x3AE65; 0x476B1B; 0x4B6DB7; 0x255FEE];
   [0x1D2AC3; 0x53D8C2; 0x53ABBA; 0x62F195; 0x583DCF; 0x5C7CC7; 0x16B088; 0xE1FD84; 0x3BDF9C; 0x4B6242; 0x78CDD1]];
  [[0x72E704; 0x2A3E71; 0x16610F; 0x9B3715; 0x5FCB07; 0x5D8BCF; 0x320582; 0xA47F78; 0x5E225E; 0x168430; 0x4428AB];
   [0x4370E5; 0x5D2F9B; 0x189EF7; 0x99C20D; 0x54ECBC; 0x656294; 0x121DD8; 0x9B9829; 0x7E3E6A; 0x3A665F; 0x1EFD05];
   [0x8DCA62; 0x6B5EF8; 0x434D75; 0xFAA8B9; 0x11A045; 0x6E5D43; 0x4E67E5; 0x966939; 0x5A4ABC; 0x2BC8B7; 0x1B23C1]];
  [[0x4E71F0; 0x91B67; 0x288D0F; 0x3DBF2B; 0x34CDF1; 0x5B1542; 0x7363B6; 0x5CE63B; 0x2FAD4; 0x1E8FE4; 0x419934];
   [0x8F0055; 0x718F3D; 0x464487; 0xB1F62E; 0x1D1DD4; 0x5C579E; 0x761B7; 0xCADFA8; 0x5881B3; 0xCF2A5; 0x236B83];
   [0xEDD83; 0x641C10; 0x77B165; 0x5DFADE; 0x2C161; 0x4C0EAB; 0x4F8FA8; 0x5182C2; 0x22EE1E; 0x2FC0D1; 0x72B941]];
  [[0xBE3284; 0x265E75; 0x54BBEA; 0x9FEA89; 0x6A5BC5; 0x468BF6; 0x61091E; 0x21D236; 0x770DDF; 0x44380D; 0x261B8D];
   [0x48B464; 0x7F870; 0x664579; 0xEBB0D3; 0x34FB4E; 0x62BF86; 0x30A6E2; 0x141079; 0x4C4867; 0x21F669; 0x6C48AC];
   [0x1F1A30; 0x402CCF; 0x2EC836; 0x76E3D0; 0x45490A; 0x74B706; 0x5C524F; 0xA8A8B0; 0x1A4F8F; 0x192D28; 0x65C94E]];
  [[0x53602; 0x50EAFD; 0x3DFE2B; 0xBAD911; 0xBAA2C; 0x67D960; 0xD9F5E; 0xC75FB5; 0x61E525; 0x42DF4C; 0x78BFD6];
   [0xDDF860; 0x64B891; 0xAAD9E; 0x55DAD8; 0xCD34A; 0x7F4F89; 0x720D9B; 0xC777A; 0x5C019C; 0x7BF2C9; 0x2B11EB];
   [0x2C702B; 0x152B74; 0x2C06C6; 0xCAC7B3; 0x651F98; 0x6BEE21; 0x22FC91; 0xD0E1A2; 0xF1226; 0xCB76; 0xAD2FB]];
  [[0x3B07A3; 0x5563EB; 0xF5875; 0x4E85ED; 0x4DF848; 0x86603; 0x1FE9F6; 0x60B2A8; 0x796256; 0x146D3D; 0x7A622F];
   [0x659E8D; 0xF45E5; 0x79D2B9; 0xE3F2C8; 0x2FA0A9; 0x43F516; 0x64D221; 0x7AF6F; 0x5DA3B1; 0x750DD3; 0x3DC647];
   [0x3A7DCA; 0x78F870; 0x59ECCF; 0x721F6A; 0x73DDE5; 0x52F61E; 0x5E03A9; 0x96290F; 0x7684CD; 0x63A740; 0x273750]];
  [[0x8ABF8E; 0x4EDC3D; 0x7BBD24; 0x37EA5E; 0x28D8C0; 0x1BE0C2; 0x582236; 0x7A566E; 0x1F4783; 0x5F6DB4; 0x18F286];
   [0x40CAF8; 0x287C70; 0x2C9166; 0xC254F6; 0x5E2D68; 0x3B46FC; 0x4EA606; 0xD0B9C1; 0x228115; 0x72EEA6; 0x471670];
   [0x20A1FA; 0x75C7D9; 0x5426EA; 0x46B2; 0x76BA0A; 0x50CEA6; 0x2D133F; 0x5C8821; 0x406072; 0xA7F19; 0x1740F3]];
  [[0x90884A; 0x146BFD; 0x625FB2; 0xC92B84; 0x97A91; 0x5EACD5; 0x5F0661; 0x870EC3; 0x6D7279; 0x2CE3E6; 0x78F980];
   [0xA2B367; 0xEF557; 0x4EBC90; 0x65B548; 0x4E46D1; 0x6D0EF0; 0x299E83; 0x16D017; 0x4A428A; 0x34582; 0x52ED77];
   [0x4E0B1E; 0xC37F8; 0x6C666A; 0x436BD9; 0x1FC7FE; 0xD390; 0x6900A5; 0x62D837; 0x6CD0E6; 0x557AD7; 0x2B57B6]];
  [[0x5F93D9; 0x21EC83; 0x57A32B; 0x1CD982; 0x8309F; 0x52B2E6; 0x2068F6; 0xCD4622; 0x5EC9A6; 0x2F2CCD; 0x56DCE];
   [0x3E91E9; 0x2F289; 0x6BF91B; 0x6CBB4B; 0x145A1F; 0x7ECA85; 0x4AE385; 0xBC0058; 0x7D219A; 0x406CB9; 0x1586B8];
   [0xEE30F0; 0x94A1A; 0x6C4A5; 0x95BBBF; 0x33B602; 0x5C234E; 0x405945; 0x2F42B7; 0x60F012; 0x547D1; 0x331A12]];
  [[0xAE8C48; 0x301B89; 0x30B3A1; 0x30AF95; 0x455E58; 0x5D22F1; 0x72D976; 0x7AD824; 0x5D4B7; 0x3E29C4; 0x7D5C6C];
   [0x610488; 0x575F2E; 0x5AC7FE; 0x74B494; 0x6F1543; 0x29B2A; 0x2B9948; 0x57D800; 0x52921B; 0x117385; 0x1058C5];
   [0xEA545B; 0x32E693; 0x4AF898; 0xFFE54C; 0x39ECD8; 0x93986; 0x4575D9; 0xCDB661; 0x7A392E; 0x1939C; 0x28D022]];
  [[0xDA7B5B; 0x30FFBD; 0x548E82; 0xDD7D1E; 0x373E22; 0x60EA9C; 0x463822; 0x91DF8B; 0x1801F8; 0x46D441; 0xC8688];
   [0xEE0CC8; 0x699131; 0x427E3; 0xF43A07; 0x318E56; 0x415F0B; 0x65B06D; 0xC66DEB; 0x69C98F; 0xB21D5; 0xB711D];
   [0xD0339C; 0x2E2E3B; 0x573739; 0x7F843C; 0x12F74D; 0x1934CA; 0x11DDD6; 0xDF048B; 0x4D7027; 0x5B0107; 0x69D6BF]];
  [[0xF44C75; 0x3F20FB; 0x11CE27; 0xF7E2A9; 0x6914F7; 0x20C3E4; 0x683AAF; 0x7DE3A9; 0x1E6E79; 0x6F6AF; 0x563C95];
   [0x4904B2; 0x517306; 0x49E4D2; 0x459886; 0x1E326B; 0x3AF2A6; 0x4F40C8; 0x72BF1A; 0x692E44; 0x46EF04; 0x7235C7];
   [0x99C193; 0x32477B; 0x64C855; 0xF64B95; 0x6D6DE1; 0x38972C; 0x2E92A5; 0xFB0D34; 0xA7FB; 0x436D2A; 0x2AE23C]];
  [[0x5B55EE; 0x269FC6; 0x31ABD5; 0xAFFAE5; 0x7CF80; 0x3582AB; 0x4AA0DA; 0x3B2950; 0x27722C; 0x6DA175; 0x538D39];
   [0xE803AA; 0x78E9FA; 0x599F4; 0xC7D432; 0x482F43; 0x31EDC5; 0x7E0348; 0x99EAD8; 0x384F4D; 0x4DACD4; 0x46AD0D];
   [0xA97546; 0xFB21C; 0x15497C; 0x8E62D2; 0x505DE5; 0xB95C5; 0x23EDFF; 0x264B13; 0x2BCD90; 0x627803; 0x36514F]];
  [[0x89E077; 0x36ADDA; 0x1647F5; 0x88678C; 0x2D4F15; 0x4AD6CA; 0x239EF; 0x784B5B; 0x3FA0B6; 0x1178A4; 0x506FAF];
   [0xB41F08; 0x501231; 0x193B29; 0x837915; 0x52BE13; 0x67A94C; 0x80E1A; 0xFF39EB; 0x12E0B7; 0x4446B; 0x1FD9A4];
   [0xEAA0DA; 0x2DD110; 0x768BF0; 0x174EE3; 0x6B40A2; 0x4308C1; 0x6A7D56; 0x80EF9C; 0x6C09DF; 0x24E1D; 0x25FFC]];
  [[0x7CFBB3; 0x8B1DC; 0x221743; 0xE6686B; 0x152BCE; 0x1317D6; 0x437CCD; 0x2FC802; 0x6681B5; 0x462383; 0x7A6155];
   [0xC0616E; 0x65B50F; 0x575631; 0x8AE62D; 0x1A3DAF; 0x1CB629; 0x690A5; 0xE40AF; 0x27B0F1; 0x30A43B; 0x3D750B];
   [0x6E7C1; 0x1F7E8D; 0x7DDEB5; 0x3E61D8; 0x52F00A; 0x7F477; 0x2FCF5; 0xE51DDA; 0x710B09; 0x162A00; 0x70E436]];
  [[0x89B486; 0x508B10; 0x504CD3; 0x7CBEF5; 0x401259; 0x16A84C; 0x5DDAF1; 0xCA278E; 0x5227AF; 0xA6D32; 0x25F71B];
   [0x9CE1F9; 0x535376; 0x38A997; 0x8FCF77; 0x1681BE; 0x30BB0D; 0x79D5C2; 0xCCB407; 0x115E29; 0x6BEA8D; 0x77DF80];
   [0x328F3; 0x62691B; 0x429269; 0xD14DE5; 0x1B9543; 0x310721; 0x5A6271; 0x77EE6; 0x6695BC; 0x502870; 0x5376F2]]];
 [[[0xF38262; 0x203985; 0x29479B; 0x57D8A4; 0x2352DF; 0x5A3DE0; 0x38FC9D; 0x5E69CE; 0x7195C8; 0x7F3F0C; 0x75AA44];
   [0xA2B12A; 0x5AB91; 0x5801E; 0xBD3E26; 0x4A3566; 0x39622B; 0x196466; 0x3385DF; 0x464F26; 0x348D32; 0x6B3D82];
   [0x65745B; 0x756984; 0x663B1; 0xF8FADD; 0x5D0DD6; 0x5A5E23; 0x21B9BE; 0x9BBEE7; 0x3310A0; 0x8941E; 0x6EFBEF]];
  [[0x8285AF; 0x32D42C; 0x4A921F; 0x501992; 0x684DBF; 0x1A5365; 0x36ABF8; 0x4599AB; 0x3153D1; 0x4357B7; 0x289208];
   [0xBF2760; 0xC24C0; 0x57E755; 0xFB090; 0x7F2FA3; 0x34386D; 0x4D0670; 0x7D5F67; 0x770E2C; 0x4F400F; 0x4CA31];
   [0xC5736B; 0x25DE46; 0x184C66; 0x2454E1; 0x6C791A; 0x695E64; 0x5F1A3; 0xD89A22; 0x339085; 0x612026; 0x11E398]];
  [[0x580ED8; 0x351562; 0x3AC56C; 0x82A872; 0x9388; 0x59018D; 0x428E6F; 0x44580D; 0x397D38; 0x1413BF; 0x19ACCA];
   [0xEBF493; 0x65B688; 0x475CB8; 0xC5271; 0x1FA36C; 0x2065F1; 0x1E357D; 0x2E3A47; 0x7D686D; 0x16A68A; 0x662C00];
   [0xBBB7E7; 0x118B8C; 0x257EA2; 0xEAE0BF; 0x534B32; 0x2C3391; 0x5F91A4; 0x9CC53C; 0xD1F59; 0x44B89F; 0x4E2285]];
  [[0x27C85C; 0x34E4D0; 0x34EE41; 0xC14F; 0x466E36; 0x12ED82; 0x4AB2CC; 0xBB7B93; 0x13EE11; 0x71AADD; 0xE9430];
   [0x48606F; 0xE389D; 0x5B7915; 0xDA42A8; 0x3E8287; 0x1D2AF2; 0x44CA11; 0xC9B883; 0xB95FA; 0x571771; 0x2FD7F4];
   [0xDD2691; 0x71C20D; 0x544E37; 0x458C30; 0x5ED950; 0xA642E; 0x316B6; 0xF34871; 0x30B700; 0x7D4AA7; 0xE8F8F]];
  [[0xAFDFD3; 0x23AB6D; 0x3A134B; 0x7521AF; 0x2E2236; 0x146DF2; 0x201697; 0x389A1; 0x48BE72; 0x3FD0B3; 0x3AD399];
   [0x453802; 0x58F172; 0xBD847; 0x5FE8C6; 0x40628C; 0x4614B8; 0x4205D4; 0x259F68; 0x76F623; 0x678707; 0x57C6D8];
   [0xDB4A5B; 0x4A2766; 0x614411; 0x510EC4; 0x7473CF; 0x51CB0E; 0x14EC5F; 0x483E0; 0x1F7AE6; 0x78A5EC; 0x3FC5C6]];
  [[0xE73CF6; 0x365645; 0x26EE89; 0x6AC701; 0x7831F1; 0x393FC7; 0x3E80C; 0x8ECBE8; 0x27B4A8; 0x37554F; 0x6AD6BD];
   [0x1857E4; 0x657687; 0x36B228; 0x6A820E; 0x459485; 0x2AA7DA; 0x31670E; 0x99F393; 0x23D587; 0xB8D51; 0x67F4BE];
   [0x604B7F; 0x531996; 0xF3A4C; 0xEFD0BB; 0x1D4914; 0x4C04B3; 0x3D908; 0xAA3218; 0x403685; 0x72EB6A; 0x2176B1]];
  [[0xDC72D5; 0x53C100; 0x6992E3; 0x532CA0; 0x4D3AD9; 0x16B1F6; 0x776F4B; 0x6ECD70; 0x4FC6E0; 0x766557; 0x19E21F];
   [0x2B1672; 0x3C3FDF; 0x324542; 0x7B582B; 0x2AD86; 0x528C4E; 0x3D3509; 0xD075CA; 0x783A6B; 0x32D6B0; 0x655B92];
   [0x67E0B1; 0x1D8E27; 0x2F0272; 0xBBEB09; 0x17C396; 0x5B451C; 0xADC03; 0xF50759; 0xDE4C0; 0x6BAD90; 0x15A7A2]];
  [[0x9DA550; 0x4309EA; 0x6FDD59; 0xC427DA; 0x454A59; 0x5B8E71; 0x341B12; 0x252CD4; 0x111FF0; 0x7E3827; 0x48F3DC];
   [0xBC3FD8; 0x513D87; 0x4F4BB; 0x40E743; 0x7CD878; 0x10C877; 0x5F89C4; 0xF5CB3E; 0x74C6FA; 0x6D3B3F; 0x27626C];
   [0x4FE9AA; 0x1A4C25; 0x5FC4B0; 0xC432AF; 0x5E26E5; 0x3B434E; 0x27CFF2; 0x43D716; 0x59B5A6; 0x333789; 0x11248B]];
  [[0xCA0B46; 0x797C4C; 0x25673C; 0x4C5796; 0xF4352; 0x477E09; 0x7CE235; 0xB62DDB; 0x398769; 0x598708; 0x2AA80B];
   [0x6334CD; 0x7E78A; 0xB78B3; 0x945807; 0x5E6E86; 0x5554D4; 0xA6B65; 0x306D92; 0x5D12E8; 0x3DEB11; 0x385DB1];
   [0xA5E84; 0x6D3E68; 0x756665; 0x4A1477; 0x348B5C; 0x48952E; 0x2EDCD0; 0x17A1F7; 0xD0B6A; 0x2CC6D4; 0x357331]];
  [[0x79D8A5; 0x7C1D32; 0x26F73E; 0xDC858C; 0x2CFF0F; 0x7FA1D8; 0xAA161; 0x9E41A9; 0x9D873; 0x4C0E2C; 0x1DB409];
   [0x18D65B; 0x22CD31; 0x390F42; 0xD8FCA4; 0x6663C5; 0x19722C; 0x7F6B0A; 0xA630E3; 0x6E4A27; 0x21D1B6; 0x2AAC94];
   [0x18C372; 0x54FA42; 0xEFD69; 0x11780F; 0x1A67DB; 0x6E5FA4; 0x414397; 0x7903CC; 0x6A8416; 0x7EAA7F; 0x2FE26B]];
  [[0xE4631A; 0x519A42; 0x4D5D8F; 0xC6E606; 0x53595; 0x4EB9D1; 0x5A269C; 0x3E8B00; 0x162354; 0x7E07B4; 0x3AF53B];
   [0xB6EB19; 0x555D97; 0x633E65; 0x99187D; 0x227AE7; 0x1674B2; 0x5E8C81; 0x5B7DF9; 0x55E4BB; 0x56A5E1; 0x19F876];
   [0xB4688B; 0x5F4304; 0xB39BD; 0x4E7F2B; 0x313A32; 0x7002F9; 0x31EB5F; 0xC85095; 0x425A62; 0x328356; 0x7EF956]];
  [[0xE0C2E0; 0x585FE0; 0x75AB74; 0x41E028; 0x6CAE63; 0x3C54C9; 0x1036EA; 0x2B7F12; 0x144D5C; 0x7374DB; 0x750F36];
   [0x61BB41; 0x36024E; 0x655A71; 0x4FC91A; 0x14B38E; 0x3D62DB; 0x72A235; 0x3B2C40; 0x2C0290; 0x5FEB15; 0x61089A];
   [0x85ECE4; 0x332265; 0x42796C; 0xFD5F30; 0x4C81DA; 0x7089; 0x6EA425; 0xB807C7; 0x459E0F; 0x181B93; 0xB0E1B]];
  [[0x9EFE70; 0x4E468A; 0x77E5AA; 0x1467EF; 0x20C382; 0x55629A; 0x5CA999; 0xBEFB9D; 0x5A686B; 0x10351C; 0x5963DB];
   [0x1E85F3; 0x14333A; 0x6927C7; 0xF08F00; 0x634AD4; 0x22A5F2; 0x3B4641; 0xA28090; 0x3FC621; 0x2B49C0; 0x555DF3];
   [0x7C3D87; 0x2EFA77; 0x567EC8; 0xD46233; 0x590994; 0x45579D; 0x6388F; 0x4C41FA; 0x4C71DD; 0x7BF667; 0x57A3C7]];
  [[0x93682F; 0x73EF9; 0x19C616; 0xC17E8F; 0x2702CF; 0x5F528E; 0x19B458; 0x52A2E0; 0x425491; 0x18AED3; 0x6F6DAE];
   [0x82401A; 0x4D0E66; 0x3A3362; 0x3D1A93; 0xE6BF3; 0x17967B; 0x117AFB; 0x8CB04A; 0x2CA224; 0x67DCB; 0x56DEA4];
   [0x5F1A62; 0x6AF62D; 0xD1E62; 0xCCEE42; 0x512EC5; 0x2C191C; 0x65B2C8; 0x567D2B; 0x6A4BC8; 0x11359A; 0x3AB09B]];
  [[0x72355E; 0x290653; 0x453126; 0xDA22DA; 0x4311EA; 0xC95C7; 0x5DA2D6; 0x48EE2E; 0x7AC207; 0x29BC84; 0xA0DFC];
   [0x4EF0CE; 0x747296; 0x818AB; 0xBE8543; 0x41F6F4; 0x448449; 0x153E5F; 0xAADD33; 0x35B84C; 0x69EAE8; 0x217DBD];
   [0x2DB2A4; 0x1158C1; 0x2F9514; 0x428AE0; 0x71D932; 0x2D6CE8; 0x2F0FA; 0x1EB77A; 0x41C021; 0x779647; 0xB4B0]];
  [[0x2BCA29; 0xD6E00; 0x2A8D45; 0xE65F5F; 0x32B3E8; 0x1DDA5D; 0x17AEC6; 0xCCE901; 0x2418B9; 0x3F180D; 0x754B21];
   [0x1E8828; 0x4DE168; 0x365565; 0x3E7F08; 0x22EE0; 0x43C370; 0x66C1D6; 0x33E762; 0x21E80E; 0x22E1CE; 0x39049C];
   [0x1AEEAB; 0x4E9952; 0x6CD381; 0x319F16; 0x4B6EED; 0xE8C3B; 0x33C702; 0x74A7B1; 0x55F862; 0x70547; 0x1AB4F3]]];
 [[[0x2AB480; 0x491F21; 0x7D1D9B; 0x17861D; 0x4E0965; 0x4F9835; 0x2889AB; 0x254B0E; 0x3F4ECE; 0x645245; 0x3DE09E];
   [0xBFFA33; 0x1E566; 0x48223D; 0x81AC1B; 0x75FACF; 0x288CA5; 0x319699; 0xE70935; 0x3AFCDF; 0xD446C; 0x1FF61C];
   [0xCFC3EE; 0x53EC31; 0x556C71; 0xB61E4F; 0x19B811; 0xE942F; 0x6B460A; 0x28CECD; 0x53755C; 0x6A36AD; 0x74830B]];
  [[0x32B148; 0x574A20; 0x258660; 0xA32E9A; 0x666B0C; 0x50B448; 0x375197; 0x7C7568; 0x54C0EF; 0x3C6296; 0x451E25];
   [0x1F0527; 0x15C673; 0x2F100D; 0x51AD70; 0x120973; 0x2A4934; 0x340AF5; 0xDB9742; 0x743FB7; 0x457EDD; 0xCEB92];
   [0xF5B12C; 0x53626F; 0x7F2969; 0xF9A729; 0x33C947; 0xF3BA; 0x207B91; 0x63F460; 0x12F8FD; 0xB32A2; 0x3E578A]];
  [[0xB1FE77; 0x298801; 0x11596; 0x1AC338; 0x1D0E96; 0x5E3714; 0x3DE2F3; 0xAF9E64; 0x187EE5; 0x4F7E2C; 0x17C5D3];
   [0x71BA87; 0x241D87; 0x34F745; 0x4090C; 0xA1932; 0x42ADD3; 0x53459C; 0x7BE02E; 0x3D62A3; 0x15988B; 0x6AAD49];
   [0x367A73; 0x7F03C1; 0x2CAE51; 0x29D218; 0x14E4A9; 0x54032D; 0x62F02D; 0xDCDDAD; 0x7EE1CD; 0x1D0B5C; 0x569FE0]];
  [[0xBCADF6; 0x75341C; 0x398E24; 0x3BF613; 0x1E10C; 0x65FEAC; 0x24D15C; 0x196783; 0x51862B; 0x6C2018; 0x2A0826];
   [0xF6EE57; 0x11CD5C; 0x1F7638; 0x5F98C2; 0x1F7049; 0x3964A1; 0x5657BE; 0xDEE9F7; 0x26BEEC; 0x319B9B; 0x345293];
   [0x6BDDA7; 0x30B11F; 0x2600EA; 0x461976; 0x1593E9; 0x6F183C; 0x3ABB5A; 0x18F1A8; 0x390978; 0x5156D; 0x75AED]];
  [[0x1BD2D5; 0x578B39; 0x7FE095; 0x46AFA9; 0x2148E8; 0x17C3CD; 0x6AE351; 0x63F7AB; 0x50AA1E; 0x4184F5; 0x69223D];
   [0x86A15A; 0x33AD1F; 0x6A0376; 0xC44A80; 0x1DE4DA; 0x819B5; 0x275A25; 0x5EA5CD; 0x22AA1B; 0x4A1528; 0x41A71A];
   [0xF443D0; 0x7F9618; 0x5E374D; 0xC0032C; 0x5BC03C; 0x225F6A; 0x2F1161; 0x62CB7E; 0x527B02; 0x5AAD7F; 0x585C83]];
  [[0xD110A1; 0x4B6AF7; 0x84690; 0xF276EF; 0xF67B; 0x1870DC; 0x10FCB3; 0x392CFE; 0x2086D8; 0x7424AF; 0x202355];
   [0x77C6C; 0x25E823; 0x6EF81B; 0x540F85; 0x2C8AF2; 0x13C77B; 0x1C4D2F; 0x1021D9; 0x146F24; 0x3599F3; 0x4B4CCC];
   [0x4CD365; 0x179717; 0x39A122; 0xB62616; 0x7AEE90; 0x29164E; 0x39438A; 0xCBA485; 0x428DC8; 0x313356; 0x6E6A72]];
  [[0xCF5614; 0x163606; 0x2CA6AC; 0x6EA0B2; 0x6DA8EE; 0x19BDF3; 0x6043AF; 0x8AA760; 0x2E08F1; 0x37973A; 0x29B40D];
   [0x379A65; 0x52E429; 0x68686B; 0xC69C90; 0x4E9422; 0x366023; 0x2260F4; 0x5BAF5B; 0x678A6; 0x460DA; 0x4F4340];
   [0xE03B58; 0x7B260B; 0x5BA74C; 0xBD1A46; 0x9DC7B; 0x118343; 0x21428; 0xFFED5; 0x72D7E6; 0x3DCFB6; 0x3AB926]];
  [[0x77649D; 0x5389B7; 0x4D6E76; 0x936F59; 0x463E7C; 0x6D778A; 0x9DB6F; 0xA424F1; 0x52F5CC; 0x7E60DE; 0x4279FB];
   [0xA7028F; 0x7EA950; 0x1EFBD6; 0xBDA79F; 0x7AF7CC; 0x279C7C; 0x6C7303; 0xE939AC; 0x354019; 0x187CF7; 0x183D31];
   [0x42F626; 0x74EA5E; 0x538C9A; 0xAF163A; 0x4C692D; 0x23FAA0; 0x775E16; 0x62DAB8; 0x7D6702; 0x1B38C5; 0x1E3974]];
  [[0x4F9403; 0x748471; 0x211B76; 0x1EFC08; 0x5B213F; 0x3E9002; 0x785B3C; 0xE45607; 0x3D477B; 0x282DEF; 0x504A42];
   [0xBF7FBB; 0xA066A; 0x679D4; 0xBB2351; 0x7D83CA; 0x612D60; 0x31501; 0xF4CAB2; 0x2155C8; 0x3A8F2C; 0x169BC2];
   [0x357B5; 0x6B1266; 0x2BCBF3; 0xA64DFF; 0x66D9DE; 0x57385B; 0x5050FF; 0x6FC06F; 0x28E483; 0x51EF87; 0xCC48B]];
  [[0xED9E35; 0x23A04E; 0x24255C; 0x70038E; 0x46A52B; 0x4E9C3F; 0x6C8BA2; 0xD8ED9C; 0x6F6A03; 0x3098C4; 0x5D825F];
   [0x8FA640; 0xB9382; 0x11CD48; 0x34F5D; 0x59465F; 0x70DA45; 0x649F15; 0x54EE9E; 0x3D37B0; 0x4361C8; 0x2CB478];
   [0x12D22E; 0x674682; 0x70C891; 0xFC49FE; 0x3AF178; 0x77EF15; 0x7CF642; 0xE36298; 0x2FEFEF; 0x70ADFB; 0x674E26]];
  [[0xE45F49; 0x42AB1C; 0x5B58EE; 0x9A5641; 0x4084D4; 0x776081; 0x4873EC; 0x91B439; 0x49547A; 0x61EF9F; 0x209C2C];
   [0xACB336; 0x2E07D; 0x6207CB; 0x44DAE2; 0x17A196; 0x6B179D; 0x5CFADF; 0x81BD0; 0x2587D0; 0x5AA501; 0x27A6E9];
   [0x94228F; 0x636DC; 0x5A4102; 0x3E66B4; 0x11F6CD; 0x38E6FD; 0xB5086; 0x50E978; 0x5AE74C; 0x246161; 0x7E9879]];
  [[0x65CC5A; 0xBD258; 0x167FAC; 0xE5D799; 0x2DCFC5; 0x45B74C; 0x57C88; 0x38384F; 0x3413FE; 0x625CFF; 0x14CE5];
   [0x38E62F; 0x4B5EE4; 0x4ADC3F; 0x62FF7C; 0x1110E4; 0x7C7151; 0x2F8915; 0x68F26B; 0x38A310; 0x2E8D53; 0x31786B];
   [0x4DE3F1; 0x36913; 0x6704FB; 0x3944F4; 0x3E4AD6; 0x1A01BA; 0x2E0D68; 0x4A2407; 0x47BA89; 0x3808BF; 0x70E238]];
  [[0x1B2F70; 0x6F3BCD; 0x20C220; 0x971E3D; 0x67DC3E; 0x154916; 0x7EE08E; 0x9FB7E0; 0x164A27; 0xD51; 0x44A8C];
   [0x441852; 0x4183C7; 0xB05DA; 0x765798; 0x2FE415; 0x78F9D1; 0x49FDE6; 0xD85938; 0x404646; 0x5B14A2; 0x151434];
   [0x1ECEB3; 0x723B7F; 0x73FB3C; 0x55508D; 0x2C2D2B; 0x40F43E; 0x1CBD6A; 0x15808; 0x13E380; 0x778472; 0x14758C]];
  [[0xD4475B; 0x404279; 0x6905B8; 0xF7FB57; 0x73BDA7; 0x269082; 0x6B26ED; 0x27D833; 0x1E216F; 0x1360D4; 0x115751];
   [0xE38DD3; 0x54A13C; 0xEBF81; 0x10F4E8; 0x39AB55; 0x31188E; 0x27D686; 0xC9A0DF; 0x39BD06; 0x350B58; 0x7D7257];
   [0xA31782; 0xF1C0E; 0x2C8F03; 0xD72648; 0x39C85F; 0x4A1C54; 0xFF85A; 0x26A90F; 0x2B4E8C; 0xA4D59; 0x50B904]];
  [[0x6238BE; 0x175795; 0x538917; 0x7BD984; 0x292FC6; 0x80628; 0x1B5D25; 0xD80A64; 0x5B034B; 0x167E5D; 0x421184];
   [0xBA4129; 0xFC466; 0x3F5CA0; 0xB0084A; 0x3B6970; 0x79C8BB; 0x6F3E63; 0xD86F54; 0x3A31F7; 0x382189; 0x5CEAB5];
   [0x41A489; 0x4B3EF7; 0x591EC7; 0xF08AA6; 0x580111; 0x6B198; 0x31386E; 0xEC23A3; 0x7F21FD; 0x5E25F3; 0x47AC14]];
  [[0xAB4BF3; 0x70ED4E; 0x1DFAA3; 0x6F788D; 0x470EF; 0x5F6CC; 0x317FCC; 0x341719; 0xAF8E5; 0x265856; 0x4EA29A];
   [0xBD8CE2; 0x19149B; 0x10C6C2; 0xD9E127; 0x6B514E; 0x755F77; 0x4E4772; 0x398A6D; 0x32566C; 0x29F76; 0x50B40A];
   [0x8B1A27; 0x4EC0C5; 0x69ED34; 0x1088E0; 0x4CD905; 0x697E9E; 0xA4361; 0xA3E043; 0x58F3E3; 0x2D4E70; 0x6C75F0]]];
 [[[0x5AB8BD; 0x29D680; 0x6977B; 0x74F696; 0x48954; 0x28F214; 0x45A271; 0xDB9C5; 0x141E0B; 0x64EAF4; 0x16FA62];
   [0xDD9A68; 0x20101A; 0x6747C5; 0xC02A2D; 0x551617; 0x318D4B; 0x3D5380; 0x3B36CE; 0x42C7B9; 0x68C9EF; 0x786CD];
   [0x92DAA3; 0x6F3072; 0x25BB51; 0x82E155; 0x2995E2; 0x86EAC; 0x4295AF; 0x15CF09; 0x217DF; 0x25C6FF; 0x6A1FF6]];
  [[0x68992F; 0x37A443; 0x4E52B8; 0xEB4DD5; 0x732F40; 0x39E0FA; 0x35516B; 0xD1FF12; 0x7B9904; 0xD042; 0x61BEA7];
   [0x6695E1; 0x79A990; 0x7D995E; 0x8EA8CE; 0x24E995; 0x9615C; 0x3CF6CE; 0x77F8E; 0x350417; 0x62CAC6; 0x6858A];
   [0x22B953; 0x3B5DF9; 0x4AEDEE; 0xCEEC5; 0x3887F6; 0x254BB; 0x1856BF; 0xB16F48; 0x226205; 0x1DDE25; 0x6802A0]];
  [[0xD029FB; 0x24FF9C; 0x3692B5; 0x3D6298; 0x5113AA; 0x16BB74; 0x207B6F; 0xCFD145; 0x1A0C73; 0x3DD3F4; 0x4AC618];
   [0x7E0F78; 0x342407; 0x7BF737; 0x8C11E4; 0x1D19AF; 0x23A2DD; 0x538E8D; 0x26531; 0x2A0077; 0x2FBD3B; 0xD23EE];
   [0x9B883D; 0xC8276; 0x6F819D; 0xFC2912; 0x382987; 0x7E7030; 0x3EF8E1; 0xE2007A; 0x8D395; 0x3F0615; 0x63C97]];
  [[0x156CDE; 0x7EA553; 0x4022D6; 0xDFB476; 0xAA93D; 0x75AAD5; 0x5CA989; 0xF4319E; 0x6F4102; 0x2EBD52; 0x4C0F6F];
   [0x2F3ABE; 0x2C0332; 0xC7B65; 0xE76C78; 0x2AEA4E; 0x419F87; 0x340B29; 0x39375F; 0x5747D0; 0x2FBD65; 0x56D9BF];
   [0xF9E607; 0x92305; 0x5A5130; 0xB7A777; 0x393B42; 0x2198A4; 0x44F3BE; 0xB56C11; 0xC5006; 0x14F3D3; 0x204C61]];
  [[0xAA29BE; 0x452FB8; 0xDF2B9; 0xF57AEA; 0x309807; 0x39FB85; 0x505F6F; 0xC3979A; 0x37D4C6; 0x63A3A0; 0x41BB59];
   [0x979A22; 0x11A314; 0x4DCD17; 0x73157E; 0x7EA111; 0x5CA164; 0x7D14D4; 0xF4DD95; 0x65EA29; 0xA8618; 0x458E9C];
   [0x166F58; 0x3902F4; 0x5DF4F1; 0xFD1412; 0x65A422; 0x5C9158; 0x7FA83F; 0x1B6003; 0x3E37A1; 0x558CA7; 0x5F8B80]];
  [[0x58D515; 0xE279B; 0x61A7DC; 0x30FF7E; 0x36EF25; 0x545909; 0x71356E; 0x9FA397; 0x6064CF; 0x23899B; 0x23C04A];
   [0x70B892; 0x3C225C; 0x641506; 0xBC6E0A; 0x67DF77; 0x1C1328; 0x6FB16A; 0xDDC3EF; 0xC0A82; 0x35BBBF; 0x18D630];
   [0xF762A4; 0x6436A9; 0x68EFB4; 0xAAEE79; 0x1FA040; 0x5BE9B2; 0x68C25E; 0x69171C; 0x69727D; 0x4D3596; 0x7D2D07]];
  [[0xE0A6B1; 0x537BD4; 0x732E56; 0x54667; 0x504F91; 0x5BEA24; 0x3816A4; 0x6CAC1F; 0x94C1A; 0x7E0D77; 0x1F325B];
   [0x56C790; 0x696172; 0x4393F7; 0x7BC7D; 0x24008C; 0x632185; 0x39D510; 0x776C63; 0x5303C0; 0x488334; 0x4A46B9];
   [0xCAB13C; 0x7B99B0; 0x716826; 0x90AADC; 0x3C39E0; 0x62EF5A; 0x220C12; 0x4D0B33; 0x4E1E9F; 0x9FA96; 0x553213]];
  [[0x250F6D; 0x7501A6; 0x3B682C; 0x44D730; 0x649A14; 0x32BFCE; 0x66ADB8; 0x34ED5B; 0x43D7B2; 0xFFB9; 0x5A4861];
   [0x3B7613; 0x1D6FB; 0x3D0B17; 0x7E0DC7; 0x5BC5C1; 0x3BB331; 0x62230B; 0x61ECC7; 0x5DDB12; 0x2700A7; 0x258078];
   [0x5856C3; 0x46B785; 0x2EE0A7; 0x316F2C; 0x1A3AAB; 0x69EF00; 0x2A746; 0x99DDEA; 0x4753D7; 0x62170C; 0x4CA608]];
  [[0x96B8DD; 0x4957F8; 0x7298E2; 0x8A7B5F; 0x1A2BB; 0x4D7F56; 0x560362; 0x1642A5; 0x17F72E; 0x3B6605; 0x390B61];
   [0x15F82F; 0xE8511; 0x668D3B; 0xC4B091; 0x3C935D; 0x5D4F5F; 0x65AFF6; 0xC88375; 0x488074; 0x260091; 0x32A589];
   [0xBCD3E4; 0x73BD2C; 0x537827; 0xC860A9; 0x23CB46; 0x4AF7E7; 0x55A3FB; 0xD9298A; 0x2A1C35; 0x1D8443; 0x625170]];
  [[0xCC32C8; 0x25B8DD; 0x33759B; 0xB90E61; 0x53232D; 0x622CCA; 0x3F2B2B; 0x12CE87; 0xFED16; 0x517920; 0x26E2BC];
   [0x33B8DF; 0x6BD2B2; 0x2C06A6; 0x7B255F; 0x49E009; 0x109815; 0x41610E; 0x7AA99D; 0x4D2604; 0x1C2975; 0x419560];
   [0xF4C3F1; 0x358166; 0x47A4EF; 0xB32B54; 0x7F5298; 0x60C7DC; 0x4550B3; 0x381199; 0x4D1985; 0x3008AD; 0x1E997E]];
  [[0x80A2DD; 0x11A8A1; 0x763776; 0x37A4E8; 0x2DEFD0; 0x5CC3A3; 0x2CD3A; 0x3BDE69; 0xD3C3B; 0x468707; 0x2C6250];
   [0xDC4853; 0x13FF85; 0x6F92A3; 0xE2DC5B; 0x2BA1BF; 0x69003C; 0x696B4A; 0x1FEA22; 0x737E75; 0x2DDA93; 0x682793];
   [0x792D5C; 0x756880; 0x16DEDC; 0x132FF7; 0x28F65F; 0x687D6B; 0x42DB10; 0xF60F17; 0x244567; 0x5EA7EE; 0x680EE7]];
  [[0x17AD54; 0x226170; 0x248F16; 0xE68159; 0x1F85B5; 0x5AEC69; 0x207C21; 0x80BD65; 0x72C461; 0x826BF; 0x721CFE];
   [0x221394; 0xF6241; 0x312D0B; 0x7310BE; 0x6D18ED; 0x9B7DC; 0x2ADC6; 0x9D4B71; 0x652C01; 0x1193C0; 0x6CDFD9];
   [0x441B95; 0x5F316E; 0x55A1A; 0x8ABFDB; 0x50B1C9; 0x219EE2; 0x3C70AE; 0x4C49AE; 0x791825; 0x4EA87D; 0x1C346C]];
  [[0x633E8B; 0xD64E6; 0x43AD57; 0x56000C; 0x22A710; 0x1CF6E7; 0x61C894; 0x29FCC0; 0x63A2A7; 0x2F042F; 0x6D9C7B];
   [0xC0114A; 0x54C9F; 0x14A30; 0x8750DC; 0x14F782; 0x5BDDB7; 0x48FFA9; 0x6F51B9; 0xACD25; 0x1C791B; 0x6F027E];
   [0x59BE30; 0x4C8AA; 0x1EEFA6; 0x969A3F; 0x2541FF; 0x21EAE; 0x2335EF; 0x7B34F0; 0x5812F4; 0x35961A; 0x18E93C]];
  [[0x3D4ACA; 0x2344E6; 0x5AE7C9; 0xC22F17; 0x53F5F0; 0x37ABD3; 0x64DD19; 0xA742A2; 0x762397; 0xE9EEF; 0x47D34];
   [0xE9B3BB; 0x532D39; 0x4E866E; 0xF7D682; 0x2ACA85; 0x552578; 0x33FA4B; 0x977782; 0x3D410E; 0x3548B; 0x54FC74];
   [0xC8BBFF; 0x13F345; 0x58E472; 0x274591; 0x5597A6; 0x13E285; 0x57D3BB; 0x92D7C6; 0x500460; 0x488CB7; 0x6800FE]];
  [[0xAA79; 0x2C098B; 0x759A30; 0x2C7125; 0x199DDC; 0x75546E; 0x559A27; 0xDF24BF; 0x151F99; 0x3C4C5B; 0x2EAF89];
   [0xDC697B; 0x751FA8; 0x77C24F; 0x38C1A6; 0x13EBD3; 0x23A808; 0xB2621; 0xC685DB; 0x581796; 0x57D263; 0x4E256];
   [0xE52262; 0x1D22BD; 0x6A26A0; 0x85E1CA; 0x3EC7B7; 0x2FFB62; 0x67736A; 0xEF293F; 0x61C4FE; 0x730AA3; 0xEB2F6]];
  [[0x641095; 0x58D612; 0xAAE18; 0x29DFF3; 0x1553; 0x7F0860; 0xF0ED0; 0xA86E36; 0xDBF80; 0x31F7B2; 0x229559];
   [0x3D6EA7; 0x417EB0; 0x30EED3; 0x76B04C; 0x6404B7; 0x647E89; 0x38E725; 0x955982; 0x44F11A; 0x30EB34; 0x60A0E2];
   [0xFFBA33; 0x576743; 0x7B4196; 0x65FCEB; 0x147F68; 0x753F2E; 0x2CE14E; 0x4CC9FA; 0x8D7B1; 0x4C33D1; 0x45EB11]]];
 [[[0x178112; 0x4144EF; 0x15E475; 0x280993; 0x3DFA25; 0x316893; 0x13A505; 0x2E8E8C; 0x1BE3B1; 0x4A5354; 0x5737B1];
   [0x5EE99B; 0x738EC3; 0xEEBF1; 0x6EAA11; 0x6EC5B6; 0x137DDE; 0x77237C; 0xB7F2C7; 0x6D2A26; 0x5B944F; 0x77B72B];
   [0x288C6E; 0x5166D7; 0x48279B; 0x9E9476; 0x21C271; 0x71BEB4; 0x4E74B9; 0xF2F6D4; 0x498EF2; 0x769444; 0x393F71]];
  [[0xCF7E6B; 0x1C84EE; 0x375656; 0x982B0D; 0x15275A; 0x37C644; 0x419783; 0xE2FD75; 0x5830C6; 0x3DDDEF; 0x1D4931];
   [0x6F71D9; 0x13F2A3; 0x7E4CC9; 0x48B895; 0x6E0B00; 0x535CF4; 0x4F83CB; 0xE80D3A; 0x2893B7; 0x39AF63; 0x756654];
   [0x2DD089; 0x5B7963; 0x147EEF; 0x8FE97D; 0x74DE7F; 0x38F059; 0x424B8B; 0x510FF5; 0x2A9DB5; 0x40775A; 0x23EC28]];
  [[0x4FFE86; 0x5A8445; 0x7B9BE4; 0x3CB951; 0x3DA9E0; 0xB053F; 0x68F80D; 0x8B792C; 0x6E5C50; 0x709425; 0x695574];
   [0x55360D; 0x304400; 0x7E3E9A; 0x42D95; 0x6A420D; 0xDE570; 0x12F771; 0x7BF1D1; 0x5E64D1; 0x1011DE; 0xFD8B3];
   [0x35FF69; 0x66F82F; 0x765895; 0xF5BC13; 0x559AFC; 0x165B92; 0x1A82F9; 0x4B92A4; 0x6FF84F; 0xC3427; 0x62C571]];
  [[0x1B13D2; 0x1AB645; 0x7C40CE; 0x7EA6AF; 0x411986; 0x393A3E; 0x3CE614; 0x6D6293; 0x3D6770; 0x3CBAD3; 0x5F61B3];
   [0x7F1514; 0x563424; 0x333C42; 0x91B025; 0xAC50C; 0x572275; 0x592815; 0x2DB85E; 0x12ADB7; 0x696D1D; 0x924E7];
   [0x8A69B5; 0x42A7C5; 0x7608DB; 0xE7F3E0; 0x5993D5; 0x4961E; 0x76A481; 0xA7DA96; 0x7E1606; 0x752F27; 0x6EA269]];
  [[0xE74931; 0x2B3168; 0x62191F; 0x7F0A08; 0x407602; 0x5E821F; 0x4B971A; 0x9FAA40; 0x617415; 0x19AF4C; 0xA1378];
   [0x1CF746; 0x698B21; 0x3AF2B3; 0x18D41A; 0x32EA5; 0x6A2A53; 0x21B364; 0x4A1660; 0x524EDD; 0x537B8F; 0x38BE03];
   [0x6C56DF; 0x42F0FB; 0xA9D1A; 0x7BE0C1; 0x6A26F4; 0x34FD46; 0x5C512E; 0xF3B887; 0x741791; 0xB6109; 0x7ED098]];
  [[0x2F95C3; 0x75A30D; 0x4F8EA8; 0xD36AE9; 0x3B9F94; 0x50D27A; 0x47AFFF; 0xFF1072; 0x6EBA0D; 0x7147B6; 0x7C9C06];
   [0x7D647C; 0x491D36; 0x3D3169; 0xE48196; 0x5C2776; 0x71BB7A; 0xE3716; 0xEEE6BA; 0x7A2FD6; 0x66EADE; 0x6A3D3C];
   [0xD712D2; 0x30AFB5; 0xB6DE0; 0xCA9B95; 0x3CB508; 0x2574C; 0x4F7664; 0x8BDA7C; 0x52F4AE; 0x7C9C6D; 0x640826]];
  [[0xE39A36; 0x4E864A; 0x41824A; 0x14E9D0; 0x6B0DD5; 0x3F0191; 0x6B3AA8; 0xF82B6; 0x646713; 0x4411BF; 0x6EC066];
   [0x55A118; 0x1D8588; 0x98B01; 0x5B872B; 0x612D7; 0x15BB6C; 0x3EA8DE; 0x492CBB; 0x2B390; 0x2F64C6; 0x309519];
   [0xBCD94C; 0x453AB; 0x4DF45; 0xAF59E; 0x224611; 0x46CB1F; 0x37D384; 0x704C79; 0x4E9EAE; 0x5F6C61; 0x33B91C]];
  [[0xC4EB7B; 0x1BB1AE; 0xDF746; 0x2F5C66; 0x386901; 0x4503D0; 0x243C4F; 0xF631A8; 0x72318C; 0x67781F; 0x62555B];
   [0x9DF20B; 0x7957AF; 0x48E896; 0x266C31; 0x606385; 0x182ADB; 0xF2D0A; 0x47F1DB; 0x612A5A; 0x585C22; 0x138DA1];
   [0x2B00C5; 0x7C31F7; 0x27D051; 0x9836BE; 0x5DD824; 0x3C85C8; 0x37B92; 0x5A36F0; 0x72882; 0x556F25; 0x5C74C4]];
  [[0x200CDA; 0x142D7E; 0xC5F19; 0x33CB24; 0x62D137; 0x370C3B; 0x7C19E3; 0x2C37A4; 0x56C3B7; 0x12591E; 0x5C6251];
   [0xB8567F; 0x7942F3; 0x2971B5; 0x7509BB; 0x4489A3; 0x90D38; 0x49BA67; 0xA295D7; 0x6DE00; 0x5529F0; 0x68D340];
   [0x8E1FEE; 0x2BADB8; 0x60B20C; 0xDE49F8; 0x6AE06; 0x5BAE81; 0x153FDC; 0x2DCC1B; 0xF1E26; 0x5870; 0x3CB27C]];
  [[0xBA06D8; 0x28ABA3; 0x4A0A47; 0xE951E; 0x609146; 0x213816; 0x5657D3; 0x404103; 0x41BEE3; 0x1CC688; 0x3A758E];
   [0xF8BBE3; 0x641D00; 0x119DD5; 0x4610E6; 0x42B1F2; 0x65991; 0x400456; 0x31F869; 0x467CE5; 0x2ACA8A; 0x4AE71F];
   [0xE75B70; 0x45C331; 0x2C67D3; 0x2BAD62; 0x6D4C0D; 0x3E98E0; 0x25DD15; 0x1652BE; 0x138D53; 0x4CC0B3; 0x2588D3]];
  [[0x15F134; 0x758619; 0x5ABA25; 0x8AE40E; 0x678EB8; 0x1E6CD; 0x6265B1; 0xD3C52B; 0x2372C9; 0x8A5C9; 0x6ACFA4];
   [0x9F8482; 0x45994C; 0x5989D0; 0x48FFCC; 0x242063; 0xA8DD0; 0x5A0F78; 0x518C7; 0x39D0FB; 0x116011; 0x74BBE1];
   [0x8817CF; 0x35F03B; 0x8E964; 0xDBB160; 0x17FB04; 0x6F931C; 0x24585A; 0x43E352; 0x5B3B89; 0x41A78E; 0x4EE10D]];
  [[0xB5B594; 0x238C49; 0x61A952; 0x547564; 0x17E9B6; 0x4A85C1; 0x92964; 0xE0030F; 0x2C024; 0x6FDEC5; 0x3414A1];
   [0x5F899E; 0x317B47; 0x390FE7; 0x81FD30; 0x666C28; 0x310591; 0xA02ED; 0xC5E37F; 0x200BEA; 0x4E58B8; 0x6090A];
   [0x9AED9F; 0x6353DF; 0x4C8001; 0x684029; 0x278C84; 0x476EFD; 0x2269BF; 0x61CFF8; 0x6308BB; 0x38C1A8; 0xED4DD]];
  [[0x96CDC1; 0x4A93DE; 0x17141A; 0xCAE27; 0x633C72; 0x1DD494; 0x5D5019; 0x7B392A; 0x4E6770; 0x57CDFA; 0x70ED69];
   [0xA5AAC7; 0x17F8BA; 0x12D3F8; 0xD2AEF7; 0x203DAB; 0x1A6E08; 0xF9D07; 0x3CEB53; 0x1F11A2; 0x146100; 0x2BF207];
   [0xAE2A02; 0x3FEF01; 0x95E8C; 0x1BC27F; 0x579C72; 0x7785A3; 0xCF4D0; 0xB77DC2; 0x771FCC; 0x6D028D; 0x72A687]];
  [[0xFB5F0C; 0x952F3; 0x11F5D5; 0x65371A; 0x6D7E88; 0x54191C; 0x76F7CF; 0x6B48DC; 0x6FD352; 0x4F1AA7; 0x7F5B13];
   [0x606E6E; 0x363808; 0x407081; 0x4FC3F; 0x448579; 0x5D29C4; 0x1A127D; 0x5B9EEE; 0x653D8E; 0x28A4DF; 0x628593];
   [0xAC7820; 0x30A9D3; 0x71BE3A; 0x5FB4E5; 0x2512AE; 0x6EAE7D; 0x1D9B40; 0x5C1369; 0x786C22; 0x47AFEE; 0x784A75]];
  [[0x213EE3; 0x6F9827; 0x21482B; 0xE1390C; 0x560D0B; 0x50DD23; 0x64A528; 0xBA7CFF; 0x2D8C84; 0x16175A; 0x5016A4];
   [0x776C25; 0xCB993; 0x23BE80; 0x5A52FE; 0x2D117A; 0x199CDB; 0x52EB5E; 0x8D6F49; 0x7D7649; 0x27048D; 0x1A9C36];
   [0x632283; 0x211DC7; 0x5DFA7C; 0xF9046B; 0x588CD6; 0x3FAF32; 0x7F4AED; 0x575BC2; 0x7DBB8A; 0x5122F; 0x6253CC]];
  [[0xD1BD2; 0x1AF81A; 0x37C285; 0xD871E6; 0x62340E; 0x71909A; 0xF0E01; 0x76262E; 0x7BF9C3; 0x7F40FC; 0xB2BC5];
   [0x2724D3; 0x504EE8; 0x609955; 0x75E11A; 0xCB36C; 0x56D4AF; 0xE59E9; 0x3E6912; 0x789AD2; 0x575219; 0x7D7B6C];
   [0x72E3DB; 0x50D327; 0xF9230; 0xAFB63A; 0x8E760; 0x59EB9D; 0x3A4CC1; 0xC1CE75; 0x497AD2; 0x6BAB27; 0x2B8174]]];
 [[[0xC72DC5; 0x771E4C; 0x7FE32B; 0x502045; 0x47BCA; 0x5E99DD; 0x62584D; 0xC26155; 0x7641CF; 0x519072; 0x8A95B];
   [0xB1CB39; 0x965FD; 0x31E4AF; 0x30360A; 0x1C457C; 0x3BB754; 0x5CEAE2; 0xB7485; 0x211EE1; 0x5286E0; 0x797D03];
   [0x220D40; 0x4CA0AD; 0x21A77A; 0x364CE1; 0x6676A3; 0x38EE70; 0x1B66BF; 0xA09800; 0x714B36; 0x68F47C; 0xFBD61]];
  [[0xAADA87; 0x1E516D; 0x1DDDC1; 0x2496F0; 0x79D73B; 0x6E84CA; 0x1F77F; 0x4ED6A4; 0x4F9268; 0x2C2D9B; 0x452C79];
   [0x5C5FB5; 0x1401F9; 0x1619FE; 0x73A62F; 0x27A568; 0x410CA3; 0x7090B1; 0x88392F; 0x25F8C; 0x470FB6; 0x400202];
   [0xFB4AF5; 0x4A6D33; 0x67B3D7; 0x6C233F; 0x6659A6; 0x3370F0; 0x71C750; 0x7CF562; 0x6B187A; 0x44EC7F; 0x780B9E]];
  [[0x7A1682; 0x775D09; 0xCA759; 0x5178EB; 0x1128C9; 0x453CCE; 0x2B94ED; 0xA6541E; 0x29A8C4; 0x29D1E3; 0x318CEC];
   [0x2EA810; 0x2E2D2A; 0x760A1E; 0x768B26; 0x12C353; 0x7A143A; 0x7F1485; 0x2F5E05; 0x6543DE; 0x5DA47; 0x62D462];
   [0x56C417; 0x20F8E7; 0x21B1CB; 0xDEBC01; 0x49F124; 0x63A3EF; 0x6B1EFC; 0x5DD025; 0x579F7C; 0x5282E6; 0x3743A4]];
  [[0xD850C1; 0x4304DD; 0x31CA95; 0xABA381; 0x557845; 0x170B2A; 0x269F01; 0xF14562; 0x177E37; 0xAEF5; 0x16E67A];
   [0x8429CD; 0x4F3F15; 0x310961; 0x18EC0; 0x17C520; 0x5A3C1E; 0x69B19; 0xBBC85D; 0x6A8255; 0x5A237; 0x671035];
   [0x397785; 0xB8DE6; 0x34C5B; 0x335B11; 0x5C7862; 0x2482C8; 0x37A568; 0x679E39; 0x56810F; 0xE8F6; 0x3D1330]];
  [[0xFAF1CD; 0x60A8C5; 0x508B76; 0x4F108E; 0x54D331; 0x27A7E8; 0x346905; 0x450F84; 0x1D3E9C; 0xB0762; 0x32396];
   [0x4FAD75; 0x13909; 0x279AA7; 0x661D96; 0x11C8F3; 0x4E1E02; 0x79B899; 0x219A22; 0x7D00F4; 0x73A047; 0x112302];
   [0xC06EE2; 0x3FE63F; 0x41BD79; 0x96C7C; 0x716A9D; 0x616E56; 0x3FA2BD; 0x6CC575; 0x77B6FA; 0x5D8484; 0x4EC884]];
  [[0xEEDE54; 0x60BECB; 0x454F6A; 0x7CA867; 0x3128D5; 0x1A6257; 0x1C9D64; 0x47D7B2; 0x48D9D4; 0x387A36; 0x30150F];
   [0x869B40; 0x4423AB; 0x6A0C98; 0x4BE18D; 0x680E9; 0x6F03C8; 0x35097A; 0x163A09; 0x36511; 0x2020C4; 0x32F125];
   [0x6499A6; 0x32DBAB; 0x50F205; 0x127C8C; 0x71C444; 0x610493; 0x57B4B2; 0xB0B2CA; 0x34A155; 0x6D7797; 0x63E346]];
  [[0x30C824; 0x393557; 0x2AA53A; 0x232B1F; 0x7E74FF; 0x58171D; 0x328E4; 0x85BA6B; 0x13D154; 0x18258C; 0x6FA2B0];
   [0xC3FCC1; 0x6B3441; 0x5E8829; 0xB3314C; 0x4ECB2; 0x6B3C89; 0x3F2F04; 0x92C88B; 0x1EC53B; 0x31EA9C; 0xBDC2A];
   [0x63FFE8; 0xEFB74; 0x15043F; 0x5F290A; 0x1DA041; 0x60291C; 0x7C2769; 0xEB677A; 0x43B7A4; 0x33A181; 0x3F9D2D]];
  [[0x6CC3EF; 0x2F3089; 0x61B741; 0x7537D8; 0x717E80; 0xBD6BF; 0x3D6972; 0xBE0A56; 0x7C075B; 0x5C62F6; 0x3CA2DF];
   [0x171808; 0x5A205B; 0x5AD96; 0x58D8E1; 0x423531; 0x5C11A5; 0x169496; 0x1AB66A; 0x2F6C8B; 0x668CFD; 0x6B0027];
   [0x528A82; 0x2B2713; 0x79DE04; 0xEF8CF9; 0x6263B9; 0x720507; 0x52404F; 0x3C93E8; 0x100A85; 0x6D3FFA; 0x3B14B0]];
  [[0xF84103; 0x2EFED0; 0x4DF3E6; 0x1A7373; 0x4C8064; 0x32CAAE; 0xE2E35; 0x99871; 0x43615C; 0x5D4D9B; 0x3A809B];
   [0x688B18; 0x3E6C8B; 0x7DA089; 0x470987; 0x6E04D; 0x346F12; 0x54964B; 0x1C7FB1; 0x28F4AF; 0x6ABA8D; 0x7BEAD8];
   [0xA4DB09; 0xF021A; 0xE3BF3; 0x347724; 0x1CD5E3; 0x570A82; 0x1A702F; 0xAF41F7; 0x5573E8; 0x7B6CC3; 0xE6B2F]];
  [[0xC4323E; 0x5E5A07; 0x6E0C89; 0x18D1E; 0x582AB5; 0x4E8211; 0x21ED53; 0x6B639D; 0x505AE2; 0x7DF924; 0x2AA137];
   [0xC33279; 0x685341; 0x643C48; 0xACAC38; 0x5AE420; 0x514A01; 0x6BEB21; 0x3CC859; 0x17135D; 0x4ADA1B; 0x7CF53B];
   [0x6149FF; 0x353234; 0xFE22; 0x1F09D7; 0x21F65; 0x49C3AD; 0x1C1A78; 0xE00DFB; 0x228A53; 0x5812BD; 0x407161]];
  [[0xAC8719; 0x4B5C52; 0x1AD60A; 0x1B2FAC; 0x4CD6B6; 0x2823C4; 0x3BE7C2; 0x9BDCCC; 0x566B2F; 0x205A09; 0x6C27CE];
   [0x53FC77; 0x3F8121; 0x73622F; 0x775975; 0x7FED73; 0x41C648; 0x462A53; 0xFFBFD4; 0x11A7DF; 0x3092B5; 0x261A53];
   [0x9AAFB7; 0x13BCE1; 0x4971F6; 0xEDD1B3; 0x2525B4; 0x58D61A; 0x66E9D1; 0x9B73B8; 0x33C84A; 0x6CAB6; 0x8EB2]];
  [[0x492C5D; 0x5CF97D; 0x7722C; 0x66F3B8; 0x306A7; 0x7D6927; 0x23F020; 0xBD1D41; 0x497C08; 0x5699EF; 0x369E3D];
   [0x25F79F; 0x5176A4; 0x3D2CDA; 0xF5AAC3; 0xA2AD0; 0x6D725F; 0xE7277; 0xB14CC5; 0x2D5FC8; 0x7F764F; 0x50EF13];
   [0x97E85B; 0x1C0CFD; 0x6027C7; 0x38732E; 0x3385DC; 0x6F67DF; 0x38EF81; 0xF717C0; 0xB4878; 0x99CD4; 0x71787D]];
  [[0xEB7F2; 0x7F42B8; 0x70653E; 0x320A4F; 0x16BB51; 0x691D90; 0x138916; 0xD043DE; 0x107F57; 0x1DCB80; 0x59F0BB];
   [0x5CD9B5; 0x2A2874; 0x600A5; 0x235734; 0x2313EF; 0x312DEA; 0x29CA11; 0x973048; 0x4D4134; 0x3E99AC; 0x867B4];
   [0x2FA5A2; 0x413E42; 0x772166; 0x1C593A; 0x6949A2; 0x786FF6; 0x3BB2E2; 0x2BC314; 0x125CC6; 0x7B110C; 0x4E5352]];
  [[0xE38B2F; 0x549D88; 0x451B24; 0x237AB5; 0xDAF24; 0x28B85; 0x2439F; 0x7FF9B1; 0x4B3263; 0x7B2514; 0x130159];
   [0xCBEDBE; 0x164E8E; 0x6D1617; 0x971E62; 0x14CEC3; 0x654E4C; 0x3EE5FE; 0xD5DB3C; 0x7E501; 0x59EAD8; 0x33FEF5];
   [0xF396A9; 0xE12CC; 0x66F113; 0x32A657; 0x558CEA; 0x35397E; 0x72BA41; 0x1BAC1F; 0x458EAD; 0x176E4; 0x6D9827]];
  [[0x54ACCB; 0x6837A0; 0x5E0E17; 0x2D46A3; 0x1EC13B; 0x55ED3F; 0x4AD796; 0x9822FD; 0x6E60A8; 0x19C052; 0x47770E];
   [0x2D311B; 0x25BEF8; 0x441B88; 0x175A1; 0x77C008; 0x7C334F; 0x3B3992; 0xCA38F0; 0x2777D; 0x3C8B93; 0x28F8C6];
   [0x8E76E6; 0xA66B8; 0x49E5D6; 0xE8B276; 0x32543C; 0x27A563; 0xCF52; 0xDEDDB7; 0x401370; 0xF47DB; 0x502929]];
  [[0xAECCC3; 0x54C9AE; 0x2F21DC; 0x59D2B0; 0x33CED8; 0x4A2E1F; 0x19B7CF; 0x95A290; 0x70C5C6; 0x2EB87D; 0x7DB934];
   [0x78836C; 0x3DF99A; 0x5C291E; 0x534356; 0x247324; 0x2F5070; 0x3EEB8F; 0x3A920E; 0x2D28C; 0xFF5FB; 0x7336AA];
   [0x1FA1A5; 0x212F13; 0x577134; 0x4BA237; 0x49A436; 0x7F6BB2; 0x722AC5; 0xC0532E; 0x7534D3; 0x1DCBE4; 0x726554]]];
 [[[0x9D7F04; 0x3E522B; 0x4E8173; 0x1C1588; 0x22E52F; 0x7A9393; 0x6F3F0A; 0x537EF6; 0x61C5EA; 0x1044A3; 0x5E8C14];
   [0xCC8AA4; 0xC72ED; 0xDF49; 0x798195; 0xC41B1; 0x5C0709; 0x63F579; 0x797385; 0x561750; 0x22408A; 0x33DFF7];
   [0xE72D7C; 0x52E6A6; 0x677E30; 0xDA67FB; 0x53230A; 0x7B8901; 0x45AC83; 0x10FEFC; 0x6E69B3; 0x6008DB; 0x6D7911]];
  [[0x4F7A12; 0x3FE9B9; 0x35897D; 0x92A16A; 0x2ABB20; 0x3C1F4F; 0x170A77; 0x14D957; 0x3289DC; 0x5BECE; 0x601138];
   [0x61EEA8; 0x211689; 0x2EAEF4; 0x2EE6E9; 0x42698F; 0x2C17BC; 0x153303; 0xEA9B7; 0x335B95; 0x101F4E; 0x661849];
   [0xAEA3D6; 0x406869; 0x375EE9; 0xD5E095; 0x510487; 0x425B84; 0x2933E8; 0x85EA0B; 0x36858A; 0x15643E; 0x291032]];
  [[0xB19259; 0x44D63D; 0xD8B2C; 0xF03F2A; 0x75DD51; 0x63574F; 0x597D0C; 0x4CC301; 0x8F143; 0x1955D2; 0xEFE67];
   [0x12F590; 0x8204C; 0x7F0B91; 0x397CAF; 0x617872; 0x2BCC89; 0x560BB9; 0x755598; 0x6EECB1; 0x4BA0C7; 0x1A34AB];
   [0x8528CC; 0x580BBC; 0x5B25D1; 0x7506DD; 0x7DC690; 0x7F96D8; 0x392289; 0xAEF1AE; 0x63168D; 0x72BE2C; 0x5157C5]];
  [[0x3A9FD2; 0x5B25BE; 0x4F27F7; 0xBB4A51; 0x662C0; 0x41BBE0; 0x460962; 0x2EF651; 0x17689F; 0x71079; 0x1A5DF];
   [0xF75DF0; 0x49FC9F; 0x6A8F37; 0xC7015B; 0x1EE02F; 0x3A578B; 0x4F5B70; 0x46D34E; 0x36C503; 0x4A47A8; 0x1555FC];
   [0xC1A1C; 0x18A095; 0x4C6DD3; 0x622629; 0x1A4B4D; 0x1EC488; 0x7C4E62; 0xF0CBDB; 0x53F494; 0x25E122; 0x6FE5D9]];
  [[0x1D0B59; 0x2BC2EB; 0x6C247D; 0x17164C; 0x16C9E8; 0x3FE112; 0x523C8C; 0x500E55; 0x1EBD4A; 0x2663A4; 0x2FF15B];
   [0x9AECD9; 0x79901; 0x6A6241; 0x3D62B1; 0x6182F6; 0x1F7C9C; 0x30C6A5; 0xC1D9FD; 0xAF3AE; 0x7306C0; 0x7180E7];
   [0x72CCE1; 0x2EF926; 0x33946B; 0xDD4125; 0x466F98; 0x5626FE; 0x4D69F2; 0x423C76; 0x65D10D; 0x2D6287; 0x2DD36E]];
  [[0x60C004; 0x2DF8E2; 0x73334C; 0x8C39C6; 0x509B37; 0x7E8198; 0xF62E1; 0xDD92B1; 0x1998EC; 0x2CAD76; 0x202123];
   [0x131346; 0x7A9FF0; 0x587E28; 0x5434EA; 0xC2CE8; 0x4B1B22; 0x45D4A2; 0x9F60D4; 0x57E546; 0x64D05F; 0x6EEC72];
   [0x21F448; 0x10845A; 0x6B85E; 0xAB9D0A; 0x42FE06; 0x33EE0E; 0x6AD2F2; 0x5C9579; 0x67DFC7; 0x3C1F3B; 0x699BE9]];
  [[0xA66972; 0x5C9C52; 0x33F743; 0x2E4131; 0x18DAB0; 0x451021; 0x4A7644; 0x280CE7; 0x54A55B; 0xD618; 0x6EA24];
   [0x836291; 0x5C23F3; 0x3EF835; 0x6B6300; 0x459EBC; 0x7C3224; 0x44102E; 0xE2D759; 0x58BA8F; 0x203AA3; 0x6F64DB];
   [0xA80AE1; 0x2F426; 0x5F82DF; 0x129B98; 0x16684F; 0x37C9F8; 0x798FDE; 0x5C8F79; 0x7C718; 0x52B29A; 0x59CBE]];
  [[0x126A51; 0x2CB978; 0x423FCC; 0xB9CC4C; 0x2AA538; 0x395FBB; 0x327373; 0xC23CA5; 0x544D71; 0x455CE2; 0x77726F];
   [0xE72C58; 0x56C6C9; 0x3D49ED; 0xC8F1D2; 0x4A8FA5; 0x6F3C45; 0x69AB18; 0xD5CE81; 0xA718F; 0x4420F7; 0x2B7F53];
   [0x809D3C; 0x5957A2; 0x6A3FB7; 0xFC7710; 0x2F2CC5; 0x68D0E3; 0x17780D; 0xB2B1F6; 0x1C4FDE; 0x72D97A; 0x3E98AB]];
  [[0x276A10; 0x64190E; 0x243B5; 0xEE59AE; 0x16FC7F; 0x36935E; 0x58A7F7; 0x6AAA88; 0x36ED90; 0x779372; 0x30DC06];
   [0x208159; 0x170255; 0x695DF5; 0x411E22; 0x477C68; 0x32102F; 0x1B026A; 0x38CA4D; 0x235EC5; 0x78C8B9; 0x651C9F];
   [0x67D2A4; 0x446632; 0x3D1074; 0x32AC4; 0x61127F; 0x4B798; 0x3C2D; 0xF00C4B; 0x603764; 0x74558D; 0x375BF7]];
  [[0xB4CE41; 0x7FBBC3; 0x750477; 0xDA8800; 0xB20CD; 0x2FDE44; 0x1448F; 0x1B1EE5; 0x3B0FDC; 0x600D6A; 0x42807B];
   [0x5C7646; 0x4F6D9A; 0x47B855; 0x3D2CEB; 0x7B2B58; 0x32B9DA; 0x118C1E; 0x6DA898; 0x432BB2; 0x14A742; 0x214F42];
   [0x63536B; 0x73EDC7; 0x608DC1; 0x757BDA; 0x73293A; 0x510B0D; 0x1C8A86; 0x406F0A; 0x30DAA7; 0xF6F80; 0x7A1D7]];
  [[0xA8E90B; 0x7407DB; 0x440BF0; 0x7198C8; 0x1A09F8; 0x916B3; 0x61A7D6; 0xA714BE; 0x39589D; 0x11D76D; 0x323B2D];
   [0xE19A5C; 0x141B92; 0x409B73; 0x6F090B; 0x7E0865; 0x4B7DA7; 0x6EBE5E; 0xCE6360; 0x3FE520; 0x5C6EFA; 0x2904A1];
   [0x7BF307; 0x95790; 0x9FCE8; 0x1A0547; 0x1C1E57; 0x7C07EE; 0x405EE9; 0x4047E0; 0x6DE98E; 0x4E2A25; 0x66F1F0]];
  [[0xC266C9; 0x78A6A6; 0x5AE507; 0x29D74; 0x25040; 0x4030CE; 0x6D0A48; 0x76B699; 0x1E465B; 0x82E1; 0x69B738];
   [0xBD1302; 0x3CA015; 0x107897; 0xFA47BE; 0x49E714; 0xB1555; 0x53443D; 0xEE9331; 0x514330; 0x39A875; 0x50473];
   [0xB3D5E2; 0x2E59A5; 0x444307; 0x1495AA; 0x7E4455; 0x1E0A82; 0x2AB250; 0x3E1A5A; 0xDB2A8; 0x10A30C; 0x32799B]];
  [[0x2DFB8B; 0x56DBFB; 0x67D9E7; 0x7E49DF; 0xD0A8B; 0x1D2692; 0x6D4621; 0xD98598; 0x34D873; 0x21CBB4; 0x75EBF4];
   [0x757E5C; 0x1F41CE; 0x2E6367; 0x180064; 0x4FEBFE; 0x4F8E5; 0x1FB594; 0x7471A5; 0x60AE8E; 0x7B789E; 0x72FBC1];
   [0x28861; 0x76CF2E; 0x757BC9; 0xE1A580; 0x355683; 0x2A8FE7; 0x542152; 0x561514; 0x725460; 0x7285A9; 0x4B1809]];
  [[0x355837; 0x2DDA4C; 0x3DD1AC; 0x5CC538; 0x647CBC; 0x72DB88; 0x7F7C75; 0x2AE840; 0x62A1A; 0x518336; 0x791C9D];
   [0x7CA0E; 0x2EA83D; 0x794D8F; 0x74F12E; 0x573D80; 0x334BAD; 0x7061C7; 0xEC3EB0; 0x4AFF19; 0x7B77C6; 0x2C2CD6];
   [0x332C81; 0x5AEC4B; 0x2D4025; 0x3C9; 0x329780; 0x45F540; 0x4B3238; 0xA2B784; 0x1953EA; 0x256030; 0x398A20]];
  [[0xEC4A0; 0x641937; 0x6B364E; 0xDA64E5; 0x1DC048; 0x2583F4; 0x26D1D9; 0xEDA8AF; 0x47D78B; 0x2EEFE4; 0x2CC316];
   [0x81CBB1; 0x6E1C62; 0x2FACAB; 0xA6588F; 0x250981; 0x61708F; 0x74479E; 0x3F3B34; 0x140C2C; 0x2EBBC2; 0x227AAF];
   [0xDB9FC3; 0x53114A; 0x52ECA2; 0x3DC40A; 0x7DC659; 0xD3562; 0x2C373C; 0xFAF2D6; 0x2B7888; 0x56EFFE; 0x162CF7]];
  [[0xA14EAC; 0x5D7C37; 0x2C818A; 0x8FB8CD; 0x62E148; 0x4C3163; 0x53D48D; 0x5823EA; 0x2D1D27; 0x57B1E; 0x2C3DDA];
   [0x53A948; 0x4C6EF1; 0x2D74B8; 0x1219E4; 0x71C013; 0x262046; 0x421ADF; 0xBFB901; 0x1E79C9; 0x35B45B; 0x41AC61];
   [0x2C184D; 0x47D074; 0x34003A; 0x5DCCFB; 0x524D8F; 0x59FB03; 0x34304B; 0xEACD9B; 0x2761FA; 0x3C9C64; 0x4B14DD]]]].
