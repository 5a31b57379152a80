(** The tables lut_cmb of ecp_id_tc26_gost_3410_2012_512_paramSetB.c as they are written there, for both widths. *)
From Coq Require Import List Uint63.
Import ListNotations.
Local Open Scope uint63_scope.
(** lines 4492-6312; every 64-bit limb is written as its two halves, the low one first *)
Definition lut_512B_64 : list (list (list (list int))) := [
 [[[0xFFFFFEB3; 0xFFFFFFFF; 0xFFFFFFFF; 0xFFFFFFFF; 0xFFFFFFFF; 0xFFFFFFFF; 0xFFFFFFFF; 0xFFFFFFFF; 0xFFFFFFFF; 0xFFFFFFFF; 0xFFFFFFFF; 0xFFFFFFFF; 0xFFFFFFFF; 0xFFFFFFFF; 0xFFFFFFFF; 0x7FFFFFFF];
   [0x2383127B; 0x9F34E17E; 0xCF48CEEA; 0x4C79D571; 0x494E1BED; 0xA33463BC; 0x3A5DA27F; 0x9D80747F; 0xC2F4174A; 0xDCBD09DD; 0x2147B2E0; 0xE8307A8C; 0xDBCF9AC9; 0xD1D3CCED; 0xE98DEFF1; 0x778FFEC2]];
  [[0xB67DA584; 0xCE514E6B; 0xE19C2094; 0xEB51443B; 0x9B071A6E; 0xC8E8F54B; 0xBED2A243; 0x239C53FD; 0x2AE8E157; 0x67D47B7B; 0x5550826E; 0x46DE3B7; 0x17723575; 0x2F7DD21E; 0x11E8E247; 0xE6EABDD];
   [0x48600734; 0xF204F0D6; 0x343D6475; 0x4B3054C; 0xF7E6D181; 0x707BD9D8; 0x6B353E20; 0x535CEC32; 0x108C5FE7; 0xA185FA95; 0xB573367F; 0x7033EBFA; 0x46552D77; 0xEC54E36B; 0x729C9EBA; 0x235E6C1A]];
  [[0x8B28C0DC; 0xECDCEE63; 0x36AE99A1; 0xD4E35B40; 0x464A3D2F; 0xDACC813D; 0xDBAF282E; 0x8D92802A; 0x7D8757F2; 0x652CFF9C; 0x7F5A8471; 0x2C1BCBD9; 0x16C3679A; 0x10192E2; 0x7529DB85; 0x56269496];
   [0xD5F89B94; 0x7480BB90; 0x1E46EDE6; 0xE01FE3D8; 0x4E57E6F5; 0xC1843163; 0x91C2DF63; 0x5F8C6884; 0x5FA2DC4D; 0x42E01ED6; 0x8FF5A769; 0x629C95CD; 0x6EAB4807; 0xE8C1637; 0xABD9BB6; 0x1C41FB66]];
  [[0x6ED32E5F; 0x6B509B4F; 0x67C95F17; 0xC62AFB25; 0x5CE4762A; 0x352D4B7A; 0x9AFA6ACC; 0x33135815; 0x6D550B2; 0x168B5654; 0xB528DF40; 0x254DCCE0; 0x222C9415; 0x422ADB9A; 0x3D2F923E; 0x6FC0F2CE];
   [0x59359CE7; 0x3CC08723; 0x91A4DC50; 0x1779C0CD; 0xC8B9922D; 0x1205971E; 0xC13192A7; 0x199F8198; 0x492DB7AA; 0xA43FBDBF; 0xE82BEEC8; 0x9E173427; 0x3850D54E; 0x1E901499; 0xF761EC57; 0x603774B7]];
  [[0x2BDEF3A9; 0x23B79C80; 0xD19A5F2C; 0x2217119A; 0x56B09A50; 0x49194CE1; 0x21329201; 0xEE7D88A2; 0xD0BBED28; 0x1C45A959; 0x780FA0D1; 0x1BA5DAD5; 0x6959608D; 0x17D7C794; 0x7E4E9B1F; 0x7DA39423];
   [0x47508CA7; 0x435F5C55; 0x516AD549; 0x84583489; 0x2BAE814; 0x9DDC49D; 0x260B4D97; 0xCD566B6E; 0xE38DF931; 0x8C11211E; 0x5D473F8; 0x7D5FC8D0; 0x865C76F2; 0x48C9D7CD; 0x2A6D5599; 0x2D451737]];
  [[0x29C4EACD; 0x5F8B137B; 0x99075883; 0x5CB8477C; 0x50A641C4; 0xBC6736A7; 0x81B0881D; 0xF96B6D0E; 0xE561FC8F; 0x8E9C2612; 0x284E20B7; 0x8F742744; 0xD4DD11EE; 0xBC8C5BE7; 0x82B2EF56; 0x414709E7];
   [0x6DF555F2; 0xE4D6BC0A; 0x38EE529F; 0x916E0A80; 0x3414117E; 0xBBE31273; 0x3154234A; 0x2D7BF9CD; 0x1852E8EE; 0x79B9CFA9; 0x1BD9C07A; 0x62653E8C; 0x7C7AFF7E; 0x35FE04F6; 0xE70AE283; 0x746C1E87]];
  [[0x98366BA5; 0x1F5857A1; 0x414DECAD; 0x96781D84; 0x66CF983E; 0xB39DD888; 0xCAC19B5F; 0xDE1050AC; 0x8B2AA408; 0x5A58BFA8; 0x3C440DED; 0xA0A6E961; 0xC67D0412; 0xBAAEC3DF; 0x6759674E; 0xE37C0E0];
   [0x63880D22; 0x1E623E75; 0xF0ACB4B6; 0x3BE27CF8; 0x4F69642E; 0x5E6ABD4F; 0x13CADA08; 0x3E92D34D; 0x127C48B; 0x56C64429; 0x7F3C5746; 0x620FC35B; 0xEF94C612; 0x6870F3DE; 0x2606F4A4; 0x219C5A5A]];
  [[0x1625FE00; 0xAD4ACAA; 0x9BEE03FF; 0xD7DEE6BB; 0x2E594A2C; 0x72A27D3B; 0xAAB1C0E5; 0x471EFD78; 0x37857650; 0xBDE8465E; 0xBD9F5885; 0x1CA721C2; 0x6073DCEF; 0x361E6F8A; 0xA7CF8E9; 0x2BA435E3];
   [0x1C6893FA; 0xC7B032BD; 0x9D4E403; 0xFA9C30E8; 0x20293A47; 0xB03AF5BD; 0xE008F02D; 0x21EBC61B; 0x73D59E63; 0xA50151D; 0x78D260DB; 0x18D1A3F6; 0x7D79BA96; 0xE8E3C3F4; 0x75A06F31; 0x51FAED37]];
  [[0xE8BCBC8B; 0xECD4B979; 0xF803878F; 0x7529023C; 0x9A8B8850; 0xAD84E184; 0xCCF88146; 0xF1E004F8; 0xC194F3F5; 0x27406240; 0xE366D6B0; 0x175AB72F; 0x13BBCC48; 0x1A44BC85; 0x12F138C6; 0x7930F869];
   [0x18E4DCD0; 0x1943A865; 0xBCE9F068; 0x747F6C7C; 0x54D067F7; 0x5A306F64; 0xEDB2062A; 0xD1A8EF54; 0xA42F21B3; 0x60E6ACAE; 0x3B2D2C26; 0x9218654F; 0xE8B2778E; 0xEDE14471; 0x8CEE6931; 0x7B868D31]];
  [[0xB368FF42; 0x957A4F6; 0x4C85FC; 0xF9F134FD; 0x19017E1D; 0x3A6B8A47; 0x7D50A61E; 0x673A45EA; 0x4E18EE86; 0x4A26DA49; 0xDF0C17A6; 0xAF7DD8FD; 0x7E7277C3; 0xD24BF75A; 0xBF72613C; 0x5EF832A1];
   [0x3300EE10; 0x2E9C8E08; 0x8763AB4E; 0xCCA04C06; 0xA6B7D854; 0x5F8DBC28; 0x4025C222; 0xC6CD3DE8; 0xDFE44A5; 0xEFD30CC1; 0x1D7BE70F; 0xC2CD4442; 0x45CCED5D; 0x6F8D46B; 0x2EF0C653; 0x2D74D0D6]];
  [[0xB26E78B9; 0x151B24DF; 0xBB1ED51; 0xC57E8156; 0x9C13974B; 0x57BAADA5; 0x20CC5AF3; 0x98336FB8; 0xC790E28; 0x1DA5BD29; 0x8C6E2539; 0x877AA935; 0x9AEE9D2; 0x1673F151; 0xAEE66D8; 0x519FB4EE];
   [0x6AA8D898; 0x2B798F20; 0xBA86008C; 0xC3DFB5EC; 0x343A8CBF; 0xF780333B; 0xB6D2056E; 0xFF22F62A; 0x182EF2A6; 0x97F3006E; 0x3064AC5E; 0x3C5ADB49; 0xC9D64C70; 0x89C8C032; 0x243DB254; 0x1A9ABDED]];
  [[0x11A375BF; 0xA84B6362; 0x620A2252; 0x598270A6; 0x13A0EFF8; 0xB183EC9D; 0xB755AD35; 0x2F7BEBD4; 0xC53EFD69; 0xEBA848ED; 0x6FAEC1B6; 0x12059A24; 0x7A290D7B; 0xBA6340A4; 0x63DF6036; 0x22849432];
   [0x2AA27F19; 0x4702BCB6; 0x9B6D66D6; 0x8DDE4920; 0xBDC2DC5D; 0xC3D4A80B; 0x691A8BD4; 0xE51AC2D6; 0x8F4211FC; 0x79485351; 0xA9D14C71; 0x163CD093; 0x89A0E099; 0x4B38A2B1; 0x9E98054E; 0x16673245]];
  [[0x31FBB6B8; 0xFB441071; 0x42AD947A; 0x79A8775C; 0xE72D0384; 0xA8C9E486; 0x840A1DDB; 0x9AF7F292; 0x2DB1B47D; 0x7E9DB52; 0xBA81EBAD; 0x698669A; 0x2DC06B76; 0xA48E2F03; 0x79B9161A; 0x1B060248];
   [0x13C53A83; 0xD47BADE1; 0x68727195; 0x9C1F4DD0; 0x1293376B; 0x14A2FC60; 0xDC206930; 0x8A63967E; 0x98E46F8B; 0x5D9DFE38; 0x85CF7B41; 0x9199E193; 0x113D1605; 0x3E8DF54D; 0x303789E1; 0x14D3C202]];
  [[0x626710EB; 0x11A727D4; 0x3EB613F1; 0x38481EC1; 0x5625E925; 0xB824F831; 0xD03D016B; 0x3FEFE4F7; 0xBF1FE74C; 0xCE196037; 0xE956E95F; 0xE5518F38; 0x23E1AE46; 0x84E24D45; 0x3E0F63A1; 0x29D1DB5A];
   [0x4FAE4F08; 0x380BF787; 0xED8B6A7C; 0xB4E5D477; 0xDC035A0D; 0xABA43C3A; 0x25134A5C; 0x7B880508; 0x65D5A8CF; 0x2DB45548; 0x7EDE5F4D; 0x776B78B6; 0x79297E21; 0x4CB58481; 0x8BE6DBD4; 0x1E191105]];
  [[0x3E98C38E; 0x4D105437; 0xB2E8BE84; 0xAE4B330C; 0xE16CA9CD; 0xB1A22A3D; 0x1DAF0B8D; 0xE78B43CB; 0x5CB2B278; 0x509D9C34; 0x29F9FFFD; 0x9A1342B3; 0x73A20A3F; 0x8159F452; 0xCA064DAD; 0x35043A47];
   [0x40E7978; 0xE000710E; 0xFAF394BB; 0x2A1DA585; 0x51524252; 0xF9423EE6; 0x181ACF8B; 0xD95CE5EF; 0x613B5947; 0x97A9B5; 0xAB442CD0; 0x6F088D14; 0xCAE96A8E; 0x4E225BAC; 0xEE82591B; 0x753B77B9]];
  [[0x43969A20; 0x41D5FEEC; 0x5B57402C; 0xC7E1DFA2; 0x9C098C51; 0xC43BFFDD; 0x2954A8F5; 0xAC5E7394; 0xB2E1308E; 0xD420A646; 0xD7CAE952; 0x13476158; 0xE7B188C1; 0x6A48FA12; 0xEC53C308; 0x1CF2DE71];
   [0x653FB0FE; 0xAA44CF54; 0x450317F4; 0x4E05A63D; 0xE3AA21DA; 0x8B59BAA6; 0x11F7840D; 0xFA3A1CDA; 0x39DB678D; 0x220F39B6; 0x759CDCA0; 0x6D497E96; 0x69FA5114; 0xADF3F29; 0x15349213; 0x7836181D]]];
 [[[0x5D6F9B3E; 0x1F11E63C; 0xA403A073; 0x4569A6DA; 0xFE26A8BD; 0x1B585729; 0x5F41FAA7; 0x2185B4E4; 0x6E99E6E1; 0x3887350C; 0x99CFFB22; 0x92F63CA5; 0xA52F6381; 0x94E93270; 0xD0A380FC; 0x489EE2DF];
   [0xB988D87D; 0x45F7836A; 0x337BEFA3; 0xA44DCA0C; 0x55657370; 0x6F422436; 0xC16D6547; 0xE5299B33; 0x1E5AAB47; 0x74A82B2F; 0xCFA92CDB; 0x795A79B9; 0x4981A557; 0x2EE0F1BE; 0xF5637DEF; 0x3F7A2AC5]];
  [[0x3A0FEA31; 0x78CF079D; 0x6F9069B7; 0xF5A54C8C; 0xD8C02F14; 0x24C79868; 0xF36B384F; 0x43DDB340; 0xAD874F73; 0x8AF55E5E; 0x5856DB97; 0x29E81ACA; 0x702DF822; 0xB23D0E00; 0x3D029F4B; 0x58EF4F99];
   [0xF26CA389; 0xB28FA62; 0xECFF83DF; 0xD3288224; 0x3FD82EB2; 0x5D8F2319; 0x3D1CB29F; 0x68E3D3C5; 0xEC26BE41; 0x8DF1A753; 0xC2C7412F; 0xB2074622; 0x8D5018F7; 0x3A8D3504; 0xFD309F9B; 0xB0D2D49]];
  [[0x9319D09A; 0xE997DD06; 0xDA1726DB; 0xF8A2189F; 0x266E7222; 0x3AD35868; 0xF42E1A2; 0x116610C; 0xE93CC223; 0xF23385AC; 0x8D221503; 0xE06DE4F6; 0xA36EE6D9; 0xC963EF8; 0xC297BB1A; 0x13B707C8];
   [0x15B7BEF0; 0x10675424; 0xAB4ECC7E; 0x9C064518; 0x83247132; 0x324CDF0C; 0x4CE15206; 0xA9A41620; 0xF0EC82B3; 0x641C526; 0xF165B832; 0xD952D947; 0x56C3BC3C; 0xF6E4EF5B; 0xEF1F3728; 0x528479A6]];
  [[0xA64A2C9B; 0xF84BE5DC; 0xB92B2A9D; 0xC20AD405; 0x829BA060; 0xC965A45A; 0xD9F58ABF; 0x5041E47F; 0x9E6AEB4E; 0x360FB8E2; 0xB995DDB3; 0xDC3B93DE; 0xFA2C89E5; 0x7FB0501F; 0x9C9B058F; 0x1883F017];
   [0xABF2EABC; 0x9FC09649; 0xD2ADFBBE; 0x51F9AA2; 0xF2471B9C; 0xB4689; 0x23DB9E67; 0x2C21C96A; 0xD9D7C226; 0x840F2A03; 0x2E660925; 0xE728B070; 0xA8258042; 0x1ED21D55; 0x8DA89F47; 0x20DE972E]];
  [[0xD3DE31B6; 0x3003BD09; 0x83781375; 0x6883729E; 0xA7E281ED; 0x882F56AE; 0x99873D07; 0x936861D3; 0xE329D05A; 0x68DB9DF0; 0xB6ED5B00; 0xEFD44FB8; 0xDE7AFD7D; 0x95DF018; 0x31FEE4D2; 0x11DD7E74];
   [0x52E3502; 0x59256A82; 0x967C4F10; 0xB12A68CD; 0xF921E058; 0xF56E1410; 0xD9721852; 0xF7E2CED1; 0xDE8CBE99; 0xE62F6371; 0xBDCF5383; 0x51BB6086; 0x5F1C9EF; 0xDE865C7F; 0x59C9DB82; 0x2F4D471E]];
  [[0x60A83A69; 0x5238E20B; 0x241F9EE4; 0xE8ED22D8; 0xC44B4D6B; 0x94609C9F; 0x738B047F; 0x8CB4F484; 0x3A311894; 0x1DA03776; 0xFFEDBEDE; 0x3B2301D7; 0xC28BFA7B; 0xBE0D9731; 0x8E73852C; 0x3E672B7];
   [0xAA676638; 0xA1A4A97D; 0x473A0CAB; 0x1CC2C685; 0x2E95739F; 0x31FE1138; 0x90C8025; 0x90AEB0D; 0x645B652E; 0x9F0A7073; 0xE83798BD; 0xC03ABF85; 0x48F4C4C3; 0x71FBC2D7; 0xD38C5BA; 0x56AE0E1E]];
  [[0xF2C2C6C1; 0xDAFDB67C; 0xCF3D93C2; 0xFD6B132E; 0xAE365613; 0xA6FD14BD; 0x2B04AD13; 0xB5A2A4A; 0x36B30288; 0x2AA0470A; 0x2A2BB583; 0xBC984938; 0x2DE94268; 0xC0520099; 0x49E1A2C3; 0x2CD5FBBB];
   [0xAAD935D9; 0x82C8F94; 0x51A9454D; 0x20AECE5C; 0x19E2401F; 0x5BE24C7E; 0xA327A3BB; 0x7BECBAF1; 0xB6300E64; 0x39E76F20; 0x9CBC4DCE; 0x5D151BA7; 0xB5D04C2A; 0x7726284; 0xB721A54D; 0x4D8BD241]];
  [[0x9BB85232; 0xD28B4A8E; 0xCAD53584; 0x4F965F03; 0xDD1B0F12; 0xDAE3617B; 0x6777B034; 0xDB8660B3; 0x5F952B6A; 0xC67184DD; 0xCE065AD2; 0xADCC669; 0x77CE4665; 0x1FC9CB46; 0x2234474A; 0xA01B64D];
   [0x1D915F94; 0xA749E82; 0x425F6ECA; 0xF0D212C9; 0x1281CD10; 0xC23D014; 0x29DB5FC8; 0xC933FD4; 0xBA5D8406; 0x80DDA2EF; 0x338183C4; 0x8C1402D5; 0xD4B5A7F9; 0x6E06C3E2; 0x8506CA5C; 0x64E3E1AB]];
  [[0xC94EA8D3; 0xAC11D879; 0x1F28B33F; 0xDD8B6BA3; 0xAEEAD88D; 0x647E69AD; 0x3933567E; 0xB49B31E1; 0xEE7A3136; 0xBB12FE39; 0xC80837A7; 0x28FF74A3; 0xB75677A8; 0xA932C81; 0xC29F7F54; 0x53D93D35];
   [0x3AC6D6AE; 0x28497194; 0x2D7F721; 0x220B50C7; 0xC1FC3346; 0xDA33488C; 0xF9ED4655; 0xDD86F1EC; 0x632DB517; 0xAC1853B2; 0x6F0C3545; 0x3736EA46; 0x2D45B919; 0x3D92A778; 0x3D09DB84; 0x5D9F5674]];
  [[0x9AF99589; 0xD30167; 0xC5B73D12; 0xB5213F3; 0x39E67DBF; 0x8A5A80AD; 0xF837F8F4; 0xE2C58969; 0xD4EE1D6C; 0x9DDF8923; 0x33DF50BB; 0x1AE3E0AF; 0x4E518813; 0x7FBAA73B; 0x5F7BB71D; 0x1CE6C9B6];
   [0x66EB4A4E; 0xB12B057D; 0x382599E5; 0x1C88E248; 0x4E5081A6; 0x5384C3E8; 0x9E4ABC53; 0xB7992A1C; 0x44BF086; 0xC0582520; 0xA7DB6B58; 0xE14418EB; 0xC31464E1; 0x312673AD; 0x5FEAD6E3; 0x27DEAEFF]];
  [[0xADE2EA17; 0x55C37C50; 0x4F0C5622; 0x1E159654; 0xF2BD8529; 0x6C96793C; 0x5AF8E077; 0x2B562419; 0x52A39000; 0x47F6A019; 0x163EFA85; 0xC364F4D4; 0x58BE9780; 0xD3116C33; 0x9F098FF2; 0x4DBED741];
   [0x486D49D8; 0xB0DD4831; 0x75913B1C; 0x84A0C549; 0x3E2FA892; 0xB4A79326; 0xF8E1FCD2; 0x9E24FB33; 0xBB163DE8; 0xE9E35346; 0x59EA0DF0; 0x4B20FA1; 0xB8742A03; 0xB4D02BC4; 0x6C2841D9; 0x81FA037]];
  [[0xFBA142D2; 0x514F4ACB; 0x94E5F474; 0x996B6E03; 0xCE24CA53; 0x5223E730; 0x4F5B06A0; 0x527581EA; 0x6A33B429; 0x31E6DD1A; 0xF6375ACD; 0x93A4E1C1; 0x949ED4F7; 0x6C726FF3; 0xF8F882F8; 0x4E416E72];
   [0x2FD16999; 0x26FEC864; 0xABA0E3A7; 0x41DF4A57; 0xB4FAF8AC; 0x15E54D3F; 0x6F3F282A; 0xE4318BDC; 0xF014698B; 0x7C320CD; 0x3468CBCE; 0x71B73830; 0xD640CFD9; 0x1FD1AF59; 0xD34059EF; 0xCF151AE]];
  [[0xA2B3DF22; 0xB7107CE7; 0x90B45D70; 0xC1A4E08B; 0x5E20257F; 0xC86AFB66; 0x11CE1970; 0xDD33CC96; 0x5F20F903; 0x44C20C48; 0x936A4522; 0x87FECE7F; 0x42105DEA; 0x867932E9; 0x47E2F4AB; 0x31AEE1F5];
   [0x55B1D8A3; 0x4CE020DF; 0x9B33E4D6; 0x5841BB8C; 0x7E5C052; 0x99C6EF84; 0xBB139F7B; 0xF6F0DEF; 0x366377C5; 0x5E608798; 0x101AFF93; 0xDE403CF3; 0x4B69DBFC; 0x164B26D1; 0x46229B9E; 0x190A8766]];
  [[0x85A61975; 0xAC7B1FA1; 0xA3C0E98; 0x975ACE54; 0x173A29D7; 0xB80D922D; 0x955E0187; 0x71AA4F0C; 0x3556BA4D; 0xDB3716B9; 0x248C6ECE; 0x81E375E0; 0x6AFD16A4; 0x4CCE9787; 0x3564374; 0x67A717E8];
   [0xE94E08C5; 0xE0FD3F7D; 0x71CA98AD; 0xDA2A5872; 0xBA15DEF3; 0x34A8EAD7; 0xC8EE8AC0; 0xD83A9987; 0xD9CE22C6; 0x64167A82; 0xE859A064; 0x7EE988ED; 0x603E188F; 0xD8B9D231; 0x248F567; 0x40C99266]];
  [[0x387928A0; 0x4059BE67; 0x1412407D; 0x5063C31E; 0xC37FB4AD; 0x78ABE79B; 0xDF5F4D6; 0xA9A4E76A; 0xF0C3C9C8; 0x1F4CCCFC; 0xBB2D774F; 0x44A6D446; 0x4991F3D4; 0x1B77494E; 0xC5908739; 0x41F3A74C];
   [0xC6B26A88; 0xB371AB6C; 0x454963FE; 0x1E7AD15; 0x43898DC2; 0x12A6652C; 0x1EE1BBD9; 0xC9CFD8BA; 0xC5437711; 0x22037206; 0x62E81FD; 0x327F948D; 0x9C87B698; 0xA2FF4F46; 0x4EB0808E; 0x1E83A7F9]];
  [[0xB80F91DF; 0xE2F16272; 0xB186EBD1; 0xA0265684; 0x2E7D6A85; 0x207DAD69; 0xF27F03D4; 0xEFABE500; 0x244072F; 0xEDD0F81D; 0x944AEDEA; 0x4CA26C63; 0xE874F15F; 0xD8D01D46; 0x5A1130AE; 0x73E39EED];
   [0xE5EC45F; 0xED9953FA; 0xB4D672DA; 0xF62DDD4; 0x89507053; 0x5115FE6F; 0x8354B66C; 0x58968A29; 0x72ADF8E8; 0xB37024D5; 0x4D98186B; 0xD7EC1D4A; 0x7F418AC8; 0xB5B41AD6; 0x68B72616; 0x2C0959C5]]];
 [[[0x99EF1F4E; 0x1DD33DD5; 0x3CB93CF3; 0x2F2951AF; 0x98F20535; 0x7BB75D57; 0xBF95DDDE; 0x64C36788; 0x5E211976; 0x74B787C9; 0xBE8D9E4F; 0xB464F818; 0x91BEB188; 0x2631F721; 0x5EC2BFD7; 0x3581CB61];
   [0xC41A6EF1; 0x56A35D67; 0xF69A3D49; 0x5895E76E; 0x8B97FDA2; 0x3192D2F; 0xA0A94FA9; 0x11240C0B; 0xBDDB31E7; 0x4DC27F38; 0x69A0D11A; 0x38AE33D; 0x857974B5; 0x9F3A13EE; 0x222E516; 0x2ACA765E]];
  [[0xD2421565; 0xFA06EFB5; 0x8AB1719F; 0xC199817D; 0x48C3D0C4; 0x44325F2F; 0x5A80BBEF; 0xDD6C1165; 0x2A61986; 0x30791924; 0x3A7E4B1E; 0xEBD53E2A; 0xC7AB55DB; 0xDD3E7657; 0x7A09B71B; 0x43EA2DB2];
   [0xA3AE7D5; 0x9002748E; 0x5B23AE62; 0x590F7C6; 0x4A2305B0; 0x44EE4FA6; 0xABA335D8; 0x914591BD; 0xAB32FC4D; 0x5888289F; 0x6E19B810; 0xA5FED847; 0x17DB4A48; 0x255C3F99; 0x6F25750A; 0x431EEB8]];
  [[0xD0A38E64; 0xB398FF44; 0x5E41904; 0x5FBAD7B9; 0x357B82CD; 0xBA57597B; 0xA929E6BC; 0x18BE4419; 0xA98B452D; 0x3F3F6D35; 0x58D546DA; 0x27425C5F; 0xC446022B; 0x61A1BBDA; 0x689D15AF; 0x3EA60775];
   [0x3F8C1B93; 0xDD097042; 0x31E09914; 0x951AAC56; 0x647CCFAC; 0x99C77D0F; 0x6102DEE7; 0xF3CB5C7A; 0xF9484E59; 0x2C1CAACB; 0x405766AC; 0x7EBD7135; 0xB0C58371; 0x267C325C; 0xC2F52776; 0x48FDF94D]];
  [[0x4EE6EE71; 0xF6442788; 0xC09D8FAF; 0x49D6F157; 0x3C93BF65; 0x159F7AA2; 0xB5464C4; 0x992387CF; 0xDEDA026E; 0xFC15173B; 0xC989FD74; 0x90B860E6; 0x2E98CC2D; 0xCC08BC0C; 0xC85BC472; 0x89D2D48];
   [0x3953E507; 0x9087C746; 0x90F97B85; 0x54F480A3; 0x9F9CC5D0; 0x83D61993; 0xC1970015; 0xC55DE44; 0xDF669193; 0xC45D5EA1; 0xFDCF23AB; 0x5DEFF1E7; 0x2A211F3D; 0x2B38D479; 0x3E31284F; 0x9927925]];
  [[0xC38EFF1A; 0x30454C23; 0xFEC8424E; 0x706FD470; 0x33467A08; 0xA2163197; 0x80E6DB64; 0x7C8A4D43; 0xE9AB850B; 0x505D89BF; 0x5E8DF0CB; 0xC10CFEFF; 0x16304B39; 0x3EB45DF7; 0x527C325B; 0x3AAE23FE];
   [0xC153DA5D; 0x65DBB826; 0xFFCCCC80; 0xB8EC2676; 0x1C8BA8C2; 0x4538FBAB; 0x66FD20CA; 0x6FA94E52; 0xA9B7513F; 0x480D857E; 0x82814908; 0xDB1C611C; 0x53F81AA5; 0xF1F21FF; 0xE1A47218; 0x20696D2D]];
  [[0x7AB6E8D8; 0xF31AA622; 0x686BB479; 0x3D12F32B; 0x3BF6E8F8; 0xACA48C8A; 0xFCECFCC0; 0x39D4F322; 0xC8BBCADE; 0xCBD2E493; 0x5C695155; 0x18E2A8E7; 0xDF022D32; 0x4047ED16; 0xCD6CDB7C; 0x1040565E];
   [0x64515BD6; 0x1B72EA47; 0x9320C9CB; 0xDC58AE8; 0x5310CDBD; 0xEE53907B; 0x54FE7719; 0x7C2C62A1; 0x8AE9C75E; 0xA0415080; 0x1E8A0123; 0x2BFC3780; 0xCE6823AD; 0xBBCB26FE; 0xD61B79A7; 0x5E4B59A0]];
  [[0x90C0C1CA; 0x8C93F975; 0x8F518A16; 0x871A901; 0x964CACE1; 0x6477E523; 0xA77046AC; 0xE52D22C8; 0xF9911C69; 0x4FE86722; 0xE21642C; 0x8B03B196; 0xEEA31DF9; 0xDD3523EF; 0xD896AE4F; 0x4D4EDD43];
   [0xB8CB58A3; 0xEB5C2968; 0x9AF9580A; 0x5C6C5B63; 0x3A166247; 0x20759CEB; 0xF964024; 0x812FBE1B; 0x816BFC2C; 0xBB295EBA; 0xBC4C607; 0x35525626; 0x7D134609; 0x411799ED; 0x8615FBAA; 0x7ECBDA12]];
  [[0xE7C6C149; 0x45EB69B3; 0xF40D6D9C; 0x9D414F65; 0x6AD70201; 0x3FC4D2A6; 0x2E2EB20A; 0x39F56D2; 0xCE4F7AB7; 0xAE25D395; 0x1B640F4F; 0xD69AE851; 0xCF08596A; 0x912BA30C; 0xFB7DA74A; 0x7C552E1C];
   [0x298071AC; 0x57F7B3CC; 0x5029FCFB; 0x7B38B186; 0xDBD1AFDA; 0x43D0A21D; 0xCFDCE1D5; 0x2165A125; 0x99E931C; 0xC2422D76; 0xD220528D; 0x3940B3F9; 0x5892DDF1; 0xA530E1E0; 0xC5EDB806; 0x5D1060BB]];
  [[0xDA19A7BF; 0x3C39CB0; 0x35061C5A; 0x9227C957; 0xE6733C8E; 0xB86AE697; 0x1D91D056; 0x4790AB41; 0x91944712; 0x82599E6E; 0x2126986F; 0xE6EEAB30; 0x4C7C86DD; 0xF6CF6770; 0x81C7F520; 0x962C8E0];
   [0x3E672910; 0x7275701A; 0x555D4EAA; 0xCC253D25; 0xF307D6F; 0xC87804A5; 0x5E6E364D; 0xA6C40269; 0x9DE73155; 0x5A4DB577; 0x45B03B16; 0x8513BC05; 0x5CB1A5DF; 0x7EDB8B9F; 0xD4905C9B; 0x5686C42A]];
  [[0xC1288660; 0x1B9368C4; 0x3BCEFEDB; 0x5F83CD35; 0xC33CD356; 0xB4656091; 0x4920232F; 0x2284D907; 0x95B4CBCA; 0x87816B06; 0xEF2D4546; 0xA35A7191; 0x296E871A; 0xF9E71B1D; 0x5330AF13; 0x72A7B9C3];
   [0x401BE940; 0xAC61BC6F; 0xDD2350E; 0x634D9D7; 0xCE45A7C; 0xE27626F0; 0x3493FA74; 0x9B38569F; 0x6EC9DC13; 0x3F23C703; 0x9C62D952; 0x8BF8FF12; 0x58132258; 0x5D53A2D2; 0x33A57773; 0x1FC830A5]];
  [[0xF294E33; 0xAE58A3B9; 0xAEF8F84C; 0xF12E0FC4; 0x649D16FF; 0x78C5BDDE; 0x8827C75F; 0x12645CA1; 0x7F97ABED; 0x1288C566; 0xC1E2781E; 0xCAD8E5D; 0xBC92FF24; 0x24B69A1D; 0x545221B2; 0x7068305D];
   [0x40F6201C; 0x7A9A3F7C; 0x5EFACD4C; 0x5B7E5FA2; 0xD6275627; 0x85FACB2E; 0x5BBE856B; 0xDD0FBA63; 0xB2E456FD; 0x30826B1; 0x5F898479; 0xFF397E8; 0xBFAE4984; 0x68ECAA4E; 0xCAC01FD8; 0x4EB40475]];
  [[0x2BC4C766; 0x141804F1; 0xC8FB07C1; 0xD84A76DA; 0xC83676A9; 0x29376B5B; 0x3749490C; 0x3D3A00EB; 0xC5F439B6; 0xA5EB6CF7; 0xEA156432; 0x16266439; 0x3161D4B; 0x1CF83E25; 0x95E3E8A3; 0x37603F22];
   [0xE920EDDA; 0x62EE26EC; 0xFC4DF7D; 0xCD7734A3; 0xD7FBCA6B; 0xEF3E6C9; 0x87F1873A; 0xCF2460DA; 0x1895CF1C; 0x511072; 0x4F11854B; 0xB92A8E93; 0xC665D9D; 0x98556251; 0x174A7FF2; 0x3CD64282]];
  [[0xB9F9E43F; 0x39243EA7; 0x270D2DB1; 0x973D4582; 0x541FF4C; 0xEB8B5033; 0x9F309D70; 0xED5F52A0; 0x123F45B6; 0xE978FBAE; 0x15781D; 0xA79B693; 0x5C9A03FB; 0xC5DA0CCF; 0xF16D4CE1; 0x1C6E4F58];
   [0x89CB89DB; 0x9674C2E; 0xC94A4D96; 0xB3D147B1; 0x27D24C12; 0x936F3F88; 0xA8C4BA25; 0x44E8C741; 0x920FDDE8; 0x249A28AE; 0x229B2C19; 0x274F2B4E; 0xFF4EC64D; 0x94C203EE; 0x43358F20; 0x53284B1F]];
  [[0xDCCFF94D; 0xE3AB8BAA; 0xF97449EE; 0xF038D9A5; 0x5EF19F06; 0xE4A45DCF; 0x17EF6368; 0xFFF8AD9A; 0xADDF0B6E; 0xCEB6B85; 0x96AC1BA3; 0x6C7B60B1; 0xA25F77F8; 0xED84F897; 0x55886360; 0x1EE61671];
   [0x7BA18315; 0x8B44F38; 0xF3D0E0C4; 0x8A9FFAE9; 0xE5886E61; 0x82807E7D; 0x51E94C78; 0xF15402F3; 0x96A8AF2E; 0x45969D9F; 0xF4956ACC; 0xA8E0ED89; 0xF2D21764; 0xB5334DEC; 0x861C26B7; 0x2B274E2F]];
  [[0x99E77118; 0xC2E3A802; 0xC6DE1B4D; 0xFFE72B90; 0xE29458FB; 0xCCB21D53; 0x511F0279; 0xD233AF10; 0xB9B907B3; 0xC301B7EA; 0xD7B55600; 0x59DB1F45; 0x3A386844; 0x7173318B; 0xD9AB6F85; 0x403ABED7];
   [0x14698FC9; 0xCFE2CFC; 0x34CE5939; 0x40A41989; 0x9ABA363C; 0xF5FA849; 0x8CC887D9; 0x99C045AB; 0xE8DF250B; 0x1E7563F5; 0xD3B78407; 0x2624A5DC; 0x1954A966; 0x7D80CA6D; 0x4C8995C2; 0x789BD685]];
  [[0x83A05A40; 0xBA8D9376; 0x572668D; 0xDD238C0E; 0xE0AD7EAA; 0x5B41446F; 0x63F9C64D; 0x6D1AD6B4; 0x8830CE1C; 0xF5FE99AA; 0xF2B77D66; 0x5BB1E7DF; 0xF7E63961; 0x7382CA41; 0x555032C4; 0x56D6F922];
   [0xAC45C214; 0xF9EAA991; 0x66146EA4; 0x2A4B7172; 0xD14553F5; 0x5667D61F; 0x3F7D071A; 0x996E8D8B; 0xE2229B97; 0xCB023EA5; 0x398EA3C6; 0xA446A954; 0xAAF9ABF2; 0x733E3D79; 0x47503BBD; 0x2B4FAE8E]]];
 [[[0xEBEFDC12; 0x24E9082D; 0x24FDCD6E; 0x86997EA9; 0x3145F3F; 0x15129188; 0xA16A167D; 0xC829D42C; 0xFDFACB6F; 0x55C0A31C; 0x5B93FB73; 0x1A728DB4; 0x467A55D2; 0x7A187912; 0x1E8843D3; 0x7934C39C];
   [0xF35497AA; 0x688D9927; 0x5A745926; 0x2176E4E4; 0x4FF0DA29; 0xA60F1ED7; 0xE66F5F74; 0xE1EF2081; 0x9EE53EFF; 0xCDE36E79; 0x855244FF; 0xFCD1D1BF; 0x464A4040; 0xD55CDB2E; 0x1E64BB0B; 0x39BC13F1]];
  [[0x65D70320; 0x828B3539; 0x954FE3CC; 0x921019C6; 0x39DFC1EA; 0xC2B142C8; 0xBAD22A43; 0x7A619A1C; 0xD827C06E; 0xE08FA3AE; 0x88BAA42F; 0xAC645EFF; 0x294F3582; 0x514723BA; 0xAA355FD2; 0x6FD17829];
   [0x11D05C79; 0x6366853C; 0x17D185C9; 0xE225500B; 0xFA47EADA; 0xAEEC2174; 0x6666332F; 0x9737ECC0; 0xE33AA72A; 0xD0638BC9; 0xF6CF4E24; 0x4889AB0D; 0x39E3190; 0x2912E4A0; 0xC035D955; 0x411CFB3C]];
  [[0xB3BD0D0; 0xE59D745B; 0x653222F; 0x62AB04F9; 0x43E0EC6C; 0xE6421BB7; 0x15E65B27; 0x6F3E4770; 0xD82704E6; 0x90FB7585; 0xE9A129DF; 0xCF7FD882; 0xD3D0023A; 0xFA8E1B9D; 0xDE4307E5; 0x12861B4A];
   [0xB86CF424; 0x9DC0D3D9; 0xC2DBE006; 0xCFC0A60F; 0x2B9F470A; 0x5933BAA8; 0xCAB8113B; 0x112F153C; 0x56B279C1; 0x1AEDA340; 0xBE13DFA3; 0x1408A037; 0xC06D3674; 0x10D90850; 0xAF30AE4A; 0x3DB6999E]];
  [[0x56348084; 0xAB96F013; 0x8C167F42; 0x40395543; 0x2280FEB8; 0xE1385C9F; 0x76D2C4AA; 0x36671625; 0x4D4D667B; 0x76E31344; 0xEF0B171D; 0x906B5973; 0xEBCCA769; 0x229BCCFA; 0x8A9A561C; 0x36462E60];
   [0x4FE428A6; 0xFD5116FD; 0xF3846007; 0xE92C088A; 0x218A0D1E; 0x8AC5F8BE; 0xDDF329CE; 0x59A97369; 0xCAB484D5; 0xEA2D262E; 0xBD10F3EC; 0x6F95E17A; 0xE08DDB7E; 0x6FFBEC38; 0x6446BB5D; 0x55E8DE21]];
  [[0xCB565AE; 0xA5D6141A; 0xF9091FE2; 0x8786B494; 0x1D6C9279; 0x89B1900F; 0xC21934C0; 0x425AD0F5; 0xE2201D3E; 0xF781FBF6; 0x61E0191D; 0x72100433; 0x5B3E5491; 0x186A3999; 0x95E49235; 0x6DF058E6];
   [0x34559E42; 0x82D37E02; 0xA0E7F1D4; 0x4AE4A8AC; 0xB34AAED2; 0x9941A84C; 0x5484ECE0; 0x4DA92D32; 0xEB7C740E; 0x6F1FB58C; 0x4965B6CC; 0xEC6FAE86; 0x1CEFF73B; 0x179E8480; 0x72724658; 0x58ED2BB3]];
  [[0xAC30848E; 0xD6FA5A23; 0x53705571; 0xFE58E2D3; 0x47EF14E7; 0x43368F72; 0x694E6BB3; 0x7DDA0F48; 0xE9B7CEF9; 0xDFA9BF9; 0x9803203F; 0xA3BD4B23; 0xAA1B561C; 0x3F0EAF0D; 0x11C56C8F; 0x6E8678F3];
   [0xB4272D39; 0x4E574AFB; 0x26A589E0; 0xDD9622A9; 0x18E2B544; 0xCF41D028; 0x479B717E; 0x7FE65A44; 0xABDE58B1; 0x38D34C1F; 0x20E02EE5; 0x4A8B1A49; 0x26D927F1; 0x6C2C5AF1; 0xCE4D534A; 0x8E02884]];
  [[0x3C9034CE; 0xF4747773; 0xA8CDA587; 0x92B208B8; 0xA8A5D6F6; 0xDDB5A865; 0x9FFBBCA; 0xE3C3150E; 0x71780DEE; 0x120720D6; 0x1CB5E7E7; 0x6977608D; 0xDBE5697A; 0x52261203; 0x184E7B19; 0x1C88E9C4];
   [0x9927BFC6; 0x6BE6C190; 0xF431A9E8; 0xA1452123; 0xB949ED5C; 0x62BC5BF4; 0x2BCF732C; 0xD57633C0; 0xAE4563A; 0xA3723F7C; 0x31958EA; 0x5449AFCE; 0xA6580D6F; 0xE3BF9985; 0x6B471AA6; 0x34B0D320]];
  [[0x46BF771F; 0xEE28E9FC; 0xF23B38E6; 0xDCD3C06E; 0x8D62D86B; 0x894E7864; 0xC0209FC3; 0xF226C4DA; 0x6EC4D3B1; 0xEEB85A81; 0x3ABEC007; 0x837F8A03; 0x18C1A3EA; 0x622C40BC; 0x279C341A; 0x49A59CB2];
   [0xD38DC85B; 0xC3833ABA; 0x3E303976; 0xC512B721; 0xA43BA4BF; 0x80CB1ADF; 0x8FAD6957; 0x6C8A1574; 0xA0DC03A1; 0xB5305AE5; 0xA78753F7; 0xA63FE0FC; 0x7D4EB934; 0x81C2BCE1; 0xAD66F6FB; 0x4ED73812]];
  [[0xCA09A5D2; 0xAC25AB81; 0xB6EE3D0D; 0x1E000EFC; 0x148738A5; 0x7EDA899F; 0x4ABD3CA0; 0xEE70DFB4; 0x371F70BD; 0xA9F18AF3; 0x30E796BC; 0xA2D64FE4; 0x38943DC4; 0x77E42190; 0x6EB5CFC; 0x35AEB8A2];
   [0xDA26DB57; 0x95D36C2E; 0x3A546E88; 0xEEF40F18; 0xE5D07294; 0xAD4D846B; 0x95158FF2; 0x80BE6BA8; 0xC85F84EA; 0xC15AC73F; 0x2044951E; 0xBAFC3952; 0xA14C51AE; 0xEA750E8D; 0x524FC6FA; 0x1817F004]];
  [[0x14555CD7; 0x9C835DB3; 0x299196F6; 0x76A92FC0; 0x6618F1A6; 0x35CDF54D; 0xB3260002; 0x4B77E5A0; 0xA837BDB2; 0x321C2EAF; 0xD5D4A743; 0x559AE831; 0xE116E5CC; 0xEB18D7F; 0x1945E60E; 0x3FE7D292];
   [0x649D5551; 0x4CA61AEF; 0x95257CC3; 0x7C3CFBFF; 0x66A5D03B; 0x8AF04A74; 0xFC3B143A; 0xA0C95ADE; 0xA61B0143; 0x515258CE; 0x43A147BD; 0xF1959D4B; 0x43B761E4; 0xAAE3EF4C; 0xBB8BEA3A; 0x731F5D9E]];
  [[0x6283C8DA; 0x483D5F55; 0xC067AF22; 0xCE48F6F; 0xCFB3FEF8; 0xBA767432; 0x463510B2; 0x1AD7F214; 0x7D448527; 0xDCFDB1A7; 0x119BA281; 0x3EEFAEDD; 0x7B6597AB; 0x9D5F2546; 0xB8AE2AC1; 0x3515E65];
   [0xA768A2E9; 0x91A17476; 0x1C0B8745; 0x921B21AA; 0xD1636FB2; 0xE1B0AB68; 0xA933BC5; 0x35AF62C1; 0x6CCA56F8; 0x24432C7B; 0xE142C3D6; 0x88976C8F; 0xC0EEC621; 0x1BAC1E5D; 0x7EB64467; 0x2760B03A]];
  [[0x535D9B1E; 0xCEFCAB97; 0xEFC85889; 0x2DDF1964; 0x67FC56FE; 0x62276E02; 0x9EA27125; 0xD33D4E1F; 0x3EAB0BFD; 0xD11F0726; 0xB4E5A283; 0xCEF5BD00; 0xA5ECFF20; 0x107CB2FB; 0x85321266; 0x1D110BEC];
   [0xB9C05938; 0x5CD67BCA; 0xEC9ED6BA; 0x23B2FD6; 0xC44D68BE; 0x473FEF71; 0x24006876; 0x6DB457A1; 0x5979901A; 0xA56C47E3; 0x6B786D; 0x971F5FE7; 0x8E3630E4; 0xD894B21C; 0xFF0AD8ED; 0x56B8610D]];
  [[0x6A9AD8B6; 0xDC574806; 0xA33AA074; 0x39B1553A; 0x71EF2A51; 0x55233DAA; 0xCCC11692; 0x6186F6F0; 0x51E7F2B8; 0x949F7A8D; 0xBF2FF9B7; 0x9ED94F29; 0x3B90382D; 0x54ED16DA; 0x4014335A; 0x65D0975];
   [0x7B737144; 0x95DA36F2; 0xDDD9C1E0; 0xE0A7C458; 0x69B64234; 0xDCE291C; 0x8689DEF3; 0xF943B727; 0x24F80B28; 0x1CB8375C; 0x8902EC28; 0x60EFAA29; 0x673F34AF; 0x36BD90F; 0x2B1A208; 0x687B36FB]];
  [[0xC031EE5; 0x1704A598; 0x8288EC60; 0x325E6096; 0x16EFC6F9; 0x588F58A1; 0x2C520574; 0xA1EA547F; 0x7FD9F40A; 0x2633CB8F; 0x3AA1C0DD; 0x736D8CFA; 0x92B3300E; 0x189E74DA; 0x92172793; 0x6C92BE18];
   [0xC6E25307; 0x3B67DADF; 0xCCF961F7; 0x170BF45C; 0xB2C0629E; 0xF07F48B5; 0x974F7169; 0xACB40994; 0x871177C5; 0x29AD746C; 0xE3AE7857; 0x1AD449E2; 0xAE9BE21F; 0xAFB63CB9; 0xB08FAEEC; 0xE6C676C]];
  [[0x60CABC21; 0xA60E0D9F; 0x8BA79177; 0xBDFC43CF; 0x7BEECCF8; 0x8362D84B; 0x29F8FBE4; 0xCC9E6BA; 0x4801BF01; 0xCA90958A; 0xF13C6356; 0xCB84005E; 0x90AE5AB9; 0x9CA6408B; 0xE668357C; 0x293582F2];
   [0xFFCEB4F6; 0xAA3A680A; 0xF18508A5; 0x19CE2D54; 0xF430A62C; 0x74027BA5; 0xDCB846D8; 0x7248CB8E; 0x3D3779E2; 0x608F15E8; 0x52BB6633; 0x21B8A438; 0xA95BDE4F; 0x64B4C82E; 0xCA13D8B1; 0x75169F73]];
  [[0x7435D441; 0xDC6C53C9; 0x630885A0; 0x621030CD; 0x4CA9BBE8; 0x9F761C57; 0x89453166; 0x3CBD7B51; 0x53EED18D; 0xE80014E4; 0xFD48C287; 0xAB31FE34; 0xB1F2C06; 0xB908AA72; 0xDA592359; 0x2A849D2E];
   [0x9B7DA75A; 0x688DAA1B; 0x42D4659B; 0x779B963B; 0xDA7F5E1; 0x44BCCBE1; 0xE283A19; 0x96F4FE4E; 0xF532628; 0x239F78; 0xB2BD3F1E; 0xA8E1A47F; 0x49D504AD; 0x23D8F150; 0xA818FB1A; 0x36F4D7AD]]];
 [[[0x6FA6665A; 0xED7AAC76; 0xCD7ABC00; 0x593FD44F; 0xE5940EBE; 0xB70DAA5D; 0xE6CEB5B5; 0xBBD56469; 0x4EC6EC19; 0x17B54A10; 0xF288553F; 0x2411F294; 0x81534194; 0x1082082; 0x98F85E1E; 0x3CFFCF3F];
   [0x7E62220; 0xB82B0FD; 0x50F91B0E; 0x99B5CC19; 0x3AE5C675; 0x2C60F938; 0xF42E3EEA; 0x6A25B099; 0x329D208C; 0x498948A8; 0x6A343691; 0x45226E62; 0x8B8E9C2D; 0x53643F6; 0x4A938DA8; 0x56E1E564]];
  [[0x2242A19C; 0x144DA678; 0xC072E8A2; 0x860A384; 0x318A08B7; 0xD782A875; 0x8D318C54; 0xAC99802E; 0x307DA17A; 0x329437A2; 0x6696DC0F; 0x35656A12; 0xE2152828; 0xC5A9914A; 0x841C814B; 0x3BCBD2FC];
   [0x590C6FC2; 0x7D2FCF55; 0x6197DABE; 0xCCCF4315; 0xE2EB665; 0xF4701C36; 0xE9400A11; 0x9D4F5A7C; 0x2F49F529; 0x815C6218; 0xB015260A; 0x264A9BEF; 0x177E94AB; 0x279A03B8; 0xF6E2518A; 0x115481E6]];
  [[0xBB65B1C1; 0x2FE0C370; 0xAABD8550; 0x620FC63E; 0x9660303A; 0xA6EDA03F; 0x802B6899; 0xC15FD5C5; 0x30FD19A1; 0x6DFBBCA5; 0xC5394AAB; 0x2BC0DDA1; 0xCF41B04; 0xFC619634; 0x7DBCB198; 0x64DDF00E];
   [0x92602D0B; 0x78B289F6; 0xE4A24732; 0x123CC6A5; 0x70913278; 0x5F2DB53B; 0xC27EAC92; 0xD55AE856; 0x85696BA; 0xCC82E112; 0x67F01774; 0xA421C179; 0xE602BAF7; 0x7DEEF7FD; 0x35E94ADA; 0xA730B3]];
  [[0x1DAC6F8B; 0x586D8DC8; 0x18F1FE48; 0x89A56AC6; 0xF2A8BFA5; 0x51231A77; 0xCA562E8C; 0xD36BE5FE; 0x9A6268D9; 0x5DFE328F; 0x781FA0B4; 0x3110144C; 0x7ACBE702; 0x6A18A190; 0xD70C4B5F; 0x68F941C2];
   [0xA19654D; 0xCE3C1DE3; 0x49AD2799; 0xCE96C000; 0x6E913EE; 0x9AD7B0F3; 0x472A1C37; 0x625C4FC1; 0x967BBD4D; 0x1E25E3AC; 0x2042C162; 0xE516CD88; 0xC3197E40; 0x1483A10E; 0x84E5FAED; 0x60815A8A]];
  [[0xD1313B07; 0x3413EEA8; 0x49BC14B0; 0x4B6C2CCF; 0xC33BE839; 0x56C78C84; 0xDC481C6; 0x980F4F; 0x5E96BAE7; 0xA34D712C; 0xEB0574F5; 0xEA386C4A; 0x6BB4DC04; 0x834334AB; 0x47404A42; 0x140F2209];
   [0xCC6F8D14; 0x970B7DE3; 0xCCD6A840; 0x7C9A38E9; 0xA63FAF90; 0x7C1C4638; 0x1F10834E; 0x36AFEA84; 0x15765F2A; 0xA9AA4A15; 0xD9240C98; 0xB20B2249; 0xD03ABC25; 0x20116417; 0x37A8893D; 0x69B34300]];
  [[0x1021F8CA; 0x710FB075; 0x64008516; 0xF90919DD; 0x2CCC8FFC; 0xB0ED3172; 0x78988C41; 0xC6ADC85B; 0xA1B81A9; 0x1CDE6A9D; 0xC80CAC9E; 0x9ABC5114; 0x43A7B1A7; 0x877E6082; 0x51BD9782; 0xCA1F0D1];
   [0x6E6AACB7; 0xFBB662BB; 0x96CD1A74; 0xDCAB0D77; 0xDC56300E; 0x603F2717; 0xFE92F7E4; 0x327251B0; 0x7031603A; 0x7E0CBED; 0xD04C19FD; 0xA0F296EC; 0xB8C5E0AB; 0x3296BF9B; 0x49E5E7B6; 0x41E72DDB]];
  [[0xCE99C0C5; 0x47E9562C; 0xBA5372BF; 0x4C5FD161; 0x5C808664; 0x5D1B7B1; 0x539F8180; 0x9DBE76B6; 0xDDBD7BC3; 0x646C3DDF; 0x97376739; 0x6032B96; 0x696BDA3D; 0xB71DD971; 0x1D340FD0; 0x75061EB8];
   [0xE6A7DCA5; 0x6FD064FD; 0x8DB01DE3; 0x79A31650; 0xF6483911; 0xB1B65A8D; 0xA9DE2C37; 0xAF2BBE1C; 0x85CB42C5; 0x6B663C9E; 0xB583E78E; 0x464FEDFE; 0xFFDF93CB; 0x393C00F8; 0x9F96CF15; 0x61CC9A6D]];
  [[0xCA774807; 0x40EDC986; 0x4C334C01; 0x8B2A531C; 0xCEB21FD6; 0x72D378C4; 0x3833D841; 0x169C54E4; 0x82FE513F; 0xCC830E8E; 0xABF34DD7; 0xBDC4ECD7; 0xAEDD9FF5; 0xB5349484; 0xA404055B; 0x12D7ADB3];
   [0x637B7C24; 0x88027C00; 0xC0EB319D; 0x755587A6; 0x2027178A; 0x3F24E32F; 0xA4FE8F8D; 0xB912054E; 0x5C9A68D6; 0x6AACA911; 0x235CF842; 0x14772328; 0xC0175F8; 0x6D3020A8; 0x3E0F7418; 0x587768A7]];
  [[0x1154C74A; 0x57E3A1F9; 0xB85FB8E8; 0x80157FF5; 0xEE5DEFEC; 0xBEDB658D; 0x67E9A0E; 0x65C0AA98; 0x229A5289; 0xAF9A507A; 0xF954DD94; 0x6A13ACF0; 0x53DC4C19; 0xB5F3A18D; 0x85AF938F; 0x6AEB3F5];
   [0x8C9BB087; 0x503F0622; 0xE3FEA015; 0xEA19AC85; 0x403FB8FC; 0xE446CD70; 0xDF5B398F; 0x1BDDC810; 0xAD2CAEC6; 0xCAF818F; 0x807AB004; 0x6983E52; 0x79428650; 0xA6B33E3C; 0x231BAE71; 0x182E3D46]];
  [[0xB309DC4B; 0xAF54B735; 0x805890F1; 0x494F7441; 0xF87271F6; 0x3CCD5F0C; 0x7638102B; 0x2914763B; 0xFD258079; 0x3CA50D01; 0x77CDD6A9; 0x6D9A3D47; 0x1F4A05CE; 0xD81373B8; 0xCCD443ED; 0x16B258DB];
   [0xA3805FEE; 0xC9D4009F; 0x225FA57D; 0x5EC56730; 0xAC17E4C0; 0x4A51A79B; 0xE7750942; 0xB389FBA3; 0x1AB7E8BE; 0x2B137D6E; 0xD8C26EFE; 0x3953702A; 0xB79F2828; 0x6D86ED3E; 0x6D6A62C0; 0x36ECEEE8]];
  [[0x6B8B9B02; 0xF97E85FB; 0xC6F128F6; 0x3319D570; 0xB4CA56DD; 0xDAB74E23; 0x81FCBB47; 0x50CA71EF; 0xAAD7F910; 0xBFC19F2E; 0xDB3772F4; 0x96650F9B; 0xB6F26494; 0x5823F134; 0xCBFBD2E3; 0x1B899B3E];
   [0xF6CF8F8A; 0xD1589C42; 0x34DDB625; 0x3168AAF5; 0x72ABDA08; 0x4C730535; 0xF82913C3; 0x8B1C24C7; 0x239FBCD3; 0xD7D80F27; 0x6B7C205D; 0xB18B4F05; 0xD92056A6; 0x2864763F; 0xBCDB3022; 0xB3DDC7B]];
  [[0x207F772B; 0x1AB037D6; 0x88767BFA; 0xF050DD34; 0x79ABF05E; 0xFEF182FF; 0x4B25067B; 0xAAFCFD0F; 0x34E155B0; 0x1EB76235; 0x65CEF7A6; 0xA3B921C9; 0xD9216B0A; 0x6CBD50B3; 0x9E578A9A; 0x3E298A71];
   [0x1CCE9059; 0xC0DEE851; 0xEBA49DE2; 0x397344BB; 0xB08513DE; 0x45A60A85; 0xF0D07F9B; 0x55D314F9; 0x12D12611; 0xBF6D4D51; 0x30A7E8DE; 0x49F9BCF1; 0x5435D109; 0xDB0A9058; 0xF706CF2; 0x4DE5C43F]];
  [[0x70B6D62B; 0x7FF298D6; 0xE67688D3; 0xB2FF0AD4; 0x805652BD; 0x5E63A6B2; 0xAD74922A; 0x32D81219; 0xA9CCCC31; 0x77D2E3A3; 0x2CF2EEE0; 0x31D571B; 0x4FC7C9EA; 0x471653BD; 0xAFC2A13; 0x2322CC68];
   [0x8C6D70E; 0x3D152EFF; 0xBEC5DBD9; 0xBEC9CBCF; 0x6496310F; 0x41BD4962; 0xB1A88E6B; 0xD23FC983; 0x5EF464E2; 0x5B622EDC; 0xFFCC97BB; 0xC6500ADD; 0xAA783FF4; 0xF2CCD3EF; 0x7CE05CC1; 0x51AD3604]];
  [[0x24C48E44; 0x4796EE83; 0xBBA7BC62; 0xB4D448B0; 0x1C32B713; 0x2F356E4A; 0x32050781; 0x980D6DCA; 0xB5F6C099; 0xB52B1826; 0xA144D7F5; 0x1F7D68D; 0xA23999CB; 0x9ABC596; 0x66246640; 0x17C069DD];
   [0x1F7E37A6; 0xB7D7F96C; 0xE46AAD16; 0x57E198C0; 0xD1C0DF8C; 0xB2088DF9; 0x3FDEC190; 0xCC38EE4; 0xFB2D9B68; 0x68DD1FC4; 0xAD1D73C0; 0xAD94674; 0x1B92B955; 0x9529C7DF; 0xD141F7C; 0x6711E361]];
  [[0x3B87C175; 0x1B1A5159; 0x29FF8F9; 0x7F62A639; 0xC69ADEFB; 0xA2E37638; 0x58E309A0; 0x3AC773C6; 0x22EFD710; 0x9E7A85FD; 0xA60E5275; 0xD29E2F3D; 0x1163C9ED; 0xC4734B9B; 0x9CBEEE57; 0x9D3204A];
   [0xB8A97AA; 0xB2339F8D; 0x7AE97B4D; 0xC19C67A6; 0x65425033; 0x8C0E823F; 0x8B186D7F; 0x447F972A; 0x32A6C164; 0x43385E29; 0xE9E78569; 0x95049508; 0xA074B68F; 0x2AF8C598; 0x5CD5E2F7; 0x18AC97B8]];
  [[0x1DEB288; 0xFAE61589; 0x885B8EA2; 0x33F684F3; 0xCFA425B5; 0x89A90618; 0xFBBF5B15; 0x8F5D3C2E; 0xC2B6CB28; 0x379803C6; 0x990CE2DB; 0xFE683EA3; 0x7B6E4E0C; 0xC1B3C21F; 0xEA3513DC; 0x6F152C2E];
   [0x9AB792CA; 0x23505338; 0x282A67AF; 0xC64C7F27; 0x6498B24F; 0x6FCBDE65; 0xA1612A06; 0x6FB7F7FC; 0x45C74402; 0xFD575B9F; 0xA709A516; 0x6EAD0805; 0xD4EF066B; 0xCA6208AE; 0x93954E65; 0x23880ECE]]];
 [[[0x7FB1977A; 0x2B13B8B8; 0x21B7871A; 0xEA6510AD; 0x882483C7; 0xDBDCB0E8; 0x4C379245; 0x5E2E9664; 0xEBAF2C56; 0x581D4429; 0xCA79FCCF; 0xA929CBB0; 0x2009377F; 0xE74D3D66; 0x610CC0D1; 0x664661A5];
   [0x570237A; 0x1F778C19; 0x1769A370; 0x905AEB86; 0xD6C06AEE; 0xF51B013B; 0x43EFB668; 0xDF0D8905; 0x11E4D5DA; 0xDD082BC3; 0xD7BE0C1D; 0x58AA1283; 0x941E9230; 0x97F20D6B; 0x8BB614AD; 0x486C960C]];
  [[0x4CE9052B; 0xB573B94; 0xD78F10E5; 0x88B5C4CB; 0x77DCA0EB; 0xB131989B; 0x81E63C3B; 0x7F405D80; 0x3818CA2D; 0xCC31F185; 0xFE177EA8; 0x42F386A2; 0x9D888B2A; 0x1B7DD56E; 0xC8E873E8; 0x3A6D84D3];
   [0x7E3FBCD6; 0xBCFEF877; 0xB36F3F68; 0x5DA67B53; 0x5827FE5A; 0xE840229A; 0xB989407B; 0x17689956; 0xAFE27325; 0xAD6E3F87; 0xDB1E1A3E; 0x62027C70; 0x7EBB4747; 0x86A2C909; 0x4A919D6B; 0x47ADC4CC]];
  [[0xA4CA0F15; 0x92381565; 0xC08705DB; 0x67FB0C76; 0x3BA6D54; 0x661DA004; 0x77C5C4F7; 0xF875EF24; 0x4157A282; 0x769B11C; 0xFAF534C6; 0x8ADB10AC; 0x9CCD6AB2; 0x312147B; 0xD67A443F; 0x75390C00];
   [0x21A1047C; 0xF5A29A0; 0x83A146B8; 0xCABB96FB; 0x2A3F2F48; 0x1375356A; 0x83C57DB4; 0xDEAB7544; 0xF5AFA2F1; 0x1AB71412; 0x73B58749; 0x21D94B48; 0xFF2F369A; 0xBA87E6D5; 0xDBAE0E08; 0x4B3B90B6]];
  [[0x9116F02B; 0xB8648E3F; 0xCEF02B4F; 0xA5E5A03B; 0xA70F456A; 0x21EB9835; 0xC8A7C423; 0x44865319; 0xBCD6C0AD; 0x57DB3941; 0x7D371806; 0x20D97A3A; 0xF8A3D51; 0xBE61AA4F; 0x13CB7D2B; 0x7A6E0BBA];
   [0xEEA5D6FB; 0xB3B98673; 0x87B03BAC; 0x534EB45F; 0xA9508557; 0x6CEB244F; 0xF209CC15; 0xA47FBAC7; 0x1FC65C19; 0x41EBF99D; 0x7341650F; 0xD1477A86; 0xB361E0F8; 0xC4E6EB8E; 0xD2B3D548; 0x68FAF82E]];
  [[0xF92B039B; 0xB9CCA467; 0xE6F2A2B; 0x9F7180AF; 0xADA011F8; 0xC3084870; 0x882D7A38; 0xC814D1DC; 0xD51C1D14; 0x3A145072; 0xD70F8B08; 0x595AC55B; 0x71EFED45; 0x67308D05; 0x22DBFA33; 0x2C660B98];
   [0xAF8F2980; 0xC8EB4EEC; 0x6145AB09; 0xBC8F2D72; 0xC22D5E84; 0x1A0A9D53; 0x9ECD643E; 0x8E646008; 0xB541E2D8; 0x6C704F66; 0x31995198; 0xEED597AA; 0x619126C2; 0xB9032FA3; 0xB0A08F01; 0xCA4AEAB]];
  [[0xDB421144; 0xF48A003D; 0x9885A445; 0x4A7FA592; 0x8E8FA3DB; 0x40AA1C2; 0x91A15B11; 0xCE94D874; 0xF0E875B7; 0x79490F6D; 0x70318E86; 0x743A531D; 0xC4630CD1; 0xE88CA2AF; 0xF5C5D4AD; 0x6E2FE529];
   [0xFE062D25; 0x619A4F46; 0xBD747C4F; 0xCE1B5FAD; 0x3D512728; 0x3C428366; 0x71AFAEC7; 0x7FE87908; 0x3DB8315E; 0xB7006310; 0x7195E9B1; 0x97A0397B; 0x84870127; 0x51EB939F; 0x517A32EE; 0x768A3CD7]];
  [[0x257E424F; 0x25234FFA; 0xAD164952; 0x5D80ACE8; 0x7B4C0F5D; 0x4B15F386; 0xF95006BD; 0x71963894; 0x69963C75; 0x4781B778; 0xFD339850; 0xDECD94FB; 0x11A9D79C; 0x1533454E; 0x92BFCA33; 0x3B17EC40];
   [0x12A30834; 0x58D0672A; 0x3E66F5D6; 0x807B665B; 0xB164B077; 0xCD732AE8; 0xF1F732BE; 0xED26F82E; 0x75A7B899; 0x4E65CB2E; 0x3C72F22E; 0x2EA2BE74; 0x4068CEFE; 0x60CD26F6; 0x1FEBEFAA; 0x63734AC0]];
  [[0xE7203401; 0x290E6008; 0xA67A0F47; 0x3497CEA1; 0x641F5B86; 0xB079862C; 0x7A0D51D1; 0xDF3CB483; 0xBC8D25B7; 0x4CC0DCD1; 0xBDFAC20F; 0x1034F5FF; 0x6881DBFB; 0xC5896F31; 0x68A39778; 0x2C6BD4A1];
   [0xF5CEDBE3; 0x6FAB7060; 0xF7141245; 0xC51F3245; 0xC3EF1EEF; 0xA3FFA5A4; 0x206172D5; 0x2FC2A0C7; 0x94E55D7; 0x6616FCFF; 0x22EA071F; 0xC3F309FF; 0xDD267FAA; 0x685AADB; 0x6BC770C0; 0xAE3722A]];
  [[0xE67270FB; 0x7B11DD6A; 0x16905D; 0x128A351; 0xBFE007A0; 0x9CE64782; 0x7714E091; 0x7324986D; 0x269E4410; 0x3E796B16; 0x9A97AD36; 0x707A148C; 0x87D5B9AC; 0xBE29A340; 0xF0D882B4; 0x2F92E67E];
   [0x57636C75; 0xB9F06642; 0xFB7F18EB; 0xA803EF99; 0x1E9BF04A; 0x4B8A1D79; 0x62068D6; 0x4C43526D; 0x800F0FF9; 0xCA59CFF0; 0xE4389A8E; 0x8BE857C3; 0x5383EDE8; 0x5042CF56; 0xE02F40E; 0x6791C9A]];
  [[0xF5D076B4; 0x18A74ACE; 0xE41EC2CF; 0x50C2161; 0x484F2CD0; 0xECC5823D; 0xAA7C332A; 0x63B7B1BD; 0xABEE9CD9; 0xAC6A274D; 0x7B7A7DB1; 0xEAC874F8; 0x734BEA81; 0xFA4B8E8; 0x243D05BA; 0x1ADA0B97];
   [0x822C8BC9; 0x724C084F; 0xA117425F; 0xAE697A1B; 0x2CD06676; 0x39172804; 0x23213E25; 0x87B4F920; 0xFC373ED4; 0xCBA8C7A1; 0xD2F10FD2; 0xDAC6B96B; 0xFD265CFF; 0xCC175798; 0xB731090A; 0x1631D89C]];
  [[0x6D19CB56; 0xB639A208; 0x42A88733; 0x78F0F353; 0xE0323B20; 0xC6BC527B; 0x6DE64954; 0x3406CEDD; 0xBAF8A735; 0xAA89168B; 0x2D7B04AB; 0x7F68CEA0; 0x5EEC36D4; 0x6EAD81B2; 0xBBCE0784; 0x1C41724E];
   [0x831BEE83; 0xDA5383AD; 0xF3C29716; 0xA8B7BEE3; 0x35ACA35B; 0x5B7E0540; 0xB8F21324; 0x8F006F3F; 0xA7B700CB; 0x915849F8; 0xA455A08B; 0x77C5B34D; 0xD6D73C0B; 0x13BA7C32; 0x6936AC88; 0x65D599C9]];
  [[0x4DA5FFF8; 0xF636CFE8; 0xD1E6E947; 0xE5FD754E; 0x388A72F1; 0x8F960362; 0x381C1C38; 0x95B55A07; 0x1DF2F860; 0x31E1D02D; 0x12EA25F5; 0xC03243C7; 0xC28C0062; 0x5FD87B58; 0x9D950661; 0x5769E94D];
   [0x6509E6E7; 0xF88C7CCF; 0xD3971A21; 0x8A021BAB; 0x9B284C2F; 0x2655B4AA; 0xC7050955; 0xC3E14580; 0x90E60DDF; 0x63B332E2; 0xF1CD1B51; 0x6AB86D32; 0x13BC748E; 0x9896AC11; 0x40FC1EBC; 0x516D4D4A]];
  [[0x8F7B417D; 0xC27DBB0A; 0x770CF92D; 0xEE24827A; 0x5F9A2A6B; 0x22E08B64; 0xE10F76A1; 0xAE739513; 0xFF544277; 0xEC6E2D9D; 0x740DB83A; 0x470C22B7; 0xEE4F1E82; 0x643B7953; 0x5556FB59; 0x66409497];
   [0x728114E6; 0x4C15C4CB; 0x1F29EF7F; 0xEFF1BB9F; 0x259562ED; 0x8E00B92A; 0x9838D769; 0xF28B146C; 0x206622CC; 0x3D7C8FFF; 0x86457FAD; 0xD521181D; 0x9D9A3085; 0xBF56F663; 0xA24B415A; 0x11BA1FED]];
  [[0x35701C5; 0x149597F7; 0x6361CC7E; 0x55B1C4B; 0xC221AF72; 0x10DF1572; 0xC3D3A167; 0x6941B1E9; 0x38D00AF6; 0x29985CAB; 0x19E385F7; 0xDD9B8391; 0xF2E81932; 0x65268E33; 0x5C07CEF9; 0x4FC87273];
   [0xEA012B70; 0xE1644429; 0x4BDF6ACE; 0x639FA874; 0xF65480CF; 0x7BAE6AFF; 0x606EFF3A; 0xB9CA15AF; 0xC04C5263; 0x10F5918A; 0xED3D0F98; 0x50F27E68; 0x3134D7FA; 0x647C1AD3; 0xF869EEFB; 0x8EF017D]];
  [[0xF229A34B; 0xD474B5FD; 0x29E0A164; 0x3819D4E; 0x8D0910B9; 0xD24139A; 0x9C2D8E8D; 0xB4F45C8D; 0x2F21718A; 0x10E4BEA2; 0x63DA06E8; 0xD3D7ECDE; 0xF148B0ED; 0xB2AAB06A; 0xAABD0F7A; 0x630152B1];
   [0x3B1563B4; 0xCF4D05C2; 0x6F355349; 0xBFA58B4E; 0x4D1A769; 0x2FA4A29C; 0x1AEDA992; 0xF4E15F9D; 0x877819C9; 0xFDABCEB; 0xC3EDB0A3; 0x5EDFCC1C; 0xD1DBCF40; 0x76625DC7; 0x2A7BD819; 0x3E558CF0]];
  [[0x7A883A0; 0x7C7924F; 0x10EA080; 0x18484807; 0xB6B2B992; 0xDF8602FE; 0xAA03AA11; 0x38A2EFDC; 0x19B2BB14; 0x60B00311; 0x15E28BF3; 0x9E12E7FE; 0xBB0271CD; 0x2AC0917B; 0x1558FAAD; 0x24126EAE];
   [0x19170EDF; 0x2EB303EF; 0xF5779AD2; 0x6945946B; 0x31B7DF96; 0xE4E5635A; 0xD6AC3252; 0x2B371D13; 0x8116C539; 0x38E78198; 0x6C89FAF6; 0x76DF4A2C; 0x6F233984; 0xDFB6755D; 0xD382985D; 0xCBF63F6]]];
 [[[0x56B39FA7; 0x936D53BC; 0x511D5744; 0x751274EC; 0xF29D41C2; 0xDAF4432A; 0x14F8954; 0x717A68C1; 0x736F4024; 0x6D5D3F05; 0x12D037D9; 0x52E785F8; 0x2CA06C4; 0xC04CBA19; 0x9259A368; 0x43207806];
   [0x2BE51135; 0x1211482B; 0xE4D32066; 0x5B473F6E; 0x4ADE99FC; 0x91991C8E; 0x4865136B; 0x124378E8; 0xBFFFC5CC; 0xAF791646; 0x36D38141; 0xB7DBA115; 0x5BD595B7; 0xE879426; 0xCACC032E; 0x39B7D642]];
  [[0xD756CE1D; 0x76ACE7C8; 0xF8A89F09; 0x4BEC8290; 0x690139DA; 0xE8FE848C; 0x6A541656; 0x8C5CB5CC; 0xA79F1A2B; 0x6127BB25; 0xE17D0549; 0x955551CC; 0x58E7C3FD; 0x648A32E9; 0xA60D449C; 0x366035A5];
   [0x67A48368; 0xA4CF0CCB; 0xBE344234; 0xCF7D74F7; 0x8CFFCCCE; 0x6DFFB4; 0xFB55072B; 0xBBC66664; 0x5EFD8AF6; 0xAA51DDD1; 0x6F004C47; 0x88D0CFD4; 0xD97BBB13; 0xD18C2DBF; 0x1E7E68D2; 0x5E598200]];
  [[0x466B58D2; 0xFF9FB488; 0xA8041078; 0x153A751D; 0xD5817ADF; 0xD7E96CB3; 0x511775D8; 0x56A7A135; 0x77E5DE7A; 0xB48FB406; 0x997A6721; 0x4DE670FB; 0x86EFBADA; 0x446019B5; 0xFA535082; 0x403CC005];
   [0xC2FA986D; 0xF85BFEE2; 0xE0C320B; 0xF2B77B88; 0x8FE98FA0; 0xAEFE1972; 0xE8DB8196; 0x291FD9C7; 0xF579D9D0; 0x7C3AB36D; 0x764622DD; 0x7F202BEF; 0x804CEBFF; 0xDFD4DE34; 0x683B7281; 0x25CA634E]];
  [[0xEEB585DE; 0x2E3BCCC2; 0x9C7AB9D7; 0x728BAD6D; 0x5C38CDF1; 0xE298BC83; 0xB610385E; 0xD88D423; 0x71744E3A; 0x5710F235; 0x9681CFF4; 0xD9312CC9; 0xF3D5B3BC; 0x1C46AB4A; 0xE2631926; 0x48BE540B];
   [0x5CCDF14D; 0xBFAB35A1; 0xD778F586; 0x16C3216C; 0x4128BB2; 0x2A604800; 0xA7D2E1AA; 0x5505889; 0x1DE7C7B4; 0xBE8B94BE; 0x5BB8DEC; 0x53E72EBF; 0x2870C597; 0x1A38C5DA; 0xDD36B123; 0x76F0E77B]];
  [[0x83B68DC3; 0xC13D1E8A; 0xA93D168B; 0x5F7291EF; 0xCA88F0F6; 0xD1C56274; 0x868E3651; 0x58EDFC8C; 0x70692949; 0x9D8F42AF; 0x81B6E052; 0x65903C33; 0x262E1F70; 0xAD71B078; 0xC40DC22F; 0x7A60D3BB];
   [0xBA1FC54F; 0x6B64F0DB; 0x81F84A0B; 0x6DDB148C; 0x53955B40; 0xCFBD9662; 0x9B35DB3B; 0x67D49D07; 0xA8EF7DB2; 0x6ED336DD; 0x3F2A331; 0x7AAF4B8A; 0x5C3873CA; 0x9751DBE1; 0x8193A7ED; 0x78479B10]];
  [[0x487DB2BF; 0xB05EDD9A; 0x58F7E778; 0xF9051591; 0xDC23CBF4; 0xBD643BE6; 0xC1EA2427; 0xBCE094EC; 0x4EB1BD95; 0x2A3F3B4B; 0x6F5E1428; 0xBA8FC9DC; 0x9F053047; 0x7DC28C94; 0xC553DC91; 0x58117A0C];
   [0xD4A6137C; 0x4888B1E8; 0xF8DCBD03; 0x5DC05984; 0xD2F55576; 0xAE2C8657; 0xFC4DA255; 0x54721BEF; 0x802C9EBF; 0xA326693; 0x91186DF0; 0xA33294AA; 0xB822390D; 0x716BD76F; 0x7C4AA61B; 0x7F023C0B]];
  [[0x46A8017; 0x6506DA35; 0xF785115E; 0x23083C16; 0x24051BBD; 0x78581137; 0x5088EBFE; 0xCD36D48F; 0x5E542ACC; 0x23F7F0A3; 0x7D015B1E; 0x72018795; 0x38D2D742; 0xA69E68D4; 0x23B5C20; 0x36808A3B];
   [0x1FEAB6D8; 0x660D03D6; 0x58D53E94; 0x77A1E185; 0x74024E57; 0x67425F4E; 0xCC26788; 0x3B916008; 0xE3643998; 0xC7D287E; 0x27B3B31F; 0xB0D98DD1; 0xBB980CFC; 0xBA621971; 0x404A2DE1; 0x77591087]];
  [[0xC15C3D38; 0xB768C63D; 0x54DBA325; 0x281AEC4D; 0x50C9B1F3; 0xBB51D2E4; 0xE7268C94; 0x86BB9BB; 0xC7ED37A; 0x9E0AF351; 0x39145AA3; 0xDBC88528; 0xB1AB786C; 0xA70373BE; 0xA73090A; 0x273AC4D9];
   [0xC280E9F5; 0xD618DB6A; 0xA9685A4B; 0x9D874643; 0x8A9C1951; 0x7EF799B4; 0xFFBA36BB; 0xAEAE400C; 0x145DC10A; 0x889119CB; 0x1BF7AE53; 0x8B052FF; 0xE3F04B93; 0xDEF76EC0; 0x6DC2CC5; 0x35A13BB2]];
  [[0x613C9FD0; 0x97C54E1C; 0x42581F50; 0x7D4BEB41; 0x5BCA7CAF; 0x9401F44A; 0x36115D18; 0x5FD7E0B0; 0xCD0DCE05; 0x714FC514; 0x2AB3265E; 0xF3B73708; 0x8798EA8B; 0x118FB47A; 0xFE5C2BFF; 0x79A1F4CD];
   [0x103FF4DC; 0xC0D3ABAA; 0x146D121C; 0xF5D504ED; 0x842CABA1; 0x38B7419B; 0x907320F6; 0xE1730788; 0xE111875F; 0x37793B; 0xAAB7249; 0x715042EA; 0x15630B39; 0xF57D27EF; 0x5D0153CA; 0x3B503330]];
  [[0xC8AAD5E3; 0x44E75F39; 0x506B9C14; 0x3890E8AE; 0x38915D2F; 0xDDA7D91F; 0x5F28E467; 0x412802B8; 0x711B51DC; 0x8FF3E17; 0x81C96D4A; 0xF23C1EF; 0x57511A7E; 0x7B8E28A1; 0x42C2BACF; 0x60200370];
   [0x8559DC01; 0x5457AA66; 0xBB083219; 0xDB0CBC6F; 0xF981BE19; 0x316C4876; 0x9B98D6AC; 0xA04412B9; 0x2D95C876; 0x20964CB8; 0x51009C2C; 0xF643F29E; 0x30C43DD3; 0x5316D85A; 0x46A82D48; 0x104EB0C8]];
  [[0xB183769; 0xC05ADD9A; 0x653E726A; 0x14E8EC7A; 0x8D457375; 0xE5311F87; 0x25D9120D; 0xCC1585A8; 0x71A945BC; 0x4F39BE3; 0x18298210; 0xFBFAD374; 0x3A9D2053; 0x95F0BD1E; 0xC056D70E; 0x1EAEEFED];
   [0x1E6E949A; 0x3274833C; 0xC1D152E6; 0xA38EA2CA; 0x1B9A48BA; 0xE77A1027; 0x69B03ED3; 0xD44CF886; 0x2D9D2B8F; 0xB52D35E7; 0xF99BD52B; 0xFA67F927; 0xDF337872; 0x3910D907; 0x90BF7A7F; 0x53E3909C]];
  [[0x8FC5B40A; 0xC558DB4E; 0x7511657E; 0x330982A3; 0xB883053; 0x81A47621; 0x3F3DB1D4; 0xB1F53471; 0xC804E24; 0x8A2B835A; 0x3012783B; 0xF8537A45; 0x9DC2A56A; 0xC761FC41; 0x2C12BE25; 0x50369DCB];
   [0xCA00D808; 0x19877D98; 0x1DA7BD8F; 0x305586B5; 0xFB6F9E7; 0x683BF46E; 0x7E53ECB1; 0xF23F5457; 0x17EE25E8; 0xA09A0901; 0x5BAA52EC; 0x61AF9305; 0xA8104024; 0xC12B74BE; 0x60A876E3; 0x6BDABBAA]];
  [[0x438800F3; 0xEC8ADDA; 0x4FBF0259; 0xA47197E6; 0x1767F99F; 0x324E0696; 0xE440710A; 0xE455BC2; 0x7A5984F7; 0xFE231689; 0x3CF323D8; 0x7706D5C7; 0xFFC9FB5E; 0x6DFE4B08; 0x8F9D5207; 0x5E912EC7];
   [0xD7D1AC99; 0x9B71034D; 0x33D5ABF4; 0x5786B8AD; 0x426E2B80; 0x70E625B7; 0x6A33883F; 0x71D53ABB; 0xAA10AA82; 0xB42DE25A; 0xC313C9F3; 0x709B3CDF; 0x99A04BD3; 0x49F3BBC7; 0x3390B190; 0x5B56D9BB]];
  [[0x5DAE0B4; 0xA4D655E5; 0x7016EDE7; 0x3402DB14; 0x117097DC; 0x58D4EFC5; 0x61AE9FDC; 0x4F397AFC; 0x85DE0E4A; 0x3EE32FBE; 0x18F9DA9B; 0xE5C94100; 0x30778D74; 0x6248B570; 0xFF879B98; 0x569D70C9];
   [0x79A7786F; 0x385FD4C8; 0x92C6E962; 0x779353B9; 0x5AA82E08; 0x9C9103FB; 0xEC3B37D1; 0x128BD7DD; 0x98AE8C82; 0xCC0376F8; 0x289AFB7D; 0xDD33B1A3; 0xF1D2F3AC; 0x2B3A6BE5; 0x58C1DCA0; 0x2B342E8F]];
  [[0x924940FC; 0x4ADA9F0F; 0xBD4E799E; 0x636260E5; 0x85ECD23F; 0x10650FC8; 0x32AE8105; 0x4765F05; 0xDEEBFAF2; 0x22F515E9; 0xEA6ED3BA; 0xFB6611B1; 0xB116A647; 0x2D260305; 0xCEB63ED4; 0x540A895A];
   [0x65640BD2; 0xA5C897EC; 0x4EB90B65; 0x1D82AD21; 0xA2BD6C71; 0x2A00C3C3; 0xA185CE8C; 0xD9BE5D85; 0xE02E9DCD; 0xFA039FE; 0x806B50C1; 0xAD1DC7C0; 0xC6AB58F; 0xA78992C2; 0xFBE348EA; 0x7D58FDA7]];
  [[0x6F4DBDFC; 0x7E65277; 0xE4E35AA2; 0xC35157C0; 0xFAF9CF8D; 0x9844955D; 0xE577A918; 0xD1832D2F; 0x212A678C; 0xCDD6CCFD; 0x262F2BC7; 0x19406763; 0x7DCF82E3; 0x1B5FE0FC; 0x28083B97; 0x72FCB512];
   [0xCAE3C67A; 0x2EB13174; 0x28F8CB44; 0x571DBD35; 0x7B2F56B1; 0x3F3514DA; 0x2E1D4CD8; 0xC5906697; 0x3709FD27; 0x9F9589DA; 0xDCF0E714; 0x539CBA98; 0x36D31BAC; 0xC6FDBE82; 0x8860078E; 0x22501C25]]];
 [[[0xE7462A35; 0xB6BAA4C5; 0x2DE0E694; 0x4CABEF23; 0x67A94587; 0xE595F2CE; 0x65DE13EF; 0xB4D6B80; 0xB88601AA; 0x6ED1FA63; 0x254800DF; 0x63DAF3EF; 0x6EDECF60; 0x15F07C6B; 0x49F82DF6; 0x746CB00F];
   [0xF95DC407; 0x4860833F; 0xD4D68D59; 0x245FDFB1; 0x28C585C1; 0xFD7E1346; 0xAA744D74; 0x3307AAE7; 0x27C71537; 0xAB21F1D5; 0x541ADB51; 0x1BED3B9C; 0xB804584; 0x48E65628; 0x96C62E82; 0x10213DC3]];
  [[0x9E900795; 0xA971A321; 0xA28AD250; 0x41151E65; 0xB46F0286; 0x88FBF84C; 0x2C5AA2BF; 0xCE5E34E3; 0xFE74FBD6; 0xC30F0784; 0x9DDDC5BB; 0xA19ACA51; 0xD954B6AF; 0x30CB6369; 0x1BA9F34A; 0x20C72B2B];
   [0x421721EE; 0xD9F6CC9; 0x701F3853; 0x5239E3D2; 0x10A37D0D; 0x48CF795D; 0xC1454415; 0x2822ACF8; 0xF9392C27; 0x9EF24913; 0x33F3F273; 0x93178976; 0xAADFE5DB; 0xAD1CAB2; 0x2019622; 0x24541951]];
  [[0x122FE6A1; 0x577E8E89; 0x29DCABC8; 0xDFED3EF0; 0x1F1EC613; 0x91B0AE21; 0x43EC585C; 0xF4FB2E9F; 0x5AFDC7FC; 0x402F8D43; 0x3BFC6DDF; 0x7DF6E3F4; 0x2094F2CE; 0x4B14B20B; 0xC9F3FCE9; 0x6621FA23];
   [0x61482134; 0xC167636B; 0xBD89AA34; 0xC2D96AF4; 0x77A1383E; 0x4D19C547; 0x994B20EC; 0x86476C72; 0x3611027E; 0xD71188DA; 0xBFA77EA0; 0xEEB9CB25; 0x7A9FFDFB; 0x63E03706; 0x9E1F711D; 0x52FBC735]];
  [[0x9DCD39C8; 0x4D58058F; 0x560A57E3; 0x742DCAC8; 0xC40593C3; 0x51314E8A; 0xBBE9F40F; 0xAA35CAF4; 0x7B4DF87C; 0xD0D06ACC; 0x897586CC; 0xE02B48CB; 0x9F14AB3B; 0x30AB25AB; 0x2DCFFD42; 0x77B9D8A2];
   [0x43F00508; 0xDE1678E7; 0xE59D0799; 0x2F82D94E; 0x7D85FF61; 0x1D68DC5F; 0xA577E85E; 0xCCD286EA; 0x5653CE9; 0x78202172; 0x4B096045; 0x80BCF42C; 0x8D9DC78C; 0x983AC1DA; 0x757F008E; 0x48ADE8D1]];
  [[0xF131C430; 0xFE9CADC1; 0xD4ACF7F9; 0xCB4FACAE; 0x4B81AA0C; 0xA75B35B6; 0x6132294C; 0xDB73BF2A; 0x35FC4FBC; 0xDC1998EE; 0xF1A96BA6; 0x1125CF55; 0x1AC0769D; 0x800577A8; 0xE4CDAC1C; 0xAF21977];
   [0x91DD37F9; 0x12CAE81D; 0x1A432775; 0x81F5BAF6; 0x81CBCB7D; 0x62A87C5D; 0x2D311E47; 0x781596EF; 0xEA6CE86; 0xADA41A24; 0x9198BFEE; 0x64E561D; 0x8784FC32; 0xD2EBB0D7; 0xE00D527A; 0x60F7F749]];
  [[0xF9F5101B; 0xB6220879; 0xED750B14; 0x8E51E911; 0x56B8B8BB; 0x5A0FF851; 0xE97F0F1B; 0x6EFDB4CC; 0xCFEE47C1; 0xEF4E3272; 0xDB73FA56; 0xFB33D3FF; 0xD5C182A7; 0x8702D241; 0xB061F4C9; 0x1342C905];
   [0x40B3B920; 0xCCFDFF8B; 0x234F25BE; 0xE01ADAA1; 0xCA98B24D; 0x6EE2AFD9; 0x933CF022; 0x833C8017; 0x8B7E88DA; 0x9446CDC8; 0x252B0C4; 0x8A83DEB; 0x983B95BF; 0x5AFAE687; 0xBBF76F93; 0x417A1691]];
  [[0xE270155C; 0xF1100073; 0x37D73458; 0x913B27AB; 0xF8799368; 0x723B646; 0xB8599816; 0x891C7858; 0xAD13A257; 0xBDCF3C7A; 0x106E5B5A; 0xF473BEE8; 0x27722F06; 0xB093D484; 0x8E4CF84D; 0x33895F5C];
   [0x1A92A242; 0x530F59FE; 0xD5444E38; 0x703FDC05; 0xA9B55C56; 0xEC6FB903; 0xECEFEF64; 0x102929BA; 0xBFC1F153; 0x76B9B329; 0x7A32A9E4; 0x3F794AD7; 0xAD9D9F76; 0x9A344BD7; 0x8F22FE76; 0x1281308B]];
  [[0x55D6DFC4; 0xDBAD1D04; 0x78FB03A6; 0x1674C09F; 0x4F4EB90; 0x10F038F0; 0xC933F8C3; 0xD6F8CEBA; 0x322E4AE8; 0x6D3018D6; 0x65FB0400; 0x3C0E8DD8; 0xF8603F6E; 0xE04FEA5; 0xCF3D2FBA; 0x417F6C35];
   [0xC6DBF972; 0x4F62D458; 0x3C69018C; 0x1D66CC0B; 0x4F1297A2; 0xDB741BC6; 0xDDEC7115; 0x7EEDA8D5; 0x9A910CA8; 0xB5D07B3; 0x3D0FA9E7; 0x5D74BC7E; 0x4DC25E76; 0xF3D1063; 0xDDD0F35E; 0x7BDF3F13]];
  [[0x49A8E647; 0xF4B8E8F9; 0xC9C7F249; 0xD2045FF4; 0x1DFCE331; 0xA73E2073; 0x60186A35; 0x538FE0C2; 0xD44D55DC; 0xF6931385; 0xBD2D5D5C; 0xAA0FAE8B; 0xCE9E7B7; 0xA1DF2451; 0xF6E915DF; 0x453B0239];
   [0x4BD5604D; 0x92E689FD; 0xEA5FB1A5; 0x302F7B7C; 0xC6C18BD5; 0x9A065527; 0x38018472; 0xB6B93023; 0x775EFE83; 0xEC4F8E47; 0x5D557E9F; 0x5EFED6CD; 0xF32DB82A; 0x883149A7; 0xA83BA057; 0x32BB4DD5]];
  [[0x8CE494A6; 0xB45FB239; 0x15A171F; 0x6E80D72B; 0x846810F0; 0xE17A3D2B; 0xC689398E; 0x86A2C703; 0xF84177D3; 0x163CC0EA; 0x8485195; 0xCFC54536; 0xAEA228CD; 0x49ED48E3; 0x5E05A3FA; 0x51D4CD9A];
   [0xA28C1F0; 0xD75C938E; 0xD986264; 0xE18FCBDB; 0x129A474; 0xE29546B; 0xB4E6503E; 0x718C5F10; 0xE89FFD06; 0x5BFFEF16; 0x7ABFEFBE; 0xD87F3E8D; 0xB05607DF; 0x3E6EEBD8; 0x30FC02D; 0x1B3135D4]];
  [[0xAFD466ED; 0x1FCA9768; 0xDDE4FE72; 0x3711CD99; 0xA0BC2449; 0xFA6A96FB; 0xDF617AD1; 0xB4E3322D; 0x38997D42; 0x652400B5; 0x5869744E; 0xE4033FDD; 0xF8CF5A3F; 0x5E56CF67; 0x39950DFD; 0xB68F418];
   [0x921A1064; 0x31F316B3; 0x860AB95E; 0x84CF2C3; 0x33A08792; 0x4FAE7CBD; 0x5C2F1F4F; 0x13E887AE; 0x5A2C1393; 0x1B4D941C; 0xBFDDC322; 0xE7043946; 0xA801A880; 0x2D73CD5B; 0x45019EB0; 0x6CDC6BC2]];
  [[0x72A9BDDF; 0x68D9AE82; 0xC4F79A39; 0x3EA7B5D0; 0xBFA9189D; 0x8A9E525D; 0x8088070; 0xC4BCDB4F; 0xF0019D99; 0xD4F1B3D0; 0x3A21C513; 0xCD3981D0; 0x51146A17; 0x4A85B07A; 0xAC9373DE; 0x44E11FCB];
   [0x406B1F1D; 0x45C28B85; 0xA598A7AB; 0x7669767B; 0xCABA790E; 0xE4DC8F54; 0x4002264B; 0x7259E49F; 0x78A9F0E3; 0x54142E6D; 0x2D74E9B1; 0xFC384317; 0x471BA3C1; 0x949A6E31; 0x269DBD46; 0x2196E341]];
  [[0x1C85C152; 0xF090B214; 0x2980953D; 0xC66553E0; 0x908B9243; 0x50050906; 0x18F1B4C3; 0x489B07B8; 0x4A6A7071; 0x39C781DE; 0x15FAF2A8; 0xC3FCC6B4; 0xDF30D339; 0xC9A9D650; 0xDC87B05; 0x2BCF8969];
   [0xD36DD59; 0x6BD11101; 0xAF38D4C5; 0x9AFD4507; 0x1FEE36E3; 0xE9A345A3; 0x37454BA6; 0x141074A8; 0xF603533F; 0x89747031; 0x897F9FA2; 0xAB75320E; 0x594481A4; 0x52927CDF; 0xBC2244A3; 0x2C8FB10B]];
  [[0x1C40C77E; 0x456358B8; 0x1732ED35; 0x26A15EA8; 0x9AEA6548; 0x36F26CBB; 0xD7FAD4C1; 0x6589AC51; 0x9067988D; 0x4804A1BC; 0x4219111A; 0x633F203E; 0x123C4BBE; 0xCD90D01C; 0x82519788; 0x617EEF27];
   [0x9DDFBBB9; 0x8A7F22A7; 0xC8F9E873; 0xF8CEDC4E; 0xF8B00FFD; 0x547A5995; 0x3132F91D; 0xC6780AC5; 0x6DD34140; 0xAD711350; 0x83D8A3E6; 0x1C0A71EC; 0x86E0466B; 0x687D67C7; 0xBD67492F; 0x7CE57B02]];
  [[0xC4A0F3CF; 0xEF5A0FEC; 0xE3C2A79F; 0xCEB2194B; 0xD37AFB50; 0x7371FF56; 0x68CFB693; 0x881C254A; 0x7A5B61F5; 0x31F411B1; 0x13E15910; 0xC2141EEB; 0x75C6566F; 0xD4B5D015; 0x60C17F10; 0x1335132C];
   [0xF9EED825; 0x49A2D9CB; 0xE7C41C5A; 0x514441A; 0x636BA847; 0xCE9F19F7; 0x44F44B74; 0x55175057; 0xD26F9DEA; 0xED9CB8A; 0x84BD07A6; 0xBBB248C0; 0x9CD8A6C1; 0x2C867FB1; 0x2186DB7C; 0x230B4122]];
  [[0xBC6B2647; 0xC59AF140; 0xD5CA9D30; 0xCD781156; 0x4C5C668; 0x479CFCF8; 0xB08BEEC5; 0xEAC4A5C0; 0x6C67636A; 0x8772B60E; 0x631A6EF3; 0x99266F13; 0xD368B05; 0x4DADE9DE; 0xE42CB970; 0x2F9488CB];
   [0xB6FB1965; 0x4882B1D4; 0xAF24AD57; 0x6423BBB4; 0xC406CF8F; 0xE52B487E; 0xD49D4935; 0x502802AD; 0x24D5128F; 0x6832E216; 0x670EAE40; 0x42190CD4; 0x39258F40; 0xA2D4FDB4; 0xC5CADEEA; 0x6127E350]]];
 [[[0x896F045C; 0x160D95BD; 0x406D8CA3; 0xBB8AA2C5; 0x94F274E5; 0x1B4E10B3; 0x6332DB6B; 0xE6D30544; 0x5AAE23C5; 0x95250D6A; 0xFC831AC1; 0x67458318; 0x63510D9A; 0x5D21C9B; 0x20F2A3CC; 0x2416562C];
   [0xD6DE2B6D; 0x8B666C7A; 0xE54B6B3C; 0xC49D98D0; 0x90558A8E; 0x73315C3F; 0x44E631C4; 0x212910AD; 0xBB053E42; 0x7D2EBB7E; 0x4FEF86C3; 0x396AD261; 0x5E410BED; 0x90DA355C; 0x43C9183F; 0x344A24DD]];
  [[0x6AC2509A; 0x50971549; 0xFDA9F8AF; 0xFCAF5541; 0xB3F2B1F5; 0xDDFDC6A9; 0xB7DA428B; 0xBCA36B59; 0x357DCA59; 0xB55602BE; 0xCE692E5D; 0x803C92A1; 0x6DC19967; 0xCD723C3D; 0xF741820F; 0x3EE4BC03];
   [0xBB103F3B; 0x70113C23; 0x36553268; 0x35FA9144; 0x1C026E84; 0x505B7917; 0x1ED89D68; 0xA43E1256; 0xC87289BE; 0xC8AE5CFB; 0x2B9C5072; 0xD573E0CF; 0x475FA7A4; 0x709B1C4B; 0x81D07D11; 0x505ADF59]];
  [[0xA4AFD6AC; 0x1BC79E6A; 0x26866C93; 0x156C1B36; 0x90A70847; 0x6E4F2FB6; 0xE37556C2; 0x745824E0; 0x5BF6585C; 0x384788E8; 0x87EFA785; 0xAD6A726B; 0x40FEB98E; 0xD93A3B7E; 0x282EB335; 0x4BA6A352];
   [0x937FA288; 0x36EE7727; 0xC0513862; 0xF1334DD2; 0x30FB68F5; 0x7AF1B32E; 0x3196B14D; 0x2B0BAEFE; 0x21E84FA0; 0x5E7BA8D7; 0x256AE375; 0x4DA767CD; 0xE0F658DB; 0xA8D467F8; 0x20DB1855; 0x7709039E]];
  [[0xB26EE5F4; 0x6155BDC4; 0xC48A3913; 0xF0CFD2B7; 0x63BFB3E5; 0x75AABCA1; 0xC525DA22; 0x9232746D; 0x333F2B14; 0x5F00A6CD; 0xF8ECA91E; 0xB3216C2B; 0xF6E4FF19; 0x9A1F1EE8; 0xB0074F5D; 0x3C76ADCF];
   [0x45309788; 0xA414BFFB; 0x86539F4F; 0x83EF3C3F; 0x576C4A69; 0xAB8CEEA; 0x13BEF0E4; 0xA01CC458; 0xEA181987; 0x855B7F00; 0xE30F184F; 0xA97F14A9; 0x554D467D; 0xB17DF2F0; 0xD6C8100D; 0x29F0A944]];
  [[0xC7D083C9; 0x57796871; 0xDA74190; 0xB83CD7FF; 0x97DC4A71; 0xA077968F; 0x8ACDC2D; 0xC27429EC; 0x2B52DFEE; 0x4996DF6; 0x1C182059; 0x13511C3A; 0xCEFA8F7F; 0xCC27218A; 0xA0E51331; 0x757BD45];
   [0x453DD761; 0x5F1D65D; 0xF3C5F5DF; 0x71D57417; 0x38FA1AE7; 0xC1E2043; 0x36E7BB29; 0xA68A6F2E; 0x221EA420; 0x3F3CA00F; 0x1484F503; 0x840830F6; 0x18380FC5; 0xA011EA61; 0xD4D5F0B4; 0x63E08325]];
  [[0xA5352F43; 0xAC4F176A; 0xF5346C89; 0x2C0A1D79; 0xEA7357BC; 0x3F16B2EC; 0x9CB644F4; 0x1FE6E823; 0xE2C9912E; 0x54E68BB4; 0x98E581AE; 0x82B35E8E; 0xD6611B81; 0xD855E028; 0xA8C7ABE1; 0x3D420591];
   [0xA4D7C106; 0x71326CB4; 0x7E21F3EA; 0x5BA8407F; 0x40DA0D53; 0xD33581D7; 0xC1E7D99; 0x7AB20546; 0xCB0075B5; 0x71438057; 0xCB952FEE; 0x2F9AD50C; 0x8B942A98; 0xFDCF4A12; 0xD8BB5BE5; 0x25CFA1B]];
  [[0x27BF5931; 0x2BF4ABF7; 0xD080A1BA; 0x78BD4315; 0xF12B24D0; 0x1EB55607; 0x8E8BAB49; 0xB7BC25D6; 0x60E68A74; 0x1B666AE; 0x9058E10D; 0x9E1E7417; 0xAB695D1E; 0x5D2493D0; 0x271B7FBF; 0x714D7BB5];
   [0x3BD07521; 0x869B52F6; 0x38E8A90; 0x3413A47C; 0xC2B6D60D; 0x2B7724D4; 0xB984B181; 0xD500A48C; 0x99ED9E13; 0xDCD82594; 0x9397DD9; 0x33C480BA; 0xB36CB025; 0xF98DA63D; 0xC33FD92; 0x593108A]];
  [[0xF01AB893; 0xE3BBCCB7; 0x6CE61B0B; 0x3D8D3BD2; 0xFC00DB91; 0xB030CE07; 0xAA51D38B; 0x78ADD938; 0x6CAF34CC; 0x8FA75797; 0x494B4CCE; 0x28C34C7E; 0x79091116; 0xECD5F385; 0x3512B9B1; 0x455FD953];
   [0x3CD57BE0; 0x1D2150EF; 0x43CEF565; 0xF130B2A0; 0xFA4A4082; 0x1146159C; 0xD6BB7E30; 0xDE949D6A; 0x40A2A53B; 0xEB8984ED; 0xB920CDBE; 0xB9E72FE4; 0xB43A51A9; 0xA507DDCA; 0x6C7C6F7F; 0x3EB7D79F]];
  [[0xDD356637; 0xDF75FE14; 0xFBC9E9DB; 0x4B21206B; 0xA729BB2F; 0xA33BCF3; 0x686F49F2; 0xA61A363C; 0x34BD498C; 0x426A4603; 0x705F7CD3; 0xE87EDA60; 0xE633E9A7; 0xF9D24A5A; 0xA4325C1D; 0x52063D93];
   [0x23EEB132; 0x2890EEC; 0x5D39DDFD; 0x430E86; 0xA1E47638; 0x118E18F6; 0x5806CD2F; 0xBB38E8C7; 0xF7CE9486; 0xB7E5375E; 0xFDE35E82; 0x73DAA9EB; 0x82070D71; 0x117E4761; 0x915BBD57; 0x317DF0BE]];
  [[0x25B74127; 0xF6915487; 0x18162D83; 0x4333E7F5; 0xA429665E; 0xB435BEF9; 0x20B9D358; 0xEEE9B7B7; 0xF8D1D44F; 0x436ABB8B; 0xBF38B81F; 0xD1219F9A; 0x9035DE38; 0x7CEE7063; 0xB341FFDA; 0x34129008];
   [0x99745C5B; 0x6595A1B0; 0x2C0685BB; 0x7DF297A; 0x998110AD; 0xEE85C714; 0xE2A8AD4E; 0xD251E587; 0xEC4D02C1; 0x9A38F9DC; 0xCCDAF4C8; 0x60DA566F; 0x90B08CA2; 0x1BD9A21A; 0xE97F4EA0; 0x6D9414AE]];
  [[0x74973250; 0xCBFAA861; 0xAB15AA60; 0xC58A0F6B; 0xFDB7A15D; 0xC00F822D; 0xFA067DEF; 0xAEA74910; 0x81F3EFC5; 0x3750367B; 0xAFC6EC7C; 0x3183E3E8; 0xDA10CD9F; 0xFB62717A; 0x6EEC9774; 0x40431C1D];
   [0x5914824; 0x423E7310; 0x9DE23908; 0xA4F7A978; 0x7D5D18AA; 0xC151A73C; 0xED1EAC6B; 0x1B85B7CB; 0x75066C4; 0xF25CAF8C; 0x8004809B; 0x99508D70; 0x212271C6; 0x6BEDC19F; 0x77A5AE84; 0x2CCDAB39]];
  [[0x23389925; 0x14203BEC; 0xCF059388; 0xFBCA94CF; 0x8124F30F; 0x17626B40; 0xC1C98EB6; 0x2208F6E5; 0x961F4C48; 0x9B385200; 0x2E5C7A; 0x1C9F33E8; 0x58B6DD91; 0xC426A940; 0x1CEC7286; 0x6DF740E5];
   [0x87E56C60; 0xF9397986; 0x587728F6; 0x84425935; 0x2FE267FB; 0x394A3A01; 0xD451CD8E; 0xB9C6481F; 0x5340AAC8; 0xA6AB4F4B; 0x9B85FF63; 0xD7FD9675; 0xAC5AEC86; 0x3D3AE591; 0xB96673F7; 0x43283823]];
  [[0x74E61BA9; 0x24214D23; 0xF69ED123; 0xB41CFB58; 0x54F5F407; 0x8E91FE02; 0x4F84200B; 0xFB989936; 0x24E62F0; 0xAAE985CE; 0xA0BB20F6; 0x896815ED; 0x3DF1E5BC; 0x3536095B; 0x9E1EB847; 0x31C5AFA0];
   [0xC2B9B4F0; 0x5C32910F; 0x50DBB2E8; 0x32ABA814; 0x6AAF8A27; 0x17E2B52F; 0x111CD6C3; 0x142E63AC; 0x22B6D227; 0x15D5F297; 0x3C14CE28; 0x22380A78; 0x5249F727; 0x29F4951C; 0x274839DE; 0x24C25987]];
  [[0x14C6CA73; 0x13F552E9; 0xB154556; 0xCE965927; 0x83EE34E2; 0x330E6D59; 0xE8035AD6; 0xFB7B6051; 0x5B2D081D; 0xC58FBCA8; 0x91D78C8E; 0x254FEDD1; 0xCF877F74; 0x438FF98; 0x8BB12DC9; 0x479CEE4A];
   [0x7A0CBCDD; 0x1855A1C3; 0xFFC35; 0x3667FFBB; 0xF880E9C0; 0xC053A4BF; 0x5AEFE0E; 0xF8E1BCC1; 0xB65DBBC; 0x1AFEE0F2; 0x9E945F96; 0x63ACB97B; 0x80B8F0BA; 0xDFC80965; 0xE919BE03; 0x12A145EB]];
  [[0xC6008C86; 0x8BBD02E8; 0x516BDD2F; 0xB7ACE6C4; 0xE5036467; 0x914AE008; 0x87987C22; 0xD06CF392; 0xC71FFCB4; 0xF78C12D; 0xCBF7A3B3; 0xB4612FBB; 0x7B711004; 0xB6E69255; 0x1EA5ED45; 0x68CEE9EC];
   [0x5009FAD4; 0x45E4A8D1; 0xB1458DF2; 0x1D303BD7; 0xBE13EFBE; 0x388523D9; 0xC15147CD; 0xAC9F6D4A; 0x9ECFA216; 0x551F3470; 0xAC9311F4; 0xFF1AA33; 0xB8D84926; 0x34EED866; 0x72C2CC5C; 0x6BD5ED1C]];
  [[0x9BDD8695; 0xA283EC1A; 0xA599147A; 0x451A730B; 0xDA71F52B; 0x9B6CC56A; 0x77D55722; 0xB1002CF5; 0x7A8D105; 0x354328CD; 0x7A21026C; 0x86B04CA8; 0x50EC9794; 0x53BADA3D; 0xBBC32D2B; 0xBD230C8];
   [0xF7E3C388; 0x322E97FA; 0xAD6FEB4F; 0xA0F06207; 0x9A128AA1; 0x3B05C04E; 0x2214D1AB; 0x5DE3C90; 0xE69A562B; 0x632C92A7; 0x6BEFC0B6; 0xE9F9DEE0; 0x63E05275; 0xD269F547; 0x6C56EC35; 0x4B2E1AB]]];
 [[[0xFEB514D4; 0x9DB921FC; 0x485F4F30; 0xAC3CB4; 0xFED6B15B; 0xDAFF6F9; 0x9A5E67CB; 0x74C16AF5; 0xA8275392; 0xAA73C142; 0x46A65634; 0xBF53E454; 0x3D87479; 0x2819387F; 0xB495DDDB; 0x4BC9293D];
   [0x18AE902B; 0x755EC696; 0x1E9C6398; 0x14729175; 0x29508353; 0x82396B3F; 0x8614C4D; 0x932903AE; 0x50BC308A; 0xA4B24D64; 0x88BDA41E; 0xA89DAA2F; 0x84F8A09A; 0x94FC7C46; 0xB4931402; 0x1054948E]];
  [[0x8A7BA306; 0xF3E0BB8F; 0xA45240B6; 0xC31FDE41; 0xE1755B86; 0x5AD7E1A; 0xBCDD1230; 0xDDBFC1F9; 0xB4F8B744; 0x8006BDBB; 0x8ADE1D9A; 0x86582902; 0x78339E6; 0x8FEFE3B7; 0x46216EA5; 0x342996F4];
   [0x9B3D4651; 0xE0E1B5B3; 0xAABBE714; 0xB2FC080C; 0xA522F01C; 0xC720BD5E; 0x95F65EBE; 0x11D0543B; 0x484D4123; 0x880103C; 0x96976F8B; 0xD3F969F3; 0xFDBA1CC1; 0x614855B7; 0xB3EC4B2E; 0x56D4EEFE]];
  [[0x3894EB7E; 0x29DC51C; 0x9D9876B7; 0xF4AAE878; 0xE2388A33; 0xFCD3C74; 0x91E31014; 0xAD4C4CF7; 0x11977D22; 0x34F61FF1; 0x7AAFC8D7; 0x984416FD; 0x5DAE6048; 0x4A441361; 0x7B1AFA0C; 0x50D2387B];
   [0xBB8211DB; 0xD8BE85A1; 0xDD31FED9; 0x195092C3; 0xC1764C23; 0x1F6FE6AB; 0x3F067D75; 0x6A25DE23; 0xA244AA1D; 0x8DB614AA; 0x25B11975; 0xAB0D7473; 0xC036EA42; 0x714067C5; 0x6F3B1132; 0x379935D6]];
  [[0x8E762CB5; 0x1E8339D4; 0xDF30209; 0x1857091C; 0x29523926; 0x2E4AC9A7; 0xB7D5A5BB; 0x5983F6D2; 0xF31262FE; 0xA99D8D11; 0xA5CAB7C2; 0xE722945D; 0xE8767862; 0x3196BFBD; 0xA59924F6; 0x43707848];
   [0xC78D8788; 0x8F0E368A; 0x4BF7DA53; 0x50811A26; 0xDCA664FF; 0x9E0CB8FE; 0x82EDADD5; 0xD2B8DFA0; 0x4A0C48E4; 0x9C45772; 0x22511381; 0x6EC46A5C; 0x313E87CC; 0xF5810BB4; 0xAB5A6BAB; 0x20C5F006]];
  [[0xD87A06AF; 0x76C6F60A; 0x78FDEBB5; 0xAB7144AD; 0x5646A659; 0x956C36E7; 0xB785E745; 0x5477D0F6; 0x4594BC06; 0xFE9FF232; 0x3039A102; 0x1783B9A0; 0x90DB0AB3; 0xD41E6C5A; 0x7550121F; 0x43749FB4];
   [0xD17CA661; 0xB7C6D143; 0x2B73135D; 0xB1591F57; 0xC62DFF62; 0xF03232C9; 0xCAF25761; 0xD3D1C629; 0x4B67D224; 0xF633733F; 0x764EBF02; 0xCFBBC0D0; 0x63C7EE19; 0x41CC07DD; 0xE8B36CB5; 0x53BC8A63]];
  [[0x74CAF7FF; 0x1E9F596C; 0x8C049872; 0x8088EF96; 0xCE1208BF; 0x3A9EA96E; 0x15DAF25D; 0x892C44E7; 0x5E996AE4; 0xAF6E1EBF; 0xBAC1A746; 0xA6EEE3C; 0xCAF162F6; 0x9D471CB1; 0xE6BE08F1; 0x13F7192A];
   [0x49FBB46D; 0xCE44C77A; 0x5A04A72E; 0xA7B9136F; 0x2B937703; 0x6CA33EC4; 0xE8685FFF; 0xD4B3AAB5; 0xE7207EF1; 0x8EFE02B3; 0xB83D0E5A; 0xB138C46D; 0xF6C29885; 0xB73E636A; 0x72567A55; 0x5C1E1242]];
  [[0x15137904; 0xDD967B6A; 0x6969B92D; 0x4588BAA7; 0x5E2BA269; 0x99580A4C; 0x915645CD; 0xE80802B4; 0xFB6591AE; 0x7246F3F2; 0xCC25F464; 0x68C2F8C6; 0x4905AE3C; 0xB5172E90; 0x675591B3; 0x6860BBDD];
   [0x626489DF; 0x68BE15C0; 0xC737BEB; 0x65EA3D88; 0x32B5081D; 0x9EF8B6CC; 0xB16FF753; 0xA6238BB1; 0xE17264C8; 0x22191589; 0x903E28DC; 0xDBDAE7A3; 0xF2DBCB8E; 0xB36FCD91; 0x75D33835; 0x1EBFAC4]];
  [[0xBC820AEC; 0x7B0EE204; 0x8568C4E8; 0x500DA7FC; 0xB0961D29; 0x992A6429; 0xE65D7FDA; 0xA3CAE853; 0x34197E58; 0x7B6F5E79; 0xC4E849CB; 0x90D37EAC; 0x106FD33; 0xE01D14AF; 0x80027E17; 0x4BE83679];
   [0xA85EE145; 0xA412BA38; 0x5097CD50; 0x219D461E; 0x29ECFCDA; 0xAD42175C; 0xD04FAEFA; 0xB1DEF962; 0xA95983C1; 0x5B527A4B; 0xBB20AB6D; 0x48A06C96; 0x1FB83513; 0x7BAD34CD; 0xFDF018ED; 0x458294DF]];
  [[0xA695A157; 0x1D1EBD7E; 0xC52D5ED9; 0x296DD049; 0xBE33F05; 0x8958F5B0; 0xD37E60D7; 0x6B7F7204; 0xC668C85A; 0x446F7B95; 0x20F60396; 0xB6E53B20; 0x8E621E73; 0x5738FF4E; 0x8CD9F00C; 0x5DBD495];
   [0xCFECAA9D; 0x645AD9D6; 0x3CEF6673; 0x1CB8E09; 0x6D13DA7; 0x2851ED4E; 0xCB18DFCB; 0x61FE9A95; 0xF903CBFE; 0x62CC060F; 0xF14B0B1B; 0x121B6E4E; 0xC4DEC6F3; 0x8CAB6654; 0x4B40D6D4; 0x71880998]];
  [[0x9583FB84; 0xEE5CA2A4; 0x4462D044; 0xEF16CD07; 0x21EBB18F; 0x1C1D5999; 0xAACAD30; 0x66D7586B; 0x2EB12D8B; 0x8EDF0A45; 0x223DE805; 0x1A320A44; 0xA0C2F092; 0xA389DA0; 0x7E68A2D9; 0x274FF541];
   [0x30395E54; 0x6CC34B53; 0x8C112729; 0x881E630B; 0x70E4C811; 0x801E1CAD; 0x91C2E90A; 0xA527AE82; 0x562AE094; 0x93179BC8; 0x148F4F44; 0xCE68A130; 0x32F8CCFD; 0xD8CA2ED0; 0x527F82B; 0x415FDA4]];
  [[0x25AED793; 0x9F5CA1FD; 0x9C49711; 0x5B95B9AA; 0xB968168C; 0x386C8FBB; 0xBDC778F4; 0xC6B27D7D; 0x321A9D97; 0xBD5439A2; 0xDC4BA6A0; 0xEA40A5FE; 0x962508AA; 0x94913F0F; 0xB247396E; 0xD2DD91A];
   [0x17C64EFF; 0x1F459CF1; 0x137E003; 0x2E10B55; 0x60F82DFB; 0xFC375FE4; 0x4631ECED; 0x9CCA9D6E; 0xE5053FDA; 0x575C197C; 0xA5B9670; 0x2EA3ECEE; 0xA6F50038; 0xE69DECA1; 0xE8EDDA74; 0x32F452FB]];
  [[0xD9E4C490; 0x20980611; 0x74825DDD; 0x827D79F1; 0x218E0B22; 0xB4604E04; 0x1F4F1752; 0xA7E5E3A; 0x243D8298; 0x50260245; 0x1A2101B7; 0xEBF01C84; 0x69E1A262; 0x369E69AE; 0x4C1C960A; 0x5FD07868];
   [0xA8F15793; 0xC542D34B; 0xE393381E; 0x8F14B8F; 0xF855CD9F; 0xB6E06E97; 0xA6CEE8C0; 0x47A195ED; 0xB05A740D; 0x8776F026; 0xAC8EC060; 0x811D7AD6; 0x29002EFB; 0xA61E5D27; 0xC78E746; 0x3D51D70E]];
  [[0xC99E1438; 0xC0D70275; 0xFD5EE6B2; 0xE95C0EC; 0x39E6733E; 0xE14F58B0; 0xB4941C24; 0x57B179E; 0x93C0A5EF; 0x5E12F07F; 0x5E72CAB; 0xF600367D; 0x899F259F; 0x89FCB008; 0x9C3E30E7; 0x2654687C];
   [0x3F148638; 0x85B7F9B7; 0x9EAEE0B4; 0x8088F4F2; 0x3A7CAFD7; 0xA741D270; 0xDB5B5339; 0x8973A806; 0x22DDCAA9; 0xAAF4E75C; 0xCBB763CB; 0xA2450A79; 0x16E5E3D; 0xBE1B3F2A; 0xCCECC258; 0x4B1061B2]];
  [[0xC9C8A23A; 0x2F28689A; 0x59341E8C; 0xD8FB2980; 0x375ACDAD; 0xD3617B26; 0x513ED120; 0x314FA469; 0xE2F8DF55; 0xFEB30225; 0x1F639D66; 0x29E001AF; 0xDBDC9737; 0xA175DDD4; 0x8015C048; 0x6A778E4F];
   [0xCC55DBA8; 0x4612651E; 0x2B3C7B06; 0xE853ADDE; 0x6E0B2E41; 0x14B2D0B7; 0xEE804E0B; 0xCA4F0872; 0xF893D931; 0xEA2AFCA5; 0x9BE51B1A; 0x6EB01891; 0x1F2769F1; 0xB0D8500D; 0xA47FFC13; 0x1303BA01]];
  [[0xB43811EA; 0xBED58425; 0x4E52E1D6; 0x57D7E536; 0xBF5EF913; 0x93DE67FE; 0x2713FC52; 0x2CCDA4E3; 0x8F1FA4BB; 0xC5C1B6F0; 0xA725295F; 0xA267A790; 0x2D219844; 0x13BB7D11; 0x75415602; 0x7FAF96A2];
   [0x4E4C3CE4; 0x7879EDF4; 0x3BF094F7; 0x9CD59A0D; 0x4A882A52; 0xD7976DEB; 0xBA65AFBA; 0x19EBBC10; 0x2D48D187; 0xABC37350; 0x1236B5F9; 0x5D5CA6C3; 0x915EAF61; 0xDFA55AC2; 0xE8735632; 0x6C54515E]];
  [[0xDC21B326; 0xB1CD06DE; 0xE4AE6148; 0xD6F6F904; 0xFA13BE52; 0x941B7545; 0xDF7CE61B; 0xD527042F; 0xD9C9BBDB; 0x1AB4495E; 0xBF6582BE; 0xA5CBE7C5; 0x41A1DA90; 0x1D0B5BA2; 0xA810954; 0x6F99305C];
   [0x40D3954D; 0x866C254F; 0x2E5A123D; 0x5DEBFF4D; 0xAD23124C; 0x14AB6FB8; 0xC6B13624; 0xAE3C32B6; 0x707528BA; 0x74075FF6; 0xE91D5097; 0x55DA7227; 0x6A9C3469; 0x450D3848; 0x2313EBA2; 0x15818A1E]]];
 [[[0x14125D01; 0x27BE68B4; 0x2482BF94; 0x87549114; 0x8D0C8AF2; 0xE8B70931; 0x11344A8B; 0xF38D32BF; 0x63136143; 0xCB7CDFD1; 0xA17D7DE5; 0x717954CD; 0x7C10DF5E; 0xD65BDD44; 0x4E821D20; 0x15C45F81];
   [0xD9C326C4; 0x7D425E66; 0x1C7B4BCD; 0xEEA0D61A; 0x8707E9C8; 0x41A8654A; 0xB4A8F46; 0xBA9E8F7C; 0xF2739871; 0xB96A24FC; 0xFD9C9D58; 0xA9BA022F; 0x2C9AE418; 0x59F7C297; 0xB0CDD468; 0x6B82C284]];
  [[0x58483FA2; 0xD4C5486A; 0xEDC6A022; 0x8F140259; 0xC43116F8; 0xE451FB0C; 0x65DF7628; 0x5368FE47; 0xBC70855A; 0xF0DCC6D; 0x472BFE81; 0xE726D87; 0x3C024F88; 0x9C64B716; 0x14FF6089; 0x1ABAE0D8];
   [0xB5A15618; 0xC0ABA6B3; 0x65CE0681; 0x71FAA6DF; 0x39A6F5BF; 0x3199E2C9; 0x85BCF47E; 0xD8EBFEDA; 0xC262A35F; 0xC3D57D3B; 0x269DFDE; 0xF0D6338E; 0xE6D0BF0; 0x9072E1E; 0x4128B1BA; 0x980E291]];
  [[0x4DE44CB0; 0x6A2023F8; 0x247A7D5B; 0xEA995754; 0x99102324; 0xD850D179; 0xA906B038; 0x126FDFE2; 0x577DF168; 0x4C3B3696; 0x9E3853EA; 0x9D3A9E07; 0x40ACE3A1; 0xBC21A51E; 0xC51DD652; 0x165065A3];
   [0xE4BBD96B; 0xF5B255B9; 0x3D94F9D6; 0xC1E91F80; 0x84768FCE; 0x7DDB5BB7; 0x5CA35823; 0x33F7ADF6; 0x33097882; 0x3667E174; 0x8F241DC1; 0x5FDC3BA1; 0x172CD7FC; 0x41F5C737; 0x7986FE8D; 0x64D4116E]];
  [[0x8C89DED4; 0x2FF0F505; 0xBBBD0897; 0x6507852; 0x1FAD2908; 0x62886521; 0x9F5F4D13; 0xB8A1362E; 0x6E9856FD; 0x83075FE6; 0x7CCEDC4D; 0x6B0BA27; 0x52750DD5; 0x9B81B51; 0xCB59D8F1; 0x12A96BB0];
   [0xDB43958B; 0xCA4BC3A5; 0x94C12E88; 0x6456C11B; 0xAC330EE6; 0x7EFA99FF; 0xF40AEBEC; 0x56973CAD; 0xC5D73A2A; 0x62522E6B; 0x90F4378B; 0xF4538CA8; 0x1BA585B1; 0xE5447FCB; 0x18376AB9; 0x6C3F50C2]];
  [[0xE1720FC1; 0xC0156EB6; 0xFFEE4BA3; 0xE0F821EE; 0xD0B530C5; 0xC0B4EF97; 0x1A47CDAA; 0x3BB116; 0x464EC84B; 0xA5837856; 0xE0E63A97; 0xD65BA195; 0xA375112F; 0xB22C0F5F; 0xA7F7BDC1; 0x18D81698];
   [0x91E78A50; 0x5FD3C5E5; 0x97D10A66; 0xE5EE4EB9; 0x9FA305DA; 0xF74BD085; 0x5485E038; 0x519BC676; 0xDE116ECE; 0x7D3E6E21; 0x4221F32B; 0x10D68B8C; 0x565C1614; 0xE41D74A9; 0x2E728554; 0x191561DD]];
  [[0x1C9BD19; 0x527CD255; 0x913FA68C; 0x1879769; 0xD76B7FCB; 0xE9BF7700; 0x2B92508; 0xCEA4EE41; 0x34D015A1; 0x739154CC; 0x44C3F451; 0xD1F1F1AC; 0x7905A732; 0x1DF5A4AA; 0xB67F7057; 0x81AFEB8];
   [0x671D0F79; 0x8A0EDEC0; 0x442928EE; 0xE99B4B79; 0x2C1557B0; 0x4A722AC7; 0x3021BBE; 0x95070ED6; 0x672C3F05; 0x9E1E6418; 0x89B0C1A6; 0x87337263; 0x8A3B13; 0xB67B8831; 0xB059BE83; 0x4F44986B]];
  [[0x2CB15C97; 0x9A5B3C9; 0xF9B4777D; 0x43E1B906; 0x66A5BC88; 0x3BAB3A64; 0x7D82E655; 0x276632BB; 0xD97D5CE2; 0xD09388D1; 0xCA1248C5; 0x26B0339D; 0x11F2A8BB; 0x5F0A241; 0xB7F68A8A; 0x1F498EBA];
   [0xD0DD019B; 0x265C09CF; 0x958B91C2; 0x1A0FE11; 0x5A389069; 0xF55D56ED; 0x1A18A889; 0x9E5DE2CA; 0x65A1799; 0x4F4C9D39; 0x7213B184; 0xB5CB916F; 0xB5D0926E; 0x1941E104; 0x2E03CFB8; 0x6EC375E8]];
  [[0xB57B1B5D; 0x80F444ED; 0x7D4EFD6C; 0x2E5315E7; 0x868CC07F; 0x9272EBA7; 0x31A8EA6E; 0x19EC814D; 0xF29FCDBF; 0x9EE92D03; 0x2E8408C3; 0xDBF8AB6B; 0xA103D807; 0xA0E845FB; 0x1CA3992E; 0x2A6A6B31];
   [0x1C391D76; 0xF58B6F6C; 0x13687C07; 0x9E385BB2; 0x6BAEBBF5; 0xF6EE205B; 0xA706C6C5; 0xB2D7D412; 0xCD887640; 0xCFE32A97; 0xD93A1136; 0x2783CFE9; 0xF4D34FA7; 0x601DE429; 0x6EA85459; 0x1E433BB8]];
  [[0xD618AD6A; 0x8BCB9073; 0x996FE814; 0x84CDBD19; 0x166793B9; 0xB1F5FFDB; 0xEDE62FB4; 0x5FA22BAD; 0x7019C1EB; 0xC1C1C394; 0x8AA77F0; 0x7A026191; 0xA32E5855; 0x26EE69D; 0x80B81284; 0x53563997];
   [0x5E0B9ABB; 0xF46C064F; 0xE8A0FE23; 0x39332D2C; 0xBE9ECC5; 0xBD50EE1C; 0x8DE1B166; 0x9B4A4CC0; 0x56713AAF; 0x4BBA7B7B; 0xF1C76C54; 0x2CA8EF64; 0xCEB309E8; 0x1022D9F4; 0x15A18D10; 0x4F1375BC]];
  [[0x9198331C; 0x9CF4EBA; 0x7D60EA39; 0x232CA52D; 0x2FC3A96E; 0x2C478089; 0x80CB5721; 0xC7F9A36C; 0x2D8802BE; 0xEDA98A0C; 0x3C41B152; 0xC7413048; 0xA74D701C; 0x479DF24F; 0x51869D52; 0x7A92C3F1];
   [0xF00BA577; 0xC1AB98B3; 0xB7778354; 0x5A687BA4; 0x157FB1D2; 0xF5A77B64; 0x81BBAFEE; 0xB9F746AE; 0x1BEE9D2D; 0xBA33EBDC; 0xD046655C; 0x6FE41BC1; 0xACC3A496; 0x2A8CB913; 0x6AC2B374; 0x7CBC537D]];
  [[0x538ED4B1; 0x55C19B5E; 0x61891DAE; 0x6AA0E456; 0xCD971AE7; 0xD77CA0C2; 0x70294F78; 0xB23434F7; 0x14D25513; 0x3B87D759; 0x8B94F435; 0x2A37CFD2; 0x3F3F32FF; 0xF63B0962; 0x98B5916A; 0x6387EFB9];
   [0xF35951D8; 0xB2826971; 0x996C5518; 0xD1DDCB0A; 0x3669304A; 0xA5E88B2D; 0xC53DEDB7; 0xEA5685BD; 0x6A446FA0; 0x2DD72E08; 0xEA074FF8; 0xFA2689EF; 0x7A8302C3; 0xC3430BBE; 0xE98D1CD5; 0x98A5073]];
  [[0x44EE6CC4; 0xCF5D95C2; 0xCE04027F; 0x5D5278B5; 0xC1D26E0E; 0xEA0F4D01; 0xAB2E71FB; 0xA79154F3; 0xDC59126C; 0x27BBA6EE; 0x632BEE8F; 0x269EB8B7; 0x53BB6C55; 0xD5894008; 0x222DDE2B; 0x7698DA12];
   [0xB5D03BC6; 0x826DF5A3; 0xE126406F; 0xFAADAD56; 0x68849D5F; 0x2EC70B64; 0x1D799E78; 0x9DDF8991; 0xD4DE8AC5; 0xB2AEAFC5; 0xE114AD71; 0x7A167F8F; 0x13AA2EDF; 0x9DCD07BC; 0x6651BD12; 0x531A5A3D]];
  [[0x82E7C32C; 0xDE7CE2AD; 0x2D0742C3; 0x2C9908EA; 0x56F7C69; 0xDA528D69; 0x704BFDCD; 0x1FE6E3EB; 0x79B0F586; 0x9C1EEDDF; 0x481E83F6; 0xF6F81FB; 0xE007286E; 0x17DB66C0; 0x1802CD99; 0x3607EC13];
   [0x6F216120; 0xCCB2B85C; 0xE51C2036; 0x7B9EA544; 0x5428771E; 0xB14CD361; 0x3C6BD02; 0x978C458E; 0xEACEB25A; 0xEA43C163; 0x6B85CBB9; 0xB590D2D7; 0x19C45D61; 0x10B8EB86; 0xA1FC40DE; 0x2E5AF3E0]];
  [[0x90D2EA3E; 0x465C6261; 0x3E11EFC6; 0x6B10583C; 0x24958F6C; 0x1E3A1132; 0xB3336EA5; 0xCB895C3B; 0x5F89EEA1; 0xCA995E60; 0x199719B0; 0x725FB30B; 0xF8061D92; 0xC6897E80; 0x2CFBFB75; 0x56680A53];
   [0xD13E5E25; 0xA770755D; 0xFB78D704; 0xC33F71B0; 0xA101B288; 0x7B2322E7; 0xC1075A9E; 0x3ED4A92; 0x4B8CB0D4; 0xBF435984; 0x60F8188C; 0x6C61DDF3; 0x4D04EA1B; 0x760339E1; 0x46CE38BC; 0x18B7FE13]];
  [[0x838C109E; 0x7AA91562; 0xEF910EAF; 0xBBCAE1A4; 0xA3F53427; 0xF3CAD5AD; 0xAA559EE9; 0xF8FA6F08; 0x9B872C03; 0x35DF7AA5; 0x8F1C0B48; 0xA3C6789; 0x3B1F9ABD; 0xE4106F6F; 0x7DAA3EA0; 0x51EE882B];
   [0xA97C031B; 0xFAE35FE0; 0x2FB341D9; 0x265CC7A2; 0xF7515098; 0xF99D1646; 0xA70C3101; 0x3630DCFC; 0x984A7736; 0xD492AE5; 0xA65956C5; 0x1E46ACB5; 0x9C39921B; 0x87E193D0; 0x71406E88; 0x1AA85A4B]];
  [[0x26B55827; 0x6875F762; 0x28C694F4; 0xC6E92CB6; 0x57E83283; 0xC3DA1CFB; 0xFC91E16A; 0x2DAD4640; 0x79E48FB; 0x27238EDF; 0x4676F002; 0x8262F37E; 0x7E20A097; 0xF1DF5685; 0x1D647DBF; 0x710B8830];
   [0x55F50EC5; 0xF521938F; 0x5A65EC57; 0x86E72C2D; 0x9E067563; 0x72E72E10; 0x2941350F; 0x1C572F37; 0x27E00FBF; 0x234F613; 0xE0605A65; 0xA33CCF1A; 0x9BE4C255; 0xFDB2433A; 0xDD7E45CD; 0x18374CEB]]];
 [[[0xCEEC3F3; 0x9E00FC84; 0xD2268DF; 0xA758AA23; 0xD36F482D; 0x5C9B3794; 0xE90303E7; 0xEE3F79CF; 0xD1BB3495; 0x22573217; 0xD2242A7E; 0x6D5C2063; 0x876A074A; 0x339BEDB8; 0x95CD5AA2; 0x63268703];
   [0x1B0CAE7B; 0xA86B4EF9; 0x3DB7D12D; 0x420985B4; 0x6B1CEED3; 0x99A3BB29; 0x3569FA9E; 0x2113B00F; 0x8E8BF2D8; 0x2C592420; 0xDB962B; 0xF74DD63B; 0x9758035F; 0x8F0523E5; 0x448F83C0; 0x4EA1D81A]];
  [[0xAAB1F908; 0x1183057; 0x324AC197; 0xAF94AE9A; 0x23710A59; 0x6BF3B50D; 0xC39A3428; 0x9B65A594; 0x2210C08A; 0x345E5C52; 0x23216FE9; 0x6D728DD6; 0x2E4F42C2; 0x9D09327B; 0x9505F44; 0x47504F62];
   [0xFB3AD9B5; 0x24F03D12; 0x439F3E25; 0x70E8DE3C; 0xAE5A62FE; 0x1FE89F0E; 0x4B98CDA2; 0x3B518A06; 0xC70FF3F3; 0x725AE18C; 0x2BA4952; 0x45765C35; 0xA7C32E49; 0xBAA6488D; 0xC5A2E6D7; 0x5D277639]];
  [[0xBD6F5DF9; 0xE3818693; 0x8307A5AD; 0x482D9357; 0x323D211C; 0x82B507F2; 0x92967D94; 0x9E382A71; 0xB3BFF973; 0x4327BB2A; 0xAC87D95A; 0x911FF5F4; 0x3BEF8BFB; 0xD2128961; 0xB8FA196B; 0x43E2ED58];
   [0xD5D4F65F; 0x74359D2C; 0x401FC20D; 0x7FE8B0D1; 0xC012734A; 0xAA9C0EBC; 0xBC05E810; 0x54BB07ED; 0x94C9B39B; 0x9744AB8; 0x47E3E6E7; 0x1B29E64A; 0x3B728BB9; 0x82082F86; 0xE159E167; 0x5DA4AF1D]];
  [[0xF80E5A20; 0xD838425E; 0x7AA52E54; 0x1701F0F4; 0x3B0EF4D7; 0x2BC3E024; 0xBD8C9C7E; 0x13DED370; 0x3853E414; 0x93A9BCB0; 0xB81BBA1; 0xBA752832; 0x69F51EC3; 0xBE267CE5; 0x81D034EB; 0x2DD13391];
   [0xEAB11B6E; 0x78E02B77; 0xD67C3B1C; 0xDC2C14F2; 0x87193F9F; 0x3407014C; 0x580D2A6C; 0xA5187CAC; 0x254FB63B; 0xA76AD3CB; 0xFA5EC4B7; 0x16A7A635; 0x358A7E00; 0x8B1E623D; 0xE428EB45; 0x12DED0AE]];
  [[0x42D2628B; 0xEC93FF3E; 0x4D6D15AD; 0xF3E153F8; 0xB269AFEF; 0x9C1D3EE7; 0x2596D285; 0x1DC9ED6B; 0xDA973D5C; 0x1D99A25F; 0x575656A3; 0x6D0CC657; 0x9BE5B314; 0xB5FBD573; 0x4BCB4F6B; 0x2D0AF381];
   [0x42992580; 0x813C6975; 0xD9C88B9F; 0x5F35F31B; 0xF1315EA8; 0xD62AC131; 0x20AEAF30; 0x6898E20F; 0x733A3518; 0x85A2C8AF; 0x42DFC623; 0x60BB0AE0; 0x7F5A3320; 0x5BE9C682; 0x795B27B; 0x78153114]];
  [[0x5BFB1A8F; 0xEBA2445D; 0xE3A37647; 0x23CA73DB; 0x9D6A2E8; 0x1D41C8EA; 0xB9CA389A; 0x837CB597; 0x1DAF5EF4; 0x66B0A05A; 0x79720DD3; 0xD1EC0B2B; 0x34EC20E5; 0xA4EBD633; 0x96CB4933; 0x3CBE3C4B];
   [0xEAB154BD; 0x5DFBCA31; 0x86B4B02; 0xA95532F9; 0xECE8177; 0xD6D5A014; 0xC1701606; 0xA2BD7647; 0x28947FD0; 0xA0513327; 0xFB8D79A4; 0x941ADE30; 0xA5399FC5; 0xE793B659; 0x7A2DAACF; 0xCBA91FE]];
  [[0xF5D6C8A5; 0x6EDE3A1A; 0x5B8C138E; 0x18C47EFC; 0x7B418D78; 0x997CB33C; 0x83E40686; 0x5269B9B0; 0x8A20DE43; 0x85054DDC; 0x9485BF29; 0xFF62C38; 0xEF78B00; 0x8D769D16; 0x98B54D2D; 0x53D43619];
   [0xC6B6FC2F; 0x7CAC1C68; 0xBA127B4F; 0x4F4FB16B; 0xB003EE2B; 0x613B15EF; 0x7121BA05; 0x51D36B34; 0x70C1BD53; 0xA33E6C36; 0xEEF75FCD; 0xD786268; 0x425A7776; 0xEE9064EC; 0x1B720CA1; 0x640F4FE3]];
  [[0xDE5EB014; 0xD80E5DC; 0xFB6F0966; 0x8B87C2C5; 0x7F7A8B3D; 0x440E812F; 0xD930CD64; 0x4129E117; 0xBB1AD89B; 0x19224A1F; 0x1B9CF977; 0xFF6582C1; 0x2ED4B99F; 0xC279A28; 0x61859FE3; 0x5985FA32];
   [0xFD425835; 0xE807ADC1; 0x52CC2AFA; 0xD0F0F7C6; 0x5C43ECC0; 0xF3B06F65; 0x5F15A3D0; 0xC308696A; 0x97174601; 0xDC3AA7; 0x81B1A96F; 0x8FC6B2DE; 0x2071B8F4; 0xE4646A2; 0xE92B7E14; 0x4D8B4DA5]];
  [[0x25133E4D; 0xA3719219; 0x1211714A; 0x76EC5148; 0x75C6B433; 0xB5C0EC56; 0x14240932; 0xE1DFD7B3; 0x239466CA; 0x319F8E99; 0x35FED9C2; 0xA6D0F9EC; 0xC41F492E; 0x19FC4B44; 0xB8CF87F2; 0x36D24698];
   [0xC74D1AAA; 0x789735C0; 0x6B21C410; 0xC0DBF5F; 0x4DCAACF0; 0x157DEB3C; 0x9826FE13; 0xA7D53A56; 0x8E151D58; 0xB4F2E884; 0xA51FDECE; 0x6CD528BD; 0x6F669DBD; 0x7EF7FA0E; 0x666F1F7B; 0x5250D79D]];
  [[0x2CBADB6; 0xC33D5CC3; 0xC56345D9; 0xF51C5ABF; 0x3B5E86CE; 0xB2FED49; 0x480D2793; 0x86599A1D; 0xA8F96CB6; 0x15CA7826; 0x5DA5D7C0; 0x577868C; 0xF8B7F740; 0x292603B; 0x85445AB2; 0x49C31FB5];
   [0xEFDB9DA0; 0xCFF51BEB; 0x9DA2096C; 0x1C552A23; 0x416FD3D7; 0x6FAC5D64; 0x5F5F2D95; 0x7F6CD9A7; 0x1E91AB28; 0x98BD5C7F; 0xDAC6FFA2; 0x95132D69; 0x4C6BDC19; 0x5611638C; 0xDDCBF9E; 0x79320E84]];
  [[0x28AD172D; 0x2B07BCB2; 0x9AABAAA7; 0xFBD85553; 0x715A69DA; 0x466FF9B8; 0x5DF8355B; 0xA5EE097A; 0x94527A84; 0x5E81EF36; 0x62E79307; 0xFD82858; 0x7A0154D8; 0xF77154C6; 0x17F87D8C; 0x706EA857];
   [0xEDF504A7; 0x696280B6; 0xD58FD9E; 0x8E2FDF94; 0xA6463DF; 0x4582C065; 0x68B7389B; 0x5DC2DECD; 0xD2CFCF3C; 0x98D77559; 0xE277A1EA; 0x4E652C83; 0x22B153DC; 0x81FA94F7; 0x27250748; 0x6B86C4CB]];
  [[0x9050FD42; 0x31FA2A56; 0xFDCEFA17; 0x72FEACD1; 0x84A8F817; 0xDC60ED63; 0x24332D2E; 0x584DADB8; 0x3C47EB6B; 0x44D7CF2E; 0x9A6BC268; 0x905E2D0E; 0x6EF013BE; 0x501FE448; 0x999445A7; 0x733E11DA];
   [0xB4A90B6B; 0x7EBF9F56; 0x4364F578; 0x526D5685; 0xBE950B53; 0xBF9B3EF7; 0x73D295F8; 0x6C5EEE0A; 0x3F9CFD38; 0x4A79F9A7; 0x5C348121; 0xA8C15D28; 0x7BC3EEA7; 0xDB33882F; 0x1C95C7DB; 0x164B6C98]];
  [[0x876E8E37; 0x99A0B2F1; 0x7D53142D; 0x9540376E; 0x6F20C705; 0x9D87809D; 0xB0FDE5DE; 0x1305C33B; 0xDF9311EB; 0x172DFA23; 0xB8B9A7ED; 0xC55A603C; 0x398CDDF1; 0xF4426DA9; 0x93395515; 0x7EE621B0];
   [0x7190296B; 0xBBD0B9E9; 0x817E9802; 0x244FFECC; 0x71D598F; 0x572B5387; 0xD2B681E2; 0x8314EF61; 0x639B8713; 0x8F8CA790; 0xF265F881; 0x81FD3C40; 0x78DB97D0; 0x5EC87EA; 0xE4CB4B7D; 0x7C279328]];
  [[0xA3B4A536; 0xF385F057; 0x4844689C; 0x14C2337F; 0x8B5FFFB0; 0x3523F9A9; 0xA5E078C2; 0xF5E10A66; 0x9EEAC34E; 0xC5DDD869; 0xED24D386; 0x16348B68; 0xEBB0A580; 0x90992D06; 0x47485A9; 0x1BD2DB];
   [0xDABC2B30; 0x871A178B; 0x6B5F7DC4; 0xEC9674EC; 0xAC23E5B0; 0xBB3B1C57; 0x44A658A1; 0x6DBB0530; 0x61E53517; 0x28B031C9; 0x64182250; 0xC1AB8ED5; 0xD1333B9E; 0xDA3FE27E; 0x71AD4520; 0x4652F37C]];
  [[0x7B2186CC; 0xB9C2F894; 0x57CF825F; 0xFA2E5BE5; 0x26232D47; 0x71A9C723; 0xEB1F6B74; 0xD990D5D4; 0xEE869587; 0x526A74F; 0x79F385E3; 0xB29047B1; 0x7588AABE; 0xE9555EB3; 0xE8EDC982; 0x379D31BA];
   [0xDEC275F9; 0xD1354749; 0x38EAAC97; 0xDC580016; 0x894811E9; 0x23B6F54D; 0x838B2AE0; 0x8A2356F8; 0x332F83F; 0x5ECBE075; 0xF248814B; 0x1DE54B95; 0x963938AE; 0x3B4D634D; 0x7A5F8CB0; 0x4C8888A5]];
  [[0x866B8E1D; 0xC6A93408; 0x3FA8DDAC; 0x33DCDEAC; 0x5DBEC7A8; 0x7F21F911; 0x888CF7C1; 0x4C54D4CB; 0xB81E81C5; 0x3FBBB373; 0xC50F3415; 0x2946B9BB; 0x72265924; 0x8EA5487B; 0xBDEBBFEC; 0x3D570399];
   [0x1939A079; 0x86C128FF; 0x9509F043; 0x4B37E081; 0x7209D23F; 0x42991231; 0x68A1134B; 0x22D2D207; 0x34D6A734; 0xA5AF7A38; 0x2ED7FCBF; 0x752A8190; 0x80FD1D18; 0x11CC5870; 0xD189B4DD; 0x1D9ACAE3]]];
 [[[0xBD6BEAA4; 0xE47BFD7F; 0x56A13CBF; 0x6D4E6C12; 0x955E8CFA; 0x66944291; 0xE17CB432; 0xA5D03765; 0x87350701; 0xB39957CC; 0xC31F2D8B; 0x5442D545; 0xA27161B7; 0xB260AC7D; 0x272AA5A0; 0x633DBFE5];
   [0xCC5C98C5; 0x6273DAA0; 0xF7F5EE34; 0x18117A87; 0xFFC6434F; 0x70638CFD; 0x540FDE06; 0xC3F386EE; 0xD18B02F7; 0xA97159E3; 0xEB612449; 0x10E18495; 0x3D9E5A31; 0xD572354C; 0x9A2301C1; 0x2642E9F2]];
  [[0x442143BC; 0x1048593; 0x12B5CE6C; 0x15299B1; 0x5F5AEA95; 0x7DB0D76F; 0xD2FB7690; 0xE9E3DA6F; 0x8904CCF0; 0x6E4C64AB; 0xA49B6CCD; 0xDCBD06CC; 0xB0ABB0C1; 0x7258A3FC; 0x59FC214B; 0x7DF0E94];
   [0x1E7CC675; 0x58804CBF; 0xE80CFBF9; 0x26CB78C2; 0x9AE03E99; 0xD0A31AF0; 0x5C86A88D; 0x121F1D3D; 0x2507EBB7; 0x42172604; 0x2BBA126B; 0x1C047782; 0x102027F2; 0xE85C59C8; 0xCD8232E8; 0x461D9C09]];
  [[0x200770DE; 0x97B3842A; 0x77C0536B; 0x4647F3FE; 0xBF7476D9; 0x37CC9562; 0x2DEA54A8; 0x90D29C5C; 0xC21BF888; 0xCD666644; 0xC5CF18C8; 0xEAE36F2F; 0xFD93F2C5; 0x903D889A; 0xE5F67DF4; 0x37ADD7E];
   [0x995AC5D0; 0xD38FA2DC; 0x98A2A549; 0x69D19EA1; 0x5E8F6D58; 0xEC7814C7; 0x247C0E89; 0xDD241DB2; 0xE5CF278B; 0x5421BE26; 0xEDACBA69; 0xCF675E38; 0x21F9C045; 0x397356A1; 0x49E0BF07; 0x317C547F]];
  [[0xF5C55ABA; 0x2EB59913; 0x99485E9B; 0x805C61A1; 0xB4C7CEE9; 0x94D81C7E; 0xA9DEE0B1; 0x2DD3516F; 0x3353561D; 0x4C59CC21; 0x5EE9F7B9; 0x375C19F3; 0x27FC9486; 0x89DE4E41; 0x24995DF5; 0x68487AFF];
   [0x6D549CB6; 0x15B98DF0; 0x9B4544BA; 0x4B884EDE; 0x1B3D89C5; 0xE2CEA206; 0x2648786B; 0xCE8945D2; 0xF1272125; 0xB209B7C; 0x2BAFF0D1; 0xEAB0849A; 0xE971F89E; 0xE5F18031; 0x766B7A2F; 0x4379379C]];
  [[0x29B51FB0; 0xFC10C847; 0x1E012F1A; 0x148AE7AF; 0xA20D8DBE; 0x75A5A6FD; 0x8FA0842C; 0x30148FCB; 0x126F8253; 0xA64E438; 0xAECD60D4; 0x72C3C042; 0x38A21DFB; 0x6C3589C8; 0x6BB0D5D0; 0x64BA4594];
   [0xD464168A; 0x6E818AA1; 0x1743888E; 0x96C68C33; 0x672EC8E; 0xD52C73F; 0xA8B446E9; 0x56F9E940; 0xC0E008C5; 0x68F43782; 0x96201134; 0x7C0D8BFE; 0xB3F5942B; 0x66C97894; 0x89BE1E99; 0x8579CF9]];
  [[0x2828506B; 0xE863C3A9; 0x9DF36CD1; 0x18C6E29D; 0xC2AD4DFB; 0xA2DF177D; 0x8B5F6B6; 0xD0E200A2; 0x77B670DB; 0x6BE0AF75; 0xBD46EEB0; 0x750E92FD; 0x87F96AD1; 0x21E21B37; 0xC89C7708; 0xC4F884E];
   [0x630AF761; 0xBCCD3155; 0x19F3528A; 0x769F9CED; 0xBF9CAC65; 0x2572864D; 0xF43268F0; 0xD276411C; 0xA2C48843; 0x12D9FDCF; 0x7AAF1CBC; 0x320A13DF; 0x630820CF; 0x3D4DCB95; 0x28553384; 0x5F471E21]];
  [[0x9C6DCC7D; 0xC14F1D4D; 0xBC2EA2FA; 0x9CEA8E3A; 0x4F1DE28B; 0xD854AEC0; 0xB0EF66E2; 0x5FAFDDCE; 0xA190ADC7; 0xD5BAF034; 0x52D641A; 0xFEB3DE5F; 0x51F9F744; 0xA336FD9A; 0x2E516669; 0x11E7DE0F];
   [0xCD862CD; 0x46B24027; 0x22667C9F; 0xDB3CE4A2; 0x8E3438CF; 0xDF1BD2A2; 0x94E0825A; 0xC20E6ECB; 0x4EDF3C36; 0x8678222; 0xD86E0625; 0xCD547458; 0xC1C8975A; 0xED9FFDFA; 0x60FF6B18; 0x7709A34E]];
  [[0xD6EF8BE; 0xEE6F55D7; 0xC47749F3; 0x6BA29662; 0xCB5824F0; 0x505BEBB2; 0x7CE139AF; 0xDAA39E01; 0xBA4EAAF5; 0xC73FFE67; 0x1216FBC5; 0x1AC8354F; 0x7C029B38; 0xFA600D70; 0xB77E8711; 0x1DEF1E98];
   [0x2199269A; 0x9EA77FEF; 0xA4B5E402; 0xCC5F3E27; 0xFE20DCF6; 0x998BF96F; 0x54252277; 0xCF543A71; 0x71A66685; 0x9D767F87; 0x860B1EC4; 0xE1AA8F5; 0x9437E2D0; 0x3979C394; 0x855C635C; 0x55CBC282]];
  [[0xDB0F28BC; 0x798D8087; 0x90209D22; 0x80BE50E6; 0x69AE2A50; 0x6B14A1E1; 0x21B5A02E; 0x504AD87B; 0x81938DD3; 0xBF92B621; 0xE927A712; 0x1A209438; 0x3C613F5E; 0x3DFC548A; 0xA3C2CC7E; 0x1E6E3311];
   [0xA91BB2B2; 0xE46AC0C4; 0xDF9BA7FD; 0xAC89BB09; 0x4403839; 0xC87555DD; 0xC6BB4379; 0xB1460C86; 0x5FC6E594; 0x3AD253EF; 0x393CB89B; 0xB66B2FB7; 0xE1BAB087; 0x1411B9FD; 0x22C9CE4C; 0x84DD6CD]];
  [[0xE480DDEB; 0x676D50EE; 0xD14909D0; 0x588EC4BB; 0xB5DD3FC6; 0x509A74A7; 0xAA6870F2; 0xE616EEF3; 0x98C5A7E5; 0x76F235D9; 0x77FFB2E6; 0x7A925C55; 0x955213B7; 0xA78A158; 0x28FB60B7; 0x7B068B9];
   [0x50380E64; 0x7610C821; 0x282776C2; 0x6E7C80CE; 0xEEBD3250; 0x9F67368A; 0x85FB7863; 0x932F6E99; 0x924A519D; 0x41FCC562; 0xB499B4AF; 0xC099DE16; 0xAC9C7E76; 0x10764D48; 0xA1BABCE6; 0x66C85BF9]];
  [[0xF5CB951F; 0xB080963F; 0x2A16F27F; 0xD9A5580B; 0x4FCEE6ED; 0x5840499D; 0x4F3B33D4; 0x5F4704D6; 0x82256A05; 0x2A13993; 0x92365A7E; 0x5713E019; 0x6F38944B; 0x4A2F7BA6; 0xA47662D3; 0x14B58D5B];
   [0x5900EFC8; 0xC219E300; 0x4FE2DFC9; 0x45707A50; 0x6863DF90; 0xCE4FACD; 0xC6BCDA9C; 0xEDB31912; 0x85B6CF7C; 0x3E24A0D6; 0x358DDF3B; 0x6365ACDA; 0xF2CB0823; 0x10FD0871; 0x1DAFE4C7; 0x51D58D3D]];
  [[0x291B51D2; 0xE5B64EF4; 0x1A7A445D; 0x70C52EDB; 0xC1E8DF63; 0x758D0DC9; 0x677FE82; 0x55328AB3; 0x7F3A1866; 0xAF4221FF; 0x8C04E9CA; 0xDE1BA109; 0x4C577D77; 0x26F0D086; 0x6D494F73; 0x6D5D3FB1];
   [0x451F8B8C; 0x3C0153EB; 0x5FD3ED6A; 0x6A9B03D1; 0x175180C3; 0xDF442C11; 0x4DD99376; 0xB205EB51; 0xEB489DE3; 0x28E9C5FF; 0x44766908; 0x225CEB09; 0xEB193B68; 0x1DB1F7E7; 0xDF27292C; 0x364B9E6B]];
  [[0x728F33A8; 0xDC6E723D; 0x3A0930B3; 0x8ABEB28A; 0xD024D8B7; 0x584B13CA; 0xDBDE780E; 0xDCDC5BB7; 0x161D9801; 0xA2AD762B; 0x6CE5F18A; 0x46EBC8A9; 0x7EB1CD22; 0x97A0BA52; 0xE22D91D5; 0x58BC4DAA];
   [0x9F01D49D; 0xC06F0B25; 0x3533732B; 0x8236F2AD; 0x7C6C24F4; 0xE3DF9BF5; 0x6AA1E1F0; 0xD60FBCC7; 0xB70A307F; 0x8DDBB9A2; 0xC6071C49; 0x61BB56B1; 0x1ABF19BD; 0x8D3446D7; 0x46387989; 0x44AF2FD8]];
  [[0x86B1B8AE; 0x25ACEB4C; 0x67CFD1AA; 0xB5B0A7E3; 0xB0F063B4; 0x87B3C5CB; 0x6F03BE41; 0x7F429274; 0xD82D7749; 0x412836E0; 0x535225CC; 0xD9B1603B; 0x1590B41F; 0xCBF1A827; 0xFE159BF9; 0x47C32D83];
   [0x369026E5; 0x7A147456; 0x2691A87D; 0x4A21DAB1; 0x61818C2D; 0x6D3EA4; 0xD548A261; 0x56006BDF; 0x1D7DA713; 0x8632A909; 0x26E387A5; 0x859839DD; 0x7FF52CF4; 0x41E4D9D9; 0x85A8F21E; 0xE21329F]];
  [[0x626902CA; 0xDF4AF1E0; 0xEC50A5FF; 0x339CD3CD; 0x98DD7A01; 0x44B2ABBA; 0xCC7AC1A8; 0x47A4DA46; 0x1EA0F3A8; 0xA6925341; 0xC23AA0AC; 0x46F82C17; 0x386897AA; 0xF0394E44; 0x9D5AA759; 0x601F9A55];
   [0xEF324E1E; 0x194F939F; 0xE2F35782; 0x188BE442; 0x5683B3DD; 0x4B2FA7C1; 0x44300367; 0x9F2737A6; 0xAFDF269E; 0xB72F7E8A; 0x7A8A5232; 0x5FFD8755; 0x43299A6C; 0xA1641CF0; 0xC4D1E057; 0x1FDA30D5]];
  [[0xD94B7DD2; 0x926373C4; 0xFAA5C280; 0xE9882CA7; 0xC1D821E2; 0x358F82F6; 0x8812649A; 0xDF981826; 0x10D267E1; 0x96ED4507; 0xF7DF2D84; 0x72253BD1; 0x1F09BC6D; 0x78F13C38; 0x15D1F353; 0x23C79F0];
   [0x65E1924F; 0x5E357E1A; 0x18CC9432; 0x827A8C83; 0x8696C800; 0x9A2FF5D6; 0xE26AB439; 0xDE825B6A; 0xA646B303; 0x34C74673; 0x50657C92; 0xFBFD424E; 0x1F96EEC2; 0xAAD263D9; 0x42FF59EC; 0x78D93F6C]]];
 [[[0x4ACCAC90; 0xEF807EEB; 0x83EFEFD0; 0xEA3708EC; 0xAC470AEC; 0xB3F56C3D; 0x4BB6B4A8; 0x467461D; 0x455704F7; 0x9E2D3152; 0x95097282; 0x957F5FF6; 0xAEADBFBC; 0x1BBA5CCA; 0x829F221F; 0x5D64A8B0];
   [0xDC012583; 0x63B30E25; 0x6E8E7E4B; 0x739D6C4D; 0x108F21C6; 0x4DB4BA8A; 0x8E217429; 0xE4D0991D; 0x747D489D; 0xDFEC43E; 0x3F6623D2; 0x759C611C; 0x1C16C550; 0xBB3166AE; 0x46E761A6; 0x1097FE41]];
  [[0x2774936E; 0x5CACE928; 0x97A7BC86; 0x7D88CE3C; 0x2732B6C7; 0x7B5F9D75; 0xA9623A78; 0x31E096D2; 0x8F2A6C6F; 0xED0B1A7F; 0x8A38C329; 0x47F31AC0; 0x8AE3E440; 0x65FE20B4; 0x8FF8D87D; 0x5BB3DF72];
   [0x394AF7A9; 0x5C361D56; 0x4A967882; 0x37A95802; 0xC3D24749; 0x2037A09; 0xA9EB6A87; 0x623CF773; 0xCC9980AC; 0x4D09B042; 0x4C258646; 0xC1EF17CA; 0xEA522FA1; 0x54C55D4; 0x1459D247; 0x756B405D]];
  [[0xFF7BCBB8; 0xC88B5D92; 0x33BB4D7F; 0x37E62C2A; 0x93850D2E; 0x63DBECFC; 0x5DAF279B; 0x282E1896; 0xB2FD8FA2; 0x90226257; 0x69A65468; 0x68215F8C; 0x56338A49; 0xAEBF43D5; 0x38D7D063; 0x35A40A0];
   [0x61C724FC; 0xEEEE462E; 0xA58C2B0C; 0x660F015B; 0xE16621D4; 0x627E0736; 0x5D724668; 0xD423ADA8; 0x6B777C4C; 0xF98AB83A; 0x5DC968EE; 0x4F5FEC82; 0xDF9BE0BE; 0x4AC7CAAA; 0xCADCF93D; 0x6F7E06DC]];
  [[0xDE36D484; 0xCF90CB74; 0xED61EEE; 0xD511A70F; 0x33798A5C; 0xDBF5689E; 0xDAA5D75E; 0x81900CF3; 0x84CA34C5; 0x854460AA; 0x39220C74; 0x3C00E7B5; 0xAB33422B; 0x4E7CE464; 0xAB536B00; 0x22221BD4];
   [0xE50DFFEE; 0x718695F4; 0xD103C522; 0x466D642C; 0x6EC72083; 0xA01B7070; 0xCB7675DD; 0xD29C046D; 0x605F249C; 0xA2AF1025; 0xEA9111DF; 0x3BD414BD; 0x7D037C23; 0x8DCEC509; 0x176546F8; 0x750E0282]];
  [[0x824344A7; 0x452C27FF; 0xEC399A05; 0x85E64CC2; 0x3442039C; 0xBE15D09E; 0x6A323861; 0x875022BB; 0x61866CC9; 0xD984BF9D; 0xEE6E8271; 0x4007F668; 0xF107566D; 0x90E14CC; 0x1131FCD8; 0x8C2354A];
   [0x8F5FFF23; 0xF9C86299; 0xAC995497; 0x97788808; 0xD43FDCB9; 0xBF6CB8B5; 0xB72DFB91; 0xC75BD147; 0xE15359C6; 0xA537A636; 0x93F6292F; 0x313458F3; 0x2BF3CE59; 0x96B6866; 0x275BB1A8; 0x5618ACC8]];
  [[0x6DD4F47F; 0x434DBAD7; 0x93A13416; 0x7F24804B; 0xDCFDC8FB; 0x54864638; 0x8DBB2A99; 0x94D15AAB; 0x3B08BE5D; 0xC60D064A; 0x77113B1C; 0x8D52AF03; 0xE649649D; 0x795F3549; 0xA2F7B890; 0x6C50A7B3];
   [0xBA7BE66C; 0x1243D102; 0x24A4F3D5; 0xD52A9D65; 0xD940B299; 0x84F3A7D8; 0xA6C5F96; 0x2D0D0561; 0x55AF49E6; 0x68147309; 0x2D484160; 0x1AD2CC29; 0x41613C8C; 0xD9836664; 0xE1444926; 0x116D32D9]];
  [[0x1FC8967F; 0xBFB347E1; 0xAFD35E6A; 0xAB2F0DE9; 0x3D717B63; 0x77C822B9; 0xEFE76953; 0xBA49F6D5; 0xC3729C1E; 0xC4FF8395; 0x1792651B; 0x5E525199; 0x220793FE; 0xEF736F1E; 0xADA2DF7C; 0xC1364DE];
   [0x5E0A04FB; 0xE364A029; 0x2A1CB8F; 0x78CF4CC; 0x884EB5E8; 0x2C6EDCEC; 0x34DA48A0; 0x361E83F1; 0xAE22EE07; 0x543FD798; 0x72A9D550; 0x80A0521A; 0xD5D883DE; 0xCEEB2763; 0x744C8616; 0x4633AE13]];
  [[0xEFC180BF; 0x386138C2; 0x5025C16C; 0x62884C83; 0x3AEF27D9; 0xC846079F; 0x8815E30E; 0x85AC6CC5; 0xD26A2BD0; 0x45705559; 0xEEDB70C4; 0xEF1649A0; 0xE4641EFD; 0x2596F146; 0x93C7B04A; 0x61E89F8E];
   [0x71CA85D; 0x6EBD7C9F; 0x1C15ACD1; 0x5C9951AE; 0x8AE934A1; 0x9DE96A7C; 0x481D190E; 0x4B32645D; 0xA79C0B4A; 0x8D0E2B25; 0xCD74DA50; 0x8EF7BB2A; 0x7920CC8; 0x9481D2DB; 0x8736C183; 0x1BD7A22E]];
  [[0x64FCB568; 0xD4F27500; 0x5C300E98; 0xD92CBB70; 0xCAA8D9B9; 0x5A971902; 0x1C4824C9; 0xA5542DF5; 0xC84D2CCD; 0x7B469D1B; 0xA2566F40; 0xD3FBFEBB; 0xE8FA73C0; 0x89511F69; 0xB162F797; 0x6FFD125B];
   [0xC0FA653C; 0x961C9532; 0xBDB0C77A; 0x7BD198; 0xEEFC3BE3; 0x1853303B; 0xC4A33E36; 0x6D50323F; 0xE367E4C9; 0x9798C97A; 0x12A538A8; 0x9E146B07; 0x4996D58B; 0xBFB3E819; 0x9022E072; 0x5438D6F6]];
  [[0xDD4E810B; 0xC58B1061; 0x8FD29C69; 0x7966E96A; 0x2E65F9B6; 0x7E2D9FD4; 0xFC48055F; 0xA8F68084; 0x2DC5A983; 0x545CAE01; 0xA2596608; 0xC9D198C8; 0x4208B520; 0xF9D9BF5D; 0x7E6883FF; 0x1C0C3F5A];
   [0x5CD4D87; 0x6D7B983; 0x9E9F9F35; 0x899A60E8; 0x5119AAC1; 0x1465EAD5; 0xF329991; 0x3EDF1E36; 0xA0646C43; 0x86BCB01E; 0xEF4EBCEB; 0xA6EF27F3; 0x54EB8E6B; 0xEAF04AE6; 0x8227047; 0x48051E62]];
  [[0xF245F1E6; 0xA84EFDA5; 0xEB80F18C; 0x49759EF3; 0x1142EE5C; 0xFB8A3A4B; 0xB9EE65D6; 0x62907A8F; 0xD68D862F; 0xC5FD7DC9; 0xE1C81BAD; 0x1F791D0F; 0x8C4757BA; 0xFED4DEA3; 0x2FA4C20E; 0x41A50E3];
   [0xF454E68E; 0xB8F7EE7A; 0xCBAB4836; 0xB68F9599; 0xF1872586; 0x3FB9C650; 0x9FDDEF61; 0xF967C768; 0x70E86E8E; 0x8A2683AF; 0xE523AD78; 0xAFD29242; 0x9DD43A6C; 0xBA4EECA5; 0x7BB2E1AE; 0x37447896]];
  [[0xF86EFABC; 0xE5378393; 0x45F692E9; 0x336470CA; 0x66E0FBDF; 0xC5F0022C; 0x3ECD3196; 0x189D81D5; 0x771F9C1C; 0x416D97CB; 0x223448F1; 0xBF2B6B77; 0xBE42A9A6; 0xA4F6355A; 0xB9956AAC; 0x1C15439A];
   [0x7DBFC8B8; 0x20CA319; 0x5C7E4025; 0x25A1DFD1; 0x4D06AAA0; 0x5CF6FAD8; 0xAC1B211B; 0x8221BAD8; 0xAE4C7F7B; 0x68E7DBA3; 0xFEF7CB4B; 0x4C167FA9; 0xA34935DE; 0x207A14B8; 0x645A14C2; 0x1476CCBD]];
  [[0x54E05676; 0xF0467D89; 0xE04530FF; 0xA1987E17; 0x2E3A997C; 0x1E3010C2; 0xEBEF74A7; 0x4001E89F; 0x32572D28; 0x60C65566; 0xA562BF8F; 0x410C49D0; 0x782CE10C; 0xFE591AD0; 0xC3016AA6; 0x272DE301];
   [0xD3FD089D; 0x7AEFA3F7; 0xC68CE61E; 0x5141E3CF; 0x919EF2CB; 0xEC6F871E; 0xB15754CA; 0x9E1F2C4F; 0xB367A8E1; 0x4E053A03; 0x7A946A07; 0xB5447BAB; 0x5934AC68; 0xCA9D154A; 0x9DCC05A4; 0x2C24448B]];
  [[0x7230B721; 0xDDDCC6F7; 0xD59A4D7D; 0x3AB7517B; 0x73E75A94; 0x202A427; 0xF45E584C; 0xEB9CBB02; 0x4D193D46; 0x879F2040; 0xFD5CCEC5; 0x897A3D49; 0x5E795234; 0x7B22D3AD; 0x35E6EA1D; 0x103A74B9];
   [0xDE267F29; 0x83AD405E; 0xCD4EF83E; 0x9C0750BC; 0xAAF8C955; 0x1192B08C; 0x93618DC5; 0xD983183C; 0x51FA4692; 0x3F142E9F; 0xA9E77124; 0xF9242D3E; 0xC733EFCE; 0x44F55EA; 0xBFB0E74D; 0x3FCE259E]];
  [[0x4E061902; 0xB4A72C27; 0x8271B5ED; 0x46D49685; 0xC565B666; 0xE640CD1C; 0x8C432368; 0xFEE64A69; 0x7C9309AA; 0x9B245FBA; 0x1FD0DCD7; 0x2489BB01; 0xB4ADB680; 0xBE612E5C; 0x1905845A; 0x7B828C73];
   [0xAE7E8E5F; 0xB205C233; 0xDDE4865; 0x67C2AC05; 0x556BCEFF; 0xC29416F4; 0xE7DE42B2; 0x3A94801D; 0x8E9195AD; 0xC79768DB; 0x702232BD; 0xF701EAE5; 0x769E819E; 0x7093880E; 0x85575FE1; 0x7385CFB]];
  [[0x552D7645; 0xBE89A89F; 0x4C7C1F2D; 0xC1406B55; 0x9C11B663; 0x123A5BB3; 0x275B4F27; 0x1925904A; 0x11F1A12B; 0x94D33687; 0xD3F31833; 0x446FD57B; 0xA29D4040; 0xFF6FF5D; 0xAE52039A; 0x35355FF6];
   [0x7DE14B02; 0x74B05575; 0x7A47B576; 0xD2E7C963; 0xE99D0433; 0xD391E9D; 0x50CCA807; 0xA4DC3929; 0xA2AF3088; 0x81694449; 0x55474A7F; 0x9222E265; 0x2C2AD9EE; 0xAB5C4452; 0xF7EC7C2A; 0x5810784D]]]].
(** lines 19080-21796 *)
Definition lut_512B_32 : list (list (list (list int))) := [
 [[[0xFFFFFEB3; 0xFFFFFFFF; 0xFFFFFFFF; 0xFFFFFFFF; 0xFFFFFFFF; 0xFFFFFFFF; 0xFFFFFFFF; 0xFFFFFFFF; 0xFFFFFFFF; 0xFFFFFFFF; 0xFFFFFFFF; 0xFFFFFFFF; 0xFFFFFFFF; 0xFFFFFFFF; 0xFFFFFFFF; 0x7FFFFFFF];
   [0x2383127B; 0x9F34E17E; 0xCF48CEEA; 0x4C79D571; 0x494E1BED; 0xA33463BC; 0x3A5DA27F; 0x9D80747F; 0xC2F4174A; 0xDCBD09DD; 0x2147B2E0; 0xE8307A8C; 0xDBCF9AC9; 0xD1D3CCED; 0xE98DEFF1; 0x778FFEC2]];
  [[0xB67DA584; 0xCE514E6B; 0xE19C2094; 0xEB51443B; 0x9B071A6E; 0xC8E8F54B; 0xBED2A243; 0x239C53FD; 0x2AE8E157; 0x67D47B7B; 0x5550826E; 0x46DE3B7; 0x17723575; 0x2F7DD21E; 0x11E8E247; 0xE6EABDD];
   [0x48600734; 0xF204F0D6; 0x343D6475; 0x4B3054C; 0xF7E6D181; 0x707BD9D8; 0x6B353E20; 0x535CEC32; 0x108C5FE7; 0xA185FA95; 0xB573367F; 0x7033EBFA; 0x46552D77; 0xEC54E36B; 0x729C9EBA; 0x235E6C1A]];
  [[0x8B28C0DC; 0xECDCEE63; 0x36AE99A1; 0xD4E35B40; 0x464A3D2F; 0xDACC813D; 0xDBAF282E; 0x8D92802A; 0x7D8757F2; 0x652CFF9C; 0x7F5A8471; 0x2C1BCBD9; 0x16C3679A; 0x10192E2; 0x7529DB85; 0x56269496];
   [0xD5F89B94; 0x7480BB90; 0x1E46EDE6; 0xE01FE3D8; 0x4E57E6F5; 0xC1843163; 0x91C2DF63; 0x5F8C6884; 0x5FA2DC4D; 0x42E01ED6; 0x8FF5A769; 0x629C95CD; 0x6EAB4807; 0xE8C1637; 0xABD9BB6; 0x1C41FB66]];
  [[0x6ED32E5F; 0x6B509B4F; 0x67C95F17; 0xC62AFB25; 0x5CE4762A; 0x352D4B7A; 0x9AFA6ACC; 0x33135815; 0x6D550B2; 0x168B5654; 0xB528DF40; 0x254DCCE0; 0x222C9415; 0x422ADB9A; 0x3D2F923E; 0x6FC0F2CE];
   [0x59359CE7; 0x3CC08723; 0x91A4DC50; 0x1779C0CD; 0xC8B9922D; 0x1205971E; 0xC13192A7; 0x199F8198; 0x492DB7AA; 0xA43FBDBF; 0xE82BEEC8; 0x9E173427; 0x3850D54E; 0x1E901499; 0xF761EC57; 0x603774B7]];
  [[0x2BDEF3A9; 0x23B79C80; 0xD19A5F2C; 0x2217119A; 0x56B09A50; 0x49194CE1; 0x21329201; 0xEE7D88A2; 0xD0BBED28; 0x1C45A959; 0x780FA0D1; 0x1BA5DAD5; 0x6959608D; 0x17D7C794; 0x7E4E9B1F; 0x7DA39423];
   [0x47508CA7; 0x435F5C55; 0x516AD549; 0x84583489; 0x2BAE814; 0x9DDC49D; 0x260B4D97; 0xCD566B6E; 0xE38DF931; 0x8C11211E; 0x5D473F8; 0x7D5FC8D0; 0x865C76F2; 0x48C9D7CD; 0x2A6D5599; 0x2D451737]];
  [[0x29C4EACD; 0x5F8B137B; 0x99075883; 0x5CB8477C; 0x50A641C4; 0xBC6736A7; 0x81B0881D; 0xF96B6D0E; 0xE561FC8F; 0x8E9C2612; 0x284E20B7; 0x8F742744; 0xD4DD11EE; 0xBC8C5BE7; 0x82B2EF56; 0x414709E7];
   [0x6DF555F2; 0xE4D6BC0A; 0x38EE529F; 0x916E0A80; 0x3414117E; 0xBBE31273; 0x3154234A; 0x2D7BF9CD; 0x1852E8EE; 0x79B9CFA9; 0x1BD9C07A; 0x62653E8C; 0x7C7AFF7E; 0x35FE04F6; 0xE70AE283; 0x746C1E87]];
  [[0x98366BA5; 0x1F5857A1; 0x414DECAD; 0x96781D84; 0x66CF983E; 0xB39DD888; 0xCAC19B5F; 0xDE1050AC; 0x8B2AA408; 0x5A58BFA8; 0x3C440DED; 0xA0A6E961; 0xC67D0412; 0xBAAEC3DF; 0x6759674E; 0xE37C0E0];
   [0x63880D22; 0x1E623E75; 0xF0ACB4B6; 0x3BE27CF8; 0x4F69642E; 0x5E6ABD4F; 0x13CADA08; 0x3E92D34D; 0x127C48B; 0x56C64429; 0x7F3C5746; 0x620FC35B; 0xEF94C612; 0x6870F3DE; 0x2606F4A4; 0x219C5A5A]];
  [[0x1625FE00; 0xAD4ACAA; 0x9BEE03FF; 0xD7DEE6BB; 0x2E594A2C; 0x72A27D3B; 0xAAB1C0E5; 0x471EFD78; 0x37857650; 0xBDE8465E; 0xBD9F5885; 0x1CA721C2; 0x6073DCEF; 0x361E6F8A; 0xA7CF8E9; 0x2BA435E3];
   [0x1C6893FA; 0xC7B032BD; 0x9D4E403; 0xFA9C30E8; 0x20293A47; 0xB03AF5BD; 0xE008F02D; 0x21EBC61B; 0x73D59E63; 0xA50151D; 0x78D260DB; 0x18D1A3F6; 0x7D79BA96; 0xE8E3C3F4; 0x75A06F31; 0x51FAED37]];
  [[0xE8BCBC8B; 0xECD4B979; 0xF803878F; 0x7529023C; 0x9A8B8850; 0xAD84E184; 0xCCF88146; 0xF1E004F8; 0xC194F3F5; 0x27406240; 0xE366D6B0; 0x175AB72F; 0x13BBCC48; 0x1A44BC85; 0x12F138C6; 0x7930F869];
   [0x18E4DCD0; 0x1943A865; 0xBCE9F068; 0x747F6C7C; 0x54D067F7; 0x5A306F64; 0xEDB2062A; 0xD1A8EF54; 0xA42F21B3; 0x60E6ACAE; 0x3B2D2C26; 0x9218654F; 0xE8B2778E; 0xEDE14471; 0x8CEE6931; 0x7B868D31]];
  [[0xB368FF42; 0x957A4F6; 0x4C85FC; 0xF9F134FD; 0x19017E1D; 0x3A6B8A47; 0x7D50A61E; 0x673A45EA; 0x4E18EE86; 0x4A26DA49; 0xDF0C17A6; 0xAF7DD8FD; 0x7E7277C3; 0xD24BF75A; 0xBF72613C; 0x5EF832A1];
   [0x3300EE10; 0x2E9C8E08; 0x8763AB4E; 0xCCA04C06; 0xA6B7D854; 0x5F8DBC28; 0x4025C222; 0xC6CD3DE8; 0xDFE44A5; 0xEFD30CC1; 0x1D7BE70F; 0xC2CD4442; 0x45CCED5D; 0x6F8D46B; 0x2EF0C653; 0x2D74D0D6]];
  [[0xB26E78B9; 0x151B24DF; 0xBB1ED51; 0xC57E8156; 0x9C13974B; 0x57BAADA5; 0x20CC5AF3; 0x98336FB8; 0xC790E28; 0x1DA5BD29; 0x8C6E2539; 0x877AA935; 0x9AEE9D2; 0x1673F151; 0xAEE66D8; 0x519FB4EE];
   [0x6AA8D898; 0x2B798F20; 0xBA86008C; 0xC3DFB5EC; 0x343A8CBF; 0xF780333B; 0xB6D2056E; 0xFF22F62A; 0x182EF2A6; 0x97F3006E; 0x3064AC5E; 0x3C5ADB49; 0xC9D64C70; 0x89C8C032; 0x243DB254; 0x1A9ABDED]];
  [[0x11A375BF; 0xA84B6362; 0x620A2252; 0x598270A6; 0x13A0EFF8; 0xB183EC9D; 0xB755AD35; 0x2F7BEBD4; 0xC53EFD69; 0xEBA848ED; 0x6FAEC1B6; 0x12059A24; 0x7A290D7B; 0xBA6340A4; 0x63DF6036; 0x22849432];
   [0x2AA27F19; 0x4702BCB6; 0x9B6D66D6; 0x8DDE4920; 0xBDC2DC5D; 0xC3D4A80B; 0x691A8BD4; 0xE51AC2D6; 0x8F4211FC; 0x79485351; 0xA9D14C71; 0x163CD093; 0x89A0E099; 0x4B38A2B1; 0x9E98054E; 0x16673245]];
  [[0x31FBB6B8; 0xFB441071; 0x42AD947A; 0x79A8775C; 0xE72D0384; 0xA8C9E486; 0x840A1DDB; 0x9AF7F292; 0x2DB1B47D; 0x7E9DB52; 0xBA81EBAD; 0x698669A; 0x2DC06B76; 0xA48E2F03; 0x79B9161A; 0x1B060248];
   [0x13C53A83; 0xD47BADE1; 0x68727195; 0x9C1F4DD0; 0x1293376B; 0x14A2FC60; 0xDC206930; 0x8A63967E; 0x98E46F8B; 0x5D9DFE38; 0x85CF7B41; 0x9199E193; 0x113D1605; 0x3E8DF54D; 0x303789E1; 0x14D3C202]];
  [[0x626710EB; 0x11A727D4; 0x3EB613F1; 0x38481EC1; 0x5625E925; 0xB824F831; 0xD03D016B; 0x3FEFE4F7; 0xBF1FE74C; 0xCE196037; 0xE956E95F; 0xE5518F38; 0x23E1AE46; 0x84E24D45; 0x3E0F63A1; 0x29D1DB5A];
   [0x4FAE4F08; 0x380BF787; 0xED8B6A7C; 0xB4E5D477; 0xDC035A0D; 0xABA43C3A; 0x25134A5C; 0x7B880508; 0x65D5A8CF; 0x2DB45548; 0x7EDE5F4D; 0x776B78B6; 0x79297E21; 0x4CB58481; 0x8BE6DBD4; 0x1E191105]];
  [[0x3E98C38E; 0x4D105437; 0xB2E8BE84; 0xAE4B330C; 0xE16CA9CD; 0xB1A22A3D; 0x1DAF0B8D; 0xE78B43CB; 0x5CB2B278; 0x509D9C34; 0x29F9FFFD; 0x9A1342B3; 0x73A20A3F; 0x8159F452; 0xCA064DAD; 0x35043A47];
   [0x40E7978; 0xE000710E; 0xFAF394BB; 0x2A1DA585; 0x51524252; 0xF9423EE6; 0x181ACF8B; 0xD95CE5EF; 0x613B5947; 0x97A9B5; 0xAB442CD0; 0x6F088D14; 0xCAE96A8E; 0x4E225BAC; 0xEE82591B; 0x753B77B9]];
  [[0x43969A20; 0x41D5FEEC; 0x5B57402C; 0xC7E1DFA2; 0x9C098C51; 0xC43BFFDD; 0x2954A8F5; 0xAC5E7394; 0xB2E1308E; 0xD420A646; 0xD7CAE952; 0x13476158; 0xE7B188C1; 0x6A48FA12; 0xEC53C308; 0x1CF2DE71];
   [0x653FB0FE; 0xAA44CF54; 0x450317F4; 0x4E05A63D; 0xE3AA21DA; 0x8B59BAA6; 0x11F7840D; 0xFA3A1CDA; 0x39DB678D; 0x220F39B6; 0x759CDCA0; 0x6D497E96; 0x69FA5114; 0xADF3F29; 0x15349213; 0x7836181D]]];
 [[[0x5D6F9B3E; 0x1F11E63C; 0xA403A073; 0x4569A6DA; 0xFE26A8BD; 0x1B585729; 0x5F41FAA7; 0x2185B4E4; 0x6E99E6E1; 0x3887350C; 0x99CFFB22; 0x92F63CA5; 0xA52F6381; 0x94E93270; 0xD0A380FC; 0x489EE2DF];
   [0xB988D87D; 0x45F7836A; 0x337BEFA3; 0xA44DCA0C; 0x55657370; 0x6F422436; 0xC16D6547; 0xE5299B33; 0x1E5AAB47; 0x74A82B2F; 0xCFA92CDB; 0x795A79B9; 0x4981A557; 0x2EE0F1BE; 0xF5637DEF; 0x3F7A2AC5]];
  [[0x3A0FEA31; 0x78CF079D; 0x6F9069B7; 0xF5A54C8C; 0xD8C02F14; 0x24C79868; 0xF36B384F; 0x43DDB340; 0xAD874F73; 0x8AF55E5E; 0x5856DB97; 0x29E81ACA; 0x702DF822; 0xB23D0E00; 0x3D029F4B; 0x58EF4F99];
   [0xF26CA389; 0xB28FA62; 0xECFF83DF; 0xD3288224; 0x3FD82EB2; 0x5D8F2319; 0x3D1CB29F; 0x68E3D3C5; 0xEC26BE41; 0x8DF1A753; 0xC2C7412F; 0xB2074622; 0x8D5018F7; 0x3A8D3504; 0xFD309F9B; 0xB0D2D49]];
  [[0x9319D09A; 0xE997DD06; 0xDA1726DB; 0xF8A2189F; 0x266E7222; 0x3AD35868; 0xF42E1A2; 0x116610C; 0xE93CC223; 0xF23385AC; 0x8D221503; 0xE06DE4F6; 0xA36EE6D9; 0xC963EF8; 0xC297BB1A; 0x13B707C8];
   [0x15B7BEF0; 0x10675424; 0xAB4ECC7E; 0x9C064518; 0x83247132; 0x324CDF0C; 0x4CE15206; 0xA9A41620; 0xF0EC82B3; 0x641C526; 0xF165B832; 0xD952D947; 0x56C3BC3C; 0xF6E4EF5B; 0xEF1F3728; 0x528479A6]];
  [[0xA64A2C9B; 0xF84BE5DC; 0xB92B2A9D; 0xC20AD405; 0x829BA060; 0xC965A45A; 0xD9F58ABF; 0x5041E47F; 0x9E6AEB4E; 0x360FB8E2; 0xB995DDB3; 0xDC3B93DE; 0xFA2C89E5; 0x7FB0501F; 0x9C9B058F; 0x1883F017];
   [0xABF2EABC; 0x9FC09649; 0xD2ADFBBE; 0x51F9AA2; 0xF2471B9C; 0xB4689; 0x23DB9E67; 0x2C21C96A; 0xD9D7C226; 0x840F2A03; 0x2E660925; 0xE728B070; 0xA8258042; 0x1ED21D55; 0x8DA89F47; 0x20DE972E]];
  [[0xD3DE31B6; 0x3003BD09; 0x83781375; 0x6883729E; 0xA7E281ED; 0x882F56AE; 0x99873D07; 0x936861D3; 0xE329D05A; 0x68DB9DF0; 0xB6ED5B00; 0xEFD44FB8; 0xDE7AFD7D; 0x95DF018; 0x31FEE4D2; 0x11DD7E74];
   [0x52E3502; 0x59256A82; 0x967C4F10; 0xB12A68CD; 0xF921E058; 0xF56E1410; 0xD9721852; 0xF7E2CED1; 0xDE8CBE99; 0xE62F6371; 0xBDCF5383; 0x51BB6086; 0x5F1C9EF; 0xDE865C7F; 0x59C9DB82; 0x2F4D471E]];
  [[0x60A83A69; 0x5238E20B; 0x241F9EE4; 0xE8ED22D8; 0xC44B4D6B; 0x94609C9F; 0x738B047F; 0x8CB4F484; 0x3A311894; 0x1DA03776; 0xFFEDBEDE; 0x3B2301D7; 0xC28BFA7B; 0xBE0D9731; 0x8E73852C; 0x3E672B7];
   [0xAA676638; 0xA1A4A97D; 0x473A0CAB; 0x1CC2C685; 0x2E95739F; 0x31FE1138; 0x90C8025; 0x90AEB0D; 0x645B652E; 0x9F0A7073; 0xE83798BD; 0xC03ABF85; 0x48F4C4C3; 0x71FBC2D7; 0xD38C5BA; 0x56AE0E1E]];
  [[0xF2C2C6C1; 0xDAFDB67C; 0xCF3D93C2; 0xFD6B132E; 0xAE365613; 0xA6FD14BD; 0x2B04AD13; 0xB5A2A4A; 0x36B30288; 0x2AA0470A; 0x2A2BB583; 0xBC984938; 0x2DE94268; 0xC0520099; 0x49E1A2C3; 0x2CD5FBBB];
   [0xAAD935D9; 0x82C8F94; 0x51A9454D; 0x20AECE5C; 0x19E2401F; 0x5BE24C7E; 0xA327A3BB; 0x7BECBAF1; 0xB6300E64; 0x39E76F20; 0x9CBC4DCE; 0x5D151BA7; 0xB5D04C2A; 0x7726284; 0xB721A54D; 0x4D8BD241]];
  [[0x9BB85232; 0xD28B4A8E; 0xCAD53584; 0x4F965F03; 0xDD1B0F12; 0xDAE3617B; 0x6777B034; 0xDB8660B3; 0x5F952B6A; 0xC67184DD; 0xCE065AD2; 0xADCC669; 0x77CE4665; 0x1FC9CB46; 0x2234474A; 0xA01B64D];
   [0x1D915F94; 0xA749E82; 0x425F6ECA; 0xF0D212C9; 0x1281CD10; 0xC23D014; 0x29DB5FC8; 0xC933FD4; 0xBA5D8406; 0x80DDA2EF; 0x338183C4; 0x8C1402D5; 0xD4B5A7F9; 0x6E06C3E2; 0x8506CA5C; 0x64E3E1AB]];
  [[0xC94EA8D3; 0xAC11D879; 0x1F28B33F; 0xDD8B6BA3; 0xAEEAD88D; 0x647E69AD; 0x3933567E; 0xB49B31E1; 0xEE7A3136; 0xBB12FE39; 0xC80837A7; 0x28FF74A3; 0xB75677A8; 0xA932C81; 0xC29F7F54; 0x53D93D35];
   [0x3AC6D6AE; 0x28497194; 0x2D7F721; 0x220B50C7; 0xC1FC3346; 0xDA33488C; 0xF9ED4655; 0xDD86F1EC; 0x632DB517; 0xAC1853B2; 0x6F0C3545; 0x3736EA46; 0x2D45B919; 0x3D92A778; 0x3D09DB84; 0x5D9F5674]];
  [[0x9AF99589; 0xD30167; 0xC5B73D12; 0xB5213F3; 0x39E67DBF; 0x8A5A80AD; 0xF837F8F4; 0xE2C58969; 0xD4EE1D6C; 0x9DDF8923; 0x33DF50BB; 0x1AE3E0AF; 0x4E518813; 0x7FBAA73B; 0x5F7BB71D; 0x1CE6C9B6];
   [0x66EB4A4E; 0xB12B057D; 0x382599E5; 0x1C88E248; 0x4E5081A6; 0x5384C3E8; 0x9E4ABC53; 0xB7992A1C; 0x44BF086; 0xC0582520; 0xA7DB6B58; 0xE14418EB; 0xC31464E1; 0x312673AD; 0x5FEAD6E3; 0x27DEAEFF]];
  [[0xADE2EA17; 0x55C37C50; 0x4F0C5622; 0x1E159654; 0xF2BD8529; 0x6C96793C; 0x5AF8E077; 0x2B562419; 0x52A39000; 0x47F6A019; 0x163EFA85; 0xC364F4D4; 0x58BE9780; 0xD3116C33; 0x9F098FF2; 0x4DBED741];
   [0x486D49D8; 0xB0DD4831; 0x75913B1C; 0x84A0C549; 0x3E2FA892; 0xB4A79326; 0xF8E1FCD2; 0x9E24FB33; 0xBB163DE8; 0xE9E35346; 0x59EA0DF0; 0x4B20FA1; 0xB8742A03; 0xB4D02BC4; 0x6C2841D9; 0x81FA037]];
  [[0xFBA142D2; 0x514F4ACB; 0x94E5F474; 0x996B6E03; 0xCE24CA53; 0x5223E730; 0x4F5B06A0; 0x527581EA; 0x6A33B429; 0x31E6DD1A; 0xF6375ACD; 0x93A4E1C1; 0x949ED4F7; 0x6C726FF3; 0xF8F882F8; 0x4E416E72];
   [0x2FD16999; 0x26FEC864; 0xABA0E3A7; 0x41DF4A57; 0xB4FAF8AC; 0x15E54D3F; 0x6F3F282A; 0xE4318BDC; 0xF014698B; 0x7C320CD; 0x3468CBCE; 0x71B73830; 0xD640CFD9; 0x1FD1AF59; 0xD34059EF; 0xCF151AE]];
  [[0xA2B3DF22; 0xB7107CE7; 0x90B45D70; 0xC1A4E08B; 0x5E20257F; 0xC86AFB66; 0x11CE1970; 0xDD33CC96; 0x5F20F903; 0x44C20C48; 0x936A4522; 0x87FECE7F; 0x42105DEA; 0x867932E9; 0x47E2F4AB; 0x31AEE1F5];
   [0x55B1D8A3; 0x4CE020DF; 0x9B33E4D6; 0x5841BB8C; 0x7E5C052; 0x99C6EF84; 0xBB139F7B; 0xF6F0DEF; 0x366377C5; 0x5E608798; 0x101AFF93; 0xDE403CF3; 0x4B69DBFC; 0x164B26D1; 0x46229B9E; 0x190A8766]];
  [[0x85A61975; 0xAC7B1FA1; 0xA3C0E98; 0x975ACE54; 0x173A29D7; 0xB80D922D; 0x955E0187; 0x71AA4F0C; 0x3556BA4D; 0xDB3716B9; 0x248C6ECE; 0x81E375E0; 0x6AFD16A4; 0x4CCE9787; 0x3564374; 0x67A717E8];
   [0xE94E08C5; 0xE0FD3F7D; 0x71CA98AD; 0xDA2A5872; 0xBA15DEF3; 0x34A8EAD7; 0xC8EE8AC0; 0xD83A9987; 0xD9CE22C6; 0x64167A82; 0xE859A064; 0x7EE988ED; 0x603E188F; 0xD8B9D231; 0x248F567; 0x40C99266]];
  [[0x387928A0; 0x4059BE67; 0x1412407D; 0x5063C31E; 0xC37FB4AD; 0x78ABE79B; 0xDF5F4D6; 0xA9A4E76A; 0xF0C3C9C8; 0x1F4CCCFC; 0xBB2D774F; 0x44A6D446; 0x4991F3D4; 0x1B77494E; 0xC5908739; 0x41F3A74C];
   [0xC6B26A88; 0xB371AB6C; 0x454963FE; 0x1E7AD15; 0x43898DC2; 0x12A6652C; 0x1EE1BBD9; 0xC9CFD8BA; 0xC5437711; 0x22037206; 0x62E81FD; 0x327F948D; 0x9C87B698; 0xA2FF4F46; 0x4EB0808E; 0x1E83A7F9]];
  [[0xB80F91DF; 0xE2F16272; 0xB186EBD1; 0xA0265684; 0x2E7D6A85; 0x207DAD69; 0xF27F03D4; 0xEFABE500; 0x244072F; 0xEDD0F81D; 0x944AEDEA; 0x4CA26C63; 0xE874F15F; 0xD8D01D46; 0x5A1130AE; 0x73E39EED];
   [0xE5EC45F; 0xED9953FA; 0xB4D672DA; 0xF62DDD4; 0x89507053; 0x5115FE6F; 0x8354B66C; 0x58968A29; 0x72ADF8E8; 0xB37024D5; 0x4D98186B; 0xD7EC1D4A; 0x7F418AC8; 0xB5B41AD6; 0x68B72616; 0x2C0959C5]]];
 [[[0x99EF1F4E; 0x1DD33DD5; 0x3CB93CF3; 0x2F2951AF; 0x98F20535; 0x7BB75D57; 0xBF95DDDE; 0x64C36788; 0x5E211976; 0x74B787C9; 0xBE8D9E4F; 0xB464F818; 0x91BEB188; 0x2631F721; 0x5EC2BFD7; 0x3581CB61];
   [0xC41A6EF1; 0x56A35D67; 0xF69A3D49; 0x5895E76E; 0x8B97FDA2; 0x3192D2F; 0xA0A94FA9; 0x11240C0B; 0xBDDB31E7; 0x4DC27F38; 0x69A0D11A; 0x38AE33D; 0x857974B5; 0x9F3A13EE; 0x222E516; 0x2ACA765E]];
  [[0xD2421565; 0xFA06EFB5; 0x8AB1719F; 0xC199817D; 0x48C3D0C4; 0x44325F2F; 0x5A80BBEF; 0xDD6C1165; 0x2A61986; 0x30791924; 0x3A7E4B1E; 0xEBD53E2A; 0xC7AB55DB; 0xDD3E7657; 0x7A09B71B; 0x43EA2DB2];
   [0xA3AE7D5; 0x9002748E; 0x5B23AE62; 0x590F7C6; 0x4A2305B0; 0x44EE4FA6; 0xABA335D8; 0x914591BD; 0xAB32FC4D; 0x5888289F; 0x6E19B810; 0xA5FED847; 0x17DB4A48; 0x255C3F99; 0x6F25750A; 0x431EEB8]];
  [[0xD0A38E64; 0xB398FF44; 0x5E41904; 0x5FBAD7B9; 0x357B82CD; 0xBA57597B; 0xA929E6BC; 0x18BE4419; 0xA98B452D; 0x3F3F6D35; 0x58D546DA; 0x27425C5F; 0xC446022B; 0x61A1BBDA; 0x689D15AF; 0x3EA60775];
   [0x3F8C1B93; 0xDD097042; 0x31E09914; 0x951AAC56; 0x647CCFAC; 0x99C77D0F; 0x6102DEE7; 0xF3CB5C7A; 0xF9484E59; 0x2C1CAACB; 0x405766AC; 0x7EBD7135; 0xB0C58371; 0x267C325C; 0xC2F52776; 0x48FDF94D]];
  [[0x4EE6EE71; 0xF6442788; 0xC09D8FAF; 0x49D6F157; 0x3C93BF65; 0x159F7AA2; 0xB5464C4; 0x992387CF; 0xDEDA026E; 0xFC15173B; 0xC989FD74; 0x90B860E6; 0x2E98CC2D; 0xCC08BC0C; 0xC85BC472; 0x89D2D48];
   [0x3953E507; 0x9087C746; 0x90F97B85; 0x54F480A3; 0x9F9CC5D0; 0x83D61993; 0xC1970015; 0xC55DE44; 0xDF669193; 0xC45D5EA1; 0xFDCF23AB; 0x5DEFF1E7; 0x2A211F3D; 0x2B38D479; 0x3E31284F; 0x9927925]];
  [[0xC38EFF1A; 0x30454C23; 0xFEC8424E; 0x706FD470; 0x33467A08; 0xA2163197; 0x80E6DB64; 0x7C8A4D43; 0xE9AB850B; 0x505D89BF; 0x5E8DF0CB; 0xC10CFEFF; 0x16304B39; 0x3EB45DF7; 0x527C325B; 0x3AAE23FE];
   [0xC153DA5D; 0x65DBB826; 0xFFCCCC80; 0xB8EC2676; 0x1C8BA8C2; 0x4538FBAB; 0x66FD20CA; 0x6FA94E52; 0xA9B7513F; 0x480D857E; 0x82814908; 0xDB1C611C; 0x53F81AA5; 0xF1F21FF; 0xE1A47218; 0x20696D2D]];
  [[0x7AB6E8D8; 0xF31AA622; 0x686BB479; 0x3D12F32B; 0x3BF6E8F8; 0xACA48C8A; 0xFCECFCC0; 0x39D4F322; 0xC8BBCADE; 0xCBD2E493; 0x5C695155; 0x18E2A8E7; 0xDF022D32; 0x4047ED16; 0xCD6CDB7C; 0x1040565E];
   [0x64515BD6; 0x1B72EA47; 0x9320C9CB; 0xDC58AE8; 0x5310CDBD; 0xEE53907B; 0x54FE7719; 0x7C2C62A1; 0x8AE9C75E; 0xA0415080; 0x1E8A0123; 0x2BFC3780; 0xCE6823AD; 0xBBCB26FE; 0xD61B79A7; 0x5E4B59A0]];
  [[0x90C0C1CA; 0x8C93F975; 0x8F518A16; 0x871A901; 0x964CACE1; 0x6477E523; 0xA77046AC; 0xE52D22C8; 0xF9911C69; 0x4FE86722; 0xE21642C; 0x8B03B196; 0xEEA31DF9; 0xDD3523EF; 0xD896AE4F; 0x4D4EDD43];
   [0xB8CB58A3; 0xEB5C2968; 0x9AF9580A; 0x5C6C5B63; 0x3A166247; 0x20759CEB; 0xF964024; 0x812FBE1B; 0x816BFC2C; 0xBB295EBA; 0xBC4C607; 0x35525626; 0x7D134609; 0x411799ED; 0x8615FBAA; 0x7ECBDA12]];
  [[0xE7C6C149; 0x45EB69B3; 0xF40D6D9C; 0x9D414F65; 0x6AD70201; 0x3FC4D2A6; 0x2E2EB20A; 0x39F56D2; 0xCE4F7AB7; 0xAE25D395; 0x1B640F4F; 0xD69AE851; 0xCF08596A; 0x912BA30C; 0xFB7DA74A; 0x7C552E1C];
   [0x298071AC; 0x57F7B3CC; 0x5029FCFB; 0x7B38B186; 0xDBD1AFDA; 0x43D0A21D; 0xCFDCE1D5; 0x2165A125; 0x99E931C; 0xC2422D76; 0xD220528D; 0x3940B3F9; 0x5892DDF1; 0xA530E1E0; 0xC5EDB806; 0x5D1060BB]];
  [[0xDA19A7BF; 0x3C39CB0; 0x35061C5A; 0x9227C957; 0xE6733C8E; 0xB86AE697; 0x1D91D056; 0x4790AB41; 0x91944712; 0x82599E6E; 0x2126986F; 0xE6EEAB30; 0x4C7C86DD; 0xF6CF6770; 0x81C7F520; 0x962C8E0];
   [0x3E672910; 0x7275701A; 0x555D4EAA; 0xCC253D25; 0xF307D6F; 0xC87804A5; 0x5E6E364D; 0xA6C40269; 0x9DE73155; 0x5A4DB577; 0x45B03B16; 0x8513BC05; 0x5CB1A5DF; 0x7EDB8B9F; 0xD4905C9B; 0x5686C42A]];
  [[0xC1288660; 0x1B9368C4; 0x3BCEFEDB; 0x5F83CD35; 0xC33CD356; 0xB4656091; 0x4920232F; 0x2284D907; 0x95B4CBCA; 0x87816B06; 0xEF2D4546; 0xA35A7191; 0x296E871A; 0xF9E71B1D; 0x5330AF13; 0x72A7B9C3];
   [0x401BE940; 0xAC61BC6F; 0xDD2350E; 0x634D9D7; 0xCE45A7C; 0xE27626F0; 0x3493FA74; 0x9B38569F; 0x6EC9DC13; 0x3F23C703; 0x9C62D952; 0x8BF8FF12; 0x58132258; 0x5D53A2D2; 0x33A57773; 0x1FC830A5]];
  [[0xF294E33; 0xAE58A3B9; 0xAEF8F84C; 0xF12E0FC4; 0x649D16FF; 0x78C5BDDE; 0x8827C75F; 0x12645CA1; 0x7F97ABED; 0x1288C566; 0xC1E2781E; 0xCAD8E5D; 0xBC92FF24; 0x24B69A1D; 0x545221B2; 0x7068305D];
   [0x40F6201C; 0x7A9A3F7C; 0x5EFACD4C; 0x5B7E5FA2; 0xD6275627; 0x85FACB2E; 0x5BBE856B; 0xDD0FBA63; 0xB2E456FD; 0x30826B1; 0x5F898479; 0xFF397E8; 0xBFAE4984; 0x68ECAA4E; 0xCAC01FD8; 0x4EB40475]];
  [[0x2BC4C766; 0x141804F1; 0xC8FB07C1; 0xD84A76DA; 0xC83676A9; 0x29376B5B; 0x3749490C; 0x3D3A00EB; 0xC5F439B6; 0xA5EB6CF7; 0xEA156432; 0x16266439; 0x3161D4B; 0x1CF83E25; 0x95E3E8A3; 0x37603F22];
   [0xE920EDDA; 0x62EE26EC; 0xFC4DF7D; 0xCD7734A3; 0xD7FBCA6B; 0xEF3E6C9; 0x87F1873A; 0xCF2460DA; 0x1895CF1C; 0x511072; 0x4F11854B; 0xB92A8E93; 0xC665D9D; 0x98556251; 0x174A7FF2; 0x3CD64282]];
  [[0xB9F9E43F; 0x39243EA7; 0x270D2DB1; 0x973D4582; 0x541FF4C; 0xEB8B5033; 0x9F309D70; 0xED5F52A0; 0x123F45B6; 0xE978FBAE; 0x15781D; 0xA79B693; 0x5C9A03FB; 0xC5DA0CCF; 0xF16D4CE1; 0x1C6E4F58];
   [0x89CB89DB; 0x9674C2E; 0xC94A4D96; 0xB3D147B1; 0x27D24C12; 0x936F3F88; 0xA8C4BA25; 0x44E8C741; 0x920FDDE8; 0x249A28AE; 0x229B2C19; 0x274F2B4E; 0xFF4EC64D; 0x94C203EE; 0x43358F20; 0x53284B1F]];
  [[0xDCCFF94D; 0xE3AB8BAA; 0xF97449EE; 0xF038D9A5; 0x5EF19F06; 0xE4A45DCF; 0x17EF6368; 0xFFF8AD9A; 0xADDF0B6E; 0xCEB6B85; 0x96AC1BA3; 0x6C7B60B1; 0xA25F77F8; 0xED84F897; 0x55886360; 0x1EE61671];
   [0x7BA18315; 0x8B44F38; 0xF3D0E0C4; 0x8A9FFAE9; 0xE5886E61; 0x82807E7D; 0x51E94C78; 0xF15402F3; 0x96A8AF2E; 0x45969D9F; 0xF4956ACC; 0xA8E0ED89; 0xF2D21764; 0xB5334DEC; 0x861C26B7; 0x2B274E2F]];
  [[0x99E77118; 0xC2E3A802; 0xC6DE1B4D; 0xFFE72B90; 0xE29458FB; 0xCCB21D53; 0x511F0279; 0xD233AF10; 0xB9B907B3; 0xC301B7EA; 0xD7B55600; 0x59DB1F45; 0x3A386844; 0x7173318B; 0xD9AB6F85; 0x403ABED7];
   [0x14698FC9; 0xCFE2CFC; 0x34CE5939; 0x40A41989; 0x9ABA363C; 0xF5FA849; 0x8CC887D9; 0x99C045AB; 0xE8DF250B; 0x1E7563F5; 0xD3B78407; 0x2624A5DC; 0x1954A966; 0x7D80CA6D; 0x4C8995C2; 0x789BD685]];
  [[0x83A05A40; 0xBA8D9376; 0x572668D; 0xDD238C0E; 0xE0AD7EAA; 0x5B41446F; 0x63F9C64D; 0x6D1AD6B4; 0x8830CE1C; 0xF5FE99AA; 0xF2B77D66; 0x5BB1E7DF; 0xF7E63961; 0x7382CA41; 0x555032C4; 0x56D6F922];
   [0xAC45C214; 0xF9EAA991; 0x66146EA4; 0x2A4B7172; 0xD14553F5; 0x5667D61F; 0x3F7D071A; 0x996E8D8B; 0xE2229B97; 0xCB023EA5; 0x398EA3C6; 0xA446A954; 0xAAF9ABF2; 0x733E3D79; 0x47503BBD; 0x2B4FAE8E]]];
 [[[0xEBEFDC12; 0x24E9082D; 0x24FDCD6E; 0x86997EA9; 0x3145F3F; 0x15129188; 0xA16A167D; 0xC829D42C; 0xFDFACB6F; 0x55C0A31C; 0x5B93FB73; 0x1A728DB4; 0x467A55D2; 0x7A187912; 0x1E8843D3; 0x7934C39C];
   [0xF35497AA; 0x688D9927; 0x5A745926; 0x2176E4E4; 0x4FF0DA29; 0xA60F1ED7; 0xE66F5F74; 0xE1EF2081; 0x9EE53EFF; 0xCDE36E79; 0x855244FF; 0xFCD1D1BF; 0x464A4040; 0xD55CDB2E; 0x1E64BB0B; 0x39BC13F1]];
  [[0x65D70320; 0x828B3539; 0x954FE3CC; 0x921019C6; 0x39DFC1EA; 0xC2B142C8; 0xBAD22A43; 0x7A619A1C; 0xD827C06E; 0xE08FA3AE; 0x88BAA42F; 0xAC645EFF; 0x294F3582; 0x514723BA; 0xAA355FD2; 0x6FD17829];
   [0x11D05C79; 0x6366853C; 0x17D185C9; 0xE225500B; 0xFA47EADA; 0xAEEC2174; 0x6666332F; 0x9737ECC0; 0xE33AA72A; 0xD0638BC9; 0xF6CF4E24; 0x4889AB0D; 0x39E3190; 0x2912E4A0; 0xC035D955; 0x411CFB3C]];
  [[0xB3BD0D0; 0xE59D745B; 0x653222F; 0x62AB04F9; 0x43E0EC6C; 0xE6421BB7; 0x15E65B27; 0x6F3E4770; 0xD82704E6; 0x90FB7585; 0xE9A129DF; 0xCF7FD882; 0xD3D0023A; 0xFA8E1B9D; 0xDE4307E5; 0x12861B4A];
   [0xB86CF424; 0x9DC0D3D9; 0xC2DBE006; 0xCFC0A60F; 0x2B9F470A; 0x5933BAA8; 0xCAB8113B; 0x112F153C; 0x56B279C1; 0x1AEDA340; 0xBE13DFA3; 0x1408A037; 0xC06D3674; 0x10D90850; 0xAF30AE4A; 0x3DB6999E]];
  [[0x56348084; 0xAB96F013; 0x8C167F42; 0x40395543; 0x2280FEB8; 0xE1385C9F; 0x76D2C4AA; 0x36671625; 0x4D4D667B; 0x76E31344; 0xEF0B171D; 0x906B5973; 0xEBCCA769; 0x229BCCFA; 0x8A9A561C; 0x36462E60];
   [0x4FE428A6; 0xFD5116FD; 0xF3846007; 0xE92C088A; 0x218A0D1E; 0x8AC5F8BE; 0xDDF329CE; 0x59A97369; 0xCAB484D5; 0xEA2D262E; 0xBD10F3EC; 0x6F95E17A; 0xE08DDB7E; 0x6FFBEC38; 0x6446BB5D; 0x55E8DE21]];
  [[0xCB565AE; 0xA5D6141A; 0xF9091FE2; 0x8786B494; 0x1D6C9279; 0x89B1900F; 0xC21934C0; 0x425AD0F5; 0xE2201D3E; 0xF781FBF6; 0x61E0191D; 0x72100433; 0x5B3E5491; 0x186A3999; 0x95E49235; 0x6DF058E6];
   [0x34559E42; 0x82D37E02; 0xA0E7F1D4; 0x4AE4A8AC; 0xB34AAED2; 0x9941A84C; 0x5484ECE0; 0x4DA92D32; 0xEB7C740E; 0x6F1FB58C; 0x4965B6CC; 0xEC6FAE86; 0x1CEFF73B; 0x179E8480; 0x72724658; 0x58ED2BB3]];
  [[0xAC30848E; 0xD6FA5A23; 0x53705571; 0xFE58E2D3; 0x47EF14E7; 0x43368F72; 0x694E6BB3; 0x7DDA0F48; 0xE9B7CEF9; 0xDFA9BF9; 0x9803203F; 0xA3BD4B23; 0xAA1B561C; 0x3F0EAF0D; 0x11C56C8F; 0x6E8678F3];
   [0xB4272D39; 0x4E574AFB; 0x26A589E0; 0xDD9622A9; 0x18E2B544; 0xCF41D028; 0x479B717E; 0x7FE65A44; 0xABDE58B1; 0x38D34C1F; 0x20E02EE5; 0x4A8B1A49; 0x26D927F1; 0x6C2C5AF1; 0xCE4D534A; 0x8E02884]];
  [[0x3C9034CE; 0xF4747773; 0xA8CDA587; 0x92B208B8; 0xA8A5D6F6; 0xDDB5A865; 0x9FFBBCA; 0xE3C3150E; 0x71780DEE; 0x120720D6; 0x1CB5E7E7; 0x6977608D; 0xDBE5697A; 0x52261203; 0x184E7B19; 0x1C88E9C4];
   [0x9927BFC6; 0x6BE6C190; 0xF431A9E8; 0xA1452123; 0xB949ED5C; 0x62BC5BF4; 0x2BCF732C; 0xD57633C0; 0xAE4563A; 0xA3723F7C; 0x31958EA; 0x5449AFCE; 0xA6580D6F; 0xE3BF9985; 0x6B471AA6; 0x34B0D320]];
  [[0x46BF771F; 0xEE28E9FC; 0xF23B38E6; 0xDCD3C06E; 0x8D62D86B; 0x894E7864; 0xC0209FC3; 0xF226C4DA; 0x6EC4D3B1; 0xEEB85A81; 0x3ABEC007; 0x837F8A03; 0x18C1A3EA; 0x622C40BC; 0x279C341A; 0x49A59CB2];
   [0xD38DC85B; 0xC3833ABA; 0x3E303976; 0xC512B721; 0xA43BA4BF; 0x80CB1ADF; 0x8FAD6957; 0x6C8A1574; 0xA0DC03A1; 0xB5305AE5; 0xA78753F7; 0xA63FE0FC; 0x7D4EB934; 0x81C2BCE1; 0xAD66F6FB; 0x4ED73812]];
  [[0xCA09A5D2; 0xAC25AB81; 0xB6EE3D0D; 0x1E000EFC; 0x148738A5; 0x7EDA899F; 0x4ABD3CA0; 0xEE70DFB4; 0x371F70BD; 0xA9F18AF3; 0x30E796BC; 0xA2D64FE4; 0x38943DC4; 0x77E42190; 0x6EB5CFC; 0x35AEB8A2];
   [0xDA26DB57; 0x95D36C2E; 0x3A546E88; 0xEEF40F18; 0xE5D07294; 0xAD4D846B; 0x95158FF2; 0x80BE6BA8; 0xC85F84EA; 0xC15AC73F; 0x2044951E; 0xBAFC3952; 0xA14C51AE; 0xEA750E8D; 0x524FC6FA; 0x1817F004]];
  [[0x14555CD7; 0x9C835DB3; 0x299196F6; 0x76A92FC0; 0x6618F1A6; 0x35CDF54D; 0xB3260002; 0x4B77E5A0; 0xA837BDB2; 0x321C2EAF; 0xD5D4A743; 0x559AE831; 0xE116E5CC; 0xEB18D7F; 0x1945E60E; 0x3FE7D292];
   [0x649D5551; 0x4CA61AEF; 0x95257CC3; 0x7C3CFBFF; 0x66A5D03B; 0x8AF04A74; 0xFC3B143A; 0xA0C95ADE; 0xA61B0143; 0x515258CE; 0x43A147BD; 0xF1959D4B; 0x43B761E4; 0xAAE3EF4C; 0xBB8BEA3A; 0x731F5D9E]];
  [[0x6283C8DA; 0x483D5F55; 0xC067AF22; 0xCE48F6F; 0xCFB3FEF8; 0xBA767432; 0x463510B2; 0x1AD7F214; 0x7D448527; 0xDCFDB1A7; 0x119BA281; 0x3EEFAEDD; 0x7B6597AB; 0x9D5F2546; 0xB8AE2AC1; 0x3515E65];
   [0xA768A2E9; 0x91A17476; 0x1C0B8745; 0x921B21AA; 0xD1636FB2; 0xE1B0AB68; 0xA933BC5; 0x35AF62C1; 0x6CCA56F8; 0x24432C7B; 0xE142C3D6; 0x88976C8F; 0xC0EEC621; 0x1BAC1E5D; 0x7EB64467; 0x2760B03A]];
  [[0x535D9B1E; 0xCEFCAB97; 0xEFC85889; 0x2DDF1964; 0x67FC56FE; 0x62276E02; 0x9EA27125; 0xD33D4E1F; 0x3EAB0BFD; 0xD11F0726; 0xB4E5A283; 0xCEF5BD00; 0xA5ECFF20; 0x107CB2FB; 0x85321266; 0x1D110BEC];
   [0xB9C05938; 0x5CD67BCA; 0xEC9ED6BA; 0x23B2FD6; 0xC44D68BE; 0x473FEF71; 0x24006876; 0x6DB457A1; 0x5979901A; 0xA56C47E3; 0x6B786D; 0x971F5FE7; 0x8E3630E4; 0xD894B21C; 0xFF0AD8ED; 0x56B8610D]];
  [[0x6A9AD8B6; 0xDC574806; 0xA33AA074; 0x39B1553A; 0x71EF2A51; 0x55233DAA; 0xCCC11692; 0x6186F6F0; 0x51E7F2B8; 0x949F7A8D; 0xBF2FF9B7; 0x9ED94F29; 0x3B90382D; 0x54ED16DA; 0x4014335A; 0x65D0975];
   [0x7B737144; 0x95DA36F2; 0xDDD9C1E0; 0xE0A7C458; 0x69B64234; 0xDCE291C; 0x8689DEF3; 0xF943B727; 0x24F80B28; 0x1CB8375C; 0x8902EC28; 0x60EFAA29; 0x673F34AF; 0x36BD90F; 0x2B1A208; 0x687B36FB]];
  [[0xC031EE5; 0x1704A598; 0x8288EC60; 0x325E6096; 0x16EFC6F9; 0x588F58A1; 0x2C520574; 0xA1EA547F; 0x7FD9F40A; 0x2633CB8F; 0x3AA1C0DD; 0x736D8CFA; 0x92B3300E; 0x189E74DA; 0x92172793; 0x6C92BE18];
   [0xC6E25307; 0x3B67DADF; 0xCCF961F7; 0x170BF45C; 0xB2C0629E; 0xF07F48B5; 0x974F7169; 0xACB40994; 0x871177C5; 0x29AD746C; 0xE3AE7857; 0x1AD449E2; 0xAE9BE21F; 0xAFB63CB9; 0xB08FAEEC; 0xE6C676C]];
  [[0x60CABC21; 0xA60E0D9F; 0x8BA79177; 0xBDFC43CF; 0x7BEECCF8; 0x8362D84B; 0x29F8FBE4; 0xCC9E6BA; 0x4801BF01; 0xCA90958A; 0xF13C6356; 0xCB84005E; 0x90AE5AB9; 0x9CA6408B; 0xE668357C; 0x293582F2];
   [0xFFCEB4F6; 0xAA3A680A; 0xF18508A5; 0x19CE2D54; 0xF430A62C; 0x74027BA5; 0xDCB846D8; 0x7248CB8E; 0x3D3779E2; 0x608F15E8; 0x52BB6633; 0x21B8A438; 0xA95BDE4F; 0x64B4C82E; 0xCA13D8B1; 0x75169F73]];
  [[0x7435D441; 0xDC6C53C9; 0x630885A0; 0x621030CD; 0x4CA9BBE8; 0x9F761C57; 0x89453166; 0x3CBD7B51; 0x53EED18D; 0xE80014E4; 0xFD48C287; 0xAB31FE34; 0xB1F2C06; 0xB908AA72; 0xDA592359; 0x2A849D2E];
   [0x9B7DA75A; 0x688DAA1B; 0x42D4659B; 0x779B963B; 0xDA7F5E1; 0x44BCCBE1; 0xE283A19; 0x96F4FE4E; 0xF532628; 0x239F78; 0xB2BD3F1E; 0xA8E1A47F; 0x49D504AD; 0x23D8F150; 0xA818FB1A; 0x36F4D7AD]]];
 [[[0x6FA6665A; 0xED7AAC76; 0xCD7ABC00; 0x593FD44F; 0xE5940EBE; 0xB70DAA5D; 0xE6CEB5B5; 0xBBD56469; 0x4EC6EC19; 0x17B54A10; 0xF288553F; 0x2411F294; 0x81534194; 0x1082082; 0x98F85E1E; 0x3CFFCF3F];
   [0x7E62220; 0xB82B0FD; 0x50F91B0E; 0x99B5CC19; 0x3AE5C675; 0x2C60F938; 0xF42E3EEA; 0x6A25B099; 0x329D208C; 0x498948A8; 0x6A343691; 0x45226E62; 0x8B8E9C2D; 0x53643F6; 0x4A938DA8; 0x56E1E564]];
  [[0x2242A19C; 0x144DA678; 0xC072E8A2; 0x860A384; 0x318A08B7; 0xD782A875; 0x8D318C54; 0xAC99802E; 0x307DA17A; 0x329437A2; 0x6696DC0F; 0x35656A12; 0xE2152828; 0xC5A9914A; 0x841C814B; 0x3BCBD2FC];
   [0x590C6FC2; 0x7D2FCF55; 0x6197DABE; 0xCCCF4315; 0xE2EB665; 0xF4701C36; 0xE9400A11; 0x9D4F5A7C; 0x2F49F529; 0x815C6218; 0xB015260A; 0x264A9BEF; 0x177E94AB; 0x279A03B8; 0xF6E2518A; 0x115481E6]];
  [[0xBB65B1C1; 0x2FE0C370; 0xAABD8550; 0x620FC63E; 0x9660303A; 0xA6EDA03F; 0x802B6899; 0xC15FD5C5; 0x30FD19A1; 0x6DFBBCA5; 0xC5394AAB; 0x2BC0DDA1; 0xCF41B04; 0xFC619634; 0x7DBCB198; 0x64DDF00E];
   [0x92602D0B; 0x78B289F6; 0xE4A24732; 0x123CC6A5; 0x70913278; 0x5F2DB53B; 0xC27EAC92; 0xD55AE856; 0x85696BA; 0xCC82E112; 0x67F01774; 0xA421C179; 0xE602BAF7; 0x7DEEF7FD; 0x35E94ADA; 0xA730B3]];
  [[0x1DAC6F8B; 0x586D8DC8; 0x18F1FE48; 0x89A56AC6; 0xF2A8BFA5; 0x51231A77; 0xCA562E8C; 0xD36BE5FE; 0x9A6268D9; 0x5DFE328F; 0x781FA0B4; 0x3110144C; 0x7ACBE702; 0x6A18A190; 0xD70C4B5F; 0x68F941C2];
   [0xA19654D; 0xCE3C1DE3; 0x49AD2799; 0xCE96C000; 0x6E913EE; 0x9AD7B0F3; 0x472A1C37; 0x625C4FC1; 0x967BBD4D; 0x1E25E3AC; 0x2042C162; 0xE516CD88; 0xC3197E40; 0x1483A10E; 0x84E5FAED; 0x60815A8A]];
  [[0xD1313B07; 0x3413EEA8; 0x49BC14B0; 0x4B6C2CCF; 0xC33BE839; 0x56C78C84; 0xDC481C6; 0x980F4F; 0x5E96BAE7; 0xA34D712C; 0xEB0574F5; 0xEA386C4A; 0x6BB4DC04; 0x834334AB; 0x47404A42; 0x140F2209];
   [0xCC6F8D14; 0x970B7DE3; 0xCCD6A840; 0x7C9A38E9; 0xA63FAF90; 0x7C1C4638; 0x1F10834E; 0x36AFEA84; 0x15765F2A; 0xA9AA4A15; 0xD9240C98; 0xB20B2249; 0xD03ABC25; 0x20116417; 0x37A8893D; 0x69B34300]];
  [[0x1021F8CA; 0x710FB075; 0x64008516; 0xF90919DD; 0x2CCC8FFC; 0xB0ED3172; 0x78988C41; 0xC6ADC85B; 0xA1B81A9; 0x1CDE6A9D; 0xC80CAC9E; 0x9ABC5114; 0x43A7B1A7; 0x877E6082; 0x51BD9782; 0xCA1F0D1];
   [0x6E6AACB7; 0xFBB662BB; 0x96CD1A74; 0xDCAB0D77; 0xDC56300E; 0x603F2717; 0xFE92F7E4; 0x327251B0; 0x7031603A; 0x7E0CBED; 0xD04C19FD; 0xA0F296EC; 0xB8C5E0AB; 0x3296BF9B; 0x49E5E7B6; 0x41E72DDB]];
  [[0xCE99C0C5; 0x47E9562C; 0xBA5372BF; 0x4C5FD161; 0x5C808664; 0x5D1B7B1; 0x539F8180; 0x9DBE76B6; 0xDDBD7BC3; 0x646C3DDF; 0x97376739; 0x6032B96; 0x696BDA3D; 0xB71DD971; 0x1D340FD0; 0x75061EB8];
   [0xE6A7DCA5; 0x6FD064FD; 0x8DB01DE3; 0x79A31650; 0xF6483911; 0xB1B65A8D; 0xA9DE2C37; 0xAF2BBE1C; 0x85CB42C5; 0x6B663C9E; 0xB583E78E; 0x464FEDFE; 0xFFDF93CB; 0x393C00F8; 0x9F96CF15; 0x61CC9A6D]];
  [[0xCA774807; 0x40EDC986; 0x4C334C01; 0x8B2A531C; 0xCEB21FD6; 0x72D378C4; 0x3833D841; 0x169C54E4; 0x82FE513F; 0xCC830E8E; 0xABF34DD7; 0xBDC4ECD7; 0xAEDD9FF5; 0xB5349484; 0xA404055B; 0x12D7ADB3];
   [0x637B7C24; 0x88027C00; 0xC0EB319D; 0x755587A6; 0x2027178A; 0x3F24E32F; 0xA4FE8F8D; 0xB912054E; 0x5C9A68D6; 0x6AACA911; 0x235CF842; 0x14772328; 0xC0175F8; 0x6D3020A8; 0x3E0F7418; 0x587768A7]];
  [[0x1154C74A; 0x57E3A1F9; 0xB85FB8E8; 0x80157FF5; 0xEE5DEFEC; 0xBEDB658D; 0x67E9A0E; 0x65C0AA98; 0x229A5289; 0xAF9A507A; 0xF954DD94; 0x6A13ACF0; 0x53DC4C19; 0xB5F3A18D; 0x85AF938F; 0x6AEB3F5];
   [0x8C9BB087; 0x503F0622; 0xE3FEA015; 0xEA19AC85; 0x403FB8FC; 0xE446CD70; 0xDF5B398F; 0x1BDDC810; 0xAD2CAEC6; 0xCAF818F; 0x807AB004; 0x6983E52; 0x79428650; 0xA6B33E3C; 0x231BAE71; 0x182E3D46]];
  [[0xB309DC4B; 0xAF54B735; 0x805890F1; 0x494F7441; 0xF87271F6; 0x3CCD5F0C; 0x7638102B; 0x2914763B; 0xFD258079; 0x3CA50D01; 0x77CDD6A9; 0x6D9A3D47; 0x1F4A05CE; 0xD81373B8; 0xCCD443ED; 0x16B258DB];
   [0xA3805FEE; 0xC9D4009F; 0x225FA57D; 0x5EC56730; 0xAC17E4C0; 0x4A51A79B; 0xE7750942; 0xB389FBA3; 0x1AB7E8BE; 0x2B137D6E; 0xD8C26EFE; 0x3953702A; 0xB79F2828; 0x6D86ED3E; 0x6D6A62C0; 0x36ECEEE8]];
  [[0x6B8B9B02; 0xF97E85FB; 0xC6F128F6; 0x3319D570; 0xB4CA56DD; 0xDAB74E23; 0x81FCBB47; 0x50CA71EF; 0xAAD7F910; 0xBFC19F2E; 0xDB3772F4; 0x96650F9B; 0xB6F26494; 0x5823F134; 0xCBFBD2E3; 0x1B899B3E];
   [0xF6CF8F8A; 0xD1589C42; 0x34DDB625; 0x3168AAF5; 0x72ABDA08; 0x4C730535; 0xF82913C3; 0x8B1C24C7; 0x239FBCD3; 0xD7D80F27; 0x6B7C205D; 0xB18B4F05; 0xD92056A6; 0x2864763F; 0xBCDB3022; 0xB3DDC7B]];
  [[0x207F772B; 0x1AB037D6; 0x88767BFA; 0xF050DD34; 0x79ABF05E; 0xFEF182FF; 0x4B25067B; 0xAAFCFD0F; 0x34E155B0; 0x1EB76235; 0x65CEF7A6; 0xA3B921C9; 0xD9216B0A; 0x6CBD50B3; 0x9E578A9A; 0x3E298A71];
   [0x1CCE9059; 0xC0DEE851; 0xEBA49DE2; 0x397344BB; 0xB08513DE; 0x45A60A85; 0xF0D07F9B; 0x55D314F9; 0x12D12611; 0xBF6D4D51; 0x30A7E8DE; 0x49F9BCF1; 0x5435D109; 0xDB0A9058; 0xF706CF2; 0x4DE5C43F]];
  [[0x70B6D62B; 0x7FF298D6; 0xE67688D3; 0xB2FF0AD4; 0x805652BD; 0x5E63A6B2; 0xAD74922A; 0x32D81219; 0xA9CCCC31; 0x77D2E3A3; 0x2CF2EEE0; 0x31D571B; 0x4FC7C9EA; 0x471653BD; 0xAFC2A13; 0x2322CC68];
   [0x8C6D70E; 0x3D152EFF; 0xBEC5DBD9; 0xBEC9CBCF; 0x6496310F; 0x41BD4962; 0xB1A88E6B; 0xD23FC983; 0x5EF464E2; 0x5B622EDC; 0xFFCC97BB; 0xC6500ADD; 0xAA783FF4; 0xF2CCD3EF; 0x7CE05CC1; 0x51AD3604]];
  [[0x24C48E44; 0x4796EE83; 0xBBA7BC62; 0xB4D448B0; 0x1C32B713; 0x2F356E4A; 0x32050781; 0x980D6DCA; 0xB5F6C099; 0xB52B1826; 0xA144D7F5; 0x1F7D68D; 0xA23999CB; 0x9ABC596; 0x66246640; 0x17C069DD];
   [0x1F7E37A6; 0xB7D7F96C; 0xE46AAD16; 0x57E198C0; 0xD1C0DF8C; 0xB2088DF9; 0x3FDEC190; 0xCC38EE4; 0xFB2D9B68; 0x68DD1FC4; 0xAD1D73C0; 0xAD94674; 0x1B92B955; 0x9529C7DF; 0xD141F7C; 0x6711E361]];
  [[0x3B87C175; 0x1B1A5159; 0x29FF8F9; 0x7F62A639; 0xC69ADEFB; 0xA2E37638; 0x58E309A0; 0x3AC773C6; 0x22EFD710; 0x9E7A85FD; 0xA60E5275; 0xD29E2F3D; 0x1163C9ED; 0xC4734B9B; 0x9CBEEE57; 0x9D3204A];
   [0xB8A97AA; 0xB2339F8D; 0x7AE97B4D; 0xC19C67A6; 0x65425033; 0x8C0E823F; 0x8B186D7F; 0x447F972A; 0x32A6C164; 0x43385E29; 0xE9E78569; 0x95049508; 0xA074B68F; 0x2AF8C598; 0x5CD5E2F7; 0x18AC97B8]];
  [[0x1DEB288; 0xFAE61589; 0x885B8EA2; 0x33F684F3; 0xCFA425B5; 0x89A90618; 0xFBBF5B15; 0x8F5D3C2E; 0xC2B6CB28; 0x379803C6; 0x990CE2DB; 0xFE683EA3; 0x7B6E4E0C; 0xC1B3C21F; 0xEA3513DC; 0x6F152C2E];
   [0x9AB792CA; 0x23505338; 0x282A67AF; 0xC64C7F27; 0x6498B24F; 0x6FCBDE65; 0xA1612A06; 0x6FB7F7FC; 0x45C74402; 0xFD575B9F; 0xA709A516; 0x6EAD0805; 0xD4EF066B; 0xCA6208AE; 0x93954E65; 0x23880ECE]]];
 [[[0x7FB1977A; 0x2B13B8B8; 0x21B7871A; 0xEA6510AD; 0x882483C7; 0xDBDCB0E8; 0x4C379245; 0x5E2E9664; 0xEBAF2C56; 0x581D4429; 0xCA79FCCF; 0xA929CBB0; 0x2009377F; 0xE74D3D66; 0x610CC0D1; 0x664661A5];
   [0x570237A; 0x1F778C19; 0x1769A370; 0x905AEB86; 0xD6C06AEE; 0xF51B013B; 0x43EFB668; 0xDF0D8905; 0x11E4D5DA; 0xDD082BC3; 0xD7BE0C1D; 0x58AA1283; 0x941E9230; 0x97F20D6B; 0x8BB614AD; 0x486C960C]];
  [[0x4CE9052B; 0xB573B94; 0xD78F10E5; 0x88B5C4CB; 0x77DCA0EB; 0xB131989B; 0x81E63C3B; 0x7F405D80; 0x3818CA2D; 0xCC31F185; 0xFE177EA8; 0x42F386A2; 0x9D888B2A; 0x1B7DD56E; 0xC8E873E8; 0x3A6D84D3];
   [0x7E3FBCD6; 0xBCFEF877; 0xB36F3F68; 0x5DA67B53; 0x5827FE5A; 0xE840229A; 0xB989407B; 0x17689956; 0xAFE27325; 0xAD6E3F87; 0xDB1E1A3E; 0x62027C70; 0x7EBB4747; 0x86A2C909; 0x4A919D6B; 0x47ADC4CC]];
  [[0xA4CA0F15; 0x92381565; 0xC08705DB; 0x67FB0C76; 0x3BA6D54; 0x661DA004; 0x77C5C4F7; 0xF875EF24; 0x4157A282; 0x769B11C; 0xFAF534C6; 0x8ADB10AC; 0x9CCD6AB2; 0x312147B; 0xD67A443F; 0x75390C00];
   [0x21A1047C; 0xF5A29A0; 0x83A146B8; 0xCABB96FB; 0x2A3F2F48; 0x1375356A; 0x83C57DB4; 0xDEAB7544; 0xF5AFA2F1; 0x1AB71412; 0x73B58749; 0x21D94B48; 0xFF2F369A; 0xBA87E6D5; 0xDBAE0E08; 0x4B3B90B6]];
  [[0x9116F02B; 0xB8648E3F; 0xCEF02B4F; 0xA5E5A03B; 0xA70F456A; 0x21EB9835; 0xC8A7C423; 0x44865319; 0xBCD6C0AD; 0x57DB3941; 0x7D371806; 0x20D97A3A; 0xF8A3D51; 0xBE61AA4F; 0x13CB7D2B; 0x7A6E0BBA];
   [0xEEA5D6FB; 0xB3B98673; 0x87B03BAC; 0x534EB45F; 0xA9508557; 0x6CEB244F; 0xF209CC15; 0xA47FBAC7; 0x1FC65C19; 0x41EBF99D; 0x7341650F; 0xD1477A86; 0xB361E0F8; 0xC4E6EB8E; 0xD2B3D548; 0x68FAF82E]];
  [[0xF92B039B; 0xB9CCA467; 0xE6F2A2B; 0x9F7180AF; 0xADA011F8; 0xC3084870; 0x882D7A38; 0xC814D1DC; 0xD51C1D14; 0x3A145072; 0xD70F8B08; 0x595AC55B; 0x71EFED45; 0x67308D05; 0x22DBFA33; 0x2C660B98];
   [0xAF8F2980; 0xC8EB4EEC; 0x6145AB09; 0xBC8F2D72; 0xC22D5E84; 0x1A0A9D53; 0x9ECD643E; 0x8E646008; 0xB541E2D8; 0x6C704F66; 0x31995198; 0xEED597AA; 0x619126C2; 0xB9032FA3; 0xB0A08F01; 0xCA4AEAB]];
  [[0xDB421144; 0xF48A003D; 0x9885A445; 0x4A7FA592; 0x8E8FA3DB; 0x40AA1C2; 0x91A15B11; 0xCE94D874; 0xF0E875B7; 0x79490F6D; 0x70318E86; 0x743A531D; 0xC4630CD1; 0xE88CA2AF; 0xF5C5D4AD; 0x6E2FE529];
   [0xFE062D25; 0x619A4F46; 0xBD747C4F; 0xCE1B5FAD; 0x3D512728; 0x3C428366; 0x71AFAEC7; 0x7FE87908; 0x3DB8315E; 0xB7006310; 0x7195E9B1; 0x97A0397B; 0x84870127; 0x51EB939F; 0x517A32EE; 0x768A3CD7]];
  [[0x257E424F; 0x25234FFA; 0xAD164952; 0x5D80ACE8; 0x7B4C0F5D; 0x4B15F386; 0xF95006BD; 0x71963894; 0x69963C75; 0x4781B778; 0xFD339850; 0xDECD94FB; 0x11A9D79C; 0x1533454E; 0x92BFCA33; 0x3B17EC40];
   [0x12A30834; 0x58D0672A; 0x3E66F5D6; 0x807B665B; 0xB164B077; 0xCD732AE8; 0xF1F732BE; 0xED26F82E; 0x75A7B899; 0x4E65CB2E; 0x3C72F22E; 0x2EA2BE74; 0x4068CEFE; 0x60CD26F6; 0x1FEBEFAA; 0x63734AC0]];
  [[0xE7203401; 0x290E6008; 0xA67A0F47; 0x3497CEA1; 0x641F5B86; 0xB079862C; 0x7A0D51D1; 0xDF3CB483; 0xBC8D25B7; 0x4CC0DCD1; 0xBDFAC20F; 0x1034F5FF; 0x6881DBFB; 0xC5896F31; 0x68A39778; 0x2C6BD4A1];
   [0xF5CEDBE3; 0x6FAB7060; 0xF7141245; 0xC51F3245; 0xC3EF1EEF; 0xA3FFA5A4; 0x206172D5; 0x2FC2A0C7; 0x94E55D7; 0x6616FCFF; 0x22EA071F; 0xC3F309FF; 0xDD267FAA; 0x685AADB; 0x6BC770C0; 0xAE3722A]];
  [[0xE67270FB; 0x7B11DD6A; 0x16905D; 0x128A351; 0xBFE007A0; 0x9CE64782; 0x7714E091; 0x7324986D; 0x269E4410; 0x3E796B16; 0x9A97AD36; 0x707A148C; 0x87D5B9AC; 0xBE29A340; 0xF0D882B4; 0x2F92E67E];
   [0x57636C75; 0xB9F06642; 0xFB7F18EB; 0xA803EF99; 0x1E9BF04A; 0x4B8A1D79; 0x62068D6; 0x4C43526D; 0x800F0FF9; 0xCA59CFF0; 0xE4389A8E; 0x8BE857C3; 0x5383EDE8; 0x5042CF56; 0xE02F40E; 0x6791C9A]];
  [[0xF5D076B4; 0x18A74ACE; 0xE41EC2CF; 0x50C2161; 0x484F2CD0; 0xECC5823D; 0xAA7C332A; 0x63B7B1BD; 0xABEE9CD9; 0xAC6A274D; 0x7B7A7DB1; 0xEAC874F8; 0x734BEA81; 0xFA4B8E8; 0x243D05BA; 0x1ADA0B97];
   [0x822C8BC9; 0x724C084F; 0xA117425F; 0xAE697A1B; 0x2CD06676; 0x39172804; 0x23213E25; 0x87B4F920; 0xFC373ED4; 0xCBA8C7A1; 0xD2F10FD2; 0xDAC6B96B; 0xFD265CFF; 0xCC175798; 0xB731090A; 0x1631D89C]];
  [[0x6D19CB56; 0xB639A208; 0x42A88733; 0x78F0F353; 0xE0323B20; 0xC6BC527B; 0x6DE64954; 0x3406CEDD; 0xBAF8A735; 0xAA89168B; 0x2D7B04AB; 0x7F68CEA0; 0x5EEC36D4; 0x6EAD81B2; 0xBBCE0784; 0x1C41724E];
   [0x831BEE83; 0xDA5383AD; 0xF3C29716; 0xA8B7BEE3; 0x35ACA35B; 0x5B7E0540; 0xB8F21324; 0x8F006F3F; 0xA7B700CB; 0x915849F8; 0xA455A08B; 0x77C5B34D; 0xD6D73C0B; 0x13BA7C32; 0x6936AC88; 0x65D599C9]];
  [[0x4DA5FFF8; 0xF636CFE8; 0xD1E6E947; 0xE5FD754E; 0x388A72F1; 0x8F960362; 0x381C1C38; 0x95B55A07; 0x1DF2F860; 0x31E1D02D; 0x12EA25F5; 0xC03243C7; 0xC28C0062; 0x5FD87B58; 0x9D950661; 0x5769E94D];
   [0x6509E6E7; 0xF88C7CCF; 0xD3971A21; 0x8A021BAB; 0x9B284C2F; 0x2655B4AA; 0xC7050955; 0xC3E14580; 0x90E60DDF; 0x63B332E2; 0xF1CD1B51; 0x6AB86D32; 0x13BC748E; 0x9896AC11; 0x40FC1EBC; 0x516D4D4A]];
  [[0x8F7B417D; 0xC27DBB0A; 0x770CF92D; 0xEE24827A; 0x5F9A2A6B; 0x22E08B64; 0xE10F76A1; 0xAE739513; 0xFF544277; 0xEC6E2D9D; 0x740DB83A; 0x470C22B7; 0xEE4F1E82; 0x643B7953; 0x5556FB59; 0x66409497];
   [0x728114E6; 0x4C15C4CB; 0x1F29EF7F; 0xEFF1BB9F; 0x259562ED; 0x8E00B92A; 0x9838D769; 0xF28B146C; 0x206622CC; 0x3D7C8FFF; 0x86457FAD; 0xD521181D; 0x9D9A3085; 0xBF56F663; 0xA24B415A; 0x11BA1FED]];
  [[0x35701C5; 0x149597F7; 0x6361CC7E; 0x55B1C4B; 0xC221AF72; 0x10DF1572; 0xC3D3A167; 0x6941B1E9; 0x38D00AF6; 0x29985CAB; 0x19E385F7; 0xDD9B8391; 0xF2E81932; 0x65268E33; 0x5C07CEF9; 0x4FC87273];
   [0xEA012B70; 0xE1644429; 0x4BDF6ACE; 0x639FA874; 0xF65480CF; 0x7BAE6AFF; 0x606EFF3A; 0xB9CA15AF; 0xC04C5263; 0x10F5918A; 0xED3D0F98; 0x50F27E68; 0x3134D7FA; 0x647C1AD3; 0xF869EEFB; 0x8EF017D]];
  [[0xF229A34B; 0xD474B5FD; 0x29E0A164; 0x3819D4E; 0x8D0910B9; 0xD24139A; 0x9C2D8E8D; 0xB4F45C8D; 0x2F21718A; 0x10E4BEA2; 0x63DA06E8; 0xD3D7ECDE; 0xF148B0ED; 0xB2AAB06A; 0xAABD0F7A; 0x630152B1];
   [0x3B1563B4; 0xCF4D05C2; 0x6F355349; 0xBFA58B4E; 0x4D1A769; 0x2FA4A29C; 0x1AEDA992; 0xF4E15F9D; 0x877819C9; 0xFDABCEB; 0xC3EDB0A3; 0x5EDFCC1C; 0xD1DBCF40; 0x76625DC7; 0x2A7BD819; 0x3E558CF0]];
  [[0x7A883A0; 0x7C7924F; 0x10EA080; 0x18484807; 0xB6B2B992; 0xDF8602FE; 0xAA03AA11; 0x38A2EFDC; 0x19B2BB14; 0x60B00311; 0x15E28BF3; 0x9E12E7FE; 0xBB0271CD; 0x2AC0917B; 0x1558FAAD; 0x24126EAE];
   [0x19170EDF; 0x2EB303EF; 0xF5779AD2; 0x6945946B; 0x31B7DF96; 0xE4E5635A; 0xD6AC3252; 0x2B371D13; 0x8116C539; 0x38E78198; 0x6C89FAF6; 0x76DF4A2C; 0x6F233984; 0xDFB6755D; 0xD382985D; 0xCBF63F6]]];
 [[[0x56B39FA7; 0x936D53BC; 0x511D5744; 0x751274EC; 0xF29D41C2; 0xDAF4432A; 0x14F8954; 0x717A68C1; 0x736F4024; 0x6D5D3F05; 0x12D037D9; 0x52E785F8; 0x2CA06C4; 0xC04CBA19; 0x9259A368; 0x43207806];
   [0x2BE51135; 0x1211482B; 0xE4D32066; 0x5B473F6E; 0x4ADE99FC; 0x91991C8E; 0x4865136B; 0x124378E8; 0xBFFFC5CC; 0xAF791646; 0x36D38141; 0xB7DBA115; 0x5BD595B7; 0xE879426; 0xCACC032E; 0x39B7D642]];
  [[0xD756CE1D; 0x76ACE7C8; 0xF8A89F09; 0x4BEC8290; 0x690139DA; 0xE8FE848C; 0x6A541656; 0x8C5CB5CC; 0xA79F1A2B; 0x6127BB25; 0xE17D0549; 0x955551CC; 0x58E7C3FD; 0x648A32E9; 0xA60D449C; 0x366035A5];
   [0x67A48368; 0xA4CF0CCB; 0xBE344234; 0xCF7D74F7; 0x8CFFCCCE; 0x6DFFB4; 0xFB55072B; 0xBBC66664; 0x5EFD8AF6; 0xAA51DDD1; 0x6F004C47; 0x88D0CFD4; 0xD97BBB13; 0xD18C2DBF; 0x1E7E68D2; 0x5E598200]];
  [[0x466B58D2; 0xFF9FB488; 0xA8041078; 0x153A751D; 0xD5817ADF; 0xD7E96CB3; 0x511775D8; 0x56A7A135; 0x77E5DE7A; 0xB48FB406; 0x997A6721; 0x4DE670FB; 0x86EFBADA; 0x446019B5; 0xFA535082; 0x403CC005];
   [0xC2FA986D; 0xF85BFEE2; 0xE0C320B; 0xF2B77B88; 0x8FE98FA0; 0xAEFE1972; 0xE8DB8196; 0x291FD9C7; 0xF579D9D0; 0x7C3AB36D; 0x764622DD; 0x7F202BEF; 0x804CEBFF; 0xDFD4DE34; 0x683B7281; 0x25CA634E]];
  [[0xEEB585DE; 0x2E3BCCC2; 0x9C7AB9D7; 0x728BAD6D; 0x5C38CDF1; 0xE298BC83; 0xB610385E; 0xD88D423; 0x71744E3A; 0x5710F235; 0x9681CFF4; 0xD9312CC9; 0xF3D5B3BC; 0x1C46AB4A; 0xE2631926; 0x48BE540B];
   [0x5CCDF14D; 0xBFAB35A1; 0xD778F586; 0x16C3216C; 0x4128BB2; 0x2A604800; 0xA7D2E1AA; 0x5505889; 0x1DE7C7B4; 0xBE8B94BE; 0x5BB8DEC; 0x53E72EBF; 0x2870C597; 0x1A38C5DA; 0xDD36B123; 0x76F0E77B]];
  [[0x83B68DC3; 0xC13D1E8A; 0xA93D168B; 0x5F7291EF; 0xCA88F0F6; 0xD1C56274; 0x868E3651; 0x58EDFC8C; 0x70692949; 0x9D8F42AF; 0x81B6E052; 0x65903C33; 0x262E1F70; 0xAD71B078; 0xC40DC22F; 0x7A60D3BB];
   [0xBA1FC54F; 0x6B64F0DB; 0x81F84A0B; 0x6DDB148C; 0x53955B40; 0xCFBD9662; 0x9B35DB3B; 0x67D49D07; 0xA8EF7DB2; 0x6ED336DD; 0x3F2A331; 0x7AAF4B8A; 0x5C3873CA; 0x9751DBE1; 0x8193A7ED; 0x78479B10]];
  [[0x487DB2BF; 0xB05EDD9A; 0x58F7E778; 0xF9051591; 0xDC23CBF4; 0xBD643BE6; 0xC1EA2427; 0xBCE094EC; 0x4EB1BD95; 0x2A3F3B4B; 0x6F5E1428; 0xBA8FC9DC; 0x9F053047; 0x7DC28C94; 0xC553DC91; 0x58117A0C];
   [0xD4A6137C; 0x4888B1E8; 0xF8DCBD03; 0x5DC05984; 0xD2F55576; 0xAE2C8657; 0xFC4DA255; 0x54721BEF; 0x802C9EBF; 0xA326693; 0x91186DF0; 0xA33294AA; 0xB822390D; 0x716BD76F; 0x7C4AA61B; 0x7F023C0B]];
  [[0x46A8017; 0x6506DA35; 0xF785115E; 0x23083C16; 0x24051BBD; 0x78581137; 0x5088EBFE; 0xCD36D48F; 0x5E542ACC; 0x23F7F0A3; 0x7D015B1E; 0x72018795; 0x38D2D742; 0xA69E68D4; 0x23B5C20; 0x36808A3B];
   [0x1FEAB6D8; 0x660D03D6; 0x58D53E94; 0x77A1E185; 0x74024E57; 0x67425F4E; 0xCC26788; 0x3B916008; 0xE3643998; 0xC7D287E; 0x27B3B31F; 0xB0D98DD1; 0xBB980CFC; 0xBA621971; 0x404A2DE1; 0x77591087]];
  [[0xC15C3D38; 0xB768C63D; 0x54DBA325; 0x281AEC4D; 0x50C9B1F3; 0xBB51D2E4; 0xE7268C94; 0x86BB9BB; 0xC7ED37A; 0x9E0AF351; 0x39145AA3; 0xDBC88528; 0xB1AB786C; 0xA70373BE; 0xA73090A; 0x273AC4D9];
   [0xC280E9F5; 0xD618DB6A; 0xA9685A4B; 0x9D874643; 0x8A9C1951; 0x7EF799B4; 0xFFBA36BB; 0xAEAE400C; 0x145DC10A; 0x889119CB; 0x1BF7AE53; 0x8B052FF; 0xE3F04B93; 0xDEF76EC0; 0x6DC2CC5; 0x35A13BB2]];
  [[0x613C9FD0; 0x97C54E1C; 0x42581F50; 0x7D4BEB41; 0x5BCA7CAF; 0x9401F44A; 0x36115D18; 0x5FD7E0B0; 0xCD0DCE05; 0x714FC514; 0x2AB3265E; 0xF3B73708; 0x8798EA8B; 0x118FB47A; 0xFE5C2BFF; 0x79A1F4CD];
   [0x103FF4DC; 0xC0D3ABAA; 0x146D121C; 0xF5D504ED; 0x842CABA1; 0x38B7419B; 0x907320F6; 0xE1730788; 0xE111875F; 0x37793B; 0xAAB7249; 0x715042EA; 0x15630B39; 0xF57D27EF; 0x5D0153CA; 0x3B503330]];
  [[0xC8AAD5E3; 0x44E75F39; 0x506B9C14; 0x3890E8AE; 0x38915D2F; 0xDDA7D91F; 0x5F28E467; 0x412802B8; 0x711B51DC; 0x8FF3E17; 0x81C96D4A; 0xF23C1EF; 0x57511A7E; 0x7B8E28A1; 0x42C2BACF; 0x60200370];
   [0x8559DC01; 0x5457AA66; 0xBB083219; 0xDB0CBC6F; 0xF981BE19; 0x316C4876; 0x9B98D6AC; 0xA04412B9; 0x2D95C876; 0x20964CB8; 0x51009C2C; 0xF643F29E; 0x30C43DD3; 0x5316D85A; 0x46A82D48; 0x104EB0C8]];
  [[0xB183769; 0xC05ADD9A; 0x653E726A; 0x14E8EC7A; 0x8D457375; 0xE5311F87; 0x25D9120D; 0xCC1585A8; 0x71A945BC; 0x4F39BE3; 0x18298210; 0xFBFAD374; 0x3A9D2053; 0x95F0BD1E; 0xC056D70E; 0x1EAEEFED];
   [0x1E6E949A; 0x3274833C; 0xC1D152E6; 0xA38EA2CA; 0x1B9A48BA; 0xE77A1027; 0x69B03ED3; 0xD44CF886; 0x2D9D2B8F; 0xB52D35E7; 0xF99BD52B; 0xFA67F927; 0xDF337872; 0x3910D907; 0x90BF7A7F; 0x53E3909C]];
  [[0x8FC5B40A; 0xC558DB4E; 0x7511657E; 0x330982A3; 0xB883053; 0x81A47621; 0x3F3DB1D4; 0xB1F53471; 0xC804E24; 0x8A2B835A; 0x3012783B; 0xF8537A45; 0x9DC2A56A; 0xC761FC41; 0x2C12BE25; 0x50369DCB];
   [0xCA00D808; 0x19877D98; 0x1DA7BD8F; 0x305586B5; 0xFB6F9E7; 0x683BF46E; 0x7E53ECB1; 0xF23F5457; 0x17EE25E8; 0xA09A0901; 0x5BAA52EC; 0x61AF9305; 0xA8104024; 0xC12B74BE; 0x60A876E3; 0x6BDABBAA]];
  [[0x438800F3; 0xEC8ADDA; 0x4FBF0259; 0xA47197E6; 0x1767F99F; 0x324E0696; 0xE440710A; 0xE455BC2; 0x7A5984F7; 0xFE231689; 0x3CF323D8; 0x7706D5C7; 0xFFC9FB5E; 0x6DFE4B08; 0x8F9D5207; 0x5E912EC7];
   [0xD7D1AC99; 0x9B71034D; 0x33D5ABF4; 0x5786B8AD; 0x426E2B80; 0x70E625B7; 0x6A33883F; 0x71D53ABB; 0xAA10AA82; 0xB42DE25A; 0xC313C9F3; 0x709B3CDF; 0x99A04BD3; 0x49F3BBC7; 0x3390B190; 0x5B56D9BB]];
  [[0x5DAE0B4; 0xA4D655E5; 0x7016EDE7; 0x3402DB14; 0x117097DC; 0x58D4EFC5; 0x61AE9FDC; 0x4F397AFC; 0x85DE0E4A; 0x3EE32FBE; 0x18F9DA9B; 0xE5C94100; 0x30778D74; 0x6248B570; 0xFF879B98; 0x569D70C9];
   [0x79A7786F; 0x385FD4C8; 0x92C6E962; 0x779353B9; 0x5AA82E08; 0x9C9103FB; 0xEC3B37D1; 0x128BD7DD; 0x98AE8C82; 0xCC0376F8; 0x289AFB7D; 0xDD33B1A3; 0xF1D2F3AC; 0x2B3A6BE5; 0x58C1DCA0; 0x2B342E8F]];
  [[0x924940FC; 0x4ADA9F0F; 0xBD4E799E; 0x636260E5; 0x85ECD23F; 0x10650FC8; 0x32AE8105; 0x4765F05; 0xDEEBFAF2; 0x22F515E9; 0xEA6ED3BA; 0xFB6611B1; 0xB116A647; 0x2D260305; 0xCEB63ED4; 0x540A895A];
   [0x65640BD2; 0xA5C897EC; 0x4EB90B65; 0x1D82AD21; 0xA2BD6C71; 0x2A00C3C3; 0xA185CE8C; 0xD9BE5D85; 0xE02E9DCD; 0xFA039FE; 0x806B50C1; 0xAD1DC7C0; 0xC6AB58F; 0xA78992C2; 0xFBE348EA; 0x7D58FDA7]];
  [[0x6F4DBDFC; 0x7E65277; 0xE4E35AA2; 0xC35157C0; 0xFAF9CF8D; 0x9844955D; 0xE577A918; 0xD1832D2F; 0x212A678C; 0xCDD6CCFD; 0x262F2BC7; 0x19406763; 0x7DCF82E3; 0x1B5FE0FC; 0x28083B97; 0x72FCB512];
   [0xCAE3C67A; 0x2EB13174; 0x28F8CB44; 0x571DBD35; 0x7B2F56B1; 0x3F3514DA; 0x2E1D4CD8; 0xC5906697; 0x3709FD27; 0x9F9589DA; 0xDCF0E714; 0x539CBA98; 0x36D31BAC; 0xC6FDBE82; 0x8860078E; 0x22501C25]]];
 [[[0xE7462A35; 0xB6BAA4C5; 0x2DE0E694; 0x4CABEF23; 0x67A94587; 0xE595F2CE; 0x65DE13EF; 0xB4D6B80; 0xB88601AA; 0x6ED1FA63; 0x254800DF; 0x63DAF3EF; 0x6EDECF60; 0x15F07C6B; 0x49F82DF6; 0x746CB00F];
   [0xF95DC407; 0x4860833F; 0xD4D68D59; 0x245FDFB1; 0x28C585C1; 0xFD7E1346; 0xAA744D74; 0x3307AAE7; 0x27C71537; 0xAB21F1D5; 0x541ADB51; 0x1BED3B9C; 0xB804584; 0x48E65628; 0x96C62E82; 0x10213DC3]];
  [[0x9E900795; 0xA971A321; 0xA28AD250; 0x41151E65; 0xB46F0286; 0x88FBF84C; 0x2C5AA2BF; 0xCE5E34E3; 0xFE74FBD6; 0xC30F0784; 0x9DDDC5BB; 0xA19ACA51; 0xD954B6AF; 0x30CB6369; 0x1BA9F34A; 0x20C72B2B];
   [0x421721EE; 0xD9F6CC9; 0x701F3853; 0x5239E3D2; 0x10A37D0D; 0x48CF795D; 0xC1454415; 0x2822ACF8; 0xF9392C27; 0x9EF24913; 0x33F3F273; 0x93178976; 0xAADFE5DB; 0xAD1CAB2; 0x2019622; 0x24541951]];
  [[0x122FE6A1; 0x577E8E89; 0x29DCABC8; 0xDFED3EF0; 0x1F1EC613; 0x91B0AE21; 0x43EC585C; 0xF4FB2E9F; 0x5AFDC7FC; 0x402F8D43; 0x3BFC6DDF; 0x7DF6E3F4; 0x2094F2CE; 0x4B14B20B; 0xC9F3FCE9; 0x6621FA23];
   [0x61482134; 0xC167636B; 0xBD89AA34; 0xC2D96AF4; 0x77A1383E; 0x4D19C547; 0x994B20EC; 0x86476C72; 0x3611027E; 0xD71188DA; 0xBFA77EA0; 0xEEB9CB25; 0x7A9FFDFB; 0x63E03706; 0x9E1F711D; 0x52FBC735]];
  [[0x9DCD39C8; 0x4D58058F; 0x560A57E3; 0x742DCAC8; 0xC40593C3; 0x51314E8A; 0xBBE9F40F; 0xAA35CAF4; 0x7B4DF87C; 0xD0D06ACC; 0x897586CC; 0xE02B48CB; 0x9F14AB3B; 0x30AB25AB; 0x2DCFFD42; 0x77B9D8A2];
   [0x43F00508; 0xDE1678E7; 0xE59D0799; 0x2F82D94E; 0x7D85FF61; 0x1D68DC5F; 0xA577E85E; 0xCCD286EA; 0x5653CE9; 0x78202172; 0x4B096045; 0x80BCF42C; 0x8D9DC78C; 0x983AC1DA; 0x757F008E; 0x48ADE8D1]];
  [[0xF131C430; 0xFE9CADC1; 0xD4ACF7F9; 0xCB4FACAE; 0x4B81AA0C; 0xA75B35B6; 0x6132294C; 0xDB73BF2A; 0x35FC4FBC; 0xDC1998EE; 0xF1A96BA6; 0x1125CF55; 0x1AC0769D; 0x800577A8; 0xE4CDAC1C; 0xAF21977];
   [0x91DD37F9; 0x12CAE81D; 0x1A432775; 0x81F5BAF6; 0x81CBCB7D; 0x62A87C5D; 0x2D311E47; 0x781596EF; 0xEA6CE86; 0xADA41A24; 0x9198BFEE; 0x64E561D; 0x8784FC32; 0xD2EBB0D7; 0xE00D527A; 0x60F7F749]];
  [[0xF9F5101B; 0xB6220879; 0xED750B14; 0x8E51E911; 0x56B8B8BB; 0x5A0FF851; 0xE97F0F1B; 0x6EFDB4CC; 0xCFEE47C1; 0xEF4E3272; 0xDB73FA56; 0xFB33D3FF; 0xD5C182A7; 0x8702D241; 0xB061F4C9; 0x1342C905];
   [0x40B3B920; 0xCCFDFF8B; 0x234F25BE; 0xE01ADAA1; 0xCA98B24D; 0x6EE2AFD9; 0x933CF022; 0x833C8017; 0x8B7E88DA; 0x9446CDC8; 0x252B0C4; 0x8A83DEB; 0x983B95BF; 0x5AFAE687; 0xBBF76F93; 0x417A1691]];
  [[0xE270155C; 0xF1100073; 0x37D73458; 0x913B27AB; 0xF8799368; 0x723B646; 0xB8599816; 0x891C7858; 0xAD13A257; 0xBDCF3C7A; 0x106E5B5A; 0xF473BEE8; 0x27722F06; 0xB093D484; 0x8E4CF84D; 0x33895F5C];
   [0x1A92A242; 0x530F59FE; 0xD5444E38; 0x703FDC05; 0xA9B55C56; 0xEC6FB903; 0xECEFEF64; 0x102929BA; 0xBFC1F153; 0x76B9B329; 0x7A32A9E4; 0x3F794AD7; 0xAD9D9F76; 0x9A344BD7; 0x8F22FE76; 0x1281308B]];
  [[0x55D6DFC4; 0xDBAD1D04; 0x78FB03A6; 0x1674C09F; 0x4F4EB90; 0x10F038F0; 0xC933F8C3; 0xD6F8CEBA; 0x322E4AE8; 0x6D3018D6; 0x65FB0400; 0x3C0E8DD8; 0xF8603F6E; 0xE04FEA5; 0xCF3D2FBA; 0x417F6C35];
   [0xC6DBF972; 0x4F62D458; 0x3C69018C; 0x1D66CC0B; 0x4F1297A2; 0xDB741BC6; 0xDDEC7115; 0x7EEDA8D5; 0x9A910CA8; 0xB5D07B3; 0x3D0FA9E7; 0x5D74BC7E; 0x4DC25E76; 0xF3D1063; 0xDDD0F35E; 0x7BDF3F13]];
  [[0x49A8E647; 0xF4B8E8F9; 0xC9C7F249; 0xD2045FF4; 0x1DFCE331; 0xA73E2073; 0x60186A35; 0x538FE0C2; 0xD44D55DC; 0xF6931385; 0xBD2D5D5C; 0xAA0FAE8B; 0xCE9E7B7; 0xA1DF2451; 0xF6E915DF; 0x453B0239];
   [0x4BD5604D; 0x92E689FD; 0xEA5FB1A5; 0x302F7B7C; 0xC6C18BD5; 0x9A065527; 0x38018472; 0xB6B93023; 0x775EFE83; 0xEC4F8E47; 0x5D557E9F; 0x5EFED6CD; 0xF32DB82A; 0x883149A7; 0xA83BA057; 0x32BB4DD5]];
  [[0x8CE494A6; 0xB45FB239; 0x15A171F; 0x6E80D72B; 0x846810F0; 0xE17A3D2B; 0xC689398E; 0x86A2C703; 0xF84177D3; 0x163CC0EA; 0x8485195; 0xCFC54536; 0xAEA228CD; 0x49ED48E3; 0x5E05A3FA; 0x51D4CD9A];
   [0xA28C1F0; 0xD75C938E; 0xD986264; 0xE18FCBDB; 0x129A474; 0xE29546B; 0xB4E6503E; 0x718C5F10; 0xE89FFD06; 0x5BFFEF16; 0x7ABFEFBE; 0xD87F3E8D; 0xB05607DF; 0x3E6EEBD8; 0x30FC02D; 0x1B3135D4]];
  [[0xAFD466ED; 0x1FCA9768; 0xDDE4FE72; 0x3711CD99; 0xA0BC2449; 0xFA6A96FB; 0xDF617AD1; 0xB4E3322D; 0x38997D42; 0x652400B5; 0x5869744E; 0xE4033FDD; 0xF8CF5A3F; 0x5E56CF67; 0x39950DFD; 0xB68F418];
   [0x921A1064; 0x31F316B3; 0x860AB95E; 0x84CF2C3; 0x33A08792; 0x4FAE7CBD; 0x5C2F1F4F; 0x13E887AE; 0x5A2C1393; 0x1B4D941C; 0xBFDDC322; 0xE7043946; 0xA801A880; 0x2D73CD5B; 0x45019EB0; 0x6CDC6BC2]];
  [[0x72A9BDDF; 0x68D9AE82; 0xC4F79A39; 0x3EA7B5D0; 0xBFA9189D; 0x8A9E525D; 0x8088070; 0xC4BCDB4F; 0xF0019D99; 0xD4F1B3D0; 0x3A21C513; 0xCD3981D0; 0x51146A17; 0x4A85B07A; 0xAC9373DE; 0x44E11FCB];
   [0x406B1F1D; 0x45C28B85; 0xA598A7AB; 0x7669767B; 0xCABA790E; 0xE4DC8F54; 0x4002264B; 0x7259E49F; 0x78A9F0E3; 0x54142E6D; 0x2D74E9B1; 0xFC384317; 0x471BA3C1; 0x949A6E31; 0x269DBD46; 0x2196E341]];
  [[0x1C85C152; 0xF090B214; 0x2980953D; 0xC66553E0; 0x908B9243; 0x50050906; 0x18F1B4C3; 0x489B07B8; 0x4A6A7071; 0x39C781DE; 0x15FAF2A8; 0xC3FCC6B4; 0xDF30D339; 0xC9A9D650; 0xDC87B05; 0x2BCF8969];
   [0xD36DD59; 0x6BD11101; 0xAF38D4C5; 0x9AFD4507; 0x1FEE36E3; 0xE9A345A3; 0x37454BA6; 0x141074A8; 0xF603533F; 0x89747031; 0x897F9FA2; 0xAB75320E; 0x594481A4; 0x52927CDF; 0xBC2244A3; 0x2C8FB10B]];
  [[0x1C40C77E; 0x456358B8; 0x1732ED35; 0x26A15EA8; 0x9AEA6548; 0x36F26CBB; 0xD7FAD4C1; 0x6589AC51; 0x9067988D; 0x4804A1BC; 0x4219111A; 0x633F203E; 0x123C4BBE; 0xCD90D01C; 0x82519788; 0x617EEF27];
   [0x9DDFBBB9; 0x8A7F22A7; 0xC8F9E873; 0xF8CEDC4E; 0xF8B00FFD; 0x547A5995; 0x3132F91D; 0xC6780AC5; 0x6DD34140; 0xAD711350; 0x83D8A3E6; 0x1C0A71EC; 0x86E0466B; 0x687D67C7; 0xBD67492F; 0x7CE57B02]];
  [[0xC4A0F3CF; 0xEF5A0FEC; 0xE3C2A79F; 0xCEB2194B; 0xD37AFB50; 0x7371FF56; 0x68CFB693; 0x881C254A; 0x7A5B61F5; 0x31F411B1; 0x13E15910; 0xC2141EEB; 0x75C6566F; 0xD4B5D015; 0x60C17F10; 0x1335132C];
   [0xF9EED825; 0x49A2D9CB; 0xE7C41C5A; 0x514441A; 0x636BA847; 0xCE9F19F7; 0x44F44B74; 0x55175057; 0xD26F9DEA; 0xED9CB8A; 0x84BD07A6; 0xBBB248C0; 0x9CD8A6C1; 0x2C867FB1; 0x2186DB7C; 0x230B4122]];
  [[0xBC6B2647; 0xC59AF140; 0xD5CA9D30; 0xCD781156; 0x4C5C668; 0x479CFCF8; 0xB08BEEC5; 0xEAC4A5C0; 0x6C67636A; 0x8772B60E; 0x631A6EF3; 0x99266F13; 0xD368B05; 0x4DADE9DE; 0xE42CB970; 0x2F9488CB];
   [0xB6FB1965; 0x4882B1D4; 0xAF24AD57; 0x6423BBB4; 0xC406CF8F; 0xE52B487E; 0xD49D4935; 0x502802AD; 0x24D5128F; 0x6832E216; 0x670EAE40; 0x42190CD4; 0x39258F40; 0xA2D4FDB4; 0xC5CADEEA; 0x6127E350]]];
 [[[0x896F045C; 0x160D95BD; 0x406D8CA3; 0xBB8AA2C5; 0x94F274E5; 0x1B4E10B3; 0x6332DB6B; 0xE6D30544; 0x5AAE23C5; 0x95250D6A; 0xFC831AC1; 0x67458318; 0x63510D9A; 0x5D21C9B; 0x20F2A3CC; 0x2416562C];
   [0xD6DE2B6D; 0x8B666C7A; 0xE54B6B3C; 0xC49D98D0; 0x90558A8E; 0x73315C3F; 0x44E631C4; 0x212910AD; 0xBB053E42; 0x7D2EBB7E; 0x4FEF86C3; 0x396AD261; 0x5E410BED; 0x90DA355C; 0x43C9183F; 0x344A24DD]];
  [[0x6AC2509A; 0x50971549; 0xFDA9F8AF; 0xFCAF5541; 0xB3F2B1F5; 0xDDFDC6A9; 0xB7DA428B; 0xBCA36B59; 0x357DCA59; 0xB55602BE; 0xCE692E5D; 0x803C92A1; 0x6DC19967; 0xCD723C3D; 0xF741820F; 0x3EE4BC03];
   [0xBB103F3B; 0x70113C23; 0x36553268; 0x35FA9144; 0x1C026E84; 0x505B7917; 0x1ED89D68; 0xA43E1256; 0xC87289BE; 0xC8AE5CFB; 0x2B9C5072; 0xD573E0CF; 0x475FA7A4; 0x709B1C4B; 0x81D07D11; 0x505ADF59]];
  [[0xA4AFD6AC; 0x1BC79E6A; 0x26866C93; 0x156C1B36; 0x90A70847; 0x6E4F2FB6; 0xE37556C2; 0x745824E0; 0x5BF6585C; 0x384788E8; 0x87EFA785; 0xAD6A726B; 0x40FEB98E; 0xD93A3B7E; 0x282EB335; 0x4BA6A352];
   [0x937FA288; 0x36EE7727; 0xC0513862; 0xF1334DD2; 0x30FB68F5; 0x7AF1B32E; 0x3196B14D; 0x2B0BAEFE; 0x21E84FA0; 0x5E7BA8D7; 0x256AE375; 0x4DA767CD; 0xE0F658DB; 0xA8D467F8; 0x20DB1855; 0x7709039E]];
  [[0xB26EE5F4; 0x6155BDC4; 0xC48A3913; 0xF0CFD2B7; 0x63BFB3E5; 0x75AABCA1; 0xC525DA22; 0x9232746D; 0x333F2B14; 0x5F00A6CD; 0xF8ECA91E; 0xB3216C2B; 0xF6E4FF19; 0x9A1F1EE8; 0xB0074F5D; 0x3C76ADCF];
   [0x45309788; 0xA414BFFB; 0x86539F4F; 0x83EF3C3F; 0x576C4A69; 0xAB8CEEA; 0x13BEF0E4; 0xA01CC458; 0xEA181987; 0x855B7F00; 0xE30F184F; 0xA97F14A9; 0x554D467D; 0xB17DF2F0; 0xD6C8100D; 0x29F0A944]];
  [[0xC7D083C9; 0x57796871; 0xDA74190; 0xB83CD7FF; 0x97DC4A71; 0xA077968F; 0x8ACDC2D; 0xC27429EC; 0x2B52DFEE; 0x4996DF6; 0x1C182059; 0x13511C3A; 0xCEFA8F7F; 0xCC27218A; 0xA0E51331; 0x757BD45];
   [0x453DD761; 0x5F1D65D; 0xF3C5F5DF; 0x71D57417; 0x38FA1AE7; 0xC1E2043; 0x36E7BB29; 0xA68A6F2E; 0x221EA420; 0x3F3CA00F; 0x1484F503; 0x840830F6; 0x18380FC5; 0xA011EA61; 0xD4D5F0B4; 0x63E08325]];
  [[0xA5352F43; 0xAC4F176A; 0xF5346C89; 0x2C0A1D79; 0xEA7357BC; 0x3F16B2EC; 0x9CB644F4; 0x1FE6E823; 0xE2C9912E; 0x54E68BB4; 0x98E581AE; 0x82B35E8E; 0xD6611B81; 0xD855E028; 0xA8C7ABE1; 0x3D420591];
   [0xA4D7C106; 0x71326CB4; 0x7E21F3EA; 0x5BA8407F; 0x40DA0D53; 0xD33581D7; 0xC1E7D99; 0x7AB20546; 0xCB0075B5; 0x71438057; 0xCB952FEE; 0x2F9AD50C; 0x8B942A98; 0xFDCF4A12; 0xD8BB5BE5; 0x25CFA1B]];
  [[0x27BF5931; 0x2BF4ABF7; 0xD080A1BA; 0x78BD4315; 0xF12B24D0; 0x1EB55607; 0x8E8BAB49; 0xB7BC25D6; 0x60E68A74; 0x1B666AE; 0x9058E10D; 0x9E1E7417; 0xAB695D1E; 0x5D2493D0; 0x271B7FBF; 0x714D7BB5];
   [0x3BD07521; 0x869B52F6; 0x38E8A90; 0x3413A47C; 0xC2B6D60D; 0x2B7724D4; 0xB984B181; 0xD500A48C; 0x99ED9E13; 0xDCD82594; 0x9397DD9; 0x33C480BA; 0xB36CB025; 0xF98DA63D; 0xC33FD92; 0x593108A]];
  [[0xF01AB893; 0xE3BBCCB7; 0x6CE61B0B; 0x3D8D3BD2; 0xFC00DB91; 0xB030CE07; 0xAA51D38B; 0x78ADD938; 0x6CAF34CC; 0x8FA75797; 0x494B4CCE; 0x28C34C7E; 0x79091116; 0xECD5F385; 0x3512B9B1; 0x455FD953];
   [0x3CD57BE0; 0x1D2150EF; 0x43CEF565; 0xF130B2A0; 0xFA4A4082; 0x1146159C; 0xD6BB7E30; 0xDE949D6A; 0x40A2A53B; 0xEB8984ED; 0xB920CDBE; 0xB9E72FE4; 0xB43A51A9; 0xA507DDCA; 0x6C7C6F7F; 0x3EB7D79F]];
  [[0xDD356637; 0xDF75FE14; 0xFBC9E9DB; 0x4B21206B; 0xA729BB2F; 0xA33BCF3; 0x686F49F2; 0xA61A363C; 0x34BD498C; 0x426A4603; 0x705F7CD3; 0xE87EDA60; 0xE633E9A7; 0xF9D24A5A; 0xA4325C1D; 0x52063D93];
   [0x23EEB132; 0x2890EEC; 0x5D39DDFD; 0x430E86; 0xA1E47638; 0x118E18F6; 0x5806CD2F; 0xBB38E8C7; 0xF7CE9486; 0xB7E5375E; 0xFDE35E82; 0x73DAA9EB; 0x82070D71; 0x117E4761; 0x915BBD57; 0x317DF0BE]];
  [[0x25B74127; 0xF6915487; 0x18162D83; 0x4333E7F5; 0xA429665E; 0xB435BEF9; 0x20B9D358; 0xEEE9B7B7; 0xF8D1D44F; 0x436ABB8B; 0xBF38B81F; 0xD1219F9A; 0x9035DE38; 0x7CEE7063; 0xB341FFDA; 0x34129008];
   [0x99745C5B; 0x6595A1B0; 0x2C0685BB; 0x7DF297A; 0x998110AD; 0xEE85C714; 0xE2A8AD4E; 0xD251E587; 0xEC4D02C1; 0x9A38F9DC; 0xCCDAF4C8; 0x60DA566F; 0x90B08CA2; 0x1BD9A21A; 0xE97F4EA0; 0x6D9414AE]];
  [[0x74973250; 0xCBFAA861; 0xAB15AA60; 0xC58A0F6B; 0xFDB7A15D; 0xC00F822D; 0xFA067DEF; 0xAEA74910; 0x81F3EFC5; 0x3750367B; 0xAFC6EC7C; 0x3183E3E8; 0xDA10CD9F; 0xFB62717A; 0x6EEC9774; 0x40431C1D];
   [0x5914824; 0x423E7310; 0x9DE23908; 0xA4F7A978; 0x7D5D18AA; 0xC151A73C; 0xED1EAC6B; 0x1B85B7CB; 0x75066C4; 0xF25CAF8C; 0x8004809B; 0x99508D70; 0x212271C6; 0x6BEDC19F; 0x77A5AE84; 0x2CCDAB39]];
  [[0x23389925; 0x14203BEC; 0xCF059388; 0xFBCA94CF; 0x8124F30F; 0x17626B40; 0xC1C98EB6; 0x2208F6E5; 0x961F4C48; 0x9B385200; 0x2E5C7A; 0x1C9F33E8; 0x58B6DD91; 0xC426A940; 0x1CEC7286; 0x6DF740E5];
   [0x87E56C60; 0xF9397986; 0x587728F6; 0x84425935; 0x2FE267FB; 0x394A3A01; 0xD451CD8E; 0xB9C6481F; 0x5340AAC8; 0xA6AB4F4B; 0x9B85FF63; 0xD7FD9675; 0xAC5AEC86; 0x3D3AE591; 0xB96673F7; 0x43283823]];
  [[0x74E61BA9; 0x24214D23; 0xF69ED123; 0xB41CFB58; 0x54F5F407; 0x8E91FE02; 0x4F84200B; 0xFB989936; 0x24E62F0; 0xAAE985CE; 0xA0BB20F6; 0x896815ED; 0x3DF1E5BC; 0x3536095B; 0x9E1EB847; 0x31C5AFA0];
   [0xC2B9B4F0; 0x5C32910F; 0x50DBB2E8; 0x32ABA814; 0x6AAF8A27; 0x17E2B52F; 0x111CD6C3; 0x142E63AC; 0x22B6D227; 0x15D5F297; 0x3C14CE28; 0x22380A78; 0x5249F727; 0x29F4951C; 0x274839DE; 0x24C25987]];
  [[0x14C6CA73; 0x13F552E9; 0xB154556; 0xCE965927; 0x83EE34E2; 0x330E6D59; 0xE8035AD6; 0xFB7B6051; 0x5B2D081D; 0xC58FBCA8; 0x91D78C8E; 0x254FEDD1; 0xCF877F74; 0x438FF98; 0x8BB12DC9; 0x479CEE4A];
   [0x7A0CBCDD; 0x1855A1C3; 0xFFC35; 0x3667FFBB; 0xF880E9C0; 0xC053A4BF; 0x5AEFE0E; 0xF8E1BCC1; 0xB65DBBC; 0x1AFEE0F2; 0x9E945F96; 0x63ACB97B; 0x80B8F0BA; 0xDFC80965; 0xE919BE03; 0x12A145EB]];
  [[0xC6008C86; 0x8BBD02E8; 0x516BDD2F; 0xB7ACE6C4; 0xE5036467; 0x914AE008; 0x87987C22; 0xD06CF392; 0xC71FFCB4; 0xF78C12D; 0xCBF7A3B3; 0xB4612FBB; 0x7B711004; 0xB6E69255; 0x1EA5ED45; 0x68CEE9EC];
   [0x5009FAD4; 0x45E4A8D1; 0xB1458DF2; 0x1D303BD7; 0xBE13EFBE; 0x388523D9; 0xC15147CD; 0xAC9F6D4A; 0x9ECFA216; 0x551F3470; 0xAC9311F4; 0xFF1AA33; 0xB8D84926; 0x34EED866; 0x72C2CC5C; 0x6BD5ED1C]];
  [[0x9BDD8695; 0xA283EC1A; 0xA599147A; 0x451A730B; 0xDA71F52B; 0x9B6CC56A; 0x77D55722; 0xB1002CF5; 0x7A8D105; 0x354328CD; 0x7A21026C; 0x86B04CA8; 0x50EC9794; 0x53BADA3D; 0xBBC32D2B; 0xBD230C8];
   [0xF7E3C388; 0x322E97FA; 0xAD6FEB4F; 0xA0F06207; 0x9A128AA1; 0x3B05C04E; 0x2214D1AB; 0x5DE3C90; 0xE69A562B; 0x632C92A7; 0x6BEFC0B6; 0xE9F9DEE0; 0x63E05275; 0xD269F547; 0x6C56EC35; 0x4B2E1AB]]];
 [[[0xFEB514D4; 0x9DB921FC; 0x485F4F30; 0xAC3CB4; 0xFED6B15B; 0xDAFF6F9; 0x9A5E67CB; 0x74C16AF5; 0xA8275392; 0xAA73C142; 0x46A65634; 0xBF53E454; 0x3D87479; 0x2819387F; 0xB495DDDB; 0x4BC9293D];
   [0x18AE902B; 0x755EC696; 0x1E9C6398; 0x14729175; 0x29508353; 0x82396B3F; 0x8614C4D; 0x932903AE; 0x50BC308A; 0xA4B24D64; 0x88BDA41E; 0xA89DAA2F; 0x84F8A09A; 0x94FC7C46; 0xB4931402; 0x1054948E]];
  [[0x8A7BA306; 0xF3E0BB8F; 0xA45240B6; 0xC31FDE41; 0xE1755B86; 0x5AD7E1A; 0xBCDD1230; 0xDDBFC1F9; 0xB4F8B744; 0x8006BDBB; 0x8ADE1D9A; 0x86582902; 0x78339E6; 0x8FEFE3B7; 0x46216EA5; 0x342996F4];
   [0x9B3D4651; 0xE0E1B5B3; 0xAABBE714; 0xB2FC080C; 0xA522F01C; 0xC720BD5E; 0x95F65EBE; 0x11D0543B; 0x484D4123; 0x880103C; 0x96976F8B; 0xD3F969F3; 0xFDBA1CC1; 0x614855B7; 0xB3EC4B2E; 0x56D4EEFE]];
  [[0x3894EB7E; 0x29DC51C; 0x9D9876B7; 0xF4AAE878; 0xE2388A33; 0xFCD3C74; 0x91E31014; 0xAD4C4CF7; 0x11977D22; 0x34F61FF1; 0x7AAFC8D7; 0x984416FD; 0x5DAE6048; 0x4A441361; 0x7B1AFA0C; 0x50D2387B];
   [0xBB8211DB; 0xD8BE85A1; 0xDD31FED9; 0x195092C3; 0xC1764C23; 0x1F6FE6AB; 0x3F067D75; 0x6A25DE23; 0xA244AA1D; 0x8DB614AA; 0x25B11975; 0xAB0D7473; 0xC036EA42; 0x714067C5; 0x6F3B1132; 0x379935D6]];
  [[0x8E762CB5; 0x1E8339D4; 0xDF30209; 0x1857091C; 0x29523926; 0x2E4AC9A7; 0xB7D5A5BB; 0x5983F6D2; 0xF31262FE; 0xA99D8D11; 0xA5CAB7C2; 0xE722945D; 0xE8767862; 0x3196BFBD; 0xA59924F6; 0x43707848];
   [0xC78D8788; 0x8F0E368A; 0x4BF7DA53; 0x50811A26; 0xDCA664FF; 0x9E0CB8FE; 0x82EDADD5; 0xD2B8DFA0; 0x4A0C48E4; 0x9C45772; 0x22511381; 0x6EC46A5C; 0x313E87CC; 0xF5810BB4; 0xAB5A6BAB; 0x20C5F006]];
  [[0xD87A06AF; 0x76C6F60A; 0x78FDEBB5; 0xAB7144AD; 0x5646A659; 0x956C36E7; 0xB785E745; 0x5477D0F6; 0x4594BC06; 0xFE9FF232; 0x3039A102; 0x1783B9A0; 0x90DB0AB3; 0xD41E6C5A; 0x7550121F; 0x43749FB4];
   [0xD17CA661; 0xB7C6D143; 0x2B73135D; 0xB1591F57; 0xC62DFF62; 0xF03232C9; 0xCAF25761; 0xD3D1C629; 0x4B67D224; 0xF633733F; 0x764EBF02; 0xCFBBC0D0; 0x63C7EE19; 0x41CC07DD; 0xE8B36CB5; 0x53BC8A63]];
  [[0x74CAF7FF; 0x1E9F596C; 0x8C049872; 0x8088EF96; 0xCE1208BF; 0x3A9EA96E; 0x15DAF25D; 0x892C44E7; 0x5E996AE4; 0xAF6E1EBF; 0xBAC1A746; 0xA6EEE3C; 0xCAF162F6; 0x9D471CB1; 0xE6BE08F1; 0x13F7192A];
   [0x49FBB46D; 0xCE44C77A; 0x5A04A72E; 0xA7B9136F; 0x2B937703; 0x6CA33EC4; 0xE8685FFF; 0xD4B3AAB5; 0xE7207EF1; 0x8EFE02B3; 0xB83D0E5A; 0xB138C46D; 0xF6C29885; 0xB73E636A; 0x72567A55; 0x5C1E1242]];
  [[0x15137904; 0xDD967B6A; 0x6969B92D; 0x4588BAA7; 0x5E2BA269; 0x99580A4C; 0x915645CD; 0xE80802B4; 0xFB6591AE; 0x7246F3F2; 0xCC25F464; 0x68C2F8C6; 0x4905AE3C; 0xB5172E90; 0x675591B3; 0x6860BBDD];
   [0x626489DF; 0x68BE15C0; 0xC737BEB; 0x65EA3D88; 0x32B5081D; 0x9EF8B6CC; 0xB16FF753; 0xA6238BB1; 0xE17264C8; 0x22191589; 0x903E28DC; 0xDBDAE7A3; 0xF2DBCB8E; 0xB36FCD91; 0x75D33835; 0x1EBFAC4]];
  [[0xBC820AEC; 0x7B0EE204; 0x8568C4E8; 0x500DA7FC; 0xB0961D29; 0x992A6429; 0xE65D7FDA; 0xA3CAE853; 0x34197E58; 0x7B6F5E79; 0xC4E849CB; 0x90D37EAC; 0x106FD33; 0xE01D14AF; 0x80027E17; 0x4BE83679];
   [0xA85EE145; 0xA412BA38; 0x5097CD50; 0x219D461E; 0x29ECFCDA; 0xAD42175C; 0xD04FAEFA; 0xB1DEF962; 0xA95983C1; 0x5B527A4B; 0xBB20AB6D; 0x48A06C96; 0x1FB83513; 0x7BAD34CD; 0xFDF018ED; 0x458294DF]];
  [[0xA695A157; 0x1D1EBD7E; 0xC52D5ED9; 0x296DD049; 0xBE33F05; 0x8958F5B0; 0xD37E60D7; 0x6B7F7204; 0xC668C85A; 0x446F7B95; 0x20F60396; 0xB6E53B20; 0x8E621E73; 0x5738FF4E; 0x8CD9F00C; 0x5DBD495];
   [0xCFECAA9D; 0x645AD9D6; 0x3CEF6673; 0x1CB8E09; 0x6D13DA7; 0x2851ED4E; 0xCB18DFCB; 0x61FE9A95; 0xF903CBFE; 0x62CC060F; 0xF14B0B1B; 0x121B6E4E; 0xC4DEC6F3; 0x8CAB6654; 0x4B40D6D4; 0x71880998]];
  [[0x9583FB84; 0xEE5CA2A4; 0x4462D044; 0xEF16CD07; 0x21EBB18F; 0x1C1D5999; 0xAACAD30; 0x66D7586B; 0x2EB12D8B; 0x8EDF0A45; 0x223DE805; 0x1A320A44; 0xA0C2F092; 0xA389DA0; 0x7E68A2D9; 0x274FF541];
   [0x30395E54; 0x6CC34B53; 0x8C112729; 0x881E630B; 0x70E4C811; 0x801E1CAD; 0x91C2E90A; 0xA527AE82; 0x562AE094; 0x93179BC8; 0x148F4F44; 0xCE68A130; 0x32F8CCFD; 0xD8CA2ED0; 0x527F82B; 0x415FDA4]];
  [[0x25AED793; 0x9F5CA1FD; 0x9C49711; 0x5B95B9AA; 0xB968168C; 0x386C8FBB; 0xBDC778F4; 0xC6B27D7D; 0x321A9D97; 0xBD5439A2; 0xDC4BA6A0; 0xEA40A5FE; 0x962508AA; 0x94913F0F; 0xB247396E; 0xD2DD91A];
   [0x17C64EFF; 0x1F459CF1; 0x137E003; 0x2E10B55; 0x60F82DFB; 0xFC375FE4; 0x4631ECED; 0x9CCA9D6E; 0xE5053FDA; 0x575C197C; 0xA5B9670; 0x2EA3ECEE; 0xA6F50038; 0xE69DECA1; 0xE8EDDA74; 0x32F452FB]];
  [[0xD9E4C490; 0x20980611; 0x74825DDD; 0x827D79F1; 0x218E0B22; 0xB4604E04; 0x1F4F1752; 0xA7E5E3A; 0x243D8298; 0x50260245; 0x1A2101B7; 0xEBF01C84; 0x69E1A262; 0x369E69AE; 0x4C1C960A; 0x5FD07868];
   [0xA8F15793; 0xC542D34B; 0xE393381E; 0x8F14B8F; 0xF855CD9F; 0xB6E06E97; 0xA6CEE8C0; 0x47A195ED; 0xB05A740D; 0x8776F026; 0xAC8EC060; 0x811D7AD6; 0x29002EFB; 0xA61E5D27; 0xC78E746; 0x3D51D70E]];
  [[0xC99E1438; 0xC0D70275; 0xFD5EE6B2; 0xE95C0EC; 0x39E6733E; 0xE14F58B0; 0xB4941C24; 0x57B179E; 0x93C0A5EF; 0x5E12F07F; 0x5E72CAB; 0xF600367D; 0x899F259F; 0x89FCB008; 0x9C3E30E7; 0x2654687C];
   [0x3F148638; 0x85B7F9B7; 0x9EAEE0B4; 0x8088F4F2; 0x3A7CAFD7; 0xA741D270; 0xDB5B5339; 0x8973A806; 0x22DDCAA9; 0xAAF4E75C; 0xCBB763CB; 0xA2450A79; 0x16E5E3D; 0xBE1B3F2A; 0xCCECC258; 0x4B1061B2]];
  [[0xC9C8A23A; 0x2F28689A; 0x59341E8C; 0xD8FB2980; 0x375ACDAD; 0xD3617B26; 0x513ED120; 0x314FA469; 0xE2F8DF55; 0xFEB30225; 0x1F639D66; 0x29E001AF; 0xDBDC9737; 0xA175DDD4; 0x8015C048; 0x6A778E4F];
   [0xCC55DBA8; 0x4612651E; 0x2B3C7B06; 0xE853ADDE; 0x6E0B2E41; 0x14B2D0B7; 0xEE804E0B; 0xCA4F0872; 0xF893D931; 0xEA2AFCA5; 0x9BE51B1A; 0x6EB01891; 0x1F2769F1; 0xB0D8500D; 0xA47FFC13; 0x1303BA01]];
  [[0xB43811EA; 0xBED58425; 0x4E52E1D6; 0x57D7E536; 0xBF5EF913; 0x93DE67FE; 0x2713FC52; 0x2CCDA4E3; 0x8F1FA4BB; 0xC5C1B6F0; 0xA725295F; 0xA267A790; 0x2D219844; 0x13BB7D11; 0x75415602; 0x7FAF96A2];
   [0x4E4C3CE4; 0x7879EDF4; 0x3BF094F7; 0x9CD59A0D; 0x4A882A52; 0xD7976DEB; 0xBA65AFBA; 0x19EBBC10; 0x2D48D187; 0xABC37350; 0x1236B5F9; 0x5D5CA6C3; 0x915EAF61; 0xDFA55AC2; 0xE8735632; 0x6C54515E]];
  [[0xDC21B326; 0xB1CD06DE; 0xE4AE6148; 0xD6F6F904; 0xFA13BE52; 0x941B7545; 0xDF7CE61B; 0xD527042F; 0xD9C9BBDB; 0x1AB4495E; 0xBF6582BE; 0xA5CBE7C5; 0x41A1DA90; 0x1D0B5BA2; 0xA810954; 0x6F99305C];
   [0x40D3954D; 0x866C254F; 0x2E5A123D; 0x5DEBFF4D; 0xAD23124C; 0x14AB6FB8; 0xC6B13624; 0xAE3C32B6; 0x707528BA; 0x74075FF6; 0xE91D5097; 0x55DA7227; 0x6A9C3469; 0x450D3848; 0x2313EBA2; 0x15818A1E]]];
 [[[0x14125D01; 0x27BE68B4; 0x2482BF94; 0x87549114; 0x8D0C8AF2; 0xE8B70931; 0x11344A8B; 0xF38D32BF; 0x63136143; 0xCB7CDFD1; 0xA17D7DE5; 0x717954CD; 0x7C10DF5E; 0xD65BDD44; 0x4E821D20; 0x15C45F81];
   [0xD9C326C4; 0x7D425E66; 0x1C7B4BCD; 0xEEA0D61A; 0x8707E9C8; 0x41A8654A; 0xB4A8F46; 0xBA9E8F7C; 0xF2739871; 0xB96A24FC; 0xFD9C9D58; 0xA9BA022F; 0x2C9AE418; 0x59F7C297; 0xB0CDD468; 0x6B82C284]];
  [[0x58483FA2; 0xD4C5486A; 0xEDC6A022; 0x8F140259; 0xC43116F8; 0xE451FB0C; 0x65DF7628; 0x5368FE47; 0xBC70855A; 0xF0DCC6D; 0x472BFE81; 0xE726D87; 0x3C024F88; 0x9C64B716; 0x14FF6089; 0x1ABAE0D8];
   [0xB5A15618; 0xC0ABA6B3; 0x65CE0681; 0x71FAA6DF; 0x39A6F5BF; 0x3199E2C9; 0x85BCF47E; 0xD8EBFEDA; 0xC262A35F; 0xC3D57D3B; 0x269DFDE; 0xF0D6338E; 0xE6D0BF0; 0x9072E1E; 0x4128B1BA; 0x980E291]];
  [[0x4DE44CB0; 0x6A2023F8; 0x247A7D5B; 0xEA995754; 0x99102324; 0xD850D179; 0xA906B038; 0x126FDFE2; 0x577DF168; 0x4C3B3696; 0x9E3853EA; 0x9D3A9E07; 0x40ACE3A1; 0xBC21A51E; 0xC51DD652; 0x165065A3];
   [0xE4BBD96B; 0xF5B255B9; 0x3D94F9D6; 0xC1E91F80; 0x84768FCE; 0x7DDB5BB7; 0x5CA35823; 0x33F7ADF6; 0x33097882; 0x3667E174; 0x8F241DC1; 0x5FDC3BA1; 0x172CD7FC; 0x41F5C737; 0x7986FE8D; 0x64D4116E]];
  [[0x8C89DED4; 0x2FF0F505; 0xBBBD0897; 0x6507852; 0x1FAD2908; 0x62886521; 0x9F5F4D13; 0xB8A1362E; 0x6E9856FD; 0x83075FE6; 0x7CCEDC4D; 0x6B0BA27; 0x52750DD5; 0x9B81B51; 0xCB59D8F1; 0x12A96BB0];
   [0xDB43958B; 0xCA4BC3A5; 0x94C12E88; 0x6456C11B; 0xAC330EE6; 0x7EFA99FF; 0xF40AEBEC; 0x56973CAD; 0xC5D73A2A; 0x62522E6B; 0x90F4378B; 0xF4538CA8; 0x1BA585B1; 0xE5447FCB; 0x18376AB9; 0x6C3F50C2]];
  [[0xE1720FC1; 0xC0156EB6; 0xFFEE4BA3; 0xE0F821EE; 0xD0B530C5; 0xC0B4EF97; 0x1A47CDAA; 0x3BB116; 0x464EC84B; 0xA5837856; 0xE0E63A97; 0xD65BA195; 0xA375112F; 0xB22C0F5F; 0xA7F7BDC1; 0x18D81698];
   [0x91E78A50; 0x5FD3C5E5; 0x97D10A66; 0xE5EE4EB9; 0x9FA305DA; 0xF74BD085; 0x5485E038; 0x519BC676; 0xDE116ECE; 0x7D3E6E21; 0x4221F32B; 0x10D68B8C; 0x565C1614; 0xE41D74A9; 0x2E728554; 0x191561DD]];
  [[0x1C9BD19; 0x527CD255; 0x913FA68C; 0x1879769; 0xD76B7FCB; 0xE9BF7700; 0x2B92508; 0xCEA4EE41; 0x34D015A1; 0x739154CC; 0x44C3F451; 0xD1F1F1AC; 0x7905A732; 0x1DF5A4AA; 0xB67F7057; 0x81AFEB8];
   [0x671D0F79; 0x8A0EDEC0; 0x442928EE; 0xE99B4B79; 0x2C1557B0; 0x4A722AC7; 0x3021BBE; 0x95070ED6; 0x672C3F05; 0x9E1E6418; 0x89B0C1A6; 0x87337263; 0x8A3B13; 0xB67B8831; 0xB059BE83; 0x4F44986B]];
  [[0x2CB15C97; 0x9A5B3C9; 0xF9B4777D; 0x43E1B906; 0x66A5BC88; 0x3BAB3A64; 0x7D82E655; 0x276632BB; 0xD97D5CE2; 0xD09388D1; 0xCA1248C5; 0x26B0339D; 0x11F2A8BB; 0x5F0A241; 0xB7F68A8A; 0x1F498EBA];
   [0xD0DD019B; 0x265C09CF; 0x958B91C2; 0x1A0FE11; 0x5A389069; 0xF55D56ED; 0x1A18A889; 0x9E5DE2CA; 0x65A1799; 0x4F4C9D39; 0x7213B184; 0xB5CB916F; 0xB5D0926E; 0x1941E104; 0x2E03CFB8; 0x6EC375E8]];
  [[0xB57B1B5D; 0x80F444ED; 0x7D4EFD6C; 0x2E5315E7; 0x868CC07F; 0x9272EBA7; 0x31A8EA6E; 0x19EC814D; 0xF29FCDBF; 0x9EE92D03; 0x2E8408C3; 0xDBF8AB6B; 0xA103D807; 0xA0E845FB; 0x1CA3992E; 0x2A6A6B31];
   [0x1C391D76; 0xF58B6F6C; 0x13687C07; 0x9E385BB2; 0x6BAEBBF5; 0xF6EE205B; 0xA706C6C5; 0xB2D7D412; 0xCD887640; 0xCFE32A97; 0xD93A1136; 0x2783CFE9; 0xF4D34FA7; 0x601DE429; 0x6EA85459; 0x1E433BB8]];
  [[0xD618AD6A; 0x8BCB9073; 0x996FE814; 0x84CDBD19; 0x166793B9; 0xB1F5FFDB; 0xEDE62FB4; 0x5FA22BAD; 0x7019C1EB; 0xC1C1C394; 0x8AA77F0; 0x7A026191; 0xA32E5855; 0x26EE69D; 0x80B81284; 0x53563997];
   [0x5E0B9ABB; 0xF46C064F; 0xE8A0FE23; 0x39332D2C; 0xBE9ECC5; 0xBD50EE1C; 0x8DE1B166; 0x9B4A4CC0; 0x56713AAF; 0x4BBA7B7B; 0xF1C76C54; 0x2CA8EF64; 0xCEB309E8; 0x1022D9F4; 0x15A18D10; 0x4F1375BC]];
  [[0x9198331C; 0x9CF4EBA; 0x7D60EA39; 0x232CA52D; 0x2FC3A96E; 0x2C478089; 0x80CB5721; 0xC7F9A36C; 0x2D8802BE; 0xEDA98A0C; 0x3C41B152; 0xC7413048; 0xA74D701C; 0x479DF24F; 0x51869D52; 0x7A92C3F1];
   [0xF00BA577; 0xC1AB98B3; 0xB7778354; 0x5A687BA4; 0x157FB1D2; 0xF5A77B64; 0x81BBAFEE; 0xB9F746AE; 0x1BEE9D2D; 0xBA33EBDC; 0xD046655C; 0x6FE41BC1; 0xACC3A496; 0x2A8CB913; 0x6AC2B374; 0x7CBC537D]];
  [[0x538ED4B1; 0x55C19B5E; 0x61891DAE; 0x6AA0E456; 0xCD971AE7; 0xD77CA0C2; 0x70294F78; 0xB23434F7; 0x14D25513; 0x3B87D759; 0x8B94F435; 0x2A37CFD2; 0x3F3F32FF; 0xF63B0962; 0x98B5916A; 0x6387EFB9];
   [0xF35951D8; 0xB2826971; 0x996C5518; 0xD1DDCB0A; 0x3669304A; 0xA5E88B2D; 0xC53DEDB7; 0xEA5685BD; 0x6A446FA0; 0x2DD72E08; 0xEA074FF8; 0xFA2689EF; 0x7A8302C3; 0xC3430BBE; 0xE98D1CD5; 0x98A5073]];
  [[0x44EE6CC4; 0xCF5D95C2; 0xCE04027F; 0x5D5278B5; 0xC1D26E0E; 0xEA0F4D01; 0xAB2E71FB; 0xA79154F3; 0xDC59126C; 0x27BBA6EE; 0x632BEE8F; 0x269EB8B7; 0x53BB6C55; 0xD5894008; 0x222DDE2B; 0x7698DA12];
   [0xB5D03BC6; 0x826DF5A3; 0xE126406F; 0xFAADAD56; 0x68849D5F; 0x2EC70B64; 0x1D799E78; 0x9DDF8991; 0xD4DE8AC5; 0xB2AEAFC5; 0xE114AD71; 0x7A167F8F; 0x13AA2EDF; 0x9DCD07BC; 0x6651BD12; 0x531A5A3D]];
  [[0x82E7C32C; 0xDE7CE2AD; 0x2D0742C3; 0x2C9908EA; 0x56F7C69; 0xDA528D69; 0x704BFDCD; 0x1FE6E3EB; 0x79B0F586; 0x9C1EEDDF; 0x481E83F6; 0xF6F81FB; 0xE007286E; 0x17DB66C0; 0x1802CD99; 0x3607EC13];
   [0x6F216120; 0xCCB2B85C; 0xE51C2036; 0x7B9EA544; 0x5428771E; 0xB14CD361; 0x3C6BD02; 0x978C458E; 0xEACEB25A; 0xEA43C163; 0x6B85CBB9; 0xB590D2D7; 0x19C45D61; 0x10B8EB86; 0xA1FC40DE; 0x2E5AF3E0]];
  [[0x90D2EA3E; 0x465C6261; 0x3E11EFC6; 0x6B10583C; 0x24958F6C; 0x1E3A1132; 0xB3336EA5; 0xCB895C3B; 0x5F89EEA1; 0xCA995E60; 0x199719B0; 0x725FB30B; 0xF8061D92; 0xC6897E80; 0x2CFBFB75; 0x56680A53];
   [0xD13E5E25; 0xA770755D; 0xFB78D704; 0xC33F71B0; 0xA101B288; 0x7B2322E7; 0xC1075A9E; 0x3ED4A92; 0x4B8CB0D4; 0xBF435984; 0x60F8188C; 0x6C61DDF3; 0x4D04EA1B; 0x760339E1; 0x46CE38BC; 0x18B7FE13]];
  [[0x838C109E; 0x7AA91562; 0xEF910EAF; 0xBBCAE1A4; 0xA3F53427; 0xF3CAD5AD; 0xAA559EE9; 0xF8FA6F08; 0x9B872C03; 0x35DF7AA5; 0x8F1C0B48; 0xA3C6789; 0x3B1F9ABD; 0xE4106F6F; 0x7DAA3EA0; 0x51EE882B];
   [0xA97C031B; 0xFAE35FE0; 0x2FB341D9; 0x265CC7A2; 0xF7515098; 0xF99D1646; 0xA70C3101; 0x3630DCFC; 0x984A7736; 0xD492AE5; 0xA65956C5; 0x1E46ACB5; 0x9C39921B; 0x87E193D0; 0x71406E88; 0x1AA85A4B]];
  [[0x26B55827; 0x6875F762; 0x28C694F4; 0xC6E92CB6; 0x57E83283; 0xC3DA1CFB; 0xFC91E16A; 0x2DAD4640; 0x79E48FB; 0x27238EDF; 0x4676F002; 0x8262F37E; 0x7E20A097; 0xF1DF5685; 0x1D647DBF; 0x710B8830];
   [0x55F50EC5; 0xF521938F; 0x5A65EC57; 0x86E72C2D; 0x9E067563; 0x72E72E10; 0x2941350F; 0x1C572F37; 0x27E00FBF; 0x234F613; 0xE0605A65; 0xA33CCF1A; 0x9BE4C255; 0xFDB2433A; 0xDD7E45CD; 0x18374CEB]]];
 [[[0xCEEC3F3; 0x9E00FC84; 0xD2268DF; 0xA758AA23; 0xD36F482D; 0x5C9B3794; 0xE90303E7; 0xEE3F79CF; 0xD1BB3495; 0x22573217; 0xD2242A7E; 0x6D5C2063; 0x876A074A; 0x339BEDB8; 0x95CD5AA2; 0x63268703];
   [0x1B0CAE7B; 0xA86B4EF9; 0x3DB7D12D; 0x420985B4; 0x6B1CEED3; 0x99A3BB29; 0x3569FA9E; 0x2113B00F; 0x8E8BF2D8; 0x2C592420; 0xDB962B; 0xF74DD63B; 0x9758035F; 0x8F0523E5; 0x448F83C0; 0x4EA1D81A]];
  [[0xAAB1F908; 0x1183057; 0x324AC197; 0xAF94AE9A; 0x23710A59; 0x6BF3B50D; 0xC39A3428; 0x9B65A594; 0x2210C08A; 0x345E5C52; 0x23216FE9; 0x6D728DD6; 0x2E4F42C2; 0x9D09327B; 0x9505F44; 0x47504F62];
   [0xFB3AD9B5; 0x24F03D12; 0x439F3E25; 0x70E8DE3C; 0xAE5A62FE; 0x1FE89F0E; 0x4B98CDA2; 0x3B518A06; 0xC70FF3F3; 0x725AE18C; 0x2BA4952; 0x45765C35; 0xA7C32E49; 0xBAA6488D; 0xC5A2E6D7; 0x5D277639]];
  [[0xBD6F5DF9; 0xE3818693; 0x8307A5AD; 0x482D9357; 0x323D211C; 0x82B507F2; 0x92967D94; 0x9E382A71; 0xB3BFF973; 0x4327BB2A; 0xAC87D95A; 0x911FF5F4; 0x3BEF8BFB; 0xD2128961; 0xB8FA196B; 0x43E2ED58];
   [0xD5D4F65F; 0x74359D2C; 0x401FC20D; 0x7FE8B0D1; 0xC012734A; 0xAA9C0EBC; 0xBC05E810; 0x54BB07ED; 0x94C9B39B; 0x9744AB8; 0x47E3E6E7; 0x1B29E64A; 0x3B728BB9; 0x82082F86; 0xE159E167; 0x5DA4AF1D]];
  [[0xF80E5A20; 0xD838425E; 0x7AA52E54; 0x1701F0F4; 0x3B0EF4D7; 0x2BC3E024; 0xBD8C9C7E; 0x13DED370; 0x3853E414; 0x93A9BCB0; 0xB81BBA1; 0xBA752832; 0x69F51EC3; 0xBE267CE5; 0x81D034EB; 0x2DD13391];
   [0xEAB11B6E; 0x78E02B77; 0xD67C3B1C; 0xDC2C14F2; 0x87193F9F; 0x3407014C; 0x580D2A6C; 0xA5187CAC; 0x254FB63B; 0xA76AD3CB; 0xFA5EC4B7; 0x16A7A635; 0x358A7E00; 0x8B1E623D; 0xE428EB45; 0x12DED0AE]];
  [[0x42D2628B; 0xEC93FF3E; 0x4D6D15AD; 0xF3E153F8; 0xB269AFEF; 0x9C1D3EE7; 0x2596D285; 0x1DC9ED6B; 0xDA973D5C; 0x1D99A25F; 0x575656A3; 0x6D0CC657; 0x9BE5B314; 0xB5FBD573; 0x4BCB4F6B; 0x2D0AF381];
   [0x42992580; 0x813C6975; 0xD9C88B9F; 0x5F35F31B; 0xF1315EA8; 0xD62AC131; 0x20AEAF30; 0x6898E20F; 0x733A3518; 0x85A2C8AF; 0x42DFC623; 0x60BB0AE0; 0x7F5A3320; 0x5BE9C682; 0x795B27B; 0x78153114]];
  [[0x5BFB1A8F; 0xEBA2445D; 0xE3A37647; 0x23CA73DB; 0x9D6A2E8; 0x1D41C8EA; 0xB9CA389A; 0x837CB597; 0x1DAF5EF4; 0x66B0A05A; 0x79720DD3; 0xD1EC0B2B; 0x34EC20E5; 0xA4EBD633; 0x96CB4933; 0x3CBE3C4B];
   [0xEAB154BD; 0x5DFBCA31; 0x86B4B02; 0xA95532F9; 0xECE8177; 0xD6D5A014; 0xC1701606; 0xA2BD7647; 0x28947FD0; 0xA0513327; 0xFB8D79A4; 0x941ADE30; 0xA5399FC5; 0xE793B659; 0x7A2DAACF; 0xCBA91FE]];
  [[0xF5D6C8A5; 0x6EDE3A1A; 0x5B8C138E; 0x18C47EFC; 0x7B418D78; 0x997CB33C; 0x83E40686; 0x5269B9B0; 0x8A20DE43; 0x85054DDC; 0x9485BF29; 0xFF62C38; 0xEF78B00; 0x8D769D16; 0x98B54D2D; 0x53D43619];
   [0xC6B6FC2F; 0x7CAC1C68; 0xBA127B4F; 0x4F4FB16B; 0xB003EE2B; 0x613B15EF; 0x7121BA05; 0x51D36B34; 0x70C1BD53; 0xA33E6C36; 0xEEF75FCD; 0xD786268; 0x425A7776; 0xEE9064EC; 0x1B720CA1; 0x640F4FE3]];
  [[0xDE5EB014; 0xD80E5DC; 0xFB6F0966; 0x8B87C2C5; 0x7F7A8B3D; 0x440E812F; 0xD930CD64; 0x4129E117; 0xBB1AD89B; 0x19224A1F; 0x1B9CF977; 0xFF6582C1; 0x2ED4B99F; 0xC279A28; 0x61859FE3; 0x5985FA32];
   [0xFD425835; 0xE807ADC1; 0x52CC2AFA; 0xD0F0F7C6; 0x5C43ECC0; 0xF3B06F65; 0x5F15A3D0; 0xC308696A; 0x97174601; 0xDC3AA7; 0x81B1A96F; 0x8FC6B2DE; 0x2071B8F4; 0xE4646A2; 0xE92B7E14; 0x4D8B4DA5]];
  [[0x25133E4D; 0xA3719219; 0x1211714A; 0x76EC5148; 0x75C6B433; 0xB5C0EC56; 0x14240932; 0xE1DFD7B3; 0x239466CA; 0x319F8E99; 0x35FED9C2; 0xA6D0F9EC; 0xC41F492E; 0x19FC4B44; 0xB8CF87F2; 0x36D24698];
   [0xC74D1AAA; 0x789735C0; 0x6B21C410; 0xC0DBF5F; 0x4DCAACF0; 0x157DEB3C; 0x9826FE13; 0xA7D53A56; 0x8E151D58; 0xB4F2E884; 0xA51FDECE; 0x6CD528BD; 0x6F669DBD; 0x7EF7FA0E; 0x666F1F7B; 0x5250D79D]];
  [[0x2CBADB6; 0xC33D5CC3; 0xC56345D9; 0xF51C5ABF; 0x3B5E86CE; 0xB2FED49; 0x480D2793; 0x86599A1D; 0xA8F96CB6; 0x15CA7826; 0x5DA5D7C0; 0x577868C; 0xF8B7F740; 0x292603B; 0x85445AB2; 0x49C31FB5];
   [0xEFDB9DA0; 0xCFF51BEB; 0x9DA2096C; 0x1C552A23; 0x416FD3D7; 0x6FAC5D64; 0x5F5F2D95; 0x7F6CD9A7; 0x1E91AB28; 0x98BD5C7F; 0xDAC6FFA2; 0x95132D69; 0x4C6BDC19; 0x5611638C; 0xDDCBF9E; 0x79320E84]];
  [[0x28AD172D; 0x2B07BCB2; 0x9AABAAA7; 0xFBD85553; 0x715A69DA; 0x466FF9B8; 0x5DF8355B; 0xA5EE097A; 0x94527A84; 0x5E81EF36; 0x62E79307; 0xFD82858; 0x7A0154D8; 0xF77154C6; 0x17F87D8C; 0x706EA857];
   [0xEDF504A7; 0x696280B6; 0xD58FD9E; 0x8E2FDF94; 0xA6463DF; 0x4582C065; 0x68B7389B; 0x5DC2DECD; 0xD2CFCF3C; 0x98D77559; 0xE277A1EA; 0x4E652C83; 0x22B153DC; 0x81FA94F7; 0x27250748; 0x6B86C4CB]];
  [[0x9050FD42; 0x31FA2A56; 0xFDCEFA17; 0x72FEACD1; 0x84A8F817; 0xDC60ED63; 0x24332D2E; 0x584DADB8; 0x3C47EB6B; 0x44D7CF2E; 0x9A6BC268; 0x905E2D0E; 0x6EF013BE; 0x501FE448; 0x999445A7; 0x733E11DA];
   [0xB4A90B6B; 0x7EBF9F56; 0x4364F578; 0x526D5685; 0xBE950B53; 0xBF9B3EF7; 0x73D295F8; 0x6C5EEE0A; 0x3F9CFD38; 0x4A79F9A7; 0x5C348121; 0xA8C15D28; 0x7BC3EEA7; 0xDB33882F; 0x1C95C7DB; 0x164B6C98]];
  [[0x876E8E37; 0x99A0B2F1; 0x7D53142D; 0x9540376E; 0x6F20C705; 0x9D87809D; 0xB0FDE5DE; 0x1305C33B; 0xDF9311EB; 0x172DFA23; 0xB8B9A7ED; 0xC55A603C; 0x398CDDF1; 0xF4426DA9; 0x93395515; 0x7EE621B0];
   [0x7190296B; 0xBBD0B9E9; 0x817E9802; 0x244FFECC; 0x71D598F; 0x572B5387; 0xD2B681E2; 0x8314EF61; 0x639B8713; 0x8F8CA790; 0xF265F881; 0x81FD3C40; 0x78DB97D0; 0x5EC87EA; 0xE4CB4B7D; 0x7C279328]];
  [[0xA3B4A536; 0xF385F057; 0x4844689C; 0x14C2337F; 0x8B5FFFB0; 0x3523F9A9; 0xA5E078C2; 0xF5E10A66; 0x9EEAC34E; 0xC5DDD869; 0xED24D386; 0x16348B68; 0xEBB0A580; 0x90992D06; 0x47485A9; 0x1BD2DB];
   [0xDABC2B30; 0x871A178B; 0x6B5F7DC4; 0xEC9674EC; 0xAC23E5B0; 0xBB3B1C57; 0x44A658A1; 0x6DBB0530; 0x61E53517; 0x28B031C9; 0x64182250; 0xC1AB8ED5; 0xD1333B9E; 0xDA3FE27E; 0x71AD4520; 0x4652F37C]];
  [[0x7B2186CC; 0xB9C2F894; 0x57CF825F; 0xFA2E5BE5; 0x26232D47; 0x71A9C723; 0xEB1F6B74; 0xD990D5D4; 0xEE869587; 0x526A74F; 0x79F385E3; 0xB29047B1; 0x7588AABE; 0xE9555EB3; 0xE8EDC982; 0x379D31BA];
   [0xDEC275F9; 0xD1354749; 0x38EAAC97; 0xDC580016; 0x894811E9; 0x23B6F54D; 0x838B2AE0; 0x8A2356F8; 0x332F83F; 0x5ECBE075; 0xF248814B; 0x1DE54B95; 0x963938AE; 0x3B4D634D; 0x7A5F8CB0; 0x4C8888A5]];
  [[0x866B8E1D; 0xC6A93408; 0x3FA8DDAC; 0x33DCDEAC; 0x5DBEC7A8; 0x7F21F911; 0x888CF7C1; 0x4C54D4CB; 0xB81E81C5; 0x3FBBB373; 0xC50F3415; 0x2946B9BB; 0x72265924; 0x8EA5487B; 0xBDEBBFEC; 0x3D570399];
   [0x1939A079; 0x86C128FF; 0x9509F043; 0x4B37E081; 0x7209D23F; 0x42991231; 0x68A1134B; 0x22D2D207; 0x34D6A734; 0xA5AF7A38; 0x2ED7FCBF; 0x752A8190; 0x80FD1D18; 0x11CC5870; 0xD189B4DD; 0x1D9ACAE3]]];
 [[[0xBD6BEAA4; 0xE47BFD7F; 0x56A13CBF; 0x6D4E6C12; 0x955E8CFA; 0x66944291; 0xE17CB432; 0xA5D03765; 0x87350701; 0xB39957CC; 0xC31F2D8B; 0x5442D545; 0xA27161B7; 0xB260AC7D; 0x272AA5A0; 0x633DBFE5];
   [0xCC5C98C5; 0x6273DAA0; 0xF7F5EE34; 0x18117A87; 0xFFC6434F; 0x70638CFD; 0x540FDE06; 0xC3F386EE; 0xD18B02F7; 0xA97159E3; 0xEB612449; 0x10E18495; 0x3D9E5A31; 0xD572354C; 0x9A2301C1; 0x2642E9F2]];
  [[0x442143BC; 0x1048593; 0x12B5CE6C; 0x15299B1; 0x5F5AEA95; 0x7DB0D76F; 0xD2FB7690; 0xE9E3DA6F; 0x8904CCF0; 0x6E4C64AB; 0xA49B6CCD; 0xDCBD06CC; 0xB0ABB0C1; 0x7258A3FC; 0x59FC214B; 0x7DF0E94];
   [0x1E7CC675; 0x58804CBF; 0xE80CFBF9; 0x26CB78C2; 0x9AE03E99; 0xD0A31AF0; 0x5C86A88D; 0x121F1D3D; 0x2507EBB7; 0x42172604; 0x2BBA126B; 0x1C047782; 0x102027F2; 0xE85C59C8; 0xCD8232E8; 0x461D9C09]];
  [[0x200770DE; 0x97B3842A; 0x77C0536B; 0x4647F3FE; 0xBF7476D9; 0x37CC9562; 0x2DEA54A8; 0x90D29C5C; 0xC21BF888; 0xCD666644; 0xC5CF18C8; 0xEAE36F2F; 0xFD93F2C5; 0x903D889A; 0xE5F67DF4; 0x37ADD7E];
   [0x995AC5D0; 0xD38FA2DC; 0x98A2A549; 0x69D19EA1; 0x5E8F6D58; 0xEC7814C7; 0x247C0E89; 0xDD241DB2; 0xE5CF278B; 0x5421BE26; 0xEDACBA69; 0xCF675E38; 0x21F9C045; 0x397356A1; 0x49E0BF07; 0x317C547F]];
  [[0xF5C55ABA; 0x2EB59913; 0x99485E9B; 0x805C61A1; 0xB4C7CEE9; 0x94D81C7E; 0xA9DEE0B1; 0x2DD3516F; 0x3353561D; 0x4C59CC21; 0x5EE9F7B9; 0x375C19F3; 0x27FC9486; 0x89DE4E41; 0x24995DF5; 0x68487AFF];
   [0x6D549CB6; 0x15B98DF0; 0x9B4544BA; 0x4B884EDE; 0x1B3D89C5; 0xE2CEA206; 0x2648786B; 0xCE8945D2; 0xF1272125; 0xB209B7C; 0x2BAFF0D1; 0xEAB0849A; 0xE971F89E; 0xE5F18031; 0x766B7A2F; 0x4379379C]];
  [[0x29B51FB0; 0xFC10C847; 0x1E012F1A; 0x148AE7AF; 0xA20D8DBE; 0x75A5A6FD; 0x8FA0842C; 0x30148FCB; 0x126F8253; 0xA64E438; 0xAECD60D4; 0x72C3C042; 0x38A21DFB; 0x6C3589C8; 0x6BB0D5D0; 0x64BA4594];
   [0xD464168A; 0x6E818AA1; 0x1743888E; 0x96C68C33; 0x672EC8E; 0xD52C73F; 0xA8B446E9; 0x56F9E940; 0xC0E008C5; 0x68F43782; 0x96201134; 0x7C0D8BFE; 0xB3F5942B; 0x66C97894; 0x89BE1E99; 0x8579CF9]];
  [[0x2828506B; 0xE863C3A9; 0x9DF36CD1; 0x18C6E29D; 0xC2AD4DFB; 0xA2DF177D; 0x8B5F6B6; 0xD0E200A2; 0x77B670DB; 0x6BE0AF75; 0xBD46EEB0; 0x750E92FD; 0x87F96AD1; 0x21E21B37; 0xC89C7708; 0xC4F884E];
   [0x630AF761; 0xBCCD3155; 0x19F3528A; 0x769F9CED; 0xBF9CAC65; 0x2572864D; 0xF43268F0; 0xD276411C; 0xA2C48843; 0x12D9FDCF; 0x7AAF1CBC; 0x320A13DF; 0x630820CF; 0x3D4DCB95; 0x28553384; 0x5F471E21]];
  [[0x9C6DCC7D; 0xC14F1D4D; 0xBC2EA2FA; 0x9CEA8E3A; 0x4F1DE28B; 0xD854AEC0; 0xB0EF66E2; 0x5FAFDDCE; 0xA190ADC7; 0xD5BAF034; 0x52D641A; 0xFEB3DE5F; 0x51F9F744; 0xA336FD9A; 0x2E516669; 0x11E7DE0F];
   [0xCD862CD; 0x46B24027; 0x22667C9F; 0xDB3CE4A2; 0x8E3438CF; 0xDF1BD2A2; 0x94E0825A; 0xC20E6ECB; 0x4EDF3C36; 0x8678222; 0xD86E0625; 0xCD547458; 0xC1C8975A; 0xED9FFDFA; 0x60FF6B18; 0x7709A34E]];
  [[0xD6EF8BE; 0xEE6F55D7; 0xC47749F3; 0x6BA29662; 0xCB5824F0; 0x505BEBB2; 0x7CE139AF; 0xDAA39E01; 0xBA4EAAF5; 0xC73FFE67; 0x1216FBC5; 0x1AC8354F; 0x7C029B38; 0xFA600D70; 0xB77E8711; 0x1DEF1E98];
   [0x2199269A; 0x9EA77FEF; 0xA4B5E402; 0xCC5F3E27; 0xFE20DCF6; 0x998BF96F; 0x54252277; 0xCF543A71; 0x71A66685; 0x9D767F87; 0x860B1EC4; 0xE1AA8F5; 0x9437E2D0; 0x3979C394; 0x855C635C; 0x55CBC282]];
  [[0xDB0F28BC; 0x798D8087; 0x90209D22; 0x80BE50E6; 0x69AE2A50; 0x6B14A1E1; 0x21B5A02E; 0x504AD87B; 0x81938DD3; 0xBF92B621; 0xE927A712; 0x1A209438; 0x3C613F5E; 0x3DFC548A; 0xA3C2CC7E; 0x1E6E3311];
   [0xA91BB2B2; 0xE46AC0C4; 0xDF9BA7FD; 0xAC89BB09; 0x4403839; 0xC87555DD; 0xC6BB4379; 0xB1460C86; 0x5FC6E594; 0x3AD253EF; 0x393CB89B; 0xB66B2FB7; 0xE1BAB087; 0x1411B9FD; 0x22C9CE4C; 0x84DD6CD]];
  [[0xE480DDEB; 0x676D50EE; 0xD14909D0; 0x588EC4BB; 0xB5DD3FC6; 0x509A74A7; 0xAA6870F2; 0xE616EEF3; 0x98C5A7E5; 0x76F235D9; 0x77FFB2E6; 0x7A925C55; 0x955213B7; 0xA78A158; 0x28FB60B7; 0x7B068B9];
   [0x50380E64; 0x7610C821; 0x282776C2; 0x6E7C80CE; 0xEEBD3250; 0x9F67368A; 0x85FB7863; 0x932F6E99; 0x924A519D; 0x41FCC562; 0xB499B4AF; 0xC099DE16; 0xAC9C7E76; 0x10764D48; 0xA1BABCE6; 0x66C85BF9]];
  [[0xF5CB951F; 0xB080963F; 0x2A16F27F; 0xD9A5580B; 0x4FCEE6ED; 0x5840499D; 0x4F3B33D4; 0x5F4704D6; 0x82256A05; 0x2A13993; 0x92365A7E; 0x5713E019; 0x6F38944B; 0x4A2F7BA6; 0xA47662D3; 0x14B58D5B];
   [0x5900EFC8; 0xC219E300; 0x4FE2DFC9; 0x45707A50; 0x6863DF90; 0xCE4FACD; 0xC6BCDA9C; 0xEDB31912; 0x85B6CF7C; 0x3E24A0D6; 0x358DDF3B; 0x6365ACDA; 0xF2CB0823; 0x10FD0871; 0x1DAFE4C7; 0x51D58D3D]];
  [[0x291B51D2; 0xE5B64EF4; 0x1A7A445D; 0x70C52EDB; 0xC1E8DF63; 0x758D0DC9; 0x677FE82; 0x55328AB3; 0x7F3A1866; 0xAF4221FF; 0x8C04E9CA; 0xDE1BA109; 0x4C577D77; 0x26F0D086; 0x6D494F73; 0x6D5D3FB1];
   [0x451F8B8C; 0x3C0153EB; 0x5FD3ED6A; 0x6A9B03D1; 0x175180C3; 0xDF442C11; 0x4DD99376; 0xB205EB51; 0xEB489DE3; 0x28E9C5FF; 0x44766908; 0x225CEB09; 0xEB193B68; 0x1DB1F7E7; 0xDF27292C; 0x364B9E6B]];
  [[0x728F33A8; 0xDC6E723D; 0x3A0930B3; 0x8ABEB28A; 0xD024D8B7; 0x584B13CA; 0xDBDE780E; 0xDCDC5BB7; 0x161D9801; 0xA2AD762B; 0x6CE5F18A; 0x46EBC8A9; 0x7EB1CD22; 0x97A0BA52; 0xE22D91D5; 0x58BC4DAA];
   [0x9F01D49D; 0xC06F0B25; 0x3533732B; 0x8236F2AD; 0x7C6C24F4; 0xE3DF9BF5; 0x6AA1E1F0; 0xD60FBCC7; 0xB70A307F; 0x8DDBB9A2; 0xC6071C49; 0x61BB56B1; 0x1ABF19BD; 0x8D3446D7; 0x46387989; 0x44AF2FD8]];
  [[0x86B1B8AE; 0x25ACEB4C; 0x67CFD1AA; 0xB5B0A7E3; 0xB0F063B4; 0x87B3C5CB; 0x6F03BE41; 0x7F429274; 0xD82D7749; 0x412836E0; 0x535225CC; 0xD9B1603B; 0x1590B41F; 0xCBF1A827; 0xFE159BF9; 0x47C32D83];
   [0x369026E5; 0x7A147456; 0x2691A87D; 0x4A21DAB1; 0x61818C2D; 0x6D3EA4; 0xD548A261; 0x56006BDF; 0x1D7DA713; 0x8632A909; 0x26E387A5; 0x859839DD; 0x7FF52CF4; 0x41E4D9D9; 0x85A8F21E; 0xE21329F]];
  [[0x626902CA; 0xDF4AF1E0; 0xEC50A5FF; 0x339CD3CD; 0x98DD7A01; 0x44B2ABBA; 0xCC7AC1A8; 0x47A4DA46; 0x1EA0F3A8; 0xA6925341; 0xC23AA0AC; 0x46F82C17; 0x386897AA; 0xF0394E44; 0x9D5AA759; 0x601F9A55];
   [0xEF324E1E; 0x194F939F; 0xE2F35782; 0x188BE442; 0x5683B3DD; 0x4B2FA7C1; 0x44300367; 0x9F2737A6; 0xAFDF269E; 0xB72F7E8A; 0x7A8A5232; 0x5FFD8755; 0x43299A6C; 0xA1641CF0; 0xC4D1E057; 0x1FDA30D5]];
  [[0xD94B7DD2; 0x926373C4; 0xFAA5C280; 0xE9882CA7; 0xC1D821E2; 0x358F82F6; 0x8812649A; 0xDF981826; 0x10D267E1; 0x96ED4507; 0xF7DF2D84; 0x72253BD1; 0x1F09BC6D; 0x78F13C38; 0x15D1F353; 0x23C79F0];
   [0x65E1924F; 0x5E357E1A; 0x18CC9432; 0x827A8C83; 0x8696C800; 0x9A2FF5D6; 0xE26AB439; 0xDE825B6A; 0xA646B303; 0x34C74673; 0x50657C92; 0xFBFD424E; 0x1F96EEC2; 0xAAD263D9; 0x42FF59EC; 0x78D93F6C]]];
 [[[0x4ACCAC90; 0xEF807EEB; 0x83EFEFD0; 0xEA3708EC; 0xAC470AEC; 0xB3F56C3D; 0x4BB6B4A8; 0x467461D; 0x455704F7; 0x9E2D3152; 0x95097282; 0x957F5FF6; 0xAEADBFBC; 0x1BBA5CCA; 0x829F221F; 0x5D64A8B0];
   [0xDC012583; 0x63B30E25; 0x6E8E7E4B; 0x739D6C4D; 0x108F21C6; 0x4DB4BA8A; 0x8E217429; 0xE4D0991D; 0x747D489D; 0xDFEC43E; 0x3F6623D2; 0x759C611C; 0x1C16C550; 0xBB3166AE; 0x46E761A6; 0x1097FE41]];
  [[0x2774936E; 0x5CACE928; 0x97A7BC86; 0x7D88CE3C; 0x2732B6C7; 0x7B5F9D75; 0xA9623A78; 0x31E096D2; 0x8F2A6C6F; 0xED0B1A7F; 0x8A38C329; 0x47F31AC0; 0x8AE3E440; 0x65FE20B4; 0x8FF8D87D; 0x5BB3DF72];
   [0x394AF7A9; 0x5C361D56; 0x4A967882; 0x37A95802; 0xC3D24749; 0x2037A09; 0xA9EB6A87; 0x623CF773; 0xCC9980AC; 0x4D09B042; 0x4C258646; 0xC1EF17CA; 0xEA522FA1; 0x54C55D4; 0x1459D247; 0x756B405D]];
  [[0xFF7BCBB8; 0xC88B5D92; 0x33BB4D7F; 0x37E62C2A; 0x93850D2E; 0x63DBECFC; 0x5DAF279B; 0x282E1896; 0xB2FD8FA2; 0x90226257; 0x69A65468; 0x68215F8C; 0x56338A49; 0xAEBF43D5; 0x38D7D063; 0x35A40A0];
   [0x61C724FC; 0xEEEE462E; 0xA58C2B0C; 0x660F015B; 0xE16621D4; 0x627E0736; 0x5D724668; 0xD423ADA8; 0x6B777C4C; 0xF98AB83A; 0x5DC968EE; 0x4F5FEC82; 0xDF9BE0BE; 0x4AC7CAAA; 0xCADCF93D; 0x6F7E06DC]];
  [[0xDE36D484; 0xCF90CB74; 0xED61EEE; 0xD511A70F; 0x33798A5C; 0xDBF5689E; 0xDAA5D75E; 0x81900CF3; 0x84CA34C5; 0x854460AA; 0x39220C74; 0x3C00E7B5; 0xAB33422B; 0x4E7CE464; 0xAB536B00; 0x22221BD4];
   [0xE50DFFEE; 0x718695F4; 0xD103C522; 0x466D642C; 0x6EC72083; 0xA01B7070; 0xCB7675DD; 0xD29C046D; 0x605F249C; 0xA2AF1025; 0xEA9111DF; 0x3BD414BD; 0x7D037C23; 0x8DCEC509; 0x176546F8; 0x750E0282]];
  [[0x824344A7; 0x452C27FF; 0xEC399A05; 0x85E64CC2; 0x3442039C; 0xBE15D09E; 0x6A323861; 0x875022BB; 0x61866CC9; 0xD984BF9D; 0xEE6E8271; 0x4007F668; 0xF107566D; 0x90E14CC; 0x1131FCD8; 0x8C2354A];
   [0x8F5FFF23; 0xF9C86299; 0xAC995497; 0x97788808; 0xD43FDCB9; 0xBF6CB8B5; 0xB72DFB91; 0xC75BD147; 0xE15359C6; 0xA537A636; 0x93F6292F; 0x313458F3; 0x2BF3CE59; 0x96B6866; 0x275BB1A8; 0x5618ACC8]];
  [[0x6DD4F47F; 0x434DBAD7; 0x93A13416; 0x7F24804B; 0xDCFDC8FB; 0x54864638; 0x8DBB2A99; 0x94D15AAB; 0x3B08BE5D; 0xC60D064A; 0x77113B1C; 0x8D52AF03; 0xE649649D; 0x795F3549; 0xA2F7B890; 0x6C50A7B3];
   [0xBA7BE66C; 0x1243D102; 0x24A4F3D5; 0xD52A9D65; 0xD940B299; 0x84F3A7D8; 0xA6C5F96; 0x2D0D0561; 0x55AF49E6; 0x68147309; 0x2D484160; 0x1AD2CC29; 0x41613C8C; 0xD9836664; 0xE1444926; 0x116D32D9]];
  [[0x1FC8967F; 0xBFB347E1; 0xAFD35E6A; 0xAB2F0DE9; 0x3D717B63; 0x77C822B9; 0xEFE76953; 0xBA49F6D5; 0xC3729C1E; 0xC4FF8395; 0x1792651B; 0x5E525199; 0x220793FE; 0xEF736F1E; 0xADA2DF7C; 0xC1364DE];
   [0x5E0A04FB; 0xE364A029; 0x2A1CB8F; 0x78CF4CC; 0x884EB5E8; 0x2C6EDCEC; 0x34DA48A0; 0x361E83F1; 0xAE22EE07; 0x543FD798; 0x72A9D550; 0x80A0521A; 0xD5D883DE; 0xCEEB2763; 0x744C8616; 0x4633AE13]];
  [[0xEFC180BF; 0x386138C2; 0x5025C16C; 0x62884C83; 0x3AEF27D9; 0xC846079F; 0x8815E30E; 0x85AC6CC5; 0xD26A2BD0; 0x45705559; 0xEEDB70C4; 0xEF1649A0; 0xE4641EFD; 0x2596F146; 0x93C7B04A; 0x61E89F8E];
   [0x71CA85D; 0x6EBD7C9F; 0x1C15ACD1; 0x5C9951AE; 0x8AE934A1; 0x9DE96A7C; 0x481D190E; 0x4B32645D; 0xA79C0B4A; 0x8D0E2B25; 0xCD74DA50; 0x8EF7BB2A; 0x7920CC8; 0x9481D2DB; 0x8736C183; 0x1BD7A22E]];
  [[0x64FCB568; 0xD4F27500; 0x5C300E98; 0xD92CBB70; 0xCAA8D9B9; 0x5A971902; 0x1C4824C9; 0xA5542DF5; 0xC84D2CCD; 0x7B469D1B; 0xA2566F40; 0xD3FBFEBB; 0xE8FA73C0; 0x89511F69; 0xB162F797; 0x6FFD125B];
   [0xC0FA653C; 0x961C9532; 0xBDB0C77A; 0x7BD198; 0xEEFC3BE3; 0x1853303B; 0xC4A33E36; 0x6D50323F; 0xE367E4C9; 0x9798C97A; 0x12A538A8; 0x9E146B07; 0x4996D58B; 0xBFB3E819; 0x9022E072; 0x5438D6F6]];
  [[0xDD4E810B; 0xC58B1061; 0x8FD29C69; 0x7966E96A; 0x2E65F9B6; 0x7E2D9FD4; 0xFC48055F; 0xA8F68084; 0x2DC5A983; 0x545CAE01; 0xA2596608; 0xC9D198C8; 0x4208B520; 0xF9D9BF5D; 0x7E6883FF; 0x1C0C3F5A];
   [0x5CD4D87; 0x6D7B983; 0x9E9F9F35; 0x899A60E8; 0x5119AAC1; 0x1465EAD5; 0xF329991; 0x3EDF1E36; 0xA0646C43; 0x86BCB01E; 0xEF4EBCEB; 0xA6EF27F3; 0x54EB8E6B; 0xEAF04AE6; 0x8227047; 0x48051E62]];
  [[0xF245F1E6; 0xA84EFDA5; 0xEB80F18C; 0x49759EF3; 0x1142EE5C; 0xFB8A3A4B; 0xB9EE65D6; 0x62907A8F; 0xD68D862F; 0xC5FD7DC9; 0xE1C81BAD; 0x1F791D0F; 0x8C4757BA; 0xFED4DEA3; 0x2FA4C20E; 0x41A50E3];
   [0xF454E68E; 0xB8F7EE7A; 0xCBAB4836; 0xB68F9599; 0xF1872586; 0x3FB9C650; 0x9FDDEF61; 0xF967C768; 0x70E86E8E; 0x8A2683AF; 0xE523AD78; 0xAFD29242; 0x9DD43A6C; 0xBA4EECA5; 0x7BB2E1AE; 0x37447896]];
  [[0xF86EFABC; 0xE5378393; 0x45F692E9; 0x336470CA; 0x66E0FBDF; 0xC5F0022C; 0x3ECD3196; 0x189D81D5; 0x771F9C1C; 0x416D97CB; 0x223448F1; 0xBF2B6B77; 0xBE42A9A6; 0xA4F6355A; 0xB9956AAC; 0x1C15439A];
   [0x7DBFC8B8; 0x20CA319; 0x5C7E4025; 0x25A1DFD1; 0x4D06AAA0; 0x5CF6FAD8; 0xAC1B211B; 0x8221BAD8; 0xAE4C7F7B; 0x68E7DBA3; 0xFEF7CB4B; 0x4C167FA9; 0xA34935DE; 0x207A14B8; 0x645A14C2; 0x1476CCBD]];
  [[0x54E05676; 0xF0467D89; 0xE04530FF; 0xA1987E17; 0x2E3A997C; 0x1E3010C2; 0xEBEF74A7; 0x4001E89F; 0x32572D28; 0x60C65566; 0xA562BF8F; 0x410C49D0; 0x782CE10C; 0xFE591AD0; 0xC3016AA6; 0x272DE301];
   [0xD3FD089D; 0x7AEFA3F7; 0xC68CE61E; 0x5141E3CF; 0x919EF2CB; 0xEC6F871E; 0xB15754CA; 0x9E1F2C4F; 0xB367A8E1; 0x4E053A03; 0x7A946A07; 0xB5447BAB; 0x5934AC68; 0xCA9D154A; 0x9DCC05A4; 0x2C24448B]];
  [[0x7230B721; 0xDDDCC6F7; 0xD59A4D7D; 0x3AB7517B; 0x73E75A94; 0x202A427; 0xF45E584C; 0xEB9CBB02; 0x4D193D46; 0x879F2040; 0xFD5CCEC5; 0x897A3D49; 0x5E795234; 0x7B22D3AD; 0x35E6EA1D; 0x103A74B9];
   [0xDE267F29; 0x83AD405E; 0xCD4EF83E; 0x9C0750BC; 0xAAF8C955; 0x1192B08C; 0x93618DC5; 0xD983183C; 0x51FA4692; 0x3F142E9F; 0xA9E77124; 0xF9242D3E; 0xC733EFCE; 0x44F55EA; 0xBFB0E74D; 0x3FCE259E]];
  [[0x4E061902; 0xB4A72C27; 0x8271B5ED; 0x46D49685; 0xC565B666; 0xE640CD1C; 0x8C432368; 0xFEE64A69; 0x7C9309AA; 0x9B245FBA; 0x1FD0DCD7; 0x2489BB01; 0xB4ADB680; 0xBE612E5C; 0x1905845A; 0x7B828C73];
   [0xAE7E8E5F; 0xB205C233; 0xDDE4865; 0x67C2AC05; 0x556BCEFF; 0xC29416F4; 0xE7DE42B2; 0x3A94801D; 0x8E9195AD; 0xC79768DB; 0x702232BD; 0xF701EAE5; 0x769E819E; 0x7093880E; 0x85575FE1; 0x7385CFB]];
  [[0x552D7645; 0xBE89A89F; 0x4C7C1F2D; 0xC1406B55; 0x9C11B663; 0x123A5BB3; 0x275B4F27; 0x1925904A; 0x11F1A12B; 0x94D33687; 0xD3F31833; 0x446FD57B; 0xA29D4040; 0xFF6FF5D; 0xAE52039A; 0x35355FF6];
   [0x7DE14B02; 0x74B05575; 0x7A47B576; 0xD2E7C963; 0xE99D0433; 0xD391E9D; 0x50CCA807; 0xA4DC3929; 0xA2AF3088; 0x81694449; 0x55474A7F; 0x9222E265; 0x2C2AD9EE; 0xAB5C4452; 0xF7EC7C2A; 0x5810784D]]]].
