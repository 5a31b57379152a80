(** The tables lut_cmb of ecp_id_GostR3410_2001_CryptoPro_C_ParamSet.c as they are written there, for both widths. *)
From Coq Require Import List Uint63.
Import ListNotations.
Local Open Scope uint63_scope.
(** lines 2590-4372; every 64-bit limb is written as its two halves, the low one first *)
Definition lut_C_64 : list (list (list (list int))) := [
 [[[0x0; 0x0; 0x0; 0x0; 0x0; 0x0; 0x0; 0x0];
   [0x254F12; 0xD082E007; 0xEB1F1421; 0xC5BA8184; 0xF010780D; 0x4EC9E7D0; 0x2794C8D5; 0x7846B5B7]];
  [[0x7225A595; 0x870FB041; 0x5FD57F04; 0x6CAFAE70; 0x2E7DB9BA; 0xFEC1C2AC; 0x127A5862; 0x9230823E];
   [0xE4464836; 0xF6CFDB6D; 0x9A945AC0; 0x3D79631B; 0x3D0C880D; 0xA1FCF2DF; 0xEE6A611; 0x17C83E50]];
  [[0xE42734FD; 0x3C79C11A; 0xAC4040C3; 0x1614B2BE; 0x2C3A23A5; 0xDD143725; 0x8AF4F7CD; 0x1A02DA83];
   [0xE7D6991A; 0x23D588D6; 0xD2B3E364; 0x5F332676; 0x9134BA88; 0x35382680; 0xD27090E5; 0x8ECA826]];
  [[0x26761106; 0x231F8DC8; 0x3D78B14B; 0x7363050E; 0xC05C4381; 0xC3B9A1B8; 0xB8ACD9AC; 0x29727635];
   [0x2ED54E6C; 0xDD416AE9; 0xB48A87C; 0x54608435; 0x97093D22; 0x2C8DEEA4; 0xD716BAF; 0x87D2924C]];
  [[0x619206D6; 0x43281D30; 0x68744E44; 0x4A8FFC87; 0x708208D5; 0xB1011A3D; 0xA035B0B9; 0x2FE86E7B];
   [0xA3762860; 0x82F43088; 0xB33595D4; 0x67B5A303; 0xB477BECD; 0x262F16EB; 0x23E2816A; 0x1D38D4A7]];
  [[0xAD83C032; 0x91BBA3C0; 0x234F2FF3; 0x7DBC2EB6; 0x6D18A737; 0xE2C00C15; 0xCCF6DC2D; 0x71D1AE8B];
   [0x2DB77239; 0x6183816A; 0xE228C41; 0xC545A512; 0xF49A679; 0x3B96D6BC; 0xE49E39C2; 0x9831D683]];
  [[0x20DA13D9; 0xEEAA17A9; 0x8ABECADE; 0xEE3130FB; 0xA6E3D089; 0xBFB2CE6A; 0xE627A07C; 0x22BCDCEE];
   [0x955A1D9E; 0x86D7A50C; 0xE4E00B9E; 0xCD60A425; 0x615B9E91; 0x5407A6F8; 0x4F1CA93D; 0x7F17B171]];
  [[0xDB59F2C; 0xBC351DE0; 0x9CDAF8AF; 0x1470E6A1; 0x60D3B27A; 0x461ED289; 0x49C7F789; 0x122C8F4B];
   [0x69FC8CE; 0xAB56E614; 0xC34E487C; 0x9836B010; 0x3FE009EB; 0x9EE06703; 0xAA019563; 0x88C8DC64]];
  [[0x63DDBB1F; 0xD0B4A996; 0x1D154696; 0x483286E5; 0x9F0D6F4E; 0xF0586DB8; 0x980446C8; 0x38167987];
   [0xE4166B55; 0x86A2ABAC; 0xA8366C64; 0x4E7B4F96; 0xED997D8E; 0x20CF2108; 0x1D01C009; 0x20EA9844]];
  [[0xB89CE05A; 0x28B520E; 0x4FAAD420; 0xEF41147D; 0x121A2A0A; 0xB280CCD3; 0x86E8F591; 0x4C677C83];
   [0xA390AA99; 0xB42F67B2; 0x19F8A01A; 0xC4EF553B; 0x6979027F; 0x86761139; 0x82C202BE; 0x6F177663]];
  [[0x27C5C7CC; 0xBEF6B996; 0x10799DB8; 0xB2D34F8B; 0x48AD9B1E; 0x132E1A3D; 0xE68B9907; 0x2971BFED];
   [0xC6B743B5; 0x312F6D31; 0xA718E0A8; 0xCF123317; 0xFD58637C; 0xCF1E5266; 0xE046167C; 0x56BA8362]];
  [[0xE910D7F; 0xD680969D; 0x8A4689F9; 0x634FB3C2; 0x9FDD299; 0xA79A56DF; 0x89411C3D; 0x9065269E];
   [0x82C6076C; 0x5D22254E; 0x81FEA171; 0xDE7D78F0; 0x10BCDA87; 0xE1366964; 0x97638B85; 0x98B58F5A]];
  [[0xFB5EDF3F; 0xA532DED4; 0x833A7E2F; 0x604E5631; 0x3A09C74E; 0x7C4051D3; 0xEDFBEB4B; 0x51D1108A];
   [0x4DF1AB4D; 0x9AE61F9E; 0x163DB1A5; 0xFD4966F3; 0x7075AD6D; 0xF6C44E55; 0x4AF24611; 0x670D0D6F]];
  [[0xD369D301; 0xD99925FF; 0x7665BCF4; 0xC17E9767; 0xCB5A2128; 0xB5A908F1; 0x9C726C9F; 0x1981791D];
   [0xE0861F4E; 0xC4249418; 0xEE045D5E; 0x2A63399F; 0xA1B974FF; 0x246958FD; 0xFC6F7A0; 0x668016A2]];
  [[0xEDE07C08; 0xEB7018AD; 0x2E33D1D9; 0xDF3C1259; 0xDC24E3DE; 0xEE0913DA; 0x35EB6B0D; 0x1C632D5B];
   [0x2C56E1B2; 0xC69396DD; 0xA837CE8F; 0x1F0B034; 0xB6882E32; 0x7842B98D; 0x9E61FCA6; 0x8FAC9230]];
  [[0x8A782CFE; 0x1DBB7D99; 0xC9322BE7; 0xEB945B49; 0xE208123B; 0xDCCB4E6E; 0xFC024524; 0x1C7C265C];
   [0x6102BC63; 0xAD000D8A; 0x82575943; 0x7D7F3C7B; 0xD547A95; 0x8D2F0881; 0xD94FFA6D; 0x7012377A]]];
 [[[0x1EB6CBF7; 0xE3F78DE5; 0x72FA65DB; 0xF4E08A61; 0x502A247E; 0x670B0E06; 0x9877E492; 0x7A45D73E];
   [0x3DD0CDBC; 0x5FD754AD; 0x125AB1F; 0xA5C2B15E; 0xE614B7A9; 0xC503836F; 0x2C50DCFE; 0x5548C424]];
  [[0xB9B38743; 0xCEE7BE65; 0x94BE028E; 0xD5E41715; 0xB5C45F7D; 0x8EC3CA3; 0xFB51261A; 0x1ACFAC17];
   [0xA9C04381; 0x45098D93; 0xA5B45DC8; 0x717FC0DC; 0xEABEE4E5; 0xF352A9C2; 0xF311B457; 0x1964AF20]];
  [[0x802A755; 0x8C229808; 0x6140CDA7; 0x46F0A7CA; 0xBC62603B; 0xF0EEB7AE; 0x4BF4B451; 0x8432E152];
   [0x63967F94; 0x3C319825; 0xA042AE13; 0xF04EACB6; 0x650A6ADB; 0xD7CB2DBC; 0x78C9E166; 0x38A36EE3]];
  [[0xD3EE8657; 0x3527A5C5; 0x101645F9; 0xBAA0DE97; 0xCE9D6A48; 0xC59C9803; 0xF8F39FDF; 0x43D12449];
   [0x8DF7A72B; 0x65B3AB98; 0xAFDA9048; 0xD225AF8E; 0x338A3694; 0x88C368B8; 0xFBC813F1; 0x4A5A3C24]];
  [[0x9E2118B5; 0xCBCB725A; 0xCAA54794; 0x113F36C5; 0x4A0A2267; 0x5900990E; 0xA9C1F11; 0x4E329EB1];
   [0xCD8918A7; 0xF47F4077; 0x3877B404; 0x18A3C071; 0xEFEB2B6B; 0xCDEF4FE3; 0xDE4D0540; 0x360982DB]];
  [[0xD5F8DACA; 0x42AB64F2; 0xEE88523D; 0x604A9676; 0xAEFD1283; 0xD430CCAB; 0x54465F7C; 0x3DA9D0E5];
   [0x41A4216B; 0x5EC145DF; 0xF7E7FBD9; 0x7C8F2C51; 0xBD483D26; 0xA2E58A23; 0xE4A908C8; 0x4739F7F9]];
  [[0x79370382; 0x37DDF872; 0x12C8E90E; 0x9D26A55F; 0xE8EB0CA4; 0xFC1FA6CD; 0xC29DC4F9; 0x826A29E5];
   [0xAA29F814; 0x15ECB621; 0x9DF1DFF7; 0x4C8A8128; 0x66B549BB; 0xBB223019; 0xB81A2863; 0x6CB21ACB]];
  [[0x11DA6928; 0xDD31ACC2; 0xA903D58F; 0xF98867B0; 0xD3679348; 0xAD283697; 0x301C3571; 0x67BFEFF9];
   [0x780BBBCE; 0xB745CAE6; 0x62F2EC5D; 0x1A9C6618; 0xA1475BEB; 0xF9895684; 0x4731A11D; 0x93E5ACE6]];
  [[0x7539483E; 0xF6E9460; 0x9EF4EF16; 0x5728E6DD; 0x62E946E; 0xE1DA86E1; 0xF2E07759; 0x272EBC47];
   [0x909A578F; 0xE5E688E3; 0x7CFD1B7D; 0x9F25D6D1; 0xADE1E2A4; 0xC582260F; 0xA050071E; 0x2F50F74E]];
  [[0x2DF4D40D; 0xE0A8FE3F; 0x7791F88; 0xB126E4EF; 0x2A88D242; 0x69759DB4; 0xC9C1981C; 0x52592A3B];
   [0x72F649A1; 0xD0F41728; 0x750EBAB; 0x9FF19B2B; 0xE0D7D222; 0xEFC047F9; 0x2E8140AF; 0x81491CA1]];
  [[0x675F821B; 0x2DA40FF1; 0x9E2E0502; 0x2C91A287; 0x77D81FE; 0x993ECFF4; 0x71CC3DAE; 0x3ABA2F2C];
   [0x168413DB; 0xED007670; 0xAFBD4E82; 0xC07D61B5; 0x6BBADA24; 0xF078262E; 0x9E6413CC; 0xE0EDC62]];
  [[0xB7D099F9; 0x6CD0451D; 0xF8B12C83; 0x8FB218E6; 0xE55EE1E4; 0x4D8C3B26; 0x4A6FCD90; 0x94964906];
   [0x4BEACA48; 0x9ABB9685; 0x868EFEC7; 0x6A749487; 0xC8D2932C; 0x46BB9B42; 0xDE007BAC; 0x82384321]];
  [[0xA942DB71; 0xDBECB743; 0x21A6BC46; 0x21B52115; 0x24C17D78; 0xE49B6894; 0x89A08E17; 0x737FD3F1];
   [0xC36E4E57; 0xF833E404; 0x1E17CE6; 0x512C114A; 0x50D75050; 0x65A23D73; 0xF2F2D438; 0x838CA746]];
  [[0xA20632B7; 0x28F9220C; 0x642358D6; 0x72D8C347; 0xE89CAA6F; 0xAB15FE1B; 0x6E16374A; 0x2A09B143];
   [0xB983CFE8; 0x4CED0986; 0x97B84E88; 0xD9B067B6; 0xC2350F8F; 0x926FC5F5; 0x84E2078F; 0x31D77358]];
  [[0x7FF17BA1; 0xA7815CE7; 0xA26BBA1B; 0xBE80BB6C; 0xF86DF104; 0x66DAE535; 0xAB1B9C09; 0x72739199];
   [0x54056E67; 0x8E93F3C8; 0xEBF23595; 0xDC5E3855; 0x78123000; 0x70D1033C; 0xF22DD2BD; 0x50874350]];
  [[0xC2700468; 0x533F213B; 0x11BEA732; 0x31E6AA9C; 0x4491DC82; 0xCB5E184E; 0x5BD63975; 0x8A68049A];
   [0xF86A41D1; 0x1724AC47; 0xECA0DA11; 0xDF9A0CA3; 0x71F0EA19; 0xE5E1489C; 0xC9DC7BF2; 0xE20661A]]];
 [[[0xF86D9DA8; 0x5EB4E319; 0xE0A46703; 0x3CBF130E; 0xA4AB17; 0x166D52DA; 0xB7030861; 0x27A80547];
   [0x399C32BA; 0xA7601086; 0xC2F0A5E5; 0x571E4E4B; 0x39BED44D; 0x72D12F6B; 0x1AF8F25F; 0x8FDCCE3D]];
  [[0x7DFEB40D; 0x281F7AF9; 0xD7F767D5; 0xCCE33B9; 0x8818C1E6; 0x3E8BF3F4; 0x4BA4647A; 0x6D909D0D];
   [0xFAC574D1; 0x91D77BA0; 0x68CA7FEC; 0xD2592661; 0x281F269C; 0xC4C7D6B5; 0xDA42CDDD; 0x7A41CD78]];
  [[0xA3B8F255; 0xBC8E0D27; 0x1C3E5190; 0xF5E2A8B1; 0xD609F668; 0x8C38862B; 0x631D50F; 0x4E31C18E];
   [0xF13E0CCD; 0x9013EDDB; 0x41EFDAF7; 0x83B04E68; 0xDC82597F; 0x15EC4BB8; 0x56117705; 0x50595150]];
  [[0x1E0E0161; 0xD25F244D; 0x1A437FBA; 0x6C975D7B; 0x95F2AD8C; 0x305DB2DF; 0x3B9CC742; 0x17D6E005];
   [0xE60BC3C3; 0x6A849F76; 0xBF8C3790; 0x35523E08; 0x239140E2; 0xF18B5335; 0x7CA5FF40; 0x5E857055]];
  [[0xA4250E95; 0xB48F07A4; 0xC7F17667; 0x68735AE; 0x94771B24; 0x30F8D313; 0xA495A064; 0x598EA397];
   [0x68B76855; 0xBF192529; 0xC7C0D2D6; 0x897E3CC6; 0x64EC9649; 0xA2A4948F; 0xAE7C8598; 0x1027891A]];
  [[0x4585685; 0x442E6CB; 0x82A2D258; 0x9BA61DA; 0xAE5466D; 0x7C5400B1; 0xC2133893; 0xA0B71B0];
   [0xD5EF6E93; 0x4E3D98A; 0xF332BDF2; 0x177EA5F8; 0xC3FAE583; 0xE7CF3F71; 0x8AE0CFD7; 0x40C45133]];
  [[0x9B82E738; 0x6BE94FC3; 0x8BC262E2; 0x212FB804; 0xB22E21FF; 0xE17F6A7A; 0x15E960BB; 0x22B7BDAB];
   [0x771350C2; 0xE154C945; 0x882DB07B; 0x6505B8EB; 0xC7E3ABD3; 0x149A0A16; 0x81C30AAE; 0x78F78ABF]];
  [[0xC954BC0A; 0x6ED81415; 0x70E55349; 0x316E8012; 0x50399C09; 0xEC02323B; 0x8559C3A9; 0x963BA97B];
   [0x37EC345; 0x39FCE50E; 0xD5BF03FB; 0x422A082D; 0x18DCC77E; 0x59ED39E4; 0xA40AA978; 0x4CFC3F11]];
  [[0x55D7C9B6; 0x85A56922; 0xB451111B; 0x5BC590E2; 0x8782C71B; 0x3BCB2315; 0x632246A9; 0x1F3456C4];
   [0x9CFBBE19; 0xEA577AD9; 0x35CCE939; 0x51BEE40; 0x1A0C589C; 0xDC300899; 0xD2095619; 0x14877ECE]];
  [[0x95024C5E; 0xB64D0EC6; 0xB94CDF74; 0xB0597195; 0x16844010; 0x3B97B513; 0xCCBABC63; 0x48799881];
   [0xD9819075; 0xE3119AE; 0xEB0299FD; 0xA5DCA9C1; 0x4A404D13; 0x8063D788; 0x8044EBE2; 0x974D2A1A]];
  [[0xB8E14640; 0xB6589045; 0x5507B9BE; 0xFAD60A43; 0x56FF32BC; 0x9D540C1C; 0x74265A69; 0x47ECC24F];
   [0xDB3E64C9; 0xC829F18; 0x72E87B2B; 0xF7C0C6D7; 0x16B616CE; 0xCB3FC512; 0xB94F69B1; 0x549B9227]];
  [[0xDB235273; 0xB151DEE9; 0x6D65606C; 0x2FD9496F; 0xD62B5B0D; 0x6A5E172D; 0xEA0AE249; 0x181E605D];
   [0x8911490A; 0x66D7EB09; 0x2E70DEF2; 0x85E174A3; 0x4EF8CFA9; 0x2DA13354; 0x3E69BD22; 0x1B87FE62]];
  [[0x2BB09564; 0x2DF420CA; 0x7ACEE4D4; 0x1AC26F76; 0x2BC7EF7A; 0x50C68E6F; 0xB445B2FE; 0x4730D654];
   [0x8B57D38D; 0x90C040D9; 0x33CA2C77; 0x28793DB5; 0xAC6A4BE8; 0x22D2B573; 0xB72E7E01; 0x68C0DBDD]];
  [[0x9E2D3FF; 0xDF70BCDC; 0x9F20F624; 0xB6E59970; 0x6DE3119E; 0x5E04FDE7; 0xD5705A5D; 0x1C9B43FF];
   [0x681270B0; 0x7C23A517; 0x9303BF40; 0xDD7FC833; 0x458EE80A; 0x3028E496; 0x52590EEF; 0xC720063]];
  [[0x2850A5AE; 0x27B29710; 0xAA3E0397; 0xD1E6FBBA; 0xDF8FCBD6; 0xCFB44044; 0xC52B90FD; 0x7CD86272];
   [0xEBA52025; 0xB0E7FA93; 0x4084EF3; 0x64166303; 0x43840178; 0xD7C7DCBE; 0x22FB81A2; 0x8BC7FF77]];
  [[0xDAFCE699; 0xABDC5206; 0x83C5F3A3; 0x522A9137; 0xE666E5C; 0xBAA93637; 0xD2D33B62; 0xFD813DA];
   [0x5D417354; 0x83391908; 0xA6B9B447; 0xE5AADE1D; 0xD68321B1; 0xBDE90A3C; 0x411531B; 0x43FF9514]]];
 [[[0x39648345; 0xD61DEE64; 0x7FCB5B5E; 0xF8B3FA1C; 0x24C29C71; 0xDD531CE1; 0xFFB825FE; 0x7A23608B];
   [0xF0DE896D; 0x8D607B82; 0x6EDDAFE; 0x6E497330; 0xC935E754; 0x8B49EFF0; 0xEE08BDBF; 0x90D54646]];
  [[0x9044FD39; 0xF44FBB16; 0xDFB38141; 0xA72128C4; 0x1954CC0; 0x8467F688; 0xB560B5C5; 0x741C23EE];
   [0x9765CF34; 0xA7F42201; 0x8A2AB61A; 0xB26C97BF; 0xCBD45AF3; 0xAA948763; 0xE21479F5; 0x74C993C2]];
  [[0xBFA717A5; 0xD968CE1A; 0x48E92615; 0x45C1103D; 0xDD98207D; 0x4CCEBE85; 0xE65E5FE6; 0x8A75DF6E];
   [0x418C47C5; 0x9E582C40; 0xA450009B; 0x2E9EE003; 0xDD60D3D2; 0x7C079613; 0x9935D8CA; 0x80A78C4A]];
  [[0xD3C9B903; 0xF6CDED58; 0xEF455E7A; 0x4F27927D; 0x833BB3C1; 0xF9DBBB9E; 0x6BA3770A; 0x4107CFBF];
   [0x520FCB57; 0x61871175; 0x47A12C8E; 0xEA3A307B; 0xC24E9E75; 0x940DDEE8; 0xF33541BB; 0x8AE8F22C]];
  [[0x3973DC0B; 0xE4C89870; 0x55DFAAF0; 0xCC3DD1AC; 0x27372EFE; 0xB63D596B; 0x45A33718; 0x1B92A192];
   [0x607319; 0xEABEBEE; 0x7C3E35EE; 0x69B7355E; 0x2233C454; 0xF7354E35; 0x1E722C0A; 0x1E2BAADA]];
  [[0x3B9FE86D; 0xD0E47FE2; 0xDAA1C7BC; 0x878F403F; 0x90F5DED7; 0x5447AD54; 0x1E58B03B; 0x4E8A997B];
   [0x2E926FA8; 0x9AD0E481; 0x8D0EF3AA; 0x871EFB9E; 0x7E714DF6; 0xADD7DD14; 0x2308EE02; 0x9A30245A]];
  [[0x904F0D11; 0x44838B15; 0x2A2A70FF; 0x6177587A; 0x2C2F7943; 0x40293850; 0x67581701; 0x8F851191];
   [0x842E6434; 0x564383D1; 0xAF2C0078; 0x251AF59D; 0x3354A264; 0x8A81772D; 0xDFD2D0EA; 0x9AAFA350]];
  [[0x35461CAD; 0x47397932; 0x62C5BFFA; 0xF86BD43; 0x7785490D; 0x5F166BC0; 0x2BD61B3E; 0x7DCCC988];
   [0x9394375B; 0x44C3299A; 0x405A34BD; 0xC5F2803; 0x4237E728; 0x3AD60F1D; 0x72EC2562; 0x6E7E06D0]];
  [[0x3C5840A6; 0x44AD8471; 0x4752BC62; 0x40C3CE2B; 0xEC3FD75F; 0x94B14C21; 0x2629C0C0; 0x65E0E6AF];
   [0x55936454; 0xA3FE2F55; 0x780E25E5; 0x252AD743; 0xFF4E107A; 0x22F9951B; 0x554CEA49; 0x1B8A7DDE]];
  [[0x89F1C6FA; 0xBBDCC2C0; 0xC360A51D; 0x548FEF29; 0x1290EC92; 0x94DAD45; 0xAF55BF30; 0x792F6FB9];
   [0x707FBF4E; 0x37EF4ABE; 0xFC4B6BD0; 0xF43AB0D; 0x2D6EE5D9; 0x850015B7; 0x35C1FD65; 0x9273F35]];
  [[0xA6C3209B; 0xCECF1B90; 0xABD433C0; 0xFB4BC864; 0x3EEEF8BA; 0x38246AAA; 0x9ED13F88; 0x4BC7904E];
   [0x8E783066; 0xA61C369A; 0x4D1C832C; 0x496FB831; 0x3AD64D5; 0x1907687A; 0x83425766; 0x49516EA5]];
  [[0xB1714E53; 0x8108B704; 0x82E39BE7; 0xB458CB4B; 0x97049DE; 0xFCBD51CC; 0x722E8CBA; 0x415F4079];
   [0x342DF9C6; 0xCDB06F5E; 0x1281AC74; 0x64885CD1; 0x5366673D; 0x932A05E4; 0xE83AD23D; 0x7333520B]];
  [[0xC54B523C; 0xDAA0A1EF; 0xB3C261C8; 0xA3E80053; 0x558FCFA5; 0x352CC612; 0x85852B14; 0x1B9B755D];
   [0xA1B541FF; 0x19EE2CB6; 0xD5786B4F; 0x2B531CE2; 0x8C3E15B; 0xEF5EA6DF; 0x87111129; 0x82161B04]];
  [[0xFCEABAED; 0x5AB533A5; 0x4A4D8E44; 0x4C2147A5; 0xDA02D43D; 0xD8EEE795; 0xA15C1CD0; 0x8CB648DF];
   [0xA788DDDE; 0x4869FB6C; 0x77C03759; 0xF9554D14; 0x96187DB9; 0x4D25B41A; 0x3FE0B3F3; 0x662FBAB3]];
  [[0xA58A5B2E; 0xD3AF4D09; 0x5CE88DBE; 0x3C5DD298; 0x7426C2A4; 0x89DDA42E; 0x49095424; 0x2D832B07];
   [0x62AA84CF; 0x24EFCC03; 0xE86923D7; 0x348C19DE; 0x35DB5CB1; 0x453E9286; 0x8DB21CF3; 0x3F48EEB]];
  [[0xF4035856; 0xBCF9600F; 0xAF820E18; 0xE77CEC83; 0x7F2FBCC1; 0xC87D43C1; 0x6290B18D; 0x574C4CAE];
   [0xE56E1EFE; 0x8BD8AE45; 0x75D6FCC9; 0xB1EFD684; 0xA361E753; 0x9829F227; 0x5211B784; 0x9A50B425]]];
 [[[0x36396F78; 0x26F19590; 0x9AD1982C; 0x350D1A76; 0x947F352E; 0x33BDB4AB; 0xFFE1E1E1; 0x6CA38B05];
   [0x6F2A8CA0; 0x55364C2; 0x2969CA7E; 0xAF15075D; 0xC3B9CB70; 0x2916D58F; 0xD7325693; 0x18D94A8B]];
  [[0xF36EB789; 0x87C41809; 0xA7436F54; 0x8C3517F9; 0x3D785160; 0xE7C02E1D; 0x418C7ABF; 0x5BAFE72E];
   [0xCD9B27C2; 0xA00A8E76; 0x7DA06823; 0x66791808; 0x20EC00B4; 0x342A03D9; 0x6122589A; 0x44502A7E]];
  [[0x5BDAE972; 0x3A492F73; 0x126A07DE; 0x5184D076; 0xB56A38F0; 0xAE49313C; 0x9EC47E0A; 0x66CCC24E];
   [0xC03CF3E1; 0xAE84941B; 0x5A73440B; 0x771AFC57; 0xC433E43C; 0xABF93DC8; 0x243C6828; 0x974EE822]];
  [[0xA7A5F66C; 0x468D7FDB; 0xB18DEFCC; 0xBBB2C482; 0xFA2E7DEA; 0x188B8CAC; 0xBE0200B9; 0x7894BC93];
   [0x6B84750E; 0xA3181338; 0x37356096; 0x8B14BDB2; 0xD62F4813; 0xA9200FE7; 0x6F7627CE; 0x8DF664A3]];
  [[0xDD996CF1; 0x39BF14DD; 0xF7F42D26; 0xD00B3BF5; 0x17718A3; 0xF1AF5A20; 0xABCAE05D; 0x34A1E94B];
   [0xC635D333; 0xAD75D1B5; 0x87210A5A; 0x97E5BD39; 0xA0327BF4; 0x11684CA6; 0x9B8F0A46; 0x25C51117]];
  [[0xA935A9B9; 0x7E5CD79F; 0xA22DCD16; 0x15DC70C2; 0x78A420F4; 0x5CDA47E6; 0xEA631104; 0x37E0364E];
   [0x5E47B630; 0xE7C46956; 0xE42C4DCB; 0x7BD4C4A7; 0x1C91117E; 0xA76B87A7; 0xADA4B5E1; 0x2AA043DD]];
  [[0x875DED57; 0x6BB06B5A; 0xFEAD7B14; 0x89452B3B; 0xA6E39E1F; 0xCBD5CA8; 0x3BFA7A3D; 0x2DC5917C];
   [0xF840B6E8; 0x6395D5B8; 0xED8589EE; 0xAEC9342F; 0x77979E67; 0x8332A1B8; 0xC59F97DB; 0x29B55822]];
  [[0x7D65A8F4; 0xFD145FF7; 0x119C9AFC; 0x8FFF7EE0; 0xAFCD6214; 0x100D0E9; 0xA3B988B3; 0x98DE55E5];
   [0x151BF2; 0xBACCB2E; 0x66091583; 0x2B422D09; 0x93C66A3B; 0xC4D15E16; 0x727DE9E6; 0x1C107559]];
  [[0x3CB76EDF; 0xC019C7D7; 0x151F5E14; 0x6456DD91; 0x57CC7078; 0x29E95B66; 0xE9BDBCEC; 0x9193F4D9];
   [0x4806F8CB; 0x375837B0; 0xAA954620; 0x52D5528A; 0x1B9D6D34; 0xE71F9F60; 0xDF95759C; 0x910E4FA1]];
  [[0xFCADB5EA; 0x8D31B2EE; 0xA63C7498; 0x814FF77; 0x5E3D927E; 0x236569C0; 0x95BBB9D9; 0x7F669DAD];
   [0x305B0347; 0x29158C9A; 0x52D468EB; 0x99B9B7E7; 0xB4342443; 0x6C4CABC3; 0xA803ED4; 0x125AFBEA]];
  [[0x101FAA4E; 0x850A150B; 0x11ECDABC; 0xB586BCDA; 0x4DAD2264; 0x9692EF83; 0xD2B67F5E; 0x951716E];
   [0x924DD16D; 0xA2295F20; 0xD0CE88CD; 0xD8327275; 0xC683ADA3; 0x45F8DD0C; 0x88C26024; 0x4A798B33]];
  [[0xCAF71198; 0x225395CF; 0xCA3F67CF; 0xEE223712; 0x81280061; 0x972B0199; 0x280ECC12; 0xCB20E7A];
   [0x70F54717; 0x6F04DA8; 0x410B9712; 0x5288425E; 0x74CEFB4A; 0x6C29A514; 0x849E2FD6; 0x4218ECCA]];
  [[0xB33574B6; 0xD85663A3; 0xFAF7D3A2; 0x7469CFB1; 0x3CFA8876; 0x9C587EC4; 0xDB24ED63; 0x5DAE46AE];
   [0xC413E494; 0x66C8DA33; 0x65942568; 0xB8B256B6; 0xA7A4CAAD; 0xF09178E; 0xAFEBC90B; 0x577D4ADC]];
  [[0x92D6C3B4; 0x49009BA6; 0xB884FAAC; 0xE9CF4915; 0x6F3DBE23; 0xC12377D3; 0xEA6B680C; 0x2F6E0E86];
   [0xE6C5E24D; 0x5DF2CD5A; 0xEE608DD3; 0xAAE7E145; 0x8A7ED956; 0x5357CFF2; 0x3912DBA4; 0x8377126C]];
  [[0xF83BC3F6; 0x6E83A6C6; 0xC0CC09C6; 0x3633E1E4; 0xBC4B73A5; 0xC2A268B; 0x125688EB; 0x688369D3];
   [0x73E75809; 0x64EE03E1; 0x8E110C46; 0x21773EE9; 0xA6A648B1; 0xF0BC6BE9; 0x7E0041E7; 0x39912183]];
  [[0x26F5716E; 0xCC09774A; 0xFDFB59E9; 0x1CB17F9; 0xAE8938B4; 0xA88D1269; 0xD13047C9; 0x99A40D17];
   [0x6FC672A3; 0xE469C984; 0x5638B928; 0xDA6534B6; 0xCDE40C83; 0xC56EAB20; 0xBD93AF10; 0x2C1582B1]]];
 [[[0xA3F45C37; 0xE4C19851; 0xC7D78FE9; 0xCA0FEFF2; 0x9A7E444B; 0x27B41D8; 0x15D38CBB; 0x1F1B242F];
   [0xF1F50AB9; 0x1C6C132C; 0x5DFE7530; 0x2A02A3A4; 0x6E29159F; 0x2B1EB8E2; 0x2EEDE876; 0x5F3F4AB7]];
  [[0xF2DF95C; 0x362CE013; 0x26480BFA; 0x82E4E192; 0x6BEFF080; 0x9AAC9A96; 0x8EE2B59C; 0x5A1636F6];
   [0xFA049CCB; 0x600E0339; 0xF2F57163; 0x56680F80; 0x7B4240A7; 0x2C395CC1; 0x9C86BB64; 0x32EDFE4A]];
  [[0x711AEF69; 0x8D9842AB; 0x890831F0; 0x7A1C2429; 0x54CDA99A; 0x924478DF; 0xE25A02E2; 0x791A1D45];
   [0x170F4C21; 0x1433F569; 0xCA5F8BD8; 0x9F42C8C1; 0x67B3201; 0x377740F7; 0x2ECE5D81; 0x75145FFF]];
  [[0x39638F43; 0xCBFE782A; 0xE07553D2; 0xB0C0EC09; 0x115C673A; 0x8D1C41F7; 0xEB39E385; 0x8510551A];
   [0xBA275803; 0x92000181; 0x27B9A42A; 0x8AF63F4A; 0x52297029; 0xD50ECF0F; 0x66883C56; 0x1DCA33A5]];
  [[0xC51DF9D9; 0xB2C44933; 0xE66D80AE; 0xCA6F9FB0; 0x82839BA4; 0x78CD2EEB; 0xF7AFBCF3; 0x8FF8BCC8];
   [0x4164959B; 0x5AD00C70; 0xE83ED8D5; 0xAD901C71; 0x2B52650D; 0x56FFC0A9; 0x780126A8; 0x689B171]];
  [[0x5EAC1DD8; 0x2E902A39; 0x7CAC283F; 0x7681EABA; 0x78525B7C; 0x3608CD8; 0x5EB95540; 0x9665B80];
   [0x306EE831; 0xF09F9805; 0xE41D453A; 0xFB00B1C6; 0x7C93E727; 0xD8BB9559; 0x2CE63FD8; 0x3B74FEE7]];
  [[0xA22DABA; 0x73F48B33; 0xC8FC3E20; 0x797DE0FB; 0x9E79222D; 0x69C1BEE2; 0x1DF4C549; 0x3052F67A];
   [0xED78B6FB; 0xFE9128A9; 0x29CCF94F; 0xD9460CFF; 0xC1FD1DAA; 0x53737484; 0x1EDAEEB2; 0x83ADCD01]];
  [[0x2BA4195A; 0x189EC9AA; 0xC522BE92; 0x61345757; 0x39EFB05D; 0x35BAB72A; 0xAE0AC461; 0x82B27322];
   [0xC07F4382; 0xFEBF0F8C; 0xDAD2ED8E; 0x1CA2B3D7; 0xA27F89C; 0x4800A037; 0x9815D971; 0x77D1B2FC]];
  [[0xCA0FC66A; 0xF9F46089; 0x8C23E4E1; 0x5BC406DE; 0x8DBF6DD5; 0x1D7F3BA9; 0x679D5587; 0x685B9111];
   [0xB85BE0D0; 0x93554084; 0x7B9EB16C; 0xB081E9CA; 0x60F0D0B0; 0x58C428DC; 0x30B3C6D9; 0x12442C1A]];
  [[0x567226BE; 0x147B843C; 0x429A8FFA; 0x2B2BFFAB; 0xCD435C2F; 0x7A4678EB; 0x3C0B887A; 0x200E8513];
   [0x90605CDD; 0x9D457AAD; 0x157F29A5; 0x6736A242; 0x549FCA4D; 0x779B0D25; 0x17FDB4D9; 0x57477EE9]];
  [[0xECF06CDD; 0xD9B15FD1; 0xC1CC2CFC; 0xECF75FC0; 0xA56B39E5; 0x273867C3; 0x79340B7D; 0x72F3ED45];
   [0x55B6C9B9; 0xF31C9E4C; 0x448FE57; 0xED96826E; 0x8BB7A02F; 0xE2DF54AD; 0xD79D71CC; 0x945E7B6B]];
  [[0x9270E878; 0x32B6CE42; 0xD6EEBEB9; 0x980C8F6E; 0x55808237; 0xC5717C85; 0xCCA3F298; 0x4469D0A0];
   [0x1A18C0E8; 0x2B9DD7E9; 0x6A0EC412; 0xE9D12401; 0x31F44B32; 0xF889DE98; 0x78854A7F; 0x692EE1E6]];
  [[0xADEECA22; 0xF2360597; 0x99A4C198; 0x94623EBC; 0xE4169D20; 0x5A0D49C4; 0xBF0384F0; 0x7BE2C5BB];
   [0x8C537851; 0x42DB0D40; 0x65C50782; 0x198A09A4; 0x45AD7EE0; 0x72F80BB7; 0x11FCED06; 0x4F83164B]];
  [[0x95712AF0; 0x54E5B07C; 0x1E893387; 0x95E7F5D9; 0xC61D7766; 0x383BC5AE; 0x681C28DD; 0x9F626ED];
   [0xDF97E3C9; 0xD32B726; 0x7C7C4786; 0x2AC62238; 0xD3F5AD40; 0xECEA0C6A; 0xA870A132; 0xD26633E]];
  [[0xC3D42D26; 0x40A05A14; 0xF3BDE0E3; 0x6577CA1; 0x418B73FB; 0x3DAA258; 0xEFDEB86; 0x205E02E6];
   [0x99F90D56; 0xF5479E4D; 0x368CB6E3; 0x4E699BF3; 0x62E4A879; 0x534F6743; 0xA9D78191; 0x18473603]];
  [[0x5C1ED4F9; 0xA23D79CF; 0xF2248B01; 0xFADE1CF5; 0x6F4D2164; 0xA3D52827; 0x10B731E5; 0x1F211C03];
   [0xD97229E2; 0xB415884; 0x80FCC283; 0xCABB7D89; 0x98EF388A; 0xDB9BC752; 0x93E80262; 0x50AF2A4A]]];
 [[[0xD57DD821; 0xD11E80F1; 0xDDA2AB29; 0x11CAE463; 0xE628F315; 0x21CAFD16; 0x7DF70CD4; 0x296A84E9];
   [0x6E9EF995; 0x9ECF7513; 0x6E28855; 0xAE875257; 0x5DED383C; 0x78E1B7E9; 0x5E940F7F; 0x6C5D8ECC]];
  [[0x998EE9A3; 0xCBD3ACB9; 0xD0DCF584; 0x990CDFF6; 0xC7CE5DDA; 0xFB4346C; 0x355E268F; 0x5EDEEF9B];
   [0xC215036D; 0xACD8B4A2; 0x91C7486B; 0x70D36995; 0x52C6694B; 0x72D5243D; 0xE5F8B99C; 0x54163B48]];
  [[0x1D76A94A; 0xD2AEA2FF; 0x379F780B; 0xC5B4FBF1; 0xB33AC708; 0x700042F7; 0x8183E0CA; 0x7DA790BF];
   [0xEBA72FA8; 0x95681FE6; 0xE22E254E; 0x1F0A390E; 0xBF07A8A5; 0x465A58F8; 0xFB1FCE40; 0x840EA2E7]];
  [[0x44048484; 0xD955C5B5; 0x6935C5E4; 0x7107D595; 0x8A0FCE44; 0xFC657444; 0x2800E517; 0x97DF2B4D];
   [0x2C482414; 0xB1BB328; 0x4E48CDBE; 0x152614CC; 0x42EDE4E0; 0x48051FB6; 0x3DBFFE52; 0x91125B93]];
  [[0xCF898F54; 0xA2F526C7; 0x83080857; 0x8788CA12; 0x4562F7B0; 0x2F442723; 0xC044560C; 0x837772AB];
   [0x31BCB2EA; 0x51AD2F71; 0xAFC5C03D; 0xF1D33FC; 0x7BD352A4; 0xDBFE541F; 0x64B8343D; 0x8B441399]];
  [[0x44DCD145; 0xFEB96B8C; 0xEFF22D0D; 0xEEB3007C; 0x252A8C8F; 0xAF64DFC1; 0xD131E0C5; 0x5D9B0A05];
   [0xABFED144; 0x28C943EF; 0xB6A2273D; 0xDFBF730C; 0xE2A1BFBD; 0x6CC5BE44; 0x9030FCD; 0x55FAC033]];
  [[0x728F39EC; 0xFAA58543; 0x40B37B15; 0x9B2F10BA; 0x7254A419; 0x96505C7F; 0x879C7FF9; 0x4F4ACE5];
   [0xBC5FDA53; 0xC0B4B576; 0xF7ABCD3C; 0x12549929; 0x313FEC34; 0xF5631E; 0x798C7CFB; 0x89EA4459]];
  [[0xE2020C1; 0x671137B5; 0xA4DC66C3; 0x77727861; 0x81492A26; 0x8CE05ED1; 0xA0C3F612; 0x42BEA541];
   [0xB0E461EB; 0x6D39E3D1; 0x9FA806F; 0x459A8E13; 0x466CB93B; 0xE2A185C1; 0xE21ECB34; 0x17D131CE]];
  [[0x387A15BF; 0x2141E262; 0x6BE61C42; 0x675B5E7C; 0xF1CF93EF; 0xEEC1BDD4; 0x23BAB1F9; 0x6ACF3838];
   [0xB0B39C86; 0xA2F84E23; 0xE244E0E3; 0xE955DBBC; 0xB7A8102A; 0xE0155980; 0xB23012FA; 0x1E117DC8]];
  [[0x6EB36280; 0xC92A36AA; 0x5E906D78; 0x5AED3A1D; 0xAE4E430A; 0x8D336221; 0xD3AA50AD; 0x3F184F1D];
   [0x916D9741; 0xD14810EC; 0x3322D9B3; 0x2900169F; 0x4728254; 0xAFF1A060; 0x26F60B5F; 0x89C4C673]];
  [[0xB7F0D157; 0x5216E0AE; 0xC9F38AAD; 0x3B8D2226; 0xBB34AA79; 0x283E3E3F; 0x565CAB83; 0x94DA80FA];
   [0xE6ED4A46; 0xDDB51943; 0x7CDD5FE6; 0xF3AFFA9A; 0xB648A84F; 0xAB493CC; 0xF15EE45F; 0x128356B6]];
  [[0xBD0F02C4; 0xD2AD34F4; 0x719BCF1E; 0x3DC9B6D1; 0x12EB5AE8; 0x11EDB8F1; 0x71180F90; 0x33AC71D8];
   [0xB59621D7; 0xAE988FE; 0x8F348211; 0x32042B52; 0xEB0CEBD3; 0x7E6787C4; 0x26B8A526; 0x8C4D2549]];
  [[0x4D40ED72; 0xA3B46154; 0xF6CF3972; 0x3A096546; 0xB3E46D8C; 0x9C7BC931; 0x90486C75; 0x85B77BAD];
   [0x6EBD35E0; 0x95B706E5; 0x101E098E; 0xC1E18243; 0xF01C17E1; 0xF17C23FF; 0x85EC224E; 0x32235272]];
  [[0xFD24FA16; 0xE816235D; 0xB3AEBD7; 0x5306CBC3; 0x8BE25CB7; 0xDEF60A9A; 0x512999C2; 0x4B889A0F];
   [0x67B29FD9; 0xAB86A7F8; 0xB5461BCB; 0xB81C532D; 0xD34D9819; 0x810E9A0C; 0x3092515D; 0x1E353009]];
  [[0x21FB0BD9; 0x46826339; 0x3BAE50; 0x9CCE9A43; 0x2EB45B4A; 0xCD2216C3; 0xC7E0F2C3; 0x13598548];
   [0x54611984; 0x8B0BFD72; 0x89C0B05A; 0x705CB525; 0xCE880DD8; 0xD9073D87; 0x3DCAEB; 0x1EA534CD]];
  [[0xC58B4413; 0xC7AAC256; 0xE8054F96; 0x301109D6; 0x9C7E7860; 0xA1F44D2; 0x96F15424; 0x55D122BB];
   [0x1C14A8A9; 0x9A63098F; 0x4221CDFB; 0x8E01A9DC; 0x357B360A; 0x11C91FCF; 0x36A3CF4; 0x70C47AEA]]];
 [[[0x36A843D; 0xC0457C4F; 0xF1F593CB; 0x6E3E0801; 0x8C53873B; 0x1AADF2D8; 0xD140C8D; 0x5CEC5C7B];
   [0x328002E4; 0x4341A9AB; 0xC410D034; 0x11F22331; 0x5DB6A39D; 0xFCF69EF; 0xB84FDA1F; 0x3DD32A53]];
  [[0xAF8C811A; 0x19E52339; 0x92D46C4F; 0xC8B83800; 0xCA8463A3; 0x891C4185; 0x98F3FF1B; 0x5B51651F];
   [0xFB39DCA; 0x3D149607; 0xB1051394; 0x39ECCDE2; 0x1A14522B; 0x3633DE27; 0x7C59A9A5; 0x5FE55114]];
  [[0x2F0B507F; 0x68C8E0C6; 0x5B62C5E; 0xDABC8EEF; 0xE6165C1E; 0x297C943A; 0x7D7CA6D6; 0x337C6B94];
   [0xD6066191; 0x66F98FE4; 0x58945DA9; 0x745BFEBA; 0x3B29A546; 0x60044787; 0xE2D4EDF2; 0x2815651E]];
  [[0x63661218; 0x54A3BE74; 0x15E79415; 0x89C56364; 0x405E4932; 0xE03C6963; 0x9A619956; 0x86E101EA];
   [0x400DC92B; 0x47BAF2F3; 0x291E4059; 0x5C44512C; 0xEC6D7BF9; 0xD7F84B8E; 0x25AB8D79; 0x6CF42540]];
  [[0xB885DAFC; 0xD6E1B75D; 0x6128014E; 0x7A33CE4B; 0xEA9FF260; 0x80DF9948; 0xD2B5872B; 0x99E0A11C];
   [0xE2435510; 0x960BDC3D; 0x14F7A99C; 0x4B0ECC53; 0x5AC6170B; 0xE815DB8B; 0x17D5F2DD; 0x30956156]];
  [[0x57166FCE; 0xA035E3CE; 0x40A75B80; 0x71AD4095; 0xDB7D0BFB; 0x639C4EA7; 0xB12DBE6B; 0x7A90BE97];
   [0x75F86A60; 0x91AA30F; 0x509AEEFC; 0x67C0F795; 0x331629C5; 0xF028C12A; 0x8A1F7478; 0x90D26B1C]];
  [[0xB6AC2AD5; 0x6F01554E; 0xBC9A48D6; 0x9DD0576E; 0x97AE2605; 0xAB372013; 0xBB83852B; 0x1525D8B5];
   [0xE46E4C61; 0xD50680C3; 0xECB8F06F; 0x29FBBA5C; 0xB16637A3; 0x60A48AB4; 0xCD1490D3; 0x8BB47967]];
  [[0x4B7C7EA6; 0xA35A0187; 0xB4D6409A; 0xFE01521A; 0x8FDE1E30; 0x57CECE62; 0xF4F51D55; 0x1A9A9B2D];
   [0xE221AC58; 0xD33556B; 0x152508AD; 0xA4A1A34; 0x144AA33; 0x1FD61DA1; 0xEDC7C5F8; 0x4804BE6A]];
  [[0x5B363A84; 0x71EC815; 0xFE11ED05; 0x359C2A9F; 0xB8BBF9BD; 0xFDF80C9; 0x103ACCBE; 0x928E51A4];
   [0xD5E8A222; 0xD152B6E7; 0xCBE022C9; 0x6368E3A8; 0x3128B659; 0x2E5055DE; 0xD21F1062; 0x51E23651]];
  [[0x34834BF7; 0x5CE999D7; 0x3DC831E9; 0xE386394C; 0x7FE48564; 0x6DBD5ECA; 0x556841A5; 0x804BC07F];
   [0x229A9175; 0x2A8B616C; 0xA1B3EF97; 0xAEEB533A; 0x6F145037; 0x9D858F9D; 0x7F6A8EBB; 0x247FFAB0]];
  [[0x99EB4F3; 0xE616E779; 0xF1B1926C; 0x4F360D2E; 0x17055397; 0x28EE1F91; 0x844AFCF3; 0x9994D7FF];
   [0x12CBD801; 0x8824A949; 0x6A4484DD; 0xA3AFED4D; 0x3B5E36A5; 0xCB16CD67; 0xBC3BBEA9; 0x5490C30D]];
  [[0xD7601122; 0xEA43CA5A; 0xD248EB72; 0x9CF2A15B; 0xB71D18D0; 0x4CE8AB75; 0x41A19A5; 0x2576C5B1];
   [0x8CC1496E; 0xDE20FD02; 0xBE51831; 0xC9FE5B0C; 0x3A53ABBC; 0x9DC17E32; 0xF4C806FA; 0x94E24DD9]];
  [[0xDF1A4B3; 0x2A9CF5F1; 0x15063C08; 0xE0196754; 0xCCF88F77; 0xCE9CF2C6; 0xEFE91C6C; 0x51ACC7B5];
   [0xA799FE2E; 0xC2302EF; 0x69C0D117; 0x5EE756A4; 0xF4EAB1A1; 0x7E907EC2; 0xD98022DD; 0x19EEF95B]];
  [[0xA8E7FFA5; 0xB170D483; 0x39180FAC; 0x2052600A; 0xA68AF290; 0x8EAD52D4; 0xFF9E3641; 0x1B88CFE];
   [0x65BC2D0C; 0x3D9077F7; 0x3ABCDB1C; 0x2AF9CF67; 0x7295DADA; 0xEA104E74; 0xEB1E5D6E; 0x7DF23470]];
  [[0x8E53F40B; 0xF54D98D; 0xAF360481; 0xBFC22E9B; 0xE132666B; 0x309973B6; 0x25E783E0; 0x1F40D11F];
   [0xF00AC3EB; 0x8EEBC9D7; 0x2F9ADCC7; 0xBD725D82; 0x66EFDDCC; 0x47767810; 0x4ECCAF67; 0x60B0B100]];
  [[0xB98C7E96; 0x498E2074; 0x8BF31A9; 0xBEBF5183; 0x3894DBE7; 0xDD4AAD; 0x429878F6; 0x66C047A4];
   [0x6D0F1AB1; 0x16F2CB33; 0x58669ACB; 0x5FA2F181; 0x486F1BE7; 0xFA4B2F49; 0x5698F41B; 0x1ECAAF6B]]];
 [[[0x4DCC455E; 0x2999C212; 0xBEF617B8; 0x83897E49; 0x5A218E0F; 0x6B49CE26; 0x88EF7EA7; 0x49A5C9EB];
   [0xF63EC82C; 0xF0EDA5FF; 0xEAD471CD; 0x736D933D; 0xDF8071C4; 0x10E4431D; 0x38E1523C; 0x8C59C107]];
  [[0x5A54A4AB; 0x569FB74E; 0xF3384C14; 0x72788868; 0x107B417F; 0xBC840717; 0x7E13210C; 0x6682C107];
   [0x77B20150; 0xB3359FC2; 0xA9E03222; 0xEB923E66; 0xA10CF332; 0x490C39FC; 0x49BA035D; 0x69099C2D]];
  [[0x3CB2C6E; 0x64986720; 0x328B22BA; 0x994054A1; 0x6F0542DA; 0x4155C6B9; 0xA3B93FFB; 0x216CF760];
   [0x5C2AD753; 0x74486184; 0xA0CD3660; 0xE517984E; 0x3D7DA8A1; 0x6530BC86; 0x2E46CA79; 0x4328CF9]];
  [[0x4798CD35; 0x4100ADED; 0x635BAECD; 0xC832796D; 0x5B80E18C; 0x7EF1EA95; 0x426B1AA9; 0x6889A91B];
   [0x927C6F8; 0xC40A0A87; 0x2B86ED45; 0xD60CFD1C; 0xD57350A1; 0x98731DFF; 0x1DE4341F; 0x1C52EAE9]];
  [[0x23A40FAA; 0xC287E33B; 0x7A633BDC; 0xB96D9F51; 0xE6D0F326; 0xF6A5B779; 0xF619DE4B; 0x10203FE1];
   [0xC4F18BF8; 0x11FB53E; 0xBCA32CA0; 0xAEBB82F6; 0xF881818D; 0x6BF8ED5; 0x18247E6A; 0x3A6A3E35]];
  [[0x625DC1; 0x3BF2E96E; 0x5A288F80; 0xD81AD156; 0xB7CE9B13; 0x4C3269E; 0x2F9E2713; 0x3E18EAFC];
   [0x9D0BC74A; 0x20F0E05D; 0xD8140790; 0xACDB4B75; 0xF1B5B265; 0x12918A7E; 0x6896342E; 0x22A70AF9]];
  [[0x9C4B6B08; 0x326A28A2; 0xA17D3D57; 0x21302F37; 0xCE36F438; 0x181378E7; 0xFED12DE1; 0x42B07EBA];
   [0x468AD4C; 0x81DDD20; 0x64DF34AE; 0x32822EC3; 0x4B2192D; 0xE9F8D7C2; 0x918666F8; 0x6ABC7220]];
  [[0x4AF3956; 0x93330701; 0x872BD30D; 0xEEB7AA8E; 0xD0E67494; 0xFC96D106; 0x3A918DFB; 0x516028CF];
   [0xFB27B6EC; 0xFAF0B6F7; 0x515DA78D; 0xFAD73AD; 0xD8CF1934; 0x5F136068; 0xB6052802; 0xA526E04]];
  [[0xE4685212; 0x20DF0DEB; 0xA41B293F; 0x71D4BAC1; 0x2FA8BBAC; 0xBCC32A2F; 0xF30CC343; 0x32A8723A];
   [0xEF95ACFE; 0x71E6DAAF; 0x9F445394; 0x27D158F6; 0xE186B246; 0x2140F78D; 0xCB1C83AD; 0x4CAF98C3]];
  [[0xB6F63AA9; 0x94E264FC; 0x4D0FE485; 0xF4637B02; 0x69CCB4E; 0xA4BC0A03; 0x9E25E817; 0x99A81E37];
   [0x8F4D37BB; 0xE3B804A7; 0xE38E654C; 0x57F272A5; 0x5928F65; 0xD1852C; 0x4345DD06; 0x3031B713]];
  [[0x57536140; 0x6E42AF11; 0x5A403F; 0xDC5B7CDC; 0x26527417; 0xE6EE185E; 0x7C685BCF; 0x1003D013];
   [0x192979E6; 0xC2206BF6; 0x6FE38214; 0xD1C370DB; 0x92F3C044; 0x78D105B7; 0xBFDF8DFA; 0x2F0DF6B8]];
  [[0x44D04C4A; 0xB02FCA38; 0xA44566C6; 0x956A2F7C; 0x9F1F09C6; 0x60672DF3; 0x2160C362; 0x6459A949];
   [0x8714451; 0xDAE54341; 0xBFFD7CF6; 0x48B77A0D; 0x3EDBC8D4; 0x615ADBFE; 0x35B67D2F; 0x3338E557]];
  [[0xDD24A0F0; 0x601D49D1; 0x48EF27B9; 0x60A48DB7; 0x97A8BAC6; 0x97F2212C; 0x155AB524; 0x376B0292];
   [0x62E2A961; 0xA25881BA; 0x2B8C56F7; 0xEB74CC80; 0xDA57C41A; 0xBE5C5DD4; 0x2D16AFA0; 0x53D0D037]];
  [[0xCA291206; 0xE47C9EAB; 0x42D5C667; 0x25DADB64; 0xD886993E; 0x8C154CB6; 0x806B932F; 0x11DEC39C];
   [0x13D4B4E5; 0x51A4DCF3; 0x9D1D822A; 0xAA1DAD6D; 0xCEEF2E29; 0x2BB2E14D; 0xB2343BE3; 0x429C13C7]];
  [[0x297F709D; 0x4E8E953F; 0x262D862A; 0x23183A3D; 0xEA12D93F; 0xE164A10D; 0xFE703920; 0x386C2873];
   [0xE5C51C7E; 0xD59E1582; 0x20F6A2E; 0xA8C93B5B; 0x160CD058; 0x51518BD0; 0xB1D38AC7; 0x3337801A]];
  [[0x2F5D9E25; 0x6E251533; 0xB0D6B0DB; 0x88E76135; 0x9E6762D1; 0x5C197832; 0x84E620AC; 0x12326773];
   [0xE2694DD; 0x3B88DF27; 0x30A23CAA; 0x30FED9E3; 0xA23DF142; 0xE12DD93E; 0x2EA77C07; 0x6778F51]]];
 [[[0x49E5F6B4; 0x5D5BE00E; 0x721EF9DC; 0x2F47E7C7; 0x7EAFC098; 0x338F7B00; 0xAF8C2475; 0xF5F06E3];
   [0x63122B22; 0x2A4B845C; 0x89A4CE9A; 0xED440060; 0x9A86D9BC; 0xC9EEB640; 0x2F39B439; 0x12C3E0F3]];
  [[0x17766F6C; 0xB444B88B; 0xA41FD692; 0xF9B100E6; 0x5C149B30; 0x81EAFCD1; 0x1D521A1E; 0x37DD6F6E];
   [0x389DCD6E; 0x14DBE8C3; 0xDCBC7FC; 0xCD24D655; 0xE00F9102; 0x5F8D48E; 0x509D18D4; 0x403954E6]];
  [[0xE4FE16EC; 0xA04FDDDF; 0x90E15C0C; 0xB9E7FA73; 0xC77FAB6B; 0x7D6A7206; 0x3E221F12; 0x3FFDCCD1];
   [0x47B5BB7F; 0x120C05B1; 0x5B7E2B96; 0xFA3614C0; 0x4A6AC6E0; 0xF3A4F07F; 0xC8AD4F23; 0x324BF48]];
  [[0x55DF2F18; 0x508A0370; 0xB872F209; 0x1C6C91EA; 0x8E12F437; 0xDC3F6C5A; 0xC91AFD75; 0x65F5058F];
   [0x5A859A1D; 0xC43613D; 0x5BF96A6B; 0x83A2610E; 0x1496AEAD; 0x1A98AA4C; 0xE6CAA901; 0x3AB1CE5E]];
  [[0xFFB3E411; 0x9420ABFE; 0x31404E74; 0xCE609760; 0x2C49837; 0x3D4C23C5; 0xD0868A3C; 0x6B79FB14];
   [0x6B5861EA; 0xB4EEE8DB; 0x9D948195; 0x495E2B46; 0x1CE15EC9; 0x2BB0BD94; 0xDED25955; 0x6CE79F80]];
  [[0x5820DF65; 0xA6B98C1D; 0x909356B5; 0xE8284737; 0x91340E1; 0x38E8609A; 0x10666012; 0x98EC077B];
   [0xBF075DAE; 0xFB243B1E; 0xA270FE31; 0x32312BAC; 0xCAA5F8E; 0x21451120; 0x2A515015; 0x8F60118F]];
  [[0xCBDEB88E; 0x4F211C9E; 0xB6D680FD; 0xF6D3CC3A; 0x8BF4B4A7; 0xE193829D; 0x2D620371; 0x3223EF4E];
   [0xC0E5245A; 0xC3E35420; 0xB4ADE2EA; 0xD3F4F894; 0xF2CE985E; 0x464FCB6C; 0x7B987FA7; 0x79CF596D]];
  [[0xC0016FF; 0x730748C; 0xA2949069; 0xD02115C5; 0x40E9C7F9; 0xAA6F794D; 0x79149C37; 0x9514FA7B];
   [0x5A46BCE0; 0x6E2F2778; 0x837ACD5; 0xF55D46C6; 0x1E4223E6; 0xF965C468; 0x85D90A07; 0xBFF0A91]];
  [[0x1923C8AF; 0x9ED90358; 0xA470AE00; 0xC425B633; 0x1C50FDAD; 0xF9F4B162; 0xA8CA2BD5; 0x999D072];
   [0xAF74D4C3; 0xCB122FBD; 0x2C283752; 0x372C13F0; 0x82138B19; 0x9F42A903; 0x3EB8CB95; 0x573A2CEE]];
  [[0x3AC2E191; 0x6C3A6BE3; 0x1B222DB2; 0x4149E0EB; 0xA4AACC55; 0x5BA91005; 0x1BFADBD0; 0x176BD33D];
   [0xA8DA0FEA; 0x4AEAF14E; 0xA7FF8E1C; 0xB12401F9; 0xF192414; 0xF1EF39AE; 0x416743C1; 0x95D433D3]];
  [[0x9AA0C238; 0x29ECF54D; 0x8FCA6419; 0x3762F1D7; 0x64D3AAA9; 0x761D786A; 0xDAEC7BF4; 0x7A8A677D];
   [0x324676F4; 0xC2829EAD; 0x4D0B291E; 0x4E504A47; 0xF8C4F384; 0x360CE7FE; 0x78CDA37D; 0x33A577B5]];
  [[0x333103FD; 0x1BBFC128; 0xE45C9DBE; 0x3D36045C; 0x15C9013D; 0xA8D53F5A; 0xA33FDCFD; 0x99D62F8A];
   [0xA81F581; 0x73E53961; 0xD00BC0D9; 0xD01AD20E; 0x1F6D9B73; 0x59701F4D; 0xE098E536; 0xF4EBFBC]];
  [[0x91E3C062; 0xBDB9368A; 0x9B17AAE5; 0xCD66A0B1; 0xB4537E05; 0xB6636DD7; 0x73B119CE; 0x37D94B8E];
   [0xC7428FF9; 0xA5F8E90F; 0xF8EA9F03; 0xE7E5B2B7; 0x5B3506DA; 0xB7F20FB8; 0xE494FFDA; 0xF4AB6D5]];
  [[0x85365933; 0x3ACEE3BD; 0xBF510114; 0x9D5223D3; 0xA08D01B0; 0xE0D7D9A7; 0xB2F1F61F; 0x28FD329A];
   [0xA5909DD3; 0x3E16A2E2; 0xB4FECB35; 0x284A8708; 0x73D5BFBA; 0x190F7B3A; 0x92EE4BBE; 0x7E07982E]];
  [[0x44945687; 0xA30A4C22; 0xD688A301; 0x657C0F2E; 0xBBB3E65A; 0x9B558D4A; 0xA6E57844; 0x8044D57E];
   [0xE3957E21; 0xF202E50E; 0xCE62FCC9; 0x4957E651; 0xC4ECE0B8; 0xF7B9EBA4; 0x61167229; 0x29532CEC]];
  [[0x3EEF3D71; 0xE9DC8EA6; 0x3E8EC117; 0xEBF76BD4; 0x2EA072B9; 0x48CEB78D; 0x73EFC32D; 0x82ECDFC4];
   [0xE2C89E7D; 0x51B02CB3; 0xF4D9100F; 0xE9D0740C; 0x8A5E3F48; 0xBB556EFE; 0x1D01B44E; 0x864E52DA]]];
 [[[0x14EA6DC5; 0x5A75E0BD; 0x532EFED7; 0x9F2AA76; 0x83CE5A18; 0xE6DAE0A9; 0xCEB4E78D; 0xF9BCB7];
   [0x71F79BF3; 0x128FB51C; 0x80D5DBC3; 0x78C79788; 0x9B816B9E; 0x2752F02C; 0xEB7622E2; 0x88CFBA0C]];
  [[0x268432A3; 0x845AB940; 0x2F94F6D3; 0xA8D0231B; 0xFEC02130; 0xBDFB3F91; 0x5F62419F; 0x7A61AE4];
   [0x192EBF1A; 0xD1C951DF; 0xFA232E34; 0x22CDCFF5; 0x3A7581DD; 0xDFDF121B; 0x710403A5; 0x9865ECA2]];
  [[0xF8180BAB; 0x609F4527; 0x50A6D914; 0x93AB1072; 0xE2EEE3BD; 0x299D5013; 0x42959C14; 0x36EFCE5B];
   [0x1045FFCB; 0x49CDA60D; 0x45723371; 0xA8B2492E; 0xF243FDBB; 0xCB75789B; 0x871D500D; 0x8E1079D7]];
  [[0xDB14298E; 0x69852694; 0x41A56B6D; 0xBAA92A95; 0x3DBFDBA4; 0xC7371848; 0x947747F8; 0x94B3155C];
   [0x7552426B; 0x97BCDD19; 0x32682121; 0x4FB3E76D; 0x8BC15FCA; 0x875AA0F7; 0xF1FD2315; 0x4065BCDF]];
  [[0xB7F1ED04; 0x2D1C0519; 0xEA2535E1; 0xED9A1BB7; 0xABAE813E; 0xE4728CD6; 0x21A771D0; 0x2CD7D447];
   [0x59B9E964; 0x88E2A785; 0x6F9B5374; 0x2677FBD7; 0x2645B626; 0x3967D6C5; 0x5A1C315B; 0x8843F7DF]];
  [[0xC7055A4E; 0x673CD273; 0xEE827873; 0x52AC45C; 0xCE1981F3; 0xC26B9214; 0x2B8EEF59; 0x3C39C13C];
   [0xB276D47; 0xDD9E1B9B; 0x7287F9A1; 0x6729A534; 0x61DAD53; 0x43E1471C; 0x118B56C8; 0x6082FAD9]];
  [[0xF99186D6; 0x9C3872AA; 0x75AC99BF; 0x1D9E8DB6; 0xE338DBD3; 0x6FA7A0FF; 0xD1FEF2F9; 0x1EDF44EC];
   [0x1F9114BF; 0xBAF9D33A; 0x3007B6A5; 0x89AF08E5; 0x8436D917; 0xAA04B169; 0x6AFCF5E0; 0x8381E76A]];
  [[0xC1D799BA; 0xC51848A4; 0x7F40B34B; 0x6C3D43A9; 0xA5CB7B95; 0xE8DAE074; 0xBB5F8AEC; 0x5375B1EE];
   [0x507099E6; 0x461290EE; 0x3BAD89AD; 0xB95934AA; 0x701A4D9C; 0x9A6E5C22; 0x5E1389F6; 0x2CA79144]];
  [[0xE5108FC; 0xBF82F786; 0x644D06DE; 0x3620CCC4; 0x8E5C4753; 0xB65DE853; 0x9FEDFD16; 0x6DAB7241];
   [0x546DCBA4; 0x4CECAC87; 0x3E2D0684; 0xA7BBE65D; 0xDA1E4FFA; 0x92AA490; 0x41AD32AF; 0x78F448BE]];
  [[0x4A33F071; 0x321580FE; 0x5EE5E685; 0xBEA845D1; 0x47AC8ACF; 0xC73CAECE; 0xA9F65F05; 0xE15E55D];
   [0xA59506E7; 0x5FC47420; 0x1DBD2DD; 0x501417FF; 0xFB1205A6; 0x8EF23280; 0xE0F43AE8; 0x1AA26168]];
  [[0x8149EB2A; 0xD41F73B1; 0xAD95D531; 0xC297AF04; 0x749E415D; 0x2017176F; 0x8357CE9A; 0x5AF89C73];
   [0x8A0FF9C; 0x301F7C79; 0x98695C57; 0xC2999B5; 0x6E4D8FF5; 0x85679957; 0x6F493B1C; 0x2CC0FF3E]];
  [[0x4AF481F5; 0xFE90F904; 0x31BC4919; 0x562C78B; 0x70E4F140; 0xAA44AA56; 0xA175159A; 0x1B61DEB4];
   [0xA7A7E648; 0x85315DE1; 0x6C012B33; 0x4BC1F51D; 0x60CDEE6; 0x40CB5DE3; 0x32A1E138; 0x969F9196]];
  [[0xE05F23B5; 0x3B317508; 0x512D1156; 0x7B1A93AE; 0xCB58EC19; 0x3A283415; 0x8E27CAD9; 0x193A53A1];
   [0x3DE1BA8; 0xCF6BBEBA; 0x47A02393; 0xFA5544CA; 0x8627F5EB; 0x8B3AAC1A; 0x62EAF195; 0x2FAD2EC]];
  [[0x259CCF0F; 0x4F8D8ADA; 0x562991D7; 0xE4E6786B; 0x597C3FD3; 0xA1C63473; 0xACAB6F16; 0x1F5B9017];
   [0x592D437A; 0x95B201BD; 0xED14F859; 0x54432A75; 0xB551AC1; 0x67EF73FB; 0x7F1AB9CA; 0xA48F043]];
  [[0x4A35445C; 0xECEE508E; 0xB3EA6F9B; 0x80BE9F07; 0x87E4B78E; 0xD914B256; 0xF89B8E4B; 0x97F79CC9];
   [0xC359FB12; 0x6A5B4F2B; 0x99CF6FFA; 0x54E6E37A; 0xF7C66CA8; 0x1133C4B2; 0x345866B; 0x6F679B28]];
  [[0x44E77CDF; 0x6F7A1; 0x42033333; 0xD8077F9F; 0x21EAF35F; 0x414ECE5; 0x5623803C; 0x1211576B];
   [0x140309A7; 0xEDADD215; 0x5EBAE3BB; 0xC349C657; 0x821DE06B; 0xBD40427C; 0x3F5D2F97; 0x8949ACA3]]];
 [[[0x22E3D44; 0xAC1F87E6; 0xB39F6B10; 0xDFC17BED; 0x7119C4A; 0xEAAE4168; 0xDBD47D36; 0x8B3B40BC];
   [0x861B7B59; 0x6683A561; 0x13A6C76D; 0xF9BFFB17; 0xA30A05AC; 0xE4E72EA4; 0xBA0D2AD6; 0x77C219E8]];
  [[0x66BE6944; 0x5019824E; 0x7B131070; 0x811ACEBE; 0x3BA34677; 0x9730DCF0; 0x7BC9CFC8; 0x5B9C5CF5];
   [0xB283C8CC; 0x1CBD950F; 0x3973A325; 0xF66DBDDA; 0x6FA60257; 0x4EC5EBC2; 0x36FF26B3; 0xC01D577]];
  [[0x7CE2BE74; 0xBB221954; 0x841E6C0C; 0x23E44E0E; 0x77C3824E; 0xE760D33D; 0x7EB3CE34; 0x5B656FBE];
   [0xC5F3D66E; 0xEC50E509; 0x496EF8BA; 0x5326C2B8; 0x3D4B20D4; 0x3F9485F6; 0x51C21B0E; 0x11B74A85]];
  [[0x25E30336; 0xC3EAEB04; 0xA6E3637F; 0xA9D6C70F; 0x86F77F68; 0xF818C37E; 0xC60DF35A; 0x786ED3C2];
   [0xD56D705A; 0xACA70EA0; 0x7BF4EF10; 0xCE61608C; 0x1722C179; 0x49AD1CD8; 0x687F3222; 0x1B84FBE9]];
  [[0x35EE0BA9; 0x8A0F4BF1; 0x3952A08; 0x42AD2846; 0x3B60B4DD; 0x1E0E1E3B; 0xF5DCAD76; 0xDC1A947];
   [0x1F496E03; 0x54BECA4; 0x3AE6E6F6; 0x8F02FDAB; 0x9B71C9F5; 0x8851CFF4; 0xA7441F87; 0x6BD7271C]];
  [[0x9EB6A2C3; 0xB019E346; 0x931E7550; 0x2B719034; 0x40698F1F; 0x2B2CBEBD; 0x4F1FC587; 0x375DB591];
   [0x676A79A4; 0x9843166; 0xB416D657; 0x91848967; 0x9FED6B27; 0xB49EA721; 0xD080C8AA; 0x1FAC5650]];
  [[0x58C4C2AA; 0x205CD588; 0x17F572EE; 0xBEEE26F8; 0x4CB4DE3A; 0xE744AB67; 0xCBE989BD; 0x37E34E18];
   [0x767D31B5; 0x95D9118B; 0x83E7C03E; 0x9A34DBEC; 0xB8F70DD3; 0xCAFDBD1A; 0x3909BB51; 0x1E68A681]];
  [[0x9FD96ABA; 0xFE0A5DFF; 0xD99B68DE; 0xBBFB1FDF; 0xE3F522BE; 0x5E232A4F; 0xA6428D33; 0x768C2C54];
   [0xDBF1A575; 0xE9CFEDF9; 0x4B83F9AB; 0x841721F2; 0x80A85361; 0xFAD9650A; 0x4979759; 0x31589211]];
  [[0xEFBF2099; 0x1CF9F4B8; 0xF571408B; 0x63D5499B; 0xEC3E74A6; 0x89C119FC; 0x698E4DCD; 0x525DDDF];
   [0x7333A38C; 0x43FCDDE4; 0x80A912DE; 0x2150EAD4; 0xA19CC55; 0x4B3BD223; 0x238AC64C; 0x3553EB4E]];
  [[0xFEC2371F; 0x3A259F52; 0x44863D3E; 0x8B03C505; 0x86BB6522; 0x1053E2D6; 0xF7086CBE; 0x400CE699];
   [0x3ED78DE; 0x695B1EA0; 0x16500E1B; 0xAE6D09; 0x14B01815; 0x9F29B089; 0xC218D892; 0x269692B4]];
  [[0xF0D44E79; 0x8660280D; 0x37C0F38F; 0x69D29685; 0xB9E24AD8; 0x664B8146; 0x1E695452; 0x277CB4DD];
   [0xDFBF05EB; 0xB1A02D4E; 0x4A1426C7; 0x3B349308; 0x22204FE7; 0x13B79612; 0xBCB5CD9F; 0x4F80867]];
  [[0xE0852CBC; 0x37BDBCAE; 0xBE22764C; 0x2A6D7A23; 0x25AFD9FF; 0x4E0D43AC; 0xD16DD9EB; 0x1F6C9E14];
   [0xB4B0F47A; 0xE37E3AB3; 0x6C476C3A; 0x9E046FB; 0xB75FA2DC; 0xB8F649D9; 0xFAB1AC41; 0x7962A8C4]];
  [[0xF6A1314A; 0xE41470; 0xE4388464; 0x176380C3; 0x9B8A2B4D; 0xDB3405CD; 0x7DE02ABC; 0x6299A1A6];
   [0x7BBE7BFA; 0x9F6B9DE7; 0x9D3098DD; 0x59F16F54; 0x3B5767FE; 0xFEC29C8D; 0x64955759; 0x67711BC0]];
  [[0xB1B07B5D; 0x34444EA3; 0x91FA2B4A; 0xB1D973B4; 0x83403A0E; 0xEBEBEFB1; 0x8E8A8EC6; 0x56D52098];
   [0xA7E82D55; 0x11C93529; 0xD525C399; 0x9230AE03; 0x8DB46C82; 0x74E1CBB2; 0x40BE5E15; 0x4C3383CC]];
  [[0xCDAD72F3; 0x33A52E73; 0xB9E77759; 0x1D2CCA33; 0x549406F5; 0x26717716; 0x5B3DB3E8; 0x70DED57F];
   [0x43C85A67; 0xBA38F813; 0x35422BB3; 0x956F2DD7; 0x7486F18; 0x52D9FA99; 0x75D1D2C4; 0x655791BF]];
  [[0x1FC9E0B3; 0xF434A960; 0xBEDE92AD; 0x42A7B891; 0xA55A8009; 0x5A182D8; 0x38531612; 0x3404E08D];
   [0xF07D76E3; 0x2B5B2766; 0x1D77B90C; 0x94B1A98D; 0x4B18BB9F; 0xA86C0EC8; 0x526A81E3; 0x6532770F]]];
 [[[0x61CFE04A; 0x4429A4E8; 0x2C9CA012; 0xEE867386; 0xC32D1969; 0x237A3040; 0xAE2DFAE; 0x400AD599];
   [0x213C0A18; 0x1603D10A; 0x2B1E2A57; 0x6EB8042D; 0xC7CAF556; 0x4C9C1696; 0xE0C1A5A3; 0x79BE04A7]];
  [[0x3FCB8B14; 0x161781E3; 0xB1384C3C; 0x1383E3B8; 0xB566626C; 0x5129EA19; 0x551DE02A; 0x8A1F86E4];
   [0xAEDBE04C; 0x9C648CCE; 0xFB200132; 0xD4278AC; 0xC1E2D4A3; 0x466D452A; 0xB21B6E38; 0x832B0E6E]];
  [[0xED1D76C7; 0x20101D7C; 0xC110D85E; 0xC3282661; 0xFFCA2DD7; 0xB8026CE4; 0x8BA48211; 0x73B4EBA5];
   [0xD8554E2C; 0xAB94FE21; 0x81B2A181; 0x319E2FD7; 0x37E8D3E2; 0x2C824DC5; 0x9FCA0AB; 0x97CD457A]];
  [[0xC50116CB; 0x8E4B5FBD; 0xCA631A93; 0x3D20CECE; 0x545575D8; 0x5F80606C; 0xF91C7908; 0x45ED55DE];
   [0x7CC1083C; 0x91870A92; 0xD360FF5C; 0xA3828E06; 0x84003D42; 0xFC9DFCDC; 0xFAC4667F; 0x733C887]];
  [[0xCC2FC31B; 0x6F1F771A; 0x902E8176; 0xDA9351A1; 0xCE3FF045; 0xFB9395AF; 0x13820DAB; 0x17C28CA2];
   [0xA684E6FA; 0xA1F596BC; 0xDAD3995A; 0x89228CC7; 0xC02E458B; 0x5DBFD421; 0xA2122AFE; 0x58C25045]];
  [[0x18EADB0; 0x2906450F; 0x9030C84E; 0x88A7A236; 0x33308084; 0x492BA7A3; 0x5605F371; 0x321388B9];
   [0x626AE19A; 0x5F934C94; 0x1C7CCD9; 0xE2BD6C67; 0xEC0BBD52; 0xB07757B1; 0xF9EDD2AC; 0x1E980338]];
  [[0x8831457C; 0x5A537074; 0x47E7B9A9; 0xE0E22FB; 0xA225A259; 0x7BE70594; 0x30946816; 0x433DB055];
   [0xE2F2C3CB; 0x852EA9F9; 0x2D243848; 0xDC4E8E3A; 0x1E887770; 0x10F34AB8; 0xC89FC71B; 0x29795D2C]];
  [[0xCFEC2C6F; 0xE046B04B; 0x2CA8256E; 0xA1D3B5A0; 0xE87F767F; 0x93F7FDFA; 0x35FA3837; 0x2DF5693E];
   [0x97884587; 0x71D9638C; 0x39E115EC; 0x175EA91F; 0xF41A27FC; 0x14E16C31; 0xEB2F5913; 0x8B2682EA]];
  [[0x798C7F28; 0x2BCC6853; 0xDD7D3615; 0x2F985A59; 0x41D2257A; 0xA66519E1; 0x21F719B; 0x18731D74];
   [0x360E9C20; 0x7210472C; 0x329A9B35; 0x4FB48411; 0x87D62CA5; 0xB33B6CB5; 0xFD0D7703; 0x86226D9E]];
  [[0xF67CB77C; 0xDD133F8B; 0xF6ABEE80; 0x381E4D62; 0x7DF85AE5; 0x3236F005; 0x4610BB0E; 0x88EBB386];
   [0x8DB908D8; 0x895AA539; 0x104C4633; 0x848142E6; 0xB8012B2E; 0x467EE770; 0x1B9210EE; 0x193CBAED]];
  [[0xC1F44FC1; 0x737CD32B; 0x522B6209; 0xCDF82B1C; 0xE0017F2A; 0x8F4BB70; 0x64738F26; 0x1565BCEF];
   [0x684DCF67; 0xD2910B9; 0xC6F3EB81; 0x4ED1734B; 0xDA1D6BC8; 0xCBEA79B6; 0xEE6A41D6; 0x470CE36]];
  [[0xBA05AF3C; 0xECFD5C66; 0xEB9BFAA8; 0x421D5540; 0x526CFF85; 0xFC0E5AF2; 0x53DC49A6; 0x7E17F1E6];
   [0x1FAEB0A2; 0x69BB1DFB; 0xB3785ED4; 0xDC95661A; 0x676D7CD0; 0x1F1D7395; 0x89C6412F; 0x2C16BB96]];
  [[0xEE414CA6; 0x2335F20E; 0xFEF5E042; 0x56E0DDB2; 0xD9DE2966; 0x942D4E35; 0xCF63D583; 0x80E92B8C];
   [0x5D492C76; 0x158BE1B6; 0xC4F822D9; 0xFF096960; 0x5AF79379; 0xC00FC730; 0x50D34E12; 0x7C49B03]];
  [[0xC34836C8; 0x64678B2E; 0x615FF066; 0xCC280DCB; 0x9131EC98; 0x86C3C747; 0x2D151FAD; 0x35B008CC];
   [0xF8133FDC; 0x22C18852; 0x2FE8809D; 0x183BE4DC; 0xCF98D56D; 0x86589814; 0x2F6E0DE4; 0x52D8074D]];
  [[0xC9274AA6; 0x33FF9F41; 0xCA854AF1; 0xAC30ACB4; 0xFBC994B7; 0x87A7BE53; 0xDBCD717B; 0x6E7E8B2A];
   [0xCD494AB6; 0x3065A732; 0x60FD7F57; 0x6F977B87; 0xB74BAD54; 0x4C216EB4; 0xF6061F7A; 0x674F00F5]];
  [[0x3164AFBB; 0xA8C22481; 0x72A7AC55; 0x4C9E2F1D; 0x79DEFE94; 0xE3DAC3E3; 0xBB9D953F; 0x193A1E0B];
   [0x7E0957EE; 0x8852020C; 0xB62F8EF7; 0xF7FD181E; 0xE26B8860; 0xDE7EDDE; 0xFD1B00DE; 0x53A05575]]];
 [[[0x63E0C8FC; 0xE5D63E1B; 0xC684016A; 0x6849B530; 0x9318AD; 0x4E89CB43; 0xEF571911; 0x1CDC5918];
   [0xF389EAF3; 0xA6596C03; 0xE88975F9; 0x9282C1B3; 0xD53D3F2; 0xD07A2AEF; 0x2B3B602C; 0x3DA515D5]];
  [[0x8A5436EA; 0xE4285781; 0x36D65626; 0x47E3056; 0xE16489A0; 0x16B568; 0x75A0209C; 0x44603196];
   [0xBCC19754; 0x2BE99A51; 0x5ACFCDEF; 0xE02EAFD0; 0xAECACABB; 0xB0A1E300; 0xAC1860D9; 0xF39CBDE]];
  [[0x2099F08E; 0x50DA5372; 0xCA4817B1; 0xAA6AAAD1; 0x57D73192; 0xA4DDC5FF; 0x7682D453; 0x46043AC];
   [0x28CF3F48; 0xC8EB1788; 0xDCA184D4; 0x3967A02F; 0x86221941; 0xCE68B79; 0xFD3A197A; 0x27BDCA48]];
  [[0x563D7A91; 0xD774E33C; 0x7AE1C92; 0x1C309DAE; 0x57DBE6A8; 0xDABA89B4; 0xE5820FA4; 0x90C62517];
   [0x11371109; 0x23C64605; 0x15605666; 0x1176AE7E; 0xDF040DCB; 0xD71E9755; 0x62ED515C; 0x5312A5B3]];
  [[0x7A5FB9E0; 0xB7AA3A11; 0x18E2CB32; 0xA769BC72; 0x6B73E050; 0x9D551B9B; 0xDB067CBC; 0xCE51DF0];
   [0x4A0E06BE; 0xBF90D5; 0x7EE820E7; 0xFEC6E7B3; 0x3334937A; 0xDFBAC083; 0xCE14CF46; 0x46884935]];
  [[0x902EF3A9; 0xC3F31EAF; 0x5CCDF002; 0xF3B6E6FA; 0x88CDDE0F; 0x5A9B5321; 0xE8691FED; 0xD99E43];
   [0xCFE02C8B; 0x8E786F52; 0x4DD36F8E; 0x587AA537; 0x425CC228; 0xBCA91CAC; 0xBFA9C36B; 0x80AA8AA9]];
  [[0x9B20505A; 0xAD4A2AD0; 0x16739066; 0x6D708029; 0x89F73B52; 0x729001F3; 0x8073A428; 0x77480347];
   [0xE84DB3B4; 0x1AB38F07; 0xA6655769; 0xE643D756; 0x46C19856; 0x5631359B; 0x1C3DCD1; 0x82530A32]];
  [[0x2DDDB968; 0x9250EC26; 0x8D82A03E; 0x63D99CBF; 0x41349B60; 0x4FBFE784; 0xA15BF2B7; 0x6977DD07];
   [0x68513C32; 0x771917C6; 0x8F0064F7; 0x2603518; 0x51D78637; 0x45A57429; 0x87293790; 0x56BF57CC]];
  [[0x32E6426; 0xBAC94E24; 0xC2531B26; 0x7D54AE34; 0xCD688082; 0x4D6EF608; 0xF5AA4BEE; 0x736E7ACF];
   [0x6AFB84E2; 0x41D5BF6C; 0x6E976E09; 0x40E12DA5; 0x2235F7B9; 0xCBF32FCB; 0xA21BC0E0; 0x285DDF46]];
  [[0xCE751632; 0x66C6A76E; 0x32A61A1D; 0xBD457D0E; 0x78191C57; 0xFA12A7C8; 0x6611B5E; 0x30ED98B];
   [0xF4972FFD; 0x199F7756; 0x9C8AAB09; 0x298D98E6; 0xC5B02158; 0x2186054C; 0xB9B1147A; 0x736CE4C]];
  [[0x19BFA57D; 0x33E4A4CA; 0xAA70C35D; 0xF02F6D32; 0x3CC082FD; 0x9EA10B63; 0xD00E82A8; 0x86104E8E];
   [0x87797E25; 0xACBA5E73; 0xEB85A796; 0x24DD98A8; 0xC58AC480; 0x2748827; 0x6A932D80; 0x5B4480C7]];
  [[0x1992B174; 0xF9E210FB; 0xBE22636E; 0x3CFA6EF1; 0x3BDFA2BD; 0xA46F202B; 0x441B96D2; 0x8C83B3DA];
   [0x8AA39AB4; 0x3BB2ED8B; 0x9CE53FB2; 0x4DB63B23; 0x46DC2104; 0x24AC8A98; 0x68E20D1B; 0x997BC4A7]];
  [[0xD1C0D629; 0x4CDF8757; 0xA64B6058; 0xBA155719; 0xBE3FB0B1; 0x82FD0DA3; 0x3E34CB1; 0x12F50694];
   [0x2E7DFEB; 0x8993EE38; 0x3D7A758E; 0x2FC240C6; 0xAFF7CC7B; 0x75CB6F62; 0x71B02A5B; 0x2D73F74D]];
  [[0x550ADA69; 0xB7B920A; 0xD2F1D5C2; 0x87D29F08; 0xEEA99A38; 0x6E36EF9C; 0x79D7626A; 0x624874C1];
   [0x17F026E0; 0x9FCA1B2E; 0xA3A79C2E; 0xBDBE18E5; 0x6E1B0C6D; 0x1506DE6A; 0xAD2A2C5F; 0x860CCD71]];
  [[0x28715EF9; 0xA15CB0; 0xB1C0ED6D; 0x71F337D8; 0xF998251E; 0xBD7E6892; 0x8E0A4E9; 0x4C5AB311];
   [0x567342FB; 0xDFD51293; 0x5AE3193B; 0xF202FCD1; 0xAF59A5A2; 0xE317C933; 0x5055DE2A; 0x300FE083]];
  [[0xC58E7AE9; 0x279A071A; 0x4C718A8B; 0xCED1F2F4; 0x5FE7F6E5; 0x3A8C0D1A; 0xBB40DA93; 0x789C9B04];
   [0xBF2A0B9B; 0xBB7EA922; 0x3A484413; 0x5DD7A04A; 0xC5912F93; 0x3E1F49FB; 0x61ECAB05; 0x4D8C07A5]]];
 [[[0x9706D4CF; 0x7D351007; 0xB9BABB1F; 0x3E2B3D2E; 0xA2E423EA; 0xC73745BF; 0xF59601A0; 0xAB3940A];
   [0x2A895C4F; 0x8881507A; 0x68652263; 0xF27F6F40; 0x88A416BE; 0xCFD91814; 0x1B4F51F6; 0x13459BC3]];
  [[0x1C7C38A; 0x6D830E0C; 0xE27DA48A; 0xBA912BD4; 0x4AB8B5A6; 0x3828F433; 0xE35E88DA; 0x3F858E6C];
   [0x6E1C033C; 0x137F2E3A; 0x7E670398; 0xFC7C8953; 0xF5C3D4DB; 0x6FF761CE; 0xEED1029B; 0x53A02906]];
  [[0x56779C20; 0x5C597BA6; 0x43A87346; 0x366688CC; 0xA55ACF91; 0x19F6DA4A; 0x182DEC58; 0x280ED592];
   [0xA1D3EBDD; 0xA1F3A7A; 0xC9F474A; 0xD92B6078; 0x19AE00DD; 0x38D0335E; 0xA97F33F7; 0x94A5772]];
  [[0x312D2694; 0x26A9029; 0xAB5B34B8; 0x95408516; 0xDED270EA; 0x9FFA9AB1; 0x493E5935; 0x1F9DDC52];
   [0x17244394; 0xAC7F94C1; 0xF28C9DF; 0x18FC29C4; 0xBD817BD9; 0xEDE29238; 0x8E2A7E40; 0x20DBF9AF]];
  [[0x7648CA5C; 0x9365D9; 0x2BF27488; 0xB168191E; 0xE3B91112; 0x2481BFAA; 0x3D6DB830; 0x744C505B];
   [0x3C464704; 0x21426D8F; 0xDAF85A61; 0x283F59EF; 0xF2716102; 0x278B5F8E; 0xFE7E7EC; 0x95B80D82]];
  [[0xF327664D; 0xD15ADA08; 0xFE904AF8; 0xF26E3232; 0xF99471C6; 0x2763DBA6; 0x15F30827; 0x4BC97139];
   [0x5F154BF9; 0x8523812E; 0xDE17F8F9; 0x839059F; 0xBC16678D; 0xEA151382; 0x7890C4EF; 0x68D01E62]];
  [[0x9487556B; 0x37FAC9FA; 0xFB4DC83D; 0xB4DF5C53; 0x92969151; 0x1EF42D8C; 0x8B0ED349; 0x6C0A9D18];
   [0x946F31ED; 0x63E91049; 0x653F600B; 0x51E91DC6; 0x53A29196; 0xD7A582B1; 0x31E1D843; 0x452F4AD]];
  [[0xDE8E344; 0x1224169D; 0xF329D30F; 0xF4AB4E7; 0xB525B6A4; 0x12662965; 0x255F14B8; 0x3142B612];
   [0xBBF468A1; 0xEF6148B9; 0x144F8DFF; 0x3FC413B4; 0x9BF55B34; 0xA453D075; 0x86EBA319; 0x857EC763]];
  [[0xC16C1002; 0x7FC22E26; 0xB0B186C3; 0x2E34975E; 0x2FC79F85; 0xE11E3642; 0x9F981B5F; 0x30FE5C0E];
   [0x31816247; 0x73BD0FA6; 0x6906AF0A; 0x40FE1661; 0x787BC7EE; 0x8D7109A3; 0x6FB9A590; 0x29452054]];
  [[0x4DFAAF93; 0x24654B9B; 0x9A450D29; 0x91CDEA8B; 0xE4874748; 0xEE55420B; 0x6D03064C; 0x1FAC14C];
   [0xD93BD5BE; 0x8A4EBDE2; 0x49EF18A9; 0xCB2DF307; 0x1A7B7F36; 0x36E6AC64; 0x4AC1CB8D; 0x30195423]];
  [[0x34F5B3FF; 0xD9970B1E; 0x587A9C5C; 0x3CFEFC50; 0x7CCE631E; 0x8EC1C5DE; 0x52465AB8; 0x92C93E2B];
   [0x257017CA; 0x104DF30; 0x8D8DB4CE; 0xF4E5E779; 0xFDC267F0; 0xE12A39DD; 0x27C73FDA; 0x683DEAFE]];
  [[0xBBC70623; 0xD0840E81; 0x4D23568E; 0x3A93C16; 0x11A71BFF; 0xC52FF3D6; 0x875248E; 0x3C11FCE];
   [0x6C4AE445; 0xBC6F184B; 0x7698EE98; 0xF52CC71F; 0xEEA25223; 0x4663193E; 0x31C68DC; 0x86CD1AB3]];
  [[0x21E04C02; 0x221C94EB; 0x7B980F70; 0xE96BB7B3; 0x24DC2BD1; 0x60A72897; 0x5621F475; 0x8C8E019F];
   [0x5CFA457A; 0xAE47B2F7; 0xF395C533; 0x31B2F9E1; 0x82E75849; 0x7EEB5DDC; 0x2A241E52; 0x4863A6A3]];
  [[0x914976EF; 0x806AC7F4; 0xCA42B875; 0x5019261E; 0x6EF2D82F; 0x44F5C03D; 0x690F2ACA; 0x24959F00];
   [0x81F0BBB6; 0x4BDE2115; 0x1F701A2D; 0x1EB2C00; 0x274FB05C; 0x39F8910; 0xC625EBCD; 0x57068F24]];
  [[0x67FF2575; 0xB21B8C93; 0xC60B449; 0xC7826C60; 0xA98671BB; 0xD4D69A9F; 0xF5A2AB0C; 0x95249276];
   [0x2D1976DA; 0x8F7007F0; 0xC011D54C; 0x846F2A92; 0xFA2076B1; 0xFDBF81DF; 0x5583B46C; 0x3349224F]];
  [[0x7C854B4A; 0x62496746; 0x798B1395; 0xF92BAE1D; 0xD2F65638; 0x2EBE18E3; 0x8A068F49; 0x472FF6E5];
   [0xDA2030C2; 0x64BB0F33; 0x66F6C000; 0x72C0D0C9; 0x3194615E; 0xEA837EE5; 0xFA9A7903; 0x1B7B4849]]];
 [[[0xCF9A0727; 0x27AB780C; 0x9D7486CB; 0xD457A7BC; 0xFE9F1A59; 0xFC57C335; 0xD1D9F161; 0x269D8959];
   [0xB81605D5; 0x6A32331; 0x6F050BE0; 0x23696353; 0x413E1C0D; 0xF9350879; 0x5761A8DF; 0x17019548]];
  [[0x6765C6A2; 0x583D3D3F; 0xBE9DF3AF; 0x68BBA6F9; 0x85358B53; 0x7011E594; 0x53A08874; 0x3B2142E3];
   [0x6F5C8641; 0x4AB6137E; 0x4FE9BCEB; 0x4955890E; 0x4D14DA01; 0xE2F732BA; 0xBEBD63D4; 0x8CB285FC]];
  [[0x6C74A0AA; 0x5099551B; 0xBC2C8A61; 0xF04EB8F8; 0x85983435; 0xE169F492; 0x5B808C9E; 0x764062A1];
   [0x65B994FB; 0x8C59A43F; 0x6068E685; 0x2FB148B7; 0x54108A9F; 0x899D4FC5; 0x5B4D40FE; 0x469EA3E]];
  [[0x62A76AA8; 0x15B613EA; 0x2FE2F179; 0x7E8E7D56; 0xBE98EDC2; 0x53160F65; 0x9810DC27; 0x258DA04E];
   [0x30D9C31; 0x4FEE19D0; 0xC29E300F; 0xFC2C57F8; 0xC44458AE; 0x71F97; 0x709727E1; 0xAA2B911]];
  [[0xA61166F8; 0x443F8B23; 0xD685FCF1; 0x3E8F6278; 0x447433C6; 0xC930C1D1; 0xAED7D6EB; 0x1245A867];
   [0xFA89945A; 0xC35986DD; 0x26B0AFEE; 0x89CE1109; 0x17103D18; 0x9C6A87CD; 0xCE338978; 0x811B2242]];
  [[0xC293255; 0xC074AF66; 0x5AEAC2E1; 0x982C23A9; 0xD39AC56C; 0xDB14DE0C; 0x47EBB839; 0x20263F3F];
   [0xD10588DF; 0x183EA578; 0x1EB69C36; 0xB4D88EFB; 0xDBF3BEE7; 0xA79A1B4D; 0xE8159E0D; 0x650FC466]];
  [[0xF80D5744; 0x9E6EE797; 0x825949BD; 0xDFC3EBF5; 0x7EC9BD65; 0x1083EC79; 0xB753499C; 0x62A45C5E];
   [0x2B6F42CF; 0x9C135F80; 0xC4B49041; 0xE39B0BA5; 0x8D3B2D06; 0x4D838513; 0xD070754B; 0x696034DC]];
  [[0xB8E3BDD1; 0x6313D73; 0xE6968872; 0xC7BEC420; 0x3A04B7F0; 0x740DD6D3; 0x2465BED2; 0x98F2D0B7];
   [0x4043DBAD; 0x9F298460; 0x1B5961F; 0x82D6991A; 0x54DFAB8A; 0xAAE7DF9D; 0x1A07DD22; 0x5701E335]];
  [[0xFCA398A2; 0x5695A08E; 0xD76E8CF; 0xD29EBC1F; 0x24004EDB; 0x5AB17ABF; 0xCC7A144; 0x20C7761B];
   [0x285EA93C; 0x6CAEE036; 0xF2B8BF23; 0xF9756E89; 0xB1AB91B7; 0x3CEA1C76; 0x3FB4F3B8; 0x5D86860E]];
  [[0xFDC7DBC5; 0x835B023B; 0xEEEDFD73; 0xF05C0676; 0xE52BFB27; 0xF8325D64; 0xB5032CFF; 0x919D008D];
   [0x4B130537; 0xEF27862C; 0x5CE404DC; 0x616DF154; 0x451ED033; 0x182BA57E; 0xBD01F864; 0x2EFEC0C7]];
  [[0x45F3AF3C; 0xDC846845; 0x92A47B31; 0x2D2BA0CD; 0xE1AFE6EE; 0x9C806C7D; 0x4C6A4FEA; 0x28FE43FF];
   [0x6C76C0F4; 0x2E028CD1; 0x2AEFBDDA; 0xC6FA5AD1; 0xF63F1A35; 0xC8B5339B; 0x4523F02; 0x30C780A7]];
  [[0xD7E4F0CE; 0x3D2DCA55; 0x26616811; 0x8EEF9189; 0x3C0E5892; 0xB106642F; 0x89DB033E; 0x4A965385];
   [0xB3C2DD37; 0x5A1CBEB6; 0x156EAC75; 0x5290C737; 0xE32E40C7; 0x57AFD98A; 0xB3571868; 0x4A16164]];
  [[0x1A673E1B; 0x9AB8A3E9; 0xFC23483; 0xC707ABBA; 0x9E0EA0BD; 0x936C1783; 0xF71F6F1D; 0x1E4C2E7C];
   [0x6FB0926C; 0x37904F63; 0xC51FEEA5; 0x9EC76DF7; 0x4D103DAC; 0x2C60F7D6; 0xF9DC2CC6; 0x7B451E0B]];
  [[0xB2A5F07F; 0xD4F8526C; 0xB0F4AE09; 0x41303D42; 0xC182FDC; 0xAC79523F; 0xAA0C5D6D; 0x8D6A75C8];
   [0x3CDCE3F0; 0x4DD7FC95; 0x5BE6DA0F; 0x4DDB3910; 0x16F7E27D; 0xE34961F9; 0x5B3544EB; 0xC5CB76F]];
  [[0x252C354C; 0x324C95B5; 0x8CC2C3BC; 0x4648D87E; 0x82BC8C80; 0x6DDFDECD; 0xC069996E; 0x8C64CADE];
   [0x40ED44AB; 0x4E282E96; 0x79334507; 0x70A12067; 0x5AB8902B; 0x65CE5D38; 0x7C949D96; 0x56FE68F2]];
  [[0xCF9530AE; 0x1D55C87E; 0xC147C2D5; 0xD1CF73FF; 0xC1F44403; 0x826031CD; 0x5EEF5BFB; 0x3A06528F];
   [0x5F84A7B1; 0xF220EAF3; 0x350EBADE; 0xBC99C905; 0x810A101C; 0x686A706E; 0x1D92EAEA; 0x95E52713]]];
 [[[0x514D47C2; 0xAAC634B3; 0x58B83B33; 0xD0C189B8; 0x58CA9A2F; 0x633D59E3; 0x838ACC80; 0x65965CE0];
   [0x9B512F6E; 0xBB03F7EA; 0x9EF17A82; 0xB2F38B84; 0xE16A7A95; 0xE8382E37; 0x4D9EF607; 0x28644EFE]];
  [[0x40A515B; 0x46F9115E; 0xFA59CD3E; 0x4C7DBCFF; 0x71BB543E; 0xB4CE22B8; 0x948F80BA; 0x58D935D8];
   [0x3683C8B; 0x33DC1D5B; 0x2D071D87; 0x25E6113A; 0xA7D59351; 0x44F962F8; 0xBCF66B43; 0x6B818DDB]];
  [[0x378C1098; 0x363A63C7; 0xAC5C0C9E; 0xBEB2A7B6; 0x4361C8D4; 0x3F620D3F; 0x4E3D9686; 0x68EAD01A];
   [0x45DB7208; 0x43613085; 0x13B35D33; 0x865A6DDE; 0x68DF09F5; 0x4EAA1663; 0xBF02AA12; 0x5FDCA83F]];
  [[0xBFEFB3CB; 0xC240FEAA; 0xEC6694F; 0x78E757D2; 0x2413D6A2; 0xA11A82DF; 0xDBB7A220; 0x7BD656EE];
   [0x6EB899A4; 0x68C60873; 0x318C72E8; 0xAFFB9F1C; 0x9FB7619D; 0xF16A443C; 0x42C6E4D6; 0x2FC317E3]];
  [[0x73F57A93; 0xAB56A873; 0x308F5224; 0xE9BA24E2; 0x11992077; 0x10281B9; 0x593EAD1A; 0x2CBCA7FE];
   [0x2A1D8318; 0xB400388A; 0x3C61A0AF; 0xD470ABDA; 0x94BD2FAC; 0xF9102721; 0xFAC703C; 0x222365D1]];
  [[0x9C2D1B2B; 0x5C9021C4; 0xCAF0B562; 0xB349DB18; 0x91412CC3; 0x6DAF7412; 0xCF6584D3; 0x44E5E3E5];
   [0xE4C17B19; 0x1D1F4244; 0x3787A38A; 0x4C663EE6; 0x313A8581; 0xA3261E22; 0x7A82C05A; 0x3AE1E1DB]];
  [[0x3CD6A155; 0x31AA2B29; 0x3D078B12; 0xEB9527E; 0x214FF1E2; 0x6785ABA2; 0xF111D572; 0x74974F84];
   [0x78C684B; 0x2199A753; 0x4B13A004; 0xA0F1DE23; 0x75BEBCBC; 0x3965AE19; 0x24562AA7; 0x22A8D7EE]];
  [[0xBF268ADE; 0x591965F; 0x9EE48F0E; 0xF621B364; 0x5A3A3848; 0xAD981A9; 0x9ECD72B7; 0x1316675C];
   [0xF37C87E0; 0x21A5CEB7; 0x68D1AAFB; 0xEF864CF3; 0xD3C9A54F; 0x5F340413; 0xE00FD564; 0xC5DE1E6]];
  [[0xB415D72C; 0x439B2C0C; 0x63442E62; 0x106AE2E0; 0x4A79E93B; 0x8A9428C6; 0xCC2DF510; 0x67FE6D6E];
   [0x655013B3; 0x407158BC; 0x2BC7E7CC; 0x3AAEAC1C; 0xEE8EC1F4; 0x399DB6EF; 0xECFF6657; 0x1F7D0D17]];
  [[0xCB86639E; 0x3039D18; 0x9CDC3408; 0x58603909; 0xF1804B9E; 0x52421109; 0xED126B9F; 0x95502857];
   [0x451B0539; 0xC91842D9; 0xE60AAE3B; 0x2B5B11EB; 0x44CB5A14; 0xDB50F9EA; 0x89E80A6E; 0x4B5C9824]];
  [[0x69FC9F1A; 0x8EF3A1E5; 0x7CCA576A; 0xA4EAB6F4; 0xFBF1CD65; 0x955E1C89; 0xF8CE13DB; 0x3E3ACF6E];
   [0x58F31FC9; 0x1FDB6190; 0x93B0D0D5; 0x10DB71B3; 0x9154B285; 0x90096143; 0x1C49EFF3; 0x37EEE178]];
  [[0xBC198066; 0x609DE502; 0x40722EF6; 0x75C8631; 0xFF0FA57D; 0x121ACC9F; 0xEC7DB1A0; 0x31E79AC5];
   [0xF16FAE79; 0x736EB95D; 0x815A14CB; 0xFF963917; 0x23AF0BC3; 0xC6003E5D; 0x99AFCAAA; 0xD1B0350]];
  [[0x1F0DF59D; 0x8A1B6C97; 0x59C9CA8D; 0x7DF81A72; 0x9602E8BE; 0x74257F8E; 0xA441657A; 0x2FFBAD39];
   [0x48050A6; 0xB1B090DB; 0x741E7392; 0xD6144221; 0xECA1E2D6; 0x63826973; 0xD287DE2F; 0x28EE60B8]];
  [[0x5DEE86CE; 0x81504295; 0x73C03937; 0xFACCB61D; 0x299B96AF; 0x9898F773; 0x488F95CD; 0x51552297];
   [0x54F5E182; 0x6170618C; 0xC2798401; 0x9C11D666; 0x3EAF3DDE; 0x88225F4B; 0x87F1185; 0x20841538]];
  [[0x14FA59EC; 0x42BCEFFE; 0x7D023F1E; 0xC41CFCDA; 0x7163E802; 0xD7E4FDE7; 0x2E145BCE; 0x54F4C798];
   [0xF9162235; 0xE4EA68C9; 0x458DEC24; 0x4F7EAC6F; 0x845C6AD1; 0x70100D2D; 0xF1EA21B2; 0x67AC34CF]];
  [[0xAC21C728; 0x2BD49BDF; 0xEDA966DF; 0x2D009B45; 0x4A9B9167; 0xD4476BE; 0x95D2ACD2; 0x340BD3BE];
   [0xB040FF50; 0xF8BACA2D; 0xB91D47C1; 0x307BEA0D; 0xB6B3A1E4; 0x2EFDC81B; 0x1595D6E2; 0x3B2CD7D9]]];
 [[[0x32A5A002; 0x56254AE7; 0x448B0A9F; 0xE48A475C; 0x14EDBBA9; 0x3B2DF6DF; 0xF5E4CC81; 0x911BE369];
   [0x77CBB387; 0x57D065C6; 0x527575FD; 0x7C1E0142; 0x243B5C33; 0x2CA91EEF; 0x5C4700CC; 0x7E54AF42]];
  [[0x5EEDF97F; 0xEF5ECAE5; 0xC0D821AC; 0x2D79312A; 0xA9EDBE8F; 0xD3817042; 0xAD924B1D; 0x7A3D537E];
   [0xB26FFC3B; 0xD9923A20; 0x5B81EC12; 0x651D2201; 0x54C37FF0; 0xBDF7205A; 0x8C0D2E79; 0x5562D258]];
  [[0xFB4842F8; 0xE5BC2E1C; 0x25B464C8; 0xCFE97824; 0x2FEA9ED3; 0xD902A11A; 0x8D3DD0A4; 0x2FC360ED];
   [0x9E5F7AE1; 0xEC4E57FC; 0x79B8AF6C; 0xF0F1FD9F; 0xA9A283D0; 0x803F3ED6; 0xADEEA78E; 0x5F13000F]];
  [[0x1838B470; 0x3EBBBD16; 0xB2781680; 0x934BA22A; 0xC7210CD4; 0xC9ED04FC; 0x4615F186; 0x716004A1];
   [0xE894BBC3; 0xE7B36C21; 0x570AA9A8; 0x3F739857; 0x3063902B; 0x1707FBEE; 0x155C9824; 0x44FCB774]];
  [[0xCDD8CEDB; 0x30ECD772; 0xCA09BCD3; 0x67BB36FD; 0x9BC43B7B; 0xD5AD0FAA; 0x6A130895; 0x3962E556];
   [0x7F7A565A; 0x57928253; 0x55B911EE; 0xDE9D7792; 0x6984F326; 0xD5DBFDDE; 0x9FB51246; 0x7CDF5E15]];
  [[0x89D24763; 0xD7FC427A; 0xAD874362; 0x50E627C9; 0x2069873A; 0x17A8F83B; 0xDB698BD1; 0x186952D7];
   [0x38A2822C; 0x6C007EED; 0xC207073; 0x5F187091; 0x8D245D2; 0xD0023B63; 0x34544316; 0x7A32C2A1]];
  [[0x8C2635EC; 0x8B99183A; 0x6F12B137; 0xA00A9476; 0x823DA313; 0x9B5E2F57; 0x47B3CEB1; 0xF7CB4AF];
   [0x67266D24; 0xC993AF7E; 0xEBA985B8; 0x8B60295E; 0xE41A6F69; 0x9AA596CB; 0x4B68507A; 0x4D6CF5DF]];
  [[0x6921DEFE; 0x3B8A3CBC; 0xED7B717; 0xB96D5390; 0x7DE65E54; 0x6761E86A; 0x701CC1E4; 0x964460D6];
   [0x26C82309; 0x5C0A2213; 0x20328C60; 0xF95F5472; 0xFB49E3B5; 0xB519B476; 0xEE373756; 0x89D0AB6]];
  [[0xDC952768; 0x947DFCF0; 0x3AB613AA; 0xD8B5C61C; 0x9A457DA4; 0x146E8325; 0xF476945E; 0x37E2F6D3];
   [0x3851A6F6; 0x5702A441; 0x8D67EF9C; 0xB476560E; 0xF9D2AD96; 0xABA23F67; 0xDFBBB806; 0x3CE30A4E]];
  [[0xE5BAA662; 0x64695640; 0xAAF3988; 0x2A18979A; 0xDE0ED212; 0x605578FF; 0x30F2C13C; 0x52E604D5];
   [0x894AB3B9; 0x2E9E2D83; 0x4BC33041; 0x98B1FAA; 0x863AA3C; 0x1CF6606; 0xD2951A60; 0x7334879B]];
  [[0xC51704F1; 0xB080105C; 0xEAEE29C4; 0x1A5869B8; 0x5FDD2FD3; 0xAD6AEF33; 0x49C2B183; 0x83E677C4];
   [0xDFA8B8F4; 0x757A4EFD; 0xE42F2C87; 0xFC8E7650; 0x9C963D98; 0xD4A61A3E; 0x45BC9044; 0x3750289A]];
  [[0x40B1C72C; 0x40A0620E; 0xB2E44573; 0xAEE56EC7; 0x60532553; 0xE4E6EA3D; 0xA0EB6014; 0x5BA50E80];
   [0x4378CC2F; 0x84642978; 0x2A1C5FB4; 0xE322D169; 0x6B91F82D; 0x5000C9B1; 0x7AA49F2D; 0x32380CB8]];
  [[0xE18C4BD2; 0xA2F936A; 0xC3DB9AA5; 0x7AEA56AA; 0x5DDF30CB; 0x3A984E93; 0x904181C6; 0x36133D20];
   [0xF62DFBF5; 0xA9A65593; 0x6808B883; 0xB4AC06FD; 0x7A2FEDBB; 0x98679704; 0x97880A72; 0x20E9E8E1]];
  [[0xCEB26FAE; 0x403A1ED1; 0x3CD622C9; 0xAD13CD87; 0xCF45C32D; 0xC1E03929; 0xC3BE1A53; 0x4B50E4A9];
   [0xD0D7AFE3; 0xCF10F3AF; 0x1494A9B4; 0x6A29B173; 0xD13B0495; 0xB9DC9849; 0x9C05B110; 0x4C50794E]];
  [[0x1427F71D; 0xC3C97DED; 0x966ECF33; 0xC3CFB754; 0x1FBF30CD; 0x48E30FE1; 0x1E4B0998; 0x71C96E1C];
   [0xB92C4BF7; 0x878D6305; 0xCCB5E4A1; 0x14477130; 0xE3C00A19; 0x7C210767; 0xAB3CDBF0; 0x5546DBD5]];
  [[0x70857571; 0xADEC8758; 0xE70D07EC; 0xA52587C; 0xC731B9BC; 0xE6CEAF9E; 0x47143479; 0x1D0FDE3F];
   [0xC5B410CB; 0x2F3BE2CF; 0x4E64FD9B; 0x576004BE; 0x7629820C; 0x3F33951; 0x46A450E2; 0x7BD32964]]];
 [[[0x46CED42D; 0xD492D6B7; 0x1F0092E3; 0xC068D02D; 0x8D8A822A; 0x8ECBAD; 0x71045647; 0x6B326869];
   [0x523CBA58; 0xFEE3237F; 0x9C29059F; 0x77B7F50; 0xE72FBE6F; 0x42C308B3; 0x8E34148B; 0x3DD79D83]];
  [[0xCAC24455; 0x3ED9DF47; 0xD8546306; 0x7C8A7B31; 0x2AA02202; 0x4CC43295; 0x8598E028; 0x5E8B4EA3];
   [0x812B8070; 0x8A882F3F; 0x1DD374C0; 0x984BE588; 0x16E133CF; 0x6FDA8159; 0x899920D0; 0x34FB92FA]];
  [[0xDA0B8D0E; 0x3BE0416F; 0x88C053D0; 0x2CC846DB; 0xB1A3A621; 0xC04C3A42; 0x8A9D9115; 0x35BC5550];
   [0x7FA72AFE; 0x7F8C9FE3; 0xD1E914FD; 0x488FA0B4; 0x84F79359; 0x8F5C2D63; 0xFBC94785; 0x2BE80429]];
  [[0x6F67799A; 0x391794E0; 0x677A067; 0xD9BF08AE; 0xDF61563C; 0x716D5062; 0xF590F3A3; 0xECB234A];
   [0xFEA22392; 0xA5B91448; 0x7E76FB8B; 0xFAA29487; 0x4B6CB375; 0x3CC3A02A; 0x9022167A; 0x5C0B3B63]];
  [[0x4C576430; 0xC5689CF3; 0xC585F5A5; 0xF7B7B230; 0xE4BFCEE7; 0xB8DAADFB; 0x9CF4242F; 0x7B7D8A95];
   [0x398FEEF6; 0xC1755F9B; 0x5CC5C36E; 0x9B31CD4D; 0xF4C6B793; 0x4D87AB9C; 0xF595EFA8; 0x673FD5B2]];
  [[0xE05E6B19; 0xA3836484; 0xFCA7E6FB; 0x90C14CF; 0xFC717DBC; 0xB7A27042; 0x38647882; 0x56CD4AF1];
   [0xA43C453E; 0xC2B56B50; 0x982E7AED; 0xCD5E768; 0x58474A8B; 0xD5ABADF7; 0x99F500AC; 0x68188A38]];
  [[0x83B1F7BA; 0x683AC3E; 0x680568E9; 0x6A4FC30C; 0x7F6256CF; 0x735F5E48; 0x48DB831; 0x1240752D];
   [0x868B8AD7; 0x98B78A67; 0x822EBA7D; 0x9E32F2C1; 0x8F37580F; 0xEAE28B1E; 0xC72EDA86; 0xD204CE0]];
  [[0x77E8C68C; 0x5E4EAA1C; 0x859A127B; 0x282ADFE9; 0x14904910; 0xC75AB7C; 0x6E751062; 0x1794516A];
   [0x3DE4A32A; 0x8D99D891; 0x54EF2BF0; 0x957AA807; 0xB109ECD; 0xBF20A9E0; 0xA72268D3; 0x7732F2B3]];
  [[0x48752F76; 0xADB52E43; 0xD6F7CCE8; 0x1E9F4B1; 0x2E4BD9B5; 0x22702DA0; 0xB40BF9AB; 0x1BCC9C60];
   [0x9F53B2B1; 0xAB774637; 0x8CB316D0; 0x9C574151; 0xBECBEBED; 0x231D5C45; 0xF0458638; 0xBD2D5E7]];
  [[0x4B946132; 0xD2F5E0B5; 0x155AA2C8; 0x200A8A30; 0x56A62CE7; 0x15473FD4; 0xB6689367; 0x30EA71B];
   [0xE315F29; 0xD561432B; 0x149E3A9E; 0x4155022E; 0x15841273; 0xC77EF7E1; 0x52BA265A; 0x890D9C8D]];
  [[0x5E62451A; 0xB72B5A6A; 0x5C61A183; 0xFDA85C17; 0xB7F36EB3; 0xA4275361; 0x94F4148D; 0x53ADFAF3];
   [0x6A8467AE; 0x281D47F9; 0x8474D3AD; 0x416A64B5; 0xEC99480E; 0x710D0E7A; 0x819253FF; 0x2693A878]];
  [[0x1A2FE406; 0x4BE76904; 0x343F5B10; 0xB6FEED1D; 0xD705E35C; 0x36695C52; 0x6BD3859F; 0x7DF6FA41];
   [0xC00E77EA; 0x7B9B11F5; 0xCA80F838; 0xC90411B8; 0x2908C694; 0x8A9FAEF0; 0xFF5B39B0; 0x5F65AAA]];
  [[0xD7F59CC5; 0x823A0776; 0xC410DFD1; 0xB9EBE15E; 0x10A7FA3F; 0xC2374B58; 0x311660F2; 0x1B912C84];
   [0xD5A175E6; 0x486A2607; 0x72B74EB7; 0x9B17D14D; 0x1039CA77; 0x1069D5C4; 0x3FEE08BB; 0x214605B3]];
  [[0xF9D14E8D; 0xC25A7379; 0x577D330E; 0x9D5FAFDA; 0xA4A9CEF0; 0xB9A0217D; 0x8252731; 0x95AFC7F7];
   [0x8FC51680; 0x14E53E9E; 0xA8AC4E21; 0xAEA2428; 0x11CB2361; 0x6BC5E42C; 0xDCB52215; 0x3B205E45]];
  [[0xC916CDE4; 0x8EDD4718; 0xD70D7130; 0xBB08F27A; 0xED9162CB; 0x289A33C0; 0xFB69185B; 0x97CEFA45];
   [0x8B7797EE; 0x44DA2578; 0x148E9A75; 0x579B17F7; 0x913C09AE; 0x73EC1C23; 0xBAAA67D; 0x3FAB86A4]];
  [[0x2DF7BE6D; 0x28E76C23; 0x500A844D; 0x526844; 0x3CC748C2; 0xB86FBB14; 0xEB5F6AC5; 0x6D89BB8A];
   [0x2327808C; 0xF66159DF; 0x29C5006C; 0x606F0553; 0x844B6CA4; 0xDAA1107F; 0x63A8946C; 0x95D7686C]]];
 [[[0x7F7DCF5; 0x71438CEA; 0xA1CCD55; 0xB3F59AFA; 0xE0071B4; 0x5A439627; 0xE93D5B8E; 0x8694E3FA];
   [0x7D6550B0; 0x21713A38; 0x6CFCD5B; 0x893BD9F7; 0xE7513FCE; 0xC3D2679C; 0x2C451EF3; 0x418AE7C8]];
  [[0xB85E2A9; 0xADFAFF38; 0x2E244653; 0x6124E627; 0x375D1EE7; 0xF2C465AF; 0x76E58455; 0x5B2302D6];
   [0x7479F387; 0x32938A0D; 0xAAAB22A5; 0xF9A16A0D; 0x2AD65CAE; 0x65AF0E25; 0x8431EA40; 0x2B566866]];
  [[0xDBCDAFAB; 0xCA3ACC11; 0xBB7F218B; 0xBBB5DBF; 0xDB0ABBE2; 0xD69E091A; 0xB0B7B09; 0x8AFFCE95];
   [0xC7EC52C7; 0xA5E6C81; 0x896707CD; 0xABD60595; 0x101E0F80; 0x4CE86506; 0x4ED01B2E; 0x9629A6C0]];
  [[0xE15D82F4; 0x1D740EAC; 0x90A5D149; 0x42F98018; 0x903D6D28; 0x1B8C8DC0; 0x5BBDFF7; 0x7BE2B916];
   [0xD8E41D96; 0xFBACF878; 0xBE26EB56; 0x42E98BFB; 0xF6DE1EB1; 0x9EA73555; 0xCF79A9EE; 0x5325DDDE]];
  [[0x48E6A22F; 0x44BE62C3; 0x8DB35276; 0xD0A3C0AD; 0x136FE9BA; 0xB4C99306; 0xA44E491F; 0xF2987D7];
   [0xCCC77C2B; 0xA0965F74; 0xFE110072; 0xE01AD644; 0xC16B5E1E; 0x79528B9C; 0xF929BE4D; 0x45AEEFF3]];
  [[0x7F4DA458; 0x46E95DF6; 0xA7AD579B; 0x554C50C1; 0x4316DBA1; 0xF64F00A1; 0x46D487BD; 0x16C98513];
   [0x2C048A1B; 0xECB19761; 0x5373E5E6; 0x997AF398; 0xFDF23B20; 0x50E832D2; 0x7EF7E097; 0x1B358E0F]];
  [[0xACBC759C; 0x7C6728AE; 0xA156A466; 0x187588FB; 0x928F97BD; 0xC2E550ED; 0xAAE1C05A; 0x8B595A3A];
   [0xD77C1125; 0xE36871E1; 0xDBBD882; 0x11E12978; 0x5E77FB7E; 0x3EF8268A; 0x6B33C00C; 0x7BAEA9BA]];
  [[0x5925E5FE; 0x7C851236; 0xD8E1597B; 0xCED70AE5; 0x6DCD112F; 0x7A28BE1A; 0x3B8EAF6F; 0x1EB19268];
   [0x8AA902B9; 0x7E6F1CF2; 0xA5A761D9; 0x3DD9D59C; 0x48D9F52E; 0x8EF70BB4; 0xCDEE9658; 0x96629C1A]];
  [[0xB367C5B3; 0xCA215EAC; 0xA796338A; 0x36B22774; 0x26EBCDFE; 0x71F9A61A; 0x35119BD3; 0x1B40580A];
   [0x431C78BD; 0x77169EF1; 0x337022D5; 0x8197975E; 0x1D9A4742; 0x45112799; 0x19B6DB07; 0x382750D6]];
  [[0x9786AE0B; 0x740405EE; 0x3ABA0481; 0xF7F37C0F; 0x51892307; 0x904FC60C; 0xE891D639; 0x8405DF2A];
   [0xD9B432F8; 0x53D19AC5; 0x66CD97C; 0xE8F1730F; 0xE95804B; 0xC8740FEF; 0xEC242811; 0x12EE433C]];
  [[0x6153F4D4; 0x6AF4B9B1; 0xF84F0145; 0x9CD8CD0C; 0xDCEB0F06; 0x6CABD4FC; 0xD134DCE; 0x36BF146];
   [0x7EFFACAB; 0xCDEB1818; 0x52C987E7; 0xB57A4162; 0xC647E82F; 0xDD5104EB; 0xF51B5270; 0x389AA556]];
  [[0x60108876; 0xC450CAEA; 0xF48601A1; 0xF36B5B6A; 0x9128863; 0x257950D1; 0xA9F6A1B9; 0x7A592427];
   [0xED12DE33; 0xBF1FF2B0; 0xE2141101; 0x4D542AC8; 0xE170F9CF; 0x998523C4; 0xFCEC0E2F; 0x629385CE]];
  [[0xB2677C49; 0x951494ED; 0xF9B648E8; 0xF1AE7138; 0x63CFF359; 0x28B8749E; 0x9A73272F; 0x5AC4EC4C];
   [0x21723271; 0xC25ABB87; 0x8B441AFD; 0x488EC910; 0x1B1DF775; 0x7518348; 0xF1EB2FB4; 0x4662BBDA]];
  [[0x6DF9F64A; 0xAE836F74; 0xA185ABE6; 0xF3CD6C9D; 0xC29A1C1A; 0xAFA897A8; 0x11B2D6AC; 0x4BAFBB69];
   [0xB6D971C7; 0x8040F9A3; 0x763EAF; 0x3B8920B7; 0x52E848B7; 0x7A1655DA; 0x703FA84D; 0x3BC8B55]];
  [[0x1F934416; 0xE6348C65; 0xF82BBC4A; 0xDBE59C03; 0xEAD60547; 0x51AEAD09; 0x4F20111E; 0x43A35C3];
   [0xEC574F0A; 0xAA18326; 0xFCADF79D; 0x7E90D70; 0x201CD68B; 0x3979D4CE; 0x2C2734B1; 0x7FBF2C63]];
  [[0x2656AF49; 0x2E451373; 0xA432DE06; 0xCA86207D; 0x12F20637; 0xC5F9262D; 0x26C0C745; 0x7DD9CCDC];
   [0xA785ED89; 0x99276BDC; 0x374CFBE2; 0x34B307A7; 0x1E8EE0C5; 0x916E9B06; 0x88A85C6A; 0x4E8EB3C7]]];
 [[[0x107F1CE0; 0x6F2433EF; 0x46D23AEF; 0x121DE131; 0x20DB44DE; 0x7AC50BE8; 0xF6F41A1C; 0x1E500A2B];
   [0x27B0004C; 0x8E5BAFCC; 0xDB555C04; 0x8538A5ED; 0xCE4ED544; 0xAEC8A7; 0x73B2DA91; 0x7C7301CC]];
  [[0x63284E3A; 0x3E7E1E5C; 0x1422D8EA; 0x14581400; 0x7AAABD1D; 0x5FE151BF; 0x1533B371; 0x6716691F];
   [0x22A8B7DF; 0xA592D53E; 0x51C97935; 0x66991AFF; 0xDE5429B6; 0x8B10603D; 0x551F146B; 0x2F6C6]];
  [[0x777A334C; 0xF641CBCB; 0xEEFBCA44; 0xB45B21E1; 0x32F6E263; 0x7C2FCD65; 0xFEED8901; 0x5A21D80];
   [0x5506CF47; 0x2471B486; 0x7C9E62DE; 0xFFAC1F7; 0x869D3BDC; 0xC4D321DF; 0x9512D0CA; 0x9AC03509]];
  [[0x352E0353; 0x5A26E8F5; 0xBF6ABBAC; 0x965CF602; 0xE911C628; 0xDD8C4818; 0xDC2D04A0; 0x132CA2D8];
   [0x6C865C91; 0x7641CFCE; 0x8E9965EF; 0xDB5AB8F3; 0xDE0B7E90; 0x30030BCD; 0x2320D3F1; 0x7BF44453]];
  [[0xD8A99DAD; 0xC006FA6D; 0xB45E64A1; 0xC042F163; 0x74F4DBB1; 0xB91C9CA4; 0xBE221E4E; 0x23BD5A29];
   [0x3D1ECF78; 0x6B0591D7; 0xAA5B771C; 0x9E0ACF38; 0x796D4AA3; 0xC970F263; 0x7B5DD349; 0x37037502]];
  [[0xFBC52541; 0xE11DECDA; 0xE7FE53A5; 0xA49B8D39; 0x104A1F6E; 0x3A08E9BB; 0xE0192BFB; 0x95444A15];
   [0x1A97B875; 0xEF75B062; 0xEA5FC457; 0x9FC8AE5E; 0x47F73089; 0x3A09FD1B; 0xE24516AB; 0x96750EC]];
  [[0x4A350C95; 0xAA180046; 0x58EA4195; 0xA72F2B67; 0xFD9A4F25; 0xE0647945; 0x22737E2D; 0x4CF4136D];
   [0xEFB2A96D; 0xEE2532CE; 0x6C2F1471; 0xB39DB117; 0x19935BDB; 0xF7C6242B; 0x7A820092; 0x98CA48D4]];
  [[0xC3C938B0; 0xE9C1AD0A; 0xCCDF3BC6; 0xF7CC05C4; 0x363A9CC6; 0x3C21752B; 0x5916BD59; 0x47996B87];
   [0x98D17468; 0x1EF895D; 0x5818F5D8; 0x9182F882; 0xE35E4BE7; 0xCBD212A3; 0x5EA16E55; 0x894E7F39]];
  [[0x7C8FDD7E; 0xAC674AEE; 0xEDB0FE30; 0xA23FA827; 0x745B3230; 0x642BE06F; 0xCB40941C; 0x7654C79B];
   [0xD6A9E988; 0x4640C0C5; 0x11A4EECB; 0xA98AF661; 0x325D730E; 0xE1E827E3; 0x7D8A02DE; 0x2342D880]];
  [[0x715DB87E; 0xE4101595; 0x3C44A43A; 0x462718AB; 0xEFCBC0F7; 0xF414CBC7; 0xE5999AB3; 0x2A64DB21];
   [0x9DA91E84; 0xDAD841E1; 0x5F5C1CDD; 0x5A28F649; 0xB8B41BDA; 0x2F8C9DCA; 0x29C3697; 0x259DC791]];
  [[0x5296BA38; 0xD56F4EF4; 0x2EC3100; 0x4A853BA1; 0xC8AE4C47; 0xB0ED5F21; 0x61DF268E; 0x53D0DA0C];
   [0x6DC06EB6; 0xB6771DCB; 0xBB0C457F; 0x30B07595; 0xF174690D; 0xC2FD08F3; 0x87A5DC8E; 0x77000D6A]];
  [[0x6E1369AD; 0x90DDAA61; 0xB6A5F225; 0x3DD15EE7; 0x27AEB0DC; 0x51AA9C4; 0xE5372729; 0x18712DBB];
   [0xA23AFF5A; 0x13B3F9DF; 0x703FBFF9; 0x34388CED; 0x17D60129; 0xF390D67; 0x4DAE9863; 0x3F0CA25E]];
  [[0x903385DC; 0x6E0F5594; 0xF8A815A9; 0x47483889; 0x23B70B1C; 0x42AF320C; 0x1A1AEA03; 0x4A27CA27];
   [0x66AF6F9D; 0xFAAC21C8; 0xC9FBFD3E; 0x20849D90; 0xEE0A541C; 0x793F889F; 0xADA5D18F; 0x2555FC32]];
  [[0xBA2BD509; 0x3F38F58C; 0x48F864B; 0x319A5F0D; 0xD5900B1E; 0xC4632F37; 0xF8519441; 0x3FAF2615];
   [0xFE194D77; 0x6A4AA25D; 0xD681409B; 0xB5A6464A; 0xB957523A; 0x1A9326ED; 0x27098B5B; 0x7690EA4F]];
  [[0x10F3FDE3; 0x5530E911; 0x810E7853; 0x9A40101F; 0x8F011C4E; 0x152704FC; 0x129B455F; 0x5B1702E4];
   [0xE60F4D30; 0x46A130BA; 0x62BBE8B5; 0xA3D57414; 0x3CFAEFE3; 0xA26238DA; 0x3175078E; 0x4E614113]];
  [[0x992EE109; 0x27BCCDFF; 0xFB45C6C3; 0x79F88647; 0xC73F2829; 0x7FD5D73A; 0x65A44CF1; 0x7EBE8E4E];
   [0x37414B2C; 0xB9EC0B94; 0x36DED49D; 0x846AD1D1; 0x62F2FE87; 0x72AE1060; 0xC032EEDD; 0x7F5AF329]]];
 [[[0xC7A645A5; 0x6C80B058; 0x729066AC; 0xF86341D2; 0x33FB5CE8; 0xE4F366BD; 0xC23A4751; 0x6B79D63F];
   [0xEC3F8686; 0xFAA0F994; 0xA9BA8F5E; 0x156A6E8E; 0x9F2FAE57; 0xA46CA7D5; 0x6EFE66F2; 0x84CB2196]];
  [[0xED25185C; 0xF9C1DECB; 0xB1FCFC82; 0x6DC43F21; 0xA954087B; 0x4A840262; 0xA38F667; 0x60230809];
   [0x1D9672B5; 0xBD345006; 0xF83361EF; 0xE0FF804B; 0xEF8E1598; 0x9DDC6CE1; 0xFBD9BD0E; 0x4419F705]];
  [[0x3426122A; 0xF171EDE4; 0x20A3963E; 0xEF6A1AE2; 0x31647D0; 0xD25AB7A2; 0xCB4CA4E3; 0xFD7EC20];
   [0xB7D3A295; 0xC103969C; 0x34DBABA8; 0x4957509E; 0x60BC0760; 0x8456DF63; 0xD63B49A9; 0x2AF2033]];
  [[0x378E444; 0x271966A0; 0x5D15A0B7; 0x673F057D; 0xA0EFE59E; 0xA55C44F9; 0x376119A6; 0x2F602F87];
   [0x28981502; 0xA149074; 0x8741D4F2; 0xDA006774; 0x133F8479; 0x8F982C81; 0xF944319A; 0x1ECAF17A]];
  [[0xA37F4FC2; 0x281A234E; 0xFD34FC11; 0xAFD847B2; 0x4683E11A; 0x2CC0839; 0x3F65B844; 0x71215DA9];
   [0xEFE32AC9; 0xF9F41383; 0x1361FE53; 0x4AC3D91D; 0x1CC2E948; 0x3C9FBAB; 0x43379A4F; 0x9A9A4B91]];
  [[0x51BED5AC; 0x8D37A108; 0x998E1C19; 0x75D91890; 0x5D244730; 0xE6C76B09; 0x4CD555FF; 0x12714716];
   [0x29DDC669; 0xF2DCE85A; 0x8D622348; 0x8914D13A; 0xDAE035E8; 0x9FE6B578; 0xF41EEF19; 0x21ECB251]];
  [[0x7999064D; 0xEAFF3862; 0x96383204; 0xB72BABEF; 0x6BCCCB43; 0x8E6C9E67; 0x7FD71298; 0x320A7D78];
   [0xB438A302; 0x4081E38A; 0x120E132D; 0xA15CBA7; 0xEC2E0939; 0x6D9123E1; 0xE0D6FEC5; 0x692D699C]];
  [[0xC8D5D361; 0xB639ADAE; 0xC60A078D; 0xA8F742CC; 0x9D740F0F; 0xE8D2CF92; 0x4DCE6A87; 0x6E8EEEF9];
   [0x6A2E5164; 0x54E19488; 0x2430E4B9; 0x4372C6CF; 0x1C5B13B3; 0xD58EA91B; 0xBB9F2911; 0x796DCC45]];
  [[0xCBB267F9; 0xD8D4FAF0; 0x703F4011; 0xC2770DBE; 0xD651402; 0x13739F02; 0x72D2B3F1; 0x7DE4E51E];
   [0x1FE00C7E; 0xB10F966E; 0x8F42B5F8; 0x5E9A1501; 0xD00437A3; 0x6AFB1AD0; 0x1473D5AE; 0x267D1536]];
  [[0x4CAE118F; 0x1173B5DB; 0xCA749EE6; 0xC3A2EAFD; 0x4ED4FFF4; 0x64F738E6; 0xB07860B6; 0x47DDECB6];
   [0xBD47A901; 0xF5D627FC; 0x856C6903; 0x6493BC28; 0xEA63B675; 0x90280E4B; 0xC4148666; 0x211C04A2]];
  [[0x6524BC38; 0xA5F0C27; 0xBB3CBDB9; 0x4B9D95FB; 0x20507C82; 0x5394ADC2; 0xB4DBE448; 0x4C0C9167];
   [0x303A5B11; 0xAC3E87CE; 0x3251F4DF; 0xD31FB9C5; 0xE43CE799; 0x86C281DF; 0x29FE09E4; 0x84E644D7]];
  [[0x43166C20; 0x6D7B61DC; 0xBD34F981; 0x54D6C035; 0xC991096D; 0xB166769D; 0x3A4CF05C; 0x51A47E3A];
   [0x14F5E7F1; 0x57CF9EFF; 0xE39FDA0D; 0xED3D4E9D; 0xBAA7E93B; 0xDF0176EC; 0x70935B9F; 0x6B2FEA14]];
  [[0x709B70AE; 0x19F9D59E; 0x70472149; 0xD850CA32; 0x29EE6104; 0x292CADD9; 0x8FD499F2; 0x870F7C99];
   [0x415C6FFD; 0x200ECB1C; 0x35CB841B; 0xEEA6107D; 0xF95DD333; 0x1CB06F8A; 0xE498AA7B; 0x245712FD]];
  [[0xED4FBD78; 0x101665EA; 0xE32D1B4; 0xC6DDE1BB; 0x40150A9C; 0x3E79185E; 0x7DEF3607; 0x49E2AE6B];
   [0x308B7F59; 0xCCC9B0F6; 0xCE922087; 0xB267008F; 0xCF2AABA6; 0x46CF7F07; 0x9954091F; 0x5A74C8A0]];
  [[0x5240B5A0; 0x8F287195; 0x1845373D; 0x7AC7720F; 0x4E592274; 0xCF276B59; 0x694C30B8; 0x6BEBC284];
   [0x677B16CD; 0xDA0113D6; 0x45C9FA76; 0xA2213446; 0x66964ADB; 0x2DEAF2ED; 0xBC062240; 0x1977A8B3]];
  [[0x80303DFD; 0xEEA29126; 0xE95BF6A1; 0x3E4A33AC; 0x15DE0457; 0x6BFE2D5D; 0xAD0976D1; 0x407BF7E3];
   [0x306B415B; 0x4C1F61F; 0x5F790D5F; 0xC86A75D2; 0xB7EAE07B; 0x7B799EDE; 0xB4A66839; 0x9155A9A0]]];
 [[[0xDCE586B; 0x9745C6BB; 0xBE77B502; 0x554C8313; 0xA93962CF; 0xF0F842A9; 0xAAA141BC; 0x40862273];
   [0xBD62237B; 0x926FFA4A; 0x7B942F48; 0xD4F1E4A1; 0x75684FD; 0x3A841EB7; 0xDD1807E1; 0x21F6EB39]];
  [[0xBEDA4365; 0x155DFD66; 0x27F33BF9; 0xDD575C83; 0x3DFF83A1; 0x5907B08D; 0xD6788D63; 0x7E325357];
   [0xBAC74ED7; 0xF90BF447; 0xEDA226CD; 0x2DE6C957; 0x1CA44607; 0x67832302; 0x56011C38; 0x22ECBC1F]];
  [[0xB663A46C; 0xF01279A9; 0x7E3AAB83; 0x7D74C5F; 0x8C0DA43E; 0xF20940B6; 0x368AD991; 0x57C6A735];
   [0x5007E059; 0x1E9B366; 0x9614D480; 0xFC38FC99; 0xFF7DA757; 0x4A3AAA18; 0xB0CE1B03; 0x4481B669]];
  [[0xB4A807FF; 0x9CAA37A0; 0xF9B269F3; 0xBDEDEB49; 0xCB607AC3; 0xC5B76E57; 0x9A322F48; 0x8AEFE66];
   [0xD9261469; 0x6919E40D; 0x849718FA; 0x1F0ADA81; 0x9D81628E; 0xCD251B54; 0x5505F9E1; 0x6519C3C6]];
  [[0x2F81C037; 0x277591DC; 0x76E0D41E; 0xD63AD35A; 0x6EC063D3; 0x682662B5; 0x6762A0DB; 0x8210978B];
   [0xFE164B90; 0x5085F68; 0x3D6FD0D1; 0x50026ADC; 0xB01A3791; 0x38CC9FA7; 0xB376F83E; 0x1E286652]];
  [[0x9759892; 0x8DFFDA16; 0x9AC2CE5D; 0xE011DDDB; 0xBD71426B; 0xDDC7670F; 0x19742F7C; 0x9722A23B];
   [0xDC4767D3; 0x2EA99893; 0x11125BAE; 0xCB68D6C2; 0x307ED3B9; 0xAC76953E; 0xC366E9A2; 0xEDD0C17]];
  [[0x484B5272; 0x88B3DEC9; 0x90380294; 0xC848EA1; 0xA01AC92C; 0xDE187E83; 0x7A5D4D65; 0x2A880182];
   [0xB3C3C7BB; 0xD3C22C2B; 0xDE7ECE33; 0xC485CE02; 0xA437071A; 0xF22138C4; 0x716DA53; 0x23A55C89]];
  [[0xF6FE058E; 0x9533C4A3; 0x748E4A4F; 0x28753F87; 0xEA404C70; 0x7814C50A; 0xE91B5EF3; 0x908D1C81];
   [0x4094766; 0xD827D3CE; 0xCE5C727; 0x7AE2FD26; 0xCDAD2BDD; 0x16AC86F; 0x7A77C252; 0x37C088B0]];
  [[0x18A35CD3; 0xABF4C1EF; 0x698A5A01; 0x1F721491; 0x1A9E9A1F; 0x79284A12; 0x4D50DF40; 0x457FF70];
   [0xEC46ED07; 0x1D235814; 0xAE5E97C8; 0xBD013752; 0xD9B100D4; 0xE085C88; 0x8858F9F3; 0x8AFA070A]];
  [[0x698D6A59; 0xF548BE3; 0xBF2D0D94; 0x5D7818A5; 0xD80E620D; 0x8E150DF1; 0xF857F167; 0x4C3A5E64];
   [0x61BD9152; 0x837D9A98; 0x8D10687F; 0x242CE589; 0xB6B52BB7; 0x9863EA4C; 0xB7DD35FF; 0x23665B46]];
  [[0x73942AAF; 0x3AA5432A; 0xCEE83A9; 0xB0185DB4; 0xA83B907B; 0x145372EE; 0xBB6D341A; 0x609F1AD9];
   [0x864C92EE; 0x28C2B37A; 0xD4CC1158; 0xDD847239; 0x8F2EAF0A; 0xE5BD4FD2; 0xD24950AB; 0x4F43BC0]];
  [[0x88DA3F20; 0x11DEFCED; 0xA407C4A2; 0xCA4CE370; 0x2F8C5CFC; 0xEA70BEDF; 0x8214B7F7; 0x8AC147D];
   [0xE260AA96; 0xECAD0F77; 0xB56C30F7; 0xA868AC63; 0x396F4815; 0xF0ACDE5A; 0xACDE6CD8; 0x302F75B9]];
  [[0xC5D14866; 0x2125D07D; 0x4AE3212D; 0xFE563DE4; 0xEE9CAA2B; 0xFE787CB; 0x53802482; 0x7D9B56A2];
   [0x8040D1A7; 0x128B4D37; 0x30ACA2F4; 0x57371299; 0x7623D14A; 0x5C443E35; 0x5FDB6310; 0x6436D328]];
  [[0xA8557B64; 0x531486A4; 0x9C5DE310; 0x3FAB4F21; 0x260468D0; 0xD872282E; 0x2542CBA4; 0x4CD4568];
   [0x555B6E0C; 0xACA0975A; 0x8B85132F; 0xEE8C43B2; 0xB9DECE9D; 0xC768808B; 0x431AF98C; 0x59EDEC60]];
  [[0x31992E22; 0xC365E133; 0xDC3A4C8; 0xB96C5FA0; 0xA65761B0; 0xDEB1C1DA; 0xF4ACAB4C; 0x457676EE];
   [0xE674FFAF; 0xA0F95894; 0xD65CDAB7; 0xFD099172; 0x54DA58A2; 0x9383C2F8; 0xF24A07B; 0xA4F4C11]];
  [[0xE380ABF3; 0x9D7A80B3; 0x9E469F9F; 0xF0C6AC5A; 0x6BD0A324; 0xC87D5727; 0x7692B063; 0x28138E37];
   [0xD67862CA; 0xE18C1F7D; 0x1E07F928; 0x4B6B723E; 0xBBCF4125; 0xAAFE3FB0; 0x3B3AE714; 0x25400322]]];
 [[[0x63C295D8; 0xB89A2DCA; 0x85041AA1; 0x5CC03C65; 0xC6514781; 0xFA9B4C5C; 0xD92388FF; 0x578031A0];
   [0xF92C2D77; 0xB0D5AE0A; 0x793D588A; 0x945A677E; 0x34A190E0; 0x3722DE44; 0xC2B9975; 0x6EA90DB8]];
  [[0x84BA4F9B; 0xE987AA85; 0xAB43BE6; 0xB2A77B9C; 0x474D8841; 0xC4AD2AF6; 0x5D4FA590; 0x4ED7A82B];
   [0x9977AC2B; 0x9F39335E; 0x52E87607; 0x3CCD406D; 0x71456060; 0x9D18CB3F; 0x6A45D7D0; 0xFE4D888]];
  [[0xF42D501A; 0xAEA8A911; 0x88F66FBA; 0x303E25D5; 0x61740B85; 0x54213F29; 0xC0B4D835; 0x5BC13A30];
   [0x4758EA28; 0x569AB9B8; 0xB796A794; 0xE2E49B28; 0x320D54E2; 0x17787125; 0xC54B4465; 0x5A6A8EDE]];
  [[0x870619DD; 0xC76C73D9; 0x84FE1078; 0xF541440E; 0x3B26A3DC; 0x2082FE36; 0xCC329B14; 0x3B896B29];
   [0xCAFCDC20; 0xB45028A9; 0x9C56757E; 0xA1B77C6F; 0x84802E47; 0xDE50D865; 0xBA0892B0; 0x7DFBC0E8]];
  [[0x47E702BB; 0xEBC505A9; 0xDACFACFE; 0x2329A41C; 0x51DDCE2F; 0xEA115603; 0x2E9D855A; 0x95BBC807];
   [0xCFD33E9F; 0x454C6B88; 0x4FFBB24A; 0x993CF6DE; 0x9B2144CD; 0xA8E22FF8; 0x84943294; 0x741066EE]];
  [[0xF067E5B2; 0x2CEE0CFF; 0xCA95F1C5; 0x1C1FD5A3; 0xC07B97F1; 0xA0EB8E7D; 0x7457415E; 0xF2A5D77];
   [0x45D06291; 0xDFF92C58; 0x48ABABE8; 0x709EA0AC; 0x2FDC92F0; 0xB3058FEB; 0x5E5B169E; 0x55E9F86E]];
  [[0xEBF6AF2B; 0xEE5DF132; 0xF642A206; 0xC30DC3F1; 0x2C60CB6; 0xD7D8EC3E; 0x3178F1BF; 0x7C98946B];
   [0xA68799EB; 0x816C2AA1; 0x2430F06B; 0x507FD5E9; 0xB9EBD4B7; 0x21FFF1C; 0x8AECFEA4; 0x44365E6]];
  [[0x21339693; 0xDC5F5EA6; 0x90A448AD; 0x5BFD2676; 0xA12A9D77; 0xF712BA95; 0xBD8A6B5B; 0x7104735A];
   [0xA763BB99; 0xD2ED8304; 0x11B91A05; 0x7AF040F0; 0xB61F3789; 0xC545E8AE; 0xBB386760; 0x582E9EED]];
  [[0xCC099185; 0xFCE5877; 0xCD681E67; 0xE148BB5; 0xECB24ECE; 0xE9F9013E; 0x2A386485; 0x90654B];
   [0x520BAE8; 0x11BA700B; 0xD8E53123; 0xFC93BE31; 0xE37948EE; 0x7DD7CB36; 0x3FC23444; 0x8689AE8F]];
  [[0xAAC6616B; 0x2060F7DE; 0xDEAB3CC7; 0x372952C5; 0xC2424ACD; 0x715C4D27; 0x308A009; 0x5846856];
   [0xB8B34E8; 0x887BBD55; 0xB688C987; 0x949ACBD1; 0x784C4C0E; 0x3E774D49; 0xB0F5F545; 0x7AEA2D11]];
  [[0xE831E509; 0x5335BA6B; 0x739F332E; 0x8FC4B4AF; 0x95993EAF; 0xB0502462; 0xA7CEB88B; 0x7DA49F36];
   [0x29D0C8F; 0x3BE0B74B; 0x55611A8B; 0xBC07F180; 0x6583F53F; 0xC168CF41; 0xC34ADBC1; 0x4256E8D2]];
  [[0xCE2FCD89; 0x313AFC75; 0xD3DA44F2; 0xEA27FDA4; 0x9063B0DC; 0x9FABEA79; 0xB3418884; 0x2DF7D966];
   [0x80AF2EBD; 0x4329FD24; 0x9F095D30; 0x36F27FF7; 0xCC84C068; 0x88FFB18F; 0x7B0A9906; 0x976427A8]];
  [[0xFAC21087; 0xCFF828CC; 0x56863CB5; 0x6B6D3484; 0xC30879F3; 0x14163A70; 0x8CA6FD5D; 0x30E2A633];
   [0x28A58783; 0xC7FCEAD6; 0xEEFA1EAA; 0x945F7B09; 0x5CC66267; 0x98A503DB; 0x3780061B; 0x83EE750E]];
  [[0xB8477D6B; 0x7061409A; 0x2B7B54FA; 0xE47C779D; 0xF293166C; 0x42F5EDF5; 0x115D830F; 0x73C3AC1B];
   [0x4DEE0980; 0xC30D346E; 0xA62F0D09; 0xEE0D9A29; 0xABCB7DAE; 0xBBE8DC9E; 0x68B78925; 0x4F0E78C0]];
  [[0xB4B14003; 0x25A0D4FF; 0xB8AB649C; 0xA4C3AC55; 0x27F9FDF5; 0x7D7EDE72; 0xBC2A46D4; 0x507EC83F];
   [0xFAAFC26F; 0x344577D9; 0x3EB30156; 0x77CBB783; 0x1D5C9367; 0x3A846FFD; 0x9DF9F7BE; 0x5F0D280C]];
  [[0x77DF7F9F; 0xCC8EAC0A; 0xF33A62D4; 0x195BC6FF; 0x524D78FE; 0x18A33FFA; 0x6603F9C0; 0x10E58974];
   [0xCDA2C3F; 0x31AF4B46; 0xADE169C3; 0xDDBF00C8; 0x71A7BC38; 0xA169C3E3; 0xA64B342E; 0x3FC352FF]]];
 [[[0xEE73C673; 0x58848315; 0x8ADB897E; 0x67D2F7C0; 0xF0658115; 0xE8CD786D; 0xAC54D2AB; 0x23D515A];
   [0x67559911; 0xEDE61D8; 0x3C2B78B5; 0xBC12B106; 0x9E4707D8; 0xB5661A28; 0xADC095A4; 0x93FB4096]];
  [[0x33D5FA08; 0xEEB3810F; 0x33F4CAAF; 0x8D8FC354; 0x29EB08A3; 0xED870516; 0xD1D31EBC; 0x89FD91CA];
   [0xEDE2494B; 0xD2F1F832; 0xFA8EEA95; 0xCFEE1D77; 0x3B0F005C; 0x13603C4A; 0xD9EF68F4; 0x6DF97F85]];
  [[0x55410512; 0x578FBC0A; 0xDEC79EEE; 0x1FA404F2; 0x92B60820; 0x201FE215; 0xA56193A; 0x9A9B3CE8];
   [0x10B49800; 0x8A5ECCB9; 0xBFDB1D8E; 0xA7373AEB; 0x4944B5DF; 0x8996BEFA; 0x7B44246C; 0x3102D3C0]];
  [[0x449C09BE; 0xD4A853B7; 0x51DDB7FE; 0x1F7080A4; 0xE1C27FC1; 0x8A9DE52C; 0xC58B99D; 0x6585B54F];
   [0xB5A4AB53; 0x8EEB0601; 0x48C73AC6; 0x977D658D; 0x3D9BD223; 0xD5DA0903; 0xBE115965; 0x881A5838]];
  [[0xEB3FC303; 0x8EB70B77; 0x98BDB841; 0xED1C4DEF; 0x997DE9E4; 0x13E6BE06; 0x9334D46D; 0x4A94C0A1];
   [0xF867DAF; 0x184C17C8; 0x33A64148; 0x4A658026; 0xAE3D4AA; 0xD177F009; 0x98ED12C0; 0x8134AC8F]];
  [[0x7A58DDEC; 0x7A308A00; 0xFDF92DF2; 0x74A15C5F; 0x21B4E345; 0x210D260E; 0xC651E31E; 0x6446715B];
   [0x10B905B6; 0xB1AF1F84; 0xA62D366F; 0xEF6CD0F2; 0xD1F6B7E3; 0x77E47B01; 0x2B95BD12; 0xF38B280]];
  [[0x8CCCDAE6; 0x52DA30E1; 0xBD86A13A; 0x9F3D6636; 0xF4EA6151; 0xADFA00C5; 0x1EC37639; 0x6B93BFA0];
   [0xF8FE22FC; 0x443F0023; 0xA81FEACC; 0xCB7848A4; 0x517E9E61; 0xCE5E650A; 0xA1968E3D; 0x5842DB7D]];
  [[0x98C06F78; 0x61DDC694; 0x7985B1A2; 0x680FEDE9; 0xFB53A327; 0x214CD2B8; 0xE425132B; 0x98EAC0B3];
   [0x33E5766D; 0x5EEDD76D; 0x540000A3; 0x5B280618; 0x65C894AE; 0x915D55CB; 0xD20D9523; 0x7B088A36]];
  [[0xC28DA278; 0x51A47312; 0xEFE64521; 0xE315CBA4; 0x49D8D0FF; 0x3EF70A18; 0xCABD48C5; 0x990CB92];
   [0xA7C2FC76; 0x22ED6302; 0x2CB98186; 0xB50370EA; 0xF3F2BA8B; 0xDEA88C65; 0x9FEDEEA; 0x9062451]];
  [[0xDAC0F222; 0x742F9A2E; 0x95C88A8E; 0xE2A8842B; 0x9D817B14; 0x80C05765; 0x982D49AE; 0x7ED0521A];
   [0x907B10F7; 0x47E49D4; 0xDE8AD4CD; 0x8A3E23A7; 0xEB5292B1; 0xEBE8C13F; 0xA7EB70BD; 0x48A6209]];
  [[0x9AA34851; 0xB51665A0; 0x7C4AFCEE; 0x4DD5AC1B; 0x25A21937; 0xDEE7AB; 0x80FAF232; 0x88E2681E];
   [0xB5411EE2; 0x79ECD66A; 0xF370BF53; 0x6008CE3; 0xC9BBB64C; 0xCFB1850E; 0x7149B14E; 0x5FBACB27]];
  [[0x9938AA0C; 0xA1F0EE07; 0x74CCE9C4; 0x6945E2BA; 0x46A98BEA; 0x16689FCE; 0xCF67DF91; 0x8D71F405];
   [0x69621150; 0x71E4CAC8; 0x89B380D8; 0x518FA200; 0x53F9E660; 0x3B3B85F1; 0xC6D9B022; 0x2643303]];
  [[0x7660C3E; 0xE8C478EC; 0xEF41F1DA; 0xA906C3A1; 0x46699B71; 0xE918F160; 0xE5BE7B36; 0x2B8A0B0E];
   [0x889F50A0; 0xC663F0EC; 0xF9214F81; 0x7413264B; 0x421A9087; 0x2E9FA9A0; 0x83546DCD; 0x85C59B7C]];
  [[0x8D920A29; 0xB4A6CF39; 0x1B3956A1; 0xC857AF48; 0xDD794B23; 0x519C7371; 0x8EFBF8F9; 0x47846220];
   [0x617E4C6C; 0x184C25E5; 0xD2E51A5E; 0x218FCC23; 0x28FA0FFC; 0xB4219719; 0x781A61D9; 0x6C0BCD71]];
  [[0xDC7B5568; 0x440D6DDF; 0xDBBEC7C; 0x64C7CC31; 0xA2DC0CBA; 0x63D16D4E; 0x4504BE2C; 0x7BD9E0CC];
   [0x2DE780A8; 0x9C882895; 0xEF2B2486; 0x7C6685C2; 0x957FA7D8; 0xF1FB09E9; 0x46A77A98; 0x20C6B5A5]];
  [[0x33C0F0C1; 0x60C77573; 0xCADDA5FE; 0x40C93227; 0x9DD41D5F; 0xA48EBAA2; 0xEA9FD5AD; 0x4AAFBF3C];
   [0xC5A287BA; 0x7EB61836; 0xB31BA25E; 0x1D6A1BA2; 0xAD186E52; 0x60507257; 0x2BAB7451; 0x7FEC8EB0]]];
 [[[0xB8DA5FFE; 0x500E2FDB; 0x8CDD1B39; 0x6AE2D4EA; 0x1A5840CD; 0x38D12025; 0xC214D26D; 0x8D3B20CB];
   [0xC041E874; 0xEF6BB36C; 0x450F2218; 0x67660393; 0xA892BDFD; 0x1E1B7782; 0x8D962E62; 0x2D69514C]];
  [[0x9631B095; 0x9EDF5F78; 0x45BF8F20; 0xAC7DD687; 0xE3262EBC; 0x257CCE28; 0xE0E480A6; 0x5D32EFCB];
   [0x6FBB99E8; 0xED48E34C; 0x23FDE9B7; 0x50B1D58C; 0x6B6927C8; 0xC5164C2A; 0x8906B705; 0x8A0BC606]];
  [[0x2F747DA8; 0x3FA3C7C9; 0x14938E08; 0x2E8D2C2E; 0xB6A1C720; 0x155A8A5B; 0xB3133FD0; 0x6B4D8C9E];
   [0xCE131C1D; 0x79AC7F1; 0x815B7D2B; 0x9CF419AF; 0xE60B6245; 0x569EB7BA; 0x9A3DD94E; 0x3C79E60]];
  [[0xB9CE9502; 0x328F5296; 0xE45C3576; 0xCA44ADBD; 0x6194AE2C; 0x66987952; 0xBF9B8C49; 0x5875F8EF];
   [0xDA51CAB8; 0x525A4D53; 0x9DC268B2; 0x91A592DD; 0xE1E3C168; 0xD7EA7958; 0xA999ED30; 0xD1E20E0]];
  [[0xFE8AD270; 0x55DA34E5; 0x61EC55F6; 0xB0412895; 0x534569C9; 0xD45670F; 0xE23F69FB; 0x5A7E6764];
   [0xA8B28676; 0xBB6BBEC9; 0x93B0D1D; 0x4F924558; 0xC29D841; 0xD4E4BF12; 0x578A237A; 0x67D2B4C8]];
  [[0x63EF2D73; 0xBDF32D6; 0x4AE4303C; 0x7248DD2D; 0x6CE1E92A; 0xBB61BAB5; 0x1D7B9A6C; 0x126166E9];
   [0x11CEBC3C; 0x4CE7086A; 0x1C71426F; 0xE7ACB25E; 0x432CC4AF; 0xBFB65EDC; 0xCB018CF7; 0x3BCA5202]];
  [[0x76430A87; 0xACF034F2; 0x534C42ED; 0xBFDF19B3; 0x7946CB1A; 0x5654FE6; 0x80F17880; 0xDB07E79];
   [0xFDCF8BC9; 0xE6E93101; 0xF798A8CD; 0xF3198B87; 0xC9683420; 0xC05444EF; 0x915D1BF1; 0x56E9AA68]];
  [[0x34000B11; 0xF27B298B; 0xF4196E50; 0x70ED8C95; 0x233C8764; 0xF3E16608; 0x41881557; 0x5B97655A];
   [0x128C195B; 0x5BF11C1A; 0x372C286D; 0xFFB64333; 0x7C83BB31; 0x84D3EF7; 0x745B7D75; 0x8ECF6C01]];
  [[0xC6F4FF82; 0x3D6052B9; 0x6607892F; 0x9305FE45; 0x5879425F; 0x232FD87E; 0xD6F47350; 0x4CAEDF73];
   [0x32FC50D; 0x889243D2; 0xC9C11AC; 0xA6AF69D7; 0x802E8E06; 0x43B5429D; 0xD70FC802; 0x38F1DEA8]];
  [[0xC9595C08; 0x54F24344; 0x240AAB3; 0x95A2E8FB; 0xC3544985; 0x7A5109D; 0xB5D30899; 0x96F44213];
   [0xAA347497; 0x3FAB192; 0xC9CFC073; 0x47FFD3DE; 0xD2C1D57F; 0x283AD765; 0x62DC271A; 0x1FDFFBAC]];
  [[0x95F80CA6; 0x2355C629; 0xCD8D880A; 0x90AE1DBB; 0xC54117E0; 0x563CC122; 0x813D7481; 0x1EF4991B];
   [0xCCE9AEDE; 0x8A310D77; 0x9318642E; 0xA401FAEF; 0xCF9AFDCB; 0xC1712A67; 0xBE499DE5; 0x8D97374C]];
  [[0x55A0BC07; 0x7437AA3B; 0xF726DD81; 0x4946D0; 0xF341860; 0x33D41D1B; 0x17840F0D; 0x2A009EB5];
   [0xAA0DCDCF; 0x158F59AE; 0xEAB42135; 0xF686EF2D; 0x7A80C670; 0xFF6B8E82; 0xA04DF944; 0x38646963]];
  [[0x4B987E90; 0x6BB2705E; 0xD3C36316; 0x2F5E2C4D; 0xE5A9ECEC; 0x41B38905; 0x55BF8D1A; 0x2C6BA681];
   [0x3C92B20B; 0x1121B3B2; 0x904305D5; 0x6DE41B12; 0xD569EAC4; 0xA0496CF4; 0x11E5CF90; 0x5C64A06C]];
  [[0xE28783DF; 0xA65F12AB; 0x37322285; 0x2A891B0F; 0x9811C4EB; 0xD6FF4604; 0xA8505AC0; 0x7C960ED5];
   [0x2FCA110D; 0xE8689377; 0x60FD893E; 0x71AAE292; 0x7505671D; 0x8ADE5317; 0x8C508791; 0x721A07A5]];
  [[0xE5ECCA8C; 0xC1AE9A50; 0x7EB4329; 0x7528AEF5; 0xD1297D88; 0x8F0D0E03; 0x244BBC0C; 0x27C7BF76];
   [0xC7E7E9BB; 0x96EEDA7C; 0xF96C99B3; 0xC9749BF7; 0x467B4D43; 0x44C852D2; 0x937FA21D; 0x1691D71D]];
  [[0xF8058A68; 0x8CAC092F; 0xDAE38445; 0x6B892BCF; 0x97D76059; 0x82CBECE5; 0x3518F9E2; 0x5AEB6646];
   [0x392080B4; 0xA39C710C; 0x1502DE54; 0x575DC5F4; 0x3A3D2B4D; 0xA465DD5E; 0x638EAF45; 0x281AAE47]]];
 [[[0xE955A145; 0xBE40C92B; 0x324234B5; 0xD464D6BC; 0xB09D4AF8; 0xE8084747; 0x5268D6C3; 0x939C70BF];
   [0xD1DDBB48; 0x9C9C9D25; 0x790B5B42; 0x30D9EA7F; 0x4E3914B4; 0x367FD79B; 0x826EE4D7; 0x27615F29]];
  [[0x50A41246; 0x9BB6F16; 0xE5459A13; 0xC72BFF7A; 0xFF09B2F7; 0xFC15846; 0x9CB693A; 0x6D904062];
   [0xF40FC67D; 0x98A132F8; 0xDF37CBFA; 0xC8B6573B; 0x99D7FC36; 0xC9CF9948; 0xA7235DDB; 0xDD66ABA]];
  [[0xF96048BD; 0x180B525; 0x544F1E70; 0xEB566786; 0x8EF4373C; 0x8BABBF9B; 0xD9E49178; 0x509BA431];
   [0x65A4A201; 0xF961A6F5; 0x8D44ED2D; 0xB6621DF9; 0xD7B4D744; 0xEADD3C0C; 0xEAAB110; 0x75D27E99]];
  [[0x85DF5695; 0xEAC7AC76; 0xDA7540A3; 0x2C26274; 0xC659B610; 0xDEC1BBC4; 0x3AC61EEB; 0x54483C1B];
   [0x217E0283; 0x8B91209A; 0x3A17DDFE; 0x939FBDAF; 0x5BF98726; 0xA82C66D6; 0x915AAC76; 0x2BA82FA0]];
  [[0xAF4542E8; 0x99B324C1; 0xC0F225E0; 0x16EBC66F; 0x27FEF57B; 0xEAE69563; 0x961B03FA; 0x2996FE3C];
   [0x4F967A68; 0x835212E; 0xF44352DC; 0xAAABD99; 0x4B3A6B8D; 0x1874255F; 0x6D10B369; 0x45F5D8B2]];
  [[0xF7B7644B; 0x603DD497; 0x2D1386AA; 0x369BE676; 0x14C9FA94; 0x8C1B763; 0x384AF696; 0x734921D9];
   [0xD76E8EEB; 0xA1B5AF5B; 0x42F990E8; 0xB0EAE7A3; 0x69ED81D; 0x59E7C515; 0xB5A50610; 0x2D1B5E62]];
  [[0x85995BD3; 0xDC322810; 0x873E7A09; 0x35A47B05; 0xA70DE932; 0xCDFE9BB; 0xD62FBC89; 0x49B899D];
   [0x652291DB; 0xF6BAA860; 0x9AF7478F; 0x58123B25; 0x47B9F204; 0xA05CCBC2; 0x82D999A7; 0x8A0B479D]];
  [[0x2D0F619A; 0xA72B9B52; 0x5919C420; 0xE73B66F7; 0xD21CFEFE; 0x92319C86; 0xF1635F0E; 0x58EEFC71];
   [0xDA909290; 0xDC481783; 0x66316584; 0x144E7A98; 0x45E1E3C8; 0xBD7E657F; 0xBD93938C; 0x5C9FCD1C]];
  [[0x436C1AB3; 0x2339E2FA; 0xC26768AA; 0x69C22269; 0x40FCBD90; 0x94DFCAF4; 0xC41D4F61; 0x56235739];
   [0x718468D3; 0x6E50D4DB; 0xCADCEC6C; 0xDEA80730; 0x63DC3C43; 0x924FF97E; 0x6752EA6A; 0x1B652825]];
  [[0xF07BE4BB; 0xAC2BDCDD; 0x8DB0A32D; 0xB46D8E96; 0xB618488D; 0xDD661C68; 0x75E1E4BF; 0x8ED22D4B];
   [0x3C177D80; 0x5DD2E5DF; 0x82803711; 0x5049C012; 0x73E0BA27; 0xFB243B3F; 0x8C7810D5; 0xC756BA0]];
  [[0x6F16FBCA; 0xFC58F0BD; 0xA5E33B36; 0xA855BB8C; 0x99D08247; 0xB9239EB4; 0x49CAF40D; 0x27ABC78D];
   [0xA1285278; 0x88BE1595; 0x60F16638; 0x9D5AEE5B; 0x1FCE4327; 0x3F381529; 0xF19CAA04; 0x17206899]];
  [[0x9E047F55; 0x58616348; 0xE991FC4C; 0xD6098A5; 0x99A33914; 0x47760F98; 0x5608C80E; 0x70C8F5D4];
   [0x6036DBE; 0x405F1191; 0x80CC0A27; 0xBF625895; 0x389FA7BF; 0xFB8A0330; 0x1FA0CBB4; 0x22B0B946]];
  [[0x1B1E2ACD; 0x84AE1981; 0x63961891; 0xFA23C205; 0x742C1653; 0xCF4C685E; 0x4D303078; 0x55BFC744];
   [0xBA03AAE4; 0xEB131CBB; 0x2C5B9EAB; 0xF338C0DB; 0xB7495209; 0xC1006396; 0xF7E6A4E6; 0xFD928CF]];
  [[0x8633AB84; 0xA6BAC994; 0x75364642; 0xC165BF5A; 0x8C57070D; 0xB70BEB47; 0xD416322E; 0x838158A0];
   [0xD4957751; 0x501D2BFD; 0xC23AA730; 0xF1CDDF32; 0x5458F1C6; 0xF64558A8; 0x6E1209C; 0x51B6DDE3]];
  [[0xCC31D6BE; 0x712C186; 0x33CD1D3F; 0x91C4064A; 0xC7C91F53; 0xCADAE5B0; 0xDEB2A2EE; 0x52AA408F];
   [0x202719D5; 0x58675CC; 0x1D087D07; 0x444F99F5; 0x9D7A8AF4; 0x4DB587E8; 0xDA17095A; 0x389376F5]];
  [[0x48FED385; 0x8262D370; 0x1AE92689; 0x3B1FB466; 0x24242CF4; 0xDA6F570F; 0xDEAC5E9; 0x532FC9E];
   [0x20C5BD7B; 0x5E8FB740; 0x2624B3; 0x5AE99925; 0x7AFADC15; 0xAD44A4D5; 0xDF409330; 0x6AECBC80]]]].
(** lines 12135-14781 *)
Definition lut_C_32 : list (list (list (list int))) := [
 [[[0x0; 0x0; 0x0; 0x0; 0x0; 0x0; 0x0; 0x0];
   [0x254F12; 0xD082E007; 0xEB1F1421; 0xC5BA8184; 0xF010780D; 0x4EC9E7D0; 0x2794C8D5; 0x7846B5B7]];
  [[0x7225A595; 0x870FB041; 0x5FD57F04; 0x6CAFAE70; 0x2E7DB9BA; 0xFEC1C2AC; 0x127A5862; 0x9230823E];
   [0xE4464836; 0xF6CFDB6D; 0x9A945AC0; 0x3D79631B; 0x3D0C880D; 0xA1FCF2DF; 0xEE6A611; 0x17C83E50]];
  [[0xE42734FD; 0x3C79C11A; 0xAC4040C3; 0x1614B2BE; 0x2C3A23A5; 0xDD143725; 0x8AF4F7CD; 0x1A02DA83];
   [0xE7D6991A; 0x23D588D6; 0xD2B3E364; 0x5F332676; 0x9134BA88; 0x35382680; 0xD27090E5; 0x8ECA826]];
  [[0x26761106; 0x231F8DC8; 0x3D78B14B; 0x7363050E; 0xC05C4381; 0xC3B9A1B8; 0xB8ACD9AC; 0x29727635];
   [0x2ED54E6C; 0xDD416AE9; 0xB48A87C; 0x54608435; 0x97093D22; 0x2C8DEEA4; 0xD716BAF; 0x87D2924C]];
  [[0x619206D6; 0x43281D30; 0x68744E44; 0x4A8FFC87; 0x708208D5; 0xB1011A3D; 0xA035B0B9; 0x2FE86E7B];
   [0xA3762860; 0x82F43088; 0xB33595D4; 0x67B5A303; 0xB477BECD; 0x262F16EB; 0x23E2816A; 0x1D38D4A7]];
  [[0xAD83C032; 0x91BBA3C0; 0x234F2FF3; 0x7DBC2EB6; 0x6D18A737; 0xE2C00C15; 0xCCF6DC2D; 0x71D1AE8B];
   [0x2DB77239; 0x6183816A; 0xE228C41; 0xC545A512; 0xF49A679; 0x3B96D6BC; 0xE49E39C2; 0x9831D683]];
  [[0x20DA13D9; 0xEEAA17A9; 0x8ABECADE; 0xEE3130FB; 0xA6E3D089; 0xBFB2CE6A; 0xE627A07C; 0x22BCDCEE];
   [0x955A1D9E; 0x86D7A50C; 0xE4E00B9E; 0xCD60A425; 0x615B9E91; 0x5407A6F8; 0x4F1CA93D; 0x7F17B171]];
  [[0xDB59F2C; 0xBC351DE0; 0x9CDAF8AF; 0x1470E6A1; 0x60D3B27A; 0x461ED289; 0x49C7F789; 0x122C8F4B];
   [0x69FC8CE; 0xAB56E614; 0xC34E487C; 0x9836B010; 0x3FE009EB; 0x9EE06703; 0xAA019563; 0x88C8DC64]];
  [[0x63DDBB1F; 0xD0B4A996; 0x1D154696; 0x483286E5; 0x9F0D6F4E; 0xF0586DB8; 0x980446C8; 0x38167987];
   [0xE4166B55; 0x86A2ABAC; 0xA8366C64; 0x4E7B4F96; 0xED997D8E; 0x20CF2108; 0x1D01C009; 0x20EA9844]];
  [[0xB89CE05A; 0x28B520E; 0x4FAAD420; 0xEF41147D; 0x121A2A0A; 0xB280CCD3; 0x86E8F591; 0x4C677C83];
   [0xA390AA99; 0xB42F67B2; 0x19F8A01A; 0xC4EF553B; 0x6979027F; 0x86761139; 0x82C202BE; 0x6F177663]];
  [[0x27C5C7CC; 0xBEF6B996; 0x10799DB8; 0xB2D34F8B; 0x48AD9B1E; 0x132E1A3D; 0xE68B9907; 0x2971BFED];
   [0xC6B743B5; 0x312F6D31; 0xA718E0A8; 0xCF123317; 0xFD58637C; 0xCF1E5266; 0xE046167C; 0x56BA8362]];
  [[0xE910D7F; 0xD680969D; 0x8A4689F9; 0x634FB3C2; 0x9FDD299; 0xA79A56DF; 0x89411C3D; 0x9065269E];
   [0x82C6076C; 0x5D22254E; 0x81FEA171; 0xDE7D78F0; 0x10BCDA87; 0xE1366964; 0x97638B85; 0x98B58F5A]];
  [[0xFB5EDF3F; 0xA532DED4; 0x833A7E2F; 0x604E5631; 0x3A09C74E; 0x7C4051D3; 0xEDFBEB4B; 0x51D1108A];
   [0x4DF1AB4D; 0x9AE61F9E; 0x163DB1A5; 0xFD4966F3; 0x7075AD6D; 0xF6C44E55; 0x4AF24611; 0x670D0D6F]];
  [[0xD369D301; 0xD99925FF; 0x7665BCF4; 0xC17E9767; 0xCB5A2128; 0xB5A908F1; 0x9C726C9F; 0x1981791D];
   [0xE0861F4E; 0xC4249418; 0xEE045D5E; 0x2A63399F; 0xA1B974FF; 0x246958FD; 0xFC6F7A0; 0x668016A2]];
  [[0xEDE07C08; 0xEB7018AD; 0x2E33D1D9; 0xDF3C1259; 0xDC24E3DE; 0xEE0913DA; 0x35EB6B0D; 0x1C632D5B];
   [0x2C56E1B2; 0xC69396DD; 0xA837CE8F; 0x1F0B034; 0xB6882E32; 0x7842B98D; 0x9E61FCA6; 0x8FAC9230]];
  [[0x8A782CFE; 0x1DBB7D99; 0xC9322BE7; 0xEB945B49; 0xE208123B; 0xDCCB4E6E; 0xFC024524; 0x1C7C265C];
   [0x6102BC63; 0xAD000D8A; 0x82575943; 0x7D7F3C7B; 0xD547A95; 0x8D2F0881; 0xD94FFA6D; 0x7012377A]]];
 [[[0x1EB6CBF7; 0xE3F78DE5; 0x72FA65DB; 0xF4E08A61; 0x502A247E; 0x670B0E06; 0x9877E492; 0x7A45D73E];
   [0x3DD0CDBC; 0x5FD754AD; 0x125AB1F; 0xA5C2B15E; 0xE614B7A9; 0xC503836F; 0x2C50DCFE; 0x5548C424]];
  [[0xB9B38743; 0xCEE7BE65; 0x94BE028E; 0xD5E41715; 0xB5C45F7D; 0x8EC3CA3; 0xFB51261A; 0x1ACFAC17];
   [0xA9C04381; 0x45098D93; 0xA5B45DC8; 0x717FC0DC; 0xEABEE4E5; 0xF352A9C2; 0xF311B457; 0x1964AF20]];
  [[0x802A755; 0x8C229808; 0x6140CDA7; 0x46F0A7CA; 0xBC62603B; 0xF0EEB7AE; 0x4BF4B451; 0x8432E152];
   [0x63967F94; 0x3C319825; 0xA042AE13; 0xF04EACB6; 0x650A6ADB; 0xD7CB2DBC; 0x78C9E166; 0x38A36EE3]];
  [[0xD3EE8657; 0x3527A5C5; 0x101645F9; 0xBAA0DE97; 0xCE9D6A48; 0xC59C9803; 0xF8F39FDF; 0x43D12449];
   [0x8DF7A72B; 0x65B3AB98; 0xAFDA9048; 0xD225AF8E; 0x338A3694; 0x88C368B8; 0xFBC813F1; 0x4A5A3C24]];
  [[0x9E2118B5; 0xCBCB725A; 0xCAA54794; 0x113F36C5; 0x4A0A2267; 0x5900990E; 0xA9C1F11; 0x4E329EB1];
   [0xCD8918A7; 0xF47F4077; 0x3877B404; 0x18A3C071; 0xEFEB2B6B; 0xCDEF4FE3; 0xDE4D0540; 0x360982DB]];
  [[0xD5F8DACA; 0x42AB64F2; 0xEE88523D; 0x604A9676; 0xAEFD1283; 0xD430CCAB; 0x54465F7C; 0x3DA9D0E5];
   [0x41A4216B; 0x5EC145DF; 0xF7E7FBD9; 0x7C8F2C51; 0xBD483D26; 0xA2E58A23; 0xE4A908C8; 0x4739F7F9]];
  [[0x79370382; 0x37DDF872; 0x12C8E90E; 0x9D26A55F; 0xE8EB0CA4; 0xFC1FA6CD; 0xC29DC4F9; 0x826A29E5];
   [0xAA29F814; 0x15ECB621; 0x9DF1DFF7; 0x4C8A8128; 0x66B549BB; 0xBB223019; 0xB81A2863; 0x6CB21ACB]];
  [[0x11DA6928; 0xDD31ACC2; 0xA903D58F; 0xF98867B0; 0xD3679348; 0xAD283697; 0x301C3571; 0x67BFEFF9];
   [0x780BBBCE; 0xB745CAE6; 0x62F2EC5D; 0x1A9C6618; 0xA1475BEB; 0xF9895684; 0x4731A11D; 0x93E5ACE6]];
  [[0x7539483E; 0xF6E9460; 0x9EF4EF16; 0x5728E6DD; 0x62E946E; 0xE1DA86E1; 0xF2E07759; 0x272EBC47];
   [0x909A578F; 0xE5E688E3; 0x7CFD1B7D; 0x9F25D6D1; 0xADE1E2A4; 0xC582260F; 0xA050071E; 0x2F50F74E]];
  [[0x2DF4D40D; 0xE0A8FE3F; 0x7791F88; 0xB126E4EF; 0x2A88D242; 0x69759DB4; 0xC9C1981C; 0x52592A3B];
   [0x72F649A1; 0xD0F41728; 0x750EBAB; 0x9FF19B2B; 0xE0D7D222; 0xEFC047F9; 0x2E8140AF; 0x81491CA1]];
  [[0x675F821B; 0x2DA40FF1; 0x9E2E0502; 0x2C91A287; 0x77D81FE; 0x993ECFF4; 0x71CC3DAE; 0x3ABA2F2C];
   [0x168413DB; 0xED007670; 0xAFBD4E82; 0xC07D61B5; 0x6BBADA24; 0xF078262E; 0x9E6413CC; 0xE0EDC62]];
  [[0xB7D099F9; 0x6CD0451D; 0xF8B12C83; 0x8FB218E6; 0xE55EE1E4; 0x4D8C3B26; 0x4A6FCD90; 0x94964906];
   [0x4BEACA48; 0x9ABB9685; 0x868EFEC7; 0x6A749487; 0xC8D2932C; 0x46BB9B42; 0xDE007BAC; 0x82384321]];
  [[0xA942DB71; 0xDBECB743; 0x21A6BC46; 0x21B52115; 0x24C17D78; 0xE49B6894; 0x89A08E17; 0x737FD3F1];
   [0xC36E4E57; 0xF833E404; 0x1E17CE6; 0x512C114A; 0x50D75050; 0x65A23D73; 0xF2F2D438; 0x838CA746]];
  [[0xA20632B7; 0x28F9220C; 0x642358D6; 0x72D8C347; 0xE89CAA6F; 0xAB15FE1B; 0x6E16374A; 0x2A09B143];
   [0xB983CFE8; 0x4CED0986; 0x97B84E88; 0xD9B067B6; 0xC2350F8F; 0x926FC5F5; 0x84E2078F; 0x31D77358]];
  [[0x7FF17BA1; 0xA7815CE7; 0xA26BBA1B; 0xBE80BB6C; 0xF86DF104; 0x66DAE535; 0xAB1B9C09; 0x72739199];
   [0x54056E67; 0x8E93F3C8; 0xEBF23595; 0xDC5E3855; 0x78123000; 0x70D1033C; 0xF22DD2BD; 0x50874350]];
  [[0xC2700468; 0x533F213B; 0x11BEA732; 0x31E6AA9C; 0x4491DC82; 0xCB5E184E; 0x5BD63975; 0x8A68049A];
   [0xF86A41D1; 0x1724AC47; 0xECA0DA11; 0xDF9A0CA3; 0x71F0EA19; 0xE5E1489C; 0xC9DC7BF2; 0xE20661A]]];
 [[[0xF86D9DA8; 0x5EB4E319; 0xE0A46703; 0x3CBF130E; 0xA4AB17; 0x166D52DA; 0xB7030861; 0x27A80547];
   [0x399C32BA; 0xA7601086; 0xC2F0A5E5; 0x571E4E4B; 0x39BED44D; 0x72D12F6B; 0x1AF8F25F; 0x8FDCCE3D]];
  [[0x7DFEB40D; 0x281F7AF9; 0xD7F767D5; 0xCCE33B9; 0x8818C1E6; 0x3E8BF3F4; 0x4BA4647A; 0x6D909D0D];
   [0xFAC574D1; 0x91D77BA0; 0x68CA7FEC; 0xD2592661; 0x281F269C; 0xC4C7D6B5; 0xDA42CDDD; 0x7A41CD78]];
  [[0xA3B8F255; 0xBC8E0D27; 0x1C3E5190; 0xF5E2A8B1; 0xD609F668; 0x8C38862B; 0x631D50F; 0x4E31C18E];
   [0xF13E0CCD; 0x9013EDDB; 0x41EFDAF7; 0x83B04E68; 0xDC82597F; 0x15EC4BB8; 0x56117705; 0x50595150]];
  [[0x1E0E0161; 0xD25F244D; 0x1A437FBA; 0x6C975D7B; 0x95F2AD8C; 0x305DB2DF; 0x3B9CC742; 0x17D6E005];
   [0xE60BC3C3; 0x6A849F76; 0xBF8C3790; 0x35523E08; 0x239140E2; 0xF18B5335; 0x7CA5FF40; 0x5E857055]];
  [[0xA4250E95; 0xB48F07A4; 0xC7F17667; 0x68735AE; 0x94771B24; 0x30F8D313; 0xA495A064; 0x598EA397];
   [0x68B76855; 0xBF192529; 0xC7C0D2D6; 0x897E3CC6; 0x64EC9649; 0xA2A4948F; 0xAE7C8598; 0x1027891A]];
  [[0x4585685; 0x442E6CB; 0x82A2D258; 0x9BA61DA; 0xAE5466D; 0x7C5400B1; 0xC2133893; 0xA0B71B0];
   [0xD5EF6E93; 0x4E3D98A; 0xF332BDF2; 0x177EA5F8; 0xC3FAE583; 0xE7CF3F71; 0x8AE0CFD7; 0x40C45133]];
  [[0x9B82E738; 0x6BE94FC3; 0x8BC262E2; 0x212FB804; 0xB22E21FF; 0xE17F6A7A; 0x15E960BB; 0x22B7BDAB];
   [0x771350C2; 0xE154C945; 0x882DB07B; 0x6505B8EB; 0xC7E3ABD3; 0x149A0A16; 0x81C30AAE; 0x78F78ABF]];
  [[0xC954BC0A; 0x6ED81415; 0x70E55349; 0x316E8012; 0x50399C09; 0xEC02323B; 0x8559C3A9; 0x963BA97B];
   [0x37EC345; 0x39FCE50E; 0xD5BF03FB; 0x422A082D; 0x18DCC77E; 0x59ED39E4; 0xA40AA978; 0x4CFC3F11]];
  [[0x55D7C9B6; 0x85A56922; 0xB451111B; 0x5BC590E2; 0x8782C71B; 0x3BCB2315; 0x632246A9; 0x1F3456C4];
   [0x9CFBBE19; 0xEA577AD9; 0x35CCE939; 0x51BEE40; 0x1A0C589C; 0xDC300899; 0xD2095619; 0x14877ECE]];
  [[0x95024C5E; 0xB64D0EC6; 0xB94CDF74; 0xB0597195; 0x16844010; 0x3B97B513; 0xCCBABC63; 0x48799881];
   [0xD9819075; 0xE3119AE; 0xEB0299FD; 0xA5DCA9C1; 0x4A404D13; 0x8063D788; 0x8044EBE2; 0x974D2A1A]];
  [[0xB8E14640; 0xB6589045; 0x5507B9BE; 0xFAD60A43; 0x56FF32BC; 0x9D540C1C; 0x74265A69; 0x47ECC24F];
   [0xDB3E64C9; 0xC829F18; 0x72E87B2B; 0xF7C0C6D7; 0x16B616CE; 0xCB3FC512; 0xB94F69B1; 0x549B9227]];
  [[0xDB235273; 0xB151DEE9; 0x6D65606C; 0x2FD9496F; 0xD62B5B0D; 0x6A5E172D; 0xEA0AE249; 0x181E605D];
   [0x8911490A; 0x66D7EB09; 0x2E70DEF2; 0x85E174A3; 0x4EF8CFA9; 0x2DA13354; 0x3E69BD22; 0x1B87FE62]];
  [[0x2BB09564; 0x2DF420CA; 0x7ACEE4D4; 0x1AC26F76; 0x2BC7EF7A; 0x50C68E6F; 0xB445B2FE; 0x4730D654];
   [0x8B57D38D; 0x90C040D9; 0x33CA2C77; 0x28793DB5; 0xAC6A4BE8; 0x22D2B573; 0xB72E7E01; 0x68C0DBDD]];
  [[0x9E2D3FF; 0xDF70BCDC; 0x9F20F624; 0xB6E59970; 0x6DE3119E; 0x5E04FDE7; 0xD5705A5D; 0x1C9B43FF];
   [0x681270B0; 0x7C23A517; 0x9303BF40; 0xDD7FC833; 0x458EE80A; 0x3028E496; 0x52590EEF; 0xC720063]];
  [[0x2850A5AE; 0x27B29710; 0xAA3E0397; 0xD1E6FBBA; 0xDF8FCBD6; 0xCFB44044; 0xC52B90FD; 0x7CD86272];
   [0xEBA52025; 0xB0E7FA93; 0x4084EF3; 0x64166303; 0x43840178; 0xD7C7DCBE; 0x22FB81A2; 0x8BC7FF77]];
  [[0xDAFCE699; 0xABDC5206; 0x83C5F3A3; 0x522A9137; 0xE666E5C; 0xBAA93637; 0xD2D33B62; 0xFD813DA];
   [0x5D417354; 0x83391908; 0xA6B9B447; 0xE5AADE1D; 0xD68321B1; 0xBDE90A3C; 0x411531B; 0x43FF9514]]];
 [[[0x39648345; 0xD61DEE64; 0x7FCB5B5E; 0xF8B3FA1C; 0x24C29C71; 0xDD531CE1; 0xFFB825FE; 0x7A23608B];
   [0xF0DE896D; 0x8D607B82; 0x6EDDAFE; 0x6E497330; 0xC935E754; 0x8B49EFF0; 0xEE08BDBF; 0x90D54646]];
  [[0x9044FD39; 0xF44FBB16; 0xDFB38141; 0xA72128C4; 0x1954CC0; 0x8467F688; 0xB560B5C5; 0x741C23EE];
   [0x9765CF34; 0xA7F42201; 0x8A2AB61A; 0xB26C97BF; 0xCBD45AF3; 0xAA948763; 0xE21479F5; 0x74C993C2]];
  [[0xBFA717A5; 0xD968CE1A; 0x48E92615; 0x45C1103D; 0xDD98207D; 0x4CCEBE85; 0xE65E5FE6; 0x8A75DF6E];
   [0x418C47C5; 0x9E582C40; 0xA450009B; 0x2E9EE003; 0xDD60D3D2; 0x7C079613; 0x9935D8CA; 0x80A78C4A]];
  [[0xD3C9B903; 0xF6CDED58; 0xEF455E7A; 0x4F27927D; 0x833BB3C1; 0xF9DBBB9E; 0x6BA3770A; 0x4107CFBF];
   [0x520FCB57; 0x61871175; 0x47A12C8E; 0xEA3A307B; 0xC24E9E75; 0x940DDEE8; 0xF33541BB; 0x8AE8F22C]];
  [[0x3973DC0B; 0xE4C89870; 0x55DFAAF0; 0xCC3DD1AC; 0x27372EFE; 0xB63D596B; 0x45A33718; 0x1B92A192];
   [0x607319; 0xEABEBEE; 0x7C3E35EE; 0x69B7355E; 0x2233C454; 0xF7354E35; 0x1E722C0A; 0x1E2BAADA]];
  [[0x3B9FE86D; 0xD0E47FE2; 0xDAA1C7BC; 0x878F403F; 0x90F5DED7; 0x5447AD54; 0x1E58B03B; 0x4E8A997B];
   [0x2E926FA8; 0x9AD0E481; 0x8D0EF3AA; 0x871EFB9E; 0x7E714DF6; 0xADD7DD14; 0x2308EE02; 0x9A30245A]];
  [[0x904F0D11; 0x44838B15; 0x2A2A70FF; 0x6177587A; 0x2C2F7943; 0x40293850; 0x67581701; 0x8F851191];
   [0x842E6434; 0x564383D1; 0xAF2C0078; 0x251AF59D; 0x3354A264; 0x8A81772D; 0xDFD2D0EA; 0x9AAFA350]];
  [[0x35461CAD; 0x47397932; 0x62C5BFFA; 0xF86BD43; 0x7785490D; 0x5F166BC0; 0x2BD61B3E; 0x7DCCC988];
   [0x9394375B; 0x44C3299A; 0x405A34BD; 0xC5F2803; 0x4237E728; 0x3AD60F1D; 0x72EC2562; 0x6E7E06D0]];
  [[0x3C5840A6; 0x44AD8471; 0x4752BC62; 0x40C3CE2B; 0xEC3FD75F; 0x94B14C21; 0x2629C0C0; 0x65E0E6AF];
   [0x55936454; 0xA3FE2F55; 0x780E25E5; 0x252AD743; 0xFF4E107A; 0x22F9951B; 0x554CEA49; 0x1B8A7DDE]];
  [[0x89F1C6FA; 0xBBDCC2C0; 0xC360A51D; 0x548FEF29; 0x1290EC92; 0x94DAD45; 0xAF55BF30; 0x792F6FB9];
   [0x707FBF4E; 0x37EF4ABE; 0xFC4B6BD0; 0xF43AB0D; 0x2D6EE5D9; 0x850015B7; 0x35C1FD65; 0x9273F35]];
  [[0xA6C3209B; 0xCECF1B90; 0xABD433C0; 0xFB4BC864; 0x3EEEF8BA; 0x38246AAA; 0x9ED13F88; 0x4BC7904E];
   [0x8E783066; 0xA61C369A; 0x4D1C832C; 0x496FB831; 0x3AD64D5; 0x1907687A; 0x83425766; 0x49516EA5]];
  [[0xB1714E53; 0x8108B704; 0x82E39BE7; 0xB458CB4B; 0x97049DE; 0xFCBD51CC; 0x722E8CBA; 0x415F4079];
   [0x342DF9C6; 0xCDB06F5E; 0x1281AC74; 0x64885CD1; 0x5366673D; 0x932A05E4; 0xE83AD23D; 0x7333520B]];
  [[0xC54B523C; 0xDAA0A1EF; 0xB3C261C8; 0xA3E80053; 0x558FCFA5; 0x352CC612; 0x85852B14; 0x1B9B755D];
   [0xA1B541FF; 0x19EE2CB6; 0xD5786B4F; 0x2B531CE2; 0x8C3E15B; 0xEF5EA6DF; 0x87111129; 0x82161B04]];
  [[0xFCEABAED; 0x5AB533A5; 0x4A4D8E44; 0x4C2147A5; 0xDA02D43D; 0xD8EEE795; 0xA15C1CD0; 0x8CB648DF];
   [0xA788DDDE; 0x4869FB6C; 0x77C03759; 0xF9554D14; 0x96187DB9; 0x4D25B41A; 0x3FE0B3F3; 0x662FBAB3]];
  [[0xA58A5B2E; 0xD3AF4D09; 0x5CE88DBE; 0x3C5DD298; 0x7426C2A4; 0x89DDA42E; 0x49095424; 0x2D832B07];
   [0x62AA84CF; 0x24EFCC03; 0xE86923D7; 0x348C19DE; 0x35DB5CB1; 0x453E9286; 0x8DB21CF3; 0x3F48EEB]];
  [[0xF4035856; 0xBCF9600F; 0xAF820E18; 0xE77CEC83; 0x7F2FBCC1; 0xC87D43C1; 0x6290B18D; 0x574C4CAE];
   [0xE56E1EFE; 0x8BD8AE45; 0x75D6FCC9; 0xB1EFD684; 0xA361E753; 0x9829F227; 0x5211B784; 0x9A50B425]]];
 [[[0x36396F78; 0x26F19590; 0x9AD1982C; 0x350D1A76; 0x947F352E; 0x33BDB4AB; 0xFFE1E1E1; 0x6CA38B05];
   [0x6F2A8CA0; 0x55364C2; 0x2969CA7E; 0xAF15075D; 0xC3B9CB70; 0x2916D58F; 0xD7325693; 0x18D94A8B]];
  [[0xF36EB789; 0x87C41809; 0xA7436F54; 0x8C3517F9; 0x3D785160; 0xE7C02E1D; 0x418C7ABF; 0x5BAFE72E];
   [0xCD9B27C2; 0xA00A8E76; 0x7DA06823; 0x66791808; 0x20EC00B4; 0x342A03D9; 0x6122589A; 0x44502A7E]];
  [[0x5BDAE972; 0x3A492F73; 0x126A07DE; 0x5184D076; 0xB56A38F0; 0xAE49313C; 0x9EC47E0A; 0x66CCC24E];
   [0xC03CF3E1; 0xAE84941B; 0x5A73440B; 0x771AFC57; 0xC433E43C; 0xABF93DC8; 0x243C6828; 0x974EE822]];
  [[0xA7A5F66C; 0x468D7FDB; 0xB18DEFCC; 0xBBB2C482; 0xFA2E7DEA; 0x188B8CAC; 0xBE0200B9; 0x7894BC93];
   [0x6B84750E; 0xA3181338; 0x37356096; 0x8B14BDB2; 0xD62F4813; 0xA9200FE7; 0x6F7627CE; 0x8DF664A3]];
  [[0xDD996CF1; 0x39BF14DD; 0xF7F42D26; 0xD00B3BF5; 0x17718A3; 0xF1AF5A20; 0xABCAE05D; 0x34A1E94B];
   [0xC635D333; 0xAD75D1B5; 0x87210A5A; 0x97E5BD39; 0xA0327BF4; 0x11684CA6; 0x9B8F0A46; 0x25C51117]];
  [[0xA935A9B9; 0x7E5CD79F; 0xA22DCD16; 0x15DC70C2; 0x78A420F4; 0x5CDA47E6; 0xEA631104; 0x37E0364E];
   [0x5E47B630; 0xE7C46956; 0xE42C4DCB; 0x7BD4C4A7; 0x1C91117E; 0xA76B87A7; 0xADA4B5E1; 0x2AA043DD]];
  [[0x875DED57; 0x6BB06B5A; 0xFEAD7B14; 0x89452B3B; 0xA6E39E1F; 0xCBD5CA8; 0x3BFA7A3D; 0x2DC5917C];
   [0xF840B6E8; 0x6395D5B8; 0xED8589EE; 0xAEC9342F; 0x77979E67; 0x8332A1B8; 0xC59F97DB; 0x29B55822]];
  [[0x7D65A8F4; 0xFD145FF7; 0x119C9AFC; 0x8FFF7EE0; 0xAFCD6214; 0x100D0E9; 0xA3B988B3; 0x98DE55E5];
   [0x151BF2; 0xBACCB2E; 0x66091583; 0x2B422D09; 0x93C66A3B; 0xC4D15E16; 0x727DE9E6; 0x1C107559]];
  [[0x3CB76EDF; 0xC019C7D7; 0x151F5E14; 0x6456DD91; 0x57CC7078; 0x29E95B66; 0xE9BDBCEC; 0x9193F4D9];
   [0x4806F8CB; 0x375837B0; 0xAA954620; 0x52D5528A; 0x1B9D6D34; 0xE71F9F60; 0xDF95759C; 0x910E4FA1]];
  [[0xFCADB5EA; 0x8D31B2EE; 0xA63C7498; 0x814FF77; 0x5E3D927E; 0x236569C0; 0x95BBB9D9; 0x7F669DAD];
   [0x305B0347; 0x29158C9A; 0x52D468EB; 0x99B9B7E7; 0xB4342443; 0x6C4CABC3; 0xA803ED4; 0x125AFBEA]];
  [[0x101FAA4E; 0x850A150B; 0x11ECDABC; 0xB586BCDA; 0x4DAD2264; 0x9692EF83; 0xD2B67F5E; 0x951716E];
   [0x924DD16D; 0xA2295F20; 0xD0CE88CD; 0xD8327275; 0xC683ADA3; 0x45F8DD0C; 0x88C26024; 0x4A798B33]];
  [[0xCAF71198; 0x225395CF; 0xCA3F67CF; 0xEE223712; 0x81280061; 0x972B0199; 0x280ECC12; 0xCB20E7A];
   [0x70F54717; 0x6F04DA8; 0x410B9712; 0x5288425E; 0x74CEFB4A; 0x6C29A514; 0x849E2FD6; 0x4218ECCA]];
  [[0xB33574B6; 0xD85663A3; 0xFAF7D3A2; 0x7469CFB1; 0x3CFA8876; 0x9C587EC4; 0xDB24ED63; 0x5DAE46AE];
   [0xC413E494; 0x66C8DA33; 0x65942568; 0xB8B256B6; 0xA7A4CAAD; 0xF09178E; 0xAFEBC90B; 0x577D4ADC]];
  [[0x92D6C3B4; 0x49009BA6; 0xB884FAAC; 0xE9CF4915; 0x6F3DBE23; 0xC12377D3; 0xEA6B680C; 0x2F6E0E86];
   [0xE6C5E24D; 0x5DF2CD5A; 0xEE608DD3; 0xAAE7E145; 0x8A7ED956; 0x5357CFF2; 0x3912DBA4; 0x8377126C]];
  [[0xF83BC3F6; 0x6E83A6C6; 0xC0CC09C6; 0x3633E1E4; 0xBC4B73A5; 0xC2A268B; 0x125688EB; 0x688369D3];
   [0x73E75809; 0x64EE03E1; 0x8E110C46; 0x21773EE9; 0xA6A648B1; 0xF0BC6BE9; 0x7E0041E7; 0x39912183]];
  [[0x26F5716E; 0xCC09774A; 0xFDFB59E9; 0x1CB17F9; 0xAE8938B4; 0xA88D1269; 0xD13047C9; 0x99A40D17];
   [0x6FC672A3; 0xE469C984; 0x5638B928; 0xDA6534B6; 0xCDE40C83; 0xC56EAB20; 0xBD93AF10; 0x2C1582B1]]];
 [[[0xA3F45C37; 0xE4C19851; 0xC7D78FE9; 0xCA0FEFF2; 0x9A7E444B; 0x27B41D8; 0x15D38CBB; 0x1F1B242F];
   [0xF1F50AB9; 0x1C6C132C; 0x5DFE7530; 0x2A02A3A4; 0x6E29159F; 0x2B1EB8E2; 0x2EEDE876; 0x5F3F4AB7]];
  [[0xF2DF95C; 0x362CE013; 0x26480BFA; 0x82E4E192; 0x6BEFF080; 0x9AAC9A96; 0x8EE2B59C; 0x5A1636F6];
   [0xFA049CCB; 0x600E0339; 0xF2F57163; 0x56680F80; 0x7B4240A7; 0x2C395CC1; 0x9C86BB64; 0x32EDFE4A]];
  [[0x711AEF69; 0x8D9842AB; 0x890831F0; 0x7A1C2429; 0x54CDA99A; 0x924478DF; 0xE25A02E2; 0x791A1D45];
   [0x170F4C21; 0x1433F569; 0xCA5F8BD8; 0x9F42C8C1; 0x67B3201; 0x377740F7; 0x2ECE5D81; 0x75145FFF]];
  [[0x39638F43; 0xCBFE782A; 0xE07553D2; 0xB0C0EC09; 0x115C673A; 0x8D1C41F7; 0xEB39E385; 0x8510551A];
   [0xBA275803; 0x92000181; 0x27B9A42A; 0x8AF63F4A; 0x52297029; 0xD50ECF0F; 0x66883C56; 0x1DCA33A5]];
  [[0xC51DF9D9; 0xB2C44933; 0xE66D80AE; 0xCA6F9FB0; 0x82839BA4; 0x78CD2EEB; 0xF7AFBCF3; 0x8FF8BCC8];
   [0x4164959B; 0x5AD00C70; 0xE83ED8D5; 0xAD901C71; 0x2B52650D; 0x56FFC0A9; 0x780126A8; 0x689B171]];
  [[0x5EAC1DD8; 0x2E902A39; 0x7CAC283F; 0x7681EABA; 0x78525B7C; 0x3608CD8; 0x5EB95540; 0x9665B80];
   [0x306EE831; 0xF09F9805; 0xE41D453A; 0xFB00B1C6; 0x7C93E727; 0xD8BB9559; 0x2CE63FD8; 0x3B74FEE7]];
  [[0xA22DABA; 0x73F48B33; 0xC8FC3E20; 0x797DE0FB; 0x9E79222D; 0x69C1BEE2; 0x1DF4C549; 0x3052F67A];
   [0xED78B6FB; 0xFE9128A9; 0x29CCF94F; 0xD9460CFF; 0xC1FD1DAA; 0x53737484; 0x1EDAEEB2; 0x83ADCD01]];
  [[0x2BA4195A; 0x189EC9AA; 0xC522BE92; 0x61345757; 0x39EFB05D; 0x35BAB72A; 0xAE0AC461; 0x82B27322];
   [0xC07F4382; 0xFEBF0F8C; 0xDAD2ED8E; 0x1CA2B3D7; 0xA27F89C; 0x4800A037; 0x9815D971; 0x77D1B2FC]];
  [[0xCA0FC66A; 0xF9F46089; 0x8C23E4E1; 0x5BC406DE; 0x8DBF6DD5; 0x1D7F3BA9; 0x679D5587; 0x685B9111];
   [0xB85BE0D0; 0x93554084; 0x7B9EB16C; 0xB081E9CA; 0x60F0D0B0; 0x58C428DC; 0x30B3C6D9; 0x12442C1A]];
  [[0x567226BE; 0x147B843C; 0x429A8FFA; 0x2B2BFFAB; 0xCD435C2F; 0x7A4678EB; 0x3C0B887A; 0x200E8513];
   [0x90605CDD; 0x9D457AAD; 0x157F29A5; 0x6736A242; 0x549FCA4D; 0x779B0D25; 0x17FDB4D9; 0x57477EE9]];
  [[0xECF06CDD; 0xD9B15FD1; 0xC1CC2CFC; 0xECF75FC0; 0xA56B39E5; 0x273867C3; 0x79340B7D; 0x72F3ED45];
   [0x55B6C9B9; 0xF31C9E4C; 0x448FE57; 0xED96826E; 0x8BB7A02F; 0xE2DF54AD; 0xD79D71CC; 0x945E7B6B]];
  [[0x9270E878; 0x32B6CE42; 0xD6EEBEB9; 0x980C8F6E; 0x55808237; 0xC5717C85; 0xCCA3F298; 0x4469D0A0];
   [0x1A18C0E8; 0x2B9DD7E9; 0x6A0EC412; 0xE9D12401; 0x31F44B32; 0xF889DE98; 0x78854A7F; 0x692EE1E6]];
  [[0xADEECA22; 0xF2360597; 0x99A4C198; 0x94623EBC; 0xE4169D20; 0x5A0D49C4; 0xBF0384F0; 0x7BE2C5BB];
   [0x8C537851; 0x42DB0D40; 0x65C50782; 0x198A09A4; 0x45AD7EE0; 0x72F80BB7; 0x11FCED06; 0x4F83164B]];
  [[0x95712AF0; 0x54E5B07C; 0x1E893387; 0x95E7F5D9; 0xC61D7766; 0x383BC5AE; 0x681C28DD; 0x9F626ED];
   [0xDF97E3C9; 0xD32B726; 0x7C7C4786; 0x2AC62238; 0xD3F5AD40; 0xECEA0C6A; 0xA870A132; 0xD26633E]];
  [[0xC3D42D26; 0x40A05A14; 0xF3BDE0E3; 0x6577CA1; 0x418B73FB; 0x3DAA258; 0xEFDEB86; 0x205E02E6];
   [0x99F90D56; 0xF5479E4D; 0x368CB6E3; 0x4E699BF3; 0x62E4A879; 0x534F6743; 0xA9D78191; 0x18473603]];
  [[0x5C1ED4F9; 0xA23D79CF; 0xF2248B01; 0xFADE1CF5; 0x6F4D2164; 0xA3D52827; 0x10B731E5; 0x1F211C03];
   [0xD97229E2; 0xB415884; 0x80FCC283; 0xCABB7D89; 0x98EF388A; 0xDB9BC752; 0x93E80262; 0x50AF2A4A]]];
 [[[0xD57DD821; 0xD11E80F1; 0xDDA2AB29; 0x11CAE463; 0xE628F315; 0x21CAFD16; 0x7DF70CD4; 0x296A84E9];
   [0x6E9EF995; 0x9ECF7513; 0x6E28855; 0xAE875257; 0x5DED383C; 0x78E1B7E9; 0x5E940F7F; 0x6C5D8ECC]];
  [[0x998EE9A3; 0xCBD3ACB9; 0xD0DCF584; 0x990CDFF6; 0xC7CE5DDA; 0xFB4346C; 0x355E268F; 0x5EDEEF9B];
   [0xC215036D; 0xACD8B4A2; 0x91C7486B; 0x70D36995; 0x52C6694B; 0x72D5243D; 0xE5F8B99C; 0x54163B48]];
  [[0x1D76A94A; 0xD2AEA2FF; 0x379F780B; 0xC5B4FBF1; 0xB33AC708; 0x700042F7; 0x8183E0CA; 0x7DA790BF];
   [0xEBA72FA8; 0x95681FE6; 0xE22E254E; 0x1F0A390E; 0xBF07A8A5; 0x465A58F8; 0xFB1FCE40; 0x840EA2E7]];
  [[0x44048484; 0xD955C5B5; 0x6935C5E4; 0x7107D595; 0x8A0FCE44; 0xFC657444; 0x2800E517; 0x97DF2B4D];
   [0x2C482414; 0xB1BB328; 0x4E48CDBE; 0x152614CC; 0x42EDE4E0; 0x48051FB6; 0x3DBFFE52; 0x91125B93]];
  [[0xCF898F54; 0xA2F526C7; 0x83080857; 0x8788CA12; 0x4562F7B0; 0x2F442723; 0xC044560C; 0x837772AB];
   [0x31BCB2EA; 0x51AD2F71; 0xAFC5C03D; 0xF1D33FC; 0x7BD352A4; 0xDBFE541F; 0x64B8343D; 0x8B441399]];
  [[0x44DCD145; 0xFEB96B8C; 0xEFF22D0D; 0xEEB3007C; 0x252A8C8F; 0xAF64DFC1; 0xD131E0C5; 0x5D9B0A05];
   [0xABFED144; 0x28C943EF; 0xB6A2273D; 0xDFBF730C; 0xE2A1BFBD; 0x6CC5BE44; 0x9030FCD; 0x55FAC033]];
  [[0x728F39EC; 0xFAA58543; 0x40B37B15; 0x9B2F10BA; 0x7254A419; 0x96505C7F; 0x879C7FF9; 0x4F4ACE5];
   [0xBC5FDA53; 0xC0B4B576; 0xF7ABCD3C; 0x12549929; 0x313FEC34; 0xF5631E; 0x798C7CFB; 0x89EA4459]];
  [[0xE2020C1; 0x671137B5; 0xA4DC66C3; 0x77727861; 0x81492A26; 0x8CE05ED1; 0xA0C3F612; 0x42BEA541];
   [0xB0E461EB; 0x6D39E3D1; 0x9FA806F; 0x459A8E13; 0x466CB93B; 0xE2A185C1; 0xE21ECB34; 0x17D131CE]];
  [[0x387A15BF; 0x2141E262; 0x6BE61C42; 0x675B5E7C; 0xF1CF93EF; 0xEEC1BDD4; 0x23BAB1F9; 0x6ACF3838];
   [0xB0B39C86; 0xA2F84E23; 0xE244E0E3; 0xE955DBBC; 0xB7A8102A; 0xE0155980; 0xB23012FA; 0x1E117DC8]];
  [[0x6EB36280; 0xC92A36AA; 0x5E906D78; 0x5AED3A1D; 0xAE4E430A; 0x8D336221; 0xD3AA50AD; 0x3F184F1D];
   [0x916D9741; 0xD14810EC; 0x3322D9B3; 0x2900169F; 0x4728254; 0xAFF1A060; 0x26F60B5F; 0x89C4C673]];
  [[0xB7F0D157; 0x5216E0AE; 0xC9F38AAD; 0x3B8D2226; 0xBB34AA79; 0x283E3E3F; 0x565CAB83; 0x94DA80FA];
   [0xE6ED4A46; 0xDDB51943; 0x7CDD5FE6; 0xF3AFFA9A; 0xB648A84F; 0xAB493CC; 0xF15EE45F; 0x128356B6]];
  [[0xBD0F02C4; 0xD2AD34F4; 0x719BCF1E; 0x3DC9B6D1; 0x12EB5AE8; 0x11EDB8F1; 0x71180F90; 0x33AC71D8];
   [0xB59621D7; 0xAE988FE; 0x8F348211; 0x32042B52; 0xEB0CEBD3; 0x7E6787C4; 0x26B8A526; 0x8C4D2549]];
  [[0x4D40ED72; 0xA3B46154; 0xF6CF3972; 0x3A096546; 0xB3E46D8C; 0x9C7BC931; 0x90486C75; 0x85B77BAD];
   [0x6EBD35E0; 0x95B706E5; 0x101E098E; 0xC1E18243; 0xF01C17E1; 0xF17C23FF; 0x85EC224E; 0x32235272]];
  [[0xFD24FA16; 0xE816235D; 0xB3AEBD7; 0x5306CBC3; 0x8BE25CB7; 0xDEF60A9A; 0x512999C2; 0x4B889A0F];
   [0x67B29FD9; 0xAB86A7F8; 0xB5461BCB; 0xB81C532D; 0xD34D9819; 0x810E9A0C; 0x3092515D; 0x1E353009]];
  [[0x21FB0BD9; 0x46826339; 0x3BAE50; 0x9CCE9A43; 0x2EB45B4A; 0xCD2216C3; 0xC7E0F2C3; 0x13598548];
   [0x54611984; 0x8B0BFD72; 0x89C0B05A; 0x705CB525; 0xCE880DD8; 0xD9073D87; 0x3DCAEB; 0x1EA534CD]];
  [[0xC58B4413; 0xC7AAC256; 0xE8054F96; 0x301109D6; 0x9C7E7860; 0xA1F44D2; 0x96F15424; 0x55D122BB];
   [0x1C14A8A9; 0x9A63098F; 0x4221CDFB; 0x8E01A9DC; 0x357B360A; 0x11C91FCF; 0x36A3CF4; 0x70C47AEA]]];
 [[[0x36A843D; 0xC0457C4F; 0xF1F593CB; 0x6E3E0801; 0x8C53873B; 0x1AADF2D8; 0xD140C8D; 0x5CEC5C7B];
   [0x328002E4; 0x4341A9AB; 0xC410D034; 0x11F22331; 0x5DB6A39D; 0xFCF69EF; 0xB84FDA1F; 0x3DD32A53]];
  [[0xAF8C811A; 0x19E52339; 0x92D46C4F; 0xC8B83800; 0xCA8463A3; 0x891C4185; 0x98F3FF1B; 0x5B51651F];
   [0xFB39DCA; 0x3D149607; 0xB1051394; 0x39ECCDE2; 0x1A14522B; 0x3633DE27; 0x7C59A9A5; 0x5FE55114]];
  [[0x2F0B507F; 0x68C8E0C6; 0x5B62C5E; 0xDABC8EEF; 0xE6165C1E; 0x297C943A; 0x7D7CA6D6; 0x337C6B94];
   [0xD6066191; 0x66F98FE4; 0x58945DA9; 0x745BFEBA; 0x3B29A546; 0x60044787; 0xE2D4EDF2; 0x2815651E]];
  [[0x63661218; 0x54A3BE74; 0x15E79415; 0x89C56364; 0x405E4932; 0xE03C6963; 0x9A619956; 0x86E101EA];
   [0x400DC92B; 0x47BAF2F3; 0x291E4059; 0x5C44512C; 0xEC6D7BF9; 0xD7F84B8E; 0x25AB8D79; 0x6CF42540]];
  [[0xB885DAFC; 0xD6E1B75D; 0x6128014E; 0x7A33CE4B; 0xEA9FF260; 0x80DF9948; 0xD2B5872B; 0x99E0A11C];
   [0xE2435510; 0x960BDC3D; 0x14F7A99C; 0x4B0ECC53; 0x5AC6170B; 0xE815DB8B; 0x17D5F2DD; 0x30956156]];
  [[0x57166FCE; 0xA035E3CE; 0x40A75B80; 0x71AD4095; 0xDB7D0BFB; 0x639C4EA7; 0xB12DBE6B; 0x7A90BE97];
   [0x75F86A60; 0x91AA30F; 0x509AEEFC; 0x67C0F795; 0x331629C5; 0xF028C12A; 0x8A1F7478; 0x90D26B1C]];
  [[0xB6AC2AD5; 0x6F01554E; 0xBC9A48D6; 0x9DD0576E; 0x97AE2605; 0xAB372013; 0xBB83852B; 0x1525D8B5];
   [0xE46E4C61; 0xD50680C3; 0xECB8F06F; 0x29FBBA5C; 0xB16637A3; 0x60A48AB4; 0xCD1490D3; 0x8BB47967]];
  [[0x4B7C7EA6; 0xA35A0187; 0xB4D6409A; 0xFE01521A; 0x8FDE1E30; 0x57CECE62; 0xF4F51D55; 0x1A9A9B2D];
   [0xE221AC58; 0xD33556B; 0x152508AD; 0xA4A1A34; 0x144AA33; 0x1FD61DA1; 0xEDC7C5F8; 0x4804BE6A]];
  [[0x5B363A84; 0x71EC815; 0xFE11ED05; 0x359C2A9F; 0xB8BBF9BD; 0xFDF80C9; 0x103ACCBE; 0x928E51A4];
   [0xD5E8A222; 0xD152B6E7; 0xCBE022C9; 0x6368E3A8; 0x3128B659; 0x2E5055DE; 0xD21F1062; 0x51E23651]];
  [[0x34834BF7; 0x5CE999D7; 0x3DC831E9; 0xE386394C; 0x7FE48564; 0x6DBD5ECA; 0x556841A5; 0x804BC07F];
   [0x229A9175; 0x2A8B616C; 0xA1B3EF97; 0xAEEB533A; 0x6F145037; 0x9D858F9D; 0x7F6A8EBB; 0x247FFAB0]];
  [[0x99EB4F3; 0xE616E779; 0xF1B1926C; 0x4F360D2E; 0x17055397; 0x28EE1F91; 0x844AFCF3; 0x9994D7FF];
   [0x12CBD801; 0x8824A949; 0x6A4484DD; 0xA3AFED4D; 0x3B5E36A5; 0xCB16CD67; 0xBC3BBEA9; 0x5490C30D]];
  [[0xD7601122; 0xEA43CA5A; 0xD248EB72; 0x9CF2A15B; 0xB71D18D0; 0x4CE8AB75; 0x41A19A5; 0x2576C5B1];
   [0x8CC1496E; 0xDE20FD02; 0xBE51831; 0xC9FE5B0C; 0x3A53ABBC; 0x9DC17E32; 0xF4C806FA; 0x94E24DD9]];
  [[0xDF1A4B3; 0x2A9CF5F1; 0x15063C08; 0xE0196754; 0xCCF88F77; 0xCE9CF2C6; 0xEFE91C6C; 0x51ACC7B5];
   [0xA799FE2E; 0xC2302EF; 0x69C0D117; 0x5EE756A4; 0xF4EAB1A1; 0x7E907EC2; 0xD98022DD; 0x19EEF95B]];
  [[0xA8E7FFA5; 0xB170D483; 0x39180FAC; 0x2052600A; 0xA68AF290; 0x8EAD52D4; 0xFF9E3641; 0x1B88CFE];
   [0x65BC2D0C; 0x3D9077F7; 0x3ABCDB1C; 0x2AF9CF67; 0x7295DADA; 0xEA104E74; 0xEB1E5D6E; 0x7DF23470]];
  [[0x8E53F40B; 0xF54D98D; 0xAF360481; 0xBFC22E9B; 0xE132666B; 0x309973B6; 0x25E783E0; 0x1F40D11F];
   [0xF00AC3EB; 0x8EEBC9D7; 0x2F9ADCC7; 0xBD725D82; 0x66EFDDCC; 0x47767810; 0x4ECCAF67; 0x60B0B100]];
  [[0xB98C7E96; 0x498E2074; 0x8BF31A9; 0xBEBF5183; 0x3894DBE7; 0xDD4AAD; 0x429878F6; 0x66C047A4];
   [0x6D0F1AB1; 0x16F2CB33; 0x58669ACB; 0x5FA2F181; 0x486F1BE7; 0xFA4B2F49; 0x5698F41B; 0x1ECAAF6B]]];
 [[[0x4DCC455E; 0x2999C212; 0xBEF617B8; 0x83897E49; 0x5A218E0F; 0x6B49CE26; 0x88EF7EA7; 0x49A5C9EB];
   [0xF63EC82C; 0xF0EDA5FF; 0xEAD471CD; 0x736D933D; 0xDF8071C4; 0x10E4431D; 0x38E1523C; 0x8C59C107]];
  [[0x5A54A4AB; 0x569FB74E; 0xF3384C14; 0x72788868; 0x107B417F; 0xBC840717; 0x7E13210C; 0x6682C107];
   [0x77B20150; 0xB3359FC2; 0xA9E03222; 0xEB923E66; 0xA10CF332; 0x490C39FC; 0x49BA035D; 0x69099C2D]];
  [[0x3CB2C6E; 0x64986720; 0x328B22BA; 0x994054A1; 0x6F0542DA; 0x4155C6B9; 0xA3B93FFB; 0x216CF760];
   [0x5C2AD753; 0x74486184; 0xA0CD3660; 0xE517984E; 0x3D7DA8A1; 0x6530BC86; 0x2E46CA79; 0x4328CF9]];
  [[0x4798CD35; 0x4100ADED; 0x635BAECD; 0xC832796D; 0x5B80E18C; 0x7EF1EA95; 0x426B1AA9; 0x6889A91B];
   [0x927C6F8; 0xC40A0A87; 0x2B86ED45; 0xD60CFD1C; 0xD57350A1; 0x98731DFF; 0x1DE4341F; 0x1C52EAE9]];
  [[0x23A40FAA; 0xC287E33B; 0x7A633BDC; 0xB96D9F51; 0xE6D0F326; 0xF6A5B779; 0xF619DE4B; 0x10203FE1];
   [0xC4F18BF8; 0x11FB53E; 0xBCA32CA0; 0xAEBB82F6; 0xF881818D; 0x6BF8ED5; 0x18247E6A; 0x3A6A3E35]];
  [[0x625DC1; 0x3BF2E96E; 0x5A288F80; 0xD81AD156; 0xB7CE9B13; 0x4C3269E; 0x2F9E2713; 0x3E18EAFC];
   [0x9D0BC74A; 0x20F0E05D; 0xD8140790; 0xACDB4B75; 0xF1B5B265; 0x12918A7E; 0x6896342E; 0x22A70AF9]];
  [[0x9C4B6B08; 0x326A28A2; 0xA17D3D57; 0x21302F37; 0xCE36F438; 0x181378E7; 0xFED12DE1; 0x42B07EBA];
   [0x468AD4C; 0x81DDD20; 0x64DF34AE; 0x32822EC3; 0x4B2192D; 0xE9F8D7C2; 0x918666F8; 0x6ABC7220]];
  [[0x4AF3956; 0x93330701; 0x872BD30D; 0xEEB7AA8E; 0xD0E67494; 0xFC96D106; 0x3A918DFB; 0x516028CF];
   [0xFB27B6EC; 0xFAF0B6F7; 0x515DA78D; 0xFAD73AD; 0xD8CF1934; 0x5F136068; 0xB6052802; 0xA526E04]];
  [[0xE4685212; 0x20DF0DEB; 0xA41B293F; 0x71D4BAC1; 0x2FA8BBAC; 0xBCC32A2F; 0xF30CC343; 0x32A8723A];
   [0xEF95ACFE; 0x71E6DAAF; 0x9F445394; 0x27D158F6; 0xE186B246; 0x2140F78D; 0xCB1C83AD; 0x4CAF98C3]];
  [[0xB6F63AA9; 0x94E264FC; 0x4D0FE485; 0xF4637B02; 0x69CCB4E; 0xA4BC0A03; 0x9E25E817; 0x99A81E37];
   [0x8F4D37BB; 0xE3B804A7; 0xE38E654C; 0x57F272A5; 0x5928F65; 0xD1852C; 0x4345DD06; 0x3031B713]];
  [[0x57536140; 0x6E42AF11; 0x5A403F; 0xDC5B7CDC; 0x26527417; 0xE6EE185E; 0x7C685BCF; 0x1003D013];
   [0x192979E6; 0xC2206BF6; 0x6FE38214; 0xD1C370DB; 0x92F3C044; 0x78D105B7; 0xBFDF8DFA; 0x2F0DF6B8]];
  [[0x44D04C4A; 0xB02FCA38; 0xA44566C6; 0x956A2F7C; 0x9F1F09C6; 0x60672DF3; 0x2160C362; 0x6459A949];
   [0x8714451; 0xDAE54341; 0xBFFD7CF6; 0x48B77A0D; 0x3EDBC8D4; 0x615ADBFE; 0x35B67D2F; 0x3338E557]];
  [[0xDD24A0F0; 0x601D49D1; 0x48EF27B9; 0x60A48DB7; 0x97A8BAC6; 0x97F2212C; 0x155AB524; 0x376B0292];
   [0x62E2A961; 0xA25881BA; 0x2B8C56F7; 0xEB74CC80; 0xDA57C41A; 0xBE5C5DD4; 0x2D16AFA0; 0x53D0D037]];
  [[0xCA291206; 0xE47C9EAB; 0x42D5C667; 0x25DADB64; 0xD886993E; 0x8C154CB6; 0x806B932F; 0x11DEC39C];
   [0x13D4B4E5; 0x51A4DCF3; 0x9D1D822A; 0xAA1DAD6D; 0xCEEF2E29; 0x2BB2E14D; 0xB2343BE3; 0x429C13C7]];
  [[0x297F709D; 0x4E8E953F; 0x262D862A; 0x23183A3D; 0xEA12D93F; 0xE164A10D; 0xFE703920; 0x386C2873];
   [0xE5C51C7E; 0xD59E1582; 0x20F6A2E; 0xA8C93B5B; 0x160CD058; 0x51518BD0; 0xB1D38AC7; 0x3337801A]];
  [[0x2F5D9E25; 0x6E251533; 0xB0D6B0DB; 0x88E76135; 0x9E6762D1; 0x5C197832; 0x84E620AC; 0x12326773];
   [0xE2694DD; 0x3B88DF27; 0x30A23CAA; 0x30FED9E3; 0xA23DF142; 0xE12DD93E; 0x2EA77C07; 0x6778F51]]];
 [[[0x49E5F6B4; 0x5D5BE00E; 0x721EF9DC; 0x2F47E7C7; 0x7EAFC098; 0x338F7B00; 0xAF8C2475; 0xF5F06E3];
   [0x63122B22; 0x2A4B845C; 0x89A4CE9A; 0xED440060; 0x9A86D9BC; 0xC9EEB640; 0x2F39B439; 0x12C3E0F3]];
  [[0x17766F6C; 0xB444B88B; 0xA41FD692; 0xF9B100E6; 0x5C149B30; 0x81EAFCD1; 0x1D521A1E; 0x37DD6F6E];
   [0x389DCD6E; 0x14DBE8C3; 0xDCBC7FC; 0xCD24D655; 0xE00F9102; 0x5F8D48E; 0x509D18D4; 0x403954E6]];
  [[0xE4FE16EC; 0xA04FDDDF; 0x90E15C0C; 0xB9E7FA73; 0xC77FAB6B; 0x7D6A7206; 0x3E221F12; 0x3FFDCCD1];
   [0x47B5BB7F; 0x120C05B1; 0x5B7E2B96; 0xFA3614C0; 0x4A6AC6E0; 0xF3A4F07F; 0xC8AD4F23; 0x324BF48]];
  [[0x55DF2F18; 0x508A0370; 0xB872F209; 0x1C6C91EA; 0x8E12F437; 0xDC3F6C5A; 0xC91AFD75; 0x65F5058F];
   [0x5A859A1D; 0xC43613D; 0x5BF96A6B; 0x83A2610E; 0x1496AEAD; 0x1A98AA4C; 0xE6CAA901; 0x3AB1CE5E]];
  [[0xFFB3E411; 0x9420ABFE; 0x31404E74; 0xCE609760; 0x2C49837; 0x3D4C23C5; 0xD0868A3C; 0x6B79FB14];
   [0x6B5861EA; 0xB4EEE8DB; 0x9D948195; 0x495E2B46; 0x1CE15EC9; 0x2BB0BD94; 0xDED25955; 0x6CE79F80]];
  [[0x5820DF65; 0xA6B98C1D; 0x909356B5; 0xE8284737; 0x91340E1; 0x38E8609A; 0x10666012; 0x98EC077B];
   [0xBF075DAE; 0xFB243B1E; 0xA270FE31; 0x32312BAC; 0xCAA5F8E; 0x21451120; 0x2A515015; 0x8F60118F]];
  [[0xCBDEB88E; 0x4F211C9E; 0xB6D680FD; 0xF6D3CC3A; 0x8BF4B4A7; 0xE193829D; 0x2D620371; 0x3223EF4E];
   [0xC0E5245A; 0xC3E35420; 0xB4ADE2EA; 0xD3F4F894; 0xF2CE985E; 0x464FCB6C; 0x7B987FA7; 0x79CF596D]];
  [[0xC0016FF; 0x730748C; 0xA2949069; 0xD02115C5; 0x40E9C7F9; 0xAA6F794D; 0x79149C37; 0x9514FA7B];
   [0x5A46BCE0; 0x6E2F2778; 0x837ACD5; 0xF55D46C6; 0x1E4223E6; 0xF965C468; 0x85D90A07; 0xBFF0A91]];
  [[0x1923C8AF; 0x9ED90358; 0xA470AE00; 0xC425B633; 0x1C50FDAD; 0xF9F4B162; 0xA8CA2BD5; 0x999D072];
   [0xAF74D4C3; 0xCB122FBD; 0x2C283752; 0x372C13F0; 0x82138B19; 0x9F42A903; 0x3EB8CB95; 0x573A2CEE]];
  [[0x3AC2E191; 0x6C3A6BE3; 0x1B222DB2; 0x4149E0EB; 0xA4AACC55; 0x5BA91005; 0x1BFADBD0; 0x176BD33D];
   [0xA8DA0FEA; 0x4AEAF14E; 0xA7FF8E1C; 0xB12401F9; 0xF192414; 0xF1EF39AE; 0x416743C1; 0x95D433D3]];
  [[0x9AA0C238; 0x29ECF54D; 0x8FCA6419; 0x3762F1D7; 0x64D3AAA9; 0x761D786A; 0xDAEC7BF4; 0x7A8A677D];
   [0x324676F4; 0xC2829EAD; 0x4D0B291E; 0x4E504A47; 0xF8C4F384; 0x360CE7FE; 0x78CDA37D; 0x33A577B5]];
  [[0x333103FD; 0x1BBFC128; 0xE45C9DBE; 0x3D36045C; 0x15C9013D; 0xA8D53F5A; 0xA33FDCFD; 0x99D62F8A];
   [0xA81F581; 0x73E53961; 0xD00BC0D9; 0xD01AD20E; 0x1F6D9B73; 0x59701F4D; 0xE098E536; 0xF4EBFBC]];
  [[0x91E3C062; 0xBDB9368A; 0x9B17AAE5; 0xCD66A0B1; 0xB4537E05; 0xB6636DD7; 0x73B119CE; 0x37D94B8E];
   [0xC7428FF9; 0xA5F8E90F; 0xF8EA9F03; 0xE7E5B2B7; 0x5B3506DA; 0xB7F20FB8; 0xE494FFDA; 0xF4AB6D5]];
  [[0x85365933; 0x3ACEE3BD; 0xBF510114; 0x9D5223D3; 0xA08D01B0; 0xE0D7D9A7; 0xB2F1F61F; 0x28FD329A];
   [0xA5909DD3; 0x3E16A2E2; 0xB4FECB35; 0x284A8708; 0x73D5BFBA; 0x190F7B3A; 0x92EE4BBE; 0x7E07982E]];
  [[0x44945687; 0xA30A4C22; 0xD688A301; 0x657C0F2E; 0xBBB3E65A; 0x9B558D4A; 0xA6E57844; 0x8044D57E];
   [0xE3957E21; 0xF202E50E; 0xCE62FCC9; 0x4957E651; 0xC4ECE0B8; 0xF7B9EBA4; 0x61167229; 0x29532CEC]];
  [[0x3EEF3D71; 0xE9DC8EA6; 0x3E8EC117; 0xEBF76BD4; 0x2EA072B9; 0x48CEB78D; 0x73EFC32D; 0x82ECDFC4];
   [0xE2C89E7D; 0x51B02CB3; 0xF4D9100F; 0xE9D0740C; 0x8A5E3F48; 0xBB556EFE; 0x1D01B44E; 0x864E52DA]]];
 [[[0x14EA6DC5; 0x5A75E0BD; 0x532EFED7; 0x9F2AA76; 0x83CE5A18; 0xE6DAE0A9; 0xCEB4E78D; 0xF9BCB7];
   [0x71F79BF3; 0x128FB51C; 0x80D5DBC3; 0x78C79788; 0x9B816B9E; 0x2752F02C; 0xEB7622E2; 0x88CFBA0C]];
  [[0x268432A3; 0x845AB940; 0x2F94F6D3; 0xA8D0231B; 0xFEC02130; 0xBDFB3F91; 0x5F62419F; 0x7A61AE4];
   [0x192EBF1A; 0xD1C951DF; 0xFA232E34; 0x22CDCFF5; 0x3A7581DD; 0xDFDF121B; 0x710403A5; 0x9865ECA2]];
  [[0xF8180BAB; 0x609F4527; 0x50A6D914; 0x93AB1072; 0xE2EEE3BD; 0x299D5013; 0x42959C14; 0x36EFCE5B];
   [0x1045FFCB; 0x49CDA60D; 0x45723371; 0xA8B2492E; 0xF243FDBB; 0xCB75789B; 0x871D500D; 0x8E1079D7]];
  [[0xDB14298E; 0x69852694; 0x41A56B6D; 0xBAA92A95; 0x3DBFDBA4; 0xC7371848; 0x947747F8; 0x94B3155C];
   [0x7552426B; 0x97BCDD19; 0x32682121; 0x4FB3E76D; 0x8BC15FCA; 0x875AA0F7; 0xF1FD2315; 0x4065BCDF]];
  [[0xB7F1ED04; 0x2D1C0519; 0xEA2535E1; 0xED9A1BB7; 0xABAE813E; 0xE4728CD6; 0x21A771D0; 0x2CD7D447];
   [0x59B9E964; 0x88E2A785; 0x6F9B5374; 0x2677FBD7; 0x2645B626; 0x3967D6C5; 0x5A1C315B; 0x8843F7DF]];
  [[0xC7055A4E; 0x673CD273; 0xEE827873; 0x52AC45C; 0xCE1981F3; 0xC26B9214; 0x2B8EEF59; 0x3C39C13C];
   [0xB276D47; 0xDD9E1B9B; 0x7287F9A1; 0x6729A534; 0x61DAD53; 0x43E1471C; 0x118B56C8; 0x6082FAD9]];
  [[0xF99186D6; 0x9C3872AA; 0x75AC99BF; 0x1D9E8DB6; 0xE338DBD3; 0x6FA7A0FF; 0xD1FEF2F9; 0x1EDF44EC];
   [0x1F9114BF; 0xBAF9D33A; 0x3007B6A5; 0x89AF08E5; 0x8436D917; 0xAA04B169; 0x6AFCF5E0; 0x8381E76A]];
  [[0xC1D799BA; 0xC51848A4; 0x7F40B34B; 0x6C3D43A9; 0xA5CB7B95; 0xE8DAE074; 0xBB5F8AEC; 0x5375B1EE];
   [0x507099E6; 0x461290EE; 0x3BAD89AD; 0xB95934AA; 0x701A4D9C; 0x9A6E5C22; 0x5E1389F6; 0x2CA79144]];
  [[0xE5108FC; 0xBF82F786; 0x644D06DE; 0x3620CCC4; 0x8E5C4753; 0xB65DE853; 0x9FEDFD16; 0x6DAB7241];
   [0x546DCBA4; 0x4CECAC87; 0x3E2D0684; 0xA7BBE65D; 0xDA1E4FFA; 0x92AA490; 0x41AD32AF; 0x78F448BE]];
  [[0x4A33F071; 0x321580FE; 0x5EE5E685; 0xBEA845D1; 0x47AC8ACF; 0xC73CAECE; 0xA9F65F05; 0xE15E55D];
   [0xA59506E7; 0x5FC47420; 0x1DBD2DD; 0x501417FF; 0xFB1205A6; 0x8EF23280; 0xE0F43AE8; 0x1AA26168]];
  [[0x8149EB2A; 0xD41F73B1; 0xAD95D531; 0xC297AF04; 0x749E415D; 0x2017176F; 0x8357CE9A; 0x5AF89C73];
   [0x8A0FF9C; 0x301F7C79; 0x98695C57; 0xC2999B5; 0x6E4D8FF5; 0x85679957; 0x6F493B1C; 0x2CC0FF3E]];
  [[0x4AF481F5; 0xFE90F904; 0x31BC4919; 0x562C78B; 0x70E4F140; 0xAA44AA56; 0xA175159A; 0x1B61DEB4];
   [0xA7A7E648; 0x85315DE1; 0x6C012B33; 0x4BC1F51D; 0x60CDEE6; 0x40CB5DE3; 0x32A1E138; 0x969F9196]];
  [[0xE05F23B5; 0x3B317508; 0x512D1156; 0x7B1A93AE; 0xCB58EC19; 0x3A283415; 0x8E27CAD9; 0x193A53A1];
   [0x3DE1BA8; 0xCF6BBEBA; 0x47A02393; 0xFA5544CA; 0x8627F5EB; 0x8B3AAC1A; 0x62EAF195; 0x2FAD2EC]];
  [[0x259CCF0F; 0x4F8D8ADA; 0x562991D7; 0xE4E6786B; 0x597C3FD3; 0xA1C63473; 0xACAB6F16; 0x1F5B9017];
   [0x592D437A; 0x95B201BD; 0xED14F859; 0x54432A75; 0xB551AC1; 0x67EF73FB; 0x7F1AB9CA; 0xA48F043]];
  [[0x4A35445C; 0xECEE508E; 0xB3EA6F9B; 0x80BE9F07; 0x87E4B78E; 0xD914B256; 0xF89B8E4B; 0x97F79CC9];
   [0xC359FB12; 0x6A5B4F2B; 0x99CF6FFA; 0x54E6E37A; 0xF7C66CA8; 0x1133C4B2; 0x345866B; 0x6F679B28]];
  [[0x44E77CDF; 0x6F7A1; 0x42033333; 0xD8077F9F; 0x21EAF35F; 0x414ECE5; 0x5623803C; 0x1211576B];
   [0x140309A7; 0xEDADD215; 0x5EBAE3BB; 0xC349C657; 0x821DE06B; 0xBD40427C; 0x3F5D2F97; 0x8949ACA3]]];
 [[[0x22E3D44; 0xAC1F87E6; 0xB39F6B10; 0xDFC17BED; 0x7119C4A; 0xEAAE4168; 0xDBD47D36; 0x8B3B40BC];
   [0x861B7B59; 0x6683A561; 0x13A6C76D; 0xF9BFFB17; 0xA30A05AC; 0xE4E72EA4; 0xBA0D2AD6; 0x77C219E8]];
  [[0x66BE6944; 0x5019824E; 0x7B131070; 0x811ACEBE; 0x3BA34677; 0x9730DCF0; 0x7BC9CFC8; 0x5B9C5CF5];
   [0xB283C8CC; 0x1CBD950F; 0x3973A325; 0xF66DBDDA; 0x6FA60257; 0x4EC5EBC2; 0x36FF26B3; 0xC01D577]];
  [[0x7CE2BE74; 0xBB221954; 0x841E6C0C; 0x23E44E0E; 0x77C3824E; 0xE760D33D; 0x7EB3CE34; 0x5B656FBE];
   [0xC5F3D66E; 0xEC50E509; 0x496EF8BA; 0x5326C2B8; 0x3D4B20D4; 0x3F9485F6; 0x51C21B0E; 0x11B74A85]];
  [[0x25E30336; 0xC3EAEB04; 0xA6E3637F; 0xA9D6C70F; 0x86F77F68; 0xF818C37E; 0xC60DF35A; 0x786ED3C2];
   [0xD56D705A; 0xACA70EA0; 0x7BF4EF10; 0xCE61608C; 0x1722C179; 0x49AD1CD8; 0x687F3222; 0x1B84FBE9]];
  [[0x35EE0BA9; 0x8A0F4BF1; 0x3952A08; 0x42AD2846; 0x3B60B4DD; 0x1E0E1E3B; 0xF5DCAD76; 0xDC1A947];
   [0x1F496E03; 0x54BECA4; 0x3AE6E6F6; 0x8F02FDAB; 0x9B71C9F5; 0x8851CFF4; 0xA7441F87; 0x6BD7271C]];
  [[0x9EB6A2C3; 0xB019E346; 0x931E7550; 0x2B719034; 0x40698F1F; 0x2B2CBEBD; 0x4F1FC587; 0x375DB591];
   [0x676A79A4; 0x9843166; 0xB416D657; 0x91848967; 0x9FED6B27; 0xB49EA721; 0xD080C8AA; 0x1FAC5650]];
  [[0x58C4C2AA; 0x205CD588; 0x17F572EE; 0xBEEE26F8; 0x4CB4DE3A; 0xE744AB67; 0xCBE989BD; 0x37E34E18];
   [0x767D31B5; 0x95D9118B; 0x83E7C03E; 0x9A34DBEC; 0xB8F70DD3; 0xCAFDBD1A; 0x3909BB51; 0x1E68A681]];
  [[0x9FD96ABA; 0xFE0A5DFF; 0xD99B68DE; 0xBBFB1FDF; 0xE3F522BE; 0x5E232A4F; 0xA6428D33; 0x768C2C54];
   [0xDBF1A575; 0xE9CFEDF9; 0x4B83F9AB; 0x841721F2; 0x80A85361; 0xFAD9650A; 0x4979759; 0x31589211]];
  [[0xEFBF2099; 0x1CF9F4B8; 0xF571408B; 0x63D5499B; 0xEC3E74A6; 0x89C119FC; 0x698E4DCD; 0x525DDDF];
   [0x7333A38C; 0x43FCDDE4; 0x80A912DE; 0x2150EAD4; 0xA19CC55; 0x4B3BD223; 0x238AC64C; 0x3553EB4E]];
  [[0xFEC2371F; 0x3A259F52; 0x44863D3E; 0x8B03C505; 0x86BB6522; 0x1053E2D6; 0xF7086CBE; 0x400CE699];
   [0x3ED78DE; 0x695B1EA0; 0x16500E1B; 0xAE6D09; 0x14B01815; 0x9F29B089; 0xC218D892; 0x269692B4]];
  [[0xF0D44E79; 0x8660280D; 0x37C0F38F; 0x69D29685; 0xB9E24AD8; 0x664B8146; 0x1E695452; 0x277CB4DD];
   [0xDFBF05EB; 0xB1A02D4E; 0x4A1426C7; 0x3B349308; 0x22204FE7; 0x13B79612; 0xBCB5CD9F; 0x4F80867]];
  [[0xE0852CBC; 0x37BDBCAE; 0xBE22764C; 0x2A6D7A23; 0x25AFD9FF; 0x4E0D43AC; 0xD16DD9EB; 0x1F6C9E14];
   [0xB4B0F47A; 0xE37E3AB3; 0x6C476C3A; 0x9E046FB; 0xB75FA2DC; 0xB8F649D9; 0xFAB1AC41; 0x7962A8C4]];
  [[0xF6A1314A; 0xE41470; 0xE4388464; 0x176380C3; 0x9B8A2B4D; 0xDB3405CD; 0x7DE02ABC; 0x6299A1A6];
   [0x7BBE7BFA; 0x9F6B9DE7; 0x9D3098DD; 0x59F16F54; 0x3B5767FE; 0xFEC29C8D; 0x64955759; 0x67711BC0]];
  [[0xB1B07B5D; 0x34444EA3; 0x91FA2B4A; 0xB1D973B4; 0x83403A0E; 0xEBEBEFB1; 0x8E8A8EC6; 0x56D52098];
   [0xA7E82D55; 0x11C93529; 0xD525C399; 0x9230AE03; 0x8DB46C82; 0x74E1CBB2; 0x40BE5E15; 0x4C3383CC]];
  [[0xCDAD72F3; 0x33A52E73; 0xB9E77759; 0x1D2CCA33; 0x549406F5; 0x26717716; 0x5B3DB3E8; 0x70DED57F];
   [0x43C85A67; 0xBA38F813; 0x35422BB3; 0x956F2DD7; 0x7486F18; 0x52D9FA99; 0x75D1D2C4; 0x655791BF]];
  [[0x1FC9E0B3; 0xF434A960; 0xBEDE92AD; 0x42A7B891; 0xA55A8009; 0x5A182D8; 0x38531612; 0x3404E08D];
   [0xF07D76E3; 0x2B5B2766; 0x1D77B90C; 0x94B1A98D; 0x4B18BB9F; 0xA86C0EC8; 0x526A81E3; 0x6532770F]]];
 [[[0x61CFE04A; 0x4429A4E8; 0x2C9CA012; 0xEE867386; 0xC32D1969; 0x237A3040; 0xAE2DFAE; 0x400AD599];
   [0x213C0A18; 0x1603D10A; 0x2B1E2A57; 0x6EB8042D; 0xC7CAF556; 0x4C9C1696; 0xE0C1A5A3; 0x79BE04A7]];
  [[0x3FCB8B14; 0x161781E3; 0xB1384C3C; 0x1383E3B8; 0xB566626C; 0x5129EA19; 0x551DE02A; 0x8A1F86E4];
   [0xAEDBE04C; 0x9C648CCE; 0xFB200132; 0xD4278AC; 0xC1E2D4A3; 0x466D452A; 0xB21B6E38; 0x832B0E6E]];
  [[0xED1D76C7; 0x20101D7C; 0xC110D85E; 0xC3282661; 0xFFCA2DD7; 0xB8026CE4; 0x8BA48211; 0x73B4EBA5];
   [0xD8554E2C; 0xAB94FE21; 0x81B2A181; 0x319E2FD7; 0x37E8D3E2; 0x2C824DC5; 0x9FCA0AB; 0x97CD457A]];
  [[0xC50116CB; 0x8E4B5FBD; 0xCA631A93; 0x3D20CECE; 0x545575D8; 0x5F80606C; 0xF91C7908; 0x45ED55DE];
   [0x7CC1083C; 0x91870A92; 0xD360FF5C; 0xA3828E06; 0x84003D42; 0xFC9DFCDC; 0xFAC4667F; 0x733C887]];
  [[0xCC2FC31B; 0x6F1F771A; 0x902E8176; 0xDA9351A1; 0xCE3FF045; 0xFB9395AF; 0x13820DAB; 0x17C28CA2];
   [0xA684E6FA; 0xA1F596BC; 0xDAD3995A; 0x89228CC7; 0xC02E458B; 0x5DBFD421; 0xA2122AFE; 0x58C25045]];
  [[0x18EADB0; 0x2906450F; 0x9030C84E; 0x88A7A236; 0x33308084; 0x492BA7A3; 0x5605F371; 0x321388B9];
   [0x626AE19A; 0x5F934C94; 0x1C7CCD9; 0xE2BD6C67; 0xEC0BBD52; 0xB07757B1; 0xF9EDD2AC; 0x1E980338]];
  [[0x8831457C; 0x5A537074; 0x47E7B9A9; 0xE0E22FB; 0xA225A259; 0x7BE70594; 0x30946816; 0x433DB055];
   [0xE2F2C3CB; 0x852EA9F9; 0x2D243848; 0xDC4E8E3A; 0x1E887770; 0x10F34AB8; 0xC89FC71B; 0x29795D2C]];
  [[0xCFEC2C6F; 0xE046B04B; 0x2CA8256E; 0xA1D3B5A0; 0xE87F767F; 0x93F7FDFA; 0x35FA3837; 0x2DF5693E];
   [0x97884587; 0x71D9638C; 0x39E115EC; 0x175EA91F; 0xF41A27FC; 0x14E16C31; 0xEB2F5913; 0x8B2682EA]];
  [[0x798C7F28; 0x2BCC6853; 0xDD7D3615; 0x2F985A59; 0x41D2257A; 0xA66519E1; 0x21F719B; 0x18731D74];
   [0x360E9C20; 0x7210472C; 0x329A9B35; 0x4FB48411; 0x87D62CA5; 0xB33B6CB5; 0xFD0D7703; 0x86226D9E]];
  [[0xF67CB77C; 0xDD133F8B; 0xF6ABEE80; 0x381E4D62; 0x7DF85AE5; 0x3236F005; 0x4610BB0E; 0x88EBB386];
   [0x8DB908D8; 0x895AA539; 0x104C4633; 0x848142E6; 0xB8012B2E; 0x467EE770; 0x1B9210EE; 0x193CBAED]];
  [[0xC1F44FC1; 0x737CD32B; 0x522B6209; 0xCDF82B1C; 0xE0017F2A; 0x8F4BB70; 0x64738F26; 0x1565BCEF];
   [0x684DCF67; 0xD2910B9; 0xC6F3EB81; 0x4ED1734B; 0xDA1D6BC8; 0xCBEA79B6; 0xEE6A41D6; 0x470CE36]];
  [[0xBA05AF3C; 0xECFD5C66; 0xEB9BFAA8; 0x421D5540; 0x526CFF85; 0xFC0E5AF2; 0x53DC49A6; 0x7E17F1E6];
   [0x1FAEB0A2; 0x69BB1DFB; 0xB3785ED4; 0xDC95661A; 0x676D7CD0; 0x1F1D7395; 0x89C6412F; 0x2C16BB96]];
  [[0xEE414CA6; 0x2335F20E; 0xFEF5E042; 0x56E0DDB2; 0xD9DE2966; 0x942D4E35; 0xCF63D583; 0x80E92B8C];
   [0x5D492C76; 0x158BE1B6; 0xC4F822D9; 0xFF096960; 0x5AF79379; 0xC00FC730; 0x50D34E12; 0x7C49B03]];
  [[0xC34836C8; 0x64678B2E; 0x615FF066; 0xCC280DCB; 0x9131EC98; 0x86C3C747; 0x2D151FAD; 0x35B008CC];
   [0xF8133FDC; 0x22C18852; 0x2FE8809D; 0x183BE4DC; 0xCF98D56D; 0x86589814; 0x2F6E0DE4; 0x52D8074D]];
  [[0xC9274AA6; 0x33FF9F41; 0xCA854AF1; 0xAC30ACB4; 0xFBC994B7; 0x87A7BE53; 0xDBCD717B; 0x6E7E8B2A];
   [0xCD494AB6; 0x3065A732; 0x60FD7F57; 0x6F977B87; 0xB74BAD54; 0x4C216EB4; 0xF6061F7A; 0x674F00F5]];
  [[0x3164AFBB; 0xA8C22481; 0x72A7AC55; 0x4C9E2F1D; 0x79DEFE94; 0xE3DAC3E3; 0xBB9D953F; 0x193A1E0B];
   [0x7E0957EE; 0x8852020C; 0xB62F8EF7; 0xF7FD181E; 0xE26B8860; 0xDE7EDDE; 0xFD1B00DE; 0x53A05575]]];
 [[[0x63E0C8FC; 0xE5D63E1B; 0xC684016A; 0x6849B530; 0x9318AD; 0x4E89CB43; 0xEF571911; 0x1CDC5918];
   [0xF389EAF3; 0xA6596C03; 0xE88975F9; 0x9282C1B3; 0xD53D3F2; 0xD07A2AEF; 0x2B3B602C; 0x3DA515D5]];
  [[0x8A5436EA; 0xE4285781; 0x36D65626; 0x47E3056; 0xE16489A0; 0x16B568; 0x75A0209C; 0x44603196];
   [0xBCC19754; 0x2BE99A51; 0x5ACFCDEF; 0xE02EAFD0; 0xAECACABB; 0xB0A1E300; 0xAC1860D9; 0xF39CBDE]];
  [[0x2099F08E; 0x50DA5372; 0xCA4817B1; 0xAA6AAAD1; 0x57D73192; 0xA4DDC5FF; 0x7682D453; 0x46043AC];
   [0x28CF3F48; 0xC8EB1788; 0xDCA184D4; 0x3967A02F; 0x86221941; 0xCE68B79; 0xFD3A197A; 0x27BDCA48]];
  [[0x563D7A91; 0xD774E33C; 0x7AE1C92; 0x1C309DAE; 0x57DBE6A8; 0xDABA89B4; 0xE5820FA4; 0x90C62517];
   [0x11371109; 0x23C64605; 0x15605666; 0x1176AE7E; 0xDF040DCB; 0xD71E9755; 0x62ED515C; 0x5312A5B3]];
  [[0x7A5FB9E0; 0xB7AA3A11; 0x18E2CB32; 0xA769BC72; 0x6B73E050; 0x9D551B9B; 0xDB067CBC; 0xCE51DF0];
   [0x4A0E06BE; 0xBF90D5; 0x7EE820E7; 0xFEC6E7B3; 0x3334937A; 0xDFBAC083; 0xCE14CF46; 0x46884935]];
  [[0x902EF3A9; 0xC3F31EAF; 0x5CCDF002; 0xF3B6E6FA; 0x88CDDE0F; 0x5A9B5321; 0xE8691FED; 0xD99E43];
   [0xCFE02C8B; 0x8E786F52; 0x4DD36F8E; 0x587AA537; 0x425CC228; 0xBCA91CAC; 0xBFA9C36B; 0x80AA8AA9]];
  [[0x9B20505A; 0xAD4A2AD0; 0x16739066; 0x6D708029; 0x89F73B52; 0x729001F3; 0x8073A428; 0x77480347];
   [0xE84DB3B4; 0x1AB38F07; 0xA6655769; 0xE643D756; 0x46C19856; 0x5631359B; 0x1C3DCD1; 0x82530A32]];
  [[0x2DDDB968; 0x9250EC26; 0x8D82A03E; 0x63D99CBF; 0x41349B60; 0x4FBFE784; 0xA15BF2B7; 0x6977DD07];
   [0x68513C32; 0x771917C6; 0x8F0064F7; 0x2603518; 0x51D78637; 0x45A57429; 0x87293790; 0x56BF57CC]];
  [[0x32E6426; 0xBAC94E24; 0xC2531B26; 0x7D54AE34; 0xCD688082; 0x4D6EF608; 0xF5AA4BEE; 0x736E7ACF];
   [0x6AFB84E2; 0x41D5BF6C; 0x6E976E09; 0x40E12DA5; 0x2235F7B9; 0xCBF32FCB; 0xA21BC0E0; 0x285DDF46]];
  [[0xCE751632; 0x66C6A76E; 0x32A61A1D; 0xBD457D0E; 0x78191C57; 0xFA12A7C8; 0x6611B5E; 0x30ED98B];
   [0xF4972FFD; 0x199F7756; 0x9C8AAB09; 0x298D98E6; 0xC5B02158; 0x2186054C; 0xB9B1147A; 0x736CE4C]];
  [[0x19BFA57D; 0x33E4A4CA; 0xAA70C35D; 0xF02F6D32; 0x3CC082FD; 0x9EA10B63; 0xD00E82A8; 0x86104E8E];
   [0x87797E25; 0xACBA5E73; 0xEB85A796; 0x24DD98A8; 0xC58AC480; 0x2748827; 0x6A932D80; 0x5B4480C7]];
  [[0x1992B174; 0xF9E210FB; 0xBE22636E; 0x3CFA6EF1; 0x3BDFA2BD; 0xA46F202B; 0x441B96D2; 0x8C83B3DA];
   [0x8AA39AB4; 0x3BB2ED8B; 0x9CE53FB2; 0x4DB63B23; 0x46DC2104; 0x24AC8A98; 0x68E20D1B; 0x997BC4A7]];
  [[0xD1C0D629; 0x4CDF8757; 0xA64B6058; 0xBA155719; 0xBE3FB0B1; 0x82FD0DA3; 0x3E34CB1; 0x12F50694];
   [0x2E7DFEB; 0x8993EE38; 0x3D7A758E; 0x2FC240C6; 0xAFF7CC7B; 0x75CB6F62; 0x71B02A5B; 0x2D73F74D]];
  [[0x550ADA69; 0xB7B920A; 0xD2F1D5C2; 0x87D29F08; 0xEEA99A38; 0x6E36EF9C; 0x79D7626A; 0x624874C1];
   [0x17F026E0; 0x9FCA1B2E; 0xA3A79C2E; 0xBDBE18E5; 0x6E1B0C6D; 0x1506DE6A; 0xAD2A2C5F; 0x860CCD71]];
  [[0x28715EF9; 0xA15CB0; 0xB1C0ED6D; 0x71F337D8; 0xF998251E; 0xBD7E6892; 0x8E0A4E9; 0x4C5AB311];
   [0x567342FB; 0xDFD51293; 0x5AE3193B; 0xF202FCD1; 0xAF59A5A2; 0xE317C933; 0x5055DE2A; 0x300FE083]];
  [[0xC58E7AE9; 0x279A071A; 0x4C718A8B; 0xCED1F2F4; 0x5FE7F6E5; 0x3A8C0D1A; 0xBB40DA93; 0x789C9B04];
   [0xBF2A0B9B; 0xBB7EA922; 0x3A484413; 0x5DD7A04A; 0xC5912F93; 0x3E1F49FB; 0x61ECAB05; 0x4D8C07A5]]];
 [[[0x9706D4CF; 0x7D351007; 0xB9BABB1F; 0x3E2B3D2E; 0xA2E423EA; 0xC73745BF; 0xF59601A0; 0xAB3940A];
   [0x2A895C4F; 0x8881507A; 0x68652263; 0xF27F6F40; 0x88A416BE; 0xCFD91814; 0x1B4F51F6; 0x13459BC3]];
  [[0x1C7C38A; 0x6D830E0C; 0xE27DA48A; 0xBA912BD4; 0x4AB8B5A6; 0x3828F433; 0xE35E88DA; 0x3F858E6C];
   [0x6E1C033C; 0x137F2E3A; 0x7E670398; 0xFC7C8953; 0xF5C3D4DB; 0x6FF761CE; 0xEED1029B; 0x53A02906]];
  [[0x56779C20; 0x5C597BA6; 0x43A87346; 0x366688CC; 0xA55ACF91; 0x19F6DA4A; 0x182DEC58; 0x280ED592];
   [0xA1D3EBDD; 0xA1F3A7A; 0xC9F474A; 0xD92B6078; 0x19AE00DD; 0x38D0335E; 0xA97F33F7; 0x94A5772]];
  [[0x312D2694; 0x26A9029; 0xAB5B34B8; 0x95408516; 0xDED270EA; 0x9FFA9AB1; 0x493E5935; 0x1F9DDC52];
   [0x17244394; 0xAC7F94C1; 0xF28C9DF; 0x18FC29C4; 0xBD817BD9; 0xEDE29238; 0x8E2A7E40; 0x20DBF9AF]];
  [[0x7648CA5C; 0x9365D9; 0x2BF27488; 0xB168191E; 0xE3B91112; 0x2481BFAA; 0x3D6DB830; 0x744C505B];
   [0x3C464704; 0x21426D8F; 0xDAF85A61; 0x283F59EF; 0xF2716102; 0x278B5F8E; 0xFE7E7EC; 0x95B80D82]];
  [[0xF327664D; 0xD15ADA08; 0xFE904AF8; 0xF26E3232; 0xF99471C6; 0x2763DBA6; 0x15F30827; 0x4BC97139];
   [0x5F154BF9; 0x8523812E; 0xDE17F8F9; 0x839059F; 0xBC16678D; 0xEA151382; 0x7890C4EF; 0x68D01E62]];
  [[0x9487556B; 0x37FAC9FA; 0xFB4DC83D; 0xB4DF5C53; 0x92969151; 0x1EF42D8C; 0x8B0ED349; 0x6C0A9D18];
   [0x946F31ED; 0x63E91049; 0x653F600B; 0x51E91DC6; 0x53A29196; 0xD7A582B1; 0x31E1D843; 0x452F4AD]];
  [[0xDE8E344; 0x1224169D; 0xF329D30F; 0xF4AB4E7; 0xB525B6A4; 0x12662965; 0x255F14B8; 0x3142B612];
   [0xBBF468A1; 0xEF6148B9; 0x144F8DFF; 0x3FC413B4; 0x9BF55B34; 0xA453D075; 0x86EBA319; 0x857EC763]];
  [[0xC16C1002; 0x7FC22E26; 0xB0B186C3; 0x2E34975E; 0x2FC79F85; 0xE11E3642; 0x9F981B5F; 0x30FE5C0E];
   [0x31816247; 0x73BD0FA6; 0x6906AF0A; 0x40FE1661; 0x787BC7EE; 0x8D7109A3; 0x6FB9A590; 0x29452054]];
  [[0x4DFAAF93; 0x24654B9B; 0x9A450D29; 0x91CDEA8B; 0xE4874748; 0xEE55420B; 0x6D03064C; 0x1FAC14C];
   [0xD93BD5BE; 0x8A4EBDE2; 0x49EF18A9; 0xCB2DF307; 0x1A7B7F36; 0x36E6AC64; 0x4AC1CB8D; 0x30195423]];
  [[0x34F5B3FF; 0xD9970B1E; 0x587A9C5C; 0x3CFEFC50; 0x7CCE631E; 0x8EC1C5DE; 0x52465AB8; 0x92C93E2B];
   [0x257017CA; 0x104DF30; 0x8D8DB4CE; 0xF4E5E779; 0xFDC267F0; 0xE12A39DD; 0x27C73FDA; 0x683DEAFE]];
  [[0xBBC70623; 0xD0840E81; 0x4D23568E; 0x3A93C16; 0x11A71BFF; 0xC52FF3D6; 0x875248E; 0x3C11FCE];
   [0x6C4AE445; 0xBC6F184B; 0x7698EE98; 0xF52CC71F; 0xEEA25223; 0x4663193E; 0x31C68DC; 0x86CD1AB3]];
  [[0x21E04C02; 0x221C94EB; 0x7B980F70; 0xE96BB7B3; 0x24DC2BD1; 0x60A72897; 0x5621F475; 0x8C8E019F];
   [0x5CFA457A; 0xAE47B2F7; 0xF395C533; 0x31B2F9E1; 0x82E75849; 0x7EEB5DDC; 0x2A241E52; 0x4863A6A3]];
  [[0x914976EF; 0x806AC7F4; 0xCA42B875; 0x5019261E; 0x6EF2D82F; 0x44F5C03D; 0x690F2ACA; 0x24959F00];
   [0x81F0BBB6; 0x4BDE2115; 0x1F701A2D; 0x1EB2C00; 0x274FB05C; 0x39F8910; 0xC625EBCD; 0x57068F24]];
  [[0x67FF2575; 0xB21B8C93; 0xC60B449; 0xC7826C60; 0xA98671BB; 0xD4D69A9F; 0xF5A2AB0C; 0x95249276];
   [0x2D1976DA; 0x8F7007F0; 0xC011D54C; 0x846F2A92; 0xFA2076B1; 0xFDBF81DF; 0x5583B46C; 0x3349224F]];
  [[0x7C854B4A; 0x62496746; 0x798B1395; 0xF92BAE1D; 0xD2F65638; 0x2EBE18E3; 0x8A068F49; 0x472FF6E5];
   [0xDA2030C2; 0x64BB0F33; 0x66F6C000; 0x72C0D0C9; 0x3194615E; 0xEA837EE5; 0xFA9A7903; 0x1B7B4849]]];
 [[[0xCF9A0727; 0x27AB780C; 0x9D7486CB; 0xD457A7BC; 0xFE9F1A59; 0xFC57C335; 0xD1D9F161; 0x269D8959];
   [0xB81605D5; 0x6A32331; 0x6F050BE0; 0x23696353; 0x413E1C0D; 0xF9350879; 0x5761A8DF; 0x17019548]];
  [[0x6765C6A2; 0x583D3D3F; 0xBE9DF3AF; 0x68BBA6F9; 0x85358B53; 0x7011E594; 0x53A08874; 0x3B2142E3];
   [0x6F5C8641; 0x4AB6137E; 0x4FE9BCEB; 0x4955890E; 0x4D14DA01; 0xE2F732BA; 0xBEBD63D4; 0x8CB285FC]];
  [[0x6C74A0AA; 0x5099551B; 0xBC2C8A61; 0xF04EB8F8; 0x85983435; 0xE169F492; 0x5B808C9E; 0x764062A1];
   [0x65B994FB; 0x8C59A43F; 0x6068E685; 0x2FB148B7; 0x54108A9F; 0x899D4FC5; 0x5B4D40FE; 0x469EA3E]];
  [[0x62A76AA8; 0x15B613EA; 0x2FE2F179; 0x7E8E7D56; 0xBE98EDC2; 0x53160F65; 0x9810DC27; 0x258DA04E];
   [0x30D9C31; 0x4FEE19D0; 0xC29E300F; 0xFC2C57F8; 0xC44458AE; 0x71F97; 0x709727E1; 0xAA2B911]];
  [[0xA61166F8; 0x443F8B23; 0xD685FCF1; 0x3E8F6278; 0x447433C6; 0xC930C1D1; 0xAED7D6EB; 0x1245A867];
   [0xFA89945A; 0xC35986DD; 0x26B0AFEE; 0x89CE1109; 0x17103D18; 0x9C6A87CD; 0xCE338978; 0x811B2242]];
  [[0xC293255; 0xC074AF66; 0x5AEAC2E1; 0x982C23A9; 0xD39AC56C; 0xDB14DE0C; 0x47EBB839; 0x20263F3F];
   [0xD10588DF; 0x183EA578; 0x1EB69C36; 0xB4D88EFB; 0xDBF3BEE7; 0xA79A1B4D; 0xE8159E0D; 0x650FC466]];
  [[0xF80D5744; 0x9E6EE797; 0x825949BD; 0xDFC3EBF5; 0x7EC9BD65; 0x1083EC79; 0xB753499C; 0x62A45C5E];
   [0x2B6F42CF; 0x9C135F80; 0xC4B49041; 0xE39B0BA5; 0x8D3B2D06; 0x4D838513; 0xD070754B; 0x696034DC]];
  [[0xB8E3BDD1; 0x6313D73; 0xE6968872; 0xC7BEC420; 0x3A04B7F0; 0x740DD6D3; 0x2465BED2; 0x98F2D0B7];
   [0x4043DBAD; 0x9F298460; 0x1B5961F; 0x82D6991A; 0x54DFAB8A; 0xAAE7DF9D; 0x1A07DD22; 0x5701E335]];
  [[0xFCA398A2; 0x5695A08E; 0xD76E8CF; 0xD29EBC1F; 0x24004EDB; 0x5AB17ABF; 0xCC7A144; 0x20C7761B];
   [0x285EA93C; 0x6CAEE036; 0xF2B8BF23; 0xF9756E89; 0xB1AB91B7; 0x3CEA1C76; 0x3FB4F3B8; 0x5D86860E]];
  [[0xFDC7DBC5; 0x835B023B; 0xEEEDFD73; 0xF05C0676; 0xE52BFB27; 0xF8325D64; 0xB5032CFF; 0x919D008D];
   [0x4B130537; 0xEF27862C; 0x5CE404DC; 0x616DF154; 0x451ED033; 0x182BA57E; 0xBD01F864; 0x2EFEC0C7]];
  [[0x45F3AF3C; 0xDC846845; 0x92A47B31; 0x2D2BA0CD; 0xE1AFE6EE; 0x9C806C7D; 0x4C6A4FEA; 0x28FE43FF];
   [0x6C76C0F4; 0x2E028CD1; 0x2AEFBDDA; 0xC6FA5AD1; 0xF63F1A35; 0xC8B5339B; 0x4523F02; 0x30C780A7]];
  [[0xD7E4F0CE; 0x3D2DCA55; 0x26616811; 0x8EEF9189; 0x3C0E5892; 0xB106642F; 0x89DB033E; 0x4A965385];
   [0xB3C2DD37; 0x5A1CBEB6; 0x156EAC75; 0x5290C737; 0xE32E40C7; 0x57AFD98A; 0xB3571868; 0x4A16164]];
  [[0x1A673E1B; 0x9AB8A3E9; 0xFC23483; 0xC707ABBA; 0x9E0EA0BD; 0x936C1783; 0xF71F6F1D; 0x1E4C2E7C];
   [0x6FB0926C; 0x37904F63; 0xC51FEEA5; 0x9EC76DF7; 0x4D103DAC; 0x2C60F7D6; 0xF9DC2CC6; 0x7B451E0B]];
  [[0xB2A5F07F; 0xD4F8526C; 0xB0F4AE09; 0x41303D42; 0xC182FDC; 0xAC79523F; 0xAA0C5D6D; 0x8D6A75C8];
   [0x3CDCE3F0; 0x4DD7FC95; 0x5BE6DA0F; 0x4DDB3910; 0x16F7E27D; 0xE34961F9; 0x5B3544EB; 0xC5CB76F]];
  [[0x252C354C; 0x324C95B5; 0x8CC2C3BC; 0x4648D87E; 0x82BC8C80; 0x6DDFDECD; 0xC069996E; 0x8C64CADE];
   [0x40ED44AB; 0x4E282E96; 0x79334507; 0x70A12067; 0x5AB8902B; 0x65CE5D38; 0x7C949D96; 0x56FE68F2]];
  [[0xCF9530AE; 0x1D55C87E; 0xC147C2D5; 0xD1CF73FF; 0xC1F44403; 0x826031CD; 0x5EEF5BFB; 0x3A06528F];
   [0x5F84A7B1; 0xF220EAF3; 0x350EBADE; 0xBC99C905; 0x810A101C; 0x686A706E; 0x1D92EAEA; 0x95E52713]]];
 [[[0x514D47C2; 0xAAC634B3; 0x58B83B33; 0xD0C189B8; 0x58CA9A2F; 0x633D59E3; 0x838ACC80; 0x65965CE0];
   [0x9B512F6E; 0xBB03F7EA; 0x9EF17A82; 0xB2F38B84; 0xE16A7A95; 0xE8382E37; 0x4D9EF607; 0x28644EFE]];
  [[0x40A515B; 0x46F9115E; 0xFA59CD3E; 0x4C7DBCFF; 0x71BB543E; 0xB4CE22B8; 0x948F80BA; 0x58D935D8];
   [0x3683C8B; 0x33DC1D5B; 0x2D071D87; 0x25E6113A; 0xA7D59351; 0x44F962F8; 0xBCF66B43; 0x6B818DDB]];
  [[0x378C1098; 0x363A63C7; 0xAC5C0C9E; 0xBEB2A7B6; 0x4361C8D4; 0x3F620D3F; 0x4E3D9686; 0x68EAD01A];
   [0x45DB7208; 0x43613085; 0x13B35D33; 0x865A6DDE; 0x68DF09F5; 0x4EAA1663; 0xBF02AA12; 0x5FDCA83F]];
  [[0xBFEFB3CB; 0xC240FEAA; 0xEC6694F; 0x78E757D2; 0x2413D6A2; 0xA11A82DF; 0xDBB7A220; 0x7BD656EE];
   [0x6EB899A4; 0x68C60873; 0x318C72E8; 0xAFFB9F1C; 0x9FB7619D; 0xF16A443C; 0x42C6E4D6; 0x2FC317E3]];
  [[0x73F57A93; 0xAB56A873; 0x308F5224; 0xE9BA24E2; 0x11992077; 0x10281B9; 0x593EAD1A; 0x2CBCA7FE];
   [0x2A1D8318; 0xB400388A; 0x3C61A0AF; 0xD470ABDA; 0x94BD2FAC; 0xF9102721; 0xFAC703C; 0x222365D1]];
  [[0x9C2D1B2B; 0x5C9021C4; 0xCAF0B562; 0xB349DB18; 0x91412CC3; 0x6DAF7412; 0xCF6584D3; 0x44E5E3E5];
   [0xE4C17B19; 0x1D1F4244; 0x3787A38A; 0x4C663EE6; 0x313A8581; 0xA3261E22; 0x7A82C05A; 0x3AE1E1DB]];
  [[0x3CD6A155; 0x31AA2B29; 0x3D078B12; 0xEB9527E; 0x214FF1E2; 0x6785ABA2; 0xF111D572; 0x74974F84];
   [0x78C684B; 0x2199A753; 0x4B13A004; 0xA0F1DE23; 0x75BEBCBC; 0x3965AE19; 0x24562AA7; 0x22A8D7EE]];
  [[0xBF268ADE; 0x591965F; 0x9EE48F0E; 0xF621B364; 0x5A3A3848; 0xAD981A9; 0x9ECD72B7; 0x1316675C];
   [0xF37C87E0; 0x21A5CEB7; 0x68D1AAFB; 0xEF864CF3; 0xD3C9A54F; 0x5F340413; 0xE00FD564; 0xC5DE1E6]];
  [[0xB415D72C; 0x439B2C0C; 0x63442E62; 0x106AE2E0; 0x4A79E93B; 0x8A9428C6; 0xCC2DF510; 0x67FE6D6E];
   [0x655013B3; 0x407158BC; 0x2BC7E7CC; 0x3AAEAC1C; 0xEE8EC1F4; 0x399DB6EF; 0xECFF6657; 0x1F7D0D17]];
  [[0xCB86639E; 0x3039D18; 0x9CDC3408; 0x58603909; 0xF1804B9E; 0x52421109; 0xED126B9F; 0x95502857];
   [0x451B0539; 0xC91842D9; 0xE60AAE3B; 0x2B5B11EB; 0x44CB5A14; 0xDB50F9EA; 0x89E80A6E; 0x4B5C9824]];
  [[0x69FC9F1A; 0x8EF3A1E5; 0x7CCA576A; 0xA4EAB6F4; 0xFBF1CD65; 0x955E1C89; 0xF8CE13DB; 0x3E3ACF6E];
   [0x58F31FC9; 0x1FDB6190; 0x93B0D0D5; 0x10DB71B3; 0x9154B285; 0x90096143; 0x1C49EFF3; 0x37EEE178]];
  [[0xBC198066; 0x609DE502; 0x40722EF6; 0x75C8631; 0xFF0FA57D; 0x121ACC9F; 0xEC7DB1A0; 0x31E79AC5];
   [0xF16FAE79; 0x736EB95D; 0x815A14CB; 0xFF963917; 0x23AF0BC3; 0xC6003E5D; 0x99AFCAAA; 0xD1B0350]];
  [[0x1F0DF59D; 0x8A1B6C97; 0x59C9CA8D; 0x7DF81A72; 0x9602E8BE; 0x74257F8E; 0xA441657A; 0x2FFBAD39];
   [0x48050A6; 0xB1B090DB; 0x741E7392; 0xD6144221; 0xECA1E2D6; 0x63826973; 0xD287DE2F; 0x28EE60B8]];
  [[0x5DEE86CE; 0x81504295; 0x73C03937; 0xFACCB61D; 0x299B96AF; 0x9898F773; 0x488F95CD; 0x51552297];
   [0x54F5E182; 0x6170618C; 0xC2798401; 0x9C11D666; 0x3EAF3DDE; 0x88225F4B; 0x87F1185; 0x20841538]];
  [[0x14FA59EC; 0x42BCEFFE; 0x7D023F1E; 0xC41CFCDA; 0x7163E802; 0xD7E4FDE7; 0x2E145BCE; 0x54F4C798];
   [0xF9162235; 0xE4EA68C9; 0x458DEC24; 0x4F7EAC6F; 0x845C6AD1; 0x70100D2D; 0xF1EA21B2; 0x67AC34CF]];
  [[0xAC21C728; 0x2BD49BDF; 0xEDA966DF; 0x2D009B45; 0x4A9B9167; 0xD4476BE; 0x95D2ACD2; 0x340BD3BE];
   [0xB040FF50; 0xF8BACA2D; 0xB91D47C1; 0x307BEA0D; 0xB6B3A1E4; 0x2EFDC81B; 0x1595D6E2; 0x3B2CD7D9]]];
 [[[0x32A5A002; 0x56254AE7; 0x448B0A9F; 0xE48A475C; 0x14EDBBA9; 0x3B2DF6DF; 0xF5E4CC81; 0x911BE369];
   [0x77CBB387; 0x57D065C6; 0x527575FD; 0x7C1E0142; 0x243B5C33; 0x2CA91EEF; 0x5C4700CC; 0x7E54AF42]];
  [[0x5EEDF97F; 0xEF5ECAE5; 0xC0D821AC; 0x2D79312A; 0xA9EDBE8F; 0xD3817042; 0xAD924B1D; 0x7A3D537E];
   [0xB26FFC3B; 0xD9923A20; 0x5B81EC12; 0x651D2201; 0x54C37FF0; 0xBDF7205A; 0x8C0D2E79; 0x5562D258]];
  [[0xFB4842F8; 0xE5BC2E1C; 0x25B464C8; 0xCFE97824; 0x2FEA9ED3; 0xD902A11A; 0x8D3DD0A4; 0x2FC360ED];
   [0x9E5F7AE1; 0xEC4E57FC; 0x79B8AF6C; 0xF0F1FD9F; 0xA9A283D0; 0x803F3ED6; 0xADEEA78E; 0x5F13000F]];
  [[0x1838B470; 0x3EBBBD16; 0xB2781680; 0x934BA22A; 0xC7210CD4; 0xC9ED04FC; 0x4615F186; 0x716004A1];
   [0xE894BBC3; 0xE7B36C21; 0x570AA9A8; 0x3F739857; 0x3063902B; 0x1707FBEE; 0x155C9824; 0x44FCB774]];
  [[0xCDD8CEDB; 0x30ECD772; 0xCA09BCD3; 0x67BB36FD; 0x9BC43B7B; 0xD5AD0FAA; 0x6A130895; 0x3962E556];
   [0x7F7A565A; 0x57928253; 0x55B911EE; 0xDE9D7792; 0x6984F326; 0xD5DBFDDE; 0x9FB51246; 0x7CDF5E15]];
  [[0x89D24763; 0xD7FC427A; 0xAD874362; 0x50E627C9; 0x2069873A; 0x17A8F83B; 0xDB698BD1; 0x186952D7];
   [0x38A2822C; 0x6C007EED; 0xC207073; 0x5F187091; 0x8D245D2; 0xD0023B63; 0x34544316; 0x7A32C2A1]];
  [[0x8C2635EC; 0x8B99183A; 0x6F12B137; 0xA00A9476; 0x823DA313; 0x9B5E2F57; 0x47B3CEB1; 0xF7CB4AF];
   [0x67266D24; 0xC993AF7E; 0xEBA985B8; 0x8B60295E; 0xE41A6F69; 0x9AA596CB; 0x4B68507A; 0x4D6CF5DF]];
  [[0x6921DEFE; 0x3B8A3CBC; 0xED7B717; 0xB96D5390; 0x7DE65E54; 0x6761E86A; 0x701CC1E4; 0x964460D6];
   [0x26C82309; 0x5C0A2213; 0x20328C60; 0xF95F5472; 0xFB49E3B5; 0xB519B476; 0xEE373756; 0x89D0AB6]];
  [[0xDC952768; 0x947DFCF0; 0x3AB613AA; 0xD8B5C61C; 0x9A457DA4; 0x146E8325; 0xF476945E; 0x37E2F6D3];
   [0x3851A6F6; 0x5702A441; 0x8D67EF9C; 0xB476560E; 0xF9D2AD96; 0xABA23F67; 0xDFBBB806; 0x3CE30A4E]];
  [[0xE5BAA662; 0x64695640; 0xAAF3988; 0x2A18979A; 0xDE0ED212; 0x605578FF; 0x30F2C13C; 0x52E604D5];
   [0x894AB3B9; 0x2E9E2D83; 0x4BC33041; 0x98B1FAA; 0x863AA3C; 0x1CF6606; 0xD2951A60; 0x7334879B]];
  [[0xC51704F1; 0xB080105C; 0xEAEE29C4; 0x1A5869B8; 0x5FDD2FD3; 0xAD6AEF33; 0x49C2B183; 0x83E677C4];
   [0xDFA8B8F4; 0x757A4EFD; 0xE42F2C87; 0xFC8E7650; 0x9C963D98; 0xD4A61A3E; 0x45BC9044; 0x3750289A]];
  [[0x40B1C72C; 0x40A0620E; 0xB2E44573; 0xAEE56EC7; 0x60532553; 0xE4E6EA3D; 0xA0EB6014; 0x5BA50E80];
   [0x4378CC2F; 0x84642978; 0x2A1C5FB4; 0xE322D169; 0x6B91F82D; 0x5000C9B1; 0x7AA49F2D; 0x32380CB8]];
  [[0xE18C4BD2; 0xA2F936A; 0xC3DB9AA5; 0x7AEA56AA; 0x5DDF30CB; 0x3A984E93; 0x904181C6; 0x36133D20];
   [0xF62DFBF5; 0xA9A65593; 0x6808B883; 0xB4AC06FD; 0x7A2FEDBB; 0x98679704; 0x97880A72; 0x20E9E8E1]];
  [[0xCEB26FAE; 0x403A1ED1; 0x3CD622C9; 0xAD13CD87; 0xCF45C32D; 0xC1E03929; 0xC3BE1A53; 0x4B50E4A9];
   [0xD0D7AFE3; 0xCF10F3AF; 0x1494A9B4; 0x6A29B173; 0xD13B0495; 0xB9DC9849; 0x9C05B110; 0x4C50794E]];
  [[0x1427F71D; 0xC3C97DED; 0x966ECF33; 0xC3CFB754; 0x1FBF30CD; 0x48E30FE1; 0x1E4B0998; 0x71C96E1C];
   [0xB92C4BF7; 0x878D6305; 0xCCB5E4A1; 0x14477130; 0xE3C00A19; 0x7C210767; 0xAB3CDBF0; 0x5546DBD5]];
  [[0x70857571; 0xADEC8758; 0xE70D07EC; 0xA52587C; 0xC731B9BC; 0xE6CEAF9E; 0x47143479; 0x1D0FDE3F];
   [0xC5B410CB; 0x2F3BE2CF; 0x4E64FD9B; 0x576004BE; 0x7629820C; 0x3F33951; 0x46A450E2; 0x7BD32964]]];
 [[[0x46CED42D; 0xD492D6B7; 0x1F0092E3; 0xC068D02D; 0x8D8A822A; 0x8ECBAD; 0x71045647; 0x6B326869];
   [0x523CBA58; 0xFEE3237F; 0x9C29059F; 0x77B7F50; 0xE72FBE6F; 0x42C308B3; 0x8E34148B; 0x3DD79D83]];
  [[0xCAC24455; 0x3ED9DF47; 0xD8546306; 0x7C8A7B31; 0x2AA02202; 0x4CC43295; 0x8598E028; 0x5E8B4EA3];
   [0x812B8070; 0x8A882F3F; 0x1DD374C0; 0x984BE588; 0x16E133CF; 0x6FDA8159; 0x899920D0; 0x34FB92FA]];
  [[0xDA0B8D0E; 0x3BE0416F; 0x88C053D0; 0x2CC846DB; 0xB1A3A621; 0xC04C3A42; 0x8A9D9115; 0x35BC5550];
   [0x7FA72AFE; 0x7F8C9FE3; 0xD1E914FD; 0x488FA0B4; 0x84F79359; 0x8F5C2D63; 0xFBC94785; 0x2BE80429]];
  [[0x6F67799A; 0x391794E0; 0x677A067; 0xD9BF08AE; 0xDF61563C; 0x716D5062; 0xF590F3A3; 0xECB234A];
   [0xFEA22392; 0xA5B91448; 0x7E76FB8B; 0xFAA29487; 0x4B6CB375; 0x3CC3A02A; 0x9022167A; 0x5C0B3B63]];
  [[0x4C576430; 0xC5689CF3; 0xC585F5A5; 0xF7B7B230; 0xE4BFCEE7; 0xB8DAADFB; 0x9CF4242F; 0x7B7D8A95];
   [0x398FEEF6; 0xC1755F9B; 0x5CC5C36E; 0x9B31CD4D; 0xF4C6B793; 0x4D87AB9C; 0xF595EFA8; 0x673FD5B2]];
  [[0xE05E6B19; 0xA3836484; 0xFCA7E6FB; 0x90C14CF; 0xFC717DBC; 0xB7A27042; 0x38647882; 0x56CD4AF1];
   [0xA43C453E; 0xC2B56B50; 0x982E7AED; 0xCD5E768; 0x58474A8B; 0xD5ABADF7; 0x99F500AC; 0x68188A38]];
  [[0x83B1F7BA; 0x683AC3E; 0x680568E9; 0x6A4FC30C; 0x7F6256CF; 0x735F5E48; 0x48DB831; 0x1240752D];
   [0x868B8AD7; 0x98B78A67; 0x822EBA7D; 0x9E32F2C1; 0x8F37580F; 0xEAE28B1E; 0xC72EDA86; 0xD204CE0]];
  [[0x77E8C68C; 0x5E4EAA1C; 0x859A127B; 0x282ADFE9; 0x14904910; 0xC75AB7C; 0x6E751062; 0x1794516A];
   [0x3DE4A32A; 0x8D99D891; 0x54EF2BF0; 0x957AA807; 0xB109ECD; 0xBF20A9E0; 0xA72268D3; 0x7732F2B3]];
  [[0x48752F76; 0xADB52E43; 0xD6F7CCE8; 0x1E9F4B1; 0x2E4BD9B5; 0x22702DA0; 0xB40BF9AB; 0x1BCC9C60];
   [0x9F53B2B1; 0xAB774637; 0x8CB316D0; 0x9C574151; 0xBECBEBED; 0x231D5C45; 0xF0458638; 0xBD2D5E7]];
  [[0x4B946132; 0xD2F5E0B5; 0x155AA2C8; 0x200A8A30; 0x56A62CE7; 0x15473FD4; 0xB6689367; 0x30EA71B];
   [0xE315F29; 0xD561432B; 0x149E3A9E; 0x4155022E; 0x15841273; 0xC77EF7E1; 0x52BA265A; 0x890D9C8D]];
  [[0x5E62451A; 0xB72B5A6A; 0x5C61A183; 0xFDA85C17; 0xB7F36EB3; 0xA4275361; 0x94F4148D; 0x53ADFAF3];
   [0x6A8467AE; 0x281D47F9; 0x8474D3AD; 0x416A64B5; 0xEC99480E; 0x710D0E7A; 0x819253FF; 0x2693A878]];
  [[0x1A2FE406; 0x4BE76904; 0x343F5B10; 0xB6FEED1D; 0xD705E35C; 0x36695C52; 0x6BD3859F; 0x7DF6FA41];
   [0xC00E77EA; 0x7B9B11F5; 0xCA80F838; 0xC90411B8; 0x2908C694; 0x8A9FAEF0; 0xFF5B39B0; 0x5F65AAA]];
  [[0xD7F59CC5; 0x823A0776; 0xC410DFD1; 0xB9EBE15E; 0x10A7FA3F; 0xC2374B58; 0x311660F2; 0x1B912C84];
   [0xD5A175E6; 0x486A2607; 0x72B74EB7; 0x9B17D14D; 0x1039CA77; 0x1069D5C4; 0x3FEE08BB; 0x214605B3]];
  [[0xF9D14E8D; 0xC25A7379; 0x577D330E; 0x9D5FAFDA; 0xA4A9CEF0; 0xB9A0217D; 0x8252731; 0x95AFC7F7];
   [0x8FC51680; 0x14E53E9E; 0xA8AC4E21; 0xAEA2428; 0x11CB2361; 0x6BC5E42C; 0xDCB52215; 0x3B205E45]];
  [[0xC916CDE4; 0x8EDD4718; 0xD70D7130; 0xBB08F27A; 0xED9162CB; 0x289A33C0; 0xFB69185B; 0x97CEFA45];
   [0x8B7797EE; 0x44DA2578; 0x148E9A75; 0x579B17F7; 0x913C09AE; 0x73EC1C23; 0xBAAA67D; 0x3FAB86A4]];
  [[0x2DF7BE6D; 0x28E76C23; 0x500A844D; 0x526844; 0x3CC748C2; 0xB86FBB14; 0xEB5F6AC5; 0x6D89BB8A];
   [0x2327808C; 0xF66159DF; 0x29C5006C; 0x606F0553; 0x844B6CA4; 0xDAA1107F; 0x63A8946C; 0x95D7686C]]];
 [[[0x7F7DCF5; 0x71438CEA; 0xA1CCD55; 0xB3F59AFA; 0xE0071B4; 0x5A439627; 0xE93D5B8E; 0x8694E3FA];
   [0x7D6550B0; 0x21713A38; 0x6CFCD5B; 0x893BD9F7; 0xE7513FCE; 0xC3D2679C; 0x2C451EF3; 0x418AE7C8]];
  [[0xB85E2A9; 0xADFAFF38; 0x2E244653; 0x6124E627; 0x375D1EE7; 0xF2C465AF; 0x76E58455; 0x5B2302D6];
   [0x7479F387; 0x32938A0D; 0xAAAB22A5; 0xF9A16A0D; 0x2AD65CAE; 0x65AF0E25; 0x8431EA40; 0x2B566866]];
  [[0xDBCDAFAB; 0xCA3ACC11; 0xBB7F218B; 0xBBB5DBF; 0xDB0ABBE2; 0xD69E091A; 0xB0B7B09; 0x8AFFCE95];
   [0xC7EC52C7; 0xA5E6C81; 0x896707CD; 0xABD60595; 0x101E0F80; 0x4CE86506; 0x4ED01B2E; 0x9629A6C0]];
  [[0xE15D82F4; 0x1D740EAC; 0x90A5D149; 0x42F98018; 0x903D6D28; 0x1B8C8DC0; 0x5BBDFF7; 0x7BE2B916];
   [0xD8E41D96; 0xFBACF878; 0xBE26EB56; 0x42E98BFB; 0xF6DE1EB1; 0x9EA73555; 0xCF79A9EE; 0x5325DDDE]];
  [[0x48E6A22F; 0x44BE62C3; 0x8DB35276; 0xD0A3C0AD; 0x136FE9BA; 0xB4C99306; 0xA44E491F; 0xF2987D7];
   [0xCCC77C2B; 0xA0965F74; 0xFE110072; 0xE01AD644; 0xC16B5E1E; 0x79528B9C; 0xF929BE4D; 0x45AEEFF3]];
  [[0x7F4DA458; 0x46E95DF6; 0xA7AD579B; 0x554C50C1; 0x4316DBA1; 0xF64F00A1; 0x46D487BD; 0x16C98513];
   [0x2C048A1B; 0xECB19761; 0x5373E5E6; 0x997AF398; 0xFDF23B20; 0x50E832D2; 0x7EF7E097; 0x1B358E0F]];
  [[0xACBC759C; 0x7C6728AE; 0xA156A466; 0x187588FB; 0x928F97BD; 0xC2E550ED; 0xAAE1C05A; 0x8B595A3A];
   [0xD77C1125; 0xE36871E1; 0xDBBD882; 0x11E12978; 0x5E77FB7E; 0x3EF8268A; 0x6B33C00C; 0x7BAEA9BA]];
  [[0x5925E5FE; 0x7C851236; 0xD8E1597B; 0xCED70AE5; 0x6DCD112F; 0x7A28BE1A; 0x3B8EAF6F; 0x1EB19268];
   [0x8AA902B9; 0x7E6F1CF2; 0xA5A761D9; 0x3DD9D59C; 0x48D9F52E; 0x8EF70BB4; 0xCDEE9658; 0x96629C1A]];
  [[0xB367C5B3; 0xCA215EAC; 0xA796338A; 0x36B22774; 0x26EBCDFE; 0x71F9A61A; 0x35119BD3; 0x1B40580A];
   [0x431C78BD; 0x77169EF1; 0x337022D5; 0x8197975E; 0x1D9A4742; 0x45112799; 0x19B6DB07; 0x382750D6]];
  [[0x9786AE0B; 0x740405EE; 0x3ABA0481; 0xF7F37C0F; 0x51892307; 0x904FC60C; 0xE891D639; 0x8405DF2A];
   [0xD9B432F8; 0x53D19AC5; 0x66CD97C; 0xE8F1730F; 0xE95804B; 0xC8740FEF; 0xEC242811; 0x12EE433C]];
  [[0x6153F4D4; 0x6AF4B9B1; 0xF84F0145; 0x9CD8CD0C; 0xDCEB0F06; 0x6CABD4FC; 0xD134DCE; 0x36BF146];
   [0x7EFFACAB; 0xCDEB1818; 0x52C987E7; 0xB57A4162; 0xC647E82F; 0xDD5104EB; 0xF51B5270; 0x389AA556]];
  [[0x60108876; 0xC450CAEA; 0xF48601A1; 0xF36B5B6A; 0x9128863; 0x257950D1; 0xA9F6A1B9; 0x7A592427];
   [0xED12DE33; 0xBF1FF2B0; 0xE2141101; 0x4D542AC8; 0xE170F9CF; 0x998523C4; 0xFCEC0E2F; 0x629385CE]];
  [[0xB2677C49; 0x951494ED; 0xF9B648E8; 0xF1AE7138; 0x63CFF359; 0x28B8749E; 0x9A73272F; 0x5AC4EC4C];
   [0x21723271; 0xC25ABB87; 0x8B441AFD; 0x488EC910; 0x1B1DF775; 0x7518348; 0xF1EB2FB4; 0x4662BBDA]];
  [[0x6DF9F64A; 0xAE836F74; 0xA185ABE6; 0xF3CD6C9D; 0xC29A1C1A; 0xAFA897A8; 0x11B2D6AC; 0x4BAFBB69];
   [0xB6D971C7; 0x8040F9A3; 0x763EAF; 0x3B8920B7; 0x52E848B7; 0x7A1655DA; 0x703FA84D; 0x3BC8B55]];
  [[0x1F934416; 0xE6348C65; 0xF82BBC4A; 0xDBE59C03; 0xEAD60547; 0x51AEAD09; 0x4F20111E; 0x43A35C3];
   [0xEC574F0A; 0xAA18326; 0xFCADF79D; 0x7E90D70; 0x201CD68B; 0x3979D4CE; 0x2C2734B1; 0x7FBF2C63]];
  [[0x2656AF49; 0x2E451373; 0xA432DE06; 0xCA86207D; 0x12F20637; 0xC5F9262D; 0x26C0C745; 0x7DD9CCDC];
   [0xA785ED89; 0x99276BDC; 0x374CFBE2; 0x34B307A7; 0x1E8EE0C5; 0x916E9B06; 0x88A85C6A; 0x4E8EB3C7]]];
 [[[0x107F1CE0; 0x6F2433EF; 0x46D23AEF; 0x121DE131; 0x20DB44DE; 0x7AC50BE8; 0xF6F41A1C; 0x1E500A2B];
   [0x27B0004C; 0x8E5BAFCC; 0xDB555C04; 0x8538A5ED; 0xCE4ED544; 0xAEC8A7; 0x73B2DA91; 0x7C7301CC]];
  [[0x63284E3A; 0x3E7E1E5C; 0x1422D8EA; 0x14581400; 0x7AAABD1D; 0x5FE151BF; 0x1533B371; 0x6716691F];
   [0x22A8B7DF; 0xA592D53E; 0x51C97935; 0x66991AFF; 0xDE5429B6; 0x8B10603D; 0x551F146B; 0x2F6C6]];
  [[0x777A334C; 0xF641CBCB; 0xEEFBCA44; 0xB45B21E1; 0x32F6E263; 0x7C2FCD65; 0xFEED8901; 0x5A21D80];
   [0x5506CF47; 0x2471B486; 0x7C9E62DE; 0xFFAC1F7; 0x869D3BDC; 0xC4D321DF; 0x9512D0CA; 0x9AC03509]];
  [[0x352E0353; 0x5A26E8F5; 0xBF6ABBAC; 0x965CF602; 0xE911C628; 0xDD8C4818; 0xDC2D04A0; 0x132CA2D8];
   [0x6C865C91; 0x7641CFCE; 0x8E9965EF; 0xDB5AB8F3; 0xDE0B7E90; 0x30030BCD; 0x2320D3F1; 0x7BF44453]];
  [[0xD8A99DAD; 0xC006FA6D; 0xB45E64A1; 0xC042F163; 0x74F4DBB1; 0xB91C9CA4; 0xBE221E4E; 0x23BD5A29];
   [0x3D1ECF78; 0x6B0591D7; 0xAA5B771C; 0x9E0ACF38; 0x796D4AA3; 0xC970F263; 0x7B5DD349; 0x37037502]];
  [[0xFBC52541; 0xE11DECDA; 0xE7FE53A5; 0xA49B8D39; 0x104A1F6E; 0x3A08E9BB; 0xE0192BFB; 0x95444A15];
   [0x1A97B875; 0xEF75B062; 0xEA5FC457; 0x9FC8AE5E; 0x47F73089; 0x3A09FD1B; 0xE24516AB; 0x96750EC]];
  [[0x4A350C95; 0xAA180046; 0x58EA4195; 0xA72F2B67; 0xFD9A4F25; 0xE0647945; 0x22737E2D; 0x4CF4136D];
   [0xEFB2A96D; 0xEE2532CE; 0x6C2F1471; 0xB39DB117; 0x19935BDB; 0xF7C6242B; 0x7A820092; 0x98CA48D4]];
  [[0xC3C938B0; 0xE9C1AD0A; 0xCCDF3BC6; 0xF7CC05C4; 0x363A9CC6; 0x3C21752B; 0x5916BD59; 0x47996B87];
   [0x98D17468; 0x1EF895D; 0x5818F5D8; 0x9182F882; 0xE35E4BE7; 0xCBD212A3; 0x5EA16E55; 0x894E7F39]];
  [[0x7C8FDD7E; 0xAC674AEE; 0xEDB0FE30; 0xA23FA827; 0x745B3230; 0x642BE06F; 0xCB40941C; 0x7654C79B];
   [0xD6A9E988; 0x4640C0C5; 0x11A4EECB; 0xA98AF661; 0x325D730E; 0xE1E827E3; 0x7D8A02DE; 0x2342D880]];
  [[0x715DB87E; 0xE4101595; 0x3C44A43A; 0x462718AB; 0xEFCBC0F7; 0xF414CBC7; 0xE5999AB3; 0x2A64DB21];
   [0x9DA91E84; 0xDAD841E1; 0x5F5C1CDD; 0x5A28F649; 0xB8B41BDA; 0x2F8C9DCA; 0x29C3697; 0x259DC791]];
  [[0x5296BA38; 0xD56F4EF4; 0x2EC3100; 0x4A853BA1; 0xC8AE4C47; 0xB0ED5F21; 0x61DF268E; 0x53D0DA0C];
   [0x6DC06EB6; 0xB6771DCB; 0xBB0C457F; 0x30B07595; 0xF174690D; 0xC2FD08F3; 0x87A5DC8E; 0x77000D6A]];
  [[0x6E1369AD; 0x90DDAA61; 0xB6A5F225; 0x3DD15EE7; 0x27AEB0DC; 0x51AA9C4; 0xE5372729; 0x18712DBB];
   [0xA23AFF5A; 0x13B3F9DF; 0x703FBFF9; 0x34388CED; 0x17D60129; 0xF390D67; 0x4DAE9863; 0x3F0CA25E]];
  [[0x903385DC; 0x6E0F5594; 0xF8A815A9; 0x47483889; 0x23B70B1C; 0x42AF320C; 0x1A1AEA03; 0x4A27CA27];
   [0x66AF6F9D; 0xFAAC21C8; 0xC9FBFD3E; 0x20849D90; 0xEE0A541C; 0x793F889F; 0xADA5D18F; 0x2555FC32]];
  [[0xBA2BD509; 0x3F38F58C; 0x48F864B; 0x319A5F0D; 0xD5900B1E; 0xC4632F37; 0xF8519441; 0x3FAF2615];
   [0xFE194D77; 0x6A4AA25D; 0xD681409B; 0xB5A6464A; 0xB957523A; 0x1A9326ED; 0x27098B5B; 0x7690EA4F]];
  [[0x10F3FDE3; 0x5530E911; 0x810E7853; 0x9A40101F; 0x8F011C4E; 0x152704FC; 0x129B455F; 0x5B1702E4];
   [0xE60F4D30; 0x46A130BA; 0x62BBE8B5; 0xA3D57414; 0x3CFAEFE3; 0xA26238DA; 0x3175078E; 0x4E614113]];
  [[0x992EE109; 0x27BCCDFF; 0xFB45C6C3; 0x79F88647; 0xC73F2829; 0x7FD5D73A; 0x65A44CF1; 0x7EBE8E4E];
   [0x37414B2C; 0xB9EC0B94; 0x36DED49D; 0x846AD1D1; 0x62F2FE87; 0x72AE1060; 0xC032EEDD; 0x7F5AF329]]];
 [[[0xC7A645A5; 0x6C80B058; 0x729066AC; 0xF86341D2; 0x33FB5CE8; 0xE4F366BD; 0xC23A4751; 0x6B79D63F];
   [0xEC3F8686; 0xFAA0F994; 0xA9BA8F5E; 0x156A6E8E; 0x9F2FAE57; 0xA46CA7D5; 0x6EFE66F2; 0x84CB2196]];
  [[0xED25185C; 0xF9C1DECB; 0xB1FCFC82; 0x6DC43F21; 0xA954087B; 0x4A840262; 0xA38F667; 0x60230809];
   [0x1D9672B5; 0xBD345006; 0xF83361EF; 0xE0FF804B; 0xEF8E1598; 0x9DDC6CE1; 0xFBD9BD0E; 0x4419F705]];
  [[0x3426122A; 0xF171EDE4; 0x20A3963E; 0xEF6A1AE2; 0x31647D0; 0xD25AB7A2; 0xCB4CA4E3; 0xFD7EC20];
   [0xB7D3A295; 0xC103969C; 0x34DBABA8; 0x4957509E; 0x60BC0760; 0x8456DF63; 0xD63B49A9; 0x2AF2033]];
  [[0x378E444; 0x271966A0; 0x5D15A0B7; 0x673F057D; 0xA0EFE59E; 0xA55C44F9; 0x376119A6; 0x2F602F87];
   [0x28981502; 0xA149074; 0x8741D4F2; 0xDA006774; 0x133F8479; 0x8F982C81; 0xF944319A; 0x1ECAF17A]];
  [[0xA37F4FC2; 0x281A234E; 0xFD34FC11; 0xAFD847B2; 0x4683E11A; 0x2CC0839; 0x3F65B844; 0x71215DA9];
   [0xEFE32AC9; 0xF9F41383; 0x1361FE53; 0x4AC3D91D; 0x1CC2E948; 0x3C9FBAB; 0x43379A4F; 0x9A9A4B91]];
  [[0x51BED5AC; 0x8D37A108; 0x998E1C19; 0x75D91890; 0x5D244730; 0xE6C76B09; 0x4CD555FF; 0x12714716];
   [0x29DDC669; 0xF2DCE85A; 0x8D622348; 0x8914D13A; 0xDAE035E8; 0x9FE6B578; 0xF41EEF19; 0x21ECB251]];
  [[0x7999064D; 0xEAFF3862; 0x96383204; 0xB72BABEF; 0x6BCCCB43; 0x8E6C9E67; 0x7FD71298; 0x320A7D78];
   [0xB438A302; 0x4081E38A; 0x120E132D; 0xA15CBA7; 0xEC2E0939; 0x6D9123E1; 0xE0D6FEC5; 0x692D699C]];
  [[0xC8D5D361; 0xB639ADAE; 0xC60A078D; 0xA8F742CC; 0x9D740F0F; 0xE8D2CF92; 0x4DCE6A87; 0x6E8EEEF9];
   [0x6A2E5164; 0x54E19488; 0x2430E4B9; 0x4372C6CF; 0x1C5B13B3; 0xD58EA91B; 0xBB9F2911; 0x796DCC45]];
  [[0xCBB267F9; 0xD8D4FAF0; 0x703F4011; 0xC2770DBE; 0xD651402; 0x13739F02; 0x72D2B3F1; 0x7DE4E51E];
   [0x1FE00C7E; 0xB10F966E; 0x8F42B5F8; 0x5E9A1501; 0xD00437A3; 0x6AFB1AD0; 0x1473D5AE; 0x267D1536]];
  [[0x4CAE118F; 0x1173B5DB; 0xCA749EE6; 0xC3A2EAFD; 0x4ED4FFF4; 0x64F738E6; 0xB07860B6; 0x47DDECB6];
   [0xBD47A901; 0xF5D627FC; 0x856C6903; 0x6493BC28; 0xEA63B675; 0x90280E4B; 0xC4148666; 0x211C04A2]];
  [[0x6524BC38; 0xA5F0C27; 0xBB3CBDB9; 0x4B9D95FB; 0x20507C82; 0x5394ADC2; 0xB4DBE448; 0x4C0C9167];
   [0x303A5B11; 0xAC3E87CE; 0x3251F4DF; 0xD31FB9C5; 0xE43CE799; 0x86C281DF; 0x29FE09E4; 0x84E644D7]];
  [[0x43166C20; 0x6D7B61DC; 0xBD34F981; 0x54D6C035; 0xC991096D; 0xB166769D; 0x3A4CF05C; 0x51A47E3A];
   [0x14F5E7F1; 0x57CF9EFF; 0xE39FDA0D; 0xED3D4E9D; 0xBAA7E93B; 0xDF0176EC; 0x70935B9F; 0x6B2FEA14]];
  [[0x709B70AE; 0x19F9D59E; 0x70472149; 0xD850CA32; 0x29EE6104; 0x292CADD9; 0x8FD499F2; 0x870F7C99];
   [0x415C6FFD; 0x200ECB1C; 0x35CB841B; 0xEEA6107D; 0xF95DD333; 0x1CB06F8A; 0xE498AA7B; 0x245712FD]];
  [[0xED4FBD78; 0x101665EA; 0xE32D1B4; 0xC6DDE1BB; 0x40150A9C; 0x3E79185E; 0x7DEF3607; 0x49E2AE6B];
   [0x308B7F59; 0xCCC9B0F6; 0xCE922087; 0xB267008F; 0xCF2AABA6; 0x46CF7F07; 0x9954091F; 0x5A74C8A0]];
  [[0x5240B5A0; 0x8F287195; 0x1845373D; 0x7AC7720F; 0x4E592274; 0xCF276B59; 0x694C30B8; 0x6BEBC284];
   [0x677B16CD; 0xDA0113D6; 0x45C9FA76; 0xA2213446; 0x66964ADB; 0x2DEAF2ED; 0xBC062240; 0x1977A8B3]];
  [[0x80303DFD; 0xEEA29126; 0xE95BF6A1; 0x3E4A33AC; 0x15DE0457; 0x6BFE2D5D; 0xAD0976D1; 0x407BF7E3];
   [0x306B415B; 0x4C1F61F; 0x5F790D5F; 0xC86A75D2; 0xB7EAE07B; 0x7B799EDE; 0xB4A66839; 0x9155A9A0]]];
 [[[0xDCE586B; 0x9745C6BB; 0xBE77B502; 0x554C8313; 0xA93962CF; 0xF0F842A9; 0xAAA141BC; 0x40862273];
   [0xBD62237B; 0x926FFA4A; 0x7B942F48; 0xD4F1E4A1; 0x75684FD; 0x3A841EB7; 0xDD1807E1; 0x21F6EB39]];
  [[0xBEDA4365; 0x155DFD66; 0x27F33BF9; 0xDD575C83; 0x3DFF83A1; 0x5907B08D; 0xD6788D63; 0x7E325357];
   [0xBAC74ED7; 0xF90BF447; 0xEDA226CD; 0x2DE6C957; 0x1CA44607; 0x67832302; 0x56011C38; 0x22ECBC1F]];
  [[0xB663A46C; 0xF01279A9; 0x7E3AAB83; 0x7D74C5F; 0x8C0DA43E; 0xF20940B6; 0x368AD991; 0x57C6A735];
   [0x5007E059; 0x1E9B366; 0x9614D480; 0xFC38FC99; 0xFF7DA757; 0x4A3AAA18; 0xB0CE1B03; 0x4481B669]];
  [[0xB4A807FF; 0x9CAA37A0; 0xF9B269F3; 0xBDEDEB49; 0xCB607AC3; 0xC5B76E57; 0x9A322F48; 0x8AEFE66];
   [0xD9261469; 0x6919E40D; 0x849718FA; 0x1F0ADA81; 0x9D81628E; 0xCD251B54; 0x5505F9E1; 0x6519C3C6]];
  [[0x2F81C037; 0x277591DC; 0x76E0D41E; 0xD63AD35A; 0x6EC063D3; 0x682662B5; 0x6762A0DB; 0x8210978B];
   [0xFE164B90; 0x5085F68; 0x3D6FD0D1; 0x50026ADC; 0xB01A3791; 0x38CC9FA7; 0xB376F83E; 0x1E286652]];
  [[0x9759892; 0x8DFFDA16; 0x9AC2CE5D; 0xE011DDDB; 0xBD71426B; 0xDDC7670F; 0x19742F7C; 0x9722A23B];
   [0xDC4767D3; 0x2EA99893; 0x11125BAE; 0xCB68D6C2; 0x307ED3B9; 0xAC76953E; 0xC366E9A2; 0xEDD0C17]];
  [[0x484B5272; 0x88B3DEC9; 0x90380294; 0xC848EA1; 0xA01AC92C; 0xDE187E83; 0x7A5D4D65; 0x2A880182];
   [0xB3C3C7BB; 0xD3C22C2B; 0xDE7ECE33; 0xC485CE02; 0xA437071A; 0xF22138C4; 0x716DA53; 0x23A55C89]];
  [[0xF6FE058E; 0x9533C4A3; 0x748E4A4F; 0x28753F87; 0xEA404C70; 0x7814C50A; 0xE91B5EF3; 0x908D1C81];
   [0x4094766; 0xD827D3CE; 0xCE5C727; 0x7AE2FD26; 0xCDAD2BDD; 0x16AC86F; 0x7A77C252; 0x37C088B0]];
  [[0x18A35CD3; 0xABF4C1EF; 0x698A5A01; 0x1F721491; 0x1A9E9A1F; 0x79284A12; 0x4D50DF40; 0x457FF70];
   [0xEC46ED07; 0x1D235814; 0xAE5E97C8; 0xBD013752; 0xD9B100D4; 0xE085C88; 0x8858F9F3; 0x8AFA070A]];
  [[0x698D6A59; 0xF548BE3; 0xBF2D0D94; 0x5D7818A5; 0xD80E620D; 0x8E150DF1; 0xF857F167; 0x4C3A5E64];
   [0x61BD9152; 0x837D9A98; 0x8D10687F; 0x242CE589; 0xB6B52BB7; 0x9863EA4C; 0xB7DD35FF; 0x23665B46]];
  [[0x73942AAF; 0x3AA5432A; 0xCEE83A9; 0xB0185DB4; 0xA83B907B; 0x145372EE; 0xBB6D341A; 0x609F1AD9];
   [0x864C92EE; 0x28C2B37A; 0xD4CC1158; 0xDD847239; 0x8F2EAF0A; 0xE5BD4FD2; 0xD24950AB; 0x4F43BC0]];
  [[0x88DA3F20; 0x11DEFCED; 0xA407C4A2; 0xCA4CE370; 0x2F8C5CFC; 0xEA70BEDF; 0x8214B7F7; 0x8AC147D];
   [0xE260AA96; 0xECAD0F77; 0xB56C30F7; 0xA868AC63; 0x396F4815; 0xF0ACDE5A; 0xACDE6CD8; 0x302F75B9]];
  [[0xC5D14866; 0x2125D07D; 0x4AE3212D; 0xFE563DE4; 0xEE9CAA2B; 0xFE787CB; 0x53802482; 0x7D9B56A2];
   [0x8040D1A7; 0x128B4D37; 0x30ACA2F4; 0x57371299; 0x7623D14A; 0x5C443E35; 0x5FDB6310; 0x6436D328]];
  [[0xA8557B64; 0x531486A4; 0x9C5DE310; 0x3FAB4F21; 0x260468D0; 0xD872282E; 0x2542CBA4; 0x4CD4568];
   [0x555B6E0C; 0xACA0975A; 0x8B85132F; 0xEE8C43B2; 0xB9DECE9D; 0xC768808B; 0x431AF98C; 0x59EDEC60]];
  [[0x31992E22; 0xC365E133; 0xDC3A4C8; 0xB96C5FA0; 0xA65761B0; 0xDEB1C1DA; 0xF4ACAB4C; 0x457676EE];
   [0xE674FFAF; 0xA0F95894; 0xD65CDAB7; 0xFD099172; 0x54DA58A2; 0x9383C2F8; 0xF24A07B; 0xA4F4C11]];
  [[0xE380ABF3; 0x9D7A80B3; 0x9E469F9F; 0xF0C6AC5A; 0x6BD0A324; 0xC87D5727; 0x7692B063; 0x28138E37];
   [0xD67862CA; 0xE18C1F7D; 0x1E07F928; 0x4B6B723E; 0xBBCF4125; 0xAAFE3FB0; 0x3B3AE714; 0x25400322]]];
 [[[0x63C295D8; 0xB89A2DCA; 0x85041AA1; 0x5CC03C65; 0xC6514781; 0xFA9B4C5C; 0xD92388FF; 0x578031A0];
   [0xF92C2D77; 0xB0D5AE0A; 0x793D588A; 0x945A677E; 0x34A190E0; 0x3722DE44; 0xC2B9975; 0x6EA90DB8]];
  [[0x84BA4F9B; 0xE987AA85; 0xAB43BE6; 0xB2A77B9C; 0x474D8841; 0xC4AD2AF6; 0x5D4FA590; 0x4ED7A82B];
   [0x9977AC2B; 0x9F39335E; 0x52E87607; 0x3CCD406D; 0x71456060; 0x9D18CB3F; 0x6A45D7D0; 0xFE4D888]];
  [[0xF42D501A; 0xAEA8A911; 0x88F66FBA; 0x303E25D5; 0x61740B85; 0x54213F29; 0xC0B4D835; 0x5BC13A30];
   [0x4758EA28; 0x569AB9B8; 0xB796A794; 0xE2E49B28; 0x320D54E2; 0x17787125; 0xC54B4465; 0x5A6A8EDE]];
  [[0x870619DD; 0xC76C73D9; 0x84FE1078; 0xF541440E; 0x3B26A3DC; 0x2082FE36; 0xCC329B14; 0x3B896B29];
   [0xCAFCDC20; 0xB45028A9; 0x9C56757E; 0xA1B77C6F; 0x84802E47; 0xDE50D865; 0xBA0892B0; 0x7DFBC0E8]];
  [[0x47E702BB; 0xEBC505A9; 0xDACFACFE; 0x2329A41C; 0x51DDCE2F; 0xEA115603; 0x2E9D855A; 0x95BBC807];
   [0xCFD33E9F; 0x454C6B88; 0x4FFBB24A; 0x993CF6DE; 0x9B2144CD; 0xA8E22FF8; 0x84943294; 0x741066EE]];
  [[0xF067E5B2; 0x2CEE0CFF; 0xCA95F1C5; 0x1C1FD5A3; 0xC07B97F1; 0xA0EB8E7D; 0x7457415E; 0xF2A5D77];
   [0x45D06291; 0xDFF92C58; 0x48ABABE8; 0x709EA0AC; 0x2FDC92F0; 0xB3058FEB; 0x5E5B169E; 0x55E9F86E]];
  [[0xEBF6AF2B; 0xEE5DF132; 0xF642A206; 0xC30DC3F1; 0x2C60CB6; 0xD7D8EC3E; 0x3178F1BF; 0x7C98946B];
   [0xA68799EB; 0x816C2AA1; 0x2430F06B; 0x507FD5E9; 0xB9EBD4B7; 0x21FFF1C; 0x8AECFEA4; 0x44365E6]];
  [[0x21339693; 0xDC5F5EA6; 0x90A448AD; 0x5BFD2676; 0xA12A9D77; 0xF712BA95; 0xBD8A6B5B; 0x7104735A];
   [0xA763BB99; 0xD2ED8304; 0x11B91A05; 0x7AF040F0; 0xB61F3789; 0xC545E8AE; 0xBB386760; 0x582E9EED]];
  [[0xCC099185; 0xFCE5877; 0xCD681E67; 0xE148BB5; 0xECB24ECE; 0xE9F9013E; 0x2A386485; 0x90654B];
   [0x520BAE8; 0x11BA700B; 0xD8E53123; 0xFC93BE31; 0xE37948EE; 0x7DD7CB36; 0x3FC23444; 0x8689AE8F]];
  [[0xAAC6616B; 0x2060F7DE; 0xDEAB3CC7; 0x372952C5; 0xC2424ACD; 0x715C4D27; 0x308A009; 0x5846856];
   [0xB8B34E8; 0x887BBD55; 0xB688C987; 0x949ACBD1; 0x784C4C0E; 0x3E774D49; 0xB0F5F545; 0x7AEA2D11]];
  [[0xE831E509; 0x5335BA6B; 0x739F332E; 0x8FC4B4AF; 0x95993EAF; 0xB0502462; 0xA7CEB88B; 0x7DA49F36];
   [0x29D0C8F; 0x3BE0B74B; 0x55611A8B; 0xBC07F180; 0x6583F53F; 0xC168CF41; 0xC34ADBC1; 0x4256E8D2]];
  [[0xCE2FCD89; 0x313AFC75; 0xD3DA44F2; 0xEA27FDA4; 0x9063B0DC; 0x9FABEA79; 0xB3418884; 0x2DF7D966];
   [0x80AF2EBD; 0x4329FD24; 0x9F095D30; 0x36F27FF7; 0xCC84C068; 0x88FFB18F; 0x7B0A9906; 0x976427A8]];
  [[0xFAC21087; 0xCFF828CC; 0x56863CB5; 0x6B6D3484; 0xC30879F3; 0x14163A70; 0x8CA6FD5D; 0x30E2A633];
   [0x28A58783; 0xC7FCEAD6; 0xEEFA1EAA; 0x945F7B09; 0x5CC66267; 0x98A503DB; 0x3780061B; 0x83EE750E]];
  [[0xB8477D6B; 0x7061409A; 0x2B7B54FA; 0xE47C779D; 0xF293166C; 0x42F5EDF5; 0x115D830F; 0x73C3AC1B];
   [0x4DEE0980; 0xC30D346E; 0xA62F0D09; 0xEE0D9A29; 0xABCB7DAE; 0xBBE8DC9E; 0x68B78925; 0x4F0E78C0]];
  [[0xB4B14003; 0x25A0D4FF; 0xB8AB649C; 0xA4C3AC55; 0x27F9FDF5; 0x7D7EDE72; 0xBC2A46D4; 0x507EC83F];
   [0xFAAFC26F; 0x344577D9; 0x3EB30156; 0x77CBB783; 0x1D5C9367; 0x3A846FFD; 0x9DF9F7BE; 0x5F0D280C]];
  [[0x77DF7F9F; 0xCC8EAC0A; 0xF33A62D4; 0x195BC6FF; 0x524D78FE; 0x18A33FFA; 0x6603F9C0; 0x10E58974];
   [0xCDA2C3F; 0x31AF4B46; 0xADE169C3; 0xDDBF00C8; 0x71A7BC38; 0xA169C3E3; 0xA64B342E; 0x3FC352FF]]];
 [[[0xEE73C673; 0x58848315; 0x8ADB897E; 0x67D2F7C0; 0xF0658115; 0xE8CD786D; 0xAC54D2AB; 0x23D515A];
   [0x67559911; 0xEDE61D8; 0x3C2B78B5; 0xBC12B106; 0x9E4707D8; 0xB5661A28; 0xADC095A4; 0x93FB4096]];
  [[0x33D5FA08; 0xEEB3810F; 0x33F4CAAF; 0x8D8FC354; 0x29EB08A3; 0xED870516; 0xD1D31EBC; 0x89FD91CA];
   [0xEDE2494B; 0xD2F1F832; 0xFA8EEA95; 0xCFEE1D77; 0x3B0F005C; 0x13603C4A; 0xD9EF68F4; 0x6DF97F85]];
  [[0x55410512; 0x578FBC0A; 0xDEC79EEE; 0x1FA404F2; 0x92B60820; 0x201FE215; 0xA56193A; 0x9A9B3CE8];
   [0x10B49800; 0x8A5ECCB9; 0xBFDB1D8E; 0xA7373AEB; 0x4944B5DF; 0x8996BEFA; 0x7B44246C; 0x3102D3C0]];
  [[0x449C09BE; 0xD4A853B7; 0x51DDB7FE; 0x1F7080A4; 0xE1C27FC1; 0x8A9DE52C; 0xC58B99D; 0x6585B54F];
   [0xB5A4AB53; 0x8EEB0601; 0x48C73AC6; 0x977D658D; 0x3D9BD223; 0xD5DA0903; 0xBE115965; 0x881A5838]];
  [[0xEB3FC303; 0x8EB70B77; 0x98BDB841; 0xED1C4DEF; 0x997DE9E4; 0x13E6BE06; 0x9334D46D; 0x4A94C0A1];
   [0xF867DAF; 0x184C17C8; 0x33A64148; 0x4A658026; 0xAE3D4AA; 0xD177F009; 0x98ED12C0; 0x8134AC8F]];
  [[0x7A58DDEC; 0x7A308A00; 0xFDF92DF2; 0x74A15C5F; 0x21B4E345; 0x210D260E; 0xC651E31E; 0x6446715B];
   [0x10B905B6; 0xB1AF1F84; 0xA62D366F; 0xEF6CD0F2; 0xD1F6B7E3; 0x77E47B01; 0x2B95BD12; 0xF38B280]];
  [[0x8CCCDAE6; 0x52DA30E1; 0xBD86A13A; 0x9F3D6636; 0xF4EA6151; 0xADFA00C5; 0x1EC37639; 0x6B93BFA0];
   [0xF8FE22FC; 0x443F0023; 0xA81FEACC; 0xCB7848A4; 0x517E9E61; 0xCE5E650A; 0xA1968E3D; 0x5842DB7D]];
  [[0x98C06F78; 0x61DDC694; 0x7985B1A2; 0x680FEDE9; 0xFB53A327; 0x214CD2B8; 0xE425132B; 0x98EAC0B3];
   [0x33E5766D; 0x5EEDD76D; 0x540000A3; 0x5B280618; 0x65C894AE; 0x915D55CB; 0xD20D9523; 0x7B088A36]];
  [[0xC28DA278; 0x51A47312; 0xEFE64521; 0xE315CBA4; 0x49D8D0FF; 0x3EF70A18; 0xCABD48C5; 0x990CB92];
   [0xA7C2FC76; 0x22ED6302; 0x2CB98186; 0xB50370EA; 0xF3F2BA8B; 0xDEA88C65; 0x9FEDEEA; 0x9062451]];
  [[0xDAC0F222; 0x742F9A2E; 0x95C88A8E; 0xE2A8842B; 0x9D817B14; 0x80C05765; 0x982D49AE; 0x7ED0521A];
   [0x907B10F7; 0x47E49D4; 0xDE8AD4CD; 0x8A3E23A7; 0xEB5292B1; 0xEBE8C13F; 0xA7EB70BD; 0x48A6209]];
  [[0x9AA34851; 0xB51665A0; 0x7C4AFCEE; 0x4DD5AC1B; 0x25A21937; 0xDEE7AB; 0x80FAF232; 0x88E2681E];
   [0xB5411EE2; 0x79ECD66A; 0xF370BF53; 0x6008CE3; 0xC9BBB64C; 0xCFB1850E; 0x7149B14E; 0x5FBACB27]];
  [[0x9938AA0C; 0xA1F0EE07; 0x74CCE9C4; 0x6945E2BA; 0x46A98BEA; 0x16689FCE; 0xCF67DF91; 0x8D71F405];
   [0x69621150; 0x71E4CAC8; 0x89B380D8; 0x518FA200; 0x53F9E660; 0x3B3B85F1; 0xC6D9B022; 0x2643303]];
  [[0x7660C3E; 0xE8C478EC; 0xEF41F1DA; 0xA906C3A1; 0x46699B71; 0xE918F160; 0xE5BE7B36; 0x2B8A0B0E];
   [0x889F50A0; 0xC663F0EC; 0xF9214F81; 0x7413264B; 0x421A9087; 0x2E9FA9A0; 0x83546DCD; 0x85C59B7C]];
  [[0x8D920A29; 0xB4A6CF39; 0x1B3956A1; 0xC857AF48; 0xDD794B23; 0x519C7371; 0x8EFBF8F9; 0x47846220];
   [0x617E4C6C; 0x184C25E5; 0xD2E51A5E; 0x218FCC23; 0x28FA0FFC; 0xB4219719; 0x781A61D9; 0x6C0BCD71]];
  [[0xDC7B5568; 0x440D6DDF; 0xDBBEC7C; 0x64C7CC31; 0xA2DC0CBA; 0x63D16D4E; 0x4504BE2C; 0x7BD9E0CC];
   [0x2DE780A8; 0x9C882895; 0xEF2B2486; 0x7C6685C2; 0x957FA7D8; 0xF1FB09E9; 0x46A77A98; 0x20C6B5A5]];
  [[0x33C0F0C1; 0x60C77573; 0xCADDA5FE; 0x40C93227; 0x9DD41D5F; 0xA48EBAA2; 0xEA9FD5AD; 0x4AAFBF3C];
   [0xC5A287BA; 0x7EB61836; 0xB31BA25E; 0x1D6A1BA2; 0xAD186E52; 0x60507257; 0x2BAB7451; 0x7FEC8EB0]]];
 [[[0xB8DA5FFE; 0x500E2FDB; 0x8CDD1B39; 0x6AE2D4EA; 0x1A5840CD; 0x38D12025; 0xC214D26D; 0x8D3B20CB];
   [0xC041E874; 0xEF6BB36C; 0x450F2218; 0x67660393; 0xA892BDFD; 0x1E1B7782; 0x8D962E62; 0x2D69514C]];
  [[0x9631B095; 0x9EDF5F78; 0x45BF8F20; 0xAC7DD687; 0xE3262EBC; 0x257CCE28; 0xE0E480A6; 0x5D32EFCB];
   [0x6FBB99E8; 0xED48E34C; 0x23FDE9B7; 0x50B1D58C; 0x6B6927C8; 0xC5164C2A; 0x8906B705; 0x8A0BC606]];
  [[0x2F747DA8; 0x3FA3C7C9; 0x14938E08; 0x2E8D2C2E; 0xB6A1C720; 0x155A8A5B; 0xB3133FD0; 0x6B4D8C9E];
   [0xCE131C1D; 0x79AC7F1; 0x815B7D2B; 0x9CF419AF; 0xE60B6245; 0x569EB7BA; 0x9A3DD94E; 0x3C79E60]];
  [[0xB9CE9502; 0x328F5296; 0xE45C3576; 0xCA44ADBD; 0x6194AE2C; 0x66987952; 0xBF9B8C49; 0x5875F8EF];
   [0xDA51CAB8; 0x525A4D53; 0x9DC268B2; 0x91A592DD; 0xE1E3C168; 0xD7EA7958; 0xA999ED30; 0xD1E20E0]];
  [[0xFE8AD270; 0x55DA34E5; 0x61EC55F6; 0xB0412895; 0x534569C9; 0xD45670F; 0xE23F69FB; 0x5A7E6764];
   [0xA8B28676; 0xBB6BBEC9; 0x93B0D1D; 0x4F924558; 0xC29D841; 0xD4E4BF12; 0x578A237A; 0x67D2B4C8]];
  [[0x63EF2D73; 0xBDF32D6; 0x4AE4303C; 0x7248DD2D; 0x6CE1E92A; 0xBB61BAB5; 0x1D7B9A6C; 0x126166E9];
   [0x11CEBC3C; 0x4CE7086A; 0x1C71426F; 0xE7ACB25E; 0x432CC4AF; 0xBFB65EDC; 0xCB018CF7; 0x3BCA5202]];
  [[0x76430A87; 0xACF034F2; 0x534C42ED; 0xBFDF19B3; 0x7946CB1A; 0x5654FE6; 0x80F17880; 0xDB07E79];
   [0xFDCF8BC9; 0xE6E93101; 0xF798A8CD; 0xF3198B87; 0xC9683420; 0xC05444EF; 0x915D1BF1; 0x56E9AA68]];
  [[0x34000B11; 0xF27B298B; 0xF4196E50; 0x70ED8C95; 0x233C8764; 0xF3E16608; 0x41881557; 0x5B97655A];
   [0x128C195B; 0x5BF11C1A; 0x372C286D; 0xFFB64333; 0x7C83BB31; 0x84D3EF7; 0x745B7D75; 0x8ECF6C01]];
  [[0xC6F4FF82; 0x3D6052B9; 0x6607892F; 0x9305FE45; 0x5879425F; 0x232FD87E; 0xD6F47350; 0x4CAEDF73];
   [0x32FC50D; 0x889243D2; 0xC9C11AC; 0xA6AF69D7; 0x802E8E06; 0x43B5429D; 0xD70FC802; 0x38F1DEA8]];
  [[0xC9595C08; 0x54F24344; 0x240AAB3; 0x95A2E8FB; 0xC3544985; 0x7A5109D; 0xB5D30899; 0x96F44213];
   [0xAA347497; 0x3FAB192; 0xC9CFC073; 0x47FFD3DE; 0xD2C1D57F; 0x283AD765; 0x62DC271A; 0x1FDFFBAC]];
  [[0x95F80CA6; 0x2355C629; 0xCD8D880A; 0x90AE1DBB; 0xC54117E0; 0x563CC122; 0x813D7481; 0x1EF4991B];
   [0xCCE9AEDE; 0x8A310D77; 0x9318642E; 0xA401FAEF; 0xCF9AFDCB; 0xC1712A67; 0xBE499DE5; 0x8D97374C]];
  [[0x55A0BC07; 0x7437AA3B; 0xF726DD81; 0x4946D0; 0xF341860; 0x33D41D1B; 0x17840F0D; 0x2A009EB5];
   [0xAA0DCDCF; 0x158F59AE; 0xEAB42135; 0xF686EF2D; 0x7A80C670; 0xFF6B8E82; 0xA04DF944; 0x38646963]];
  [[0x4B987E90; 0x6BB2705E; 0xD3C36316; 0x2F5E2C4D; 0xE5A9ECEC; 0x41B38905; 0x55BF8D1A; 0x2C6BA681];
   [0x3C92B20B; 0x1121B3B2; 0x904305D5; 0x6DE41B12; 0xD569EAC4; 0xA0496CF4; 0x11E5CF90; 0x5C64A06C]];
  [[0xE28783DF; 0xA65F12AB; 0x37322285; 0x2A891B0F; 0x9811C4EB; 0xD6FF4604; 0xA8505AC0; 0x7C960ED5];
   [0x2FCA110D; 0xE8689377; 0x60FD893E; 0x71AAE292; 0x7505671D; 0x8ADE5317; 0x8C508791; 0x721A07A5]];
  [[0xE5ECCA8C; 0xC1AE9A50; 0x7EB4329; 0x7528AEF5; 0xD1297D88; 0x8F0D0E03; 0x244BBC0C; 0x27C7BF76];
   [0xC7E7E9BB; 0x96EEDA7C; 0xF96C99B3; 0xC9749BF7; 0x467B4D43; 0x44C852D2; 0x937FA21D; 0x1691D71D]];
  [[0xF8058A68; 0x8CAC092F; 0xDAE38445; 0x6B892BCF; 0x97D76059; 0x82CBECE5; 0x3518F9E2; 0x5AEB6646];
   [0x392080B4; 0xA39C710C; 0x1502DE54; 0x575DC5F4; 0x3A3D2B4D; 0xA465DD5E; 0x638EAF45; 0x281AAE47]]];
 [[[0xE955A145; 0xBE40C92B; 0x324234B5; 0xD464D6BC; 0xB09D4AF8; 0xE8084747; 0x5268D6C3; 0x939C70BF];
   [0xD1DDBB48; 0x9C9C9D25; 0x790B5B42; 0x30D9EA7F; 0x4E3914B4; 0x367FD79B; 0x826EE4D7; 0x27615F29]];
  [[0x50A41246; 0x9BB6F16; 0xE5459A13; 0xC72BFF7A; 0xFF09B2F7; 0xFC15846; 0x9CB693A; 0x6D904062];
   [0xF40FC67D; 0x98A132F8; 0xDF37CBFA; 0xC8B6573B; 0x99D7FC36; 0xC9CF9948; 0xA7235DDB; 0xDD66ABA]];
  [[0xF96048BD; 0x180B525; 0x544F1E70; 0xEB566786; 0x8EF4373C; 0x8BABBF9B; 0xD9E49178; 0x509BA431];
   [0x65A4A201; 0xF961A6F5; 0x8D44ED2D; 0xB6621DF9; 0xD7B4D744; 0xEADD3C0C; 0xEAAB110; 0x75D27E99]];
  [[0x85DF5695; 0xEAC7AC76; 0xDA7540A3; 0x2C26274; 0xC659B610; 0xDEC1BBC4; 0x3AC61EEB; 0x54483C1B];
   [0x217E0283; 0x8B91209A; 0x3A17DDFE; 0x939FBDAF; 0x5BF98726; 0xA82C66D6; 0x915AAC76; 0x2BA82FA0]];
  [[0xAF4542E8; 0x99B324C1; 0xC0F225E0; 0x16EBC66F; 0x27FEF57B; 0xEAE69563; 0x961B03FA; 0x2996FE3C];
   [0x4F967A68; 0x835212E; 0xF44352DC; 0xAAABD99; 0x4B3A6B8D; 0x1874255F; 0x6D10B369; 0x45F5D8B2]];
  [[0xF7B7644B; 0x603DD497; 0x2D1386AA; 0x369BE676; 0x14C9FA94; 0x8C1B763; 0x384AF696; 0x734921D9];
   [0xD76E8EEB; 0xA1B5AF5B; 0x42F990E8; 0xB0EAE7A3; 0x69ED81D; 0x59E7C515; 0xB5A50610; 0x2D1B5E62]];
  [[0x85995BD3; 0xDC322810; 0x873E7A09; 0x35A47B05; 0xA70DE932; 0xCDFE9BB; 0xD62FBC89; 0x49B899D];
   [0x652291DB; 0xF6BAA860; 0x9AF7478F; 0x58123B25; 0x47B9F204; 0xA05CCBC2; 0x82D999A7; 0x8A0B479D]];
  [[0x2D0F619A; 0xA72B9B52; 0x5919C420; 0xE73B66F7; 0xD21CFEFE; 0x92319C86; 0xF1635F0E; 0x58EEFC71];
   [0xDA909290; 0xDC481783; 0x66316584; 0x144E7A98; 0x45E1E3C8; 0xBD7E657F; 0xBD93938C; 0x5C9FCD1C]];
  [[0x436C1AB3; 0x2339E2FA; 0xC26768AA; 0x69C22269; 0x40FCBD90; 0x94DFCAF4; 0xC41D4F61; 0x56235739];
   [0x718468D3; 0x6E50D4DB; 0xCADCEC6C; 0xDEA80730; 0x63DC3C43; 0x924FF97E; 0x6752EA6A; 0x1B652825]];
  [[0xF07BE4BB; 0xAC2BDCDD; 0x8DB0A32D; 0xB46D8E96; 0xB618488D; 0xDD661C68; 0x75E1E4BF; 0x8ED22D4B];
   [0x3C177D80; 0x5DD2E5DF; 0x82803711; 0x5049C012; 0x73E0BA27; 0xFB243B3F; 0x8C7810D5; 0xC756BA0]];
  [[0x6F16FBCA; 0xFC58F0BD; 0xA5E33B36; 0xA855BB8C; 0x99D08247; 0xB9239EB4; 0x49CAF40D; 0x27ABC78D];
   [0xA1285278; 0x88BE1595; 0x60F16638; 0x9D5AEE5B; 0x1FCE4327; 0x3F381529; 0xF19CAA04; 0x17206899]];
  [[0x9E047F55; 0x58616348; 0xE991FC4C; 0xD6098A5; 0x99A33914; 0x47760F98; 0x5608C80E; 0x70C8F5D4];
   [0x6036DBE; 0x405F1191; 0x80CC0A27; 0xBF625895; 0x389FA7BF; 0xFB8A0330; 0x1FA0CBB4; 0x22B0B946]];
  [[0x1B1E2ACD; 0x84AE1981; 0x63961891; 0xFA23C205; 0x742C1653; 0xCF4C685E; 0x4D303078; 0x55BFC744];
   [0xBA03AAE4; 0xEB131CBB; 0x2C5B9EAB; 0xF338C0DB; 0xB7495209; 0xC1006396; 0xF7E6A4E6; 0xFD928CF]];
  [[0x8633AB84; 0xA6BAC994; 0x75364642; 0xC165BF5A; 0x8C57070D; 0xB70BEB47; 0xD416322E; 0x838158A0];
   [0xD4957751; 0x501D2BFD; 0xC23AA730; 0xF1CDDF32; 0x5458F1C6; 0xF64558A8; 0x6E1209C; 0x51B6DDE3]];
  [[0xCC31D6BE; 0x712C186; 0x33CD1D3F; 0x91C4064A; 0xC7C91F53; 0xCADAE5B0; 0xDEB2A2EE; 0x52AA408F];
   [0x202719D5; 0x58675CC; 0x1D087D07; 0x444F99F5; 0x9D7A8AF4; 0x4DB587E8; 0xDA17095A; 0x389376F5]];
  [[0x48FED385; 0x8262D370; 0x1AE92689; 0x3B1FB466; 0x24242CF4; 0xDA6F570F; 0xDEAC5E9; 0x532FC9E];
   [0x20C5BD7B; 0x5E8FB740; 0x2624B3; 0x5AE99925; 0x7AFADC15; 0xAD44A4D5; 0xDF409330; 0x6AECBC80]]]].
