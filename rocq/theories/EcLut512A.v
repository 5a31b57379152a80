(** The tables lut_cmb of ecp_id_tc26_gost_3410_2012_512_paramSetA.c as they are written there, for both widths. *)
From Coq Require Import List Uint63.
Import ListNotations.
Local Open Scope uint63_scope.
(** lines 2142-4086 *)
Definition lut_512A_64 : list (list (list (list int))) := [
 [[[0x3; 0x0; 0x0; 0x0; 0x0; 0x0; 0x0; 0x0; 0x0; 0x0];
   [0x589CB5215F2A4; 0x5FC235F5B889A; 0x47483D30051FC; 0x5BA4F5D79A943; 0x6F8B135F27E81; 0x64FDCBEFA921; 0x13ACF1ABC1778; 0x4A8A1CD9CBC39; 0x2B8E986E205B8; 0x3A81E7F43D41B]];
  [[0x134687CCB87C3; 0x3A10544E8416E; 0x61120F5D8AB9F; 0x4D75D92CBD5EC; 0x21E94205A696E; 0x291D5F488FBA5; 0x4C096168A1174; 0x34ACFF09B62AD; 0x19FAD4E4D776D; 0x50FF8D5938951];
   [0xCD7EC518D90D6; 0x711A4FB6C7125; 0x298DBA98C6CDE; 0x5BBAB3EB0BFA; 0x8E9D7BF33E26; 0x19E3F333F7EB3; 0x48D7F84FBFA38; 0x76B7309883C74; 0xDFCC0DD3C626; 0x1E5AE220BF623]];
  [[0xAEA0CE47F1E5F; 0x6DA872DC7D9E3; 0x4026E133CB612; 0x1D4C81CBDD5C9; 0x116A46100FB10; 0xC71645B8C9FFB; 0x6AFE06F1C1484; 0xB6FF2FF4E6C1; 0xA642376D824E; 0x2B4540E895C56];
   [0xBB3B92706CBC6; 0x5700DE178E056; 0x197807544BFFA; 0x706F69DD298A6; 0x205A8622A4E8B; 0x109A43ED36596; 0x49AB5B2BD5C17; 0x515CF2C048D7F; 0x651FD0ECDF273; 0x3C6B66DABD057]];
  [[0xABFC1B7D256E0; 0x22DFADD1D6E68; 0x33EEC39057D08; 0x75EC5CD3B3AFE; 0x73336BE8A8F9; 0x528C313659874; 0x45D76D6402E5; 0x7B1F5060389E6; 0x5D713A16A99F2; 0x3C394B1ED6CB5];
   [0xA8C1A38755E5A; 0x5CA589C9447E1; 0x2D738BA7D236E; 0x5E7DB74C629B; 0x62E362468963; 0xEBFCB8EE6AF9E; 0x193EA82E68F84; 0x3CAA0E7EFC3A; 0x54937BC67C142; 0x432F67FAB85C5]];
  [[0xC34CEE53642A2; 0x48BA44E987AEF; 0x7CFBA481AC93A; 0x252C52E6724E2; 0x69C1386DDE181; 0x3FE183213C47A; 0x6C13A8DC37861; 0x4546EA0F50627; 0x7B6C23C692349; 0x4307D8079E6F2];
   [0x812879D2E3C8E; 0x191C73044FE47; 0x77218289340D5; 0x5DA711BBBFF71; 0x1C57405B59E36; 0xC7F1B91C21105; 0x66E23EF3A609; 0x12EB6D5C73D15; 0x20C3294080ED7; 0x33ABC6BDE0FD2]];
  [[0x2EE1E7135C5B; 0x147440718098F; 0x742216A0AD24C; 0x209FAE0414762; 0x7523CACA53442; 0x2240ADDECED0B; 0x23970F6F47640; 0x799A6033CA82E; 0x13F8D7EBD8951; 0x3167F9B05B77B];
   [0x84059554ECF79; 0x5753C6736FF73; 0x619A371C7BA90; 0x7A6287324180; 0x37396508E43B1; 0xB92328505DD45; 0x55C92400C6EE2; 0x2654406A9F655; 0x3AF03185F59DF; 0xC9632A02E2DE]];
  [[0x82288639F2EBD; 0x4E3BE5A9F335C; 0x475B64CDF3D5; 0x3AD875B443CE; 0x5A22CF276D7D8; 0x59A094CC2E917; 0x2CAA724BAEBC5; 0x1CB230407F535; 0x43A679D215417; 0x32069427B390F];
   [0x5AAE7CCDEA72; 0x227E312EBD77B; 0x6C48359C093AD; 0x66AE122001431; 0x2A7685789D1A1; 0xDDDC9B1721593; 0x2EB3A73075BAE; 0x10D483A062D6E; 0x414E1A10675C2; 0x3FC179BB802A2]];
  [[0xFA7D670E14D45; 0x5B60822C15C07; 0x6E1C8DC8B953D; 0x3AA1F0C09E3C3; 0x4C494E672EDE4; 0x61EB986E7C9B9; 0x3EDBB8C82ECC2; 0x7B7E098625DE1; 0x1652C34790E48; 0x181E9C44FB652];
   [0x26B7BFCB41422; 0x4420662645444; 0x5427FA987FF52; 0x5B9040DF26326; 0x334DEEC131B7C; 0x9976A9AEB37C6; 0x5DE6BDA0EE26F; 0x46CD4B8DA22BF; 0x1A9277ED46EDA; 0x48FE9C8EA98F0]];
  [[0x69292A4F09AE6; 0x59EEEC0228FDC; 0x2E6A2EB99E1C1; 0x28B36B1CB7EDC; 0x7C4D51AEABB6E; 0x40FA7C5F982AC; 0xA163AFAB5A89; 0x436DC36654D6F; 0x6E7E4EFBDBA76; 0x469D46D1AEC82];
   [0x3F3770683CF55; 0x7581899AFCAA5; 0x21BB9291EC382; 0x725C1812F5867; 0x10D68EF013EA6; 0xD8AD6CCEEDD36; 0x4145477456E2A; 0x350F4CCCDD3ED; 0x6D247F4FCCCBC; 0x2C35AD24695CC]];
  [[0x563E3BB2C9A3; 0x4731F28271C7E; 0x6474AEE84E9A; 0x79618BA66931E; 0x5DEEC306DF549; 0xA49F4075B243E; 0x72F449585855D; 0x31C0CC652EF1; 0x3DDAA420F12A; 0x27047A35D3C45];
   [0x8D45AEA9F97DE; 0x31B40D05861EA; 0x22DF5AC218686; 0x237062CC05B46; 0x511B267DD6BA7; 0x818297550A398; 0x702FE7A56CB70; 0x53C7D673599DE; 0x3ED45D15B6C15; 0x1806F568245B9]];
  [[0x9351072DB2170; 0x33196A2CEF459; 0x6744E6383FCEF; 0x5C51252A32D28; 0x5FA2110CC455; 0x4B8063421A324; 0x7D30325E5137D; 0x2AFA7F320E835; 0x11A9719C3D5ED; 0x6DFED78D57C93];
   [0xCD2B1C06C89E0; 0x5887BE69BEF0; 0x23A5834EEE4F0; 0x64984FA6CCD98; 0x6FB77FDF3397; 0x1EBEBCE68907A; 0x6784C0935BED2; 0x50FF3F3DFF454; 0x4036C327922ED; 0x8DE3F2C6A92E]];
  [[0x6E03B0A49FC14; 0x2D86C93A83EE0; 0x4A7F892C15148; 0x2FC12A44E72B1; 0xF1222DB270EC; 0x5C305D53F498F; 0x5C15989BD840C; 0x5FD28651837A4; 0x1F44FE46C7F06; 0x25B96CDAFE605];
   [0x9FDD223F15C01; 0x7578682CC2965; 0x6222B764EE30D; 0x2695A8C2DDC09; 0x3EED3043E0B4D; 0xDF4BA29380423; 0x799CE51DCFEE3; 0x1DC423C4607A6; 0x353F2E08F2F67; 0x2DE3BCB26FB64]];
  [[0x121C2DFF5C5F8; 0x2C6372966E3BB; 0x40EDCBB6FAE3D; 0x45E8590C45B65; 0x57F2556A1008A; 0xD2C63669622C2; 0x53762BBDA6A4D; 0x638814A3C0C15; 0x6306A8C676FEC; 0x39FEA5B5F2932];
   [0x45B18CC6F6BD4; 0x572570661CF49; 0x3DB3E7E6325C0; 0xD4366AC3C833; 0xBA40102D6C2B; 0xD88CD5627BDAA; 0x1A191F2BD95D8; 0x7B490EB1F6E2E; 0x1854754C42C14; 0x4F9B402BCF150]];
  [[0x62710FFD6E4C3; 0x75F168936C9E7; 0x5EBCC23DECE92; 0x6A533FC0618A4; 0x6276D8296DCC; 0xC6FDBE7DDD556; 0x5F77BF0F1421B; 0x21327FBB8BE4C; 0x39F51E09D0F1B; 0x36B0DC0560BD1];
   [0x90F866EA9C581; 0x1BB6C84E218AF; 0x16801E510D5D1; 0x48969111EF218; 0x32F01F97E8EAC; 0x846529FDA255F; 0x3E0DA43E7BC5; 0x5377E9AD3A533; 0x54F1C41B443CC; 0x1E2C9C182A7B8]];
  [[0x6822BBEC85A6F; 0x37FF627207C7D; 0x99E1EDB38619; 0x24EABAAEF4727; 0x1634583C11813; 0x5BF27EB8FC0B2; 0x2C5E6D68AED81; 0x51011E59FEFC1; 0x5BDE68E16008B; 0x1CDB6AC4A926];
   [0xF9C8354532F1F; 0x3B7D13F24D465; 0x1EE14FAFB642C; 0x3086537C154F6; 0x498FB21A3549B; 0xD5F9768C501AF; 0x7358BD9264583; 0x20604DE0C73BC; 0x4C1EFB4D90397; 0x316FD7FD552FA]];
  [[0xDF775325B2BEF; 0x7C981BDB56B5B; 0x30415FEF5D1EB; 0x66427FB342115; 0x39F275DCEB907; 0xFC52CB944765D; 0x63BA40ACC8623; 0x217B5022687A4; 0x3782EE74343F6; 0x6E344AF9791BC];
   [0x6A094A3D00C90; 0xA8C2AF5A4ED6; 0x2593EB8606459; 0x6BB706B63F1A3; 0x1AC9ABD940E22; 0xA8AFEAB077BE2; 0x53C3E6DE9695; 0x35197B6C50B68; 0x5F05ED56144C6; 0x5D16C6B2F7A7D]]];
 [[[0x9697EFB5343B1; 0x30F79CEE2F4D7; 0x7C57239C2BFFF; 0x5E177E6306573; 0x58AECAB18B5E4; 0xC2D8B42DA873F; 0x67CEC60F40D7C; 0x1CD069631374B; 0x53BF89F276A0A; 0x211BC2F82ABCC];
   [0xF42F918BECCB0; 0x50BCCFB9278C6; 0x521F422BE023A; 0x247E206708DFF; 0x603F8EAFA08E8; 0x1C8FA49E8E7A9; 0xED2F247FA8F2; 0x54F2BD90FC41F; 0x613E3F3A0E141; 0x58F502829C1A3]];
  [[0xFA958A02414EA; 0x5694D8B531753; 0x2596B7F70E2D2; 0x6F58C437031E9; 0x5E52B9AB2FC87; 0x47681FFAD52A2; 0x54CFD109661E6; 0x2642E41E026F7; 0x15A4C0B3E2C49; 0x12DBAB3D25C66];
   [0xF66D444F2C6A3; 0x465ABD7FBD63E; 0x346682E14F62C; 0x7D1BFDC2BDD7C; 0x14B50150CDD7D; 0xF1BAD6F065607; 0x1B669F08E4917; 0x7147465D09FD0; 0x2E2E3DF8C1CE5; 0x3E168C6A9219B]];
  [[0x26E66F048E71C; 0x21DA6DDB4379F; 0x6A446FCD70668; 0xED5A782862E2; 0x600DB452AEA1A; 0x70E2B0EE96B31; 0x272BCDA0E468B; 0x6754F74551E8E; 0x30B2901255489; 0x18BA394D8F24B];
   [0xEF5DAB92AD60C; 0x7A4E353682E4C; 0x4D92B14F64543; 0x6FB1C445C4562; 0x5F0C73553832; 0xF219585C811FA; 0x2373528CE90C; 0x5AEFE0F86FFD6; 0x65686EF3DFA1; 0x4BCFCBABBE76F]];
  [[0xA04E942DB5726; 0x4E0A8E957D2EB; 0x42171E8C74B0; 0x2CD5D9C992A32; 0x21775A666DF3B; 0x9B1719FCE5AFD; 0x70479A5510650; 0x76CA597F5197E; 0x2FF8004DC7298; 0x427FBA3F2118F];
   [0xB2B7F0F1BC525; 0x4F49FDAF0E9F8; 0x119E1F8B31D5C; 0x2C2E70F7717A; 0x547EB13E64F24; 0x61C10285CB68B; 0x27F33F80AC82B; 0x7A73F720ACD1; 0xFA4783E28EA8; 0x5E1B01569FE4A]];
  [[0xC8833182EEC18; 0x5188EE3CCBD7D; 0x145800FA7D3B9; 0x15F410C821BF2; 0x6D6985D22BB97; 0xACE8A202EEB11; 0xD3BC5FFCBC; 0x5A94DE37C5B1E; 0x6A3E90AE676A0; 0x3DC3E9B9DEA03];
   [0xADDB18897A653; 0x28BB1348E369A; 0xE0EF15D097A0; 0x369538A36A67C; 0x4F11787ECB811; 0xDAB579DC3F6E7; 0x51EEDC98205E1; 0x296B14C5B057C; 0x6A6B518D5A499; 0x4B973FBCAD781]];
  [[0x92403168F568C; 0x50C76745944DA; 0x45586DDAA3849; 0x2424F7A393AE3; 0x3613FCF452DAE; 0x483477F08760D; 0x6DE9C9C30A9F7; 0x6DE3DC9E26B78; 0x72E8A269F2328; 0x1A0904E3E62B3];
   [0xF53CF7A63B520; 0x16E19E79779D7; 0x3BA73148BC41B; 0xA0B9CB876955; 0x2C3678483C9E4; 0x1717604F49F0C; 0x6DA52AE47D9A6; 0x18A068DEAD248; 0xA45F44D54D0B; 0x201738C7D6750]];
  [[0xBFD50B6C0ED05; 0x3B59B6181691D; 0x36E5595022312; 0x6371166F016C4; 0xD2463D93685C; 0xFB99CEC22230; 0x662B7CA84328B; 0x5B058F277AA90; 0x744C6285E6BE8; 0x44924B43A399C];
   [0x9FE2EF5756858; 0x2609FAC19675C; 0x1EDB73C43A527; 0x18040218709B5; 0x38E60561A169C; 0x716A3DE9C2728; 0x1312CD53738AB; 0x3A5EADF12479; 0x4F1C4C30A626A; 0x17077F028932B]];
  [[0x5E4B52DDE7879; 0xDD824234AF86; 0x7E33F8D4E4720; 0x7DE0000448CDA; 0x33984E740002A; 0xC47E6A3586EA2; 0x44D0958EBE073; 0x1246801B8077; 0x2F9FC5AA5757F; 0x1A2DCE0976101];
   [0x660A83163C88F; 0x537D8B7F6309C; 0x8DD86923D2DE; 0x1EDCB48974621; 0x6C01F610F051; 0x8C9E7599C4A9D; 0x36EA13E261953; 0x3ED8BC32C0F96; 0x755A3B7B81967; 0x13DE89A6B4D9D]];
  [[0xCA6E0EB363C7F; 0x5F55CE82062CB; 0x54C8A253358D0; 0x2C5D656290FF8; 0x57F5B9325F1DA; 0x1FEF7C4623421; 0x751B35DC509CC; 0xD577E46356BC; 0x1AE1750B963E0; 0x101926AD538C7];
   [0xADB8B609BBDFF; 0x71752C179ED60; 0x1F4F46D3CDA68; 0x6AB70B8479B34; 0x25F7ED7DEE309; 0xDDC2D9609A612; 0x4E68BAF1E467F; 0x40F9B19D3CBE2; 0x37E8C1EC0C6A4; 0x3125691C2193B]];
  [[0x67DA2BD46C9EA; 0x26B6CAB294387; 0x1D6166D7C9065; 0x62BF47248BD53; 0x2E90A5DD8639A; 0x3936168470E19; 0x528F76D8AF696; 0x6ED2117C0F595; 0x53A94B0075896; 0x29EA83F539A1E];
   [0x2028A9BD76B91; 0x4FD251AA0E6F2; 0x5AC8CC0D23EFF; 0x128939573B39C; 0x672B16EA38AE5; 0x4D9266E6063F1; 0x59E6A8535CE8; 0x599ECB0EF8DD; 0x7013D35E8201F; 0x2C65B4B7CFED7]];
  [[0x8F58A1E3612AD; 0x3A9FB96EDB71F; 0x1F18D41C781FC; 0x18367EBB23895; 0x5D1FCD3BE526A; 0xA42281101E568; 0x5BABB0531BAFA; 0xA5F2A706F2D0; 0x4127B930A594; 0xEB497CC34685];
   [0x73B79A1945681; 0x752EA80F8AC71; 0x6302573AC640B; 0x78867625480E5; 0x7079395B2C6EF; 0xC10FF5DD268D7; 0x57909D9F5E805; 0x3A161EE637F23; 0x76AA86D84AD92; 0x1EF085DE6C3AC]];
  [[0xC311C4599BCA4; 0x71D198CA022EA; 0x7BCCA6C1EA7A9; 0x5A91F6CE54B62; 0x40F2F68ADFDE8; 0x6DA7F20DC869C; 0x59DD3EE431C99; 0x714D6993F24A2; 0x7C5152642D91F; 0x2F4E11F2CC27F];
   [0xA8ACA2FD26CFD; 0x2EB39C4AC80BE; 0x5BFAD35FC99F2; 0x2BFAB444638F8; 0x355F04D6D03C9; 0xEB7D307BB548E; 0x45256FDC37CFF; 0x455EACB7CD74C; 0x5F5BC0A0265A1; 0x4E4B55474C1FB]];
  [[0x405C3B4CBBA99; 0x3A2CFD9BA8CE7; 0x4D38F33BA729F; 0x58368002B41A8; 0x1EB778063FAFA; 0xCB2D95428C0; 0x7A5F40E6F6248; 0x66402E02185E2; 0x2874AE640E9BA; 0x25092EF1270C6];
   [0x4F5A43B7EA260; 0x24FC17540A356; 0x1076B47F9F931; 0x2FB78183398A6; 0x229276794FECA; 0x1B56FD26AC511; 0x13652FDA2807D; 0xAD7AC8AF8820; 0x59580D670358C; 0x7B37AB910DB85]];
  [[0xE7AAFAA81120D; 0x1EFCC9131C28F; 0xF04662F79A92; 0x18481A743283F; 0x3227CCC1B0051; 0x889F9DEBDBBB6; 0x26E53C8DB36F4; 0x40E757FC7CCB6; 0x796C1E48AF493; 0x5CD8E286C308F];
   [0xFEEF26280024C; 0x8656CE73F334; 0x47F19B4CCB60; 0x3E09FD007DE6A; 0x6DFDC10446128; 0x1C5059DDF7FB5; 0xC6D4835DEC52; 0x1ECDEF9FA549E; 0x4A50331A27BB; 0x7445C7A2F53C4]];
  [[0x919F3EC9CCC4F; 0x5F2F6CF149577; 0x60C560F67551A; 0x7E358E045685B; 0x70CCBF13484CF; 0xC37725A783FCF; 0x54AB9E7EE7B1E; 0x3333BAB51E43A; 0x17DC7BC018D7; 0x3CA4BCFA7DD5];
   [0x3E1A7A3069435; 0x480EFF4E48BC7; 0x62115BD5D5E69; 0x7096DD6C931AD; 0x2608249CB7A58; 0x8A26364C8096A; 0x3C1F2D4A059E3; 0x10E330E128864; 0x3B581FC1DE5C7; 0x588DBEAEEB225]];
  [[0x3AC2924B671D6; 0x27D78B698A45A; 0x15C6FF89B42E6; 0x480FF26EC1381; 0xCC4426AAA245; 0xFB55D009EF0BB; 0x298CBBB4ADE83; 0x718B823375BD8; 0x7751B44E5F80F; 0x59A1E5D2A4A5C];
   [0xCB0EE2657342C; 0x55C4B6D401505; 0x56E99CE0E1574; 0x2F6CB06EAD80; 0x476059C9E6EB0; 0xC60BC1D3204D4; 0x50DC61142023B; 0x726C34A8A210F; 0x5C72290CE928B; 0x4DFA0CEB1B72D]]];
 [[[0x247F93F2BDD27; 0x7C93034C92904; 0x27DAD72E4B40B; 0x14E25E82ABBD1; 0x60E4F42A6C475; 0xDC708D6D66CCB; 0x36DB87A4B6343; 0x3C58123691EAF; 0x4DAD470664927; 0x6A82E32F9C5E6];
   [0x2A35EDD030037; 0x219F0D4AE2250; 0x3A7450131A667; 0x61472E2C5CAD3; 0xBDF65BE7AF81; 0x7F887A21C419E; 0x48915425E3C2E; 0x46299A3659CE9; 0x44FD643C6825F; 0x41408EE3F7EE7]];
  [[0x1D71DC21EAB28; 0x65A53D38F953D; 0x32DEB59D8023C; 0x4054571AECBAF; 0x6227C20ADC1B1; 0x4052B60ED5E09; 0x7D536170CE49B; 0x133F69C75D93C; 0x631A47E596690; 0x7BE94B2BCFA10];
   [0xD3D75C6EDBD10; 0x2F0C1700CF75C; 0x880BD06AC9F8; 0x7F4DE75015506; 0x4F7D9218E4531; 0x525D094B57596; 0x303BA4ADC93BE; 0x781A6DDE92BB0; 0x145A33FB664A; 0x3075364E801EA]];
  [[0xB5C724B664A37; 0x2503E28109C51; 0x25B829904E428; 0x69506DB016812; 0x4A750C8A64E1B; 0xB87DB220A7C57; 0x31EFD957F4D41; 0x49A333D86B06; 0x1D8EAEB6440B9; 0x276C32B4CE41C];
   [0x8857C83EF71E8; 0x5E721B3AB9D6B; 0x17EACB90E5F00; 0x5C3E831C481C5; 0x7C0B8197E5462; 0xDBDC919F92AA9; 0x2200849E9CAEE; 0x4BE6C719C5906; 0x4E280855B1920; 0x5C5B91DB6D1EA]];
  [[0x424B6E394CF88; 0x3C2C97C04AC74; 0x63ADB5E77144A; 0x5D883FF8E6B47; 0x4F87D0A1CC558; 0xBB8A228CF7739; 0x4B3A03FA0D71F; 0x753D34ABABB8E; 0x562AB4C8CB943; 0x1CEBF9BBC430C];
   [0x7223CBD30A33E; 0x7335C7215C6C3; 0x603E2856D2862; 0x2A848E65B42A0; 0x4218F69174E09; 0x5FFA3227A0A23; 0x5B5868C2514B; 0x4938AFADAD730; 0x7660F9A69E6DE; 0x65102D85E579B]];
  [[0xD8ADCE1ED036C; 0x75B271EA827E2; 0x76B7F6030D0B9; 0x1CF9A9998A24D; 0x3EAAA8D599E8C; 0x926867BCB228B; 0x5C256FF24300F; 0x2D2C9DDD6690E; 0x318EC38CFD857; 0x40F4D05884680];
   [0xBA16121F40EA5; 0x3E1A3C8625ED4; 0x3A030ED90ADCB; 0x51906502C4E1E; 0x56353D129BB9B; 0x97E025B071B0B; 0x7FEFDDBE2C9B0; 0x5B33FC31E9599; 0x4B5E596C70338; 0x1C9B00B315DC4]];
  [[0x607DBC162717D; 0xD1169F3006DA; 0xDD28C7A17F77; 0x575B9A5BE6190; 0x1608A9002E304; 0x8355DA341F5E9; 0x6F9C8170EE63C; 0x14428C0115E5D; 0x23A2E2E57272F; 0x688C75933F079];
   [0xFF6A2CDB10A3C; 0x11BFAEC3923D3; 0x42ED75727E176; 0x14FA777DC3A6C; 0x160BDE1742549; 0xAB16C591470C7; 0x28D130B66A9E4; 0x47E950B4F11C5; 0x135717CA7A661; 0x654B545B4E06F]];
  [[0x21C7F20682330; 0x6E09BA4DD4E28; 0x5ED0838CEDFB5; 0x46FAAD6213185; 0x42F098929C355; 0x2587008E96E6D; 0x705A22499C027; 0xD8B3B0087A17; 0x3A94A483422C6; 0x3D967C7D3D6FD];
   [0x9965DB7927E5D; 0x5AB719C5CAE45; 0x33CCD1F896812; 0x1AE9A7A4BA5D3; 0x72043806DB7CF; 0x8763B930B883A; 0x2E90170B740E5; 0x58F5C1631E156; 0xC3D179B466C2; 0x5E600D05FAA9D]];
  [[0x1BDEA3D7E7C27; 0xD69B04E78772; 0x6FD1A96FF1C3D; 0x704C7BCD74C67; 0x6587D24D60D0B; 0x9A72FB4EDBDF3; 0x5F66F2FC11A22; 0x5C07A5C028CB3; 0x427DC53252FD7; 0xC0FE0D5E259];
   [0x15C9DCE11A938; 0x2F708542BA021; 0x6DAB5EC8723B2; 0x3151DBC6DBEA3; 0x309C003EEA187; 0x986E93A4AD727; 0x5A27640EB41AD; 0x64B4B969CE91A; 0x58AD60A48BA18; 0x7DE07E6483D46]];
  [[0x1C747EC0357A9; 0x53CBE4FDF72AE; 0x1FB453499F9E9; 0x4C4167C9B02FD; 0x127DCADD50EB4; 0x805FB4E216AE0; 0x29FAA52099B86; 0x47C3F68455806; 0x1B9FA50F58DBC; 0x3BD919AFF02A8];
   [0xE4A059AF4846; 0x7E18DF861A61A; 0x6C2588CE7246D; 0x662D80DEF8736; 0x67C77B3EBB3CB; 0xDB319339B4754; 0x2F3DAFE1D02AD; 0x1AB8E0CEDA23A; 0x839E55FF286D; 0x427E6A937B04C]];
  [[0x9CD5E8F10490A; 0x770DEE503609F; 0x2F4D1F9822AF0; 0x209D7D6C6D432; 0x577EE861AD61E; 0xD96564BC24BF1; 0x7205D262B6DBF; 0x3C7E6251A1A93; 0x13FC13A41D60E; 0x213F2333B026A];
   [0x8E0F9A2F3F058; 0x52D3E4E010B53; 0x48FB0F03593BF; 0x7400230A674D3; 0x7D42DE3498D1B; 0x88D98507324A9; 0x6FEBD72D5E2AE; 0x23587543DE864; 0x6101B209DB09C; 0x7176D895A251A]];
  [[0x5B6A111C3F2A8; 0x287D5A1A25472; 0x4C3C87F77626A; 0x7EAFB9945BB03; 0xB01EC3BD3FD6; 0x3CFA14713C9F7; 0x55DC5C2B54DF9; 0x40CB8F2FD4F74; 0x2B2C21AAD7697; 0x6A800C6F15DE5];
   [0x87EBAC501C1CD; 0x4B94A8B9744A9; 0x71EA1C4951821; 0x2F01B39CE1A3C; 0x5D4D68C89745D; 0xCDC8D00E9F950; 0x4C2450A80D882; 0x2B0D6F20496F6; 0xE2B53712BC8E; 0x4FB508F36E069]];
  [[0x9905B853D75DD; 0x2202313A58A10; 0x47F9FAA6A8086; 0x6997CD94C68DB; 0x53560DF08CE67; 0x58B243F1C8213; 0x23330F3EAC431; 0x29615BF1FDC4B; 0xE02FFE4339AB; 0x6701924C686EC];
   [0x28B574C85D822; 0x23BDBC197A77D; 0xCA80105F893D; 0x4A4B3F8BA0A40; 0x6606848556101; 0x2691001720525; 0x492966DED5935; 0x4330B122DF4B0; 0x3F277BB31C2EC; 0x415C4C2A49A50]];
  [[0x67B9FED7E7EA9; 0xC6210735C315; 0x15C61BE12C57; 0x31A65953D8E09; 0xC16E4265E92A; 0x38511318F2F8F; 0x6D2553216EB6C; 0x14C8A2AC5A158; 0x155D5D24C02F3; 0x28479C9ACA656];
   [0x7F082D316A5DE; 0x3727A88716E25; 0x759E99508C576; 0x268F8E924CE60; 0x6584B44F67E86; 0x10FC03061696C; 0x111F962EADA3C; 0x287220D2E4A6F; 0x3DB8A5947F03E; 0x63C396A142480]];
  [[0x8D64DDD35262C; 0xE4419BEEDCBC; 0x2644C710FD7DF; 0x2B9FD57D1EDA6; 0x1B443D6794EE2; 0x66E8A571BA2F0; 0x2A7DDA194FF52; 0xF1F9B9EB114E; 0x2D0C71939AF7D; 0x7B1CF36555692];
   [0xE6FC6E690E6C9; 0x25FE13962D085; 0x57EF392B58263; 0x601F80D88963; 0xF77167FACF40; 0x5C1EB1F4AF8D3; 0x4E45CA91A75A3; 0x7A538AF4D39AB; 0x2FC7EF186BF83; 0x2BB96633B032F]];
  [[0xA511387235D97; 0xC5AEBD7CD669; 0x1E2B79B37FC76; 0x633A0ED45A1B2; 0x2A485310156D; 0xCF71C1E86A953; 0x380A9470BDE9B; 0x6C3A16CD16C98; 0x3FD675030BD33; 0x5733732E1E8BD];
   [0x5DC87E99B96E0; 0x61EEB65283A4A; 0x66868AD05A9F6; 0x3149FA1801E6C; 0x9D644B39DFC5; 0x88AA6A5735E82; 0x329D82B26F648; 0x38BF5BA7C68AD; 0xC5080B2DF90F; 0x38D1F9AC2EAFD]];
  [[0xDB14BDA7C7B66; 0xC49B073976FE; 0x594F284FFA26E; 0x82CF489F3922; 0x52C957BF245F7; 0x6E308A2AB1201; 0x99B40ACA95A7; 0x2815B6839730D; 0xB4295FDA8783; 0x56F95752DE2DE];
   [0xF056FEC9E88EA; 0x7747F406F4246; 0x125F62E04125C; 0x286A0E4919620; 0x691348CCDE24C; 0x10E5ED700B6; 0xB69D2C21F3C6; 0x73767577F6F02; 0x5344DA12140FD; 0x63AC1FFD1B34E]]];
 [[[0x73DCFA4CC1F6E; 0x58B4C7ED3A6B; 0x44FC7BBBB4D1C; 0x73AA6DD4CD996; 0x603CE62F0768C; 0xDDF011F0B6AB3; 0x3E05089170D90; 0x5874DCC299BE8; 0x1472869B59056; 0x509DDD9B76FFE];
   [0xEF415076C2F66; 0x11E95B1CD79BE; 0x72B66656ECB77; 0xC32231A4FA37; 0x78B2D3568104; 0x71892DBCB8007; 0x3A0D60762137; 0x1972E82FD7568; 0x3B928B40F35C4; 0x8D70A3EF6199]];
  [[0xAFC3506C0703F; 0x624FB1C5785C2; 0xAABC82587858; 0x4C835073ADCF9; 0x687A3E10BEBEC; 0x594AAE6A6AE1A; 0x65326690F40A8; 0xFAAF35DCEA85; 0xF2D71EE73779; 0x66971F9CF6697];
   [0x438C3AE869675; 0x58F4A97CCECEE; 0x38C0DA4EAB715; 0x2EFF5EC967DA5; 0x4EC8C45F8A0B7; 0x1A00E90F5CDF1; 0x8DEA644831E0; 0x344FDFCB694A6; 0x1645897F09A36; 0x3CD2366934F24]];
  [[0x3A9CBC10E78A2; 0x5680C903EE3AA; 0x6148C4134D494; 0xB708AB89AB5E; 0x4077F94E08257; 0x6E5183D078408; 0x100C1D80D49CE; 0x77E3B5B1FD1E9; 0x1D5173866042B; 0x2EC241DBE6604];
   [0xD707611B80741; 0x4EDC429B806; 0x25B85B91E12D5; 0x5A874EFD18EE2; 0x679D292E2E5E8; 0x7C4E1CF9D2493; 0x7FEC8151F6C5; 0x7077C6CE7BCBD; 0x4E603D2D1C045; 0x120DC52FC4C28]];
  [[0x24CAB433F1EE9; 0x29390B5399AC6; 0xA140735E1061; 0x6209FAAABDAEB; 0x313939B1E27F8; 0x71218CE90C274; 0x4D454CA99B52; 0x244DC876EE217; 0x7B9AEDFF13E10; 0x7C60093FD8081];
   [0xDA5DEA4CAF297; 0x68C8666E24B9C; 0x2429BB8CB157C; 0x75FA673A5EDA2; 0x374A3EAD4DEAA; 0xBDA91FD4D7B4C; 0x219669647B2DF; 0x3EDAFFBB15EF4; 0x24CF5BC63EF28; 0x27124899C9A4B]];
  [[0x40B019B1261D0; 0xB4F4F45584EA; 0x10867C36FE3B7; 0x1B956EFC67D1C; 0x60551212213FD; 0x45B1AC4D20479; 0x31E79405F14E6; 0x54F01E909A81E; 0x1536D9DE39DB; 0xB62D820D6FE3];
   [0x3F4243CF34066; 0x24F7957E1D750; 0x80B613A16A90; 0x4FFBB7D0412AA; 0x48AADB4617EEB; 0x5590404BF6350; 0x5FB0DEC254DD3; 0x6E456239D68DC; 0x6AA0BAC97FBC4; 0x7C0F318810C9E]];
  [[0x95C2255EB8676; 0x2EEBEE04E7BD1; 0x47162E07D3E1B; 0x19CBB802D7D2F; 0x4D5BCA1F2FE81; 0x636275F6E3CD0; 0x74C1065AE748; 0xED33D724610; 0x382AAE71C671F; 0x50F862E56FE82];
   [0xF0C6FE0519997; 0x4AF7A837FAD03; 0x29E2DCFC7D836; 0xD7429D3F9BC8; 0x2062ED538B7FE; 0x48D96CEDB79F1; 0x35E77C26028A3; 0x2BEBC515C0C05; 0x1137EC9DBE5EA; 0x4EF0306F592B4]];
  [[0x45CFFCC0FA82B; 0x147CD2A7BCEF8; 0x4A7DF37A543F3; 0xE83C08C7DB26; 0x433C19A259924; 0x60A2CC17C1B7; 0x48887C01708A7; 0x4F7B43946A5B5; 0x318DA056D31F; 0x5816FA3E55B23];
   [0x28F1B6BE8EDBD; 0x2FAEDDF5DD2E3; 0x4F7E40BA33E35; 0x65C3B855FC053; 0x1874EF8C8D7C7; 0x9EE69935EB5BD; 0x5209285BDCD9B; 0x65CD4AD193A52; 0x7AF07028EFAD4; 0x3D64202012D6B]];
  [[0xB9243B209436A; 0x4A9127BF30A58; 0x6E0E94A1E2713; 0x4376EAD2B248D; 0x767EEA5E05823; 0x9BF8F74216C3F; 0x24B8202C21037; 0x13B0257209206; 0x2F0B8A9C57E63; 0x1559540A76AA1];
   [0x66AF801F7DD9E; 0x75AFD2B0FB2AA; 0x55CB5FD0A01A3; 0x139A9A848804F; 0x4DB6F2563F825; 0x1293E77720431; 0x5D00E9E6814E5; 0x33A3B82EBAE98; 0x32C37E6C66CBB; 0x690013DADC456]];
  [[0x272465B8B5D7D; 0x720DB646ED253; 0x2AB65B7565858; 0x14AD6B607866E; 0x598494CC47B43; 0x1AE0D244024; 0x29E1DE544546D; 0x2D87A26EE67AB; 0x2767B394A967D; 0x5DD104AA8F32A];
   [0x68115CF22CDAC; 0x6E7DA3BE129A8; 0x37A31451A8758; 0x39CB3690F9258; 0x69351BF30A237; 0x943CB31F201C2; 0x56D93FDE091B5; 0x7A6DAFB6FE56C; 0x76EBD371AC14C; 0x22219B02515D5]];
  [[0x7126658D45F84; 0x5F94089210333; 0xDF0B1374230F; 0xC22084A59475; 0x5B56056BEF979; 0x3B18C16D005D1; 0x9A3D6108A669; 0x2B5446C86171D; 0x3C25E4502353F; 0x2AF979DDD05A1];
   [0xCE57EA911389C; 0x60CBCB1000CD6; 0x2AEF497970566; 0x3002606F34647; 0x5BAC30DE7C37E; 0xACE8DDCA7F508; 0x4C49914338529; 0x201F520B0AA42; 0x3ACEB18EE94D1; 0x43292408A3327]];
  [[0x71CFCF4149893; 0x2FF24B716F1CF; 0x2E9DD42D79E81; 0x5F2E12A9D3787; 0xB67ABBDD6226; 0xE14AD866F075E; 0xDF8C5452E7ED; 0x179D614E61B47; 0x5F5E532D764C5; 0x134C30CA43904];
   [0x8A3D8E0E5028B; 0x2AD02FF65DB2D; 0x24B54F477366; 0x4DF76000BEBD4; 0x1BABEBBC5B492; 0x293A99B9A4E9E; 0x6DA8EC81880DF; 0x4D62443F19541; 0x7788BC32D12B7; 0x53D73A62F6A5D]];
  [[0x8D1269BFE5E8B; 0xFE4C7CBD9622; 0x3CF67B2F4ACFF; 0x6A8A24518F03D; 0x347DAE1827AD4; 0xF291ACCCDE5C5; 0xC9C96024DBC2; 0x6E1493787400F; 0x4557C49C13B5E; 0x1BBD5022E461F];
   [0x29EF080397D2A; 0x7D3AEFB96A5DA; 0x5CE903FC41243; 0x7ACF27A77BE2F; 0x69367C2BB5B2D; 0xEA380A0F28EC9; 0x4D091094729F5; 0x568ED1C33BAF; 0x6FFC9FEC1754C; 0x79AF250E87C71]];
  [[0x1B7181A9FE1E7; 0x4BF3195C7079A; 0x4C65A8623BD7; 0x293D8EC50869E; 0x61ECDC77A17C7; 0x24A53FBCEF78C; 0x6DE143AB5A0EC; 0x4F508E8AD0226; 0x6DB9363078A38; 0x2687048D33591];
   [0x2320E24E6A1C; 0x313A5A33B1564; 0x32A7B146533BC; 0x71698E42DC91D; 0x13FC72B6E6862; 0x192B68047991B; 0x77CB246D0CF66; 0x19BF6E968E141; 0x22BEFB71228A7; 0x7A8BE0F3AB802]];
  [[0x4ADD37A15BAF2; 0x2BA4932A7035A; 0x7F27F93062C33; 0x1E46147E6199F; 0x4849455CB21C9; 0xDF6C55755F760; 0x62C25D51F8005; 0x18D552106AE65; 0x36D4A8E15A67D; 0x2EAE18E596E61];
   [0xA03842DB9836A; 0x48F98CEFB00D3; 0x5190809ADF2BA; 0x2DFB56F0A20D0; 0x27970FAA41846; 0xA481D0AD15C42; 0x613F431F58DB3; 0x7B1DF30C2753; 0x724A12A33FE21; 0x61257C4C8D5D9]];
  [[0x6B38283640BFC; 0x71A8876D2D39B; 0xF57FF4B7C4D2; 0x48165C6651FA6; 0x261CAB432E4D9; 0x3A33A1024655B; 0x16A80FB002EFE; 0x7F53959DC0BF4; 0x327B19C41762A; 0x3AEB118550BD1];
   [0x194446473FAA4; 0x56252C5E6D79B; 0x385407B1E32BE; 0x4F62D3BA2C380; 0x6709FC90E66D9; 0xBF2EFEC69E52A; 0x25E53D4588CB4; 0x767AF079A8486; 0x6B1B2BCF33774; 0x54711D18A6446]];
  [[0x2F65D12A437F5; 0x4C193BB16BB5C; 0x44CB11429B380; 0x575B1D96C4371; 0x4792169D089CC; 0xA44E79CFC086D; 0x7F7A9AA829C6C; 0xE51AD40E415B; 0x3741299AE5AB0; 0x34773AD27F4C8];
   [0x1088846755E86; 0x7C43CEE739306; 0x6DFB006FC973D; 0x75D11ABB97E3F; 0x6CE4EAD9FD40A; 0x90DE95E0B71B8; 0x677FB1CA2400F; 0x1D6A9EAC1F91B; 0x4B5A0DEA254E4; 0x31843DB8ACA4B]]];
 [[[0x40F0FEE5191D7; 0x7AD757B218666; 0x25B684155AF20; 0x29F4B5C485180; 0x7D8377347091F; 0xA22940AF54A77; 0x3BDF6CB1B3734; 0x579D05F06E011; 0x32F87199B836F; 0x467CDC3E7620A];
   [0x99269E81CAEA9; 0x60FAD5B89DD61; 0x5D82009E159C4; 0x543570882A388; 0x5742B11F41567; 0x5532CC1A04CF; 0x7E7D67CA82018; 0x30811921ED542; 0x33B0153C0A9D2; 0x27EEDE45D652]];
  [[0x54628B564DD25; 0x278E72161A60B; 0x2875070456F4D; 0xA471C5023AE6; 0x53142CC156044; 0xEB689710B36EE; 0x749FE221A7A5D; 0x5CE289B236184; 0x64A9332E96DFA; 0x19F74B7F23AA6];
   [0x47C80E1C6849; 0x32C0409EB2702; 0x5472D7A3265A6; 0x7486A002948B; 0x5B35D6DCD0117; 0xF09583142990E; 0x20994F45554BA; 0x2A8A2ED9245E6; 0x1FCB7F2469865; 0x3ABDD4F76D182]];
  [[0x7EF170E5B61C6; 0x72FD9870DA526; 0x52A5CE07FB8A2; 0x641090CDA363A; 0x1F046CD11B1C9; 0xC5ACA2B42DE77; 0x3FA2D3D3A78D1; 0x22EE52A68BA15; 0x6ED9A8FFEDB9E; 0x628597175CF09];
   [0x7233FAD040661; 0x2DBF1724897C1; 0x58AF887383FF2; 0x1A82F626A8BA1; 0x663B0E734D3AD; 0x41A94CEBE29A8; 0xEBE98973931D; 0x7653DABE4C434; 0x77F080BA025B1; 0x1349D8D6D5053]];
  [[0xBE1C7FB3EA365; 0xDEC547480E21; 0x3063031574C24; 0x4A1A78E047579; 0x606500AB9A488; 0x27F5C522D4690; 0x1EDD9FF35555F; 0x27FDC2B282190; 0x683CED2B98C75; 0x650923C157066];
   [0x92C9AF39CBACB; 0x7D3858C2DD00B; 0x31E676BBB7275; 0x3AA2D98F4F933; 0x3DCA9CE27A62B; 0xA07F50B9E690F; 0x51DF1C1BCD4A; 0x3517B8AC99CFD; 0x6367C0179F6E0; 0x2CE5C968BCB6D]];
  [[0x200C339FA6063; 0x2D8C7E4167214; 0x43F59D8D68BBE; 0x20ABF6635C5FA; 0x676FC3B2B32D8; 0xEBE9FD818DFC0; 0x6D7A4486F3794; 0x684F5E2DF04E3; 0x32590E104D8CA; 0x7F86F511DEAF5];
   [0x34E941C93C058; 0x34819A8DA6A22; 0x164AD4449303E; 0x42BE59CA73B0D; 0x14B7F6EA0A455; 0x98C54814B4ED9; 0x4C74E9049A134; 0x1859C7C28787A; 0x2BF6FCC75D79D; 0x7A8E2129CEB51]];
  [[0x18E8A6D68977A; 0x202BA27C4F548; 0x765E7CECDA47B; 0x363DB05A69000; 0x5F96506BEB7D3; 0x89C30791266ED; 0x77E5CAB5C1F29; 0x6E87E942A7A13; 0x1FD90D57F757B; 0x7B1FF16E524CF];
   [0x5EA5BBEA59591; 0x427E51D91AE1C; 0x70FC7F83A8541; 0x69E9D31A36625; 0x30C2ED2385F4C; 0x95E9CEDC7EC18; 0x4DF297D2AB731; 0x7FD32EE0B4C2F; 0x6423F55007B50; 0x582AFCEAF6692]];
  [[0x132229C4BE432; 0x62BDAF1A965D; 0x2C1A7663C1E53; 0x38DAE7DCFB8CC; 0x72695BB1282ED; 0x6EC32706E7F8F; 0x4FDED61E285BE; 0x3D1D5A48B6110; 0x552ACEEFD0F10; 0x11D10445A68E0];
   [0xCB3E30A36F50F; 0x4A7B7557E35AE; 0x66CFBF15B4D97; 0x508B08233B2E; 0x3F31FB5C7AE10; 0xE6621F3031E22; 0x482990F4ECDC4; 0x484D2AA8A0F24; 0x9D4CF9C0A36A; 0x1CC385C527853]];
  [[0xA4792A9EEE2A9; 0x72FA6FDF2C7C6; 0x7C7826E4812BE; 0x6F6D236CF8FD6; 0x73F81409D27AF; 0x6499E587E37BE; 0x1D910B9037DCA; 0x76B6BA2C2DD1C; 0xC40F587E10E9; 0x3A0C39693B06A];
   [0xB22437DF0A661; 0x740D926C3CA81; 0x4D6FC409922D3; 0x6C8B0A63EBE3B; 0x7A7E09C658E92; 0xEE849F67956DF; 0x9ACED8E8FE8F; 0x1CD4640F2626A; 0x370AE99E0EF4; 0x81E0D1461BE8]];
  [[0x73065330BAB74; 0x1574E266A5243; 0x2D1F64CEC7BBF; 0x5B4B35FD5F97F; 0x6E328070806B7; 0x194194F915C7A; 0x73D3745896020; 0x5E613BB39AE2A; 0x11D507ABCADE1; 0x2EAF0689489D1];
   [0x58D096BDB2AB; 0x69969F77F9CB1; 0x39B6125B8F829; 0x44A07AEC2D0C6; 0x504B4F3946022; 0x80D0DFA735E99; 0x2BC6CCE0171E5; 0x3D83527837207; 0x66CBA871AC0F9; 0x24A295AAEBA6A]];
  [[0xD2B933FA0DA3A; 0x79892AF905B11; 0x21863855AA63A; 0x52D86FEC679D3; 0x791B1FDE46EBE; 0xAF24DC2D97724; 0x430197793B4EF; 0x1355100B792D4; 0x67BC1C675D49F; 0x13F553362D7E5];
   [0x4977612BCB0EB; 0x3E50B8F31A3A8; 0x7CD4AF5A9CB24; 0x2D3E56A2C0F66; 0x2D65C455CD2EF; 0x2086963C9C7D0; 0x145D5C4A9FFAE; 0x619BAC8505C4A; 0x27E3A7AE4A7A; 0xB67AD3689936]];
  [[0xCC7D3BF4762C0; 0x1F746EDBE329E; 0x1DF8B85050FA2; 0x3BD3B0F568385; 0x180BF161ABAC6; 0x215CE0594FA0; 0x47C0CB6A73218; 0xDBAEA7BF27D7; 0x2F869F09063DD; 0x54D9BA9522E09];
   [0x2FE8D87A17CE0; 0x57E4AC584E74A; 0x2DAC318271EF4; 0x2423F79D4DEB2; 0x3E960755CCBC4; 0xD266A7438DBF6; 0x477E42DA16918; 0x6B11A646B2B6A; 0x431429BD1F7B7; 0x6ED79801CF551]];
  [[0xC2F5AD403D304; 0xE16E8839A82; 0x6E1D15D839778; 0x5F5B10106BB12; 0x5C19D486DD5C6; 0x719C29C1E59DF; 0x659479542B834; 0x7ACDE37B973BE; 0x3482AD9321747; 0x505ADD6521552];
   [0xF913FC1522D09; 0x37BFD0D4ABC49; 0x1FA1DDC7C8F2; 0x557253E6A7DB6; 0x6E4F330384051; 0xEB36BC2271684; 0x6E60BC26E1F0F; 0x54A6E03B188FB; 0x3C21955E62B44; 0x29C4483BA7D4D]];
  [[0x670CC3896EBA5; 0x259CFB18CBAE2; 0x6699793CC03B7; 0x6E571D3FF8F29; 0x1EB92283238D; 0xF5DE25A4C21F7; 0x21DA151657372; 0x5351A570D55D1; 0x5E3C40430A85A; 0x1A3FAEB0F9878];
   [0x41F28CA0920E8; 0x528AA3286F64; 0x550CD85825A5A; 0x6A07132346430; 0x6248B435552B3; 0xC51E8492A342A; 0x238B2E633EAE5; 0x77EFF4FF5E3AF; 0x737FE3C5938DC; 0x3E7F342587F14]];
  [[0x469EA4F316A5; 0xCFF01ADFC8EC; 0x752DEE0AF6B42; 0xFBD7A1DB547A; 0x71529F9CBFCB7; 0x2EEF2C4E55DE9; 0x68B08FC158B20; 0x5BA1440B0CD47; 0x770690268EB1C; 0x4FEA766326EEE];
   [0x7E31940932215; 0x6F953571E0D10; 0x325DB7CA114C1; 0x3346F1BDB76FF; 0x4B2D608C398A0; 0x880C15A6358CD; 0x3A12DA7DAE1C; 0x12A98295624DC; 0x3F435F64DA03F; 0x77E682761BD79]];
  [[0x725EBE3550E60; 0x9759E82357AA; 0x707477FAC3456; 0x56FDC23023B2E; 0x51E1365B47E4D; 0xB5D849F58CA94; 0x685BF93742A36; 0x1A1BC548F6279; 0x344BB9DE268D0; 0x5FDFB2BC3DEF5];
   [0x848AFB0499C56; 0x10DC37ABCFDEA; 0x6C1811764BA4D; 0x2A308A7745FCC; 0x74CBB9E51FB1A; 0xAC8D6F8659635; 0x154D1F4F69089; 0x28051B6633DBB; 0x3335687BF4293; 0x5ED908B0510A4]];
  [[0x4904C9668E6CD; 0x79071B2B92E94; 0x1E7AE6FF7AF6A; 0x2127FE63573CD; 0xD3D1E41CDAC6; 0x11204952E81CE; 0x271F8C2A453E2; 0x1B69F9248DB24; 0x379D0353FB400; 0x1295BB193D08F];
   [0xE90DA27BA514F; 0x3159CBE1F9C35; 0x5521CD6FEB8F3; 0x5119F047F6EB1; 0x4D5D0948D614B; 0x6892CA0E25568; 0xFD25BBE0A6E7; 0x21564372435F1; 0x27D8B49CAD04C; 0x7D5A2C89462D]]];
 [[[0xF514B71EBBDCC; 0x4035582F1B252; 0x2A1C7C414989A; 0x7743F23DC3274; 0x791E243AE6EF8; 0x9076C398D3FDA; 0x55D23854865C6; 0x67630F1F7A188; 0x4FEF4830113F0; 0x6EF4DC0128B39];
   [0xAE1F76A7AB992; 0x3D7ABB33C7671; 0x7A82D28545FE8; 0x34AB6DCB3D487; 0x7701ECE7EE900; 0xE400E5BC2A1A4; 0x693EAE58F5DF2; 0x37BBA5ED12DB3; 0x5ED5B1E21C1B3; 0x641DC0D967E8B]];
  [[0x54C95BB0652B1; 0x46F4FED58813D; 0x50815BA4C242F; 0x3C70A5ADB1CBD; 0x18471501C557F; 0x61B89E1DB46F5; 0x30130047B6C15; 0x24E7E179F958E; 0x29B81AFD116BD; 0x1F1C0E6F5B495];
   [0x23C05D2947309; 0x77CE6739DA7A; 0x7175E6FC632C3; 0x79215145A49EE; 0x5582902E4AEC2; 0x3D193BC0C12D2; 0x5BA6F099A5DF0; 0x403F8EF0B4955; 0x642EB7C8A43A1; 0x5D32BCC2F8B89]];
  [[0x17EB1EE4CB1A1; 0x6638C230FE375; 0x23DCF4460C9F8; 0x2497719F0A400; 0x40836988B5191; 0x4916DE1D1C20D; 0x1141194F546D7; 0x2179582ACA27; 0x4DBC84C72F8E0; 0x23C1DFC8EFD14];
   [0x70B7F76ADAF26; 0x3C6CEB8B1DA8A; 0x3FD11262FDAE0; 0x2770D8C7E9FB3; 0x6D3BD713575D9; 0x7838C17F3658C; 0x77F30784494CF; 0x1CE5F8562296E; 0x5C03FBD4434BB; 0x1FF536CDDE62E]];
  [[0x1172A96A1E7D6; 0x1098F9CBA5BBC; 0x74F5479589BDA; 0x3E78B80CE763C; 0x45042B492B949; 0x135B01953B25D; 0x564A958658405; 0x73391FC7A30CF; 0x51DA995FAF2AC; 0x8899D026CFE6];
   [0x2EF92641119A3; 0x7CFCD3D8E8348; 0x251D519AA1667; 0x7524C025888AD; 0x2847F5CB47F5C; 0xC637101A1799; 0x684496C314774; 0x5DF9F71863B37; 0x3099895A2F373; 0x333CA2E94544]];
  [[0x70CCF02ECB2CC; 0x105EF4D0A506E; 0x7BF7A4DE2CA0; 0x6DAB36E4422DE; 0x5261AD9D05DF0; 0xC9FCA9FCF1803; 0x77F743B9F8F4A; 0x54F8CFD871DBE; 0x8369A88F23E3; 0x4DE24D800793E];
   [0x80D00BBD99113; 0x705E433C3D50A; 0xCC78397E7790; 0x33741085A403B; 0x6E31F0AE64239; 0x4B8AE3CC6DEFC; 0x7FC3C4D4BFA22; 0x5A85FF42BA85E; 0x5E2879D483F75; 0x111B21C595B57]];
  [[0xB69E54FB31425; 0x7670DB77E68C9; 0x200548E67C390; 0x7E58E7DA1316B; 0x65C0A1A2EC1E9; 0x566CC8A93BAED; 0x34140BA9D29BD; 0x66D8BC0434EC9; 0x545F0A0BE9D95; 0x5D43571D5259A];
   [0xCB66450379E4A; 0x2EA896E3D63C2; 0xA1CBC3C15620; 0x4F3A6795DCE0B; 0x7A3F6DAC83AC6; 0x5EC06F01B9BAD; 0x6468A896619D3; 0x3C2FAACC2C60B; 0x6858F9F24FF57; 0x11A6265D8A36E]];
  [[0x41C66E40F1A90; 0x4E4F0180E78EF; 0x3FB530CA47EAF; 0x7ABB19E0A2FA0; 0x41ABDD6CB403F; 0xDAB4EEE08EF52; 0x23FC4E743BC92; 0x5B913456A7476; 0x1C85ADE3AC4F1; 0x4C1EA18C4581B];
   [0xAC8C9F1F7F0A6; 0x7E11A1C557ED2; 0xE1E16CCE15D8; 0x132838704418A; 0x2E6AFA3B1E448; 0xD76FF3FBC3F61; 0x15097A2812475; 0xF295A5BC66CB; 0x2FF9986FD6334; 0x792181517F379]];
  [[0x593BFA181F4DE; 0x76E78859CC727; 0x768CDCBCFB1D; 0x2B147828E8906; 0x4D189BBDFAF3E; 0xF4188F2DE5620; 0x5541E2603D86E; 0x68B0163E24EF2; 0x732F7A222EC67; 0x30102005758D0];
   [0x965B8766CC610; 0x6CED5C6750EC9; 0x2510890A11A94; 0x50A335E380C21; 0x2D3AAA4B5ABB1; 0xC3DEBF83FD12E; 0x42A5B613A963D; 0x48A5474D5B2CC; 0x6DBC324E377DF; 0x4A450113CC47F]];
  [[0x82FD2D666BA94; 0x307B3C69374F1; 0x30E4DCCADA50B; 0x25121DD5AF46E; 0x5DAE113DE717D; 0xF540F6A242AF7; 0x1984B2DEE5FE8; 0x751006703C07F; 0x3C4BED0C06C42; 0x6834E2CFEAF97];
   [0x79EF331F8BE0C; 0x6C58FB2C0D852; 0x642C225B2131C; 0x3F1F2DD654AF1; 0x3F6D400299A16; 0xA1D524B709913; 0x7F61D15FA8CD7; 0x7D279176192A; 0x4CB0573788091; 0x17B43566C1463]];
  [[0x7A50D58E645CD; 0x717BFEFCEFD32; 0x21533C2082002; 0xB6C97BE84215; 0x3D9526234147F; 0x736AFD37F86C3; 0x1446C15A309FC; 0x49F6A2E32732D; 0x5A7F6B6BD0310; 0x49050A86F7F6E];
   [0x478A084486F70; 0x4B485E454FFE6; 0x5134AC546D22; 0x45EC4A7C0DB13; 0x3AB8CCE7A0B15; 0x601A238F1B5B3; 0x63D63F830D881; 0xF2D0A86F5488; 0x77A07AB5A6307; 0x1A0E97FE656C5]];
  [[0x2B8E72C38FDE6; 0x1650DDE9F2E2E; 0x28EF99CEB5566; 0x41C64DDA06D6A; 0x5CB89B26AD37; 0xA5F15A5F8AF03; 0x25505F3937C0E; 0x159B4CD9043F4; 0x343C00F6BA0DB; 0x47E9671AB1CFB];
   [0x7DE9E2086ECD6; 0xA7B07155978A; 0x26C99DCA72BC9; 0x4F4F2C6EB2ED1; 0x74C9CE7C64240; 0xA4D876B2764B2; 0x5394454615D25; 0x481776CCE078B; 0x186A538247AB1; 0x333D9943B1146]];
  [[0x84973CEDC2791; 0x2950F48F39EEB; 0xEF6F70D1EFF2; 0x4D3D6FD70FEAF; 0x638ED86C3A27D; 0xF9B23D52DAEF5; 0x7DCA2C6212A71; 0x3A72278C541D8; 0xD206D53E4F6B; 0x7CC2FD213C6D8];
   [0x9C9835F59129E; 0x7F4A22C2FB8AC; 0xEB9FBBDAB0AF; 0x397BE0B58FC49; 0xD58A5D14AA83; 0xCBCDEEF3C688F; 0x7F56D84202AE6; 0x1AACDE92E0055; 0x6A0198A5DD4EF; 0x9072B8CFBB20]];
  [[0xF7FEC5A5D3591; 0x3CC91186CC1D7; 0x539F22D56CB3; 0x14418785A7E75; 0x7DD55510142B3; 0x27C9298FBB5F7; 0x2E6839156F4F1; 0x6806E7AF3BDD; 0x17FEEBFA3E11C; 0x5E3B668C8CF1E];
   [0x2E308DB4D3ABB; 0x2519214DBB309; 0x53F1D5795FB73; 0x6C5A6BA835DE; 0x7282B5833FF0C; 0x7CA1C54F0B679; 0x67F8A25FBF269; 0x6A247708AB5B; 0x271FDD248BDC5; 0x1617D43FC96F]];
  [[0x530DC05A439D4; 0x2C89DF13D212F; 0x6CD963D870CE; 0x70E6A17E094DF; 0x5335D7B440052; 0x5D20A7FC5B6E6; 0x816C1BD2E991; 0x15BFD4D6A50B8; 0x611290ED60372; 0x252141FDE02E6];
   [0xEE270D2D5D91D; 0x64864D00DF773; 0x2CDF8C5BDD29E; 0x4B4D19D843238; 0x1E7349DF960FB; 0xAB7E45A9B26DB; 0x2D5282F6EE449; 0x4F9B215872CD1; 0x2F931EDC40DD7; 0x4C76A77256A9F]];
  [[0x6A781358C169E; 0x93BAB2A31F43; 0x2C0B13C7E6C0A; 0x35E6DBE645073; 0x27A3CF6B52BB2; 0x7090F7CD7F0B6; 0x49B2C3B592E30; 0x2359164A5EB6A; 0x4DC6C9A544458; 0x7423068D875B5];
   [0x59D79EBA27F83; 0x5D19F0CBC111F; 0x753952EB35496; 0x62897B4108C18; 0x6D7F09D866E46; 0x5897E202402FA; 0x1D12E39D2981C; 0x4D1F9BD50FDDC; 0x60754737FA4EC; 0x4B66C109681C2]];
  [[0x91EB3450A8B6F; 0x6E67784D11649; 0x52A0A75E83A4C; 0xC7EF54A33FAB; 0x7E4B1F177CCAC; 0xB1572C584C7B2; 0x3F88F3DDE8AF6; 0x55A76B8A9FEC4; 0x4D726D797ABF3; 0x63A37056B2C1];
   [0xBEC5B8D4113B1; 0x4AF1E78531E4F; 0x3A706B01EA69E; 0x114C7197A503E; 0x68D6405B730D6; 0x37F60FB050D8E; 0x2625FCDD6414D; 0xA66900D00C7B; 0x7AADE957078F1; 0x708B1373BF752]]];
 [[[0xC3BAB92C31CE5; 0x2134ECD1DE22; 0x610E7706C8F42; 0x4D37D742251A7; 0x3F0AD3A1A8A28; 0x5B53175168302; 0x7812CA56B0662; 0x6DBA3FECD0E65; 0x488903D3A2C5C; 0x356F226A3070C];
   [0xC6272379969A8; 0x30E999753799; 0x6FA2FD45CF73; 0x5B8B69287AF76; 0x5213C07A81179; 0x8D822B335452D; 0x11E080D0121B; 0x337047AED499C; 0x5F3F0DAE82068; 0x287D13EDC6853]];
  [[0x890BAE3CD0A60; 0x7CFCB31DC10E6; 0x42A0AD557A444; 0x5E3E8DEDD318E; 0x4B768FB3B1B2D; 0xA74BE0F89CA10; 0x3022817A331F0; 0x398531778D3CE; 0x3F92B536499CA; 0x39BBC19367C44];
   [0x3D17E79CF10DA; 0x41C136308597C; 0x1C7CFCC962C3F; 0x5F7010BF5A11D; 0x18E8314AB3E4C; 0xB784160490F36; 0x2C72D731F23C; 0x59E1083EF050E; 0x29D7C307711F7; 0x28978EEF174D0]];
  [[0xB2EDE471ED48; 0x49FF7F87A8FDE; 0x407DAC8E66330; 0x17A99137DCD53; 0x413D5BA8A3E49; 0x69E2849ED7ACF; 0x11A49582E3C16; 0x3EF82C8E245ED; 0x2209E0B7EA09E; 0x640B26788B817];
   [0xFB77EC4895293; 0x521EE12FEC7C5; 0x6B87272F0F4BE; 0x743571A70D3FA; 0x12A853508E676; 0xC8E90D720C744; 0x4E53325BF55D5; 0x22141D2FC04DE; 0x2C08E37CCB8A9; 0x5B2FF2928CA19]];
  [[0x93112664E6955; 0x318FAC599B3B0; 0x4E86FFA5DC372; 0x11CEA6B7ED8B5; 0x32C5BB4D4B3E4; 0x12FAB789556A8; 0x5FD6D51C50C39; 0x1F53B8DF4EB2C; 0x3DC5A71DF97A9; 0x202CBFD6A2695];
   [0xA8D3B3805ED4E; 0x6E97BF7B19A75; 0x20C8EF1A157A; 0xDDAD96ECC141; 0x634B69890E950; 0xBCFBDA6464E18; 0x57A50EC40E5E7; 0x369C5C34E75A1; 0x1DDDA57109D52; 0x109C8DA359727]];
  [[0xDC858E40E2D09; 0x6583010E4FCF5; 0x5616E9FBECEE8; 0x4CC7EC96FFCA8; 0x5436EDC94F6C0; 0x1BFB47EC04EC2; 0x353148F9B2046; 0x2E68773E2D458; 0x128904A0917E3; 0x7E5A730228042];
   [0x447DEFB88BB4F; 0x12D87179A012D; 0x2379DFC6577E4; 0x646EB1BA5867E; 0x4927A6707CB7F; 0xF2F4B5DD2C056; 0x148E5C0EB9590; 0x22E829ADA8D2; 0x66C299B36127A; 0x208ACAE17BA18]];
  [[0x3FD0BE2AFDA6A; 0x79A3A05AFE09A; 0x24431B9238AF6; 0x196CDCEEABC5D; 0x5CD6BA856B384; 0x3376ABB9C7D13; 0xE28403D233B1; 0x1E3E601F20B20; 0x553A7F33316D7; 0x77A41CF9D1895];
   [0x18114833694B4; 0x66ACE25DEC0AC; 0xAD04607BBE; 0x1C2BBD9D88ED5; 0x207EF8CDA325D; 0x8C36267211FB6; 0x4148ABE972485; 0x32559C1C5BC5F; 0xD7CC34EB0616; 0x6CFEBFC675164]];
  [[0x6391786A18B11; 0x72B22981C2BBC; 0x64B2DCDABB7B4; 0x307055034DD3A; 0x51C4CAE5629B9; 0x7AAF27949F035; 0x2346889D53C01; 0x6F67E4A19CA62; 0x331666606352F; 0x5374DF049C2AC];
   [0x2B2B3139457D6; 0x351A98E4D4EB2; 0x3DC00C4EBC1E7; 0x17CA9107B252F; 0x7D9A4523CFBEB; 0x37F677495611A; 0x32ACDFB65FA6E; 0x5C03EBCCAC4; 0x44D67340F21A9; 0x6F83F5FED3656]];
  [[0xE79AA3546F16F; 0xA94AF4903B11; 0x5BFBC2B88E83A; 0x1616214CA6D22; 0x2F33B14AC87D4; 0xDC3668AC17EC3; 0x3F9A5CD0FA18C; 0x12136A765687B; 0x477263FD5ADD5; 0x47574A89B0A9F];
   [0x86FD1F3EC5E19; 0x1A0517754F902; 0x3FBB71A4EF414; 0x60C166C23D6D5; 0x3CB4401A452C9; 0x84139B2A26F87; 0x194184853F0AF; 0x725C3E883547A; 0x7311B46CFE9E; 0x6272C00057E36]];
  [[0x91526FAFA38D9; 0x13C7B17BEB483; 0x5FBC53CC1E78B; 0xC1040CBB5D8E; 0x3A0AF18FC9ADE; 0x7BC9B9B737A51; 0x58EAEC3E9FED9; 0xD346CF710790; 0x3BE2B75105FA1; 0x4D079255CE7B8];
   [0x6C7D92D0825D; 0x27A8C0386749E; 0x1C5B09D0FC792; 0x2C2B760A9C963; 0x1524437DB7579; 0x1B37F4B60ABD4; 0x7FE579406D534; 0x2739C0C35BD00; 0x51086E45FFF04; 0x3F4C9935FE354]];
  [[0x4E5D268BD8A83; 0x377586FC26AA0; 0x30113A02CBC64; 0x692EB25CA12F0; 0x1A47E293F9D79; 0xDD2612D416AA9; 0x19FAC853D7BDD; 0x1B9C4E8811EC; 0x164570C0AABCB; 0x2DBCACCC287E8];
   [0x27EADFBCEA391; 0x406BA866FB97C; 0x250E70AA28457; 0xCE5D6B77F502; 0x7E1FE982DC604; 0x77DC8CD9AEDE3; 0x6EECC4E8C56CC; 0x529E001D51C07; 0xD42CF53B5E54; 0x59F46F2041F90]];
  [[0xA993579C46A7C; 0x3FADB3C50214A; 0x7552587801072; 0x8E9ED9922E64; 0x1D65D1FE863B0; 0xB68B2D984977E; 0x26F8BCC4EF71E; 0x4580D2CF9C07C; 0x5F7DB9F7C5608; 0x39723A14ADB8F];
   [0x1FC8374852517; 0x4EFCD85E78688; 0x5BA5C6E340E04; 0x2AD5541C4F7E0; 0x7AFEAD74D7911; 0x772EEA94A657C; 0x372BB0B3340C5; 0x2DFFC3FE428C3; 0x7780B19634458; 0x396C2E8AD8E1B]];
  [[0xA0DC2AEA8D665; 0x497C1A0EAAB74; 0x34918630C5E96; 0x21960961A8492; 0x56059C4ACA995; 0xFDDE1D84A2BCA; 0x3E28D6D947C37; 0x59FA17EA39CB1; 0x2B2B829872434; 0x1AD4DAEAA9FE2];
   [0xF2E4853E5AF32; 0x4693D39964BD6; 0x6A84B327FFE47; 0x2F3C1238E197A; 0x3790974398BDF; 0xFF31F3581AF07; 0x4C239726330EE; 0x2C366AFC8A963; 0x5B30D24500CBF; 0x7D9C6B29592A1]];
  [[0xE71DDD57E8296; 0x346C03100FF87; 0x46A920C6C7EF3; 0x17883AE0679DA; 0x7371362C409A2; 0x3F3FD0398532B; 0x47C47A292C97E; 0x3E20A94F0DAB2; 0x615A39700E27A; 0x4DD4F52D80B70];
   [0xD8189C3E7FF9B; 0x6A323F12ACCE3; 0x218561CEBE916; 0x582DFFA5B6244; 0x17E86803253FE; 0xF6E066437E671; 0x3379D07B3571; 0x28E80792D0F88; 0x3ADB5E00F7D48; 0x4490947B64CC1]];
  [[0x966BA117EB5A0; 0x3EAD0F9635F78; 0x1127434D7F565; 0x166F7EFE73A42; 0x6E1EB3EE2C95B; 0x2169A44ADD28F; 0x7D099F80F5E40; 0x1673EEDC2717; 0x6D35CE7C87042; 0x1F1659FA895C4];
   [0xCDA418AFEEA2; 0x22BB4CD3D78EA; 0x7CCB3C8415D6C; 0x72FAD0144A08F; 0x6AD7BD312743A; 0x9717E7E313571; 0x30507C307B184; 0x37E8A184867EE; 0x5A0F950ED5715; 0x35FB26907AA86]];
  [[0x87069CFCD15C6; 0x5E74CAE8DD69A; 0x77415248EC6CF; 0x39CFB19D98136; 0x4102ADA4617F0; 0x91344A9950D43; 0x7F37FAA893404; 0x894C6ED07059; 0x1CBD2D8C191AE; 0x5E7D0A8D6C1FB];
   [0xD8A6DCD86A648; 0x69DFB00FAC67A; 0x55E4E4A8BF53E; 0x52C3F21F19F1A; 0x199681E75B076; 0xB461379ABA50E; 0x27C35B013932E; 0x3E43D98DC3C8B; 0x5299D0D27C3FF; 0x501003FB5C76B]];
  [[0x2584D9F215747; 0x7BE751EE9975B; 0x6739CFFA040AB; 0x21F693AB51286; 0x4378F5B99BA03; 0x92021DCD03E29; 0x29C3D833529D1; 0x3218DAA201C66; 0x68DD2830252B2; 0xC547881361FE];
   [0x4DA1DDF2727C5; 0x141088C10F286; 0x33EFA65C7AD64; 0x309E225C521F2; 0x165C50DA477FD; 0x6A39D52AC02AF; 0x583FDD7E42212; 0x49409EBFF68E5; 0x3F0AC36D8B5F7; 0x7F9BFC22F82AF]]];
 [[[0x2372DBC024334; 0x3AC04780C37E6; 0xB462B14E1199; 0x789AB88A9152C; 0x4669A83086007; 0x2875233E2BB95; 0x164D14E6DD133; 0x7834C96D7F2E1; 0x376AF8A1FB72; 0x25E655DD42C55];
   [0xBC3F8D59BD4F8; 0x4295AE12759FE; 0x1710B8788649D; 0x63FB5252144E8; 0xFB67B48BFB15; 0xEF2243C620B1A; 0x43471BAB61989; 0x297865EB6854C; 0x41EC649B840B6; 0xDBB860FE03FD]];
  [[0xF3F668337995A; 0xD23F1A076787; 0x559B19C7D6F35; 0x1F5D63B1D816A; 0x4919133B61F8E; 0x31862225D9C14; 0x3C6604EA7EF2F; 0x62AF2D864BE9B; 0x4E75593316CB0; 0x6270C9215DEE8];
   [0x79DDB43AE991A; 0xD9D288C5279D; 0x10A5CE9E2122D; 0x6627C1899977C; 0x4545C3F73568F; 0x41DA4E722FDD7; 0x1D1CA3BA6C0E4; 0x154DDB8B11262; 0x76A8BBB916CBA; 0x264F61CEB449C]];
  [[0xC03E88F01C0CF; 0x2DE2458CBF5D8; 0x59AB57877E3A8; 0x22BA99E9FF36; 0x6E3D7F3651BA4; 0x91A76C49112C9; 0x33BFF09F31D44; 0x37DF6585ECCB8; 0x31E08F635DFAB; 0x61B6BEEA111BC];
   [0xEC7C8AED31D53; 0x1C2D420733AED; 0x28A0A574AB6AC; 0xC07A2A7F50B8; 0x146FAE597AF65; 0xBFB422415D9A7; 0x3B3FAF595D88B; 0x16FABFA94B1DD; 0x77BD9F4E1A511; 0x1ED87CB724465]];
  [[0x213F3A12FADCB; 0x73702A45BFCC2; 0x5344B6A0BE9D; 0x5780B5541C989; 0x4689EA1E50219; 0x5B3C5CE5DF752; 0x187B449599429; 0x4F3F92602410B; 0x8266C08FAD01; 0x6449FDC76A08];
   [0x1290134E207CC; 0x5FC0BF00CD133; 0x5093E94846544; 0x1904D36A7E4E0; 0x6CFB29FCB4C43; 0x21A5E794AD08A; 0x49AF3B74BD0CA; 0x3D12DD54A42E0; 0x20F8191FC6C17; 0x5271ACF2BEF13]];
  [[0x3973D23C5FC40; 0x22C79CF716759; 0x698E37C807E96; 0x61499D8A20942; 0x3CA6565D1591A; 0x376C82319132C; 0xAB592C414D58; 0x78DCD766F3A9F; 0x235326903A314; 0x1C533CF655AFB];
   [0x417ABAE4343FF; 0xCC1BEBE8BA73; 0x35CFD9C4CD9EB; 0x525DDECFE78DD; 0x4018B732A3EA9; 0x4158841836B35; 0x13A9FC11821AB; 0x1A62E3E9F6760; 0x19D2F382BFC5A; 0x48B8C5EE1498A]];
  [[0x67BC07969E710; 0x56FE1647FF971; 0x56B9EC60E5571; 0x4FF5FF4D6D59D; 0x48349FDBC6F40; 0xEDA3EDA8889B; 0xC724742965C9; 0x4CA3A42627635; 0x47141B8D6F392; 0x3D2FEDEAA1C29];
   [0x716C803508620; 0x4F95142A62BB6; 0x486FEE8AA4AD7; 0x7AEE5F2F7D145; 0x73A3D7B302EEA; 0xC31B194B33CB5; 0x5E8F7E9DB0F29; 0x26804A1976839; 0x224312A20168B; 0x4C6397AFDC614]];
  [[0xB366A0560CD66; 0x5ACD26E6E7D4B; 0x1A29126E560EF; 0x77D0A85F35263; 0x66BB4F7909A61; 0x89487A0F6CA2; 0x4201AC59EC89; 0x3517D862DA268; 0x4E06334DCBFC2; 0x542129BF06EDC];
   [0x9AC6AC40ECFAD; 0x4A4A6435450F2; 0x3884DC2B01CE7; 0x33DFEBB566E48; 0x578290964FDAC; 0x23B7A353BC889; 0x5060A08B7EE8B; 0x7AB7A129FEBF9; 0x546502F940252; 0x1DBB0164F28EF]];
  [[0x18A4A75F64304; 0x46FFF5757186A; 0x114066ED84642; 0x2551CC10C6D4D; 0x402FACD10897C; 0x15C0E2DCC992B; 0x40E8F0EBF60EE; 0x60EB6563E9C6; 0x3B809A3126313; 0x17A66BDC55746];
   [0x9062DED579427; 0x44A5F128A6E10; 0x151DC6DCB8F89; 0x141A87B41F52E; 0xD7A6A002BD72; 0xE8B9C9303AC1F; 0x1834AD28690AA; 0x32ADCC504A8B7; 0xA927B2B2E93B; 0x2A737885EE993]];
  [[0x6BCF992E8B9F6; 0x40A05E593A37A; 0x3A56755FA1A2F; 0x3C89364FAE34E; 0x7E77DBC3D88C6; 0x2ED2A5FAC8E6E; 0x5FAFA89C46962; 0x4DBFA31641429; 0xDB79C8D1176F; 0x19941D0C3522A];
   [0x41A75E1C8E526; 0x4C6B783802833; 0x1B562BAFECB1F; 0x3E09662D4B955; 0x36C04E510554C; 0xE4C0F87B4805F; 0x73B95C41A7C5A; 0x10377BD353B8C; 0xE2A301E84DD8; 0x4AA08670DB7E8]];
  [[0x56A0D36E91A81; 0x7AE104EAE22F7; 0x377C28F77E9A6; 0x77E662A50D752; 0x806A44DC69B2; 0x7C6E8FEC3651E; 0x3B809BA19FDFE; 0x2B748E1AF6B23; 0x13D51330F00A4; 0x54847211A69E];
   [0x12FB021D29481; 0x6FA2B27174477; 0x3C6438378319E; 0xFFD2B056F1C6; 0x4D77E75145534; 0x20A7895D994A3; 0x3166E20D7EAB2; 0x6B6D0CB136A52; 0x2B5C30551AFC3; 0x68443D6142CD4]];
  [[0x408A9351DFB46; 0x6B998F97E7968; 0x5B54EB77BAE87; 0x1D1547584B3F6; 0xDEC5666F2759; 0x97223408D9F44; 0x4E4F55A177F66; 0x8514532470B; 0x856C14AE04B3; 0x61CA70F3895B4];
   [0x253C057F4BB69; 0x1163F0D6F162A; 0x16E781BFFB4F3; 0x1F13813403F57; 0x720EC959BE2A5; 0x4CAD26FC8BC3; 0x4430E9FD18B54; 0x127BC205199CF; 0x6E3D5CCB5D82C; 0x2C08FFC17839E]];
  [[0x38FAE0545EF38; 0x53E6BB230EB0F; 0x3612B0393816C; 0x73B82CB17AA32; 0x164306BE664B8; 0x7DECB1BEAB083; 0x3ABA14AB6DFEF; 0x6698C134B72CB; 0x48700868CEFB6; 0x4DC5186706827];
   [0xD284BA53E67E8; 0x4F1D7F1CDA504; 0x763E8AAD17850; 0x3EE3C7D2B43AB; 0x5EDDBD6D373C5; 0xF6B7396FD7F7F; 0x6367A99D09B8F; 0x1571A1CD21578; 0x7236B9994F1FA; 0x62AA7DCD740A8]];
  [[0x895A1FD8F0DA1; 0x940D048284D5; 0x7059173020EB7; 0x34CBCC3643F29; 0x54D38DFC9A9C7; 0x4D0D54222865; 0x7AC3D3F2E7588; 0x4BD1D9A8CC40C; 0x4BA573C79363A; 0x3B77EA3C0F6CE];
   [0x4EA2FC4B8BA7C; 0x1ADDAEDBD593B; 0x7B6AB6C9FFEBE; 0x246C34D52441A; 0x664D1C2133D2A; 0x5A8FCC6F82245; 0x3C821241B7620; 0x7ABB29F71AC83; 0x126E955FDD3A; 0x483EA750D326E]];
  [[0x3FD366EBA1606; 0x2D9ABAF3B8EC5; 0x11FB79452ADD0; 0x4D367D2541244; 0x14C5A74A4D2BE; 0xBD9255862125B; 0x53C3CF655527E; 0x40AA6D6CB56E; 0x5F328C422C551; 0x635823C8498F1];
   [0xB8D2832D1E4F0; 0x2253CC89289E1; 0x4AFE460B4CFA4; 0x47F33AFB8FB72; 0x3147C7881EF17; 0xB142D32392AC5; 0x2DB71D8F10037; 0x445CB1A7CD1AC; 0x5320C19EF8761; 0x6956661FEB75C]];
  [[0x8A4F6E3E57DAD; 0x52E3220306CD3; 0x16C04A243039F; 0x6F0BB18CACDCB; 0x61BCDE864EC1; 0x29F6788292DC0; 0x22F1DB885727; 0x58B87F88D42DB; 0x67E1B4B34B7CE; 0x65DB9E57B9F40];
   [0xDB97A65B73FBC; 0x5DDAD4615047A; 0x3254BA8C48789; 0x7BDDF93DDA4BB; 0x2C0DF753CF13C; 0xF1261EE450629; 0x1AFB00BDE3B73; 0x7AD40F78FD9B6; 0x275243D6431D9; 0x670BF2C9CC698]];
  [[0x9312A3CA8CBBC; 0xD499C81D0092; 0x1F9D05BE7A579; 0x262C322C0431E; 0x78231853C844C; 0x46A359E9EA4F7; 0x490A7B54A0D2C; 0x5AAE046C3E758; 0x59A6FF1C516DC; 0x5C2CEC2165D95];
   [0x912BFF9FC238B; 0x7FEBB522D20DD; 0x70A32C9786B85; 0x3419D9DCB4F51; 0x6464E7100B7D1; 0x1B5E3520C4AE3; 0x19B50C7D74FC7; 0x3ECE80D56DEDC; 0x31A0A04910717; 0x2DC124F80EA68]]];
 [[[0x7FC3E471A068B; 0x1F9C0BD1E7FDA; 0x5B816710E054C; 0x641A4989CA761; 0x5868FBF10DBFA; 0xAB68C9F619D52; 0x610CC30529BEC; 0x627D1E7BB0ABB; 0x312A648EFC13F; 0x720DB474C9967];
   [0x88A74ECFAC532; 0xCA6C465E54E3; 0x63BCCC230DDCA; 0x545133A54D8A3; 0x289A2A21D7DAD; 0x64142FD2154C0; 0xAE8DE8498437; 0xFEE6A05C9CA4; 0x5A712CADD4BD3; 0x73C7C0CB9DC7E]];
  [[0x14BC20D8FC866; 0x1B713C72B026C; 0x2BB1B00DD97B0; 0x3DDF6D5D77C14; 0x18D34DBE288; 0xB37E4BE21CFC1; 0x42460ABD75619; 0x48564EF06DBBE; 0x1D0F8F700CFDF; 0x50BF2E57EF201];
   [0xE7551324C838; 0x13E348DFFE7EF; 0x5667611C90CF1; 0x54F8E74F0FE54; 0x46065CFEC47E4; 0x20F5CA7131E31; 0x56BCD632BBD22; 0x4068611AE97FE; 0x342E9BF1AE60D; 0x59284EE40F315]];
  [[0x695C423B1830F; 0x61319340E99D; 0x56EECAD0FDEF4; 0x1851799B6AF30; 0x574BFEEC6CF78; 0x90695389CAC68; 0x4AD41B7692D45; 0x67399705E0A02; 0x4D01C657BFE93; 0x7AE346F356E78];
   [0x5ED517D1CECA6; 0x4FA192E057F98; 0x28B4C280516A2; 0xF57015483B8B; 0x381A2B0925CBA; 0x7EC4E45D3BCA9; 0x5E6AE14D94280; 0x44AA8A233553A; 0x188ECFCF3FD6B; 0x56CD6831AF6A1]];
  [[0xBAD665FBBA51D; 0x5CE5627119792; 0x13618EFFC45B; 0x59C97725250C5; 0x34D2A31C26543; 0xFC7D8B33901C2; 0x4049BB70B6E8C; 0x298E4AB70ACB4; 0x24A67CAB12D0F; 0x658DD54DD249];
   [0x18A1BE3CECA73; 0x7CB9EB76F08C8; 0x1B277825030CD; 0x5EE5C3A83FB88; 0x520DD7C104236; 0xB4C8EAC628F4; 0x67414680C3CBD; 0x634E9A20A30CC; 0x6FCA2CD50A25E; 0x3207EC54AE849]];
  [[0xA7C2C9FA19751; 0x32EAC1838C0AE; 0x704308B256AC4; 0x2462B6C4B26A1; 0x2E3D83A96467F; 0xFE8591432EB6A; 0x3FD27EAF7B31A; 0x58F724E26D47B; 0x76136F099E12E; 0x558F5CDCDEAA6];
   [0x6ED04F333B165; 0x634F9F9299870; 0x6E7943903D73C; 0x5689249D8E40; 0x43B4AC0439BF3; 0x553178FDF6D63; 0x439F7375523D2; 0x5F10CB0346B4A; 0x4E0AE314DF84; 0x69471AB5DFADA]];
  [[0xE9501E9FAFE7; 0x1ED4A26197388; 0x5CAA03225B2DC; 0x3498CF6071DD5; 0x2CF8D255A84E; 0xFA75C0885DE81; 0x30965CE1A47CB; 0x11FB194A95BB0; 0x4800A95408A73; 0x2EEA35FCE3212];
   [0x87C5B9DE51934; 0x36D95402D7411; 0x37FB02C63558B; 0x6A1232CBC6C08; 0x5C0E468414E24; 0x7F99C0CCF2D15; 0x94592332F465; 0x2AB96A524CF72; 0x7E87F1D99C378; 0x207DD0DD808E]];
  [[0xECD9FF97D4931; 0x1D4B8B850BE44; 0x6C1F7D66BFB33; 0x286B0E020CE70; 0x57D2D930A9035; 0xF70CD43EF78D8; 0x5595A2E3FB21C; 0x2B23212C03281; 0x6BE2A6AB3CEFB; 0x7B13ACF77F80E];
   [0xCB860BC601AFD; 0x6ACF4F99A1471; 0x6698A5886492B; 0x245BF72D02C00; 0x67720650A5EB3; 0xD9E8B3198D8BE; 0x72728DEA3F720; 0xB079DF1DF966; 0x764E77F92B823; 0x4721437DFB0D]];
  [[0x8C47E3E9972F3; 0x5F6800BF3F5AC; 0x40B8943EC9A82; 0x18C3DE68795BC; 0x798ACD9D5C188; 0x626A89DFFB9C7; 0xA446A1E585FF; 0x3F9D6C0F2522; 0x45DA3E3E5843E; 0x1DF8788F4C149];
   [0x2D1EA1F1D567; 0x7D2CEB46D5CF9; 0xAE8762EDBE19; 0x4D34041C698A3; 0x2249A52FB7AFB; 0x1AA28A184F6D0; 0x4AEDC54AC0233; 0x1A52FA2FE3789; 0x684CDB10852C6; 0x6A488535FB8]];
  [[0xB69CD208922BD; 0x113C0A2CDC098; 0x34EB1527C9342; 0x2E33524A72273; 0x5D54F4B29D1BB; 0x935E2895D6B59; 0x2467FF51247E; 0x64A19BE2B9B33; 0xCA9B34B3CC48; 0x1C1179DC502AF];
   [0x30DD196A35DEC; 0x4F43012319797; 0x3AD2F85C0A8FE; 0x767B8C3625127; 0x7156D91446AF4; 0xA52B80B684D9E; 0x493C29A3C9396; 0x60B66E8B18710; 0x73CE5C6E23F4E; 0xC0E9CF09DBEA]];
  [[0xD847204E88E6A; 0x14392C2DBD5D4; 0x3647F5392D642; 0x5CD6B4397528; 0x3CA804BE0E6E6; 0xAFA2DEBF9BDF0; 0x3B70844F7F77A; 0x55FD54AED8423; 0x1E87463CB4E23; 0x1BCB9D95AA334];
   [0x8AD95903A42F5; 0x2B77C076B1514; 0x4EA8D39728A1; 0x6196D1EAC34C; 0x21AD5CD908FB5; 0x9231E8FBDFA13; 0x6F53F72D12265; 0x4EEB89634BD92; 0x467E16722B0C0; 0x322B4828C8354]];
  [[0x749D2D2151628; 0x17DB343621D73; 0x165CD9CF505C3; 0x6EF002B6F7508; 0x6A5B3F2EBD640; 0x88918A6F47361; 0x24A4CC1F89F3D; 0x2A883A0915ACB; 0xB430E4311864; 0x2E5AFD5631755];
   [0xE6600C23AF414; 0x4A68A06127530; 0x119CF5DBEFF9; 0x31BD59339EC9D; 0x7AFB0A0652755; 0x4E54D473D5D91; 0x6663BBC911425; 0x60CD99F4A6814; 0x4D70E317492DC; 0x57C676F34207B]];
  [[0xFA45FEB394F79; 0x2595780239750; 0x6DAEAFB6AF370; 0x4F71BE680332B; 0x7A2B88BEC444F; 0x6D282845556D8; 0x3A48753C8FEB2; 0x5314A5E71A50D; 0x64B67D3BEDF37; 0x49BB87F9AA6E0];
   [0xF9E3C83D99F56; 0x2AFD6DA547B1C; 0x799EBA75D7647; 0x17702967C6572; 0x36DAA4C258B87; 0x5BAA7744D42CE; 0x6706FA16409C8; 0x3833BD25E3852; 0x5B9B25E71D72C; 0x851A32EE02B9]];
  [[0x96C7F5422B60A; 0xA451DBBE6CC7; 0x4DFB70D71B03F; 0x47A85B6A73205; 0x552D4E655E4A4; 0x26F31F95A9399; 0x1C446539B5383; 0x544DB6B46DF8B; 0x3348ADD036467; 0xAA2D0D6935D7];
   [0x7D5B7A1E58219; 0x4617A5AB605AC; 0x6A6AF7E81B995; 0x42EE78EACBEE0; 0x49DD85014D117; 0x9591FD9314E76; 0x5DB569F458EB8; 0x51D4F2503D183; 0x63FBB28BA6AD3; 0x6D3AC67CC821C]];
  [[0xDB3F243061D75; 0x6D73931E621F2; 0xB17170E27A4D; 0x4483B525B3B3; 0xCEC6BF188345; 0x28C93F5247B6F; 0x4A6511A5DEF06; 0x76B62AEAC63B1; 0x74A604ED95C71; 0x9EFCC184826A];
   [0x8BAC2B060443D; 0x344E9D3B2EEA9; 0x20435D407DCEB; 0x22E3643D85699; 0x1A1F508400E9C; 0xD7CC9B1AC0494; 0x4C1AD9E2EB052; 0x9FBD9B150459; 0x369468497704F; 0x3FF2AC90D8014]];
  [[0xF26B79E392352; 0x2B957BF938557; 0x715D0978BD2B2; 0x45531E667D86D; 0x38962FCA00EDE; 0xDC1791F176B3F; 0x743403651C9FA; 0x4ABD020A84523; 0x6DECB17845C69; 0x3DF12469D37F5];
   [0xFA8419C8A9D27; 0x768869058EE8E; 0xD174A1CB1143; 0x70F67326B9037; 0x26979FA59E935; 0xF4AA12B6BC96F; 0x606751117A342; 0x47A115AF10FB7; 0x6DF7816619F79; 0x72158DA5671BF]];
  [[0xECAFE87CBB23D; 0x512A524D4D77C; 0x5FF1AF3F9CDCC; 0x5A5222E7CCBCA; 0x37F25D366C5D3; 0xDEE9CD4A0BD44; 0x1BA906B38FE5F; 0x2479A4422043C; 0x7F85530950F05; 0x26843F9CA979A];
   [0xE6EBFB1D7D79A; 0x1962262421C26; 0x749C75E0896B7; 0x72656E0591FB4; 0x48C25570B4B5D; 0xC0F6689F57006; 0x106B77BE98B19; 0x70FD9ADA250C6; 0x4B2AC835CA2CF; 0x5FD38C57539D3]]];
 [[[0x78CF823118058; 0x84E70B90249E; 0x340E63640803E; 0x259F3BA46031B; 0x4025A533D8FB6; 0x21525975D8B46; 0x16415CB875BF3; 0x37D3C94CF88C2; 0x1303423D046C3; 0x64D6CA6CF50E4];
   [0x1C4F51365236C; 0x74C650114C6D7; 0x30B74EB231DBC; 0x108DDE7A79F07; 0x5C84883DAAC53; 0xF4FFFB87D65C4; 0x3A077D6424776; 0x74EF17A8FF930; 0x1C70531DAACC1; 0x4FDAB70943349]];
  [[0xD10852C9532B6; 0x43AAC71DC676; 0x699B3F568856; 0x62AA64E24D6D0; 0xAC30CB5E809D; 0x3DF891FADF9D0; 0x2E8AEFD6E009D; 0x763BB5C596056; 0x27648417EC3B3; 0x26FFF568DBEC6];
   [0x46866CD52C51B; 0x74EBD129DAF5E; 0x7E8A44CB2D0FF; 0x1754AF2E0C3E1; 0x75DF74CCBA4EB; 0x7015D1AC6F756; 0x7CC58CB459B84; 0x4431C9AFC9478; 0x1496EF18E492E; 0x40F52B9782D09]];
  [[0x5432D2ABFAEFB; 0x219E9F74B6891; 0x772FBB5A56EDD; 0x3F9B32B854A6E; 0xE23A82F7F4DB; 0x79910F350CA56; 0x2F2CBD94634FD; 0x62DE8463F621C; 0x18A84A27F47AC; 0x492918B0A6CFC];
   [0x917028ABF0C6C; 0x5885BCB7EC09C; 0x7B7029F86047; 0x4E980E40CB14D; 0x2414620471CAF; 0x638833F454BE0; 0x7530E1D810E0C; 0x7BC1509E4C84; 0x234FE03106A25; 0x7B3C1744922CE]];
  [[0x1D6F26560D816; 0x761F53B7DED62; 0x3F63729C380A1; 0xD9AABEB1F8E4; 0x2FC799030E923; 0x90EB9E83FC112; 0x276A6C7B64189; 0x5C92C57117936; 0x3A76769F60AB1; 0x214C6BFF3AB2];
   [0xF91FA223FB871; 0x72F8E905BA3A7; 0x54D9829B0E1C4; 0x41AADCD2F042; 0x6B33B8DBF5DAC; 0x5E138CA79ABDB; 0x7F91015FD64B0; 0x3E42D44B48D18; 0x3070F61FC98CE; 0x3ECFBC333B9A7]];
  [[0xA1C5F63F4003A; 0x73E65E07CAEF9; 0x7EE53E05454BD; 0x2832BB0CB8A80; 0x7F92B5F28C3C9; 0xB198CFA188FC6; 0x1B4972BD5EA15; 0x3371055BFF265; 0x40289DB496278; 0x37FB8AEF99C7];
   [0x3E8BA240F2657; 0x507715E41F403; 0xAC5E34F938B; 0x10AC246A10935; 0x35E92D9586CD7; 0xA927B7C112162; 0x1E320A6A23B35; 0x2AEA76305FB4D; 0x27FC7B4E55E7B; 0x7F605FDDB3012]];
  [[0x7B3BEE04C4C80; 0x5EC1698F3E6D0; 0x58683E8514BF8; 0x3490978C1C15; 0x3FD63AD3797AF; 0x78C4971CAD19E; 0x6E7EC2A846823; 0x77586A76BAADD; 0x22BF1CA7743E1; 0x719DBF8CE1E82];
   [0xE187887A1EB86; 0x6E15CE17F34FE; 0x165A9C070F6B8; 0x235BE0B50B7A1; 0x701631632860; 0x1520CD1B97E69; 0x324D126195433; 0x695BD1FBD3083; 0x7D0E98F84E4E6; 0x76D0FD61BE2C]];
  [[0x1C135C074F082; 0x1B1C98964C70E; 0x70F16F51C63DE; 0x65C546121FD21; 0x6E0EA00711AC1; 0x19C4ED64CA43A; 0x7B5F5DE4D83CD; 0x4A3289E196D3B; 0x379BD42718428; 0x28B586AD8AC43];
   [0x81CF90B74F2A0; 0x2D685FCE339CF; 0x29BACF289048F; 0x31B11C9F022B9; 0x723747A599137; 0x8CAE4A9C10E7; 0x252D22A179598; 0x462BF1945C2A5; 0x5E7BF4B6F8B7E; 0x4A5CC544E7A94]];
  [[0x2CE082C195DF7; 0xB2902F1DD4F4; 0x2EBCE1E8E6C3E; 0x3DBB93DD984FC; 0x294BCFA46D91A; 0xE47F5EB6C49F2; 0x27D01A275F685; 0x2A8AB31F7A7C5; 0x65DEDCCEB9FE; 0x7EE40D2F05D3F];
   [0xAA9F92E841F87; 0x25B8A866BCAA0; 0x456616AD0616E; 0x19C95CBF2929; 0x18B84E8563743; 0xD9BBA3F123075; 0x3C88C52754F28; 0x2A84A28E16C62; 0x6C4CBF9BD1BE; 0x14E2ED761883C]];
  [[0xDD43327A5EC62; 0x37A88C2CE8F10; 0x79FB7AF273687; 0x5C217AE2F9294; 0x7B658E58E2D4D; 0x1B9F8E201BDE2; 0x3AF8B1C4F58C; 0x23F0302D4943; 0xF016949D42FE; 0x5DA77793E30DF];
   [0x9A4A03292A077; 0x5E38597159B13; 0x438CD4AA3B94B; 0x39E50FBBA527D; 0x32E5CFA99121B; 0xCE6179D42746B; 0x201FC90B2780E; 0x2129922687B60; 0x1410E58988022; 0x5E3F21AE57B91]];
  [[0xEE44D178CCA07; 0x2290775707084; 0x256E01D88B556; 0x1EF98ED0CEE11; 0x3BD6824481F73; 0xBAAFD1FEBD7AB; 0x6C5370AC07A93; 0x39FFED4B7C601; 0x39A6B4153D857; 0x77A6BC55E5234];
   [0x816AA9A09968B; 0x7BDB9C7F2EAF9; 0x32ACE09E1CBDC; 0x522E8C19D3EEB; 0x3827A069B97BD; 0x6716F9981A71A; 0x554503B7BA012; 0x74637BF2E394; 0x615A2194548E8; 0x6C523A794B4]];
  [[0xA0B318735C445; 0x55C3BC1A59729; 0x355C87CF06A80; 0xABBB95628B32; 0x73A2D28549A3A; 0xCC8F16C0B5FB6; 0x5190FEF2C780C; 0x485C8686725FF; 0x212610F06DB7C; 0x186C78ED4F0AC];
   [0x51A0699ABFB29; 0x4079D38322CB8; 0x4E0C463922EE4; 0x5EC25735A7F4C; 0x30ACD8B3755D5; 0x4533C09F622E8; 0x65BD64578113C; 0x11679C79532B; 0x270C486D96F98; 0x64FCDA161257D]];
  [[0xA95E15137A104; 0x184008DF11135; 0x5609A6FCBD2E; 0x4EDFE7BC6F8F9; 0x53CA3D1760E75; 0xEA2FB5A31F0F3; 0x77ABE20D50F91; 0x7C0E34B46F175; 0x7A94E7592DB90; 0x249BEAED5FC42];
   [0xF85AF26A73A5A; 0x2B83D21F3C411; 0x69FD92DFF608; 0x407178D3E9436; 0xD6C1A603C407; 0xC556CBD53BF39; 0x802C8ABE0ADC; 0x24A5E6F60B0DA; 0x7DB9843929DA3; 0x1FF410E9D19C7]];
  [[0x94E812DBE8C32; 0x6D33ED80BCDA2; 0x2D936BC7580C; 0x43D349744E6D4; 0x20A0DEB1F77B4; 0x31B3519BBF1AA; 0x7A520ED4CEF61; 0x43394E7A87E8; 0x40764584AEB95; 0x3155C9B8CCF57];
   [0xC17DA9E28ADF8; 0x3424BBFF78B37; 0x3CC6A19FFC5FF; 0x2CB497A44C566; 0x22DDAD26DE223; 0xAC080F18A0065; 0x575057C11015D; 0x78021729DE91B; 0x5796ED9E76DA3; 0x6FE4AB6E74734]];
  [[0x5F849D235CCE0; 0x436E70A0D70E1; 0x35E68AA2BDD02; 0x3E7FE63874EA2; 0x26C88F7884563; 0xFCD9BAE21D5B1; 0x5C69101494E3A; 0x37DB907EEE3A2; 0x64C59AE199A08; 0x39423CE12F5BB];
   [0xAAAF7EEE09F7; 0x4C5314B2C4D75; 0x3EC74B3A6D36C; 0x620CA51245767; 0x44F419AE83224; 0x80A722E02A693; 0x7A360EBC5DBD9; 0x381727BCF6E58; 0x617B700F3ADF6; 0xFA1A09F64950]];
  [[0x96F84C0BDFF5B; 0x6E5B26C5065BB; 0x1952942E39562; 0x653E9892230FF; 0xF763C13E4999; 0x9F0784B215E56; 0x270D42201B3A3; 0x45740B9AF7F09; 0x229B251B5D908; 0x657F560FDA230];
   [0x31EFD1B4B981B; 0x7B1F5B3F7B1EA; 0x170AF323B8DC9; 0x55F77521B9F83; 0x3B381A7CCCC0F; 0x86767112D35DD; 0xC15A5CC603CB; 0x26C0095FA28DE; 0x5178C03D1D4CC; 0x6A499CD28196A]];
  [[0x9617A9ECA8281; 0x2F03DC8FC403F; 0x5A200AB22733A; 0x402BA3A81D989; 0x6690A4DAA9371; 0x1CC8F6D90CC2C; 0x293AC50B59125; 0x4D1A882B9D469; 0x14C4DF2707168; 0x5A3C384944E0D];
   [0xB2CD4D51F74FF; 0x21EB289F478F1; 0x4BF9CA3A7AC0A; 0x3DB4F626C2310; 0x5CBF13B00CCC4; 0x29073A697E0B9; 0x2C5D67FD6CD73; 0x5D10BAA363615; 0x51A608EA619E; 0x4155A6B02D3FB]]];
 [[[0xB63BE2E2471B6; 0x793F7C56B8C12; 0x3A61A28C6343; 0x73E8EF4E8B82C; 0x770A1A8474CE7; 0xB2231CECAFDB4; 0x6E5A738D66F01; 0x2489688C31B78; 0x60068F8F76B83; 0x3D6F5D74A6F06];
   [0x2EEDB0339BF8A; 0x6213ECE2A8CBB; 0x6876AC31EC71D; 0x1ADFE07733CDB; 0x192FE0B2619CE; 0xB3F7CB6D64F; 0x193DD7BC97D28; 0x5572F38C9E619; 0x117122583880C; 0x3F2E95F7AD5BD]];
  [[0x5C60618A27AB4; 0x41A118681EEDE; 0x264B9365ED5C1; 0x257E09A79B510; 0x7087B4DFA9B18; 0xBC4BD3F5B7665; 0x47988ECDAA2B4; 0x38D5A0D231327; 0x61EBA028CB516; 0x34DFCB32D1C33];
   [0x7BF2B53E6F733; 0x7363F62FE6A5D; 0x9E88E9E4BBC7; 0x53137DF685DF0; 0xD26EEFA89EB2; 0x60E84ECFF317A; 0x562FC49406706; 0x4010FC39B719E; 0x59BF4CE26C533; 0x16B0A194ADE86]];
  [[0x25D428CB55AB4; 0x349C469FB2C47; 0x11112758D3875; 0x5BBB75049ADD3; 0x13E42E4FC95BB; 0x63D2C733F5E50; 0x71ECB0DB2E6CD; 0x47F5C9C428E03; 0xC8ACA14009B2; 0xFEBA85C091ED];
   [0x319368C78D149; 0xA97A3731C17E; 0x5734AA19A7BF7; 0x4110947FCD175; 0x27E988A2F1542; 0x1405032878E0A; 0x35BAF2C56A5E2; 0x539BA8560A8C0; 0x6BE84D2118DA9; 0x5E0476ABA3F5B]];
  [[0x3AA4CC1DD3F97; 0x63185FB6A0D5E; 0x7EAE973FA7134; 0xD566EB4BA56E; 0x432A20DAAF7BF; 0xC99D6D0DE97D6; 0x40CD8D71B4231; 0x61DBA01336D9F; 0x10DC031C5661D; 0x7DBFCC3C94CE7];
   [0x92DCF6D493BCC; 0x8741DFAF5D31; 0x2E2A67554DF10; 0x5119B1E5ADE23; 0x501601DB80686; 0x16AF164683AA7; 0x13250FB11AA12; 0x70A10DFF37326; 0xF9D812FF4EAB; 0x2035714DCE83]];
  [[0x7CA219AED5320; 0xDC5D44C110A5; 0x211982529953C; 0x330BE049F485C; 0x6B006A9948E28; 0xB04E018D4DC0; 0x215F49B9F8FF2; 0x79CE3A3D8E522; 0x6EDC3EA4A4987; 0x6F9FD6811BC4F];
   [0xFEF3CB3BE843C; 0x5B9E17892CE3D; 0x5168AA844E7A9; 0x600B2314595D6; 0x477B0AFD0F4F6; 0x53D8F4E812FCD; 0x49909798B2B0F; 0xB0BD698B1D5E; 0x9B704E143DF; 0x43C8ABB658E21]];
  [[0x9311B2D0959AA; 0x408C67EBE4373; 0x4708398C93D1C; 0x5CEEB3BA4DF18; 0x59663D0C68975; 0xD6F23DB87CD7A; 0x7FE452E537133; 0x67D1FF579E76; 0x678700E4625F3; 0x512B5A1BD51F9];
   [0xE28A401845C37; 0x5334538459412; 0x415EEBEE74BD9; 0x14AFBBC227A22; 0x214A015E7D9E7; 0x139325A047952; 0x29504D6930EAE; 0x5D1BCA17818E8; 0x2DD22238F7A8E; 0x4F8349B5B0ED3]];
  [[0x34C0AE7DDF681; 0x7688311AB02D5; 0x2EB0E8A6E1F1D; 0x5FF8BCF6AAEB8; 0x2CAD1E56904C4; 0xFA16935A53E47; 0x2881197DC9DD; 0x5C925AAAF6DA8; 0x6034B84FE7D23; 0x5D6AE622F2E8E];
   [0x65068FCC0ACD6; 0x70B371C8C2DF; 0x3DA0FCB5BFD98; 0x5B4F3426521A8; 0x689F815FC00FE; 0x2E666CEEBA0E2; 0x1E39832C0990E; 0x574558F79940A; 0x76D485F8B12D9; 0x156F30CEE05D5]];
  [[0x7D87AFB920C3D; 0x2A9E23A083533; 0x1543E5ED3B5D9; 0xB974928CFC56; 0x2CF48F5FC7EE6; 0xCE1C3C95C8368; 0x333FD6C3D7D3F; 0x44589E3099078; 0x1F34D2E96B01D; 0x17EAC450F370E];
   [0x1B2713A497273; 0x30B002E865A54; 0x182D7C612D473; 0x26397A5C46946; 0x187CB68D83F11; 0x77ADF60174A14; 0x2BC33B9BC9135; 0x36AD6BE31C9F9; 0x1AC5D650B5D13; 0x3F43A72E4D5E3]];
  [[0xEF6C11E20B6EA; 0x5905102070C81; 0x24652608509D4; 0x205B6D7FBB6A0; 0x32589FE0677BD; 0x85D8055C79F1F; 0x4E43893D83E7; 0x13EDB219CA7D3; 0x7BF9B35859660; 0x5DF7DCB816251];
   [0x1EF55471D4356; 0x540AF79AD9A97; 0x60EB528DDF6D9; 0x328BCC97D7964; 0x706B99B540A23; 0x7753141D6BF4E; 0x256E51FDE35B1; 0x5324363DCFDED; 0x4E0FE9820F921; 0x368ECFA81C767]];
  [[0xAE3882AC0F8F0; 0x23952C3BBED16; 0x2208B0CCB771B; 0x32499978C3D1E; 0xB08DEF9DE24A; 0x14733B64362CB; 0x44CEB44FBCD29; 0x62081D15BFA79; 0x612FF02BEFFD5; 0x16207454BB815];
   [0xE140447F99D22; 0x4415B5CE2B9E2; 0x497FECE7E53B5; 0x3BBA75954C646; 0x75267384AD185; 0xBE077D1B86BB1; 0xA186FFAE61F0; 0x7E20C811F4FAE; 0x4F69AD42F56BF; 0x6F7B76AEA2AF]];
  [[0xBEDEC2A48D51F; 0x40C00234C90E7; 0x3BC8777CA6ECC; 0xD79570C70B74; 0x157D50E130D10; 0x3932A1F3A8446; 0x520C248ECB88C; 0x73A8FF16D17F0; 0x6B070CCE2E887; 0x6F6D81DF9ECD];
   [0x7C3E53178DAC6; 0x802C2D20978A; 0x5CC0D9E0C57C8; 0xA2DB47B4AA42; 0xD0C16DEAE477; 0x30AECB867C0D4; 0x6545EF5ADABE6; 0x6207530AC956A; 0x4B667DB2FBFC5; 0x7231A93C94578]];
  [[0x6EE7B285AAF99; 0x184C97496A4CA; 0xE820762561C8; 0x3069976AB441A; 0x2F2D34AB64E3A; 0x8DA8798C4984C; 0x18E10EC261ED8; 0x5572CDE59EF3B; 0x5243583492A31; 0x553EBD5BD4F76];
   [0x3CD44541889B; 0xA15FD3B46A03; 0x2445DDC01C49C; 0xFF7AB524990D; 0x67DD44CEF1BC4; 0x11A6A854E822E; 0x20922345D9089; 0x4F8BE8B1C52C; 0x334AD5EA9B90D; 0x4E5FE9C90028A]];
  [[0x68C177996387; 0x19B13C995F39; 0x65BFEAB3691E1; 0x3CEAA9FF90919; 0x70CE531ADC5B6; 0xE2CEBFDBB5331; 0xD202455F41D3; 0x671180605FF9D; 0x11AD81B928580; 0x28FC16864D6F0];
   [0xA61CD60DAEB8D; 0x365700D8B7834; 0x57BC9FDF724EE; 0x1F7A1B9F925AF; 0x7AA4AEFCA0359; 0x34A27F50833A0; 0xED7927DFB95D; 0x7B8F116040DEA; 0x117F98382AC39; 0x20171F463D451]];
  [[0x59264A9F49C09; 0x44F0F00815067; 0x151E20E3CE2F3; 0x3CB10A0F261AA; 0x19DAE7938AAE9; 0xFA6C983FECF4D; 0xA4A7CA460046; 0x69CD684FAA9A3; 0x5962FD31973AC; 0x1A315E3CE66B5];
   [0x1EE33900F6430; 0x64BE92C2C1CDD; 0x11FCA5905D7B7; 0x1664E4C15055D; 0x124F50846C1DD; 0x5A95B64C89DD6; 0x635C7B470A25B; 0x44199D92D72BC; 0x317D8CC4D6593; 0x4A1E8E879471E]];
  [[0x70F53D415523F; 0x8843EE85FF0C; 0x1E10C523BB14C; 0x4756E413F0932; 0x3DE85A220DF46; 0xE272251866340; 0x8C97549ABE3D; 0x3998C7C359F9D; 0x18EC0C21FA45C; 0x7A6A308E8E50C];
   [0x2370A35276C0F; 0x2729B26DBEA22; 0xD95854453918; 0xFEBB57C7378F; 0x2E3F0D283969D; 0x875CC00175050; 0x50E7B3F62B00A; 0x6E1A11C5C2BEA; 0x3461785DC962F; 0x6A29E20D62BD]];
  [[0x537C77DAC5528; 0x8C1BE92F83C6; 0x611D61F939CC5; 0x67A47050E3CE6; 0x6FC68EE4297A6; 0x76CC8299AC1F1; 0x798EF7F4F028F; 0x3D929F2A08907; 0x7F626DB8181AE; 0x38C7518A169E3];
   [0x3C2C303DDCFAE; 0x5A51351AFA1EB; 0x33D8168A6178F; 0x2BAE4B7BD921A; 0x79BB0E6C13360; 0x2FEC8223E6E6A; 0x57EB3E02985A1; 0x6A5F6F23E337D; 0xB51AD9A8DF7E; 0x7C85F9D74F60E]]];
 [[[0x373002424FC6B; 0x265A533B8CF47; 0x15EAD4A0AE37C; 0x22EEEA45AEA56; 0x5CA0E0AF3AAE5; 0x216AD75D115B7; 0x2B2885E63BCC1; 0x1DEB58FCEA8C; 0x50D28722A0E55; 0x16C1C97050E66];
   [0xBACBCDEEAFAB6; 0x210A7858140DE; 0x6E228E5AB34EE; 0x38068E28B5065; 0x2BDB4015D78E6; 0xE7DF0E5A47C2C; 0x91791C6E0564; 0x47E8BA82005E7; 0x2E2976DD2714D; 0x29F182BE6C8A5]];
  [[0xD83B94CB40D60; 0x182EE55A47AB2; 0x2A9A2A11F16C0; 0x50CC737555D01; 0x189A2DA48966B; 0xA973CE36E61C1; 0x4AF3A17E7233F; 0x45CB6428ED4F1; 0x1768287382675; 0xC6B22C10147C];
   [0x401DB5A4C6A3E; 0x23EE16B73E10C; 0x2FEA5C8440A34; 0x18E7129952281; 0x1A31C2F9C5948; 0x6685938AF9BD8; 0x2F4C9F4721C11; 0x6D88254B2B220; 0x7BC40460348E; 0x1773137A2404B]];
  [[0xC6B4D1144D64A; 0x6D90E0E79B31D; 0x68DA0056E18D5; 0x5340F7E02D070; 0x1D5DF828F1380; 0x636F195DCDB2B; 0xE7E7E014119C; 0x7B435A9FBE2C0; 0x76EB85EA1EFBB; 0x22AA0A0C698A1];
   [0xB9CB571CA9CF0; 0x4B86CE22A5E6D; 0x6E4462F85131B; 0x2F155E75A2EED; 0x63F764F24AC73; 0xFFA94474DEF2E; 0x4A1B60F2E7A47; 0x63EE08D47164B; 0x5ECDC6B2A7E48; 0x71C6910C71824]];
  [[0x7813E229F97CB; 0x43ADE3B460997; 0x5E8C96137590A; 0x484EEC3127431; 0x3A512D58F34EC; 0xB47722D5ECC77; 0x76E35AE2C410D; 0x142A4F3860A59; 0x5AD2423E3E88D; 0x32A4A2C6376BD];
   [0x9DB45FC2C575A; 0x7CF11E987B02F; 0x329AE7B16D79A; 0x6BA1FDDBA003F; 0x72F40C3D1D0E1; 0xA2168272DEAEB; 0x40B3BC5E98BE4; 0x5426244ED0D94; 0x610D19F336894; 0x1EC5B0CD24773]];
  [[0x126DC95FF47CB; 0x6D821C64139FD; 0x36D6653EA637C; 0x5A97F942DD0FF; 0x318724B076A; 0xED3C1F9BBE805; 0x2E76961D49FCA; 0x759A40326E7D9; 0x2641EFF076C29; 0x6CA5347A2017];
   [0x10765B5C69CBC; 0x1782241147DAD; 0x104E6A5297609; 0x6495BFD0C4503; 0x6B9D0D10CA297; 0x34803A8F4A7B8; 0x69B1A0E7F94AF; 0x76E9131740435; 0x79E1647538E00; 0x381FB07DCC831]];
  [[0x623E19A529B0; 0x2A1F34419A0BA; 0x7450BB7C4CEEC; 0x724D0766E901A; 0x6FDCF27272EFB; 0xE99E1E2856702; 0x6AF1B534CF0E7; 0x24538A8F87630; 0x2DBFF74B7F80D; 0x6689E4424A84F];
   [0xA25CFDE9D7DDB; 0x25B06D5477447; 0x40103EF10F2A9; 0x589A19B6B3E8; 0x1001736EC3E24; 0xB77124673C96A; 0x53B0645C3104F; 0x66AEE9346C15C; 0x336D117178F21; 0x4C8732602283A]];
  [[0xB072ABBE3BA75; 0x15A08F89BDB09; 0x34F423F9E09E0; 0x1EF27A09841EF; 0x65B203436FF75; 0x18864D568B13F; 0x69449D057FB4C; 0x5868A6A3CD5; 0x7932D29BB522B; 0x1069BF48AA2B7];
   [0xEE21FDCDDE7C7; 0x6CAF6E905C045; 0x31A72930255A6; 0x76FCF5F4A6F74; 0x1AA0517A0131; 0x40DDFF2E11FAF; 0x4A5512DFF3F02; 0x55F08A9212CD2; 0x519761093F184; 0x27B6A1B2A1EF7]];
  [[0xEA5C61B6DBC4E; 0x51A4DCC7D6792; 0x3357B7EAF7670; 0x554E802A50353; 0x72BF41E70B24F; 0x49E5C8DA1177; 0x37C5CB7FD16BA; 0x3803F2EEEF15D; 0x146D4B548675B; 0xE11A2717E6B2];
   [0xC794070988A0A; 0x2A32EF7BCEEB5; 0x50C772349C586; 0xFA8C6654583D; 0x385E544F610DF; 0xC27780562C065; 0x4D0E5952E5D7A; 0x22358D60920AE; 0x647D3BCA69083; 0x663401832196F]];
  [[0x2E9B7160E3961; 0xCFDD2754F2C2; 0x737ED6627095B; 0x907EAC442E04; 0x4BFDDFD6D0E23; 0x9C97A7D587EEF; 0x543F2822FAFB5; 0x3FDF6AF5D7A19; 0xFC963721698D; 0x179F21E6577FB];
   [0x25DABF637CE7B; 0xDEF29AADAC3D; 0x1737E91658123; 0x249402C7B4BC4; 0x1F964C1BA2B35; 0x6547130478601; 0x4A763BB9F26E; 0x2DEE0532A3ABA; 0xFB73209B3189; 0x323CB18309CBF]];
  [[0xF430885B15B6B; 0x75D059AEC5A1E; 0x4453A277EFFCE; 0x64F823D9E2950; 0x73827A14B9299; 0x1C133BA90B752; 0x2FE7DB431EADF; 0x7321007818326; 0x71653A5874521; 0x797A5565F102D];
   [0x36CFD54EEA72C; 0x808016DA4E23; 0x3D2134B084DFE; 0x11B5581647A89; 0x52FAD726D60BB; 0xDCFDB5420868A; 0x750548DD329FF; 0x19FE6DA0749CC; 0x5B85FA39A2C1; 0x23AE3BBD89F61]];
  [[0xCA8883C4EF58F; 0x6E759199F54FA; 0x55E8867F4288D; 0x225E439FE7035; 0x40EE9678BC4D1; 0xE0C8FEC05A2E2; 0x586D8C13D487A; 0x8B4A7E530498; 0x1E781B4E18C6D; 0x17D763BE7083C];
   [0xA451105CF54F0; 0x637BF27522C26; 0x6042AB901CB43; 0xF3A157D77CEC; 0x40B5652E5D030; 0x3F395A2C01F02; 0x41B950FC573CA; 0x7DED4FDDEA439; 0x12CAC59609158; 0xEC63DC4F41D8]];
  [[0x27B04D23C68B; 0x525B4F2B59AFC; 0x1473B3791B81E; 0x4234680C59597; 0x49B5B1E7B7404; 0xCA846EE9B6288; 0x2F4D705212A30; 0x435199A6D217F; 0x2C022FF19EE1F; 0x3594F8F0758A9];
   [0x968170931C47A; 0x621AD96C9DEDE; 0x1F40DB9806854; 0x6535786069F3A; 0x2BAAF09744048; 0xCE1A02746C6D1; 0x159007061AA2D; 0x679FCA2D81FCD; 0x418AC9FB46B4D; 0x308BE060423D1]];
  [[0xC4AC87AF9AD9; 0xCDECE641A609; 0x1E12CC58F8FCD; 0x510A219809940; 0x6DA7CEA8384F8; 0xAB5F0694566E0; 0x1CC9EE803A140; 0xF9FBB28BDD1E; 0x7F4EFEB56B1DE; 0x277916C4688BF];
   [0xD23553900C111; 0x2646A893D2545; 0x3F85DED9F79E4; 0x3D6EBC7956C87; 0x42C8421E33668; 0xCE0FCEE92113; 0x62F37FB71D455; 0x2B5C2D8B8E0D9; 0x1F89A7B791F03; 0x26E0534AAFC55]];
  [[0x2995D9382FB5B; 0x7C05714B2BDCD; 0x55EFDFFD811CA; 0xC43B6FA2E22F; 0x3930FE770F72D; 0x82F4073A9EB83; 0x28C90A8534165; 0x20C6D2C543EAE; 0x3F98A8E8F71B7; 0x7B8FB4D43C48C];
   [0xC54F1DA463909; 0x482EC99C805E1; 0x301F27ED477A1; 0x5CA99320599DA; 0x3F84676223EB7; 0x1D5F50BC87AC; 0x6D360C6473C45; 0x78FE24EB5EF6D; 0x3E18E1D8C918F; 0xBAAA9526A788]];
  [[0x3CFAC186FC15D; 0x4079422F8115B; 0x15745819F82E6; 0x3618BCA6799CF; 0x147DCBEB05016; 0x8E01C4060F0AE; 0x6DD9C9ABCADD5; 0x55C9418FA0C56; 0x4ADEDA517CF14; 0xA4AEB8D1A937];
   [0x4727D18C04C1D; 0x459FEB8D4258F; 0x134BF4171D346; 0x686442480B1AF; 0x739A7BBB7AB37; 0xF61BC7DC00473; 0x3746597B948CE; 0x125EAB46F1D2B; 0x33F4805B72AE; 0x584748C0B9409]];
  [[0x92A49D3069003; 0x5840D8AF17ED6; 0x174B6F581B1E5; 0x163189D301971; 0x18D239951ED; 0x9B7C92C641D5C; 0x289C88DD6E0A4; 0xCE7ED79D24F4; 0x7F5A09563A4B9; 0x7A4A25F6B4D5C];
   [0x2966A02D81D0; 0x79C7EA96452D3; 0x7C34AB0AA795A; 0x50A1B57CC0E57; 0x7DE8829195BCB; 0x6242A9B8D0EC5; 0x5DD50FAD307D9; 0x1B700B637CA0B; 0x3455689EBE7C1; 0x2782C47D2932F]]]].
(** lines 9282-12120 *)
Definition lut_512A_32 : list (list (list (list int))) := [
 [[[0x3; 0x0; 0x0; 0x0; 0x0; 0x0; 0x0; 0x0; 0x0; 0x0; 0x0; 0x0; 0x0; 0x0; 0x0; 0x0; 0x0; 0x0; 0x0; 0x0; 0x0; 0x0; 0x0];
   [0x15F2A4; 0x1396A4; 0x44D2C; 0x46BEB7; 0x3F97F0; 0x298028; 0x38E907; 0x5E6A50; 0x1D27AE; 0x27E81B; 0x2C4D7C; 0x490EF8; 0x1CBEFA; 0x20193F; 0x2BC177; 0x4EB3C6; 0x32F0E4; 0xA1CD9; 0xB712A; 0x4C3710; 0xDAB8E; 0x3E87A8; 0x1D40F3]];
  [[0x4B87C3; 0x28D0F9; 0x20B709; 0xA89D0; 0x33EE84; 0x3AEC55; 0xC2241; 0x32F57B; 0x2BAEC9; 0x2696E9; 0x250816; 0x5D2A1E; 0x1F488F; 0x10A475; 0x28A117; 0x302585; 0x2D8AB6; 0x2CFF09; 0x2EDAD2; 0x6A726B; 0x2899FA; 0x2B2712; 0x287FC6];
   [0xD90D6; 0x2FD8A3; 0x3892E6; 0x49F6D8; 0x1BDC46; 0x14C636; 0x2531B7; 0x7AC2FE; 0x2DDD59; 0x33E260; 0x275EFC; 0x75988E; 0x3333F7; 0x20678F; 0xFBFA3; 0x235FE1; 0x20F1D2; 0x373098; 0xC4DDA; 0x606E9E; 0x118DFC; 0x417EC; 0xF2D71]];
  [[0x7F1E5F; 0x1419C8; 0x2CF1D7; 0xE5B8F; 0x25B6A; 0x99E5B; 0x1804DC; 0x2F7572; 0x2A640E; 0xFB103; 0x291840; 0x7FD916; 0x5B8C9; 0x131C59; 0x31C148; 0x2BF81B; 0x139B07; 0x2FF2FF; 0x49C2D; 0x11BB6C; 0x2B0A64; 0x1D12B8; 0x15A2A0];
   [0x6CBC6; 0x27724E; 0x302B5D; 0x1BC2F1; 0x3F55C0; 0x3AA25F; 0x232F00; 0x74A629; 0x37B4E; 0x24E8BE; 0x2A188A; 0x2CB205; 0x3ED36; 0x1C4269; 0x2BD5C1; 0x26AD6C; 0x1235FE; 0x1CF2C0; 0x24E745; 0x68766F; 0x2BE51F; 0x1B57A0; 0x1E35B3]];
  [[0x5256E0; 0x3F836F; 0x373455; 0x75BA3A; 0x2108B7; 0x1C82BE; 0x267DD8; 0x4ECEBF; 0x2F62E6; 0xA8F9E; 0xCDAFA; 0x43A073; 0x313659; 0x154A30; 0x16402E; 0x1175DB; 0xE2798; 0x1F5060; 0x33E5EC; 0x1D0B54; 0x1ADD71; 0x23DAD9; 0x1E1CA5];
   [0x755E5A; 0x183470; 0x23F0D4; 0x313928; 0x2DD729; 0x1D3E91; 0x35AE71; 0x5318A6; 0x2F3EDB; 0x289630; 0x38D891; 0x7CF062; 0x38EE6A; 0x13AFF2; 0x2E68F8; 0x64FAA0; 0x3BF0E8; 0xAA0E7; 0x2840F; 0x3DE33E; 0x22D493; 0x3F570B; 0x2197B3]];
  [[0x3642A2; 0x299DCA; 0x3D77E1; 0x489D30; 0x27522E; 0x240D64; 0x2F9F74; 0x19C938; 0x296297; 0x1E1814; 0x4E1B7; 0x23D69C; 0x3213C; 0x4FF86; 0x1C3786; 0x304EA3; 0x14189F; 0x6EA0F; 0x69315; 0x11E349; 0x397B6C; 0xF3CD; 0x2183EC];
   [0x2E3C8E; 0x250F3A; 0x3F23C0; 0xE6089; 0x1AA647; 0x1449A0; 0x1EE430; 0x6EFFDC; 0x2D388D; 0x19E36B; 0x1D016D; 0x829C5; 0x391C21; 0x271FC6; 0x2F3A60; 0x19B88F; 0x1CF454; 0x2B6D5C; 0x1DAE4B; 0x14A040; 0x2920C3; 0x17BC1F; 0x19D5E3]];
  [[0x135C5B; 0x1DC3CE; 0x4C781; 0x80E30; 0x9851D; 0x350569; 0x2E8442; 0x1051D8; 0x4FD70; 0x134424; 0xF2B29; 0x685F52; 0x2DDECE; 0x8902; 0x2F4764; 0xE5C3D; 0x32A0B9; 0x1A6033; 0x12A3E6; 0x6BF5EC; 0x3D93F8; 0x360B6E; 0x18B3FC];
   [0x4ECF79; 0xB2AA; 0x3FB9C2; 0x78CE6D; 0x1215D4; 0x38E3DD; 0xC3346; 0x4C9060; 0x3D3143; 0x243B10; 0x259423; 0x6A2B73; 0x28505D; 0xAE48C; 0xC6EE; 0x572490; 0x27D956; 0x14406A; 0x33BE99; 0x18C2FA; 0x2F3AF0; 0x1405C5; 0x64B19]];
  [[0x1F2EBD; 0x510C7; 0x19AE41; 0x7CB53E; 0x3AB38E; 0x3266F9; 0x208EB6; 0x6D10F3; 0x1D6C3A; 0x2D7D80; 0xB3C9D; 0x48BDA2; 0x14CC2E; 0x156682; 0xBAEBC; 0x32A9C9; 0x1FD4D5; 0x323040; 0x282E72; 0x3CE90A; 0x7C3A6; 0x4F672; 0x19034A];
   [0x4DEA72; 0x355CF9; 0x2BBD82; 0x4625D7; 0x35A89F; 0x2CE049; 0x1D8906; 0x50C; 0x357091; 0x1D1A1C; 0x1A15E2; 0x2C9AA7; 0x1B1721; 0x3B7772; 0x3075BA; 0x3ACE9C; 0x18B5B9; 0x1483A0; 0x2B8443; 0xD0833; 0x11414E; 0x377005; 0x1FE0BC]];
  [[0x614D45; 0xFACE1; 0x2E03FD; 0x104582; 0x27B6D8; 0x2E45CA; 0x3DC391; 0x278F0; 0x150F86; 0x2EDE47; 0x25399C; 0x4DCCC4; 0x186E7C; 0x987AE; 0x82ECC; 0x7B6EE3; 0x97785; 0x3E0986; 0x1C91ED; 0x61A3C8; 0x291652; 0x89F6C; 0xC0F4E];
   [0x341422; 0x16F7F9; 0x2A2213; 0xCC4C8; 0x2A5108; 0x14C3FF; 0x2A84FF; 0x7C98C9; 0x1C8206; 0x31B7CB; 0x37BB04; 0x3E3334; 0x29AEB3; 0x3E65DA; 0x20EE26; 0x779AF6; 0x288AFE; 0xD4B8D; 0x1DB51B; 0x3BF6A3; 0x381A92; 0x11D531; 0x247F4E]];
  [[0x709AE6; 0x252549; 0x7EE34; 0x5D8045; 0x38367B; 0x35CCF0; 0x5CD45; 0x72DFB7; 0x59B58; 0x2BB6E5; 0x3546BA; 0x1567C4; 0x3C5F98; 0x2503E9; 0x3AB5A8; 0x2858EB; 0x1535BC; 0x2DC366; 0x34ED0D; 0x277DED; 0x16E7E; 0x1A35D9; 0x234EA3];
   [0x3CF55; 0x26EE0D; 0x25529F; 0x31335F; 0x305D60; 0x148F61; 0x343772; 0x4BD619; 0x12E0C0; 0x13EA6E; 0x1A3BC0; 0x69B10D; 0x2CCEED; 0x2B62B5; 0x3456E2; 0x5151D; 0x374FB6; 0xF4CCC; 0x1978D4; 0x3FA7E6; 0x266D24; 0x248D2B; 0x161AD6]];
  [[0x32C9A3; 0x2C7C77; 0xE3F02; 0x3E504E; 0x1351CC; 0x177427; 0x20C8E9; 0x19A4C7; 0xB0C5D; 0x1F549F; 0x3B0C1B; 0x21F5DE; 0x75B2; 0x36927D; 0x185855; 0x4BD125; 0x14BBC7; 0x1C0CC6; 0x22540C; 0x552107; 0x2283DD; 0x6BA78; 0x13823D];
   [0x1F97DE; 0x28B5D5; 0x30F546; 0x1A0B0; 0x10CC6D; 0x1610C3; 0x245BEB; 0x3016D1; 0x1B8316; 0x16BA74; 0x2C99F7; 0x1CC511; 0x17550A; 0x2060A; 0x256CB7; 0x40BF9E; 0x16677B; 0x7D673; 0x182B4F; 0x2E8ADB; 0x1CBED4; 0x2D048B; 0xC037A]];
  [[0x5B2170; 0x2A20E5; 0x3A2CC9; 0x2D459D; 0x1DECC6; 0x31C1FE; 0xCE89C; 0x28CB4A; 0x228929; 0xC455B; 0x288443; 0x19205F; 0x23421A; 0x352E01; 0x1E5137; 0x74C0C9; 0x3A0D7; 0x3A7F32; 0x2BDAAB; 0x38CE1E; 0x991A9; 0x31AAF9; 0x36FF6B];
   [0x6C89E0; 0x256380; 0x1F7866; 0xF7CD3; 0x1E0162; 0x1A7772; 0x474B0; 0x1B3366; 0x24C27D; 0x33397C; 0x2DDFF7; 0x3D06F; 0x3CE689; 0x87AFA; 0x135BED; 0x1E1302; 0x3FD153; 0x3F3F3D; 0x5DB43; 0x6193C9; 0x174036; 0x258D52; 0x46F1F]];
  [[0x49FC14; 0x7614; 0x1F7037; 0x592750; 0x290B61; 0x960A8; 0x194FF1; 0x139CAC; 0x3E0952; 0x270EC5; 0x88B6C; 0x4C78F1; 0x1D53F4; 0x3170C1; 0x1BD840; 0x705662; 0x20DE92; 0x128651; 0x3E0D7F; 0x7F2363; 0x29F44; 0x1B5FCC; 0x12DCB6];
   [0x715C01; 0x3BA447; 0x14B2CF; 0xD0598; 0x21BD5E; 0x3B2771; 0x1C4456; 0xB7702; 0x34AD46; 0x20B4D4; 0x34C10F; 0x211BEE; 0x229380; 0xF7D2E; 0x1DCFEE; 0x667394; 0x181E9B; 0x423C4; 0x1ECE77; 0x170479; 0x32353F; 0x164DF6; 0x16F1DE]];
  [[0x75C5F8; 0x385BF; 0x31DD89; 0x6E52CD; 0x7AB18; 0x1DB7D7; 0x181DB9; 0x3116D9; 0x2F42C8; 0x1008A8; 0x955A8; 0x16157F; 0x366962; 0x374B18; 0x3DA6A4; 0x4DD8AE; 0x303056; 0x814A3; 0x1FD98E; 0x54633B; 0x196306; 0x36BE52; 0x1CFF52];
   [0x6F6BD4; 0x363198; 0x27A4A2; 0x2E0CC3; 0x3815C9; 0x3F3192; 0x37B67C; 0x30F20C; 0x2A1B35; 0x16C2B1; 0x10040B; 0x6D50BA; 0x15627B; 0x236233; 0x2BD95D; 0x68647C; 0x3DB8B8; 0x90EB1; 0x1829ED; 0x3AA621; 0x281854; 0x579E2; 0x27CDA0]];
  [[0x56E4C3; 0xE21FF; 0x24F3B1; 0x2D126D; 0x125D7C; 0x11EF67; 0xBD798; 0x18629; 0x1299FE; 0x16DCCD; 0x1DB60A; 0x2AB062; 0x3E7DDD; 0x2F1BF6; 0xF1421; 0x7DDEFC; 0x22F932; 0x327FBB; 0x1E3684; 0xF04E8; 0x28B9F5; 0xAC17; 0x1B586E];
   [0x29C581; 0x1F0CDD; 0xC57C8; 0x5909C4; 0x3A26ED; 0x32886A; 0x2D003; 0x47BC86; 0x4B488; 0x28EAC9; 0x7E5F; 0x2AFB2F; 0x29FDA2; 0x161194; 0x3E7BC; 0xF8369; 0xE94CC; 0x37E9AD; 0x7994D; 0x620DA2; 0x1C54F1; 0x3054F; 0xF164E]];
  [[0x485A6F; 0x4577D; 0x3E3EB4; 0x6C4E40; 0x32DFF; 0x36D9C3; 0x3133C3; 0x3BD1C9; 0x2755D5; 0x118134; 0x1160F0; 0x59163; 0x3EB8FC; 0x56FC9; 0x28AED8; 0x3179B5; 0x3FBF05; 0x11E59; 0x11744; 0x3470B0; 0x135BDE; 0x158952; 0xE6DB];
   [0x532F1F; 0x3906A8; 0x2A32FC; 0x227E49; 0x58EDF; 0x3D7DB2; 0x23DC29; 0x70553D; 0x4329B; 0x3549B6; 0x3EC868; 0xD7C98; 0x368C50; 0xF57E5; 0x126458; 0x4D62F6; 0x31CEF3; 0x204DE0; 0x72E81; 0x7DA6C8; 0x3D4C1E; 0x3FAAA5; 0x18B7EB]];
  [[0x5B2BEF; 0x2EEA64; 0x35ADEF; 0x37B6A; 0x3D7F26; 0x3F7AE8; 0x16082B; 0x4D0845; 0x3213FD; 0x2B907C; 0x9D773; 0x32EB9F; 0xB9447; 0xFF14B; 0x2CC862; 0xEE902; 0x1A1E93; 0x3B5022; 0x7EC85; 0x773A1A; 0x1E3782; 0x1F2F23; 0x371A25];
   [0x500C90; 0x12947; 0x276B35; 0x55EB4; 0xB22A3; 0x1C3032; 0x34B27D; 0x58FC68; 0x1DB835; 0xE22D; 0x26AF65; 0x5F11AC; 0x2AB077; 0x16A2BF; 0x2DE969; 0x14F0F9; 0x142DA0; 0x197B6C; 0x98CD4; 0x76AB0A; 0x3EDF05; 0x165EF4; 0x2E8B63]]];
 [[[0x43FF72; 0x371016; 0x88C3D; 0x3D3831; 0x29E105; 0x874C9; 0x28AD35; 0x50A745; 0x129E17; 0x6826F; 0x3A7E7; 0x5A9957; 0x3F5A11; 0x1E0D75; 0x132E4A; 0x1CACF1; 0x106741; 0x35B4A8; 0x38B784; 0x7346F0; 0x3DB373; 0x1CED8B; 0x3B3CAB];
   [0x5ACA1; 0x3F976; 0xC0B13; 0x7066AA; 0x37D80F; 0x150B30; 0x22F326; 0x34AEAA; 0x8FECE; 0x38E83F; 0x3A6384; 0x15A868; 0xD1591; 0x111853; 0x7CCDC; 0x88671; 0x325D9; 0x30192A; 0x1A7CA; 0x363760; 0x1F97E8; 0x2C79F3; 0x1B4F8F]];
  [[0x6A80D4; 0x39A871; 0x1DED13; 0x3F5D25; 0x9BD11; 0x15E36E; 0xEE574; 0x6F2527; 0x4BD44; 0x3A9039; 0x158327; 0x7B459; 0x2C3FC0; 0x2902E4; 0x2368B3; 0x54306B; 0x2E6771; 0x25A; 0x359E84; 0x753A6D; 0x1F1043; 0x198B2D; 0x1D7912];
   [0x7E5CCB; 0x738A9; 0x164BE0; 0x1D6B62; 0xEF92E; 0x280CB8; 0x37C2AD; 0x569D4A; 0x279D0C; 0x2F59F7; 0x3DAC74; 0x42978C; 0x10DA80; 0x217A9D; 0x336498; 0x239BFB; 0x367CF4; 0x2665; 0x12FC23; 0x6B55F4; 0x8389E; 0x10C55C; 0x3917A5]];
  [[0xB001B; 0x36253F; 0x364099; 0x403910; 0x2FD274; 0x240152; 0x2222A5; 0x38A33; 0x15B0C3; 0x1BA804; 0xB91C9; 0x1E1D50; 0x2C6A3F; 0x2DA6D; 0x31CDE7; 0x5F8ABA; 0x32F16C; 0x5F59E; 0x27FB7F; 0x3F4395; 0x5567B; 0x37388; 0x31BC7C];
   [0x21EB64; 0xF56D8; 0x63940; 0x7222D6; 0x2072C6; 0x2E61E2; 0x16F379; 0x27EADF; 0x3A6BD2; 0x2F0B3A; 0x2FFAE6; 0x7DBBB0; 0x3399; 0x15CF91; 0x284363; 0x3DC09B; 0x305937; 0x1A75E2; 0x28D44C; 0x52188E; 0x3F5117; 0x2A7B19; 0xF38A9]];
  [[0x68B2E0; 0x17FFC5; 0x27AFC3; 0xA45A1; 0x1227B7; 0x976FE; 0x3CC399; 0x111C12; 0x21CDEC; 0x290FA; 0xE0DC4; 0x4B8791; 0x3123B8; 0x257E85; 0x31095C; 0x9042; 0x2E0671; 0x2EDE50; 0x2522AF; 0x2113DA; 0x2136C8; 0x3A4426; 0x375E38];
   [0x4B72D7; 0x317636; 0x2C6B14; 0x23C200; 0x229CA0; 0x18AB4E; 0x38DE7C; 0x71C6F7; 0x6D850; 0x7F5A9; 0x1ADEAD; 0x171F68; 0x18927F; 0x1A4C5E; 0xDDCC; 0x38263E; 0x3C1F7F; 0x1B3C9A; 0x3488F3; 0x23C421; 0x2F2417; 0x68EDA; 0x73EC6]];
  [[0x740829; 0x3BBE8D; 0x73E98; 0x356FAD; 0x3B7DDB; 0x2DC94B; 0x30C9A3; 0x1B8A3C; 0x23BCCD; 0x3F076; 0x3A8A39; 0x67C926; 0x57C86; 0x27A91E; 0x6BFD0; 0x268025; 0x26C695; 0x30F65C; 0x7A146; 0x1C03BD; 0x1A48A6; 0x327209; 0x331030];
   [0x4BBAF6; 0x14ED13; 0x201E53; 0x19209B; 0x18CD1E; 0xDEF6D; 0x38012; 0x45882E; 0x3736AB; 0x1E713A; 0x2C4DFB; 0x3F0EEF; 0x2CFF2D; 0x3250F5; 0x78ABA; 0x678753; 0x56E90; 0x198BB5; 0x3CE0AD; 0x7FA3C4; 0x393AC2; 0x207404; 0x1C83C6]];
  [[0x6EF83; 0x15F1B3; 0x12AA0F; 0x14518C; 0x2839B7; 0xD1D3A; 0x4C1BA; 0x5F75C2; 0xD10B9; 0x13D894; 0xDB952; 0xB1478; 0xCB9AA; 0x11AD2E; 0x2894C3; 0x11DD4E; 0x303E2; 0x1EEC21; 0x1A194B; 0x5970C2; 0x271263; 0x37CD83; 0xE91B];
   [0x2F7FB; 0x37D3D0; 0x167E4D; 0x2B340E; 0x29810C; 0xF2744; 0x500A9; 0x77B334; 0x33BBF3; 0x35F681; 0x2A089F; 0x5BD0A; 0x34B55C; 0x1C94F6; 0x3E80FE; 0x12E6AD; 0x2E5578; 0xFCD23; 0x3D81BB; 0xE9FC4; 0x2DCA2E; 0x163735; 0x331F02]];
  [[0x6924AC; 0x35ADA0; 0x1100A8; 0x267DEA; 0x271C3D; 0x28011C; 0x33F146; 0x380BD9; 0x1E9B99; 0x38A9B3; 0x23055C; 0x402C40; 0xE057B; 0x2F5047; 0x30ABB8; 0x177283; 0x151E5A; 0x26A491; 0x346A9D; 0x6A2686; 0x10AE09; 0x31479F; 0x3F9361];
   [0x22A729; 0x1A0AB6; 0x3A1834; 0x4ADEAE; 0x25C51B; 0x380B76; 0x109BCA; 0x326C1B; 0x2680D8; 0x3F48F6; 0xDCE07; 0xD0CDC; 0x24513C; 0x1AAF42; 0xF88A1; 0x7680CC; 0x32E52; 0x28B7A; 0x28F444; 0x13B5EA; 0xBE2FE; 0x382F79; 0x26D469]];
  [[0x2EF810; 0x3D7CA9; 0x12A7CA; 0x66ED19; 0x3B6782; 0x1A688B; 0x57236; 0x3AB1DD; 0x2DCA9F; 0x318D65; 0x2C3201; 0x2651F2; 0x2585A; 0x110B33; 0x2FC48F; 0x27FF7F; 0xC314B; 0x306B0F; 0x2BCD62; 0xE5451; 0x372C81; 0x8B694; 0x1640E1];
   [0x5D5544; 0x50CE4; 0x17634F; 0x13A04A; 0x106FDB; 0x1DFA5D; 0x2B04EB; 0x49FF7C; 0x26E744; 0x3D42A5; 0x2B0FD6; 0x76FAC0; 0x3ACF9E; 0xB293A; 0x120F10; 0x56D4D7; 0x3229A1; 0x1C7884; 0x3CE57D; 0x3C86A7; 0x1588C1; 0xD548; 0x11BB4A]];
  [[0x36250B; 0x274CE1; 0x3F5FE8; 0x112AFF; 0x4D6DD; 0x37A903; 0x211DC3; 0x30C9D5; 0x3F5472; 0x198593; 0x93E8; 0x1F8BFF; 0xC9FF; 0x3D63D2; 0x3D23; 0x153CAB; 0x3CA8E7; 0xF7F9C; 0x17381E; 0x3B2121; 0x6A36E; 0x20DF0D; 0x2DCC34];
   [0x1DDE59; 0x100B9E; 0x1387EC; 0x1F5F47; 0x37E7AF; 0x193274; 0x2F43DE; 0x18E845; 0x2C7EEB; 0x31E7AD; 0x3754D; 0x107B6F; 0x6C7A7; 0x2EFA28; 0x230679; 0x3BA29A; 0x3EB83E; 0xE3477; 0x312658; 0x6C10E6; 0x372B67; 0xF6596; 0x380597]];
  [[0x555AFE; 0xC7849; 0x42F9D; 0x7EDFA; 0xC752B; 0x137CA0; 0x2A9FBE; 0x565768; 0x15078; 0x37865E; 0x22585A; 0x5C7329; 0x230050; 0x2EAD2B; 0x1FFAB6; 0x7012D8; 0x118E18; 0x31CBE8; 0x34B659; 0xC9258; 0x123325; 0x1F45F2; 0x2B0B5E];
   [0x63E131; 0x2CEABB; 0x3CF06; 0x5C2801; 0x14448A; 0x1F4570; 0x1DE032; 0x7965E9; 0x1C2619; 0x1A84C4; 0x3CA51E; 0x5F8927; 0x1ED00E; 0x18ABCE; 0x282492; 0x2A4526; 0x1D6653; 0xD9615; 0x11E6F0; 0x671D54; 0x340830; 0x1EF0D7; 0x2FBB7B]];
  [[0x348880; 0x32B440; 0x3867FD; 0x41325C; 0xCDBC2; 0x65444; 0x28F475; 0x1DA4B4; 0x109841; 0x3B0866; 0x1E6A77; 0x5D249E; 0x39C59B; 0x3A6F13; 0x38A7E4; 0x5AE286; 0x2F9473; 0x23261; 0x3A0DB2; 0x1E7F01; 0x36BF40; 0xE2AEC; 0xC8DE1];
   [0x53791C; 0x25ADBE; 0x1DF305; 0x5CB9A7; 0x2A8658; 0x101F47; 0x329A71; 0x6E7F78; 0x3CB686; 0x2818C0; 0x13DEA8; 0x1AD5E; 0x2F79EF; 0x2D66C0; 0x1DABD2; 0x602B71; 0x2903C7; 0x385466; 0x1CDB64; 0x75CE9A; 0x2430BD; 0x176946; 0xE2BC5]];
  [[0x7C9263; 0x2D6DC4; 0x3D3ACD; 0x3EBF76; 0x3E1EFB; 0x2E4716; 0xF0DD6; 0x3B4748; 0x73A35; 0x3EB153; 0x3DBAE5; 0x91752; 0x152A69; 0x3A6B6D; 0x190CE0; 0xC4F96; 0x2AEE5B; 0x2D6E94; 0x298B92; 0x2FC509; 0xEA268; 0x701E4; 0x3CBD22];
   [0x68BB5F; 0x3E426A; 0xABA98; 0x63696E; 0xCA3AE; 0x30D3D9; 0xE9E5C; 0x46B796; 0x98D02; 0x1C097A; 0x322587; 0x4192A0; 0x117CF5; 0x19B330; 0x1C614E; 0x7DC495; 0x10F1B4; 0x303802; 0x39F211; 0x330A82; 0x2DD8DA; 0x2D36F2; 0x17BC2]];
  [[0x49325F; 0x3DB33B; 0x29EBF5; 0x1C7997; 0x33F6E9; 0x30C1AD; 0x361DDF; 0x34088E; 0x2A26DB; 0x50A8F; 0x2D5CB6; 0x2B3ACD; 0x2F102C; 0x1D8F3E; 0x36E06F; 0x5F6B74; 0x3DC5F; 0x3135D7; 0x38E39F; 0x7B5A1E; 0x355D0; 0x16256E; 0x91FAA];
   [0x4EEA23; 0x2F50B1; 0x1CBFB6; 0x77CA4A; 0x2E434E; 0x3F8B6D; 0x33265D; 0x6DC04A; 0x17B7FE; 0x156470; 0x1C0AB3; 0x2B82A3; 0x25ED15; 0x345415; 0x6AE3; 0x6A18D6; 0x651B4; 0x324AF0; 0x19FD45; 0x756504; 0xD0EB8; 0x1080DF; 0x117135]];
  [[0x2201B; 0x2573D3; 0x2B796D; 0xF77C6; 0x1FA05B; 0x4EA6D; 0x3790D1; 0x4517CB; 0x3D97B6; 0x15B191; 0x311E57; 0x37CE58; 0x151409; 0xD6BCF; 0xC5CA5; 0x63737A; 0x299B77; 0xC37E1; 0xF27AA; 0x57C9C2; 0x30EDD0; 0x3C12B9; 0x3AE308];
   [0x154AEB; 0x8F6CC; 0x1668D8; 0x4663DD; 0xD8D93; 0x1CE5F0; 0x21BF83; 0x6BAE95; 0x2855B3; 0x335B55; 0x1408AA; 0x4E3E5; 0x28E855; 0x14E502; 0x8E67D; 0x6EDAAA; 0x1D9F0F; 0x9DC94; 0x3A18E2; 0x7FA8E; 0x3E00BB; 0x2A56FF; 0x38554]];
  [[0x7A0037; 0x3D491D; 0x3C391C; 0x6294C3; 0x303F10; 0x26A8E1; 0x28D44A; 0x4CD241; 0x1AC12E; 0x32802C; 0x17518C; 0x4B7FF7; 0x184785; 0xC137F; 0x20C5E6; 0x2E88CB; 0x109C0D; 0x3AF23C; 0x37A943; 0x209953; 0x15B4E0; 0x69845; 0x93EA8];
   [0x4A991; 0x3F0551; 0xD6C31; 0x6F47D6; 0x7E9B; 0x27E38C; 0x33BB37; 0x13496D; 0x1A3F2A; 0x14FCBA; 0x2722F6; 0x5676F1; 0x213E52; 0x3DF1C7; 0x228B30; 0x6856C0; 0x22A73D; 0xB650; 0xEABEB; 0x714726; 0x128875; 0xEB41C; 0x18CA4B]];
  [[0x7BD9EC; 0x1763E0; 0x3A0DDC; 0x731C43; 0x293989; 0x347EFA; 0x115B21; 0x3B45B4; 0xDA37F; 0x2C87D5; 0x1C53C2; 0x7822F8; 0x8496E; 0x3D3CB7; 0x8A383; 0x735A84; 0x876BD; 0x141FF0; 0x3567B3; 0x785465; 0x30D346; 0x32C983; 0x16542B];
   [0x175998; 0x105962; 0x27690D; 0x53CEA1; 0x27FE4A; 0x377CE; 0x29F12; 0x791342; 0x1CD5D3; 0x24804D; 0x318CBD; 0xAC20C; 0x2261A2; 0x17C07; 0x6AED6; 0x1AE5E; 0x230EA0; 0x390D91; 0x9C7FB; 0x2F102A; 0x291350; 0x3DA578; 0x13E6DE]]];
 [[[0x5C8DD6; 0x2A3738; 0x365D8C; 0x63DB9C; 0x113081; 0x2F34E7; 0x3E646D; 0x19B42D; 0x6CC4B; 0x37967A; 0x37B63A; 0x346973; 0x175BB7; 0x1BAEA5; 0x2D90D6; 0x235EC5; 0x22B7D3; 0x6C0A7; 0xD9373; 0x3362B4; 0x167362; 0x228FA8; 0x2DC7CC];
   [0x772F9B; 0x383B30; 0x1FE31B; 0x39283D; 0x30E99D; 0x19398C; 0xE05D7; 0x1CB0B3; 0x31A3E1; 0x335E57; 0x3D185F; 0x4F30A8; 0x2CC2DA; 0x3CB4EE; 0xD7F61; 0x6B8EDA; 0x20C99D; 0x342D58; 0x3BCF21; 0x43EE8; 0x3937C7; 0x2B2687; 0x3099B7]];
  [[0x6F3863; 0x216888; 0x117F80; 0x3AECB0; 0x3CB3C3; 0x9172C; 0x351EE1; 0xAD459; 0x342449; 0xA95A1; 0x362F69; 0x44683C; 0x12100A; 0x38C6; 0x3DA8C; 0x4920F7; 0x1F5E72; 0x3F8B01; 0x1B2E28; 0x7828AE; 0x3B1AA3; 0x2304AF; 0x2983E5];
   [0x59F3AD; 0x5EBDB; 0x38F715; 0x7427DF; 0x35EE7F; 0x1A4B0D; 0x14E6C7; 0x699A32; 0x15674; 0x3DC67D; 0x1CDA8; 0x3C45B2; 0x1BE065; 0xC2772; 0x2184E2; 0x5C0469; 0x24F0B3; 0x2374A4; 0x31DE85; 0x6B53DE; 0xF651C; 0x3071EB; 0x29A433]];
  [[0x30A82F; 0xEF962; 0x227761; 0x6D7F9E; 0x81BE; 0xFEE69; 0x752C8; 0x748DEE; 0x387116; 0x287C41; 0x27434; 0x664A85; 0x1D3DE1; 0x3D565F; 0x3B7ED9; 0x65C3BB; 0x23180A; 0xE41D1; 0x1016CD; 0x65F0C5; 0x17A834; 0xA4AB; 0x1FC477];
   [0x4855D4; 0x1D815B; 0x366682; 0x4FEE42; 0x1DD612; 0x25BA93; 0xE1804; 0x7B46D; 0x79E19; 0x263779; 0x1FDFA2; 0x78741F; 0x37B69E; 0x18E0A2; 0x37F5D9; 0xC71E4; 0x1F6109; 0x2A965; 0x358A62; 0x790CBB; 0x1FC664; 0x27F06; 0x26A40A]];
  [[0x60807F; 0x3DF3AE; 0xBE26F; 0x5110E1; 0x3B1A48; 0x326EEB; 0x1E337A; 0x30A675; 0x3F5F8B; 0xCD0BA; 0x2297FB; 0x379BD; 0x15C430; 0x3FE28A; 0x280CE2; 0x10A09A; 0xBB43D; 0x3BF3E8; 0xD2A25; 0x553C3D; 0x3A4814; 0x23D406; 0x130434];
   [0x12725; 0x34675; 0x30625E; 0x68204C; 0x7FF0; 0x353D6; 0x374D41; 0x2B0AEC; 0x2D4C90; 0x23B516; 0x3D5FE1; 0x1BF1AF; 0x26188F; 0x277E9; 0x9EDC0; 0x419F60; 0x3B901E; 0x36C9A; 0x1C2868; 0x39BD67; 0x1E1FAC; 0x18E5C8; 0xD5B85]];
  [[0xB4E46; 0x1C91BB; 0xE149E; 0xCF26B; 0x239A61; 0x1413C1; 0x39D982; 0x31DC48; 0xCB5E3; 0x177633; 0x3594BF; 0x220B88; 0x3EE0E1; 0x1C29C; 0x332288; 0x1AC903; 0x2EA788; 0x2CF324; 0xA068A; 0x192C4F; 0x3620B1; 0x3A15B7; 0x1846FF];
   [0x37EA0F; 0xE365F; 0xAB7DB; 0x73FC69; 0x30E576; 0x1F51C5; 0x3E4C0F; 0x7734A2; 0xB6D61; 0x7F20A; 0x16676C; 0x742AB; 0x24CACD; 0x263F7C; 0x1FBB60; 0x5126DE; 0x1B0843; 0x27E640; 0x2B6416; 0xE461C; 0x35712F; 0x21FD4; 0x3DFB53]];
  [[0x78AFC0; 0x344524; 0x32570; 0x5274D4; 0x1BE8C7; 0xF7FC; 0x3A3CD2; 0x224B02; 0x3CB849; 0x318F23; 0xB31C5; 0x172883; 0xE290F; 0x58FCA; 0x29D5B9; 0xEE887; 0x8C23A; 0xB4641; 0x19F308; 0x368406; 0x3235C5; 0xF6048; 0x334FC7];
   [0x721229; 0x28E47C; 0x6F2DC; 0x6E7CFF; 0x184C72; 0x3AF41E; 0xEC9A0; 0x8E682; 0x294028; 0x10CBE0; 0x325E8D; 0x229C6E; 0x7AE13; 0x12B92A; 0x1A6F8B; 0x445E9E; 0x38E62B; 0xCCE4E; 0x16D227; 0x5AEC2B; 0x2CB9C3; 0xE9EE2; 0x151064]];
  [[0x219F11; 0xEEE99; 0xF0E81; 0x14202D; 0x17D47D; 0x13E996; 0x1FC4D3; 0x7153BF; 0x3B0646; 0x3CCDA8; 0x2DB80C; 0x5A6567; 0x301938; 0xB2A1D; 0x2C1CD4; 0x36D153; 0x2DE7; 0x1C0718; 0x1398D4; 0x1C18B0; 0x531C6; 0x270891; 0x1D12C0];
   [0x6BF552; 0x379C8C; 0x124703; 0x1685D6; 0xB4D76; 0x354333; 0x3FD16E; 0x78F567; 0x228610; 0x2410D3; 0x37EE2A; 0x2FF2A5; 0x1EA65B; 0x3FE56C; 0x86D94; 0x16F8D9; 0x253D0C; 0x110729; 0x251056; 0x771AF9; 0x330BB2; 0x30D723; 0x10B52C]];
  [[0x59EEDD; 0x224DDB; 0x224843; 0x62307; 0x1C385D; 0x214646; 0x2E9EF9; 0x69FC2; 0x34E86C; 0x2DE7F8; 0x11547F; 0x592112; 0x3BA86D; 0x3E5946; 0x1999D6; 0x19972E; 0xBEC90; 0x1A2575; 0xC3FB3; 0x16B2B8; 0xF91C3; 0x3BE22B; 0x259437];
   [0x511BD4; 0x114679; 0x3320B0; 0x6912DE; 0x209607; 0x10EA82; 0x1756FD; 0x67C9A7; 0x386F00; 0x19C5A2; 0xC1F54; 0x60CBC7; 0x1DA7B9; 0x63F18; 0x3D8253; 0x6757E9; 0x1F28E4; 0x3F4512; 0x15BA1B; 0x296BBE; 0x1E7448; 0x27173C; 0x385C41]];
  [[0x1A30EE; 0x3F8DAD; 0xA157B; 0x2E76B6; 0x3B33B; 0x67B4F; 0x338572; 0x4A7886; 0xAF814; 0x231F5B; 0x3A7866; 0x1BC9D8; 0x2EC718; 0xF7210; 0x38A200; 0x24BD8B; 0x25403D; 0x2338A0; 0x197FC8; 0x7EFFC4; 0x2C8ED2; 0x2F359C; 0x7199C];
   [0x3AA840; 0x1FEBA5; 0x204035; 0x1437DE; 0x30877E; 0x1DC9D8; 0x22F529; 0x4AA308; 0x8CF16; 0x227F26; 0x30EA93; 0x444D20; 0xFC049; 0x25FECC; 0x366A3B; 0x75F2C6; 0x2D58DE; 0x37A47; 0x1143E7; 0x66F889; 0x1AA585; 0x8637C; 0x285D24]];
  [[0x1684FD; 0x26202E; 0x229298; 0x38BA17; 0x1143E4; 0x4C67B; 0x9A1D3; 0x359003; 0xCF20; 0x3C8E67; 0x25DDF6; 0x167020; 0xC3320; 0x32FD4F; 0x1D4DDD; 0x2ABE07; 0x15D694; 0x2025E4; 0x24B490; 0x237C45; 0xF2232; 0x172623; 0x3F2420];
   [0x31C43A; 0x2504F9; 0x2A5346; 0x85709; 0x181464; 0x16AE98; 0x5937D; 0x7E227E; 0x21E344; 0x2D37F2; 0x3BABA8; 0x76BA1E; 0x1E9354; 0x1FB1CD; 0x2FA365; 0x37F2A0; 0x150FF4; 0x1D5DC; 0x3D537E; 0x3F0F28; 0x2C7BEA; 0x3C8613; 0x32181B]];
  [[0x4FDBFF; 0x279110; 0x14218E; 0x6FF570; 0xBEE6D; 0x1AC4BF; 0x168284; 0x204FD9; 0x9E49A; 0x375F6C; 0x188591; 0x711953; 0x3F4432; 0x196529; 0x394538; 0x18F2F6; 0x2CA7B0; 0x13757; 0x1F2763; 0x1F675A; 0x2051A1; 0x3E27EB; 0x1862D5];
   [0x762CA4; 0x8C476; 0x324E43; 0x2A5BED; 0x2FCB16; 0x3A2EC2; 0xDAC89; 0x1B1EA8; 0x270A0C; 0xF92C4; 0x137059; 0x2C67B; 0x1DE35A; 0x3AEB0; 0x32086D; 0x622727; 0x3663F6; 0x143F44; 0x7E1A6; 0x52B971; 0x2A4520; 0x3B35C1; 0xE5F13]];
  [[0x377631; 0x160066; 0x3F8625; 0x8A975; 0x11C7DC; 0x2AC5AE; 0x1D6AD4; 0x457D6D; 0xD9162; 0x29BE2C; 0x23E49C; 0x3CE982; 0x29BD3F; 0x2FA98A; 0xAAF8F; 0x51BA4C; 0xAAA3A; 0x35AC4; 0x326C9D; 0x1BBF9; 0x259EE8; 0x363291; 0x354D7C];
   [0x4BACF; 0x21298; 0xBD9F4; 0x43D1FD; 0x144099; 0x31DC66; 0x38FF58; 0x1EDFDE; 0xCDE37; 0x11D4F2; 0x1830F3; 0x66B396; 0x2B5740; 0xFE1B; 0x18CA75; 0x543A1; 0x1F8BB; 0x3AD189; 0x2324CF; 0x4D2C11; 0x2F4CEB; 0x158CE7; 0xCC8E6]];
  [[0x1F545; 0xBAFC9; 0x256984; 0x5BA1BD; 0x186CC4; 0x354258; 0x2C995A; 0x634432; 0x1C8DFD; 0x6A9F8; 0x3413FA; 0x407583; 0x364359; 0x360343; 0x4E81D; 0x23B9E2; 0x44AAC; 0x3E4F02; 0x253E4; 0x4E1D95; 0x8B230; 0x45AB3; 0x36815];
   [0x3912F5; 0x38574B; 0x4AD86; 0x463316; 0x37D8; 0x1023FC; 0x31DE0; 0x7EC789; 0x81EF; 0x2ABA70; 0x355BFB; 0x306CB6; 0x146C52; 0xD5AD0; 0x3681F1; 0x63A37A; 0x1B646E; 0xA931F; 0x23DD86; 0x6F9AFA; 0x8A0BB; 0x11BD6F; 0x169519]];
  [[0x183D98; 0x3953F2; 0x3F5C; 0x1D61CC; 0x29E894; 0x8FD62; 0x124F02; 0x5D5510; 0x2CBB48; 0x27C8EC; 0x2DA8A4; 0x506092; 0xD2ECA; 0x80CB3; 0x370B1F; 0x264230; 0x254B5D; 0x30D35B; 0x237E95; 0x3D3219; 0xF1EE0; 0x16F356; 0x433B4];
   [0x2EDDFD; 0x28836F; 0x4B480; 0x268786; 0x2F536C; 0x2AF788; 0x3B32BC; 0x3B16D5; 0x2C983E; 0x9C26; 0x267D08; 0x20E60C; 0xECF45; 0x278142; 0x1746F3; 0x54A790; 0x35C6AA; 0x272DAC; 0x2BA52D; 0x38B5A4; 0x3725B3; 0x3565DC; 0x1FF559]];
  [[0x65D9D6; 0x344FC2; 0x870B; 0x699985; 0x2A5C08; 0x2D5249; 0x2CB5FE; 0x7C94CD; 0x1208B8; 0x34BB9; 0xF21F9; 0x10B487; 0x1D773A; 0x37E3B0; 0x2176D0; 0x52166E; 0x2F70E0; 0x1BED82; 0x286120; 0x7331ED; 0x1507E2; 0x3FD862; 0xA5BC5];
   [0x763783; 0x11EC7B; 0x6ECDB; 0x596D37; 0x2D6D59; 0x1FB1F1; 0x10DD1F; 0x3F277E; 0x91B7A; 0x3FFE47; 0x3D49D; 0x71AF1E; 0x173FA2; 0x1B76EC; 0x1D5248; 0x59BE83; 0x3F4D6A; 0x1CE0D3; 0x3FDBAF; 0x554CAA; 0x2FAF76; 0x4DD7D; 0x25BFE6]];
  [[0x78E507; 0x3B0516; 0x239513; 0x26B945; 0x2F7EA4; 0x258DAA; 0x2CA54E; 0x38F70D; 0xEA33; 0x2CC019; 0x322C57; 0x7E5F7D; 0x1BD5E1; 0x2300D9; 0xA82FB; 0x7B959B; 0x200D1E; 0x1F252C; 0x21984A; 0x15C036; 0x16A72F; 0x3E13; 0x15AA73];
   [0x7C9D6A; 0x3E1441; 0x11A00F; 0x79A490; 0x12D007; 0x3C8625; 0x1E5649; 0x4491D7; 0x76136; 0x3E7528; 0x353C0B; 0x8E4BD; 0x3422E8; 0x338BFD; 0x27F2D6; 0x772362; 0x359B33; 0x3A501D; 0x154AFF; 0x49526D; 0x2761DE; 0x309735; 0x60B95]]];
 [[[0x523B9F; 0x1A6BE6; 0x36EDD; 0x76AA2F; 0x3FD0E2; 0x385A57; 0x98667; 0x13DD67; 0x12B434; 0x973; 0x3CF995; 0x45926B; 0x2CF3D; 0x1B1027; 0x3876F6; 0x39998A; 0x398D3B; 0x598D3; 0x9E59F; 0x3DA91C; 0x27F8FE; 0x1992EF; 0x1BD1E4];
   [0x5E09D8; 0x27291C; 0x42E2C; 0x5186A7; 0x151430; 0x2A705A; 0x312685; 0x1C5CD7; 0x2BC485; 0x6B1B4; 0x3ED133; 0x6BA1BB; 0x12B561; 0x1C6829; 0x38F88D; 0xFAFDF; 0x3A8F9C; 0x3B8278; 0x75330; 0x723D70; 0x13971C; 0x2A3A0; 0x32D46E]];
  [[0x4A84E3; 0xF993B; 0x38E50F; 0x6F9D6C; 0x222DDA; 0x201C17; 0x3D690B; 0x685E56; 0x3AE821; 0x160832; 0x267374; 0x14A440; 0x286466; 0x37B81C; 0x34FB56; 0xA60A9; 0x361F71; 0x2768E5; 0x2D9ADF; 0x351ED3; 0x26B155; 0x2ACF8B; 0xCAB49];
   [0x2E7818; 0x50DDB; 0x2F8281; 0x426DB; 0x3BF6C0; 0x2F18B3; 0xFDF15; 0x4326C8; 0x34A233; 0x3F8BB5; 0x252744; 0x5D0622; 0x600E0; 0xC538E; 0x2B9B96; 0x240977; 0x266E45; 0xED85F; 0x16D56E; 0x5934A8; 0xDE008; 0xB7A70; 0x333A6E]];
  [[0x62AA91; 0x4AD0D; 0x290514; 0x35EF4E; 0x3F0059; 0x36F603; 0x1E8A95; 0x4E5E21; 0x3AAAD3; 0x1864B4; 0x314695; 0x61F315; 0x3E5320; 0xA6A70; 0x312DDA; 0xCA432; 0x89AF4; 0x27EE81; 0x3314B2; 0x569617; 0x369C83; 0x333762; 0x4C25B];
   [0x29163B; 0x10F6C4; 0x3CFA87; 0x413607; 0x4D631; 0x29CC9A; 0x9B191; 0x12E650; 0x7576E; 0x2FAEF9; 0x1E71A7; 0x6D93A4; 0x110BDB; 0x3C8A96; 0xAB70A; 0x161FF3; 0x309EAC; 0x887FB; 0x199FC7; 0x7B0C04; 0x30951; 0x138445; 0x2C19E3]];
  [[0x1D9920; 0x35A7F8; 0x26F037; 0x352EE6; 0x36FF52; 0xDA4B7; 0xD5800; 0x12D75B; 0x1E4378; 0x6FB97; 0x3489D8; 0x7291B9; 0x2611FF; 0x29220F; 0x3180AF; 0x3B64F1; 0x29D493; 0x29061E; 0x287F20; 0xA8410; 0x3B766F; 0x194E12; 0x1C9672];
   [0x2BEBD9; 0x34C959; 0x372BCE; 0x77E3FE; 0x2A76EF; 0x3B1215; 0x17D01E; 0x1F6D6E; 0x1AF581; 0x2135B9; 0x23AE9B; 0x643EE2; 0x309B0B; 0x149E24; 0x2B829C; 0x14D460; 0x35AAB8; 0x1D64A4; 0x3C4123; 0x5FD0BE; 0x2680CE; 0x32FC91; 0xD5EFA]];
  [[0x42107B; 0x2D79CB; 0xE25C7; 0x15D835; 0x25EACC; 0x38E784; 0x133C3A; 0x9780F; 0x7A2B3; 0x3A0803; 0x381D55; 0x282268; 0x20B921; 0x37F7AC; 0x13B76D; 0x3CE92F; 0x25ECD4; 0x30B106; 0x1D9F81; 0x6798C4; 0xCF158; 0x3CAF9C; 0x3824DB];
   [0x7F6848; 0x34A534; 0x1B343; 0x6BF10C; 0x8FCF1; 0x25F0; 0x105280; 0x58FEE9; 0x6B688; 0x1BEC79; 0x3D6BC7; 0x1DBC3E; 0x298412; 0x2CAF5F; 0x3C0536; 0x6D0ED6; 0x2790F7; 0x16B380; 0xEA2CC; 0x7F2385; 0x1FC33E; 0x1295D; 0x2EC02F]];
  [[0x1F7939; 0x2AC3E2; 0x1660F9; 0x663A40; 0x1A8A13; 0x23C8EF; 0x3AB7B7; 0x39E16F; 0x1FA47B; 0x25AB8D; 0x384015; 0x3CE1A6; 0x5F145; 0xC1E4B; 0x1A72DB; 0x203492; 0x3DE59E; 0x10CD81; 0x2D2FAE; 0x21F48A; 0x1C1285; 0x2EC41B; 0x1E8B07];
   [0x18D1F3; 0x2EC53A; 0x190D62; 0x18FCFD; 0xA3EE7; 0x39D235; 0x217FF2; 0x142817; 0x2FB4F7; 0x1BB01D; 0xBF067; 0x52C1A1; 0x1029DF; 0x3B77AC; 0x1C5446; 0xA8528; 0x76849; 0x24957C; 0x255F16; 0x464713; 0x14A68E; 0x2A0E25; 0x27874C]];
  [[0x165C60; 0xF1947; 0x358DAC; 0x3112AB; 0x3CED7D; 0x7D95D; 0x1BFB25; 0x38039B; 0x2C49B9; 0x226B1D; 0x307B50; 0x2A8A6B; 0x3A8D6F; 0x2D72F9; 0x2F321D; 0x530076; 0x2D8361; 0x2D2B58; 0x32030C; 0x32F5E5; 0x164CE3; 0x26D5D1; 0x20444C];
   [0x2ABBE4; 0x3519D8; 0x151482; 0x773260; 0x34B1AD; 0x250B9E; 0x302049; 0x385164; 0x3E74F7; 0x23B51F; 0x1A3158; 0x527F9C; 0x3CABD3; 0x2F9178; 0x6BAE5; 0x600F3B; 0x2DF1B8; 0xD590F; 0x194149; 0x5DE8B8; 0x2325D5; 0x3EDBFF; 0xAAFE1]];
  [[0x1A50FC; 0x280217; 0x3A5F1B; 0x412D41; 0x285345; 0x2DBBAD; 0xFF377; 0x59899D; 0x29B472; 0x72A4A; 0x28DC22; 0x1611B6; 0x3C3760; 0x1466B; 0x3D8FA9; 0x573081; 0x13FB11; 0x203758; 0x2E6367; 0x482CF9; 0x3178F6; 0x1073E8; 0x1997C3];
   [0x73FDFD; 0x2EFF90; 0x14EBAD; 0xF3618; 0x162A1A; 0x270E47; 0x10A3E7; 0x345497; 0x2C126D; 0x36F8A6; 0x166505; 0x5C77A; 0x197ED6; 0x192ECC; 0x233375; 0x3E0030; 0xD5706; 0x9709A; 0x3D8884; 0x244795; 0xB3F0C; 0x2420C0; 0x286796]];
  [[0xCAAE5; 0x94457; 0x152528; 0x1E3DB2; 0x5EC25; 0xBF941; 0x2A007F; 0x504FD8; 0x3ED863; 0x3A902A; 0x14F2EA; 0x15DB81; 0x280472; 0x3D790F; 0x349779; 0x6EB09F; 0x209701; 0x377E4F; 0x2E600B; 0x152371; 0xBA435; 0x1FEF62; 0x27E7F6];
   [0x599CB9; 0x1549AA; 0x13AF70; 0x234B56; 0x248CC3; 0x32259C; 0x203D97; 0x6AA891; 0x5CEFE; 0x199005; 0x1990D3; 0x334DF5; 0x1B0BB0; 0x11DD6C; 0x38F1E0; 0x4EE490; 0x3C3321; 0x1F139B; 0x6C59B; 0x195C36; 0x13ED7; 0x20142; 0x34FF5C]];
  [[0x2C93FF; 0x319F9; 0x2CB9; 0x2D18F3; 0x1DCA23; 0xC5093; 0x1EFF04; 0x75CFF0; 0x64EA8; 0x4571C; 0x19B187; 0x53F3E7; 0x2BFCD9; 0x100147; 0x381877; 0x32E5D6; 0x2EC006; 0x238ED2; 0x32C67B; 0x1663; 0x3C176A; 0x14E21C; 0x399D5E];
   [0x4E0B57; 0x1C2F95; 0x363DC0; 0x9DC71; 0x151A34; 0x3159C5; 0x201355; 0x455C7C; 0x70906; 0x2195FD; 0x1CE30A; 0x73CADB; 0x5C318; 0x37022; 0x53E6C; 0x78D811; 0x2D5455; 0xB37E3; 0x3A1081; 0x5948E6; 0x32F5E3; 0x3F1006; 0x29C6C7]];
  [[0x6A53F5; 0x234585; 0x3B1248; 0x31E22D; 0x14C277; 0x1E4E41; 0xC1028; 0x4CFB54; 0xEA3E8; 0x91AA9; 0x26A9C7; 0x3266E7; 0x2E72A8; 0x2340FE; 0x306573; 0x6B9E9A; 0x35D59F; 0x1DB09E; 0x5F131; 0x2A91F; 0x3D10FA; 0x2D44C4; 0x1A9029];
   [0x4DC2D6; 0x485AA; 0x357F02; 0x109ABD; 0x277446; 0x2B2567; 0x3C69A7; 0x31AA5D; 0x308E0D; 0xCDB91; 0x1A3AB7; 0x43A830; 0x2FC1D1; 0x1FA04C; 0x2B3C22; 0x400E6C; 0x88655; 0xD2E38; 0x2BEDE7; 0x41F67A; 0x2EB40A; 0x263E54; 0x736A8]];
  [[0x524DB7; 0x329BD6; 0x2BC43F; 0x407E56; 0x6BA61; 0x1A5FC7; 0xFC681; 0x1A5E17; 0x2AD8E2; 0x3C1B1E; 0x3028BA; 0x2CE10A; 0x13F30E; 0x1966B5; 0x1C1DF1; 0x540907; 0x29361C; 0xE7B5C; 0x303DDE; 0x59FB60; 0x151554; 0x2838BD; 0x3D9CFA];
   [0x2063F9; 0x2731CA; 0x2003F0; 0x79F9F9; 0x347AC8; 0x21973A; 0x1280CE; 0x323A60; 0x98D3C; 0x306D49; 0x109EC; 0x511419; 0x10C7B4; 0x1D2E21; 0x3991C3; 0x3C5990; 0x1DB860; 0x14EC41; 0x88BAC; 0x448C44; 0x84966; 0x31E904; 0x524F2]];
  [[0x49E3D3; 0x181A3B; 0x11AA50; 0x7021E5; 0x316EC7; 0x29A769; 0x3F4C5A; 0x6AA0ED; 0x3E7379; 0x150459; 0x35CBC7; 0x5DEBB1; 0x53C63; 0xAA5E3; 0x13545F; 0x19A93; 0x29934B; 0xA94D0; 0x260B29; 0x298F53; 0x377D15; 0x29F246; 0x2F33B2];
   [0x66FE62; 0x1037AD; 0x370077; 0x421175; 0x1E861C; 0x33773; 0x2BFEA4; 0x380F; 0x1544C; 0x272751; 0x3FB134; 0x39C926; 0x2CAB64; 0x26F1D5; 0x273824; 0x4BDF14; 0x1E4097; 0x281D77; 0x273464; 0x5EB84; 0x2942CD; 0x3938B5; 0x333CCF]];
  [[0xB8466; 0x335B47; 0x1C7C5F; 0x130B87; 0x2C697; 0x11F099; 0x1909FC; 0x7C440B; 0x6E6CD; 0x3604F5; 0xA3664; 0xE9448; 0x375564; 0x100ABB; 0xA2BD1; 0x610611; 0xB0919; 0x192DA1; 0xCA6A0; 0x22EC21; 0x10021B; 0x14AC0F; 0x3C3561];
   [0x1DE844; 0x339F0; 0x338277; 0x39E865; 0xC918F; 0x1B9202; 0x39DB51; 0x35E972; 0x269806; 0x1A4703; 0x128E3F; 0x59736B; 0x9133A; 0x988FA; 0x3F5D17; 0x75D549; 0x35AF8B; 0xEBF87; 0x2B5241; 0x1A47E1; 0x3FAD0B; 0x3F031A; 0x856D]];
  [[0x7BA242; 0x3F139F; 0x11DEFD; 0x23DE43; 0x295AA0; 0x3AB6CE; 0x492A; 0x38F1C; 0x1F3BEB; 0xDEADE; 0x3039CC; 0x546C46; 0xF8C59; 0x364F5D; 0x278A38; 0x3D22C; 0xFDC4B; 0x1BEAF; 0x25B08; 0x8F72C; 0x27C5E7; 0x252A05; 0x107A50];
   [0xEBA8F; 0x27A1D4; 0x3EF3A3; 0x7BCF49; 0x3D3105; 0x23E6FD; 0x359B97; 0x28F42A; 0x3E23D6; 0x178851; 0x37642F; 0x42E04B; 0x376AFD; 0x198F42; 0x2F89CF; 0xE495C; 0x2116C6; 0x369883; 0x5445E; 0x28D909; 0x1123BE; 0x395238; 0xBDBC0]];
  [[0x79A5E7; 0x1C3E7B; 0x184F53; 0x3BBC86; 0x10D687; 0x38850; 0x38E20E; 0x3E53AE; 0x4A94C; 0x2AEB4D; 0x3AEB1A; 0x448BCC; 0x4DB71; 0x3778D; 0x3944F0; 0xCC500; 0x8E46; 0xF5C40; 0x110507; 0x1F1E48; 0x3628D5; 0x52A96; 0x3B94D2];
   [0x4ABCF; 0xA3BC2; 0x1C80A; 0x7BDA93; 0xECD4F; 0x3F215D; 0xEBBE2; 0x5395FC; 0x74168; 0x22A24A; 0x1A1B35; 0x77FFE0; 0x3C9950; 0x28A73C; 0x1AC592; 0x23CB0D; 0x3F12D3; 0x30ED1B; 0x2E878C; 0x3BA03C; 0x3CDBA8; 0x21E634; 0xF8610]]];
 [[[0x374EA0; 0x3D49A3; 0x1F7E76; 0x1D6B9E; 0x2592C5; 0xE14A2; 0x190C56; 0x63DAE2; 0x39CB00; 0x1A96B0; 0x1112B0; 0x125D57; 0x3E073B; 0x3BA300; 0x10434F; 0x584798; 0x328C4D; 0x2C908E; 0x3F37C6; 0x50852E; 0xE2E46; 0x3A1A63; 0x1C643D];
   [0x147D83; 0x590DE; 0x1A30E1; 0x3223D8; 0x92F2B; 0x2B60EE; 0x44972; 0x24B04F; 0xF8784; 0x15A35; 0x1E5404; 0x3B76C0; 0x24ECFE; 0x101933; 0x29FDFB; 0x224043; 0x59771; 0x35FA07; 0x44AFE; 0x168A97; 0x1D4795; 0x16C054; 0x202B01]];
  [[0x63E7A6; 0x34C8D6; 0x280787; 0x1A7385; 0x3ABD2E; 0x185E3E; 0xC346; 0x75FF68; 0x117390; 0x234323; 0x327433; 0x3FED4A; 0x3946EE; 0x36FEB; 0xC0F57; 0x359C4A; 0x92D1D; 0x1A134; 0x2AD6D7; 0x12395F; 0x3F988A; 0x1ACCFF; 0x2123C1];
   [0x2D5A19; 0x156939; 0x222C1A; 0x619366; 0x16036D; 0x33459B; 0x62D47; 0x4B8C12; 0x1B95CF; 0x117F5F; 0x3F80DA; 0x50A50; 0x3942D5; 0x385EAE; 0x33AB22; 0x537468; 0xDFF4B; 0x1879D6; 0x2388A7; 0xFCEA6; 0x375E35; 0x3398B3; 0x3F30BA]];
  [[0x3598D4; 0x19A9A3; 0x3A267B; 0x2B12CC; 0x3839D5; 0x3B8D33; 0x25BF3A; 0x438430; 0x189C5B; 0x3F2C8B; 0x3A8177; 0x7055A3; 0x2E6730; 0x341821; 0x2142DE; 0x10BC51; 0xD1EA0; 0x15FEF0; 0x329B9B; 0x508A4; 0x1C1B9; 0x1FF600; 0x328E8E];
   [0x717603; 0x33F89C; 0x25C76B; 0x18607B; 0x1303E9; 0xF2CB5; 0xF8CE4; 0x11128F; 0x216CE5; 0x3B4AEC; 0x27F704; 0x5A2623; 0x2A1412; 0x37E07D; 0x7F5BF; 0x6BFF5F; 0xD2EA; 0x28D09E; 0x30FECE; 0x7CE886; 0x163AD8; 0x7318; 0x2C4F8D]];
  [[0x22EF26; 0x11DF21; 0x1A21E7; 0x67A5B1; 0x327468; 0x31BA5C; 0x156DC9; 0x1E7E4E; 0x3FB583; 0x1EB61F; 0x2ABBA4; 0x40FEC8; 0x4C5FF; 0x10F939; 0x3D4DA2; 0x5C0941; 0x13C311; 0xBA027; 0x1845CC; 0x6FF264; 0x38AC88; 0x3463D6; 0xEADB9];
   [0xB056C; 0x288DB2; 0x1C02CF; 0xBB175; 0x18F094; 0x27806D; 0x355563; 0x54C2AD; 0x1CCE8E; 0x2E2B85; 0x73F85; 0x6D02CB; 0x33434A; 0x3DA80B; 0x1550B8; 0x53A65C; 0x3624AD; 0x78142; 0x17BFE5; 0x2EF056; 0x126C8F; 0x377035; 0x3C5FD9]];
  [[0x692F52; 0x2D345A; 0x1014B5; 0x4A6F1C; 0x279FEB; 0x57359; 0x5EE89; 0xB0567; 0x2B38D3; 0x243C26; 0xFE1B; 0x1499CE; 0x326C87; 0x3808D0; 0x24E577; 0x559968; 0x14EF5F; 0x91017; 0xA4B95; 0x79EB0D; 0x498F0; 0x2F7F3A; 0x24E38];
   [0x590D7; 0xC5AFF; 0x21F7AF; 0x667CCB; 0x38AC0E; 0x23A769; 0x3E7C3D; 0x52FB04; 0x2DE7EC; 0x2F29F5; 0x23207B; 0xCDF9D; 0x2B4365; 0x3A2FBF; 0x11FB18; 0x63AFCF; 0x15B1DD; 0x33B40C; 0x12F31; 0x87C46; 0x99C9E; 0x16BC64; 0x32AD86]];
  [[0x483715; 0x368333; 0x246073; 0x5FB045; 0x3A117A; 0x2FBC81; 0x9FFFF; 0x3826CF; 0x40665; 0x248D34; 0x20F6F7; 0x64C39E; 0xDDC2A; 0x27F7AD; 0x2A0468; 0x4233A3; 0x39012C; 0x1733DF; 0x2EFFEF; 0x799097; 0x1FF171; 0x18ED19; 0x26CCEE];
   [0x46E82C; 0x3D6F41; 0x1B2A06; 0x1FF2C3; 0x3F0F50; 0x1A930; 0x3BF063; 0x2EE18D; 0x1CCFE3; 0x36F969; 0x149AD4; 0x16E5BE; 0x1F9762; 0x22D061; 0x12E3B7; 0x3E984; 0x3B3250; 0x38C6B2; 0x159530; 0x73861F; 0x251136; 0x123D52; 0x27A418]];
  [[0x3F3D56; 0x35580A; 0x315B32; 0x683B54; 0x2E6B1B; 0x30E284; 0x1A147C; 0x57017E; 0x3F1CE4; 0x739F3; 0xBE2D0; 0x237229; 0x35DB98; 0x13B31; 0x885D5; 0x734416; 0x2BCB46; 0x25B709; 0x1F5588; 0x7AFB72; 0xA3B67; 0x2F51E5; 0x37F6D4];
   [0x58DC2B; 0x3BC578; 0x3EFB94; 0x7AB5C0; 0x33698C; 0x384E73; 0x18C54E; 0x6017C; 0x169895; 0x32C34C; 0x1B77D2; 0x668DCD; 0x29D00C; 0x35521D; 0x871E7; 0x881E9; 0x3F9CC2; 0x273AEA; 0xAFA2B; 0x519C25; 0x284813; 0x2F3204; 0x3A63D7]];
  [[0x24391; 0x3BA776; 0x33874; 0x34FBCF; 0x303978; 0x22D87; 0x5FC7A; 0x4D7ABB; 0x3F68E7; 0x17EC8C; 0x51303; 0x6259DA; 0x21F4E5; 0x121632; 0x31BBFE; 0x79B8A1; 0x3AE333; 0x6A0FC; 0x55308; 0x601907; 0x2EA623; 0x3B33BA; 0x349F3F];
   [0x1E557; 0xC8304; 0x2EDBE; 0x1EFF0A; 0x3B6349; 0x228976; 0x317095; 0x482B44; 0x2287BF; 0x244B82; 0x3CFA63; 0x1D099B; 0x23EB12; 0x188057; 0xD5E10; 0x5205C6; 0x2A8F5F; 0x2AB102; 0x151E7A; 0x31464E; 0x16ACF5; 0x3C570E; 0x3D5498]];
  [[0x528A5E; 0x1D1A41; 0x1D0B03; 0x6E975C; 0xC8044; 0x26C6AB; 0x1E178A; 0x66B411; 0x47104; 0x204D14; 0x228536; 0xD099C; 0x838AB; 0x1BC3DC; 0x29FCE8; 0x29FD9; 0x2E687A; 0x3E8AE4; 0x2DD424; 0x432788; 0x8979F; 0x39EDD9; 0x1751D6];
   [0x492D65; 0x1A7DE1; 0x14FD58; 0xC2887; 0x170FFC; 0x2CD82; 0xC7EB0; 0x7BC59A; 0x27399; 0x7595A; 0x6B074; 0x362BD4; 0x1D090F; 0x5CC42; 0x350E6D; 0x520BA; 0x3511C8; 0x263B84; 0x12CB4B; 0x395148; 0x1557BE; 0x1A47CB; 0x314464]];
  [[0x43F2F2; 0x194797; 0x164AF2; 0x39D872; 0x104A3; 0x16929A; 0x282C81; 0x5F9C2C; 0x2A5D4B; 0x3192B8; 0x2E15CB; 0x4F6E26; 0x1DBE42; 0x11C09D; 0x36F64F; 0x4483FB; 0x60CCE; 0x3148C2; 0x1EE90A; 0x3E6042; 0x2E64B1; 0x2C44F1; 0x2F2B60];
   [0x5DC792; 0x397CAD; 0x18311A; 0xDB83D; 0x3A7FE0; 0x36E2B7; 0x208A0B; 0x725417; 0x55265; 0x28A5C2; 0x2D7738; 0x8626D; 0x267142; 0x335A17; 0x3E2E6A; 0x23C202; 0x1CEC16; 0x7C3CA; 0x26178F; 0x7AF6B1; 0x3EC4B0; 0xA5C59; 0x5CC1B]];
  [[0x6D6CE3; 0x3CDDFA; 0x3536DB; 0x3AFD9F; 0x97B34; 0x5ECD4; 0x34AA4D; 0x3B05FC; 0x9BBAD; 0x3FDCEE; 0x33D997; 0x3C160; 0x3B6D37; 0x315C67; 0x2362F6; 0x1A9401; 0x14E9AD; 0x33DA3E; 0x1BCD3C; 0x2D9F1B; 0x30DD6A; 0x3EC5E7; 0x308176];
   [0x3069BB; 0x21C759; 0x15A982; 0x433F9; 0xF0415; 0x19193B; 0xCB74A; 0x550A79; 0x2D6049; 0x207DAA; 0x496F6; 0x492EB6; 0x3490BF; 0x3D7E1A; 0x29D71A; 0x1A99C6; 0x3442EC; 0x1FE876; 0x307A44; 0x5B4A4F; 0xDC29C; 0x38C4EF; 0x2E915D]];
  [[0xBEB8C; 0x61A56; 0xD8268; 0x421E9B; 0x1AD305; 0x2C0C54; 0x2B4A5F; 0x3DF358; 0x1523F3; 0x28B368; 0x276FD0; 0x442093; 0x817D3; 0x2AE36B; 0x3C22DE; 0x58669C; 0xD7F6C; 0x279A1A; 0xD107C; 0x21DE92; 0x246CC9; 0x34B4A4; 0xEFACA];
   [0x694EEC; 0x3C5044; 0x16ECB7; 0x412A48; 0x17E21D; 0x1C1E82; 0x2BA6CD; 0x1CF647; 0x306F34; 0x146470; 0x196674; 0x1418A3; 0x2CFE68; 0x26B0A5; 0x747E1; 0x76E; 0x2C52FE; 0x381158; 0x3CB4BD; 0xE909B; 0x9F542; 0xCB347; 0x16D579]];
  [[0x69D866; 0x27D233; 0x35A8F4; 0x6BC550; 0x18DA15; 0x30CE9E; 0x15D2E1; 0x5388CB; 0x32AC42; 0x1EDFA9; 0x41ADC; 0x232D9; 0x278158; 0x3B9C91; 0x1DD2A0; 0x33F780; 0x3E5C50; 0x75CF3; 0x15E7C2; 0x440ADA; 0x16D15D; 0x586C1; 0x2A016C];
   [0x4AE04A; 0x3E7BC9; 0x96110; 0x66932; 0x1B3038; 0x1A7311; 0x2F1AEF; 0x68EA21; 0x95E5D; 0x9883B; 0x33990; 0x24C0B3; 0x29A84D; 0x5EBA4; 0x311E64; 0x13FEAE; 0x8156B; 0x2F4EE6; 0xDF329; 0x1AE70A; 0x2847DD; 0x18E0D7; 0x2BD42E]];
  [[0xB9710; 0x1F475F; 0x999F5; 0x32B55C; 0x2E7C12; 0x264CED; 0x94F0A; 0x5A4E16; 0xBECA0; 0x349B97; 0x3CE972; 0x2B59D3; 0x2F203F; 0xF211F; 0x3B07F1; 0x786C83; 0x1D952; 0x2B793E; 0x33C2B1; 0x5E8A36; 0x36E5E2; 0x156A46; 0x362C8F];
   [0x317544; 0xAEC08; 0x3109AC; 0x4EC46A; 0x214545; 0x338B7B; 0x16C802; 0x4E4271; 0x3A07D9; 0x19D25; 0x198775; 0x49A8C4; 0x215656; 0x9570A; 0x4BCC8; 0x6ED97E; 0x3721B2; 0x1AB6C7; 0x219EDF; 0x4291B1; 0x21788D; 0x3CA653; 0x2C51F0]];
  [[0x549A73; 0x1585E0; 0x1219AF; 0x278B73; 0xAB916; 0x3FB445; 0x3FC327; 0x487904; 0x8835A; 0x13EBDD; 0x2B6722; 0x5F61F3; 0x33C0B6; 0x387E43; 0xDC4FF; 0x220AA8; 0x2411BD; 0x2D9844; 0x3BD35D; 0x878BC; 0x1548F6; 0x3F932E; 0x189EAF];
   [0x243BBC; 0x80398; 0x10A82F; 0x6AB89B; 0x21339; 0x291FC3; 0x145BA0; 0x5378D0; 0x15B299; 0x57581; 0x2112C0; 0x642C8E; 0x3981D5; 0x20F113; 0x354642; 0x7C7721; 0xCEDDA; 0x220C78; 0xFA861; 0x4B62AA; 0xC4398; 0x1A528A; 0x1FA9C0]];
  [[0x213FA6; 0x303120; 0x2AB912; 0x604140; 0x25C250; 0x3C2A6C; 0x322291; 0x13477E; 0x1F06C8; 0x3B3F6A; 0x283A23; 0x38B2D8; 0x29DD45; 0x2EBAA8; 0x1B3724; 0x678E35; 0x96D14; 0x27B787; 0x7AA23; 0x25F092; 0x2170F1; 0x1BC371; 0x3AED1A];
   [0x425B32; 0x286AA0; 0x23581; 0x6EE73F; 0x1E5A3B; 0x30D82F; 0x2D1CA8; 0x6A5FF6; 0x1470F9; 0x161816; 0x2350CB; 0x113D17; 0x3F9A5E; 0x3C7C27; 0x276EA7; 0xCC5E8; 0x3022F0; 0x293E6C; 0x1948B1; 0x43775; 0x3051DB; 0x3D4E8F; 0x16EAD0]]];
 [[[0xE7229; 0x1A6628; 0x3C1B89; 0x1DEF3A; 0x5F8AB; 0x178896; 0x120D1F; 0x35812; 0x2204C7; 0x25B252; 0x2627D9; 0x295A6A; 0x64F84; 0x2DD46E; 0x18C55B; 0x76AC5A; 0x24BECB; 0xD610A; 0x3CF93D; 0x25BA10; 0x1D8FF; 0x111DC7; 0x1BA971];
   [0x79874; 0x2A9BC0; 0xAE07A; 0x2B976D; 0x37698A; 0x1EFD5D; 0x355FBE; 0xFC35F; 0x3A64A2; 0x37BE03; 0x2E85B5; 0x1D3118; 0x27921A; 0xC7471; 0x2BCAB5; 0x33AB97; 0x1C915; 0x19A901; 0x1D2E71; 0x2A197E; 0x115A8D; 0x24BF73; 0x3CC85]];
  [[0x2895B2; 0x320735; 0xCFB47; 0x3DB761; 0x24C433; 0x13E23C; 0x2BF3DF; 0x50A160; 0xED8DF; 0x23DC8; 0x22ADA6; 0x55A62F; 0x118219; 0x55FC7; 0x16FC9A; 0x19CDAC; 0x1F6533; 0x39DEF8; 0x365EB0; 0x1DE6A4; 0x2EC097; 0x14ABA8; 0x3B186E];
   [0x76F84F; 0xA6360; 0x389AFC; 0x7F347C; 0x10F3A6; 0x20172F; 0x2456C5; 0x74D6FD; 0x3EBC5A; 0x15702D; 0x2C322D; 0x62EC4A; 0x1C6321; 0x1ECEE0; 0xC4DCD; 0x385F54; 0x15A2F6; 0x3EA398; 0x154A9E; 0x35549D; 0x2902A3; 0xE87D8; 0x2197A4]];
  [[0xE5E61; 0x4D26C; 0x6E668; 0x1B95; 0x22CEB8; 0x2AD340; 0x178FFF; 0x68E92D; 0x1CE560; 0x314785; 0x3C340C; 0xE0359; 0x12093F; 0x126D05; 0x1A73F; 0x6AADBB; 0x2D01CE; 0x1E4C4C; 0x19B1E1; 0x1E252E; 0x27C32F; 0x27F7C8; 0x274554];
   [0x47C011; 0x16AC83; 0x1C5FD0; 0x2B42DE; 0x108C9B; 0x3E5C82; 0x1F47C2; 0x67643D; 0x253B0C; 0x3B23F4; 0x285E6A; 0x127F; 0x1AFEDD; 0x1639C8; 0x35C65D; 0x3890F9; 0x26D0AD; 0x24695D; 0x33FF31; 0x166142; 0x32EBDF; 0xD509E; 0x190DE4]];
  [[0x5E3F2E; 0x10C08C; 0x10E26F; 0x25A315; 0x9E64F; 0x2605; 0x3601E3; 0x634D76; 0x3BFCD4; 0x123253; 0x1D94E0; 0x3E9F61; 0x25A1E6; 0x75853; 0x1EC114; 0x470547; 0x3E437A; 0x19ED05; 0x61623; 0x38D391; 0x31CCDE; 0x3374B4; 0x7C7B9];
   [0x512F62; 0x2E17FE; 0x36CB08; 0x1BDB9E; 0x394D71; 0x2A7EF7; 0x2E6818; 0x5F5A88; 0x311E36; 0x2A6BB1; 0x19CD43; 0x45542F; 0x2B8CEA; 0xFA346; 0x2E1A7A; 0xBD16F; 0x245C8D; 0x314F13; 0xFFBE8; 0x56B54A; 0x382922; 0x35F251; 0x3ACEB3]];
  [[0x3E11B5; 0x2716B; 0x2750E4; 0x3740A5; 0x338906; 0x13B5F0; 0x27CFAE; 0x4AA6D3; 0x39E3B9; 0x2D1B9F; 0x35D9; 0x1E459B; 0xCF781; 0x20167F; 0x1BB777; 0x38BA4C; 0x28F2E3; 0x37D8D5; 0x1ECF87; 0x4E758A; 0x2AA667; 0x2E97A6; 0x352507];
   [0x283BBD; 0x263775; 0xC63C9; 0x1EE4; 0x3ACBBF; 0x162A58; 0x7B4FE; 0x351728; 0x1973F1; 0x2770E0; 0x3116FA; 0x46EBBD; 0x2C2896; 0x36E872; 0x13137C; 0x2F444F; 0x3B3375; 0x3C6AB; 0xFCBE7; 0x6D9063; 0x20E15A; 0xD5454; 0x37BDB0]];
  [[0x439E00; 0x1E43D1; 0x3DE476; 0x148953; 0x25C9E8; 0x1B6D92; 0xAA405; 0x40CB85; 0x310A15; 0x3D0034; 0x1ACFB7; 0x171502; 0x34B2C2; 0x27FB5D; 0x3B0085; 0x344898; 0x3CA33C; 0x1BAF56; 0x21B32; 0x448603; 0x91BA6; 0xBAFC4; 0x13D5A4];
   [0x780D50; 0x4D808; 0x2F1F9D; 0x6E9B4E; 0x1EDD73; 0xA2602; 0x32564D; 0xA5962; 0x2D65F0; 0x1FF6E8; 0x263DE7; 0x28B02D; 0xE0A8D; 0x2AE55E; 0x2EAA0B; 0x508B9C; 0x2CA2CC; 0x39B8A4; 0xCF2D9; 0x2B0C05; 0x36C4C9; 0x115406; 0x3A4458]];
  [[0x1A9FEF; 0x17C5B8; 0x14F927; 0x33E7CA; 0x1DE04B; 0x21489F; 0x3223E7; 0x7F4816; 0x16233A; 0xE408A; 0x25911C; 0x6CFEEF; 0x162D98; 0x1FB3B2; 0xCAFE2; 0x140C69; 0x373513; 0x5EFAF; 0x318C8D; 0x1ED26D; 0x23E013; 0xE235E; 0x2D6FB0];
   [0x4D9693; 0x18038F; 0x1CF661; 0x2F57EB; 0x1E346F; 0x30F7B0; 0x1DD4F8; 0x2D4964; 0x3D7230; 0xFA730; 0x1D142C; 0x2276EA; 0x1BA178; 0x1466BF; 0xBF8C5; 0x40D605; 0x2D85AB; 0x1F11D4; 0x16C7D7; 0xAA5D0; 0x359550; 0x29A075; 0x122CA4]];
  [[0x72B845; 0x1BEE64; 0x30577D; 0x6BAF51; 0x24885D; 0x2BA5B1; 0x236704; 0x346DC; 0x2A639E; 0x3AF226; 0x2EA89E; 0x26AF84; 0x4D4C; 0x3640E; 0x1D8986; 0xE2826; 0xD1018; 0x2CB972; 0x9688A; 0x489A0; 0x2E4F56; 0x3DD33C; 0x3609BA];
   [0x1692AF; 0x2C1F96; 0x3792D8; 0x69079; 0x16ED4A; 0x3B5304; 0xFA6CC; 0x18593E; 0xC409; 0x4E36E; 0x3E4B0; 0x18A207; 0x146BF4; 0x1CBDA5; 0x11B878; 0x62A10E; 0x2D181; 0x1D3599; 0x185943; 0x609AB4; 0x2218D4; 0x3653F8; 0x19F9FD]];
  [[0x2ED6C7; 0x3C5236; 0x186569; 0x428772; 0x3A69E3; 0x87BF9; 0x3E9E5F; 0x3AE8B4; 0x3504F3; 0xA8276; 0x3C584F; 0x69143D; 0x2C8325; 0xFFE9F; 0x191129; 0x319B36; 0x115E02; 0x16E07A; 0x2FA414; 0x14619E; 0x12CD22; 0x2D0E0D; 0x125784];
   [0x642A65; 0x203D55; 0x16C315; 0x3CF7A9; 0x3071DE; 0x106DAE; 0xB2C7D; 0x47BA31; 0x2CA388; 0x29FBFC; 0x390EAC; 0x57CD61; 0x21CF36; 0x34A05C; 0x8B13; 0x793DB5; 0x17E8E7; 0x35D12F; 0x3D6716; 0x4C990F; 0x3B6448; 0xA7F2C; 0x25B5C5]];
  [[0x5E98D9; 0x26DFA6; 0x864C2; 0x2E69DF; 0x364C2C; 0xD5FD3; 0x1356CE; 0x454A4C; 0x3B0302; 0x16D23C; 0xB4AAA; 0x57F380; 0x7CFAC; 0x27103B; 0xCAA2B; 0x5B3BDE; 0xD252E; 0x2FC387; 0x1B39E0; 0x3C0113; 0x9ADA1; 0x2D5182; 0x29B37];
   [0x3B5C86; 0x2985B6; 0x193F46; 0x7D3FF4; 0x17EA07; 0x3167A4; 0x28ECD5; 0x102560; 0x14D8CD; 0x9D70A; 0x36C65B; 0x77810C; 0x38B843; 0xAAA4F; 0x423CC; 0x609B5A; 0xB047D; 0x32FCF2; 0x341089; 0x2F82CA; 0x12D7A7; 0x2D3F89; 0x189DD5]];
  [[0x66582F; 0x257453; 0x210314; 0x62A225; 0x165C3B; 0x2E6592; 0x2F1436; 0x5EE3F8; 0x7F555; 0x20F441; 0x34ED55; 0x308313; 0x34A8DF; 0x19301D; 0x173FDB; 0x144214; 0x19892A; 0x27897A; 0x21A061; 0x7D24B8; 0x37F3B1; 0x248CC2; 0x373DB3];
   [0xBF27A; 0x39D46B; 0x1AD6FE; 0x475AC8; 0x63B06; 0x233FD2; 0x35C0AF; 0x6C6594; 0x2F3CD2; 0x15DF1B; 0x2DF565; 0x22D72E; 0x4B112; 0x22C9B; 0x217D30; 0x586404; 0x175C8A; 0x3CD70E; 0x3F9D96; 0x7351B7; 0x328F89; 0x339645; 0x147D37]];
  [[0x6ACC7; 0x17F7BC; 0x43BCE; 0x259C1D; 0x2CDB37; 0x7238C; 0x375E6F; 0x22971; 0x1B4942; 0x3E301A; 0x389E0C; 0x14070B; 0x29DEFC; 0x2DDAC4; 0x236616; 0xA23A; 0x3BA71B; 0x230957; 0x2229EB; 0x73C8F9; 0x25DF6A; 0x2BADCB; 0xF1344];
   [0x1BEE3F; 0x1FA015; 0xCFE6E; 0x6FB0F7; 0x3C54F5; 0x3503D8; 0xB28FC; 0x1F5C0; 0x104298; 0x3AF43A; 0x3A5408; 0x18DAC0; 0x32EE35; 0x31C65F; 0xB31F5; 0x18B829; 0x133FD; 0x280CF1; 0x206DF2; 0x9D76F; 0x1DC987; 0x365635; 0x14E280]];
  [[0x52A016; 0x6F577; 0x1C0241; 0x5E5024; 0xDA944; 0x855A1; 0x2A89F3; 0xE86B5; 0xCEF59; 0x3E508E; 0x384B7E; 0x32AAA5; 0x18FF8F; 0x2CD18E; 0x40821; 0x189644; 0x2DEB40; 0x132C27; 0xB3030; 0x54A603; 0x6BBED; 0x31D103; 0x2F003F];
   [0x1E656D; 0x2FF583; 0x12A61F; 0x346DBE; 0x2A6FB1; 0x11FD3B; 0x1276C; 0x6148C0; 0x16501; 0xC96D4; 0x3DB630; 0x492C8D; 0x57FDE; 0xCF96C; 0x164CA; 0x4FCB96; 0x385504; 0x3E5188; 0x286382; 0x41E093; 0x2DAB5; 0x10BB0F; 0x784C]];
  [[0x75746D; 0x3F9D7D; 0x2D54D0; 0xCA2BA; 0x34E004; 0x145EDC; 0x24946A; 0x2B2267; 0x29D5D7; 0x1BD561; 0x40FF1; 0x7A8818; 0x347CA; 0x368968; 0x3DFBFD; 0x45E779; 0x28CB15; 0x6FE47; 0x2AE3AD; 0xC1917; 0x1A6E74; 0xC0AAF; 0x1EAD78];
   [0x13957A; 0xB13A3; 0x2FC29D; 0x318258; 0x316AF; 0x159186; 0x2F9ACE; 0x2617A1; 0x2DA110; 0x24827F; 0x14B7E3; 0x5A1108; 0x2AD5AB; 0x1F8CD8; 0x280CBB; 0xF3352; 0x21699D; 0x3D79ED; 0xF2342; 0xA46DF; 0x765C5; 0x1562AA; 0x1933BE]];
  [[0x771DC4; 0x105963; 0x13309E; 0x2D5F9C; 0x3816E4; 0x183FD1; 0x24CC65; 0x4C32C8; 0x23344; 0x127581; 0x170A08; 0x3E271B; 0x376C4A; 0x378FA8; 0x38BD67; 0x6DD9F1; 0x13CB77; 0x110A9A; 0x11B015; 0x3AB2F7; 0x203C14; 0x37D1D9; 0x17F513];
   [0x383DC1; 0x32B2DC; 0x3F0168; 0x279081; 0x1E4F82; 0x183A42; 0xBFB80; 0x5A12C9; 0x186FCD; 0x2E7365; 0x26CDDE; 0x7856A6; 0x241080; 0xBB921; 0x3E1A85; 0x62D604; 0xBB5D8; 0x26B482; 0x19F5D5; 0x28F3DC; 0x143FEB; 0x3E5ADA; 0x253DEF]];
  [[0x6BA123; 0xA781D; 0xB7D51; 0x740F38; 0x2940F6; 0x157C6F; 0x3E02CE; 0x7207C6; 0x1B64BC; 0x372F37; 0x3A87CB; 0x2D7712; 0x1B97D4; 0x391CB2; 0x3AB655; 0x2E6F; 0x2C7D2F; 0x2AA52F; 0x32378F; 0x72D63D; 0x38FA33; 0x3C9DB3; 0x8013D];
   [0x2066C; 0x35DFEF; 0x1BC43F; 0x29FB46; 0x13F28B; 0x2A9E1C; 0x316CE9; 0x2537F0; 0x2F07AC; 0x37B3FA; 0xBB76B; 0x49349E; 0x330713; 0x2755E1; 0x2928A9; 0x636D8A; 0x36549D; 0x119414; 0x2CF725; 0x37181E; 0x1A2BC; 0x19DA46; 0x3B690A]]];
 [[[0x32A280; 0x1CB2CC; 0xF9796; 0x7D75; 0x1AF2EB; 0x3C758A; 0x3A6728; 0x43B3E9; 0x188CE5; 0x29D0A4; 0x113A0; 0x22343F; 0x890D8; 0x12176A; 0x2971B0; 0x785A55; 0x1C0B7; 0x273262; 0x2D06D6; 0x6C271; 0x1E07EA; 0x3A1542; 0x26C181];
   [0x414498; 0x14CB47; 0xFFCA6; 0x2D51CC; 0x8D4; 0x244EA0; 0x2F062C; 0x336A8; 0x150722; 0x19F588; 0xCB860; 0x604BC3; 0x8902B; 0x3D5ADC; 0x88D53; 0xA2728; 0x3852C8; 0x1CE562; 0x3D7474; 0xE17F9; 0xADBDE; 0x2F321; 0x2B5370]];
  [[0x720956; 0x12FE7D; 0x3A4010; 0x5E1F1; 0x2FCF68; 0x1CA0D; 0x1F9A09; 0x476576; 0x1BBE6F; 0x157A43; 0x41B45; 0x69B21A; 0x11A874; 0x237329; 0x10ABF2; 0x4A1BCF; 0x248B43; 0x39B567; 0x162490; 0x2F2BDB; 0x296C0C; 0xA4FEE; 0x4AD98];
   [0x4454EB; 0x2C8099; 0x10E84D; 0x2E2241; 0x3207CA; 0xF5910; 0x3F04F; 0x392613; 0xADE9F; 0x3DBD57; 0x30B86D; 0x9CC16; 0xA209A; 0x3C2AFA; 0x35E76; 0x5F940A; 0x2B2161; 0xC7D9D; 0x363B77; 0x77A201; 0x399B44; 0x8E94D; 0x8286]];
  [[0x2B92BC; 0x6153E; 0xF8C6; 0x5F1B6C; 0x3BA49; 0x1A925E; 0xF9BBA; 0x55F92; 0x2FBD92; 0x2177A5; 0x3FB8F5; 0x5D4BF2; 0x2146D4; 0x36976B; 0x22B1BA; 0x32F949; 0x965FD; 0x1E9F3E; 0x2DA23B; 0x107070; 0x398A1E; 0x69BFE; 0x2FDDC0];
   [0x72B741; 0x3D395C; 0x3A9B25; 0x294646; 0x21148; 0x15DA45; 0x113C40; 0x419E05; 0x3F3B62; 0x1F8475; 0x6EE22; 0x66BC79; 0x8B7CC; 0x23931; 0x167FA8; 0x3BD93E; 0x39EE3D; 0x1DFEEA; 0x1FDCFE; 0x613DB2; 0x160B1F; 0x1970FE; 0x23B0DD]];
  [[0x23C1BA; 0x2E5121; 0x2C52E9; 0x7811E3; 0x1A384; 0x2EABE1; 0x24FBC8; 0x45D98F; 0x1C8207; 0x33DA7A; 0x30B201; 0x23DFB3; 0x14CD7A; 0xB9A13; 0x29ED72; 0x3FDD61; 0x2FAEDB; 0x16FDA9; 0x6A7E0; 0x3CCE59; 0x59683; 0x34B4B3; 0x344F10];
   [0x64F192; 0x121A7B; 0x1023D3; 0x4802FA; 0xC0C74; 0x3436B0; 0x28F327; 0x104D43; 0xB6D47; 0x3D9F11; 0x38A86E; 0x24B31C; 0xD71F6; 0x1075B; 0x131E0B; 0x6451D8; 0x23646D; 0x185996; 0x143B48; 0x76F1C1; 0xE8DA3; 0x2EB768; 0x3FBF6F]];
  [[0x4D2204; 0x2A5EA9; 0x19369; 0x70CD74; 0x1A76B1; 0x3815C4; 0x2E68F7; 0x5398A8; 0x20AB8F; 0x185D53; 0x168C1D; 0x274E1A; 0x524F2; 0x3D9B1A; 0x12E5AB; 0x4C1050; 0x32ABC0; 0x25971D; 0x3AC08F; 0x2F1AFC; 0x1407B9; 0x277B2E; 0x1B1F71];
   [0xD2E98; 0x30B33B; 0x3037E7; 0x425F13; 0x2EBDC3; 0x1D9BE6; 0x111CD4; 0x7D7418; 0x1F1C08; 0x27B843; 0x2D41E6; 0x4D0FDD; 0x162312; 0xA0EB8; 0x4819A; 0x1E097B; 0xA336; 0xC49B4; 0x1F6549; 0x65532D; 0x175C84; 0x8B3CF; 0x1D68D8]];
  [[0x7E2EF2; 0xCB9A8; 0x968E6; 0x367210; 0x79EA4; 0x115BCE; 0x2F228C; 0x7BE5BF; 0x3C8A27; 0xC8607; 0x319827; 0x6BF356; 0x222BCA; 0x2D52EC; 0x1634C9; 0x422BB5; 0x20B569; 0x2745C9; 0x2547E2; 0x692CC6; 0x366369; 0xC2F45; 0x2DCB38];
   [0x432E57; 0x3BCE51; 0x2F50A1; 0x10E21; 0xB5704; 0x3603EC; 0x3DC6B0; 0x1D3C66; 0x3E876A; 0x1D2475; 0x3D0CFE; 0x752FD6; 0x1389EE; 0x2682A3; 0x6DE0; 0x466661; 0x25CA0B; 0x3A47DE; 0x1DBDDD; 0x584C8D; 0x97729; 0x3A3D36; 0x26D79A]];
  [[0x46DC32; 0x39E30E; 0x1A553F; 0x631635; 0x137523; 0x11F122; 0x2887F; 0x39C6A2; 0x3D3F52; 0xE5C16; 0x1B4338; 0x1104AD; 0x26AD2E; 0xC1BE9; 0x82A2; 0x36D7B0; 0x3E62E1; 0x2AC82D; 0x354EEE; 0x1B7162; 0x2F1507; 0x64946; 0x2B777F];
   [0x755CF4; 0x2F3F9D; 0x27FBE0; 0x250D1C; 0x3AD66C; 0x220A36; 0x324DD9; 0xFD4E3; 0x2FB653; 0x1407E0; 0x7BD23; 0x1BCA1B; 0x23529D; 0x512E2; 0x322089; 0x52FB0B; 0x159218; 0xA2629; 0x1ECC37; 0xD691D; 0x1CDC35; 0x25DECE; 0x8B229]];
  [[0x42A2E; 0x2BECD; 0xCE644; 0x7EB2C8; 0xCDB86; 0x38243C; 0x13980F; 0x7DB14B; 0x3AF52F; 0x34D34E; 0x328903; 0x12E910; 0x2F165C; 0x1F951B; 0x3DCC69; 0x6A2790; 0x1419B1; 0x3CD6D6; 0xA88DC; 0x65E513; 0x38EAB; 0xDA64E; 0x1E4802];
   [0x411E28; 0x38A31B; 0xEA13F; 0x692375; 0x3972E4; 0x3C7618; 0x30675C; 0x471A7; 0x1EAA31; 0x332B8; 0xBA219; 0x5949F6; 0x721E9; 0xB0539; 0x351BFD; 0x6AF8C8; 0x1749B7; 0x1B4221; 0x346E9F; 0x1D138C; 0x315C0E; 0x3AE1BD; 0x1E5845]];
  [[0x73DD11; 0x38D066; 0x3B6E1E; 0x58D879; 0x3FC188; 0x26EA01; 0x3A5E72; 0x3EAE27; 0x17EC7B; 0x21435A; 0x30A0EF; 0x226F77; 0x319511; 0xEECC9; 0x184FB1; 0x485367; 0x12DBCE; 0x296D94; 0x1ECEF1; 0x48A6EF; 0xC1378; 0x486F3; 0x294CB6];
   [0x659E15; 0x21AFE5; 0x35B7D; 0x14905A; 0x190940; 0x28A11C; 0x3C2EC5; 0x61D9FF; 0x3C91F9; 0xC24F9; 0x21D20C; 0x69147F; 0x2C2485; 0x1F02A6; 0x1E436B; 0x70B5EC; 0x3C8887; 0x479C4; 0x329212; 0x23848; 0xFD9D8; 0x1CA129; 0x2842CB]];
  [[0x7B92F5; 0x37A067; 0x74AF; 0x5B2F28; 0xCBF5F; 0x77719; 0x15F2E0; 0x16A3E7; 0x1CEB10; 0x22F6C6; 0x3D1FA9; 0x4CD931; 0x1D7522; 0x1781A9; 0x3443CE; 0x6FA88B; 0x1564BA; 0x110D1F; 0x12896B; 0xB6064; 0x253009; 0x7C604; 0x3E79C8];
   [0x22EAC3; 0x1D3CBB; 0x1660EB; 0x530D25; 0x1DDD46; 0x38675B; 0x270FCB; 0x70D781; 0x36DB98; 0x10E11B; 0x19CA07; 0x4B0308; 0x3E92E0; 0x39F79; 0x2FAD1D; 0x17B8FE; 0x1C8122; 0x13FAE1; 0x95301; 0x3B1103; 0x31A89; 0x1447C4; 0x9D34F]];
  [[0x7C8A6B; 0x2A2FE8; 0x35E593; 0x4E1D4D; 0x15A0B8; 0x20842D; 0x18D50D; 0x1081D4; 0x126A85; 0x5E191; 0x1BEF59; 0x5AA8B6; 0x3A3A60; 0xABF90; 0x6196E; 0x150E95; 0xCB2DC; 0xDDCD3; 0x3E2A72; 0x582EAB; 0x35F095; 0x10E8B9; 0x2F9603];
   [0x381ED7; 0x655D9; 0x270A8E; 0x48245; 0x309CD3; 0x17ED44; 0x1D450E; 0x312BA; 0x5985D; 0x358C0C; 0x2A7087; 0x72F6C5; 0x198D4B; 0x266DA7; 0x30D13D; 0x164FAF; 0x1B3D2A; 0x54328; 0x297C8D; 0x24974D; 0xC4C24; 0x233778; 0xA3C4F]];
  [[0x19EECE; 0x162127; 0x1040AF; 0x1C475E; 0x239506; 0x9AF50; 0x1C9807; 0x3FA8CC; 0x3128F6; 0x45734; 0x1442AC; 0x47E27E; 0x3215CF; 0x140684; 0x23566D; 0x62EA4E; 0x26B67A; 0x295AF8; 0x6E548; 0x40F0F6; 0x3FA25A; 0x3841B6; 0x34374F];
   [0x11DBC4; 0x1EE6DB; 0x351C56; 0x3D4083; 0x1009D6; 0x3E9349; 0x10A11; 0x382D27; 0x3D7132; 0x1999FC; 0x3911D4; 0x45D805; 0x1B235; 0x258644; 0x1B1DA8; 0x7D367D; 0x2106B2; 0x96B2D; 0x1A078D; 0x7CE535; 0x3C6BB8; 0x21FC86; 0x388E7F]];
  [[0x3C849A; 0x339DA9; 0x1B56C; 0x18B48F; 0x36B241; 0x1C3E99; 0x1DC79F; 0x6E4794; 0x14AD70; 0x20AF6F; 0x286589; 0xAA9B; 0x287B90; 0x36D3BA; 0x2CB788; 0x36DAF5; 0xDA427; 0x3CD59; 0x26B18; 0x2DA542; 0x10AEF9; 0x3EA11A; 0x3453B3];
   [0x1D0091; 0x20390C; 0x2D251A; 0x43EFFA; 0x284188; 0x326C4E; 0x1965D5; 0x52E6EE; 0x616F; 0x2561A4; 0x3AD411; 0x36D206; 0xE1BD3; 0x1392B2; 0x2A8475; 0x66EFA5; 0x37E866; 0x1BBD62; 0x1D1550; 0x32E625; 0x302306; 0x1E0DDA; 0x1CF60C]];
  [[0x23F415; 0x34D9CF; 0x24E53D; 0x875AF; 0x52504; 0x3FD275; 0x30C106; 0x6F3F46; 0xB6725; 0x1DB8D9; 0x28E8F0; 0x172728; 0x28DA5A; 0x32E926; 0x2D0A85; 0x530D4; 0x35DC87; 0x2D07D2; 0x3F882E; 0x5C838F; 0x26F2BF; 0x3EEE58; 0x71443];
   [0x2CB0FF; 0x3E64EA; 0x18EDB8; 0x3B4182; 0x1FC937; 0x2AAFB7; 0x2EA0F1; 0x49D653; 0xF4A39; 0xB926E; 0x10CA2F; 0x2208C8; 0x39DE49; 0x161ED; 0x7EAFC; 0x514FED; 0x39404; 0x18883A; 0x23262; 0x16E9C1; 0x3C573A; 0x2FB6FD; 0x386202]];
  [[0x5D99DB; 0x1D29; 0xAF82D; 0x444767; 0x15C5E2; 0x2A81B3; 0x24A5EF; 0x6F6AF5; 0x1EBBCB; 0x305276; 0x1A7F7A; 0x6B1587; 0x10BC41; 0x233733; 0x15633F; 0x6476A7; 0x104F63; 0x1F393B; 0x255507; 0x708297; 0xDB54C; 0x1A8A1D; 0x1A9756];
   [0x33896F; 0x11688; 0x1FBDA0; 0x2D7B5B; 0x345043; 0x409DD; 0x23A47B; 0x18CE42; 0x5C57; 0x10E46C; 0x16395D; 0x29A5E5; 0x63854; 0x2F12A1; 0x13E1B; 0x407727; 0x1EEAAC; 0x39D044; 0x23C5C8; 0x3BB777; 0x206B48; 0x20CD62; 0x2C7DE1]];
  [[0x431425; 0x3E66AF; 0x39AA06; 0x61F4D9; 0x1789C9; 0x2ECAAC; 0x3F0C7; 0x19C0FC; 0x131E10; 0x1FDEC5; 0x375C20; 0x38CDA3; 0x19FA41; 0x339E14; 0x2C2643; 0x60E1EB; 0x1F88C5; 0x2C520C; 0xED4A1; 0x9B12C; 0x3385E8; 0x7CEC0; 0x25145A];
   [0xC4BBC; 0x1CA76E; 0x53791; 0x71B24B; 0x2AEE0E; 0x3D38BC; 0x14DF23; 0x714100; 0x2621B3; 0x3EA6E9; 0x3351FD; 0x2F67A6; 0x3DD342; 0x2B6916; 0x18E95C; 0x4F0EF0; 0x63803; 0x31C884; 0x29F497; 0x76FCD3; 0x8E8DE; 0x375097; 0x34BF55]]];
 [[[0x101002; 0x3E5E72; 0x8B02E; 0x50FB59; 0x18AB92; 0x3EE716; 0x97228; 0x49BDB3; 0x3AF4F6; 0x3EC3F2; 0xA2168; 0x2E9535; 0x1B90E4; 0x2BA88C; 0x326E95; 0x3FEB7E; 0x2017BC; 0xD0EEE; 0x14761F; 0x47526E; 0x180227; 0x611B5; 0x35BCC9];
   [0x65BB6C; 0x254EB1; 0x213662; 0xC625D; 0x291EF8; 0x123964; 0x3C6A2D; 0x3CEFF9; 0x263687; 0x11917B; 0xE22CF; 0x2846F8; 0x34AE34; 0x1EA233; 0x1EA70A; 0x1C002F; 0x8295D; 0x358F85; 0x1292A5; 0x6FF9AD; 0x6C51D; 0x10C570; 0x3F9016]];
  [[0x520C83; 0x11B38F; 0x3659FA; 0x4B70A4; 0x2D7D78; 0x317E0C; 0x2BCC8A; 0x170479; 0x3049C8; 0x35330F; 0x292CAC; 0x659C79; 0x953DA; 0x2839AC; 0xEEC75; 0x34FE7A; 0x3DA567; 0x3E416C; 0x7AD5; 0x787665; 0x23F8AC; 0x22688F; 0x2F4735];
   [0x48FDB2; 0x1EC71C; 0x3D8930; 0x650536; 0x22A057; 0x34D941; 0x33DA64; 0x2D8AF7; 0x15A74D; 0x2EE4D; 0x20F500; 0x50ADE; 0x21DCE1; 0x6CC2; 0x4AF7; 0x385379; 0x14D7FD; 0x35F5DC; 0x2CE71C; 0x4F1273; 0x235AF5; 0x73649; 0x1C5B77]];
  [[0x2D1D21; 0x3D3AFA; 0x3484FE; 0x3B8AEF; 0x28E325; 0x180681; 0x8D952; 0x4222B; 0x2EC06C; 0x196929; 0x3F38C; 0x4A5049; 0xD9B6D; 0x1C481B; 0x3A16BA; 0x7F7383; 0x16E539; 0x3CB657; 0xCB3E0; 0x17CB6E; 0x282B60; 0x168672; 0x21396D];
   [0x230B59; 0x2A3F7A; 0x2CEDD4; 0x46B9E4; 0x10DAFC; 0x30ED59; 0x34B350; 0x4C3909; 0xD0E93; 0x3A3458; 0x30157; 0x3E191D; 0x2A17A1; 0x1C795E; 0x19E14; 0x448635; 0x364727; 0x2B17DB; 0x13693; 0x50F600; 0x13ADED; 0x267B88; 0x12E874]];
  [[0x491237; 0xA3228; 0x6A16F; 0x2BCC52; 0x2A58B0; 0x223C2F; 0xECF49; 0x310D98; 0xE07C8; 0x27A178; 0x2F51C1; 0x1D757E; 0x3D1406; 0x3F45BF; 0x3C049A; 0x247F57; 0x1B4EA7; 0x2C3AA4; 0xC59A; 0x2C0BF5; 0x4E1EC; 0x3B5C4F; 0x2ED5BD];
   [0xDA809; 0x3F3B14; 0x317876; 0x4FBBD1; 0x145987; 0x34043D; 0x4E8DF; 0x40B9A8; 0x3FB500; 0x102180; 0x2AD5; 0x948B6; 0x24E856; 0x1346B2; 0x1224DE; 0x780CFE; 0x3527A8; 0x15A63D; 0x350B6B; 0x19D0B1; 0x125F42; 0xC970B; 0x30D16C]];
  [[0x5B8DD0; 0x2EFE9A; 0x2160B2; 0x6C25E9; 0x3648EE; 0xF0498; 0x2E36A5; 0x48709D; 0x3F3212; 0x32A4D7; 0x37EA02; 0x3554EF; 0x80AFA; 0x9F4D8; 0xA370E; 0x74C856; 0x302B5C; 0xF4BED; 0x286A2A; 0x1B7967; 0x1EA28E; 0x5C511; 0x36A76A];
   [0x470560; 0x2A01F5; 0x571A; 0x49D849; 0x1EC4A9; 0x32B83B; 0x1A8DF4; 0x495FB3; 0xBD33C; 0x857FC; 0x128475; 0x3B8705; 0x243166; 0x1BCEBA; 0x28F42F; 0x530ED6; 0x1D8A5C; 0x1FC74F; 0x2D4804; 0x367B6; 0x327AF; 0x2863D0; 0x900E7]];
  [[0x780229; 0x1EF630; 0x510ED; 0x6460B5; 0xA8636; 0x358DE6; 0x1EAE5F; 0x54B5EB; 0x24DDD6; 0x3EDDBF; 0x373B40; 0x26ABAC; 0x3A5597; 0x2BE3A2; 0x167777; 0x45D31B; 0x32440D; 0x15429F; 0x3A681A; 0x1D0AA3; 0x36BA5B; 0x25EA57; 0x343F81];
   [0x13FCD6; 0x32B515; 0x205A39; 0x6417AA; 0x188962; 0x30F077; 0x30D896; 0x618839; 0x924CE; 0x313575; 0x2445E3; 0x4EECA; 0x2B4A7C; 0x9D939; 0x13DD92; 0x23A94B; 0x22A525; 0x2EC641; 0xF31A9; 0x1D3493; 0x3DF626; 0x3C1521; 0xE392E]];
  [[0x66600B; 0x4FDF8; 0x7D4BD; 0x26B138; 0x2EA81D; 0x333EF4; 0x15A59C; 0x51B0C0; 0x35D122; 0x3DA6C3; 0x3E2C86; 0x3CB4B4; 0x44B44; 0x3424DE; 0x1D32E6; 0x2521D8; 0x3CCEC2; 0x276F5; 0x220217; 0x8BA1; 0x321CB; 0x286E09; 0x4C3E0];
   [0x2B8D50; 0x2E3BC1; 0xF2753; 0x7FCE93; 0x3EF16C; 0x35426B; 0x206746; 0x7FCFC3; 0x3C1D6C; 0x37F851; 0x14034B; 0x5C71B5; 0x2AA534; 0x3695A5; 0x1CC377; 0x4B40F1; 0x3B0DD3; 0x3CC25; 0x296BD9; 0x76050E; 0x30853C; 0x23CDDF; 0x5051F]];
  [[0x1FAC05; 0x38BF66; 0x106AE1; 0x5F6C39; 0x2BCFD1; 0x12C446; 0x2014B7; 0x22CDD4; 0x2C0E46; 0x68BA; 0x9B619; 0x112EBA; 0x1134DE; 0x382BD9; 0x38AB24; 0x3EFC51; 0x125A98; 0x166AE1; 0x1204D8; 0x395F99; 0x22EC93; 0xC2334; 0xF0DB3];
   [0x65FB58; 0x26949F; 0x284E96; 0xE9B6C; 0x3DCCC0; 0x276266; 0x11C074; 0x6165B; 0x3618B9; 0xC1873; 0x210655; 0x68168F; 0x2A5321; 0x130FA1; 0x288227; 0x405D32; 0x2C76A2; 0x3544A1; 0x21FFEE; 0x372D2B; 0x1A438E; 0x2F5590; 0x1BBD78]];
  [[0x324B7; 0x5A62F; 0x3F767B; 0x6E0320; 0xFF7D; 0x1365D4; 0x34C36F; 0xAC0F4; 0x37C47; 0x22A9D; 0x1C6BCF; 0xC25F1; 0x19449E; 0x272780; 0x107BA2; 0x3A5F5D; 0x10F210; 0x1A8365; 0xFA62A; 0xEEFAD; 0x80B72; 0x3ABCCF; 0x19B10];
   [0x76B572; 0x3D6F9E; 0xADEC4; 0x516D49; 0x3E0BD1; 0x139E71; 0x339678; 0x6ABDF0; 0x38E886; 0x2299CE; 0x367195; 0x43A05B; 0x361D28; 0x796D9; 0x373012; 0x1EC4D3; 0x1008A0; 0x2E74DD; 0x3C82F9; 0x4054A4; 0x32570C; 0x101897; 0x118C2D]];
  [[0x462F42; 0x57E48; 0x1278B3; 0x26CC97; 0x1E327A; 0x1598F9; 0x3DEF1B; 0x79209; 0x33F716; 0x3B919D; 0x3706F3; 0x399A35; 0x36C21D; 0x323DF4; 0xA940E; 0xD518E; 0xD882E; 0x3C191A; 0x244FC8; 0x5C226; 0x509F7; 0xF698A; 0x7583];
   [0x7336DD; 0x2AE10E; 0x262EEC; 0x40454E; 0x3352A6; 0x2A34DE; 0x33BCE4; 0x24FD39; 0x1319FB; 0x1AE5AA; 0x315D5B; 0x2C46BE; 0x1DF5A0; 0x2C4B31; 0x34A43A; 0x4D4DD6; 0x116D9; 0xE599A; 0x33B481; 0x72C084; 0x3602A6; 0xFA6A0; 0x193096]];
  [[0x1FA23E; 0x17DD44; 0x2B9851; 0x78D9BF; 0x300461; 0xE650F; 0x3235A; 0x1E10FD; 0x191997; 0x347E5B; 0xEF26D; 0x722710; 0x91296; 0xDAC3; 0x364C90; 0x153FD5; 0x386DE4; 0x10D8C8; 0x1F9824; 0xADEC8; 0x3F9D31; 0x22F161; 0xFB294];
   [0x7CFE80; 0x2929EF; 0x1E66B0; 0x3A9598; 0x40870; 0x110507; 0x2B8C7; 0x218FE2; 0x24A402; 0x82D52; 0x14DAF9; 0x3244A6; 0x583BF; 0x215F1C; 0x35F85B; 0xDE2B3; 0x4BC8F; 0xE7228; 0x2E9933; 0x7BDB8; 0x1F7F0F; 0x3332AF; 0x156268]];
  [[0x2E3E7; 0x25FA60; 0x1FB4E6; 0x16C3C6; 0x247D0E; 0x2D8D5E; 0x6A675; 0x149DD3; 0x14833C; 0x2071D1; 0x267269; 0x5E8399; 0x15D1BF; 0x2573DB; 0xE94C4; 0x53F0CB; 0xE6C01; 0x2C9873; 0x3E40E; 0x2DC625; 0xEE009; 0x37B3C1; 0x314D3B];
   [0x12F52A; 0x212A59; 0x39A45C; 0x237A1; 0x2467E; 0x3AD286; 0x14E2EE; 0x79D3D0; 0x1D7205; 0x19A1C3; 0x1A753E; 0x648E5B; 0x1DA22B; 0x32CBC7; 0x1A0350; 0x51025A; 0x3A3047; 0x1814DC; 0x15F660; 0x384509; 0x28C315; 0x14D207; 0x1BFC3C]];
  [[0xBF619; 0x1B0A4A; 0x2F5B04; 0x66718; 0xF956B; 0x148057; 0x3D7C40; 0x2D779F; 0xD96BA; 0x34F9E9; 0xABC81; 0x612100; 0x94453; 0x1A7A84; 0x395C2A; 0x1CCF9C; 0x1909AB; 0x127F4; 0x3CC47F; 0x53B36F; 0x1168B8; 0x3E681B; 0x33586A];
   [0x3405C5; 0x14C1F8; 0x217C04; 0x44F686; 0x3B975D; 0x1566BE; 0xC3966; 0x442F22; 0x2EEC1C; 0x1FBB59; 0x2C7F08; 0x5C2547; 0x2E399A; 0x357E26; 0x182B2F; 0x428509; 0x1036A; 0xC10BF; 0x38CF9D; 0x37AD35; 0xED96E; 0x1A6435; 0x3E4F02]];
  [[0x41EB8E; 0x24BF; 0x3694DF; 0x511BE5; 0xA954F; 0x206AB1; 0x3CF939; 0x513701; 0xE6080; 0x2108CE; 0x20017E; 0x105B07; 0x11EE5F; 0x3E26E6; 0xDCD93; 0x8016D; 0x3FE138; 0x3D710; 0x2881A3; 0x2E6638; 0x13554C; 0x1A9737; 0x2F29B7];
   [0x72FA30; 0x3860AB; 0x2A3A9B; 0x46D4D4; 0x2C8E1C; 0xB27C5; 0x2FB5F3; 0x6E389E; 0x32BF68; 0x2F2032; 0x3D0E8B; 0x5EFF1B; 0xE77F7; 0x32D4D9; 0xEE3B7; 0x2DD781; 0x2C515F; 0x1196A0; 0x3C1961; 0x484EBE; 0x7BCF4; 0x2FA36A; 0x385130]];
  [[0xB2CC6; 0xE1DAF; 0x3ADA49; 0x67C22D; 0x2135BF; 0x34F418; 0x2F97CB; 0x3D4E4F; 0x389246; 0x605C0; 0x5A49F; 0x289A5C; 0x19305F; 0x2BDB2B; 0x37F1CC; 0x7C489D; 0x1CC3B8; 0x22BE49; 0x4F6FE; 0x4CDB36; 0x1ECD22; 0x347FCC; 0x121B6E];
   [0x38250C; 0x3A9B9A; 0x31B884; 0x38B4E2; 0x2903F8; 0xD4406; 0x3337E; 0x571CA; 0x20FC99; 0x2BEC49; 0x4A324; 0x63E39A; 0x248D5A; 0x34EE85; 0x12C541; 0x36DF11; 0x1A9D56; 0x114AD8; 0x2B0978; 0x4376FE; 0x19DA75; 0x36CC96; 0x2821E1]];
  [[0x3C6DB0; 0x394096; 0x15D4D8; 0x624F58; 0x3A01CB; 0x2C9112; 0x3A878F; 0x184B32; 0x1888A3; 0x26E10; 0xE5D54; 0x55695D; 0x4DC05; 0x1B0A95; 0x230372; 0xB124E; 0x11DE6A; 0xF2458; 0x2C9259; 0x290AC1; 0x20440B; 0x114828; 0x2B166A];
   [0x32B46D; 0x207B45; 0x473C9; 0x7FBBBF; 0x15AFF8; 0x39EB60; 0x35D816; 0xB1D9F; 0x37A1A2; 0xD8711; 0x2DFDE; 0x1CBEC4; 0x2A1716; 0x3B7011; 0x2CED5F; 0x6BA8F2; 0x2B544; 0xC2201; 0x1B97B2; 0x68B05E; 0x2ECFAD; 0x14D41E; 0x319D72]]];
 [[[0x297; 0x28EE9D; 0x25F457; 0x3A1C7F; 0x3D187E; 0x16AAC2; 0x18DA90; 0x32CC34; 0xC9FE; 0x83A39; 0xABFD1; 0x56518; 0x20E915; 0x37F36C; 0x1C3CE8; 0x16154B; 0xD8F76; 0x1349C7; 0x2C5B2D; 0x302ADF; 0x347C0F; 0x1AD83E; 0x337C01];
   [0x44DBD8; 0x161F8E; 0x3A4EAF; 0x7E41EE; 0x20D593; 0x2B1752; 0x8C520; 0xF746C; 0x251428; 0x336F1A; 0x2F850D; 0x363B2F; 0x3C91B4; 0x373CAD; 0x114941; 0x7F0C1B; 0xAB3AA; 0xB5CDA; 0x3A4CD6; 0x13C09D; 0x3CFDAB; 0x30F023; 0x2F9D40]];
  [[0x16AB0F; 0x2549A; 0x324067; 0x1CAA0D; 0x1D43DA; 0x2D4798; 0x2FABBD; 0x524E09; 0x3E65A7; 0xE6579; 0x6B2BA; 0x7B52B6; 0x17769B; 0x13CA17; 0x179C6F; 0x5068DF; 0x329383; 0x1C707E; 0x1906BF; 0x76817B; 0x10ED4F; 0x185468; 0x3C4A19];
   [0x3A29A3; 0x7D7E2; 0xC6BC2; 0x7A5479; 0x1F1CF; 0x39F9E1; 0x44B37; 0x5AA886; 0x2CDE04; 0x2B1FD3; 0x3036AE; 0x4BC454; 0xE6063; 0x3E513C; 0x142E11; 0x6EB792; 0x2A88A8; 0x3EE121; 0xCAFA1; 0x69BADD; 0x3F3982; 0x1A3478; 0x51F0B]];
  [[0x65CD56; 0x2C822B; 0x2F6B9C; 0xA1BB8; 0xAAF79; 0xEA4D3; 0x77BC8; 0x4E72DE; 0x344B0B; 0x1E3ED5; 0x38E0C9; 0x798666; 0x2C7240; 0x33538; 0x3C3C44; 0x400702; 0x200573; 0x3E2A4D; 0x4ADF5; 0x7BCBC6; 0x1D81E3; 0xE60C8; 0x33E777];
   [0x34AD00; 0x1B4772; 0x3423A; 0x3B4DC7; 0x20F3E4; 0x39B171; 0x127CDB; 0x3DCC1F; 0x2BC848; 0x370405; 0x12BF7; 0x2C5599; 0x14AB0C; 0x103733; 0x2C167; 0x72597A; 0x1A940B; 0xAA67E; 0x27936D; 0x6B2D36; 0x236515; 0x3318C3; 0x665D]];
  [[0x7BF246; 0x38A54E; 0x17A2C6; 0x2DF25B; 0x22DEB2; 0x3B118A; 0x285430; 0x7EDA78; 0x20F2EC; 0x2DC0F9; 0x824DC; 0x35CC91; 0x2C8632; 0x1D44DC; 0x18CA86; 0x4A0FAD; 0x2945F8; 0x2D0D5; 0x1B8CB7; 0x2990A6; 0x19DEB1; 0x25B0F2; 0x568B1];
   [0x1B65CD; 0xCDCF7; 0xC0170; 0x180F0B; 0x16BD33; 0x2FFA3C; 0x40868; 0x5D604E; 0x100FF9; 0x336B67; 0x3FF1A5; 0x66724B; 0x3B381E; 0x2868B1; 0x10D47B; 0x776DC4; 0x246BA9; 0x2AD2CD; 0x2AAF38; 0xD0446; 0x2F27BB; 0x2943E1; 0xF4F81]];
  [[0x3D4A9C; 0x24A6D; 0x14B9E1; 0x52698E; 0x30AB88; 0x3B378D; 0x3E866C; 0x6C9349; 0x290E01; 0x1477AD; 0xE581; 0x1E06CC; 0x310918; 0x3193C5; 0x2B6332; 0x5EA944; 0x1F5E4B; 0x14F9B3; 0xE2522; 0x4FCF6F; 0x2A3D76; 0x48DB9; 0x1D02E8];
   [0x37AF28; 0x29FE6C; 0x9EDFC; 0x27B89F; 0x301D20; 0x32442E; 0x200E28; 0x2D5E74; 0x12B052; 0x3A45F3; 0x317F8E; 0x1621A4; 0x17C898; 0x337293; 0x17DFB5; 0x71E94B; 0x1F139A; 0x1769A4; 0x3BA6FF; 0x5D3122; 0x2F863F; 0x395F4; 0x259438]];
  [[0x698800; 0x3C6A37; 0x21F1BB; 0x4E8C9D; 0x33DB6; 0xA7B27; 0xE7C3D; 0x611E5A; 0x8E6DC; 0x1B99B7; 0x11169; 0xC1DEC; 0x2423CA; 0x17B20; 0xAB665; 0x2626D4; 0x23799A; 0x2806DE; 0x3692DB; 0x2B1EC8; 0xE1414; 0x26B167; 0x169029];
   [0x13B973; 0x3B4AF9; 0x31ACC0; 0x393363; 0xB4D81; 0x15A3AE; 0x2B3D90; 0x1BCC23; 0xCC79D; 0x3E07EC; 0x2EE5FF; 0x45B99C; 0x1C279; 0x1A54B4; 0x175534; 0x4FEA24; 0x10F58E; 0x343EB1; 0x39ED8E; 0x22AE96; 0x23467E; 0x318A7F; 0x29E05C]];
  [[0x6B581B; 0x2F4135; 0x7FED7; 0x60C57B; 0x3393FD; 0x93667; 0x4FA1F; 0x54919F; 0x229F53; 0x1AB18E; 0x11D07D; 0x2443C; 0x2AA483; 0x8DA57; 0x38A821; 0x7861E9; 0x24D8C3; 0x309579; 0x2A1002; 0x7B324A; 0x291FD3; 0x2937C2; 0x310CCC];
   [0x7B71A6; 0x3EB7A5; 0x395509; 0x3F58C6; 0x2932CB; 0x3417F8; 0xAD82F; 0x251085; 0x6F21E; 0x1588B0; 0xC136A; 0x4E6BB6; 0xC7C60; 0x15A2FF; 0x1965F4; 0x6B3224; 0x280D4B; 0x374E1; 0x187558; 0x7A1057; 0x1A4DB; 0x392A05; 0x2B7342]];
  [[0x102D12; 0x157E1D; 0x3819E1; 0x436EA; 0x33F4FE; 0x4D63C; 0x3A559C; 0x5758F8; 0x32A48C; 0x36F300; 0x3C06D5; 0x4AC77E; 0x12DD43; 0x1CDBEB; 0xCBE11; 0x3CB34; 0x3F6859; 0x144DCF; 0xBDC01; 0x38921F; 0x161041; 0xB8BE6; 0x2AC248];
   [0x67DD3E; 0x36DB63; 0x37BA32; 0xAF959; 0x25B293; 0x10059F; 0x35780D; 0x46380C; 0x18452D; 0x2B5B67; 0x16B7B2; 0x7AF664; 0x3C1F41; 0x97E6F; 0x3205A1; 0x725EFF; 0x3E2E86; 0x38F16D; 0xB458E; 0x385D51; 0x6670; 0x8BCC1; 0x98C17]];
  [[0x6DBF88; 0x2D6BB0; 0x3DFE61; 0x3DF76A; 0x35BAA; 0x984CF; 0x54134; 0x556ECD; 0x1F1973; 0x6D2EA; 0x2F57DA; 0x24A56A; 0x2A7755; 0x305FD; 0x1C8FD6; 0x481CAF; 0x3D0B45; 0xD68BC; 0x39248B; 0x290881; 0x1C8DB5; 0x250CE; 0xA5C50];
   [0x5313E5; 0x2F268C; 0x1D3B3E; 0x1FE5D2; 0x6955A; 0x336B39; 0x290B6C; 0x183F14; 0x25ED57; 0x6E18E; 0x245AB9; 0xAFADF; 0x1B239A; 0x3D1824; 0x286527; 0x619C72; 0x341914; 0x191683; 0x365835; 0x6A9C8D; 0xDCB56; 0x3D7D6F; 0x312DA6]];
  [[0x2A34A8; 0x11A273; 0x2EF0E7; 0x56ED5F; 0x22B29F; 0x3BC53B; 0x374AF6; 0x1209F7; 0x87894; 0x1D51AC; 0x1C55D9; 0x7EA51; 0x27A416; 0x2199BF; 0x398181; 0x50725A; 0x16D8B; 0x185F36; 0x22B389; 0x670F14; 0x3EE89C; 0x208598; 0x37FA4E];
   [0x2CBD11; 0x25CA10; 0x25A5C4; 0x73CCEA; 0x1D4A0C; 0x3E1189; 0x12D18F; 0x202D6B; 0x5142A; 0x673EF; 0x230DED; 0x5C9EF1; 0x199F43; 0x951F1; 0x1FA9B; 0x42FDCE; 0x3CF250; 0x333B05; 0x3487E6; 0x1A46EF; 0x9221A; 0x1601FA; 0xA8F97]];
  [[0x29B1A4; 0x1A205E; 0x10D45B; 0x9969; 0x3B86E1; 0x263695; 0x38303F; 0xF276E; 0x3DD7EE; 0x3D7B5; 0x19C4B1; 0x3248D5; 0x21E8FE; 0xFC768; 0x1F35EC; 0x2FB73B; 0x1B945A; 0x164C1B; 0x2F277F; 0x5EAE78; 0x71711; 0xC61BB; 0xAB2C0];
   [0x16DF7A; 0x15DC01; 0x2BA091; 0x11F44E; 0xB08D7; 0x2E9923; 0x92787; 0x2ADBB4; 0x3D7AA5; 0x9E226; 0x2384F8; 0x3614F7; 0x3BEA0C; 0x2456BB; 0x107C57; 0x4A575C; 0x760C6; 0x34DEA3; 0x2C29AE; 0x7702EC; 0x797DD; 0x2C2EC2; 0xB53B4]];
  [[0x4E14DC; 0xDCCE7; 0x268B67; 0x671423; 0xC36E7; 0x2EF482; 0x2A811; 0x4F450D; 0x19D6E8; 0x379047; 0x24CF74; 0x17F363; 0x242D1C; 0x34DF; 0x2AEC5D; 0x16D8E1; 0x15B2FA; 0x347EF8; 0x75A03; 0x6AFAC1; 0x10C4CC; 0x216803; 0x1AA96E];
   [0x57B948; 0x2E3492; 0x2E8BEB; 0x500CA7; 0x2A1860; 0x1B6814; 0x19C85F; 0x61C4ED; 0x2EF6B7; 0x38C2BF; 0x3C380D; 0x11C0C0; 0x11337C; 0x15C779; 0x136724; 0x50BF7; 0x5558D; 0x2EC289; 0x3637CA; 0x4B8113; 0x1A69CC; 0x301379; 0x3F1AD7]];
  [[0x12C055; 0xEB55E; 0xD7834; 0x27B02C; 0x3B78F0; 0x10001F; 0x2DD1EC; 0x44CC9D; 0x3F406F; 0x2BBD9B; 0x3D495E; 0x2D8896; 0x30CB6A; 0x1B5E53; 0x2AD9F8; 0x1E75BF; 0xF94EA; 0x57B4C; 0x370072; 0x14B385; 0x5ACED; 0x2C28F0; 0x3AB7D9];
   [0x20CF13; 0x225C38; 0x2B6293; 0x13F808; 0x344CB9; 0x33719D; 0x2FE2B6; 0x282CB5; 0x175559; 0x403EA; 0x359279; 0x5D8812; 0xB1A40; 0x3EE682; 0x16E724; 0x2FB1C5; 0x2F6BEE; 0x22778B; 0x19AEA3; 0x3D80A9; 0x32D9D1; 0x3BF23F; 0x2DBA08]];
  [[0x475A5B; 0xAF126; 0xE8D05; 0x37AAD9; 0x3350FF; 0x3B6DF1; 0xC70D2; 0x31341A; 0x166A1F; 0x3D3DBE; 0x21F7E8; 0x6D14A1; 0x39D159; 0x1EFA80; 0x32B317; 0x24939B; 0x1C82DD; 0x61D7A; 0x147571; 0x4FFE3E; 0x965DE; 0x28C381; 0xDFE6C];
   [0x35EAA0; 0x9123B; 0x32E9E6; 0x84111; 0xF226; 0x3CD924; 0xABC8B; 0x538B5D; 0x23291; 0xDB4A0; 0x10030; 0x328332; 0x1A2589; 0x233EA0; 0x17BE31; 0x586460; 0x12777E; 0x2D359E; 0xD0BCC; 0x245915; 0xF3FAB; 0x232DCC; 0x26CC0F]];
  [[0x6107A0; 0x348213; 0x1DB8EE; 0x3152F3; 0x29336E; 0x1572BD; 0x2314E4; 0x50D309; 0x2101EA; 0xEDBA; 0x11643A; 0x2A8161; 0x169D2D; 0x105B84; 0x7A268; 0x602253; 0xEAF07; 0xBF9C0; 0x1F44D9; 0xBADF; 0xB6708; 0xF4EDA; 0x27E80B];
   [0x79EA50; 0x12030F; 0x175D43; 0x5CD824; 0x334D4F; 0x2AEE35; 0x21CFB0; 0x199622; 0xCA221; 0x7BC44; 0x29CBBF; 0x19F06C; 0x34ECA6; 0x27BE0E; 0x2FE495; 0x705DBB; 0x2F6511; 0xD66C8; 0xC392A; 0x14BBEE; 0x7F420; 0x20EF1F; 0x2DD2C3]];
  [[0x1F311E; 0x35E164; 0xD7E33; 0x4EE0A2; 0x1B027B; 0x3AF8A9; 0x897E1; 0x4E7636; 0x2CFEBD; 0x349E23; 0x3A2005; 0x33A740; 0x273B7; 0x18397; 0x2783F; 0x201E98; 0x9D39F; 0xA5722; 0x2D49F8; 0x798C09; 0xC4014; 0x7D8C3; 0x2F570F];
   [0x477116; 0x161163; 0x2DF7BB; 0x1DD1D7; 0x3A92DB; 0x36ACFC; 0x211278; 0x55790C; 0xB98E9; 0x2EB711; 0x9D7B7; 0x3CD366; 0x622E0; 0xD9307; 0x1BD5F; 0x73A35F; 0x3FC1C3; 0x25C15B; 0x359419; 0x6A6138; 0x2A142D; 0xBBEDD; 0x8A742]]];
 [[[0x20495; 0x29C46F; 0x15C863; 0x1A9BE1; 0x2541BC; 0x3083D6; 0xE2B6E; 0x4DEA6D; 0x233C05; 0x93178; 0x300C16; 0x47A8A8; 0x3EEE62; 0x3A3FFE; 0x2D8A6E; 0x3747DF; 0x23EBEC; 0x3A703F; 0x57635; 0x4C2FF0; 0x13DB65; 0x28F19D; 0x333AB2];
   [0xA454; 0x3242C; 0x263770; 0x70C7F5; 0x7B940; 0x62CBB; 0xBB7CC; 0x1E3F; 0x107BEF; 0x24BD77; 0x3307A; 0x3C6EC5; 0x357523; 0x3FE203; 0x2F4B77; 0x39AB29; 0x9871; 0x3024E6; 0x1EAE16; 0x3F3D08; 0x29A969; 0x1642E9; 0x3925FE]];
  [[0xC8333; 0x134BA7; 0x9B871; 0x4CDC4; 0x289CA0; 0x1FC8D2; 0x39D91B; 0x38FC3D; 0x19773B; 0x6D4DF; 0x6221A; 0x4F1A1C; 0x10AF9E; 0x18553A; 0x130550; 0x111A01; 0x3C7519; 0x287566; 0x1644E8; 0x41602D; 0x32CDC1; 0x1C2B40; 0x30A48F];
   [0x42DCF0; 0x8B28F; 0x3EC6F9; 0x6A8D26; 0x34DBA9; 0x2BD050; 0x3FE19C; 0x30096C; 0x13965D; 0x10C86; 0x3C6698; 0x731549; 0xAAA24; 0x10C344; 0x3F7448; 0xC5964; 0x19616E; 0x35336F; 0x723D5; 0x244786; 0x2452D1; 0x1F0B6A; 0x31D0BC]];
  [[0x1ABEAE; 0x140094; 0x25F718; 0x1FFB06; 0x2CE72A; 0x678CF; 0x7D404; 0x73CB92; 0xA9FC4; 0x668BB; 0x27BD0D; 0x2BDE2E; 0x3EDD2C; 0x154AE6; 0x290863; 0x334512; 0x1E546A; 0x2467D8; 0x6CBDB; 0x2139AD; 0x1CED3F; 0x217DC2; 0x1F626B];
   [0x390DFD; 0x2F8B3; 0xE30AF; 0x5D7A3; 0x1EFA22; 0x2CAFDB; 0x4971; 0x2EFBEA; 0x1F4ACB; 0x302B99; 0x1DFC66; 0x7364F2; 0x371C65; 0x28108D; 0x3C66ED; 0x5D7568; 0x212DC4; 0x11A56E; 0x34EE5A; 0x31E1D4; 0x3CF9C2; 0x3EB41F; 0x3C84A7]];
  [[0x7FF718; 0x32692; 0x2F052E; 0x755B72; 0x3D2345; 0x38E6DD; 0x25DC5A; 0x65158E; 0x35F9E0; 0x19A28C; 0x178B35; 0x44D5B8; 0x39CE59; 0x379216; 0x98649; 0x105E9E; 0x37A436; 0x35A4A6; 0x87244; 0x2AA631; 0x1E9EDB; 0xA2622; 0x1D1531];
   [0x3C8CB9; 0x3D6118; 0x179E49; 0x2B0C0C; 0x39C364; 0x2CA57A; 0x3F8C54; 0x1FB453; 0x3C0C82; 0x3B2FF0; 0x3A2B7F; 0x58C732; 0xC6E03; 0x30EAAB; 0x2A43FC; 0x29DF25; 0x2B4F; 0x22A3CA; 0x104844; 0x4A0B3B; 0x1849CB; 0x1C4653; 0x2F1596]];
  [[0x1D4A19; 0x35FDF4; 0xF8F5B; 0x3FF4B0; 0x157527; 0x15F4FF; 0x337DA4; 0x2BC44F; 0x223C67; 0x1B663C; 0x281B4B; 0x78BDF6; 0xD0B3B; 0x99BBB; 0x2A4438; 0x512DEC; 0x7055E; 0x2AF2F0; 0x2C9105; 0x23E635; 0x1CB35B; 0x28C1C2; 0x2DE4D1];
   [0x140ADA; 0x11EC68; 0x18DFDD; 0x6F5E0E; 0x185618; 0xB38F8; 0x3AC86; 0x345A9C; 0x18811B; 0x34EF90; 0x309FA7; 0x2657B1; 0x26A02F; 0x3FB112; 0x3E8E9A; 0x4E6284; 0x310F7A; 0x13E7DA; 0x14C174; 0x38C1FC; 0x26EC4A; 0x18C688; 0x2A438F]];
  [[0x4F0ACF; 0x1C15FB; 0x3CD5C1; 0xD2292; 0x25B6A8; 0x221999; 0x16BA08; 0x792A56; 0x215FF2; 0x2B39F1; 0xF2F96; 0x25D28; 0x29609E; 0x351C7F; 0xA603D; 0x3F3CD9; 0x24C3B; 0xC25E9; 0x2157FF; 0x3E3F6F; 0x15898B; 0x7923F; 0x11A75F];
   [0x1B8989; 0x36B95E; 0xB28EB; 0x6F0F0E; 0x1BB501; 0x29744C; 0x2C2A82; 0x6278D2; 0x6D540; 0x338072; 0x23F135; 0x6B3C7F; 0x3F9CA2; 0x3069ED; 0x1454A7; 0x1CEA39; 0xEDAE9; 0x2BF356; 0x3B1BD9; 0x73EF3; 0x3041D7; 0x96064; 0x142C76]];
  [[0x68FFC6; 0x3C11C5; 0x31DD2F; 0x2086BC; 0x213A20; 0x198C3; 0x3C70AA; 0x64A691; 0x3F88A6; 0x10B222; 0x1133AE; 0xD81A; 0x8B4F2; 0x37B644; 0x20B08F; 0x2B77A7; 0xAEF1B; 0x2AB9A7; 0x1FFD9C; 0x2D2887; 0x1829D4; 0x291E60; 0x24DD09];
   [0x5A1EE9; 0x858BD; 0x6666A; 0x665E27; 0x1E2D76; 0x151594; 0x3CBB31; 0x274D76; 0x385369; 0x2D97F4; 0x213614; 0x5429E7; 0x1A6A17; 0x22689; 0x7C22E; 0xCB237; 0x3B33BC; 0x3A2CF2; 0x1014A7; 0x4AFB82; 0x3DB97C; 0x16FCCC; 0x1D22CE]];
  [[0x583D1F; 0x1CAB29; 0x21DFFC; 0x579859; 0x239960; 0x287022; 0xFBF8A; 0x522225; 0x84A9F; 0x24948B; 0x2CC83C; 0x67C4AC; 0x34836D; 0x216546; 0x364159; 0x3ADB5A; 0x3CEB5; 0x345B44; 0x2138FD; 0x1743CA; 0x69ABD; 0x23EC4A; 0x50B88];
   [0x6438C3; 0x369425; 0x279B67; 0xD0143; 0x1F364D; 0x177C5D; 0x95B66; 0x2B4C4F; 0x2C159D; 0x4AD5B; 0x177C82; 0x33A0E4; 0x3ACCD6; 0x34623F; 0xF5D74; 0x680AEF; 0x2D31E0; 0xBB398; 0x233354; 0x253484; 0x385E50; 0xF78CF; 0x322BA]];
  [[0x724124; 0x30C69A; 0x310E26; 0x278477; 0x12FFD4; 0x5570F; 0x3EBD03; 0x6F51F4; 0x43A21; 0x1A4CEA; 0x172D44; 0x696C4A; 0x3FA9A1; 0x26633B; 0x5F2B7; 0x2C7C4; 0x3A452; 0x3F240B; 0x3CBC7E; 0x74F43; 0x2F68A2; 0x623F6; 0x1D4282];
   [0x14B428; 0x3E7D33; 0x2520C7; 0x41CCF2; 0x233BAB; 0x1589F9; 0xD2E6E; 0x1FFD7C; 0x1DCFD2; 0x390FFE; 0x31026; 0x772372; 0x10F507; 0x39D935; 0x11504F; 0x41B316; 0x1B31F1; 0x309FCB; 0x2D1468; 0x238297; 0x1B6605; 0x1B59F9; 0xB6C96]];
  [[0x43F6C2; 0x763DF; 0x308091; 0x6DDCFF; 0x2FC758; 0x1EFF60; 0x18180E; 0x5F0A71; 0x1E4437; 0xEADD7; 0x12CA06; 0x24EF90; 0x188475; 0x18B6D9; 0x1DEA6E; 0x44FC14; 0x3D1458; 0x31E96A; 0xE2DAF; 0x628BB3; 0x2A2193; 0x11F06; 0xC91E9];
   [0x482FED; 0x2528F8; 0x2FD25C; 0x261308; 0x139233; 0x302E3F; 0x2A13B0; 0x7DEDA6; 0x11FB4F; 0x8FBA1; 0x196CC9; 0x51E7E4; 0x5A421; 0x3784E4; 0x174AFF; 0x4725BC; 0x4CD05; 0x26FA6B; 0x1805BF; 0x17519D; 0x1A7B71; 0x280018; 0x26EC17]];
  [[0x1C205B; 0x2CCC69; 0x30F0E5; 0x192A4E; 0x3D1B67; 0x20DAE2; 0x769DE; 0x1BFA4D; 0xB7649; 0xC1B2B; 0x38C90F; 0x1D0BF8; 0x577CB; 0x190B4F; 0x3E238F; 0x52DFF8; 0x10D0F0; 0x218C9; 0x13F89C; 0x714803; 0x3A6F8C; 0x353B6D; 0x2FFEEA];
   [0x30C7D2; 0xCA103; 0x21611C; 0x188899; 0x1F54E9; 0x10620; 0xAE01A; 0x7A2DB9; 0x2A9401; 0x209C63; 0x389F5D; 0x196FFF; 0x2CE291; 0x340A01; 0x3FF906; 0x2C42FC; 0x37C6A3; 0x1146A7; 0x44BAD; 0x63D883; 0xBAB16; 0x1FF085; 0x140B79]];
  [[0x32C0E7; 0x208DFF; 0x2F6660; 0x70C915; 0x2D9AF5; 0x12AB64; 0x15326E; 0x1E8920; 0x31383C; 0xE45C6; 0x3FF494; 0x792407; 0x21A39A; 0x3EFC30; 0x8C932; 0x31D0D5; 0x13E9B1; 0x16F25F; 0x251F58; 0x1D0CCC; 0x189479; 0x1E2A1D; 0x1548E8];
   [0x7ED4E4; 0x3831E3; 0x36B65B; 0x173DB0; 0x30B4B3; 0x3B0A38; 0x176695; 0x22F024; 0x2DC536; 0x26D641; 0x3845E6; 0x6AE213; 0xF1253; 0x35B8B4; 0x2D1D2C; 0x26072B; 0xC4DFF; 0x98C06; 0x3973E5; 0x6E815F; 0x35E739; 0x4E25A; 0x323E06]];
  [[0x18218E; 0x1C5A05; 0x156FEA; 0xDEF36; 0x3405AB; 0xC8D8A; 0x3D4CE6; 0x36C6B1; 0x26347B; 0x2BEC62; 0x135B49; 0x4ED20D; 0x2BCE15; 0xA503C; 0x30279F; 0x124E30; 0x3AF38A; 0x8EB83; 0x141065; 0x4DF4DC; 0x176DD3; 0xFCB73; 0x229CD];
   [0x4041C; 0x3CAB13; 0x29B3E4; 0x1B70DE; 0x9B3A; 0x2C70AC; 0x272EDA; 0x10407E; 0x645F0; 0x1E2E70; 0x502A8; 0x794831; 0x3AE5DE; 0x2799EA; 0x1CAFA4; 0x6E7B51; 0x8984E; 0x12EF3F; 0x25E7; 0xDDA10; 0x119536; 0x3D6D8D; 0x6C12F]];
  [[0x435EE4; 0x163D6; 0x377C11; 0x3BD7D6; 0x2E05F5; 0x1FBA80; 0x107C07; 0x681A61; 0x5189C; 0x2C249; 0x3607CD; 0x957D6; 0x3F952A; 0x8ECBA; 0x1E29E1; 0x33462B; 0x22898D; 0x1AABD5; 0x2E885C; 0xA2647; 0x37A37C; 0x297E79; 0x2A2CA3];
   [0x2C1A17; 0x158B61; 0x16816F; 0x53A5A8; 0x1547B2; 0x30AC66; 0x202C4C; 0x274C07; 0xD322E; 0x4A3E0; 0xF7BC7; 0x102196; 0xC81FB; 0x358316; 0x63F2B; 0x7FF11C; 0x25FFE3; 0x256744; 0x2E91A0; 0x64976E; 0x38C948; 0x396FAC; 0x37CF6E]];
  [[0x794F1D; 0x2B6A50; 0x120AE4; 0x1CEC0F; 0x383F87; 0x216277; 0x286CEA; 0x103D5A; 0x2AA574; 0x3D3491; 0x22931D; 0x489498; 0x32EEF4; 0xCA2AA; 0x80A27; 0x7FA661; 0x94E9A; 0x3EE29E; 0x2AC21C; 0x1CE359; 0x3330FC; 0x1C6ADE; 0x187790];
   [0x340EF5; 0xBDD62; 0x333909; 0x39146A; 0x38BB2E; 0x30F37; 0x143B07; 0x31CC3D; 0x2B5B5C; 0x5892; 0x52BD0; 0xA282B; 0x30D9C5; 0x1004FC; 0x38922A; 0x241A2; 0x53C3; 0x2C02CA; 0x2D4F8F; 0x4AB17B; 0x3667C0; 0x4EF7E; 0x80E4]];
  [[0x5FA89B; 0x1D2F7D; 0x19B385; 0x53B863; 0x22E414; 0x11C620; 0x1F0CA5; 0x1B475A; 0x3E5B07; 0x20C305; 0x18A591; 0x7DE564; 0x1F654F; 0x3F1044; 0xD7B16; 0x4E51E7; 0x267972; 0x2A42F3; 0x159C2; 0x16007C; 0xF9CA8; 0x21184; 0x7FCE7];
   [0x45B0F; 0x2C5; 0x33642B; 0x38378F; 0x1F29A8; 0x18130B; 0x340B0B; 0x7667B7; 0x38B986; 0x218A5C; 0x20D3E4; 0x2B84EB; 0x1DBF61; 0x6E45C; 0xC2528; 0x3D5B87; 0x3B9631; 0x16FFC9; 0x2577D8; 0x84014; 0x326179; 0x2B97FC; 0x17D9B9]]];
 [[[0x24FC6B; 0x260048; 0x27A39B; 0x4A6771; 0x2F8996; 0x250571; 0x22BD5A; 0x16BA95; 0x177752; 0x3AAE54; 0x382BC; 0x2DBDCA; 0x175D11; 0x485AB; 0x263BCC; 0x2CA217; 0x33AA31; 0x1EB58F; 0x1CAA07; 0x439150; 0x3350D2; 0x2E0A1C; 0xB60E4];
   [0x6AFAB6; 0x1979BD; 0x206F5D; 0x4F0B02; 0x1DC842; 0x32D59A; 0x1DC451; 0x22D419; 0x3471; 0x178E67; 0x2D0057; 0x6162BD; 0xE5A47; 0x139F7C; 0x6E056; 0x245E47; 0x179C; 0x28BA82; 0x229B1F; 0x3B6E93; 0x12AE29; 0x17CD91; 0x14F8C1]];
  [[0x340D60; 0x77299; 0x3D596C; 0x5CAB48; 0x18060B; 0x108F8B; 0x155345; 0x555740; 0x6639B; 0x966BA; 0x28B692; 0xE0989; 0xE36E6; 0x3EA5CF; 0x3E7233; 0x2BCE85; 0x3B53C6; 0xB6428; 0xCEB17; 0x1439C1; 0x3E1768; 0x182028; 0x63591];
   [0x4C6A3E; 0x3B6B4; 0x308620; 0x42D6E7; 0x688FB; 0x242205; 0x15FD4B; 0x6548A0; 0x73894; 0x59483; 0x70BE7; 0x5EC1A3; 0x138AF9; 0x59A16; 0x721C1; 0x3D327D; 0xAC881; 0x8254B; 0x291DB6; 0x202301; 0x2587BC; 0x2F4480; 0xBB989]];
  [[0x44D64A; 0x169A22; 0x198EE3; 0x1C1CF3; 0x1ABB64; 0x2B70C; 0xD1B40; 0xB41C; 0x1A07BF; 0x31380A; 0x37E0A3; 0x5959D5; 0x195DCD; 0x318DBC; 0x14119; 0x39F9F8; 0x2F8B00; 0x35A9F; 0x1F77ED; 0x42F50F; 0x10F6EB; 0x18D31; 0x115505];
   [0x4A9CF0; 0x396AE3; 0x2F36DC; 0x59C454; 0x2372E1; 0x17C289; 0x1DC88C; 0x568BBB; 0x38AAF3; 0xAC735; 0x1D93C9; 0x79763F; 0x474DE; 0x1FFEA5; 0x32E7A4; 0x286D83; 0x1C592E; 0x2E08D4; 0x3C918F; 0x635953; 0x125ECD; 0x218E30; 0x38E348]];
  [[0x1F97CB; 0x27C45; 0x4CBBC; 0x3C768C; 0x2150EB; 0x309BAC; 0x1BD192; 0x449D0C; 0x27761; 0x334EC9; 0x4B563; 0x63BBA5; 0x22D5EC; 0x36D1DC; 0x22C410; 0x5B8D6B; 0x182967; 0x2A4F38; 0x111A50; 0x211F1F; 0x1EDAD2; 0x18C6ED; 0x195251];
   [0x2C575A; 0x368BF8; 0x1817CE; 0x23D30F; 0x335F3C; 0x3D8B6B; 0x36535C; 0x6E800F; 0x1D0FEE; 0x1D0E1D; 0x1030F4; 0x575F2F; 0x272DE; 0x12885A; 0x1E98BE; 0x2CEF1; 0x343652; 0x26244E; 0x112950; 0xCF99B; 0x39E10D; 0x19A48E; 0xF62D8]];
  [[0x7F47CB; 0xDB92B; 0x1CFE89; 0x438C82; 0x2F9B60; 0x29F531; 0x36DACC; 0xB743F; 0x14BFCA; 0x3076AB; 0x61C92; 0x402803; 0x1F9BBE; 0x2BB4F0; 0x1D49FC; 0x39DA58; 0x1B9F65; 0x1A4032; 0x1853D6; 0x77F83B; 0xBA641; 0x28F440; 0x36529];
   [0x469CBC; 0xECB6B; 0x3ED688; 0x448228; 0x125E0; 0x1294BB; 0x3209CD; 0x431140; 0x24ADFE; 0xA297C; 0x343443; 0x3DC6B9; 0x3A8F4A; 0x3CD200; 0x27F94A; 0x26C683; 0x1010D7; 0x291317; 0x1C01DB; 0x323A9C; 0x18F9E1; 0xFB990; 0x1C0FD8]];
  [[0x2529B0; 0x47C33; 0x105D03; 0x668833; 0x1D8A87; 0x1BE267; 0x2E8A17; 0x1BA406; 0x12683B; 0x32EFBE; 0x33C9C9; 0x3816FD; 0x1E2856; 0x1FA678; 0x34CF0E; 0x2BC6D4; 0x21D8C3; 0x138A8F; 0x301A91; 0x7BA5BF; 0x27ADBF; 0x84950; 0x3344F2];
   [0x1D7DDB; 0xB9FBD; 0x3A23D1; 0xDAA8E; 0x15296C; 0x378879; 0x80207; 0x6DACFA; 0x2C4D0C; 0x3E240; 0x5CDBB; 0x4B5100; 0x24673C; 0x3EDDC4; 0x1C3104; 0x4EC191; 0x1B0572; 0x2EE934; 0x1E439A; 0x8B8BC; 0x1D336D; 0xC0450; 0x264399]];
  [[0x63BA75; 0xE5577; 0x2D84D8; 0x11F137; 0x3C0568; 0x1FCF04; 0x369E84; 0x26107B; 0x3793D0; 0x2FF753; 0x80D0D; 0x9FE5B; 0xD568B; 0x306219; 0x57FB4; 0x251274; 0x28F357; 0x1868A6; 0x245601; 0x694DDA; 0x1BF932; 0x291545; 0x834DF];
   [0x5DE7C7; 0x43FB9; 0x2022F7; 0x6DD20B; 0x34DB2B; 0x9812A; 0x634E5; 0x529BDD; 0x37E7AF; 0x20131E; 0x28145E; 0x7D781A; 0x3F2E11; 0x90377; 0x1FF3F0; 0x29544B; 0x4B34A; 0x308A92; 0x230957; 0x30849F; 0x3BD197; 0x36543D; 0x13DB50]];
  [[0x6DBC4E; 0xB8C36; 0x33C975; 0x1B98FA; 0xE1469; 0x3F57BB; 0x366AF6; 0x2940D4; 0x2A7401; 0xB24FA; 0x3D079C; 0xBBF2B; 0x1C8DA1; 0x281279; 0x3FD16B; 0x5F172D; 0x3BC575; 0x3F2EE; 0xEB6E0; 0x25AA43; 0x19146D; 0xE2FCD; 0x708D1];
   [0x188A0A; 0x3280E1; 0x375AE3; 0x5DEF79; 0x30CA8C; 0x11A4E2; 0x1A18EE; 0x15160F; 0x3D4633; 0x210DF1; 0x39513D; 0x32B85; 0x562C; 0x2B09DE; 0x12E5D7; 0x343965; 0x2482BA; 0x358D60; 0x210688; 0x1DE534; 0x37E47D; 0x306432; 0x331A00]];
  [[0xE3961; 0x136E2C; 0x396117; 0x3A4EA9; 0x2B633F; 0x331384; 0xE6FDA; 0x110B81; 0x83F56; 0x10E231; 0x377F5B; 0x777CBF; 0x27D587; 0x16725E; 0x22FAFB; 0x50FCA0; 0x35E866; 0x1F6AF5; 0x131AFF; 0x31B90B; 0x3D8FC9; 0x3CCAEF; 0xBCF90];
   [0x37CE7B; 0x3B57EC; 0x161E92; 0x65355B; 0x24637B; 0x8B2C0; 0x2E6FD; 0x1ED2F1; 0x24A016; 0x22B354; 0x19306E; 0x3009F9; 0x130478; 0x39951C; 0x3B9F26; 0x129D8E; 0x28EAE8; 0x2E0532; 0x2312B7; 0x1904D9; 0x1F8FB7; 0x306139; 0x191E58]];
  [[0x315B6B; 0x6110B; 0x2D0F7A; 0xB35D8; 0x39DD74; 0x13BF7F; 0x88A74; 0x678A54; 0x27C11E; 0x39299C; 0x9E852; 0x3A9738; 0x3BA90B; 0x3C704C; 0x31EAD; 0x3F9F6D; 0x60C99; 0x210078; 0xA43CC; 0x1D2C3A; 0x16F165; 0x2CBE20; 0x3CBD2A];
   [0x6EA72C; 0x19FAA9; 0x27119B; 0x2DB4; 0x3FC202; 0x258426; 0x17A426; 0x591EA2; 0xDAAC0; 0x160BB2; 0x2B5C9B; 0x34552F; 0x354208; 0x3F73F6; 0x1D329F; 0x541523; 0x1D2733; 0x3E6DA0; 0x58267; 0x2FD1CD; 0x3085B8; 0x37B13E; 0x11D71D]];
  [[0x4EF58F; 0x111078; 0x2A7D65; 0x32333E; 0x11BB9D; 0x33FA14; 0x1ABD10; 0x7F9C0D; 0x12F21C; 0x3C4D14; 0x3A59E2; 0x17140E; 0x3EC05A; 0x2B8323; 0x13D487; 0x61B630; 0xC1262; 0x34A7E5; 0x18DA22; 0xDA70C; 0x1E1E78; 0x37CE10; 0xBEBB1];
   [0x4F54F0; 0xA220B; 0x161352; 0x7E4EA4; 0x2878DE; 0x1C80E5; 0xC0855; 0x75DF3B; 0x39D0AB; 0x1D0301; 0x1594B9; 0x78140B; 0x1A2C01; 0x28FCE5; 0x3C573C; 0x6E543; 0x3A90E6; 0x2D4FDD; 0x22B1F7; 0x62CB04; 0x2C12CA; 0x389E83; 0x7631E]];
  [[0x23C68B; 0xF609A; 0xD7E01; 0x69E56B; 0x3D496; 0x1BC8DC; 0x328E76; 0x316565; 0x11A340; 0x374048; 0x16C79E; 0x14449B; 0x2EE9B6; 0x32A11; 0x1212A3; 0x3D35C1; 0x3485FD; 0x1199A6; 0x1C3F0D; 0x17F8CF; 0x14AC02; 0x1E0EB1; 0x1ACA7C];
   [0x31C47A; 0x102E12; 0x2F6F4B; 0x5B2D93; 0xA9886; 0x1CC034; 0x23E81B; 0x1A7CE; 0x29ABC3; 0x4048C; 0x2BC25D; 0x368ABA; 0x2746C; 0x373868; 0x61AA2; 0x56401C; 0x207F34; 0x1FCA2D; 0x169B9E; 0x64FDA3; 0x28C18A; 0xC0847; 0x1845F0]];
  [[0x2F9AD9; 0x9590F; 0x130486; 0x59CC83; 0x39A337; 0x22C7C7; 0x3C259; 0x602650; 0x8510C; 0x384F8A; 0x1F3AA0; 0x3706DA; 0x69456; 0x2AD7C; 0x3A14; 0x7327BA; 0x2F7478; 0x1FBB28; 0x23BC3E; 0x7F5AB5; 0x1FFF4E; 0x188D11; 0x13BC8B];
   [0xC111; 0x6AA72; 0x12A2E9; 0x55127A; 0x3C8991; 0x36CFBC; 0x37F0BB; 0x655B21; 0x2B75E3; 0x336687; 0x210878; 0x89C2C; 0x3CEE92; 0x143383; 0x371D45; 0xBCDFE; 0x238367; 0x1C2D8B; 0x3E06AD; 0x53DBC8; 0x2A9F89; 0x2955F8; 0x137029]];
  [[0x2FB5B; 0x32BB27; 0x1EE694; 0x2E2965; 0x395F01; 0x3FEC08; 0x3ABDFB; 0x68B88B; 0x221DB7; 0xF72D1; 0x3F9DC; 0x5C1B93; 0x73A9E; 0x160BD0; 0x53416; 0x23242A; 0x10FAB9; 0x6D2C5; 0x236E83; 0x54747B; 0x63F98; 0x1A8789; 0x3DC7DA];
   [0x463909; 0x29E3B4; 0x2F0E2; 0x593390; 0x34320B; 0x3F6A3B; 0x2603E4; 0x16676; 0x254C99; 0x23EB7B; 0x119D88; 0x3D63F8; 0x350BC8; 0x140757; 0x2473C4; 0x34D831; 0x17BDB7; 0x3E24EB; 0x231FE3; 0x70EC64; 0x43E18; 0x2A4D4F; 0x5D554]];
  [[0x6FC15D; 0x1F5830; 0x8AD9E; 0x2845F0; 0x1CD01E; 0xCFC1; 0x32AE8B; 0x19E673; 0x30C5E5; 0x50166; 0x372FAC; 0x57147; 0x4060F; 0x163807; 0x2BCADD; 0x376726; 0x28315B; 0x9418F; 0x1E2957; 0x6D28BE; 0x1BCADE; 0x31A352; 0x52575];
   [0x404C1D; 0x24FA31; 0x12C7A3; 0x7D71A8; 0x28D167; 0x20B8E9; 0x32697E; 0x202C6B; 0x32212; 0x3AB37D; 0x29EEED; 0x239F39; 0x7DC00; 0x3BD86F; 0x3B948C; 0x5D1965; 0x3C74AD; 0x1EAB46; 0x255C49; 0x2402DB; 0x4833F; 0x181728; 0x2C23A4]];
  [[0x69003; 0x1493A6; 0x3F6B49; 0x1B15E2; 0x3CB610; 0x3AC0D8; 0x12E96D; 0x4C065C; 0x318C4E; 0x151ED2; 0x2348E6; 0x6AE001; 0x12C641; 0x126DF2; 0x1D6E0A; 0x227223; 0x3493D1; 0x27ED79; 0x97233; 0x4AB1D; 0x2E7F5A; 0x3ED69A; 0x3D2512];
   [0x2D81D0; 0x12CD40; 0x296981; 0x7D52C8; 0x2B5E71; 0x18553C; 0x3F8695; 0x730395; 0x50DAB; 0x15BCBA; 0x220A46; 0x762FDE; 0x29B8D0; 0x25890A; 0x2D307D; 0x77543E; 0x1F282E; 0x300B63; 0xF826D; 0x344F5F; 0x17B455; 0xFA526; 0x13C162]]]].
