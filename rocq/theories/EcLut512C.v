(** The tables lut_cmb of ecp_id_tc26_gost_3410_2012_512_paramSetC.c as they are written there, for both widths. *)
From Coq Require Import List Uint63.
Import ListNotations.
Local Open Scope uint63_scope.
(** lines 2158-4094 *)
Definition lut_512C_64 : list (list (list (list int))) := [
 [[[0x12; 0x0; 0x0; 0x0; 0x0; 0x0; 0x0; 0x0; 0x0; 0x0];
   [0x303EE73001A3D; 0x404B2BAAE7600; 0x72E65E120AC45; 0x27BAFC1A31744; 0x116EA5B2867BC; 0x6117F7B386695; 0x501794368D9A5; 0x7403C541FBF61; 0x5785AE6564ADD; 0x234D7BCE8FD8F];
   [0x646C41601E12E; 0x549120444C03; 0x14329D44C1CE3; 0x4B25B9D77A2D8; 0x39C7A68D74B3D; 0xD3AF6A9F7367C; 0x21A86BD5F4DA0; 0x2843DEA3B74DD; 0x276643211439A; 0x7B72B4861D41A]];
  [[0xDDC3263F14838; 0x1CBD1F17B2BCB; 0x2BAFA22A82009; 0x5322387667A03; 0x55B751CB96A65; 0xA0DFD0340FDE7; 0x5C48FB27C4503; 0x268CD738A33D9; 0x1B2D195DC6145; 0x6EA96DB2EACC];
   [0xBBCD609E2FF0C; 0x5F4AE7E31E8D1; 0x360BD6E15CC1F; 0x409CF3A7414FB; 0x31EE2AD0268C7; 0x5CB4FB4D93FBB; 0x3CADF6924D45D; 0x1C5874E363854; 0x37EFA0AF03B97; 0x1148D12E29B3];
   [0xE0DB54C224325; 0x10454C4B66E25; 0x648D062587B3B; 0x3D2EE25796057; 0x4BB47D7FDE7C; 0x244DB1E9D557B; 0x6BE33D5802F21; 0x42132C57B6D1F; 0x3D487A5698542; 0x7C1540EB060D1]];
  [[0x79342FE30B9C8; 0x41A8C6FF7B725; 0x75CAE2380D311; 0x38F8B24FD7BC3; 0x4844218778181; 0xC42D63D57509A; 0x535D988A70AAF; 0x1A3FD38C3746A; 0x1E914A2CBA533; 0x4D2080711F2B0];
   [0x9F2BA98B41E21; 0x615CCDD4A12CF; 0x3EE0BB3543CA8; 0x15A62A2476E14; 0x61C939A6ECEDD; 0xBE481A4C0C342; 0x795DEC470D8C2; 0xABE2CB782E96; 0x7A7D6BF78D7EE; 0x4E3A1B9FC9045];
   [0xBAEA9645E541E; 0x2D492585BA0C5; 0x114FE72026DC5; 0x53A929E20E410; 0x60E85CF97390E; 0x7D39ADBD8478A; 0x2063C667C0601; 0x742C442708702; 0xA2426FB29578; 0x48CBFCAE1F773]];
  [[0xA0BBFED323C86; 0x6F7539EA3736E; 0x5DF9B59EA30BF; 0x5D9C303700CA0; 0x1AB39B96006A3; 0xD38FB4C2CE047; 0x4257F3B363F21; 0x18E0BAF6472A8; 0x483ACD523D9F5; 0x36FACA6C25759];
   [0x231905C4CD0FD; 0x16CA0261FB96E; 0x31D0ECAC833D3; 0x3E05643F857D5; 0x40F272FCC47D; 0x67E5354B2A5B5; 0xAE3CF45E8B10; 0x599F3DD49B217; 0x626891D86B28E; 0x3E3F07489D3C0];
   [0xC646BFDF7F340; 0x1913CBD57D3CE; 0x4B9386B4B830; 0x7C9304B89B5D0; 0x7520EC2D81FB; 0xD50731E5F0DF; 0x6129D0F7AD03D; 0x2FA03D5A61196; 0x1A9011556D653; 0x2A7D6F6C7BDB0]];
  [[0x61D011098A411; 0x260BCC6C7F863; 0xE1117CD19373; 0x4B68FE728DDED; 0x2AA52ACFB998D; 0x15AD84E849B1A; 0x2CBCDF89B3EA6; 0x67ABD295869C6; 0xC524BC70CA4A; 0x4C62E5FE7557E];
   [0x7CFBEC39A14E2; 0x626369976E030; 0x32365D9DEE36F; 0x734EC026C36B6; 0x75F2357A20A57; 0x6C63528ED47F5; 0xE985E6F0FA99; 0x59351FE01E099; 0x2C483F70283A2; 0x4E1A30B241A78];
   [0x3579D4EB3F8B7; 0x127186D359C4A; 0x625FBDA161934; 0x786DE6F454C06; 0x32BA63340A9DB; 0xCC026D945494; 0x79206668566B; 0x46E3529640A46; 0x533DFE4808D98; 0x1202AEF1AA871]];
  [[0xD5A034C320711; 0x46D5DEC9CBE0A; 0x2FD14714E2D8B; 0x71E0CE392B781; 0x6EE842039DCC6; 0x2AFE7EEFBE82E; 0x1706CA91CE495; 0x5B0F58587732F; 0x3BA85FDED0A5B; 0x54CEBB3898127];
   [0xA6C4C3C22D5DC; 0x3FD092008F2AF; 0x678C1C38BE060; 0x29494E571D7ED; 0x679B640BD621E; 0xE89487D97914B; 0x3B91C01A032CB; 0x5715AFC07377B; 0x6AB64B7814DA4; 0x5E7734E1241FA];
   [0xEBC29D557AFE2; 0x15EA9E492702C; 0x39B8FF4CB3E25; 0x5D3DA87AD6898; 0x1B20F6958F437; 0xFE179ED072875; 0x3299FC0106D8A; 0x63AB8C98927F6; 0x4425DDEB4A8FE; 0x21FCE1531E24E]];
  [[0x7745E07BBFFEF; 0x7125991A3183C; 0x288F58C85404B; 0x5F0E01F988465; 0x58A085EA50075; 0x6AB7768A5A2B; 0x43ABF68337850; 0x75B86C98A35FB; 0x612842EA8B184; 0x109A8BB7AB3ED];
   [0x4F08D1A6DDAC3; 0x5B2B420BFE682; 0x10DFAF256A129; 0x1B6CDADBEB8E5; 0x6F611F5281A54; 0xA1B472B862641; 0x335A2003B6703; 0x8AD4CAD5F73B; 0x7A0EC3F0E578C; 0x23141F13E5FA2];
   [0x5188CBAD97549; 0x1F6C5FC0F255B; 0x36A526CAC9622; 0xBB287D684ADB; 0x6F28BF1F5FA01; 0xD7D8997333372; 0x236EF8A6D2653; 0xC2BF98DACC6E; 0x2FA4352B452E0; 0x43FDC45864176]];
  [[0xEA137F595EE0D; 0x179D93A5775A9; 0x1E0372E081E93; 0x3A69DAD123CC1; 0x25A2C66DE635D; 0x2EEA6D51CD899; 0x3138B80BA676F; 0x411B2C78B4F07; 0x7AAE1E0D50C65; 0x528F5BDE8B6D3];
   [0xD742C7F0B19BD; 0x6DBF28C91828A; 0x76FE332464CA9; 0x1873DC4EBC9D9; 0x14016F9C485A4; 0xF894AD46EB122; 0x6AE2B805EB995; 0x4C6AF846DDB3; 0x4C43621B2FA9D; 0x1C9C1089132C7];
   [0x7B12746972BA5; 0x10D7707EB91D0; 0x57125FEF70465; 0x722135480EB9A; 0x439824482D29B; 0x19B590375A86B; 0x732235FA4483D; 0x35CD4C74AE3F3; 0x76A29C3A22075; 0x1E3D85B615311]];
  [[0x5CCC96BFF3A5F; 0x1D6DCC8ACE7EF; 0x1B8A8497C7E75; 0x1448EF2271B21; 0x469E763024DA6; 0xC1E4859EDB4E8; 0x22B32D11EA0B8; 0x7833F6716976E; 0x56E62E2CC647C; 0x60A6CC7E8F469];
   [0xA5D20AC5EDF20; 0x6BD1CB9C662A5; 0x53F695AD3F0C; 0x3BB68B21BAC80; 0x6FA23083E49C3; 0x960F58A7F49C4; 0x534DF3026534A; 0x68C4D4E5AFD06; 0x3C47E39095B9; 0x113AD9DE11151];
   [0xAD10BAF7B6E7F; 0x5FBD2F1D1D0A6; 0x64E2BF5A74481; 0xC9DED412AB9; 0x6DF76D2881747; 0xF68ADE96EFAEE; 0x7CF2EE2DD3D95; 0x29109B2E5028B; 0x84C0C872E5AF; 0x55EF1044EE901]];
  [[0x978CD0735FB2; 0xA3B4EC3A861F; 0x24123B8F06382; 0x76C7DAA554F27; 0x1B6A5E18D2E6A; 0x947CC76EF8A46; 0x1CA1CA453479A; 0x72531851597A; 0x5962E72A5B9F; 0x35F4D1AE3ECEF];
   [0x63950B57813F3; 0x3955052095B99; 0x910D0C16F997; 0x6561C81D19E24; 0x5BD32E2B1D2DC; 0xB1BCFBCC703F8; 0x44176746C4650; 0x25ECF08C32C2B; 0x34A09E20BB15C; 0x59E3EA6051146];
   [0x5697698D05E0F; 0x53B12113E48E9; 0x3CCFD3B3F2E28; 0x3B625F59D23B8; 0x5E36ACA4E9712; 0x3CD4602A4EB25; 0x1F0A79E67888A; 0x1A3BB856644D1; 0x7BC8D45D9BE80; 0x240C74D67C49F]];
  [[0xF4AB4ACE9FBFB; 0x1323C2E448C11; 0x7E627CF56EBD6; 0xAFD6CA7DE511; 0x6DCC97293C201; 0x45898E21442A0; 0x4D8D6616961DB; 0x120025DFF12D0; 0x27486D92674F0; 0xE577FD8D1E8D];
   [0x8D1FF64347FD3; 0xB5503113ECB8; 0x6A04E1F0AD932; 0x5EFDB668B751C; 0x7A75A308E95E9; 0xDE0F991E7DCE0; 0x1AC3243FB2D46; 0x7C4CD25A8CCA1; 0x20F39C66C4FB0; 0x30EF201B6694C];
   [0xD02B23C415547; 0x585D53C64FF35; 0x3D4E05329F658; 0x3E78544910FE9; 0x145FA301F1487; 0x84D749E22B3AC; 0x5DB00726E0F27; 0x49F8B12327E02; 0x66FA6FAE6E30F; 0x148864CA7B024]];
  [[0x72DB89831C22E; 0x212B7A78FBD12; 0x21EB595C4F6D8; 0x230B818D0625E; 0x432CEBFBE8326; 0x5A4237390A4E7; 0x48BC4F80E39D8; 0x2C266EDA08C65; 0x3003D1ACFB73A; 0x3B25FB2316C33];
   [0x1309EB03AE17C; 0x6B7D21F1AC8CA; 0x30F22AD66CC64; 0x68CAE1E8A8AE4; 0x36B8E12F02A1; 0x51A9A31790107; 0x2BC64D9C75BC2; 0x12E0A5E87C678; 0x5A6B78E7A5666; 0x7ADC780A85627];
   [0x623C20A48F7FB; 0x68BD279754B54; 0x214146A030D28; 0xBCF5046BE3DE; 0x7F0B1C26980FD; 0xE951243CBB013; 0x3FEDEE8A79D6A; 0x37CD9BA1B93CC; 0x60FA57A12C244; 0x342025E288D46]];
  [[0x60F5BE50D6219; 0x4F425F334521F; 0x84F4C30F8CB3; 0x4572CAA850AB6; 0x7491416856BB1; 0xDD438508B179E; 0x5AF1DAD1E9061; 0x72FF71C440602; 0x640C33C87D2DD; 0x6CEED81188498];
   [0xEFB091DF854C6; 0x28A1D31C19FA0; 0x2A9A404668E0B; 0x727F82CC27ACF; 0x126282CC527D7; 0x14FAB2CE4AC32; 0x1FAFC4C09B367; 0x252F0B2B54F3B; 0x7E8131BAA6FF5; 0x517793281415B];
   [0xBDEBEB66BDFE8; 0x2CC5E9E8B6103; 0x4B6B392825E5; 0x2C59B6082CA61; 0x540C66BBC2394; 0x3927DEFBBC62D; 0x1F26C16D6387C; 0x86AB5563FC8E; 0x64F3E8C626EBD; 0xC841CACA38C0]];
  [[0xA508668F873E; 0x5FDC5913D7CF; 0x77CFFBBDCF5A1; 0x3F77B2390B8D4; 0x5594711779416; 0x5ADA86CAF4491; 0x7F7C714C93E3D; 0x5186774E545D7; 0x2C4325416B617; 0x2EAF1D8B132CD];
   [0xAEBD507E37692; 0x309A15EAB0693; 0x5FF4C2A7A5D05; 0x218CCB516CA7F; 0x91C7C9915F63; 0x4C73F619E0B9; 0x18867BD8D792A; 0x77DF8951E6F62; 0x2FCA92BD5A710; 0x3DE1F4CB64968];
   [0x7D8C68947865A; 0x35B85E8AF7920; 0x138BC855475E9; 0x65B8343CF3C8E; 0x72C46C618D9B0; 0xDD020C6DF0D12; 0x470F00A8FAEE1; 0x5DAF00E2DC642; 0x63930E56AAF60; 0x286F9B967AAC9]];
  [[0xDD90F276D31AF; 0xEA6D5DBA194F; 0x430D033491006; 0x7F9FA0D60BE75; 0x4B562950EEA1A; 0xE6BCD0715D21E; 0x590F8E3023F7; 0x1D19FD03857CA; 0x620A7B51ED174; 0x1D40D3102B572];
   [0x32D705F8518C5; 0x368F16F69285; 0x31B1912C61DA8; 0x6862322CE1F30; 0x10660B97D08CF; 0x35D64540A6D07; 0x4199885EE5BEA; 0x28D3C28F71406; 0x98A7ED42E515; 0x33517091A8F];
   [0xBEEAD956FEED8; 0x6D144B99B7E54; 0x6620FDB6DADBF; 0x65F15A8F5ECA2; 0x24170192B151F; 0x6068B65F5278C; 0x6AB4CACC7BF25; 0x6680608A271D0; 0x25004C7539417; 0x727215A3B6BFA]];
  [[0xFAA227F4F5AD3; 0x48C30B1278D75; 0x4C2380F042C08; 0x6F4250A5404FA; 0xE5775C9D6EA4; 0xC434ED2579348; 0x43B279220C0B7; 0x11C3AB979AF10; 0x593B8B6831C9A; 0xC951C87E440D];
   [0x9E652CBEBE9EA; 0x2D471C31CC4A7; 0x1180C86178F58; 0x4A1CBEE332A03; 0x4F056D32EEC00; 0xE9D6F5A148CC7; 0x38F214F11933B; 0x6AB7F8DF475B6; 0x16E32A36F4E7A; 0x2D0656419319];
   [0xFCD3F816A5978; 0x6041C99F186A9; 0x1D3D980EFB038; 0x7E9FDEA9BE147; 0x32BCE66E90B6D; 0x1B6674476F1BF; 0x51E25FEF557ED; 0x29CDE03D236F; 0x478BCDD0C953A; 0x4BEBB6141C907]]];
 [[[0x9E2E990726798; 0x9676B8E190DC; 0x48C9965EA2A0C; 0x4EF181E315DD7; 0x3A6A0FE2B108; 0x4B4B789B5786E; 0x1839D83E4BC52; 0x3B9D09BE4ACFC; 0x603A800326917; 0x7C7926D46765A];
   [0xBDE461C54BBE9; 0x30C12C7BE3000; 0x68D49E4D38051; 0x2424DFF63EE; 0x6748D0F817A7A; 0xDAAAC34BF5895; 0x4BF755438F5F4; 0x31C0109A0A789; 0x257084478A82; 0xEADEDC01C8B8];
   [0xBA95D208FC8C9; 0x171FB35AEDA7D; 0x2108B68CD61DE; 0x32F4E1D4BC730; 0xFFB462AB7826; 0xA3E9F4B3F7B0E; 0x1E70DB7658F11; 0x28C2EF3EEB807; 0x753BD52CA29CE; 0x547E50673926A]];
  [[0xF9CABD5C6650F; 0x36740AC449DBC; 0x4759192EC241F; 0x381C0F9E7EAB2; 0x63278E1545DA8; 0x37A5B7E50AB6; 0x476FAC0FF808E; 0x36E5576C1E063; 0x27A9D39B89A83; 0x6F1DA42C4750F];
   [0xC0B93DC3C004; 0x35D0E6F5E38D1; 0x61A730762CA71; 0x3A620EFD387BE; 0x3E2EC3540ED15; 0xE424C214D117F; 0x3E1325B0BB449; 0x6FC7D1FC2FC7C; 0x73F72D066FB57; 0x4B2D6EC5C213B];
   [0xACB4FC84F8936; 0x757CBE4C50D6; 0x49E1C99C1E958; 0x7D86D6FF27A95; 0x29876C3EF1BD5; 0xA9E00A5CBE886; 0xBD4E512C515F; 0x5C75102170269; 0x7807E85A235DA; 0x293A17091A760]];
  [[0x308924C47EA21; 0x7EFFEAF16E651; 0x7D78EEF6B95C8; 0x480EBCBF733D4; 0x1F759131373D1; 0xF52DAA6D26E12; 0x1AA1A394183A6; 0x31E24C017EBE3; 0x134A7ECCB3DEC; 0x1EAACFA806C01];
   [0xC8DC99E4D9E5; 0x499FCD94685F; 0x4FB45C9641579; 0x14AE4737E13F2; 0x5BAC25108C107; 0x407F8F14C185F; 0x3281019A9EC49; 0x18C647189223F; 0x77667AEF20006; 0x342D230F93D40];
   [0xC9265EF97099F; 0x2CB0A3B71869F; 0xDD18B78BEFAB; 0x445C0E95393D6; 0x22C17960D9AEB; 0x55752E5A3E34F; 0x29B02A7513832; 0x115BB849BE596; 0x70895A6FD0E07; 0x2E9C698B128A0]];
  [[0x460245EC561C; 0x759CFCDC4304B; 0x354F11DD3770; 0x34ECA59B714C8; 0x6DEB5CFBFE8AA; 0x9C83E53DD01E1; 0x681045B1B2B4B; 0x66B499D80354A; 0x7B09A32C5EB10; 0x7F5BFC7687E65];
   [0x7DBDD7509D7B6; 0x1FF07267C40F7; 0x20C1AAC3C0409; 0x6148B211F9D4A; 0x7D9183357E99A; 0x5FB86106C8179; 0x61566F3217886; 0x64086D6797E68; 0xAAE710B5D9A0; 0x3A7960D860C8C];
   [0xBA0F7583190C4; 0x76FA655DA6153; 0x6AD011EF06120; 0x1B9919F914745; 0x6933CC4A1F75E; 0x8B0C001D798B5; 0x3A7401C076C5F; 0x2A5E88685994E; 0x40E300EEB5F5B; 0x401FE079260EE]];
  [[0x659914EBDF906; 0x4AC87025B5364; 0x284A5CDE167E; 0x3DCE5E16B1561; 0x109507CE45C7B; 0xE774890C7761C; 0x5E1CED11C691A; 0xB979E77DA4D4; 0x4EF607D7B0F58; 0x597CD44BFB28F];
   [0xA69885D31FD12; 0x77B176FC02779; 0x32C80E3987695; 0x75F209C1E30BB; 0x1009FD731AAC0; 0xD3EB5362EA2CF; 0x1D6C33BB4F1EC; 0x5811CB2ECEF96; 0x57D8C6C5AE4E1; 0x4B4EA22243336];
   [0xE6D776CDADB51; 0x59CCC0F8E0BB1; 0x788DF3C7AD498; 0x142A89307C686; 0x16B22FB5E10E8; 0x4175AE2F3EB2B; 0x2B10B599DE0CC; 0x1EBE2F56C5287; 0x1A33116E45EDF; 0x4AE20B6AA13BB]];
  [[0xD4F1640E31025; 0x5369F3A71705; 0x6E57097B5B700; 0x287C31DDA7EB0; 0x6BD941635599D; 0x958A013ADB362; 0x797EC3AF59A21; 0x532140C91BE6E; 0x4936CF742D1B9; 0x6D291755B4C5F];
   [0xA926A8EE98B9; 0x46DFF06B0EA14; 0x422FF6FD967CC; 0x779542C4521B1; 0x469BEAB421801; 0xE418E584BB6E2; 0x9CA813EF2F4E; 0x5F68592828DF0; 0x656C0BBF9122; 0xCCB05A025C71];
   [0xE98CF9AA86649; 0x4280C51AC4674; 0x69006DA4ABEB3; 0x46B1CDF4D42C3; 0x52325C9885550; 0x30D64AFD848FD; 0x2C8ACC81C6FC5; 0x47CB0D16BECBB; 0x424989DA2A6C5; 0x168C78A279267]];
  [[0xD255173B3974D; 0x78AB8051F9D89; 0x5D31E2BD6FAF8; 0x7DECEFF2FED16; 0xA995EBB1AF3C; 0xEC88849F934DD; 0x3F4357D1349BF; 0x3003724CCAD86; 0x5CC63A601A857; 0x343B88A410741];
   [0xB861EBEC11DA3; 0x2F7DA0CE66B58; 0x4A05CFDD667EC; 0x618C4234E4317; 0x77E534DE5E42D; 0xF510ACBE2E35B; 0x4D176CC3F8974; 0x4199583F06449; 0x406979E0EB70; 0x695F16DD2B384];
   [0xB5F01887D972B; 0x591009B9788BD; 0x1CFB8C1E46165; 0x5B8112A6084A0; 0x49527793479C1; 0xB187275AFF4A8; 0x49D80550875EB; 0x65B3359B96DBD; 0x1FB8879675983; 0x5DEBD62191D57]];
  [[0xD1CA24C4248EB; 0x5F680B9DB4143; 0x332A16BFB989D; 0x753E5C1BD1DD6; 0x4FB5069A3DD11; 0xB36967D95CB7F; 0x7C1A743B83E84; 0xAEE0A0745A8D; 0x6C7A9C91323B2; 0x528CD9463AAFB];
   [0xC466D9EBE068D; 0x13A27797DC234; 0x18F27D8B96428; 0x24C1197D66BB; 0x30D29442EEAC4; 0xD7F436D88C8D7; 0x41C67DD503E48; 0x71B77621F3C37; 0x1E384DE527534; 0x4A3548D4230EF];
   [0x9D0F8D367877F; 0x144D7265E0804; 0x5645C59D64EAE; 0x533EB925569B6; 0x4DFD1C43D5A74; 0xE0AA14014632B; 0x5693798BB1AC4; 0xB28BE3E0068; 0x379AAA7EAE112; 0x247F1C8CFD8E]];
  [[0xC15D58808355F; 0x3A9B54B4046D8; 0x3BE1A6AB6A8D7; 0x699C7D04884C2; 0x55A19B13E30E6; 0xFBA511C14C314; 0x7C4B1AB58948C; 0x14F0D999CB430; 0x7AFCB455F6D0F; 0x13287261490BE];
   [0xC39060A09A6A6; 0x68EFAAE7BEA33; 0xF39708828339; 0x74458444BC73B; 0x4EBB9FE3A3451; 0x2963523524531; 0x2BA9B39DAC86F; 0x296C0868A96CA; 0xE1FD8D0A7823; 0x10A911670FB07];
   [0xF856897F72F1E; 0xEEE5678607C6; 0x517CD2197022F; 0x4BEDF2B12DB4D; 0x19C0AF97A5D1D; 0x374FACB3B50F7; 0x3917CBAD403FF; 0x4C4704E757E6D; 0x29A25D20AD24F; 0x369770FC2A344]];
  [[0x8DA57843C3422; 0x82AA03CF53E5; 0x7396268B0FA19; 0x148F2D5ECB6B4; 0xE4C3E6069C02; 0x8A317BACC7D91; 0x23FB0B882B0C6; 0x3470CCBB116C6; 0x1DD2C55D9FCCD; 0x3D996E34873D8];
   [0x494440ECC3AB3; 0x2540E1E629CBC; 0x7355927AA0DA6; 0x617CCFB6EB6C6; 0x45DCD2CD0B597; 0xA9351FEF0BD26; 0xE241A46E98C5; 0x11AAC255B8C6D; 0x77EB6092D7F54; 0x6C19945480AB];
   [0x8B1824E089690; 0x4658566F83B39; 0x7A1E24B6B0E67; 0x3546FE60DC8CA; 0x527C86CABEAC9; 0x6138EFAB370BD; 0x367B7A18E4830; 0x5F41E7F74F931; 0x43CD498AEE92B; 0x36640F17461CB]];
  [[0x14F84E18CA5AB; 0x581E482520BE7; 0x6D3C0B43466D5; 0x717397C15F270; 0x2926AAAE17414; 0xCEE21A20BFDB7; 0x5627F8C434E1F; 0x7B06611540ADD; 0x17C0766AD8FF8; 0x1A6DF1F7CFD76];
   [0x48F19C87B8FFD; 0x738685355DF41; 0x62D4C85207B23; 0x4DA81080542F4; 0x2595A163374DE; 0x77DF196F75779; 0x3CC24DA342DED; 0x71C8601CD59A9; 0x575ED879C1606; 0x3C9A80845E0C4];
   [0xE4341EC68E990; 0x7DB9731C2EAE; 0x50B4AC8A0C069; 0x20F490D1B024D; 0x67C6E1654BBA0; 0x3EFDE035BD6AF; 0x3C25584A7D506; 0x591764CC32886; 0x6FC9CB331260F; 0x17E5D60885352]];
  [[0x731233C0BF910; 0x329E61DB0C699; 0x7BA2FF701A4E9; 0x333EA1E17AEF2; 0x4C20BB4E7B23; 0x36D578DEB0B28; 0x1EB9E5DFB52E4; 0x4CA4959FA2735; 0x1D94E469AE705; 0x76C278152C2A0];
   [0x98E1BB8C2F143; 0x4D297A9E0C320; 0x76A7705B29809; 0x1C4AB1E7AA3FB; 0x7CEC0D37488E9; 0xAF115EFF64680; 0x120EF3CBB216; 0x54823751D4F6C; 0x2AC54F606C3D7; 0x1EBCEFB260725];
   [0xB771E27A53F81; 0x6D54C547C8EC4; 0x11D3B796F70; 0x103E44C9CDCE1; 0x4C7BA40D38FA7; 0x89A5EBD4841A3; 0x684C71D5AEC65; 0x605EEF1D5EAB1; 0x67509EAF71EBE; 0x5963E232F38F6]];
  [[0xBCAC8C9D8CB62; 0x201763A59294E; 0x19A01979C0FF2; 0x4D0E0410F78A4; 0x6EB9F8CAC287A; 0xEA0768460F44C; 0x5A455F94A712D; 0xBC93EBB5FFB3; 0x20C65BD0C37ED; 0x261BF4CEC1574];
   [0xFF07CB12EA13B; 0x20429E9B2B0F9; 0x4DFA80EA8ECD6; 0x73BBBD56CD402; 0x3919C06A06CA6; 0xA50DFCA5441D8; 0x2B9A99A9B237D; 0x742A2E2D61162; 0x2CA00A4309B93; 0x905C120B4320];
   [0x61578EB35918B; 0x1446B3BE9D4A0; 0x3D523BC8898B4; 0x64BBE9875DB61; 0xD3A22E1BC0BA; 0x61BADB8814627; 0x1E3CC67E1C334; 0x7D8BFF80A52C8; 0x7C1A1B139325E; 0x699D472241937]];
  [[0x25E7D1EB3C74B; 0x7898AA108BC0E; 0x47515F8ED8CD4; 0x4D3B9580C495A; 0x7180B924B02DC; 0xF661E19F6359; 0x670BF44B39CC7; 0x7FE66B0398776; 0x7995A1E2AC824; 0x6D5DC46677210];
   [0xFAAD726B55EA2; 0x79D5D2BEE8A46; 0x26095ED36BEE6; 0x6B2CD7C0A5EAC; 0x7363AADE3CBFF; 0x8973FB787E167; 0x7C0F634CBA455; 0xFA999E76881F; 0x324C512E8946B; 0x380D8788E7945];
   [0x8DB1A6DE4460C; 0x62893735BF9A0; 0x13BA32E02B7B; 0x73C9F80B4A895; 0x3C3F3C87AAFB2; 0x827F36493E441; 0x292EFAC99E138; 0x22A4A4904138; 0x24529ECB28E37; 0x77421EE238C1B]];
  [[0xF7B9C6C9FCA63; 0x34B8A0AAFC9BE; 0x5DAE98DB7E24F; 0x74C6CA22931E1; 0x2A4921C14D883; 0x6EFA91FA1CE71; 0x3CE84355E0DCE; 0x753C05DD0ADC7; 0x17FAB49BE457E; 0x352750D53DB1E];
   [0xC2F7461033645; 0x513C3544B8E3B; 0x52C0D08ECF672; 0x724A3D76B9645; 0x5EE3A414B8581; 0x1B06B1A55E453; 0x186401A4D8285; 0x38DD6E8C786ED; 0x2D70CAF4EE8DD; 0x5D01B347C3A06];
   [0x1567FFD93F0D1; 0x309252F65BB4A; 0x5959B6ED014AB; 0x4B43212E34585; 0x438AFACBE2355; 0x5CE8397224869; 0x5A2F2198160CD; 0x38CA3C93100EF; 0x5B4E108E763BD; 0x13AB825E9037B]];
  [[0x35B4D0F47A893; 0xF88590FD42E6; 0xD7368E95AC4C; 0x195F98944B691; 0x486CCF2B919EC; 0x4A59D1C2A3F33; 0x534076FD4DE0F; 0x59369592A8078; 0x75849457601A8; 0x5BCFEF89B98B3];
   [0x82471AB978FF4; 0x417A722D632A1; 0x119FFFE762A0C; 0x154FACAC33A86; 0x629B146A09126; 0x77F98E5A9B02A; 0x7BFDF4C9B46F3; 0x6F3CE86DA2075; 0x43496F1F7058B; 0x410C0161E3F69];
   [0x61C0DDD1D5193; 0x5D358D2C1C9E2; 0xF247BBCF087E; 0x75A43B2343359; 0x1269D6EFC98D0; 0x9DE5FF8C9C95C; 0x51605D13327E2; 0x33CB5838CF4A6; 0x3A16E2B08FE9E; 0x3650C080431E5]]];
 [[[0x49602E45D0A93; 0x59C589221A880; 0x6BFB336EDCAF; 0x5AD45223DDD99; 0x57F8BFA84AC51; 0xAB4970BF8F60A; 0x67F4FB7299A69; 0x6C45D1DA5576A; 0x1DF5059D6F745; 0x7522509A7E4C7];
   [0x754184C1EAC3E; 0x1803402F7CD15; 0x4F73F4944A6CF; 0x46CEC832A58F1; 0x5BF7C9110EC11; 0x6BEE5D06C0C15; 0x4D8B8B8F00B0; 0x28C4D421BD379; 0x75078416E153C; 0x359B19C14F12F];
   [0x808DDF052F857; 0x19692911893C; 0x20F8AC2158528; 0x6BF85B2D465D0; 0xE4B967AE33BF; 0x6B2C044AA16CD; 0x5714242B5BB0F; 0x5D92812DAFB73; 0x7AD2DCB20ECFF; 0x77EEC1D3FA208]];
  [[0x2119238646FD8; 0x5ABC2F8AF448B; 0x453259E95D8E5; 0x5B48782EBCAEE; 0x38436F43CDFBF; 0x48D16E429CE28; 0x570D828600948; 0x3453855620095; 0x6AD331E478470; 0x651BFAB5074BD];
   [0x5F4433BDB32D9; 0x105218D10DE9D; 0x584EFCC5C27E2; 0x13201F8F88C14; 0x5783EC5680875; 0x5599CE7F06E7D; 0x469D4A0F10D5A; 0x66493C7BE869D; 0x282E244723DA2; 0x3DDA26211EF];
   [0x4777CF1747536; 0x4BD8E40F0AAC6; 0x7330BCEF012F6; 0x5B417B099D130; 0x8F04461BF63F; 0x2FAB6C914DFFC; 0x12387DF5AFEB9; 0x60B418608D67A; 0x28BA76C66CFD8; 0x46A5D5B19C944]];
  [[0xD23E16E7EB572; 0x46332FC8A601B; 0x65A48317134CE; 0x43B6D52860AED; 0x6EEB80466982A; 0x9E57FBD4942F2; 0x1B441B9B92D52; 0x3927622998150; 0x32063CFE0CC69; 0x1E7A8EAAD8648];
   [0x9791DBC2F7ADE; 0x5B5AE56F669E8; 0x4787844482C09; 0x233D0503DE859; 0x2980F93DB7782; 0xE89640104583D; 0x256749A55B356; 0x346FB5377E7C7; 0x5986D02625C7F; 0x6501A5BE2B9EA];
   [0xDC86BCD571C18; 0x295273CB7094B; 0x2353CEEA64824; 0xEDE9FDAEF274; 0x6FC2FE16F8340; 0xE75263685AE89; 0x2A6B522548B24; 0x30B331A3CF122; 0x40AA1996D71AF; 0x21DA1E66C5828]];
  [[0x6237FE85D84B7; 0x5D493978AA748; 0x5606DB28D11E0; 0x1404E7EE9A4A7; 0x9FCCF95887; 0x1F35190486D07; 0x5ABF1251A2823; 0x7D9F90E1B9546; 0x27D362BD3273; 0x1D3276CA5DBCA];
   [0x5BCE59854F4F2; 0x68A97823BA015; 0x69C7B6BA3A2B9; 0x391289E956A27; 0x6D77C747BE4B3; 0x30591F7C41921; 0x2A1EB441BD53B; 0x14CCBBA39D2CC; 0x2A9EAEDC15CEF; 0x175CD0B5E3DFD];
   [0x37ECC8CE85AE8; 0x2D2E68B37C995; 0x7756F4C412926; 0x64C1755FD279C; 0x5D142CA088513; 0x5C77113983F17; 0x667B020C82500; 0x303A898E3AC4F; 0x7E3C86D19C210; 0x4249657F2E122]];
  [[0x1D1C5E353E5CA; 0x2576EB624749B; 0x65CDB175F1C9E; 0x3A41B811E62CE; 0x518CFEE6F53F7; 0x98B04A4AC2F13; 0x6AB7610983F96; 0x746A4D621967E; 0x350349EC927D2; 0x222970DF1E1BE];
   [0x8906EEA836812; 0x3114905108F3F; 0x5C9663C445888; 0x1C71F712BD33B; 0x43D935A54A0DA; 0x3646E9FDC729F; 0x7210C4951848F; 0x11FEF8E510953; 0x346FAA21A5B8C; 0x3AD57103DD51];
   [0x33864A36064D6; 0x29B9EAFEDC2A; 0x3BE3DEB0B5F9A; 0x3B506AA541679; 0x5B2A6B10327B0; 0x157232B715DB2; 0x1EA48E7F6FCF8; 0x25E863CA33319; 0x5C8D3F568BF16; 0x4C5D907C3D1C8]];
  [[0x46AD26F23721E; 0x2C765BDA314CE; 0x752858F9EB295; 0x513964D698E8F; 0x1C85381B9C98C; 0x7D077B6D8B14; 0x2650BE441372D; 0x7C92EF836C485; 0xF996ACD339F6; 0x7E8564FED0A69];
   [0xE29A25F3371CF; 0x8814C5A56ED5; 0x21D0DCD381D; 0x76A6088860540; 0x4219513890BB8; 0x9B16B9A0A067F; 0x47E7B85349C38; 0x74B3FE445EC78; 0x275D721E0622F; 0x2A2EC646BA867];
   [0xBBDD3A720C17F; 0x1B2C37BA0E3D1; 0x54714236D0CC2; 0x76964A35C7638; 0x25052B296A76; 0xC48304202EE65; 0x6ED1F7DCB85DA; 0x2FA4317B61178; 0x6CEE7698DA4B8; 0x44B0FF2267F23]];
  [[0xD747A3E22E2B1; 0x3DEDA875D7CAE; 0x6A21C6B5FE47D; 0x412BD22E4D137; 0x29DA6D3B3667F; 0x48E20CB87439F; 0x325A27394F2C8; 0x428463E1D4FBF; 0x41B300FF04818; 0x1521958F0E161];
   [0x85DB6B7E977C; 0x17CE01F10308D; 0xAC1CA092A153; 0x415739EAB8C46; 0xC8CDF9774C54; 0x51119A4D27CD6; 0x3979EF4CABD4E; 0x306E82DE011FD; 0x130D235924305; 0x4BC668226FA1A];
   [0x35460C289FE8C; 0x77FC4B88D0A33; 0x34B3A2F12DA46; 0x587252519A91; 0x67696AD8CA13F; 0x4B367ED30881B; 0x6ECDC69A04362; 0x62060141E8A58; 0x446717A1D4C41; 0x59C92F4144291]];
  [[0x90BCBA13F3FFA; 0x459F76914A474; 0x77DF9C1AB8451; 0x27F4173658DE6; 0x752A654451BBD; 0x4389BF205F6A5; 0x2A0F6E2CAC058; 0x759DDCA3CF248; 0x1DB6435DE0B7B; 0x7A40E4FF1D274];
   [0xB40F9FEA2DF61; 0x187FAF0A90648; 0x7F429F69E5C3C; 0x5E462DCD8F74D; 0x2FB868905F55; 0x6227264E559AC; 0x5DCC2ACD4BE01; 0x1754DD8D51BE7; 0x254DBE11362D7; 0x67071A34DAE0B];
   [0x52B353E84B78C; 0x564D48962EE3B; 0x566CE4AC9469E; 0x22969A603533F; 0x57CBF4F23DA31; 0xF413FE6288E6F; 0x43A5E06D777D3; 0xD59724B433B0; 0x4AC5FF7A4F7F5; 0x7581748BFBCFE]];
  [[0x51789D3E212FA; 0xBCEB94909B13; 0x28C362BBCB45E; 0x70EF351F3B7C0; 0x666ECDEB8047E; 0x78E439202364E; 0x7E77E6140B4A9; 0x482D5B04DDC11; 0x1764AEFADC75A; 0x6B47820ED7E1B];
   [0xE69076D92441D; 0x7F96BE0ECA0A5; 0x5B603DEE01A8E; 0x2D1B5AEAB2F76; 0x7A711B7087718; 0x277D13CD92B5F; 0x3AE287A233D24; 0x666E9F9CC65A3; 0x676645DDC4BCF; 0x4C2FE8FE9D67B];
   [0x27D78672C6C00; 0x2479A6D9CA279; 0x72D4B69EE9EED; 0x115C466A0FF92; 0x40A74ED91DE82; 0x7A983DF62653; 0x3E0BD157BC637; 0x257CF02231B18; 0x21FB8D5B274BC; 0x63F5ED86AF20B]];
  [[0x417CD2C573949; 0x5C0A0F0D85A83; 0x4BCA59A389EFA; 0x4BC9A8EDBAE72; 0x31DA12B0ED484; 0x361F7E36F579E; 0x2F55EEE1A1AB5; 0x1FE95A3CDAB65; 0xBD0E2F996073; 0x69840C7AEA37F];
   [0x8A8244C90AAE5; 0x192938B5C4443; 0x62E8381B8DA6E; 0x2A57B4398E87B; 0x1B401B603039D; 0xF8931B08E2459; 0x5FDE03EB7E448; 0x42A4FFF29BE1; 0x5548F632ED26F; 0x7E01A00DDD53];
   [0x9C5F1271C360; 0x14712324EDF39; 0x24AF2050F1BB5; 0xFB6B43AD3C7B; 0x66F4AA55F0B74; 0xC69A365B54877; 0xD87DE69BA1D3; 0x1F390592ACB1; 0x2D3ACDCBEEC70; 0x6A6C9430F6DC5]];
  [[0x76182951B9FCD; 0x14DA2A6CA4A38; 0x61C55C6BDE562; 0x6ECA43E5605F8; 0x6B6FFF6EC841; 0x713C0144812B; 0x71F1D396EB0DD; 0x71210D066A6DB; 0x737CF73AC235F; 0x56B844B68475];
   [0x8F1CEAD60A1D0; 0x444231BD8012; 0x445D6A0ED8B97; 0x2DD91F0EEE5C0; 0x3766A3BF6B231; 0xF5C93D686296E; 0x233237F38DC42; 0x7525D1A3497EA; 0x1819B905D774A; 0x7FFB178F7CE0F];
   [0x641A17722C8F1; 0x79F1706850C02; 0x6060CBB0518EB; 0x2B66C8CB99F42; 0x66E8E928880E6; 0x1989CC847F22C; 0x3469EEFF682ED; 0xD34A55978260; 0x44C59D525236B; 0x390050E10B720]];
  [[0x9CD2BD71F4DB; 0x29F23BB9D8BE1; 0xFB44276A7039; 0x5F4E44D6437E8; 0x4E5D5F5C4BB02; 0x662EA552904DE; 0x72BFD95DA12F6; 0x6E4A9CCE5BBB7; 0x35D0BE00D7A94; 0x1C01BCE0CD7F9];
   [0xC0AFD973DBCF3; 0x64CE4BD3B9ACA; 0x7702F5FC560D5; 0x5E595BA3FBA8C; 0x5B6BF254BF97D; 0x576ABA05DA74C; 0x10304EEBAB26; 0x15D19F5797872; 0x16D4017CFBF4A; 0x26F6161725AEC];
   [0x87F397AEAE324; 0x5FA83BB5E2D0C; 0x7223E58B05D25; 0x3870F05A9B0F5; 0x1A6AE5BF4D17D; 0xEC0FEC7C22B4D; 0x4123EA40B3D05; 0x6AB321BCED2BF; 0x5EB8B088ADF8C; 0x6D4D7B749D913]];
  [[0x4F5FA884DA730; 0xAF25F411BD67; 0x3BA45D0584E3F; 0x2185580D7028A; 0x42C01189DCCED; 0x8C6AE9B1ABB6; 0x52E642E3C2B76; 0x7310740FB3824; 0x728038396164C; 0x699C02D4658C4];
   [0x79389C8FD6F3C; 0x334AEF7344570; 0x242D78C5A1222; 0x3C2A690D38351; 0x1CF5ACE9C51A0; 0x55B466F344A63; 0x7E983BE7FDAE4; 0x55CFA24140C02; 0x69CB7B9C5BD2; 0x6188710431607];
   [0x26F7B943A846D; 0x2D01FFCEE4F40; 0x18950D46B06FD; 0x489C50B872A31; 0x6350B0D584129; 0x1F25CBB8B17E3; 0x2C5C45781F165; 0x5737448097914; 0x511D83B88DD30; 0x274954F75EF59]];
  [[0xECDBAA9D6B470; 0x4FEAEC5FC07C4; 0x6ACFE89ADEF6; 0x1DA4AAD513147; 0x67D3AF31AE9ED; 0xA4B232569B195; 0x4CF616E4681F8; 0x644769BD5A3D2; 0x25E58B311AC44; 0x52C8B011460F8];
   [0x45717702B786E; 0x14A10820591ED; 0x62D9363FA4EE1; 0x22163012006D4; 0x271B0D1CBDBE0; 0x26F3A015A99D4; 0x7C87580D2C201; 0x1BF98F86FC444; 0x138F3A6FA662A; 0x1A06E15120B69];
   [0x8025E88D639DD; 0xE347C30AA122; 0x2589D8BA62AC4; 0x2E11924750A60; 0x1FBEE719BDB54; 0x4C0C9348C22B4; 0x57FD26F80CAC8; 0x19B358CE6D1E3; 0x7A93D359D2C5; 0x77158FA133E83]];
  [[0xD7DAFE61175ED; 0xE4504E665412; 0x5FB729DDEE3EC; 0x47F270C83BC2; 0x5A73604DF6148; 0xBD1E93DBD8BB5; 0xAC824EAD6B31; 0x5FF3E8CE9DCC5; 0x7CC6E8CFFAC1; 0x2AFFEFFBB1A9A];
   [0x23316BB40DF6E; 0x481B56A077501; 0x13E2A0B14557D; 0x595D27B53FF98; 0x3C19B9D245EB2; 0xFE22605BBBE16; 0x5BBC13BECC9C3; 0x5555CC21B1639; 0x6C7E755F4FE0A; 0x4CED449C0043];
   [0xF212C1FCCCAFA; 0x65AA07D23A1F0; 0x653B0A8787B0D; 0x2764B66DA9938; 0x1C729D799C70F; 0xB8104F70D5296; 0x2712DA31EC0BF; 0x15C3C4923D483; 0x5652F2FB13CB3; 0x41664C0C8CDFC]];
  [[0x82999B7AC4DE8; 0x58A2CECA252A7; 0x20C73280A45C0; 0x450DA84CA8CD7; 0x7BF0E4090350D; 0xADF283C44352A; 0x3E4DCFC4CEE6B; 0x763CA01B20C07; 0x74828372B938A; 0x22EC150908F6A];
   [0x2582469359E84; 0x228A33D25EEC6; 0x6435073D85A7E; 0x227840F93D3F5; 0x262B1B8D3C804; 0x340D7D4B65A82; 0x3D2F31E1046E9; 0x4F093EF407EAD; 0x739071C0CFCC; 0x26D2395B09E2C];
   [0xF54E820DEB8D8; 0x587F5BBC119C5; 0x33CF484DE2CE4; 0x72D6E48747C29; 0x1FC0C06AF6484; 0x72C72C472F425; 0x6A997E7AC72B4; 0x615BA71BDA74C; 0x194736B2BCBEA; 0x53764E1CF34DF]]];
 [[[0x869A43C294C54; 0x3CB29D7749693; 0x7C4909DB7E1DF; 0x5228EB2FBC6A3; 0x1416FC12D302E; 0x91471B10D8725; 0x1E08AA9DECE88; 0x587A018AD629C; 0x6C4A4C27A1DCA; 0x5C28EBD109BCD];
   [0xF17D6F444B156; 0x10614A6278D4D; 0x4E296EC65945; 0x764A3D99A6C4C; 0x3AC1DDF8C7862; 0xA1BDC47EBAF83; 0x575E7E4E6E02D; 0x346FF3FA7D4EF; 0x6490E0AA55F9E; 0x3DE09135EA98D];
   [0x4B1218EED069B; 0x3A6C9EA9923A4; 0x1EC1877C85728; 0x300A0F14A71F6; 0x6ECECC49016EB; 0x58EED82849105; 0x400ECD17E513E; 0x60825E3952E96; 0x565AE484D0F5D; 0x209AD7372BC07]];
  [[0x967088E9B527F; 0x2672CB51B0152; 0xA1B79BAEC761; 0x1174B982E833F; 0x24E0D77B79A0D; 0x47372BD137D72; 0xBD9098E4916F; 0x2AE2E6C280D68; 0x569AB6BDEC767; 0x6EB14F61A266B];
   [0x468847FDDE1A1; 0x7E47FFAC321C1; 0x99E09961D0C8; 0x7F115DEAE525D; 0x694F77EF9636E; 0x40F8DDE23159D; 0x6680E30AEF9BB; 0x6B528CEF988BE; 0x518BE82D6063B; 0x22B8C074B2105];
   [0x3A4C05B585761; 0x3528539A1DAD4; 0x540826053F31F; 0x3BA075642B0C7; 0x368D07DE9484A; 0xB3D3E8D9BA85E; 0x7550F9A53DD73; 0x41A194358CC9; 0x4F9F0386A50A1; 0x41D37DCFBA507]];
  [[0x24FF20ED85567; 0x26ACB40B58156; 0x2C9398F6DD650; 0x30160273B8447; 0x2E3773B782B9F; 0x7030F6938A06B; 0x4E62A1384F897; 0x225C672A35300; 0x5C1F66CAD5B3A; 0x5832B4574C046];
   [0x6B08E0399855F; 0xE9671A6388F9; 0x6596FB4577230; 0x41255210F89BD; 0x58F5E2E72B2D8; 0x3DEA57DF34241; 0x21714F7980B29; 0x33241DDA8B0E5; 0x502E01B9EF7BE; 0x27166556F5433];
   [0x2068F4390F72B; 0x37FC7DD50F35; 0x3D7105B085171; 0x3F4A9D00E2D1B; 0x36BA34F00ADB8; 0xBAA7FD102D0DF; 0x6D540C7AB1FE3; 0x6D399320CD3FB; 0x969ECDCA36E; 0x736A5F44C73E5]];
  [[0xA1EA8102BF7EA; 0x76681D903FE4E; 0x16827A8F7E29F; 0x41D34C09DF5C; 0x3C9643E4AE7F0; 0xAA849BA118FEC; 0x4F8B809BA8FD8; 0xD32D898D1E18; 0x57AF4934DCD86; 0x564F85C2CDDAD];
   [0xE180C6892618B; 0x6FF7240030636; 0x366CD397F1774; 0x5728BDC33187B; 0xB3266F640DCE; 0x128B8A25D3F67; 0x7708EE6E8BF9F; 0x46A93620B4A05; 0x7290D084B52EC; 0x739810783526B];
   [0xCC39B5FFAF5D7; 0x3C6202DA25104; 0x62CC8759BDEDE; 0x36D29F17389AF; 0x12C6A9C28C6C5; 0x9DCE18E457FFC; 0x4ECCE05180B2B; 0x596ACCF512291; 0x62945DAA66E26; 0x50AD4823F6CFD]];
  [[0xA8CC651B80948; 0x1E1750AC465BE; 0x187C1C7A67AC8; 0x6F89CE139F631; 0x36828EE424F47; 0xF2D70AE145D31; 0x4B3577A19593F; 0x1B7EA66A3F33D; 0x77FC34430FB8C; 0x7F27E8D488429];
   [0xF6CC160A3C9DE; 0x192CEF1A784E0; 0x55B5C5AEEC896; 0x6D5903202D1D5; 0x44EE2B9F57100; 0x85703712819CA; 0x50908533B6653; 0x3454ED72A02D5; 0x70AC25F6383E3; 0x48EB15CD43A55];
   [0xA62A87FDE7680; 0x1AF035CE0A44A; 0x7F2C92A8D048E; 0xCEE23583E470; 0x3B703640D1F1; 0x98B27784DA23E; 0x3A7C34610E147; 0x73D1ABE50B09E; 0x2938FFA96CAB7; 0x3E1959EF246D8]];
  [[0x1869BB1B94C69; 0x51734C75D4111; 0xE8A85605AF9; 0x47660F7146E01; 0x26CB57D10B81E; 0x6DC6E8E61EABF; 0x40BDBDDA25575; 0x621970F444FB0; 0x5A68915E84863; 0x3FC0413B2B9DB];
   [0x57BA222699263; 0x7645EE7373008; 0x1A2F8038B610D; 0x677556F7C8C70; 0x4CE4E5D52ADBA; 0xCAE8AF894C9EB; 0x289D1174CA2E9; 0x32825A0B38AD1; 0x2D70424509A50; 0x588C224908678];
   [0xEC8195559B033; 0x4928CC1FABC5C; 0x7E050DE738A9E; 0x3E981A0A1EF6A; 0x1FE76C501153; 0xCB9239B643220; 0x6875D72093E18; 0x25CA8156C881B; 0x48360BD70DA5F; 0x12C76B37E5C67]];
  [[0xCADFF54C5FC61; 0x3100C3F2C3EC2; 0x72D1EA82213E6; 0x7F17AA56C2E31; 0x6CBE667300217; 0xA75C32AC1D00C; 0x900399B302FC; 0x66D6BDEE4B606; 0x5EFA0E987CE1; 0x2C879F735E948];
   [0x2780923AD1294; 0x50A7906F38719; 0x4D2CE3806BCDB; 0x6D8F87C7B1F2D; 0x5BC54F9F117E6; 0xAFCE58A3CEADC; 0x26B8F094B4FB; 0x511D8D0A6A1C0; 0x26046F65CA5CE; 0x7B31882AB5612];
   [0x19F342DF704E3; 0x53617515314C8; 0x622A658FC7975; 0x6453B59E91EF8; 0x42BFDC9994A46; 0x238C1575D2AF0; 0x29CD2DC2AE52F; 0x479332C429AD4; 0x428FDA62FAFFA; 0x7D90C15C992EF]];
  [[0xE4A20CED7FD14; 0x4C97EA9E0328B; 0x6E9445684BABF; 0x151806F26ED39; 0x1160C77905467; 0xC6609DEA0FC1A; 0x2A722284AD939; 0x3ADBE879DBC4; 0x15AC0555FD701; 0x1F94BEBDB96D9];
   [0x4AAF2301F16D2; 0x7F51734ABB20B; 0x42C8A35243B42; 0x1B3820B36100F; 0x115444F5C6CAF; 0xF3926D4333445; 0x587A6557C80D0; 0x665447A091344; 0x3F84BD9CE1BCA; 0x7200779A07D57];
   [0xC61B46E3949CF; 0xD8E735ED00B6; 0x48A5E9F98CEA3; 0x24C0D94F3C634; 0x538D79B7A6393; 0x21002B287137D; 0x799366E30C2E8; 0x6B1AF8463E70D; 0x48CDE10CB3E51; 0x17412D6535F95]];
  [[0xBAA4CCFEC442D; 0x5DDC1184E8BA8; 0x7D1F6A8B018EA; 0x769A32FD77A23; 0x2355FBFEE11A4; 0xD2BB5D9500DE9; 0x351D470C5EA4E; 0x4BDBFBB0E40E5; 0x1A757E0DE9DFA; 0x5DD504BAB40E2];
   [0xD79053EF41593; 0xC6229EE33D5E; 0x4C4A2E362ED5D; 0x6D21696B79D70; 0x530ED2DF8E89F; 0x33E8AD160078D; 0x188BB911588CC; 0x1659B61A4C110; 0xAC04E00E10DC; 0x7BAAFBA1435EF];
   [0xF5FC78EDB6AE0; 0x53D7865FB725A; 0x6ED24F885E307; 0x5CE843771EF4F; 0x58D6256C79CC2; 0x10C8CBB613DE9; 0x4D23EBA7C20F7; 0x4AAB81D2BD1A4; 0x7EAA3AAB8A668; 0x3973523884C90]];
  [[0xD315BCC6A4EBE; 0x23AE21C0D026D; 0x74CC51E26A4A7; 0x4EABBCED74E32; 0x6B0E906F48456; 0x1FD94BDF2BC16; 0x2B3738B72AE1B; 0x6DDA66FC3E72B; 0xA0BAE6CE73F8; 0x649ACF7A899F4];
   [0xB963804F8D424; 0x6F39A9330D7C7; 0x4A7B044BBF992; 0x3B6ACEE3101AE; 0x380FD2850FBDA; 0xA7E356E4721CB; 0x6D74381BB53BD; 0x77C758E87A472; 0x34ED47B90A5C1; 0x541B8694A1D57];
   [0x213F762157EAF; 0x3DDFE58F8609F; 0x51DB2894E81BD; 0x217B6B6443ED1; 0x3C3FD6874D805; 0x9D6AC77E5E651; 0x585C8D73CF003; 0x1177F582F8B0D; 0x6139F224E35C7; 0x6B22BB7192B0]];
  [[0x5C1F05010C834; 0x3113280A7C18B; 0x402B6DBFA220A; 0x46EABCF726FB6; 0x175B743915725; 0xE4CE9A3461CCF; 0x1C5E283A38DED; 0x4D6C8A05331E5; 0x6D2583BCB0A6F; 0x3AAA41153FCC0];
   [0xA352F702DDC40; 0x7D7130B63AB8C; 0x17012D62D24CA; 0x36D6618341280; 0x42CD7A92424EC; 0x4455D81496370; 0x2C71773A15E7B; 0x319726F43A64E; 0x61BA3963EE4E5; 0x6EA9AD805A571];
   [0x1C51E5B6AE1BB; 0x940E67BDF3D8; 0x4303CE5522A77; 0x7682D028A84C6; 0x54D741BEDE444; 0x49041A3E00485; 0x61D64B9E535C8; 0x26B36E1180C79; 0x37DC2FB4BBDCE; 0x3E50BD67DF773]];
  [[0x9A8E363B551FC; 0x3C8F4B97600B8; 0x2AC4D3F80805A; 0x7F634F89272C9; 0x5018AAD3C2F10; 0x839F5851BC891; 0x51EB91313038C; 0x8705A06CCCC9; 0x55961D9C37E66; 0x65992B370FB1A];
   [0x33C42B482130; 0x1ED0534D30B9; 0x3CCB1B89FEFCA; 0x27E1B2B1E8762; 0x1B4D9C8C9A94E; 0xB112BA6074641; 0x1600271D8DC7A; 0x3D379BCAB026B; 0x23990289F9BD; 0x34CB0141402B9];
   [0xFC8B21E970F5A; 0x645D4DAFEA6BA; 0x4AB31A4584708; 0x42A82D72C4005; 0x18A07C94BFF8F; 0xB940457D4526F; 0x2B84EF0E2C65C; 0x15EDE587F066A; 0x7B339EA0568AD; 0xC15683B4ED21]];
  [[0xC2A3BC5E45C10; 0x19DD27F647208; 0x1CC4D0E9788D9; 0x239D5295ABFF1; 0x6A78F80338D3; 0xD38F708F1447E; 0x5402FECD5F832; 0x3152B770F7D0; 0x727F40CC0FE28; 0x201310EEDAB24];
   [0x3A811FB4DE1FA; 0x3F2DC5B4E9FC4; 0x71A6F274F0FCE; 0x767549B19F783; 0x25B2A9BF40B8C; 0x419CB0D40B471; 0x160FCD458E327; 0x1AED850052B97; 0x655AB35DEDE29; 0x502A05E2F8319];
   [0x338A047D08030; 0x50A7982BB722B; 0x383E0216F4B3F; 0x4C7A4ED9B9E89; 0x4E87685DC7649; 0x6D484C7EBB3E3; 0x6DE1BC9FDC618; 0x5BD6D2BB413A0; 0x49BD7BE1BE65; 0x16C04FAA43BB8]];
  [[0x4480CB2786D2; 0x16A7099089F43; 0x4937243CD80DB; 0x12750E73A6278; 0x626538BE283B6; 0x40FA0E5894E03; 0x6BF9036149B73; 0x340A6643F7198; 0xFDF9E90AE71F; 0x2026C7AB86EA7];
   [0xD16EFFDC6C167; 0x79987485ACAFE; 0x44ECAA2B81CB1; 0x12E547660B8E8; 0x7B1BE4F5084D6; 0x35ECD495C1561; 0x19428F31961AD; 0x3A909AF294BAC; 0x2EBAA89C6DB55; 0x74D7085DEC609];
   [0x12AC41AD9E34A; 0x2CD879D1C83F1; 0x1DB74B741FC14; 0x66DA29E07A4EC; 0xD7E37FEFC54; 0xA26B97A5598EA; 0x615C93236E843; 0x382BC16FB3B6F; 0x25E0626E0106E; 0x5854D6D92CC47]];
  [[0xB6DA23DC37DD7; 0x627D60888F4D0; 0x182E4C16CC439; 0x190A2AEAAD64F; 0x58A080ED83FEF; 0xC475B09289638; 0xA2B7CF8481F; 0x2B5319E8BC29; 0x7FF5582B8B07; 0x71CFF2B7D8A99];
   [0x799B83F3B4462; 0x74ABE8CF43DF5; 0x21C8FA0636722; 0x57366BE84D1CC; 0x4CD7BD66A8D7; 0x71899B3473BA8; 0x747B62595049; 0x6097B2D1993A; 0x4CC30EDA24173; 0x27116E4563311];
   [0x4C7419A1E733D; 0x541AD1C0EEBF; 0x1BAB59CF44E81; 0x56EA6AA62AA42; 0x88CBEBB0E2E1; 0x4D93FA0BF3D38; 0x1F22C909EE410; 0x6B1E6CAC473B; 0x19E125E7B6046; 0x1CFB3D7B37E4E]];
  [[0x48754583A8735; 0x7C03868E916A6; 0x7B4DCB70752B4; 0x4EC5FBA952102; 0x30F2C4A828172; 0x23232F926F234; 0x7257074636C00; 0x7BBA1745B61D3; 0x4606E90A58313; 0x7E22E07DE154B];
   [0x6C2E97C0DBC05; 0x54DEBDD212630; 0x2C65F92437420; 0x24DA821327EDC; 0x580B8B7AD4E87; 0x1CF81FE5285E9; 0x6DD81D32634A6; 0x3338A292D42A1; 0x25E961008BC1; 0x36D9C01BA5AB9];
   [0xDC6D75F088499; 0xA65C50F7E24F; 0x45F9DC37DEEF4; 0x7A85A69654899; 0x4F6026DDF5B58; 0x13EF829317A2A; 0x21C7A10A33027; 0x556BF6AB7F742; 0x1388625C5DA4A; 0x515466D6ABA32]]];
 [[[0x6AEDBD4096564; 0x4FA8B9BD472A8; 0x518E920FABD7C; 0x35641C8964A33; 0x3B7F827A7DEB4; 0x87747322CE9B7; 0x65AF64E2636; 0x7E118D796640B; 0x22A725F5CDAF8; 0x6482AF75091E7];
   [0x4D5F5FBAF23D8; 0x18961AF8EF02D; 0x4410974A5C748; 0x3671CA4C34023; 0x198D894EF5FDF; 0x45C045A1A5DA1; 0x6A2E629F4DBD; 0x5EF0CF4FEC9BD; 0x2E56472C2285E; 0x81F06DCB9DCB];
   [0xE80FFCADCC17A; 0x5936ED4B05E0; 0x5E5192BD5AE9E; 0x4DAF3465C58CF; 0x6378BB4FAF5A0; 0xCD0DB0E0B2AB7; 0x59295D7556578; 0x17B233F34BAA3; 0x2571548CAFBE4; 0x5236D086B5D11]];
  [[0xC6C8A8FEAF23E; 0x15B3EACB47609; 0x1C051945F47AE; 0x3BB72E86D1518; 0x2F0317989531D; 0x734207AD0F517; 0x363F8254FFC55; 0x16DC567D3F213; 0x4C688524FC6D3; 0x156E27F2C4E00];
   [0x94738AD2D4E84; 0x308AECD530FE4; 0x3502EB6F601CA; 0xA8DF04C92C06; 0x50EB08481C052; 0xAA7EB925117D8; 0x49599E1644BCD; 0x5C13296C44839; 0x500DE14878BFC; 0x71AD4469CF9E7];
   [0xE2FB921857436; 0x43A88AF65DD1C; 0x7AE448925AD60; 0x665712480CF54; 0x2182C680974A7; 0xA0E7328765D70; 0x268DF8BD38233; 0x6919944C2A877; 0x7783F5CA85F2D; 0x739F3727C396A]];
  [[0xE191F38D6E32D; 0x3D053DFEFE14D; 0x6103BF922921F; 0x2781AB0853980; 0x4D1652DB90908; 0x5E1F759009BDD; 0x19A45C89003A3; 0x6A14C19DCA07A; 0x5D837A9C8F3A6; 0xDE43E792E061];
   [0x58271D24FD29; 0x68BAB21F6CEE4; 0x4478711E724E4; 0x6CEF29CE967CC; 0x4B50277D6D492; 0x4164FBC658CA4; 0x5AF1234A44C70; 0x3BD47313B580F; 0x6BC5D3649D3EC; 0x7638ACC404B36];
   [0x25CAF5D092528; 0x15409EDAAF2E8; 0x58CB7B8A5B798; 0x7CA6671CF0F3C; 0x52C52122B9340; 0xDB0C96E176FB1; 0x55085B46D6018; 0x2FDD65EB673C5; 0xB19A0B489654; 0x2A275A7E071D2]];
  [[0x1A067462A7A3F; 0x7CAA8EAE4E2D4; 0x4DFDFC8AE5719; 0x7F8F8369F764C; 0x2A33657D7196B; 0xACE1F520DCA38; 0x15FA3A1F57752; 0x1065EF98FA0B; 0x4F22D7351AD00; 0xB4988C661B8F];
   [0xC5FDC9DF374E1; 0x33D547A4D226B; 0x2DA94FE5AD02C; 0x5207148BDD3C7; 0x1521F51FF31A6; 0x48B1F8084AD9F; 0x169D55C98C3B6; 0x16716681D2998; 0x76D65C8585D2D; 0x503C6F5CC1008];
   [0xCE3789E67601E; 0xF38B3450DF49; 0x3E6488733B404; 0x128DC95E3F8DB; 0x3405A39A11293; 0xE8E6112B3A418; 0x46B9A7FFCE45B; 0x5D9582699F55F; 0x509DE86896EE8; 0x253344BD2D25A]];
  [[0xA74347CE9D01B; 0x44CA58D3D8F8A; 0x50F0D0D68B95B; 0x66CFA1182777D; 0xB0C791214C7B; 0x2416F6ECE0445; 0x49F613047A77F; 0x70690C94185C7; 0x6E6203DEAD6C4; 0x30B26F58B9536];
   [0xA58FA609D2E01; 0x678958763572F; 0x767549D4EB411; 0x7809D91FE5A98; 0x13335B8563F17; 0x9523C3394E0DA; 0x48A10A1B96912; 0x742BA8C558752; 0x9B3582D1EFD9; 0x16EAF2C3E1BD3];
   [0xE2DC67D5E5A88; 0x598CF6F4EF704; 0x11C238E331841; 0x2E1CA17ED944C; 0x7FEA87E3DB53D; 0xB99FCC76BB95; 0xBBF95F7E3AB4; 0x445911CBCE6F1; 0x62C0AEE9E79DF; 0x1ABB8605E684D]];
  [[0x3871499B1866E; 0x26E19448C89A9; 0x7B6CB1356919; 0x7B5EFC7773779; 0x71541CD774F9C; 0xD81B8DC56F51; 0x590BBF413B605; 0x312F6FCC71713; 0x40195ACA7265C; 0x26C0F46908F3B];
   [0xC3CFC3518AB54; 0x2C5FF27FA6953; 0x9C03C91FECE0; 0x63E758C4A409F; 0x47ED48DD883AF; 0xD3B409A02DCB3; 0x710E2A1D5CBE9; 0x7DC251BA3E052; 0x45E9A29900763; 0xA7C951A4128D];
   [0xB48959A040E34; 0x641FBFBA37FEE; 0x6D6D531398A6F; 0x5F4725764937E; 0xFB5E7D595AF7; 0x2A0E33F31CD55; 0x171D3C6F621A1; 0x30886FC60A83C; 0x2375FEAAB3B40; 0x656142FE41FD8]];
  [[0x88D813F345513; 0x6B33BA57A93E0; 0x4C7985F7EFB17; 0xAD075424ADBA; 0x4E8F7946DF6B2; 0xC112D1F980523; 0x49E755D0280A1; 0x2D0BE2A1F153A; 0x3488C3095B641; 0x4DB1E9A0CD854];
   [0x827E184A33715; 0x26FFF534D1DE2; 0x5B116ED309D3B; 0x40C8D9923F968; 0x254D6262F127D; 0xEB4C401A02B57; 0x7C1A5CD19481B; 0x4E994D22CB148; 0x2FD14D8E9A6FF; 0x3F3B0B506E8EF];
   [0xACBB2192D0D4; 0x5AD437C1137DA; 0x194DF8F4978FE; 0x569F428FCD681; 0x440AB84EBDA2E; 0x71ACB2B9B94; 0x36495A727E109; 0x2C7BBFBC4670C; 0x70DF23A25F661; 0x28B24AE967AD8]];
  [[0xA0F56D26C19CD; 0x2199EFE6C17CF; 0x234D29F1CA747; 0x74E7EDAC788C6; 0x56DEF769EC613; 0x6DA5F9111D368; 0x75019DED7070F; 0x668904B9CC686; 0x7BD2278E98141; 0x74D7CE18B9D06];
   [0x1691EF1DB7743; 0x5BDCB52513251; 0x880DFD58552F; 0x1D6B3EE69BD0A; 0xDF5A88773C38; 0xC094929962F60; 0x1978F58542D2F; 0x2477127820A19; 0x4F630DFE1AD37; 0x283387FC2588D];
   [0x73E4B175342B1; 0x1E2EA2F8817F8; 0xE36E592D89B9; 0x556985C76F3D1; 0x17586947F1B9F; 0x83894538720F0; 0x49C8320EB6627; 0x57FCF4E730A78; 0x2A4BEEFAA0B93; 0x294ECE9A722E1]];
  [[0x672F6D1495031; 0x1BD8FDDE53EF6; 0x2B91C714A2C13; 0x3042764C1BE7A; 0x215C56A0EDE6E; 0xF01712E36F0AB; 0x525EB2C91F5D9; 0x4A7BAC5E8B947; 0x5183B56926CBA; 0x7D3EDAAAC8E27];
   [0x282A6939E11C3; 0x66C4CBC6F5DBE; 0x5123C70144F68; 0x354705754070; 0x5BE6B2B681A76; 0x54B5DD04806FF; 0x4CE73D1EA7C82; 0x692CC1053AB63; 0x535AE1B4F5F42; 0x60A6C280503D9];
   [0x5CCDAD02C3E6B; 0x236AAF0C2208D; 0x2A1B3DC123AD5; 0x4808D9A85C7CB; 0x620B632D048DE; 0xDE4795B182DAC; 0x6F740B4DDEBB6; 0x527F4E1B71053; 0x3711DE510B0C6; 0x4C2397BB75FD4]];
  [[0x4234DA61A7380; 0x7CFE09C0E115B; 0x146042D1F85BF; 0x76BA304771D0E; 0x382E92D2CA568; 0xF852C7DE31639; 0x2B6DA101F3608; 0x2354CDEB32A3D; 0x6D1C3FABA408E; 0x46A322AB41F71];
   [0x835486D6965D2; 0x5DDC060C09641; 0x6FE8F914611BF; 0x56CBACCEE1D60; 0x29652751B4958; 0x30B1681FB22FD; 0x4C26183389F35; 0x64C5D6F3E855B; 0x48CC11FAA68A2; 0x303DF8C197245];
   [0xA93445489DD55; 0x32C10E5A00644; 0x10133787B6B48; 0x294AF3FFBB10E; 0x67150840A8E54; 0x48B07F53AECD5; 0x2BDABD1E806B9; 0x77916BD0D716C; 0x7251EACE82A30; 0x5BD06E6166102]];
  [[0x198DAB8E7D26B; 0x4B8CD7B0F6214; 0x6F94FEBA66594; 0x6D655AAE8E434; 0x33CBDDA515A1D; 0xFD360D05067E0; 0x7D4B6026E8F95; 0x6FA60F441F382; 0x671F70F6E2FD4; 0x58B341C31C7CD];
   [0x3B6DAB18C1F78; 0x360A07E0CE4B7; 0x37BA4F69CC30E; 0x14F6DD6939E3B; 0x71E66AFEA8A58; 0xF5276CCE6483E; 0x3F604318A4007; 0x1FF31567FCF56; 0x7687CFE2E27EA; 0x43AF6AD6807D2];
   [0x152CC8C204025; 0x32037F0153CD1; 0x1E8B1E05EC419; 0x1B7B6CEF81375; 0x17E8291BDC455; 0x2E282133836F4; 0x1D9A6210E2D16; 0x799CEE0857BEA; 0x35D41A84A5412; 0x6FFBCA27C28A6]];
  [[0x430814E96BE9; 0x57E73FB140B73; 0x60128FAB5ADA4; 0x7C05121085A5A; 0x767DC265FE0E8; 0x25029FD3C2D6F; 0x4EF454786B123; 0x208D275E826AD; 0x6C327FB0C7286; 0x424E515341DF4];
   [0x9BDDC8231AB6B; 0x5CA9241F8E72F; 0x773A7E6FE081D; 0x24CAA53134E52; 0x5AC81DCD4E91A; 0x62F6FB283E86A; 0x20E0D3D1EA811; 0x179B49545C71; 0x51EA7921EDD08; 0x1106F03625EEA];
   [0xF609CEB81873F; 0x19BFC53A07BB7; 0x2151A37FD339F; 0x247FAB99463B; 0x28EB12503B657; 0x740156BCA3C; 0x3050E54A17FC4; 0x6A21FE8BE254; 0x783205CEE4961; 0x5DDAC46630BD0]];
  [[0xD0214026C8378; 0x49B9512E7C6AB; 0x52CAB42C95449; 0x1712C0B2D3437; 0x28712113EE6E; 0x3C231B02FBAA4; 0x34002A05D7466; 0x47244849D6C0F; 0x7A777E770EED; 0x2FB5FBC1A501D];
   [0x7DD3F594FA92E; 0x11F65F7B4DC87; 0x6C8D5BC2A5CD3; 0x45434BCA486D6; 0x916C2F835346; 0x284317FF11104; 0xFED4B690D85B; 0x4F7CD3C5275F4; 0x72FCBE2A0E31E; 0x6DCE382A2D3FC];
   [0x10A836271A17B; 0x731E97701D7E1; 0x74424AD4971CE; 0x7F483B4D3226B; 0xB8D73CF87486; 0x3747546D2B06B; 0x6D6E9758543E8; 0x2311DE6C16B96; 0xCBAF9CBD69A4; 0x95BAD5DFF17A]];
  [[0x774E982F03894; 0x68F7BA9BD2B4C; 0x1BF739059F5EE; 0x47AB5F6CF04EE; 0x3AC811A5FFEF; 0x5C95473A71B06; 0x59B02D1C89D3A; 0x11350FAAC38CB; 0x2513847A831C2; 0x7FA7D3DC337C4];
   [0xE029A8789C756; 0x6C80112AA281C; 0x8852BEC02592; 0x3FBF12B155C1A; 0x5E093259AD772; 0x9A44E24E7366E; 0x3BF1CA8CB8F83; 0x6E16F8C3A71FD; 0x1DBC1D6FDDDC1; 0x5A28406D8B874];
   [0x52274D60C7FE9; 0x9ADA801895BF; 0x22D4D6202774; 0x72D947EE0B5BD; 0x51A0FEB7FDA2C; 0x709284A66373B; 0x13FB44E784E2E; 0x43800043BC45B; 0x6DEBFA915C8FE; 0x184A44DB57776]];
  [[0xC6E45435B0D8B; 0x7A4D96FC4C926; 0x4DD4FFB13A623; 0x2B97573D59BA4; 0x64D5DAD519C4F; 0xC54E3E0322075; 0x25D680006D4FD; 0x26C6C103CE9E; 0x6A3C770AD980F; 0xAFFA7978989];
   [0x1BBC06890396F; 0x59B7508BE77A3; 0x2C2F34E1E88EF; 0xBA76CC4B6DC3; 0x40CB93F2DB890; 0x38DB1EAF02BA4; 0x51A968FE1C009; 0x79E490FDF2F6E; 0x38810CC4881B6; 0x2F52348865870];
   [0xFBCBADF123F77; 0x5C24E5CE6F8C7; 0x57CBE94145D7B; 0x3D7A5F191DC9F; 0x580576DE72DB2; 0x3E11D99876CB6; 0x71D9921E18FA4; 0x2A74C8C214DE9; 0x290E367E8106A; 0xA45E602E2A06]];
  [[0xC81708300B3A2; 0x2EB6DD40141C; 0x8EBFBAD275A0; 0x9EB98ABECC72; 0x1EA0CBBD24C18; 0x5C085867DB19C; 0x78A2DB60D1751; 0x32A43EBAC70A1; 0x2C402B12DA313; 0x4F4B89ACDD13A];
   [0x4AC90A370FD35; 0x27D715223E22B; 0x564833F08968D; 0x6A965DB0C2238; 0x4C25626C5CCE9; 0xE894C118288F1; 0x4FDD61C59DF2; 0x4F91479C26D34; 0x22FDED1EDE6BC; 0x53CC6F351DBD1];
   [0x41C1E5BF143DB; 0x78318A8FC82ED; 0x73CB01F7A1760; 0x2BB276EE12092; 0x62B5D062F3983; 0x6C0699785ED64; 0x705C5B8750987; 0x734C5A5EBF1CC; 0x6B535CD5FCA58; 0x173A96CF5E5C2]]];
 [[[0x13C7D530A0840; 0x37CA09024BA99; 0xF02A724D26D; 0x7486168F78DF3; 0x57B6FBAF96B6F; 0x20E874D64E405; 0x1C5456BEE2684; 0x700947727AE36; 0xAF081E60DF35; 0x49F6D248190F3];
   [0xFACBF6A273B2E; 0xB50B6F61BB7F; 0x16ED02D72CCBD; 0x9999E37103A; 0x6DEE9B338E1D0; 0x76C4153F5F8EB; 0x4FB473E4876B9; 0x35CB573505218; 0x40E4E17B314F1; 0x64FADD17FB3C8];
   [0x90B27A6A17533; 0x10DB043FC3678; 0x5F8AAB7DA8EDB; 0x5008B83D17311; 0x75BB4482F1426; 0xB1BCB5765DFFA; 0x242DCC05593AD; 0x45C4BE141A4D5; 0x6EBC978B8CA73; 0x4580E5DA2151A]];
  [[0xB09415B635B74; 0x483E55C20EA00; 0x70DEE5B80A6E0; 0x72FD4450BC01C; 0x7B300C6DCC536; 0x754D2BB66E63F; 0x1BF3C286F6A01; 0x25F645BB8410D; 0x298DF23B3BFD7; 0x1774CB501031D];
   [0x271CB350C6048; 0x7DCA7FD3BF959; 0xC41185459A7F; 0x4BB079006A71E; 0x1C3DA681DC428; 0xE32A22D0BED67; 0x1CF9C74CC48D7; 0x754ED2FD148AF; 0x6A6BF79732C29; 0x637BA0DEB58F];
   [0xAEEE5E5D5BF89; 0x1BA9622F598CD; 0x17E6C0ECF6116; 0x1B6169A7A5686; 0xC74F9DCA999E; 0xBAE9A5784B34D; 0x3F1DCC80821EF; 0x6A6297209394D; 0x27BAECCEB3DB; 0x6FBF5A0739FF7]];
  [[0xADF4D9C8BE4C7; 0x1F7C3F9B2DF52; 0x54205B348462; 0x58A2B0587B556; 0x1031A5A79DB2E; 0xCB7B60FC99B95; 0x25FC96A4BB5A5; 0x6C62B62F597A6; 0x9CBDCB2DF127; 0x2ACC07E9CED89];
   [0xED235FAE524A; 0x3E231B9C1C59C; 0x5FACE3761829C; 0x417E0131C4B06; 0x703508BE7FC97; 0x47BA8D9CC12E6; 0x40B532D99E9A0; 0x13850B64F1991; 0x5CDF168C10B39; 0x358ABDF8E6B44];
   [0x42687C30120DE; 0x6F4E854B5AC1D; 0x60D24D07C886; 0x6662BC5B4226E; 0xDD5E40422C53; 0x66BA1A186AEA2; 0x3D5A9977141C7; 0x7210CB94D5A31; 0x575395147170; 0x3EEF35D2347C4]];
  [[0x5FA6D194F912; 0x656A4617A17B0; 0x2B82DEF48F596; 0x483AE1ABD8952; 0x4FEA93C4AA27F; 0xA79830ABCFA6B; 0x30C8EA10D6328; 0x150C9AB136C88; 0x9F66838D7EB3; 0x599AAECD736AC];
   [0x101FF4997777E; 0x6FE6DA39F9EF7; 0x5DD2FD55D5B90; 0x1EBA3BFFA43E; 0x3937F9AEAE09F; 0xB6E4EB341745B; 0x6A541793FEB35; 0x4C99BA0510109; 0x3ECAA464451F9; 0x627CC2A28E33F];
   [0x6F5CF9EEF8083; 0x3689B7AF03C8C; 0x41C9C530F26AE; 0x6F1B087DFAE9E; 0x5ABB0337D1374; 0xF05AA9CE380B8; 0x39D858198471E; 0x5CB4A29D7FAB0; 0x794534C8BBACE; 0x39CEB7D5953E0]];
  [[0x614976BAF39A3; 0x325765D4DAD1B; 0x6EC2EF5A9DFA1; 0x4F0B8F0301A47; 0x31D97E564E18; 0x1C40ECB1A0617; 0xDEA316CA6102; 0x232439090EE60; 0x2901913C8FB0F; 0x412FF556E2402];
   [0x64CE9BB2FE15E; 0x5E645C62B940A; 0x3113E7905C6AE; 0x2BBDF7FB2C955; 0xCCF48175A91B; 0x38BC3E1E69073; 0x4538F90A325F; 0x46BF9A7D85906; 0x5D8AAA52E49AC; 0x6F70CEB9DE4F0];
   [0x635FDDEEE55B1; 0x2B647305EC4D0; 0x785A1C6C0CC5B; 0xC28EEEF42FDF; 0x70B6DF3CE31F0; 0x75BB72FEDB524; 0x44424339CD683; 0x724049E9861DF; 0x606B0D0C1B71C; 0x72720DEDAF767]];
  [[0xAB553D62ECFB6; 0x78C8B49E2EE27; 0x712AB7130F07C; 0x7517AB87454C5; 0x7A2F222BFE5AF; 0x9DF9AC8EF8D1E; 0x70A0B9486719E; 0x5FE0A5CBB6815; 0x5A777CFBB6EAC; 0x26AA3DEB05ED1];
   [0x178E658CAB163; 0x6218B72D4439D; 0x3E0E7508F98B6; 0x53A2E9C0FE780; 0x862C90F4AB94; 0x7D2A76495265C; 0x7D6CA0B086A9; 0x37E0CE123AE70; 0x5E35005198C60; 0x14DB9BE0C9BD4];
   [0x22AE27AE69A25; 0x6BC61B880B6B7; 0x2B9A770ACB37C; 0x6A57A8181E7DE; 0x515156749D33A; 0x89265C87573A; 0x2AAB0BA4334FD; 0x36BFA753F183D; 0x7D94CDD21BBEA; 0x73D056E77BAD1]];
  [[0x54034D049A849; 0x7A61F3DCAD52B; 0x6AE0359F441AC; 0x4FA71A2DB1D12; 0x4A3AD2195FB05; 0xDA575D0991F08; 0x4483A3F583D4A; 0x19E22FF97F896; 0x45CE17079EB6F; 0x3D843DC26F0B3];
   [0x5BB7830081F4A; 0x535B970A5DEEC; 0x6920157058AB1; 0x5ABB6799CD9B0; 0x4E722E0BE3E24; 0x34B265793F314; 0x721330570DC23; 0x4426EF0F5B164; 0x7D6F3A6CB44E7; 0x56E34A5B334A3];
   [0x3F8C7FDA5799A; 0x633A1AB544629; 0x36C698257C6E1; 0x671CB37471C6E; 0x6309190EBE26A; 0x73E0D3C3C947; 0x75458F071D648; 0x304D50E4E6E2; 0x25B9FCE5481C7; 0x560854658E1E6]];
  [[0xAF006973EAE1E; 0x3BA1CB36833ED; 0x440038B6244FE; 0x1ED4D4B28E0BB; 0x4946559A45B7C; 0xD7AC175A120AF; 0xC782441BE688; 0x3FBE4F6759494; 0x3227FCD0861C6; 0x693E8E569DF61];
   [0xEF3D4D70D6006; 0x3622B91C969F3; 0x59E57B022C126; 0x4E567BE39909D; 0x25826F5172EBE; 0x978FE696EB07D; 0x7E55EC2C54F03; 0x1F198F1EA9886; 0x61284786511BB; 0x54EBEEA2E481C];
   [0xF0108988CDC8A; 0x6320933C6DB8E; 0x69930CEF56158; 0x3A35FC98F89A6; 0x27BD07B67AAA5; 0xA2124168772A7; 0x108CBFCB7F765; 0x190EA54B1EC2B; 0x427DAAD72BFD4; 0x73EB2D65C41BA]];
  [[0xA06A739424A7F; 0xF82BABC20278; 0x5E0013C80B8BA; 0x9213E9C746A9; 0x77CCF7EE8DCA2; 0x48553CE359952; 0x68D83C7BB1BFC; 0x23585472C1288; 0x683CF0D405E14; 0x4B248941E148A];
   [0xA7C88931485A3; 0x30D7D59F36392; 0x3096B037E2FE5; 0x72B76E5C87A57; 0x412333ADDB88D; 0x75009989C68F4; 0x5EE189974076A; 0x60FFAFD8A128; 0x120ACF08DA33F; 0x571F558025BFD];
   [0xDA9D04CD700E8; 0x57458C41B633D; 0x14B6489FA7B39; 0x3BD5C957593DD; 0x1304CB1D79CF1; 0x5E9BAF878A8A2; 0x194C540C98A95; 0x3B7B2BACEC32A; 0x4F344F8DD4CDE; 0x78EF34BD78A1]];
  [[0xFC67E2383EF8F; 0x382B810E6F7BF; 0x6C9F24B27C13; 0x57D888D81661; 0x54A699A1B1D6B; 0x8FF73BB9232B4; 0x3804878333A2B; 0x44F051B58790E; 0x271D3AA9BD38; 0x44CDE0EB6CF43];
   [0xD62B3C3A5A19; 0x141707504E91E; 0x6515C33000546; 0x17546C6B9FF00; 0x45D82E76E1B8B; 0xAE172E2EB811B; 0x413704723E59F; 0x70B4CE13230E2; 0x54BF697CE5A; 0x63ECC547A49B9];
   [0x602372F14D11C; 0x378921B1097ED; 0x67C4238D607FA; 0x21D2C859309EE; 0x5847490A29E8E; 0x2D093948C4994; 0xE23389BFC4DD; 0x7DE892CA061E2; 0x4BCEA3495B247; 0x62F7532D3859D]];
  [[0x86B22DF769D24; 0x247653B1384A5; 0x7CA7B0BA8B67B; 0x3DE749E6F9B6; 0x60288E35E6723; 0x132375704332A; 0x90B7E04CAAD9; 0x618FE2CC615F8; 0x71C3FA82E1054; 0x5ACCA0095992F];
   [0x8070A5524110A; 0x2F514E36570A5; 0x7FA5FFDAD9B18; 0x40716460997F2; 0x4A84076418D9B; 0x191D0E25444E5; 0x3F007A978D4FD; 0x10583B27CE828; 0x76188CFB16D13; 0x4AB4850C52869];
   [0xCB5BB8406E9FB; 0x6229079FE11A8; 0x69D10E2374F64; 0x3E0965719E097; 0x3D8E4F1D6E86E; 0xFEA5863BEBA3D; 0x7D0430EF56C07; 0x181949DFD703D; 0x1339A965B35C2; 0x3B56220F5C7F3]];
  [[0x66DEE74B6C3E6; 0x383135AE75C98; 0x4505F98DC1ACE; 0x32C4BBDDAC89F; 0x52AA09F53D136; 0x4F3A390196005; 0x4A5FCAC34F0E0; 0x1EDC68C692D8B; 0x2FD9E6D8EE76F; 0x29FC1CCA2C8F6];
   [0x65029BC02DCE4; 0x72FD6589B1B83; 0x4147281085E5; 0x3B32D6A3356B3; 0x73F9780B33257; 0x3D884CD344161; 0x32F7D4EA15736; 0xF5FB646C3211; 0x710946F78EE11; 0x41450BEBEAFA8];
   [0x4B10D60B8A44B; 0x74DF316AD0515; 0xBD0DA3A0140; 0x2FA9736D69155; 0x4AE7CB062A37A; 0x3B28579544A9B; 0x30DEF5D17E4D9; 0x4FC0A27B77D73; 0x103D226B1E92E; 0x5050AA53E3D45]];
  [[0x4C96EE0523578; 0x2657E40AE1BEA; 0x32F4A192D817A; 0x2963B113F0E7E; 0x5E7C716A6D2E3; 0x27EE6D4437F4B; 0x1151EA99B216A; 0x1183200C3345A; 0x4620822162719; 0x6FF98AC189C7F];
   [0x7835A38637315; 0x21DCF392DA107; 0x32E572F2009A7; 0x551A3874139CB; 0x54BA83808EC95; 0xE3B367E07B1AA; 0x1C425C58AF001; 0x7FEBED49D81AD; 0x5614216D95FD6; 0x7059956FB58D9];
   [0x9A088527332D8; 0x4EBFF217D2F53; 0x68A2C41E7A6F9; 0x7203B80A56ADA; 0x3CCF4A503F5B5; 0x9DE73564AAC98; 0x7C64A2D2D5B63; 0x66A514607F4F4; 0x4F7B23A1883CE; 0x478DBA2254062]];
  [[0x891C63EC17278; 0x3A469EA7941A1; 0x6CC724614C2A6; 0x47368EAC894D3; 0x332725D63A7FD; 0xE1B3A2B255A5D; 0x7DE48A07B22AC; 0x1320FE5C7DF2A; 0x7981EA9B5299F; 0x64E3A11075FBC];
   [0xF356D82B65E1D; 0x333902B0C3E91; 0x236EE56D2F8F6; 0x52D781547A66B; 0x71ECC2B2D45FD; 0x21D01072A8CFE; 0x14250E888F3A4; 0x41F6CCF6D58E7; 0x12F704916CD11; 0x1C16A5BA5DEB5];
   [0x7176D4A4BE8ED; 0x3AC14FE6CB1C7; 0x5BF2A9F3FDCA4; 0x100A77E943894; 0x1A1B89F7EB96B; 0xAC24527F9F6BC; 0x2AFDC6A5CC161; 0x6C7233297DD8D; 0x1EF7E4B64538A; 0x64C28116F6D3D]];
  [[0xC28582D0EAF98; 0x760A4D8C62392; 0x2E99A28753318; 0x36B4DD38D7C84; 0x5CE1103FE9B19; 0xA5E7E678EC657; 0x1027FC495CC3; 0x53D5EFE3F79A; 0x78707798B4856; 0x2BCB996DBB870];
   [0xDE9BE7A3B7D2F; 0x326F8D8093FCF; 0x6F4CA9EA85C42; 0x2DA90D1D5EFAE; 0x453D210C50A00; 0xED30D7AE954A3; 0x667D3AF1FF3BD; 0x610D4A9935FFA; 0x7996E35B2EEE4; 0x5851FBF41B9D7];
   [0x1CCB597D775B8; 0x2E2D7080ACA82; 0x26A27679CA594; 0x767CAC5608B07; 0x7D3E1C929A8EE; 0x1C08248026B08; 0x66E49F4282B91; 0x43EC983912C70; 0x47BE45E4D1D00; 0x5D6619498C3D3]];
  [[0xD75F87926E2CA; 0x4BCE95D143C30; 0x7F9B22AB8D12A; 0x5764F5D0427EC; 0x53FC4AEC382EC; 0xBEFAD0696C924; 0x5C1A42613E0F9; 0x6C63EA68E2641; 0x5AE918E206EE4; 0x201EB6276D205];
   [0x80526DEB4F23A; 0x4A3E016C3560A; 0x48954F4DFE4E5; 0x33FAEECA38CED; 0x1AABCF5F5B04D; 0x624845CAC218D; 0x727D5924F0D61; 0x39A25A9A902B9; 0x25354B1923A74; 0x42D904B1EE6E2];
   [0x5EE12683D6873; 0x20C302FB23D53; 0x41183598E5E20; 0x660C4A3602D69; 0x428E3D7F7DA6B; 0xFFDAB157CCECE; 0x3ABD7DACF40F1; 0x1F758B2026116; 0x59CA09F80A28E; 0x58050997A84C9]]];
 [[[0x12BC79DE3583C; 0x21865086663FD; 0x4E4ABB33032F; 0x79C1995D5F6AE; 0x6843DC92E6F2C; 0xE5AAB95A25A94; 0x297E894CB3E2E; 0x2F3E8D3C6A333; 0x1389E783B3338; 0x4D35F4985F35A];
   [0x924729178D442; 0x72FEF9AC231D7; 0x3255217E983F8; 0x78D1ADD8547ED; 0x7DD800A0126E4; 0x40F7454BB5636; 0x70028ED5FE73D; 0x2FE6922362D32; 0x517F433247DD5; 0x3131BDB6DBD80];
   [0x9B880561B3C2F; 0x528E3FF8E6EB8; 0x2B3F6E8A064AA; 0x306F6878089C4; 0x7DC267AF352EA; 0xEB92414BD9E20; 0x3B288AD2E08DE; 0x226D516C76AEC; 0x40D85E3E81384; 0xD2240FB63716]];
  [[0x587DEFF3E2CA8; 0xADE75F1C108A; 0x77C7746D2B81; 0x7F15AEEE1A36C; 0x147D7174597BE; 0xADF5550885ADA; 0x5AC4D1E2642DC; 0x11B21A28D0DDD; 0x41407BD6EAB82; 0x48A1C814EF854];
   [0xEE63D584955CA; 0xDB6FC1D35A63; 0x7990E3E93CF7D; 0x6896872475C47; 0x2FE85FB8B4F95; 0x9A4386F393657; 0x6D05838FAE08A; 0x3B7E6453E11C6; 0x4A2C032C2CE97; 0x3289CB5A153DD];
   [0x2BD6E9F70C80A; 0x231E61F2C2C8A; 0x2A043498E6B5B; 0x27EF36D2BD2C9; 0x792B9E0D4EFFA; 0xD609539828287; 0x2DD2C1EC6C7BB; 0x22B3BF91980DE; 0x3C03DA1E5A7D9; 0x84F0BEE586B4]];
  [[0x712E11D32F6C1; 0x7699A1E2965D4; 0x6F53B52261F62; 0x10D991E106C19; 0x5E1F7A164C33C; 0x2D0C5F074BEB5; 0x460F51489D3D8; 0x2E479EAC4245A; 0x2053DB40CA26B; 0x7428215ABE9C];
   [0xB9A8A9F89A37F; 0x43FEE2728E6A8; 0x3BAD546C31F76; 0x2F4CA0D786241; 0x7291B2D3383A2; 0x6C364B58F7471; 0xE1166DD243CD; 0x3571ADDB675C5; 0x5CEB2284920A6; 0x3CE87A34C0993];
   [0xD7AC4BC491E76; 0x6933E79C065C0; 0x3962BB73B910D; 0x25407D7F52984; 0x587DBC6C6A8A0; 0x3AE437D302CF; 0x4A456DC9A70DC; 0x3580FD7730DB6; 0x6BDB32465E50; 0x303101EF56592]];
  [[0xE210468EBF556; 0x1E3325C2E6FFC; 0x3EB88667F698C; 0x4C7309F19C344; 0x7B954D985C68; 0x112B5D338E899; 0x103AD36665F4C; 0x5C48C27F780B9; 0x6DFCD7AC7E7C2; 0x5FBAB29982614];
   [0x50C0CB5724E2; 0x3F7AB514CAA0F; 0x4F45065DA591B; 0x629B4E99E7B9F; 0x7FF99B8004A8B; 0x13A7E073C783C; 0x5096EE21EAD2D; 0x35AC55D5BC48A; 0x52D7CCDDB8458; 0x26359B210DDC3];
   [0x10EB7F4F37055; 0x22C5837D27DF8; 0x14DD44F017128; 0x762B8A81A083; 0x6343F4E6B1730; 0x6A070B31B593A; 0x35A4CB671B136; 0x34AA79F2E1C0D; 0x2B801D09AF476; 0x4D55933C87AC6]];
  [[0xF5AF20BFA216; 0x70CA3CC7423EA; 0x3BDCF09AF2CF8; 0x70852C08E07C8; 0x2B67C67B7DC0D; 0x4747A18E7911A; 0x2AE9D138BEC06; 0x29A908D7441B5; 0x1CA2C87AB2C68; 0x5D57E612AC9CA];
   [0xCB61AD6C38D3B; 0x98910BDAA430; 0x5A8F1058B45F9; 0x1378B35FE5270; 0x3B096F4B6729B; 0xB715D3132EC7F; 0xBF368D7A6E35; 0x3532D4AAC8584; 0x7C03968D90FAB; 0x3DD8235C48DCD];
   [0x865375C84BF5B; 0x6F89F501226EA; 0x3A9BA52948170; 0x5125268D062C9; 0x80351C14559D; 0x2D7F2832CC046; 0x72CD1CCBF4A78; 0x6C2A3FAE0EA13; 0x66FCF5DB7E22E; 0x7019E17361A4]];
  [[0xE48E34B29F673; 0x189AA11C7064C; 0x980567389DB8; 0x140D89A2CB56F; 0x66BB6C0F4791D; 0x97F8E780B26F8; 0x69029D6B5B3AB; 0x1807A1948E6BC; 0x26E19F742FADE; 0x85F04C0FC570];
   [0x8A43FBB459AFB; 0x80263E72058C; 0x77C836CC06EA1; 0x1B50F235F0EA1; 0x22280D3BF0256; 0xB12F3375A9340; 0x56068C08F4DCC; 0x188B7FEE30E53; 0x34956976A7E2B; 0x6F32B80C1218B];
   [0x2995C7D4906BD; 0x4C47098446E5D; 0x770566A516A0B; 0x1E7E3FBA19859; 0x5F7F7EEE25E7C; 0x56AB023B1E34B; 0x65C13925054D0; 0x3F1A384F6EB8D; 0xC7DE81E37B03; 0x7AB8E723005D9]];
  [[0xD9677AC1784B4; 0x3B608C12C6E54; 0x3773DBAACF6B; 0x335230A701D3D; 0x164DD69069B24; 0x529717B200FBF; 0x20FA9213B9796; 0x57DB2FAFA5561; 0x2139FA8922FB6; 0x67569B0196555];
   [0x9839D81326E12; 0x7F6B8CD121226; 0x11EF52FEB2E87; 0x499E40D596C14; 0x1E15D66FB1681; 0xCB2E1A771676B; 0x5B8802822C88B; 0x4AC4C2A3D2CE6; 0x736AEEE38077F; 0x48E797F51A1F0];
   [0xF3FFC1B7E0E25; 0x741ECED05D3C2; 0x2F761F2EE2FC5; 0x1899845146F7; 0x1F791E6351AD2; 0xD38697A0353D4; 0x5D13800614CC5; 0x72BF23AE1C7DE; 0x2F2F0CE9EEEC6; 0x4BCAB345E5507]];
  [[0x447671491497E; 0xC80E0499549D; 0x7383B83AE8A43; 0x18D8798A60AE8; 0x5A7634049A61D; 0xCF3BA71A877FA; 0x38992C781814F; 0x4FA4F3F875472; 0x6B3BE16D87909; 0x7FBF24B86F9CF];
   [0x5D7ED1152D458; 0x6A737D3EC8814; 0x3336316E14A78; 0x7540CA254140D; 0x110B2DC2C19D2; 0x3541AEE4CD459; 0x6D62DA4142812; 0x4D24768B69EF; 0x17FEAA0883076; 0x28A34309D30B8];
   [0x82AEA5AAA7679; 0x69F5FFC2299F9; 0x75584B5CBBAE3; 0x7EB4016FF7E27; 0x77F9D62577D9F; 0x6DC60EBCA06A0; 0x3C85F387E563B; 0x15F9C0C733FB2; 0x55561ADBDC642; 0x14B6056050D92]];
  [[0xD1DDCB3D8676E; 0x29A0A308DDECF; 0x6A381EC144616; 0x1160CA0BFEC27; 0x61482EF8B50E3; 0xEF6F13CBB5FD6; 0x47895BA6C9BBE; 0x25EC3CC939CD7; 0xC55182568086; 0x28782AA420F85];
   [0x8812D8865EB1A; 0xA23A343939AB; 0x7911CB6565C2A; 0x542477B4639B9; 0x4025D314B3748; 0xF0FC98FF524B1; 0x6AA3ED50EC301; 0x67BEA284CE141; 0x35FBE193BAF03; 0x283F0131BFA47];
   [0x3691D5B656339; 0x10FA865CCF6EB; 0x39AFC5408E69; 0x716574C1285D7; 0x229C93E34D31C; 0x9DCB9E5D6F976; 0x35DEBA296DC50; 0xAE005B921892; 0x2C8A31CBE1965; 0xED87D30FCA21]];
  [[0x9C6090B0DB1A4; 0x34B5A129C41C7; 0x59562792D152D; 0xA11D7CE1D2F8; 0x66B6939748922; 0x2AD03A62C9001; 0x7BBAEC39432F3; 0xF8A4915FF527; 0x7DBE1A2997F40; 0x439D5F39E64A8];
   [0x5C0D182E1AF93; 0x153BBC2722775; 0x211B8B306BA69; 0x7D3A33C211B46; 0x5650D03F0188D; 0x3805179159F66; 0x5B80FDEBBC150; 0x23B752B2CCA19; 0x56569DDD4BB09; 0x630A1D0FE1331];
   [0xCC57A9BD01FD0; 0x1A61B9AF718F; 0x3E7AEFE584488; 0x2846B6BF5441; 0x32F196D04DD3; 0x5855F89A5B1E2; 0x34031211C8DC5; 0x14993DFD465A0; 0x1B4AFBB37974E; 0x10725BF8ACC79]];
  [[0x8533407FDA6AE; 0x192F807908397; 0x6D0300B59435D; 0x3D01EB7B22034; 0x6AFEEF3F9CD09; 0xE5025B96AF595; 0x6A4A6BE18817B; 0x11D766D6D736B; 0x798906CAD57F4; 0x5ABB11A884308];
   [0x5141D4E3FF7B2; 0x7785D03C4C1D1; 0x2E4309AA4BEDF; 0xD594EF832B4B; 0x79F60B7615E57; 0xAF439572259C7; 0x39E6726C1C742; 0x33EFCC7442133; 0x1B48C7F680882; 0x2FBAE97FB8296];
   [0x2D2C880F58DFD; 0x2E893D015F3D; 0x402A9AE8025AB; 0x616166212B68; 0x5D8A9EFC3CCA1; 0x7EC85775C4CD6; 0x48D0978840129; 0x2C54DE6A58362; 0x6B650181206C2; 0x781263825C8B9]];
  [[0x37F4695FB8F38; 0x64899737EA849; 0x5CA9511A1C0C; 0x5B2332E230D2F; 0x5BEFB537AF5C5; 0xE66EDC4CC05A1; 0x1F243387EED8D; 0x60531AF1B8294; 0x48207AF7FB47E; 0x6467F4F208BC1];
   [0xED253E56AD0B4; 0x6FD900D9B4494; 0x771FDB0B28644; 0x6608E858B8864; 0x2410ACFA4ECFD; 0x6BCBCB4C454F1; 0x4C982596786AF; 0x7C7D414F13D62; 0x400A18A4312B8; 0x1C8AE8AAC6E97];
   [0x39A273DA14F76; 0x7A039FC51A14; 0x75AE649E4978D; 0x68BBF1108ED62; 0x1AC7CBC84A882; 0xF007CBF2633B8; 0x1A252213D53A3; 0x60026357E6823; 0x5559C92CD3AA6; 0x363AFB26A540D]];
  [[0xC6D7AC27539AC; 0x4CAF0243C7093; 0x6E0AFE6D51B44; 0x2FD11233BA456; 0x2CF8D4FBEC26A; 0x335E8B284BD21; 0x4E3B0C6669531; 0x268080A9578C0; 0x1A56306692EA; 0x1DC271C3ACEF7];
   [0x5D867CCE652DC; 0x413FF399550DD; 0x4AE5EB4FD02DD; 0x52874EA4A9C83; 0x4E30A566CC4F0; 0x9ED469CD2FA26; 0x79EED35A8B65B; 0x64FF6AF426D8; 0x13C73FCA107AB; 0x6BCC1F527AE0B];
   [0xE8622B341115B; 0x5F8B755945B8A; 0x642734EB49580; 0x2466340FFFFA; 0x3E1295E9DB2EF; 0x914081A805FD4; 0x4A81CD7486D11; 0x5D93E4C17C491; 0x6919BA5ECC6B0; 0x448FF91161C16]];
  [[0x3D9DFABF694F0; 0x2EE322AB5B23; 0x7E35695039192; 0x16EB2F5322F0B; 0x7FCF7BA70F363; 0x7FBE02B2A3F5E; 0x16937E666BFE0; 0x63B8FCA96F14A; 0x540136F4D10D5; 0x39D97115CAD4A];
   [0xA782DAEA02C81; 0x2FD925EE99F06; 0x60F793F8913A6; 0x1E83A9CDE3761; 0x1467FC5C751CA; 0x264902CF947E3; 0x6FAA77E5A8BE; 0x67F05EF979834; 0x5311603B55490; 0x74D079F64A01];
   [0x6D0D6BDA6A83D; 0x2DDDDEE12D29; 0x5927C12A4B6B7; 0x71C3961F108DF; 0x77B7833C53611; 0x2FDE12520D971; 0x7CB6A7953E587; 0x4139054626FC8; 0x79EAC5F05CF63; 0x1D021BA677A6]];
  [[0xCAC0E21E72D01; 0x2AAC8A7589E07; 0x7A7F89C925218; 0x5C69DE570605B; 0x7C603800C1CEC; 0x5CD221F6861F6; 0x225A7F4668D5E; 0x27C1F6FFB5628; 0x7A72B7EAEB5A8; 0xB10838B451B8];
   [0xCE1FEA6AE6F93; 0x19A7F14080E06; 0x2CF09EEA75595; 0x6DB5A156F82EC; 0x2FBA8A7857009; 0x13F8B71B7B21D; 0x36BCBD874C4CE; 0x3A12D4D39A34D; 0x27EBC6E708CC4; 0x46B288961C679];
   [0x84942A3FFE4F7; 0x39331DB0EFDD2; 0x3BC5E8D64D32A; 0x2F14504F246A2; 0x5D0B970850BFE; 0xDDBFD50853040; 0x53F2BB46E95D8; 0x6217469553610; 0x1AA60880F4C92; 0x1BB031C7CDCAD]];
  [[0x43577337ED415; 0x1168CF60C5FCC; 0x4F7F95837B2D6; 0x56BA25D4F23A3; 0x5C14460B0F4E0; 0x2B00069045903; 0x4B0C5A39B1AA; 0x3FBB985D77FA8; 0x49239EE5946D9; 0x57387CD1049E9];
   [0xB952D15EE6357; 0x2DB9A48C1B600; 0x2D0190D4ADBBA; 0x47F14E4566F50; 0x1F163D4E86E1D; 0xC92AF729F469E; 0x7BD599CC0C16; 0x6BC2F08CAE272; 0x47553865EB8CC; 0x1CE9F42F10932];
   [0xBCE2DA7F5610F; 0x3B36D325EE2A8; 0x726B58068AB44; 0x4A0F44270ED1F; 0x71571152CE6BE; 0x565993B17157C; 0x39843697248A3; 0x51EDAD623656A; 0x4E89907281D95; 0x3514F571877C2]]];
 [[[0xD2A3121F83A1D; 0x2DA330B022D82; 0x3B3EAB80FFD8; 0x15D727FF11EA8; 0x645E52899FB8C; 0xC944BAFE40831; 0x6EFC60BCB700D; 0x49C8983D2F665; 0x1D4D70FCC0D3; 0x4D6ED234BFC0D];
   [0xB1C9F041D3F61; 0x5D2FDE93EC1F5; 0x76737DC0F744C; 0x42230534666BE; 0x3404E863515DA; 0xC7436CCE8B116; 0x5EA392999318; 0x7905E98068490; 0x10A805AD32FCC; 0x23B7CE895D07];
   [0x3EFFB814E2197; 0x852A305BE11B; 0x48396DD06C432; 0x540D5C5935D99; 0x35AEAD67940BE; 0x8CA943925F507; 0x6F245BE658554; 0xB5E763A6E0C5; 0x2E795E93C44D8; 0x6CC4B88C475C6]];
  [[0xC200B8B331922; 0x4683E419F734; 0x2C7E001FCD0C0; 0x1479FD1FC8DF1; 0x577647BF78E53; 0x3AC981A6CC35C; 0x2966643DF7AFF; 0x673621471EFDC; 0x7BF256881F54F; 0x487F29B6DB344];
   [0x85CDB9629C5F6; 0x604C1DBE92B8A; 0x3BBE72A278D3D; 0x767DE37996D84; 0xDFE0B1187EE4; 0x4DE0ADC2458BC; 0x3CCCC4C709E4; 0x45A74FFEA1E3D; 0x15B4EE2B662A6; 0x181EFB7AE8968];
   [0x9F028A704590F; 0x5F2BA1A40E68C; 0x1F65FEC8D20C2; 0x20C79DAFC49DD; 0x7EEFCC164D9D7; 0xD456B93390094; 0x185EADF32B9D0; 0x4ED0525883825; 0x7B8A0AEB853AE; 0xD9511CB1B787]];
  [[0xCDF0DB3694899; 0x23B940D7CF533; 0x6B84827681417; 0x6F9B4F46F0E96; 0x515DA23E8AC6B; 0x95847795BB758; 0x3F4CCA41B8228; 0x6186E4E9093AC; 0x77309478974B1; 0x5B4F6C6F8FEFA];
   [0x1443F74773B5C; 0x63FFF59FDE6B6; 0x1F16F0B9EEC52; 0x51FCDC5A3486; 0x3DB748AF8F2E5; 0xB5783C6DC2D30; 0x2DAB21D8CC130; 0x5F25B88234552; 0x4FF796B7D456D; 0x6080EB1FC5C27];
   [0xA9AA635E4EF7D; 0x108EC067C691F; 0x4D22357BAE6A; 0x337A3327BC99C; 0xA68F7BADF67C; 0xAC18F7DFA19B2; 0x5C678FBE8EB52; 0x1D8F2C4E8BB6E; 0xDA44F24F2716; 0x30A3DE2A3A421]];
  [[0xF5BCB25CF4FB5; 0x37F879FD958AF; 0x1AD917C6DE29F; 0x162FF07F36826; 0x67919212F631A; 0xBFD3793A355FB; 0x5755B1ABED696; 0x144F83C26744A; 0x4BCAD8857D421; 0x16302D4EADAE5];
   [0x7E6C00E672C8D; 0x38DE62F3282ED; 0x4B4D7588B4274; 0xDE769DFD42DE; 0x31736034810B0; 0x42D1D02CFDE19; 0x3D5001378BC45; 0x63303C6FB6962; 0x33FF632B306CC; 0x7FCD2720CF3DD];
   [0xD3E05FE45941; 0x1EE7BCFC54EA8; 0x73BF8104FCCCD; 0x6E128F079E6C4; 0x6FE2C64E04ED7; 0x7C13D9F8F4E55; 0x73AA7BE299340; 0x65D2152375AFE; 0x389EB4ABE5495; 0x44A45040B455F]];
  [[0xA15B31548EDEF; 0x4BE66E39BFE46; 0xA4F48F221DE4; 0x3D1DB970835AB; 0x31933E3DE57CB; 0x978578FEEE453; 0x2C30F392DC6A7; 0xC948C85AE181; 0x200560FFD6366; 0x1230F26094A57];
   [0x71F959A90337C; 0x208552F478DC7; 0x5788AC4EBB26B; 0x2B9FBF27C3470; 0x4FF4C8B12365; 0x6D2BCE6204D47; 0x1E8AAA0A8023E; 0x797C24FED76B7; 0x26173EF326E46; 0x6133FB5B5B999];
   [0x12BC7A048AF37; 0xFD0301EC2E53; 0x2C070DD9CD038; 0x7F2EFAC327986; 0x26CE631FC9FEF; 0x277F1E2BB1725; 0x10E40E88E18E3; 0x39310E1B26218; 0x3985E2F2FBFEB; 0x268DC44A02ADF]];
  [[0xDEA78EADAEEC1; 0x3DB0BE77C03ED; 0x3EDF67A38D25B; 0x5019B365A8A38; 0x5197BFB9FF59C; 0x83D36F0A5A16A; 0x5152E257CA37F; 0x6A2BEE626DAA6; 0x33AE983C20B72; 0x4D9B705EAAD1C];
   [0x874E06D7B5C24; 0x64390163770B6; 0x5698AF98FF650; 0x5B8EBB355D77A; 0xAE7C70732C73; 0xE19D3D98FABDD; 0x79DEDA37DA75D; 0x4B710B1674C5; 0x40619A55A5DEF; 0x779DCC6F44704];
   [0x504F35721DEFB; 0x4A3C0C7E7284A; 0x2EB38ABD01FCB; 0x4CE3322295DF1; 0x31DB27F499399; 0x18AABC6E0C983; 0xAF5EF9B55762; 0x5322B53AAAACA; 0x7762A5164BC03; 0x7F960E2AF4304]];
  [[0x4FE2209D880A9; 0x3B71CEB098483; 0x6F0A21F537C16; 0x2CF6EB8FF1658; 0x5494E50B58CA1; 0x4438EA9A0A3E8; 0x3E7417D2F3188; 0x6C48A60BD0440; 0x6AD71A29DB30C; 0x1AC8E5A50D6AA];
   [0xC73B8887E050B; 0x3885D576CDAD0; 0x4A689C810C4FB; 0x694592DB886B1; 0x63944B776872E; 0xAA2F2A130E0FC; 0x8DD2C544EA7E; 0x210E4D0FC740D; 0x1E222C1CAA921; 0x71E84DB222363];
   [0x6F9367DF1009D; 0x6CBC0A10D4FD2; 0x610447BE01C43; 0xF58331DDCDD9; 0x41CDDB6D56BDD; 0x11776CAFBC4AC; 0x374788FA28EB8; 0xE99592B60098; 0x1448FF0C15C26; 0x6667044FC0ECF]];
  [[0x9F8C30043EA50; 0x112BE297E6871; 0x2F61BC12D1B08; 0x22B45B0DF4504; 0x4A8355FC774A3; 0x9F24537D203A0; 0xF00050E3A31C; 0x60D19D82588C3; 0x35A326B654F92; 0x69365E53B389A];
   [0x50A34F9BCA230; 0x768F7A199C03D; 0x204C0AADFC49C; 0x25CAC2599062C; 0x77F593DCC6037; 0xD311959EB3E67; 0x92B89479AFDF; 0x5B67AD89C4F22; 0x3626EAED6B185; 0x67832EC55B3C6];
   [0xC1593CEFCECC1; 0xA4A2957784F8; 0x26ABBB5309788; 0x74F0F59146003; 0x387E735C3C669; 0x593E8E4DEBA0C; 0x2E24A801D3568; 0x5256747685BDB; 0x13566542C53E; 0x48E7E32CD1AD3]];
  [[0x7D4DBA5C3CC2A; 0x5759B789AA3A3; 0x6F22E17510467; 0x40F3252F7511B; 0x528AEF4908B9A; 0xB8EAE9E5BCEE1; 0x6942B0FECB4DD; 0x33E6A3D8BD112; 0x4CC49DD25E389; 0x445C577D06042];
   [0x7C40A37BEFD01; 0x730CA5186A539; 0x5C36B6EDBB6B6; 0x4CE95B4DA9CD6; 0x2E2AD0BAECB4F; 0x9E94D245C6F84; 0x73894E220EBEA; 0x1E10C1571B9C0; 0x2A750557B17A9; 0x2F468854DE098];
   [0x6D012DA4D1F3B; 0x65FA17AAA85D; 0x126D6EC4C4597; 0x62F36E6EDE0C7; 0xB9419F244E94; 0x89B6AA6EA58BD; 0x67307208BE7E2; 0x65FD90ED40D58; 0x2493AE4798B62; 0x5C947F9A199F6]];
  [[0xC9CA5529BDF08; 0x6474FD3A96C71; 0x32737E53C8C69; 0x7F1A1D1EDAE8C; 0x7E44ED2C4B89C; 0x39AC19F0C716A; 0x41F9F39F47EBF; 0x7591E503A89BC; 0x7E4B3B038BA83; 0x2D77047632306];
   [0xE44217D6E3B7F; 0x25C90B5976AEE; 0x1F4EF248E8C6D; 0x6AF1D1868F663; 0x38AC35E161DE; 0x6647522C34933; 0x5FBBBB3C26A48; 0x226EA1BC6B125; 0x61EA27678E69; 0x7204A98E37606];
   [0x782E217103AF0; 0x5F858671BD8FE; 0x4929B9196468A; 0x4EA71EE645DFD; 0x44AAB314B679F; 0xB22073C603B6; 0x4B1C1D90F53B3; 0xF1B4FA3F48F3; 0x128359405A8D0; 0x7D5F6710B1AF]];
  [[0x306DD32F8B559; 0x7C415E4D67E45; 0x56A49257A4333; 0x18F1224742086; 0x542B30DD86DDC; 0x1645F932983EF; 0x7213FC2770A7F; 0x5126F605B77F9; 0x41CEEB5B0DE9E; 0x3C305D884EC37];
   [0x769826ECC1E95; 0x58DF57466B622; 0x2788C60F1A684; 0x10C568F251DA8; 0x75B0E37E05118; 0x165CB8643BF09; 0x6155F1C1AEE2D; 0x6CF1B4EF316A8; 0x61E8F6B5FB5F; 0x893F44E63C16];
   [0xCDF32871DF406; 0x78311BD087EFE; 0x67873B3557364; 0x636BE32D35E5A; 0x6195801D0D6BB; 0x2735B3B4EB70E; 0x363C1BD256DF7; 0x4C37F9069C166; 0x706B70FC69919; 0x5402BC0A1784B]];
  [[0xC3C3A75895A83; 0x2AF5E20173369; 0x16058BB908BA2; 0x6422CFBDCBA5; 0x3532C8DAA68D7; 0x1718B0498E976; 0x1037F828D1CB5; 0x4ADFBAC138E46; 0x264F5D9AA2DBF; 0x661862DCF83A4];
   [0xB4401A412DE9C; 0x4C413E9A0630F; 0x1E24FC9E6E3F3; 0x77A8E0FD8D9C4; 0x1BC33A8CA2E97; 0x8030A67A41045; 0x39F744B6ECFD1; 0x72432DDCFFE36; 0x7DD91D0BBE6D8; 0x78AB20170916];
   [0x498F6F8BD5A53; 0xD1C46916C0CF; 0x5F54960938342; 0x447AA84AB04D2; 0x724A5EB675B6E; 0xEA0E318325878; 0x66B113C4AA80B; 0x253461B0BF6BE; 0x4DB77BC24C66A; 0x1AC7EDE0A50F4]];
  [[0x44A5984167BC5; 0x3C2E2EF77D4C4; 0xB0E5F803C46E; 0x36C49B84AF0A1; 0xC05A8C33C661; 0x96D04429DE51D; 0x1CD77226DEF8B; 0x5AF209A481396; 0x4DD604CDFFC41; 0xDE719B2B2635];
   [0x38429D5339495; 0x59B744E7203F8; 0x54083470E63F2; 0x20168D78F5F9F; 0x60B7BBD5EEA39; 0x6C9580366396A; 0x47B4DABFD7116; 0x7CB92CE4EB12; 0x171CBBFFF880B; 0x32AEA49629D50];
   [0x2327365257623; 0x2901F27D0F318; 0x7EEC27D093A11; 0xC431CC4582E3; 0x32FC5091EC7C3; 0x9F1205282C2B4; 0x6A99198CE7309; 0x181D401A1E0EB; 0xBFBAE47E38F; 0x1B85974A394FD]];
  [[0x3D98BB92DE0A; 0x12FC6BEE98813; 0x3C727A73BB1DB; 0x594A927D8CBF4; 0x2F609AA953DBA; 0xBFB4CF73D47D7; 0x6F4AC381AE6B8; 0xD2B0C81B4EFB; 0x5455F0C358D6D; 0xF023E512DEEE];
   [0x69BD7FC6E5CF7; 0x2D72F5A73331E; 0x30CAB8A2D6416; 0x1594D14FA77F2; 0x631869D3D020D; 0x2E08CCBFD994; 0x46F03B754307B; 0x67146A1F6ED5B; 0xB02B94197421; 0x751016B4BD0BC];
   [0xE6EFCC4EDE7FE; 0x4ADD3198030A1; 0x47734A17278D8; 0xF92F45E7CE85; 0x3F6D367D00160; 0xE13DFE99432BE; 0x187A2AF6E1412; 0x6A191CEED3ACE; 0x58147D849A2BA; 0x1BC9A9B916364]];
  [[0x199D348C776; 0x27B8B4CFED803; 0x5BF0AB8D43407; 0x7B10CAF37EC50; 0x33B53F6C30777; 0xE87F6475537F5; 0x1D4A155ABBCB; 0x3CB17A764EA6A; 0x13523EE4327E1; 0x753B39ECFEACE];
   [0x42F46C4C2845F; 0x664A9551B6369; 0xC9CC8349A824; 0x574459D0ED534; 0x1A18730E01DA7; 0x82CA89B83E7F8; 0x6AEE1395800DC; 0x20195766F2D74; 0x27864BA955A16; 0x56478A31843AB];
   [0x3D3FE4F04AC87; 0x2E5E52E60EFDD; 0x60730A36559C5; 0x6A427612AD123; 0x3A36F820D7FE6; 0x89AD1F5C273D7; 0x2D21C3309431D; 0x79250B4AEAD6F; 0x3F475A1168016; 0x92AD39E48D5D]];
  [[0xC1CB7EACBBE5F; 0x4783A6E7DF912; 0x5830AE2E3AE77; 0x20AEE82D43F9A; 0x1F837EDBC8314; 0xA1D23C74DA695; 0x5E6AEAC19A780; 0x7852725690C30; 0x6807B0774F532; 0x4DB69C9F9C33];
   [0xF824529D58522; 0x241E1A2206190; 0x7C5225BAD2B57; 0x67F90115B53BF; 0x66BD04E108B4E; 0x33F9F0CC81B9C; 0x3C0A7A3FFBC22; 0x2670D5CC34121; 0x2CF6BBD4DBD78; 0x644ED07DFB2C5];
   [0x2A7ACB34B8F5D; 0x48474BD048B62; 0x4D4C75CE04805; 0x1DB57B655BA7F; 0x7755297FAB4DC; 0xCBABD48415893; 0x6810FE1CA637E; 0xF699DDD6AC1F; 0x451C6EABA4EA0; 0x7E1DB71EC0558]]]].
(** lines 9322-12024 *)
Definition lut_512C_32 : list (list (list (list int))) := [
 [[[0x12; 0x0; 0x0; 0x0; 0x0; 0x0; 0x0; 0x0; 0x0; 0x0; 0x0; 0x0; 0x0; 0x0; 0x0; 0x0; 0x0; 0x0; 0x0; 0x0; 0x0; 0x0; 0x0];
   [0x1A3D; 0x7DCE6; 0x3B0018; 0x65755C; 0x8B012; 0x309056; 0xE5CCB; 0x68C5D1; 0x3DD7E0; 0x67BC4; 0x3A96CA; 0x34A916; 0x37B386; 0x15845F; 0x368D9A; 0x405E50; 0x3EFD86; 0x3C541; 0x15BBD0; 0x5732B2; 0x7D785; 0x39D1FB; 0x11A6BD];
   [0x1E12E; 0xD882C; 0x2601B2; 0x224088; 0x1C6152; 0x2A260E; 0x28653; 0x5DE8B6; 0x192DCE; 0x34B3D9; 0x1E9A35; 0x33E39C; 0x2A9F73; 0x34EBD; 0x15F4DA; 0x6A1AF; 0x2DD375; 0x3DEA3; 0x734A1; 0x21908A; 0xD2766; 0x10C3A8; 0x3DB95A]];
  [[0x714838; 0x3864C7; 0x15E5EE; 0x23E2F6; 0x1272F; 0x115410; 0x3575F4; 0x599E80; 0x1911C3; 0x16A65A; 0x1D472E; 0x6F3D5B; 0x10340F; 0xE837F; 0x27C450; 0x7123EC; 0x28CF66; 0xCD738; 0x28A9A; 0xCAEE3; 0x261B2D; 0x1B65D5; 0x3754B];
   [0x62FF0C; 0x39AC13; 0x3468DD; 0x5CFC63; 0x3F7D2; 0x370AE6; 0x36C17A; 0x1D053E; 0x4E79D; 0x268C78; 0x38AB40; 0x7DDB1E; 0x3B4D93; 0x3572D3; 0x124D45; 0x72B7DA; 0x18E151; 0x1874E3; 0x372E71; 0x505781; 0x19B7EF; 0x225C53; 0x8A46];
   [0x224325; 0x1B6A98; 0x3712F0; 0x29896C; 0x276411; 0x312C3D; 0x3C91A0; 0x5E5815; 0x297712; 0x3DE7C7; 0x2D1F5F; 0x2BD84B; 0x31E9D5; 0x49136; 0x1802F2; 0x2F8CF5; 0x2DB47F; 0x132C57; 0xA8508; 0x3D2B4C; 0x28BD48; 0x1D60C1; 0x3E0AA0]];
  [[0x30B9C8; 0x2685FC; 0x1B92BC; 0x18DFEF; 0x22306A; 0x11C069; 0x3EB95C; 0x3F5EF0; 0x7C592; 0x381817; 0x10861D; 0x4D484; 0x23D575; 0x3F10B5; 0xA70AA; 0x4D7662; 0xDD1AA; 0x3FD38C; 0xA6668; 0x25165D; 0x181E91; 0xE23E5; 0x269040];
   [0x341E21; 0x257531; 0x967CF; 0x19BA94; 0x151857; 0x19AA1E; 0x7DC17; 0x11DB85; 0x2D3151; 0x2CEDD2; 0x24E69B; 0x1A161C; 0x1A4C0C; 0xAF920; 0x70D8C; 0x6577B1; 0x20BA5B; 0x3E2CB7; 0x2FDC2A; 0x35FBC6; 0x22FA7D; 0x33F920; 0x271D0D];
   [0x5E541E; 0x1D52C8; 0x1062DD; 0x24B0B7; 0x38AB52; 0x390136; 0x229FC; 0x83904; 0x1D494F; 0x3390EA; 0x2173E5; 0x3C560E; 0x2DBD84; 0x5F4E6; 0x27C060; 0x18F19; 0x21C09; 0x2C4427; 0x2AF1D0; 0x137D94; 0x398A24; 0x15C3EE; 0x2465FE]];
  [[0x323C86; 0x177FDA; 0x39B750; 0x273D46; 0x17FBDD; 0x2CF518; 0xBBF36; 0x5C0328; 0x2CE181; 0x6A3B; 0xE6E58; 0x239AB; 0x34C2CE; 0x74E3E; 0x3363F2; 0x95FCE; 0x11CAA2; 0x20BAF6; 0x33EA63; 0x66A91E; 0x2CC83A; 0xD84AE; 0x1B7D65];
   [0x4CD0FD; 0x2320B8; 0x1CB711; 0x404C3F; 0x3A65B2; 0x256419; 0x163A1D; 0x7E15F5; 0x302B21; 0xC47D7; 0x3C9CBF; 0x2DA840; 0x354B2A; 0x19F94; 0x5E8B1; 0x2B8F3D; 0x26C85C; 0x1F3DD4; 0x251D66; 0x48EC35; 0x206268; 0x2913A7; 0x1F1F83];
   [0x77F340; 0x8D7FB; 0x29E763; 0x797AAF; 0x60644; 0x35A5C; 0x9727; 0x626D74; 0x249825; 0x181FBF; 0x83B0B; 0x6F875; 0x331E5F; 0x343541; 0x37AD03; 0x4A743; 0x18465B; 0x203D5A; 0x2CA6BE; 0x8AAB6; 0x181A90; 0x2D8F7B; 0x153EB7]];
  [[0x18A411; 0x3A0221; 0x3C31B0; 0x798D8F; 0x2E6982; 0x3E68C9; 0x11C222; 0x4A377B; 0x1B47F3; 0x3998D9; 0x14AB3E; 0x58D2AA; 0x4E849; 0x1856B6; 0x9B3EA; 0x32F37E; 0x21A719; 0x2BD295; 0x14959E; 0x25E386; 0x3F0C52; 0x3FCEAA; 0x263172];
   [0x1A14E2; 0x1F7D87; 0x30183E; 0x6D32ED; 0x2DF898; 0x2CEF71; 0x2646CB; 0x1B0DAD; 0x1A7601; 0x20A57E; 0x8D5E8; 0x3FAF5F; 0x128ED4; 0x25B18D; 0x2F0FA9; 0x3A6179; 0x78264; 0x351FE0; 0x74564; 0x1FB814; 0x3C2C48; 0x164834; 0x270D18];
   [0x33F8B7; 0x2F3A9D; 0xE251A; 0x30DA6B; 0x26849C; 0x2D0B0C; 0x2C4BF7; 0x515301; 0x36F37; 0xA9DBF; 0x298CD0; 0x24A32B; 0x26D945; 0x2C3300; 0x268566; 0x1E4819; 0x102918; 0x235296; 0x1B311B; 0x7F2404; 0x38D33D; 0x1E3550; 0x90157]];
  [[0x320711; 0x340698; 0x1F056A; 0x3BD939; 0x3171B5; 0x38A716; 0x15FA28; 0x64ADE0; 0xF0671; 0x1DCC6E; 0x21080E; 0x4176EE; 0x3EEFBE; 0x14ABF9; 0x11CE49; 0x5C1B2A; 0x1DCCBC; 0xF5858; 0x14B76C; 0x2FEF68; 0x13BBA8; 0x271302; 0x2A675D];
   [0x22D5DC; 0x189878; 0x3957D3; 0x124011; 0xC0FF4; 0x21C5F0; 0x1CF183; 0x5C75FB; 0xA4A72; 0x1621E5; 0x2D902F; 0xA5E79; 0x7D979; 0x2FA252; 0x1A032C; 0x6E4700; 0x1CDDED; 0x15AFC0; 0x1B495C; 0x25BC0A; 0x3D6AB6; 0x1C2483; 0x2F3B9A];
   [0x57AFE2; 0x3853AA; 0x381675; 0x53C924; 0x4A57A; 0x3A659F; 0x7371F; 0x6B5A26; 0x29ED43; 0xF437B; 0x3DA56; 0x43A9B2; 0x1ED072; 0x2BF85E; 0x106D8; 0x4A67F0; 0x249FD9; 0x2B8C98; 0x11FD8E; 0x6EF5A5; 0x274425; 0x2A63C4; 0x10FE70]];
  [[0x3BFFEF; 0x28BC0F; 0xC1E3B; 0x332346; 0x97C49; 0x642A0; 0x1511EB; 0x662119; 0x38700F; 0x10075B; 0x217A9; 0x515D8A; 0x3768A5; 0x1AAD; 0x33785; 0xEAFDA; 0x28D7EE; 0x386C98; 0x2309D6; 0x217545; 0x36E128; 0x36F567; 0x84D45];
   [0x6DDAC3; 0x211A34; 0x334127; 0x68417F; 0x2536CA; 0x392B50; 0x121BF5; 0x6FAE39; 0x1B66D6; 0x1A543; 0x47D4A; 0x320EF6; 0x32B862; 0xE86D1; 0x3B670; 0x4D6880; 0x17DCED; 0x2D4CAD; 0x2F1822; 0x61F872; 0x117A0E; 0x227CBF; 0x118A0F];
   [0x597549; 0x311975; 0x12ADA8; 0xBF81E; 0x447DB; 0x36564B; 0x36D4A4; 0x5A12B6; 0x1D943E; 0x1FA011; 0x22FC7D; 0x1B96F2; 0x197333; 0xF5F62; 0x26D265; 0xDBBE2; 0x2B31B9; 0x2BF98D; 0x25C030; 0x1A95A2; 0x3B2FA4; 0xB0C82; 0x21FEE2]];
  [[0x15EE0D; 0x26FEB; 0x3AD4F5; 0x3274AE; 0x1265E7; 0x17040F; 0x13C06E; 0x448F30; 0x134ED6; 0x2635D7; 0xB19B7; 0x44CA5A; 0x2D51CD; 0x3CBBA9; 0xBA676; 0x44E2E0; 0x2D3C1D; 0x1B2C78; 0x18CB04; 0xF06A8; 0x29FAAE; 0x3BD16D; 0x2947AD];
   [0xB19BD; 0x2858FE; 0x1456B; 0x651923; 0x153B6F; 0x192326; 0x1EDFC6; 0x3AF276; 0x39EE2; 0x85A43; 0x5BE71; 0x91140; 0x2D46EB; 0x17E252; 0x5EB99; 0x2B8AE0; 0x1B76CF; 0x6AF84; 0x353A13; 0x310D97; 0x23CC43; 0x112265; 0xE4E08];
   [0x172BA5; 0x224E8D; 0x8E83D; 0x6E0FD7; 0xCA435; 0x3F7B82; 0x2AE24B; 0x203AE6; 0x1109AA; 0x2D29BE; 0x209120; 0x435C39; 0x10375A; 0x3466D6; 0x3A4483; 0x4C88D7; 0x2B8FCF; 0xD4C74; 0xEAD7; 0x4E1D11; 0x8F6A2; 0x36C2A6; 0xF1EC2]];
  [[0x7F3A5F; 0x1992D7; 0x33F7AE; 0x399159; 0xEA75B; 0x24BE3F; 0x137150; 0x9C6C8; 0x224779; 0x24DA62; 0x39D8C0; 0x274469; 0x59EDB; 0x230792; 0x11EA0B; 0xACCB4; 0x1A5DB9; 0x33F671; 0x8F9E0; 0x171663; 0x34D6E6; 0xFD1E8; 0x305366];
   [0x5EDF20; 0x3A4158; 0x3152D2; 0x39738C; 0x219AF4; 0xAD69F; 0xA7ED; 0x6EB20; 0x1DB459; 0x249C37; 0x8C20F; 0x4E26FA; 0x18A7F4; 0x2A583D; 0x26534; 0x4D37CC; 0x2BF41A; 0x4D4E5; 0x2B73A3; 0x3F1C84; 0x2883C4; 0x3BC222; 0x89D6C];
   [0x7B6E7F; 0x22175E; 0x285356; 0x25E3A3; 0x1037EF; 0x3AD3A2; 0x1C9C57; 0x504AAE; 0x64EF6; 0x17470; 0x1DB4A2; 0x5776DF; 0x1E96EF; 0x17DA2B; 0x2DD3D9; 0x73CBB8; 0x140A2F; 0x109B2E; 0xB5EA4; 0x64397; 0x884C; 0x89DD2; 0x2AF788]];
  [[0x735FB2; 0x2F19A0; 0x30F84; 0x69D875; 0x30428E; 0x1C7831; 0x348247; 0x1553C9; 0x363ED5; 0x12E6AE; 0x297863; 0x5231B6; 0x76EF8; 0x2A51F3; 0x53479; 0x728729; 0x565E8; 0x253185; 0x373E1C; 0x173952; 0x378596; 0x35C7D9; 0x1AFA68];
   [0x7813F3; 0x32A16A; 0x2DCCB1; 0x20A412; 0x32EE55; 0x60B7C; 0x1221A; 0x746789; 0x2B0E40; 0x1D2DCC; 0xCB8AC; 0x1FC5BD; 0x3BCC70; 0x2C6F3; 0x6C465; 0x105D9D; 0xCB0AE; 0x2CF08C; 0x22B897; 0x4F105D; 0x2334A0; 0xC0A22; 0x2CF1F5];
   [0x505E0F; 0x12ED31; 0x2474AB; 0x24227C; 0x514EC; 0x1D9F97; 0x799FA; 0x6748EE; 0x1B12FA; 0x297127; 0x1AB293; 0x592DE3; 0x202A4E; 0x28F351; 0x267888; 0x7C29E7; 0x191344; 0x3BB856; 0x3D0068; 0x6A2ECD; 0xFFBC8; 0x1ACF89; 0x12063A]];
  [[0x69FBFB; 0x156959; 0x608FA; 0x785C89; 0x3AC4C8; 0x27AB75; 0x1FCC4F; 0x1F7944; 0x17EB65; 0x3C2011; 0x325CA4; 0x1506DC; 0xE2144; 0x2D1626; 0x16961D; 0x363598; 0x3C4B42; 0x25DF; 0x29E048; 0x36C933; 0x6A748; 0x3B1A3D; 0x72BBF];
   [0x347FD3; 0x23FEC8; 0x365C46; 0x206227; 0x2642D5; 0xF856C; 0xD409C; 0x22DD47; 0x37EDB3; 0x295E9B; 0x168C23; 0x6707A7; 0x191E7D; 0x1B783E; 0x3FB2D4; 0x6B0C90; 0x233284; 0xCD25A; 0x1F61F1; 0x4E3362; 0x2620F3; 0x36CD2; 0x187790];
   [0x415547; 0x56478; 0x3F9AE8; 0x2A78C9; 0xB1617; 0x2994FB; 0x17A9C0; 0x2443FA; 0x33C2A2; 0x314877; 0x3E8C07; 0x1D6145; 0x9E22B; 0x1E135D; 0x26E0F2; 0x76C01C; 0x9F80A; 0x38B123; 0x61F27; 0x37D737; 0x1266FA; 0x194F60; 0xA4432]];
  [[0x31C22E; 0x1B7130; 0x1E8939; 0x6F4F1F; 0x1B084A; 0xAE27B; 0x243D6B; 0x341897; 0x185C0C; 0x283264; 0x33AFEF; 0x273C32; 0x37390A; 0x216908; 0xE39D; 0x22F13E; 0x23196; 0x266EDA; 0x2E74B0; 0x68D67D; 0x19B003; 0x2462D8; 0x1D92FD];
   [0x3AE17C; 0x213D60; 0x246509; 0x243E35; 0xC9ADF; 0x16B366; 0x61E45; 0x22A2B9; 0x6570F; 0x302A1D; 0x2E384B; 0x83836; 0x231790; 0x946A6; 0x1C75BC; 0x2F1936; 0x1F19E1; 0x20A5E8; 0x2CCC4B; 0x3C73D2; 0x13DA6B; 0x150AC; 0x3D6E3C];
   [0x48F7FB; 0x78414; 0x25AA31; 0x24F2EA; 0x251A2F; 0x350186; 0x242828; 0x1AF8F7; 0x1E7A82; 0x180FD1; 0x2C709A; 0x9FF0; 0x243CBB; 0x2BA544; 0xA79D6; 0x7FB7BA; 0x2E4F31; 0xD9BA1; 0x488DF; 0x2BD096; 0x2360FA; 0x3C511A; 0x1A1012]];
  [[0xD6219; 0x1EB7CA; 0x290FB0; 0x4BE668; 0x1673D0; 0x2187C6; 0x2109E9; 0x2142AD; 0x2B9655; 0x16BB18; 0x505A1; 0x3CF749; 0x508B1; 0x7750E; 0x11E906; 0x6BC76B; 0x10180A; 0x3F71C4; 0x25BBCB; 0x19E43E; 0xC640C; 0x23109; 0x36776C];
   [0x7854C6; 0x36123B; 0xFD077; 0x3A6383; 0x16A28; 0x23347; 0x355348; 0x309EB3; 0x13FC16; 0x127D7E; 0xA0B31; 0x619126; 0x32CE4A; 0x1C53EA; 0x9B36; 0x7EBF13; 0x153CEC; 0x2F0B2B; 0x1FEA94; 0x18DD53; 0x2DFE81; 0x250282; 0x28BBC9];
   [0x6BDFE8; 0x3D7D6C; 0x3081DE; 0x3D3D16; 0x3CAB31; 0x1C9412; 0x1096D6; 0x20B298; 0x22CDB0; 0x23945; 0x319AEF; 0x316D40; 0x1EFBBC; 0x30E49F; 0x2D6387; 0x7C9B05; 0xFF238; 0x2AB556; 0x1D7A21; 0x746313; 0x2064F3; 0x159471; 0x6420E]];
  [[0xF873E; 0xA10CD; 0x2BE785; 0x38B227; 0x34217F; 0x1DEE7A; 0xEF9FF; 0x642E35; 0x3BBD91; 0x394167; 0x11C45D; 0x248D59; 0x6CAF4; 0x356B6A; 0xC93E3; 0x7DF1C5; 0x15175F; 0x6774E; 0x2C2F46; 0x12A0B5; 0x26AC43; 0x316265; 0x17578E];
   [0x637692; 0x17AA0F; 0x349D7; 0x42BD56; 0x20AC26; 0x153D2E; 0x3BFE98; 0x45B29F; 0xC665A; 0x15F634; 0x31F264; 0x5C891; 0x3F619E; 0x28131C; 0x18D792; 0x6219EF; 0x39BD88; 0x1F8951; 0xE21DF; 0x495EAD; 0x342FCA; 0x196C92; 0x1EF0FA];
   [0x47865A; 0x318D12; 0x3C903E; 0xBD15E; 0x3D2D6E; 0x2AA3A; 0x227179; 0x73CF23; 0x2DC1A1; 0xD9B0C; 0x11B186; 0x68972C; 0xC6DF0; 0x77408; 0x28FAEE; 0x1C3C02; 0x37190A; 0x2F00E2; 0x1EC176; 0x72B55; 0x24E393; 0x32CF55; 0x1437CD]];
  [[0x6D31AF; 0x321E4E; 0xCA7EE; 0x5ABB74; 0xC3A9; 0x19A488; 0x1861A0; 0x582F9D; 0x3CFD06; 0x2EA1AF; 0x18A543; 0x10F4B5; 0x10715D; 0x1F9AF3; 0x23023F; 0x1643E3; 0x215F28; 0x19FD03; 0x22E874; 0x3DA8F6; 0x39620A; 0x22056A; 0xEA069];
   [0x518C5; 0x1AE0BF; 0x94299; 0x1E2DED; 0x3500DA; 0x9630E; 0x63632; 0x3387CC; 0x31191; 0x108CFD; 0x182E5F; 0x683906; 0x540A6; 0x28D759; 0x1EE5BE; 0x66621; 0x1C501A; 0x13C28F; 0xA2AA3; 0x3F6A17; 0x7898A; 0x2E1235; 0x19A8];
   [0x6FEED8; 0x1D5B2A; 0x3F2A5F; 0x97336; 0x37FB45; 0x2DB6D6; 0x2CC41F; 0x3D7B28; 0x2F8AD4; 0x3151FC; 0x1C064A; 0x3C6241; 0x365F52; 0x1581A2; 0xC7BF2; 0x2AD32B; 0x9C743; 0x608A; 0x282F9A; 0x263A9C; 0x3D2500; 0x3476D7; 0x39390A]];
  [[0x4F5AD3; 0x1444FE; 0x6BAFD; 0x61624F; 0x11230; 0x78216; 0x298470; 0x15013E; 0x3A1285; 0x16EA4D; 0x1DD727; 0x1A40E5; 0x2D2579; 0x1F10D3; 0x220C0B; 0xEC9E4; 0x26BC42; 0x3AB97; 0x393447; 0x45B418; 0x6D93B; 0x10FC88; 0x64A8E];
   [0x6BE9EA; 0xCA597; 0x2253CF; 0x638639; 0x2B0B51; 0x30BC7; 0x323019; 0xCCA80; 0x10E5F7; 0x2EC009; 0x15B4CB; 0x663CF0; 0x35A148; 0x2FA75B; 0x311933; 0x63C853; 0x11D6D9; 0x37F8DF; 0x1CF5AA; 0x151B7A; 0xC96E3; 0x2C8326; 0x16832];
   [0x6A5978; 0x1A7F02; 0x354FE; 0x3933E3; 0x71810; 0x77D8; 0x33A7B3; 0x26F851; 0x34FEF5; 0x10B6DF; 0x3399BA; 0xDFB2B; 0x34476F; 0x346D99; 0x2F557E; 0x47897F; 0x348DBE; 0x1CDE03; 0x2A740A; 0x66E864; 0x3C78B; 0x28392; 0x25F5DB]]];
 [[[0x17286E; 0xF5A5C; 0x39B3CA; 0x1F9077; 0x1B296D; 0x5DC87; 0x1D0F98; 0x64781E; 0x93D05; 0x126B0F; 0xBBA75; 0x44F9E6; 0x28E04B; 0x20A55E; 0x12F73B; 0x2CF153; 0x21678C; 0x2F8222; 0x15DD38; 0x687C5D; 0x27B303; 0x3155B8; 0x2B5FB6];
   [0x41E5E6; 0x6CE3F; 0x699C4; 0x1B1A07; 0x8BE9D; 0xA3A3E; 0x229979; 0x5014A4; 0x2F0CB; 0x3B52A9; 0x83FDD; 0x47E479; 0x9DD35; 0x391B43; 0x21E9C2; 0x4D6C1F; 0xD8AB1; 0x2AC33D; 0x3F840F; 0x713093; 0x1F7D6C; 0x637C; 0x2A1B17];
   [0x2A0728; 0x22B9B0; 0x120094; 0x6AF4E8; 0x3A01D1; 0x2767DB; 0x238927; 0x68635D; 0x3EA0A; 0xFE41F; 0x3CB1CE; 0x133FA4; 0x2B3010; 0xD5D89; 0xF339F; 0x5D46A1; 0x290D2D; 0x1FC5BE; 0x3A00F; 0x62DC95; 0x37CAB9; 0x2A05E9; 0x2BBC6F]];
  [[0x706744; 0x19DB10; 0x3F9B5C; 0xF3E76; 0x1B2506; 0x127BDF; 0xEB38D; 0x42E3C; 0x3DF4C; 0x3B146C; 0x395196; 0x18E1D3; 0xF2464; 0x307EFB; 0x2A190A; 0x58D3B4; 0x12C74A; 0x195650; 0xC0BF0; 0x1892B5; 0x6770F; 0x1A228B; 0x3113A8];
   [0x7384A0; 0x41291; 0x123686; 0x1AD842; 0x1E3157; 0x7A754; 0x905E0; 0x3BC7D8; 0x116FE2; 0x2D132F; 0xE6646; 0x64D804; 0x1BA830; 0x3695CB; 0x173E41; 0x5CFDBC; 0x2188CF; 0x1C1011; 0x19A6D6; 0x4789C9; 0x32435A; 0x2B1970; 0x3D40A8];
   [0x334E7F; 0xC23F4; 0x160B20; 0x3BF3EA; 0x3B5299; 0x1D3EC2; 0x36DAE9; 0x58023B; 0xB5EAF; 0x371744; 0xEF4D7; 0x8817F; 0x2BE7F; 0x1EB13E; 0x2D1A5F; 0x69630F; 0x93D58; 0x36D385; 0x2A3045; 0x25C26B; 0x111E19; 0x1756BF; 0x35B39D]];
  [[0x545C3C; 0x137D2C; 0xE7FAB; 0xEB9AF; 0x2789FC; 0x1EF592; 0x34210A; 0x2A5180; 0x23EDAE; 0x307F6; 0x23CFAC; 0x1BF315; 0x20B287; 0xA3DE8; 0x189938; 0x378524; 0x2DEDDF; 0x215405; 0x1398B5; 0x4827A1; 0x18A82A; 0xAB6B7; 0x214B8A];
   [0x1B6EE1; 0x134930; 0x2CB43D; 0x4DC974; 0x31EAF7; 0x3BDA7E; 0x33618E; 0x4A982D; 0x1B6E94; 0xD4749; 0x7D19B; 0x5FAAB5; 0x3F714A; 0xE57A9; 0x28FDD3; 0x75BD17; 0x3D774F; 0xE4D55; 0x3CA227; 0xDF34F; 0x28970F; 0x36F5EA; 0x22BC1B];
   [0x475039; 0x230014; 0x1FEA38; 0x5CCC55; 0x3C6941; 0x22517F; 0x2D30E5; 0x309B25; 0x34CC8; 0x356ED5; 0x14FCA5; 0x36104B; 0x1D0F11; 0x273D12; 0x170F1B; 0x76D103; 0x1F613D; 0x1C9D53; 0x1F1400; 0x76A382; 0x25000D; 0x3B5419; 0x15987C]];
  [[0x7F4AC5; 0x8E500; 0x16BA4; 0x7474E5; 0x9CFB4; 0x1D6BB8; 0x3B23DD; 0x5DB100; 0x8843B; 0x12DA0A; 0x24794D; 0x26577B; 0x240E5E; 0x346C8E; 0x27DC8C; 0x634650; 0x195F50; 0x71E58; 0xA83CF; 0x1B8E3D; 0x1D4281; 0x14D35D; 0x2C222C];
   [0x20B3A0; 0x6028D; 0x2EB45A; 0x3DF458; 0x1D376C; 0x18C400; 0x2C3A24; 0x319F9A; 0x22C40; 0x2F8C6; 0x22E290; 0x26FD32; 0x35216; 0x1D9C11; 0x1789F2; 0xB1E8A; 0xA64CD; 0x2909D1; 0x3F99FB; 0x53ECE7; 0x67860; 0x2534B2; 0x3F2F3F];
   [0x231268; 0xED62F; 0x31D715; 0x518514; 0x3D37EF; 0x83CBE; 0x1E2CE4; 0x7EC3F7; 0x38FE97; 0x18E538; 0x14EF47; 0x7E9282; 0x2D63F2; 0x3161B4; 0x39ADC6; 0x7BA2A; 0x1FF255; 0x1874F8; 0xAF0FD; 0x2AAAB7; 0x298743; 0x333D31; 0xE50E3]];
  [[0xF76FA; 0x1833CD; 0x16A2D3; 0x6A2D69; 0x2F385; 0x1F8454; 0x3FE32A; 0x4BABD6; 0x3FDDB; 0x12096E; 0x24DC23; 0x636CE5; 0x55CB4; 0x4F203; 0x22C2DF; 0x599D77; 0x38B010; 0x3624FA; 0x2121D8; 0x6EB595; 0xEB1AE; 0x33B6F0; 0x1072A8];
   [0x660A55; 0xC0424; 0x13326F; 0x530EFA; 0x38052; 0x3A7413; 0xB6CF; 0x25BA64; 0x6A2BE; 0x39B086; 0x7574E; 0x18FDBB; 0x714B1; 0x26708B; 0x515A5; 0x43DEFC; 0x2CE885; 0x171175; 0x2570F1; 0x4EE75A; 0x1930E0; 0x155BBD; 0xC64C5];
   [0x34919D; 0x1443DB; 0x3E9123; 0xE1842; 0x3545C9; 0x98DB4; 0x184A4D; 0x5DAFC4; 0x98F85; 0x1EA9C6; 0x23826A; 0x69B06D; 0x1DFBA9; 0x798BE; 0xAE8AF; 0x236B65; 0x1846C8; 0x3AB8DD; 0x2C7DB0; 0x74EA7; 0x2DF25B; 0x1C28C7; 0x25B6DE]];
  [[0x63C056; 0xF0F64; 0x3AF88; 0x26EF3F; 0xACF8A; 0x3B178B; 0x1A1B3F; 0x2802BE; 0x141F1B; 0x1188F2; 0x3B7121; 0x4B6A3; 0x17E723; 0x15DF00; 0x395BAE; 0x12A3E3; 0xD5B27; 0xEF7A7; 0x108148; 0x27EAAD; 0xBC9DC; 0x229BC0; 0x3E724E];
   [0x65E7F8; 0x1505D9; 0x2AC40C; 0x3163A4; 0x3EDF4D; 0x4F661; 0x3262E7; 0x3B5607; 0x2D19B3; 0x107A09; 0xF13CC; 0x4C7800; 0x35B8E6; 0x254CD7; 0x6103F; 0x41F4F8; 0x122E7D; 0x201C99; 0x3F9160; 0x56128E; 0x32FA32; 0x19A4A9; 0x2E0115];
   [0x12D79A; 0xA6E34; 0x8D368; 0x1977F5; 0x11E966; 0x123FE5; 0x343FAC; 0x12E1C9; 0x1AFF6C; 0x23C0EC; 0x3A2A35; 0x5016A3; 0x2CF3B6; 0x78BE6; 0x8BE88; 0x5FC4FE; 0x2694; 0x258B13; 0xABDAE; 0x4B9DF4; 0x187A2F; 0x36EC5B; 0x2B7DF6]];
  [[0x6DAE2C; 0x32CF3; 0x2D7562; 0x32FF5D; 0x70816; 0xD011D; 0xE17B7; 0x38556C; 0x3DA262; 0xAC037; 0x112AE7; 0x1EB223; 0x2587C3; 0x1A3F55; 0x22E756; 0x7D6544; 0x35E36C; 0x298741; 0x1945D2; 0x7E68FA; 0x3F5793; 0x13306C; 0x21451];
   [0x7CB839; 0x1964D3; 0x7ED8E; 0x3AEF58; 0x2BC177; 0xF6696; 0x1CAEB; 0x509C2B; 0x3F5DBB; 0x1131ED; 0x151301; 0x31F44F; 0x1D60F9; 0x1A36A3; 0x2696D3; 0x713749; 0x415F4; 0xC2E1E; 0x18E7EE; 0x6737C5; 0x71BB7; 0x8C358; 0x1F1407];
   [0x42C734; 0x9034; 0x1689FC; 0x66E68; 0x18F756; 0x1DCFDF; 0x83DCC; 0x3841C9; 0xDD192; 0x122593; 0x31A8DD; 0x341616; 0x196D74; 0xB8D12; 0xB5714; 0x6030FC; 0x390678; 0x3AB96C; 0x53F6E; 0x2C04AB; 0x1D12C3; 0x35009E; 0x3DC316]];
  [[0x3D2EE8; 0xEDDF2; 0x16BD70; 0x320C0C; 0x52F43; 0x2FA0A8; 0x65472; 0x29362; 0x2C27A2; 0x5E1BB; 0x19992C; 0x30905; 0xBF0F4; 0x209691; 0x350247; 0x57E044; 0xE41CD; 0x17F9EE; 0x78967; 0x6ACE99; 0x7C820; 0x113D5C; 0x38DA0A];
   [0x83FE6; 0x1C1BC1; 0xEB8D8; 0x7692B; 0x281516; 0x155672; 0xD8B29; 0x3E13E4; 0x3138BC; 0x3CACE6; 0x35FA0F; 0x23164A; 0xEC9E6; 0x23B1C7; 0x225BFF; 0x7740C9; 0x30F788; 0x6D8C; 0x2D6BD; 0x2603CE; 0x5485E; 0xE66C9; 0x19E3E];
   [0x1300D5; 0x2C1C24; 0x32064C; 0x43F0E6; 0x860BC; 0x14A553; 0x36075B; 0x1987D7; 0x2754F6; 0x385EEF; 0x13D858; 0x2C23BB; 0x32C81D; 0xE6F7D; 0x3C8EB3; 0x3644D0; 0x13D21A; 0x31FB11; 0x28B7B0; 0xE500E; 0x1DA66D; 0x20B336; 0x364559]];
  [[0x8F24B; 0x3022F1; 0x292D14; 0x9DB0; 0x12884B; 0x2CB622; 0x9D61F; 0x10FF0B; 0x5C248; 0x128DF1; 0x14DD06; 0x6C833; 0x177E25; 0x37C0E; 0x29C2CD; 0x72DE1; 0x1F0312; 0x13FA86; 0x2E1D55; 0x102DE; 0x326586; 0x89C95; 0xD11CA];
   [0x1E5A41; 0x14B02F; 0x2AFDA8; 0x3C8A99; 0x304A64; 0x254B15; 0x1DEB3; 0x481E27; 0x32A61C; 0xD6970; 0x182CAA; 0x34EC0A; 0x19A25D; 0x1C8588; 0x3F689B; 0x233BD8; 0x3ABCAA; 0x33E7AF; 0x375FA3; 0x1C8D11; 0x21737A; 0x102C76; 0xC7526];
   [0x352E1E; 0x2092B9; 0x8105C; 0x7FB15D; 0x255DD0; 0xF061B; 0x16C72F; 0x6E33F5; 0x3A9DD5; 0x39695D; 0x3502FE; 0x3A705F; 0x370221; 0x30642F; 0x163D04; 0x7BF9AC; 0xA4C37; 0x1E0389; 0x1214FF; 0x1FF3D6; 0x3D5C3D; 0x28CF11; 0x1AAA6A]];
  [[0x5BF790; 0x7D0F3; 0x1C51D; 0x20772C; 0x200268; 0x1B52F; 0x279ABE; 0x1F71CF; 0x375D44; 0xF0F65; 0x27410E; 0x3D9BE0; 0x2C960C; 0x3C9C; 0x3A7A25; 0x4F1756; 0x2CBE23; 0x4069A; 0x182C17; 0x5CFAF2; 0x26993; 0x9DA3A; 0x39F360];
   [0x364E82; 0x346D3; 0x3D3445; 0xA6B7; 0x37BD7; 0x1658EC; 0xB914; 0x6FA605; 0x1454EB; 0x2CE3C8; 0x3D9ACC; 0x7AF12D; 0x21D6DC; 0x2CC083; 0x1879BA; 0x51EE63; 0x19F677; 0x10AD1F; 0x2A0F9B; 0x41EA60; 0x277936; 0x380AD2; 0x1D4704];
   [0x4BFEC6; 0x1B656; 0x2537A7; 0x74F164; 0x3DAAEE; 0x30B1B3; 0x28EFD7; 0x63000E; 0x2E7006; 0x6D43F; 0x3A92B0; 0x5CBF0D; 0x1B3D1C; 0x155A03; 0x13BCFB; 0x22E3EA; 0x9A093; 0x372B6D; 0x3B3D4A; 0x22BBAE; 0x2C8021; 0x2F7ACB; 0x2885FE]];
  [[0x3234EF; 0x29B8C5; 0x1AE10C; 0x16CD11; 0x3ACD42; 0x9111E; 0x2E5197; 0xCF7DD; 0x2A45E; 0x13DCB9; 0x11DF8A; 0x41E6A2; 0x3D6BEC; 0x19831C; 0x26F1BD; 0x1F02BE; 0x291AD9; 0xAEAD3; 0x655DB; 0x4C8DC1; 0x27BF77; 0x17E4AD; 0x376E83];
   [0x6C4C88; 0x3238DA; 0xD5920; 0x2DB750; 0x35FA90; 0xC2BC9; 0x2DB3D0; 0x373A80; 0x2E0271; 0x3818B5; 0x3209D6; 0x3D0A96; 0x7BE66; 0x306A1A; 0x1E42D6; 0x21C5C7; 0x255B61; 0x2E2400; 0xB30C1; 0x12F49E; 0xE248A; 0x3BBE77; 0x8EEED];
   [0x14067A; 0x2CF299; 0x82BEF; 0x130694; 0x18C073; 0xCA3AA; 0x128835; 0x23457E; 0xFF51F; 0x3F8C44; 0x3FA288; 0x269665; 0x80B90; 0xCFEE1; 0x3F3285; 0xDF6EE; 0xB1087; 0x107D3D; 0x311E7D; 0x7CA53C; 0x33FCA6; 0x263A19; 0x363624]];
  [[0x1DDC6C; 0x3A0EDE; 0x1408D0; 0x1EEE7B; 0x1405FC; 0x128750; 0x2CA34C; 0xFBEA; 0x6137A; 0x370D1A; 0x3B6A04; 0x57D79; 0x28B50F; 0x13A132; 0x7EB68; 0x7A7017; 0x2517C9; 0x219256; 0x3E617C; 0x456ECE; 0x11278F; 0x1624F1; 0x3C0F7];
   [0xAF6C0; 0x3DA705; 0xCC5A4; 0x45A7B; 0x30E620; 0x5489D; 0x350783; 0x53DBD; 0x16C68B; 0x2D182B; 0x294A05; 0x749DE2; 0xDDD4D; 0x3B31A2; 0x197D97; 0x6BBE3E; 0x3FF605; 0x49D4F; 0x312E4D; 0x3F5019; 0x3E1C7F; 0x3D1C1D; 0x3D261E];
   [0x26418D; 0x292458; 0x1A1FC4; 0x617DF6; 0x24EEF7; 0xF2BD5; 0x34E0B9; 0x6C6D66; 0x74BA2; 0x1A4D76; 0x306BE0; 0x2376E; 0x5EF92; 0x3EBB91; 0x24BA60; 0x1BA73C; 0x222A6B; 0x18DAEF; 0x141DE7; 0x390908; 0x35530C; 0x2CD8D; 0x77882]];
  [[0x440DE3; 0x2D9BF2; 0xC1E19; 0x13C1C8; 0x318020; 0x1DCAEC; 0x64315; 0x335FB3; 0x146401; 0x35671E; 0x8E31D; 0x69E0DB; 0x71FA1; 0x39CF3B; 0x18E811; 0x2DB19F; 0x1279C0; 0x29FDEB; 0x2EF592; 0x5F5F4A; 0xA323A; 0x2C8BBB; 0x326780];
   [0xCB270; 0x86BD0; 0x36C911; 0x5F16E; 0x359A7C; 0x33FFDF; 0x2FE3CF; 0x286EBC; 0x282C12; 0x32282A; 0x2231DA; 0x319; 0x3D8930; 0x2056B8; 0x3104E7; 0x6E83C; 0x3636A; 0x24CB95; 0x2DE038; 0x81E87; 0x34B889; 0xF9915; 0x310022];
   [0x40A26D; 0x2410E6; 0x33665C; 0x5EB45D; 0x1C554; 0x31D73; 0xEA84F; 0x6564D6; 0x1F3357; 0x20481A; 0x180940; 0x3BF11D; 0x2AF372; 0x2559BC; 0x178008; 0xA361C; 0x37281D; 0x742C0; 0x3B03D2; 0x5EBA80; 0x3348EE; 0x332C9E; 0x131D23]];
  [[0x4F558D; 0x110D2E; 0x10B290; 0x298F39; 0x1A9DD0; 0x45042; 0x74453; 0x31D6D7; 0x7787F; 0x2DAAA8; 0x3148F0; 0x14722; 0x1A5F6A; 0x101BC3; 0x127243; 0x7D18A1; 0x2A51D2; 0x25ED49; 0x3D93AC; 0xA172; 0x2D4427; 0x35288C; 0x733E5];
   [0x4F5F03; 0x3E1845; 0x6AEB2; 0x72B386; 0x309DB4; 0x2E4AE4; 0x1C33C4; 0x64AA28; 0x3A80E7; 0x18D735; 0x35E7AB; 0x49C50A; 0x11BF7D; 0x1CF85A; 0x310DD1; 0x755DE3; 0x1EF133; 0x19EC22; 0x93BF1; 0x79C3FF; 0x35788E; 0x3BCE6D; 0x319941];
   [0x320489; 0x13DD6F; 0x30C812; 0x58EFB4; 0x199A57; 0x1DCC5; 0x397377; 0x6262B8; 0x2B88C5; 0x9A7A2; 0x243A8; 0xFE111; 0x388C89; 0x11A2E9; 0x227DAE; 0x4E02B8; 0x4E7BC; 0x3B33F; 0x3C0C6; 0x25DF7E; 0x3A82E0; 0x3930EE; 0x13C142]];
  [[0x66CDFE; 0xF2EAC; 0x131171; 0xD830C; 0x73ABF; 0x6D5DB; 0x19F2ED; 0x7D8846; 0x2CDE7E; 0x1F8420; 0x248809; 0x70E344; 0x68413; 0x706E0; 0x2454A6; 0x3C1F38; 0x20840E; 0x308F2A; 0x3B026E; 0x55D941; 0x26CD7D; 0x41FFB; 0x16E182];
   [0x498EA7; 0x28466B; 0x2EE6E4; 0x5ADB8E; 0x34DF94; 0x16E8FA; 0xDD486; 0x22172A; 0x26F797; 0x3EA2F7; 0x3F32FE; 0x761C80; 0x141A4B; 0x3A2DC0; 0x3F2489; 0x284EBF; 0x324946; 0x98DC6; 0x140160; 0x1637DD; 0x32460F; 0x1DCD38; 0x24F529];
   [0x33F90C; 0xB2B06; 0x10AC6C; 0xD4C79; 0x28ACCF; 0x3882B8; 0x3627FD; 0x77768C; 0x60B8A; 0x175AB9; 0x20A7D7; 0x36E54C; 0x26B20A; 0xE710C; 0x24597D; 0x19E845; 0x28672C; 0x21B0CC; 0x23D9E3; 0x1692C6; 0x1D045; 0x97657; 0x370F6]];
  [[0x7B9005; 0x27B1D5; 0x30BCA5; 0x33E7A3; 0x260D50; 0x425F4; 0x2BF81B; 0x56DC12; 0x1C3248; 0x23BE6A; 0x31838D; 0x6C6DD9; 0x2FD065; 0x3EC34D; 0x1B79C8; 0x61CFCC; 0x2C377E; 0x5C2A1; 0x142560; 0x7DCCB; 0x238949; 0x11710D; 0x36AE4C];
   [0x2C3F57; 0x7550E; 0x145D0D; 0x172C44; 0x166B15; 0x3F673A; 0x1F41B9; 0x38E3E7; 0xED8FE; 0x26F447; 0x141659; 0x4024EA; 0x14C9B2; 0x21B32A; 0x362710; 0x791C00; 0x12A6F2; 0x3E23AE; 0x359C46; 0x56019B; 0x24CD68; 0x18639D; 0xAA1E5];
   [0x3EB03A; 0x5BD4E; 0x26A08D; 0x767FC9; 0xAE7A8; 0x302EFF; 0xE751E; 0x221EB; 0x13D036; 0xB5F88; 0x195DE4; 0x7C1167; 0xF8BFB; 0x2A2BF5; 0x1374E2; 0x5BAA0D; 0x34A333; 0x2DB57E; 0x2A02CC; 0x497D58; 0x647E9; 0x212584; 0x28AE2E]]];
 [[[0x56CAA9; 0x2ED942; 0x66832; 0xE005C; 0x212C9; 0xA5796; 0x39920F; 0x85F1D; 0x361285; 0x307080; 0x62627; 0x7D6AAA; 0x2FAD3A; 0x1F916B; 0x19CDED; 0x60F8EF; 0x6CD6; 0x9A576; 0x4244C; 0x56B6F1; 0x27D5EC; 0x1C22FE; 0x20CA2B];
   [0x638473; 0x28A459; 0x8F882; 0x300359; 0x1A0569; 0x733C8; 0xAA690; 0x2854FD; 0x3A42AB; 0x5D85; 0x3EC955; 0x276DAB; 0x2C69D6; 0x28E861; 0x3C6252; 0x1693C6; 0x67C90; 0x135D5A; 0x19BAA5; 0x638A4D; 0x1C54F3; 0x36958E; 0x229409];
   [0x3694AD; 0x3CDD1D; 0x2BB2CB; 0xF907F; 0x217793; 0x1C10F3; 0x7C509; 0x55ED5B; 0x3FC009; 0x13833E; 0xAFDAF; 0x3DFB2; 0x2EBC1F; 0x268005; 0x28835F; 0x2FE0AF; 0x2E65E7; 0x2D7AC4; 0x16B704; 0x34371A; 0x333D73; 0x117F49; 0x3508FB]];
  [[0x24288F; 0x3DD4; 0x121C5C; 0x771CBC; 0x3BF063; 0x2294B; 0x31319F; 0x643727; 0x319F6F; 0x8B82B; 0x101D49; 0x546EE5; 0x238C40; 0x30CAC; 0x190408; 0x7C0F5A; 0x15EAFD; 0x24A8F; 0x365016; 0x2D2DBA; 0x1F751C; 0x3964A; 0x2F92CB];
   [0x561A15; 0x3B4C37; 0x1C36B5; 0x2ED2E4; 0x2231B; 0x1ADAF5; 0x270194; 0x9DBF0; 0x287239; 0x80B2D; 0x2EB25E; 0x32ED93; 0x164DC0; 0x2F327A; 0x130078; 0x1841D3; 0x49BC2; 0x48E93; 0x1B59E7; 0x6243C6; 0x394260; 0x17BC8D; 0x176B2A];
   [0x41022; 0x6B154; 0x27CADC; 0x627B5A; 0x1965DA; 0x2D1BDB; 0x1B16FE; 0x16A869; 0x2540EA; 0x3B4B72; 0x13ECCC; 0x581A5A; 0x2C2192; 0x2588BF; 0x1CC31E; 0x53D1B3; 0x3845C2; 0x234BBE; 0x7ABDF; 0x567DC1; 0x204D8E; 0x161734; 0x62C35]];
  [[0xDD434; 0x27577F; 0x224BAB; 0x1F24C1; 0x225696; 0x241E15; 0x1CEBF5; 0x5549C7; 0x3C9373; 0x2DCBA3; 0x2A3CBA; 0x1EE227; 0x20FD58; 0x7BFF7; 0x341B3D; 0x47E8D4; 0x11C543; 0x386E9E; 0x232B8F; 0x43836A; 0x1E14C; 0x136E35; 0x2D423A];
   [0x5DA3DC; 0x3E4B5E; 0x182E1B; 0x4D3F17; 0x358964; 0x2F6CDB; 0xFA963; 0x530F85; 0x3FCE01; 0x27B181; 0x16C4E2; 0x1A24B7; 0x3A2690; 0x2BAD95; 0xA878E; 0x49FA0F; 0x200790; 0x7745A; 0x1A19FB; 0x524E6F; 0x167AEF; 0x318813; 0xBF477];
   [0x446FFB; 0xE720D; 0x13A7AD; 0x2F3160; 0x20ACA2; 0x31E19F; 0x2C99C7; 0x53FC61; 0xB444B; 0x432E3; 0x20DFE5; 0xDCBD; 0x2A6660; 0x35A737; 0x16191B; 0x6DFEF3; 0x7D074; 0x15B6DA; 0xE1D85; 0x40898C; 0xF18DD; 0x16A189; 0x259E34]];
  [[0x4D2036; 0x198B36; 0x6CEDC; 0x28C725; 0x3381EA; 0x37C857; 0x239AE3; 0xB8343; 0x13B8A1; 0x4CA9C; 0x341F6F; 0x2C9D36; 0x2B4CE; 0xF979A; 0x5E1A; 0x3C162; 0xC805D; 0x171240; 0x200E07; 0x5B5010; 0x19D606; 0x226023; 0x23D266];
   [0x240CF2; 0x2268F3; 0x25D159; 0x3C1B6F; 0x214C16; 0x22D5EA; 0x1D06D1; 0x7104A8; 0x2198F4; 0x2EAE4A; 0x1A0374; 0x128B26; 0x156B81; 0x380AB8; 0xB34; 0x32FD36; 0x35997F; 0x1DDD23; 0xF9701; 0x3D11DD; 0x219A73; 0x9572E; 0x7E79A];
   [0x4E4AD4; 0x38839D; 0x31F346; 0x188C54; 0xCE5E2; 0xBCB59; 0x36662E; 0x7DF8FB; 0xE4805; 0x38EDC7; 0x209BB0; 0x6A5B00; 0x5DC69; 0x1AE66C; 0x175257; 0x6D0BBF; 0x158611; 0x3EFEA8; 0xE0C1D; 0x50DC3B; 0x8337; 0x1869C2; 0x3FD81D]];
  [[0x50CB64; 0x2429A6; 0x382136; 0x54F357; 0x3794A8; 0x1F187A; 0xF2E75; 0x1AC75C; 0x2C3E90; 0x2E6B5E; 0x39AC0E; 0x4F180B; 0x20C545; 0x3FD3EB; 0xC1453; 0x17FAB0; 0x2E55DE; 0x31C1C1; 0x2659CA; 0x53E22F; 0x377EA4; 0x11C7AF; 0x5E66B];
   [0x5F2793; 0xFABF6; 0x138DB2; 0x3EF56; 0x3C44CD; 0x2D1772; 0x296103; 0x10A045; 0x3F081B; 0x3CA53; 0x319331; 0x1F65B4; 0x2E09B1; 0x3544F7; 0x2E0977; 0x7A91C1; 0xE98E1; 0x3C2830; 0x1F751E; 0xFE9DE; 0x104CA6; 0x84E9F; 0x2EDF68];
   [0x1753AE; 0x15176B; 0x1D49C2; 0x5271F0; 0xE3B9D; 0x2A9E63; 0x147498; 0x28C096; 0x38F62A; 0x1E8789; 0x1E1D5C; 0x3504A2; 0x26FE76; 0x1C16A5; 0x1B3F89; 0x43DB5A; 0x106CD7; 0x317E3F; 0x332597; 0x3737FB; 0x3F7130; 0x2A1EA9; 0x3BE9DE]];
  [[0x3FC808; 0x2F762E; 0x3004D3; 0x384DB9; 0x2349A4; 0x32B0E8; 0x152A07; 0x361460; 0x39BDD3; 0x17D898; 0x228C11; 0x61443C; 0x33C414; 0x1922E8; 0x33EB75; 0x6856CB; 0xD4491; 0x89ED9; 0x1713B8; 0x737CA; 0x37B4BB; 0x137C25; 0x157928];
   [0x5C5870; 0x13A25A; 0x1376B2; 0x7F3687; 0xDD1CA; 0x144BD1; 0x205B88; 0x30B67A; 0x2F2ED7; 0x2BBB97; 0x6DE0E; 0x42D5EF; 0x20BC9E; 0x1DFACA; 0x176018; 0x557358; 0xA2A03; 0x17F6AA; 0x1A348A; 0x63CCCE; 0x19E3CD; 0x1CAF72; 0x8A7AC];
   [0x73284; 0x16A772; 0x1B02B4; 0x3DCC2C; 0x1275AC; 0x13EC26; 0x39548F; 0x32AC62; 0x2E6D0F; 0x20A687; 0x34013D; 0x2FBD07; 0x27B2FE; 0xAB0F8; 0xDFCFE; 0x4B5DB3; 0x31570E; 0x2A4886; 0xAA957; 0x5D7580; 0x1EBED6; 0x253717; 0x1A649B]];
  [[0x6C4CB2; 0x1FB3E4; 0x15B9F8; 0x361781; 0x2C10D3; 0x1D9D87; 0x34274C; 0x21EBF4; 0x33DC87; 0xADD4D; 0x3051CC; 0x69D7F2; 0x2CFFFE; 0x14E44A; 0x49CA0; 0x3CBED6; 0x1BF1E2; 0x14C23E; 0xB6EB5; 0x2DB65D; 0x5CB32; 0x38B9C; 0x7883B];
   [0x3EF9A6; 0x1E1E72; 0x118E1F; 0xDD4EE; 0x1621A6; 0x3726A5; 0x5CB81; 0x66CE7A; 0x248A4; 0x2D7AFD; 0x14ACD8; 0x25639C; 0x9A8A5; 0x3318F4; 0xF0BF7; 0x5062DE; 0x24A9; 0xE22D2; 0x1E48E9; 0x21E288; 0x36DB79; 0x2F277C; 0x2B4193];
   [0x1EA6FE; 0x31EE3B; 0x45D18; 0x7B886D; 0x3AB025; 0x3CB9DC; 0x1E395D; 0x3B02BB; 0x117981; 0x19571F; 0x12104C; 0x15B662; 0x2C613A; 0x70FFA; 0xF20BB; 0x70246F; 0x3AE4D8; 0x2C3692; 0x2BA766; 0x6979EC; 0x1EE4FA; 0x3FC3AE; 0x97753]];
  [[0x4F1DE3; 0xC6911; 0xA47C8; 0x1D1BD1; 0x2F9D0E; 0x28B6C; 0x30B56D; 0x7338C9; 0x444B1; 0x39A863; 0x14FD9B; 0x29BA71; 0x2F8E1D; 0x12C499; 0x73FFA; 0xC56D4; 0x14A736; 0x3A7177; 0x1CE30C; 0x3AAF39; 0x22B563; 0x36E7CC; 0x37AFCD];
   [0x58F41D; 0x140257; 0x211567; 0x7DDA65; 0x22C062; 0x1ED494; 0x18952B; 0x649D74; 0x29BEC2; 0x20C9DA; 0x17B4BC; 0x68E1EE; 0x8D396; 0x101E55; 0x179EF9; 0x704D7B; 0x225FE0; 0x33AD09; 0xD6F51; 0x617587; 0x14347; 0x6D488; 0xA58EA];
   [0x62169E; 0x3EC8CD; 0x241534; 0x6F5F65; 0x2B9962; 0x142663; 0x88E95; 0x730FE3; 0x331A06; 0x27E7BD; 0x364306; 0x3E391E; 0x313667; 0x198427; 0x226ADA; 0x566F4B; 0x21A27C; 0x17BBD7; 0x3D41DB; 0x28BB58; 0x3278B2; 0x6E057; 0x3C841]];
  [[0x687D5D; 0x3309EF; 0x346CE5; 0x1FF1AB; 0x3D2116; 0x18305D; 0x49468; 0x61BCEB; 0x157FA5; 0x36CFD; 0x17B473; 0x536514; 0x35BE53; 0x31FBF4; 0x138689; 0x459FC3; 0x382E53; 0x9DCE1; 0x1E636A; 0x2622FE; 0x14A044; 0x145177; 0x2C68B2];
   [0x7CDE9; 0x5E108; 0xD8163; 0x3F9A62; 0x1C6BBE; 0x202790; 0xB515C; 0x6A300; 0x15F9A6; 0x2A1527; 0x3A73EB; 0x6F181C; 0x175B8C; 0x2A4DA4; 0x768F8; 0xE56E3; 0x29B426; 0x11186F; 0x3175D0; 0x29B106; 0x1EF0B9; 0x1139E2; 0x35ACA5];
   [0x4B2AE1; 0x1424F0; 0x110341; 0xC7518; 0x1685E7; 0x16192F; 0x28CF4C; 0x637208; 0x3FCBD2; 0x348A0E; 0x34BDB7; 0xE99F6; 0x1472CD; 0xF1FAA; 0x102EA2; 0x579D10; 0x229C04; 0xDA721; 0xC0D5E; 0x4201F5; 0x13FC8; 0xDFA6E; 0x260016]];
  [[0x71785F; 0x2A6790; 0x374B9A; 0x5C47E4; 0x295CBC; 0x17C2F6; 0x2DD473; 0x3079A; 0x1B4CD6; 0x24C5E5; 0x319F1C; 0x436F1D; 0x1A1EF6; 0x3D299; 0x382BA2; 0x60E409; 0x23098; 0x171EBD; 0x20240F; 0x330D1E; 0x17E024; 0x9AC85; 0x1B14B7];
   [0x3C69F8; 0x119EF1; 0x2E2839; 0x778F4B; 0x39F0C; 0x23A6C4; 0x3F874D; 0x5E260A; 0x3D33F7; 0x2C9846; 0x187047; 0x7B8C63; 0x273788; 0xA168B; 0x3C94CF; 0x58BB90; 0xB16B8; 0x3E3A1E; 0x18E21B; 0x7A9202; 0x302517; 0x154F91; 0x846A0];
   [0x1A0FDE; 0x153D67; 0x336333; 0x3C90A4; 0x94797; 0x312D2A; 0x1003F0; 0x7FBC25; 0x3DF24; 0x237AC4; 0x194267; 0x2396ED; 0x24617; 0x16C8CB; 0x152D85; 0x16D3DE; 0x262957; 0x311596; 0x3EC838; 0x1975C2; 0x34FE59; 0x113D00; 0x2243AC]];
  [[0x68A405; 0x34C98B; 0x7E397; 0x558483; 0x956CE; 0x2E1CCA; 0x5043D; 0x476A5E; 0x28457F; 0x3988DF; 0x37A1BC; 0x47942D; 0x124D2E; 0x3AE5E0; 0xB4291; 0x4D22EB; 0x14B7CF; 0x28B3D4; 0x3CCB59; 0x190521; 0xA108D; 0x3A6057; 0x172D60];
   [0x2B251D; 0x13D428; 0xAE878; 0x5FA00D; 0x260531; 0x329563; 0x216C5; 0xD16BE; 0x9E37E; 0x3F37E0; 0x1AEF12; 0x64E859; 0x19915B; 0x5BFF9; 0x3958ED; 0xC4E03; 0x8B99A; 0x1C38F2; 0x3D7DC0; 0x2F8014; 0x1CEC59; 0x34AB43; 0x13D729];
   [0x6F3BD9; 0x150F71; 0x2A3F95; 0x68E792; 0x16CF11; 0x1B8A33; 0x2E5920; 0x38F685; 0x2CDF4A; 0x27CB65; 0x2DF482; 0xA0B78; 0x309C5F; 0x3B06D3; 0x13DAE0; 0x554BDE; 0x17EC53; 0xF50F5; 0x101EF0; 0x5F28DB; 0x15CC1A; 0x1980C3; 0x249DA3]];
  [[0x4C93F1; 0x388A39; 0x30EEC8; 0x52FC35; 0xB0CAE; 0x2F3E40; 0x3A2ACD; 0x28C4D5; 0x1DA5F9; 0x586CA; 0x119027; 0x16CDC0; 0x25236C; 0x18A357; 0xB64B; 0x76882B; 0x3182B1; 0x37246C; 0x3FB39; 0x2C988C; 0x231B0B; 0x3E5BBF; 0xF374];
   [0x10D9D; 0x1FF389; 0x1538D1; 0x41BD6C; 0x1301B2; 0x1DCB4A; 0x8FABC; 0x611765; 0x1A717F; 0x182FF9; 0x29A9C1; 0x2B99C3; 0x17CA7; 0x32AA1; 0x2EA89D; 0x88D80; 0x11EC29; 0x3A56BE; 0x32B8; 0x1406E5; 0x38401C; 0x1ACB38; 0xCB5E9];
   [0x66E5AB; 0x161A19; 0x57829; 0x5F11AE; 0x22507E; 0x113755; 0x218956; 0x7E85BC; 0x3A29F5; 0x1A56EA; 0x2F8A9F; 0x30B6F2; 0x1F6A48; 0x3C6B9C; 0x331944; 0x12724E; 0x154FE; 0x1A08F6; 0x53CE3; 0x110DA; 0x189838; 0xC6556; 0x26E926]];
  [[0x56B198; 0x2E9D6F; 0x384104; 0x2CB192; 0x11E1D2; 0xC3007; 0x331D92; 0x72B899; 0x2DFE85; 0x19F7AE; 0x228032; 0x1A709B; 0x394A71; 0x11DCB; 0x25119C; 0x673C0F; 0x703EE; 0x3905C2; 0x4CBE0; 0x3038F7; 0x218611; 0x344F8B; 0x6EF8F];
   [0x8B7AB; 0x1C7936; 0xAF677; 0x38D1C4; 0xD1982; 0x8DE6; 0x1D8CD8; 0x2DAF00; 0x2139DC; 0xC0A4C; 0x103BF4; 0x132620; 0x1E360F; 0x20BE7E; 0x2F6F7B; 0x45610; 0x3B63BF; 0x65305; 0x30A74A; 0x72846A; 0x9D52F; 0x360AFC; 0x15C630];
   [0x1BB7E7; 0x38CFC8; 0x105C2D; 0x4F800D; 0x2813AF; 0x3D95F7; 0xB5E3E; 0x65C148; 0x17B5EB; 0xB59AB; 0xD6920; 0x1459AF; 0x2201A2; 0x66541; 0x1D0BA3; 0x337E0F; 0x3BE92F; 0x375C3; 0x35FBBD; 0x5F0B0F; 0xE891B; 0x131D3F; 0x14ED75]];
  [[0x50D8D5; 0x2E5561; 0x31562B; 0x395B3A; 0x2D062A; 0x329C94; 0x1BED6E; 0x64208E; 0x302BDB; 0x38A686; 0x1E41F5; 0x1078F7; 0x3A3FCC; 0x61B38; 0x3A908E; 0x5A12D7; 0x2303D; 0x141E31; 0x9E463; 0x73510F; 0x3C92B0; 0x83485; 0x37A81];
   [0x19B1B8; 0x38CD53; 0xE197C; 0x9FF2F; 0x3BCD33; 0x302C2A; 0x54200; 0x79B52B; 0x39D05F; 0x1F9C10; 0x29B440; 0x3D8482; 0x1C2BD2; 0x19BD77; 0x10755E; 0x6CAE47; 0x1B82A; 0x3DF53B; 0x18A7F; 0x5FC8AB; 0xBFFCF; 0x169679; 0x67097];
   [0x935D3; 0x10F268; 0x288B71; 0x303DEB; 0x2E4A85; 0x1813E; 0x3CDD05; 0x1AD0A; 0x14AA02; 0x19FD4A; 0x200BBD; 0x331B4F; 0xFCCBE; 0x1F30DB; 0xBDF6F; 0x7AB775; 0x21BE2D; 0xED4B7; 0x384794; 0x784F1A; 0x3F3A79; 0x3D50F; 0x64F82]];
  [[0x55E16A; 0x9CBF4; 0x7F387; 0x8D055; 0x1DE49D; 0x3DF914; 0x3ED04E; 0x6CA4BC; 0x28FCE3; 0x3273A4; 0x2DF89A; 0x230A46; 0x18E30C; 0x2CE6F1; 0x2DB57; 0x7890F7; 0x22D4F9; 0x38DC8F; 0x376FF1; 0x12231A; 0x74880; 0x12A080; 0x56DC5];
   [0x3DBBF8; 0x196819; 0x24DB6E; 0x7A739A; 0x2C4BD5; 0x241E7E; 0x38C332; 0xE069B; 0x11A877; 0xBB5F3; 0x613F; 0x1D700E; 0x154F4E; 0x232AA4; 0x159C2A; 0x203C23; 0x2AC285; 0x2F4ED7; 0x3914CE; 0x1B8C64; 0xC5894; 0x3A7D72; 0x21EFB5];
   [0x34EA4D; 0x1BA7B1; 0x3C1624; 0x332852; 0x3E94DA; 0x887; 0xBFE68; 0x4AD4CA; 0xB742B; 0x158248; 0x285B88; 0x6EDD6B; 0x200BAB; 0x248DD5; 0x1035A8; 0x1F2081; 0x7B194; 0x11B74D; 0x152BCC; 0x5F5821; 0x1FE674; 0x239A6; 0x34BB24]];
  [[0x72B20F; 0xBF7F4; 0x178C52; 0x776657; 0x4BFE5; 0xAA36B; 0x3719B7; 0x4C2095; 0x355126; 0x1B6111; 0x172806; 0x52CE54; 0x8F0A0; 0x2B3884; 0x2B7196; 0x3A0409; 0x124BAA; 0x1E7741; 0x128DC5; 0x301368; 0x2A859; 0x145DD3; 0x1A5AE5];
   [0x4943B1; 0x36FA8C; 0x2BCCB8; 0x702644; 0x253FD2; 0x185CBE; 0x47A35; 0x2AF03C; 0x1AE6F9; 0x1FBB03; 0x24ABE9; 0x23A32D; 0x2165FE; 0x25287B; 0x13905E; 0x5CFE02; 0x7F1F9; 0x3E1E1E; 0x7A483; 0x1BF89E; 0x10168F; 0x62F67; 0x133007];
   [0x7D5697; 0x312189; 0x15FC12; 0x3C037B; 0x175465; 0xF4B83; 0x21DF66; 0x2A624D; 0x34D443; 0x1E79DD; 0x321A3F; 0x18DC79; 0x1A5D56; 0x3541AF; 0x70013; 0x24CB38; 0x65D92; 0x20B271; 0x1EC105; 0x1E7C11; 0x122C84; 0x7B7C1; 0x2FDB93]]];
 [[[0x44839B; 0x3198F6; 0x3BD372; 0x7ED128; 0x206115; 0x3FDD6A; 0x22F00A; 0x117144; 0x1588A8; 0x1FF57F; 0x289324; 0x690294; 0x2D2809; 0x1DC9A7; 0xB6923; 0x4B99EF; 0x3488AB; 0x1F4972; 0xFFB73; 0x59A57D; 0xF6194; 0xB6F28; 0x25388B];
   [0x64E5A1; 0x13FE4F; 0x8ECCD; 0x5C77; 0x1B9C8; 0x162316; 0x20528F; 0x2DEDD0; 0x191713; 0x30317D; 0x39A24F; 0x2EB466; 0xEA8D0; 0xE5D27; 0x3FED4F; 0x40531E; 0xFBA2C; 0x234E5D; 0x3D16D; 0x7F1872; 0x256C50; 0x316CFD; 0x2401F9];
   [0x275D5; 0x1F7882; 0x25E59C; 0x1B773; 0x24FF1D; 0xD98CD; 0xB7E40; 0x6E438E; 0x355F20; 0x19A7AE; 0x290722; 0x174B19; 0x318264; 0x49CAA; 0x3F743B; 0x4FA60E; 0x21E560; 0x2DDBD1; 0x279C3F; 0x2A0542; 0x1C4F6E; 0x3F3D08; 0x1A9CB4]];
  [[0x44D3B6; 0x11A0B0; 0x223464; 0x616311; 0x45B71; 0x221B75; 0xDDB07; 0x36CCED; 0x310543; 0x1C0449; 0x1A5298; 0x7F7212; 0x27112E; 0x3341D5; 0x1BB277; 0x47B3A6; 0x2631FE; 0xEC73F; 0x3BEA8E; 0x11ACAD; 0x56AB4; 0x332F4E; 0x20F040];
   [0x729FF7; 0x84FDB; 0xAF943; 0x69EFD1; 0xF6B0C; 0x2C5DA9; 0x3FE069; 0x72A537; 0xA3F33; 0x1C0A53; 0x2F3282; 0x6C96EB; 0x39033F; 0x4147A; 0x2F27E0; 0x752BF; 0x61145; 0x2CD663; 0x31DFD9; 0x7E357F; 0x1E8721; 0x265FEF; 0x77889];
   [0x33FAD5; 0x16E6ED; 0x16F2EF; 0x1B964B; 0x1A2ECA; 0x3E0C81; 0x3FE7D9; 0x69AB34; 0x2B4E22; 0x3B9125; 0x3129C9; 0x6B5E95; 0x3E450D; 0x3C0221; 0x246870; 0x12331E; 0x368335; 0x3842E7; 0x1CD463; 0x375065; 0x1AFC4F; 0x18C552; 0x3DF99D]];
  [[0x76C909; 0x2ECC28; 0x3E534C; 0x6E5B56; 0x3472BC; 0x2ED648; 0x1800E5; 0x62EB01; 0x388368; 0x17E589; 0xEE455; 0x752271; 0x7DB0E; 0x4CE3B; 0x1BC93D; 0x266E9B; 0x1A633F; 0x80153; 0x100613; 0x1B334A; 0x1081C5; 0x3CEACA; 0x28BC5F];
   [0x4FB1B3; 0x1F97A9; 0x159D7E; 0x459CF9; 0xCBC43; 0x132E42; 0x3F3662; 0x32762F; 0x3F6792; 0x147465; 0x64E92; 0x7B5ED9; 0x2CDCB9; 0x3B3F08; 0x307A15; 0x760D9B; 0x145A0B; 0x101514; 0x36AC7F; 0x46C8CA; 0x9D1F6; 0x65054; 0xDEBF1];
   [0x4F598C; 0x2DEC24; 0xEFF2A; 0x1F3645; 0x27F317; 0x3DAF78; 0x2BC2DB; 0x4EA69; 0x279343; 0x337BF6; 0x117316; 0x616D27; 0x378EC8; 0x25D729; 0x265316; 0x3D0829; 0x396E01; 0x2AE96D; 0x3445E4; 0x1E9F9A; 0x30EDDC; 0x2E073A; 0x21B311]];
  [[0x2CC32D; 0xD826A; 0x26E228; 0xD6206; 0x227832; 0x2140D7; 0x2068C2; 0x5C5008; 0x25521D; 0x281FA5; 0x51E83; 0x105A03; 0x3232E0; 0x3D0E47; 0x3BD547; 0x65100C; 0x113B09; 0x24F1FA; 0x30CDA7; 0x53D618; 0xA2A17; 0xBD8B1; 0x20FB2C];
   [0x5A2225; 0x391B43; 0xB1CFF; 0x7DCE4C; 0x193C2C; 0x3BFBCF; 0x1040C3; 0x1E82A9; 0x3D9486; 0x3AF831; 0x217A7A; 0x6F3F26; 0x2E52C2; 0x38837E; 0x256BB5; 0x1D310D; 0xD911E; 0x12DD9B; 0x1D3C60; 0x42AE12; 0x1AA290; 0x11D773; 0x8A556];
   [0x3DB239; 0x3C331E; 0x2C1ABE; 0x54F6FD; 0x29390C; 0x2F6790; 0x2CD02B; 0x7AFE3F; 0x12B2C3; 0x2287BB; 0x114FE8; 0x2CC8AC; 0x2CADBB; 0x1A33BE; 0x37BE86; 0xAA64F; 0xCDB97; 0x3CF948; 0x1BB280; 0xBD3AD; 0x1C0A26; 0x1857F5; 0x2270FB]];
  [[0x588772; 0x34A3BF; 0x2B2057; 0xD6822; 0xED9FF; 0x385C48; 0x3A74B9; 0x5A12D2; 0x79DD4; 0x2B2E76; 0xE28; 0xE1C30; 0x3339AE; 0x248CCE; 0x3445A9; 0x28093C; 0x256A7E; 0x18F19E; 0x385218; 0x57D410; 0x2DBF86; 0x1F5ECA; 0x1CACDD];
   [0x265C7D; 0x28705E; 0x384F7D; 0x18D471; 0x1527DF; 0x3DA983; 0x1DDE7F; 0x2A71F4; 0x1B4521; 0x3DCB4; 0x328F6D; 0x195CDD; 0x16F6B4; 0x2550C; 0x181F0F; 0x279602; 0x592B; 0xA8FC2; 0x173822; 0x528D2F; 0x3BB20B; 0x1CB21C; 0x2E0800];
   [0x67C867; 0x24B417; 0xD83F0; 0x584B7B; 0x2C2DCD; 0x3925C8; 0x35374E; 0x273444; 0x1ED50E; 0x19DC39; 0x12047; 0x4B56F7; 0x1F477D; 0xC0B39; 0x103A52; 0x3B6571; 0xF7CB4; 0x3F0E6A; 0x3100B6; 0x77750C; 0x2A6650; 0x1B8E63; 0x356E38]];
  [[0x294CC0; 0x1ABF5C; 0x22AB9B; 0x575222; 0x251493; 0x2E554C; 0x27F012; 0x71924E; 0x23D76D; 0x230B9E; 0x295210; 0x783EB9; 0x3D2EB1; 0x34E19B; 0x21E2D1; 0x50A8CA; 0x18C513; 0x167437; 0x2F383C; 0x71AE6B; 0x5632B; 0x97273; 0x39C267];
   [0x56E019; 0x310B20; 0x308BD2; 0x786653; 0x396A2E; 0x7FF67; 0x3BFBA0; 0x328BB8; 0x24DDEC; 0x2F538D; 0x3BCCD8; 0x6635E3; 0x23177E; 0x45322; 0x2E32D2; 0x4EC3F8; 0x1E2DE3; 0x245612; 0x3C6038; 0x4D683D; 0x12B6CB; 0x27583; 0x2B048C];
   [0x78D023; 0x2E23CC; 0x772AC; 0x3B5B53; 0x29ED11; 0x3ED08F; 0x71E5C; 0x428132; 0x315335; 0x402B; 0x822D3; 0x7B1B14; 0x35A437; 0x206234; 0x32B6E0; 0x55555C; 0x27CFBE; 0x4A5EA; 0x556CE; 0x31DFEB; 0x1DB053; 0xE8BAC; 0xC0D49]];
  [[0x4AA9D1; 0x2779EA; 0x1B86F9; 0x72282A; 0x1EBBE9; 0x18B46D; 0x26FF2C; 0x3F0CC7; 0x212453; 0x34244B; 0x9799C; 0x4F49C4; 0xC1DEA; 0x35B3DF; 0xBDBDF; 0x1F15A7; 0x37371D; 0x20EBE1; 0x2EA33; 0x9840B; 0x1DD721; 0x2EA8B9; 0xB48AD];
   [0x234472; 0x5EFDD; 0x21B297; 0x2E57AF; 0x131F56; 0x3DE1F4; 0x3D96B7; 0x3AA17F; 0x17742D; 0x26100; 0x337A96; 0x4EA9E0; 0x27EA1C; 0x1F7FA1; 0x32FFCB; 0x7DD72A; 0x35BB87; 0x318CC2; 0x3F5009; 0x766DE0; 0x391596; 0xDFBB0; 0x2A498F];
   [0x68F40A; 0x34745D; 0x3B263F; 0x370D88; 0xB7E85; 0x165B40; 0xF819E; 0x5987AB; 0x108717; 0x2A8421; 0xB286F; 0x4B94FD; 0x1DCD66; 0x4CFEC; 0x21944B; 0x187F0D; 0xE4A62; 0x307E74; 0x6FCD6; 0x4495F4; 0x31D0FE; 0x2D69FC; 0xB5770]];
  [[0x42173B; 0x2F2767; 0x3D5FCF; 0x49931C; 0x9BCA8; 0x1886FD; 0x110F6D; 0x3C1F29; 0x2C545A; 0x33EF6F; 0x18E372; 0x75FA4C; 0x18BB09; 0x26F270; 0x346DE4; 0x28FAC0; 0x23E410; 0x27B61C; 0x14EA05; 0x438310; 0x2CAD7B; 0x1FD7F3; 0xB3F41];
   [0x10995C; 0x168EA0; 0x13CA45; 0x2F2095; 0x31AB84; 0x32FB0A; 0x42BB8; 0x8933C; 0x97983; 0x65857; 0x150488; 0x1F3B0B; 0x29F9DE; 0x298C42; 0x291103; 0x7B8240; 0x185C19; 0xA0A6A; 0xD566B; 0x742CE; 0x1D215F; 0x3F50AC; 0x22911C];
   [0x45E864; 0x15742; 0x161854; 0x7B3D4F; 0x21EEAE; 0x296CE2; 0x3346C6; 0x734650; 0x1106CC; 0x1BF45E; 0x1F7D96; 0x45F811; 0x3B405E; 0xDE8B5; 0x178A69; 0x6CFE39; 0x3F339A; 0x262A13; 0x2FB7C; 0x669A06; 0x2CB49B; 0xDD528; 0x26C657]];
  [[0x5A4314; 0x33DCDD; 0x3024FC; 0x3FA63F; 0x296FCE; 0x1613FF; 0x1601C8; 0x18EC14; 0x176101; 0x16707A; 0x323522; 0x6451EF; 0x38E06E; 0xBBED9; 0x325EF6; 0x5506AE; 0x173417; 0x30CE7F; 0xE2A20; 0x65E329; 0x52AB8; 0x1DC041; 0xC6341];
   [0x44DD3D; 0x2AF1BC; 0x9FA4B; 0x334B00; 0x3F42E3; 0x2593C; 0x229E96; 0x6D61D4; 0x2B2FD7; 0x22C1A9; 0x290FC9; 0x728BC5; 0x3CC825; 0x2F498D; 0x343407; 0x205470; 0x675EC; 0x2ED6F5; 0x63C9F; 0x5D0188; 0x26F6B5; 0x63702; 0x3A29D];
   [0x35F788; 0x24E672; 0x28C708; 0x3BBCE6; 0x138643; 0xA192E; 0x582FA; 0x192093; 0x29B4D3; 0x2443E6; 0x3FB121; 0x581657; 0x2CD1A9; 0x110FB0; 0x299AA9; 0x1FD531; 0x2E546; 0x1E08DB; 0x1D678E; 0x43BD67; 0x1A8272; 0x22C90A; 0x7CC59]];
  [[0x3C1C05; 0x371D27; 0x1EE674; 0x6687DD; 0x1B5B64; 0x37B7A6; 0x110B63; 0x4D3034; 0x34E37; 0x3361C7; 0x29A6D0; 0x5A8F45; 0x2097C; 0xEA46A; 0x1C9C63; 0x510D99; 0xFB932; 0xD6720; 0x487B1; 0x3D00ED; 0x851E4; 0x997F2; 0x320424];
   [0x61B9A6; 0x1B989A; 0x38839A; 0x38318C; 0xA4E7A; 0x316981; 0x262D85; 0x404D09; 0x382ABE; 0xDCD89; 0x1791BB; 0x2076BF; 0x97C30; 0x38D1B5; 0x30A092; 0x563AEB; 0x27026C; 0xE6AF4; 0x37D8D5; 0x6D9346; 0x1E7C0C; 0x1B5D43; 0x35B6ED];
   [0x7FF888; 0x222708; 0x1FA371; 0xDCC52; 0x5815A; 0x1F9620; 0x61B0; 0x78FA0; 0x24CC30; 0x15B96E; 0x21510C; 0x382242; 0x30063A; 0x36F011; 0x37B5D5; 0x2EB1A; 0x26488B; 0x3568B8; 0x3E1F1; 0x517C59; 0x30A3A0; 0x25590A; 0x1142DE]];
  [[0x5982A8; 0x370C8F; 0xAF64E; 0x2E275; 0x1EEE4F; 0x246CAD; 0x2AC24B; 0x334875; 0x174AA6; 0x2C27C8; 0xEA109; 0x2BB331; 0x2AE934; 0x254289; 0x3CA630; 0x3660D8; 0x2C93F; 0x18A01E; 0x31D7A9; 0x2BD9F0; 0x2B8049; 0x350D91; 0x294E97];
   [0x129088; 0x28094D; 0x357F4D; 0x6B6FFF; 0x1B77FC; 0x21A12; 0x214A39; 0x7DAD9D; 0x3BCA3; 0x32A844; 0x2DC466; 0x5640CE; 0x3A5766; 0x209AE0; 0x388583; 0x5AA61F; 0x3917FE; 0x20DB8C; 0x2576DC; 0x46380E; 0x2B7CE8; 0xB5A77; 0x136232];
   [0x59DD5; 0x298A36; 0x2A6FC3; 0x30E5AA; 0x308A3F; 0x2D40E1; 0x2E7DE9; 0x807B9; 0xE3F2E; 0x227438; 0x210CE9; 0x2EFE56; 0x252E80; 0x38C0F1; 0x175105; 0xE6782; 0xB3A10; 0x11D347; 0x6498F; 0x1484B8; 0x92D66; 0x1CAD6A; 0x3E1628]];
  [[0x1FA2D3; 0x1AD4F5; 0x1BA2BF; 0x584C68; 0x3C80CD; 0x2A3CE1; 0xE01C2; 0x2DD8BE; 0x17C543; 0x2C4E30; 0x34AECE; 0x437F0A; 0x104C7; 0x2AA667; 0x3C16D7; 0x1848BB; 0x1D7152; 0x2A413C; 0x3C17CC; 0x412579; 0x18306D; 0x32A9E; 0x8EDED];
   [0x68A027; 0x272D65; 0x35ED0F; 0x6BD7E7; 0x3673DF; 0x2FA6B9; 0x2B9424; 0x16DE59; 0x24F12D; 0x30F5A6; 0x16B74C; 0x2CCEE0; 0x316F68; 0x28D420; 0x2A7F25; 0x1FA3FC; 0x36B1F5; 0x3ABC71; 0x2E10FE; 0x5F45AF; 0x30575C; 0x3847B7; 0xDD252];
   [0x2FA0BD; 0x3EB306; 0x96877; 0x521BA1; 0x1C63BC; 0x32E251; 0x3FA86; 0x6BC4D8; 0xF02D8; 0x2FF844; 0x242017; 0x73E523; 0x80EB0; 0x22B8DE; 0x3BB4D3; 0x13C01E; 0x33830B; 0x3CFD23; 0x294978; 0x102D1C; 0xE4A57; 0x1089DC; 0x3D1440]];
  [[0x166AD2; 0x1851E7; 0x3A69AC; 0x138038; 0x2CBBE9; 0xE1B01; 0x2D813B; 0x55062F; 0x11E135; 0x1B55A0; 0x38C972; 0x6FFEDB; 0x2EFC51; 0x37167E; 0x651CA; 0x2FAAD0; 0x319A64; 0x1AB9E5; 0x19EA91; 0x571C6A; 0x1B9B34; 0x32C40D; 0x120211];
   [0x3FCA5A; 0x2E874F; 0x16F8D3; 0x5ED189; 0x322122; 0xEC018; 0xCE754; 0x487A23; 0xD1100; 0x2AC3BB; 0x2B538F; 0x4F45D1; 0x1EB758; 0x3B112B; 0x3E180B; 0x5A4B85; 0x1D03F0; 0x2069E1; 0x11A16E; 0x4F3D33; 0x381CC; 0x94BB5; 0x250B30];
   [0x1C2C25; 0x2E0B68; 0x25AC97; 0x4E260; 0x2EB2AB; 0x309F16; 0x2ECEDF; 0x62F833; 0x1E0F90; 0x294A6E; 0x253BC6; 0x341FBD; 0x1FB3C9; 0x38047A; 0x3CD92B; 0x2F682E; 0x553EA; 0x160B6F; 0x346039; 0x3E514D; 0x24F021; 0x3E913F; 0x129CFE]];
  [[0x1EFBD4; 0x3B8B42; 0xEF579; 0x5902FB; 0x3522F1; 0x5610C; 0x170E18; 0x1AFDFC; 0x204D62; 0x391959; 0x179E48; 0x2FF462; 0x63CE3; 0x111EA8; 0x1AADCF; 0xBD1D2; 0x367F3C; 0x11E570; 0xBA7B7; 0x26D561; 0x15CF3E; 0x16E814; 0x3FEC7E];
   [0x410519; 0x34D54F; 0x3C2FFF; 0x4F910F; 0x11C414; 0x15AF5E; 0x3D949C; 0x3F1B53; 0x91AD; 0x264BB8; 0x189713; 0x338935; 0x1CFC31; 0x3530FD; 0x3D8864; 0x571F5C; 0x66F17; 0xC820B; 0xA514A; 0x53ED14; 0x8908D; 0x2A9AA4; 0x3723D1];
   [0x530A55; 0x23CCA3; 0x382430; 0x6AF068; 0x35651E; 0x14F6EC; 0x2AEAAB; 0x487304; 0x156CAA; 0xC009A; 0x10EF4B; 0x26FC2D; 0x10F060; 0x95637; 0x288A9C; 0x7E1314; 0xA00CE; 0x2F2C3; 0xBE1F6; 0x54175B; 0xAFAA6; 0x232E71; 0x2B55E0]];
  [[0x1E7A5; 0x4FD57; 0x22F6FF; 0x4CC21B; 0xD5FC7; 0x1FD78E; 0x3A2EBE; 0x183905; 0xC129E; 0x3765A9; 0xA6E98; 0x797796; 0x24F429; 0x36F1E4; 0x3DE415; 0x60A080; 0x3D9A0F; 0x348EE1; 0x3B8D4C; 0x3B94F9; 0xA52CE; 0x36391F; 0x219DCA];
   [0x155E; 0x1CFD; 0x1A8F93; 0x743A5A; 0x13DF56; 0x35856C; 0x1E2621; 0x1DF2FD; 0x17FC31; 0x7F36B; 0x2516F7; 0x6F4EDA; 0x4D8DA; 0x3BB017; 0x17812B; 0x2E8803; 0x331E37; 0x1476EC; 0x3B6795; 0x1D82CF; 0x55A4D; 0x1E2E87; 0x23FEA8];
   [0x2DEA12; 0x158ECD; 0x1FC69F; 0x672AE8; 0x1E897D; 0x1F295F; 0x27C7CF; 0x2F1854; 0x2DD29A; 0x224DFF; 0x228DE0; 0x9A2B0; 0x113CF4; 0x30BD96; 0x29A4AB; 0x6DD2C6; 0xE0F85; 0x1BA973; 0x3AEEC2; 0x440748; 0x3C3422; 0x4A832; 0x3A30EB]];
  [[0x1F1DE4; 0x18B067; 0x2FFBA1; 0x7C943A; 0x3A18D1; 0x1108E9; 0x284491; 0x156A7B; 0x148D8E; 0x125467; 0x1947CE; 0x48136E; 0x14138D; 0x303877; 0x13932; 0x55FE2; 0x202719; 0x1586AE; 0x2D4502; 0x71913C; 0x1B1B1C; 0x56028; 0x151696];
   [0x76C4DF; 0x1348D7; 0x276BB5; 0x1D589A; 0x390F8D; 0x29442B; 0xB75D; 0x36E35; 0x3201CC; 0x2A33F2; 0x1F44DA; 0xF6817; 0x9DD39; 0x291EE0; 0x3B94B2; 0x628085; 0x3DA89E; 0x1935A1; 0x1682E4; 0x3D96A4; 0x266B1C; 0xB66B4; 0x892A2];
   [0x3AFE25; 0x55237; 0x193631; 0xADE15; 0x176B32; 0x8E9B8; 0x10652A; 0x1C79FD; 0x12262B; 0x811E4; 0x371D92; 0xBE1; 0xF024E; 0x3270AF; 0x3A0AEA; 0x5156EE; 0x3A8504; 0x159140; 0xA6703; 0x125BF7; 0x3B1A1B; 0x14C0D0; 0x29EE7F]]];
 [[[0xCEE3A; 0x3D7321; 0x23142; 0x3544C4; 0x3F91BD; 0x10A3EC; 0x82B20; 0x78FFE7; 0x3864F1; 0x3B8041; 0x1D9DC2; 0x7B678; 0x31A85D; 0x26740B; 0x3B73EA; 0x554F39; 0x24C5A9; 0x1017C6; 0x15253B; 0x78B21A; 0x1046AA; 0x345729; 0x19F681];
   [0x181CB6; 0x1C63A7; 0x3CC749; 0x688EB7; 0x3206DC; 0x2E4E99; 0x4E7E3; 0x5C52DA; 0x206DFE; 0x1645C1; 0x3C7BEB; 0x204B2; 0x12DAF; 0x349503; 0x34618E; 0x231A9D; 0x29B7B6; 0x2A40B2; 0x3C911A; 0x14E5CA; 0x168D52; 0x5511B; 0x2F1520];
   [0x7821FA; 0x36926C; 0xD7AF9; 0x6EC97B; 0x45F92; 0x2447D1; 0x26C242; 0x319411; 0x3B8DAD; 0x1E3305; 0x17AA9C; 0x1725D0; 0x244567; 0x5476C; 0x1EFF9; 0x6A1091; 0x24FA36; 0x39DCF; 0x208642; 0x3C7246; 0x3FA637; 0x2BB676; 0x259D44]];
  [[0x1143E0; 0xBE934; 0x92033; 0x22ACE8; 0x7276F; 0xF73BC; 0x201D0F; 0x226977; 0x12645; 0x275465; 0x28E554; 0x5CBE2C; 0x21F1F6; 0x3D5FE6; 0x1DC930; 0x77C3DA; 0x97BE2; 0xD819D; 0x1C8A3; 0x19CED0; 0x134484; 0xF4F11; 0x1DF685];
   [0x9BC; 0x11EDA2; 0xD29DF; 0x3DD661; 0x2C252E; 0x113EDA; 0x3DF35D; 0x2DED2E; 0x2B0755; 0x333F8A; 0x13C151; 0x57FEA3; 0x15DAC1; 0x3EB220; 0x3B1EA; 0x7C1A9B; 0x3CE6E5; 0x3CAD4F; 0x12B472; 0x652857; 0x7E9D3; 0x24534D; 0x213675];
   [0x48F0D3; 0x22CD16; 0xAD0B2; 0x354F10; 0x349FB2; 0x305A14; 0x1BDA8F; 0x7E0240; 0x1C187D; 0x3E456C; 0x228C2A; 0x518D87; 0x31FEE5; 0x18BEB8; 0x1E38EB; 0x3553A2; 0x3C0940; 0x3DE9BA; 0x120769; 0x76BFBD; 0x3CEEF0; 0x1B431A; 0x1E3982]];
  [[0x516136; 0x29DF1B; 0x2D8BBF; 0x309D5F; 0x259D4B; 0x38377; 0x3833E1; 0x4338BB; 0x1D9308; 0x6D82F; 0xB6B51; 0x5BA357; 0x320D4C; 0x259A92; 0x1D9241; 0x78B989; 0x45C59; 0x37E70; 0x2B41F8; 0x40B045; 0x3CC5AB; 0x3A6093; 0x2EB114];
   [0x2FD13F; 0x31B6B2; 0x38071A; 0x8F7E; 0x2227F0; 0x2C8CB9; 0x2C017; 0x452659; 0xCCF76; 0xF095B; 0x3A4DFD; 0x72E9C3; 0x10B61E; 0xC0898; 0x24C173; 0xA2663; 0x60CDB; 0x96AE3; 0x13F6F3; 0x4B3363; 0x1F342B; 0xC8DE7; 0x251CCD];
   [0x291E81; 0x87E94; 0x397163; 0x41EE95; 0x174BBE; 0x116EA7; 0x3F0F93; 0x4C9F35; 0x28B7F6; 0x5ADCA; 0x148DEC; 0x599D15; 0x24B8E7; 0x3FB84F; 0x3DA2F2; 0x3BCD26; 0x3A6E5E; 0x198E0F; 0x2481B2; 0x52634A; 0x22D3F8; 0x291EF1; 0x7CC09]];
  [[0x103033; 0x2ADD30; 0x1859A0; 0x15A086; 0x61C02; 0x10E7A8; 0x3EAFF4; 0x767D34; 0x10AB16; 0x1F8467; 0x26AFAB; 0xD90E0; 0x26D163; 0x1708CF; 0x41DBD; 0x16BB95; 0x375E2C; 0x3BCA5; 0x4AAE7; 0x3072CC; 0x5E256; 0x15AC55; 0x3BABC8];
   [0x4B5126; 0x221DBC; 0x61E51; 0x1A65B2; 0x144A5D; 0x53B47; 0x35282A; 0x361203; 0x34A24A; 0x265DCD; 0x11E3E4; 0x71F53C; 0x1617A7; 0x1B3CFC; 0x37ACD5; 0x3D79A9; 0x2F6062; 0xE6254; 0x13609B; 0x6B6554; 0x35F594; 0xABD87; 0x2EDABF];
   [0x261ED9; 0x2DA8C6; 0x1E0A7A; 0x169981; 0x1CF370; 0x3E78E4; 0x1DC822; 0x5C5907; 0xC84AA; 0x1B3D8D; 0x235FF6; 0x3183F8; 0x1DC3F5; 0x3CD3E8; 0x38AA8A; 0x298326; 0x23EE8A; 0x219AC4; 0x2FFA3E; 0x6FB3B6; 0x26C478; 0x1E8FD; 0x28FC8A]];
  [[0x74BF78; 0x21A4A0; 0x7F0AA; 0x4357AC; 0x1FE0E7; 0x28EE47; 0x28C433; 0x2DC428; 0x1801EA; 0x1C3DCA; 0x36E321; 0x76CD18; 0xFE126; 0x1F3CFA; 0x3B1976; 0x7FB0F7; 0x22F2C9; 0x197985; 0x7146F; 0x7D7DCB; 0x400AF; 0x344938; 0x2E00BD];
   [0x33B420; 0x2CBFC9; 0x1EBE71; 0xE5302; 0x74DB3; 0x130287; 0x26B2; 0x514208; 0x2E49CD; 0xB2A5B; 0x3C750F; 0x3ED5AC; 0x39B88B; 0x2B90DA; 0x5740F; 0x279855; 0x83537; 0xAECE4; 0x284E3D; 0x7EBF4B; 0x753F0; 0x361832; 0x1F793F];
   [0x3A939A; 0x52334; 0x356449; 0x24BFBB; 0x36BE0F; 0x367B2C; 0x4E8D1; 0x67E56C; 0x279DE5; 0x90171; 0x15DDDE; 0x2A246D; 0x62B11; 0x36BDB; 0x1714B6; 0x7CBB2A; 0x1969BA; 0x27CA13; 0x28B9DE; 0x5E3B1A; 0x78AE7; 0x1351F5; 0xDA62]];
  [[0x53172; 0x2A2BFC; 0x33E860; 0x638ADF; 0x22FDA9; 0x161786; 0x2313FD; 0x502AB2; 0x1C6DA3; 0x235635; 0x8ED5B; 0x1E342B; 0x13C148; 0x2E6A9C; 0x3897F3; 0x5843F7; 0x123DFD; 0x3C9807; 0x5F065; 0xD45E4; 0x2690E3; 0x341A20; 0x927BF];
   [0x15F913; 0x30564F; 0x2F86A0; 0xC54CB; 0x17E098; 0x1C24F2; 0x17111F; 0x21C5D; 0x1BE2D3; 0xFD2C4; 0x1E935E; 0x3CE41D; 0x86058; 0x1B00C8; 0x285196; 0x11DA1; 0x2F1A16; 0x126ABE; 0x42FD8; 0x2EDBF1; 0x3A75C6; 0xD1C7C; 0x367832];
   [0x293AEE; 0x21495; 0x1BB0F5; 0x566C32; 0x196DDA; 0xD10CE; 0xC6555; 0x1E8E54; 0x14FA41; 0x3CA61A; 0x8C270; 0x41A922; 0x10DDE3; 0x3C22D8; 0x143053; 0xC9DAC; 0x117939; 0x16BA60; 0x28B353; 0x3C642B; 0x20C6F4; 0x3F370; 0x196768]];
  [[0x65E8F6; 0x9C4A7; 0xA1D99; 0x7D4B7B; 0x15F315; 0x3FC1AA; 0x2468FA; 0x5C1056; 0xF4362; 0x2C7799; 0x22A7D7; 0x71EC9D; 0x1ACB59; 0x1E9B82; 0x369EA; 0x52D8AB; 0x2884D6; 0xAA6B5; 0x110D92; 0x5882B4; 0x18CB6D; 0x2F7663; 0x1B502E];
   [0x6415D4; 0x36A62C; 0x2F8E5C; 0x310D30; 0x11EE1E; 0x271CB7; 0x22D267; 0x94EFA; 0x398684; 0x3F1B86; 0x165A66; 0x5BB638; 0x34D02F; 0x3E6EBE; 0xDE3C6; 0x4138E0; 0x2EECEC; 0x24EE9D; 0x1E8C7F; 0x5CEBE9; 0xA4E0F; 0x1BC6CD; 0x36B315];
   [0x4FDAB7; 0x3E5AE6; 0xC6A3B; 0x2C4AA9; 0x269D75; 0xD8807; 0xB5F32; 0x6B8D06; 0x31AE80; 0x25B3E0; 0x39541F; 0xF3ED; 0x3A4AF4; 0x1A6C5B; 0xC602B; 0x11FF53; 0x2F09C9; 0x54583; 0x214187; 0x36D12F; 0x3950DC; 0xAED90; 0x3F5A51]];
  [[0x56FA9; 0x2A8CF1; 0x1DDAD; 0x46E6FF; 0x3B910B; 0x2CADE7; 0xD73A3; 0x338292; 0xBBF55; 0x33F714; 0x4D83C; 0x7DF50D; 0x37ABD1; 0x103E5A; 0x42BB5; 0x663AFA; 0x197069; 0x2B5674; 0x3B0D57; 0x45359A; 0x10B12C; 0xF3CA0; 0x25512A];
   [0x2BD66C; 0x2285D6; 0x1D66BD; 0x6BD87F; 0x2DC0F9; 0x3AE7AB; 0x361A39; 0x11B741; 0x206C9F; 0x25662E; 0xC70F7; 0x3F36E4; 0x2ACA51; 0xC34AF; 0x24625C; 0x6500C7; 0x198FCB; 0x12CFCA; 0x9EE1C; 0x277608; 0x213658; 0x30604D; 0x2EF50F];
   [0x92ABD; 0x1446D1; 0x3F6A06; 0x46565B; 0x3E584; 0x159E89; 0x3DEBC5; 0x735F29; 0x31EB5E; 0x434A9; 0x2797DF; 0x6DEA2C; 0x2A9686; 0x118EFA; 0x50279; 0x3045AD; 0x34874B; 0x3D78ED; 0x18FEC5; 0x3D2A5A; 0x30D04B; 0x3A21F3; 0x31E2CC]];
  [[0xF8BDB; 0x33A04E; 0x14B261; 0x3ABAE0; 0x3F54D; 0x168473; 0x1C33A5; 0x1CB69A; 0xFEEE3; 0x31C38B; 0x219E20; 0x4DE49D; 0x3DCBEE; 0x52411; 0x3D8935; 0xD0029; 0x227D70; 0x2A8E3F; 0x204A8; 0x320844; 0xDD3B6; 0x3D0841; 0x2C6C6C];
   [0x5C03EC; 0x2B2C46; 0x293F5B; 0x7F7BDE; 0x3ADCB5; 0x17241D; 0x1FD746; 0x3529B7; 0x3332DC; 0x2763A5; 0x1E887A; 0x130EB1; 0x2394CE; 0xB8EF4; 0xE932D; 0x527CBE; 0x3F139A; 0x3BFA19; 0x336A1D; 0x66E2AC; 0x98186; 0x47A1A; 0x4788C];
   [0x9A196; 0x35EBC2; 0x265402; 0x7A08A2; 0x2CDBA0; 0x23627E; 0x2433D; 0x46191A; 0x3DCF82; 0x34EE3; 0x2B144C; 0xFC454; 0x149146; 0x2C1B7; 0x707A7; 0x29E68D; 0xF78F8; 0x24EB1B; 0x116A27; 0x722F40; 0xC507F; 0x737D8; 0x1FABC6]];
  [[0x2E0A9F; 0x47AD4; 0x395FF2; 0x70C4CD; 0x1FB3C7; 0x1E8F1; 0x25684; 0x46A16B; 0xBE275; 0x1CA806; 0x17814; 0x255A20; 0x1A997F; 0x1AD072; 0x3CFEB6; 0x3C6C9C; 0x1F796B; 0x3CEE03; 0x3882E; 0x6A3D22; 0x39A895; 0x3BEFAB; 0x1E8B14];
   [0x2481A8; 0xFD69E; 0x1BB1B7; 0x6E58A2; 0x1FF0FF; 0x786C3; 0x16526A; 0x617928; 0x10511F; 0x88530; 0x397BC8; 0x34BA73; 0x4BEE5; 0x274402; 0x4DCC0; 0x246DC1; 0x1408; 0x2DC300; 0x28EE1F; 0x609A3C; 0x9B999; 0x203ECD; 0x22AA2D];
   [0x3580E7; 0x155DCD; 0x13457A; 0x2C90EB; 0x26470A; 0x122727; 0x37BD5C; 0x5D220D; 0x152493; 0x18A293; 0x392995; 0x151E64; 0x2E37DC; 0x2E9EC6; 0x1A205E; 0x701D8; 0x1CB000; 0x120BE4; 0x31B0D9; 0x5B9235; 0x5267; 0xB7C49; 0x155B65]];
  [[0x3005AF; 0x222462; 0x34D58A; 0x2AEF89; 0x2BA06B; 0x1C9A9E; 0x1E894B; 0x406001; 0x10BF30; 0x2867EA; 0x3F0EC9; 0x32D6F1; 0x2C15E9; 0x12CFC5; 0x191373; 0x24A43B; 0x2C8AB3; 0x25E47F; 0x3A9B91; 0x2DC4AC; 0x1821EA; 0x19E718; 0x3570EC];
   [0x49A08; 0x29C93F; 0x311736; 0x4A3E8D; 0x76459; 0x24E089; 0xD1295; 0x65B4DA; 0x199D52; 0x7CE98; 0x284B76; 0x797A7F; 0x219D91; 0x288E07; 0xBA4F1; 0x1089DA; 0x3C7B7; 0x37C99E; 0x376B77; 0x28C9E0; 0x3AF66B; 0x15F094; 0x887F7];
   [0x4D57FB; 0x142BB6; 0x680E9; 0x19ED70; 0x31F674; 0x3D4AD2; 0x23E39; 0x6D62CE; 0x1F2AF6; 0x18DCD2; 0x87694; 0x4D412; 0x22EF3A; 0x24D6F; 0x16C5BC; 0x499A4A; 0x3C726B; 0x21F3CF; 0x23BB7D; 0x60BA2C; 0x3B5906; 0x19F5B1; 0x22E2B1]];
  [[0x1A18D3; 0x2DF53; 0x3C65F2; 0x252D1F; 0x5D4E4; 0x37F7AD; 0x2B96C8; 0x4A99EF; 0x34622E; 0x3DC7C3; 0x25C9EA; 0x2950F3; 0x2D17D0; 0x2BA2B1; 0x16FD3F; 0x2D1E9B; 0x3D33A4; 0x20B37E; 0x1F2455; 0x39CB42; 0x74719; 0x6C7E3; 0xB524B];
   [0x3E735C; 0x1CD19B; 0xA2B03; 0x4DADA; 0x1D7F00; 0x1BB1CD; 0x31EC2D; 0x60CB29; 0x305DAD; 0x2A2E31; 0x2A51BD; 0x64BA52; 0xA34DE; 0xC8DBD; 0x335FA7; 0x335FE1; 0x33C874; 0x3E276; 0x2026D5; 0x96E2B; 0x276E3; 0x38EF96; 0x3FBD7E];
   [0x79E37A; 0x1890D4; 0x250177; 0x47BB39; 0x29268C; 0x2479AB; 0x244958; 0x270A4B; 0x1A146F; 0xE6E93; 0x1688FB; 0x728526; 0x1CECAB; 0x26F68E; 0x1480E6; 0x78FACC; 0x234FE3; 0x1CB3A6; 0x3F46F; 0x31231A; 0x1C154C; 0x3F8810; 0x1DA5AD]];
  [[0x3DDB7A; 0x2E3D3; 0x2553BF; 0x4415BB; 0x329C70; 0x22CB5A; 0x19FC2C; 0xF789E; 0x25AD01; 0x23FC89; 0x297284; 0x52CFEE; 0x23B149; 0xD9DC2; 0x2F141C; 0x144A6; 0x34AA72; 0x71093; 0x3304EB; 0x72FE7F; 0x98781; 0x1FC2EE; 0x1AA3B0];
   [0x784FC3; 0x109969; 0x27287E; 0x6DB5D4; 0xACF5E; 0x32B46; 0x37A8DC; 0x4CE91B; 0x36E3B8; 0x2D9C83; 0x4C6A9; 0x2A278F; 0x3E2154; 0x1E5587; 0x26D619; 0x749796; 0x2DE56E; 0x1CA040; 0xF01A0; 0xA33E5; 0x398839; 0x25A737; 0x342BA0];
   [0xDD5DB; 0x35AF7C; 0xADFC4; 0x2D82EC; 0x1F65FA; 0xE30C7; 0x3A776; 0x11585E; 0x2736DB; 0x3AF607; 0xEC2A5; 0x3DB029; 0x3B1ACF; 0x25DB0F; 0x1FC2D; 0x9BB8A; 0xC442B; 0xB14D4; 0xB2FA5; 0x2930AA; 0x1A33E5; 0x7711E; 0x14AAEA]];
  [[0x4E9DDC; 0x249BD7; 0x399ACA; 0x1C89; 0x399AD6; 0x1CA0C4; 0x33F687; 0x167529; 0x3E6664; 0x247D4A; 0x3E497D; 0x6BEC07; 0x321482; 0x261DC6; 0x1AFB91; 0xCCE08; 0x154873; 0x1FA9C6; 0x31D6B7; 0x1DB078; 0x7F410; 0x2B5D77; 0x1CEFE7];
   [0x78A938; 0x79CA6; 0x4A11B; 0xBBD2; 0x14D1B9; 0x32E71F; 0x228788; 0x43BDCB; 0x52FE3; 0x32E261; 0x3EA511; 0x6940B9; 0xDD8A7; 0x35310F; 0x16AD6A; 0x51AD87; 0x34DB37; 0x39F114; 0x435BA; 0x75A182; 0x319B60; 0x7D2C9; 0x3B06E6];
   [0x4768E1; 0x1CC336; 0x3299A7; 0x5DFF8F; 0x4B15; 0x222007; 0x35CA8E; 0x1DA643; 0x267E34; 0x1EC2B8; 0x189F4; 0x721823; 0x225C4; 0x1F0249; 0x3A75ED; 0x43CA56; 0x25AC50; 0xE327; 0x3352D9; 0x4B96F8; 0x27419D; 0x23A16C; 0x31DA1B]];
  [[0x487D70; 0x3AAA4A; 0x26A8EB; 0x5FBEDD; 0x2A0595; 0x22F25C; 0x3A6FD8; 0x451396; 0x306E44; 0xF3B8F; 0x2912A8; 0x50F308; 0x7E373; 0x7762D; 0x1A5294; 0x331113; 0x26941A; 0x25F44E; 0x3862FA; 0x10D40E; 0x289A47; 0x99A16; 0x207317];
   [0x1B1BDB; 0x304B63; 0xE1EED; 0x53C2DF; 0x3F16DC; 0x63BAB; 0x21F5CC; 0x3D7B7; 0xB4008; 0x174E48; 0x341AE6; 0x23DF07; 0x2FF147; 0x7214D; 0x11768A; 0x756B3F; 0xDB5D9; 0x3F42F9; 0x62571; 0x7558EC; 0x2AEDF3; 0x1F12E2; 0x2C1D2E];
   [0x424EEA; 0x8E4E0; 0x276315; 0x10C7CE; 0x10FB31; 0x5DB4C; 0x2E33CE; 0x29F3F7; 0x1931C4; 0x6A41D; 0x2E7D33; 0x31344C; 0x148E02; 0x387E14; 0xEA259; 0x485845; 0x18ECF9; 0x1365B8; 0x9B445; 0x8051; 0x327427; 0x1F7091; 0x18B432]];
  [[0x5F7787; 0x170455; 0x340DE5; 0x62A794; 0x2C24C5; 0x10BDA3; 0x2BFBBE; 0x31B953; 0x2717CF; 0x9262E; 0x2A4512; 0x72DE4; 0x25410B; 0x2BB34C; 0x633A9; 0x7482DB; 0x2D93B4; 0x3DD3EC; 0xC66CF; 0x203EB1; 0x24ED0D; 0x3397CD; 0xF7881];
   [0x127E99; 0x3FDC31; 0xD6B1B; 0x67DD99; 0x20B17C; 0x19B464; 0x1B54BD; 0x79ADB3; 0x1DF680; 0x244323; 0x11F742; 0x305CDB; 0x78D7A; 0x769B; 0x1CAE8B; 0x2F49E1; 0x2C7F9F; 0x38FE3A; 0x39CF05; 0x79BF1E; 0x308D34; 0x3DEE92; 0x11514A];
   [0x382385; 0x13BD1F; 0x3811CF; 0x292587; 0x322E94; 0x26DD80; 0x2E2F48; 0x230F38; 0x17BA53; 0xE1B94; 0x1E3431; 0x12A183; 0x3003E9; 0x39A0BD; 0x1C4811; 0x1E6DB1; 0x1D16F; 0x2EF639; 0x3595BC; 0x635C14; 0xF1141; 0x276EF2; 0x26F1AB]]];
 [[[0x63583C; 0x178F3B; 0x31FE89; 0x4A10CC; 0x25E861; 0x1D9981; 0x209C95; 0x757DAB; 0xE0CCA; 0x26F2CF; 0xF724B; 0x54A684; 0x395A25; 0x3B96AA; 0xCB3E2; 0x25FA25; 0x1A8CCD; 0x3E8D3C; 0x2670BC; 0x73C1D9; 0x2D1389; 0x130BE6; 0x269AFA];
   [0x78D442; 0x8E522; 0x18EBC9; 0x5F3584; 0x3F1CBF; 0xBF4C1; 0x164AA4; 0x6151FB; 0x68D6E; 0x126E4F; 0x200280; 0x31B7DD; 0x54BB5; 0x3503DD; 0x15FE73; 0x400A3B; 0x18B4CB; 0x269223; 0x3BAABF; 0x219923; 0x517F; 0x36DB7B; 0x1898DE];
   [0x1B3C2F; 0x3100AC; 0x375C4D; 0x47FF1C; 0x1554A3; 0x345032; 0x567ED; 0x602271; 0x37B43; 0x352EA6; 0x99EBC; 0x7107DC; 0x14BD9; 0x3BAE49; 0x12E08D; 0x6CA22B; 0x1DABB1; 0x2D516C; 0x270889; 0x2F1F40; 0xB40D8; 0x1F6C6E; 0x69120]];
  [[0x3E2CA8; 0xFBDFE; 0x8452C; 0x4EBE38; 0x3022B7; 0x3A3695; 0xEF8E; 0x3868DB; 0x38AD77; 0x197BEF; 0x35C5D1; 0x56D147; 0x150885; 0x32B7D5; 0x22642D; 0x6B1347; 0x343776; 0x321A28; 0x170446; 0x3DEB75; 0x2A4140; 0x29DF0; 0x2450E4];
   [0x4955CA; 0xC7AB0; 0x2D31F7; 0x5F83A6; 0x2FA36D; 0x1F49E7; 0x3F321C; 0x11D711; 0x4B439; 0x34F95D; 0x217EE2; 0x32BAFE; 0x6F393; 0x2A690E; 0xFAE08; 0x34160E; 0x38471B; 0x3E6453; 0x1D2EED; 0x19616; 0x2ECA2C; 0x2B42A7; 0x1944E5];
   [0x70C80A; 0x3ADD3E; 0x164515; 0x4C3E58; 0x2B68C7; 0x24C735; 0x154086; 0x4AF4B2; 0x3F79B6; 0xEFFA4; 0x2E7835; 0x143F92; 0x139828; 0x2F5825; 0x2C6C7B; 0x374B07; 0x260379; 0x33BF91; 0xFB28A; 0x6D0F2D; 0x1A3C03; 0x3DCB0D; 0x42785]];
  [[0x32F6C1; 0x25C23A; 0x32EA38; 0x343C52; 0x2C5DA6; 0x29130F; 0x1DEA76; 0x41B06; 0x6CC8F; 0xC33C2; 0x3DE859; 0x75ADE1; 0x1F074B; 0x20B431; 0x89D3D; 0x183D45; 0x10916A; 0x79EAC; 0x4D6B9; 0x6DA065; 0xE2053; 0x2B57D; 0x3A141];
   [0x9A37F; 0x35153F; 0x33545C; 0x5C4E51; 0x2ED0FF; 0x23618F; 0x1775AA; 0x5E1890; 0x3A6506; 0x383A25; 0x6CB4C; 0x238F29; 0xB58F7; 0x35B0D9; 0x1D243C; 0x38459B; 0x19D714; 0x31ADDB; 0x14CD5; 0x114249; 0x9DCEB; 0x69813; 0x1E743D];
   [0x491E76; 0x358978; 0x32E06B; 0x7CF380; 0x21BA4C; 0x1B9DC8; 0x72C57; 0x7D4A61; 0x2A03EB; 0x2A8A04; 0x36F1B1; 0x167D87; 0x37D30; 0x300EB9; 0x9A70D; 0x2915B7; 0xC36DA; 0xFD77; 0x3CA0D6; 0x599232; 0x906BD; 0x3DEACB; 0x181880]];
  [[0x6BF556; 0x208D1; 0x37FE71; 0x64B85C; 0x31878C; 0x333FB4; 0x7D710; 0x4670D1; 0x23984F; 0x5C689; 0x255366; 0x44C87B; 0x1D338E; 0x3044AD; 0x2665F4; 0x40EB4D; 0x1E02E4; 0x8C27F; 0xF8571; 0x6BD63F; 0xA6DFC; 0x13304C; 0x2FDD59];
   [0x5724E2; 0x218196; 0x150782; 0x56A299; 0x236FDE; 0x32ED2C; 0x39E8A0; 0x679EE7; 0x14DA74; 0x4A8BC; 0x266E00; 0x41E7FF; 0x2073C7; 0x344E9F; 0x21EAD2; 0x425BB8; 0x2F122A; 0x2C55D5; 0x8B0D6; 0x666EDC; 0x21D2D7; 0x2421BB; 0x131ACD];
   [0x737055; 0x1D6FE9; 0x3EFC08; 0x306FA4; 0x2508B1; 0x2780B8; 0x329BA8; 0x206820; 0x3B15C5; 0x317300; 0xFD39A; 0x49D634; 0xB31B5; 0x19A81C; 0x271B13; 0x56932D; 0x387035; 0x2A79F2; 0x28ECD2; 0xE84D7; 0x232B80; 0x2790F5; 0x26AAC9]];
  [[0x3FA216; 0x2B5E41; 0x11F507; 0x4798E8; 0x1F1C32; 0x4D796; 0x77B9E; 0x2381F2; 0x42960; 0x3DC0DE; 0x1F19ED; 0x8D2B6; 0x218E79; 0x191D1E; 0x38BEC0; 0x2BA744; 0x1106D5; 0x2908D7; 0x18D0A6; 0x643D59; 0x251CA2; 0x25593; 0x2EABF3];
   [0x438D3B; 0x2C35AD; 0x121865; 0x2217B5; 0x3F2262; 0x2C5A2; 0xB51E2; 0x7F949C; 0x1BC59A; 0x2729B2; 0x25BD2D; 0x63FBB0; 0x13132E; 0x16DC57; 0x17A6E3; 0x2FCDA3; 0x321610; 0x32D4AA; 0x1F56D4; 0x4B46C8; 0x26FC03; 0x2B891B; 0x1EEC11];
   [0x4BF5B; 0xA6EB9; 0x137543; 0x3EA024; 0x2E1BE2; 0x294A40; 0x175374; 0x3418B2; 0x92934; 0x559DA; 0xD4705; 0x23080; 0x2832CC; 0x20B5FC; 0xBF4A7; 0x4B3473; 0x3A84F; 0x2A3FAE; 0x45DB0; 0x7AEDBF; 0x1266FC; 0x2E6C3; 0x380CF]];
  [[0x29F673; 0x11C696; 0x32672; 0x54238E; 0x370626; 0x339C4E; 0x31300A; 0xB2D5B; 0x206C4D; 0x791D2; 0x2DB03D; 0x37C66B; 0x2780B2; 0x2E5FE3; 0x2B5B3A; 0x240A75; 0x239AF3; 0x7A194; 0x35BC60; 0x4FBA17; 0x3826E1; 0x181F8A; 0x42F82];
   [0x459AFB; 0x87F76; 0x2C645; 0x4C7CE4; 0x142200; 0x366037; 0x1EF906; 0x57C3A8; 0x1A8791; 0x302563; 0x2034EF; 0x1A0222; 0x3375A9; 0x32C4BC; 0x8F4DC; 0x581A30; 0xC394E; 0xB7FEE; 0x3C5662; 0x34BB53; 0x5B495; 0x18243; 0x37995C];
   [0x4906BD; 0x32B8FA; 0x372E94; 0x613088; 0x17311; 0x3528B5; 0x1EE0AC; 0x686616; 0x33F1FD; 0x25E7C3; 0x3DFBB8; 0x1A5DF7; 0x23B1E; 0x15AAC; 0x25054D; 0x1704E4; 0x1BAE37; 0x1A384F; 0x3606FC; 0x740F1B; 0x2C8C7D; 0x24600B; 0x3D5C73]];
  [[0x1784B4; 0x2CEF58; 0x372A6C; 0x118258; 0x2D6ED8; 0x2DD567; 0x106EE7; 0x1C074F; 0x1A9185; 0x29B246; 0x375A41; 0x7DF964; 0x17B200; 0x194A5C; 0x13B979; 0x3EA48; 0x295585; 0x1B2FAF; 0x1F6D5F; 0x7D4491; 0x2AA139; 0x2032CA; 0x33AB4D];
   [0x326E12; 0x73B02; 0x9134C; 0x719A24; 0x10FFDA; 0x17F597; 0x23DEA; 0x565B05; 0xCF206; 0x316819; 0x1759BE; 0x3B59E1; 0x1A7716; 0x2F2CB8; 0x22C88; 0x6E200A; 0x34B39A; 0x4C2A3; 0xEFF2B; 0x7771C0; 0x38736A; 0x3EA343; 0x2473CB];
   [0x7E0E25; 0x3FF836; 0x29E179; 0x59DA0B; 0x38BD07; 0x397717; 0x35EEC3; 0x1451BD; 0xC4CC2; 0x11AD20; 0x24798D; 0x1EA1F7; 0x17A035; 0x174E1A; 0x614CC; 0x744E00; 0x71F7A; 0x3F23AE; 0x1D8DCA; 0x674F7; 0x3AF2F; 0x28BCAA; 0x25E559]];
  [[0x11497E; 0xECE29; 0x2A4EA2; 0x1C0932; 0x86320; 0x1D745; 0xE7077; 0x2982BA; 0x6C3CC; 0x1A61D3; 0x18D012; 0x3FD5A7; 0x271A87; 0x3F3CEE; 0x381814; 0x6264B1; 0x1D51C9; 0x24F3F8; 0x32133E; 0x70B6C3; 0x27EB3B; 0x170DF3; 0x3FDF92];
   [0x52D458; 0x2FDA22; 0x40A2E; 0x6FA7D9; 0xF1A9C; 0xB70A5; 0x1666C6; 0x150503; 0x2A0651; 0x19D2E; 0x2CB70B; 0x22C910; 0x2EE4CD; 0x8D506; 0x14281; 0x358B69; 0x2DA7BF; 0x124768; 0x20EC13; 0x550441; 0x1C17FE; 0x213A61; 0x1451A1];
   [0x2A7679; 0x15D4B5; 0xCFCC1; 0x3FF845; 0x1C7A7D; 0x1AE5DD; 0x3EAB09; 0x3FDF89; 0x35A00B; 0x37D9FF; 0x275895; 0x35077F; 0xEBCA0; 0x2DB718; 0x7E563; 0x7217CE; 0xCFEC9; 0x39C0C7; 0xC8457; 0xD6DEE; 0x95556; 0x2C0A1B; 0xA5B02]];
  [[0x58676E; 0x3BB967; 0x2F67E8; 0x14611B; 0x2CA68; 0x360A23; 0x3D4703; 0x2FFB09; 0xB0650; 0x350E32; 0x20BBE2; 0x7EB614; 0x13CBB5; 0x3BBDBC; 0x26C9BB; 0x1E256E; 0xE735E; 0x2C3CC9; 0x10C97; 0xC12B4; 0x28C55; 0x14841F; 0x143C15];
   [0x65EB1A; 0x25B10; 0x1CD5C4; 0x746872; 0x54288; 0x1B2B2E; 0x1F2239; 0x518E6E; 0x2123BD; 0x33748A; 0x174C52; 0x258C02; 0x18FF52; 0x7C3F2; 0x10EC30; 0x2A8FB5; 0x338507; 0x3EA284; 0x1E079E; 0x70C9DD; 0x23B5FB; 0x2637F4; 0x141F80];
   [0x656339; 0x123AB6; 0x3B759B; 0x50CB99; 0xD243E; 0x22A047; 0x30735F; 0x4A175; 0xB2BA6; 0xD31CE; 0x324F8D; 0x4BB229; 0x1E5D6F; 0x2772E; 0x296DC5; 0x577AE8; 0x86249; 0x2005B9; 0x32CA2B; 0x18E5F0; 0x10AC8A; 0x261F94; 0x76C3E]];
  [[0xDB1A4; 0xC1216; 0x20E3CE; 0x342538; 0x25AD2D; 0x3C968A; 0xB2AC4; 0x3874BE; 0x108EBE; 0x89221; 0x1A4E5D; 0xE6B; 0x3A62C9; 0xCAB40; 0x39432F; 0x6EEBB0; 0x3FD49F; 0xA4915; 0x3E803E; 0xD14CB; 0x147DBE; 0x273CC9; 0x21CEAF];
   [0x61AF93; 0x1A305; 0x13BAAE; 0x7784E4; 0xD254E; 0x19835D; 0x242371; 0x846D1; 0x29D19E; 0x188DF; 0x340FC; 0x7B3565; 0x179159; 0xE014; 0x2BBC15; 0x6E03F7; 0x332866; 0x3752B2; 0x36128E; 0x4EEEA5; 0x18D656; 0x21FC26; 0x31850E];
   [0x501FD0; 0xAF537; 0x38C7E6; 0x43735E; 0x110069; 0x3F2C22; 0x17CF5D; 0x2FD510; 0x14235B; 0x4DD30; 0x3C65B4; 0xF1032; 0x389A5B; 0x156157; 0x11C8DC; 0x500C48; 0x119681; 0x193DFD; 0x2E9C52; 0x7DD9BC; 0x3C9B4A; 0x3F1598; 0x8392D]];
  [[0x7DA6AE; 0x26680F; 0x1CBC2; 0x700F21; 0x2BA64B; 0x5ACA1; 0xDA060; 0x6C880D; 0x280F5B; 0x1CD097; 0x3BBCFE; 0x2CAEAF; 0x1B96AF; 0x2F9409; 0x218817; 0x2929AF; 0x35CDAF; 0x1766D6; 0x2FE847; 0x3656A; 0x47989; 0x351086; 0x2D5D88];
   [0x3FF7B2; 0x283A9C; 0x20E8A8; 0x3A0789; 0x1BFDE1; 0xD525F; 0x35C861; 0x60CAD2; 0x2ACA77; 0x15E571; 0x182DD8; 0x4E3F9F; 0x157225; 0xABD0E; 0x2C1C74; 0x6799C9; 0x1084CD; 0x2FCC74; 0x1104CF; 0x63FB40; 0xB1B48; 0x2FF705; 0x17DD74];
   [0x758DFD; 0x259101; 0x2F9E96; 0x127A02; 0x3560BA; 0x174012; 0x80553; 0x84ADA; 0x30B0B3; 0x3CCA10; 0x2A7BF0; 0x66B5D8; 0x1775C4; 0x25FB21; 0x84012; 0x23425E; 0x160D8A; 0x14DE6A; 0xD84B1; 0xC090; 0x1CEB65; 0x304B91; 0x3C0931]];
  [[0x7B8F38; 0x3E8D2B; 0x14249B; 0x32E6FD; 0x19922; 0x288D0E; 0x30B952; 0x8C34B; 0x191997; 0x2F5C5B; 0x3ED4DE; 0x2D0DBE; 0x1C4CC0; 0x3799BB; 0x7EED8; 0x7C90CE; 0x2E0A50; 0x131AF1; 0x28FD81; 0x3D7BFD; 0x20C820; 0x1E4117; 0x3233FA];
   [0x6AD0B4; 0x24A7CA; 0x224A76; 0x201B36; 0x89BF6; 0x185943; 0xEE3FB; 0x62E219; 0x304742; 0xECFDC; 0x2B3E9; 0x278A41; 0xB4C45; 0x3DAF2F; 0x16786A; 0x326096; 0x4F58A; 0x3D414F; 0x2571F1; 0xC5218; 0xBC00A; 0x1558DD; 0xE4574];
   [0x214F76; 0x344E7B; 0xD0A1C; 0x73F8A; 0x31A1E8; 0x24F24B; 0x2EB5CC; 0x423B58; 0x5DF88; 0xA882D; 0x1F2F21; 0x1DC1AC; 0xBF263; 0xFC01F; 0x13D53A; 0x689488; 0x39A08C; 0x26357; 0x354D80; 0x649669; 0x6D559; 0x24D4A8; 0x1B1D7D]];
  [[0x7539AC; 0x1AF584; 0x3849E3; 0x604878; 0x28932B; 0x336A8D; 0x2DC15F; 0x4EE915; 0x3E8891; 0x2C26A5; 0x2353EF; 0x690ACF; 0xB284B; 0x4CD7A; 0x266953; 0x38EC31; 0x15E302; 0x80A9; 0x25D49A; 0x318334; 0x3B81A5; 0x38759D; 0xEE138];
   [0x6652DC; 0x30CF99; 0x286EAE; 0x7E732A; 0x1BB04F; 0x1A7E81; 0x395CBD; 0x12A720; 0x143A75; 0xC4F0A; 0x2959B; 0x5134E3; 0x29CD2F; 0x2E7B51; 0x1A8B65; 0x67BB4D; 0x109B63; 0xFF6AF; 0xF5619; 0x1FE508; 0x593C7; 0x2A4F5C; 0x35E60F];
   [0x41115B; 0xC4566; 0x2DC574; 0x6EAB28; 0x3017E2; 0x275A4A; 0x2C84E6; 0x3FFFE; 0x12331A; 0x1B2EF0; 0xA57A7; 0x7EA3E1; 0x1A805; 0x64502; 0x3486D1; 0x2A0735; 0x1F1246; 0x13E4C1; 0xD6176; 0x5D2F66; 0xB6919; 0x222C38; 0x2247FC]];
  [[0x7694F0; 0x33BF57; 0x2D919E; 0x464556; 0x3240BB; 0xA81C8; 0x3FC6AD; 0x4C8BC2; 0x37597A; 0xF3632; 0x3DEE9C; 0x7AF7FC; 0x2B2A3; 0x1FEF8; 0x266BFE; 0x5A4DF9; 0x1BC528; 0x38FCA9; 0x21AB8E; 0x1B7A68; 0x255401; 0x22B95A; 0x1CECB8];
   [0x202C81; 0x305B5D; 0xF8353; 0x24BDD3; 0x34CBF6; 0x1FC489; 0x1C1EF2; 0x378DD8; 0x341D4E; 0x351CA3; 0x1FF171; 0x3F1946; 0x2CF94; 0x389924; 0x3E5A8B; 0x1BEA9D; 0x1E60D0; 0x305EF9; 0x29219F; 0x301DAA; 0xD311; 0x33EC94; 0x3A683];
   [0x26A83D; 0x21AD7B; 0x1694B6; 0x3BBDC2; 0x16E0B7; 0x9525B; 0x3B24F8; 0x7C4237; 0xE1CB0; 0x13611E; 0x1E0CF1; 0x4B8F7B; 0x12520D; 0x1CBF78; 0x153E58; 0x72DA9E; 0x9BF23; 0x390546; 0x1EC704; 0x62F82E; 0x1379EA; 0x374CEF; 0xE810]];
  [[0x672D01; 0x181C43; 0xF03E5; 0x114EB1; 0x30AAB; 0xE4929; 0x3F4FF1; 0x5C1816; 0x234EF2; 0x1CECB; 0xE003; 0xFB7C6; 0x21F686; 0x397348; 0x668D5; 0x969FD; 0x2D58A1; 0x1F6FF; 0x2B509F; 0x5BF575; 0x1C7A72; 0x3168A3; 0x58841];
   [0x2E6F93; 0x3FD4D; 0x70367; 0x7E2810; 0x32A669; 0x3753AA; 0x59E13; 0x5BE0BB; 0x2DAD0A; 0x17009D; 0x2A29E1; 0x10EAFB; 0x371B7B; 0x384FE2; 0x74C4C; 0x5AF2F6; 0x268D35; 0x12D4D3; 0x1988E8; 0x637384; 0x3CA7EB; 0x12C38C; 0x235944];
   [0x7FE4F7; 0x128547; 0x3EE942; 0x63B61D; 0x254E4C; 0x6B269; 0x2778BD; 0x3C91A8; 0x38A282; 0x10BFE5; 0x2E5C21; 0x205D0; 0x150853; 0x2376FF; 0x6E95D; 0x4FCAED; 0x14D842; 0x174695; 0x192588; 0x4407A; 0x169AA6; 0x38F9B9; 0xDD818]];
  [[0x7ED415; 0x2AEE66; 0x2FE621; 0x19EC18; 0x1AC45A; 0x2C1BD9; 0x39EFF2; 0x53C8E8; 0x35D12E; 0xF4E0A; 0x11182C; 0x481DC1; 0x69045; 0x28AC00; 0x239B1A; 0x12C316; 0x1DFEA0; 0x3B985D; 0xDB2FE; 0x4F72CA; 0x34C923; 0x1A2093; 0x2B9C3E];
   [0x6E6357; 0x2A5A2B; 0x1B005C; 0x349183; 0x374B6E; 0x6A56D; 0x5A032; 0x159BD4; 0x3F8A72; 0x6E1D8; 0x18F53A; 0x34F1F1; 0x3729F4; 0x1B24AB; 0x1CC0C1; 0x1EF566; 0x2B89C8; 0x2F08C; 0x3199AF; 0x1C32F5; 0x194755; 0x5E212; 0xE74FA];
   [0x75610F; 0x1C5B4F; 0x31545E; 0x5A64BD; 0x288ECD; 0x3455; 0x3E4D6B; 0x1C3B47; 0x107A21; 0xE6BE9; 0x1C454B; 0x2BE715; 0x13B171; 0xD5966; 0x17248A; 0x6610DA; 0xD95A9; 0x2DAD62; 0x3B2B47; 0x483940; 0x214E89; 0x2E30EF; 0x1A8A7A]]];
 [[[0x5710C2; 0x1C5AC3; 0x32A560; 0x8892C; 0x2827E3; 0x34491A; 0xCBDDB; 0x1226BC; 0x3DC095; 0x3DBF5D; 0x207C8F; 0x3AEE4; 0x241676; 0x19F64F; 0x3A54C; 0x7CCE36; 0x229653; 0x1AD488; 0x2FF51A; 0x3BAD16; 0x269362; 0x5CFD4; 0x2B0036];
   [0x1D5B16; 0x37F93D; 0x11BE70; 0x10F69; 0xFD6A2; 0x198F6D; 0x306746; 0x19354; 0x5D19C; 0x2A4081; 0x2187BF; 0x37CD1C; 0xF42FE; 0x384FBB; 0x3F74B7; 0x2CB87D; 0x2FA3D2; 0x3B9CBD; 0x11ACE0; 0x4F2A0F; 0x10CDFE; 0x37DC56; 0x1CA343];
   [0x2E9F4B; 0x17B4E0; 0x311C99; 0x42E4B2; 0x253B3C; 0x56B7F; 0x338DE4; 0x2BD82C; 0x321B8D; 0x38A72F; 0x8F3D8; 0x1567CC; 0x26AD64; 0x20C5AF; 0xCCD37; 0x590CBB; 0x313270; 0x3C5BA6; 0x368F2D; 0x3060DD; 0x36F8BC; 0xF2893; 0x334A0C]];
  [[0xDE443; 0x32A8C8; 0x3EE1EE; 0x2FB8DA; 0x1EC25; 0x1F2379; 0x2C120C; 0x422DB7; 0x3AA20D; 0x36834; 0xB6FAB; 0x579A73; 0x2C546A; 0x3CFCBB; 0x15CCE3; 0x1DA981; 0x1D2DEC; 0x155C8F; 0x32C6DE; 0x1BBCC6; 0x332AB7; 0x221975; 0x15380A];
   [0x79F763; 0x86F41; 0x27B078; 0x72AE3A; 0x3377BB; 0x3C40F7; 0x18F8C7; 0x559BA1; 0x387EE1; 0x395F9; 0x26C76D; 0x438509; 0x258967; 0x102218; 0x21EF58; 0x187594; 0x70C07; 0x1150ED; 0x1A248F; 0x17CA07; 0x305C05; 0x3B435D; 0x3AB05];
   [0x269D6F; 0x14041F; 0x1C654B; 0x1E5899; 0xB839F; 0x68FF; 0x1345C1; 0x62C16D; 0x95303; 0x336B6B; 0x1F5076; 0x6B8DE7; 0x3033A5; 0x31B05D; 0xAAEBB; 0x580DC0; 0x216E2A; 0xB00E8; 0x2FED70; 0x67F7E7; 0xE3F39; 0x26A5C9; 0x1321C9]];
  [[0x75F516; 0x19707B; 0x284D76; 0x135FD0; 0x3E3862; 0x146ACB; 0x1C934B; 0x7030A4; 0xCF8E7; 0x2CA64F; 0x3FDC6E; 0x65C11E; 0x16B6BB; 0x18C069; 0x171DC5; 0x5B5697; 0x1E8900; 0x1B6DAF; 0x310BBC; 0x6BCF1D; 0x2F143F; 0x1905CA; 0x17744];
   [0x3D88D5; 0xF9E5C; 0x3604CF; 0xC36D2; 0x2CF504; 0x39A798; 0xBDED1; 0x1B8DC3; 0x8E589; 0x3A11F2; 0x200D8C; 0x625D48; 0xA9310; 0x3CD6F6; 0x23EB4; 0x1CDCCF; 0x126F0D; 0x22C59F; 0x2ACC01; 0x5306AD; 0x2E74F2; 0x5DF6D; 0x285847];
   [0x65F342; 0x1EE28A; 0x222BEB; 0x6CA69D; 0xBB7F9; 0x21BF78; 0x3EC62; 0x54A057; 0x316B24; 0xFF725; 0x262490; 0x3AE835; 0xDA133; 0x120D05; 0xF8110; 0x347C18; 0x14B405; 0xE57EA; 0x1D3804; 0x1FB3A3; 0x36FC24; 0x3107FA; 0x2D52F]];
  [[0x730C26; 0x33129; 0x99E61; 0x274495; 0x67D5F; 0x30E0F3; 0x133EE6; 0x1CA496; 0xD9AF5; 0xE2809; 0x39B916; 0x6CE2B0; 0x22B22; 0x3C1D03; 0x134443; 0x6C83E6; 0x22E5D1; 0x355465; 0x1393DE; 0x297B8C; 0xCCC36; 0x384BA8; 0x3C2A7];
   [0x1F3E32; 0x3E6A39; 0x274F66; 0x65F067; 0x3DEE02; 0x1ADBA0; 0x3DD0D0; 0x67633; 0x3371E3; 0x18B039; 0xFBD3F; 0x3FEF60; 0xC13E7; 0x35AFF4; 0x248F86; 0x75C8AC; 0x10FB8; 0x9A933; 0x155411; 0x4DD6EA; 0x18B242; 0x3F42B9; 0x307AFB];
   [0x43D9DA; 0x2F1FAC; 0x2BEBF2; 0x1674C8; 0x2F5627; 0x982A2; 0x1DD189; 0x23CFE8; 0x1435E4; 0x2E3968; 0x212138; 0x37DAED; 0x1AF391; 0x149EAC; 0x3F6739; 0x5A1D0B; 0x3DA69; 0x2C06DC; 0x3A4339; 0x603E6E; 0x144A9B; 0x2E832B; 0x2DEC99]];
  [[0x262A7A; 0x6D662; 0x70E7F; 0x7D4FD4; 0x363F2; 0x2DCD0B; 0x3F4BD3; 0x4B46BE; 0x18690B; 0xD990E; 0xFAB11; 0xF371C; 0x3CC586; 0x27FA77; 0x64076; 0x2B6788; 0x3FBD23; 0x3E156; 0xB4246; 0x11F74C; 0x1580E7; 0x1AB7D6; 0x2FD3D2];
   [0x73791E; 0x28FB9D; 0x2F8DA3; 0x149495; 0x1EDDC0; 0x22DA14; 0xD1BE0; 0x602F3; 0x166D08; 0x1F0437; 0x1CD0D; 0x2624C1; 0x2A961B; 0x94F8B; 0x315EBC; 0x21B46; 0x1DB347; 0x240821; 0x2271B3; 0x475580; 0x22765; 0x30DDFA; 0x2DD431];
   [0x73CD42; 0xAA556; 0x12283B; 0x7C1AE9; 0x379D4; 0x22CBD1; 0x3AB652; 0x694262; 0x3DAD8F; 0x3C497A; 0x1A32CF; 0x3C85F6; 0x5431E; 0x2156D8; 0x2AF6B5; 0x38046; 0x2E42CB; 0x254F18; 0x20D00F; 0x30D955; 0x71955; 0xB6D41; 0x285989]];
  [[0x7E08FB; 0x263A00; 0xCADFC; 0x1DC808; 0x2FA272; 0x1FB53D; 0x11F9BF; 0x3390F4; 0x34E6F0; 0x4D46C; 0x54043; 0x1A0B56; 0x3D1A17; 0x1B584C; 0x11ED5C; 0x7B2CBC; 0xC420C; 0x2C7F8D; 0x1B1449; 0x6D4B4B; 0x284BD2; 0x97414; 0x1056CF];
   [0x73D3D1; 0x88230; 0x75FE; 0x3B85B2; 0x172ED7; 0xE1CD6; 0x2D09FB; 0x73D157; 0x9AE50; 0x11E0DC; 0xEE967; 0x2CFFF1; 0x10B62C; 0x1BBB7A; 0x1A028C; 0x4CD9AF; 0x11BCF9; 0x27E62F; 0x579BB; 0x7DC76F; 0x332A43; 0x23C822; 0x141A7];
   [0x696277; 0x1B3A68; 0x2BB919; 0x483ED8; 0xE8365; 0x99C62; 0x3C029F; 0x5155DA; 0x1F3BFC; 0x3F93BC; 0x19B689; 0x763BA9; 0x3D2F7A; 0x398C78; 0x38B6BF; 0x6C7737; 0x2EE2B2; 0x3AADE4; 0x2A6200; 0x61FD04; 0x1F7254; 0xC8C41; 0x33394F]];
  [[0x5E9802; 0x264758; 0x1AB2B5; 0x2E4F89; 0x2C4ADC; 0x94EF; 0x2689AD; 0x46FA1A; 0x30AFC9; 0x1796B4; 0x7E5D9; 0x42C248; 0xF1E94; 0x21F53B; 0x261686; 0x3F1DDB; 0x38C53A; 0x85F45; 0x2D5719; 0xE126B; 0x8A053; 0x1D8A2; 0xCA742];
   [0x24D905; 0xE9B9F; 0x1793C; 0x38DEEF; 0x281C2C; 0x2A3E68; 0x2C3A89; 0x474938; 0x191AE2; 0x59F41; 0x3170A5; 0x7B0894; 0x3188B8; 0x4A286; 0x1330A6; 0xF7B22; 0xCCE16; 0x2F2EE2; 0x195174; 0x5D1601; 0x1F40E0; 0x291362; 0x35C7DC];
   [0xB4C31; 0x3B561D; 0xF3B3B; 0x70FA44; 0x7486A; 0x1DF356; 0x1935F2; 0x4FB6D9; 0x27D7FD; 0x350DC9; 0xA3F69; 0x449466; 0x239BA4; 0x28E2F3; 0x26CBC7; 0x36018; 0x3A9DCF; 0x37B528; 0x1E2C6E; 0x3F6EC0; 0x3FD88F; 0x68ADE; 0x37FCE0]];
  [[0x50000E; 0x1E77A7; 0x24B63E; 0x48CCFE; 0x38B910; 0x19209B; 0x253B08; 0x5B37AF; 0x4506B; 0x1A4B14; 0xFF3BF; 0x85950; 0x2D6373; 0xCDBBD; 0x90934; 0x4CF09F; 0x27CD34; 0x371F39; 0x1C72B6; 0x6D2050; 0x2AC578; 0xFB697; 0x5FF6A];
   [0x599665; 0x2DDA7B; 0x268815; 0x2942AC; 0x1DEC68; 0x2DBB5F; 0xC7D78; 0x57F19C; 0x21DFB6; 0x753FB; 0x1EB75C; 0x6BB8BB; 0xF62D8; 0x276AD4; 0x18EBC3; 0x214208; 0x1152DD; 0x1897CD; 0x2857D4; 0x42470E; 0x21C7EA; 0x270FA; 0x2E73F0];
   [0x71D30B; 0x2E7B13; 0x33F7E5; 0x26176; 0x24C588; 0x1EA175; 0x3B6645; 0x291861; 0xED3A0; 0x2A696; 0x16C658; 0x3C9DCA; 0x1224F2; 0x5AAC4; 0x1A509B; 0x2E50AA; 0x1912EC; 0x39A83F; 0x2EEAC7; 0x39F245; 0x4ABA0; 0x38D048; 0x88CA8]];
  [[0x381541; 0x204236; 0xF7F85; 0x6ABC1B; 0x309BD4; 0x1A5B8A; 0x3193B0; 0x7C3DBC; 0x21AA72; 0x25AB66; 0x27C829; 0xDCB0; 0x1E5740; 0x27A69E; 0x2A0916; 0x3558C0; 0x8DEFA; 0x1D63; 0x302547; 0x77415F; 0x17C197; 0x22627F; 0x599E2];
   [0x4DD359; 0x246A2C; 0x27E508; 0x6A3CA3; 0x378EB4; 0x26BEB6; 0x844C3; 0x55D1C5; 0xBD3A3; 0x337C41; 0x3DE17E; 0x4DF9BA; 0x29B7C8; 0x371C33; 0x1BC3B2; 0x52B93E; 0x3F84C4; 0x46C2D; 0x381921; 0x329932; 0x29014; 0x195E90; 0x165863];
   [0x3D4CE8; 0x9AEA0; 0xA6139; 0x626AB6; 0x1921AD; 0x1DDCC3; 0x10A346; 0x1C0DF5; 0x22458F; 0x29A8D6; 0x23055B; 0x7FBC20; 0x12BD87; 0x105456; 0x9B655; 0x61C3AD; 0x29CBB; 0x37EC3D; 0x3A6374; 0x604726; 0x36C983; 0x2FB577; 0x34D612]];
  [[0x2E7DCC; 0xD16B4; 0x24096A; 0x25C077; 0x92685; 0x31BC93; 0x2F71E3; 0x6DB6D; 0x314D92; 0x31DCE1; 0x21F441; 0x5C93B1; 0xA56D1; 0x7C7F7; 0x3AC8AA; 0x4FB13F; 0x382F3C; 0x346287; 0x10C1C3; 0x3EB5C9; 0x287A6F; 0x18779D; 0x239EAB];
   [0x41FD8F; 0x1E6522; 0x22B56D; 0x25ABCD; 0x306D98; 0x300F6B; 0x1655DA; 0x272687; 0x6B08D; 0x23B809; 0x138AAF; 0x1DF48C; 0x11F659; 0x9E92A; 0x3B30CC; 0x1DAEE5; 0x3A3F41; 0x9DF14; 0x214E4F; 0x1A4EE1; 0xAF3F8; 0x3B84FD; 0x27CB30];
   [0x3FB85E; 0x2A5B7E; 0xB3D6C; 0x10AAED; 0x1DCC4D; 0x2372C6; 0x2990B7; 0x29FD67; 0x184F9D; 0x213292; 0x6D4F4; 0x4C67DD; 0x170CE7; 0x279FEF; 0x2AF75F; 0x2865F8; 0x3DF044; 0x3246C4; 0xBBBCD; 0x70D0BC; 0x16FDF4; 0x2E1724; 0x34D526]];
  [[0x68145B; 0x10E47B; 0x16AFBB; 0x6D5CA7; 0x1CBDAA; 0x3773D2; 0x376C07; 0x798761; 0x122C25; 0x941E; 0xB8B0C; 0x6E3CF0; 0x37C29F; 0x3FCFE2; 0x355C91; 0x6B5739; 0x39E2; 0xA6FB6; 0x368629; 0x439D33; 0x51B6B; 0x3CCB53; 0x21E090];
   [0x72B0D9; 0x260FBA; 0xA91DA; 0x248F7; 0x3E3B08; 0x233510; 0xF7A4C; 0x23CD1; 0x3BF83E; 0x3F97FF; 0x387ABE; 0x6B4171; 0xD77D6; 0x28D310; 0x1FAD93; 0x6D40A9; 0x109960; 0x1C700E; 0x10A5D3; 0x638AE3; 0x2B09EB; 0x5F26C; 0x1E411];
   [0xE2A67; 0x16A28F; 0x289716; 0x78F0B2; 0x3797DA; 0x268485; 0x262E41; 0x241F04; 0x74EC0; 0xD6EAC; 0x1E559F; 0x153E46; 0x2FB890; 0xCA628; 0x2A4016; 0x7D6524; 0x1EC8D1; 0x286DC0; 0x157657; 0x79E5B8; 0x39F963; 0xCE35C; 0x3F1219]];
  [[0xF57B; 0x9DF26; 0x222FE3; 0x2A30BE; 0x379E2F; 0xAAB5F; 0x2DEDC7; 0x530A70; 0x1B01FA; 0x3D1B31; 0x2AD753; 0x29A2AA; 0x34373F; 0x2D9918; 0x2C76D1; 0x2F937A; 0xEB50A; 0x3F8781; 0x2C7F91; 0x4D41F; 0x3AEC45; 0x369FC0; 0x13605];
   [0x54C5BA; 0x376F0D; 0xF2327; 0x202DD7; 0x22B2CE; 0x3D8E25; 0x30ED93; 0x5E7D9A; 0x359051; 0x330484; 0x1F4DA9; 0xD5A03; 0x3772EE; 0x1FDD99; 0x190D1C; 0x64DE66; 0x112698; 0x3D9DDF; 0x3B8E10; 0x670E8; 0x1E9A00; 0xD2726; 0x344016];
   [0x1EAEC6; 0xA257F; 0x368552; 0x569140; 0x240DF0; 0x2BE21B; 0xAC85E; 0x35C3D1; 0x16FBDE; 0x24ACF2; 0x3AA3F7; 0x6A54CF; 0x2AAD78; 0x3BE77F; 0xCA38B; 0x53D6D6; 0x238462; 0x1E2258; 0x2E8075; 0x5C588D; 0x1BE563; 0x362AF4; 0xE1465]];
  [[0x544BA0; 0x103EEE; 0x12ACCC; 0x4634F; 0x326BCC; 0x186BD9; 0x1D886; 0x6E9CD; 0x28A635; 0x18E4A4; 0x2FA643; 0xC1175; 0x39E179; 0x255905; 0xE38AE; 0x75E7F; 0x3F2DF2; 0xBF618; 0x38EDDB; 0x3D531B; 0x343EB7; 0x1D10D6; 0x3039D];
   [0x7286CB; 0x262870; 0x87C21; 0x15F41E; 0x2D96DA; 0x4A9E5; 0x10055; 0x63A621; 0xE9F00; 0xEE347; 0x26AF40; 0x3E094E; 0x3B2228; 0x1A3CC1; 0x30A53B; 0x11EE4; 0x218ED0; 0x7142C; 0x391F95; 0x2BB1FF; 0x1AA23A; 0x3C5218; 0x2F08BB];
   [0x1EB5AC; 0x3F1C36; 0x1FD7A7; 0x755608; 0x3353AE; 0x3D6966; 0x17FDC3; 0xF856; 0x9B134; 0xC3D1A; 0x1E06FC; 0x745D11; 0x3761CD; 0x21FF5D; 0x37240E; 0x3022F6; 0x13DC00; 0x308386; 0x71C5F; 0x10C125; 0x192B4; 0x19FF02; 0x3B2385]];
  [[0x417D4C; 0x3AECD5; 0x2E5B54; 0x243DAE; 0x3B5C3; 0x242612; 0x1E0962; 0x4AC9D7; 0x33B66D; 0x13DC44; 0x17552D; 0x6C3A48; 0x36914E; 0x1C9CFD; 0x862A1; 0x260590; 0x2BEC73; 0x263AA5; 0x13BDC2; 0x7EAFCE; 0x1A9EA3; 0xA9066; 0x24A7F];
   [0x7D40F1; 0x2268CC; 0x2A7B4D; 0x17B592; 0x1B785F; 0x2CEBBB; 0x3FD10A; 0x33D10F; 0x5FF3D; 0x2C3D3; 0x171A74; 0x5E8507; 0x2D6928; 0x7621E; 0x3F547B; 0x5E087B; 0xFFDD4; 0x36FEE1; 0x28A970; 0x49A969; 0x8D33F; 0x20BACA; 0xF9E55];
   [0x1E00F; 0x3DC07C; 0x1BA800; 0x4AEE42; 0x13E66A; 0x1C61D4; 0x365B36; 0xD2885; 0x46EFC; 0x88FB6; 0x7F83B; 0x3E8670; 0x1539ED; 0x39945D; 0x52181; 0x150E04; 0x3F8361; 0x33D590; 0x2A7678; 0x1A0E6A; 0x17FB3A; 0x1B263; 0x3FB8CC]];
  [[0x441491; 0xF0A65; 0x1689D6; 0x1482F7; 0x147BF7; 0x3D0042; 0x2844D1; 0x5FD1B5; 0x200A97; 0x117C63; 0x3D90B5; 0x1D123E; 0x44FA4; 0x3F2318; 0x36FA13; 0x5A1AE5; 0x811CA; 0x1E59EF; 0x34D752; 0x564B68; 0x1118FF; 0x39B3EA; 0x14D131];
   [0x13C497; 0x3C1203; 0x17B8C9; 0x5F5C63; 0x1C40D9; 0x337A68; 0x200255; 0x7B6F12; 0x1F0C0A; 0xD6663; 0x1F59C2; 0x154C68; 0x345E93; 0x3D89D5; 0x342AEC; 0x6FD7F9; 0x15325A; 0x1C82FE; 0x32F5E8; 0x78F1F; 0x25FC9A; 0x3196C7; 0x39E007];
   [0x39A6FC; 0x11CEAB; 0x12DC99; 0x5819B9; 0x18EB3D; 0x219D0B; 0x1627FA; 0x3FFC71; 0xE2B28; 0x516D9; 0x3B039D; 0x1E1B28; 0x179D77; 0x2E37D9; 0x3A1C1; 0xD735B; 0x360858; 0x8AFC3; 0x16FD4C; 0x289D6; 0x1E9558; 0xAF3EA; 0x3D50FE]];
  [[0x53D15A; 0x2C2F83; 0x170ABE; 0x712A78; 0x103D0A; 0x5BC7E; 0x2462B7; 0x116FB3; 0x32D4A0; 0x3CCDA0; 0x88A2E; 0x510F79; 0x293310; 0x1D649F; 0x315518; 0x2689D7; 0x324D85; 0x200963; 0x86C95; 0xB31F5; 0x13C26E; 0x3A95F; 0x36130B];
   [0x11ED3F; 0x22E8CD; 0xAF23D; 0xA28B1; 0x1C1B53; 0x4BD1F; 0xB0909; 0x6FD7AA; 0x1BA416; 0x3F26B; 0x305459; 0x74C3EC; 0x287773; 0x34CC74; 0x2D85ED; 0x5C853F; 0x49BB2; 0xDF4CA; 0x16E02A; 0x4D746D; 0xB5669; 0x11DAD1; 0x16A410];
   [0x112679; 0x2ADF1B; 0x8BDEA; 0x7D441A; 0x37A3DB; 0x8035D; 0x1D18DE; 0x432D9E; 0x217C8D; 0x34B1CC; 0x347E03; 0x7CEF1A; 0x3CA8B5; 0xB5855; 0x34A8BC; 0x3867CB; 0x169433; 0x134C66; 0x11D943; 0x61B8E4; 0x383EDC; 0x274AAD; 0xAE283]]]].
