(** The tables lut_cmb of ecp_id_GostR3410_2001_CryptoPro_B_ParamSet.c as they are written there, for both widths. *)
From Coq Require Import List Uint63.
Import ListNotations.
Local Open Scope uint63_scope.
(** lines 1932-3714; every 64-bit limb is written as its two halves, the low one first *)
Definition lut_B_64 : list (list (list (list int))) := [
 [[[0xFFFFF367; 0xFFFFFFFF; 0xFFFFFFFF; 0xFFFFFFFF; 0xFFFFFFFF; 0xFFFFFFFF; 0xFFFFFFFF; 0x7FFFFFFF];
   [0x570C7410; 0xDDDC64B3; 0x13172887; 0xA7B09925; 0x4B6382DB; 0xC4E5C4C; 0x124768DE; 0x2763DB0F]];
  [[0x8457D15D; 0xCD3E57B6; 0xBEA56E83; 0xEB688F7F; 0x6A13C5CE; 0x235A123C; 0x50F57A6D; 0xCD7EB9D];
   [0x544C1965; 0xC0124E91; 0x62AFA35E; 0x4D9C1729; 0x37C554; 0xF92F2C3; 0xA3F2665; 0x1D899868]];
  [[0x55F43EFF; 0x9DE4B213; 0x5C9E63F5; 0x2E110A42; 0x1CE5A6DF; 0x9350A9C3; 0xA332315E; 0x377CBF0B];
   [0x20F0D1B5; 0x2805DD48; 0xF9723E5; 0x3B197566; 0x84B79937; 0xA1CCA78C; 0x94D5E03D; 0x4F87BB1B]];
  [[0x5652C96F; 0xE428FBFB; 0xD261BDD1; 0x2E9A14D2; 0x7453B76A; 0x82D8296; 0x7AC87B02; 0x61EA580E];
   [0xCF368FDB; 0xA0F8C2BA; 0xD73B2A28; 0xDF093380; 0xEA8FE5D2; 0xFA0928B2; 0x5F86D38A; 0x77A67492]];
  [[0x27670451; 0xDFFAB410; 0x1200AD3A; 0xEBC3D017; 0x25F4F6C4; 0xF68324F3; 0x7D0EAFD0; 0x4A24CD5F];
   [0xD3F6BD1C; 0xF8FBD489; 0x67B473DE; 0xF6B56D5; 0xCACF0D6B; 0x6FB063DE; 0x96DC574B; 0x27F2E7E9]];
  [[0x93937228; 0xA6A10645; 0xA9165BBB; 0xAB7550B4; 0xCB0EDBE8; 0xD682D4F1; 0x40E5AD8D; 0x2261FCEC];
   [0xCCBD4E18; 0x9F2119C6; 0xAAB09697; 0x2FD094E9; 0xE700929E; 0x331713; 0x54338FE1; 0x6C5F2EFE]];
  [[0x42FFF78A; 0xD6314017; 0x2087E055; 0x38F23A91; 0x10EF1CAC; 0xE30E809C; 0x2432FF74; 0x3BCB0A54];
   [0xB31509E6; 0x2B4B5B97; 0x3E54AF47; 0x117FE9D7; 0x52F63ACA; 0xE513C0BE; 0xB1C80A6B; 0x41ED8ADA]];
  [[0xE0A79FCD; 0x61A31837; 0x51D3DE38; 0x8F742B57; 0x41354B55; 0x10635FCD; 0x946510BE; 0x61F30C61];
   [0x6C416DAC; 0x9183D677; 0x345431CB; 0x391B7B42; 0x7C254A8D; 0xE3D6F084; 0x19D320D8; 0x777E1F62]];
  [[0xF05BD85D; 0x90E633F; 0x240392ED; 0x546C41A0; 0x9F4139CA; 0x6BBCF15D; 0x7FFDA5DA; 0x73F5B657];
   [0xE0622A57; 0xBC04E353; 0x6E6414F4; 0xCBD8F01E; 0x8C3C0CC5; 0x53377C0B; 0xE0A14548; 0x6D302331]];
  [[0x3D6D456E; 0x235487F8; 0xB3FDCDCF; 0xBD92203D; 0xCFFDA977; 0x15B13D60; 0x31A1C4B5; 0x22DCB487];
   [0xC76ED9A2; 0xA367FB4E; 0xC0C86AF4; 0x1E4F7956; 0x5B012AD7; 0x6F087C49; 0x4949B444; 0x33437E4A]];
  [[0xB7CDDB38; 0x261B44FE; 0x419216AD; 0xDCE2FE47; 0x9428657B; 0xA4CE17FF; 0xF8329049; 0x7CE64F48];
   [0x7289C114; 0x4CE74211; 0x8C212A23; 0xE622409; 0x2096719D; 0xCF75BF45; 0x7BDC1600; 0x6F553581]];
  [[0xB941CBC9; 0xE776AA0C; 0x951AAED3; 0x16D670E0; 0x4B1EC097; 0x79C019DF; 0x12266D30; 0x635A66BB];
   [0x23AAFD2; 0x30D843E; 0x6466108F; 0x10FB6157; 0x8D568D5; 0x93774BEC; 0x4C1EE73; 0x29D27962]];
  [[0xE00BBC21; 0x6F0F4C2E; 0xA30AB92F; 0x9EB34C58; 0xAE34908B; 0x2153D901; 0x4EDC188F; 0x136A7E1F];
   [0x8BC45EE4; 0xF709BF5D; 0x4FAD9A54; 0xEA6984E4; 0xAF5140EB; 0xFC8E6F8A; 0x87756E47; 0x25EBF0DE]];
  [[0x5B1D4B9F; 0x5C2A9726; 0x68E93FC7; 0xBE235DFD; 0x471A4EA0; 0x7766BDB9; 0xD9909CD9; 0x476D17CC];
   [0x7B398BC4; 0x4960E5B4; 0xF58F328; 0x909D0F17; 0x230EF508; 0x1ABF7E02; 0xD29239C9; 0x6DE6B3E1]];
  [[0x85A6DBE3; 0xCCF0AA28; 0x823C606C; 0xA5E4B325; 0x15505FC6; 0xADE98B2A; 0x2E20C3B; 0x4D4E7703];
   [0x4730DF64; 0x24196417; 0xA914A59D; 0x3DD47817; 0xC4FDFD97; 0x4D7A317E; 0xBE12AA72; 0x3767E545]];
  [[0x165C7BF4; 0xA0C2A028; 0x36A0B483; 0xCD4DA6EA; 0x3AF53195; 0x1E1E6332; 0x8D77188F; 0x7A025E23];
   [0x8D2CEF2; 0xB3CF03B9; 0x25A0AFA6; 0x8FEE9BB8; 0x88111895; 0x855340E0; 0x4FB8F8A3; 0x32E3EF01]]];
 [[[0xEBF87807; 0x33EBE39D; 0xDBDEFF76; 0xB048F96C; 0x342A3087; 0xA0496C3C; 0x50953679; 0x7623E192];
   [0x4B932390; 0x12F76711; 0xACECE2F7; 0xF80851EA; 0xE5B280EA; 0xE447465B; 0x11115958; 0x412ADE8]];
  [[0xB5EB0DC2; 0x982F1AC8; 0xBBBCC880; 0x8464E052; 0x1335D53; 0xC927B596; 0x4DA4D80B; 0x4B0C6F5A];
   [0xE04783AF; 0x101E1878; 0x41D8A690; 0x50458FFC; 0x1B77DFBF; 0x11499D88; 0x1F77A937; 0x46DC7D22]];
  [[0x620E52C0; 0xE9AD22CE; 0x4140F356; 0x990D6AA; 0xCBBEEE5; 0xF6B2EF7; 0xEAD414C6; 0x2C67DC80];
   [0x23D4CD20; 0xE17182BC; 0xC13DDEA9; 0xFC8FE3CB; 0x3BABC06D; 0xD1E4A7B8; 0x71C06DB7; 0x52EA05CC]];
  [[0xD022B5B; 0xF8ABB770; 0x199DC689; 0x362B8059; 0x26BBDEC8; 0x5D887A4D; 0xF7FC2A01; 0x7835F183];
   [0xDE99DF34; 0xEEDE12F5; 0xA3082301; 0xBE952638; 0x4C35A162; 0x829FDF80; 0xC2B9645E; 0x205A2252]];
  [[0x1356E14C; 0xDE284DA9; 0xC37415FE; 0xE40CEFE0; 0x47F6016E; 0x62BE93E9; 0x5DBFE2F6; 0x2DD98904];
   [0x2EBC70F9; 0x195B0E98; 0xF01F4D43; 0x7E52840D; 0x4B1F6AB4; 0x1AFB1FDF; 0x20B3E491; 0x50AABB8]];
  [[0xC645DAD4; 0xC59E1EDB; 0x565A286D; 0x5AF6B2DC; 0x13076366; 0xC399A48A; 0x4AC0E5B9; 0x19F4881F];
   [0xCD5AC339; 0xC07D02A1; 0xED628A55; 0x18FBD088; 0xFFA4788E; 0x2D33C6F4; 0xCCB832E7; 0x52E9AE42]];
  [[0x4E5E934E; 0xA47091AE; 0x91CED3C6; 0x2542CE13; 0x8FC47857; 0xDDE01FD5; 0x4304EAA9; 0x6BA6E569];
   [0xE24091A9; 0x2FF0278B; 0x782BBCE0; 0xB895F0AB; 0xAB8B8828; 0xA80CCC97; 0x68A7D8FE; 0x6A54B961]];
  [[0xBAC4581A; 0x15E1F5AD; 0xD4BAA751; 0x91620EF0; 0xC7273C4D; 0x4E65731F; 0x7EEE33B5; 0x14B166CB];
   [0x3CD06080; 0x7B0EFFA5; 0x8CF95FF9; 0x4491156A; 0xE2258574; 0xC8C64C39; 0x13315CE9; 0x3D48DA9D]];
  [[0x99866CE5; 0x97A098A3; 0x23A1167; 0xF4CCDB40; 0xF8094782; 0x4BB32981; 0xC7D5FD13; 0x7342CC98];
   [0x78B99D4E; 0x3C1C5B18; 0xF4762AC9; 0x1277668F; 0x6AE50E4F; 0x612431D7; 0x36F9071C; 0x36C174E0]];
  [[0x9327BA7F; 0x39194E87; 0x7237FA1A; 0xC4D251FF; 0x2BA5EB8D; 0x55ED3CD4; 0xBA590188; 0x263AF07];
   [0xEFA82CF3; 0xB4853127; 0x2B8E761D; 0x2CC2D220; 0x2722B490; 0x4582B81E; 0x610AA621; 0x1DA7680A]];
  [[0x30D297D4; 0x6A669EE; 0xE133D393; 0xC336B048; 0x93B7B41B; 0xB733A2C4; 0xC7A8E721; 0x427CC233];
   [0x2867BB00; 0x727C14F1; 0xA736035E; 0x756F4C7A; 0x26327A22; 0xB72A3EDE; 0x77F73F28; 0x4AEDE2BB]];
  [[0xA7282ED0; 0xC8A3612F; 0xB0150579; 0xE4AD8B40; 0xC3FEE4B; 0xAB1DE11D; 0x33B31F23; 0x613AAD48];
   [0x5C91BD21; 0xE74AB856; 0x7953D695; 0x49917735; 0x1A53D74F; 0x3831EB60; 0x54DEB1A6; 0x245977A0]];
  [[0xFFFC1468; 0x15972E4D; 0x141DC24C; 0xA758D9CB; 0xED8694C5; 0x5E76FCDF; 0x69B7A5E; 0x5F9DAF35];
   [0x501B5415; 0xFE50FCE4; 0x58CFDE50; 0x6442CF67; 0x38E5F4D0; 0xA89C6DB4; 0xF5D4FEFC; 0x21F012DB]];
  [[0x98CB9A81; 0x2A1170AD; 0x36C5E45; 0x934BD9D5; 0xCA5095B1; 0x27DF152E; 0xCCEEE508; 0x682698DB];
   [0xB973FB5F; 0x1F4FE3A2; 0x792C7D4D; 0xD33CBEBE; 0xE7B33A8F; 0x99D37961; 0x7B6D015D; 0x46B8993B]];
  [[0x6FBAC8F7; 0x93A3809B; 0x97C55DC4; 0x84861BF0; 0x15BB65E3; 0xA6F89EEA; 0xA6E531D1; 0x66AE1C5D];
   [0xFD83DAEA; 0x643A14FC; 0xC585947B; 0xA7A46D0D; 0x4FBA1274; 0xFA20CF07; 0x93578A7D; 0x5999ED7B]];
  [[0x78E7C6CE; 0x36C8B6ED; 0x5E325F44; 0x6D400CA5; 0x20B7AA5C; 0xC6AE09B3; 0x89EABC17; 0x1AF261C1];
   [0xB9E778E4; 0x64D6FFBB; 0x7FC64BEB; 0x1C9E223E; 0x5D75E6C0; 0x4D68B520; 0x76677A06; 0x5A72B1D9]]];
 [[[0x6F08BB17; 0x62DB6640; 0xAE75BB73; 0xC34F29DF; 0x7DBD4851; 0xD501293D; 0xAD1F604B; 0x5EAA94CA];
   [0x94408A8; 0x39CFE9D1; 0xE8A476F2; 0xC0F6544C; 0xA42D7607; 0x9F6308B6; 0xD727018F; 0x17F82949]];
  [[0x9C4C4BD2; 0xC44453CD; 0xEBD0B947; 0xA895E247; 0xAEBC27F4; 0xAEB7AFC; 0xF04ABFAC; 0x2472FD08];
   [0x73E6E994; 0x319EC67D; 0x798C5FC0; 0xD6533E4C; 0x3FB9AA89; 0xF4C3B24D; 0xA3B376B; 0x3EC58082]];
  [[0x144ACF7A; 0x79732D6F; 0x911342DD; 0xFDD630C3; 0x4A630649; 0xC577C4B3; 0xBBA999D6; 0x14956A17];
   [0xA435A559; 0x523D3CC8; 0xACDA8861; 0x488DC690; 0xF051C69A; 0x4CF70928; 0x955394CB; 0x2D98D573]];
  [[0x23A4B840; 0xEDB7BA2A; 0xF6C2D93B; 0x725EC496; 0x8833BB3F; 0xC94818B; 0xB142B12A; 0x51281A31];
   [0x659EDA83; 0x2A8A5706; 0x7F9D6877; 0x3098F750; 0x2171F69F; 0x87AD0FDF; 0x1A6F2F28; 0x6B7067C3]];
  [[0x12B1E36F; 0x3B521074; 0xF81E4733; 0x727A2432; 0x53F2CBBD; 0xB75A2F35; 0x54960EB0; 0x46DE9338];
   [0xE561D908; 0xAC5344F8; 0x12C67430; 0x4BD40ECB; 0xEF499F97; 0x1698FD62; 0x6AE9FBD1; 0x29EBD7AE]];
  [[0x1EC8110D; 0x9DEC249B; 0xFD2F5C39; 0x2D19053A; 0xE01522DF; 0xB1189807; 0xC1424C77; 0x24A04C16];
   [0x24F72226; 0xA4FC7C7D; 0xA8322501; 0x763405FB; 0x18F015E0; 0xC5443C9A; 0xC55D6CEA; 0x6DEDA19B]];
  [[0x9EAE2FF9; 0x4EF30976; 0x5741B21B; 0x2549B7F2; 0x3BC23F01; 0x859ACD10; 0xBF5FB0D7; 0x5C0358F];
   [0xFB6AB34C; 0x85E53AA8; 0x8FD2FD20; 0x8DAAAA69; 0x16096FC9; 0xBE6D4D34; 0xF8B8B831; 0x27572C88]];
  [[0x47D56A25; 0xADB98DC5; 0x8B8E1DC6; 0xCC76432; 0xBE48C4A1; 0x32C738E; 0x94FC9CF0; 0x31372DAD];
   [0x78A7DCB2; 0x8E646A0C; 0x6ECD9885; 0xA32F3E9C; 0x6A3AD963; 0x280BB4AD; 0x817D4327; 0x7DEE1BC4]];
  [[0xF8A7C1E1; 0x1AE6A27B; 0xCBC527C7; 0x558C652F; 0xA65056F6; 0x4084B56E; 0x6D4C838B; 0x3FD45459];
   [0x56DE792A; 0xF5C15AFD; 0x88959282; 0xF656FAA4; 0x1C07D63F; 0x7F0D8EF4; 0xCD841ACC; 0x44EFFF7D]];
  [[0x8D3695D8; 0xAC28F2A6; 0x3F91E781; 0x94959EB8; 0xFEDD6E1F; 0x7693FFF7; 0xA9A699EF; 0x2512E6E1];
   [0x7955FAB7; 0x823400EB; 0x94924C08; 0xCF109EF9; 0x3A709F32; 0x12E08779; 0x9CC6484C; 0x187D0413]];
  [[0xEBDE477F; 0xD3932AFB; 0x44538D8A; 0x9D5A5422; 0x166A87AF; 0x40B0B159; 0x41D5E078; 0x31294B3D];
   [0xE8C48222; 0x6C49C853; 0xDCD0D611; 0x8FBE6620; 0xF611007B; 0x9DDC7EE2; 0xE6652172; 0x12289A60]];
  [[0xDACF80F7; 0x8B85475B; 0x9B5CAEF2; 0xADBAB353; 0x8D2A7707; 0x7C4090A3; 0xDAB97830; 0x271FA4F1];
   [0x53173E04; 0x141B7252; 0x6D0B127; 0x4B483D64; 0x63A7AF8; 0x8FD15BCF; 0xE580F34C; 0x59B19EAF]];
  [[0x9C0D79B6; 0xA7EEA8C4; 0xB9185109; 0x766FA113; 0x4642CC64; 0xB42D74F3; 0xBB817476; 0x51D0127B];
   [0x8AB71448; 0x6DA097F5; 0xF95AD0C7; 0x145872E5; 0xF1759436; 0xB7E934F3; 0x3160ED1F; 0x4EA883F9]];
  [[0xCEABAE1; 0x30DC39B7; 0xA606D766; 0x49EC5EE8; 0x97FC46AF; 0x230E2762; 0x5BE79B8D; 0x79A531F];
   [0xEF08C93F; 0x48253BC2; 0xF124D043; 0x2D32AF02; 0xAF34D231; 0x85796D0D; 0x15F8CECD; 0x6A6205C]];
  [[0x47B00D1A; 0x1FA77AFD; 0xE48CE97A; 0x429717B0; 0x57433697; 0x38FEF11D; 0x7D426687; 0x3E91BED6];
   [0x2AB4BFE9; 0x95919BF7; 0x97096B3A; 0x7A3F33FC; 0x3DD8C82E; 0xE0BBAC3; 0xF8EDB675; 0x2CE9EFCB]];
  [[0x43D8B81D; 0x2D44E998; 0x6D68A95C; 0x8ABFF419; 0x3B2A18DD; 0x639000A0; 0x871E3ED3; 0x7CD15413];
   [0x148F0378; 0xC059855B; 0x616B62BF; 0x50147459; 0x4D461110; 0x53B699AF; 0xEC29E48D; 0x6A0D0EC7]]];
 [[[0x15797F35; 0x51733221; 0x4BBE6644; 0x2F298214; 0x4A5EF621; 0x7BC8FEC6; 0x7F472F05; 0x3D2BE785];
   [0x2765C427; 0xA1C3A1C9; 0x24155ACF; 0xBACF08FE; 0x9D229948; 0xA9CC1A17; 0x27039FD8; 0x1918C97F]];
  [[0x7843FF7B; 0x2CF39338; 0x258997F2; 0x5FCBDE65; 0x165A98A3; 0x3980BF90; 0xBF9458E5; 0x2E80607D];
   [0x7019165C; 0x5F646EB6; 0xDDE34205; 0xFA091FBE; 0x69267AE3; 0x695348B6; 0xABC22051; 0x385B0B6A]];
  [[0xB537F78C; 0x3CAE0756; 0x8BE30367; 0x3012A958; 0x981A22C3; 0x32D26C06; 0x2950E833; 0x7D091FAB];
   [0x797ACAAF; 0xD8E1B638; 0x49F2EA10; 0xE7021C85; 0x17A7AF3B; 0xCA382BC1; 0xBB809976; 0x8A5A81D]];
  [[0x4287BB97; 0xF499FD; 0xDAA9DAF2; 0xFB6791CA; 0x57B2B98; 0x9A19E4F3; 0xC53C0223; 0x6968D2FF];
   [0xCE88509C; 0xDC741EF5; 0x306A0570; 0x38AE355D; 0xC23AF46B; 0xFECF6589; 0x6AD48836; 0x6C0E6ED1]];
  [[0xE363495D; 0x22B68698; 0x39AF2BE3; 0x120005D0; 0xBF4BA69; 0xE37B1965; 0x26E64AE7; 0x3B416E93];
   [0xDEAC5C59; 0xFAED5088; 0xEB2518A5; 0x67436ACC; 0x91FA788D; 0x636B52F8; 0x655153D1; 0x10B2A57A]];
  [[0x833A984C; 0xB18060A7; 0x74833BAD; 0x7EF83746; 0xC5B3BC88; 0xCBFAF742; 0xA1A7F135; 0x7981DC36];
   [0x5D076280; 0xE70CCAFA; 0x7009D85; 0xEBA80EB7; 0x73778DE2; 0x7D99D24C; 0xA7262D50; 0x1EFEE1BB]];
  [[0x6A7CAB32; 0xBC47F4A2; 0xDD6E48A3; 0x53F290A7; 0x92F35F9E; 0x82257A1B; 0x8BB0AAB0; 0x73D17B31];
   [0xC2DFFE96; 0xBBD4522A; 0xE6EB0501; 0x9C37DAA1; 0x453DB6BE; 0xF4D4D568; 0x642AD2E4; 0x2868CBF5]];
  [[0xABE30C59; 0x40A988E6; 0x93057DEC; 0x5ADED929; 0xDACD37B0; 0x18FD7E04; 0x8228ACA5; 0x6E3FB81E];
   [0x4104B0C9; 0xFF3EEFE6; 0x31CA120A; 0xD7DD05E7; 0xD01C1CF8; 0xAFD3CF1C; 0x831BC4E9; 0x4D0CD264]];
  [[0x82CAC14A; 0x2641B321; 0x70990E6C; 0x34EB1495; 0xA1C74CA6; 0x3E5AF58F; 0x616B7A2D; 0x11B50821];
   [0xC4FA9719; 0x891636E3; 0x107DD719; 0xAEE84C27; 0xC1872E75; 0xA2B0D83E; 0x7383069E; 0x7DD62CBC]];
  [[0xC81B7E15; 0xEBA4A024; 0x4516070; 0x1CC37E08; 0xF90CE59D; 0xEF1F0401; 0xE062E133; 0x3B4259D5];
   [0xCF2CA1DD; 0x87A1DBFA; 0x61FD1AFB; 0xCFBFB15F; 0xECF4C7BA; 0xFBFD9899; 0x2725FA50; 0x57C84CEE]];
  [[0xEFA6E3D0; 0x8B0B7414; 0xB3D04224; 0xD9725C5E; 0x8A91371E; 0x670E6C50; 0x9B25BD3B; 0x4D130467];
   [0x5CF18D4F; 0x18D77D15; 0x1CA09677; 0xEF80DC41; 0xB9A05CF9; 0x6F3A961B; 0x7C1433A4; 0xBB8A518]];
  [[0xB33FCF05; 0xAC0CF52A; 0x1CDC7782; 0xAD03692F; 0xAA02B77E; 0xB345BAE6; 0x456FCFA9; 0x5096694];
   [0x25D4CF32; 0xA8984448; 0x15184188; 0xD76393E3; 0xEA069BED; 0x7D4A8C0C; 0x11E18347; 0x4D22268D]];
  [[0x3CB3C0F1; 0xC2A0BB75; 0x8EBA58C6; 0x61F4EC4C; 0xDFC4A903; 0x5D3F0D44; 0xF9B6F79A; 0xB6CE81B];
   [0x94E49623; 0xF694A44A; 0x1BDF75E0; 0xCFCBB7E1; 0xE0337E13; 0x20CEE1BD; 0xDFF02E18; 0x694EA40B]];
  [[0x78D1DC2E; 0xC21BE0FA; 0xED0E49E0; 0x8B4D9A5; 0x827F0B4C; 0x676731AB; 0xEBAB5894; 0x674ECC79];
   [0x39ABB148; 0xB29BD0D4; 0x2378A63A; 0x8207A8F8; 0x1E4C29C2; 0xE36A549D; 0x3F1C255B; 0x380D48DE]];
  [[0xE5F2C87E; 0x6AB6F887; 0xA01AEC86; 0xE92C7345; 0x8660C26F; 0x697F4520; 0x9B58015B; 0x4F2488E0];
   [0xBB41900C; 0xB2410B3E; 0xBE1A8A39; 0x31267500; 0xB9140554; 0xA7C9997C; 0x1CD41524; 0x335B1806]];
  [[0x14873270; 0xB836FD9F; 0xE3243EC5; 0x1AE0F512; 0x83B9AB74; 0xA743E304; 0x3A5758C7; 0x1569C30D];
   [0x9E8F9E52; 0x3CEF9A; 0x8C22119E; 0x557AFB4A; 0xF223A966; 0x66F2487E; 0xA519378F; 0x7FA00273]]];
 [[[0x7B08C1C4; 0x812C024F; 0xADBA8AD9; 0xC6017986; 0x601BD82; 0x59C7B16C; 0xCFA5622; 0x41B6A45C];
   [0x83C1E3E8; 0x353A67D5; 0xC65F5059; 0x9A83438E; 0x86EEA346; 0x99950377; 0x330D2570; 0x74E2F4BD]];
  [[0xB4A8BDA8; 0xDB8E53C1; 0x2C003C77; 0xA850047E; 0x1B018831; 0xFFD48A73; 0x8B325062; 0x24F96CB6];
   [0xCD2B821B; 0x3779CA4D; 0xC3159CE7; 0xC2AFBF6E; 0x10F18DE9; 0x8A580B1A; 0x8CF75334; 0x37043D0D]];
  [[0xECCCF2E8; 0x451DCDA; 0x752A134F; 0xCF7A3AD9; 0xFBDAE56C; 0xD5754596; 0xF4CDCF6A; 0x15237D73];
   [0xECA37967; 0x1DF5912C; 0x336CD97E; 0x60934339; 0x434DDC01; 0xA4E523FE; 0x79DBE24C; 0x24E81DC6]];
  [[0xC83B2B7C; 0x28F0D73B; 0x7B5DE1AA; 0x45BE220F; 0xB136A877; 0x1B785230; 0xAEFF115B; 0x5A94122A];
   [0x8E598998; 0xEF895F0C; 0xF4C622C3; 0xCEE32B3E; 0xB256CFD0; 0x2D080B1D; 0x21075E15; 0x672686D6]];
  [[0x9F9F26FE; 0xE85FB575; 0x93A7966E; 0x1DE57B83; 0xDD8CB696; 0xA9948DE8; 0x758E685D; 0x226C95A6];
   [0x3729C663; 0x38B0753B; 0x410E4884; 0xD46CA4D9; 0x77516FA4; 0x1D6FA5F9; 0x696CFAFC; 0x9A0FDB8]];
  [[0xCC7F6FD8; 0xD1DAD8E9; 0x22195A2; 0x7BB9F606; 0x223A9346; 0x1B997396; 0x88DCFB04; 0x6ACD6F7C];
   [0x3AC52F65; 0x9029E5EB; 0x935A39DE; 0xED1D7A0F; 0x538D8914; 0xF1D58C3A; 0xB36B8342; 0x19153569]];
  [[0xE2502156; 0xFF600354; 0x733DA5EC; 0xE386A20F; 0x9D24D11D; 0xD6FBCBBB; 0xB06C843; 0xB57498C];
   [0x7A834667; 0x98F1FFF8; 0xC7DF05F5; 0x4AEB8788; 0xC2681DA4; 0x8CFA3B01; 0x2FA2FAEA; 0x1AECC0E8]];
  [[0x94C5CBC5; 0x38278865; 0x41A755A; 0x9ADA7CAB; 0x8D891640; 0xB38F762A; 0xAD88F0; 0x28F6FBB2];
   [0x3709CD6D; 0x3F9629E3; 0x4912F483; 0xD2435A55; 0xDFF5AB69; 0x305BEA64; 0x663BB0D9; 0x4D29041A]];
  [[0xE2FD9338; 0xDC4BC9D4; 0xBA7938FC; 0x5389390D; 0xF329B218; 0xC42B812D; 0xFA9F1956; 0x5E809B5E];
   [0x523D74C3; 0xE2A89BAA; 0x78CBA7B5; 0x97CD9FFB; 0x5B07BCD2; 0x25F95301; 0x2064BB3A; 0x4042C705]];
  [[0x28D53BF9; 0xD8B6ADA4; 0xA4210F2D; 0x5E922CA5; 0xF05A1629; 0x9501F46A; 0xC6CD71CD; 0x28094E54];
   [0x811285AD; 0x8D5484D5; 0x1593EE86; 0xFB2168F4; 0xAC54A41D; 0x693D3B32; 0x28A5425C; 0x3DAFEC07]];
  [[0xD12837A8; 0xE4CF0D0; 0xCF5273BB; 0x19FA2CC9; 0x116A20C4; 0x56346BAE; 0xE436A36; 0x4F3597FE];
   [0xE8EB1B85; 0x459D3FFB; 0x5AE04130; 0x7C718672; 0x60302740; 0xA37C2586; 0x913072D8; 0x2871AF37]];
  [[0x8590319D; 0xD77249B7; 0xEB06B813; 0x73F7A684; 0x71D1D580; 0x4C9DC5B9; 0x5A50A95B; 0x7C91A9F5];
   [0x475F161; 0x4F8F2E89; 0x538B7F94; 0xF34EC1DD; 0xD46F2575; 0xB8FF6C65; 0x64433C80; 0x79A2CE2C]];
  [[0x1AEB7039; 0x38448A53; 0x417189EC; 0xF5EC03F7; 0xEB92FF2B; 0xFA095CA1; 0xE4FCAEDB; 0x4612F720];
   [0xF30AAE0E; 0xC945E966; 0x340A7A1D; 0xF61CFE85; 0xE42D7920; 0xA2560BC6; 0xA692E9C7; 0x7D7B321]];
  [[0x592C60C5; 0xB9C26307; 0xF59D966; 0xCECBC6C3; 0x5459D89E; 0x8BA31FD6; 0x47C7FAE8; 0x1A4AF6B1];
   [0xB431D720; 0x66487766; 0x5108B845; 0x5D597309; 0xCA8E6E0D; 0xA3B94FD7; 0x55C6A48D; 0x639519E3]];
  [[0x52DC195; 0xAD3EE167; 0x947816B; 0x4DF2BFC7; 0xABADBB3C; 0x5D463469; 0xC33D4F96; 0x6F7AA885];
   [0xFE06133C; 0x3DD27536; 0x2796E7ED; 0x27A557B2; 0x3D314A4F; 0x1117CCB7; 0x23968946; 0x6F0C0AE0]];
  [[0xE2110C00; 0xA3D4DAE; 0x4C633A23; 0x389D3A5; 0x83AEC172; 0xE167BDFA; 0xFB38E8F1; 0x67070CE];
   [0x4DF220C5; 0x41137367; 0x59C39F05; 0xB255E5D3; 0x43C75B3; 0xE437984E; 0x6A22994A; 0x1DCD771]]];
 [[[0x4C6FDDCF; 0xD2880DF2; 0x8A00D80F; 0x76A28FF2; 0x792F82C; 0x257CB1F8; 0x605703EA; 0x7938ABC];
   [0x5F61B0FE; 0xD99F0AC9; 0x8EC15433; 0x440DC63C; 0x86AB5DDB; 0xD9BDDFF1; 0x744755EA; 0x3B8875DC]];
  [[0x4938C9FB; 0x1D90440; 0x8DB6A890; 0x900657FD; 0xF60A173A; 0xDCC5068A; 0x857C7B2A; 0x5F3EB242];
   [0xA4F0EB9E; 0x634240BD; 0x44E85C70; 0xACDDA6C4; 0xAABE4C5; 0x753F02AB; 0xC1D034E1; 0x33D89D21]];
  [[0x1279B25B; 0x4596B52D; 0xA48014AE; 0x494669D9; 0x4FD22150; 0x9A26B6FC; 0xF07D5A3F; 0x394DE0BB];
   [0x634C1733; 0x12DFE5A6; 0x1EBC5177; 0x33EC21D2; 0x527514CC; 0x454B4930; 0x41405532; 0x7F23BD0F]];
  [[0xBAC9DD30; 0xB2879E7F; 0x6CE7672; 0x259BB1CB; 0xBB97BE10; 0x201DB42E; 0x2EA35A8E; 0x112D6079];
   [0x6B3B9933; 0x7CC756D4; 0x781CE4DD; 0x4BD24810; 0x8733247E; 0x53CB4E38; 0x9DA66787; 0x47BD6A30]];
  [[0xBA600C8E; 0x8A700953; 0xCF388C0D; 0xD466F11D; 0xE4A17A8E; 0xD485F341; 0x234FC16D; 0x63278918];
   [0xBB82046D; 0xF4DDA875; 0x2945470A; 0xD61E4E58; 0x6D0F8976; 0xCDB6C5BD; 0x10A004A2; 0x44CD9E4D]];
  [[0x49C4AA6E; 0x595CD942; 0x3DE400C8; 0xE5A90136; 0x9DD12D9E; 0x4BCED3BD; 0x78E3D5E4; 0x3700CF92];
   [0x75A32D1A; 0xECFFF498; 0x3C4A54B2; 0xC28DDE37; 0x993CAE6D; 0x8DC22352; 0x52ED7019; 0x46CB5408]];
  [[0xEA94E7BF; 0x71FFAED0; 0xD5AE6185; 0xC0817D2C; 0x5CF23687; 0x7B72B8B9; 0x60A450E1; 0x61DDE599];
   [0xD13870E6; 0x17CF0B10; 0x5F2930BB; 0x7D08E1FB; 0x83807C14; 0x8D0F4F55; 0x6E6DB701; 0x61EBFC1A]];
  [[0xFCAFE68; 0x247A3F65; 0x7AC2A25E; 0x57548035; 0x3CD0FE06; 0xB7466CA5; 0xBCC31AB3; 0x7B0D8B36];
   [0xA6D4358C; 0x2FAAF49C; 0x3E9B4E31; 0xD9E5E2FE; 0xF6086336; 0xA6A859A0; 0xA9C19F84; 0xC2A442A]];
  [[0x3BC0AD7D; 0x66FEA841; 0x32C9158E; 0xCD3A546C; 0x8FE1DF7F; 0xACD2EE7F; 0xEBE9621E; 0x10F58C0A];
   [0x478B667D; 0x80047C54; 0x89870DCE; 0x9EAE5FAA; 0x520A005; 0xC05BEB33; 0x352AC891; 0x2CFBC921]];
  [[0x632F6D73; 0x6842E6B8; 0x2B9FFAEA; 0x6F2B5724; 0x9341D2FA; 0x7ACCC982; 0x88809B65; 0x6DAD9A11];
   [0xB6CC2240; 0x3411850C; 0xB64937E1; 0x8547BCAF; 0x6978F636; 0x49AEDD5F; 0x85A53D2A; 0x38F59752]];
  [[0xF5F5A2D0; 0x5C38EB49; 0xE3BF779C; 0xE028121B; 0xA783D5E3; 0x649997C8; 0x2C06CC0F; 0x4DE984A];
   [0xA49D6239; 0x52C834B0; 0x628413AC; 0x70A1B09; 0xA8624A1E; 0x2FBE0CA5; 0x268D930A; 0x687D93C3]];
  [[0x314C47A4; 0xC7CD6805; 0xCE7A9A6D; 0x8BD0C630; 0x34F727BA; 0xCDB2DAD5; 0x25DB0189; 0x7814C414];
   [0x7DD9CAEE; 0xD7F9C5DC; 0x798690E4; 0xDA6EACC8; 0x6B675E01; 0x705794E3; 0x75C5EC38; 0x4A31D714]];
  [[0x519D5F2; 0xC162A3EA; 0x2958FABF; 0x92146A78; 0x6CB31EB0; 0x1E63CBE4; 0xFBC5AD0F; 0x77CE5AAD];
   [0x32605DC6; 0x3631E470; 0x43413DD3; 0xC7D1C72F; 0xDF6B7C9; 0x171A3794; 0x2B5A08BC; 0x6D711743]];
  [[0x509EF0F2; 0xDDC8057D; 0x6CABB486; 0x5C0B92B; 0x4244D919; 0xD49692B6; 0xD297F56E; 0x4E181744];
   [0xF8CBB897; 0x902F6E73; 0x56D01382; 0xC3B21FE1; 0x46890F6D; 0xA858ABE1; 0x506858AF; 0x46B5E2C9]];
  [[0xF4DEDE56; 0x30441281; 0xA195AEDE; 0x13F06FBB; 0x2FDD3BFF; 0xAD5F575B; 0x32ACB590; 0x680F656D];
   [0xE3FAABA7; 0xFB60A8E1; 0x89A14827; 0xC8FBC1E4; 0xA8616136; 0x5835453F; 0xE6F4926F; 0x2826A47]];
  [[0x74F32180; 0xAF4319A1; 0x6C2C1712; 0x4C9FDD16; 0xAC7E14A7; 0x59CA4FD4; 0xABBD4EA4; 0x7AA6E2F];
   [0xFE9F121F; 0xB4BD441C; 0xCDA452C5; 0xDEBB4356; 0x51C9F451; 0xC29F1CFA; 0x83F598D8; 0x7E1EEF4C]]];
 [[[0x5014135F; 0xFC41A321; 0x3EEADF3F; 0xBE95F9BA; 0x3203A540; 0x54B1212; 0x3721C745; 0x6DD2FD17];
   [0x5A682B59; 0xF86B8578; 0xBE801F7D; 0x872AA481; 0x14F865F2; 0x64C1600C; 0x25365449; 0x4BDD47AA]];
  [[0xF3A3469F; 0xC96A964C; 0x9F7DA0E3; 0x273C5C85; 0x4C1A9DCD; 0x88EDC4AC; 0xB48E4CAA; 0x77623444];
   [0x31581FF7; 0x7AF34A9C; 0xBB57F7CC; 0x23328C37; 0x8B7C86AB; 0xE920D8E9; 0x9DE6D64C; 0x1C7A7A40]];
  [[0x79B9451C; 0xBCDCD22; 0x58F5241B; 0x2920B435; 0x9B33EF3D; 0xC24DF715; 0xF2600224; 0x15252C5B];
   [0x9A9160B6; 0xF9C8D8A6; 0xA6B9A6B8; 0x3186F2F9; 0xA377E98A; 0xC37267DC; 0x37957189; 0x71319A0A]];
  [[0x6BAF6AE5; 0x48E5033F; 0xA460FCE9; 0x72379B2E; 0xF3D2FA46; 0xFC753D47; 0xED9EDF72; 0x3B67685A];
   [0xF712500F; 0x1608E304; 0x9EE1B42A; 0xDFA358A4; 0x34B8345C; 0xE7A4B376; 0x6753C17; 0x7D0E0BF3]];
  [[0x8FA62042; 0xA88526A6; 0x393006BD; 0xD6F32BB5; 0xA5DD5045; 0x14804978; 0xBF0C5E13; 0x34C02662];
   [0x376E3E3D; 0xF9BEEBF9; 0x5923DC61; 0xFD774041; 0xF9735CF5; 0xFE77BDFA; 0x4077CFCC; 0x2E476E22]];
  [[0x9BA457EF; 0xAB8E52EB; 0xABED212; 0x95F6C5FE; 0x386620FF; 0x7204B1A6; 0xDD180719; 0x463B7474];
   [0xF991D8EE; 0x7F7D27AA; 0x8F67722D; 0xA7EB1085; 0xE331480A; 0x78D7095B; 0x66A1C8FA; 0x1DCC8C12]];
  [[0x3E6A04C1; 0xD4C39C18; 0xB598ABEE; 0x73DB1C4D; 0xDF4A7D42; 0x381F9780; 0x52F860CD; 0x3C19A231];
   [0x3EF00740; 0x7EC89934; 0xF37FE0D5; 0x50867788; 0x43E84D4A; 0x502D870B; 0x8F744749; 0x5F8A8413]];
  [[0xFAECCFE4; 0x1C41AAAD; 0x21461F41; 0xC324F3B9; 0x4E90C0AB; 0x165ABA3F; 0x5F88E7D3; 0x2F96CED5];
   [0xC0E52768; 0x8CA366FC; 0xA55249A7; 0x6CCA017C; 0xF7EBCA2; 0x41ED002F; 0xA2BAF655; 0xC33B371]];
  [[0x62B928CE; 0x3B94CD9C; 0x39729345; 0x5BC43A6A; 0xC47D223C; 0x44D0C0F; 0xB0493367; 0x3B64B38D];
   [0xEB74A6C2; 0x82AFB645; 0xD876D71C; 0xCB01E22; 0x29C6BCD0; 0xCE2A7DCC; 0xDFD644EC; 0x4753DE1C]];
  [[0x62188792; 0xE69FC903; 0x4914328B; 0xD91DB9BC; 0x3B68F8D0; 0x44953F4D; 0x654B283; 0x2950435D];
   [0xBE88F609; 0xE599A4AE; 0x90F5D10E; 0xF801CD90; 0xD4F1D3D9; 0xAB78DB1; 0xC0F71ECB; 0x3ED9666A]];
  [[0xE1E73E59; 0x6046A505; 0xF3B5C2E0; 0x8723A3EC; 0xE22C1555; 0x4BD95BF6; 0x6DA421E9; 0x50DC33DB];
   [0xF1B01327; 0xCFB51E95; 0x199A8765; 0xE7013F2A; 0x77504B0B; 0xF486FEA7; 0xF9BA61C6; 0x2AF0F7E9]];
  [[0xBE00B841; 0x9DBA1A02; 0x8BED5F08; 0x488BA455; 0x67F1040E; 0xF6814A64; 0xDC252336; 0x23AC4762];
   [0xF0ED0577; 0x25040F02; 0xC6FFAE9C; 0x65209B22; 0x485AA0AC; 0xCC441A8C; 0x59D63A8A; 0x10DFACB6]];
  [[0xC7D86B28; 0xBF4A0569; 0xDBDA9DA4; 0x5CDA94C4; 0x69058335; 0x2235C4CE; 0xD30C89E2; 0x68FA5E7C];
   [0x59097B5B; 0xBB286D39; 0x9A20BA7E; 0x87DA80BB; 0x56F47E54; 0x85EF865E; 0x74ABFA5B; 0x5BB87867]];
  [[0xDE2FA36E; 0x5DB14FAB; 0x77775F09; 0x84E3B546; 0xDA951D99; 0xDA734523; 0x3975026E; 0x4A89097];
   [0xC0D12BE1; 0xB5753599; 0xFB864D61; 0x5670CE9; 0x305BF3CF; 0xB7153502; 0x2E60AF62; 0x7A9BB357]];
  [[0xC7566DA5; 0xF43CDA07; 0x53FA4196; 0x7FC4C7FC; 0x88DCC9F3; 0x1E20E0ED; 0xFEE23DDA; 0x7317C7E5];
   [0x43017070; 0x305E13F; 0x6B1CA7C0; 0x5568410C; 0x104BA029; 0xE5D55BA; 0x90FD49F8; 0x118B284E]];
  [[0x8F3C6D8A; 0xCA0F7B5B; 0xAF7ECBF6; 0xAF72DEE0; 0xBB0EC4F1; 0x21C86D85; 0xF0525D17; 0x303BC47];
   [0x896FFCC0; 0x6ADCAB9F; 0x24E970CA; 0x65764C45; 0x1C3CA718; 0xF14C; 0xD0292587; 0x1CF1DDB]]];
 [[[0x86111EBA; 0xEC4FABCC; 0xBBBB793F; 0x599C20B6; 0x5657668F; 0xF74AE747; 0x77BAE892; 0x24AF29B2];
   [0xCFAC9D5E; 0x47D6876B; 0x24369E14; 0xCACF9F50; 0x6F9CAFEF; 0x8A231D74; 0xB69AAE58; 0x57645A4E]];
  [[0x489900F6; 0x440A3B15; 0x961AC3C2; 0x4B642FD3; 0xC265B973; 0x3D668599; 0x1139CE78; 0x5FA0E65D];
   [0x1FAA710E; 0x3FF15AF4; 0xA9422FC0; 0xE45D35CE; 0xBD7BB349; 0x56904C06; 0xE529989D; 0x40C5BEE0]];
  [[0x70B20298; 0x8FA46861; 0x4838A136; 0xEC629538; 0x137F66D6; 0x23ADE0F6; 0x8EA53E76; 0x1A92E05C];
   [0x9D51EB7A; 0x51728E27; 0xC4352E35; 0xA6B0B758; 0x37A11B35; 0x84C59331; 0xF66B75C7; 0x3933EFC1]];
  [[0x66916D0A; 0x7FB68D62; 0xF28A9B14; 0x3325D42E; 0x8592B544; 0x75E83A65; 0x2718628F; 0x524D1CE0];
   [0x3C584D76; 0x88A110EA; 0x4AC09AAC; 0x6B034AC4; 0x84FD3A36; 0x6488635; 0x87D944E1; 0x516F0EB0]];
  [[0xDF11D0BB; 0xE2016DA0; 0xB01F6540; 0xB34EB471; 0x165CBB24; 0x13E3D330; 0x7CF7F676; 0x3E755D11];
   [0x4FEA9A69; 0xD70CF4F8; 0xD18F4337; 0x98F59E0A; 0x826344BA; 0x7CCE7CE6; 0xF4004BBE; 0x30D129D7]];
  [[0xBA9CB975; 0x16EF317; 0xE4B3AB4D; 0x8EEBED19; 0x170A2570; 0x8C597DF0; 0x5BE6DE70; 0x451538D8];
   [0x7A64792F; 0x6C711DAC; 0x217EC8FB; 0x8F1896EB; 0x7FE18DED; 0x82E9C20B; 0xB0C5F622; 0x6CEBF4A7]];
  [[0x49CCC64F; 0xD9403EB5; 0x28B8A3FD; 0x807EBD56; 0xF291E12; 0xF08BB659; 0x9C3F4432; 0x20D13E3];
   [0x752BB92E; 0xDA247896; 0x86EAFA7A; 0x99541794; 0x274E36AD; 0x213E94BA; 0x61A71333; 0x4CC0F1FB]];
  [[0x6478801; 0x19CC11BD; 0x6D18216A; 0x1251562A; 0xCDD307FC; 0x7A5F06BB; 0xFAA9CA2A; 0x4285F6AB];
   [0x81258996; 0x5A922831; 0x27B8B018; 0x8F7CF8EE; 0x7F81A62D; 0xF030BEF3; 0xCD4FD4E7; 0x417ACBC1]];
  [[0xEC64412F; 0xCFB0EA58; 0x6091E621; 0x9547B64A; 0xFD0C9815; 0x5EA49C7E; 0xE78B355C; 0x6789055A];
   [0x77E9A73A; 0x8D743E98; 0x2EA3FA49; 0xB032EA6A; 0xCEAAA33A; 0x52EA3801; 0xF2C3E22B; 0x73B3BB8D]];
  [[0x7DB9E301; 0xAA2A1291; 0xA1293DD7; 0x7F29770F; 0x59683DEC; 0x3135BB21; 0x7785B505; 0x70F8DF7];
   [0x37F53677; 0x8F2158EA; 0xABE1AF1C; 0x96CC7B9D; 0x6D6477D6; 0x7F977915; 0xDF370EAF; 0x55DB3922]];
  [[0xA9DAC7AE; 0x3028C03A; 0xBAE06BE0; 0x16F7DF0D; 0x410D57D9; 0x9548398; 0x1510D51F; 0x5E9C7F43];
   [0xD07717B3; 0x33B9BE2; 0xEF08AB91; 0xD5D8116; 0xEEEFE88F; 0xD5A172B1; 0x996294E; 0x72B1D29F]];
  [[0xE4D0965C; 0x9E2B79FB; 0xF49D8B8E; 0x1F403EE; 0xCEB12D6A; 0xBD4D2D48; 0x11FB24FB; 0x4D04DD9A];
   [0xE5C8D24C; 0x7E613EC5; 0xB918E543; 0x568BEFE8; 0xE966DF28; 0xD6456D1E; 0xBAFC71E2; 0x2DDEAD63]];
  [[0x448D72E9; 0x1D794F92; 0xE7E62BF2; 0x3978052E; 0xE2B92538; 0xF6C7A72E; 0x6EF321F0; 0x43879A88];
   [0x34F6FFBC; 0x2A823140; 0x35F4C485; 0x26F84E51; 0x28BFA7E; 0xDEE65540; 0x5F033058; 0x56216E9D]];
  [[0xCBC772EE; 0x31CA5470; 0x811BB5D0; 0xD3621E11; 0x70863D71; 0x501C4C47; 0xD28D6BDD; 0x564518E];
   [0xD35B64B9; 0x60E3B89B; 0x6621A688; 0xB4F2599A; 0x3B5E116D; 0x1A8C4508; 0xFABF3125; 0x633EF5CC]];
  [[0x5D4FF62A; 0xDB1D251; 0x4B17D658; 0x6CBD00EB; 0xFA1DB737; 0x2FA38212; 0x93A7FA03; 0x7B18CB8];
   [0x548E5F82; 0x531E47EF; 0x8276963C; 0xAE7B94FD; 0x6181A13A; 0x8055D82A; 0x23B6E361; 0x5725B512]];
  [[0x6D8B1FFE; 0xD84C7041; 0x5D994200; 0xF68ACA0B; 0x6BB908E2; 0x32BF9944; 0x1AD88DB1; 0x1240A3E6];
   [0xA92B6472; 0xB0BE96AA; 0xA1B7726C; 0xEF88A155; 0x9349F496; 0xFD9ED; 0x454A05D9; 0x377DCBAD]]];
 [[[0xC04111D2; 0xD0A092CD; 0x338F06D6; 0x5C43A94C; 0x25E964F3; 0x697B4C26; 0x7572CCFD; 0x2CD5A059];
   [0xB5B523E4; 0xA09FC4D4; 0x4E1E9042; 0x7D8141E8; 0xD637409E; 0x2462512B; 0x7CB2CE75; 0x503F032F]];
  [[0xBCBF1450; 0xC56F38E3; 0xCF2E5594; 0x9F4FC77; 0xFCB653A; 0xF449C3E6; 0x64A53C65; 0x6A1FE752];
   [0x7C039488; 0xFF366FED; 0x8C99A6CB; 0x23F58BA5; 0x8D67F6D6; 0x4B5546C6; 0x178B1668; 0x3405C85]];
  [[0xC0C86696; 0x969F1B33; 0x13746468; 0x9346D06C; 0xAE0C6D62; 0x68AED3C8; 0x74FE63D5; 0x7B3D5361];
   [0xC4F4B65D; 0xFEE8416B; 0x554C6D0A; 0xC79BF488; 0xDC402BB0; 0x191D5D27; 0xE087EB9F; 0x31B00167]];
  [[0xE05D281F; 0xD5FE0979; 0x3485446B; 0x8373AB50; 0x9223681F; 0xCE5258BA; 0xA37BF244; 0x5F82843E];
   [0xCFC16536; 0x94ED780B; 0xBD477733; 0x6A9739B3; 0xA04A4195; 0x137D68F2; 0x32BFCE; 0x3A0F27E8]];
  [[0x358382F9; 0x7EADE421; 0x92E3D912; 0x490B9CA6; 0xF1AFBC2A; 0x40CE73E; 0x11AE91BA; 0x5745D473];
   [0xCE303B77; 0x625BED61; 0x85B03A1D; 0x85B2A1EB; 0x3D7C02E0; 0x764F62E4; 0xA7AF6DDE; 0x22C2D16F]];
  [[0xD19377BE; 0x5B985DE6; 0xD8E43A10; 0xAF85A06; 0x519F4C6; 0x1465E504; 0xE3E20BA3; 0x5DA01665];
   [0x675D9E2A; 0xCD9B8E9B; 0x6448A2CD; 0x4C77E1AD; 0x1E5D4465; 0xD6094BAD; 0xC50DB788; 0x4C352951]];
  [[0xEE5AB903; 0x42581152; 0x63311418; 0xDAD2DBC9; 0xB885E56A; 0xBCA4F70B; 0xB94E0876; 0x1F5DD363];
   [0x3FFF479E; 0xF9AD5D04; 0xFE06AD2B; 0xEF1176E5; 0x216F77AF; 0x46ACB00A; 0x857C4F78; 0x709CF4EB]];
  [[0xD0D2FF1C; 0x70CD666E; 0xE7EFE4AD; 0x4BAD4A6A; 0xFA72024; 0xB43F6C2D; 0xE90C0617; 0xD78F8E2];
   [0xF80DCAA7; 0x543B9662; 0xF28ADFAF; 0xB02FB3BC; 0xC51C54C3; 0x26C17651; 0x3D648D88; 0x815F637]];
  [[0xAEA98FA6; 0xAC4F43C1; 0xAC4398C6; 0x2D223416; 0xDA5C5070; 0x48B2EEAD; 0xBE666F70; 0x632B65F1];
   [0x952021BE; 0x971D3BC0; 0x23B2C578; 0x9FDCB7E0; 0x3CC21796; 0x476D4715; 0x95832A94; 0x4015565F]];
  [[0x13CA725C; 0x8913AFAC; 0xDC18F0D9; 0xA56DC461; 0x10F3AAFE; 0xAC3AC720; 0xC628D69C; 0x5D75567E];
   [0xEEEA4BF7; 0xC11BE9DC; 0x1C193BD5; 0xAD97FBCA; 0xC58123E8; 0xD1EC5BCE; 0x9C73D4E5; 0xF6DF930]];
  [[0xFD759FFD; 0xE80A0ADA; 0x239CAFC0; 0xE52DF94B; 0xFE7A43E9; 0x59640161; 0xDB1A38F0; 0x7A96995C];
   [0x7CD5011B; 0xA46A1503; 0xAC0E9689; 0x75CFB637; 0x97AAD2BA; 0x27B740CA; 0xEAD2F776; 0x64A0748B]];
  [[0x625B3B1; 0xB67E5BB5; 0xC66D2832; 0x2FE19FFB; 0xF70C07CF; 0x47815666; 0xA43E52AB; 0x5A1AA24A];
   [0x4CAC0E66; 0x4EE11F8; 0x3A3A4836; 0x51E51583; 0xB44F6DEC; 0x46755F49; 0xC1E9B282; 0x6388408B]];
  [[0x9DE7A6A7; 0xD47AA9A6; 0x189BC9D2; 0xEC94AD9B; 0x8EC0E950; 0xFA89099D; 0x9F64D27F; 0x1B9FC206];
   [0xB729DE1; 0x76572484; 0x4BE22EB8; 0xFE9E8E71; 0xF9DB5942; 0x910F0456; 0xC617D82B; 0x4D018459]];
  [[0xF5516C6F; 0xB082B58A; 0x567A8CF5; 0xFFBA0E73; 0x8A6DD4A0; 0x8FF64CE; 0x69A9F66A; 0x6CF3C89C];
   [0x62FEB0A7; 0x356782BA; 0x3E2907F9; 0x1A18720D; 0xBBD9D92; 0xF840FFA3; 0x20926421; 0x41D9EECA]];
  [[0xB6B08321; 0xCF2E8AAC; 0x10D91C0; 0xC76FBE12; 0x68E35E02; 0x54924750; 0x9AEE00F8; 0x74DBA2E1];
   [0xC5504E82; 0x94C70D6D; 0xEA1770F7; 0xBDF415F; 0x3CA6DB0A; 0xDA45B700; 0xE133A980; 0x473C6A04]];
  [[0x1E188071; 0xD1FF6C1E; 0xEA3F16F8; 0x621A7D3C; 0x6A160F47; 0x60467307; 0x32DC84EE; 0x37CA7D3D];
   [0x67DDFDB5; 0x54F5F7F6; 0x921BA04B; 0x3A8482F9; 0x1A28E238; 0x842F4950; 0x7214FAFD; 0x3A4DC917]]];
 [[[0xEEA25E82; 0xEDD8360C; 0xFB7B7ED0; 0x3DB6D933; 0xABF15199; 0x882F3C0B; 0x516E349D; 0x228664A2];
   [0xE88173DF; 0x96E6DCF7; 0xD7EC0BC3; 0x382C8D3B; 0x6FA5FA58; 0xFBFF6D21; 0x2F41C959; 0x78003980]];
  [[0x9D9ACF9C; 0x713BA43B; 0x94876559; 0xF59A252D; 0x437B8ED5; 0x8B310954; 0xE474E98E; 0x76A83790];
   [0xF6040B05; 0x84C1386A; 0xBF3D8189; 0x69FA9F43; 0xA98D4866; 0x5584164C; 0x3B9045D0; 0x6C89CE1D]];
  [[0xB522FB28; 0xD6EF7540; 0xBB28D745; 0xDB561B56; 0xEFA58B87; 0xC9F7543E; 0xE9062979; 0x5F02A23B];
   [0x6809D624; 0xFD3C0C19; 0xA92EB229; 0x94481554; 0xF5147EFB; 0x72D8EC53; 0xD1BA626; 0x14302661]];
  [[0x89020800; 0xB35BD59; 0x430D7DEB; 0x3C6F1527; 0x2FFFA0E0; 0x9BEB3C8E; 0xAFD09A19; 0x7E181B78];
   [0x3B2F0B49; 0xE82FD957; 0xBC0F9DA; 0x4C9461B1; 0x2B1C8B85; 0x87D78C41; 0xC1F5BDA1; 0x775BED20]];
  [[0x16350593; 0x883AE89B; 0xC19FEC8; 0x85D429CB; 0x5742C36D; 0x5938BDEC; 0xDA8A21B7; 0x2DDBC7EB];
   [0x7A2E700; 0xA249BDE4; 0xE8BD6215; 0x42A3897C; 0x732FF181; 0x87F30BA7; 0x1B912C57; 0x5385D709]];
  [[0x288041F5; 0x2B5C555B; 0x1F425866; 0xD3D90040; 0x2E0FA71; 0x37E40CD2; 0x3A386038; 0x8B37F26];
   [0x5DE1ED78; 0x165BD7FB; 0x829ECC9; 0x22949E81; 0xBCE3D01F; 0xBB8705CC; 0x1D233CDF; 0x7961BE85]];
  [[0x7659B477; 0x5D3DBC6B; 0x50EF08EB; 0xFD865779; 0xF34EA1A5; 0x502729E8; 0xD2B64602; 0x1548526E];
   [0xB91D2675; 0xB13632FD; 0xF7B37397; 0x9A42003; 0xCCFC4532; 0x37D18F37; 0x73C7082C; 0x3FAEF63B]];
  [[0xE666DB6D; 0x3365445F; 0x339A0076; 0x9051FFF5; 0x9BD6D01D; 0x6167FB76; 0xCA087B41; 0x9737137];
   [0xB3270BA7; 0xCA2193AE; 0x8F2217B3; 0xEF0744C2; 0xF0DD10D8; 0x3E030D58; 0xCCB4F2F9; 0x667246DB]];
  [[0x3773EC8C; 0x31F3030E; 0x5AD56010; 0xAF2B3123; 0xB37E9062; 0xFC118587; 0x9C2D5406; 0x52840C2C];
   [0x6670ACBB; 0xA96D3DFF; 0x772EC6D3; 0xF469982F; 0xA9DF4C88; 0x5BE20628; 0x673633BC; 0x59D01479]];
  [[0xAFB5083B; 0xC9223750; 0x191C2160; 0xF1EB451E; 0xA38EC005; 0xD913794; 0x83FD1D18; 0x31062E9E];
   [0x5F4816AD; 0x70538F5; 0x925F5DA1; 0x90D4855D; 0x22F455B6; 0xC0BBA87B; 0xF48D2AE5; 0x517B5F80]];
  [[0x3F4FA7CA; 0xD8B670A; 0x3D114EB2; 0xE29C8849; 0x916A187E; 0x1823780D; 0x65EE66A0; 0x6961C483];
   [0x62FDC12C; 0x2F6FB20A; 0xCFDDE0C; 0x51414E5F; 0xDCA39073; 0x16BD56A7; 0x648FFD43; 0xCFE6DAF]];
  [[0xAEBA9241; 0x3789F4CA; 0x107777C6; 0xE8056BC6; 0x3CB20826; 0x6EE564C3; 0x45448C69; 0x5DF36347];
   [0xB22CE624; 0xFD0FA84B; 0xAC753D50; 0x2AA19672; 0x677CC0D0; 0x29A1464F; 0x3CEF5493; 0x7C2237B1]];
  [[0x24255918; 0x87C2587C; 0x90B35A37; 0x9AA89A0B; 0x10E7CAEF; 0x9932EB78; 0xCDE31568; 0x49278F16];
   [0x41188ED9; 0xA4D33C61; 0x5AC3A1D; 0xC587BDE0; 0x7248B5E0; 0x2A5C5ACC; 0x8510D2CB; 0x60026A1D]];
  [[0x6BAF603C; 0xE57CB0C9; 0xAB770AF0; 0x527F28A6; 0x16F2BC1; 0x2850D8E6; 0x936DC2EC; 0xEC2A46C];
   [0xD4F23FC2; 0xA0BC5306; 0x53A0130F; 0x6DBEDA26; 0xEE3314B7; 0xB1D52F87; 0x6C234CF5; 0x17168B12]];
  [[0xDADF17D5; 0x8B8BC181; 0xFAFFA918; 0x31EC3CAD; 0x274E4658; 0x4611A482; 0x73D35EAD; 0x5A9E3652];
   [0xF4028FC7; 0xBA68825B; 0x62E203F5; 0x142859D5; 0x1C817A9E; 0xCE516AC4; 0x57223F8D; 0x42014682]];
  [[0xB4B66798; 0x51FBFB2E; 0xEA9C4EF; 0x3A3F1591; 0xE8814805; 0x3FD3D026; 0xB0C8DFD0; 0x3CA531E4];
   [0xE585A960; 0x69A6B3F8; 0xBD3F567D; 0x1627CC77; 0x5DB9CFD0; 0x6F4EF430; 0x8D02278A; 0x5B56707]]];
 [[[0x10B96338; 0x6663F2F3; 0xCE8CA31C; 0x69373D1F; 0xD67AEC10; 0x3D31C5CF; 0x16F2547E; 0x2FAF5545];
   [0x1EA2EA64; 0xF6E397D5; 0xEEAEBE7A; 0x2281A0DF; 0xFA2527EC; 0x72E53254; 0x76432155; 0x660D059A]];
  [[0x2C66D937; 0xD3CA8B13; 0xCD2DF849; 0xC6F34B08; 0xA23A9F73; 0x9AF2C9E3; 0x702388E9; 0x24D44BD9];
   [0xD1B3DA10; 0x8DA4D6A4; 0x40B93B10; 0xB9FAFBF4; 0xEFCFD2A3; 0xBBE51BB3; 0x1844581D; 0x68BE0395]];
  [[0xEA1FAE1; 0xDECABD8C; 0xFDFED7C2; 0xA7499225; 0xFB468B83; 0x8489E35; 0x43D95F9C; 0x5B689344];
   [0x9D2F522E; 0x9FC8364A; 0x3A5D27A4; 0x114DB31A; 0xE33A9EC8; 0xC6A35992; 0xDC9ACAF6; 0x6FE9EC3B]];
  [[0xDEAFC64C; 0x98AE2D66; 0xABE706B7; 0x95AAC8EF; 0x223DFA3B; 0xB15A6604; 0xE24B43CB; 0x77DBC24A];
   [0x8542FA2A; 0x65D6F871; 0x5D326A1A; 0x1093B273; 0xF137AFEF; 0xBA82D607; 0xB9DEA6A7; 0x502B32E3]];
  [[0x885CA6CE; 0x88906BD6; 0x1D36BFEE; 0x136ADF9A; 0x9AA61E3; 0xF844088C; 0x51BAC299; 0x4E508EA3];
   [0xEB821936; 0x251ACD26; 0x43D90E10; 0xDF6AD7D5; 0xDE7F14B9; 0xEBCD7046; 0xAB503259; 0x1DB258B1]];
  [[0x90AD5D55; 0x348E3018; 0x7067806A; 0xEF6BE73; 0x41627FCC; 0x72C1134; 0xE904F823; 0x48EE7606];
   [0xD9FD5EF3; 0xEE6AB582; 0x17AB50BC; 0x57765D03; 0xFB7DEC68; 0x1CCFB407; 0x141DF51D; 0x2E1771C7]];
  [[0xA013284B; 0xCBDD6235; 0x20D07125; 0x4D93FD87; 0xD485418E; 0xB3D055B3; 0xC67ADD2D; 0x4EFB8763];
   [0x1B2DF427; 0xEC369382; 0x64D0DDF4; 0x25009791; 0x163056C8; 0x9BD42FFC; 0x5B88BEBA; 0x60527792]];
  [[0x9D82DADF; 0x6D5D6A86; 0x7C24A1CA; 0xC3BA9A16; 0x2E6981CC; 0x838167EC; 0x7E1E4237; 0x7FB5D857];
   [0x86A40BC7; 0x83B2C2FC; 0x6F9AC4FB; 0x679D2DFC; 0xE45455EF; 0xB3714CD; 0x394A7797; 0x1C8D833D]];
  [[0x4E641C9D; 0x1FBF8961; 0xD951DFC8; 0x3330DAB0; 0x51D96DB; 0x9D4EBA4D; 0x23066924; 0x27C6DBF0];
   [0xDA5D1D79; 0xB950C648; 0x5E9CD783; 0x544D46BA; 0xE69BA3EF; 0xFA77226F; 0xE4DA8423; 0xA93D219]];
  [[0x5BDCA76B; 0x7C377CC6; 0xDC58D194; 0x7DF505D7; 0x13E389E1; 0x18A24C0B; 0x6C3972FD; 0x5E0782DD];
   [0x6680FCE1; 0x97AD477E; 0x3CBAB792; 0x6B07BF22; 0xDC68C9E2; 0xB8DF3C73; 0xC04B2749; 0x33AB5A4C]];
  [[0x7E79B5A7; 0xD151C762; 0xC82C7B8A; 0xA4356B79; 0x96E0A2E2; 0x931DDDE8; 0x52C54FDC; 0x40378EB2];
   [0x40C24003; 0xA6BBD5E3; 0x65C34FEA; 0xB4F3246E; 0x9C767A23; 0x780B21ED; 0x52BD7E83; 0x5F1E95FE]];
  [[0xCF39F9C4; 0x4F3453DF; 0xB8CC2CA6; 0xA3E1CFD1; 0x4B898859; 0xE49BC49C; 0x6C0BF055; 0x4FFD7BD6];
   [0xD139AD1B; 0x7DE7604C; 0x2A3CE8FE; 0x6973F5EB; 0xF9501ECC; 0xAC66FF97; 0xA97D46CD; 0x3D96F1E2]];
  [[0x6106EB96; 0x70D5A0D0; 0x398C1FD9; 0x938E038F; 0x1F3A1AA9; 0xE66B7007; 0xF5BD9308; 0x42BDB264];
   [0x5AF84957; 0x4B3FD754; 0x4E27DC6B; 0x9E3E17FA; 0x51D8560B; 0x384FCACD; 0xF8068C09; 0x42F00D11]];
  [[0x7D5897D5; 0x794C1E6A; 0xDF72DCA0; 0x4901097F; 0xB01E4C4; 0xDED5B192; 0x26DD41E9; 0x364FF582];
   [0x32FCA925; 0xA3F92DCC; 0x207AA09A; 0x8A1FB329; 0xF512AE3A; 0xA9274BD3; 0xC47B9007; 0x161C82BC]];
  [[0x7AE1175F; 0x482ECE3B; 0xBDD5DC6C; 0x97CAC7E8; 0x9FDA910D; 0x56225309; 0x9FC206B9; 0x52A9893B];
   [0x5BB5ACA; 0xAD9F2A92; 0xA3B65716; 0xB9EEFB5B; 0x8DB5A8D4; 0xE7BC173B; 0x399DAE9E; 0x6715EC64]];
  [[0x5E41AC75; 0x780796D1; 0x4FB3A0B4; 0x3E165C78; 0x237103E9; 0x198599BA; 0xFA7ED86B; 0x2C04C3F5];
   [0xAC9356F0; 0x29547DA8; 0x79EADA37; 0xCB345AB4; 0xA295BF2D; 0x1D15D377; 0x2FDC8131; 0x10292C9D]]];
 [[[0x40E1DC7E; 0xADF3B547; 0x1C345D14; 0x420CE2DD; 0x21DC5C2D; 0xC08E3CBE; 0x6F8FCE80; 0x79FDC000];
   [0xCB105CE7; 0x23EBDF7F; 0x7C6794A8; 0x793FC99D; 0x293E3575; 0x4CA3FB21; 0x7BF73CC8; 0x7FB2ACB9]];
  [[0xFC8FCD4; 0x67DB6C90; 0x7EE3B705; 0x22A3DF5F; 0xC7B2EDFF; 0xD50EBF8B; 0x99522FB7; 0xC701045];
   [0xAD4F9044; 0x1420CF02; 0xE5B59451; 0xD78DBA23; 0x6AEFD853; 0xDFDC1C7F; 0xDEA1DAAB; 0x560DEE94]];
  [[0x2167A78B; 0xF235513; 0x9F441927; 0xCF463702; 0xA3D1505C; 0xD0AE2723; 0xCD9FBFF4; 0x3149D858];
   [0xF79240FA; 0x2A73913A; 0x252A958B; 0xC904A575; 0x78473D97; 0x10D18190; 0x203BC8C4; 0x42CE7A38]];
  [[0xFA59BB8B; 0x1D2AD4F2; 0x79F137DD; 0x8234964C; 0x5D02679E; 0xB63A30; 0x5DD7543D; 0x506C45BE];
   [0x776BF80C; 0x4378F900; 0xB312F2BB; 0x179558B2; 0xEA37C183; 0x5B15368C; 0xB198E42D; 0x7593B19F]];
  [[0xDEFA1F48; 0xED723535; 0x87F96EE5; 0xDAFC48B; 0x91B1B52C; 0xAEFA3BA; 0xA1ADBEA4; 0x56BA1B33];
   [0x30A6C905; 0x8A0B6170; 0xB272D12E; 0xC5BA3518; 0x4B6643A9; 0x782100CF; 0x85C5BD2B; 0x12DEE803]];
  [[0x78FCADD6; 0xDD07D2D5; 0x3B25C523; 0x8CB8E8A8; 0x530919CF; 0x25063508; 0x1E24F7A1; 0x45D3DD54];
   [0x49DDAF96; 0x296AE893; 0xACE559F5; 0x7EF3CDE0; 0xD36F87B; 0x9CDF22E4; 0x4AC9A845; 0x19684765]];
  [[0xC597B7AE; 0x3955B5AB; 0x3AB49731; 0x59F3BA05; 0xF525C6C8; 0xBCA5B117; 0x32050B8D; 0x4969C134];
   [0x970E8E49; 0x353183D9; 0xE95300CF; 0x3D005213; 0x9022378; 0x595F9C8E; 0x1A445C28; 0x70FA8B47]];
  [[0xBADB79EA; 0xECC88EE3; 0xFBD8464E; 0x5BDAF68C; 0xB4280334; 0x24AF6A4C; 0x398E5BBE; 0x17A5DE8B];
   [0x92999E18; 0x300B6DEB; 0x67DEFC2F; 0xA0766918; 0xB19F87FF; 0x4E904450; 0xC2871056; 0x3010AD94]];
  [[0x461EFCC3; 0x72E747A1; 0x562F923E; 0x329EDF18; 0xD081A4E7; 0x65E021D4; 0xB727B6F4; 0x4B2DBFFF];
   [0x9C8505AC; 0x5A597A80; 0x562B82D2; 0x13486480; 0xCC8234C3; 0x477FD480; 0x4800C00; 0x6045ABA4]];
  [[0x9C541035; 0x3E087439; 0x6D9D8B6A; 0x389AA76C; 0x36A21299; 0x68FE5E83; 0x402A32CF; 0x67AC313D];
   [0x25501A53; 0x996131D2; 0xA77A85F4; 0x5C1B89DE; 0xED6702AD; 0xA9822C84; 0x56609EA0; 0x50F014A4]];
  [[0xE5A8E91E; 0xF0F8B4E6; 0x1A2FFEFD; 0x734CFF08; 0x27BCB163; 0x9724EE0B; 0x30B8EF68; 0x6AF3808B];
   [0x126E88FC; 0xE5B3829F; 0x4EE5FD4B; 0xF441EE3; 0xBFEC4D34; 0x534D2F8C; 0x76E6737; 0x3E1F16DE]];
  [[0x4ED36E6A; 0x4DB53E8A; 0x4352B22F; 0x49A9EFE9; 0x39CF005C; 0x7829605C; 0xD85DB959; 0x190A8E16];
   [0x9B073AB3; 0x69981069; 0x8C141AA1; 0x8C264B87; 0x603ED47C; 0x7F614282; 0x9F9B0940; 0x21FD2E7A]];
  [[0x1EC6BB3D; 0xC5CA10A0; 0x27A9B02B; 0x9403E3F5; 0xFB43F790; 0x9D3D186D; 0x67DC0C00; 0x7855276E];
   [0xFFFFB14C; 0x53DBB2A; 0x43ACC0A6; 0x26746663; 0x7FFC1C68; 0x1EE7A946; 0x56DBB0DE; 0x14BFAF01]];
  [[0x849EA674; 0x11C89A47; 0x94A540E6; 0x194FAAF0; 0x6050E4C0; 0xE61163F8; 0xB1A07B76; 0x6939A166];
   [0x2EF18325; 0x8166CA8E; 0x30C042E2; 0x96112E65; 0x5A394C25; 0xA805CAE0; 0x392E6BB; 0x45A0DE01]];
  [[0xB4FAAA56; 0xB89CEE96; 0x529736DE; 0x7A7DC8AE; 0xA727FCF7; 0x9158AA49; 0x1896B9DA; 0x621B8B31];
   [0x3BEC74B; 0x875930D6; 0xA7A50309; 0x1056DB45; 0xB5657B0E; 0xEE713E04; 0x6FCAD967; 0x2D68155E]];
  [[0x65B1E2B3; 0x3BB1E9E3; 0x88425BAB; 0x2A615670; 0x62F1BA4A; 0x22F4F32F; 0x88A59642; 0x7B5EC250];
   [0x42D30049; 0x7B5BA12A; 0x86995BE6; 0x4E6AC055; 0x45EC87AC; 0x4431A04; 0xED94823D; 0x28974ED7]]];
 [[[0x12BB5555; 0x59258057; 0xBB7608EE; 0x3141CD8; 0xEF77714B; 0x84EBDC49; 0xB5DC1A5F; 0x6A45FC3A];
   [0x2FBEEC76; 0x1F6DC205; 0xA920C554; 0x17EB733B; 0x7A28ACDF; 0xDB022C21; 0xA9B62BF1; 0x6AF16156]];
  [[0x80B472CC; 0x9379D6A8; 0x7BD92F27; 0x6CB08CB0; 0x147E6E12; 0x19B3C353; 0x26827839; 0x3C26CB2F];
   [0xCC571E4; 0x98AAC9A7; 0xC3C8FC04; 0x75D05F2; 0xD79621AC; 0x718B55A0; 0x5B94B41B; 0x149FEECF]];
  [[0x783F9C81; 0x6A150A64; 0xFB18827; 0x5950C2DF; 0xF15E3A89; 0xF5D75504; 0xFCB4406B; 0x5F92F2F7];
   [0x6123E858; 0x665F31E7; 0xA95184A3; 0x4E568EA9; 0x505FF0AD; 0x851EEADC; 0x542C3EF8; 0x62AD5BA6]];
  [[0xC55C23FD; 0x1103859D; 0x695E4E9B; 0x6AB0BD6; 0xDD734990; 0x2CD00D76; 0xB06460E4; 0x5D59C693];
   [0x1F9C76DA; 0x3BA8F2F0; 0x960F5C0E; 0x8E4A7EC; 0xE4AAB060; 0x79C82AD9; 0xDF95C43; 0x93D322C]];
  [[0xC627547; 0x88AF1258; 0x889A5E12; 0x81E5F197; 0x7CBD84FD; 0x99E0E191; 0xDB0B9711; 0x3024BCE8];
   [0xDB93B1A2; 0x4075C80; 0x628B0E63; 0x12F30AF8; 0xEB25A4ED; 0xA3514F26; 0x7BCD0873; 0x3D42E489]];
  [[0x754B236F; 0xF1C16C6; 0x594F5D3D; 0x717CE487; 0xAFAD77B1; 0x7679C7DA; 0x6F3E724C; 0x51AFD014];
   [0x3AF6938F; 0xAFC9745C; 0xC4E61CB4; 0xCA12BFA9; 0x9425CCA7; 0x943B5696; 0xB6E48A69; 0x5BD3E65E]];
  [[0xDEAE74B1; 0x2D23CF78; 0x43BF2F1; 0xA686767E; 0xE464ADE9; 0x3AFED34D; 0x5A6AE80B; 0x1E462073];
   [0x737F7B66; 0xA86AA408; 0xEAB3B6CE; 0xD67A0B49; 0x275355F3; 0x6FF3CA4F; 0x688F99AB; 0x6F385576]];
  [[0xFD2F9A72; 0xC9B63343; 0xAC267E8A; 0xBD0A126D; 0x5D2839B5; 0x818BD5D8; 0xBF5AFCE; 0x1BBAB4CE];
   [0x4D8B67DE; 0x2827B24A; 0xC34E6642; 0x841F6BD3; 0x5E4A34D4; 0xE9F5C1C2; 0xFDA4177C; 0x4E98795C]];
  [[0x763AB04; 0x3C9FF1C2; 0x9832FCFD; 0x4FC1BE61; 0x8BD0363A; 0x5FA50C38; 0xF26206BE; 0x14C9BB2F];
   [0x1D31880C; 0xAD1A96EB; 0x65DFCF8A; 0xF0A37BC4; 0x3D048FE4; 0x38962729; 0x6480B254; 0x17125C0]];
  [[0x98D4BAC6; 0x1E819F5; 0x36B99D30; 0xD3686E04; 0x200A4A9D; 0xC2876FB; 0xE65782D5; 0x45D50C2F];
   [0x865B7A21; 0xB8316ECE; 0xCC875503; 0xA3ADB90F; 0x98468FB4; 0xD72E864E; 0xDED21F40; 0x13BB23FD]];
  [[0xC6B96368; 0x653C3C15; 0x2B9C381F; 0x9A42FC2C; 0x69534D92; 0xF06B41B9; 0x3FB7BED2; 0x46F7292E];
   [0x97D1875E; 0x14A2C420; 0xD3B2DF55; 0x45DFA824; 0x3F2BA72D; 0x59CB7E59; 0xD7D96C98; 0x2EEC65C9]];
  [[0x49650405; 0x907CD4C8; 0x37E05E06; 0xFC29320A; 0x9E29619; 0x99B4C1DF; 0x34DE993F; 0x74E69BF8];
   [0x509D9797; 0x62C0F296; 0x5F1EF554; 0x2E6BD4E6; 0xD0B71B8; 0xE3050641; 0x235DDE6C; 0x29DA0C9D]];
  [[0x689398C1; 0x3CFBCA4B; 0x40C9DF13; 0x11E58804; 0xBCDF2489; 0x3923A39B; 0x387C8089; 0x3805CCC7];
   [0x70319AFA; 0xC1B4EB48; 0xCA089604; 0xA6A5FA4; 0x73139A20; 0x16ABDE54; 0x94BD61B5; 0x7C0055E0]];
  [[0xCB05A02A; 0xA5AB5CEF; 0xBFE903B; 0xC0B4E1B4; 0xEAC9E7E8; 0xBA528329; 0xA2456B6; 0x266C5A7];
   [0x5E216EEC; 0x507E9A41; 0xD0F1E440; 0xFCC06B0A; 0xE5C7B26F; 0x6FAEFC8E; 0xB02F85C1; 0x4744CF2E]];
  [[0x1C291BFC; 0xF5E2B812; 0x2CDCBF7A; 0xC18E791D; 0x46554345; 0xC386B962; 0x67518CD; 0x373E00FB];
   [0xE950051B; 0xC9BA9DF9; 0xDD6133EE; 0x182CB132; 0x70A3C71C; 0xD6D7F815; 0x7FAFE307; 0x44C5AEBC]];
  [[0xA9D16080; 0x6C7CE359; 0x1E8B643E; 0xA874386D; 0x7F48E10; 0xA0648129; 0x93E4D619; 0x2A402201];
   [0xBD383EA6; 0x8B429545; 0xF2880536; 0xC096D593; 0x20E299B9; 0xB4057D6C; 0x38A825FA; 0x303962CE]]];
 [[[0x1E1D70D0; 0x9E426EBF; 0xB83529CA; 0x6AEA4DDC; 0x7CC9A07C; 0xF3ECD462; 0xC364772E; 0x7F255C86];
   [0x5613BEF0; 0xDF212CF; 0x1309F9D0; 0x771F02A9; 0x805FE1F5; 0xE97BEE39; 0xD93522B9; 0x54A43430]];
  [[0xCDE4EBBE; 0xC01553BD; 0xA02E56C1; 0xB1928DDC; 0x94A1A417; 0xB91004BA; 0x56CB9C88; 0x44F74BE6];
   [0x921B62E5; 0x6A7E3E9B; 0x5FBF13C4; 0xF2BF553B; 0x86D55641; 0x51CB776D; 0x6425A3AD; 0x71826BC5]];
  [[0xC6D70EF9; 0xD6D49F90; 0x29EBA0DD; 0x5BD0DA69; 0x803233EF; 0xBBA7571; 0x679A17D5; 0xEB0959E];
   [0xB8A3D6EC; 0x97818DC2; 0xC687EAA2; 0x9497FB0; 0xA65FA4C0; 0x2E2707EA; 0x7542F472; 0x6A74D4C6]];
  [[0x1EE0BC40; 0xD193006; 0x6DC98BA8; 0x7D7BEE19; 0x447C38D2; 0x1AD37C98; 0xB6B4550A; 0x3E163AE1];
   [0x5BC93243; 0x734E36C9; 0x986C35A8; 0x54E217FD; 0x9E3285E3; 0xF0576FF0; 0x186EE7EB; 0x65C950C8]];
  [[0x2012D277; 0x1AB12C04; 0x83872384; 0x97CAB84B; 0x1C66FCFD; 0x479C9CF5; 0xF276933E; 0x70ABC8B4];
   [0xBA4D14F0; 0xE6B15BF7; 0x22E2F5D5; 0xF4060ED3; 0xCDC5462C; 0xA53F3CA0; 0xC6FC3854; 0x593219D4]];
  [[0x72B6F8A1; 0x9DE69934; 0x19E16B3F; 0xECABAEEE; 0xEDA68D7B; 0xB537CA5; 0xD3CE55B7; 0x744628BD];
   [0x98A95308; 0x3A5B2D8E; 0x6758C6C8; 0x74D0CEF1; 0xDA204834; 0x7538198A; 0xA644E880; 0x1E166AAA]];
  [[0x4674ACF0; 0xE76EE712; 0xDF9DFB4C; 0x40A6F6DE; 0x40C65721; 0x91B0034C; 0xF8E0F5E5; 0x54FE8B8B];
   [0x75891895; 0x6322CA0F; 0x7D20C522; 0x3D1C821E; 0x8043786; 0x1691407F; 0x14847D58; 0x2C30838]];
  [[0xB8F0C372; 0x57DEF069; 0xD5ABF2C; 0x50375DC3; 0x75EDFBC9; 0x22903814; 0xAE37695A; 0x56E39BD7];
   [0x463D13F2; 0xAB74B187; 0x3CDE8886; 0xC50CB8A2; 0xB35F7D59; 0x1EFBD1CF; 0x1057AE42; 0x1296C482]];
  [[0xC347E3FB; 0xA350B57B; 0xADF65129; 0x4312EB75; 0x7F9A6C9E; 0xD9A7E2F4; 0x9BFDCB4D; 0x5493AF7B];
   [0x9AC0E58E; 0x90A443DD; 0xC6F3BEEF; 0x9777D58A; 0x965EC900; 0x12F00913; 0x480126DA; 0x2F6C5B59]];
  [[0xBAD8C051; 0x70B907FC; 0xD3B4F608; 0x54492D6A; 0x2E096D9F; 0xE3B46F1B; 0x747D472A; 0x522AD6D1];
   [0x2DAB5E5; 0x8FCD1616; 0x357B1C85; 0xD3BA292F; 0x2704F072; 0xA6DB50CD; 0x8341AA73; 0x63488DDF]];
  [[0xFE2AAAB; 0x99100A3D; 0x8EA44560; 0x7D30C4E9; 0x2B4C776D; 0xBA458C67; 0xBBA4D85E; 0x2EC11420];
   [0x7A7AEC55; 0xB1D9FBA2; 0x7665AAE5; 0x432AB2AA; 0xF3BC7043; 0xD2755948; 0x82510EAD; 0x2FC331BB]];
  [[0x46253DB1; 0xAAF11CF9; 0xB0DF307C; 0xEB025AED; 0x7A82ADEE; 0xCB7C22A5; 0x9C5FA97B; 0x7316C390];
   [0xF518067C; 0x91620554; 0x3C96A804; 0x20A438AE; 0x5B0C090C; 0xC4F9DCDF; 0x6E5C1B45; 0x77C512DB]];
  [[0xFDD09EDE; 0xC981E682; 0xBBB3F57D; 0xC3EB36B7; 0xD12BF450; 0xA07369C6; 0xCE017845; 0x16627566];
   [0x9494AF62; 0xFD8DEC90; 0x53FD4B22; 0x7E793096; 0xC8AAEAE9; 0x21B8E665; 0x18BC33C0; 0x526FA318]];
  [[0x853A2647; 0xF55D32BF; 0xCDAEE8FE; 0xD873ED6C; 0x80E52622; 0xA3579E2B; 0x33D16FE8; 0x3871ABA];
   [0x69925EDF; 0x714804AC; 0xF2B964FF; 0x340755F; 0xDA0D1A07; 0x93830F98; 0xF7FB1E16; 0x2CAB201E]];
  [[0x22A8AF77; 0x26DE3A3A; 0xB45BA630; 0xE77C3DC; 0xFC86E7D1; 0x34F00017; 0x1B62F7F2; 0x796ABE2F];
   [0x1663B5B1; 0x9FA09277; 0x9B2FB9AC; 0xFFFDC93F; 0x6B340D75; 0x3AECD1A; 0x314DCCEA; 0x5D55A168]];
  [[0x747DBD0C; 0x678AEF02; 0xD47A6C09; 0xF0D47C1C; 0x3FDD1681; 0x6C2AC72F; 0x6D789D3A; 0x750E7064];
   [0xAEBEDD58; 0x3F970AFE; 0xE3540951; 0x6BBA7956; 0x3E71F6AF; 0x7CC461B2; 0xC45FED28; 0x7E51E548]]];
 [[[0x2CE2CBE5; 0x4A598EFB; 0x89C9A51B; 0x774CDE0A; 0xCA907F34; 0x2D003680; 0x9D3C7D97; 0x62C32DCA];
   [0xB3054D17; 0x37B3A90F; 0x67E58A5A; 0x1423574C; 0x4859FA49; 0xF1D3BB1A; 0x3F5AFA63; 0x25F0AF1C]];
  [[0x1FE53AC9; 0xD3BF7F62; 0xCBCE6164; 0xCE2B67C3; 0x95341024; 0xE081C576; 0x9A70ECAB; 0x32B0EF5D];
   [0x3BE1E5CE; 0x3EC93C85; 0xA0CB7DCD; 0xE25F54ED; 0x517965B2; 0x9D6B57D7; 0x129B0B27; 0x159F7AB0]];
  [[0xEEFB67F3; 0xAEF88E95; 0xE0316AB2; 0xEAEB2889; 0xC2CB6753; 0x1491881F; 0x702789D0; 0x67DCDF28];
   [0x11C0F3FD; 0x8282E0A7; 0x1BA273D; 0x9CDCFDB8; 0x26279B95; 0x6BF1E043; 0x85852777; 0xD42AAC6]];
  [[0x608981AB; 0xC4CE393E; 0x52141CB0; 0x210E20F8; 0x6B9234B5; 0x22C2586D; 0x4366750E; 0x52F1B366];
   [0x760AFA55; 0xE38ED0D9; 0xB5D61A08; 0xA43FF25A; 0xB5E21691; 0xBE3A406; 0xFD4E17B0; 0x37B47A28]];
  [[0x4C2C65C2; 0xC46DC6D4; 0xC54BE778; 0x2A0B452C; 0xF727070E; 0xAF113693; 0xC68D13A3; 0x7B229CD8];
   [0x2D43E4B; 0xF63097E; 0x55627FD8; 0x912F8D33; 0x2A0DD9AE; 0x1EBF3961; 0xF0294B2D; 0x7FD33FDE]];
  [[0xD0CC6D9F; 0xC72411F5; 0x9B92FF84; 0x66E04C90; 0xE1C033B6; 0x678B4F8; 0xE49A972A; 0x5A99F270];
   [0xD265A4DF; 0x3743BCD8; 0xCE0404C3; 0x7BD6DDF4; 0x131750A5; 0x4043767F; 0x9DD65652; 0x4A7D8983]];
  [[0x12B7822D; 0x535BC784; 0xF1F9B703; 0xDD32DD67; 0x2EAA2A1C; 0xFFDBF0EB; 0xF64E9822; 0x497C09FA];
   [0x32EE2A36; 0x18E717E9; 0x583949B1; 0xF01CC4F5; 0xA168755; 0x222EE974; 0xC81EC9; 0xCD14CD5]];
  [[0x14C79CDC; 0x7AE0BD11; 0x6DC08C80; 0x67323D1A; 0xEF32432; 0x2FD1ABC7; 0xB0E08EBF; 0x65923246];
   [0xC0754ECE; 0xA9FD3D7; 0x5F8644FA; 0xE76B2624; 0xF8BB385; 0xF1F0BEBA; 0xFC96778F; 0x73251F03]];
  [[0xD08795A9; 0x197150DE; 0xFBB8B9CF; 0xAD6935AE; 0x3B2B9EFB; 0x72118682; 0xBC2B7240; 0x265B288D];
   [0x2F78C431; 0x7BF2EB36; 0xF2A6E469; 0xF03B83CA; 0x4740E74B; 0x21159256; 0x490F0B9; 0x35BE5735]];
  [[0x806C1CAE; 0x207F33B2; 0xDAC5ADE0; 0x4249127; 0x1CC59DE7; 0xC4CCF33E; 0x272BD6D7; 0x2A17B520];
   [0xB48F6585; 0xC36F6B3C; 0x861ACF5; 0xD32A7379; 0x2C3291C6; 0x28A12ECB; 0xF02A88D0; 0xE945F95]];
  [[0xD3B3117B; 0x4836EC01; 0xA4C2FD72; 0x4C197454; 0xF9897721; 0x96FCED51; 0x5828C97D; 0x14202858];
   [0x774755B9; 0xCA7ACED8; 0x97252559; 0x460FF582; 0x5796DD63; 0xAAE45776; 0x346DDBF5; 0x711C916E]];
  [[0x5E203692; 0xA60E2E7B; 0xF3BF2A45; 0xCFC72FEA; 0x72AC0436; 0x78729D28; 0x29ABF199; 0x3E16DD8B];
   [0x15A41F3D; 0xB1705AA6; 0x308AB87C; 0x8C7512FE; 0x3995381; 0xA27411C5; 0xA780CED3; 0x3142403C]];
  [[0xF1718C7F; 0xE4473E94; 0xA3CAB6CB; 0x601BC194; 0x581D491D; 0x8F3540F8; 0x43C15321; 0x456A9B7C];
   [0x593BB7ED; 0x6F335A2D; 0x7D791514; 0xB6D5A23F; 0x79235EAD; 0x976D2F83; 0x44775C97; 0x7D02EA0F]];
  [[0xE5EC268E; 0x322DBC8C; 0xBE14BF5C; 0x1F2F6050; 0xEACF6A50; 0x58AC6397; 0xA5401081; 0x4167CBD5];
   [0xEE5B4BF5; 0x8E6F06A1; 0x6B2F790F; 0x1A6073D5; 0x4F901250; 0x1C09FF3D; 0xE6B40DF4; 0x286AF8D7]];
  [[0x6BD53FF; 0xF74C8057; 0xE5788F0D; 0x4FCE7281; 0x3D015E6B; 0xD6A867AC; 0x6E185A42; 0x4AEC38D];
   [0x83D65CB; 0x8DC12B74; 0x82966668; 0xDB1AA8AC; 0x28AF1B90; 0xBD2233BF; 0x172CCA11; 0x544569A7]];
  [[0x149BD0BD; 0x9C56FCA8; 0xA05F8E44; 0x2B4EC788; 0x92478943; 0x1569CF6D; 0x57380986; 0x67E373E8];
   [0xED3C14DB; 0xF5CC8232; 0xF52EAF83; 0xE3D184B0; 0xBC64038; 0x195D4137; 0x778C3C20; 0x77994388]]];
 [[[0xA0CC77AA; 0x3DAA0C47; 0x7C69CDF0; 0xB9794E74; 0x4549F5D4; 0x3610E50B; 0xB8A112CA; 0x262CA564];
   [0x554E8714; 0xD5EC795E; 0x717EBEF3; 0x73EE5502; 0x1947A478; 0xE36E8A1A; 0x42ADC59D; 0x3FBE43A3]];
  [[0x21FBCBE; 0x4DE78909; 0xBBBB324; 0xA76A5EE2; 0xCD67810B; 0x5B86519A; 0x3710A4EE; 0x4CCA44A2];
   [0xCD1F8BEC; 0xD79A121D; 0xDC9CA10E; 0x2E12A772; 0x8C9E9640; 0xE301CA3B; 0xB731A957; 0x4B25FE18]];
  [[0xF4AD7264; 0xA05DA2CD; 0x76977A5; 0x31336489; 0xF2E576A8; 0xC1D269BE; 0x7532203F; 0x1E877ADC];
   [0x8B92972C; 0x9C9961BC; 0x6A14D810; 0x7BA07272; 0x6913136; 0xE51095A9; 0x30E0EA8C; 0x46748969]];
  [[0x3C73BA49; 0xDB8EF346; 0x3720570D; 0xBF221312; 0x605DB0D6; 0xC07B3639; 0x300336A3; 0x44FCEFA6];
   [0x2D234592; 0x121FAC5C; 0x44E367D7; 0x901DEE88; 0x1CAA6A3A; 0x5B5F3DD6; 0xAC2F6E64; 0x72E474EC]];
  [[0xF55BE61C; 0x15690BEE; 0xDF2678A2; 0xE42B945E; 0x3B7B1776; 0x60A5C8AA; 0xEB9AB938; 0x16103FBC];
   [0x87AD06AB; 0x79722A1E; 0xD6B632A2; 0xD7B509F6; 0x3B69EB40; 0x8C4E8B2E; 0x14DB2225; 0x6A509583]];
  [[0x93B78659; 0x169F35D8; 0x8EFF83AD; 0x989B04D2; 0xA6AE4806; 0x72CF7338; 0xF4AAA524; 0x6E156C84];
   [0xA1ED5CB2; 0x33A608ED; 0xC3D28716; 0xCE274A64; 0x45F0435F; 0xFCF1B170; 0x1653D6F6; 0x101D1BDB]];
  [[0x2E5A67D9; 0x45BC931D; 0x697DA479; 0xAFF02C11; 0x2EA3E6E1; 0x7C7972A3; 0x5E97BB90; 0x71A17D50];
   [0x19AD4C5E; 0x962E84F2; 0x692020BE; 0xBB8C9FC7; 0xE7B36665; 0xA78FDF2C; 0x26F92E33; 0x7AC84ED4]];
  [[0xC3C9E5C1; 0xBD85A9EE; 0x6ED2FD6A; 0x72030BAA; 0x39CFFB89; 0xB67185AB; 0x833BF770; 0x3E2E51A4];
   [0x5E27D5BB; 0x248FA348; 0x2E6D3DCF; 0xF8D43596; 0xC8DAF81; 0x7F5B93C; 0xAD2FC97D; 0x6A7FFA1D]];
  [[0xFAEA33F1; 0xFF308FAE; 0x3CC4C7CF; 0x5F29DFFB; 0xECC5A2B9; 0xB9AD4527; 0x48D4B38; 0x8B95AF6];
   [0xDEC152BB; 0x56BC43A8; 0x3849D869; 0xD1147B9A; 0xD02AF3B7; 0xFE5020C2; 0xB918496E; 0x54C02B44]];
  [[0xB27468D; 0x1611ECFD; 0x513A562; 0x4AFCE329; 0x2FE74EED; 0x982782FD; 0x17ADD2EA; 0x66AC58BF];
   [0x613581D4; 0x8277BC2D; 0x988D1498; 0xBF5BF0C; 0x55C984CB; 0x8A37134D; 0x92211390; 0x409A79CC]];
  [[0x816F0462; 0x8C0081AE; 0x5A68BFC2; 0xB431DC24; 0x5F78C8A1; 0x25C769C6; 0xB382AF14; 0x3BE0458D];
   [0xA171ADF2; 0x10583083; 0x37F7C39F; 0xBA5D5325; 0x5EAC7585; 0x76B03B94; 0x9C2DF2C6; 0x76159AAC]];
  [[0x918E0332; 0x886C73BA; 0xD24B5B52; 0xF6FEC62A; 0x36B4D23A; 0xB98759B4; 0x5480ACF3; 0x5EC5B3FE];
   [0x6DD175BF; 0x30FF297D; 0x75F2B9C3; 0x501DE744; 0xF19230C5; 0xDEBE47CA; 0x32BBBB62; 0x7401F209]];
  [[0x22496D1E; 0x80712E47; 0xDA80AF1D; 0x36A0EF37; 0x940E5E9F; 0xAF6CA51C; 0x722D9D22; 0x74E17B6F];
   [0xB8B3AE1B; 0xCB70B878; 0x7DF974C; 0xBF8B9A0B; 0xF68A4BF4; 0x89FCC996; 0x6EB0FB2E; 0x46F581E8]];
  [[0x67137153; 0xBCE0BD6C; 0x75F64B78; 0xAD3E92B3; 0xFD047DD9; 0x6454CD1D; 0x612AE472; 0x181C93EB];
   [0x23A529C3; 0xE575307E; 0x59C09EB5; 0xB9C43A0B; 0xAA805840; 0xFD233A68; 0xA122FFB9; 0x67C442E]];
  [[0x2CD6762E; 0xE1F3F76F; 0x9764B53A; 0xFB68650F; 0xF1224580; 0x4E90AC72; 0x127EED48; 0x2BF68F01];
   [0x94D389A0; 0xE6B4B409; 0xD44593D6; 0xD7BC8108; 0x48A86677; 0xDCF03991; 0xCEBCE3C7; 0x4A52D961]];
  [[0xBAA873EA; 0x55734AB5; 0x7871F323; 0x506DE4CF; 0x578612C0; 0x7C3F8B00; 0x9243C9E8; 0x730D4B8A];
   [0xD385F6BD; 0xA3290689; 0x913596F5; 0xAF688C6A; 0xB646BE23; 0xA2D89B5; 0xF63A6029; 0x31891165]]];
 [[[0x579583C0; 0x331F9E57; 0x69C65DA2; 0xE92ABADF; 0xA5B8B057; 0xC796FBEC; 0x312D1E89; 0x52E6F9C9];
   [0xDA68DFD3; 0x318B1DF; 0xA1CAC4F1; 0x8BAA2EB3; 0xBEE7D6E1; 0xCDC89A2; 0x22AB50F4; 0x6102DE7A]];
  [[0xE20C707A; 0x2003D83; 0x28289D89; 0xD819249C; 0x72053FF8; 0x3FBC00B1; 0xDF40D261; 0x249C43C];
   [0xD8F064AF; 0x8794EEAC; 0xDC9F0631; 0xE2359E70; 0xADA310D0; 0xD1603647; 0xEDC888EC; 0x6A9E3785]];
  [[0xEC41908E; 0xF332B384; 0xBDE4760B; 0xF3274472; 0x140D0EF4; 0x96185E89; 0x90E698E7; 0x56462089];
   [0xF2E64396; 0x841A31C5; 0x3C4118F; 0x8F494CA5; 0x1A188305; 0xC98A4C3; 0x98AAB1AB; 0x1C4B5F62]];
  [[0x5D0D8381; 0xDDEEEBF8; 0x89044363; 0xD1616F48; 0x21616A13; 0x2EE41D47; 0x4BC769FC; 0x2DCE6110];
   [0x16C1C468; 0xE3707A01; 0x969AF612; 0x3B674187; 0x1E0671CC; 0xB64BD4D7; 0xB98C297C; 0x7EF01DBA]];
  [[0x815381AC; 0x91DCBF99; 0x38B67B97; 0x8D711F58; 0x9C6E322C; 0x9C11F595; 0xE31A782F; 0x4A688D0B];
   [0xDCE93F5B; 0x1297D9F3; 0x7C1DC62A; 0xA7956194; 0x5F718F63; 0x340F217A; 0xFCC0EF6A; 0x71F84529]];
  [[0x3DD00963; 0xD968E50; 0xD7FF66C3; 0x5E696D79; 0x499A9BE2; 0xAA52D60D; 0xCDC289DE; 0x72482C45];
   [0x7FFAAD3A; 0xC84968F5; 0xF7CD5BED; 0xEE91304C; 0xA7CC7C0; 0x68493676; 0x80023968; 0x3411AFA7]];
  [[0x6E3294C0; 0xA0AEBC70; 0xDC385E50; 0x93263942; 0x8467FB06; 0x7B90C002; 0x38CFD0FF; 0x29477CA4];
   [0x92A748D5; 0xADC04D81; 0x76CF3AE5; 0xAE4F309D; 0x4BB2C2FF; 0xBDA34BF0; 0x368536E4; 0x65138897]];
  [[0x6FE6D4D6; 0x9CB8F7D6; 0xAF246792; 0x6C2FFBF5; 0x81524707; 0xD5A4F349; 0x36766D5E; 0x3AFE45CE];
   [0x513BA267; 0x41991B49; 0x6C18AA5E; 0x6EF1EEA; 0x88EA2099; 0xA517635; 0xD245B88B; 0x32D2B5E2]];
  [[0x3F517C5B; 0xAE38CDD5; 0xD878FEEE; 0x1C94FDC5; 0xBEFCE107; 0xABF7A41D; 0xD408DFE8; 0x33BF3FE9];
   [0x947CB8C4; 0x4F2E6FF0; 0xF998C5A0; 0x3A8E86AB; 0xE359209F; 0x3ADC6ABA; 0xD9A50051; 0x37A2DE1B]];
  [[0xE718F6B9; 0x424F4E34; 0x75C58EB6; 0x50B1A03B; 0x91390E27; 0xB9495314; 0x880E78D8; 0x4AE0CC3A];
   [0xF1E4413C; 0x10331AFA; 0xDDFCD2F0; 0xE7A3E554; 0xEBF484B; 0x44F6DE85; 0x895D0F54; 0x6A762A7E]];
  [[0x8D0558F6; 0x8E606B0A; 0x5C4DD930; 0xAADA7604; 0xEF4ACAD0; 0x5B2FC7AD; 0x87F5B6E2; 0xD969AD0];
   [0x5974E67B; 0xF9A182B2; 0x23B4009A; 0xCD8232E7; 0x285BCC3F; 0x3D8F5DDD; 0xEEE1B9BF; 0x114AC56F]];
  [[0xAA45085A; 0xD3EA1B56; 0xD314CEDF; 0x5DE7BB70; 0x7BCCDCFD; 0x8A74384C; 0x8E0E0367; 0x64B80F8A];
   [0x48884ED1; 0xA9EA432B; 0x8C0BA810; 0x51957A8F; 0x39E810E3; 0x9E883400; 0x28B2051C; 0xA73ED5A]];
  [[0x13C30826; 0x655212A3; 0xB73E8660; 0xAE53668E; 0xFF108CCE; 0x6C33B649; 0x21D49681; 0x39E0B118];
   [0x70525312; 0xFE4D2152; 0xFFD18749; 0x2EDCE32B; 0xB04D3FB8; 0xFED19B1C; 0x2B225A9D; 0x4DFE216B]];
  [[0x4C70F8A8; 0x583E8A6C; 0x954A9AE1; 0xC8206231; 0xB76517B1; 0x9360B592; 0xEED10CCA; 0x362C5C5C];
   [0x3D607921; 0x3DBA9595; 0x5A6ECC40; 0x188A5D6; 0x6CFF4ADE; 0xEAB43C1; 0xDE3347E0; 0x1F3673AE]];
  [[0x796593EE; 0x7300C4B3; 0xD8D926C3; 0x607E7E76; 0x77F9FD06; 0x1762CE26; 0xCEA891EB; 0xD0478B3];
   [0x2618B09E; 0xB1129791; 0x33F928C9; 0x5F9D290D; 0xE6178DB0; 0xE3192631; 0x8576D3F; 0x21260AC8]];
  [[0x76968E1C; 0x899DAF2A; 0xF9C2B3E7; 0x519DEA9; 0x93D0BD4E; 0x5FDADC38; 0x43B4D98F; 0x467BFF7];
   [0x6F3936C9; 0x651C316C; 0xAF27DF8B; 0xE757689A; 0xA0FA9188; 0x3AB037EA; 0xD927B60A; 0x2F8B039B]]];
 [[[0xDE876A70; 0x72211BF5; 0x73D121CE; 0xA8361631; 0x23D419E4; 0x23852721; 0xDBD03345; 0x3F56D47E];
   [0xD6F05BAC; 0xFB0E91A5; 0xAC9D0F46; 0xA0E02BF6; 0x97F1812F; 0x5ED9EA2C; 0xEBD5DB5A; 0x172F564F]];
  [[0x81F11E58; 0xC790E912; 0x99A5DFF7; 0x14A17630; 0x1627516D; 0xF6F30F2F; 0xEFCF43B7; 0x522CAD8F];
   [0x6EA01128; 0xFFADD45E; 0xD61D1964; 0x5D23234C; 0x2802DF86; 0xE9212C85; 0x92AA8DA3; 0xA3D237B]];
  [[0xE50ED356; 0x2CED05F4; 0xBFFEEF3A; 0x1CBC7FB1; 0xBE19F0F0; 0x885991B1; 0xDE44A492; 0x6DED0794];
   [0x44CBECFC; 0x9967E834; 0x6A792ED1; 0xB0674A8D; 0xB7DDD557; 0x360E2DE4; 0x70E95D26; 0x26852A74]];
  [[0x3A6E2116; 0x8CBC1520; 0xBF285BBE; 0xF09327DF; 0x4A54D3C5; 0x8C7D9AD5; 0x6BD2768F; 0x778F54E6];
   [0x8FF3DBC0; 0x9B489F8; 0xD2871932; 0xA0FA7FB; 0xE0A8CEC4; 0xABB9DC38; 0x21E37A50; 0x2EE092D8]];
  [[0xAF6D88D8; 0xBB9256E7; 0xA218927; 0x3CDCB1CB; 0xF216D6E6; 0x8E5B744A; 0xBC885AFD; 0x6F0617F2];
   [0x268397D5; 0xFBA9CDA7; 0x5D4C75D8; 0xC6154716; 0x43FB2CD2; 0x9ED8D17B; 0xBE45BC5C; 0x4D0CE3FB]];
  [[0xA38472F5; 0x4259BB02; 0x15107D0E; 0xFAFAAE03; 0xCF0CF2B6; 0x2B8E450E; 0xED887C3A; 0x788674C3];
   [0x4B3D2EAC; 0x1F3EBD59; 0x75E41B55; 0x82CB5684; 0xC02BE49A; 0x5AB76B; 0xF5F90FEE; 0x6F13ADD2]];
  [[0x7AFA7161; 0x116374A; 0x2DB7F824; 0x8A1AE448; 0xDB656A22; 0xD3C0DA12; 0xB989204D; 0x7B095B95];
   [0xEF8F21CA; 0x24C35202; 0x2DA5A5A1; 0x91088DA7; 0xE3F97D68; 0xAAF1944B; 0x7C884134; 0x245D2848]];
  [[0x68F5C702; 0xD80C65D6; 0x21A2974; 0xE2FE245F; 0x3A11899C; 0xFB8520E0; 0x2BE6BF88; 0x4806D1FA];
   [0x20ED235F; 0xF6F8C11A; 0x7F0D651E; 0x52AC1424; 0xDB9CF6D6; 0x44C3C89F; 0xB2E2E41F; 0x6762516D]];
  [[0xFDE91600; 0x2743D874; 0xCDF00100; 0x60975FD5; 0x2D2954F4; 0x78ACC864; 0x56373454; 0x46B9E602];
   [0x6F0FB867; 0x7586A970; 0x242DF35A; 0x888E3677; 0xF1460F62; 0x5A639E79; 0x55297DBC; 0x1256517E]];
  [[0x7B9294C3; 0x3F78339B; 0xBCE77012; 0x5BA765D1; 0x512E39E2; 0xA88E0CD8; 0xF6BA6A6A; 0x2D63E14B];
   [0xEA29071B; 0xF849A163; 0x4C0A2E22; 0xF32519B7; 0x561C35F5; 0xEA5D1315; 0xD9267DCA; 0x7041F515]];
  [[0x1FE56E6B; 0xE01E839F; 0x4A93CE88; 0x3E473D8C; 0x89AAFDAE; 0xC4846ECF; 0x7D946EA; 0x4111D97A];
   [0x51A45F02; 0xC20881F6; 0xB9CD841A; 0x14C2AC95; 0xF2CBD929; 0x2FBE8329; 0xC812608B; 0x1E8B7469]];
  [[0x7F0A5D; 0xB36A5D03; 0x5DCF7AF4; 0xA7E7A1A8; 0xBEB12AFB; 0x7227F4C5; 0x4D276783; 0x46227792];
   [0x48403B93; 0x9EA64D4C; 0xB333ED5; 0x58EA31BC; 0xC5C93119; 0x2D6DD219; 0x45069280; 0x385023A7]];
  [[0xF60C46AF; 0x8AB9B9EA; 0xE8B827C2; 0xFA1D3F08; 0x1BAD41DB; 0x78C6BFBC; 0x23BE0C1E; 0x527A0BED];
   [0x6ACCE641; 0x66212FD2; 0xEE6F78E7; 0x86125B0D; 0x58552A8C; 0xA2A02718; 0x7E9605C5; 0x594F2B77]];
  [[0x88A27989; 0x3FB1F6CF; 0xD96268B8; 0xBC4962F7; 0xB95E2A36; 0xBD8761E9; 0x46DEC63; 0x64AB934A];
   [0x2E53CF1A; 0xC64D1C59; 0x578C5E8C; 0xC9865A9B; 0x7A0359DE; 0x5ECA6232; 0xFB4685E5; 0x127DD136]];
  [[0x1AE320C9; 0xB0F7B071; 0x52525203; 0x9BF89BB; 0x709C5692; 0x97B20027; 0xEDBF6175; 0x16A62485];
   [0x394C50F9; 0x32C18836; 0xD3B98C19; 0x7D99468F; 0x2E8D2729; 0x8EBE5096; 0xE655F093; 0x4E75B3CC]];
  [[0x9EAE827E; 0xCBEFD1A2; 0xFBF4630D; 0xDE2D1234; 0x96086CDA; 0x1B3ADCF8; 0x2EA6CBA7; 0x43D3960E];
   [0x1CB5A0F7; 0x18321D1D; 0x47BEABB4; 0xDC94C6F9; 0x75AF6AB7; 0xFBACC6D5; 0x89B98E86; 0xEE5D357]]];
 [[[0x62E0994; 0x3F01B4AA; 0x5C952259; 0x994B28B0; 0xCDEEC70; 0x2678F8B8; 0x212436F3; 0x4D06AF84];
   [0x1CF27A98; 0xE9DF52FD; 0xB7718F7; 0xD56B9FD1; 0xD9AEDA0D; 0x728BE624; 0x1A646888; 0x9871088]];
  [[0x9B586B13; 0xB1BC922D; 0x3CA3B1BA; 0x6C084C54; 0xCF322698; 0x54D196C7; 0x85D527E1; 0x6EC3A55];
   [0x2A57CAA1; 0x6918710; 0x65FD0F6B; 0x6AEAC07D; 0xF512F84; 0xB66A34D7; 0xA44E6452; 0x3860C002]];
  [[0x881608A; 0x17263B26; 0x56C18A7A; 0x78D556AA; 0xAC3A47AB; 0xA0826A1C; 0xB6933FF5; 0x61686A58];
   [0xDBCF2C4F; 0xEA9D8771; 0x6AB00426; 0x1C66EB02; 0x401C466A; 0xF8DAED2B; 0xDAAE8040; 0x1ED0A99A]];
  [[0x7208E58A; 0x31EFFC4B; 0xB4E4319E; 0x28868456; 0xD46AC4DA; 0x1059C249; 0x2279B362; 0x3589D212];
   [0x45552E92; 0xB28B8FAD; 0xC3AB8098; 0xC9E32541; 0xF14B35A1; 0x82604904; 0xDB68C214; 0x1E64A89F]];
  [[0xAB6947AF; 0xDF0E223D; 0x771670D0; 0xE74EF1D6; 0xF429F03B; 0x70A9AD21; 0x1385B8DC; 0x7CB1FA1F];
   [0x69053D24; 0x25ABC0A7; 0x6369D02E; 0x207FE30A; 0xC6E4EC2C; 0x57B76E3C; 0xB927CAB2; 0x2E03D2E3]];
  [[0x622D57AE; 0xEFA377FF; 0xA885951A; 0x41532F56; 0xCC69B9A8; 0x5ED89AA7; 0x295F5E84; 0x60BFF2EC];
   [0x1E5C3041; 0x411D65C3; 0x4B7772F8; 0xDB533F8B; 0x3BDD4AEA; 0x72CADEB6; 0x7C49E454; 0xEC79DF2]];
  [[0x81D0B84B; 0xC39332C; 0x95FF472B; 0xA76A9A3A; 0x31DB2BA6; 0xD12FEB99; 0x3683E53A; 0x4AAB9222];
   [0x24FC6271; 0x56CB18AF; 0x2544C72D; 0x671581D6; 0xFBD6F4D1; 0xCD136492; 0x3579EE09; 0x6C202318]];
  [[0xC103C348; 0xEDC5AF02; 0x155A103D; 0xDA32344E; 0xB0D1377E; 0xFF3A7679; 0x68F02750; 0x16091972];
   [0xD9E9C143; 0xD4C6360D; 0x968EE990; 0xE0ABA0EF; 0x97E4C9AE; 0x57816878; 0x9D63E32D; 0x5A4D167B]];
  [[0x50E25802; 0xB04BA525; 0x66912F15; 0x11DA36E; 0x19E0A182; 0x8D8B680; 0x2E462B0F; 0x66AA4AE8];
   [0xE0B9D283; 0x3227C3A6; 0xF2B2B096; 0x9BF8C4D0; 0xBA809EB7; 0x1E51416C; 0x2A67D346; 0x68411B75]];
  [[0x37A67F3B; 0xE55B1348; 0x96484391; 0x5E32D73C; 0x6256B91E; 0xC3F804D5; 0x3B0783B; 0x67F17A47];
   [0xDD2334AD; 0x2010EFEB; 0xB10FF052; 0xBD9965B5; 0xF58ACA52; 0x519CDA6D; 0x2FD3D394; 0x45BEEBE]];
  [[0xEA271BCD; 0x81722E2C; 0xA4F1342; 0x393C082E; 0x53B345CE; 0x573F7CD5; 0x3D7B4292; 0x7AD71FE2];
   [0xDA8BECB8; 0xDA406D0A; 0x82FE66BC; 0x14FD41CA; 0xA91DFFC; 0x80A41062; 0xF4F0CDEB; 0x33E38E10]];
  [[0x2529532C; 0x234BF38; 0xA76CAE3B; 0x9F5D6342; 0xB3C50442; 0xC9944CB3; 0x8ABFAF17; 0x51752DF0];
   [0xA37B13FB; 0x2BFA58C4; 0xDDB14951; 0x19F80FDE; 0x7DCB927B; 0xDC7026AA; 0xAAB9FCBA; 0x57907272]];
  [[0xF3C046C2; 0xCE38712D; 0x47B29D0E; 0x21D1FDB0; 0xCD96D414; 0x7F746E0E; 0x636CFEA4; 0x72F07B52];
   [0xECE6382D; 0xD8FE94F; 0x24229CA4; 0x9BFB4CBA; 0xE54388B0; 0xFAE55B77; 0xA188299F; 0x74EBC32]];
  [[0xE21DCCA2; 0x8AF2EBCD; 0x377487F2; 0x9916A6B6; 0xD8051D40; 0x607DC19A; 0x419DDE12; 0x7DFD53F4];
   [0x9AD07924; 0xD17D0D61; 0x173E266B; 0x14F7CE0F; 0x281C9EB; 0x687FB853; 0x3361B273; 0x6B35CC1A]];
  [[0x16E02DE3; 0x7CD6369E; 0x1F35DFBC; 0x118EE0B1; 0x98B3EE60; 0x7D8C8DBD; 0x8D29EA17; 0x39806FC];
   [0xEC2C2597; 0x3C473872; 0x5E4EF521; 0x81294AF4; 0xC22A9D7C; 0x5ED048DB; 0xA08C4D4; 0x3879E95B]];
  [[0x96A864FE; 0x206E47F; 0xA55D0631; 0xC94F137A; 0x8E8408F8; 0x9C1B3D29; 0xB9193A5E; 0x150A4046];
   [0xCB1ADF21; 0x4E8F9345; 0x7BD5E1F9; 0x6ED14D8A; 0x60809F68; 0x70825329; 0xFA85A06C; 0xD2F1C3B]]];
 [[[0xB5C810C3; 0x3C5ABE75; 0xE28F1E26; 0xEA2C3EF9; 0x8BF68280; 0xEEB1C568; 0x7AE69110; 0x5A165CEB];
   [0x44550DF1; 0xE36C6460; 0xDB909258; 0x6FB4B108; 0x17D4D8C5; 0xBFA14277; 0x927976D8; 0x744CAF23]];
  [[0x47EA55C7; 0xCBE70DF9; 0x535457AE; 0x8F8119AE; 0x7DAFD732; 0x1E3C69EC; 0x39D409A2; 0x1A2E162D];
   [0x5F81C227; 0xBD7576A1; 0xC86AC2C3; 0xA040AF9E; 0xC10FC749; 0x5690C059; 0x49CFAEC6; 0x20B26E88]];
  [[0xE3EF781E; 0x87AEBD1E; 0x1609A1F0; 0xBC794A62; 0x26E7F61B; 0x96D83142; 0xFC51D17D; 0x5198577F];
   [0x8E6D0124; 0xBFB5FAE2; 0xFFD5BD72; 0x91A7172B; 0x2832847; 0x474B0154; 0x59827FEB; 0x4BAF0B4C]];
  [[0xBA090294; 0x5EADAA8E; 0x11A6E9FA; 0x51401BC9; 0x1D2594CD; 0x78F11758; 0x82D203C2; 0x1811AD30];
   [0x53FD07CC; 0x554CC39A; 0xC7A05601; 0x55FC983; 0xD5A80B4B; 0xB3B34E95; 0x1819BC16; 0x72B4CF94]];
  [[0x514FAFD0; 0x750E4F0; 0xAD61C7B1; 0x297D27E6; 0xA2D5D410; 0x701D743F; 0xC83B55C9; 0x535DD97B];
   [0x1CB11BB0; 0x2EE96DDE; 0x914450F; 0xECEA32EA; 0x4CDBDA6A; 0x4FB81236; 0x233C8063; 0x5B75B6B2]];
  [[0xD69D6C6A; 0xF0A934A6; 0x3CC80AC9; 0x313E8977; 0x1E428B71; 0x74692B17; 0xE1BE662D; 0x474FEFC];
   [0xAFFBF61B; 0xAA2FF6DB; 0x776983AF; 0xCE1594E1; 0x4D5A2596; 0xF00C665B; 0x7D414B9A; 0x30DD2449]];
  [[0xACC44AB3; 0xEF862DA2; 0x6EE7A44A; 0xBAD6857F; 0xD2F9027E; 0x57674BF9; 0x2ABF816E; 0x4D771CC3];
   [0xAC0F1348; 0x27BEFC18; 0x5E4F1202; 0xD83112EF; 0x8E9AAAE5; 0x3571BDE3; 0xC1379B13; 0x7284830]];
  [[0x72A8890C; 0xA4C2F36F; 0x5824B392; 0x22DF0E81; 0x5E720240; 0x50FAD77F; 0x3278F96; 0x1D152A69];
   [0xA7D80F17; 0x25A3E92E; 0x7EF32666; 0xBBF85B32; 0x27222E52; 0xBBB55687; 0x7582FE42; 0x756D22A6]];
  [[0x9BC9EAED; 0xAE7493A; 0xDDBB275; 0x9185F53F; 0xC3DFDBA7; 0x1585D068; 0x562E2455; 0x543208A1];
   [0xCBCF9535; 0x4C417D81; 0xE35DD6ED; 0xD2DC38D3; 0x346F03A4; 0x9DF1E014; 0xF0E772A6; 0x65736E3F]];
  [[0xCFB7FF06; 0x58684A7B; 0xC58E6316; 0x72CC4AFE; 0xA8BB508A; 0x2CA9BF30; 0xE2044C8C; 0x61576519];
   [0x8FF6D2B5; 0xE78FAD3D; 0xA934C7B2; 0x6E5B839F; 0xFAFA9F9B; 0xC1F3D367; 0xF8B2AFA4; 0x637CC398]];
  [[0xFE2B2639; 0xD6FC1806; 0x9E98A7F2; 0x1DB199B4; 0xC794F900; 0x508763D; 0x3232E5AC; 0x363F1F7D];
   [0xBBDBB351; 0xDCF2AD74; 0x5A506BC6; 0x91F2EAF1; 0xB850088B; 0xBDE8459E; 0x3E1135AF; 0x52DF883B]];
  [[0xF93779DC; 0x12FD053A; 0x9E319E46; 0x3E3D8728; 0xE5E360AE; 0x4D631005; 0xB1B29A30; 0x4A8B5683];
   [0xA8CA45EF; 0x305E5E53; 0xC2914843; 0x59EACB45; 0x1988ECEA; 0x83677B7A; 0xD6FD53E8; 0x63D9CD36]];
  [[0xB77EB45F; 0xDF2DACF2; 0x55BBA70E; 0x3C1303E3; 0x4526A06C; 0x5AB8EB42; 0x7FE06BBC; 0x4D4FD216];
   [0xE1486ABC; 0x98C5ADCF; 0x7F86F3A; 0x9A503BFF; 0x56282E44; 0x7CEBAECB; 0x1F230DA0; 0x4FB09037]];
  [[0x27210752; 0xD1A37384; 0x2CF1C74; 0xD10794D6; 0x820CC08C; 0x48A2095A; 0xE3284B9D; 0x6DCDDE2E];
   [0x5D40510D; 0xB8C7203E; 0x5385E3A7; 0x957E8982; 0xE27D7C13; 0xD220BE2F; 0x7B471B5B; 0x2D104AC5]];
  [[0xBA0AFA8D; 0x3B31D52B; 0xDCC85F88; 0xFA9639F5; 0x8861DDD7; 0x15014637; 0x7B5443B0; 0x31C222DB];
   [0xC3CDD689; 0xE2618546; 0xD528A130; 0x7F3FB754; 0xAC5FAF99; 0xA0915810; 0xE9899CE5; 0x3863B890]];
  [[0x579C4353; 0xBDD42CA3; 0x4D65CB5B; 0xAD30567D; 0x6D91810B; 0xE343F21; 0x42E19816; 0x65E0092D];
   [0xF84E8C8E; 0x76154DCC; 0xBA4AE59; 0xBA147CA8; 0x56A1A71E; 0xCA8085E7; 0x1A158536; 0x1D90B4B0]]];
 [[[0xF8B6C26A; 0x5C4B7438; 0x645BBE80; 0xC17A41B; 0x40CF3D85; 0xA386062D; 0xE78F776D; 0x563E42D2];
   [0x1F07459B; 0x4BB8E356; 0x75D222CD; 0xF01A24B7; 0x24CF3F61; 0xBE3D032B; 0xAD5F3A3; 0x759B0167]];
  [[0x7D201AAB; 0x2F5AEBD1; 0xC0AE02AD; 0x7B14CBEE; 0xEDC6388B; 0xB9B54430; 0xB622E01F; 0x69E713FB];
   [0xC5361565; 0x4630EE8E; 0x5C8FB479; 0x6705961E; 0x7C2AA45; 0x125CC97E; 0x25AE3B12; 0x4BC459F4]];
  [[0x28CF94E4; 0xEF025496; 0x9DB24DE6; 0x4CFAB25; 0xC62254EF; 0x52B8C734; 0x568AB164; 0xF2FE922];
   [0xE3F39B40; 0x48551A05; 0x31A7C7F6; 0x4A36865F; 0x840441AE; 0x4486512C; 0x8C7C4B4D; 0x559C6CAF]];
  [[0xF103030; 0xFCC0D1DA; 0x39CD584E; 0x7A9F1D55; 0x681D0D37; 0x3EFB9B94; 0x4D842332; 0x3AE97CCD];
   [0x3C03676B; 0x85A8ECE1; 0x3AD435A1; 0x30F8775; 0x7F2D73B5; 0xF6019B4D; 0x2F14F911; 0x6B77E31A]];
  [[0x9186C671; 0x65C8161B; 0xCDFF2F8C; 0x412C3CC7; 0x2C2FEA33; 0xBFFC1719; 0xC3675845; 0x75DCF68B];
   [0x3B23D576; 0x476AFBF; 0x19315F79; 0xB20CAEE2; 0x885471A; 0x1BC2A859; 0xC328279C; 0x410FF6CF]];
  [[0x60569D94; 0x327394D9; 0x6EA39D95; 0xFF2AEB6A; 0xEA0CA3AE; 0x1BED71E8; 0x21072A94; 0x1000A81E];
   [0x73C02416; 0x368EA229; 0xA4941BC; 0xDF5B2A42; 0xD0D40B3A; 0x4FFDC7B8; 0x48ABAB4E; 0x7B2C73F1]];
  [[0x81EE1072; 0x90FE34E4; 0x310E13D8; 0xAE7A2FF4; 0xCAB3927C; 0x6213D3B1; 0x7DC7E9EF; 0x44936FBD];
   [0x23A1BDBE; 0x3B898EF3; 0x54CC7B1D; 0x3FA6C6A0; 0xC6AC54F2; 0x41BCC3B5; 0xDC10AE39; 0x1AB5D168]];
  [[0xFEAF67A6; 0x1AED113C; 0x342AC459; 0x4E3C7A1; 0x7A99DFBC; 0x65A39278; 0x642329FF; 0x3ECBC6B];
   [0xA6A4421A; 0x799F4EC5; 0xBEE18B3C; 0x44522C26; 0x1975C4BB; 0x1C7BFF15; 0xE6A27857; 0xFAA03BE]];
  [[0x743FF7B; 0x173AB9E0; 0x2CFC95AE; 0xB11187AE; 0x9C112049; 0xCA81BB2E; 0xC03555D5; 0x6B811DB6];
   [0x4FE32256; 0x76C1FC14; 0xD0E47C4E; 0xDA8C5A96; 0x29FDB01C; 0xB645D413; 0xAC39502A; 0x78898447]];
  [[0x9BF44B35; 0x4285FF32; 0xE3358C7F; 0x207F9029; 0x63BAF4CE; 0xFE8F032; 0xFF15E1F7; 0x698A0398];
   [0x7E572DF6; 0x54874843; 0x9F43C07B; 0x74683519; 0xA433D6A; 0x47BAB49E; 0xFAB5C858; 0x9ED8740]];
  [[0x1F6CA820; 0x8AA5E5C9; 0xD3C25BEC; 0xAD290A94; 0x3BA255F0; 0xDC4C67BF; 0x1DEDD8A9; 0xD7EF7D9];
   [0x5EEFD1C3; 0x831A26F; 0x4483E0C; 0x78CA66F5; 0x2FAAC15A; 0x9D5A5612; 0x5D6FACDB; 0x43B0C7E7]];
  [[0x4503899D; 0x34BA537C; 0x2AF8ED3B; 0x9DEBC8F5; 0x84F416E6; 0x396995E9; 0xC7BCE392; 0x77F10FED];
   [0x1F8AF262; 0x65CCB72; 0xD2F00FC4; 0xE220ED60; 0x5EE25B46; 0x41A5FB06; 0xDD9070B1; 0x22505574]];
  [[0x44BFC5C0; 0x571FF151; 0x3138363C; 0xBE2558B8; 0x605E356C; 0xB2211ABD; 0x176C5F53; 0xB6435DA];
   [0x8DCF484E; 0xF18C917C; 0xCD93D65F; 0x45D4120C; 0x190AE7F8; 0xEBB0BF9C; 0x8D8C8D5A; 0x3D403DE2]];
  [[0xBE656644; 0xCDE760B4; 0x2D21DBC5; 0x99DC5E6D; 0xB6232D08; 0x644FCAF3; 0x859341E3; 0x52955488];
   [0x25763919; 0x3AB4580D; 0x4EF66999; 0x82AB0C53; 0x180663E; 0xBD395C74; 0xB4756474; 0x7974F1A]];
  [[0x31588EA6; 0x8C15CFE7; 0xF36C882D; 0x9629060E; 0x862B080D; 0xDF8E8E9E; 0xD7A0C5BE; 0xBD36B48];
   [0x76DA047B; 0xEBD0C6C9; 0xBB94FD5A; 0x4F0F08AB; 0x74910D9F; 0x33D41A4E; 0xA9583754; 0x3D6F8D0B]];
  [[0x4E4FC72E; 0xEC4C896E; 0x2ECE31; 0xB111210C; 0x2AF11E21; 0x7204D937; 0x5D0509E9; 0x59B9C1EC];
   [0xF9D5BBC0; 0xBC97644C; 0x31B4E869; 0x25B123AF; 0x5A6CAAB0; 0x91D7AEC; 0xECC911C4; 0x340B9E80]]];
 [[[0xEC208406; 0xE8036B20; 0x214CEB5A; 0xAF46A05A; 0x46CC8379; 0x8672084A; 0x4BA7885; 0x7DE0A42F];
   [0xC9D3F32A; 0xB772BEDC; 0x534B1520; 0x7DAE3680; 0xEC7120CC; 0x4CD6203; 0xB4E99780; 0x32F88E3]];
  [[0xE4A0897E; 0xB34BDA5C; 0x379B2480; 0xF7748B26; 0xB2D97522; 0xF47F6646; 0xF9641DB9; 0x66AD8DE1];
   [0xD1BF09C0; 0xF8EB919; 0xB95DC052; 0x7853BB4E; 0x62B1FD4A; 0xBE7EE13D; 0xDC7CE53E; 0x2FF7EDC5]];
  [[0xEE81DF35; 0xE1009AA0; 0x61D0798B; 0x14972F02; 0xF1EA1A6A; 0x5A6831A0; 0xCAB301A; 0x1DBABA3D];
   [0x157D5213; 0x421270E2; 0x6407B790; 0xA37BEA95; 0x103A6073; 0xEAD56B1F; 0xBAD909F1; 0x27534624]];
  [[0xC2621EF1; 0xC92D2209; 0x1D3AD3F3; 0x450710C3; 0x19E481AD; 0x8CFB8D6C; 0xE6DB01BD; 0x35CACDAE];
   [0x7CDD5B01; 0x2DA4A1D8; 0xF55BA11; 0x3E40C751; 0xB15C162D; 0xA91D9EE7; 0x11DBA157; 0x13AD3BE5]];
  [[0xE72F64F5; 0xAE417DB0; 0xF13352BA; 0x40822279; 0x1F2B75B9; 0xEC43AFD9; 0xC9CF2972; 0x14D4BB2B];
   [0x761B2F1; 0x4A55718A; 0xD81A9307; 0xDAFBF756; 0x5D3E5A07; 0x2DCDFC1C; 0x2EBBDF28; 0x696E42ED]];
  [[0x68705410; 0xF4739399; 0xAF5FFC88; 0xFD581005; 0x90A9F517; 0x5490A694; 0x8CF8327E; 0x4A5C8C2E];
   [0xF7D83DA6; 0xC203CD35; 0x7282368D; 0xECAA6B90; 0x2AF7EC42; 0x365BB571; 0xD4099316; 0x112E7ACD]];
  [[0x3AE3C25C; 0x9ABDE060; 0xEB9925B2; 0xE4C03DAD; 0x9E03388B; 0x3C28DCB1; 0x52B63C06; 0x2337A7CF];
   [0x4E1AF2EA; 0x74DC0F13; 0xCD0D59AA; 0xA010E4E3; 0x9FA14C96; 0x6E4DB7BA; 0x557F7CDE; 0x5B2C3862]];
  [[0xC8C79CA9; 0xC826E567; 0xE851BE0C; 0xE7D110CA; 0xA3606499; 0xFFD57057; 0xC6482504; 0x2E9DBC40];
   [0xF784D9AF; 0xC9F0C3C2; 0xB755172E; 0xDD982A05; 0xA023997F; 0x6BC6C19D; 0xE34493C6; 0x4AC177BE]];
  [[0x4FA4F134; 0x21C3E087; 0x86F9722F; 0x66E10C34; 0x7398579A; 0xD2927B01; 0x352C3D3; 0x7135B638];
   [0x3BB5EE11; 0x2DA62007; 0x3A946236; 0x8B64F13C; 0x30EAE6DF; 0x3A83C854; 0xEB6F749; 0x31114E2A]];
  [[0x35BFC72B; 0x2C7B52E7; 0x2B0D4C2C; 0x6DD29EBD; 0x6C92E82D; 0xE90D3988; 0x3864D94D; 0xA924901];
   [0x9BEE9E78; 0x63050824; 0x3DD5CF; 0x7929FD62; 0xE57507D1; 0xD04F832C; 0x37D2C32E; 0x61078BDC]];
  [[0x2E75264A; 0xB118AFDD; 0xEFD65114; 0x3AB692EA; 0x8B0A2128; 0x58D2CE24; 0x82ED6D5F; 0x4316E6C2];
   [0x46345BE4; 0x97766FFF; 0xA7451AA; 0xD7FF3014; 0xAACE2E37; 0x78A423F; 0xA6A78919; 0x7F1F90C2]];
  [[0x8E9E3D4D; 0x988FCCB0; 0xB95C9731; 0xBD003FC0; 0xB0A84E58; 0x74E40076; 0x1DF7FDD0; 0x5FD1DBE6];
   [0x4E6CE2FA; 0xD2C700C7; 0x903C5AE7; 0xA6E042E2; 0x3C73822E; 0x561CC25F; 0x2A6A0C0C; 0x651A7939]];
  [[0x88CD7642; 0x103E9EC6; 0x3C3C86CE; 0x65ED5218; 0x82785C8B; 0x16BAB002; 0xF34723C5; 0xB5C18BB];
   [0xE724D144; 0x528B0546; 0x780EEF9E; 0x5E582A6B; 0x122F17AD; 0xC08283B8; 0x1C22F32D; 0x300EDCD]];
  [[0x38DCFD39; 0x3AC716A; 0x94F12C74; 0xCD88474C; 0xE9042CA8; 0xB5E8641E; 0x40D10558; 0x1D5746CC];
   [0xCB4BB408; 0x7869F45E; 0x569489C3; 0x28FB091D; 0x50A46306; 0xEA371EEC; 0x75AA224C; 0x28025796]];
  [[0xF7A5923A; 0x4EAFA44E; 0x6B69FD8B; 0xD2427C30; 0x393D83F9; 0x4C4E884A; 0x6236AB65; 0x2D34890A];
   [0x35CC97F5; 0x80038D40; 0x97897472; 0x4FE43C84; 0xBEF161AF; 0xE5F56243; 0x9372E631; 0x3E1BDD6F]];
  [[0x5732669F; 0x6A2B287; 0xCDF4D2C0; 0x92D00397; 0x454A57F5; 0xCD9A25F0; 0x2F0CDB0B; 0x23ADB724];
   [0xFF0F8CB0; 0x504DA603; 0xD3E24181; 0x14EF9D30; 0x47FC1E66; 0xB1B1328E; 0x6C60354D; 0x319B2A84]]];
 [[[0xF1D56038; 0xBBF5542E; 0xDD71CFC3; 0xEDE3E637; 0x2E9F6C8B; 0xFAA81D21; 0x69FBD060; 0x4DD2D44B];
   [0x14366A20; 0x71FB6233; 0x9575451D; 0x155E486F; 0xEC7807D9; 0x1106F0; 0xC617034C; 0x1C80E5AB]];
  [[0x8619F5F4; 0xD3E478DB; 0xF68170C2; 0x1DF5C367; 0x3430DE1D; 0xEAB09524; 0xC3CD4C24; 0x48F09361];
   [0x60644FED; 0xE49DEA4B; 0x758C3679; 0x47170F1C; 0xB0382A84; 0x4CC1E6E8; 0x10A4465E; 0x2DBDB9DA]];
  [[0xC8400A4C; 0x67BAA79A; 0x1D28ECE; 0xFA306753; 0x6F33289C; 0x29DB5B1C; 0x26A8FCB4; 0x44757573];
   [0xE1B0A795; 0x59616219; 0xC5B32FA0; 0x3032D939; 0x7C3CEA2C; 0x3010C917; 0x9892BDF4; 0x5CF83EF1]];
  [[0x3C7E83E6; 0x55DE1141; 0x74EA0366; 0x9D03929C; 0x83BAF3FE; 0x5CA60C50; 0x7F70E905; 0x3D9BCA58];
   [0xFCC5AB59; 0xDB79DF5A; 0x53F68D30; 0x3CFCF06; 0x4FCFA5F1; 0xBE101A78; 0xB49E493C; 0x115D7078]];
  [[0x76A0CCBD; 0xF14023AA; 0x86F2E50; 0x4287F0BC; 0xF79A37E7; 0xC5EAA559; 0x4E4F2A2; 0x5D527C09];
   [0x51DAA504; 0xEC914616; 0xEEF1DC95; 0x250D90C6; 0xA50330B2; 0x1B0AA868; 0x54189BBE; 0x7B45A783]];
  [[0xF019D6FF; 0xD602E05; 0xDD1800BA; 0x563E3893; 0xF3C7F7E5; 0x7146727E; 0x4B026635; 0x59641D98];
   [0xE91DDBB8; 0x50BCF90F; 0x7F8397A6; 0x5D43E78E; 0xEB15896E; 0x8734A261; 0x9FF6B361; 0x4AD1E864]];
  [[0x320322F1; 0x1A9B601F; 0x91F611C4; 0x606D40B3; 0xA19C918F; 0xB984958B; 0x776F834E; 0x67BFB045];
   [0x68DD85F0; 0xC59E5569; 0xD4067875; 0xB5642834; 0xCB138DF3; 0x247E7D65; 0x5CB9281D; 0x73640A03]];
  [[0x88639889; 0xC7C34CCC; 0xA785C707; 0xD9E44E07; 0x32F83073; 0x1BE68EFE; 0xAE5317CE; 0x249902DA];
   [0x76CA92FF; 0xF1F0B86A; 0xC01CB06B; 0xA7F502CF; 0x595AA185; 0xA8B4766; 0xB792DE49; 0x614135AA]];
  [[0x564F2BC8; 0x5392CAA7; 0xCC894FCD; 0x1CDDA684; 0xA4EBF82F; 0x10AC2378; 0x5051BFF9; 0x6211EA46];
   [0x30E8E210; 0xE53B0174; 0x2C0E381; 0x2374FEC3; 0x4DA07224; 0xF8B1506B; 0x54DA7A08; 0x4E451E01]];
  [[0x241FC7FB; 0xA8404D9C; 0xC4406332; 0x1D6DBF6E; 0x30162118; 0xFE142319; 0xA7EF5EF5; 0x69DE75CC];
   [0x856E26A5; 0x8D4D09; 0xC588ECF6; 0x2BC64B65; 0xAA01EE19; 0x7A523D0B; 0x932F0B95; 0x213EF390]];
  [[0x1CD716FA; 0xA42FE513; 0xE8001B6; 0xFB13B3C6; 0xD8F530CB; 0xBFDC7998; 0xF1C61761; 0x4F9C05B];
   [0xAFED9D64; 0xFB57396F; 0x421AC123; 0x28CCEE3A; 0xF6C21ACC; 0x32590C9B; 0xBCA75AE3; 0x503B97CB]];
  [[0x366946ED; 0x745208BC; 0x4C906596; 0xA75D88E9; 0xEE043530; 0x3A30C7E; 0xD11BF4D5; 0x5C67C151];
   [0xE7AE4BB3; 0x4F75DFA; 0x7F8D7404; 0xA0813606; 0x19D68F64; 0x8B9F9210; 0x6F73B55; 0x5AB67971]];
  [[0xB0687095; 0x8064C4A; 0xB0106DF4; 0x27E30DDD; 0x8482524A; 0x31D29C70; 0xD86FDACD; 0x65DD5896];
   [0xC647197E; 0x81C013D; 0xD7A53A45; 0x51C10B9E; 0xDD7FC53; 0xACB9A4DE; 0xF646220B; 0x639997A2]];
  [[0x1FB93B43; 0x97CCF825; 0xE488D786; 0xB7D7713D; 0x3E4DBB33; 0x4F759566; 0xE0F09964; 0x13B5D8A1];
   [0x316CDD97; 0xFFDDAD74; 0x52C92EE9; 0x67C55782; 0xAC5D6FD; 0x3B50F94; 0x1484DF88; 0x56C5C009]];
  [[0x1778D303; 0xDCE199E3; 0xF1DD4EC; 0x53A2A4C6; 0x370A7B99; 0x7CC5EE9E; 0x2598744E; 0x4403202B];
   [0x228247B6; 0xCCFAA978; 0x4A1D0E27; 0xF50D14BD; 0x80723ABC; 0x66695061; 0x742C0015; 0x750CCB6A]];
  [[0x81A109F1; 0x7B046936; 0xD4C1AFE5; 0x6414D9A3; 0xDD14AC1F; 0x35070548; 0xDEC0D3F0; 0x27172F39];
   [0xF2E273F0; 0x4EE0A7BF; 0xEC82B8E6; 0x28C7813; 0x2081EAE2; 0x907BF09F; 0x414D6421; 0x72E4C3D3]]];
 [[[0xA073711C; 0x2064097E; 0x5A65EC25; 0x980D830A; 0xF0877567; 0x7906A87C; 0xF1980A3A; 0x3E5EAE10];
   [0x9272CE32; 0x5F51023A; 0xA437C974; 0x71D69E68; 0xD0B579FF; 0x32006EA1; 0xA436E129; 0x191935FF]];
  [[0x91C1474C; 0xE5FE2909; 0x1F0B10F5; 0x7350B9FA; 0x6B4AB128; 0x2006F41D; 0xCD95FA42; 0x4EBDA6CF];
   [0x5DA9A7F4; 0x45028938; 0x57FB462B; 0xD8129DE4; 0xE592EF90; 0x4F2BF2C9; 0xD6751DCC; 0x14A1A16B]];
  [[0xDE0CD47A; 0x7460BB84; 0x468CBA3D; 0x261F24D6; 0x1E3C2D8A; 0x229D3181; 0x1D19E059; 0x4AE520C9];
   [0xDF8DC66E; 0x5AC3AEE7; 0x299697EE; 0xCB417060; 0xCE97514F; 0x227C1497; 0x2E991FDE; 0x2589B803]];
  [[0xA97A5D03; 0x7FE9D585; 0x10D58157; 0x7333A1EF; 0xC94C3DF6; 0x54C1CCD2; 0x28073B4E; 0x25C1B252];
   [0x635AD79; 0xEEB29AF9; 0x9AA38848; 0x880019C1; 0x30A9A497; 0x1A859942; 0x92B25ABA; 0x57EDCC2D]];
  [[0x65E19DE6; 0xA98DAE7D; 0x46AD8696; 0x8007DD17; 0xA7F3BBAD; 0x61F2E2CF; 0x54193858; 0x1EFCD387];
   [0x11666ECF; 0xFB54FD60; 0x36E7D371; 0xD97EA5DF; 0x3B9371FF; 0x944CA170; 0x5DE7FB0; 0x32A52CAC]];
  [[0x19ED8B5E; 0xB960FFF6; 0x660354BB; 0xFD6B4C3E; 0x1C9E95F0; 0xF8ECAADA; 0xA8E08CC7; 0x687A6D29];
   [0xC6A83D12; 0xD38B7670; 0x1265BF30; 0x1646064C; 0x2464892D; 0x7DE19FFE; 0x1BDBB729; 0x5B57E08]];
  [[0xFFB7A98A; 0xF3586B04; 0xCB072826; 0xF1850CDC; 0xCF53BFB0; 0xFA3E66A4; 0x6E07221; 0x7C78E567];
   [0x3B4E72AE; 0x21E6F245; 0xC6A3DBE8; 0x10A0D78B; 0xD618DDAB; 0xB9FC6D77; 0x76951DE5; 0x33092D13]];
  [[0x5A0257CB; 0xCAA1BF9D; 0x866C505F; 0x1044E224; 0x81482E7D; 0x9B514107; 0x88940BFB; 0x538CB867];
   [0xAC21DCC1; 0xACE68B78; 0x1609BF8C; 0x57942F3C; 0x66E48C7A; 0x30A47F32; 0xB0DA341F; 0x170D301D]];
  [[0x18ED9863; 0x19643EB2; 0xD9104F33; 0xBBE55BCC; 0xA15B283C; 0x77008B6C; 0x873A6A02; 0x2A6E0B41];
   [0x3CB9A225; 0x517410DF; 0xF538730A; 0x20D76E38; 0x9F8724F0; 0x76C9CAD6; 0x6BE9A035; 0x588BA106]];
  [[0xF842F66C; 0xA059DBEC; 0xB3ED0481; 0x59CA186D; 0xD454490F; 0xA5B2ABCB; 0x2624902; 0x4A0F6004];
   [0x4D2F605F; 0x45AF7B51; 0xC368030F; 0x57E8FE0F; 0xC0727AE; 0x23B74557; 0x2B603EC4; 0x7E91EC77]];
  [[0xFD582BE8; 0xEDD284CF; 0x81093CDA; 0x3077CB23; 0xFDEA4FCE; 0xB1934840; 0xD7F01C9A; 0xF9B9D1];
   [0xA1C707B; 0xA55E5C5B; 0x2F8618A5; 0x5CD73CB; 0x512EEA05; 0x7327CECB; 0x8BF2A4D5; 0x5130A099]];
  [[0xFA7A1C7B; 0x34D18880; 0xFD4E043F; 0x5E0D6C53; 0x1B4442AE; 0xB4DD8010; 0x78ED7563; 0x59D9183E];
   [0xF1FAE158; 0x624DDAFC; 0x5C4C1E92; 0xC08C3653; 0xCE3E42EF; 0x452FD71F; 0x20B902EC; 0x175B4908]];
  [[0x18F4CE34; 0x5F0FDF24; 0x9B7E61B8; 0xA64A3011; 0x663362E2; 0x8109ACD5; 0x97F3DF44; 0x4D02F824];
   [0x3A4F916A; 0x2CE27CCE; 0x3B85B146; 0x4A4E6CBB; 0xDB8C9E5E; 0xFE7A6199; 0xD94B8D23; 0x53F5D620]];
  [[0xE77610A9; 0x37FEBEC3; 0x92245CB0; 0xE82D8EAC; 0xF79A31BC; 0x3FD2CEEA; 0xB446850C; 0x277ACF32];
   [0xCE1A2786; 0xD89FF4C7; 0xFFD3A23C; 0x441781E5; 0x7E85496; 0x7876EFC5; 0xE6F41B30; 0xF306C7B]];
  [[0x5AB1B92B; 0x3BF2BFD1; 0xF373FCF2; 0xDCC3F5A6; 0xDA53C229; 0x27CFC4A6; 0x508E677F; 0x5885737C];
   [0x7B829F24; 0x1275D0F1; 0x4991B75B; 0xBD3C0B02; 0xE581C569; 0x3F82ACDF; 0x3F28904E; 0x12329435]];
  [[0x99C3A09B; 0xCF7BDCCC; 0x5F7D601A; 0x19191107; 0x39FBAA22; 0xA82F7460; 0xD75B5786; 0x3105A6FC];
   [0x932F69A6; 0x9673DAC4; 0xB57D6EE6; 0xF5664B25; 0xA3CDD3E; 0x1EDAC112; 0x42778563; 0x3CF84F8C]]];
 [[[0x65DE3040; 0xE36FD1B7; 0x8AA0D3FE; 0x240EADEA; 0x7F77F804; 0x76971431; 0x591E9694; 0x6FCC933E];
   [0x18F48742; 0x3218D92B; 0x5E1B4001; 0x215F13E9; 0x7A8D69B9; 0xCDF333CD; 0xD2FD134F; 0x14F159B1]];
  [[0x7A50C16; 0x2D1228D6; 0x29AE42FD; 0xDFD80F6; 0xBB8F3512; 0x6C18B122; 0x303F3DCA; 0xFE61243];
   [0xDA50709B; 0x43A29F4D; 0x4B92BF7B; 0x3FF58C08; 0xDFCEF797; 0x62DC6B41; 0xC7B83F32; 0x43F9525A]];
  [[0x15F08F5B; 0x17EBBC9A; 0x8BB3E932; 0xBCD3B640; 0x510BBD36; 0xD46FBB9F; 0xCF65442B; 0x389ABBA8];
   [0xB575545C; 0x3A3DAFE4; 0xE1D0994D; 0x6AB985EC; 0x69E1DB27; 0xCC2A697B; 0x271581DC; 0xD483E18]];
  [[0xC046D968; 0x380D4095; 0x55D3318B; 0x53039755; 0x91CE6FFC; 0x57FA7629; 0xA4ADB641; 0xA0F2885];
   [0x6E5C2909; 0x8B99AF1B; 0xB8794175; 0xBDFE7FFD; 0x795ED786; 0x2CFB948A; 0xFD0DF66; 0x11FE7465]];
  [[0x22E152E2; 0xFC2CC2BD; 0xE30BCEB3; 0xCF6AB96B; 0xBC89B689; 0xAE89C041; 0xE7523AB6; 0x6813430C];
   [0x40A4FA33; 0x3F49E728; 0x857CB0C9; 0x25DE1B7; 0x11EA5EA5; 0x6D71465A; 0x46C8D7CB; 0x6651F7B9]];
  [[0x5268098F; 0xD05F1DCE; 0xDC75030; 0x891DBB68; 0xEA916291; 0xD939E428; 0xEA37D060; 0x5F8EECCC];
   [0x8DC5D544; 0x885F1EA8; 0x57E7448F; 0xFD3B3D17; 0x79531DE0; 0x5FC791A8; 0x42E66DAA; 0x780C1AAF]];
  [[0x397BB28F; 0x19697778; 0xAAA9069D; 0x5EC31D44; 0x3CA24A6F; 0xDC2DFEAA; 0x80BED770; 0x3F66CFCA];
   [0x1A102662; 0x2B6B8215; 0xC5D34CEB; 0x44B4D7A4; 0x88AFECF2; 0x17E0FDE6; 0xCFF8D214; 0xDEFA14B]];
  [[0x8365CA84; 0x14035AA4; 0x197CE2B7; 0x309CEEF0; 0xED39AF37; 0x21305426; 0xD2EA583A; 0x10D01D11];
   [0x9FA5C766; 0x3F2E9749; 0xD70549D4; 0x98357584; 0xD279946D; 0x8FF80803; 0x99DF1253; 0x53DBC433]];
  [[0x5329F12F; 0x1D0D9EFA; 0xBE1F007F; 0xBC9F74CF; 0x18EE4DBC; 0xD7F2AA9A; 0x3A792753; 0x634BF4CF];
   [0x2FA6255A; 0xD5DC72AD; 0xF3BC00C5; 0xEE69EA43; 0xD8147A1A; 0xEA930F61; 0xF4E9AD37; 0x25E1368D]];
  [[0xB7C955EC; 0x9422AAF7; 0x6A74D634; 0x7C710761; 0x305EE420; 0x4ED89932; 0x2E937289; 0x7E42212];
   [0x28566C88; 0x7EBB2313; 0xC27ED656; 0xC7ED9C7A; 0xBF14FB3B; 0xF77F3873; 0xEB957520; 0x447AA1E5]];
  [[0xB5C5E016; 0x3E3CEC7E; 0xBDE44D26; 0xB33DDFF7; 0x66E820DD; 0x2056E9C7; 0xF8196FE2; 0x21A9E5D4];
   [0x88040C97; 0x86CB0A17; 0xFF515D49; 0x18AD8AE7; 0x226A400A; 0xCB8A564A; 0x8B72A0D2; 0x6DB48979]];
  [[0x6324DED2; 0x4365074B; 0xAEDAF0F8; 0x9EFB5CC6; 0xC0792B14; 0xCF952C3C; 0x97ED965E; 0x70B82AB9];
   [0x3ACEBCE7; 0x931B9886; 0x18C2425A; 0xDA850491; 0xE499F7FB; 0xD88E1E27; 0x960981DE; 0x61D3F246]];
  [[0x8393EB0A; 0x1D8EA227; 0x7863FB53; 0x9DCC23D2; 0xD5EBD297; 0x961B2337; 0x5BFED1E9; 0xA96F8B2];
   [0xFE7DD2B7; 0x39EA1803; 0xE5F7772A; 0x7E4817BB; 0xD44A41EF; 0x3668C5FF; 0xE11F8E11; 0x78227653]];
  [[0xD024880B; 0x272D6933; 0xF236FD8A; 0x733C029F; 0x604868F0; 0xBA5C20BD; 0x321175C2; 0x33F211AE];
   [0x9FD79FE3; 0xE40010FB; 0xA685A59F; 0x9C6EA1DC; 0x8EB9889D; 0x79963FFC; 0x5F67108D; 0x15434E7D]];
  [[0xD68B670F; 0x42C14BBF; 0x23F1AA69; 0x2021AC9D; 0xAEA04636; 0xBF4C6D74; 0xBD1FB11D; 0x1E4D2F8E];
   [0x37911AA6; 0x4B0CF0E3; 0x2C484507; 0x7542D928; 0x889542DC; 0x68836751; 0xFE2282A0; 0x5F229F7]];
  [[0x409B2067; 0xAF269E8B; 0xA860F075; 0x6C749952; 0x5DF7C7F6; 0xCB7492DA; 0xE8E591E1; 0x2B010A7F];
   [0x4D9E871; 0xF7446577; 0x5E68408E; 0xC2E0A2A3; 0xD0F0BAAD; 0xD512E9A6; 0xC6BE34A3; 0x3E2F73E1]]];
 [[[0x2EC65BB4; 0x6C466C8E; 0xB1FC8F92; 0x912FFAE5; 0xB50A522D; 0x7587BE5D; 0x649847CF; 0x15939FF7];
   [0xF464794E; 0x69E81D63; 0x6D3F858E; 0x7BB6EEE3; 0x10813BBB; 0x24FE5C01; 0x6D80756C; 0xC491F97]];
  [[0xA5FF3510; 0xBAD1C256; 0x99C1B7B2; 0xF06F38A2; 0x49312D6; 0xF7C0F164; 0x5749B3E4; 0x73C5374];
   [0x55211A81; 0xD6761480; 0xDFA98F45; 0xF34CB5DB; 0xB4AA4967; 0xAF59FA47; 0x8214BE48; 0x116935B9]];
  [[0x9FE10E46; 0x1D86FA00; 0xB5B8494; 0x73B8099C; 0xA1102BE7; 0x9A6EA98D; 0x5514CA21; 0x3DE1948B];
   [0xD0AAAA53; 0x5D18ED69; 0x3C952B98; 0x17BF7DFF; 0x7DDBD937; 0xC60143FE; 0x6F2F10C4; 0x214F2F55]];
  [[0x2F047D0; 0xB2F28695; 0x923F52BF; 0x80952DFE; 0xA5017C3E; 0x56F3306B; 0x52DADFB; 0x5DD62F07];
   [0xD5274F90; 0xDD11592D; 0xE471965B; 0x40632FF3; 0x7E618430; 0xAD1939A8; 0x33F19556; 0x5DD9CAD2]];
  [[0xC1094747; 0x7B0AA88C; 0xF6753A0C; 0xCFA6B95D; 0x2A252A4D; 0xE81AFADA; 0xD3770570; 0x364CAB7C];
   [0xB4610A19; 0xE99D8252; 0x55ED9AD3; 0xB22B2FEC; 0xBEBE7FED; 0x328ACBDD; 0xFBEDFE84; 0x1D379D61]];
  [[0x5EDF8C9C; 0xD9EFFFFA; 0xCE548EC; 0x9BAA7181; 0x5FA8FEEB; 0xEB458AEB; 0x904D841; 0x18C5E691];
   [0x8F33D2E5; 0xFCEFAE28; 0x6FAFDA18; 0xB3CF853E; 0x427D6218; 0x5DE94BA; 0x3731D3E9; 0x21D8AED]];
  [[0xE92719DA; 0x6C8C318; 0x1A65DFDB; 0x1F7CDE12; 0x4B672A2D; 0x9B4D531E; 0x115FAF11; 0x3E39CC63];
   [0x37AF60; 0xC9C3F339; 0x2B43D27; 0xC1C67587; 0xC42DF26B; 0x46B77CDD; 0xEBFA97A7; 0x7235F2B0]];
  [[0xE898094E; 0xAF7FFC9A; 0x146A27E3; 0x8D18AB93; 0x8AEC0416; 0x1376B797; 0x8D91C25E; 0x746A1B1C];
   [0xEBDE2E3; 0x16DCCCC1; 0x8CE7D61E; 0xFE4ABD41; 0xE25F1551; 0xB9830395; 0xB885A943; 0x543493D7]];
  [[0x24EBCFC0; 0x52C659E6; 0xD38367A4; 0x72E3CA91; 0x4D168F4F; 0xA3086AAC; 0x5D64207B; 0x656ACFEE];
   [0xBA196A9E; 0xBE697CBA; 0x97DFFEC2; 0x6A737ACC; 0x54F04DBD; 0x393E2661; 0x4B0E92BD; 0x4FFF7C24]];
  [[0x828EC659; 0xC709CC59; 0xCBDEACB3; 0xB275AC8C; 0xF7922523; 0xA8D08921; 0x400A6459; 0x68B92F96];
   [0xDFBECB97; 0x45803EC2; 0x7515D696; 0x49464E05; 0x8F03E969; 0xF39CA961; 0x1CD7C79F; 0x605065A1]];
  [[0x97F1A97A; 0xB91C03DC; 0x201FFB53; 0x2F6D50BB; 0x46241856; 0x39D67D40; 0x74D04805; 0xA2C0256];
   [0x28374A6D; 0xD289B94C; 0x10EDD6FC; 0x1176C73A; 0x56AE631E; 0x890E9C39; 0x6027F549; 0x30451CF1]];
  [[0xDF8F4DDB; 0xCB33FDC; 0x87FF6E63; 0xD9C540DE; 0x55A1D8E4; 0xD8445732; 0x8AC403A6; 0x1497403D];
   [0x6A4BAAC6; 0xA2591C40; 0x48DD3E5D; 0xF493CF1F; 0xB69AF047; 0x7B9AE39F; 0x3782B110; 0x293123C0]];
  [[0xB7A36B62; 0x14921836; 0x4CA3AA39; 0x5AC82430; 0x52F601CA; 0x1303AA6; 0x2B43BB72; 0x7EE1E6C7];
   [0x64D44957; 0x7F82B37B; 0xDA4A6FEC; 0x840D0654; 0x290F75D; 0xFC806FA1; 0x4C62F0E8; 0x3027FE4A]];
  [[0xCD0D3AC0; 0x34E68AB5; 0xE9BC85BD; 0xE6B0B8C1; 0x99533831; 0xE00F5052; 0xCDC83750; 0x11327DA7];
   [0x4656A428; 0x6D991DF0; 0x86228F26; 0x6A7BE349; 0x3019CDC5; 0x6BF85E3D; 0x576913A4; 0x42200D2F]];
  [[0x707B940F; 0x420D9259; 0x3C5E39BB; 0x1BB1FFE1; 0xE40D018E; 0x83D6BA36; 0x44EC576; 0x139BD842];
   [0xC6DE63E8; 0x3C79F8D2; 0x96F1FB0B; 0x49150B1D; 0x1358A13B; 0x66616053; 0xD5DDFD9F; 0x187CA3CF]];
  [[0x8D5AEE84; 0x675370F; 0xDC269114; 0x30AA7D65; 0x5AFC6DC1; 0x295F7FE8; 0x55674339; 0x49452029];
   [0xA6F209EC; 0x7EB1926B; 0xDC72C3E3; 0x5232B9D1; 0xAB52141B; 0xCD788D79; 0xFDD9611F; 0x3EB561BE]]];
 [[[0xE22241AD; 0x9DB342C; 0x2A566653; 0x2EAB852F; 0xCA6E59F3; 0x970843ED; 0xA18C2D89; 0x6490013E];
   [0xC7A691CC; 0x52293350; 0xB2079F14; 0x6544B49D; 0x52DCF090; 0xC49C5598; 0x8817A2C7; 0x4069B6FC]];
  [[0xC86B40F4; 0xE4A4B0C; 0x51F6F853; 0x2B5350E1; 0x1033BEC4; 0xDE26FDE2; 0xC0E9B971; 0x4DE9D2E7];
   [0xD315AD57; 0x716605FD; 0x392B101A; 0x5627D732; 0x81A9F40A; 0x628EDFC6; 0x5AB9C99D; 0x4BD2A96C]];
  [[0xBFBD288A; 0x2C8DF2A1; 0xF4CF7C09; 0x260C4F1E; 0x90E796CB; 0x88A26186; 0x323E0702; 0x105ACC3A];
   [0x667664CF; 0xA8ADA467; 0x3B518622; 0x41144C1B; 0xD8B99FE1; 0x4A532B87; 0x2289C308; 0x4A51C289]];
  [[0x1D6F6880; 0x201DDA61; 0x62029898; 0x47A964D4; 0x426C8CA5; 0xE44E2EEE; 0x9625DBA; 0x2A51821];
   [0xB45B3DFB; 0x170C626E; 0x5C8343A9; 0xFC7F1F71; 0xE549F040; 0xE6CF246F; 0x2F903ACE; 0x4ACF60AE]];
  [[0x81C807EC; 0x91715352; 0x47174A58; 0x72AC60C3; 0xA0F12F61; 0xAD62D06F; 0xAA899C0D; 0x325C2792];
   [0x9D8BA267; 0x53A1E392; 0xCDACCB05; 0x5DC088A5; 0x5025CB69; 0x5BB9127F; 0x69214616; 0x25D2B42E]];
  [[0xDDB55121; 0x4DE5D58A; 0x84DE0677; 0x688AA2F5; 0x63AA25E0; 0xF7925A39; 0x85D4DEA5; 0x4FB42FC7];
   [0x8F134390; 0x957B933B; 0x4B9BF8C2; 0xB360DD2C; 0xFFFF96CD; 0x45E6767F; 0x1E01D5C3; 0x26D0A6A9]];
  [[0x5A0A98EA; 0xC7FC5714; 0xE7535AF6; 0xDBB06F30; 0xDF4ACD0D; 0x555B22E3; 0x2EFD2FBE; 0x3A011AAF];
   [0xE9166B20; 0x341C7733; 0xFB19590A; 0x84619E8E; 0x10574C96; 0x8EF989FD; 0xF55F9A2; 0x61ACFAAE]];
  [[0x6DEAB094; 0x8C8A33F2; 0x96022EBC; 0x4A8E5D9F; 0x7DDA92E8; 0xA10DF82C; 0xD1CF3815; 0x33A19462];
   [0xA489D67F; 0xE3FF8E43; 0x225064AA; 0xD4B6136F; 0x92F5E662; 0xE1721D2A; 0xA90A33C6; 0x4C4F03D7]];
  [[0xA3463B4A; 0x70885B35; 0xDF9D0194; 0x974BC40E; 0x273957F4; 0x1AF71E18; 0x9900CB0D; 0x58EF684B];
   [0x20A49A4A; 0xB09970C8; 0x42067458; 0x3F28403F; 0xBD7D1AD5; 0x153FF2C4; 0xE97A90F7; 0x7912CC2E]];
  [[0x8F034D9F; 0xF653DF59; 0x1C409CCF; 0xCA167177; 0x175F3583; 0x21F47005; 0xFAAFB66F; 0x13B8A94B];
   [0x96052C8D; 0x64534EE3; 0x8D674024; 0x9304DD1; 0xD7A7E2A; 0xEB468AC3; 0xCD62052C; 0x40347256]];
  [[0xFFF11C0E; 0xF089165; 0x8D69A45C; 0x383562C9; 0x3125FE61; 0x7AB3EF9D; 0xE0735F3A; 0x32C042BC];
   [0x4E268D91; 0x420077C8; 0x44695B4F; 0x7FB42082; 0x448A133E; 0xFA83216F; 0x93062EB3; 0x1C660607]];
  [[0xEF9E04DE; 0xA0FCBACA; 0x5B86F69A; 0xAEF9EECB; 0xC39D4C99; 0x73D2E95F; 0x923A5BA8; 0x98C74F7];
   [0x4F68DECF; 0x5B8C95C8; 0x58976551; 0xCFF2E101; 0xBE5CAF91; 0x5032AE48; 0xE09BC8AE; 0x5CCB9008]];
  [[0x3714D3BF; 0x41A38F20; 0x17366520; 0x24136533; 0xFAE17B01; 0xF12F314C; 0xFC9AD43B; 0x4AA0C969];
   [0x8BBAC026; 0xD8AB5F72; 0x526992DC; 0x35128269; 0xD19880AA; 0xA2EF6E44; 0xDBF47628; 0x28BB3623]];
  [[0x3BA25C35; 0x294742BA; 0x61555B7; 0x39D3BC9B; 0xDE6EA1A0; 0x944E3ABC; 0x57EBD394; 0x4FDC6415];
   [0xE981E649; 0xB615C1DA; 0x8BE3C95F; 0xAF7EDB34; 0x71F7221F; 0x38573AE8; 0x668CF414; 0x1B30FF04]];
  [[0xA57A9A4E; 0x48EFF6A2; 0x74A59C19; 0x4BA2F73; 0x6779C5DA; 0x5FDE389D; 0x6612F160; 0x258E2B24];
   [0x6D116D41; 0xCE8D7A0B; 0xEE2706C8; 0xAF660436; 0xF81D6398; 0xFFAD6FE9; 0x14BA128A; 0x4FE5EC54]];
  [[0xBD4B886C; 0x7D5E8299; 0xDB0DB148; 0x5403A46E; 0x76A808D7; 0x32F49FC0; 0xD3B9A641; 0x6D483FD7];
   [0x3952C70F; 0x731DF122; 0xCB5E6081; 0xB5CABAC1; 0x7AFA8F59; 0x12FA297D; 0x6AC91952; 0x3272360A]]]].
(** lines 8582-11228 *)
Definition lut_B_32 : list (list (list (list int))) := [
 [[[0xFFFFF367; 0xFFFFFFFF; 0xFFFFFFFF; 0xFFFFFFFF; 0xFFFFFFFF; 0xFFFFFFFF; 0xFFFFFFFF; 0x7FFFFFFF];
   [0x570C7410; 0xDDDC64B3; 0x13172887; 0xA7B09925; 0x4B6382DB; 0xC4E5C4C; 0x124768DE; 0x2763DB0F]];
  [[0x8457D15D; 0xCD3E57B6; 0xBEA56E83; 0xEB688F7F; 0x6A13C5CE; 0x235A123C; 0x50F57A6D; 0xCD7EB9D];
   [0x544C1965; 0xC0124E91; 0x62AFA35E; 0x4D9C1729; 0x37C554; 0xF92F2C3; 0xA3F2665; 0x1D899868]];
  [[0x55F43EFF; 0x9DE4B213; 0x5C9E63F5; 0x2E110A42; 0x1CE5A6DF; 0x9350A9C3; 0xA332315E; 0x377CBF0B];
   [0x20F0D1B5; 0x2805DD48; 0xF9723E5; 0x3B197566; 0x84B79937; 0xA1CCA78C; 0x94D5E03D; 0x4F87BB1B]];
  [[0x5652C96F; 0xE428FBFB; 0xD261BDD1; 0x2E9A14D2; 0x7453B76A; 0x82D8296; 0x7AC87B02; 0x61EA580E];
   [0xCF368FDB; 0xA0F8C2BA; 0xD73B2A28; 0xDF093380; 0xEA8FE5D2; 0xFA0928B2; 0x5F86D38A; 0x77A67492]];
  [[0x27670451; 0xDFFAB410; 0x1200AD3A; 0xEBC3D017; 0x25F4F6C4; 0xF68324F3; 0x7D0EAFD0; 0x4A24CD5F];
   [0xD3F6BD1C; 0xF8FBD489; 0x67B473DE; 0xF6B56D5; 0xCACF0D6B; 0x6FB063DE; 0x96DC574B; 0x27F2E7E9]];
  [[0x93937228; 0xA6A10645; 0xA9165BBB; 0xAB7550B4; 0xCB0EDBE8; 0xD682D4F1; 0x40E5AD8D; 0x2261FCEC];
   [0xCCBD4E18; 0x9F2119C6; 0xAAB09697; 0x2FD094E9; 0xE700929E; 0x331713; 0x54338FE1; 0x6C5F2EFE]];
  [[0x42FFF78A; 0xD6314017; 0x2087E055; 0x38F23A91; 0x10EF1CAC; 0xE30E809C; 0x2432FF74; 0x3BCB0A54];
   [0xB31509E6; 0x2B4B5B97; 0x3E54AF47; 0x117FE9D7; 0x52F63ACA; 0xE513C0BE; 0xB1C80A6B; 0x41ED8ADA]];
  [[0xE0A79FCD; 0x61A31837; 0x51D3DE38; 0x8F742B57; 0x41354B55; 0x10635FCD; 0x946510BE; 0x61F30C61];
   [0x6C416DAC; 0x9183D677; 0x345431CB; 0x391B7B42; 0x7C254A8D; 0xE3D6F084; 0x19D320D8; 0x777E1F62]];
  [[0xF05BD85D; 0x90E633F; 0x240392ED; 0x546C41A0; 0x9F4139CA; 0x6BBCF15D; 0x7FFDA5DA; 0x73F5B657];
   [0xE0622A57; 0xBC04E353; 0x6E6414F4; 0xCBD8F01E; 0x8C3C0CC5; 0x53377C0B; 0xE0A14548; 0x6D302331]];
  [[0x3D6D456E; 0x235487F8; 0xB3FDCDCF; 0xBD92203D; 0xCFFDA977; 0x15B13D60; 0x31A1C4B5; 0x22DCB487];
   [0xC76ED9A2; 0xA367FB4E; 0xC0C86AF4; 0x1E4F7956; 0x5B012AD7; 0x6F087C49; 0x4949B444; 0x33437E4A]];
  [[0xB7CDDB38; 0x261B44FE; 0x419216AD; 0xDCE2FE47; 0x9428657B; 0xA4CE17FF; 0xF8329049; 0x7CE64F48];
   [0x7289C114; 0x4CE74211; 0x8C212A23; 0xE622409; 0x2096719D; 0xCF75BF45; 0x7BDC1600; 0x6F553581]];
  [[0xB941CBC9; 0xE776AA0C; 0x951AAED3; 0x16D670E0; 0x4B1EC097; 0x79C019DF; 0x12266D30; 0x635A66BB];
   [0x23AAFD2; 0x30D843E; 0x6466108F; 0x10FB6157; 0x8D568D5; 0x93774BEC; 0x4C1EE73; 0x29D27962]];
  [[0xE00BBC21; 0x6F0F4C2E; 0xA30AB92F; 0x9EB34C58; 0xAE34908B; 0x2153D901; 0x4EDC188F; 0x136A7E1F];
   [0x8BC45EE4; 0xF709BF5D; 0x4FAD9A54; 0xEA6984E4; 0xAF5140EB; 0xFC8E6F8A; 0x87756E47; 0x25EBF0DE]];
  [[0x5B1D4B9F; 0x5C2A9726; 0x68E93FC7; 0xBE235DFD; 0x471A4EA0; 0x7766BDB9; 0xD9909CD9; 0x476D17CC];
   [0x7B398BC4; 0x4960E5B4; 0xF58F328; 0x909D0F17; 0x230EF508; 0x1ABF7E02; 0xD29239C9; 0x6DE6B3E1]];
  [[0x85A6DBE3; 0xCCF0AA28; 0x823C606C; 0xA5E4B325; 0x15505FC6; 0xADE98B2A; 0x2E20C3B; 0x4D4E7703];
   [0x4730DF64; 0x24196417; 0xA914A59D; 0x3DD47817; 0xC4FDFD97; 0x4D7A317E; 0xBE12AA72; 0x3767E545]];
  [[0x165C7BF4; 0xA0C2A028; 0x36A0B483; 0xCD4DA6EA; 0x3AF53195; 0x1E1E6332; 0x8D77188F; 0x7A025E23];
   [0x8D2CEF2; 0xB3CF03B9; 0x25A0AFA6; 0x8FEE9BB8; 0x88111895; 0x855340E0; 0x4FB8F8A3; 0x32E3EF01]]];
 [[[0xEBF87807; 0x33EBE39D; 0xDBDEFF76; 0xB048F96C; 0x342A3087; 0xA0496C3C; 0x50953679; 0x7623E192];
   [0x4B932390; 0x12F76711; 0xACECE2F7; 0xF80851EA; 0xE5B280EA; 0xE447465B; 0x11115958; 0x412ADE8]];
  [[0xB5EB0DC2; 0x982F1AC8; 0xBBBCC880; 0x8464E052; 0x1335D53; 0xC927B596; 0x4DA4D80B; 0x4B0C6F5A];
   [0xE04783AF; 0x101E1878; 0x41D8A690; 0x50458FFC; 0x1B77DFBF; 0x11499D88; 0x1F77A937; 0x46DC7D22]];
  [[0x620E52C0; 0xE9AD22CE; 0x4140F356; 0x990D6AA; 0xCBBEEE5; 0xF6B2EF7; 0xEAD414C6; 0x2C67DC80];
   [0x23D4CD20; 0xE17182BC; 0xC13DDEA9; 0xFC8FE3CB; 0x3BABC06D; 0xD1E4A7B8; 0x71C06DB7; 0x52EA05CC]];
  [[0xD022B5B; 0xF8ABB770; 0x199DC689; 0x362B8059; 0x26BBDEC8; 0x5D887A4D; 0xF7FC2A01; 0x7835F183];
   [0xDE99DF34; 0xEEDE12F5; 0xA3082301; 0xBE952638; 0x4C35A162; 0x829FDF80; 0xC2B9645E; 0x205A2252]];
  [[0x1356E14C; 0xDE284DA9; 0xC37415FE; 0xE40CEFE0; 0x47F6016E; 0x62BE93E9; 0x5DBFE2F6; 0x2DD98904];
   [0x2EBC70F9; 0x195B0E98; 0xF01F4D43; 0x7E52840D; 0x4B1F6AB4; 0x1AFB1FDF; 0x20B3E491; 0x50AABB8]];
  [[0xC645DAD4; 0xC59E1EDB; 0x565A286D; 0x5AF6B2DC; 0x13076366; 0xC399A48A; 0x4AC0E5B9; 0x19F4881F];
   [0xCD5AC339; 0xC07D02A1; 0xED628A55; 0x18FBD088; 0xFFA4788E; 0x2D33C6F4; 0xCCB832E7; 0x52E9AE42]];
  [[0x4E5E934E; 0xA47091AE; 0x91CED3C6; 0x2542CE13; 0x8FC47857; 0xDDE01FD5; 0x4304EAA9; 0x6BA6E569];
   [0xE24091A9; 0x2FF0278B; 0x782BBCE0; 0xB895F0AB; 0xAB8B8828; 0xA80CCC97; 0x68A7D8FE; 0x6A54B961]];
  [[0xBAC4581A; 0x15E1F5AD; 0xD4BAA751; 0x91620EF0; 0xC7273C4D; 0x4E65731F; 0x7EEE33B5; 0x14B166CB];
   [0x3CD06080; 0x7B0EFFA5; 0x8CF95FF9; 0x4491156A; 0xE2258574; 0xC8C64C39; 0x13315CE9; 0x3D48DA9D]];
  [[0x99866CE5; 0x97A098A3; 0x23A1167; 0xF4CCDB40; 0xF8094782; 0x4BB32981; 0xC7D5FD13; 0x7342CC98];
   [0x78B99D4E; 0x3C1C5B18; 0xF4762AC9; 0x1277668F; 0x6AE50E4F; 0x612431D7; 0x36F9071C; 0x36C174E0]];
  [[0x9327BA7F; 0x39194E87; 0x7237FA1A; 0xC4D251FF; 0x2BA5EB8D; 0x55ED3CD4; 0xBA590188; 0x263AF07];
   [0xEFA82CF3; 0xB4853127; 0x2B8E761D; 0x2CC2D220; 0x2722B490; 0x4582B81E; 0x610AA621; 0x1DA7680A]];
  [[0x30D297D4; 0x6A669EE; 0xE133D393; 0xC336B048; 0x93B7B41B; 0xB733A2C4; 0xC7A8E721; 0x427CC233];
   [0x2867BB00; 0x727C14F1; 0xA736035E; 0x756F4C7A; 0x26327A22; 0xB72A3EDE; 0x77F73F28; 0x4AEDE2BB]];
  [[0xA7282ED0; 0xC8A3612F; 0xB0150579; 0xE4AD8B40; 0xC3FEE4B; 0xAB1DE11D; 0x33B31F23; 0x613AAD48];
   [0x5C91BD21; 0xE74AB856; 0x7953D695; 0x49917735; 0x1A53D74F; 0x3831EB60; 0x54DEB1A6; 0x245977A0]];
  [[0xFFFC1468; 0x15972E4D; 0x141DC24C; 0xA758D9CB; 0xED8694C5; 0x5E76FCDF; 0x69B7A5E; 0x5F9DAF35];
   [0x501B5415; 0xFE50FCE4; 0x58CFDE50; 0x6442CF67; 0x38E5F4D0; 0xA89C6DB4; 0xF5D4FEFC; 0x21F012DB]];
  [[0x98CB9A81; 0x2A1170AD; 0x36C5E45; 0x934BD9D5; 0xCA5095B1; 0x27DF152E; 0xCCEEE508; 0x682698DB];
   [0xB973FB5F; 0x1F4FE3A2; 0x792C7D4D; 0xD33CBEBE; 0xE7B33A8F; 0x99D37961; 0x7B6D015D; 0x46B8993B]];
  [[0x6FBAC8F7; 0x93A3809B; 0x97C55DC4; 0x84861BF0; 0x15BB65E3; 0xA6F89EEA; 0xA6E531D1; 0x66AE1C5D];
   [0xFD83DAEA; 0x643A14FC; 0xC585947B; 0xA7A46D0D; 0x4FBA1274; 0xFA20CF07; 0x93578A7D; 0x5999ED7B]];
  [[0x78E7C6CE; 0x36C8B6ED; 0x5E325F44; 0x6D400CA5; 0x20B7AA5C; 0xC6AE09B3; 0x89EABC17; 0x1AF261C1];
   [0xB9E778E4; 0x64D6FFBB; 0x7FC64BEB; 0x1C9E223E; 0x5D75E6C0; 0x4D68B520; 0x76677A06; 0x5A72B1D9]]];
 [[[0x6F08BB17; 0x62DB6640; 0xAE75BB73; 0xC34F29DF; 0x7DBD4851; 0xD501293D; 0xAD1F604B; 0x5EAA94CA];
   [0x94408A8; 0x39CFE9D1; 0xE8A476F2; 0xC0F6544C; 0xA42D7607; 0x9F6308B6; 0xD727018F; 0x17F82949]];
  [[0x9C4C4BD2; 0xC44453CD; 0xEBD0B947; 0xA895E247; 0xAEBC27F4; 0xAEB7AFC; 0xF04ABFAC; 0x2472FD08];
   [0x73E6E994; 0x319EC67D; 0x798C5FC0; 0xD6533E4C; 0x3FB9AA89; 0xF4C3B24D; 0xA3B376B; 0x3EC58082]];
  [[0x144ACF7A; 0x79732D6F; 0x911342DD; 0xFDD630C3; 0x4A630649; 0xC577C4B3; 0xBBA999D6; 0x14956A17];
   [0xA435A559; 0x523D3CC8; 0xACDA8861; 0x488DC690; 0xF051C69A; 0x4CF70928; 0x955394CB; 0x2D98D573]];
  [[0x23A4B840; 0xEDB7BA2A; 0xF6C2D93B; 0x725EC496; 0x8833BB3F; 0xC94818B; 0xB142B12A; 0x51281A31];
   [0x659EDA83; 0x2A8A5706; 0x7F9D6877; 0x3098F750; 0x2171F69F; 0x87AD0FDF; 0x1A6F2F28; 0x6B7067C3]];
  [[0x12B1E36F; 0x3B521074; 0xF81E4733; 0x727A2432; 0x53F2CBBD; 0xB75A2F35; 0x54960EB0; 0x46DE9338];
   [0xE561D908; 0xAC5344F8; 0x12C67430; 0x4BD40ECB; 0xEF499F97; 0x1698FD62; 0x6AE9FBD1; 0x29EBD7AE]];
  [[0x1EC8110D; 0x9DEC249B; 0xFD2F5C39; 0x2D19053A; 0xE01522DF; 0xB1189807; 0xC1424C77; 0x24A04C16];
   [0x24F72226; 0xA4FC7C7D; 0xA8322501; 0x763405FB; 0x18F015E0; 0xC5443C9A; 0xC55D6CEA; 0x6DEDA19B]];
  [[0x9EAE2FF9; 0x4EF30976; 0x5741B21B; 0x2549B7F2; 0x3BC23F01; 0x859ACD10; 0xBF5FB0D7; 0x5C0358F];
   [0xFB6AB34C; 0x85E53AA8; 0x8FD2FD20; 0x8DAAAA69; 0x16096FC9; 0xBE6D4D34; 0xF8B8B831; 0x27572C88]];
  [[0x47D56A25; 0xADB98DC5; 0x8B8E1DC6; 0xCC76432; 0xBE48C4A1; 0x32C738E; 0x94FC9CF0; 0x31372DAD];
   [0x78A7DCB2; 0x8E646A0C; 0x6ECD9885; 0xA32F3E9C; 0x6A3AD963; 0x280BB4AD; 0x817D4327; 0x7DEE1BC4]];
  [[0xF8A7C1E1; 0x1AE6A27B; 0xCBC527C7; 0x558C652F; 0xA65056F6; 0x4084B56E; 0x6D4C838B; 0x3FD45459];
   [0x56DE792A; 0xF5C15AFD; 0x88959282; 0xF656FAA4; 0x1C07D63F; 0x7F0D8EF4; 0xCD841ACC; 0x44EFFF7D]];
  [[0x8D3695D8; 0xAC28F2A6; 0x3F91E781; 0x94959EB8; 0xFEDD6E1F; 0x7693FFF7; 0xA9A699EF; 0x2512E6E1];
   [0x7955FAB7; 0x823400EB; 0x94924C08; 0xCF109EF9; 0x3A709F32; 0x12E08779; 0x9CC6484C; 0x187D0413]];
  [[0xEBDE477F; 0xD3932AFB; 0x44538D8A; 0x9D5A5422; 0x166A87AF; 0x40B0B159; 0x41D5E078; 0x31294B3D];
   [0xE8C48222; 0x6C49C853; 0xDCD0D611; 0x8FBE6620; 0xF611007B; 0x9DDC7EE2; 0xE6652172; 0x12289A60]];
  [[0xDACF80F7; 0x8B85475B; 0x9B5CAEF2; 0xADBAB353; 0x8D2A7707; 0x7C4090A3; 0xDAB97830; 0x271FA4F1];
   [0x53173E04; 0x141B7252; 0x6D0B127; 0x4B483D64; 0x63A7AF8; 0x8FD15BCF; 0xE580F34C; 0x59B19EAF]];
  [[0x9C0D79B6; 0xA7EEA8C4; 0xB9185109; 0x766FA113; 0x4642CC64; 0xB42D74F3; 0xBB817476; 0x51D0127B];
   [0x8AB71448; 0x6DA097F5; 0xF95AD0C7; 0x145872E5; 0xF1759436; 0xB7E934F3; 0x3160ED1F; 0x4EA883F9]];
  [[0xCEABAE1; 0x30DC39B7; 0xA606D766; 0x49EC5EE8; 0x97FC46AF; 0x230E2762; 0x5BE79B8D; 0x79A531F];
   [0xEF08C93F; 0x48253BC2; 0xF124D043; 0x2D32AF02; 0xAF34D231; 0x85796D0D; 0x15F8CECD; 0x6A6205C]];
  [[0x47B00D1A; 0x1FA77AFD; 0xE48CE97A; 0x429717B0; 0x57433697; 0x38FEF11D; 0x7D426687; 0x3E91BED6];
   [0x2AB4BFE9; 0x95919BF7; 0x97096B3A; 0x7A3F33FC; 0x3DD8C82E; 0xE0BBAC3; 0xF8EDB675; 0x2CE9EFCB]];
  [[0x43D8B81D; 0x2D44E998; 0x6D68A95C; 0x8ABFF419; 0x3B2A18DD; 0x639000A0; 0x871E3ED3; 0x7CD15413];
   [0x148F0378; 0xC059855B; 0x616B62BF; 0x50147459; 0x4D461110; 0x53B699AF; 0xEC29E48D; 0x6A0D0EC7]]];
 [[[0x15797F35; 0x51733221; 0x4BBE6644; 0x2F298214; 0x4A5EF621; 0x7BC8FEC6; 0x7F472F05; 0x3D2BE785];
   [0x2765C427; 0xA1C3A1C9; 0x24155ACF; 0xBACF08FE; 0x9D229948; 0xA9CC1A17; 0x27039FD8; 0x1918C97F]];
  [[0x7843FF7B; 0x2CF39338; 0x258997F2; 0x5FCBDE65; 0x165A98A3; 0x3980BF90; 0xBF9458E5; 0x2E80607D];
   [0x7019165C; 0x5F646EB6; 0xDDE34205; 0xFA091FBE; 0x69267AE3; 0x695348B6; 0xABC22051; 0x385B0B6A]];
  [[0xB537F78C; 0x3CAE0756; 0x8BE30367; 0x3012A958; 0x981A22C3; 0x32D26C06; 0x2950E833; 0x7D091FAB];
   [0x797ACAAF; 0xD8E1B638; 0x49F2EA10; 0xE7021C85; 0x17A7AF3B; 0xCA382BC1; 0xBB809976; 0x8A5A81D]];
  [[0x4287BB97; 0xF499FD; 0xDAA9DAF2; 0xFB6791CA; 0x57B2B98; 0x9A19E4F3; 0xC53C0223; 0x6968D2FF];
   [0xCE88509C; 0xDC741EF5; 0x306A0570; 0x38AE355D; 0xC23AF46B; 0xFECF6589; 0x6AD48836; 0x6C0E6ED1]];
  [[0xE363495D; 0x22B68698; 0x39AF2BE3; 0x120005D0; 0xBF4BA69; 0xE37B1965; 0x26E64AE7; 0x3B416E93];
   [0xDEAC5C59; 0xFAED5088; 0xEB2518A5; 0x67436ACC; 0x91FA788D; 0x636B52F8; 0x655153D1; 0x10B2A57A]];
  [[0x833A984C; 0xB18060A7; 0x74833BAD; 0x7EF83746; 0xC5B3BC88; 0xCBFAF742; 0xA1A7F135; 0x7981DC36];
   [0x5D076280; 0xE70CCAFA; 0x7009D85; 0xEBA80EB7; 0x73778DE2; 0x7D99D24C; 0xA7262D50; 0x1EFEE1BB]];
  [[0x6A7CAB32; 0xBC47F4A2; 0xDD6E48A3; 0x53F290A7; 0x92F35F9E; 0x82257A1B; 0x8BB0AAB0; 0x73D17B31];
   [0xC2DFFE96; 0xBBD4522A; 0xE6EB0501; 0x9C37DAA1; 0x453DB6BE; 0xF4D4D568; 0x642AD2E4; 0x2868CBF5]];
  [[0xABE30C59; 0x40A988E6; 0x93057DEC; 0x5ADED929; 0xDACD37B0; 0x18FD7E04; 0x8228ACA5; 0x6E3FB81E];
   [0x4104B0C9; 0xFF3EEFE6; 0x31CA120A; 0xD7DD05E7; 0xD01C1CF8; 0xAFD3CF1C; 0x831BC4E9; 0x4D0CD264]];
  [[0x82CAC14A; 0x2641B321; 0x70990E6C; 0x34EB1495; 0xA1C74CA6; 0x3E5AF58F; 0x616B7A2D; 0x11B50821];
   [0xC4FA9719; 0x891636E3; 0x107DD719; 0xAEE84C27; 0xC1872E75; 0xA2B0D83E; 0x7383069E; 0x7DD62CBC]];
  [[0xC81B7E15; 0xEBA4A024; 0x4516070; 0x1CC37E08; 0xF90CE59D; 0xEF1F0401; 0xE062E133; 0x3B4259D5];
   [0xCF2CA1DD; 0x87A1DBFA; 0x61FD1AFB; 0xCFBFB15F; 0xECF4C7BA; 0xFBFD9899; 0x2725FA50; 0x57C84CEE]];
  [[0xEFA6E3D0; 0x8B0B7414; 0xB3D04224; 0xD9725C5E; 0x8A91371E; 0x670E6C50; 0x9B25BD3B; 0x4D130467];
   [0x5CF18D4F; 0x18D77D15; 0x1CA09677; 0xEF80DC41; 0xB9A05CF9; 0x6F3A961B; 0x7C1433A4; 0xBB8A518]];
  [[0xB33FCF05; 0xAC0CF52A; 0x1CDC7782; 0xAD03692F; 0xAA02B77E; 0xB345BAE6; 0x456FCFA9; 0x5096694];
   [0x25D4CF32; 0xA8984448; 0x15184188; 0xD76393E3; 0xEA069BED; 0x7D4A8C0C; 0x11E18347; 0x4D22268D]];
  [[0x3CB3C0F1; 0xC2A0BB75; 0x8EBA58C6; 0x61F4EC4C; 0xDFC4A903; 0x5D3F0D44; 0xF9B6F79A; 0xB6CE81B];
   [0x94E49623; 0xF694A44A; 0x1BDF75E0; 0xCFCBB7E1; 0xE0337E13; 0x20CEE1BD; 0xDFF02E18; 0x694EA40B]];
  [[0x78D1DC2E; 0xC21BE0FA; 0xED0E49E0; 0x8B4D9A5; 0x827F0B4C; 0x676731AB; 0xEBAB5894; 0x674ECC79];
   [0x39ABB148; 0xB29BD0D4; 0x2378A63A; 0x8207A8F8; 0x1E4C29C2; 0xE36A549D; 0x3F1C255B; 0x380D48DE]];
  [[0xE5F2C87E; 0x6AB6F887; 0xA01AEC86; 0xE92C7345; 0x8660C26F; 0x697F4520; 0x9B58015B; 0x4F2488E0];
   [0xBB41900C; 0xB2410B3E; 0xBE1A8A39; 0x31267500; 0xB9140554; 0xA7C9997C; 0x1CD41524; 0x335B1806]];
  [[0x14873270; 0xB836FD9F; 0xE3243EC5; 0x1AE0F512; 0x83B9AB74; 0xA743E304; 0x3A5758C7; 0x1569C30D];
   [0x9E8F9E52; 0x3CEF9A; 0x8C22119E; 0x557AFB4A; 0xF223A966; 0x66F2487E; 0xA519378F; 0x7FA00273]]];
 [[[0x7B08C1C4; 0x812C024F; 0xADBA8AD9; 0xC6017986; 0x601BD82; 0x59C7B16C; 0xCFA5622; 0x41B6A45C];
   [0x83C1E3E8; 0x353A67D5; 0xC65F5059; 0x9A83438E; 0x86EEA346; 0x99950377; 0x330D2570; 0x74E2F4BD]];
  [[0xB4A8BDA8; 0xDB8E53C1; 0x2C003C77; 0xA850047E; 0x1B018831; 0xFFD48A73; 0x8B325062; 0x24F96CB6];
   [0xCD2B821B; 0x3779CA4D; 0xC3159CE7; 0xC2AFBF6E; 0x10F18DE9; 0x8A580B1A; 0x8CF75334; 0x37043D0D]];
  [[0xECCCF2E8; 0x451DCDA; 0x752A134F; 0xCF7A3AD9; 0xFBDAE56C; 0xD5754596; 0xF4CDCF6A; 0x15237D73];
   [0xECA37967; 0x1DF5912C; 0x336CD97E; 0x60934339; 0x434DDC01; 0xA4E523FE; 0x79DBE24C; 0x24E81DC6]];
  [[0xC83B2B7C; 0x28F0D73B; 0x7B5DE1AA; 0x45BE220F; 0xB136A877; 0x1B785230; 0xAEFF115B; 0x5A94122A];
   [0x8E598998; 0xEF895F0C; 0xF4C622C3; 0xCEE32B3E; 0xB256CFD0; 0x2D080B1D; 0x21075E15; 0x672686D6]];
  [[0x9F9F26FE; 0xE85FB575; 0x93A7966E; 0x1DE57B83; 0xDD8CB696; 0xA9948DE8; 0x758E685D; 0x226C95A6];
   [0x3729C663; 0x38B0753B; 0x410E4884; 0xD46CA4D9; 0x77516FA4; 0x1D6FA5F9; 0x696CFAFC; 0x9A0FDB8]];
  [[0xCC7F6FD8; 0xD1DAD8E9; 0x22195A2; 0x7BB9F606; 0x223A9346; 0x1B997396; 0x88DCFB04; 0x6ACD6F7C];
   [0x3AC52F65; 0x9029E5EB; 0x935A39DE; 0xED1D7A0F; 0x538D8914; 0xF1D58C3A; 0xB36B8342; 0x19153569]];
  [[0xE2502156; 0xFF600354; 0x733DA5EC; 0xE386A20F; 0x9D24D11D; 0xD6FBCBBB; 0xB06C843; 0xB57498C];
   [0x7A834667; 0x98F1FFF8; 0xC7DF05F5; 0x4AEB8788; 0xC2681DA4; 0x8CFA3B01; 0x2FA2FAEA; 0x1AECC0E8]];
  [[0x94C5CBC5; 0x38278865; 0x41A755A; 0x9ADA7CAB; 0x8D891640; 0xB38F762A; 0xAD88F0; 0x28F6FBB2];
   [0x3709CD6D; 0x3F9629E3; 0x4912F483; 0xD2435A55; 0xDFF5AB69; 0x305BEA64; 0x663BB0D9; 0x4D29041A]];
  [[0xE2FD9338; 0xDC4BC9D4; 0xBA7938FC; 0x5389390D; 0xF329B218; 0xC42B812D; 0xFA9F1956; 0x5E809B5E];
   [0x523D74C3; 0xE2A89BAA; 0x78CBA7B5; 0x97CD9FFB; 0x5B07BCD2; 0x25F95301; 0x2064BB3A; 0x4042C705]];
  [[0x28D53BF9; 0xD8B6ADA4; 0xA4210F2D; 0x5E922CA5; 0xF05A1629; 0x9501F46A; 0xC6CD71CD; 0x28094E54];
   [0x811285AD; 0x8D5484D5; 0x1593EE86; 0xFB2168F4; 0xAC54A41D; 0x693D3B32; 0x28A5425C; 0x3DAFEC07]];
  [[0xD12837A8; 0xE4CF0D0; 0xCF5273BB; 0x19FA2CC9; 0x116A20C4; 0x56346BAE; 0xE436A36; 0x4F3597FE];
   [0xE8EB1B85; 0x459D3FFB; 0x5AE04130; 0x7C718672; 0x60302740; 0xA37C2586; 0x913072D8; 0x2871AF37]];
  [[0x8590319D; 0xD77249B7; 0xEB06B813; 0x73F7A684; 0x71D1D580; 0x4C9DC5B9; 0x5A50A95B; 0x7C91A9F5];
   [0x475F161; 0x4F8F2E89; 0x538B7F94; 0xF34EC1DD; 0xD46F2575; 0xB8FF6C65; 0x64433C80; 0x79A2CE2C]];
  [[0x1AEB7039; 0x38448A53; 0x417189EC; 0xF5EC03F7; 0xEB92FF2B; 0xFA095CA1; 0xE4FCAEDB; 0x4612F720];
   [0xF30AAE0E; 0xC945E966; 0x340A7A1D; 0xF61CFE85; 0xE42D7920; 0xA2560BC6; 0xA692E9C7; 0x7D7B321]];
  [[0x592C60C5; 0xB9C26307; 0xF59D966; 0xCECBC6C3; 0x5459D89E; 0x8BA31FD6; 0x47C7FAE8; 0x1A4AF6B1];
   [0xB431D720; 0x66487766; 0x5108B845; 0x5D597309; 0xCA8E6E0D; 0xA3B94FD7; 0x55C6A48D; 0x639519E3]];
  [[0x52DC195; 0xAD3EE167; 0x947816B; 0x4DF2BFC7; 0xABADBB3C; 0x5D463469; 0xC33D4F96; 0x6F7AA885];
   [0xFE06133C; 0x3DD27536; 0x2796E7ED; 0x27A557B2; 0x3D314A4F; 0x1117CCB7; 0x23968946; 0x6F0C0AE0]];
  [[0xE2110C00; 0xA3D4DAE; 0x4C633A23; 0x389D3A5; 0x83AEC172; 0xE167BDFA; 0xFB38E8F1; 0x67070CE];
   [0x4DF220C5; 0x41137367; 0x59C39F05; 0xB255E5D3; 0x43C75B3; 0xE437984E; 0x6A22994A; 0x1DCD771]]];
 [[[0x4C6FDDCF; 0xD2880DF2; 0x8A00D80F; 0x76A28FF2; 0x792F82C; 0x257CB1F8; 0x605703EA; 0x7938ABC];
   [0x5F61B0FE; 0xD99F0AC9; 0x8EC15433; 0x440DC63C; 0x86AB5DDB; 0xD9BDDFF1; 0x744755EA; 0x3B8875DC]];
  [[0x4938C9FB; 0x1D90440; 0x8DB6A890; 0x900657FD; 0xF60A173A; 0xDCC5068A; 0x857C7B2A; 0x5F3EB242];
   [0xA4F0EB9E; 0x634240BD; 0x44E85C70; 0xACDDA6C4; 0xAABE4C5; 0x753F02AB; 0xC1D034E1; 0x33D89D21]];
  [[0x1279B25B; 0x4596B52D; 0xA48014AE; 0x494669D9; 0x4FD22150; 0x9A26B6FC; 0xF07D5A3F; 0x394DE0BB];
   [0x634C1733; 0x12DFE5A6; 0x1EBC5177; 0x33EC21D2; 0x527514CC; 0x454B4930; 0x41405532; 0x7F23BD0F]];
  [[0xBAC9DD30; 0xB2879E7F; 0x6CE7672; 0x259BB1CB; 0xBB97BE10; 0x201DB42E; 0x2EA35A8E; 0x112D6079];
   [0x6B3B9933; 0x7CC756D4; 0x781CE4DD; 0x4BD24810; 0x8733247E; 0x53CB4E38; 0x9DA66787; 0x47BD6A30]];
  [[0xBA600C8E; 0x8A700953; 0xCF388C0D; 0xD466F11D; 0xE4A17A8E; 0xD485F341; 0x234FC16D; 0x63278918];
   [0xBB82046D; 0xF4DDA875; 0x2945470A; 0xD61E4E58; 0x6D0F8976; 0xCDB6C5BD; 0x10A004A2; 0x44CD9E4D]];
  [[0x49C4AA6E; 0x595CD942; 0x3DE400C8; 0xE5A90136; 0x9DD12D9E; 0x4BCED3BD; 0x78E3D5E4; 0x3700CF92];
   [0x75A32D1A; 0xECFFF498; 0x3C4A54B2; 0xC28DDE37; 0x993CAE6D; 0x8DC22352; 0x52ED7019; 0x46CB5408]];
  [[0xEA94E7BF; 0x71FFAED0; 0xD5AE6185; 0xC0817D2C; 0x5CF23687; 0x7B72B8B9; 0x60A450E1; 0x61DDE599];
   [0xD13870E6; 0x17CF0B10; 0x5F2930BB; 0x7D08E1FB; 0x83807C14; 0x8D0F4F55; 0x6E6DB701; 0x61EBFC1A]];
  [[0xFCAFE68; 0x247A3F65; 0x7AC2A25E; 0x57548035; 0x3CD0FE06; 0xB7466CA5; 0xBCC31AB3; 0x7B0D8B36];
   [0xA6D4358C; 0x2FAAF49C; 0x3E9B4E31; 0xD9E5E2FE; 0xF6086336; 0xA6A859A0; 0xA9C19F84; 0xC2A442A]];
  [[0x3BC0AD7D; 0x66FEA841; 0x32C9158E; 0xCD3A546C; 0x8FE1DF7F; 0xACD2EE7F; 0xEBE9621E; 0x10F58C0A];
   [0x478B667D; 0x80047C54; 0x89870DCE; 0x9EAE5FAA; 0x520A005; 0xC05BEB33; 0x352AC891; 0x2CFBC921]];
  [[0x632F6D73; 0x6842E6B8; 0x2B9FFAEA; 0x6F2B5724; 0x9341D2FA; 0x7ACCC982; 0x88809B65; 0x6DAD9A11];
   [0xB6CC2240; 0x3411850C; 0xB64937E1; 0x8547BCAF; 0x6978F636; 0x49AEDD5F; 0x85A53D2A; 0x38F59752]];
  [[0xF5F5A2D0; 0x5C38EB49; 0xE3BF779C; 0xE028121B; 0xA783D5E3; 0x649997C8; 0x2C06CC0F; 0x4DE984A];
   [0xA49D6239; 0x52C834B0; 0x628413AC; 0x70A1B09; 0xA8624A1E; 0x2FBE0CA5; 0x268D930A; 0x687D93C3]];
  [[0x314C47A4; 0xC7CD6805; 0xCE7A9A6D; 0x8BD0C630; 0x34F727BA; 0xCDB2DAD5; 0x25DB0189; 0x7814C414];
   [0x7DD9CAEE; 0xD7F9C5DC; 0x798690E4; 0xDA6EACC8; 0x6B675E01; 0x705794E3; 0x75C5EC38; 0x4A31D714]];
  [[0x519D5F2; 0xC162A3EA; 0x2958FABF; 0x92146A78; 0x6CB31EB0; 0x1E63CBE4; 0xFBC5AD0F; 0x77CE5AAD];
   [0x32605DC6; 0x3631E470; 0x43413DD3; 0xC7D1C72F; 0xDF6B7C9; 0x171A3794; 0x2B5A08BC; 0x6D711743]];
  [[0x509EF0F2; 0xDDC8057D; 0x6CABB486; 0x5C0B92B; 0x4244D919; 0xD49692B6; 0xD297F56E; 0x4E181744];
   [0xF8CBB897; 0x902F6E73; 0x56D01382; 0xC3B21FE1; 0x46890F6D; 0xA858ABE1; 0x506858AF; 0x46B5E2C9]];
  [[0xF4DEDE56; 0x30441281; 0xA195AEDE; 0x13F06FBB; 0x2FDD3BFF; 0xAD5F575B; 0x32ACB590; 0x680F656D];
   [0xE3FAABA7; 0xFB60A8E1; 0x89A14827; 0xC8FBC1E4; 0xA8616136; 0x5835453F; 0xE6F4926F; 0x2826A47]];
  [[0x74F32180; 0xAF4319A1; 0x6C2C1712; 0x4C9FDD16; 0xAC7E14A7; 0x59CA4FD4; 0xABBD4EA4; 0x7AA6E2F];
   [0xFE9F121F; 0xB4BD441C; 0xCDA452C5; 0xDEBB4356; 0x51C9F451; 0xC29F1CFA; 0x83F598D8; 0x7E1EEF4C]]];
 [[[0x5014135F; 0xFC41A321; 0x3EEADF3F; 0xBE95F9BA; 0x3203A540; 0x54B1212; 0x3721C745; 0x6DD2FD17];
   [0x5A682B59; 0xF86B8578; 0xBE801F7D; 0x872AA481; 0x14F865F2; 0x64C1600C; 0x25365449; 0x4BDD47AA]];
  [[0xF3A3469F; 0xC96A964C; 0x9F7DA0E3; 0x273C5C85; 0x4C1A9DCD; 0x88EDC4AC; 0xB48E4CAA; 0x77623444];
   [0x31581FF7; 0x7AF34A9C; 0xBB57F7CC; 0x23328C37; 0x8B7C86AB; 0xE920D8E9; 0x9DE6D64C; 0x1C7A7A40]];
  [[0x79B9451C; 0xBCDCD22; 0x58F5241B; 0x2920B435; 0x9B33EF3D; 0xC24DF715; 0xF2600224; 0x15252C5B];
   [0x9A9160B6; 0xF9C8D8A6; 0xA6B9A6B8; 0x3186F2F9; 0xA377E98A; 0xC37267DC; 0x37957189; 0x71319A0A]];
  [[0x6BAF6AE5; 0x48E5033F; 0xA460FCE9; 0x72379B2E; 0xF3D2FA46; 0xFC753D47; 0xED9EDF72; 0x3B67685A];
   [0xF712500F; 0x1608E304; 0x9EE1B42A; 0xDFA358A4; 0x34B8345C; 0xE7A4B376; 0x6753C17; 0x7D0E0BF3]];
  [[0x8FA62042; 0xA88526A6; 0x393006BD; 0xD6F32BB5; 0xA5DD5045; 0x14804978; 0xBF0C5E13; 0x34C02662];
   [0x376E3E3D; 0xF9BEEBF9; 0x5923DC61; 0xFD774041; 0xF9735CF5; 0xFE77BDFA; 0x4077CFCC; 0x2E476E22]];
  [[0x9BA457EF; 0xAB8E52EB; 0xABED212; 0x95F6C5FE; 0x386620FF; 0x7204B1A6; 0xDD180719; 0x463B7474];
   [0xF991D8EE; 0x7F7D27AA; 0x8F67722D; 0xA7EB1085; 0xE331480A; 0x78D7095B; 0x66A1C8FA; 0x1DCC8C12]];
  [[0x3E6A04C1; 0xD4C39C18; 0xB598ABEE; 0x73DB1C4D; 0xDF4A7D42; 0x381F9780; 0x52F860CD; 0x3C19A231];
   [0x3EF00740; 0x7EC89934; 0xF37FE0D5; 0x50867788; 0x43E84D4A; 0x502D870B; 0x8F744749; 0x5F8A8413]];
  [[0xFAECCFE4; 0x1C41AAAD; 0x21461F41; 0xC324F3B9; 0x4E90C0AB; 0x165ABA3F; 0x5F88E7D3; 0x2F96CED5];
   [0xC0E52768; 0x8CA366FC; 0xA55249A7; 0x6CCA017C; 0xF7EBCA2; 0x41ED002F; 0xA2BAF655; 0xC33B371]];
  [[0x62B928CE; 0x3B94CD9C; 0x39729345; 0x5BC43A6A; 0xC47D223C; 0x44D0C0F; 0xB0493367; 0x3B64B38D];
   [0xEB74A6C2; 0x82AFB645; 0xD876D71C; 0xCB01E22; 0x29C6BCD0; 0xCE2A7DCC; 0xDFD644EC; 0x4753DE1C]];
  [[0x62188792; 0xE69FC903; 0x4914328B; 0xD91DB9BC; 0x3B68F8D0; 0x44953F4D; 0x654B283; 0x2950435D];
   [0xBE88F609; 0xE599A4AE; 0x90F5D10E; 0xF801CD90; 0xD4F1D3D9; 0xAB78DB1; 0xC0F71ECB; 0x3ED9666A]];
  [[0xE1E73E59; 0x6046A505; 0xF3B5C2E0; 0x8723A3EC; 0xE22C1555; 0x4BD95BF6; 0x6DA421E9; 0x50DC33DB];
   [0xF1B01327; 0xCFB51E95; 0x199A8765; 0xE7013F2A; 0x77504B0B; 0xF486FEA7; 0xF9BA61C6; 0x2AF0F7E9]];
  [[0xBE00B841; 0x9DBA1A02; 0x8BED5F08; 0x488BA455; 0x67F1040E; 0xF6814A64; 0xDC252336; 0x23AC4762];
   [0xF0ED0577; 0x25040F02; 0xC6FFAE9C; 0x65209B22; 0x485AA0AC; 0xCC441A8C; 0x59D63A8A; 0x10DFACB6]];
  [[0xC7D86B28; 0xBF4A0569; 0xDBDA9DA4; 0x5CDA94C4; 0x69058335; 0x2235C4CE; 0xD30C89E2; 0x68FA5E7C];
   [0x59097B5B; 0xBB286D39; 0x9A20BA7E; 0x87DA80BB; 0x56F47E54; 0x85EF865E; 0x74ABFA5B; 0x5BB87867]];
  [[0xDE2FA36E; 0x5DB14FAB; 0x77775F09; 0x84E3B546; 0xDA951D99; 0xDA734523; 0x3975026E; 0x4A89097];
   [0xC0D12BE1; 0xB5753599; 0xFB864D61; 0x5670CE9; 0x305BF3CF; 0xB7153502; 0x2E60AF62; 0x7A9BB357]];
  [[0xC7566DA5; 0xF43CDA07; 0x53FA4196; 0x7FC4C7FC; 0x88DCC9F3; 0x1E20E0ED; 0xFEE23DDA; 0x7317C7E5];
   [0x43017070; 0x305E13F; 0x6B1CA7C0; 0x5568410C; 0x104BA029; 0xE5D55BA; 0x90FD49F8; 0x118B284E]];
  [[0x8F3C6D8A; 0xCA0F7B5B; 0xAF7ECBF6; 0xAF72DEE0; 0xBB0EC4F1; 0x21C86D85; 0xF0525D17; 0x303BC47];
   [0x896FFCC0; 0x6ADCAB9F; 0x24E970CA; 0x65764C45; 0x1C3CA718; 0xF14C; 0xD0292587; 0x1CF1DDB]]];
 [[[0x86111EBA; 0xEC4FABCC; 0xBBBB793F; 0x599C20B6; 0x5657668F; 0xF74AE747; 0x77BAE892; 0x24AF29B2];
   [0xCFAC9D5E; 0x47D6876B; 0x24369E14; 0xCACF9F50; 0x6F9CAFEF; 0x8A231D74; 0xB69AAE58; 0x57645A4E]];
  [[0x489900F6; 0x440A3B15; 0x961AC3C2; 0x4B642FD3; 0xC265B973; 0x3D668599; 0x1139CE78; 0x5FA0E65D];
   [0x1FAA710E; 0x3FF15AF4; 0xA9422FC0; 0xE45D35CE; 0xBD7BB349; 0x56904C06; 0xE529989D; 0x40C5BEE0]];
  [[0x70B20298; 0x8FA46861; 0x4838A136; 0xEC629538; 0x137F66D6; 0x23ADE0F6; 0x8EA53E76; 0x1A92E05C];
   [0x9D51EB7A; 0x51728E27; 0xC4352E35; 0xA6B0B758; 0x37A11B35; 0x84C59331; 0xF66B75C7; 0x3933EFC1]];
  [[0x66916D0A; 0x7FB68D62; 0xF28A9B14; 0x3325D42E; 0x8592B544; 0x75E83A65; 0x2718628F; 0x524D1CE0];
   [0x3C584D76; 0x88A110EA; 0x4AC09AAC; 0x6B034AC4; 0x84FD3A36; 0x6488635; 0x87D944E1; 0x516F0EB0]];
  [[0xDF11D0BB; 0xE2016DA0; 0xB01F6540; 0xB34EB471; 0x165CBB24; 0x13E3D330; 0x7CF7F676; 0x3E755D11];
   [0x4FEA9A69; 0xD70CF4F8; 0xD18F4337; 0x98F59E0A; 0x826344BA; 0x7CCE7CE6; 0xF4004BBE; 0x30D129D7]];
  [[0xBA9CB975; 0x16EF317; 0xE4B3AB4D; 0x8EEBED19; 0x170A2570; 0x8C597DF0; 0x5BE6DE70; 0x451538D8];
   [0x7A64792F; 0x6C711DAC; 0x217EC8FB; 0x8F1896EB; 0x7FE18DED; 0x82E9C20B; 0xB0C5F622; 0x6CEBF4A7]];
  [[0x49CCC64F; 0xD9403EB5; 0x28B8A3FD; 0x807EBD56; 0xF291E12; 0xF08BB659; 0x9C3F4432; 0x20D13E3];
   [0x752BB92E; 0xDA247896; 0x86EAFA7A; 0x99541794; 0x274E36AD; 0x213E94BA; 0x61A71333; 0x4CC0F1FB]];
  [[0x6478801; 0x19CC11BD; 0x6D18216A; 0x1251562A; 0xCDD307FC; 0x7A5F06BB; 0xFAA9CA2A; 0x4285F6AB];
   [0x81258996; 0x5A922831; 0x27B8B018; 0x8F7CF8EE; 0x7F81A62D; 0xF030BEF3; 0xCD4FD4E7; 0x417ACBC1]];
  [[0xEC64412F; 0xCFB0EA58; 0x6091E621; 0x9547B64A; 0xFD0C9815; 0x5EA49C7E; 0xE78B355C; 0x6789055A];
   [0x77E9A73A; 0x8D743E98; 0x2EA3FA49; 0xB032EA6A; 0xCEAAA33A; 0x52EA3801; 0xF2C3E22B; 0x73B3BB8D]];
  [[0x7DB9E301; 0xAA2A1291; 0xA1293DD7; 0x7F29770F; 0x59683DEC; 0x3135BB21; 0x7785B505; 0x70F8DF7];
   [0x37F53677; 0x8F2158EA; 0xABE1AF1C; 0x96CC7B9D; 0x6D6477D6; 0x7F977915; 0xDF370EAF; 0x55DB3922]];
  [[0xA9DAC7AE; 0x3028C03A; 0xBAE06BE0; 0x16F7DF0D; 0x410D57D9; 0x9548398; 0x1510D51F; 0x5E9C7F43];
   [0xD07717B3; 0x33B9BE2; 0xEF08AB91; 0xD5D8116; 0xEEEFE88F; 0xD5A172B1; 0x996294E; 0x72B1D29F]];
  [[0xE4D0965C; 0x9E2B79FB; 0xF49D8B8E; 0x1F403EE; 0xCEB12D6A; 0xBD4D2D48; 0x11FB24FB; 0x4D04DD9A];
   [0xE5C8D24C; 0x7E613EC5; 0xB918E543; 0x568BEFE8; 0xE966DF28; 0xD6456D1E; 0xBAFC71E2; 0x2DDEAD63]];
  [[0x448D72E9; 0x1D794F92; 0xE7E62BF2; 0x3978052E; 0xE2B92538; 0xF6C7A72E; 0x6EF321F0; 0x43879A88];
   [0x34F6FFBC; 0x2A823140; 0x35F4C485; 0x26F84E51; 0x28BFA7E; 0xDEE65540; 0x5F033058; 0x56216E9D]];
  [[0xCBC772EE; 0x31CA5470; 0x811BB5D0; 0xD3621E11; 0x70863D71; 0x501C4C47; 0xD28D6BDD; 0x564518E];
   [0xD35B64B9; 0x60E3B89B; 0x6621A688; 0xB4F2599A; 0x3B5E116D; 0x1A8C4508; 0xFABF3125; 0x633EF5CC]];
  [[0x5D4FF62A; 0xDB1D251; 0x4B17D658; 0x6CBD00EB; 0xFA1DB737; 0x2FA38212; 0x93A7FA03; 0x7B18CB8];
   [0x548E5F82; 0x531E47EF; 0x8276963C; 0xAE7B94FD; 0x6181A13A; 0x8055D82A; 0x23B6E361; 0x5725B512]];
  [[0x6D8B1FFE; 0xD84C7041; 0x5D994200; 0xF68ACA0B; 0x6BB908E2; 0x32BF9944; 0x1AD88DB1; 0x1240A3E6];
   [0xA92B6472; 0xB0BE96AA; 0xA1B7726C; 0xEF88A155; 0x9349F496; 0xFD9ED; 0x454A05D9; 0x377DCBAD]]];
 [[[0xC04111D2; 0xD0A092CD; 0x338F06D6; 0x5C43A94C; 0x25E964F3; 0x697B4C26; 0x7572CCFD; 0x2CD5A059];
   [0xB5B523E4; 0xA09FC4D4; 0x4E1E9042; 0x7D8141E8; 0xD637409E; 0x2462512B; 0x7CB2CE75; 0x503F032F]];
  [[0xBCBF1450; 0xC56F38E3; 0xCF2E5594; 0x9F4FC77; 0xFCB653A; 0xF449C3E6; 0x64A53C65; 0x6A1FE752];
   [0x7C039488; 0xFF366FED; 0x8C99A6CB; 0x23F58BA5; 0x8D67F6D6; 0x4B5546C6; 0x178B1668; 0x3405C85]];
  [[0xC0C86696; 0x969F1B33; 0x13746468; 0x9346D06C; 0xAE0C6D62; 0x68AED3C8; 0x74FE63D5; 0x7B3D5361];
   [0xC4F4B65D; 0xFEE8416B; 0x554C6D0A; 0xC79BF488; 0xDC402BB0; 0x191D5D27; 0xE087EB9F; 0x31B00167]];
  [[0xE05D281F; 0xD5FE0979; 0x3485446B; 0x8373AB50; 0x9223681F; 0xCE5258BA; 0xA37BF244; 0x5F82843E];
   [0xCFC16536; 0x94ED780B; 0xBD477733; 0x6A9739B3; 0xA04A4195; 0x137D68F2; 0x32BFCE; 0x3A0F27E8]];
  [[0x358382F9; 0x7EADE421; 0x92E3D912; 0x490B9CA6; 0xF1AFBC2A; 0x40CE73E; 0x11AE91BA; 0x5745D473];
   [0xCE303B77; 0x625BED61; 0x85B03A1D; 0x85B2A1EB; 0x3D7C02E0; 0x764F62E4; 0xA7AF6DDE; 0x22C2D16F]];
  [[0xD19377BE; 0x5B985DE6; 0xD8E43A10; 0xAF85A06; 0x519F4C6; 0x1465E504; 0xE3E20BA3; 0x5DA01665];
   [0x675D9E2A; 0xCD9B8E9B; 0x6448A2CD; 0x4C77E1AD; 0x1E5D4465; 0xD6094BAD; 0xC50DB788; 0x4C352951]];
  [[0xEE5AB903; 0x42581152; 0x63311418; 0xDAD2DBC9; 0xB885E56A; 0xBCA4F70B; 0xB94E0876; 0x1F5DD363];
   [0x3FFF479E; 0xF9AD5D04; 0xFE06AD2B; 0xEF1176E5; 0x216F77AF; 0x46ACB00A; 0x857C4F78; 0x709CF4EB]];
  [[0xD0D2FF1C; 0x70CD666E; 0xE7EFE4AD; 0x4BAD4A6A; 0xFA72024; 0xB43F6C2D; 0xE90C0617; 0xD78F8E2];
   [0xF80DCAA7; 0x543B9662; 0xF28ADFAF; 0xB02FB3BC; 0xC51C54C3; 0x26C17651; 0x3D648D88; 0x815F637]];
  [[0xAEA98FA6; 0xAC4F43C1; 0xAC4398C6; 0x2D223416; 0xDA5C5070; 0x48B2EEAD; 0xBE666F70; 0x632B65F1];
   [0x952021BE; 0x971D3BC0; 0x23B2C578; 0x9FDCB7E0; 0x3CC21796; 0x476D4715; 0x95832A94; 0x4015565F]];
  [[0x13CA725C; 0x8913AFAC; 0xDC18F0D9; 0xA56DC461; 0x10F3AAFE; 0xAC3AC720; 0xC628D69C; 0x5D75567E];
   [0xEEEA4BF7; 0xC11BE9DC; 0x1C193BD5; 0xAD97FBCA; 0xC58123E8; 0xD1EC5BCE; 0x9C73D4E5; 0xF6DF930]];
  [[0xFD759FFD; 0xE80A0ADA; 0x239CAFC0; 0xE52DF94B; 0xFE7A43E9; 0x59640161; 0xDB1A38F0; 0x7A96995C];
   [0x7CD5011B; 0xA46A1503; 0xAC0E9689; 0x75CFB637; 0x97AAD2BA; 0x27B740CA; 0xEAD2F776; 0x64A0748B]];
  [[0x625B3B1; 0xB67E5BB5; 0xC66D2832; 0x2FE19FFB; 0xF70C07CF; 0x47815666; 0xA43E52AB; 0x5A1AA24A];
   [0x4CAC0E66; 0x4EE11F8; 0x3A3A4836; 0x51E51583; 0xB44F6DEC; 0x46755F49; 0xC1E9B282; 0x6388408B]];
  [[0x9DE7A6A7; 0xD47AA9A6; 0x189BC9D2; 0xEC94AD9B; 0x8EC0E950; 0xFA89099D; 0x9F64D27F; 0x1B9FC206];
   [0xB729DE1; 0x76572484; 0x4BE22EB8; 0xFE9E8E71; 0xF9DB5942; 0x910F0456; 0xC617D82B; 0x4D018459]];
  [[0xF5516C6F; 0xB082B58A; 0x567A8CF5; 0xFFBA0E73; 0x8A6DD4A0; 0x8FF64CE; 0x69A9F66A; 0x6CF3C89C];
   [0x62FEB0A7; 0x356782BA; 0x3E2907F9; 0x1A18720D; 0xBBD9D92; 0xF840FFA3; 0x20926421; 0x41D9EECA]];
  [[0xB6B08321; 0xCF2E8AAC; 0x10D91C0; 0xC76FBE12; 0x68E35E02; 0x54924750; 0x9AEE00F8; 0x74DBA2E1];
   [0xC5504E82; 0x94C70D6D; 0xEA1770F7; 0xBDF415F; 0x3CA6DB0A; 0xDA45B700; 0xE133A980; 0x473C6A04]];
  [[0x1E188071; 0xD1FF6C1E; 0xEA3F16F8; 0x621A7D3C; 0x6A160F47; 0x60467307; 0x32DC84EE; 0x37CA7D3D];
   [0x67DDFDB5; 0x54F5F7F6; 0x921BA04B; 0x3A8482F9; 0x1A28E238; 0x842F4950; 0x7214FAFD; 0x3A4DC917]]];
 [[[0xEEA25E82; 0xEDD8360C; 0xFB7B7ED0; 0x3DB6D933; 0xABF15199; 0x882F3C0B; 0x516E349D; 0x228664A2];
   [0xE88173DF; 0x96E6DCF7; 0xD7EC0BC3; 0x382C8D3B; 0x6FA5FA58; 0xFBFF6D21; 0x2F41C959; 0x78003980]];
  [[0x9D9ACF9C; 0x713BA43B; 0x94876559; 0xF59A252D; 0x437B8ED5; 0x8B310954; 0xE474E98E; 0x76A83790];
   [0xF6040B05; 0x84C1386A; 0xBF3D8189; 0x69FA9F43; 0xA98D4866; 0x5584164C; 0x3B9045D0; 0x6C89CE1D]];
  [[0xB522FB28; 0xD6EF7540; 0xBB28D745; 0xDB561B56; 0xEFA58B87; 0xC9F7543E; 0xE9062979; 0x5F02A23B];
   [0x6809D624; 0xFD3C0C19; 0xA92EB229; 0x94481554; 0xF5147EFB; 0x72D8EC53; 0xD1BA626; 0x14302661]];
  [[0x89020800; 0xB35BD59; 0x430D7DEB; 0x3C6F1527; 0x2FFFA0E0; 0x9BEB3C8E; 0xAFD09A19; 0x7E181B78];
   [0x3B2F0B49; 0xE82FD957; 0xBC0F9DA; 0x4C9461B1; 0x2B1C8B85; 0x87D78C41; 0xC1F5BDA1; 0x775BED20]];
  [[0x16350593; 0x883AE89B; 0xC19FEC8; 0x85D429CB; 0x5742C36D; 0x5938BDEC; 0xDA8A21B7; 0x2DDBC7EB];
   [0x7A2E700; 0xA249BDE4; 0xE8BD6215; 0x42A3897C; 0x732FF181; 0x87F30BA7; 0x1B912C57; 0x5385D709]];
  [[0x288041F5; 0x2B5C555B; 0x1F425866; 0xD3D90040; 0x2E0FA71; 0x37E40CD2; 0x3A386038; 0x8B37F26];
   [0x5DE1ED78; 0x165BD7FB; 0x829ECC9; 0x22949E81; 0xBCE3D01F; 0xBB8705CC; 0x1D233CDF; 0x7961BE85]];
  [[0x7659B477; 0x5D3DBC6B; 0x50EF08EB; 0xFD865779; 0xF34EA1A5; 0x502729E8; 0xD2B64602; 0x1548526E];
   [0xB91D2675; 0xB13632FD; 0xF7B37397; 0x9A42003; 0xCCFC4532; 0x37D18F37; 0x73C7082C; 0x3FAEF63B]];
  [[0xE666DB6D; 0x3365445F; 0x339A0076; 0x9051FFF5; 0x9BD6D01D; 0x6167FB76; 0xCA087B41; 0x9737137];
   [0xB3270BA7; 0xCA2193AE; 0x8F2217B3; 0xEF0744C2; 0xF0DD10D8; 0x3E030D58; 0xCCB4F2F9; 0x667246DB]];
  [[0x3773EC8C; 0x31F3030E; 0x5AD56010; 0xAF2B3123; 0xB37E9062; 0xFC118587; 0x9C2D5406; 0x52840C2C];
   [0x6670ACBB; 0xA96D3DFF; 0x772EC6D3; 0xF469982F; 0xA9DF4C88; 0x5BE20628; 0x673633BC; 0x59D01479]];
  [[0xAFB5083B; 0xC9223750; 0x191C2160; 0xF1EB451E; 0xA38EC005; 0xD913794; 0x83FD1D18; 0x31062E9E];
   [0x5F4816AD; 0x70538F5; 0x925F5DA1; 0x90D4855D; 0x22F455B6; 0xC0BBA87B; 0xF48D2AE5; 0x517B5F80]];
  [[0x3F4FA7CA; 0xD8B670A; 0x3D114EB2; 0xE29C8849; 0x916A187E; 0x1823780D; 0x65EE66A0; 0x6961C483];
   [0x62FDC12C; 0x2F6FB20A; 0xCFDDE0C; 0x51414E5F; 0xDCA39073; 0x16BD56A7; 0x648FFD43; 0xCFE6DAF]];
  [[0xAEBA9241; 0x3789F4CA; 0x107777C6; 0xE8056BC6; 0x3CB20826; 0x6EE564C3; 0x45448C69; 0x5DF36347];
   [0xB22CE624; 0xFD0FA84B; 0xAC753D50; 0x2AA19672; 0x677CC0D0; 0x29A1464F; 0x3CEF5493; 0x7C2237B1]];
  [[0x24255918; 0x87C2587C; 0x90B35A37; 0x9AA89A0B; 0x10E7CAEF; 0x9932EB78; 0xCDE31568; 0x49278F16];
   [0x41188ED9; 0xA4D33C61; 0x5AC3A1D; 0xC587BDE0; 0x7248B5E0; 0x2A5C5ACC; 0x8510D2CB; 0x60026A1D]];
  [[0x6BAF603C; 0xE57CB0C9; 0xAB770AF0; 0x527F28A6; 0x16F2BC1; 0x2850D8E6; 0x936DC2EC; 0xEC2A46C];
   [0xD4F23FC2; 0xA0BC5306; 0x53A0130F; 0x6DBEDA26; 0xEE3314B7; 0xB1D52F87; 0x6C234CF5; 0x17168B12]];
  [[0xDADF17D5; 0x8B8BC181; 0xFAFFA918; 0x31EC3CAD; 0x274E4658; 0x4611A482; 0x73D35EAD; 0x5A9E3652];
   [0xF4028FC7; 0xBA68825B; 0x62E203F5; 0x142859D5; 0x1C817A9E; 0xCE516AC4; 0x57223F8D; 0x42014682]];
  [[0xB4B66798; 0x51FBFB2E; 0xEA9C4EF; 0x3A3F1591; 0xE8814805; 0x3FD3D026; 0xB0C8DFD0; 0x3CA531E4];
   [0xE585A960; 0x69A6B3F8; 0xBD3F567D; 0x1627CC77; 0x5DB9CFD0; 0x6F4EF430; 0x8D02278A; 0x5B56707]]];
 [[[0x10B96338; 0x6663F2F3; 0xCE8CA31C; 0x69373D1F; 0xD67AEC10; 0x3D31C5CF; 0x16F2547E; 0x2FAF5545];
   [0x1EA2EA64; 0xF6E397D5; 0xEEAEBE7A; 0x2281A0DF; 0xFA2527EC; 0x72E53254; 0x76432155; 0x660D059A]];
  [[0x2C66D937; 0xD3CA8B13; 0xCD2DF849; 0xC6F34B08; 0xA23A9F73; 0x9AF2C9E3; 0x702388E9; 0x24D44BD9];
   [0xD1B3DA10; 0x8DA4D6A4; 0x40B93B10; 0xB9FAFBF4; 0xEFCFD2A3; 0xBBE51BB3; 0x1844581D; 0x68BE0395]];
  [[0xEA1FAE1; 0xDECABD8C; 0xFDFED7C2; 0xA7499225; 0xFB468B83; 0x8489E35; 0x43D95F9C; 0x5B689344];
   [0x9D2F522E; 0x9FC8364A; 0x3A5D27A4; 0x114DB31A; 0xE33A9EC8; 0xC6A35992; 0xDC9ACAF6; 0x6FE9EC3B]];
  [[0xDEAFC64C; 0x98AE2D66; 0xABE706B7; 0x95AAC8EF; 0x223DFA3B; 0xB15A6604; 0xE24B43CB; 0x77DBC24A];
   [0x8542FA2A; 0x65D6F871; 0x5D326A1A; 0x1093B273; 0xF137AFEF; 0xBA82D607; 0xB9DEA6A7; 0x502B32E3]];
  [[0x885CA6CE; 0x88906BD6; 0x1D36BFEE; 0x136ADF9A; 0x9AA61E3; 0xF844088C; 0x51BAC299; 0x4E508EA3];
   [0xEB821936; 0x251ACD26; 0x43D90E10; 0xDF6AD7D5; 0xDE7F14B9; 0xEBCD7046; 0xAB503259; 0x1DB258B1]];
  [[0x90AD5D55; 0x348E3018; 0x7067806A; 0xEF6BE73; 0x41627FCC; 0x72C1134; 0xE904F823; 0x48EE7606];
   [0xD9FD5EF3; 0xEE6AB582; 0x17AB50BC; 0x57765D03; 0xFB7DEC68; 0x1CCFB407; 0x141DF51D; 0x2E1771C7]];
  [[0xA013284B; 0xCBDD6235; 0x20D07125; 0x4D93FD87; 0xD485418E; 0xB3D055B3; 0xC67ADD2D; 0x4EFB8763];
   [0x1B2DF427; 0xEC369382; 0x64D0DDF4; 0x25009791; 0x163056C8; 0x9BD42FFC; 0x5B88BEBA; 0x60527792]];
  [[0x9D82DADF; 0x6D5D6A86; 0x7C24A1CA; 0xC3BA9A16; 0x2E6981CC; 0x838167EC; 0x7E1E4237; 0x7FB5D857];
   [0x86A40BC7; 0x83B2C2FC; 0x6F9AC4FB; 0x679D2DFC; 0xE45455EF; 0xB3714CD; 0x394A7797; 0x1C8D833D]];
  [[0x4E641C9D; 0x1FBF8961; 0xD951DFC8; 0x3330DAB0; 0x51D96DB; 0x9D4EBA4D; 0x23066924; 0x27C6DBF0];
   [0xDA5D1D79; 0xB950C648; 0x5E9CD783; 0x544D46BA; 0xE69BA3EF; 0xFA77226F; 0xE4DA8423; 0xA93D219]];
  [[0x5BDCA76B; 0x7C377CC6; 0xDC58D194; 0x7DF505D7; 0x13E389E1; 0x18A24C0B; 0x6C3972FD; 0x5E0782DD];
   [0x6680FCE1; 0x97AD477E; 0x3CBAB792; 0x6B07BF22; 0xDC68C9E2; 0xB8DF3C73; 0xC04B2749; 0x33AB5A4C]];
  [[0x7E79B5A7; 0xD151C762; 0xC82C7B8A; 0xA4356B79; 0x96E0A2E2; 0x931DDDE8; 0x52C54FDC; 0x40378EB2];
   [0x40C24003; 0xA6BBD5E3; 0x65C34FEA; 0xB4F3246E; 0x9C767A23; 0x780B21ED; 0x52BD7E83; 0x5F1E95FE]];
  [[0xCF39F9C4; 0x4F3453DF; 0xB8CC2CA6; 0xA3E1CFD1; 0x4B898859; 0xE49BC49C; 0x6C0BF055; 0x4FFD7BD6];
   [0xD139AD1B; 0x7DE7604C; 0x2A3CE8FE; 0x6973F5EB; 0xF9501ECC; 0xAC66FF97; 0xA97D46CD; 0x3D96F1E2]];
  [[0x6106EB96; 0x70D5A0D0; 0x398C1FD9; 0x938E038F; 0x1F3A1AA9; 0xE66B7007; 0xF5BD9308; 0x42BDB264];
   [0x5AF84957; 0x4B3FD754; 0x4E27DC6B; 0x9E3E17FA; 0x51D8560B; 0x384FCACD; 0xF8068C09; 0x42F00D11]];
  [[0x7D5897D5; 0x794C1E6A; 0xDF72DCA0; 0x4901097F; 0xB01E4C4; 0xDED5B192; 0x26DD41E9; 0x364FF582];
   [0x32FCA925; 0xA3F92DCC; 0x207AA09A; 0x8A1FB329; 0xF512AE3A; 0xA9274BD3; 0xC47B9007; 0x161C82BC]];
  [[0x7AE1175F; 0x482ECE3B; 0xBDD5DC6C; 0x97CAC7E8; 0x9FDA910D; 0x56225309; 0x9FC206B9; 0x52A9893B];
   [0x5BB5ACA; 0xAD9F2A92; 0xA3B65716; 0xB9EEFB5B; 0x8DB5A8D4; 0xE7BC173B; 0x399DAE9E; 0x6715EC64]];
  [[0x5E41AC75; 0x780796D1; 0x4FB3A0B4; 0x3E165C78; 0x237103E9; 0x198599BA; 0xFA7ED86B; 0x2C04C3F5];
   [0xAC9356F0; 0x29547DA8; 0x79EADA37; 0xCB345AB4; 0xA295BF2D; 0x1D15D377; 0x2FDC8131; 0x10292C9D]]];
 [[[0x40E1DC7E; 0xADF3B547; 0x1C345D14; 0x420CE2DD; 0x21DC5C2D; 0xC08E3CBE; 0x6F8FCE80; 0x79FDC000];
   [0xCB105CE7; 0x23EBDF7F; 0x7C6794A8; 0x793FC99D; 0x293E3575; 0x4CA3FB21; 0x7BF73CC8; 0x7FB2ACB9]];
  [[0xFC8FCD4; 0x67DB6C90; 0x7EE3B705; 0x22A3DF5F; 0xC7B2EDFF; 0xD50EBF8B; 0x99522FB7; 0xC701045];
   [0xAD4F9044; 0x1420CF02; 0xE5B59451; 0xD78DBA23; 0x6AEFD853; 0xDFDC1C7F; 0xDEA1DAAB; 0x560DEE94]];
  [[0x2167A78B; 0xF235513; 0x9F441927; 0xCF463702; 0xA3D1505C; 0xD0AE2723; 0xCD9FBFF4; 0x3149D858];
   [0xF79240FA; 0x2A73913A; 0x252A958B; 0xC904A575; 0x78473D97; 0x10D18190; 0x203BC8C4; 0x42CE7A38]];
  [[0xFA59BB8B; 0x1D2AD4F2; 0x79F137DD; 0x8234964C; 0x5D02679E; 0xB63A30; 0x5DD7543D; 0x506C45BE];
   [0x776BF80C; 0x4378F900; 0xB312F2BB; 0x179558B2; 0xEA37C183; 0x5B15368C; 0xB198E42D; 0x7593B19F]];
  [[0xDEFA1F48; 0xED723535; 0x87F96EE5; 0xDAFC48B; 0x91B1B52C; 0xAEFA3BA; 0xA1ADBEA4; 0x56BA1B33];
   [0x30A6C905; 0x8A0B6170; 0xB272D12E; 0xC5BA3518; 0x4B6643A9; 0x782100CF; 0x85C5BD2B; 0x12DEE803]];
  [[0x78FCADD6; 0xDD07D2D5; 0x3B25C523; 0x8CB8E8A8; 0x530919CF; 0x25063508; 0x1E24F7A1; 0x45D3DD54];
   [0x49DDAF96; 0x296AE893; 0xACE559F5; 0x7EF3CDE0; 0xD36F87B; 0x9CDF22E4; 0x4AC9A845; 0x19684765]];
  [[0xC597B7AE; 0x3955B5AB; 0x3AB49731; 0x59F3BA05; 0xF525C6C8; 0xBCA5B117; 0x32050B8D; 0x4969C134];
   [0x970E8E49; 0x353183D9; 0xE95300CF; 0x3D005213; 0x9022378; 0x595F9C8E; 0x1A445C28; 0x70FA8B47]];
  [[0xBADB79EA; 0xECC88EE3; 0xFBD8464E; 0x5BDAF68C; 0xB4280334; 0x24AF6A4C; 0x398E5BBE; 0x17A5DE8B];
   [0x92999E18; 0x300B6DEB; 0x67DEFC2F; 0xA0766918; 0xB19F87FF; 0x4E904450; 0xC2871056; 0x3010AD94]];
  [[0x461EFCC3; 0x72E747A1; 0x562F923E; 0x329EDF18; 0xD081A4E7; 0x65E021D4; 0xB727B6F4; 0x4B2DBFFF];
   [0x9C8505AC; 0x5A597A80; 0x562B82D2; 0x13486480; 0xCC8234C3; 0x477FD480; 0x4800C00; 0x6045ABA4]];
  [[0x9C541035; 0x3E087439; 0x6D9D8B6A; 0x389AA76C; 0x36A21299; 0x68FE5E83; 0x402A32CF; 0x67AC313D];
   [0x25501A53; 0x996131D2; 0xA77A85F4; 0x5C1B89DE; 0xED6702AD; 0xA9822C84; 0x56609EA0; 0x50F014A4]];
  [[0xE5A8E91E; 0xF0F8B4E6; 0x1A2FFEFD; 0x734CFF08; 0x27BCB163; 0x9724EE0B; 0x30B8EF68; 0x6AF3808B];
   [0x126E88FC; 0xE5B3829F; 0x4EE5FD4B; 0xF441EE3; 0xBFEC4D34; 0x534D2F8C; 0x76E6737; 0x3E1F16DE]];
  [[0x4ED36E6A; 0x4DB53E8A; 0x4352B22F; 0x49A9EFE9; 0x39CF005C; 0x7829605C; 0xD85DB959; 0x190A8E16];
   [0x9B073AB3; 0x69981069; 0x8C141AA1; 0x8C264B87; 0x603ED47C; 0x7F614282; 0x9F9B0940; 0x21FD2E7A]];
  [[0x1EC6BB3D; 0xC5CA10A0; 0x27A9B02B; 0x9403E3F5; 0xFB43F790; 0x9D3D186D; 0x67DC0C00; 0x7855276E];
   [0xFFFFB14C; 0x53DBB2A; 0x43ACC0A6; 0x26746663; 0x7FFC1C68; 0x1EE7A946; 0x56DBB0DE; 0x14BFAF01]];
  [[0x849EA674; 0x11C89A47; 0x94A540E6; 0x194FAAF0; 0x6050E4C0; 0xE61163F8; 0xB1A07B76; 0x6939A166];
   [0x2EF18325; 0x8166CA8E; 0x30C042E2; 0x96112E65; 0x5A394C25; 0xA805CAE0; 0x392E6BB; 0x45A0DE01]];
  [[0xB4FAAA56; 0xB89CEE96; 0x529736DE; 0x7A7DC8AE; 0xA727FCF7; 0x9158AA49; 0x1896B9DA; 0x621B8B31];
   [0x3BEC74B; 0x875930D6; 0xA7A50309; 0x1056DB45; 0xB5657B0E; 0xEE713E04; 0x6FCAD967; 0x2D68155E]];
  [[0x65B1E2B3; 0x3BB1E9E3; 0x88425BAB; 0x2A615670; 0x62F1BA4A; 0x22F4F32F; 0x88A59642; 0x7B5EC250];
   [0x42D30049; 0x7B5BA12A; 0x86995BE6; 0x4E6AC055; 0x45EC87AC; 0x4431A04; 0xED94823D; 0x28974ED7]]];
 [[[0x12BB5555; 0x59258057; 0xBB7608EE; 0x3141CD8; 0xEF77714B; 0x84EBDC49; 0xB5DC1A5F; 0x6A45FC3A];
   [0x2FBEEC76; 0x1F6DC205; 0xA920C554; 0x17EB733B; 0x7A28ACDF; 0xDB022C21; 0xA9B62BF1; 0x6AF16156]];
  [[0x80B472CC; 0x9379D6A8; 0x7BD92F27; 0x6CB08CB0; 0x147E6E12; 0x19B3C353; 0x26827839; 0x3C26CB2F];
   [0xCC571E4; 0x98AAC9A7; 0xC3C8FC04; 0x75D05F2; 0xD79621AC; 0x718B55A0; 0x5B94B41B; 0x149FEECF]];
  [[0x783F9C81; 0x6A150A64; 0xFB18827; 0x5950C2DF; 0xF15E3A89; 0xF5D75504; 0xFCB4406B; 0x5F92F2F7];
   [0x6123E858; 0x665F31E7; 0xA95184A3; 0x4E568EA9; 0x505FF0AD; 0x851EEADC; 0x542C3EF8; 0x62AD5BA6]];
  [[0xC55C23FD; 0x1103859D; 0x695E4E9B; 0x6AB0BD6; 0xDD734990; 0x2CD00D76; 0xB06460E4; 0x5D59C693];
   [0x1F9C76DA; 0x3BA8F2F0; 0x960F5C0E; 0x8E4A7EC; 0xE4AAB060; 0x79C82AD9; 0xDF95C43; 0x93D322C]];
  [[0xC627547; 0x88AF1258; 0x889A5E12; 0x81E5F197; 0x7CBD84FD; 0x99E0E191; 0xDB0B9711; 0x3024BCE8];
   [0xDB93B1A2; 0x4075C80; 0x628B0E63; 0x12F30AF8; 0xEB25A4ED; 0xA3514F26; 0x7BCD0873; 0x3D42E489]];
  [[0x754B236F; 0xF1C16C6; 0x594F5D3D; 0x717CE487; 0xAFAD77B1; 0x7679C7DA; 0x6F3E724C; 0x51AFD014];
   [0x3AF6938F; 0xAFC9745C; 0xC4E61CB4; 0xCA12BFA9; 0x9425CCA7; 0x943B5696; 0xB6E48A69; 0x5BD3E65E]];
  [[0xDEAE74B1; 0x2D23CF78; 0x43BF2F1; 0xA686767E; 0xE464ADE9; 0x3AFED34D; 0x5A6AE80B; 0x1E462073];
   [0x737F7B66; 0xA86AA408; 0xEAB3B6CE; 0xD67A0B49; 0x275355F3; 0x6FF3CA4F; 0x688F99AB; 0x6F385576]];
  [[0xFD2F9A72; 0xC9B63343; 0xAC267E8A; 0xBD0A126D; 0x5D2839B5; 0x818BD5D8; 0xBF5AFCE; 0x1BBAB4CE];
   [0x4D8B67DE; 0x2827B24A; 0xC34E6642; 0x841F6BD3; 0x5E4A34D4; 0xE9F5C1C2; 0xFDA4177C; 0x4E98795C]];
  [[0x763AB04; 0x3C9FF1C2; 0x9832FCFD; 0x4FC1BE61; 0x8BD0363A; 0x5FA50C38; 0xF26206BE; 0x14C9BB2F];
   [0x1D31880C; 0xAD1A96EB; 0x65DFCF8A; 0xF0A37BC4; 0x3D048FE4; 0x38962729; 0x6480B254; 0x17125C0]];
  [[0x98D4BAC6; 0x1E819F5; 0x36B99D30; 0xD3686E04; 0x200A4A9D; 0xC2876FB; 0xE65782D5; 0x45D50C2F];
   [0x865B7A21; 0xB8316ECE; 0xCC875503; 0xA3ADB90F; 0x98468FB4; 0xD72E864E; 0xDED21F40; 0x13BB23FD]];
  [[0xC6B96368; 0x653C3C15; 0x2B9C381F; 0x9A42FC2C; 0x69534D92; 0xF06B41B9; 0x3FB7BED2; 0x46F7292E];
   [0x97D1875E; 0x14A2C420; 0xD3B2DF55; 0x45DFA824; 0x3F2BA72D; 0x59CB7E59; 0xD7D96C98; 0x2EEC65C9]];
  [[0x49650405; 0x907CD4C8; 0x37E05E06; 0xFC29320A; 0x9E29619; 0x99B4C1DF; 0x34DE993F; 0x74E69BF8];
   [0x509D9797; 0x62C0F296; 0x5F1EF554; 0x2E6BD4E6; 0xD0B71B8; 0xE3050641; 0x235DDE6C; 0x29DA0C9D]];
  [[0x689398C1; 0x3CFBCA4B; 0x40C9DF13; 0x11E58804; 0xBCDF2489; 0x3923A39B; 0x387C8089; 0x3805CCC7];
   [0x70319AFA; 0xC1B4EB48; 0xCA089604; 0xA6A5FA4; 0x73139A20; 0x16ABDE54; 0x94BD61B5; 0x7C0055E0]];
  [[0xCB05A02A; 0xA5AB5CEF; 0xBFE903B; 0xC0B4E1B4; 0xEAC9E7E8; 0xBA528329; 0xA2456B6; 0x266C5A7];
   [0x5E216EEC; 0x507E9A41; 0xD0F1E440; 0xFCC06B0A; 0xE5C7B26F; 0x6FAEFC8E; 0xB02F85C1; 0x4744CF2E]];
  [[0x1C291BFC; 0xF5E2B812; 0x2CDCBF7A; 0xC18E791D; 0x46554345; 0xC386B962; 0x67518CD; 0x373E00FB];
   [0xE950051B; 0xC9BA9DF9; 0xDD6133EE; 0x182CB132; 0x70A3C71C; 0xD6D7F815; 0x7FAFE307; 0x44C5AEBC]];
  [[0xA9D16080; 0x6C7CE359; 0x1E8B643E; 0xA874386D; 0x7F48E10; 0xA0648129; 0x93E4D619; 0x2A402201];
   [0xBD383EA6; 0x8B429545; 0xF2880536; 0xC096D593; 0x20E299B9; 0xB4057D6C; 0x38A825FA; 0x303962CE]]];
 [[[0x1E1D70D0; 0x9E426EBF; 0xB83529CA; 0x6AEA4DDC; 0x7CC9A07C; 0xF3ECD462; 0xC364772E; 0x7F255C86];
   [0x5613BEF0; 0xDF212CF; 0x1309F9D0; 0x771F02A9; 0x805FE1F5; 0xE97BEE39; 0xD93522B9; 0x54A43430]];
  [[0xCDE4EBBE; 0xC01553BD; 0xA02E56C1; 0xB1928DDC; 0x94A1A417; 0xB91004BA; 0x56CB9C88; 0x44F74BE6];
   [0x921B62E5; 0x6A7E3E9B; 0x5FBF13C4; 0xF2BF553B; 0x86D55641; 0x51CB776D; 0x6425A3AD; 0x71826BC5]];
  [[0xC6D70EF9; 0xD6D49F90; 0x29EBA0DD; 0x5BD0DA69; 0x803233EF; 0xBBA7571; 0x679A17D5; 0xEB0959E];
   [0xB8A3D6EC; 0x97818DC2; 0xC687EAA2; 0x9497FB0; 0xA65FA4C0; 0x2E2707EA; 0x7542F472; 0x6A74D4C6]];
  [[0x1EE0BC40; 0xD193006; 0x6DC98BA8; 0x7D7BEE19; 0x447C38D2; 0x1AD37C98; 0xB6B4550A; 0x3E163AE1];
   [0x5BC93243; 0x734E36C9; 0x986C35A8; 0x54E217FD; 0x9E3285E3; 0xF0576FF0; 0x186EE7EB; 0x65C950C8]];
  [[0x2012D277; 0x1AB12C04; 0x83872384; 0x97CAB84B; 0x1C66FCFD; 0x479C9CF5; 0xF276933E; 0x70ABC8B4];
   [0xBA4D14F0; 0xE6B15BF7; 0x22E2F5D5; 0xF4060ED3; 0xCDC5462C; 0xA53F3CA0; 0xC6FC3854; 0x593219D4]];
  [[0x72B6F8A1; 0x9DE69934; 0x19E16B3F; 0xECABAEEE; 0xEDA68D7B; 0xB537CA5; 0xD3CE55B7; 0x744628BD];
   [0x98A95308; 0x3A5B2D8E; 0x6758C6C8; 0x74D0CEF1; 0xDA204834; 0x7538198A; 0xA644E880; 0x1E166AAA]];
  [[0x4674ACF0; 0xE76EE712; 0xDF9DFB4C; 0x40A6F6DE; 0x40C65721; 0x91B0034C; 0xF8E0F5E5; 0x54FE8B8B];
   [0x75891895; 0x6322CA0F; 0x7D20C522; 0x3D1C821E; 0x8043786; 0x1691407F; 0x14847D58; 0x2C30838]];
  [[0xB8F0C372; 0x57DEF069; 0xD5ABF2C; 0x50375DC3; 0x75EDFBC9; 0x22903814; 0xAE37695A; 0x56E39BD7];
   [0x463D13F2; 0xAB74B187; 0x3CDE8886; 0xC50CB8A2; 0xB35F7D59; 0x1EFBD1CF; 0x1057AE42; 0x1296C482]];
  [[0xC347E3FB; 0xA350B57B; 0xADF65129; 0x4312EB75; 0x7F9A6C9E; 0xD9A7E2F4; 0x9BFDCB4D; 0x5493AF7B];
   [0x9AC0E58E; 0x90A443DD; 0xC6F3BEEF; 0x9777D58A; 0x965EC900; 0x12F00913; 0x480126DA; 0x2F6C5B59]];
  [[0xBAD8C051; 0x70B907FC; 0xD3B4F608; 0x54492D6A; 0x2E096D9F; 0xE3B46F1B; 0x747D472A; 0x522AD6D1];
   [0x2DAB5E5; 0x8FCD1616; 0x357B1C85; 0xD3BA292F; 0x2704F072; 0xA6DB50CD; 0x8341AA73; 0x63488DDF]];
  [[0xFE2AAAB; 0x99100A3D; 0x8EA44560; 0x7D30C4E9; 0x2B4C776D; 0xBA458C67; 0xBBA4D85E; 0x2EC11420];
   [0x7A7AEC55; 0xB1D9FBA2; 0x7665AAE5; 0x432AB2AA; 0xF3BC7043; 0xD2755948; 0x82510EAD; 0x2FC331BB]];
  [[0x46253DB1; 0xAAF11CF9; 0xB0DF307C; 0xEB025AED; 0x7A82ADEE; 0xCB7C22A5; 0x9C5FA97B; 0x7316C390];
   [0xF518067C; 0x91620554; 0x3C96A804; 0x20A438AE; 0x5B0C090C; 0xC4F9DCDF; 0x6E5C1B45; 0x77C512DB]];
  [[0xFDD09EDE; 0xC981E682; 0xBBB3F57D; 0xC3EB36B7; 0xD12BF450; 0xA07369C6; 0xCE017845; 0x16627566];
   [0x9494AF62; 0xFD8DEC90; 0x53FD4B22; 0x7E793096; 0xC8AAEAE9; 0x21B8E665; 0x18BC33C0; 0x526FA318]];
  [[0x853A2647; 0xF55D32BF; 0xCDAEE8FE; 0xD873ED6C; 0x80E52622; 0xA3579E2B; 0x33D16FE8; 0x3871ABA];
   [0x69925EDF; 0x714804AC; 0xF2B964FF; 0x340755F; 0xDA0D1A07; 0x93830F98; 0xF7FB1E16; 0x2CAB201E]];
  [[0x22A8AF77; 0x26DE3A3A; 0xB45BA630; 0xE77C3DC; 0xFC86E7D1; 0x34F00017; 0x1B62F7F2; 0x796ABE2F];
   [0x1663B5B1; 0x9FA09277; 0x9B2FB9AC; 0xFFFDC93F; 0x6B340D75; 0x3AECD1A; 0x314DCCEA; 0x5D55A168]];
  [[0x747DBD0C; 0x678AEF02; 0xD47A6C09; 0xF0D47C1C; 0x3FDD1681; 0x6C2AC72F; 0x6D789D3A; 0x750E7064];
   [0xAEBEDD58; 0x3F970AFE; 0xE3540951; 0x6BBA7956; 0x3E71F6AF; 0x7CC461B2; 0xC45FED28; 0x7E51E548]]];
 [[[0x2CE2CBE5; 0x4A598EFB; 0x89C9A51B; 0x774CDE0A; 0xCA907F34; 0x2D003680; 0x9D3C7D97; 0x62C32DCA];
   [0xB3054D17; 0x37B3A90F; 0x67E58A5A; 0x1423574C; 0x4859FA49; 0xF1D3BB1A; 0x3F5AFA63; 0x25F0AF1C]];
  [[0x1FE53AC9; 0xD3BF7F62; 0xCBCE6164; 0xCE2B67C3; 0x95341024; 0xE081C576; 0x9A70ECAB; 0x32B0EF5D];
   [0x3BE1E5CE; 0x3EC93C85; 0xA0CB7DCD; 0xE25F54ED; 0x517965B2; 0x9D6B57D7; 0x129B0B27; 0x159F7AB0]];
  [[0xEEFB67F3; 0xAEF88E95; 0xE0316AB2; 0xEAEB2889; 0xC2CB6753; 0x1491881F; 0x702789D0; 0x67DCDF28];
   [0x11C0F3FD; 0x8282E0A7; 0x1BA273D; 0x9CDCFDB8; 0x26279B95; 0x6BF1E043; 0x85852777; 0xD42AAC6]];
  [[0x608981AB; 0xC4CE393E; 0x52141CB0; 0x210E20F8; 0x6B9234B5; 0x22C2586D; 0x4366750E; 0x52F1B366];
   [0x760AFA55; 0xE38ED0D9; 0xB5D61A08; 0xA43FF25A; 0xB5E21691; 0xBE3A406; 0xFD4E17B0; 0x37B47A28]];
  [[0x4C2C65C2; 0xC46DC6D4; 0xC54BE778; 0x2A0B452C; 0xF727070E; 0xAF113693; 0xC68D13A3; 0x7B229CD8];
   [0x2D43E4B; 0xF63097E; 0x55627FD8; 0x912F8D33; 0x2A0DD9AE; 0x1EBF3961; 0xF0294B2D; 0x7FD33FDE]];
  [[0xD0CC6D9F; 0xC72411F5; 0x9B92FF84; 0x66E04C90; 0xE1C033B6; 0x678B4F8; 0xE49A972A; 0x5A99F270];
   [0xD265A4DF; 0x3743BCD8; 0xCE0404C3; 0x7BD6DDF4; 0x131750A5; 0x4043767F; 0x9DD65652; 0x4A7D8983]];
  [[0x12B7822D; 0x535BC784; 0xF1F9B703; 0xDD32DD67; 0x2EAA2A1C; 0xFFDBF0EB; 0xF64E9822; 0x497C09FA];
   [0x32EE2A36; 0x18E717E9; 0x583949B1; 0xF01CC4F5; 0xA168755; 0x222EE974; 0xC81EC9; 0xCD14CD5]];
  [[0x14C79CDC; 0x7AE0BD11; 0x6DC08C80; 0x67323D1A; 0xEF32432; 0x2FD1ABC7; 0xB0E08EBF; 0x65923246];
   [0xC0754ECE; 0xA9FD3D7; 0x5F8644FA; 0xE76B2624; 0xF8BB385; 0xF1F0BEBA; 0xFC96778F; 0x73251F03]];
  [[0xD08795A9; 0x197150DE; 0xFBB8B9CF; 0xAD6935AE; 0x3B2B9EFB; 0x72118682; 0xBC2B7240; 0x265B288D];
   [0x2F78C431; 0x7BF2EB36; 0xF2A6E469; 0xF03B83CA; 0x4740E74B; 0x21159256; 0x490F0B9; 0x35BE5735]];
  [[0x806C1CAE; 0x207F33B2; 0xDAC5ADE0; 0x4249127; 0x1CC59DE7; 0xC4CCF33E; 0x272BD6D7; 0x2A17B520];
   [0xB48F6585; 0xC36F6B3C; 0x861ACF5; 0xD32A7379; 0x2C3291C6; 0x28A12ECB; 0xF02A88D0; 0xE945F95]];
  [[0xD3B3117B; 0x4836EC01; 0xA4C2FD72; 0x4C197454; 0xF9897721; 0x96FCED51; 0x5828C97D; 0x14202858];
   [0x774755B9; 0xCA7ACED8; 0x97252559; 0x460FF582; 0x5796DD63; 0xAAE45776; 0x346DDBF5; 0x711C916E]];
  [[0x5E203692; 0xA60E2E7B; 0xF3BF2A45; 0xCFC72FEA; 0x72AC0436; 0x78729D28; 0x29ABF199; 0x3E16DD8B];
   [0x15A41F3D; 0xB1705AA6; 0x308AB87C; 0x8C7512FE; 0x3995381; 0xA27411C5; 0xA780CED3; 0x3142403C]];
  [[0xF1718C7F; 0xE4473E94; 0xA3CAB6CB; 0x601BC194; 0x581D491D; 0x8F3540F8; 0x43C15321; 0x456A9B7C];
   [0x593BB7ED; 0x6F335A2D; 0x7D791514; 0xB6D5A23F; 0x79235EAD; 0x976D2F83; 0x44775C97; 0x7D02EA0F]];
  [[0xE5EC268E; 0x322DBC8C; 0xBE14BF5C; 0x1F2F6050; 0xEACF6A50; 0x58AC6397; 0xA5401081; 0x4167CBD5];
   [0xEE5B4BF5; 0x8E6F06A1; 0x6B2F790F; 0x1A6073D5; 0x4F901250; 0x1C09FF3D; 0xE6B40DF4; 0x286AF8D7]];
  [[0x6BD53FF; 0xF74C8057; 0xE5788F0D; 0x4FCE7281; 0x3D015E6B; 0xD6A867AC; 0x6E185A42; 0x4AEC38D];
   [0x83D65CB; 0x8DC12B74; 0x82966668; 0xDB1AA8AC; 0x28AF1B90; 0xBD2233BF; 0x172CCA11; 0x544569A7]];
  [[0x149BD0BD; 0x9C56FCA8; 0xA05F8E44; 0x2B4EC788; 0x92478943; 0x1569CF6D; 0x57380986; 0x67E373E8];
   [0xED3C14DB; 0xF5CC8232; 0xF52EAF83; 0xE3D184B0; 0xBC64038; 0x195D4137; 0x778C3C20; 0x77994388]]];
 [[[0xA0CC77AA; 0x3DAA0C47; 0x7C69CDF0; 0xB9794E74; 0x4549F5D4; 0x3610E50B; 0xB8A112CA; 0x262CA564];
   [0x554E8714; 0xD5EC795E; 0x717EBEF3; 0x73EE5502; 0x1947A478; 0xE36E8A1A; 0x42ADC59D; 0x3FBE43A3]];
  [[0x21FBCBE; 0x4DE78909; 0xBBBB324; 0xA76A5EE2; 0xCD67810B; 0x5B86519A; 0x3710A4EE; 0x4CCA44A2];
   [0xCD1F8BEC; 0xD79A121D; 0xDC9CA10E; 0x2E12A772; 0x8C9E9640; 0xE301CA3B; 0xB731A957; 0x4B25FE18]];
  [[0xF4AD7264; 0xA05DA2CD; 0x76977A5; 0x31336489; 0xF2E576A8; 0xC1D269BE; 0x7532203F; 0x1E877ADC];
   [0x8B92972C; 0x9C9961BC; 0x6A14D810; 0x7BA07272; 0x6913136; 0xE51095A9; 0x30E0EA8C; 0x46748969]];
  [[0x3C73BA49; 0xDB8EF346; 0x3720570D; 0xBF221312; 0x605DB0D6; 0xC07B3639; 0x300336A3; 0x44FCEFA6];
   [0x2D234592; 0x121FAC5C; 0x44E367D7; 0x901DEE88; 0x1CAA6A3A; 0x5B5F3DD6; 0xAC2F6E64; 0x72E474EC]];
  [[0xF55BE61C; 0x15690BEE; 0xDF2678A2; 0xE42B945E; 0x3B7B1776; 0x60A5C8AA; 0xEB9AB938; 0x16103FBC];
   [0x87AD06AB; 0x79722A1E; 0xD6B632A2; 0xD7B509F6; 0x3B69EB40; 0x8C4E8B2E; 0x14DB2225; 0x6A509583]];
  [[0x93B78659; 0x169F35D8; 0x8EFF83AD; 0x989B04D2; 0xA6AE4806; 0x72CF7338; 0xF4AAA524; 0x6E156C84];
   [0xA1ED5CB2; 0x33A608ED; 0xC3D28716; 0xCE274A64; 0x45F0435F; 0xFCF1B170; 0x1653D6F6; 0x101D1BDB]];
  [[0x2E5A67D9; 0x45BC931D; 0x697DA479; 0xAFF02C11; 0x2EA3E6E1; 0x7C7972A3; 0x5E97BB90; 0x71A17D50];
   [0x19AD4C5E; 0x962E84F2; 0x692020BE; 0xBB8C9FC7; 0xE7B36665; 0xA78FDF2C; 0x26F92E33; 0x7AC84ED4]];
  [[0xC3C9E5C1; 0xBD85A9EE; 0x6ED2FD6A; 0x72030BAA; 0x39CFFB89; 0xB67185AB; 0x833BF770; 0x3E2E51A4];
   [0x5E27D5BB; 0x248FA348; 0x2E6D3DCF; 0xF8D43596; 0xC8DAF81; 0x7F5B93C; 0xAD2FC97D; 0x6A7FFA1D]];
  [[0xFAEA33F1; 0xFF308FAE; 0x3CC4C7CF; 0x5F29DFFB; 0xECC5A2B9; 0xB9AD4527; 0x48D4B38; 0x8B95AF6];
   [0xDEC152BB; 0x56BC43A8; 0x3849D869; 0xD1147B9A; 0xD02AF3B7; 0xFE5020C2; 0xB918496E; 0x54C02B44]];
  [[0xB27468D; 0x1611ECFD; 0x513A562; 0x4AFCE329; 0x2FE74EED; 0x982782FD; 0x17ADD2EA; 0x66AC58BF];
   [0x613581D4; 0x8277BC2D; 0x988D1498; 0xBF5BF0C; 0x55C984CB; 0x8A37134D; 0x92211390; 0x409A79CC]];
  [[0x816F0462; 0x8C0081AE; 0x5A68BFC2; 0xB431DC24; 0x5F78C8A1; 0x25C769C6; 0xB382AF14; 0x3BE0458D];
   [0xA171ADF2; 0x10583083; 0x37F7C39F; 0xBA5D5325; 0x5EAC7585; 0x76B03B94; 0x9C2DF2C6; 0x76159AAC]];
  [[0x918E0332; 0x886C73BA; 0xD24B5B52; 0xF6FEC62A; 0x36B4D23A; 0xB98759B4; 0x5480ACF3; 0x5EC5B3FE];
   [0x6DD175BF; 0x30FF297D; 0x75F2B9C3; 0x501DE744; 0xF19230C5; 0xDEBE47CA; 0x32BBBB62; 0x7401F209]];
  [[0x22496D1E; 0x80712E47; 0xDA80AF1D; 0x36A0EF37; 0x940E5E9F; 0xAF6CA51C; 0x722D9D22; 0x74E17B6F];
   [0xB8B3AE1B; 0xCB70B878; 0x7DF974C; 0xBF8B9A0B; 0xF68A4BF4; 0x89FCC996; 0x6EB0FB2E; 0x46F581E8]];
  [[0x67137153; 0xBCE0BD6C; 0x75F64B78; 0xAD3E92B3; 0xFD047DD9; 0x6454CD1D; 0x612AE472; 0x181C93EB];
   [0x23A529C3; 0xE575307E; 0x59C09EB5; 0xB9C43A0B; 0xAA805840; 0xFD233A68; 0xA122FFB9; 0x67C442E]];
  [[0x2CD6762E; 0xE1F3F76F; 0x9764B53A; 0xFB68650F; 0xF1224580; 0x4E90AC72; 0x127EED48; 0x2BF68F01];
   [0x94D389A0; 0xE6B4B409; 0xD44593D6; 0xD7BC8108; 0x48A86677; 0xDCF03991; 0xCEBCE3C7; 0x4A52D961]];
  [[0xBAA873EA; 0x55734AB5; 0x7871F323; 0x506DE4CF; 0x578612C0; 0x7C3F8B00; 0x9243C9E8; 0x730D4B8A];
   [0xD385F6BD; 0xA3290689; 0x913596F5; 0xAF688C6A; 0xB646BE23; 0xA2D89B5; 0xF63A6029; 0x31891165]]];
 [[[0x579583C0; 0x331F9E57; 0x69C65DA2; 0xE92ABADF; 0xA5B8B057; 0xC796FBEC; 0x312D1E89; 0x52E6F9C9];
   [0xDA68DFD3; 0x318B1DF; 0xA1CAC4F1; 0x8BAA2EB3; 0xBEE7D6E1; 0xCDC89A2; 0x22AB50F4; 0x6102DE7A]];
  [[0xE20C707A; 0x2003D83; 0x28289D89; 0xD819249C; 0x72053FF8; 0x3FBC00B1; 0xDF40D261; 0x249C43C];
   [0xD8F064AF; 0x8794EEAC; 0xDC9F0631; 0xE2359E70; 0xADA310D0; 0xD1603647; 0xEDC888EC; 0x6A9E3785]];
  [[0xEC41908E; 0xF332B384; 0xBDE4760B; 0xF3274472; 0x140D0EF4; 0x96185E89; 0x90E698E7; 0x56462089];
   [0xF2E64396; 0x841A31C5; 0x3C4118F; 0x8F494CA5; 0x1A188305; 0xC98A4C3; 0x98AAB1AB; 0x1C4B5F62]];
  [[0x5D0D8381; 0xDDEEEBF8; 0x89044363; 0xD1616F48; 0x21616A13; 0x2EE41D47; 0x4BC769FC; 0x2DCE6110];
   [0x16C1C468; 0xE3707A01; 0x969AF612; 0x3B674187; 0x1E0671CC; 0xB64BD4D7; 0xB98C297C; 0x7EF01DBA]];
  [[0x815381AC; 0x91DCBF99; 0x38B67B97; 0x8D711F58; 0x9C6E322C; 0x9C11F595; 0xE31A782F; 0x4A688D0B];
   [0xDCE93F5B; 0x1297D9F3; 0x7C1DC62A; 0xA7956194; 0x5F718F63; 0x340F217A; 0xFCC0EF6A; 0x71F84529]];
  [[0x3DD00963; 0xD968E50; 0xD7FF66C3; 0x5E696D79; 0x499A9BE2; 0xAA52D60D; 0xCDC289DE; 0x72482C45];
   [0x7FFAAD3A; 0xC84968F5; 0xF7CD5BED; 0xEE91304C; 0xA7CC7C0; 0x68493676; 0x80023968; 0x3411AFA7]];
  [[0x6E3294C0; 0xA0AEBC70; 0xDC385E50; 0x93263942; 0x8467FB06; 0x7B90C002; 0x38CFD0FF; 0x29477CA4];
   [0x92A748D5; 0xADC04D81; 0x76CF3AE5; 0xAE4F309D; 0x4BB2C2FF; 0xBDA34BF0; 0x368536E4; 0x65138897]];
  [[0x6FE6D4D6; 0x9CB8F7D6; 0xAF246792; 0x6C2FFBF5; 0x81524707; 0xD5A4F349; 0x36766D5E; 0x3AFE45CE];
   [0x513BA267; 0x41991B49; 0x6C18AA5E; 0x6EF1EEA; 0x88EA2099; 0xA517635; 0xD245B88B; 0x32D2B5E2]];
  [[0x3F517C5B; 0xAE38CDD5; 0xD878FEEE; 0x1C94FDC5; 0xBEFCE107; 0xABF7A41D; 0xD408DFE8; 0x33BF3FE9];
   [0x947CB8C4; 0x4F2E6FF0; 0xF998C5A0; 0x3A8E86AB; 0xE359209F; 0x3ADC6ABA; 0xD9A50051; 0x37A2DE1B]];
  [[0xE718F6B9; 0x424F4E34; 0x75C58EB6; 0x50B1A03B; 0x91390E27; 0xB9495314; 0x880E78D8; 0x4AE0CC3A];
   [0xF1E4413C; 0x10331AFA; 0xDDFCD2F0; 0xE7A3E554; 0xEBF484B; 0x44F6DE85; 0x895D0F54; 0x6A762A7E]];
  [[0x8D0558F6; 0x8E606B0A; 0x5C4DD930; 0xAADA7604; 0xEF4ACAD0; 0x5B2FC7AD; 0x87F5B6E2; 0xD969AD0];
   [0x5974E67B; 0xF9A182B2; 0x23B4009A; 0xCD8232E7; 0x285BCC3F; 0x3D8F5DDD; 0xEEE1B9BF; 0x114AC56F]];
  [[0xAA45085A; 0xD3EA1B56; 0xD314CEDF; 0x5DE7BB70; 0x7BCCDCFD; 0x8A74384C; 0x8E0E0367; 0x64B80F8A];
   [0x48884ED1; 0xA9EA432B; 0x8C0BA810; 0x51957A8F; 0x39E810E3; 0x9E883400; 0x28B2051C; 0xA73ED5A]];
  [[0x13C30826; 0x655212A3; 0xB73E8660; 0xAE53668E; 0xFF108CCE; 0x6C33B649; 0x21D49681; 0x39E0B118];
   [0x70525312; 0xFE4D2152; 0xFFD18749; 0x2EDCE32B; 0xB04D3FB8; 0xFED19B1C; 0x2B225A9D; 0x4DFE216B]];
  [[0x4C70F8A8; 0x583E8A6C; 0x954A9AE1; 0xC8206231; 0xB76517B1; 0x9360B592; 0xEED10CCA; 0x362C5C5C];
   [0x3D607921; 0x3DBA9595; 0x5A6ECC40; 0x188A5D6; 0x6CFF4ADE; 0xEAB43C1; 0xDE3347E0; 0x1F3673AE]];
  [[0x796593EE; 0x7300C4B3; 0xD8D926C3; 0x607E7E76; 0x77F9FD06; 0x1762CE26; 0xCEA891EB; 0xD0478B3];
   [0x2618B09E; 0xB1129791; 0x33F928C9; 0x5F9D290D; 0xE6178DB0; 0xE3192631; 0x8576D3F; 0x21260AC8]];
  [[0x76968E1C; 0x899DAF2A; 0xF9C2B3E7; 0x519DEA9; 0x93D0BD4E; 0x5FDADC38; 0x43B4D98F; 0x467BFF7];
   [0x6F3936C9; 0x651C316C; 0xAF27DF8B; 0xE757689A; 0xA0FA9188; 0x3AB037EA; 0xD927B60A; 0x2F8B039B]]];
 [[[0xDE876A70; 0x72211BF5; 0x73D121CE; 0xA8361631; 0x23D419E4; 0x23852721; 0xDBD03345; 0x3F56D47E];
   [0xD6F05BAC; 0xFB0E91A5; 0xAC9D0F46; 0xA0E02BF6; 0x97F1812F; 0x5ED9EA2C; 0xEBD5DB5A; 0x172F564F]];
  [[0x81F11E58; 0xC790E912; 0x99A5DFF7; 0x14A17630; 0x1627516D; 0xF6F30F2F; 0xEFCF43B7; 0x522CAD8F];
   [0x6EA01128; 0xFFADD45E; 0xD61D1964; 0x5D23234C; 0x2802DF86; 0xE9212C85; 0x92AA8DA3; 0xA3D237B]];
  [[0xE50ED356; 0x2CED05F4; 0xBFFEEF3A; 0x1CBC7FB1; 0xBE19F0F0; 0x885991B1; 0xDE44A492; 0x6DED0794];
   [0x44CBECFC; 0x9967E834; 0x6A792ED1; 0xB0674A8D; 0xB7DDD557; 0x360E2DE4; 0x70E95D26; 0x26852A74]];
  [[0x3A6E2116; 0x8CBC1520; 0xBF285BBE; 0xF09327DF; 0x4A54D3C5; 0x8C7D9AD5; 0x6BD2768F; 0x778F54E6];
   [0x8FF3DBC0; 0x9B489F8; 0xD2871932; 0xA0FA7FB; 0xE0A8CEC4; 0xABB9DC38; 0x21E37A50; 0x2EE092D8]];
  [[0xAF6D88D8; 0xBB9256E7; 0xA218927; 0x3CDCB1CB; 0xF216D6E6; 0x8E5B744A; 0xBC885AFD; 0x6F0617F2];
   [0x268397D5; 0xFBA9CDA7; 0x5D4C75D8; 0xC6154716; 0x43FB2CD2; 0x9ED8D17B; 0xBE45BC5C; 0x4D0CE3FB]];
  [[0xA38472F5; 0x4259BB02; 0x15107D0E; 0xFAFAAE03; 0xCF0CF2B6; 0x2B8E450E; 0xED887C3A; 0x788674C3];
   [0x4B3D2EAC; 0x1F3EBD59; 0x75E41B55; 0x82CB5684; 0xC02BE49A; 0x5AB76B; 0xF5F90FEE; 0x6F13ADD2]];
  [[0x7AFA7161; 0x116374A; 0x2DB7F824; 0x8A1AE448; 0xDB656A22; 0xD3C0DA12; 0xB989204D; 0x7B095B95];
   [0xEF8F21CA; 0x24C35202; 0x2DA5A5A1; 0x91088DA7; 0xE3F97D68; 0xAAF1944B; 0x7C884134; 0x245D2848]];
  [[0x68F5C702; 0xD80C65D6; 0x21A2974; 0xE2FE245F; 0x3A11899C; 0xFB8520E0; 0x2BE6BF88; 0x4806D1FA];
   [0x20ED235F; 0xF6F8C11A; 0x7F0D651E; 0x52AC1424; 0xDB9CF6D6; 0x44C3C89F; 0xB2E2E41F; 0x6762516D]];
  [[0xFDE91600; 0x2743D874; 0xCDF00100; 0x60975FD5; 0x2D2954F4; 0x78ACC864; 0x56373454; 0x46B9E602];
   [0x6F0FB867; 0x7586A970; 0x242DF35A; 0x888E3677; 0xF1460F62; 0x5A639E79; 0x55297DBC; 0x1256517E]];
  [[0x7B9294C3; 0x3F78339B; 0xBCE77012; 0x5BA765D1; 0x512E39E2; 0xA88E0CD8; 0xF6BA6A6A; 0x2D63E14B];
   [0xEA29071B; 0xF849A163; 0x4C0A2E22; 0xF32519B7; 0x561C35F5; 0xEA5D1315; 0xD9267DCA; 0x7041F515]];
  [[0x1FE56E6B; 0xE01E839F; 0x4A93CE88; 0x3E473D8C; 0x89AAFDAE; 0xC4846ECF; 0x7D946EA; 0x4111D97A];
   [0x51A45F02; 0xC20881F6; 0xB9CD841A; 0x14C2AC95; 0xF2CBD929; 0x2FBE8329; 0xC812608B; 0x1E8B7469]];
  [[0x7F0A5D; 0xB36A5D03; 0x5DCF7AF4; 0xA7E7A1A8; 0xBEB12AFB; 0x7227F4C5; 0x4D276783; 0x46227792];
   [0x48403B93; 0x9EA64D4C; 0xB333ED5; 0x58EA31BC; 0xC5C93119; 0x2D6DD219; 0x45069280; 0x385023A7]];
  [[0xF60C46AF; 0x8AB9B9EA; 0xE8B827C2; 0xFA1D3F08; 0x1BAD41DB; 0x78C6BFBC; 0x23BE0C1E; 0x527A0BED];
   [0x6ACCE641; 0x66212FD2; 0xEE6F78E7; 0x86125B0D; 0x58552A8C; 0xA2A02718; 0x7E9605C5; 0x594F2B77]];
  [[0x88A27989; 0x3FB1F6CF; 0xD96268B8; 0xBC4962F7; 0xB95E2A36; 0xBD8761E9; 0x46DEC63; 0x64AB934A];
   [0x2E53CF1A; 0xC64D1C59; 0x578C5E8C; 0xC9865A9B; 0x7A0359DE; 0x5ECA6232; 0xFB4685E5; 0x127DD136]];
  [[0x1AE320C9; 0xB0F7B071; 0x52525203; 0x9BF89BB; 0x709C5692; 0x97B20027; 0xEDBF6175; 0x16A62485];
   [0x394C50F9; 0x32C18836; 0xD3B98C19; 0x7D99468F; 0x2E8D2729; 0x8EBE5096; 0xE655F093; 0x4E75B3CC]];
  [[0x9EAE827E; 0xCBEFD1A2; 0xFBF4630D; 0xDE2D1234; 0x96086CDA; 0x1B3ADCF8; 0x2EA6CBA7; 0x43D3960E];
   [0x1CB5A0F7; 0x18321D1D; 0x47BEABB4; 0xDC94C6F9; 0x75AF6AB7; 0xFBACC6D5; 0x89B98E86; 0xEE5D357]]];
 [[[0x62E0994; 0x3F01B4AA; 0x5C952259; 0x994B28B0; 0xCDEEC70; 0x2678F8B8; 0x212436F3; 0x4D06AF84];
   [0x1CF27A98; 0xE9DF52FD; 0xB7718F7; 0xD56B9FD1; 0xD9AEDA0D; 0x728BE624; 0x1A646888; 0x9871088]];
  [[0x9B586B13; 0xB1BC922D; 0x3CA3B1BA; 0x6C084C54; 0xCF322698; 0x54D196C7; 0x85D527E1; 0x6EC3A55];
   [0x2A57CAA1; 0x6918710; 0x65FD0F6B; 0x6AEAC07D; 0xF512F84; 0xB66A34D7; 0xA44E6452; 0x3860C002]];
  [[0x881608A; 0x17263B26; 0x56C18A7A; 0x78D556AA; 0xAC3A47AB; 0xA0826A1C; 0xB6933FF5; 0x61686A58];
   [0xDBCF2C4F; 0xEA9D8771; 0x6AB00426; 0x1C66EB02; 0x401C466A; 0xF8DAED2B; 0xDAAE8040; 0x1ED0A99A]];
  [[0x7208E58A; 0x31EFFC4B; 0xB4E4319E; 0x28868456; 0xD46AC4DA; 0x1059C249; 0x2279B362; 0x3589D212];
   [0x45552E92; 0xB28B8FAD; 0xC3AB8098; 0xC9E32541; 0xF14B35A1; 0x82604904; 0xDB68C214; 0x1E64A89F]];
  [[0xAB6947AF; 0xDF0E223D; 0x771670D0; 0xE74EF1D6; 0xF429F03B; 0x70A9AD21; 0x1385B8DC; 0x7CB1FA1F];
   [0x69053D24; 0x25ABC0A7; 0x6369D02E; 0x207FE30A; 0xC6E4EC2C; 0x57B76E3C; 0xB927CAB2; 0x2E03D2E3]];
  [[0x622D57AE; 0xEFA377FF; 0xA885951A; 0x41532F56; 0xCC69B9A8; 0x5ED89AA7; 0x295F5E84; 0x60BFF2EC];
   [0x1E5C3041; 0x411D65C3; 0x4B7772F8; 0xDB533F8B; 0x3BDD4AEA; 0x72CADEB6; 0x7C49E454; 0xEC79DF2]];
  [[0x81D0B84B; 0xC39332C; 0x95FF472B; 0xA76A9A3A; 0x31DB2BA6; 0xD12FEB99; 0x3683E53A; 0x4AAB9222];
   [0x24FC6271; 0x56CB18AF; 0x2544C72D; 0x671581D6; 0xFBD6F4D1; 0xCD136492; 0x3579EE09; 0x6C202318]];
  [[0xC103C348; 0xEDC5AF02; 0x155A103D; 0xDA32344E; 0xB0D1377E; 0xFF3A7679; 0x68F02750; 0x16091972];
   [0xD9E9C143; 0xD4C6360D; 0x968EE990; 0xE0ABA0EF; 0x97E4C9AE; 0x57816878; 0x9D63E32D; 0x5A4D167B]];
  [[0x50E25802; 0xB04BA525; 0x66912F15; 0x11DA36E; 0x19E0A182; 0x8D8B680; 0x2E462B0F; 0x66AA4AE8];
   [0xE0B9D283; 0x3227C3A6; 0xF2B2B096; 0x9BF8C4D0; 0xBA809EB7; 0x1E51416C; 0x2A67D346; 0x68411B75]];
  [[0x37A67F3B; 0xE55B1348; 0x96484391; 0x5E32D73C; 0x6256B91E; 0xC3F804D5; 0x3B0783B; 0x67F17A47];
   [0xDD2334AD; 0x2010EFEB; 0xB10FF052; 0xBD9965B5; 0xF58ACA52; 0x519CDA6D; 0x2FD3D394; 0x45BEEBE]];
  [[0xEA271BCD; 0x81722E2C; 0xA4F1342; 0x393C082E; 0x53B345CE; 0x573F7CD5; 0x3D7B4292; 0x7AD71FE2];
   [0xDA8BECB8; 0xDA406D0A; 0x82FE66BC; 0x14FD41CA; 0xA91DFFC; 0x80A41062; 0xF4F0CDEB; 0x33E38E10]];
  [[0x2529532C; 0x234BF38; 0xA76CAE3B; 0x9F5D6342; 0xB3C50442; 0xC9944CB3; 0x8ABFAF17; 0x51752DF0];
   [0xA37B13FB; 0x2BFA58C4; 0xDDB14951; 0x19F80FDE; 0x7DCB927B; 0xDC7026AA; 0xAAB9FCBA; 0x57907272]];
  [[0xF3C046C2; 0xCE38712D; 0x47B29D0E; 0x21D1FDB0; 0xCD96D414; 0x7F746E0E; 0x636CFEA4; 0x72F07B52];
   [0xECE6382D; 0xD8FE94F; 0x24229CA4; 0x9BFB4CBA; 0xE54388B0; 0xFAE55B77; 0xA188299F; 0x74EBC32]];
  [[0xE21DCCA2; 0x8AF2EBCD; 0x377487F2; 0x9916A6B6; 0xD8051D40; 0x607DC19A; 0x419DDE12; 0x7DFD53F4];
   [0x9AD07924; 0xD17D0D61; 0x173E266B; 0x14F7CE0F; 0x281C9EB; 0x687FB853; 0x3361B273; 0x6B35CC1A]];
  [[0x16E02DE3; 0x7CD6369E; 0x1F35DFBC; 0x118EE0B1; 0x98B3EE60; 0x7D8C8DBD; 0x8D29EA17; 0x39806FC];
   [0xEC2C2597; 0x3C473872; 0x5E4EF521; 0x81294AF4; 0xC22A9D7C; 0x5ED048DB; 0xA08C4D4; 0x3879E95B]];
  [[0x96A864FE; 0x206E47F; 0xA55D0631; 0xC94F137A; 0x8E8408F8; 0x9C1B3D29; 0xB9193A5E; 0x150A4046];
   [0xCB1ADF21; 0x4E8F9345; 0x7BD5E1F9; 0x6ED14D8A; 0x60809F68; 0x70825329; 0xFA85A06C; 0xD2F1C3B]]];
 [[[0xB5C810C3; 0x3C5ABE75; 0xE28F1E26; 0xEA2C3EF9; 0x8BF68280; 0xEEB1C568; 0x7AE69110; 0x5A165CEB];
   [0x44550DF1; 0xE36C6460; 0xDB909258; 0x6FB4B108; 0x17D4D8C5; 0xBFA14277; 0x927976D8; 0x744CAF23]];
  [[0x47EA55C7; 0xCBE70DF9; 0x535457AE; 0x8F8119AE; 0x7DAFD732; 0x1E3C69EC; 0x39D409A2; 0x1A2E162D];
   [0x5F81C227; 0xBD7576A1; 0xC86AC2C3; 0xA040AF9E; 0xC10FC749; 0x5690C059; 0x49CFAEC6; 0x20B26E88]];
  [[0xE3EF781E; 0x87AEBD1E; 0x1609A1F0; 0xBC794A62; 0x26E7F61B; 0x96D83142; 0xFC51D17D; 0x5198577F];
   [0x8E6D0124; 0xBFB5FAE2; 0xFFD5BD72; 0x91A7172B; 0x2832847; 0x474B0154; 0x59827FEB; 0x4BAF0B4C]];
  [[0xBA090294; 0x5EADAA8E; 0x11A6E9FA; 0x51401BC9; 0x1D2594CD; 0x78F11758; 0x82D203C2; 0x1811AD30];
   [0x53FD07CC; 0x554CC39A; 0xC7A05601; 0x55FC983; 0xD5A80B4B; 0xB3B34E95; 0x1819BC16; 0x72B4CF94]];
  [[0x514FAFD0; 0x750E4F0; 0xAD61C7B1; 0x297D27E6; 0xA2D5D410; 0x701D743F; 0xC83B55C9; 0x535DD97B];
   [0x1CB11BB0; 0x2EE96DDE; 0x914450F; 0xECEA32EA; 0x4CDBDA6A; 0x4FB81236; 0x233C8063; 0x5B75B6B2]];
  [[0xD69D6C6A; 0xF0A934A6; 0x3CC80AC9; 0x313E8977; 0x1E428B71; 0x74692B17; 0xE1BE662D; 0x474FEFC];
   [0xAFFBF61B; 0xAA2FF6DB; 0x776983AF; 0xCE1594E1; 0x4D5A2596; 0xF00C665B; 0x7D414B9A; 0x30DD2449]];
  [[0xACC44AB3; 0xEF862DA2; 0x6EE7A44A; 0xBAD6857F; 0xD2F9027E; 0x57674BF9; 0x2ABF816E; 0x4D771CC3];
   [0xAC0F1348; 0x27BEFC18; 0x5E4F1202; 0xD83112EF; 0x8E9AAAE5; 0x3571BDE3; 0xC1379B13; 0x7284830]];
  [[0x72A8890C; 0xA4C2F36F; 0x5824B392; 0x22DF0E81; 0x5E720240; 0x50FAD77F; 0x3278F96; 0x1D152A69];
   [0xA7D80F17; 0x25A3E92E; 0x7EF32666; 0xBBF85B32; 0x27222E52; 0xBBB55687; 0x7582FE42; 0x756D22A6]];
  [[0x9BC9EAED; 0xAE7493A; 0xDDBB275; 0x9185F53F; 0xC3DFDBA7; 0x1585D068; 0x562E2455; 0x543208A1];
   [0xCBCF9535; 0x4C417D81; 0xE35DD6ED; 0xD2DC38D3; 0x346F03A4; 0x9DF1E014; 0xF0E772A6; 0x65736E3F]];
  [[0xCFB7FF06; 0x58684A7B; 0xC58E6316; 0x72CC4AFE; 0xA8BB508A; 0x2CA9BF30; 0xE2044C8C; 0x61576519];
   [0x8FF6D2B5; 0xE78FAD3D; 0xA934C7B2; 0x6E5B839F; 0xFAFA9F9B; 0xC1F3D367; 0xF8B2AFA4; 0x637CC398]];
  [[0xFE2B2639; 0xD6FC1806; 0x9E98A7F2; 0x1DB199B4; 0xC794F900; 0x508763D; 0x3232E5AC; 0x363F1F7D];
   [0xBBDBB351; 0xDCF2AD74; 0x5A506BC6; 0x91F2EAF1; 0xB850088B; 0xBDE8459E; 0x3E1135AF; 0x52DF883B]];
  [[0xF93779DC; 0x12FD053A; 0x9E319E46; 0x3E3D8728; 0xE5E360AE; 0x4D631005; 0xB1B29A30; 0x4A8B5683];
   [0xA8CA45EF; 0x305E5E53; 0xC2914843; 0x59EACB45; 0x1988ECEA; 0x83677B7A; 0xD6FD53E8; 0x63D9CD36]];
  [[0xB77EB45F; 0xDF2DACF2; 0x55BBA70E; 0x3C1303E3; 0x4526A06C; 0x5AB8EB42; 0x7FE06BBC; 0x4D4FD216];
   [0xE1486ABC; 0x98C5ADCF; 0x7F86F3A; 0x9A503BFF; 0x56282E44; 0x7CEBAECB; 0x1F230DA0; 0x4FB09037]];
  [[0x27210752; 0xD1A37384; 0x2CF1C74; 0xD10794D6; 0x820CC08C; 0x48A2095A; 0xE3284B9D; 0x6DCDDE2E];
   [0x5D40510D; 0xB8C7203E; 0x5385E3A7; 0x957E8982; 0xE27D7C13; 0xD220BE2F; 0x7B471B5B; 0x2D104AC5]];
  [[0xBA0AFA8D; 0x3B31D52B; 0xDCC85F88; 0xFA9639F5; 0x8861DDD7; 0x15014637; 0x7B5443B0; 0x31C222DB];
   [0xC3CDD689; 0xE2618546; 0xD528A130; 0x7F3FB754; 0xAC5FAF99; 0xA0915810; 0xE9899CE5; 0x3863B890]];
  [[0x579C4353; 0xBDD42CA3; 0x4D65CB5B; 0xAD30567D; 0x6D91810B; 0xE343F21; 0x42E19816; 0x65E0092D];
   [0xF84E8C8E; 0x76154DCC; 0xBA4AE59; 0xBA147CA8; 0x56A1A71E; 0xCA8085E7; 0x1A158536; 0x1D90B4B0]]];
 [[[0xF8B6C26A; 0x5C4B7438; 0x645BBE80; 0xC17A41B; 0x40CF3D85; 0xA386062D; 0xE78F776D; 0x563E42D2];
   [0x1F07459B; 0x4BB8E356; 0x75D222CD; 0xF01A24B7; 0x24CF3F61; 0xBE3D032B; 0xAD5F3A3; 0x759B0167]];
  [[0x7D201AAB; 0x2F5AEBD1; 0xC0AE02AD; 0x7B14CBEE; 0xEDC6388B; 0xB9B54430; 0xB622E01F; 0x69E713FB];
   [0xC5361565; 0x4630EE8E; 0x5C8FB479; 0x6705961E; 0x7C2AA45; 0x125CC97E; 0x25AE3B12; 0x4BC459F4]];
  [[0x28CF94E4; 0xEF025496; 0x9DB24DE6; 0x4CFAB25; 0xC62254EF; 0x52B8C734; 0x568AB164; 0xF2FE922];
   [0xE3F39B40; 0x48551A05; 0x31A7C7F6; 0x4A36865F; 0x840441AE; 0x4486512C; 0x8C7C4B4D; 0x559C6CAF]];
  [[0xF103030; 0xFCC0D1DA; 0x39CD584E; 0x7A9F1D55; 0x681D0D37; 0x3EFB9B94; 0x4D842332; 0x3AE97CCD];
   [0x3C03676B; 0x85A8ECE1; 0x3AD435A1; 0x30F8775; 0x7F2D73B5; 0xF6019B4D; 0x2F14F911; 0x6B77E31A]];
  [[0x9186C671; 0x65C8161B; 0xCDFF2F8C; 0x412C3CC7; 0x2C2FEA33; 0xBFFC1719; 0xC3675845; 0x75DCF68B];
   [0x3B23D576; 0x476AFBF; 0x19315F79; 0xB20CAEE2; 0x885471A; 0x1BC2A859; 0xC328279C; 0x410FF6CF]];
  [[0x60569D94; 0x327394D9; 0x6EA39D95; 0xFF2AEB6A; 0xEA0CA3AE; 0x1BED71E8; 0x21072A94; 0x1000A81E];
   [0x73C02416; 0x368EA229; 0xA4941BC; 0xDF5B2A42; 0xD0D40B3A; 0x4FFDC7B8; 0x48ABAB4E; 0x7B2C73F1]];
  [[0x81EE1072; 0x90FE34E4; 0x310E13D8; 0xAE7A2FF4; 0xCAB3927C; 0x6213D3B1; 0x7DC7E9EF; 0x44936FBD];
   [0x23A1BDBE; 0x3B898EF3; 0x54CC7B1D; 0x3FA6C6A0; 0xC6AC54F2; 0x41BCC3B5; 0xDC10AE39; 0x1AB5D168]];
  [[0xFEAF67A6; 0x1AED113C; 0x342AC459; 0x4E3C7A1; 0x7A99DFBC; 0x65A39278; 0x642329FF; 0x3ECBC6B];
   [0xA6A4421A; 0x799F4EC5; 0xBEE18B3C; 0x44522C26; 0x1975C4BB; 0x1C7BFF15; 0xE6A27857; 0xFAA03BE]];
  [[0x743FF7B; 0x173AB9E0; 0x2CFC95AE; 0xB11187AE; 0x9C112049; 0xCA81BB2E; 0xC03555D5; 0x6B811DB6];
   [0x4FE32256; 0x76C1FC14; 0xD0E47C4E; 0xDA8C5A96; 0x29FDB01C; 0xB645D413; 0xAC39502A; 0x78898447]];
  [[0x9BF44B35; 0x4285FF32; 0xE3358C7F; 0x207F9029; 0x63BAF4CE; 0xFE8F032; 0xFF15E1F7; 0x698A0398];
   [0x7E572DF6; 0x54874843; 0x9F43C07B; 0x74683519; 0xA433D6A; 0x47BAB49E; 0xFAB5C858; 0x9ED8740]];
  [[0x1F6CA820; 0x8AA5E5C9; 0xD3C25BEC; 0xAD290A94; 0x3BA255F0; 0xDC4C67BF; 0x1DEDD8A9; 0xD7EF7D9];
   [0x5EEFD1C3; 0x831A26F; 0x4483E0C; 0x78CA66F5; 0x2FAAC15A; 0x9D5A5612; 0x5D6FACDB; 0x43B0C7E7]];
  [[0x4503899D; 0x34BA537C; 0x2AF8ED3B; 0x9DEBC8F5; 0x84F416E6; 0x396995E9; 0xC7BCE392; 0x77F10FED];
   [0x1F8AF262; 0x65CCB72; 0xD2F00FC4; 0xE220ED60; 0x5EE25B46; 0x41A5FB06; 0xDD9070B1; 0x22505574]];
  [[0x44BFC5C0; 0x571FF151; 0x3138363C; 0xBE2558B8; 0x605E356C; 0xB2211ABD; 0x176C5F53; 0xB6435DA];
   [0x8DCF484E; 0xF18C917C; 0xCD93D65F; 0x45D4120C; 0x190AE7F8; 0xEBB0BF9C; 0x8D8C8D5A; 0x3D403DE2]];
  [[0xBE656644; 0xCDE760B4; 0x2D21DBC5; 0x99DC5E6D; 0xB6232D08; 0x644FCAF3; 0x859341E3; 0x52955488];
   [0x25763919; 0x3AB4580D; 0x4EF66999; 0x82AB0C53; 0x180663E; 0xBD395C74; 0xB4756474; 0x7974F1A]];
  [[0x31588EA6; 0x8C15CFE7; 0xF36C882D; 0x9629060E; 0x862B080D; 0xDF8E8E9E; 0xD7A0C5BE; 0xBD36B48];
   [0x76DA047B; 0xEBD0C6C9; 0xBB94FD5A; 0x4F0F08AB; 0x74910D9F; 0x33D41A4E; 0xA9583754; 0x3D6F8D0B]];
  [[0x4E4FC72E; 0xEC4C896E; 0x2ECE31; 0xB111210C; 0x2AF11E21; 0x7204D937; 0x5D0509E9; 0x59B9C1EC];
   [0xF9D5BBC0; 0xBC97644C; 0x31B4E869; 0x25B123AF; 0x5A6CAAB0; 0x91D7AEC; 0xECC911C4; 0x340B9E80]]];
 [[[0xEC208406; 0xE8036B20; 0x214CEB5A; 0xAF46A05A; 0x46CC8379; 0x8672084A; 0x4BA7885; 0x7DE0A42F];
   [0xC9D3F32A; 0xB772BEDC; 0x534B1520; 0x7DAE3680; 0xEC7120CC; 0x4CD6203; 0xB4E99780; 0x32F88E3]];
  [[0xE4A0897E; 0xB34BDA5C; 0x379B2480; 0xF7748B26; 0xB2D97522; 0xF47F6646; 0xF9641DB9; 0x66AD8DE1];
   [0xD1BF09C0; 0xF8EB919; 0xB95DC052; 0x7853BB4E; 0x62B1FD4A; 0xBE7EE13D; 0xDC7CE53E; 0x2FF7EDC5]];
  [[0xEE81DF35; 0xE1009AA0; 0x61D0798B; 0x14972F02; 0xF1EA1A6A; 0x5A6831A0; 0xCAB301A; 0x1DBABA3D];
   [0x157D5213; 0x421270E2; 0x6407B790; 0xA37BEA95; 0x103A6073; 0xEAD56B1F; 0xBAD909F1; 0x27534624]];
  [[0xC2621EF1; 0xC92D2209; 0x1D3AD3F3; 0x450710C3; 0x19E481AD; 0x8CFB8D6C; 0xE6DB01BD; 0x35CACDAE];
   [0x7CDD5B01; 0x2DA4A1D8; 0xF55BA11; 0x3E40C751; 0xB15C162D; 0xA91D9EE7; 0x11DBA157; 0x13AD3BE5]];
  [[0xE72F64F5; 0xAE417DB0; 0xF13352BA; 0x40822279; 0x1F2B75B9; 0xEC43AFD9; 0xC9CF2972; 0x14D4BB2B];
   [0x761B2F1; 0x4A55718A; 0xD81A9307; 0xDAFBF756; 0x5D3E5A07; 0x2DCDFC1C; 0x2EBBDF28; 0x696E42ED]];
  [[0x68705410; 0xF4739399; 0xAF5FFC88; 0xFD581005; 0x90A9F517; 0x5490A694; 0x8CF8327E; 0x4A5C8C2E];
   [0xF7D83DA6; 0xC203CD35; 0x7282368D; 0xECAA6B90; 0x2AF7EC42; 0x365BB571; 0xD4099316; 0x112E7ACD]];
  [[0x3AE3C25C; 0x9ABDE060; 0xEB9925B2; 0xE4C03DAD; 0x9E03388B; 0x3C28DCB1; 0x52B63C06; 0x2337A7CF];
   [0x4E1AF2EA; 0x74DC0F13; 0xCD0D59AA; 0xA010E4E3; 0x9FA14C96; 0x6E4DB7BA; 0x557F7CDE; 0x5B2C3862]];
  [[0xC8C79CA9; 0xC826E567; 0xE851BE0C; 0xE7D110CA; 0xA3606499; 0xFFD57057; 0xC6482504; 0x2E9DBC40];
   [0xF784D9AF; 0xC9F0C3C2; 0xB755172E; 0xDD982A05; 0xA023997F; 0x6BC6C19D; 0xE34493C6; 0x4AC177BE]];
  [[0x4FA4F134; 0x21C3E087; 0x86F9722F; 0x66E10C34; 0x7398579A; 0xD2927B01; 0x352C3D3; 0x7135B638];
   [0x3BB5EE11; 0x2DA62007; 0x3A946236; 0x8B64F13C; 0x30EAE6DF; 0x3A83C854; 0xEB6F749; 0x31114E2A]];
  [[0x35BFC72B; 0x2C7B52E7; 0x2B0D4C2C; 0x6DD29EBD; 0x6C92E82D; 0xE90D3988; 0x3864D94D; 0xA924901];
   [0x9BEE9E78; 0x63050824; 0x3DD5CF; 0x7929FD62; 0xE57507D1; 0xD04F832C; 0x37D2C32E; 0x61078BDC]];
  [[0x2E75264A; 0xB118AFDD; 0xEFD65114; 0x3AB692EA; 0x8B0A2128; 0x58D2CE24; 0x82ED6D5F; 0x4316E6C2];
   [0x46345BE4; 0x97766FFF; 0xA7451AA; 0xD7FF3014; 0xAACE2E37; 0x78A423F; 0xA6A78919; 0x7F1F90C2]];
  [[0x8E9E3D4D; 0x988FCCB0; 0xB95C9731; 0xBD003FC0; 0xB0A84E58; 0x74E40076; 0x1DF7FDD0; 0x5FD1DBE6];
   [0x4E6CE2FA; 0xD2C700C7; 0x903C5AE7; 0xA6E042E2; 0x3C73822E; 0x561CC25F; 0x2A6A0C0C; 0x651A7939]];
  [[0x88CD7642; 0x103E9EC6; 0x3C3C86CE; 0x65ED5218; 0x82785C8B; 0x16BAB002; 0xF34723C5; 0xB5C18BB];
   [0xE724D144; 0x528B0546; 0x780EEF9E; 0x5E582A6B; 0x122F17AD; 0xC08283B8; 0x1C22F32D; 0x300EDCD]];
  [[0x38DCFD39; 0x3AC716A; 0x94F12C74; 0xCD88474C; 0xE9042CA8; 0xB5E8641E; 0x40D10558; 0x1D5746CC];
   [0xCB4BB408; 0x7869F45E; 0x569489C3; 0x28FB091D; 0x50A46306; 0xEA371EEC; 0x75AA224C; 0x28025796]];
  [[0xF7A5923A; 0x4EAFA44E; 0x6B69FD8B; 0xD2427C30; 0x393D83F9; 0x4C4E884A; 0x6236AB65; 0x2D34890A];
   [0x35CC97F5; 0x80038D40; 0x97897472; 0x4FE43C84; 0xBEF161AF; 0xE5F56243; 0x9372E631; 0x3E1BDD6F]];
  [[0x5732669F; 0x6A2B287; 0xCDF4D2C0; 0x92D00397; 0x454A57F5; 0xCD9A25F0; 0x2F0CDB0B; 0x23ADB724];
   [0xFF0F8CB0; 0x504DA603; 0xD3E24181; 0x14EF9D30; 0x47FC1E66; 0xB1B1328E; 0x6C60354D; 0x319B2A84]]];
 [[[0xF1D56038; 0xBBF5542E; 0xDD71CFC3; 0xEDE3E637; 0x2E9F6C8B; 0xFAA81D21; 0x69FBD060; 0x4DD2D44B];
   [0x14366A20; 0x71FB6233; 0x9575451D; 0x155E486F; 0xEC7807D9; 0x1106F0; 0xC617034C; 0x1C80E5AB]];
  [[0x8619F5F4; 0xD3E478DB; 0xF68170C2; 0x1DF5C367; 0x3430DE1D; 0xEAB09524; 0xC3CD4C24; 0x48F09361];
   [0x60644FED; 0xE49DEA4B; 0x758C3679; 0x47170F1C; 0xB0382A84; 0x4CC1E6E8; 0x10A4465E; 0x2DBDB9DA]];
  [[0xC8400A4C; 0x67BAA79A; 0x1D28ECE; 0xFA306753; 0x6F33289C; 0x29DB5B1C; 0x26A8FCB4; 0x44757573];
   [0xE1B0A795; 0x59616219; 0xC5B32FA0; 0x3032D939; 0x7C3CEA2C; 0x3010C917; 0x9892BDF4; 0x5CF83EF1]];
  [[0x3C7E83E6; 0x55DE1141; 0x74EA0366; 0x9D03929C; 0x83BAF3FE; 0x5CA60C50; 0x7F70E905; 0x3D9BCA58];
   [0xFCC5AB59; 0xDB79DF5A; 0x53F68D30; 0x3CFCF06; 0x4FCFA5F1; 0xBE101A78; 0xB49E493C; 0x115D7078]];
  [[0x76A0CCBD; 0xF14023AA; 0x86F2E50; 0x4287F0BC; 0xF79A37E7; 0xC5EAA559; 0x4E4F2A2; 0x5D527C09];
   [0x51DAA504; 0xEC914616; 0xEEF1DC95; 0x250D90C6; 0xA50330B2; 0x1B0AA868; 0x54189BBE; 0x7B45A783]];
  [[0xF019D6FF; 0xD602E05; 0xDD1800BA; 0x563E3893; 0xF3C7F7E5; 0x7146727E; 0x4B026635; 0x59641D98];
   [0xE91DDBB8; 0x50BCF90F; 0x7F8397A6; 0x5D43E78E; 0xEB15896E; 0x8734A261; 0x9FF6B361; 0x4AD1E864]];
  [[0x320322F1; 0x1A9B601F; 0x91F611C4; 0x606D40B3; 0xA19C918F; 0xB984958B; 0x776F834E; 0x67BFB045];
   [0x68DD85F0; 0xC59E5569; 0xD4067875; 0xB5642834; 0xCB138DF3; 0x247E7D65; 0x5CB9281D; 0x73640A03]];
  [[0x88639889; 0xC7C34CCC; 0xA785C707; 0xD9E44E07; 0x32F83073; 0x1BE68EFE; 0xAE5317CE; 0x249902DA];
   [0x76CA92FF; 0xF1F0B86A; 0xC01CB06B; 0xA7F502CF; 0x595AA185; 0xA8B4766; 0xB792DE49; 0x614135AA]];
  [[0x564F2BC8; 0x5392CAA7; 0xCC894FCD; 0x1CDDA684; 0xA4EBF82F; 0x10AC2378; 0x5051BFF9; 0x6211EA46];
   [0x30E8E210; 0xE53B0174; 0x2C0E381; 0x2374FEC3; 0x4DA07224; 0xF8B1506B; 0x54DA7A08; 0x4E451E01]];
  [[0x241FC7FB; 0xA8404D9C; 0xC4406332; 0x1D6DBF6E; 0x30162118; 0xFE142319; 0xA7EF5EF5; 0x69DE75CC];
   [0x856E26A5; 0x8D4D09; 0xC588ECF6; 0x2BC64B65; 0xAA01EE19; 0x7A523D0B; 0x932F0B95; 0x213EF390]];
  [[0x1CD716FA; 0xA42FE513; 0xE8001B6; 0xFB13B3C6; 0xD8F530CB; 0xBFDC7998; 0xF1C61761; 0x4F9C05B];
   [0xAFED9D64; 0xFB57396F; 0x421AC123; 0x28CCEE3A; 0xF6C21ACC; 0x32590C9B; 0xBCA75AE3; 0x503B97CB]];
  [[0x366946ED; 0x745208BC; 0x4C906596; 0xA75D88E9; 0xEE043530; 0x3A30C7E; 0xD11BF4D5; 0x5C67C151];
   [0xE7AE4BB3; 0x4F75DFA; 0x7F8D7404; 0xA0813606; 0x19D68F64; 0x8B9F9210; 0x6F73B55; 0x5AB67971]];
  [[0xB0687095; 0x8064C4A; 0xB0106DF4; 0x27E30DDD; 0x8482524A; 0x31D29C70; 0xD86FDACD; 0x65DD5896];
   [0xC647197E; 0x81C013D; 0xD7A53A45; 0x51C10B9E; 0xDD7FC53; 0xACB9A4DE; 0xF646220B; 0x639997A2]];
  [[0x1FB93B43; 0x97CCF825; 0xE488D786; 0xB7D7713D; 0x3E4DBB33; 0x4F759566; 0xE0F09964; 0x13B5D8A1];
   [0x316CDD97; 0xFFDDAD74; 0x52C92EE9; 0x67C55782; 0xAC5D6FD; 0x3B50F94; 0x1484DF88; 0x56C5C009]];
  [[0x1778D303; 0xDCE199E3; 0xF1DD4EC; 0x53A2A4C6; 0x370A7B99; 0x7CC5EE9E; 0x2598744E; 0x4403202B];
   [0x228247B6; 0xCCFAA978; 0x4A1D0E27; 0xF50D14BD; 0x80723ABC; 0x66695061; 0x742C0015; 0x750CCB6A]];
  [[0x81A109F1; 0x7B046936; 0xD4C1AFE5; 0x6414D9A3; 0xDD14AC1F; 0x35070548; 0xDEC0D3F0; 0x27172F39];
   [0xF2E273F0; 0x4EE0A7BF; 0xEC82B8E6; 0x28C7813; 0x2081EAE2; 0x907BF09F; 0x414D6421; 0x72E4C3D3]]];
 [[[0xA073711C; 0x2064097E; 0x5A65EC25; 0x980D830A; 0xF0877567; 0x7906A87C; 0xF1980A3A; 0x3E5EAE10];
   [0x9272CE32; 0x5F51023A; 0xA437C974; 0x71D69E68; 0xD0B579FF; 0x32006EA1; 0xA436E129; 0x191935FF]];
  [[0x91C1474C; 0xE5FE2909; 0x1F0B10F5; 0x7350B9FA; 0x6B4AB128; 0x2006F41D; 0xCD95FA42; 0x4EBDA6CF];
   [0x5DA9A7F4; 0x45028938; 0x57FB462B; 0xD8129DE4; 0xE592EF90; 0x4F2BF2C9; 0xD6751DCC; 0x14A1A16B]];
  [[0xDE0CD47A; 0x7460BB84; 0x468CBA3D; 0x261F24D6; 0x1E3C2D8A; 0x229D3181; 0x1D19E059; 0x4AE520C9];
   [0xDF8DC66E; 0x5AC3AEE7; 0x299697EE; 0xCB417060; 0xCE97514F; 0x227C1497; 0x2E991FDE; 0x2589B803]];
  [[0xA97A5D03; 0x7FE9D585; 0x10D58157; 0x7333A1EF; 0xC94C3DF6; 0x54C1CCD2; 0x28073B4E; 0x25C1B252];
   [0x635AD79; 0xEEB29AF9; 0x9AA38848; 0x880019C1; 0x30A9A497; 0x1A859942; 0x92B25ABA; 0x57EDCC2D]];
  [[0x65E19DE6; 0xA98DAE7D; 0x46AD8696; 0x8007DD17; 0xA7F3BBAD; 0x61F2E2CF; 0x54193858; 0x1EFCD387];
   [0x11666ECF; 0xFB54FD60; 0x36E7D371; 0xD97EA5DF; 0x3B9371FF; 0x944CA170; 0x5DE7FB0; 0x32A52CAC]];
  [[0x19ED8B5E; 0xB960FFF6; 0x660354BB; 0xFD6B4C3E; 0x1C9E95F0; 0xF8ECAADA; 0xA8E08CC7; 0x687A6D29];
   [0xC6A83D12; 0xD38B7670; 0x1265BF30; 0x1646064C; 0x2464892D; 0x7DE19FFE; 0x1BDBB729; 0x5B57E08]];
  [[0xFFB7A98A; 0xF3586B04; 0xCB072826; 0xF1850CDC; 0xCF53BFB0; 0xFA3E66A4; 0x6E07221; 0x7C78E567];
   [0x3B4E72AE; 0x21E6F245; 0xC6A3DBE8; 0x10A0D78B; 0xD618DDAB; 0xB9FC6D77; 0x76951DE5; 0x33092D13]];
  [[0x5A0257CB; 0xCAA1BF9D; 0x866C505F; 0x1044E224; 0x81482E7D; 0x9B514107; 0x88940BFB; 0x538CB867];
   [0xAC21DCC1; 0xACE68B78; 0x1609BF8C; 0x57942F3C; 0x66E48C7A; 0x30A47F32; 0xB0DA341F; 0x170D301D]];
  [[0x18ED9863; 0x19643EB2; 0xD9104F33; 0xBBE55BCC; 0xA15B283C; 0x77008B6C; 0x873A6A02; 0x2A6E0B41];
   [0x3CB9A225; 0x517410DF; 0xF538730A; 0x20D76E38; 0x9F8724F0; 0x76C9CAD6; 0x6BE9A035; 0x588BA106]];
  [[0xF842F66C; 0xA059DBEC; 0xB3ED0481; 0x59CA186D; 0xD454490F; 0xA5B2ABCB; 0x2624902; 0x4A0F6004];
   [0x4D2F605F; 0x45AF7B51; 0xC368030F; 0x57E8FE0F; 0xC0727AE; 0x23B74557; 0x2B603EC4; 0x7E91EC77]];
  [[0xFD582BE8; 0xEDD284CF; 0x81093CDA; 0x3077CB23; 0xFDEA4FCE; 0xB1934840; 0xD7F01C9A; 0xF9B9D1];
   [0xA1C707B; 0xA55E5C5B; 0x2F8618A5; 0x5CD73CB; 0x512EEA05; 0x7327CECB; 0x8BF2A4D5; 0x5130A099]];
  [[0xFA7A1C7B; 0x34D18880; 0xFD4E043F; 0x5E0D6C53; 0x1B4442AE; 0xB4DD8010; 0x78ED7563; 0x59D9183E];
   [0xF1FAE158; 0x624DDAFC; 0x5C4C1E92; 0xC08C3653; 0xCE3E42EF; 0x452FD71F; 0x20B902EC; 0x175B4908]];
  [[0x18F4CE34; 0x5F0FDF24; 0x9B7E61B8; 0xA64A3011; 0x663362E2; 0x8109ACD5; 0x97F3DF44; 0x4D02F824];
   [0x3A4F916A; 0x2CE27CCE; 0x3B85B146; 0x4A4E6CBB; 0xDB8C9E5E; 0xFE7A6199; 0xD94B8D23; 0x53F5D620]];
  [[0xE77610A9; 0x37FEBEC3; 0x92245CB0; 0xE82D8EAC; 0xF79A31BC; 0x3FD2CEEA; 0xB446850C; 0x277ACF32];
   [0xCE1A2786; 0xD89FF4C7; 0xFFD3A23C; 0x441781E5; 0x7E85496; 0x7876EFC5; 0xE6F41B30; 0xF306C7B]];
  [[0x5AB1B92B; 0x3BF2BFD1; 0xF373FCF2; 0xDCC3F5A6; 0xDA53C229; 0x27CFC4A6; 0x508E677F; 0x5885737C];
   [0x7B829F24; 0x1275D0F1; 0x4991B75B; 0xBD3C0B02; 0xE581C569; 0x3F82ACDF; 0x3F28904E; 0x12329435]];
  [[0x99C3A09B; 0xCF7BDCCC; 0x5F7D601A; 0x19191107; 0x39FBAA22; 0xA82F7460; 0xD75B5786; 0x3105A6FC];
   [0x932F69A6; 0x9673DAC4; 0xB57D6EE6; 0xF5664B25; 0xA3CDD3E; 0x1EDAC112; 0x42778563; 0x3CF84F8C]]];
 [[[0x65DE3040; 0xE36FD1B7; 0x8AA0D3FE; 0x240EADEA; 0x7F77F804; 0x76971431; 0x591E9694; 0x6FCC933E];
   [0x18F48742; 0x3218D92B; 0x5E1B4001; 0x215F13E9; 0x7A8D69B9; 0xCDF333CD; 0xD2FD134F; 0x14F159B1]];
  [[0x7A50C16; 0x2D1228D6; 0x29AE42FD; 0xDFD80F6; 0xBB8F3512; 0x6C18B122; 0x303F3DCA; 0xFE61243];
   [0xDA50709B; 0x43A29F4D; 0x4B92BF7B; 0x3FF58C08; 0xDFCEF797; 0x62DC6B41; 0xC7B83F32; 0x43F9525A]];
  [[0x15F08F5B; 0x17EBBC9A; 0x8BB3E932; 0xBCD3B640; 0x510BBD36; 0xD46FBB9F; 0xCF65442B; 0x389ABBA8];
   [0xB575545C; 0x3A3DAFE4; 0xE1D0994D; 0x6AB985EC; 0x69E1DB27; 0xCC2A697B; 0x271581DC; 0xD483E18]];
  [[0xC046D968; 0x380D4095; 0x55D3318B; 0x53039755; 0x91CE6FFC; 0x57FA7629; 0xA4ADB641; 0xA0F2885];
   [0x6E5C2909; 0x8B99AF1B; 0xB8794175; 0xBDFE7FFD; 0x795ED786; 0x2CFB948A; 0xFD0DF66; 0x11FE7465]];
  [[0x22E152E2; 0xFC2CC2BD; 0xE30BCEB3; 0xCF6AB96B; 0xBC89B689; 0xAE89C041; 0xE7523AB6; 0x6813430C];
   [0x40A4FA33; 0x3F49E728; 0x857CB0C9; 0x25DE1B7; 0x11EA5EA5; 0x6D71465A; 0x46C8D7CB; 0x6651F7B9]];
  [[0x5268098F; 0xD05F1DCE; 0xDC75030; 0x891DBB68; 0xEA916291; 0xD939E428; 0xEA37D060; 0x5F8EECCC];
   [0x8DC5D544; 0x885F1EA8; 0x57E7448F; 0xFD3B3D17; 0x79531DE0; 0x5FC791A8; 0x42E66DAA; 0x780C1AAF]];
  [[0x397BB28F; 0x19697778; 0xAAA9069D; 0x5EC31D44; 0x3CA24A6F; 0xDC2DFEAA; 0x80BED770; 0x3F66CFCA];
   [0x1A102662; 0x2B6B8215; 0xC5D34CEB; 0x44B4D7A4; 0x88AFECF2; 0x17E0FDE6; 0xCFF8D214; 0xDEFA14B]];
  [[0x8365CA84; 0x14035AA4; 0x197CE2B7; 0x309CEEF0; 0xED39AF37; 0x21305426; 0xD2EA583A; 0x10D01D11];
   [0x9FA5C766; 0x3F2E9749; 0xD70549D4; 0x98357584; 0xD279946D; 0x8FF80803; 0x99DF1253; 0x53DBC433]];
  [[0x5329F12F; 0x1D0D9EFA; 0xBE1F007F; 0xBC9F74CF; 0x18EE4DBC; 0xD7F2AA9A; 0x3A792753; 0x634BF4CF];
   [0x2FA6255A; 0xD5DC72AD; 0xF3BC00C5; 0xEE69EA43; 0xD8147A1A; 0xEA930F61; 0xF4E9AD37; 0x25E1368D]];
  [[0xB7C955EC; 0x9422AAF7; 0x6A74D634; 0x7C710761; 0x305EE420; 0x4ED89932; 0x2E937289; 0x7E42212];
   [0x28566C88; 0x7EBB2313; 0xC27ED656; 0xC7ED9C7A; 0xBF14FB3B; 0xF77F3873; 0xEB957520; 0x447AA1E5]];
  [[0xB5C5E016; 0x3E3CEC7E; 0xBDE44D26; 0xB33DDFF7; 0x66E820DD; 0x2056E9C7; 0xF8196FE2; 0x21A9E5D4];
   [0x88040C97; 0x86CB0A17; 0xFF515D49; 0x18AD8AE7; 0x226A400A; 0xCB8A564A; 0x8B72A0D2; 0x6DB48979]];
  [[0x6324DED2; 0x4365074B; 0xAEDAF0F8; 0x9EFB5CC6; 0xC0792B14; 0xCF952C3C; 0x97ED965E; 0x70B82AB9];
   [0x3ACEBCE7; 0x931B9886; 0x18C2425A; 0xDA850491; 0xE499F7FB; 0xD88E1E27; 0x960981DE; 0x61D3F246]];
  [[0x8393EB0A; 0x1D8EA227; 0x7863FB53; 0x9DCC23D2; 0xD5EBD297; 0x961B2337; 0x5BFED1E9; 0xA96F8B2];
   [0xFE7DD2B7; 0x39EA1803; 0xE5F7772A; 0x7E4817BB; 0xD44A41EF; 0x3668C5FF; 0xE11F8E11; 0x78227653]];
  [[0xD024880B; 0x272D6933; 0xF236FD8A; 0x733C029F; 0x604868F0; 0xBA5C20BD; 0x321175C2; 0x33F211AE];
   [0x9FD79FE3; 0xE40010FB; 0xA685A59F; 0x9C6EA1DC; 0x8EB9889D; 0x79963FFC; 0x5F67108D; 0x15434E7D]];
  [[0xD68B670F; 0x42C14BBF; 0x23F1AA69; 0x2021AC9D; 0xAEA04636; 0xBF4C6D74; 0xBD1FB11D; 0x1E4D2F8E];
   [0x37911AA6; 0x4B0CF0E3; 0x2C484507; 0x7542D928; 0x889542DC; 0x68836751; 0xFE2282A0; 0x5F229F7]];
  [[0x409B2067; 0xAF269E8B; 0xA860F075; 0x6C749952; 0x5DF7C7F6; 0xCB7492DA; 0xE8E591E1; 0x2B010A7F];
   [0x4D9E871; 0xF7446577; 0x5E68408E; 0xC2E0A2A3; 0xD0F0BAAD; 0xD512E9A6; 0xC6BE34A3; 0x3E2F73E1]]];
 [[[0x2EC65BB4; 0x6C466C8E; 0xB1FC8F92; 0x912FFAE5; 0xB50A522D; 0x7587BE5D; 0x649847CF; 0x15939FF7];
   [0xF464794E; 0x69E81D63; 0x6D3F858E; 0x7BB6EEE3; 0x10813BBB; 0x24FE5C01; 0x6D80756C; 0xC491F97]];
  [[0xA5FF3510; 0xBAD1C256; 0x99C1B7B2; 0xF06F38A2; 0x49312D6; 0xF7C0F164; 0x5749B3E4; 0x73C5374];
   [0x55211A81; 0xD6761480; 0xDFA98F45; 0xF34CB5DB; 0xB4AA4967; 0xAF59FA47; 0x8214BE48; 0x116935B9]];
  [[0x9FE10E46; 0x1D86FA00; 0xB5B8494; 0x73B8099C; 0xA1102BE7; 0x9A6EA98D; 0x5514CA21; 0x3DE1948B];
   [0xD0AAAA53; 0x5D18ED69; 0x3C952B98; 0x17BF7DFF; 0x7DDBD937; 0xC60143FE; 0x6F2F10C4; 0x214F2F55]];
  [[0x2F047D0; 0xB2F28695; 0x923F52BF; 0x80952DFE; 0xA5017C3E; 0x56F3306B; 0x52DADFB; 0x5DD62F07];
   [0xD5274F90; 0xDD11592D; 0xE471965B; 0x40632FF3; 0x7E618430; 0xAD1939A8; 0x33F19556; 0x5DD9CAD2]];
  [[0xC1094747; 0x7B0AA88C; 0xF6753A0C; 0xCFA6B95D; 0x2A252A4D; 0xE81AFADA; 0xD3770570; 0x364CAB7C];
   [0xB4610A19; 0xE99D8252; 0x55ED9AD3; 0xB22B2FEC; 0xBEBE7FED; 0x328ACBDD; 0xFBEDFE84; 0x1D379D61]];
  [[0x5EDF8C9C; 0xD9EFFFFA; 0xCE548EC; 0x9BAA7181; 0x5FA8FEEB; 0xEB458AEB; 0x904D841; 0x18C5E691];
   [0x8F33D2E5; 0xFCEFAE28; 0x6FAFDA18; 0xB3CF853E; 0x427D6218; 0x5DE94BA; 0x3731D3E9; 0x21D8AED]];
  [[0xE92719DA; 0x6C8C318; 0x1A65DFDB; 0x1F7CDE12; 0x4B672A2D; 0x9B4D531E; 0x115FAF11; 0x3E39CC63];
   [0x37AF60; 0xC9C3F339; 0x2B43D27; 0xC1C67587; 0xC42DF26B; 0x46B77CDD; 0xEBFA97A7; 0x7235F2B0]];
  [[0xE898094E; 0xAF7FFC9A; 0x146A27E3; 0x8D18AB93; 0x8AEC0416; 0x1376B797; 0x8D91C25E; 0x746A1B1C];
   [0xEBDE2E3; 0x16DCCCC1; 0x8CE7D61E; 0xFE4ABD41; 0xE25F1551; 0xB9830395; 0xB885A943; 0x543493D7]];
  [[0x24EBCFC0; 0x52C659E6; 0xD38367A4; 0x72E3CA91; 0x4D168F4F; 0xA3086AAC; 0x5D64207B; 0x656ACFEE];
   [0xBA196A9E; 0xBE697CBA; 0x97DFFEC2; 0x6A737ACC; 0x54F04DBD; 0x393E2661; 0x4B0E92BD; 0x4FFF7C24]];
  [[0x828EC659; 0xC709CC59; 0xCBDEACB3; 0xB275AC8C; 0xF7922523; 0xA8D08921; 0x400A6459; 0x68B92F96];
   [0xDFBECB97; 0x45803EC2; 0x7515D696; 0x49464E05; 0x8F03E969; 0xF39CA961; 0x1CD7C79F; 0x605065A1]];
  [[0x97F1A97A; 0xB91C03DC; 0x201FFB53; 0x2F6D50BB; 0x46241856; 0x39D67D40; 0x74D04805; 0xA2C0256];
   [0x28374A6D; 0xD289B94C; 0x10EDD6FC; 0x1176C73A; 0x56AE631E; 0x890E9C39; 0x6027F549; 0x30451CF1]];
  [[0xDF8F4DDB; 0xCB33FDC; 0x87FF6E63; 0xD9C540DE; 0x55A1D8E4; 0xD8445732; 0x8AC403A6; 0x1497403D];
   [0x6A4BAAC6; 0xA2591C40; 0x48DD3E5D; 0xF493CF1F; 0xB69AF047; 0x7B9AE39F; 0x3782B110; 0x293123C0]];
  [[0xB7A36B62; 0x14921836; 0x4CA3AA39; 0x5AC82430; 0x52F601CA; 0x1303AA6; 0x2B43BB72; 0x7EE1E6C7];
   [0x64D44957; 0x7F82B37B; 0xDA4A6FEC; 0x840D0654; 0x290F75D; 0xFC806FA1; 0x4C62F0E8; 0x3027FE4A]];
  [[0xCD0D3AC0; 0x34E68AB5; 0xE9BC85BD; 0xE6B0B8C1; 0x99533831; 0xE00F5052; 0xCDC83750; 0x11327DA7];
   [0x4656A428; 0x6D991DF0; 0x86228F26; 0x6A7BE349; 0x3019CDC5; 0x6BF85E3D; 0x576913A4; 0x42200D2F]];
  [[0x707B940F; 0x420D9259; 0x3C5E39BB; 0x1BB1FFE1; 0xE40D018E; 0x83D6BA36; 0x44EC576; 0x139BD842];
   [0xC6DE63E8; 0x3C79F8D2; 0x96F1FB0B; 0x49150B1D; 0x1358A13B; 0x66616053; 0xD5DDFD9F; 0x187CA3CF]];
  [[0x8D5AEE84; 0x675370F; 0xDC269114; 0x30AA7D65; 0x5AFC6DC1; 0x295F7FE8; 0x55674339; 0x49452029];
   [0xA6F209EC; 0x7EB1926B; 0xDC72C3E3; 0x5232B9D1; 0xAB52141B; 0xCD788D79; 0xFDD9611F; 0x3EB561BE]]];
 [[[0xE22241AD; 0x9DB342C; 0x2A566653; 0x2EAB852F; 0xCA6E59F3; 0x970843ED; 0xA18C2D89; 0x6490013E];
   [0xC7A691CC; 0x52293350; 0xB2079F14; 0x6544B49D; 0x52DCF090; 0xC49C5598; 0x8817A2C7; 0x4069B6FC]];
  [[0xC86B40F4; 0xE4A4B0C; 0x51F6F853; 0x2B5350E1; 0x1033BEC4; 0xDE26FDE2; 0xC0E9B971; 0x4DE9D2E7];
   [0xD315AD57; 0x716605FD; 0x392B101A; 0x5627D732; 0x81A9F40A; 0x628EDFC6; 0x5AB9C99D; 0x4BD2A96C]];
  [[0xBFBD288A; 0x2C8DF2A1; 0xF4CF7C09; 0x260C4F1E; 0x90E796CB; 0x88A26186; 0x323E0702; 0x105ACC3A];
   [0x667664CF; 0xA8ADA467; 0x3B518622; 0x41144C1B; 0xD8B99FE1; 0x4A532B87; 0x2289C308; 0x4A51C289]];
  [[0x1D6F6880; 0x201DDA61; 0x62029898; 0x47A964D4; 0x426C8CA5; 0xE44E2EEE; 0x9625DBA; 0x2A51821];
   [0xB45B3DFB; 0x170C626E; 0x5C8343A9; 0xFC7F1F71; 0xE549F040; 0xE6CF246F; 0x2F903ACE; 0x4ACF60AE]];
  [[0x81C807EC; 0x91715352; 0x47174A58; 0x72AC60C3; 0xA0F12F61; 0xAD62D06F; 0xAA899C0D; 0x325C2792];
   [0x9D8BA267; 0x53A1E392; 0xCDACCB05; 0x5DC088A5; 0x5025CB69; 0x5BB9127F; 0x69214616; 0x25D2B42E]];
  [[0xDDB55121; 0x4DE5D58A; 0x84DE0677; 0x688AA2F5; 0x63AA25E0; 0xF7925A39; 0x85D4DEA5; 0x4FB42FC7];
   [0x8F134390; 0x957B933B; 0x4B9BF8C2; 0xB360DD2C; 0xFFFF96CD; 0x45E6767F; 0x1E01D5C3; 0x26D0A6A9]];
  [[0x5A0A98EA; 0xC7FC5714; 0xE7535AF6; 0xDBB06F30; 0xDF4ACD0D; 0x555B22E3; 0x2EFD2FBE; 0x3A011AAF];
   [0xE9166B20; 0x341C7733; 0xFB19590A; 0x84619E8E; 0x10574C96; 0x8EF989FD; 0xF55F9A2; 0x61ACFAAE]];
  [[0x6DEAB094; 0x8C8A33F2; 0x96022EBC; 0x4A8E5D9F; 0x7DDA92E8; 0xA10DF82C; 0xD1CF3815; 0x33A19462];
   [0xA489D67F; 0xE3FF8E43; 0x225064AA; 0xD4B6136F; 0x92F5E662; 0xE1721D2A; 0xA90A33C6; 0x4C4F03D7]];
  [[0xA3463B4A; 0x70885B35; 0xDF9D0194; 0x974BC40E; 0x273957F4; 0x1AF71E18; 0x9900CB0D; 0x58EF684B];
   [0x20A49A4A; 0xB09970C8; 0x42067458; 0x3F28403F; 0xBD7D1AD5; 0x153FF2C4; 0xE97A90F7; 0x7912CC2E]];
  [[0x8F034D9F; 0xF653DF59; 0x1C409CCF; 0xCA167177; 0x175F3583; 0x21F47005; 0xFAAFB66F; 0x13B8A94B];
   [0x96052C8D; 0x64534EE3; 0x8D674024; 0x9304DD1; 0xD7A7E2A; 0xEB468AC3; 0xCD62052C; 0x40347256]];
  [[0xFFF11C0E; 0xF089165; 0x8D69A45C; 0x383562C9; 0x3125FE61; 0x7AB3EF9D; 0xE0735F3A; 0x32C042BC];
   [0x4E268D91; 0x420077C8; 0x44695B4F; 0x7FB42082; 0x448A133E; 0xFA83216F; 0x93062EB3; 0x1C660607]];
  [[0xEF9E04DE; 0xA0FCBACA; 0x5B86F69A; 0xAEF9EECB; 0xC39D4C99; 0x73D2E95F; 0x923A5BA8; 0x98C74F7];
   [0x4F68DECF; 0x5B8C95C8; 0x58976551; 0xCFF2E101; 0xBE5CAF91; 0x5032AE48; 0xE09BC8AE; 0x5CCB9008]];
  [[0x3714D3BF; 0x41A38F20; 0x17366520; 0x24136533; 0xFAE17B01; 0xF12F314C; 0xFC9AD43B; 0x4AA0C969];
   [0x8BBAC026; 0xD8AB5F72; 0x526992DC; 0x35128269; 0xD19880AA; 0xA2EF6E44; 0xDBF47628; 0x28BB3623]];
  [[0x3BA25C35; 0x294742BA; 0x61555B7; 0x39D3BC9B; 0xDE6EA1A0; 0x944E3ABC; 0x57EBD394; 0x4FDC6415];
   [0xE981E649; 0xB615C1DA; 0x8BE3C95F; 0xAF7EDB34; 0x71F7221F; 0x38573AE8; 0x668CF414; 0x1B30FF04]];
  [[0xA57A9A4E; 0x48EFF6A2; 0x74A59C19; 0x4BA2F73; 0x6779C5DA; 0x5FDE389D; 0x6612F160; 0x258E2B24];
   [0x6D116D41; 0xCE8D7A0B; 0xEE2706C8; 0xAF660436; 0xF81D6398; 0xFFAD6FE9; 0x14BA128A; 0x4FE5EC54]];
  [[0xBD4B886C; 0x7D5E8299; 0xDB0DB148; 0x5403A46E; 0x76A808D7; 0x32F49FC0; 0xD3B9A641; 0x6D483FD7];
   [0x3952C70F; 0x731DF122; 0xCB5E6081; 0xB5CABAC1; 0x7AFA8F59; 0x12FA297D; 0x6AC91952; 0x3272360A]]]].
