(** The curve constants of the generated files ecp_id_*.c, limb by limb, for both widths, and what a limb array
    stands for.  Generated from the sources; every array is followed by its lines. *)
From Coq Require Import ZArith List Bool.
From Verif Require Import EcLadderModel.
Import ListNotations.
Local Open Scope Z_scope.

Inductive const_name := C_one | C_a | C_b | C_b3 | C_d | C_S | C_T.

(** "eval z" of the comments that head each half of a file: the weights of the limbs, as shifts. *)
Definition weights (w64 : bool) (f : ecp_file) : list Z :=
  match f, w64 with
  | F_A, true => [0; 52; 103; 154; 205]  (* line 97 *)
  | F_A, false => [0; 24; 47; 70; 94; 117; 140; 163; 187; 210; 233]  (* line 3825 *)
  | F_B, true => [0; 64; 128; 192]  (* line 94 *)
  | F_B, false => [0; 32; 64; 96; 128; 160; 192; 224]  (* line 4475 *)
  | F_C, true => [0; 64; 128; 192]  (* line 94 *)
  | F_C, false => [0; 32; 64; 96; 128; 160; 192; 224]  (* line 5133 *)
  | F_Test, true => [0; 64; 128; 192]  (* line 94 *)
  | F_Test, false => [0; 32; 64; 96; 128; 160; 192; 224]  (* line 4401 *)
  | F_256A, true => [0; 52; 103; 154; 205]  (* line 99 *)
  | F_256A, false => [0; 24; 47; 70; 94; 117; 140; 163; 187; 210; 233]  (* line 4028 *)
  | F_512A, true => [0; 52; 103; 154; 205; 256; 308; 359; 410; 461]  (* line 97 *)
  | F_512A, false => [0; 23; 45; 67; 90; 112; 134; 156; 179; 201; 223; 245; 268; 290; 312; 334; 357; 379; 401; 423; 446; 468; 490]  (* line 4854 *)
  | F_512B, true => [0; 64; 128; 192; 256; 320; 384; 448]  (* line 94 *)
  | F_512B, false => [0; 32; 64; 96; 128; 160; 192; 224; 256; 288; 320; 352; 384; 416; 448; 480]  (* line 7073 *)
  | F_512C, true => [0; 52; 103; 154; 205; 256; 308; 359; 410; 461]  (* line 99 *)
  | F_512C, false => [0; 23; 45; 67; 90; 112; 134; 156; 179; 201; 223; 245; 268; 290; 312; 334; 357; 379; 401; 423; 446; 468; 490]  (* line 4874 *)
  end.
(** The files whose arithmetic is "word-by-word Montgomery" keep x * R instead of x (the comments at the head of
    each half, e.g. ecp_id_GostR3410_2001_CryptoPro_B_ParamSet.c:61-94); the others keep x. *)
Definition mont_r (f : ecp_file) : Z :=
  match f with F_B | F_C | F_Test => 2 ^ 256 | F_512B => 2 ^ 512 | F_A | F_256A | F_512A | F_512C => 1 end.
Fixpoint eval_limbs (ws ls : list Z) : Z :=
  match ws, ls with
  | w :: ws', l :: ls' => l * 2 ^ w + eval_limbs ws' ls'
  | _, _ => 0
  end.

(** The arrays const_one, const_a, const_b, const_b3, const_d, const_S, const_T; [] where a file has none. *)
Definition const_limbs (w64 : bool) (f : ecp_file) (c : const_name) : list Z :=
  match f, w64, c with
  (* ecp_id_GostR3410_2001_CryptoPro_A_ParamSet.c *)
  | F_A, true, C_one => [0x1; 0x0; 0x0; 0x0; 0x0]  (* 1184-1187 *)
  | F_A, true, C_b => [0xA6; 0x0; 0x0; 0x0; 0x0]  (* 1189-1192 *)
  | F_A, false, C_one => [0x1; 0x0; 0x0; 0x0; 0x0; 0x0; 0x0; 0x0; 0x0; 0x0; 0x0]  (* 5515-5519 *)
  | F_A, false, C_b => [0xA6; 0x0; 0x0; 0x0; 0x0; 0x0; 0x0; 0x0; 0x0; 0x0; 0x0]  (* 5521-5525 *)
  (* ecp_id_GostR3410_2001_CryptoPro_B_ParamSet.c *)
  | F_B, true, C_one => [0xFFFFFFFFFFFFF367; 0xFFFFFFFFFFFFFFFF; 0xFFFFFFFFFFFFFFFF; 0x7FFFFFFFFFFFFFFF]  (* 1923-1925 *)
  | F_B, true, C_b => [0x8DCC455AA9C5A084; 0x91AB42DF6CF438A8; 0x8F8AA907EEAC7D11; 0x3CE5D221F6285375]  (* 1927-1929 *)
  | F_B, false, C_one => [0xFFFFF367; 0xFFFFFFFF; 0xFFFFFFFF; 0xFFFFFFFF; 0xFFFFFFFF; 0xFFFFFFFF; 0xFFFFFFFF; 0x7FFFFFFF]  (* 8571-8574 *)
  | F_B, false, C_b => [0xA9C5A084; 0x8DCC455A; 0x6CF438A8; 0x91AB42DF; 0xEEAC7D11; 0x8F8AA907; 0xF6285375; 0x3CE5D221]  (* 8576-8579 *)
  (* ecp_id_GostR3410_2001_CryptoPro_C_ParamSet.c *)
  | F_C, true, C_one => [0x86670846FDD28A65; 0x307B9179876FAE2C; 0x54E137A194BE3755; 0x64609FA0A57A7EF8]  (* 2581-2583 *)
  | F_C, true, C_b => [0x4BE8A4E93BDA2ACF; 0x79CC0E3E90D382DD; 0x3BA4C8B01D9CC79B; 0x5CC73B5A966609E9]  (* 2585-2587 *)
  | F_C, false, C_one => [0xFDD28A65; 0x86670846; 0x876FAE2C; 0x307B9179; 0x94BE3755; 0x54E137A1; 0xA57A7EF8; 0x64609FA0]  (* 12124-12127 *)
  | F_C, false, C_b => [0x3BDA2ACF; 0x4BE8A4E9; 0x90D382DD; 0x79CC0E3E; 0x1D9CC79B; 0x3BA4C8B0; 0x966609E9; 0x5CC73B5A]  (* 12129-12132 *)
  (* ecp_id_GostR3410_2001_TestParamSet.c *)
  | F_Test, true, C_one => [0xFFFFFFFFFFFFFBCF; 0xFFFFFFFFFFFFFFFF; 0xFFFFFFFFFFFFFFFF; 0x7FFFFFFFFFFFFFFF]  (* 1859-1861 *)
  | F_Test, true, C_a => [0xFFFFFFFFFFFFC983; 0xFFFFFFFFFFFFFFFF; 0xFFFFFFFFFFFFFFFF; 0x7FFFFFFFFFFFFFFF]  (* 1863-1865 *)
  | F_Test, true, C_b3 => [0x81733EE96AEAB71C; 0xCD3D1CFC4E6FC7; 0x60AB503A75853407; 0xA9EC8AE4556810A]  (* 1867-1869 *)
  | F_Test, false, C_one => [0xFFFFFBCF; 0xFFFFFFFF; 0xFFFFFFFF; 0xFFFFFFFF; 0xFFFFFFFF; 0xFFFFFFFF; 0xFFFFFFFF; 0x7FFFFFFF]  (* 8320-8323 *)
  | F_Test, false, C_a => [0xFFFFC983; 0xFFFFFFFF; 0xFFFFFFFF; 0xFFFFFFFF; 0xFFFFFFFF; 0xFFFFFFFF; 0xFFFFFFFF; 0x7FFFFFFF]  (* 8325-8328 *)
  | F_Test, false, C_b3 => [0x6AEAB71C; 0x81733EE9; 0xFC4E6FC7; 0xCD3D1C; 0x75853407; 0x60AB503A; 0x4556810A; 0xA9EC8AE]  (* 8330-8333 *)
  (* ecp_id_tc26_gost_3410_2012_256_paramSetA.c *)
  | F_256A, true, C_one => [0x1; 0x0; 0x0; 0x0; 0x0]  (* 1183-1186 *)
  | F_256A, true, C_d => [0x2C32D6DC7BFFB; 0x2897009AF7E52; 0x5AA3026573BEC; 0x6A055E2F0E73E; 0x302FB5BE0C1F]  (* 1188-1191 *)
  | F_256A, true, C_S => [0x74F34A48E0ECD; 0x75DA3FD94206B; 0x29573F66A3104; 0x57EA8743C630; 0x3F3F412907CF8]  (* 1193-1196 *)
  | F_256A, true, C_T => [0x75DCE7A14AAA; 0x5C192AC47EA63; 0xF1B2B10E89FC; 0x7C563A5D2D135; 0x807F39FACAF]  (* 1198-1201 *)
  | F_256A, false, C_one => [0x1; 0x0; 0x0; 0x0; 0x0; 0x0; 0x0; 0x0; 0x0; 0x0; 0x0]  (* 5717-5721 *)
  | F_256A, false, C_d => [0xC7BFFB; 0x432D6D; 0x6FCA45; 0x5C026B; 0x77D8A2; 0x40995C; 0x4FAD51; 0xF17873; 0x7F502A; 0x2DF060; 0x302FB]  (* 5723-5727 *)
  | F_256A, false, C_S => [0x8E0ECD; 0x4F34A4; 0x40D6E; 0x68FF65; 0x6209D7; 0x4FD9A8; 0xC14AB; 0x43A1E3; 0x602BF5; 0x1483E7; 0x3F3F41]  (* 5729-5733 *)
  | F_256A, false, C_T => [0xA14AAA; 0x75DCE7; 0x7D4C60; 0x64AB11; 0x13F970; 0x4AC43A; 0x4D478D; 0xD2E968; 0x3FE2B1; 0x1CFD65; 0x807F]  (* 5735-5739 *)
  (* ecp_id_tc26_gost_3410_2012_512_paramSetA.c *)
  | F_512A, true, C_one => [0x1; 0x0; 0x0; 0x0; 0x0; 0x0; 0x0; 0x0; 0x0; 0x0]  (* 2127-2132 *)
  | F_512A, true, C_b => [0x190785A71C760; 0x54EBEE4761503; 0x1B521BB0C5DF3; 0x1D8532D15D004; 0x771E584879869; 0xD081CFD0B6265; 0x74761CB0E879B; 0x4CFE3B469704A; 0x1B7706F42CAD9; 0x7461282EF6FE4]  (* 2134-2139 *)
  | F_512A, false, C_one => [0x1; 0x0; 0x0; 0x0; 0x0; 0x0; 0x0; 0x0; 0x0; 0x0; 0x0; 0x0; 0x0; 0x0; 0x0; 0x0; 0x0; 0x0; 0x0; 0x0; 0x0; 0x0; 0x0]  (* 9261-9269 *)
  | F_512A, false, C_b => [0x71C760; 0x20F0B4; 0xA818C; 0x7DC8EC; 0x3E753A; 0x1D862E; 0x36A43; 0x457401; 0x2C2996; 0x398693; 0x396121; 0x132F71; 0xFD0B6; 0x2F4207; 0x30E879; 0x51D872; 0x25C12B; 0x3E3B46; 0x15B333; 0x37A16; 0x321B77; 0x5DEDF; 0x3A3094]  (* 9271-9279 *)
  (* ecp_id_tc26_gost_3410_2012_512_paramSetB.c *)
  | F_512B, true, C_one => [0xFFFFFFFFFFFFFF91; 0xFFFFFFFFFFFFFFFF; 0xFFFFFFFFFFFFFFFF; 0xFFFFFFFFFFFFFFFF; 0xFFFFFFFFFFFFFFFF; 0xFFFFFFFFFFFFFFFF; 0xFFFFFFFFFFFFFFFF; 0x7FFFFFFFFFFFFFFF]  (* 4479-4483 *)
  | F_512B, true, C_b => [0xDBE748C318A75DD6; 0xC954A7809097BFC1; 0x6553CD27E2D5A471; 0xB99B326049435CF3; 0xE9EAC8A216D2C5E7; 0x260B45A102D0CC51; 0x8636181D6C5BD56D; 0x638259A12C5765BC]  (* 4485-4489 *)
  | F_512B, false, C_one => [0xFFFFFF91; 0xFFFFFFFF; 0xFFFFFFFF; 0xFFFFFFFF; 0xFFFFFFFF; 0xFFFFFFFF; 0xFFFFFFFF; 0xFFFFFFFF; 0xFFFFFFFF; 0xFFFFFFFF; 0xFFFFFFFF; 0xFFFFFFFF; 0xFFFFFFFF; 0xFFFFFFFF; 0xFFFFFFFF; 0x7FFFFFFF]  (* 19063-19069 *)
  | F_512B, false, C_b => [0x18A75DD6; 0xDBE748C3; 0x9097BFC1; 0xC954A780; 0xE2D5A471; 0x6553CD27; 0x49435CF3; 0xB99B3260; 0x16D2C5E7; 0xE9EAC8A2; 0x2D0CC51; 0x260B45A1; 0x6C5BD56D; 0x8636181D; 0x2C5765BC; 0x638259A1]  (* 19071-19077 *)
  (* ecp_id_tc26_gost_3410_2012_512_paramSetC.c *)
  | F_512C, true, C_one => [0x1; 0x0; 0x0; 0x0; 0x0; 0x0; 0x0; 0x0; 0x0; 0x0]  (* 2129-2134 *)
  | F_512C, true, C_d => [0x2DBB33EE7550; 0x42BC2A22B4CA3; 0x73C6D3D23419F; 0x1ACC138B390F9; 0x5359CF0528AE0; 0x8A0621050439C; 0x54198E31EBDE2; 0x6B7FC9B56805A; 0x367C4E973CF37; 0x4F27AEC600BEC]  (* 2136-2141 *)
  | F_512C, true, C_S => [0x3F4913304621E; 0xF50F57752CD7; 0x430E4B0B72F98; 0x794CFB1D31BC1; 0x6B298C3EB5D47; 0x5D7E77BEBEF18; 0x2AF99C7385087; 0x5200D92A5FE9; 0x7260EC5A30C32; 0xC36144E7FD04]  (* 2143-2148 *)
  | F_512C, true, C_T => [0x2B249DDFD1271; 0x4B1F5C5B1E21B; 0x28A1234DB359A; 0x4775897342D4; 0x6339A280DC1D0; 0xC1ABB02B80B44; 0x38AEED0851FA5; 0x273FF6F391564; 0x33BF626E8A289; 0x4D3147CBAACA7]  (* 2150-2155 *)
  | F_512C, false, C_one => [0x1; 0x0; 0x0; 0x0; 0x0; 0x0; 0x0; 0x0; 0x0; 0x0; 0x0; 0x0; 0x0; 0x0; 0x0; 0x0; 0x0; 0x0; 0x0; 0x0; 0x0; 0x0; 0x0]  (* 9281-9289 *)
  | F_512C, false, C_d => [0x6E7550; 0x1B7667; 0x265181; 0x54456; 0x33F0AF; 0x1E91A0; 0x1E78DA; 0x2CE43E; 0x16609C; 0x28AE03; 0x273C14; 0x1CE535; 0x210504; 0xA2818; 0x31EBDE; 0x506638; 0x1A016A; 0x3FC9B5; 0x1E6FAD; 0x274B9E; 0x36367C; 0x18C017; 0x2793D7]  (* 9291-9299 *)
  | F_512C, false, C_S => [0x4621E; 0x292266; 0x166B9F; 0x1EAEEA; 0x3303D4; 0x185B97; 0x1861C9; 0x74C6F0; 0xA67D8; 0x35D47F; 0x2630FA; 0x78C6B2; 0x37BEBE; 0x1D75F9; 0x338508; 0x2BE671; 0x297FA5; 0x200D92; 0x186414; 0x762D18; 0x27260; 0x9CFFA; 0x61B0A]  (* 9301-9309 *)
  | F_512C, false, C_T => [0x7D1271; 0x2493BB; 0x310D95; 0x6B8B63; 0x3352C7; 0x1A6D9A; 0x51424; 0x5CD0B5; 0x23BAC4; 0x1C1D00; 0x268A03; 0x5A2633; 0x302B80; 0x1706AE; 0x851FA; 0x62BBB4; 0x245591; 0x3FF6F3; 0x5129C; 0x313745; 0x13B3BF; 0x397559; 0x2698A3]  (* 9311-9319 *)
  | _, _, _ => []
  end.
