(** GOST R 34.11-2012 (Streebog) as in RFC 6986, written from the RFC.  A 512-bit vector
    a_63 || ... || a_0 is the list of its bytes with a_0 first; the message is read so that its
    first byte is a_0 of the first block. *)
From Coq Require Import String.
From Verif Require Import Bytes.

(** Section 6.2: the substitution pi. *)
Definition pi_table : list N :=
  [252;238;221;17;207;110;49;22;251;196;250;218;35;197;4;77;
   233;119;240;219;147;46;153;186;23;54;241;187;20;205;95;193;
   249;24;101;90;226;92;239;33;129;28;60;66;139;1;142;79;
   5;132;2;174;227;106;143;160;6;11;237;152;127;212;211;31;
   235;52;44;81;234;200;72;171;242;42;104;162;253;58;206;204;
   181;112;14;86;8;12;118;18;191;114;19;71;156;183;93;135;
   21;161;150;41;16;123;154;199;243;145;120;111;157;158;178;177;
   50;117;25;61;255;53;138;126;109;84;198;128;195;189;13;87;
   223;245;36;169;62;168;67;201;215;121;214;246;124;34;185;3;
   224;15;236;222;122;148;176;188;220;232;40;80;78;51;10;74;
   167;151;96;115;30;0;98;68;26;184;56;130;100;159;38;65;
   173;69;70;146;39;94;85;47;140;163;165;125;105;213;149;59;
   7;88;179;64;134;172;29;247;48;55;107;228;136;217;231;137;
   225;27;131;73;76;63;248;254;141;83;170;144;202;216;133;97;
   32;113;103;164;45;43;9;91;203;155;37;208;190;229;108;82;
   89;166;116;210;230;244;180;192;209;102;175;194;57;75;99;182].
Definition pi (b : N) : N := nth (N.to_nat b) pi_table 0.
(** Section 6.3: the byte permutation tau. *)
Definition tau (i : nat) : nat := (8 * (i mod 8) + i / 8)%nat.
(** Section 6.4: the rows of the matrix A; row j multiplies bit 63 - j. *)
Definition A_rows : list N :=
  [0x8e20faa72ba0b470; 0x47107ddd9b505a38; 0xad08b0e0c3282d1c; 0xd8045870ef14980e;
   0x6c022c38f90a4c07; 0x3601161cf205268d; 0x1b8e0b0e798c13c8; 0x83478b07b2468764;
   0xa011d380818e8f40; 0x5086e740ce47c920; 0x2843fd2067adea10; 0x14aff010bdd87508;
   0x0ad97808d06cb404; 0x05e23c0468365a02; 0x8c711e02341b2d01; 0x46b60f011a83988e;
   0x90dab52a387ae76f; 0x486dd4151c3dfdb9; 0x24b86a840e90f0d2; 0x125c354207487869;
   0x092e94218d243cba; 0x8a174a9ec8121e5d; 0x4585254f64090fa0; 0xaccc9ca9328a8950;
   0x9d4df05d5f661451; 0xc0a878a0a1330aa6; 0x60543c50de970553; 0x302a1e286fc58ca7;
   0x18150f14b9ec46dd; 0x0c84890ad27623e0; 0x0642ca05693b9f70; 0x0321658cba93c138;
   0x86275df09ce8aaa8; 0x439da0784e745554; 0xafc0503c273aa42a; 0xd960281e9d1d5215;
   0xe230140fc0802984; 0x71180a8960409a42; 0xb60c05ca30204d21; 0x5b068c651810a89e;
   0x456c34887a3805b9; 0xac361a443d1c8cd2; 0x561b0d22900e4669; 0x2b838811480723ba;
   0x9bcf4486248d9f5d; 0xc3e9224312c8c1a0; 0xeffa11af0964ee50; 0xf97d86d98a327728;
   0xe4fa2054a80b329c; 0x727d102a548b194e; 0x39b008152acb8227; 0x9258048415eb419d;
   0x492c024284fbaec0; 0xaa16012142f35760; 0x550b8e9e21f7a530; 0xa48b474f9ef5dc18;
   0x70a6a56e2440598e; 0x3853dc371220a247; 0x1ca76e95091051ad; 0x0edd37c48a08a6d8;
   0x07e095624504536c; 0x8d70c431ac02a736; 0xc83862965601dd1b; 0x641c314b2b8ee083].
Fixpoint mul_rows (rows : list N) (x : N) : N :=
  match rows with
  | nil => 0
  | r :: t => N.lxor (if N.testbit x (N.of_nat (List.length t)) then r else 0) (mul_rows t x)
  end.
Definition l (x : N) : N := mul_rows A_rows x.

(** Section 7: the transformations S, P, L on 512-bit vectors. *)
Definition S_ (a : list N) : list N := map pi a.
Definition P_ (a : list N) : list N := map (fun i => nth (tau i) a 0) (seq 0 64).
Definition L_ (a : list N) : list N := flat_map (fun w => n2le 8 (l (le2n w))) (blocks 8 a).
Definition LPS (a : list N) : list N := L_ (P_ (S_ a)).

(** Section 6.5: the iteration constants C_1 .. C_12, most significant digit first. *)
Definition C_hex : list string :=
  ["b1085bda1ecadae9ebcb2f81c0657c1f2f6a76432e45d016714eb88d7585c4fc4b7ce09192676901a2422a08a460d31505767436cc744d23dd806559f2a64507";
   "6fa3b58aa99d2f1a4fe39d460f70b5d7f3feea720a232b9861d55e0f16b501319ab5176b12d699585cb561c2db0aa7ca55dda21bd7cbcd56e679047021b19bb7";
   "f574dcac2bce2fc70a39fc286a3d843506f15e5f529c1f8bf2ea7514b1297b7bd3e20fe490359eb1c1c93a376062db09c2b6f443867adb31991e96f50aba0ab2";
   "ef1fdfb3e81566d2f948e1a05d71e4dd488e857e335c3c7d9d721cad685e353fa9d72c82ed03d675d8b71333935203be3453eaa193e837f1220cbebc84e3d12e";
   "4bea6bacad4747999a3f410c6ca923637f151c1f1686104a359e35d7800fffbdbfcd1747253af5a3dfff00b723271a167a56a27ea9ea63f5601758fd7c6cfe57";
   "ae4faeae1d3ad3d96fa4c33b7a3039c02d66c4f95142a46c187f9ab49af08ec6cffaa6b71c9ab7b40af21f66c2bec6b6bf71c57236904f35fa68407a46647d6e";
   "f4c70e16eeaac5ec51ac86febf240954399ec6c7e6bf87c9d3473e33197a93c90992abc52d822c3706476983284a05043517454ca23c4af38886564d3a14d493";
   "9b1f5b424d93c9a703e7aa020c6e41414eb7f8719c36de1e89b4443b4ddbc49af4892bcb929b069069d18d2bd1a5c42f36acc2355951a8d9a47f0dd4bf02e71e";
   "378f5a541631229b944c9ad8ec165fde3a7d3a1b258942243cd955b7e00d0984800a440bdbb2ceb17b2b8a9aa6079c540e38dc92cb1f2a607261445183235adb";
   "abbedea680056f52382ae548b2e4f3f38941e71cff8a78db1fffe18a1b3361039fe76702af69334b7a1e6c303b7652f43698fad1153bb6c374b4c7fb98459ced";
   "7bcd9ed0efc889fb3002c6cd635afe94d8fa6bbbebab076120018021148466798a1d71efea48b9caefbacd1d7d476e98dea2594ac06fd85d6bcaa4cd81f32d1b";
   "378ee767f11631bad21380b00449b17acda43c32bcdf1d77f82012d430219f9b5d80ef9d1891cc86e71da4aa88e12852faf417d5d9b21b9948bc924af11bd720"]%string.
Definition C_consts : list (list N) := map (fun s => rev (hex s)) C_hex.

(** Section 8: E(K, m) = X[K_13] LPSX[K_12] ... LPSX[K_1](m) with K_1 = K,
    K_i = LPS(K_(i-1) xor C_(i-1)); g_N(h, m) = E(LPS(h xor N), m) xor h xor m. *)
Fixpoint E_iter (Cs : list (list N)) (K m : list N) : list N :=
  match Cs with
  | nil => xorl K m
  | C :: t => E_iter t (LPS (xorl K C)) (LPS (xorl K m))
  end.
Definition E (K m : list N) : list N := E_iter C_consts K m.
Definition g_N (N_ h m : list N) : list N := xorl (xorl (E (LPS (xorl h N_)) m) h) m.

(** Section 9: the hash function.  Stage 2 runs over the whole 64-byte blocks; N counts bits and
    Sigma sums the blocks, both modulo 2^512 (reduced by [n2le 64]); stage 3 pads the rest with a
    one bit and zeros. *)
Record st := mk_st { s_h : list N; s_N : N; s_Sigma : N }.
Definition vec512 (x : N) : list N := n2le 64 x.
Definition stage2_block (s : st) (m : list N) : st :=
  mk_st (g_N (vec512 (s_N s)) (s_h s) m) (s_N s + 512) (s_Sigma s + le2n m).
Definition stage3_rest (s : st) (rest : list N) : list N :=
  let m := rest ++ [1] ++ zeros (63 - List.length rest) in
  let h := g_N (vec512 (s_N s)) (s_h s) m in
  let N_ := s_N s + 8 * N.of_nat (List.length rest) in
  let Sigma := s_Sigma s + le2n m in
  let h := g_N (vec512 0) h (vec512 N_) in
  g_N (vec512 0) h (vec512 Sigma).
Definition whole (m : list N) : nat := (64 * (List.length m / 64))%nat.
Definition streebog (iv m : list N) : list N :=
  stage3_rest (fold_left stage2_block (blocks 64 (firstn (whole m) m)) (mk_st iv 0 0)) (skipn (whole m) m).
Definition streebog512 (m : list N) : list N := streebog (repeat 0 64) m.
(** MSB_256 of the result. *)
Definition streebog256 (m : list N) : list N := skipn 32 (streebog (repeat 1 64) m).
