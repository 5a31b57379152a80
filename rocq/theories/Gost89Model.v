(** Model of gost89.c: the GOST 28147-89 / Magma block cipher, its raw ECB, CFB and MAC
    drivers and the key meshing functions.

    Conventions. Buffers are lists of [N] (bytes). [word32] values are [N] below 2^32, and the
    arithmetic is written with [add32]/[sub32]/[w32].  The random mask drawn by
    [RAND_priv_bytes] is read from the arbitrary sequence [g_rng] stored in the context;
    the call's failure is not modelled (the C code ignores it and keeps the old mask). *)
From Verif Require Import Bytes.

(** gost89.h:22-32 [gost_subst_block]: eight rows of sixteen entries. *)
Record subst_block := mk_subst {
  sb_k8 : list N; sb_k7 : list N; sb_k6 : list N; sb_k5 : list N;
  sb_k4 : list N; sb_k3 : list N; sb_k2 : list N; sb_k1 : list N
}.

(** gost89.h:34-41 [gost_ctx]; [g_rng] is the sequence of masks future calls of
    RAND_priv_bytes will deliver (not a field of the C structure). *)
Record gost_ctx := mk_gost_ctx {
  g_master : list N;          (* u4 master_key[8], kept as 32 bytes *)
  g_key : list N;             (* u4 key[8] *)
  g_mask : list N;            (* u4 mask[8] *)
  g_k87 : list N; g_k65 : list N; g_k43 : list N; g_k21 : list N;   (* u4 k..[256] *)
  g_rng : nat -> list N
}.

(** Well-formedness: the generator fills the whole mask array (gost89.c:571, 586), that is
    every mask is eight 32-bit words. *)
Definition words (l : list N) : Prop := Forall (fun w => w < 4294967296) l.
Definition mask_ok (m : list N) : Prop := length m = 8%nat /\ words m.
Definition rng_ok (r : nat -> list N) : Prop := forall n, mask_ok (r n).

(** gost89.c:255-266 [kboxinit]. *)
Definition kbox_entry (hi lo : list N) (i : N) : N :=
  N.lor (N.shiftl (get hi (N.shiftr i 4)) 4) (get lo (N.land i 15)).
Definition idx256 : list N := map N.of_nat (seq 0 256).
Definition kboxinit (c : gost_ctx) (b : subst_block) : gost_ctx :=
  mk_gost_ctx (g_master c) (g_key c) (g_mask c)
    (map (fun i => w32 (N.shiftl (kbox_entry (sb_k8 b) (sb_k7 b) i) 24)) idx256)
    (map (fun i => N.shiftl (kbox_entry (sb_k6 b) (sb_k5 b) i) 16) idx256)
    (map (fun i => N.shiftl (kbox_entry (sb_k4 b) (sb_k3 b) i) 8) idx256)
    (map (fun i => kbox_entry (sb_k2 b) (sb_k1 b) i) idx256)
    (g_rng c).

(** gost89.c:269-275 [f]. *)
Definition f (c : gost_ctx) (x : N) : N :=
  let y := N.lor (N.lor (get (g_k87 c) (N.land (N.shiftr x 24) 255))
                        (get (g_k65 c) (N.land (N.shiftr x 16) 255)))
                 (N.lor (get (g_k43 c) (N.land (N.shiftr x 8) 255))
                        (get (g_k21 c) (N.land x 255))) in
  N.lor (w32 (N.shiftl y 11)) (N.shiftr (w32 y) 21).

(** One line [n2 ^= f(c, n1 + c->key[i] + c->mask[i]);].  The pair is (the half that is read,
    the half that is updated); the next line swaps their roles, as the C code does by
    alternating the names n1 and n2. *)
Definition round (c : gost_ctx) (i : nat) (s : N * N) : N * N :=
  let '(a, b) := s in
  (N.lxor b (f c (add32 (add32 a (nth i (g_key c) 0)) (nth i (g_mask c) 0))), a).
Fixpoint rounds (c : gost_ctx) (idx : list nat) (s : N * N) : N * N :=
  match idx with
  | nil => s
  | i :: t => rounds c t (round c i s)
  end.

(** The key indices of the 32 lines gost89.c:285-319 (also 339-373). *)
Definition enc_idx : list nat :=
  [0;1;2;3;4;5;6;7; 0;1;2;3;4;5;6;7; 0;1;2;3;4;5;6;7; 7;6;5;4;3;2;1;0]%nat.
(** The key indices of the 32 lines gost89.c:392-426 (also 445-479). *)
Definition dec_idx : list nat :=
  [0;1;2;3;4;5;6;7; 7;6;5;4;3;2;1;0; 7;6;5;4;3;2;1;0; 7;6;5;4;3;2;1;0]%nat.
(** The key indices of the 16 lines gost89.c:657-673. *)
Definition mac_idx : list nat :=
  [0;1;2;3;4;5;6;7; 0;1;2;3;4;5;6;7]%nat.

(** gost89.c:278-329 [gostcrypt]; the word loads (or of shifted bytes) are [le2n]. *)
Definition gostcrypt (c : gost_ctx) (inb : list N) : list N :=
  let n1 := le2n (sub 0 4 inb) in
  let n2 := le2n (sub 4 4 inb) in
  let '(n1, n2) := rounds c enc_idx (n1, n2) in
  n2le 4 n2 ++ n2le 4 n1.

(** gost89.c:386-436 [gostdecrypt]. *)
Definition gostdecrypt (c : gost_ctx) (inb : list N) : list N :=
  let n1 := le2n (sub 0 4 inb) in
  let n2 := le2n (sub 4 4 inb) in
  let '(n1, n2) := rounds c dec_idx (n1, n2) in
  n2le 4 n2 ++ n2le 4 n1.

(** gost89.c:332-383 [magmacrypt]: the same on bytes in[7-i], out[7-i]. *)
Definition magmacrypt (c : gost_ctx) (inb : list N) : list N :=
  let n1 := be2n (sub 4 4 inb) in
  let n2 := be2n (sub 0 4 inb) in
  let '(n1, n2) := rounds c enc_idx (n1, n2) in
  n2be 4 n1 ++ n2be 4 n2.

(** gost89.c:439-489 [magmadecrypt]. *)
Definition magmadecrypt (c : gost_ctx) (inb : list N) : list N :=
  let n1 := be2n (sub 4 4 inb) in
  let n2 := be2n (sub 0 4 inb) in
  let '(n1, n2) := rounds c dec_idx (n1, n2) in
  n2be 4 n1 ++ n2be 4 n2.

(** gost89.c:493-501 [gost_enc] on [n] blocks. *)
Fixpoint gost_enc (c : gost_ctx) (clear : list N) (n : nat) : list N :=
  match n with
  | O => nil
  | S n' => gostcrypt c (firstn 8 clear) ++ gost_enc c (skipn 8 clear) n'
  end.
(** gost89.c:504-512 [gost_dec]. *)
Fixpoint gost_dec (c : gost_ctx) (cipher : list N) (n : nat) : list N :=
  match n with
  | O => nil
  | S n' => gostdecrypt c (firstn 8 cipher) ++ gost_dec c (skipn 8 cipher) n'
  end.

(** gost89.c:515-530 [gost_enc_cfb]. *)
Fixpoint gost_enc_cfb (c : gost_ctx) (iv clear : list N) (n : nat) : list N :=
  match n with
  | O => nil
  | S n' =>
      let out := xorl (firstn 8 clear) (gostcrypt c iv) in
      out ++ gost_enc_cfb c out (skipn 8 clear) n'
  end.
(** gost89.c:533-548 [gost_dec_cfb]. *)
Fixpoint gost_dec_cfb (c : gost_ctx) (iv cipher : list N) (n : nat) : list N :=
  match n with
  | O => nil
  | S n' =>
      xorl (firstn 8 cipher) (gostcrypt c iv) ++
      gost_dec_cfb c (firstn 8 cipher) (skipn 8 cipher) n'
  end.

(** gost89.c:558-566 [gost_key_impl] with the mask [m] already in the context. *)
Definition key_words (ld : list N -> N) (k m : list N) : list N :=
  map (fun i => sub32 (ld (sub (4 * i) 4 k)) (nth i m 0)) (seq 0 8).
Definition set_key_mask (c : gost_ctx) (key mask : list N) (rng : nat -> list N) : gost_ctx :=
  mk_gost_ctx (g_master c) key mask (g_k87 c) (g_k65 c) (g_k43 c) (g_k21 c) rng.

(** gost89.c:569-573 [gost_key]: a fresh random mask is drawn. *)
Definition gost_key (c : gost_ctx) (k : list N) : gost_ctx :=
  let m := g_rng c 0%nat in
  set_key_mask c (key_words le2n k m) m (fun n => g_rng c (S n)).
(** gost89.c:576-580 [gost_key_nomask]. *)
Definition gost_key_nomask (c : gost_ctx) (k : list N) : gost_ctx :=
  let m := repeat 0 8 in
  set_key_mask c (key_words le2n k m) m (g_rng c).
(** gost89.c:583-592 [magma_key]: key words are big-endian. *)
Definition magma_key (c : gost_ctx) (k : list N) : gost_ctx :=
  let m := g_rng c 0%nat in
  set_key_mask c (key_words be2n k m) m (fun n => g_rng c (S n)).
(** gost89.c:594-596 [magma_master_key]. *)
Definition magma_master_key (c : gost_ctx) (k : list N) : gost_ctx :=
  mk_gost_ctx (firstn 32 k) (g_key c) (g_mask c) (g_k87 c) (g_k65 c) (g_k43 c) (g_k21 c) (g_rng c).

(** gost89.c:551-556 [gost_enc_with_key]; the context keeps the new key. *)
Definition gost_enc_with_key (c : gost_ctx) (key inb : list N) : gost_ctx * list N :=
  let c' := gost_key_nomask c key in (c', gostcrypt c' inb).

(** gost89.c:599-608 [gost_get_key]. *)
Definition gost_get_key (c : gost_ctx) : list N :=
  flat_map (fun i => n2le 4 (add32 (nth i (g_key c) 0) (nth i (g_mask c) 0))) (seq 0 8).
(** gost89.c:611-620 [magma_get_key]. *)
Definition magma_get_key (c : gost_ctx) : list N :=
  flat_map (fun i => n2be 4 (add32 (nth i (g_key c) 0) (nth i (g_mask c) 0))) (seq 0 8).

(** gost89.c:623-629 [gost_init] with a non-NULL substitution block. *)
Definition gost_init (c : gost_ctx) (b : subst_block) : gost_ctx := kboxinit c b.

(** gost89.c:632-637 [gost_destroy]: OPENSSL_cleanse writes zero bytes. *)
Definition gost_destroy (c : gost_ctx) : gost_ctx :=
  mk_gost_ctx (repeat 0 32) (repeat 0 8) (repeat 0 8)
    (g_k87 c) (g_k65 c) (g_k43 c) (g_k21 c) (g_rng c).

(** gost89.c:644-683 [mac_block]: the new 8-byte MAC state. *)
Definition mac_block (c : gost_ctx) (buffer block : list N) : list N :=
  let b := xorl buffer block in
  let n1 := le2n (sub 0 4 b) in
  let n2 := le2n (sub 4 4 b) in
  let '(n1, n2) := rounds c mac_idx (n1, n2) in
  n2le 4 n1 ++ n2le 4 n2.

(** gost89.c:686-696 [get_mac].  [(1 < rembits) - 1] is 0 or -1 as a C int, and
    [buffer[i] & -1] is [buffer[i]]. *)
Definition get_mac (buffer : list N) (nbits : N) : list N :=
  let nbytes := N.to_nat (N.shiftr nbits 3) in
  let rembits := N.land nbits 7 in
  let masked b := if 1 <? rembits then 0 (* mask = 1 - 1 *) else b (* mask = 0 - 1 *) in
  firstn nbytes buffer ++
  (if rembits =? 0 then nil else [masked (nth nbytes buffer 0)]).

(** The loop gost89.c:708-709 (and 733-734): whole blocks; returns the MAC state and the
    remaining bytes. The C index [i] is an unsigned int; lengths above 2^32-8, for which
    [i + 8] wraps, are outside the model. *)
Fixpoint mac_loop (fuel : nat) (c : gost_ctx) (buffer data : list N) : list N * list N :=
  match fuel with
  | O => (buffer, data)
  | S fuel' =>
      if (8 <=? length data)%nat
      then mac_loop fuel' c (mac_block c buffer (firstn 8 data)) (skipn 8 data)
      else (buffer, data)
  end.

(** gost89.c:725-747 [gost_mac_iv]. *)
Definition gost_mac_iv (c : gost_ctx) (mac_len : N) (iv data : list N) : list N :=
  let '(buffer, rest) := mac_loop (length data) c iv data in
  let i := (length data - length rest)%nat in
  let '(buffer, i) :=
    if (i <? length data)%nat
    then (mac_block c buffer (rest ++ zeros (8 - length rest)), (i + 8)%nat)
    else (buffer, i) in
  let buffer := if (i =? 8)%nat then mac_block c buffer (zeros 8) else buffer in
  get_mac buffer mac_len.

(** gost89.c:702-722 [gost_mac]: the same with a zero initial state. *)
Definition gost_mac (c : gost_ctx) (mac_len : N) (data : list N) : list N :=
  gost_mac_iv c mac_len (zeros 8) data.

(** gost89.c:240-245 *)
Definition CryptoProKeyMeshingKey : list N :=
  [0x69; 0x00; 0x72; 0x22; 0x64; 0xC9; 0x04; 0x23;
   0x8D; 0x3A; 0xDB; 0x96; 0x46; 0xE9; 0x2A; 0xC4;
   0x18; 0xFE; 0xAC; 0x94; 0x00; 0xED; 0x07; 0x12;
   0xC0; 0x86; 0xDC; 0xC2; 0xEF; 0x4C; 0xA9; 0x2B].
(** gost89.c:247-252 *)
Definition ACPKM_D_const : list N :=
  [0x80; 0x81; 0x82; 0x83; 0x84; 0x85; 0x86; 0x87;
   0x88; 0x89; 0x8A; 0x8B; 0x8C; 0x8D; 0x8E; 0x8F;
   0x90; 0x91; 0x92; 0x93; 0x94; 0x95; 0x96; 0x97;
   0x98; 0x99; 0x9A; 0x9B; 0x9C; 0x9D; 0x9E; 0x9F].

(** gost89.c:750-766 [cryptopro_key_meshing] with a non-NULL iv: new context and new iv. *)
Definition cryptopro_key_meshing (c : gost_ctx) (iv : list N) : gost_ctx * list N :=
  let c' := gost_key c (gost_dec c CryptoProKeyMeshingKey 4) in
  (c', gostcrypt c' iv).
(** gost89.c:750-766 with iv == NULL. *)
Definition cryptopro_key_meshing_noiv (c : gost_ctx) : gost_ctx :=
  gost_key c (gost_dec c CryptoProKeyMeshingKey 4).

(** gost89.c:768-778 [acpkm_magma_key_meshing]. *)
Definition acpkm_magma_key_meshing (c : gost_ctx) : gost_ctx :=
  magma_key c
    (magmacrypt c (sub 0 8 ACPKM_D_const) ++ magmacrypt c (sub 8 8 ACPKM_D_const) ++
     magmacrypt c (sub 16 8 ACPKM_D_const) ++ magmacrypt c (sub 24 8 ACPKM_D_const)).

Arguments gostcrypt : simpl never.
Arguments gostdecrypt : simpl never.
Arguments magmacrypt : simpl never.
Arguments magmadecrypt : simpl never.
Arguments mac_block : simpl never.
