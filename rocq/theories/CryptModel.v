(** Model of gost_crypt.c: the EVP ciphers gost89 (CFB), gost89-cbc, gost89-cnt(-12),
    magma-ecb, magma-cbc, magma-ctr, magma-ctr-acpkm, and the imit (MAC) digest.

    The record [evp] holds the fields of [struct ossl_gost_cipher_ctx] (gost_lcl.h:210-218)
    and the parts of OpenSSL's EVP_CIPHER_CTX that the code reads and writes through accessors
    (original iv, iv, buf, num, encrypting, app_data).
    Simplifications: the iv arrays are the 8 bytes in use (EVP_MAX_IV_LENGTH is 16);
    [e_abort] is a ghost flag which records that an [assert] failed (with NDEBUG absent the
    process aborts there). *)
From Verif Require Import Bytes Gost89Model Gost89Sboxes.

Record evp := mk_evp {
  e_g : gost_ctx;        (* cctx *)
  e_count : N;           (* unsigned int count *)
  e_mesh : N;            (* int key_meshing, as the unsigned value it is compared as *)
  e_app : bool;          (* app_data != NULL *)
  e_oiv : list N;        (* original iv *)
  e_iv : list N;         (* iv *)
  e_buf : list N;        (* buf, EVP_MAX_BLOCK_LENGTH = 32 bytes *)
  e_num : N;             (* num *)
  e_enc : bool;          (* encrypting *)
  e_abort : bool         (* ghost: an assertion failed *)
}.
Definition with_g c g := mk_evp g (e_count c) (e_mesh c) (e_app c) (e_oiv c) (e_iv c) (e_buf c) (e_num c) (e_enc c) (e_abort c).
Definition with_count c n := mk_evp (e_g c) n (e_mesh c) (e_app c) (e_oiv c) (e_iv c) (e_buf c) (e_num c) (e_enc c) (e_abort c).
Definition with_mesh c m := mk_evp (e_g c) (e_count c) m (e_app c) (e_oiv c) (e_iv c) (e_buf c) (e_num c) (e_enc c) (e_abort c).
Definition with_app c a := mk_evp (e_g c) (e_count c) (e_mesh c) a (e_oiv c) (e_iv c) (e_buf c) (e_num c) (e_enc c) (e_abort c).
Definition with_oiv c v := mk_evp (e_g c) (e_count c) (e_mesh c) (e_app c) v (e_iv c) (e_buf c) (e_num c) (e_enc c) (e_abort c).
Definition with_iv c v := mk_evp (e_g c) (e_count c) (e_mesh c) (e_app c) (e_oiv c) v (e_buf c) (e_num c) (e_enc c) (e_abort c).
Definition with_buf c b := mk_evp (e_g c) (e_count c) (e_mesh c) (e_app c) (e_oiv c) (e_iv c) b (e_num c) (e_enc c) (e_abort c).
Definition with_num c n := mk_evp (e_g c) (e_count c) (e_mesh c) (e_app c) (e_oiv c) (e_iv c) (e_buf c) n (e_enc c) (e_abort c).
Definition with_enc c b := mk_evp (e_g c) (e_count c) (e_mesh c) (e_app c) (e_oiv c) (e_iv c) (e_buf c) (e_num c) b (e_abort c).
Definition with_abort c b := mk_evp (e_g c) (e_count c) (e_mesh c) (e_app c) (e_oiv c) (e_iv c) (e_buf c) (e_num c) (e_enc c) b.

(** memcpy(dst + off, src, len(src)) *)
Definition overwrite (dst : list N) (off : nat) (src : list N) : list N :=
  firstn off dst ++ src ++ skipn (off + length src) dst.

(** * Initialisation *)

(** gost_crypt.c:401-413 [gost_cipher_set_param], the parameter lookup having found [sb]
    (every entry of gost_cipher_list has key_meshing 1, gost_crypt.c:347-356). *)
Definition gost_cipher_set_param (c : evp) (sb : subst_block) : evp :=
  with_g (with_count (with_mesh c 1) 0) (gost_init (e_g c) sb).

(** The tail shared by the init functions: gost_crypt.c:429-434, 449-454, 508-513.
    [ivlen] bytes are copied. *)
Definition init_iv (c : evp) (iv : option (list N)) (ivlen : nat) : evp :=
  let c := match iv with Some v => with_oiv c (overwrite (e_oiv c) 0 (firstn ivlen v)) | None => c end in
  with_iv c (overwrite (e_iv c) 0 (firstn ivlen (e_oiv c))).

(** gost_crypt.c:416-436 [gost_cipher_init_param] (CFB 472-477 and CBC 480-485), with the
    default parameter set [sb] that [get_encryption_params(NULL)] resolves to (366-398; a
    failing lookup, which returns 0, is not modelled here).  OpenSSL stores the direction before
    calling init. *)
Definition gost_cipher_init_param (sb : subst_block) (c : evp) (key iv : option (list N)) (enc : bool) : evp :=
  let c := with_enc c enc in
  let c := if e_app c then c else with_app (gost_cipher_set_param c sb) true in
  let c := match key with Some k => with_g c (gost_key (e_g c) k) | None => c end in
  init_iv c iv 8.

(** gost_crypt.c:438-456 [gost_cipher_init_cnt]; 458-469 give the S-boxes. *)
Definition gost_cipher_init_cnt (sb : subst_block) (c : evp) (key iv : option (list N)) (enc : bool) : evp :=
  let c := with_enc c enc in
  let c := with_g c (gost_init (e_g c) sb) in
  let c := with_count (with_mesh c 1) 0 in
  let c := match key with Some k => with_g c (gost_key (e_g c) k) | None => c end in
  init_iv c iv 8.
Definition gost_cipher_init_cpa := gost_cipher_init_cnt Gost28147_CryptoProParamSetA.
Definition gost_cipher_init_cp_12 := gost_cipher_init_cnt Gost28147_TC26ParamSetZ.

(** gost_crypt.c:488-523 [magma_cipher_init].  [ivlen] is 4 for the CTR ciphers, 8 for CBC and 0
    for ECB; [acpkm] says whether the nid is one of the two ACPKM ciphers.  The kdf_seed
    initialisation (498-501) is not part of this record. *)
Definition magma_cipher_init (ivlen : nat) (acpkm : bool) (c : evp) (key iv : option (list N)) (enc : bool) : evp :=
  let c := with_enc c enc in
  let c := if e_app c then c else with_app (gost_cipher_set_param c Gost28147_TC26ParamSetZ) true in
  let c := match key with Some k => with_g c (magma_master_key (magma_key (e_g c) k) k) | None => c end in
  let c := init_iv c iv ivlen in
  with_mesh c (if acpkm then 1024 else 0).

(** * Block steps with key meshing *)

(** The assertion gost_crypt.c:663, 676, 1518. *)
Definition assert_count (count : N) : bool := (count mod 8 =? 0) && (count <=? 1024).
Definition mesh_due (c : evp) : bool := negb (e_mesh c =? 0) && (e_count c =? 1024).

(** gost_crypt.c:660-669 [gost_crypt_mesh] with iv and buf the context's own. *)
Definition gost_crypt_mesh (c : evp) : evp :=
  let c := with_abort c (e_abort c || negb (assert_count (e_count c))) in
  let c := if mesh_due c
           then let (g, iv) := cryptopro_key_meshing (e_g c) (e_iv c) in with_iv (with_g c g) iv
           else c in
  let c := with_buf c (overwrite (e_buf c) 0 (gostcrypt (e_g c) (e_iv c))) in
  with_count c (e_count c mod 1024 + 8).

(** gost_crypt.c:685-700: the two counters. *)
Definition cnt_advance (b : list N) : list N :=
  let g := w32 (le2n (sub 0 4 b) + 0x01010101) in
  let go := le2n (sub 4 4 b) in
  let h := w32 (go + 0x01010104) in
  let h := if h <? go then w32 (h + 1) else h in
  n2le 4 g ++ n2le 4 h.
(** gost_crypt.c:671-703 [gost_cnt_next]. *)
Definition gost_cnt_next (c : evp) : evp :=
  let c := with_abort c (e_abort c || negb (assert_count (e_count c))) in
  let c := if mesh_due c
           then let (g, iv) := cryptopro_key_meshing (e_g c) (e_iv c) in with_iv (with_g c g) iv
           else c in
  let buf1 := if e_count c =? 0 then gostcrypt (e_g c) (e_iv c) else e_iv c in
  let buf1 := cnt_advance buf1 in
  let c := with_iv c buf1 in
  let c := with_buf c (overwrite (e_buf c) 0 (gostcrypt (e_g c) buf1)) in
  with_count c (e_count c mod 1024 + 8).

(** * CFB *)

(** The loop gost_crypt.c:963-970: returns buf, j, the unread input and the output. *)
Fixpoint cfb_partial (enc : bool) (buf : list N) (j : nat) (inp : list N) : list N * nat * list N * list N :=
  match inp with
  | nil => (buf, j, nil, nil)
  | x :: t =>
      if (j <? 8)%nat then
        let buf1 := if enc then buf else set buf (j + 8) x in
        let o := N.lxor (nth j buf1 0) x in
        let buf2 := if enc then set buf1 (j + 8) o else buf1 in
        let '(b, j', rest, out) := cfb_partial enc buf2 (S j) t in
        (b, j', rest, o :: out)
      else (buf, j, inp, nil)
  end.
(** gost_crypt.c:980-1000: whole blocks. *)
Fixpoint cfb_blocks (fuel : nat) (c : evp) (inp : list N) : evp * list N * list N :=
  match fuel with
  | O => (c, inp, nil)
  | S fuel' =>
      if (8 <=? length inp)%nat then
        let blk := firstn 8 inp in
        let c := gost_crypt_mesh c in
        let c := if e_enc c then c else with_iv c blk in
        let o := xorl (firstn 8 (e_buf c)) blk in
        let c := if e_enc c then with_iv c o else c in
        let '(c, rest, out) := cfb_blocks fuel' c (skipn 8 inp) in
        (c, rest, o ++ out)
      else (c, inp, nil)
  end.
(** gost_crypt.c:1001-1015: the rest. *)
Definition cfb_rest (c : evp) (inp : list N) : evp * list N :=
  match inp with
  | nil => (with_num c 0, nil)
  | _ =>
      let c := gost_crypt_mesh c in
      let c := if e_enc c then c else with_buf c (overwrite (e_buf c) 8 inp) in
      let o := xorl (firstn (length inp) (e_buf c)) inp in
      let c := with_num c (N.of_nat (length inp)) in
      let c := if e_enc c then with_buf c (overwrite (e_buf c) 8 o) else c in
      (c, o)
  end.
Definition cfb_main (c : evp) (inp : list N) : evp * list N :=
  let '(c, rest, o1) := cfb_blocks (length inp) c inp in
  let (c, o2) := cfb_rest c rest in (c, o1 ++ o2).
(** gost_crypt.c:952-1016 [gost_cipher_do_cfb]. *)
Definition gost_cipher_do_cfb (c : evp) (inp : list N) : evp * list N :=
  if e_num c =? 0 then cfb_main c inp
  else
    let '(buf, j, rest, o1) := cfb_partial (e_enc c) (e_buf c) (N.to_nat (e_num c)) inp in
    let c := with_buf c buf in
    if (j =? 8)%nat
    then let c := with_num (with_iv c (sub 8 8 buf)) 0 in
         let (c, o2) := cfb_main c rest in (c, o1 ++ o2)
    else (with_num c (N.of_nat j), o1).

(** * Counter mode (CNT) *)

(** The loop gost_crypt.c:1029-1032. *)
Fixpoint ks_partial (buf : list N) (bs j : nat) (inp : list N) : nat * list N * list N :=
  match inp with
  | nil => (j, nil, nil)
  | x :: t =>
      if (j <? bs)%nat then
        let '(j', rest, out) := ks_partial buf bs (S j) t in
        (j', rest, N.lxor (nth j buf 0) x :: out)
      else (j, inp, nil)
  end.
(** gost_crypt.c:1041-1056. *)
Fixpoint cnt_blocks (fuel : nat) (c : evp) (inp : list N) : evp * list N * list N :=
  match fuel with
  | O => (c, inp, nil)
  | S fuel' =>
      if (8 <=? length inp)%nat then
        let c := gost_cnt_next c in
        let o := xorl (firstn 8 (e_buf c)) (firstn 8 inp) in
        let '(c, rest, out) := cnt_blocks fuel' c (skipn 8 inp) in
        (c, rest, o ++ out)
      else (c, inp, nil)
  end.
(** gost_crypt.c:1057-1066. *)
Definition cnt_rest (c : evp) (inp : list N) : evp * list N :=
  match inp with
  | nil => (with_num c 0, nil)
  | _ =>
      let c := gost_cnt_next c in
      (with_num c (N.of_nat (length inp)), xorl (firstn (length inp) (e_buf c)) inp)
  end.
Definition cnt_main (c : evp) (inp : list N) : evp * list N :=
  let '(c, rest, o1) := cnt_blocks (length inp) c inp in
  let (c, o2) := cnt_rest c rest in (c, o1 ++ o2).
(** gost_crypt.c:1018-1068 [gost_cipher_do_cnt]. *)
Definition gost_cipher_do_cnt (c : evp) (inp : list N) : evp * list N :=
  if e_num c =? 0 then cnt_main c inp
  else
    let '(j, rest, o1) := ks_partial (e_buf c) 8 (N.to_nat (e_num c)) inp in
    if (j =? 8)%nat
    then let (c, o2) := cnt_main (with_num c 0) rest in (c, o1 ++ o2)
    else (with_num c (N.of_nat j), o1).

(** * CBC and ECB (whole blocks: OpenSSL's EVP layer only passes multiples of the block size;
      the C loop [while (inl > 0) inl -= 8] would otherwise run past the buffer) *)

(** The loops gost_crypt.c:716-726 / 779-789 (encryption with the block function [E]) and
    728-739 / 791-801 (decryption with [D]), on the list of blocks. *)
Fixpoint cbc_enc_blocks (E : list N -> list N) (iv : list N) (bl : list (list N)) : list N * list N :=
  match bl with
  | nil => (iv, nil)
  | b :: t => let o := E (xorl iv b) in
              let (iv', out) := cbc_enc_blocks E o t in (iv', o ++ out)
  end.
Fixpoint cbc_dec_blocks (D : list N -> list N) (iv : list N) (bl : list (list N)) : list N * list N :=
  match bl with
  | nil => (iv, nil)
  | b :: t => let o := xorl iv (D b) in
              let (iv', out) := cbc_dec_blocks D b t in (iv', o ++ out)
  end.
(** gost_crypt.c:706-742 [gost_cipher_do_cbc]. *)
Definition gost_cipher_do_cbc (c : evp) (inp : list N) : evp * list N :=
  let (iv, out) := if e_enc c then cbc_enc_blocks (gostcrypt (e_g c)) (e_iv c) (blocks 8 inp)
                   else cbc_dec_blocks (gostdecrypt (e_g c)) (e_iv c) (blocks 8 inp) in
  (with_iv c iv, out).
(** gost_crypt.c:768-804 [magma_cipher_do_cbc]. *)
Definition magma_cipher_do_cbc (c : evp) (inp : list N) : evp * list N :=
  let (iv, out) := if e_enc c then cbc_enc_blocks (magmacrypt (e_g c)) (e_iv c) (blocks 8 inp)
                   else cbc_dec_blocks (magmadecrypt (e_g c)) (e_iv c) (blocks 8 inp) in
  (with_iv c iv, out).
(** gost_crypt.c:745-765 [magma_cipher_do_ecb]. *)
Definition magma_cipher_do_ecb (c : evp) (inp : list N) : evp * list N :=
  (c, flat_map ((if e_enc c then magmacrypt else magmadecrypt) (e_g c)) (blocks 8 inp)).

(** * Magma CTR *)

(** gost_grasshopper_cipher.c:581-594 [inc_counter], called by gost_crypt.c:807-810 [ctr64_inc]: from the last byte, add one while the byte wraps. *)
Fixpoint inc_le (l : list N) : list N :=
  match l with
  | nil => nil
  | b :: t => let b' := w8 (b + 1) in if b' =? 0 then 0 :: inc_le t else b' :: t
  end.
Definition inc_counter (l : list N) : list N := rev (inc_le (rev l)).

(** gost_crypt.c:814-821 [apply_acpkm_magma]. *)
Definition apply_acpkm_magma (c : evp) : evp :=
  if (e_mesh c =? 0) || (e_num c <? e_mesh c) then c
  else with_num (with_g c (acpkm_magma_key_meshing (e_g c))) (N.land (e_num c) 7).
(** The steps 845-851 and 860-866 common to whole and last blocks. *)
Definition magma_ctr_block (c : evp) : evp :=
  let c := apply_acpkm_magma c in
  let c := with_buf c (overwrite (e_buf c) 0 (magmacrypt (e_g c) (e_iv c))) in
  let c := with_iv c (inc_counter (e_iv c)) in
  with_count c (w32 (e_count c + 8)).
(** gost_crypt.c:836-840. *)
Fixpoint magma_ctr_partial (c : evp) (inp : list N) : evp * list N * list N :=
  match inp with
  | nil => (c, nil, nil)
  | x :: t =>
      if N.land (e_num c) 7 =? 0 then (c, inp, nil)
      else
        let o := N.lxor x (nth (N.to_nat (N.land (e_num c) 7)) (e_buf c) 0) in
        let '(c, rest, out) := magma_ctr_partial (with_num c (w32 (e_num c + 1))) t in
        (c, rest, o :: out)
  end.
(** gost_crypt.c:841-856. *)
Fixpoint magma_ctr_blocks (fuel : nat) (c : evp) (inp : list N) : evp * list N * list N :=
  match fuel with
  | O => (c, inp, nil)
  | S fuel' =>
      if (8 <=? length inp)%nat then
        let c := magma_ctr_block c in
        let o := xorl (firstn 8 (e_buf c)) (firstn 8 inp) in
        let c := with_num c (w32 (e_num c + 8)) in
        let '(c, rest, out) := magma_ctr_blocks fuel' c (skipn 8 inp) in
        (c, rest, o ++ out)
      else (c, inp, nil)
  end.
(** gost_crypt.c:824-872 [magma_cipher_do_ctr]. *)
Definition magma_cipher_do_ctr (c : evp) (inp : list N) : evp * list N :=
  let '(c, inp, o1) := magma_ctr_partial c inp in
  let '(c, rest, o2) := magma_ctr_blocks (length inp) c inp in
  match rest with
  | nil => (c, o1 ++ o2)
  | _ =>
      let c := magma_ctr_block c in
      let o3 := xorl (firstn (length rest) (e_buf c)) rest in
      (with_num c (w32 (e_num c + N.of_nat (length rest))), o1 ++ o2 ++ o3)
  end.

(** * Control functions *)

(** gost_crypt.c:1212-1227 and 1267-1282, EVP_CTRL_KEY_MESH: return code and new context
    ([arg] as an unsigned value). *)
Definition ctl_key_mesh (c : evp) (arg : N) : Z * evp :=
  if negb (e_count c =? 0) then ((-1)%Z, c) else (1%Z, with_mesh c arg).
(** gost_crypt.c:1184-1211, EVP_CTRL_SET_SBOX with a known name. *)
Definition ctl_set_sbox (c : evp) (sb : subst_block) : Z * evp :=
  if negb (e_count c =? 0) then ((-1)%Z, c)
  else (1%Z, with_mesh (gost_cipher_set_param c sb) (e_mesh c)).

(** gost_crypt.c:1236-1254 [decrement_sequence]: the loop from byte 7 down. *)
Fixpoint dec_le (l : list N) : list N :=
  match l with
  | nil => nil
  | b :: t => if b =? 0 then 255 :: dec_le t else (b - 1) :: t
  end.
Definition decrement_sequence (seq : list N) (decrement : Z) : option (list N) :=
  if ((decrement <? 0) || (1 <? decrement))%Z then None
  else Some (if (decrement =? 0)%Z then seq else rev (dec_le (rev seq))).
(** gost_crypt.c:1317-1322 (and gost_grasshopper_cipher.c, the same loop on 8 bytes): addition
    with carry from the last byte. *)
Fixpoint add_le (a b : list N) (carry : N) : list N :=
  match a, b with
  | x :: a', y :: b' =>
      let adj := x + y + carry in
      N.land adj 255 :: add_le a' b' (if 255 <? adj then 1 else 0)
  | _, _ => nil
  end.
Definition adjust_iv (iv seq : list N) : list N := rev (add_le (rev iv) (rev seq) 0).

(** * The imit digest *)

(** struct ossl_gost_imit_ctx, gost_lcl.h:226-236; [i_abort] is the ghost assertion flag. *)
Record imit := mk_imit {
  i_g : gost_ctx; i_buffer : list N; i_partial : list N; i_count : N; i_mesh : N;
  i_left : nat; i_keyset : bool; i_size : N; i_abort : bool
}.
(** gost_crypt.c:1487-1498 [gost_imit_init]: key_set is not touched. *)
Definition gost_imit_init (c : imit) (sb : subst_block) : imit :=
  mk_imit (gost_init (i_g c) sb) (zeros 8) (zeros 8) 0 1 0 (i_keyset c) 4 (i_abort c).
(** gost_crypt.c:1510-1524 [mac_block_mesh]. *)
Definition mac_block_mesh (c : imit) (data : list N) : imit :=
  let g := if negb (i_mesh c =? 0) && (i_count c =? 1024) then cryptopro_key_meshing_noiv (i_g c) else i_g c in
  mk_imit g (mac_block g (i_buffer c) data) (i_partial c) (i_count c mod 1024 + 8) (i_mesh c)
    (i_left c) (i_keyset c) (i_size c) (i_abort c || negb (assert_count (i_count c))).
Definition i_with_partial c p := mk_imit (i_g c) (i_buffer c) p (i_count c) (i_mesh c) (i_left c) (i_keyset c) (i_size c) (i_abort c).
Definition i_with_left c n := mk_imit (i_g c) (i_buffer c) (i_partial c) (i_count c) (i_mesh c) n (i_keyset c) (i_size c) (i_abort c).
Definition i_with_size c n := mk_imit (i_g c) (i_buffer c) (i_partial c) (i_count c) (i_mesh c) (i_left c) (i_keyset c) n (i_abort c).
Definition i_with_key c g := mk_imit g (i_buffer c) (i_partial c) (i_count c) (i_mesh c) (i_left c) true (i_size c) (i_abort c).
(** gost_crypt.c:1537-1539. *)
Fixpoint imit_fill (p : list N) (i : nat) (data : list N) : list N * nat * list N :=
  match data with
  | nil => (p, i, nil)
  | x :: t => if (i <? 8)%nat then imit_fill (set p i x) (S i) t else (p, i, data)
  end.
(** gost_crypt.c:1547-1551: strictly more than 8 bytes. *)
Fixpoint imit_loop (fuel : nat) (c : imit) (data : list N) : imit * list N :=
  match fuel with
  | O => (c, data)
  | S fuel' => if (8 <? length data)%nat then imit_loop fuel' (mac_block_mesh c (firstn 8 data)) (skipn 8 data)
               else (c, data)
  end.
Definition imit_tail (c : imit) (data : list N) : imit :=
  let (c, rest) := imit_loop (length data) c data in
  i_with_left (i_with_partial c (overwrite (i_partial c) 0 rest)) (length rest).
(** gost_crypt.c:1526-1557 [gost_imit_update]: None is the return value 0. *)
Definition gost_imit_update (c : imit) (data : list N) : option imit :=
  if negb (i_keyset c) then None
  else Some
    (if (i_left c =? 0)%nat then imit_tail c data
     else
       let '(p, i, rest) := imit_fill (i_partial c) (i_left c) data in
       let c := i_with_partial c p in
       if (i =? 8)%nat then imit_tail (mac_block_mesh c p) rest
       else i_with_left c i).
(** gost_crypt.c:1559-1580 [gost_imit_final]. *)
Definition gost_imit_final (c : imit) : option (imit * list N) :=
  if negb (i_keyset c) then None
  else
    let c := if (i_count c =? 0) && negb (i_left c =? 0)%nat
             then match gost_imit_update c (zeros 8) with Some c' => c' | None => c end
             else c in
    let c := if (i_left c =? 0)%nat then c
             else let p := overwrite (i_partial c) (i_left c) (zeros (8 - i_left c)) in
                  mac_block_mesh (i_with_partial c p) p in
    Some (c, get_mac (i_buffer c) (8 * i_size c)).
(** gost_crypt.c:1582-1636 [gost_imit_ctrl].  SET_KEY with a raw 32-byte key (arg = 32), with a
    [struct gost_mac_key] (arg = 0: optional parameter set and key), or another length; the
    method's init function resets the context first.  XOF_LEN sets the tag size. *)
Inductive imit_key := RawKey (k : list N) (arg : Z) | MacKey (sb : option (option subst_block)) (k : list N).
Definition gost_imit_set_key (init_sb : subst_block) (c : imit) (a : imit_key) : Z * imit :=
  let c := gost_imit_init c init_sb in
  match a with
  | MacKey None k => (1%Z, i_with_key c (gost_key (i_g c) k))
  | MacKey (Some None) k => (0%Z, c)                              (* unknown parameter set *)
  | MacKey (Some (Some sb)) k => (1%Z, i_with_key c (gost_key (gost_init (i_g c) sb) k))
  | RawKey k arg => if (arg =? 32)%Z then (1%Z, i_with_key c (gost_key (i_g c) k)) else (0%Z, c)
  end.
Definition gost_imit_xof_len (c : imit) (arg : Z) : Z * imit :=
  if ((arg <? 1) || (8 <? arg))%Z then (0%Z, c) else (1%Z, i_with_size c (Z.to_N arg)).

Arguments gost_crypt_mesh : simpl never.
Arguments gost_cnt_next : simpl never.
Arguments magma_ctr_block : simpl never.
Arguments mac_block_mesh : simpl never.
