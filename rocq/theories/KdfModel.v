(** Model of gost_keyexpimp.c:17-28 and 197-313 ([gost_kdftree2012_256], [gost_tlstree]) and of the
    TLSTREE control calls of the CTR ciphers (gost_crypt.c:1283-1330,
    gost_grasshopper_cipher.c:1115-1164).

    The HMAC_* functions are OpenSSL's; they are modelled by RFC 2104 as OpenSSL computes it, calling the
    engine's own digest md_gost12_256 (block size 64, gost_md2012.c), here [hash2012] of PropStreebog,
    i.e. init, one update per chunk, final, of StreebogModel.  Allocation failures are not modelled. *)
From Coq Require Import String.
From Verif Require Import Bytes Gost89Model StreebogTables StreebogModel CryptModel KuzModel KuzCipherModel PropStreebog.

(** The build: variant of the hash code and whether the host is little-endian (L_ENDIAN). *)
Record host := mk_host { h_bd : build; h_ac : bool; h_le : bool }.

(** gost_keyexpimp.c:17-27 [be32] *)
Definition be32 (le : bool) (v : N) : N :=
  if le then
    N.lor (N.lor (N.lor (N.shiftr (N.land v 0xff000000) 24) (N.shiftr (N.land v 0x00ff0000) 8))
                 (w32 (N.shiftl (N.land v 0x0000ff00) 8)))
          (w32 (N.shiftl (N.land v 0x000000ff) 24))
  else v.
(** The bytes of an integer object of [n] bytes in memory. *)
Definition mem (le : bool) (n : nat) (v : N) : list N := if le then n2le n v else n2be n v.

(** OpenSSL HMAC_Init_ex, HMAC_Update for every chunk, HMAC_Final with the digest md_gost12_256. *)
Definition md256 (h : host) (chunks : list (list N)) : list N := hash2012 (h_bd h) (h_ac h) 256 chunks.
Definition hmac_pad (h : host) (key : list N) : list N :=
  let k := if (64 <? length key)%nat then md256 h [key] else key in k ++ zeros (64 - length k).
Definition HMAC (h : host) (key : list N) (chunks : list (list N)) : list N :=
  let k := hmac_pad h key in
  md256 h [xorl k (repeat 0x5c 64); md256 h (xorl k (repeat 0x36 64) :: chunks)].

(** gost_keyexpimp.c:225-228: leading zero bytes are skipped.  When all four are zero the C loop reads
    past the object: [None]. *)
Fixpoint strip_zeros (l : list N) : option (list N) :=
  match l with
  | nil => None
  | b :: t => if b =? 0 then strip_zeros t else Some l
  end.
(** :231-250, one iteration: the counter is the last [representation] bytes of [be32(i)]. *)
Definition kdf_block (h : host) (key label seed len_bytes : list N) (representation : nat) (i : N) : list N :=
  HMAC h key [skipn (4 - representation) (mem (h_le h) 4 (be32 (h_le h) (w32 i))); label; [0]; seed; len_bytes].
(** :222 [iters = keyout_len / 32] as an int. *)
Definition to_int (x : N) : Z :=
  let y := Z.of_N (w32 x) in if (y <? 2 ^ 31)%Z then y else (y - 2 ^ 32)%Z.
(** Outcome: return value and the bytes written, or undefined behaviour. *)
Inductive kdf_result := Kdf_fail | Kdf_ok (out : list N) | Kdf_undefined.
(** gost_keyexpimp.c:197-257 [gost_kdftree2012_256].  A [representation] above 4 reads before the
    counter object. *)
Definition gost_kdftree2012_256 (h : host) (keyout_len : N) (key label seed : list N) (representation : nat) : kdf_result :=
  if (keyout_len =? 0) || negb (keyout_len mod 32 =? 0) then Kdf_fail
  else
    let iters := to_int (keyout_len / 32) in
    match strip_zeros (mem (h_le h) 4 (be32 (h_le h) (w32 (keyout_len * 8)))) with
    | None => Kdf_undefined
    | Some len_bytes =>
        if (4 <? representation)%nat then Kdf_undefined
        else Kdf_ok (concat (map (fun i => kdf_block h key label seed len_bytes representation (N.of_nat i))
                                 (seq 1 (Z.to_nat iters))))
    end.

(** The cipher nids the callers pass. *)
Inductive cipher_nid := NID_magma_cbc | NID_grasshopper_cbc | NID_other.
(** gost_keyexpimp.c:262-265 and 271-285. *)
Definition tlstree_masks (nid : cipher_nid) : option (N * N * N) :=
  match nid with
  | NID_magma_cbc => Some (0x00000000C0FFFFFF, 0x000000FEFFFFFFFF, 0x00F0FFFFFFFFFFFF)
  | NID_grasshopper_cbc => Some (0x00000000FFFFFFFF, 0x0000F8FFFFFFFFFF, 0xC0FFFFFFFFFFFFFF)
  | NID_other => None
  end.
(** :286-290: on a little-endian host memcpy; otherwise BUF_reverse, then read as big-endian. *)
Definition tlstree_seq (le : bool) (tlsseq : list N) : N := if le then le2n tlsseq else be2n (rev tlsseq).
Definition level (h : host) (key : list N) (label : string) (seed : N) : option (list N) :=
  match gost_kdftree2012_256 h 32 key (ascii_bytes label) (mem (h_le h) 8 seed) 1 with
  | Kdf_ok o => Some o
  | _ => None
  end.
(** gost_keyexpimp.c:259-306 [gost_tlstree]: [None] is the return value 0. *)
Definition gost_tlstree (h : host) (nid : cipher_nid) (key tlsseq : list N) : option (list N) :=
  match tlstree_masks nid with
  | None => None
  | Some (c1, c2, c3) =>
      let seq := tlstree_seq (h_le h) tlsseq in
      match level h (firstn 32 key) "level1" (N.land seq c1) with
      | None => None
      | Some ko1 =>
          match level h ko1 "level2" (N.land seq c2) with
          | None => None
          | Some ko2 => level h ko2 "level3" (N.land seq c3)
          end
      end
  end.

(** gost_crypt.c:1283-1330, EVP_CTRL_TLSTREE of the Magma ciphers; [ctr_mode] is
    EVP_CIPHER_CTX_mode(ctx) == EVP_CIPH_CTR_MODE. *)
Definition magma_ctl_tlstree (h : host) (ctr_mode : bool) (c : evp) (arg : Z) (ptr : list N) : Z * evp :=
  if negb ctr_mode then ((-1)%Z, c)
  else match decrement_sequence (firstn 8 ptr) arg with
       | None => ((-1)%Z, c)
       | Some seq =>
           match gost_tlstree h NID_magma_cbc (g_master (e_g c)) seq with
           | None => ((-1)%Z, c)
           | Some newkey =>
               let adjusted_iv := adjust_iv (firstn 4 (e_oiv c)) (skipn 4 seq) ++ zeros 4 in
               let c := with_iv (with_num c 0) (overwrite (e_iv c) 0 adjusted_iv) in
               (1%Z, with_g c (magma_key (e_g c) newkey))
           end
       end.
(** gost_grasshopper_cipher.c:1115-1164, the same of the Kuznyechik ciphers. *)
Definition kuz_ctl_tlstree (h : host) (ctr_mode : bool) (c : kctx) (arg : Z) (ptr : list N) : Z * kctx :=
  if negb ctr_mode then ((-1)%Z, c)
  else match decrement_sequence (firstn 8 ptr) arg with
       | None => ((-1)%Z, c)
       | Some seq =>
           match gost_tlstree h NID_grasshopper_cbc (k_master c) seq with
           | None => ((-1)%Z, c)
           | Some newkey =>
               let adjusted_iv := adjust_iv (firstn 8 (k_oiv c)) seq ++ zeros 8 in
               let c := kw_iv (kw_num c 0) (overwrite (k_iv c) 0 adjusted_iv) in
               (1%Z, gost_grasshopper_cipher_key c newkey)
           end
       end.
