(** Model of the Kuznyechik EVP ciphers of gost_grasshopper_cipher.c (kuznyechik-ecb, -cbc, -ofb,
    -cfb, -ctr, -ctr-acpkm).

    [kctx] holds the fields of [gost_grasshopper_cipher_ctx] and [gost_grasshopper_cipher_ctx_ctr]
    (gost_grasshopper_cipher.h:22-40) and the parts of EVP_CIPHER_CTX used through accessors.
    Not in the record: [type] (each cipher is a separate function here), the scratch [buffer] (always
    written before it is read, inside the block functions), [kdf_seed], [tag] and [omac_ctx]. *)
From Verif Require Import Bytes KuzTables KuzModel CryptModel.

Record kctx := mk_kctx {
  k_ek : list (list N);     (* encrypt_round_keys *)
  k_dk : list (list N);     (* decrypt_round_keys *)
  k_key : list N;           (* key *)
  k_master : list N;        (* master_key *)
  k_part : list N;          (* partial_buffer *)
  k_sect : N;               (* section_size *)
  k_oiv : list N;           (* original iv, EVP_MAX_IV_LENGTH = 16 bytes *)
  k_iv : list N;            (* iv, 16 bytes *)
  k_buf : list N;           (* buf, 32 bytes *)
  k_num : N;
  k_enc : bool              (* encrypting *)
}.
Definition kw_keys c ek dk key := mk_kctx ek dk key (k_master c) (k_part c) (k_sect c) (k_oiv c) (k_iv c) (k_buf c) (k_num c) (k_enc c).
Definition kw_master c m := mk_kctx (k_ek c) (k_dk c) (k_key c) m (k_part c) (k_sect c) (k_oiv c) (k_iv c) (k_buf c) (k_num c) (k_enc c).
Definition kw_part c p := mk_kctx (k_ek c) (k_dk c) (k_key c) (k_master c) p (k_sect c) (k_oiv c) (k_iv c) (k_buf c) (k_num c) (k_enc c).
Definition kw_sect c s := mk_kctx (k_ek c) (k_dk c) (k_key c) (k_master c) (k_part c) s (k_oiv c) (k_iv c) (k_buf c) (k_num c) (k_enc c).
Definition kw_oiv c v := mk_kctx (k_ek c) (k_dk c) (k_key c) (k_master c) (k_part c) (k_sect c) v (k_iv c) (k_buf c) (k_num c) (k_enc c).
Definition kw_iv c v := mk_kctx (k_ek c) (k_dk c) (k_key c) (k_master c) (k_part c) (k_sect c) (k_oiv c) v (k_buf c) (k_num c) (k_enc c).
Definition kw_buf c b := mk_kctx (k_ek c) (k_dk c) (k_key c) (k_master c) (k_part c) (k_sect c) (k_oiv c) (k_iv c) b (k_num c) (k_enc c).
Definition kw_num c n := mk_kctx (k_ek c) (k_dk c) (k_key c) (k_master c) (k_part c) (k_sect c) (k_oiv c) (k_iv c) (k_buf c) n (k_enc c).
Definition kw_enc c e := mk_kctx (k_ek c) (k_dk c) (k_key c) (k_master c) (k_part c) (k_sect c) (k_oiv c) (k_iv c) (k_buf c) (k_num c) e.

(** A context as allocated (zeroed memory). *)
Definition kctx0 : kctx :=
  mk_kctx (repeat (zeros 16) 10) (repeat (zeros 16) 10) (zeros 32) (zeros 32) (zeros 16) 0
          (zeros 16) (zeros 16) (zeros 32) 0 true.

(** gost_grasshopper_cipher.c:181-192 [gost_grasshopper_cipher_key] *)
Definition gost_grasshopper_cipher_key (c : kctx) (k : list N) : kctx :=
  let key := sub 0 32 k in
  kw_keys c (grasshopper_set_encrypt_key (k_ek c) key) (grasshopper_set_decrypt_key (k_dk c) key) key.
(** gost_grasshopper_cipher.c:195-203 *)
Definition gost_grasshopper_master_key (c : kctx) (k : list N) : kctx := kw_master c (sub 0 32 k).

(** gost_grasshopper_cipher.c:155-160 *)
Definition ACPKM_D_2018 : list N :=
  [0x80; 0x81; 0x82; 0x83; 0x84; 0x85; 0x86; 0x87; 0x88; 0x89; 0x8a; 0x8b; 0x8c; 0x8d; 0x8e; 0x8f;
   0x90; 0x91; 0x92; 0x93; 0x94; 0x95; 0x96; 0x97; 0x98; 0x99; 0x9a; 0x9b; 0x9c; 0x9d; 0x9e; 0x9f].
(** gost_grasshopper_cipher.c:162-178 [acpkm_next] *)
Definition acpkm_next (c : kctx) : kctx :=
  gost_grasshopper_cipher_key c
    (grasshopper_encrypt_block (k_ek c) (sub 0 16 ACPKM_D_2018) ++
     grasshopper_encrypt_block (k_ek c) (sub 16 16 ACPKM_D_2018)).

(** gost_grasshopper_cipher.c:235-266 [gost_grasshopper_cipher_init]; [ivlen] is the cipher's
    iv_len (0 for ECB, 8 for the CTR ciphers, 16 otherwise).  OpenSSL has stored the direction before the
    call; the kdf_seed of CTR-ACPKM (243-247) is not modelled. *)
Definition gost_grasshopper_cipher_init (ivlen : nat) (c : kctx) (key iv : option (list N)) (enc : bool) : kctx :=
  let c := kw_enc c enc in
  let c := match key with
           | Some k => gost_grasshopper_master_key (gost_grasshopper_cipher_key c k) k
           | None => c
           end in
  let c := match iv with
           | Some v => kw_oiv c (overwrite (k_oiv c) 0 (firstn ivlen v))
           | None => c
           end in
  kw_iv c (overwrite (k_iv c) 0 (firstn ivlen (k_oiv c))).
(** :268-306 *)
Definition init_ecb := gost_grasshopper_cipher_init 0.
Definition init_cbc := gost_grasshopper_cipher_init 16.
Definition init_ofb := gost_grasshopper_cipher_init 16.
Definition init_cfb := gost_grasshopper_cipher_init 16.
(** :308-321 *)
Definition init_ctr (c : kctx) := gost_grasshopper_cipher_init 8 (kw_part (kw_num c 0) (zeros 16)).
(** :323-337 *)
Definition init_ctracpkm (c : kctx) := gost_grasshopper_cipher_init 8 (kw_sect (kw_num c 0) 4096).

(** A C loop which processes a block of [bs] bytes while at least [bound] bytes are left. *)
Fixpoint block_loop {C} (step : C -> list N -> C * list N) (bs bound fuel : nat) (c : C) (inp : list N)
  : C * list N * list N :=
  match fuel with
  | O => (c, inp, nil)
  | S fuel =>
      if (bound <=? length inp)%nat then
        let (c, o) := step c (firstn bs inp) in
        let '(c, rest, out) := block_loop step bs bound fuel c (skipn bs inp) in
        (c, rest, o ++ out)
      else (c, inp, nil)
  end.

(** * ECB and CBC (whole blocks) *)
(** gost_grasshopper_cipher.c:511-539 *)
Definition do_ecb (c : kctx) (inp : list N) : kctx * list N :=
  let '(c, _, out) :=
    block_loop (fun c b => (c, if k_enc c then grasshopper_encrypt_block (k_ek c) b
                               else grasshopper_decrypt_block (k_dk c) b)) 16 16 (length inp) c inp in
  (c, out).
(** gost_grasshopper_cipher.c:541-579; the loop body 561-575. *)
Definition cbc_step (c : kctx) (b : list N) : kctx * list N :=
  if k_enc c then
    let o := grasshopper_encrypt_block (k_ek c) (append128 (k_iv c) b) in (kw_iv c o, o)
  else
    let o := append128 (grasshopper_decrypt_block (k_dk c) b) (k_iv c) in (kw_iv c b, o).
Definition do_cbc (c : kctx) (inp : list N) : kctx * list N :=
  let '(c, _, out) := block_loop cbc_step 16 16 (length inp) c inp in (c, out).

(** * OFB *)
(** gost_grasshopper_cipher.c:806-815 [gost_grasshopper_cnt_next]: buf := E(iv); iv := buf. *)
Definition cnt_next16 (c : kctx) : kctx :=
  let y := grasshopper_encrypt_block (k_ek c) (k_iv c) in
  kw_iv (kw_buf c (overwrite (k_buf c) 0 y)) y.
(** :852-863 *)
Definition ofb_step (c : kctx) (b : list N) : kctx * list N :=
  let c := cnt_next16 c in (c, xorl (firstn 16 (k_buf c)) b).
(** :844-876 (the loop runs while more than a block is left). *)
Definition ofb_main (c : kctx) (inp : list N) : kctx * list N :=
  let '(c, rest, o1) := block_loop ofb_step 16 17 (length inp) c inp in
  match rest with
  | nil => (kw_num c 0, o1)
  | _ => let c := cnt_next16 c in
         (kw_num c (N.of_nat (length rest)), o1 ++ xorl (firstn (length rest) (k_buf c)) rest)
  end.
(** :817-879 [gost_grasshopper_cipher_do_ofb] *)
Definition do_ofb (c : kctx) (inp : list N) : kctx * list N :=
  if k_num c =? 0 then ofb_main c inp
  else
    let '(j, rest, o1) := ks_partial (k_buf c) 16 (N.to_nat (k_num c)) inp in
    if (j =? 16)%nat then let (c, o2) := ofb_main (kw_num c 0) rest in (c, o1 ++ o2)
    else (kw_num c (N.of_nat j), o1).

(** * CFB *)
(** :897-906 *)
Fixpoint cfb_partial16 (enc : bool) (buf : list N) (j : nat) (inp : list N) : list N * nat * list N * list N :=
  match inp with
  | nil => (buf, j, nil, nil)
  | x :: t =>
      if (j <? 16)%nat then
        let buf1 := if enc then buf else set buf (j + 16) x in
        let o := N.lxor (nth j buf1 0) x in
        let buf2 := if enc then set buf1 (j + 16) o else buf1 in
        let '(b, j', rest, out) := cfb_partial16 enc buf2 (S j) t in
        (b, j', rest, o :: out)
      else (buf, j, inp, nil)
  end.
(** :923-942 *)
Definition cfb_step (c : kctx) (b : list N) : kctx * list N :=
  let c := kw_buf c (overwrite (k_buf c) 0 (grasshopper_encrypt_block (k_ek c) (k_iv c))) in
  let c := if k_enc c then c else kw_iv c b in
  let o := xorl (firstn 16 (k_buf c)) b in
  (if k_enc c then kw_iv c o else c, o).
(** :946-962 *)
Definition cfb_last (c : kctx) (rest : list N) : kctx * list N :=
  match rest with
  | nil => (kw_num c 0, nil)
  | _ =>
      let c := kw_buf c (overwrite (k_buf c) 0 (grasshopper_encrypt_block (k_ek c) (k_iv c))) in
      let c := if k_enc c then c else kw_buf c (overwrite (k_buf c) 16 rest) in
      let o := xorl (firstn (length rest) (k_buf c)) rest in
      let c := kw_num c (N.of_nat (length rest)) in
      (if k_enc c then kw_buf c (overwrite (k_buf c) 16 o) else c, o)
  end.
Definition cfb_main16 (c : kctx) (inp : list N) : kctx * list N :=
  let '(c, rest, o1) := block_loop cfb_step 16 17 (length inp) c inp in
  let (c, o2) := cfb_last c rest in (c, o1 ++ o2).
(** :881-965 [gost_grasshopper_cipher_do_cfb] *)
Definition do_cfb (c : kctx) (inp : list N) : kctx * list N :=
  if k_num c =? 0 then cfb_main16 c inp
  else
    let '(buf, j, rest, o1) := cfb_partial16 (k_enc c) (k_buf c) (N.to_nat (k_num c)) inp in
    let c := kw_buf c buf in
    if (j =? 16)%nat then
      let c := kw_num (kw_iv c (sub 16 16 buf)) 0 in
      let (c, o2) := cfb_main16 c rest in (c, o1 ++ o2)
    else (kw_num c (N.of_nat j), o1).

(** * CTR *)
(** :633-637: partial_buffer := E(iv); output; increment of the 128-bit counter. *)
Definition ctr_block16 (c : kctx) : kctx :=
  let c := kw_part c (grasshopper_encrypt_block (k_ek c) (k_iv c)) in
  kw_iv c (inc_counter (k_iv c)).
Definition ctr_step (c : kctx) (b : list N) : kctx * list N :=
  let c := ctr_block16 c in (c, xorl (k_part c) b).
(** :619-623 *)
Fixpoint ctr_partial16 (part : list N) (n : nat) (inp : list N) : nat * list N * list N :=
  match inp with
  | nil => (n, nil, nil)
  | x :: t =>
      if (n =? 0)%nat then (n, inp, nil)
      else let '(n', rest, out) := ctr_partial16 part (Nat.modulo (n + 1) 16) t in
           (n', rest, N.lxor x (nth n part 0) :: out)
  end.
(** :602-657 [gost_grasshopper_cipher_do_ctr] *)
Definition do_ctr (c : kctx) (inp : list N) : kctx * list N :=
  let '(n, inp, o1) := ctr_partial16 (k_part c) (N.to_nat (k_num c)) inp in
  let c := kw_num c (N.of_nat n) in
  let '(c, rest, o2) := block_loop ctr_step 16 16 (length inp) c inp in
  match rest with
  | nil => (c, o1 ++ o2)
  | _ => let c := ctr_block16 c in
         (kw_num c (N.of_nat (length rest)), o1 ++ o2 ++ xorl (firstn (length rest) (k_part c)) rest)
  end.

(** * CTR-ACPKM *)
(** :659-667 [apply_acpkm_grasshopper] with num kept in the context. *)
Definition apply_acpkm_grasshopper (c : kctx) : kctx :=
  if (k_sect c =? 0) || (k_num c <? k_sect c) then c
  else kw_num (acpkm_next c) (N.land (k_num c) 15).
(** :691-703 *)
Definition acpkm_step (c : kctx) (b : list N) : kctx * list N :=
  let c := ctr_block16 (apply_acpkm_grasshopper c) in
  (kw_num c (w32 (k_num c + 16)), xorl (k_part c) b).
(** :682-686 *)
Fixpoint acpkm_partial (c : kctx) (inp : list N) : kctx * list N * list N :=
  match inp with
  | nil => (c, nil, nil)
  | x :: t =>
      if N.land (k_num c) 15 =? 0 then (c, inp, nil)
      else
        let o := N.lxor x (nth (N.to_nat (N.land (k_num c) 15)) (k_part c) 0) in
        let '(c, rest, out) := acpkm_partial (kw_num c (w32 (k_num c + 1))) t in
        (c, rest, o :: out)
  end.
(** :671-720 [gost_grasshopper_cipher_do_ctracpkm] *)
Definition do_ctracpkm (c : kctx) (inp : list N) : kctx * list N :=
  let '(c, inp, o1) := acpkm_partial c inp in
  let '(c, rest, o2) := block_loop acpkm_step 16 16 (length inp) c inp in
  match rest with
  | nil => (c, o1 ++ o2)
  | _ => let c := ctr_block16 (apply_acpkm_grasshopper c) in
         (kw_num c (w32 (k_num c + N.of_nat (length rest))), o1 ++ o2 ++ xorl (firstn (length rest) (k_part c)) rest)
  end.

(** :1104-1114, EVP_CTRL_KEY_MESH for the ACPKM ciphers ([arg] is an int; it is stored as
    unsigned).  The C code falls through no further: it breaks and returns 1. *)
Definition kuz_ctl_key_mesh (c : kctx) (arg : Z) : Z * kctx :=
  if (arg =? 0)%Z || negb (Z.rem arg 16 =? 0)%Z then ((-1)%Z, c)
  else (1%Z, kw_sect c (Z.to_N (arg mod 4294967296))).

Arguments grasshopper_encrypt_block : simpl never.
Arguments grasshopper_decrypt_block : simpl never.
Arguments acpkm_next : simpl never.
