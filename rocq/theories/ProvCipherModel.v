(** Model of the provider's ciphers: gost_prov_cipher.c, with the EVP_CIPHER objects of gost_crypt.c and
    gost_grasshopper_cipher.c, the engine's cipher lookup (gost_eng.c) and the part of OpenSSL's EVP layer that the provider
    drives (evp_enc.c, the path for method objects: buffering and padding).  Any number of provider instances share the static
    descriptors. *)
From Coq Require Import ZArith NArith List Bool Lia.
From Verif Require Import Bytes Gost89Model Gost89Sboxes CryptModel KuzCipherModel PmethModel.
From Verif Require ProvDigestModel.
Import ListNotations.
Local Open Scope nat_scope.

Inductive alg := Gost89Cfb | Gost89Cnt | Gost89Cnt12 | Gost89Cbc | KuzEcb | KuzCbc | KuzCfb | KuzOfb | KuzCtr | MagmaCbc | MagmaCtr
  | MagmaCtrAcpkm | MagmaCtrAcpkmOmac | MagmaMgm | KuzCtrAcpkm | KuzCtrAcpkmOmac | KuzMgm.
Scheme Equality for alg.
(** The algorithms with an authentication tag; what their contexts do is modelled elsewhere (MgmModel.v, AeadModel.v). *)
Definition aead (a : alg) : bool :=
  match a with MagmaCtrAcpkmOmac | MagmaMgm | KuzCtrAcpkmOmac | KuzMgm => true | _ => false end.

(** * The descriptors *)
(** openssl/evp.h *)
Definition CIPH_ECB : N := 1.  Definition CIPH_CBC : N := 2.  Definition CIPH_CFB : N := 3.  Definition CIPH_OFB : N := 4.
Definition CIPH_CTR : N := 5.  Definition CIPH_WRAP : N := 0x10002.  Definition CIPH_MODE : N := 0xF0007.
Definition CUSTOM_IV : N := 0x10.  Definition ALWAYS_CALL_INIT : N := 0x20.  Definition CTRL_INIT : N := 0x40.
Definition NO_PADDING : N := 0x100.  Definition RAND_KEY : N := 0x200.  Definition CUSTOM_COPY : N := 0x400.
Definition CUSTOM_CIPHER : N := 0x100000.  Definition AEAD_CIPHER : N := 0x200000.  Definition CIPHER_WITH_MAC : N := 0x2000000.
Definition flags (l : list N) : N := fold_right N.lor 0%N l.
(** gost_lcl.h (GOST_cipher): block_size, key_len, iv_len, flags; 0 stands for a field that is not given *)
Record descr := mk_descr { d_block : N; d_key : N; d_iv : N; d_flags : N }.
(** gost_crypt.c:144-156, 195-206; gost_grasshopper_cipher.c:32-42 *)
Definition gost_template : descr := mk_descr 8 32 8 (flags [CUSTOM_IV; RAND_KEY; ALWAYS_CALL_INIT]).
Definition magma_template : descr := mk_descr 8 32 0 (flags [RAND_KEY; ALWAYS_CALL_INIT]).
Definition kuz_template : descr := mk_descr 16 32 0 (flags [RAND_KEY; ALWAYS_CALL_INIT]).
(** gost_crypt.c:158-193, 208-244, 255-268, 283-291; gost_grasshopper_cipher.c:44-144 *)
Definition desc (a : alg) : descr * descr :=
  match a with
  | Gost89Cfb => (mk_descr 1 0 0 (flags [CIPH_CFB; NO_PADDING]), gost_template)
  | Gost89Cbc => (mk_descr 0 0 0 CIPH_CBC, gost_template)
  | Gost89Cnt => (mk_descr 1 0 0 (flags [CIPH_OFB; NO_PADDING]), gost_template)
  | Gost89Cnt12 => (mk_descr 1 0 0 (flags [CIPH_OFB; NO_PADDING]), gost_template)
  | MagmaCtr => (mk_descr 1 0 4 (flags [CIPH_CTR; CUSTOM_IV; NO_PADDING]), magma_template)
  | MagmaCtrAcpkm => (mk_descr 1 0 4 (flags [CIPH_CTR; CUSTOM_IV; NO_PADDING]), magma_template)
  | MagmaCtrAcpkmOmac => (mk_descr 1 0 4 (flags [CIPH_CTR; CUSTOM_IV; NO_PADDING; CUSTOM_COPY; CUSTOM_CIPHER; CIPHER_WITH_MAC]), magma_template)
  | MagmaMgm => (mk_descr 1 0 8 (flags [NO_PADDING; CUSTOM_IV; CUSTOM_CIPHER; CTRL_INIT; AEAD_CIPHER]), magma_template)
  | MagmaCbc => (mk_descr 0 0 8 (flags [CIPH_CBC; CUSTOM_IV]), gost_template)
  | KuzEcb => (mk_descr 0 0 0 CIPH_ECB, kuz_template)
  | KuzCbc => (mk_descr 0 0 16 (flags [CIPH_CBC; CUSTOM_IV]), kuz_template)
  | KuzOfb => (mk_descr 1 0 16 (flags [CIPH_OFB; NO_PADDING; CUSTOM_IV]), kuz_template)
  | KuzCfb => (mk_descr 1 0 16 (flags [CIPH_CFB; NO_PADDING; CUSTOM_IV]), kuz_template)
  | KuzCtr => (mk_descr 1 0 8 (flags [CIPH_CTR; NO_PADDING; CUSTOM_IV]), kuz_template)
  | KuzCtrAcpkm => (mk_descr 1 0 8 (flags [CIPH_CTR; NO_PADDING; CUSTOM_IV]), kuz_template)
  | KuzCtrAcpkmOmac => (mk_descr 1 0 8 (flags [CIPH_CTR; NO_PADDING; CUSTOM_IV; CUSTOM_CIPHER; CIPHER_WITH_MAC; CUSTOM_COPY]), kuz_template)
  | KuzMgm => (mk_descr 1 0 16 (flags [NO_PADDING; CUSTOM_IV; CUSTOM_CIPHER; CTRL_INIT; AEAD_CIPHER]), kuz_template)
  end.
(** gost_crypt.c:83-89 TPL *)
Definition tpl (f : descr -> N) (a : alg) : N := let (d, t) := desc a in if (f d =? 0)%N then f t else f d.
(** gost_crypt.c:91-132 [GOST_init_cipher]: what the EVP_CIPHER says, and the assertions :98-115 *)
Definition block_size (a : alg) : N := tpl d_block a.
Definition key_length (a : alg) : N := tpl d_key a.
Definition iv_length (a : alg) : N := tpl d_iv a.
Definition all_flags (a : alg) : N := let (d, t) := desc a in N.lor (d_flags d) (d_flags t).
Definition has (a : alg) (f : N) : bool := negb (N.land (all_flags a) f =? 0)%N.
Definition mode (a : alg) : N := N.land (all_flags a) CIPH_MODE.
Definition assertions (a : alg) : bool :=
  (if ((mode a =? CIPH_CBC) || (mode a =? CIPH_ECB) || (mode a =? CIPH_WRAP))%N
   then negb (block_size a =? 1)%N && negb (has a NO_PADDING)
   else (block_size a =? 1)%N && has a NO_PADDING) &&
  (if (iv_length a =? 0)%N then negb (has a CUSTOM_IV) else has a CUSTOM_IV).
Definition bsize (a : alg) : nat := N.to_nat (block_size a).

(** * Numeric identifiers *)
(** openssl/obj_mac.h; the two MGM ciphers get new numbers when an instance is loaded (gost_eng.c:344-365 [create_NIDs]).
    [n]: the instances loaded so far; numbers from [NUM_NID] on are new. *)
Definition NUM_NID : N := 1248.
Definition nid (n : nat) (a : alg) : N :=
  match a with
  | Gost89Cfb => 813 | Gost89Cnt => 814 | Gost89Cnt12 => 975 | Gost89Cbc => 1009
  | KuzEcb => 1012 | KuzCtr => 1013 | KuzOfb => 1014 | KuzCbc => 1015 | KuzCfb => 1016
  | MagmaCtrAcpkm => 1174 | MagmaCtrAcpkmOmac => 1175 | KuzCtrAcpkm => 1177 | KuzCtrAcpkmOmac => 1178
  | MagmaCtr => 1188 | MagmaCbc => 1190
  | KuzMgm => match n with O => 0 | S n => NUM_NID + 2 * N.of_nat n end
  | MagmaMgm => match n with O => 0 | S n => NUM_NID + 2 * N.of_nat n + 1 end
  end%N.
(** gost_eng.c:85-106 [gost_cipher_array], without magma-ecb and the two key wrap ciphers, whose numbers (1187, 1181, 1183) no
    cipher of the provider has *)
Definition cipher_array : list alg := [Gost89Cfb; Gost89Cnt; Gost89Cnt12; Gost89Cbc; KuzEcb; KuzCbc; KuzCfb; KuzOfb; KuzCtr; KuzMgm;
  MagmaCbc; MagmaCtr; MagmaCtrAcpkm; MagmaCtrAcpkmOmac; MagmaMgm; KuzCtrAcpkm; KuzCtrAcpkmOmac].
(** gost_prov_cipher.c:365-390 *)
Definition deinit_list : list alg := [Gost89Cfb; Gost89Cnt; Gost89Cnt12; Gost89Cbc; KuzEcb; KuzCbc; KuzCfb; KuzOfb; KuzCtr; MagmaCbc; MagmaCtr;
  MagmaCtrAcpkm; MagmaCtrAcpkmOmac; MagmaMgm; KuzCtrAcpkm; KuzCtrAcpkmOmac; KuzMgm].

(** * Cipher data *)
Inductive core := CE (c : evp) | CK (c : kctx) | CA.
Section Machine.
(** The parameter set that gost89 and gost89-cbc take by default (CRYPT_PARAMS, PropCtl.v) *)
Variable sb : subst_block.
(** The zeroed memory of new cipher data, with the generator of key masks; by context *)
Variable mem : nat -> gost_ctx.

(** Cipher data as allocated: zeroed, with the EVP_CIPHER_CTX fields (iv, buf, num) *)
Definition evp0 (g : gost_ctx) : evp := mk_evp g 0 0 false (zeros 8) (zeros 8) (zeros 32) 0 false false.
Definition fresh (h : nat) (a : alg) : core :=
  match a with
  | Gost89Cfb | Gost89Cnt | Gost89Cnt12 | Gost89Cbc | MagmaCbc | MagmaCtr | MagmaCtrAcpkm => CE (evp0 (mem h))
  | KuzEcb | KuzCbc | KuzCfb | KuzOfb | KuzCtr | KuzCtrAcpkm => CK kctx0
  | _ => CA
  end.
(** The init functions of the descriptors *)
Definition cinit (a : alg) (c : core) (key iv : option (list N)) (enc : bool) : core :=
  match a, c with
  | Gost89Cfb, CE c => CE (gost_cipher_init_param sb c key iv enc)
  | Gost89Cbc, CE c => CE (gost_cipher_init_param sb c key iv enc)
  | Gost89Cnt, CE c => CE (gost_cipher_init_cpa c key iv enc)
  | Gost89Cnt12, CE c => CE (gost_cipher_init_cp_12 c key iv enc)
  | MagmaCbc, CE c => CE (magma_cipher_init 8 false c key iv enc)
  | MagmaCtr, CE c => CE (magma_cipher_init 4 false c key iv enc)
  | MagmaCtrAcpkm, CE c => CE (magma_cipher_init 4 true c key iv enc)
  | KuzEcb, CK c => CK (init_ecb c key iv enc)
  | KuzCbc, CK c => CK (init_cbc c key iv enc)
  | KuzCfb, CK c => CK (init_cfb c key iv enc)
  | KuzOfb, CK c => CK (init_ofb c key iv enc)
  | KuzCtr, CK c => CK (init_ctr c key iv enc)
  | KuzCtrAcpkm, CK c => CK (init_ctracpkm c key iv enc)
  | _, c => c
  end.
(** The do_cipher functions of the descriptors; all of them return 1 *)
Definition ce (f : evp -> list N -> evp * list N) (c : evp) (d : list N) : core * list N := let (c, o) := f c d in (CE c, o).
Definition ck (f : kctx -> list N -> kctx * list N) (c : kctx) (d : list N) : core * list N := let (c, o) := f c d in (CK c, o).
Definition cdo (a : alg) (c : core) (d : list N) : core * list N :=
  match a, c with
  | Gost89Cfb, CE c => ce gost_cipher_do_cfb c d
  | Gost89Cbc, CE c => ce gost_cipher_do_cbc c d
  | Gost89Cnt, CE c | Gost89Cnt12, CE c => ce gost_cipher_do_cnt c d
  | MagmaCbc, CE c => ce magma_cipher_do_cbc c d
  | MagmaCtr, CE c | MagmaCtrAcpkm, CE c => ce magma_cipher_do_ctr c d
  | KuzEcb, CK c => ck do_ecb c d
  | KuzCbc, CK c => ck do_cbc c d
  | KuzCfb, CK c => ck do_cfb c d
  | KuzOfb, CK c => ck do_ofb c d
  | KuzCtr, CK c => ck do_ctr c d
  | KuzCtrAcpkm, CK c => ck do_ctracpkm c d
  | _, c => (c, [])
  end.

(** * The EVP layer (library model) *)
(** An EVP_CIPHER_CTX with a cipher: the EVP_CIPHER, whose data it has, cipher data, direction, the bytes of buf that are in use
    (the block modes do not use buf themselves), the block kept in final, and whether padding is switched off *)
Record ectx := mk_ectx { v_cipher : nat; v_alg : alg; v_core : core; v_enc : bool; v_buf : list N; v_final : option (list N); v_nopad : bool }.
(** EVP_EncryptUpdate / evp_EncryptDecryptUpdate, for 0 < inl and buffers that do not overlap *)
Definition enc_update (v : ectx) (d : list N) : ectx * list N :=
  let bl := bsize (v_alg v) in
  let set c b := mk_ectx (v_cipher v) (v_alg v) c (v_enc v) b (v_final v) (v_nopad v) in
  match v_buf v with
  | [] =>
      if (length d mod bl =? 0) then let (c, o) := cdo (v_alg v) (v_core v) d in (set c [], o)
      else let i := length d mod bl in
           let n := length d - i in
           if (n =? 0) then (set (v_core v) d, [])
           else let (c, o) := cdo (v_alg v) (v_core v) (firstn n d) in (set c (skipn n d), o)
  | buf =>
      if (length d <? bl - length buf) then (set (v_core v) (buf ++ d), [])
      else
        let j := bl - length buf in
        let (c, o1) := cdo (v_alg v) (v_core v) (buf ++ firstn j d) in
        let d := skipn j d in
        let i := length d mod bl in
        let n := length d - i in
        if (n =? 0) then (set c d, o1)
        else let (c, o2) := cdo (v_alg v) c (firstn n d) in (set c (skipn n d), o1 ++ o2)
  end.
(** EVP_DecryptUpdate *)
Definition dec_update (v : ectx) (d : list N) : ectx * list N :=
  let bl := bsize (v_alg v) in
  if v_nopad v then enc_update v d
  else
    let kept := match v_final v with Some b => b | None => [] end in
    let (v, o) := enc_update v d in
    let set f := mk_ectx (v_cipher v) (v_alg v) (v_core v) (v_enc v) (v_buf v) f (v_nopad v) in
    if (1 <? bl) && (length (v_buf v) =? 0)
    then (set (Some (skipn (length o - bl) o)), kept ++ firstn (length o - bl) o)
    else (set None, kept ++ o).
(** EVP_CipherUpdate *)
Definition evp_update (v : ectx) (d : list N) : ectx * list N :=
  match d with [] => (v, []) | _ => if v_enc v then enc_update v d else dec_update v d end.
(** EVP_EncryptFinal_ex and EVP_DecryptFinal_ex; None: failure *)
Definition evp_final (v : ectx) : ectx * option (list N) :=
  let bl := bsize (v_alg v) in
  if v_enc v then
    if (bl =? 1) then (v, Some [])
    else if v_nopad v then (v, if (length (v_buf v) =? 0) then Some [] else None)
    else
      let n := bl - length (v_buf v) in
      let (c, o) := cdo (v_alg v) (v_core v) (v_buf v ++ repeat (N.of_nat n) n) in
      (mk_ectx (v_cipher v) (v_alg v) c (v_enc v) (v_buf v) (v_final v) (v_nopad v), Some o)
  else
    if v_nopad v then (v, if (length (v_buf v) =? 0) then Some [] else None)
    else if (1 <? bl) then
      match v_buf v, v_final v with
      | [], Some f =>
          let n := N.to_nat (nth (bl - 1) f 0%N) in
          if (n =? 0) || (bl <? n) then (v, None)
          else if forallb (N.eqb (N.of_nat n)) (skipn (bl - n) f) then (v, Some (firstn (bl - n) f)) else (v, None)
      | _, _ => (v, None)
      end
    else (v, Some []).

(** * The provider *)
(** gost_prov_cipher.c:31-52; [x_cctx] is None for an EVP_CIPHER_CTX without a cipher *)
Record gctx := mk_gctx { x_inst : nat; x_alg : alg; x_cipher : nat; x_cctx : option ectx }.
(** The process: the descriptors' [cipher] fields, the EVP_CIPHERs made (algorithm and number), those freed, the instances loaded,
    the contexts (None: freed) *)
Record state := mk_state { st_desc : alg -> option nat; st_objs : list (alg * N); st_freed : list nat; st_loaded : nat;
  st_ctxs : list (option gctx) }.
Definition start : state := mk_state (fun _ => None) [] [] 0 [].
Inductive result := Handle (h : nat) | Done | Returns (r : bool) | Output (out : list N)
  | Params (blocksize ivlen keylen mode : N) | UseAfterFree | Overrun | Unmodelled.

(** gost_crypt.c:91-132, the part that makes the object only once *)
Definition init_cipher (s : state) (a : alg) : state * nat :=
  match st_desc s a with
  | Some id => (s, id)
  | None =>
      let id := length (st_objs s) in
      (mk_state (fun b => if alg_beq a b then Some id else st_desc s b) (st_objs s ++ [(a, nid (st_loaded s) a)]) (st_freed s) (st_loaded s)
        (st_ctxs s), id)
  end.
Definition obj_nid (s : state) (id : nat) : N := snd (nth id (st_objs s) (Gost89Cfb, 0%N)).
Definition freed (s : state) (id : nat) : bool := existsb (Nat.eqb id) (st_freed s).
Definition set_ctx (s : state) (h : nat) (c : option gctx) : state :=
  mk_state (st_desc s) (st_objs s) (st_freed s) (st_loaded s) (firstn h (st_ctxs s) ++ c :: skipn (S h) (st_ctxs s)).
Definition add_ctx (s : state) (c : gctx) : state :=
  mk_state (st_desc s) (st_objs s) (st_freed s) (st_loaded s) (st_ctxs s ++ [Some c]).
Definition with_cctx (c : gctx) (v : option ectx) : gctx := mk_gctx (x_inst c) (x_alg c) (x_cipher c) v.

(** :67-85 [cipher_newctx] and :297-301; allocation succeeds *)
Definition cipher_newctx (s : state) (inst : nat) (a : alg) : state * result :=
  let (s, id) := init_cipher s a in (add_ctx s (mk_gctx inst a id None), Handle (length (st_ctxs s))).
(** :87-96 [cipher_dupctx]: the result of EVP_CIPHER_CTX_copy is not looked at; nothing is copied from a context without a cipher.
    The cipher data are copied byte by byte. *)
Definition cipher_dupctx (s : state) (c : gctx) : state * result :=
  let (s', id) := init_cipher s (x_alg c) in
  let add v := (add_ctx s' (mk_gctx (x_inst c) (x_alg c) id v), Handle (length (st_ctxs s))) in
  match x_cctx c with
  | None => add None
  | Some v => if freed s (v_cipher v) then (s, UseAfterFree) else if aead (v_alg v) then (s, Unmodelled) else add (Some v)
  end.
(** :54-65 [cipher_freectx]; EVP_CIPHER_CTX_free calls the cleanup of the EVP_CIPHER. *)
Definition cipher_freectx (s : state) (h : nat) (c : gctx) : state * result :=
  match x_cctx c with
  | Some v => if freed s (v_cipher v) then (s, UseAfterFree) else (set_ctx s h None, Done)
  | None => (set_ctx s h None, Done)
  end.
(** :174-179, the parameter "padding" in [cipher_set_ctx_params]: EVP_CIPHER_CTX_set_padding fails without a cipher (the flag it
    leaves is cleared by the first initialisation). *)
Definition set_padding (c : gctx) (pad : bool) : option gctx :=
  match x_cctx c with
  | None => None
  | Some v => Some (with_cctx c (Some (mk_ectx (v_cipher v) (v_alg v) (v_core v) (v_enc v) (v_buf v) (v_final v) (negb pad))))
  end.
Definition cipher_set_ctx_params (s : state) (h : nat) (c : gctx) (pad : bool) : state * result :=
  match set_padding c pad with
  | None => (s, Returns false)
  | Some c' => (set_ctx s h (Some c'), Returns true)
  end.
(** ENGINE_get_cipher: gost_eng.c:218-241 [gost_ciphers] *)
Definition engine_get_cipher (s : state) (n : N) : option alg := find (fun a => (n =? nid (st_loaded s) a)%N) cipher_array.
(** EVP_CipherInit_ex with the instance's engine.  A context of the same number keeps its cipher data; otherwise the engine
    is asked for the number. *)
Definition evp_cipher_init (s : state) (h : nat) (c : gctx) (key iv : option (list N)) (enc : bool) : state * result :=
  let n := obj_nid s (x_cipher c) in
  let go s id a core nopad :=
    (set_ctx s h (Some (with_cctx c (Some (mk_ectx id a (cinit a core key iv enc) enc [] None nopad)))), Returns true) in
  let anew :=
    match engine_get_cipher s n with
    | None => (set_ctx s h (Some (with_cctx c None)), Returns false)
    | Some a => let (s, id) := init_cipher s a in go s id a (fresh h a) false
    end in
  match x_cctx c with
  | Some v =>
      if freed s (v_cipher v) then (s, UseAfterFree)
      else if (n =? obj_nid s (v_cipher v))%N then go s (v_cipher v) (v_alg v) (v_core v) (v_nopad v) else anew
  | None => anew
  end.
(** :210-225, 227-239 [cipher_encrypt_init] and [cipher_decrypt_init]: the parameters are set first.  The buffers may be shorter
    than the cipher's lengths. *)
Definition opt_len (b : option (list N)) : nat := match b with Some l => length l | None => 0 end.
Definition short (b : option (list N)) (n : nat) : bool := match b with Some l => length l <? n | None => false end.
Definition cipher_init (s : state) (h : nat) (c : gctx) (enc : bool) (key iv : option (list N)) (pad : option bool) : state * result :=
  match match pad with Some p => set_padding c p | None => Some c end with
  | None => (s, Returns false)
  | Some c =>
      let s := set_ctx s h (Some c) in
      if freed s (x_cipher c) then (s, UseAfterFree)
      else if (N.to_nat (key_length (x_alg c)) <? opt_len key) || (N.to_nat (iv_length (x_alg c)) <? opt_len iv) then (s, Returns false)
      else if short key (N.to_nat (key_length (x_alg c))) || short iv (N.to_nat (iv_length (x_alg c))) then (s, Overrun)
      else evp_cipher_init s h c key iv enc
  end.
(** :241-252 [cipher_update]: (int)inl.  [data] is the caller's buffer, inl its length; outsize is not looked at.  The checks
    for lengths within 32 bytes of 2^31 are not modelled. *)
Definition cipher_update (s : state) (h : nat) (c : gctx) (data : list N) : state * result :=
  let n := to_int (Z.of_nat (length data)) in
  match x_cctx c with
  | None => (s, Returns false)
  | Some v =>
      if freed s (v_cipher v) then (s, UseAfterFree)
      else if aead (v_alg v) then (s, Unmodelled)
      else if (n <? 0)%Z then (s, Returns false)
      else if (2 ^ 31 - 32 <? n)%Z then (s, Unmodelled)
      else let (v, o) := evp_update v (firstn (Z.to_nat n) data) in (set_ctx s h (Some (with_cctx c (Some v))), Output o)
  end.
(** :254-264 [cipher_final] *)
Definition cipher_final (s : state) (h : nat) (c : gctx) : state * result :=
  match x_cctx c with
  | None => (s, Returns false)
  | Some v =>
      if freed s (v_cipher v) then (s, UseAfterFree)
      else if aead (v_alg v) then (s, Unmodelled)
      else let (v, o) := evp_final v in
           (set_ctx s h (Some (with_cctx c (Some v))), match o with Some o => Output o | None => Returns false end)
  end.
(** :98-112 [cipher_get_params] through :292-296; "mode" is EVP_CIPHER_flags *)
Definition cipher_get_params (s : state) (a : alg) : state * result :=
  (fst (init_cipher s a), Params (block_size a) (iv_length a) (key_length a) (all_flags a)).
(** gost_crypt.c:134-140 [GOST_deinit_cipher]; :365-390; called by gost_prov.c:124-130 [gost_teardown] of any instance *)
Definition deinit_cipher (s : state) (a : alg) : state :=
  match st_desc s a with
  | None => s
  | Some id => mk_state (fun b => if alg_beq a b then None else st_desc s b) (st_objs s) (id :: st_freed s) (st_loaded s) (st_ctxs s)
  end.
Definition gost_teardown (s : state) : state := fold_left deinit_cipher deinit_list s.
(** gost_prov.c:55-76 [provider_ctx_new] through [populate_gost_engine]: new numbers for the MGM ciphers *)
Definition load (s : state) : state := mk_state (st_desc s) (st_objs s) (st_freed s) (S (st_loaded s)) (st_ctxs s).

(** Calls of the core *)
Inductive call := LoadProvider | New (inst : nat) (a : alg) | Dup (h : nat) | Free (h : nat)
  | Init (h : nat) (enc : bool) (key iv : option (list N)) (pad : option bool) | SetPadding (h : nat) (pad : bool)
  | Update (h : nat) (data : list N) | Final (h : nat) | GetParams (a : alg) | Teardown (inst : nat).
Definition on (s : state) (h : nat) (f : gctx -> state * result) : state * result :=
  match nth h (st_ctxs s) None with Some c => f c | None => (s, UseAfterFree) end.
Definition step (s : state) (o : call) : state * result :=
  match o with
  | LoadProvider => (load s, Done)
  | New i a => cipher_newctx s i a
  | Dup h => on s h (cipher_dupctx s)
  | Free h => on s h (cipher_freectx s h)
  | Init h enc key iv pad => on s h (fun c => cipher_init s h c enc key iv pad)
  | SetPadding h pad => on s h (fun c => cipher_set_ctx_params s h c pad)
  | Update h data => on s h (fun c => cipher_update s h c data)
  | Final h => on s h (cipher_final s h)
  | GetParams a => cipher_get_params s a
  | Teardown _ => (gost_teardown s, Done)
  end.
Fixpoint run (s : state) (l : list call) : list result :=
  match l with [] => [] | o :: l' => let (s', r) := step s o in r :: run s' l' end.
End Machine.

(** :121-136, the parameter "alg_id_param" in [cipher_get_ctx_params]: the caller gets as many bytes as the encoding [der] has, read
    from the address of the variable der on; [stack]: the memory there, which begins with the pointer. *)
Definition get_alg_id_param (stack der : list N) : option (list N) :=
  if (length stack <? length der) then None else Some (firstn (length der) stack).

(** :331-363 [GOST_prov_ciphers]: names and functions, up to the NULL entry; the short names are those of openssl/obj_mac.h *)
From Coq Require Import String.
Definition prov_ciphers : list (string * alg) := [
  ("gost89:gost89:GOST 28147-89:1.2.643.2.2.21", Gost89Cfb);
  ("gost89-cnt", Gost89Cnt); ("gost89-cnt-12", Gost89Cnt12); ("gost89-cbc", Gost89Cbc);
  ("kuznyechik-ecb", KuzEcb); ("kuznyechik-cbc", KuzCbc); ("kuznyechik-cfb", KuzCfb); ("kuznyechik-ofb", KuzOfb); ("kuznyechik-ctr", KuzCtr);
  ("magma-cbc", MagmaCbc); ("magma-ctr", MagmaCtr);
  ("magma-ctr-acpkm:1.2.643.7.1.1.5.1.1", MagmaCtrAcpkm); ("magma-ctr-acpkm-omac:1.2.643.7.1.1.5.1.2", MagmaCtrAcpkmOmac);
  ("magma-mgm", MagmaMgm);
  ("kuznyechik-ctr-acpkm:1.2.643.7.1.1.5.2.1", KuzCtrAcpkm); ("kuznyechik-ctr-acpkm-omac:1.2.643.7.1.1.5.2.2", KuzCtrAcpkmOmac);
  ("kuznyechik-mgm", KuzMgm)]%string.
Definition fetch (name : string) : option alg :=
  option_map snd (List.find (fun e => existsb (String.eqb name) (ProvDigestModel.split_colon (fst e) EmptyString)) prov_ciphers).
