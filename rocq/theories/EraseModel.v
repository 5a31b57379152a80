(** Model of the functions by which the engine erases secrets: the clean-up functions of its ciphers and MACs
    (gost_crypt.c:1071-1090, 1648-1652, gost_grasshopper_cipher.c:207-232, 967-983, 1020-1031), the release of MAC keys
    (gost_ameth.c:1080-1083, gost_pmeth.c:628-633), and what the local arrays of the key wrapping functions hold when these
    functions return (gost_keywrap.c:67-108, gost_keyexpimp.c:34-195, gost_grasshopper_cipher.c:162-178).

    A context goes through the functions of CryptModel, KuzCipherModel, KdfModel and MgmModel. *)
From Verif Require Import Bytes Gost89Model Gost89Sboxes CryptModel KuzTables KuzModel KuzCipherModel KdfModel MgmModel OmacModel KeywrapModel KexpModel PmethModel.
Local Open Scope N_scope.

(** * GOST 28147-89 and Magma: struct ossl_gost_cipher_ctx *)
Inductive g_mode := M_cfb (dflt : subst_block) | M_cbc (dflt : subst_block) | M_cnt (sb : subst_block) | M_ecb_magma | M_cbc_magma | M_ctr_magma | M_acpkm_magma.
(** gost_crypt.c:416-485, 488-545: the init functions of the descriptors. *)
Definition g_init (m : g_mode) (c : evp) (key iv : option (list N)) (enc : bool) : evp :=
  match m with
  | M_cfb sb | M_cbc sb => gost_cipher_init_param sb c key iv enc
  | M_cnt sb => gost_cipher_init_cnt sb c key iv enc
  | M_ecb_magma => magma_cipher_init 0 false c key iv enc
  | M_cbc_magma => magma_cipher_init 8 false c key iv enc
  | M_ctr_magma => magma_cipher_init 4 false c key iv enc
  | M_acpkm_magma => magma_cipher_init 4 true c key iv enc
  end.
(** gost_crypt.c:706-872, 952-1068 *)
Definition g_do (m : g_mode) (c : evp) (inp : list N) : evp :=
  fst (match m with
       | M_cfb _ => gost_cipher_do_cfb c inp
       | M_cbc _ => gost_cipher_do_cbc c inp
       | M_cnt _ => gost_cipher_do_cnt c inp
       | M_ecb_magma => magma_cipher_do_ecb c inp
       | M_cbc_magma => magma_cipher_do_cbc c inp
       | M_ctr_magma | M_acpkm_magma => magma_cipher_do_ctr c inp
       end).
Definition g_ctr_mode (m : g_mode) : bool := match m with M_ctr_magma | M_acpkm_magma => true | _ => false end.
Inductive g_call :=
  | G_init (key iv : option (list N)) (enc : bool)      (* EVP_CipherInit_ex *)
  | G_data (d : list N)                                 (* EVP_CipherUpdate *)
  | G_mesh (n : N)                                      (* EVP_CTRL_KEY_MESH *)
  | G_sbox (sb : subst_block)                           (* EVP_CTRL_SET_SBOX *)
  | G_tls (h : host) (arg : Z) (seq : list N).          (* EVP_CTRL_TLSTREE *)
Definition g_step (m : g_mode) (c : evp) (x : g_call) : evp :=
  match x with
  | G_init key iv enc => g_init m c key iv enc
  | G_data d => g_do m c d
  | G_mesh n => snd (ctl_key_mesh c n)
  | G_sbox sb => snd (ctl_set_sbox c sb)
  | G_tls h arg seq => snd (magma_ctl_tlstree h (g_ctr_mode m) c arg seq)
  end.
(** A zeroed context; [r] is what the generator of the masks will yield. *)
Definition zero_gost (r : nat -> list N) : gost_ctx := mk_gost_ctx (zeros 32) (zeros 8) (zeros 8) (zeros 256) (zeros 256) (zeros 256) (zeros 256) r.
Definition g_fresh (r : nat -> list N) : evp := mk_evp (zero_gost r) 0 0 false (zeros 16) (zeros 16) (zeros 32) 0 true false.
Definition g_run (m : g_mode) (r : nat -> list N) (l : list g_call) : evp := fold_left (g_step m) l (g_fresh r).
(** gost_crypt.c:1071-1078 [gost_cipher_cleanup] (the omac context has a clean-up of its own). *)
Definition gost_cipher_cleanup (c : evp) : evp := with_app (with_g c (gost_destroy (e_g c))) false.

(** gost_lcl.h:210-218, gost89.h:34-41: the context's bytes, without paramNID, kdf_seed (both are sent in the clear), tag and
    omac_ctx. *)
Record g_memory := mk_gmem { gm_count : N; gm_mesh : N; gm_master : list N; gm_key : list N; gm_mask : list N; gm_boxes : list N }.
Definition g_boxes (g : gost_ctx) : list N := g_k87 g ++ g_k65 g ++ g_k43 g ++ g_k21 g.
Definition g_mem (c : evp) : g_memory :=
  mk_gmem (e_count c) (e_mesh c) (g_master (e_g c)) (g_key (e_g c)) (g_mask (e_g c)) (g_boxes (e_g c)).

(** * The imit digests: gost_crypt.c:1648-1652 [gost_imit_cleanup], memset with zero *)
Definition gost_imit_cleanup (c : imit) : imit :=
  mk_imit (zero_gost (g_rng (i_g c))) (zeros 8) (zeros 8) 0 0 0 false 0 (i_abort c).
Definition imit_mem (c : imit) : list N :=
  g_master (i_g c) ++ g_key (i_g c) ++ g_mask (i_g c) ++ g_boxes (i_g c) ++ i_buffer c ++ i_partial c ++
  [i_count c; i_mesh c; N.of_nat (i_left c); (if i_keyset c then 1 else 0); i_size c].

(** * Kuznyechik *)
Inductive k_mode := K_ecb | K_cbc | K_ofb | K_cfb | K_ctr | K_acpkm.
(** gost_grasshopper_cipher.c:268-337 *)
Definition k_init (m : k_mode) (c : kctx) (key iv : option (list N)) (enc : bool) : kctx :=
  match m with
  | K_ecb => init_ecb c key iv enc
  | K_cbc => init_cbc c key iv enc
  | K_ofb => init_ofb c key iv enc
  | K_cfb => init_cfb c key iv enc
  | K_ctr => init_ctr c key iv enc
  | K_acpkm => init_ctracpkm c key iv enc
  end.
(** :511-720, 806-965 *)
Definition k_do (m : k_mode) (c : kctx) (inp : list N) : kctx :=
  fst (match m with
       | K_ecb => do_ecb c inp
       | K_cbc => do_cbc c inp
       | K_ofb => do_ofb c inp
       | K_cfb => do_cfb c inp
       | K_ctr => do_ctr c inp
       | K_acpkm => do_ctracpkm c inp
       end).
(** EVP_CIPH_CTR_MODE is among the flags: :77-118 *)
Definition k_ctr_mode (m : k_mode) : bool := match m with K_ctr | K_acpkm => true | _ => false end.
Inductive k_call :=
  | KC_init (key iv : option (list N)) (enc : bool)
  | KC_data (d : list N)
  | KC_mesh (arg : Z)
  | KC_tls (h : host) (arg : Z) (seq : list N).
Definition k_step (m : k_mode) (c : kctx) (x : k_call) : kctx :=
  match x with
  | KC_init key iv enc => k_init m c key iv enc
  | KC_data d => k_do m c d
  | KC_mesh arg => snd (kuz_ctl_key_mesh c arg)
  | KC_tls h arg seq => snd (kuz_ctl_tlstree h (k_ctr_mode m) c arg seq)
  end.
Definition k_run (m : k_mode) (l : list k_call) : kctx := fold_left (k_step m) l kctx0.
(** :207-221 [gost_grasshopper_cipher_destroy] (the scratch buffer is not in the model's context) *)
Definition gost_grasshopper_cipher_destroy (c : kctx) : kctx :=
  kw_master (kw_keys c (repeat (zeros 16) 10) (repeat (zeros 16) 10) (zeros 32)) (zeros 32).
(** :223-232 [gost_grasshopper_cipher_destroy_ctr] *)
Definition gost_grasshopper_cipher_destroy_ctr (c : kctx) : kctx := kw_part c (zeros 16).
(** :967-983 [gost_grasshopper_cipher_cleanup] *)
Definition gost_grasshopper_cipher_cleanup (m : k_mode) (c : kctx) : kctx :=
  if k_ctr_mode m then gost_grasshopper_cipher_destroy_ctr c else c.
(** gost_grasshopper_cipher.h:22-40: master_key, key, encrypt_round_keys, decrypt_round_keys, partial_buffer. *)
Definition k_mem (c : kctx) : list N := k_master c ++ k_key c ++ concat (k_ek c) ++ concat (k_dk c) ++ k_part c.
(** :162-178 [acpkm_next]: the local array newkey when the function returns. *)
Definition acpkm_next_frame (c : kctx) : list N :=
  grasshopper_encrypt_block (k_ek c) (sub 0 16 ACPKM_D_2018) ++ grasshopper_encrypt_block (k_ek c) (sub 16 16 ACPKM_D_2018).
(** gost89.c:768-778 [acpkm_magma_key_meshing]: the local array newkey when the function returns, after OPENSSL_cleanse. *)
Definition acpkm_magma_frame (c : gost_ctx) : list N :=
  let newkey := magmacrypt c (sub 0 8 ACPKM_D_const) ++ magmacrypt c (sub 8 8 ACPKM_D_const) ++
                magmacrypt c (sub 16 8 ACPKM_D_const) ++ magmacrypt c (sub 24 8 ACPKM_D_const) in
  overwrite newkey 0 (zeros 32).

(** * MGM: gost_gost2015.h:49-61 struct gost_mgm_ctx, whose ks is a union of the two ciphers' contexts *)
Inductive x_call :=
  | X_init (key iv : option (list N)) (enc : bool)
  | X_do (c : mgm_call)
  | X_tag (arg : Z) (tag : list N).
Record mm := mk_mm { mm_g : gost_ctx; mm_x : mevp }.
(** gost_crypt.c:615-654 [gost_magma_cipher_init_mgm], 900-947 [gost_magma_cipher_do_mgm], 1123-1133 (EVP_CTRL_AEAD_SET_TAG) *)
Definition mm_step (le : bool) (s : mm) (x : x_call) : mm :=
  match x with
  | X_init key iv enc =>
      mk_mm (match key with Some k => magma_key (gost_init (mm_g s) Gost28147_TC26ParamSetZ) k | None => mm_g s end)
            (mgm_init_evp 8 (mm_x s) key iv enc)
  | X_do c => mk_mm (mm_g s) (snd (fst (do_mgm 8 le (fun _ => magmacrypt (mm_g s)) (gf64_mul le) (mm_x s) c)))
  | X_tag arg tag => mk_mm (mm_g s) (snd (mgm_set_tag 8 (mm_x s) arg tag))
  end.
Definition mm_run (le : bool) (r : nat -> list N) (l : list x_call) : mm := fold_left (mm_step le) l (mk_mm (zero_gost r) (mevp0 8)).
(** OPENSSL_cleanse(&mctx->mgm, sizeof(mctx->mgm)): [bl] is the number of bytes of a block in the model. *)
Definition zero_mgm (bl : nat) : mgm := mk_mgm (zeros bl) (zeros bl) (zeros bl) (zeros bl) (zeros bl) (zeros bl) 0 0 0 0.
(** gost_crypt.c:1080-1090 [gost_magma_mgm_cleanup] *)
Definition gost_magma_mgm_cleanup (s : mm) : mm := mk_mm (gost_destroy (mm_g s)) (x_w_mgm (mm_x s) (zero_mgm 8)).
Record kk := mk_kk { kk_k : kctx; kk_x : mevp }.
(** gost_grasshopper_cipher.c:469-509 [gost_grasshopper_cipher_init_mgm], 752-801 [gost_grasshopper_cipher_do_mgm], 1063-1074 *)
Definition kk_step (le : bool) (s : kk) (x : x_call) : kk :=
  match x with
  | X_init key iv enc =>
      mk_kk (match key with Some k => gost_grasshopper_cipher_key (kk_k s) k | None => kk_k s end) (mgm_init_evp 16 (kk_x s) key iv enc)
  | X_do c => mk_kk (kk_k s) (snd (fst (do_mgm 16 le (fun _ => grasshopper_encrypt_block (k_ek (kk_k s))) (gf128_mul_uint64 le) (kk_x s) c)))
  | X_tag arg tag => mk_kk (kk_k s) (snd (mgm_set_tag 16 (kk_x s) arg tag))
  end.
Definition kk_run (le : bool) (l : list x_call) : kk := fold_left (kk_step le) l (mk_kk kctx0 (mevp0 16)).
(** gost_grasshopper_cipher.c:1020-1031 [gost_grasshopper_mgm_cleanup] *)
Definition gost_grasshopper_mgm_cleanup (s : kk) : kk := mk_kk (gost_grasshopper_cipher_destroy (kk_k s)) (x_w_mgm (kk_x s) (zero_mgm 16)).
Definition mgm_mem (m : mgm) : list N :=
  m_nonce m ++ m_Yi m ++ m_Zi m ++ m_EKi m ++ m_ACi m ++ m_sum m ++ [m_alen m; m_mlen m; N.of_nat (m_mres m); N.of_nat (m_ares m)].
(** The bytes of ks and mgm. *)
Definition mm_mem (s : mm) : list N := g_master (mm_g s) ++ g_key (mm_g s) ++ g_mask (mm_g s) ++ mgm_mem (x_mgm (mm_x s)).
Definition kk_mem (s : kk) : list N := k_mem (kk_k s) ++ mgm_mem (x_mgm (kk_x s)).

(** * The frames of the key wrapping functions: local arrays when the function returns *)
(** gost_keywrap.c:67-79, 92-108: kek_ukm, which neither function erases. *)
Definition keyWrap_frame (c : gost_ctx) (kek ukm : list N) : list N := snd (keyDiversifyCryptoPro c kek ukm).
(** gost_keyexpimp.c:34-109 [gost_kexp15]: mac_buf[16]; [mstack] is what it holds on entry.  OPENSSL_cleanse(mac_buf, mac_len)
    on every path. *)
Definition kexp15_frame (h : host) (f : fresh) (mstack : list N) (shared_key : list N) (c : ctr_nid)
  (m : mac_nid) (mac_key iv : list N) (cap : nat) : list N :=
  let mac_len := wrap_mac_len c in
  let mac_buf :=
    if (mac_len =? 0)%nat then mstack
    else if (cap <? length shared_key + mac_len)%nat then mstack
    else match mac_two h f m mac_key mac_len iv shared_key with None => mstack | Some t => overwrite mstack 0 t end in
  overwrite mac_buf 0 (zeros mac_len).
(** gost_keyexpimp.c:115-199 [gost_kimp15]: out[48], erased on every path, and mac_buf[16], which is not. *)
Definition kimp15_frame (h : host) (f : fresh) (stack mstack : list N) (expkey : list N) (c : ctr_nid) (cipher_key : list N)
  (m : mac_nid) (mac_key iv : list N) : list N * list N :=
  let mac_len := wrap_mac_len c in
  let '(out, mac_buf) :=
    if (mac_len =? 0)%nat then (stack, mstack)
    else if (48 <? length expkey)%nat then (stack, mstack)
    else if (16 <? length iv)%nat then (stack, mstack)
    else
      let out := overwrite stack 0 (ctr_crypt f c cipher_key (overwrite (zeros 16) 0 iv) false [expkey]) in
      match mac_two h f m mac_key mac_len iv (firstn 32 out) with
      | None => (out, mstack)
      | Some t => (out, overwrite mstack 0 t)
      end in
  (overwrite out 0 (zeros 48), mac_buf).

(** * MAC keys: the blocks given back to the allocator *)
(** gost_ameth.c:1080-1083 [mackey_free_gost]: OPENSSL_free of the struct gost_mac_key: its key bytes. *)
Definition mackey_free_gost (k : mac_key) : list N := mk_key k.
(** gost_pmeth.c:628-633 [pkey_gost_mac_cleanup]: OPENSSL_free of the struct gost_mac_pmeth_data: its key bytes. *)
Definition pkey_gost_mac_cleanup (d : mdata) : list N := a_key d.
