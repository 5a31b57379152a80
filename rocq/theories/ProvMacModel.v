(** Model of the provider's MAC implementations, gost_prov_mac.c, over the MAC digests of gost_crypt.c, gost_omac.c and
    gost_omac_acpkm.c.  Digest contexts are values here; PropDup.v shows that this is what the pointer-level contexts are. *)
From Coq Require Import ZArith List Bool Lia.
From Verif Require Import Bytes Gost89Model Gost89Sboxes CryptModel KdfModel OmacModel PmethModel.
Import ListNotations.
Open Scope Z_scope.

(** * Digests as the provider uses them *)
(** Return values are those of EVP_MD_CTX_ctrl, EVP_DigestUpdate and EVP_DigestFinal_ex (library model: a control call that
    returned 0 or less gives 0).  [None]: a NULL pointer is followed. *)
Record md (D : Type) := mk_md {
  md_new : D;
  md_set_key : D -> Z -> list N -> Z * D;              (* the length argument and what the pointer points to *)
  md_mesh : D -> Z -> option Z -> option (Z * D);
  md_xof : D -> Z -> option (Z * D);
  md_update : D -> list N -> Z * D;
  md_final : D -> Z * list N * D                       (* and cleanup *)
}.
Arguments md_new {D}. Arguments md_set_key {D}. Arguments md_mesh {D}. Arguments md_xof {D}. Arguments md_update {D}. Arguments md_final {D}.

(** * gost_prov_mac.c *)
Section ProvMac.
Variable D : Type.
Variable M : md D.
(** :39-62 *)
Record pmac := mk_pmac { pc_size : Z; pc_d : D }.
(** The parameters given to a call; "xof" is not modelled. *)
Record params := mk_params { mp_size : option Z; mp_key : option (Z * list N); mp_mesh : option (Z * option Z) }.
Definition no_params : params := mk_params None None None.
(** :77-98 [mac_newctx] *)
Definition mac_newctx (initial_mac_size : Z) : pmac := mk_pmac initial_mac_size (md_new M).
(** :100-109 [mac_dupctx] *)
Definition mac_dupctx (initial_mac_size : Z) (src : pmac) : pmac := mk_pmac (pc_size (mac_newctx initial_mac_size)) (pc_d src).
(** :226-274 [mac_set_ctx_params]: "size" (a size_t, stored unchecked), "key", "key-mesh" (with "cipher-key-mesh"), in this
    order.  Lengths go to the digest as ints. *)
Definition mac_set_ctx_params (c : pmac) (p : params) : option (Z * pmac) :=
  let c := match mp_size p with Some n => mk_pmac n (pc_d c) | None => c end in
  let (r, c) := match mp_key p with
                | None => (1, c)
                | Some (len, k) => let (r, d) := md_set_key M (pc_d c) (to_int len) k in ((if r <=? 0 then 0 else 1), mk_pmac (pc_size c) d)
                end in
  if r =? 0 then Some (0, c)
  else match mp_mesh p with
       | None => Some (1, c)
       | Some (n, t) =>
           match md_mesh M (pc_d c) (to_int n) (option_map to_int t) with
           | None => None
           | Some (r, d) => Some ((if r <=? 0 then 0 else 1), mk_pmac (pc_size c) d)
           end
       end.
(** :111-120 [mac_init]; [key]: length and what the pointer points to. *)
Definition mac_init (c : pmac) (key : option (Z * list N)) (p : params) : option (Z * pmac) :=
  match mac_set_ctx_params c p with
  | None => None
  | Some (r, c) =>
      if r =? 0 then Some (0, c)
      else match key with
           | None => Some (1, c)
           | Some (len, k) => let (r, d) := md_set_key M (pc_d c) (to_int len) k in Some ((if r >? 0 then 1 else 0), mk_pmac (pc_size c) d)
           end
  end.
(** :122-127 [mac_update] *)
Definition mac_update (c : pmac) (data : list N) : Z * pmac :=
  let (r, d) := md_update M (pc_d c) data in ((if r >? 0 then 1 else 0), mk_pmac (pc_size c) d).
(** :129-154 [mac_final] with an output buffer: return value, the bytes written, the length reported (:152). *)
Definition mac_final (c : pmac) : option (Z * list N * Z * pmac) :=
  match md_xof M (pc_d c) (to_int (pc_size c)) with
  | None => None
  | Some (_, d) => let '(r, tag, d) := md_final M d in Some (r, tag, pc_size c, mk_pmac (pc_size c) d)
  end.
(** :201-207 [mac_get_ctx_params], "size" *)
Definition mac_get_size (c : pmac) : Z := pc_size c.
End ProvMac.
Arguments mk_pmac {D}. Arguments pc_size {D}. Arguments pc_d {D}. Arguments mac_newctx {D}. Arguments mac_dupctx {D}. Arguments mac_set_ctx_params {D}.
Arguments mac_init {D}. Arguments mac_update {D}. Arguments mac_final {D}. Arguments mac_get_size {D}.

(** * The digests *)
(** struct gost_mac_key, gost_lcl.h:98-102, which a length of 0 announces: the key follows a 4-byte nid. *)
Definition key_in_struct (mem : list N) : list N := skipn 4 mem.
Definition nid_in_struct (mem : list N) : Z := to_int (Z.of_N (le2n (firstn 4 mem))).
(** gost_omac.c:155-262; the boolean: cipher_name is set.  A clean context has none, OBJ_txt2nid(NULL) follows a NULL pointer. *)
Definition omac_md (K : cbc_cipher) (fresh : cc_ctx K) : md (bool * omac_ctx K) := mk_md _
  (true, omac_init K)
  (fun c len mem => let (r, x) := omac_set_key K (snd c) fresh len (if len =? 0 then key_in_struct mem else mem) in (r, (true, x)))
  (fun c n t => Some (0, c))
  (fun c n => if fst c then let (r, x) := omac_xof_len K (snd c) n in Some (r, (true, x)) else None)
  (fun c d => let (r, x) := omac_imit_update K (snd c) d in (r, (fst c, x)))
  (fun c => let '(r, tag, _) := omac_imit_final K (snd c) in (r, tag, (false, mk_omac K None 0 false (zeros 32)))).
(** gost_omac_acpkm.c:332-360, 418-515 *)
Definition oac_md : md (bool * oac_ctx) := mk_md _
  (true, omac_acpkm_init)
  (fun c len mem => let (r, x) := omac_acpkm_set_key len (if len =? 0 then key_in_struct mem else mem) in (r, (true, x)))
  (fun c n t => match omac_acpkm_key_mesh (snd c) n t with Some (r, x) => Some ((if r <=? 0 then 0 else r), (fst c, x)) | None => None end)
  (fun c n => if fst c then match oac_step (snd c) (AXofLen n) with (ARet r _, x) => Some (r, (true, x)) | _ => None end else None)
  (fun c d => match oac_step (snd c) (AUpdate d) with (ARet r _, x) => (r, (fst c, x)) | (_, x) => (0, (fst c, x)) end)
  (fun c => match oac_step (snd c) AFinal with
            | (ARet r tag, _) => (r, tag, (false, mk_oac None 0 false))
            | _ => (0, nil, (false, mk_oac None 0 false)) end).
(** gost_crypt.c:1487-1636; [mem0]: the context's memory before; [by_nid]: the S-box of a parameter set's nid, NID_undef (0)
    keeps the digest's own; cleaning up leaves zeros ([g_rng] is the model's source of masks). *)
Definition imit_clean (c : imit) : imit :=
  mk_imit (mk_gost_ctx (zeros 32) (zeros 8) (zeros 8) (zeros 256) (zeros 256) (zeros 256) (zeros 256) (g_rng (i_g c))) (zeros 8) (zeros 8) 0 0 0 false 0 (i_abort c).
Definition imit_md (sb : subst_block) (by_nid : Z -> option subst_block) (mem0 : imit) : md imit := mk_md _
  (gost_imit_init mem0 sb)
  (fun c len mem =>
     gost_imit_set_key sb c
       (if len =? 0 then MacKey (if nid_in_struct mem =? 0 then None else Some (by_nid (nid_in_struct mem))) (firstn 32 (key_in_struct mem))
        else RawKey (firstn 32 mem) len))
  (fun c n t => Some (0, c))
  (fun c n => Some (gost_imit_xof_len c n))
  (fun c d => match gost_imit_update c d with Some c => (1, c) | None => (0, c) end)
  (fun c => match gost_imit_final c with Some (c, tag) => (1, tag, imit_clean c) | None => (0, nil, imit_clean c) end).
