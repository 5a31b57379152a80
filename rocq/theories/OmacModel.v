(** Model of the OMAC digests: gost_omac.c (magma-mac, kuznyechik-mac) on top of OpenSSL's CMAC,
    and gost_omac_acpkm.c (kuznyechik-ctr-acpkm-omac).

    OpenSSL's crypto/cmac/cmac.c is outside the repository; CMAC_Init, CMAC_Update and CMAC_Final
    below follow it.  The repository carries an edited copy of the same code (gost_omac_acpkm.c:20-22 "CMAC
    code from crypto/cmac/cmac.c with ACPKM tweaks"), which is where the line numbers of [make_kn], [upd]
    and [last_xor] point.  Allocation failures and a failing cipher lookup are not modelled. *)
From Verif Require Import Bytes Gost89Model CryptModel KuzModel KuzCipherModel KdfModel.
From Coq Require Import List NArith.
Open Scope N_scope.

(** gost_omac_acpkm.c:44-56 [make_kn]; k1 and l are different buffers in every call. *)
Definition msb (b : N) : bool := negb (N.land b 0x80 =? 0).
Definition make_kn (bl : nat) (l : list N) : list N :=
  let k1 := map (fun i => let b := w8 (N.shiftl (nth i l 0) 1) in
                          if (i <? bl - 1)%nat && msb (nth (i + 1) l 0) then N.lor b 1 else b) (seq 0 bl) in
  if msb (nth 0 l 0)
  then set k1 (bl - 1) (N.lxor (nth (bl - 1) k1 0) (if (bl =? 16)%nat then 0x87 else 0x1b))
  else k1.

(** * Buffering of the last block *)
Section Update.
Context {S : Type} (bl : nat) (blk : S -> list N -> S).
(** gost_omac_acpkm.c:235-244: all but one of the complete blocks left. *)
Fixpoint upd_loop (fuel : nat) (s : S) (data : list N) : S * list N :=
  match fuel with
  | O => (s, data)
  | Datatypes.S f => if (bl <? length data)%nat then upd_loop f (blk s (firstn bl data)) (skipn bl data) else (s, data)
  end.
(** :235-248 *)
Definition upd_rest (s : S) (last data : list N) : S * list N * nat :=
  let (s, rest) := upd_loop (length data) s data in (s, overwrite last 0 rest, length rest).
(** :206-250 [CMAC_ACPKM_Update] / OpenSSL CMAC_Update; the state is the chaining state, last_block and
    nlast_block, and [blk] processes one block which is not the last. *)
Definition upd (st : S * list N * nat) (data : list N) : S * list N * nat :=
  let '(s, last, n) := st in
  match data with
  | nil => st
  | _ =>
      if (0 <? n)%nat then
        let nleft := Nat.min (length data) (bl - n) in
        let last := overwrite last n (firstn nleft data) in
        if (length data =? nleft)%nat then (s, last, (n + nleft)%nat)
        else upd_rest (blk s (firstn bl last)) last (skipn nleft data)
      else upd_rest s last data
  end.
End Update.
(** :277-287 / OpenSSL CMAC_Final: the padded last block and its sum with k1 or k2. *)
Definition last_xor (bl : nat) (last : list N) (lb : nat) (k1 k2 : list N) : list N * list N :=
  if (lb =? bl)%nat then (last, xorl (firstn bl last) (firstn bl k1))
  else
    let last := overwrite (set last lb 0x80) (lb + 1) (zeros (bl - lb - 1)) in
    (last, xorl (firstn bl last) (firstn bl k2)).

(** * CMAC over a CBC cipher *)
(** The EVP interface of a CBC cipher: EVP_EncryptInit_ex and EVP_Cipher. *)
Record cbc_cipher := mk_cbc {
  cc_ctx : Type;
  cc_bl : nat;
  cc_nid : cipher_nid;
  cc_init : cc_ctx -> option (list N) -> option (list N) -> cc_ctx;
  cc_do : cc_ctx -> list N -> cc_ctx * list N
}.
Definition magma_cbc_cipher : cbc_cipher :=
  mk_cbc evp 8 NID_magma_cbc (fun c key iv => magma_cipher_init 8 false c key iv true) magma_cipher_do_cbc.
Definition kuz_cbc_cipher : cbc_cipher :=
  mk_cbc kctx 16 NID_grasshopper_cbc (fun c key iv => init_cbc c key iv true) do_cbc.

Section Cmac.
Variable K : cbc_cipher.
Definition cst : Type := cc_ctx K * list N * nat.
Record cmac := mk_cmac { cm_k1 : list N; cm_k2 : list N; cm_st : cst }.
(** OpenSSL CMAC_Init on a new CMAC_CTX with both key and cipher ([fresh]: the new EVP_CIPHER_CTX; the
    ciphers have EVP_CIPH_ALWAYS_CALL_INIT, so setting the cipher already calls init). *)
Definition CMAC_Init (fresh : cc_ctx K) (key : list N) : cmac :=
  let bl := cc_bl K in
  let c := cc_init K fresh None None in
  let c := cc_init K c (Some key) (Some (zeros bl)) in
  let (c, tbl) := cc_do K c (zeros bl) in
  let k1 := make_kn bl tbl in
  let k2 := make_kn bl k1 in
  let c := cc_init K c None (Some (zeros bl)) in
  mk_cmac k1 k2 (c, zeros 32, 0%nat).
Definition CMAC_Update (m : cmac) (data : list N) : cmac :=
  mk_cmac (cm_k1 m) (cm_k2 m) (upd (cc_bl K) (fun c b => fst (cc_do K c b)) (cm_st m) data).
Definition CMAC_Final (m : cmac) : cmac * list N :=
  let '(c, last, lb) := cm_st m in
  let (last, x) := last_xor (cc_bl K) last lb (cm_k1 m) (cm_k2 m) in
  let (c, out) := cc_do K c x in
  (mk_cmac (cm_k1 m) (cm_k2 m) (c, last, lb), out).

(** * gost_omac.c *)
(** gost_omac.c:19-37 [OMAC_CTX]; the cipher name is fixed by the digest ([K]). *)
Record omac_ctx := mk_omac { om_cmac : option cmac; om_size : nat; om_set : bool; om_key : list N }.
(** :41-69 *)
Definition omac_init : omac_ctx := mk_omac None (cc_bl K) false (zeros 32).
(** :137-154 [omac_key] *)
Definition omac_key (c : omac_ctx) (fresh : cc_ctx K) (key : list N) : omac_ctx :=
  mk_omac (Some (CMAC_Init fresh key)) (om_size c) true (om_key c).
(** :71-80: [None] stands for the return value 0. *)
Definition omac_imit_update (c : omac_ctx) (data : list N) : Z * omac_ctx :=
  if om_set c then
    match om_cmac c with
    | Some m => (1%Z, mk_omac (Some (CMAC_Update m data)) (om_size c) (om_set c) (om_key c))
    | None => (0%Z, c)
    end
  else (0%Z, c).
(** :82-97 *)
Definition omac_imit_final (c : omac_ctx) : Z * list N * omac_ctx :=
  if om_set c then
    match om_cmac c with
    | Some m => let (m, mac) := CMAC_Final m in
                (1%Z, firstn (om_size c) mac, mk_omac (Some m) (om_size c) (om_set c) (om_key c))
    | None => (0%Z, nil, c)
    end
  else (0%Z, nil, c).
(** :163-213, EVP_MD_CTRL_SET_KEY: the digest's init runs first, so the context is reset in every
    case.  [arg] is 0 (a struct gost_mac_key) or the key length 32. *)
Definition omac_set_key (c : omac_ctx) (fresh : cc_ctx K) (arg : Z) (ptr : list N) : Z * omac_ctx :=
  let c := omac_init in
  if (arg =? 0)%Z || (arg =? 32)%Z then
    let key := firstn 32 ptr in
    let c := omac_key c fresh key in
    (1%Z, mk_omac (om_cmac c) (om_size c) (om_set c) key)
  else (0%Z, c).
(** :214-236, EVP_MD_CTRL_XOF_LEN *)
Definition omac_xof_len (c : omac_ctx) (arg : Z) : Z * omac_ctx :=
  if (arg <? 1)%Z || (Z.of_nat (cc_bl K) <? arg)%Z then (0%Z, c)
  else (1%Z, mk_omac (om_cmac c) (Z.to_nat arg) (om_set c) (om_key c)).
(** :238-257, EVP_MD_CTRL_TLSTREE *)
Definition omac_tlstree (h : host) (c : omac_ctx) (fresh : cc_ctx K) (seq : list N) : Z * omac_ctx :=
  if om_set c then
    match gost_tlstree h (cc_nid K) (om_key c) (firstn 8 seq) with
    | Some diversed_key => (1%Z, omac_key c fresh diversed_key)
    | None => (0%Z, c)
    end
  else (0%Z, c).

(** The calls on an OMAC digest context, after EVP_DigestInit. *)
Inductive omac_call :=
| OSetKey (fresh : cc_ctx K) (arg : Z) (ptr : list N)
| OXofLen (arg : Z)
| OTlstree (fresh : cc_ctx K) (seq : list N)
| OUpdate (data : list N)
| OFinal.
Definition omac_step (h : host) (c : omac_ctx) (o : omac_call) : Z * list N * omac_ctx :=
  match o with
  | OSetKey fresh arg ptr => let (r, c) := omac_set_key c fresh arg ptr in (r, nil, c)
  | OXofLen arg => let (r, c) := omac_xof_len c arg in (r, nil, c)
  | OTlstree fresh seq => let (r, c) := omac_tlstree h c fresh seq in (r, nil, c)
  | OUpdate data => let (r, c) := omac_imit_update c data in (r, nil, c)
  | OFinal => omac_imit_final c
  end.
(** Return values and outputs of a sequence of calls. *)
Fixpoint omac_run (h : host) (c : omac_ctx) (ops : list omac_call) : list (Z * list N) :=
  match ops with
  | nil => nil
  | o :: t => let '(r, out, c) := omac_step h c o in (r, out) :: omac_run h c t
  end.
End Cmac.
Arguments cm_k1 {K}. Arguments cm_k2 {K}. Arguments cm_st {K}.
Arguments om_cmac {K}. Arguments om_size {K}. Arguments om_set {K}. Arguments om_key {K}.
Arguments OSetKey {K}. Arguments OXofLen {K}. Arguments OTlstree {K}. Arguments OUpdate {K}. Arguments OFinal {K}.

(** * gost_omac_acpkm.c *)
(** gost_omac_acpkm.c:23-38: the chaining part (cctx, actx, km, section_size, num). *)
Record acs := mk_acs { a_c : kctx; a_a : kctx; a_km : list N; a_sect : N; a_num : N }.
(** :183-190 [CMAC_ACPKM_Master] and :192-204 [CMAC_ACPKM_Mesh] *)
Definition CMAC_ACPKM_Mesh (s : acs) : acs :=
  if a_num s <? a_sect s then s
  else
    let (a, km) := do_ctracpkm (a_a s) (zeros 48) in
    mk_acs (init_cbc (a_c s) (Some (firstn 32 km)) (Some (k_iv (a_c s))) true) a km (a_sect s) 0.
(** :237-243 *)
Definition acpkm_blk (s : acs) (b : list N) : acs :=
  let s := CMAC_ACPKM_Mesh s in
  mk_acs (fst (do_cbc (a_c s) b)) (a_a s) (a_km s) (a_sect s) (w32 (a_num s + 16)).
Definition acmac : Type := acs * list N * nat.
(** :58-79, 120-181 [CMAC_ACPKM_CTX_new], [CMAC_ACPKM_Init] with key and cipher *)
Definition CMAC_ACPKM_Init (key : list N) : acmac :=
  let c := init_cbc kctx0 None None true in
  let a := init_ctracpkm kctx0 None None true in
  let a := init_ctracpkm a (Some key) (Some (repeat 0xff 8 ++ zeros 8)) true in
  let (a, km) := do_ctracpkm a (zeros 48) in
  let c := init_cbc c (Some (firstn 32 km)) (Some (zeros 16)) true in
  (mk_acs c a km 4096 0, zeros 32, 0%nat).
Definition CMAC_ACPKM_Update (m : acmac) (data : list N) : acmac := upd 16 acpkm_blk m data.
(** :253-296 [CMAC_ACPKM_Final] *)
Definition CMAC_ACPKM_Final (m : acmac) : acmac * list N :=
  let '(s, last, lb) := m in
  let s := CMAC_ACPKM_Mesh s in
  let k1 := skipn 32 (a_km s) in
  let k2 := make_kn 16 k1 in
  let (last, x) := last_xor 16 last lb k1 k2 in
  let (c, out) := do_cbc (a_c s) x in
  ((mk_acs c (a_a s) (zeros 48) (a_sect s) (a_num s), last, lb), out).

(** :302-307 *)
Record oac_ctx := mk_oac { oc_cmac : option acmac; oc_size : nat; oc_set : bool }.
(** :311-330 *)
Definition omac_acpkm_init : oac_ctx := mk_oac None 16 false.
Inductive oac_call :=
| ASetKey (arg : Z) (ptr : list N)
| AKeyMesh (arg : Z) (ptr : option Z)
| AXofLen (arg : Z)
| AUpdate (data : list N)
| AFinal.
Inductive oac_result := ARet (r : Z) (out : list N) | AUndefined.
(** :424-463 EVP_MD_CTRL_SET_KEY, :400-416 [omac_acpkm_key] *)
Definition omac_acpkm_set_key (arg : Z) (ptr : list N) : Z * oac_ctx :=
  if (arg =? 0)%Z || (arg =? 32)%Z
  then (1%Z, mk_oac (Some (CMAC_ACPKM_Init (firstn 32 ptr))) 16 true)
  else (0%Z, omac_acpkm_init).
(** :464-487 EVP_CTRL_KEY_MESH; without a CMAC context a null pointer is dereferenced ([None]).
    EVP_CIPHER_CTX_ctrl reports a control call that returned -1 as 0. *)
Definition acm_mesh (m : acmac) (sect : N) (a : kctx) : acmac :=
  let '(s, last, n) := m in (mk_acs (a_c s) a (a_km s) sect (a_num s), last, n).
Definition omac_acpkm_key_mesh (c : oac_ctx) (arg : Z) (ptr : option Z) : option (Z * oac_ctx) :=
  if (arg =? 0)%Z || negb (Z.rem arg 16 =? 0)%Z then Some ((-1)%Z, c)
  else match oc_cmac c with
       | None => None
       | Some m =>
           let sect := Z.to_N (arg mod 4294967296) in
           let a := a_a (fst (fst m)) in
           let (r, a) := match ptr with
                         | Some t => if (t =? 0)%Z then (1%Z, a)
                                     else let (r, a) := kuz_ctl_key_mesh a t in (if (r =? -1)%Z then 0%Z else r, a)
                         | None => (1%Z, a)
                         end in
           Some (r, mk_oac (Some (acm_mesh m sect a)) (oc_size c) (oc_set c))
       end.
(** :332-360, 418-515 *)
Definition oac_step (c : oac_ctx) (o : oac_call) : oac_result * oac_ctx :=
  match o with
  | ASetKey arg ptr => let (r, c) := omac_acpkm_set_key arg ptr in (ARet r nil, c)
  | AKeyMesh arg ptr => match omac_acpkm_key_mesh c arg ptr with
                        | Some (r, c) => (ARet r nil, c)
                        | None => (AUndefined, c)
                        end
  | AXofLen arg => if (arg <? 1)%Z || (16 <? arg)%Z then (ARet 0 nil, c)
                   else (ARet 1 nil, mk_oac (oc_cmac c) (Z.to_nat arg) (oc_set c))
  | AUpdate data =>
      match oc_set c, oc_cmac c with
      | true, Some m => (ARet 1 nil, mk_oac (Some (CMAC_ACPKM_Update m data)) (oc_size c) true)
      | _, _ => (ARet 0 nil, c)
      end
  | AFinal =>
      match oc_set c, oc_cmac c with
      | true, Some m => let (m, mac) := CMAC_ACPKM_Final m in
                        (ARet 1 (firstn (oc_size c) mac), mk_oac (Some m) (oc_size c) true)
      | _, _ => (ARet 0 nil, c)
      end
  end.
Fixpoint oac_run (c : oac_ctx) (ops : list oac_call) : list oac_result :=
  match ops with
  | nil => nil
  | o :: t => let (r, c) := oac_step c o in r :: oac_run c t
  end.
