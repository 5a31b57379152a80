(** Model of KExp15/KImp15 (gost_keyexpimp.c:30-199) and of the magma-kexp15 and kuznyechik-kexp15 wrap
    ciphers (:307-466), on the models of the OMAC digests and of the CTR ciphers.  Allocation failures and
    failing algorithm lookups are not modelled. *)
From Verif Require Import Bytes StreamMode Gost89Model CryptModel KuzModel KuzCipherModel KdfModel OmacModel.
From Coq Require Import List NArith ZArith.
Open Scope N_scope.

Inductive ctr_nid := NID_magma_ctr | NID_grasshopper_ctr | NID_other_cipher.
Inductive mac_nid := NID_magma_mac | NID_grasshopper_mac.
(** Newly allocated contexts: the Magma ones carry the state of the mask generator. *)
Record fresh := mk_fresh { f_mac : evp; f_ctr : evp }.

(** :49-50, 131-132 *)
Definition wrap_mac_len (c : ctr_nid) : nat :=
  match c with NID_magma_ctr => 8 | NID_grasshopper_ctr => 16 | NID_other_cipher => 0 end.

(** :72-78, 175-181: EVP_DigestInit_ex, SET_KEY, XOF_LEN, two updates and EVP_DigestFinalXOF, which calls
    XOF_LEN once more and then the digest's final; [None]: one of the calls failed. *)
Definition omac_two {K : cbc_cipher} (h : host) (f : cc_ctx K) (key : list N) (len : nat) (a b : list N) : option (list N) :=
  let rs := omac_run K h (omac_init K)
    [OSetKey f 32 key; OXofLen (Z.of_nat len); OUpdate a; OUpdate b; OXofLen (Z.of_nat len); OFinal] in
  if forallb (fun r => (0 <? fst r)%Z) rs then Some (snd (last rs (0%Z, nil))) else None.
Definition mac_two (h : host) (f : fresh) (m : mac_nid) (key : list N) (len : nat) (a b : list N) : option (list N) :=
  match m with
  | NID_magma_mac => omac_two (K := magma_cbc_cipher) h (f_mac f) key len a b
  | NID_grasshopper_mac => omac_two (K := kuz_cbc_cipher) h kctx0 key len a b
  end.
(** :89-94, 159-163: EVP_CipherInit_ex with the cipher only, again with key and IV, then the updates.
    The final call of a CTR cipher writes nothing. *)
Definition ctr_crypt (f : fresh) (c : ctr_nid) (key iv : list N) (enc : bool) (chunks : list (list N)) : list N :=
  match c with
  | NID_magma_ctr =>
      let x := magma_cipher_init 4 false (f_ctr f) None None enc in
      let x := magma_cipher_init 4 false x (Some key) (Some iv) enc in
      snd (run_chunks evp magma_cipher_do_ctr x chunks)
  | NID_grasshopper_ctr =>
      let x := init_ctr kctx0 None None enc in
      let x := init_ctr x (Some key) (Some iv) enc in
      snd (run_chunks kctx do_ctr x chunks)
  | NID_other_cipher => nil
  end.

Inductive kresult := KFail | KOut (out : list N) | KOverflow.
(** :34-109 [gost_kexp15]; [cap] is the incoming *out_len.  [KOverflow]: the copy of the IV (:64) writes past
    iv_full. *)
Definition gost_kexp15 (h : host) (f : fresh) (shared_key : list N) (c : ctr_nid) (cipher_key : list N)
  (m : mac_nid) (mac_key iv : list N) (cap : nat) : kresult :=
  let mac_len := wrap_mac_len c in
  if (mac_len =? 0)%nat then KFail
  else if (cap <? length shared_key + mac_len)%nat then KFail
  else if (16 <? length iv)%nat then KOverflow
  else
    let iv_full := overwrite (zeros 16) 0 iv in
    match mac_two h f m mac_key mac_len iv shared_key with
    | None => KFail
    | Some mac_buf => KOut (ctr_crypt f c cipher_key iv_full true [shared_key; mac_buf])
    end.

(** :115-199 [gost_kimp15]; [stack] is what the uninitialised buffer out[48] holds on entry. *)
Definition gost_kimp15 (h : host) (f : fresh) (stack : list N) (expkey : list N) (c : ctr_nid) (cipher_key : list N)
  (m : mac_nid) (mac_key iv : list N) : kresult :=
  let mac_len := wrap_mac_len c in
  if (mac_len =? 0)%nat then KFail
  else if (48 <? length expkey)%nat then KFail
  else if (16 <? length iv)%nat then KFail
  else
    let iv_full := overwrite (zeros 16) 0 iv in
    let out := overwrite stack 0 (ctr_crypt f c cipher_key iv_full false [expkey]) in
    match mac_two h f m mac_key mac_len iv (firstn 32 out) with
    | None => KFail
    | Some mac_buf => if eqbl mac_buf (firstn mac_len (skipn 32 out)) then KOut (firstn 32 out) else KFail
    end.

(** * The wrap ciphers *)
Inductive wrap_cipher := WRAP_MAGMA | WRAP_KUZNYECHIK.
(** :317-322 [GOST_WRAP_CTX] and the direction kept by EVP_CIPHER_CTX. *)
Record wrap_ctx := mk_wrap { w_iv : list N; w_key : list N; w_wrapped : list N; w_count : nat; w_enc : bool }.
(** A newly allocated (zeroed) context. *)
Definition wrap_new : wrap_ctx := mk_wrap (zeros 8) (zeros 64) (zeros 48) 0 false.
Definition wrap_ivlen (w : wrap_cipher) : nat := match w with WRAP_MAGMA => 4 | WRAP_KUZNYECHIK => 8 end.
(** :313-314 *)
Definition wrapped_len (w : wrap_cipher) : nat := match w with WRAP_MAGMA => 40 | WRAP_KUZNYECHIK => 48 end.
(** :324-340 [magma_wrap_init], :377-393 [kuznyechik_wrap_init] *)
Definition wrap_init (w : wrap_cipher) (x : wrap_ctx) (key iv : option (list N)) (enc : bool) : wrap_ctx :=
  mk_wrap (match iv with Some v => overwrite (zeros 8) 0 (firstn (wrap_ivlen w) v) | None => w_iv x end)
          (match key with Some k => overwrite (w_key x) 0 (firstn 64 k) | None => w_key x end)
          (zeros 48) 0 enc.
Definition wrap_ctr (w : wrap_cipher) : ctr_nid := match w with WRAP_MAGMA => NID_magma_ctr | WRAP_KUZNYECHIK => NID_grasshopper_ctr end.
Definition wrap_mac (w : wrap_cipher) : mac_nid := match w with WRAP_MAGMA => NID_magma_mac | WRAP_KUZNYECHIK => NID_grasshopper_mac end.
(** :342-375 [magma_wrap_do], :395-428 [kuznyechik_wrap_do], with a non-null output: the return value, the
    bytes written, the context. *)
Definition wrap_do (w : wrap_cipher) (h : host) (f : fresh) (stack : list N) (x : wrap_ctx) (inp : list N)
  : Z * list N * wrap_ctx :=
  let len := wrapped_len w in
  if (length inp <=? len)%nat && (len <? w_count x + length inp)%nat then ((-1)%Z, nil, x)
  else
    let x := if (length inp <=? len)%nat
             then mk_wrap (w_iv x) (w_key x) (overwrite (w_wrapped x) (w_count x) inp) (w_count x + length inp) (w_enc x)
             else x in
    if (w_count x <? len)%nat then (0%Z, nil, x)
    else if w_enc x then ((-1)%Z, nil, x)
    else
      match gost_kimp15 h f stack (firstn (w_count x) (w_wrapped x)) (wrap_ctr w) (skipn 32 (w_key x)) (wrap_mac w)
              (firstn 32 (w_key x)) (firstn (wrap_ivlen w) (w_iv x)) with
      | KOut k => (32%Z, k, x)
      | _ => (0%Z, nil, x)
      end.
(** The results of a sequence of calls. *)
Fixpoint wrap_run (w : wrap_cipher) (h : host) (f : fresh) (stack : list N) (x : wrap_ctx) (chunks : list (list N))
  : list (Z * list N) :=
  match chunks with
  | nil => nil
  | d :: t => let '(r, o, x) := wrap_do w h f stack x d in (r, o) :: wrap_run w h f stack x t
  end.
