(** Pointer-level model of digest and cipher contexts and their duplication: gost_omac.c, gost_omac_acpkm.c, gost_md.c and
    the MGM ciphers.  What a context keeps outside its own structure lives in a heap. *)
From Coq Require Import ZArith List Bool Lia.
From Verif Require Import Bytes Gost89Model Gost89Sboxes CryptModel KdfModel OmacModel Hash94Model MgmModel.
Import ListNotations.
Open Scope Z_scope.

(** * The heap *)
(** Cells are never reused; a freed cell is empty, so that using or freeing it again is an error. *)
Record heap (O : Type) := mk_heap { hp_next : nat; hp_cell : nat -> option O }.
Arguments mk_heap {O}. Arguments hp_next {O}. Arguments hp_cell {O}.
Definition put {A} (f : nat -> A) (i : nat) (x : A) : nat -> A := fun j => if Nat.eqb j i then x else f j.
Definition alloc {O} (h : heap O) (o : O) : heap O * nat := (mk_heap (S (hp_next h)) (put (hp_cell h) (hp_next h) (Some o)), hp_next h).
Definition read {O} (h : heap O) (p : option nat) : option O := match p with Some a => hp_cell h a | None => None end.
Definition write {O} (h : heap O) (p : option nat) (o : O) : heap O :=
  match p with Some a => mk_heap (hp_next h) (put (hp_cell h) a (Some o)) | None => h end.
(** free(NULL) does nothing; freeing a cell that is not allocated is an error. *)
Definition free {O} (h : heap O) (p : option nat) : option (heap O) :=
  match p with
  | None => Some h
  | Some a => match hp_cell h a with Some _ => Some (mk_heap (hp_next h) (put (hp_cell h) a None)) | None => None end
  end.

(** * The EVP layer *)
(** A digest implementation as the EVP layer sees it.  [C]: the structure md_data.  A call gives None if it uses a dangling or
    NULL pointer; its result is None if the call makes no sense to the interface (nothing happens then). *)
Record methods (O C Call : Type) := mk_methods {
  m_init : C;                                                    (* EVP_DigestInit on new, zeroed memory *)
  m_call : heap O -> C -> Call -> option (option (Z * list N) * heap O * C);
  m_copy : heap O -> C -> C -> option (Z * heap O * C);          (* to, from *)
  m_cleanup : heap O -> C -> option (heap O)
}.
Arguments m_init {O C Call}. Arguments m_call {O C Call}. Arguments m_copy {O C Call}. Arguments m_cleanup {O C Call}.
(** Operations on numbered contexts. *)
Inductive op (Call : Type) :=
  | New (i : nat)              (* EVP_MD_CTX_new, EVP_DigestInit_ex *)
  | Do (i : nat) (c : Call)    (* EVP_DigestUpdate, EVP_MD_CTX_ctrl, EVP_DigestFinal_ex *)
  | Copy (from to : nat)       (* EVP_MD_CTX_copy_ex, also into a context already in use *)
  | Free (i : nat).            (* EVP_MD_CTX_free *)
Arguments New {Call}. Arguments Do {Call}. Arguments Copy {Call}. Arguments Free {Call}.
Definition target {Call} (o : op Call) : nat := match o with New i | Do i _ | Copy _ i | Free i => i end.

Section Evp.
Variables (O C Call : Type) (M : methods O C Call).
Definition state : Type := heap O * (nat -> option C).
Definition start : state := (mk_heap 0 (fun _ => None), fun _ => None).
(** One operation; the outer None is the use of a wrong pointer. *)
Definition step (s : state) (o : op Call) : option (option (Z * list N) * state) :=
  let '(h, T) := s in
  match o with
  | New i => match T i with None => Some (Some (1, nil), (h, put T i (Some (m_init M)))) | Some _ => Some (None, s) end
  | Do i c =>
      match T i with
      | None => Some (None, s)
      | Some x => match m_call M h x c with Some (r, h, x) => Some (r, (h, put T i (Some x))) | None => None end
      end
  | Copy i j =>
      if Nat.eqb i j then Some (None, s)
      else match T i with
      | None => Some (None, s)
      | Some x =>
          (* EVP_MD_CTX_copy_ex: reset the target (cleanup), memcpy the structure, call the copy method *)
          match match T j with Some y => m_cleanup M h y | None => Some h end with
          | None => None
          | Some h => match m_copy M h x x with Some (r, h, y) => Some (Some (r, nil), (h, put T j (Some y))) | None => None end
          end
      end
  | Free i =>
      match T i with
      | None => Some (None, s)
      | Some x => match m_cleanup M h x with Some h => Some (Some (1, nil), (h, put T i None)) | None => None end
      end
  end.
(** The results of a program, each with the context it was for. *)
Fixpoint run (s : state) (l : list (op Call)) : option (list (nat * option (Z * list N))) :=
  match l with
  | nil => Some nil
  | o :: l => match step s o with
              | None => None
              | Some (r, s) => match run s l with Some rs => Some ((target o, r) :: rs) | None => None end
              end
  end.
End Evp.
Arguments start {O C}. Arguments step {O C Call}. Arguments run {O C Call}.

(** * gost_omac.c *)
Section Omac.
Variable K : cbc_cipher.
Variable hst : host.
(** gost_omac.c:19-37; [ho_named]: cipher_name is not NULL. *)
Record homac := mk_homac { ho_ptr : option nat; ho_size : nat; ho_set : bool; ho_key : list N; ho_named : bool }.
(** :41-69: memset, the pointer is dropped. *)
Definition h_omac_init : homac := mk_homac None (cc_bl K) false (zeros 32) true.
Definition h_omac_zero : homac := mk_homac None 0 false (zeros 32) false.
(** :137-154 [omac_key] *)
Definition h_omac_key (h : heap (cmac K)) (c : homac) (fresh : cc_ctx K) (key : list N) : option (heap (cmac K) * homac) :=
  match free h (ho_ptr c) with
  | None => None
  | Some h => let (h, p) := alloc h (CMAC_Init K fresh key) in Some (h, mk_homac (Some p) (ho_size c) true (ho_key c) (ho_named c))
  end.
(** :126-135 [omac_imit_cleanup] *)
Definition h_omac_cleanup (h : heap (cmac K)) (c : homac) : option (heap (cmac K)) := free h (ho_ptr c).
(** The calls, see [omac_step]; OFinal is EVP_DigestFinal_ex, which also cleans the context up.  XOF_LEN on a cleaned context
    (no cipher name) is excluded. *)
Definition h_omac_call (h : heap (cmac K)) (c : homac) (o : omac_call K) : option (option (Z * list N) * heap (cmac K) * homac) :=
  match o with
  | OSetKey fresh arg ptr =>
      let c := h_omac_init in
      if (arg =? 0) || (arg =? 32) then
        let key := firstn 32 ptr in
        match h_omac_key h c fresh key with
        | Some (h, c) => Some (Some (1, nil), h, mk_homac (ho_ptr c) (ho_size c) (ho_set c) key (ho_named c))
        | None => None
        end
      else Some (Some (0, nil), h, c)
  | OXofLen arg =>
      if ho_named c then
        if (arg <? 1) || (Z.of_nat (cc_bl K) <? arg) then Some (Some (0, nil), h, c)
        else Some (Some (1, nil), h, mk_homac (ho_ptr c) (Z.to_nat arg) (ho_set c) (ho_key c) (ho_named c))
      else Some (None, h, c)
  | OTlstree fresh seq =>
      if ho_set c then
        match gost_tlstree hst (cc_nid K) (ho_key c) (firstn 8 seq) with
        | Some k => match h_omac_key h c fresh k with Some (h, c) => Some (Some (1, nil), h, c) | None => None end
        | None => Some (Some (0, nil), h, c)
        end
      else Some (Some (0, nil), h, c)
  | OUpdate data =>
      if ho_set c then
        match read h (ho_ptr c) with
        | Some m => Some (Some (1, nil), write h (ho_ptr c) (CMAC_Update K m data), c)
        | None => None
        end
      else Some (Some (0, nil), h, c)
  | OFinal =>
      if ho_set c then
        match read h (ho_ptr c) with
        | Some m =>
            let (m, mac) := CMAC_Final K m in
            match h_omac_cleanup (write h (ho_ptr c) m) c with Some h => Some (Some (1, firstn (ho_size c) mac), h, h_omac_zero) | None => None end
        | None => None
        end
      else match h_omac_cleanup h c with Some h => Some (Some (0, nil), h, h_omac_zero) | None => None end
  end.
(** Comparison of the pointers, as in :119. *)
Definition ptr_eqb (p q : option nat) : bool := match p, q with Some a, Some b => Nat.eqb a b | None, None => true | _, _ => false end.
(** :99-123 [omac_imit_copy] *)
Definition h_omac_copy (h : heap (cmac K)) (to from : homac) : option (Z * heap (cmac K) * homac) :=
  let to := mk_homac (ho_ptr to) (ho_size from) (ho_set from) (ho_key from) (ho_named from) in
  match ho_ptr from with
  | None =>
      match free h (ho_ptr to) with Some h => Some (1, h, mk_homac None (ho_size to) (ho_set to) (ho_key to) (ho_named to)) | None => None end
  | Some _ =>
      match read h (ho_ptr from) with
      | None => None
      | Some m =>
          if ptr_eqb (ho_ptr to) (ho_ptr from) then
            let (h, p) := alloc h m in Some (1, h, mk_homac (Some p) (ho_size to) (ho_set to) (ho_key to) (ho_named to))
          else match read h (ho_ptr to) with Some _ => Some (1, write h (ho_ptr to) m, to) | None => None end
      end
  end.
Definition omac_methods : methods (cmac K) homac (omac_call K) := mk_methods _ _ _ h_omac_init h_omac_call h_omac_copy h_omac_cleanup.
End Omac.

(** * gost_omac_acpkm.c *)
(** :302-307 *)
Record hoac := mk_hoac { ha_ptr : option nat; ha_size : nat; ha_set : bool; ha_named : bool }.
Definition h_oac_init : hoac := mk_hoac None 16 false true.
Definition h_oac_zero : hoac := mk_hoac None 0 false false.
(** :388-398 *)
Definition h_oac_cleanup (h : heap acmac) (c : hoac) : option (heap acmac) := free h (ha_ptr c).
(** :332-360, 400-515, see [oac_step]; KEY_MESH without a key reads through a NULL pointer and is excluded here (result None)
    because it is a misuse (see C31), as is XOF_LEN on a cleaned context. *)
Definition h_oac_call (h : heap acmac) (c : hoac) (o : oac_call) : option (option (Z * list N) * heap acmac * hoac) :=
  match o with
  | ASetKey arg ptr =>
      if (arg =? 0) || (arg =? 32) then
        let (h, p) := alloc h (CMAC_ACPKM_Init (firstn 32 ptr)) in Some (Some (1, nil), h, mk_hoac (Some p) 16 true true)
      else Some (Some (0, nil), h, h_oac_init)
  | AKeyMesh arg ptr =>
      if (arg =? 0) || negb (Z.rem arg 16 =? 0) then Some (Some (-1, nil), h, c)
      else match ha_ptr c with
      | None => Some (None, h, c)
      | Some _ =>
          match read h (ha_ptr c) with
          | None => None
          | Some m =>
              match omac_acpkm_key_mesh (mk_oac (Some m) (ha_size c) (ha_set c)) arg ptr with
              | Some (r, x) => match oc_cmac x with Some m => Some (Some (r, nil), write h (ha_ptr c) m, c) | None => None end
              | None => None
              end
          end
      end
  | AXofLen arg =>
      if ha_named c then
        if (arg <? 1) || (16 <? arg) then Some (Some (0, nil), h, c)
        else Some (Some (1, nil), h, mk_hoac (ha_ptr c) (Z.to_nat arg) (ha_set c) (ha_named c))
      else Some (None, h, c)
  | AUpdate data =>
      if ha_set c then
        match read h (ha_ptr c) with Some m => Some (Some (1, nil), write h (ha_ptr c) (CMAC_ACPKM_Update m data), c) | None => None end
      else Some (Some (0, nil), h, c)
  | AFinal =>
      if ha_set c then
        match read h (ha_ptr c) with
        | Some m =>
            let (m, mac) := CMAC_ACPKM_Final m in
            match h_oac_cleanup (write h (ha_ptr c) m) c with Some h => Some (Some (1, firstn (ha_size c) mac), h, h_oac_zero) | None => None end
        | None => None
        end
      else match h_oac_cleanup h c with Some h => Some (Some (0, nil), h, h_oac_zero) | None => None end
  end.
(** :362-386 [omac_acpkm_imit_copy] *)
Definition h_oac_copy (h : heap acmac) (to from : hoac) : option (Z * heap acmac * hoac) :=
  let to := mk_hoac (ha_ptr to) (ha_size from) (ha_set from) (ha_named from) in
  match ha_ptr from with
  | None =>
      match free h (ha_ptr to) with Some h => Some (1, h, mk_hoac None (ha_size to) (ha_set to) (ha_named to)) | None => None end
  | Some _ =>
      match read h (ha_ptr from) with
      | None => None
      | Some m =>
          if ptr_eqb (ha_ptr to) (ha_ptr from) || (match ha_ptr to with None => true | _ => false end) then
            let (h, p) := alloc h m in Some (1, h, mk_hoac (Some p) (ha_size to) (ha_set to) (ha_named to))
          else match read h (ha_ptr to) with Some _ => Some (1, write h (ha_ptr to) m, to) | None => None end
      end
  end.
Definition oac_methods : methods acmac hoac oac_call := mk_methods _ _ _ h_oac_init h_oac_call h_oac_copy h_oac_cleanup.

(** * gost_md.c: the GOST R 34.11-94 digest *)
(** The structure of gost_md.c contains the hash context, which points to a block cipher context - normally the one in the same
    structure.  [p94_ptr]: the number of the digest context whose cipher context is pointed to. *)
Record p94 := mk_p94 { p94_hash : hash_ctx; p94_cipher : gost_ctx; p94_ptr : option nat }.
Inductive call94 := Update94 (d : list N) | Final94.
(** The hash functions work on the cipher context pointed to ([h_cipher] of the model is filled in before and stored after). *)
Definition p94_with (x : hash_ctx) (g : gost_ctx) : hash_ctx := mk_hash (h_len x) g (h_left x) (h_H x) (h_S x) (h_rem x).
Definition p94_step (T : nat -> option p94) (o : op call94) (mem : gost_ctx) : option (option (Z * list N) * (nat -> option p94)) :=
  match o with
  | New i =>     (* gost_md.c:81-88; the memory held [mem] before *)
      match T i with
      | None => Some (Some (1, nil), put T i (Some (mk_p94 (gost_digest_init mem) (gost_init mem GostR3411_94_CryptoProParamSet) (Some i))))
      | Some _ => Some (None, T)
      end
  | Do i c =>    (* :90-99 *)
      match T i with
      | None => Some (None, T)
      | Some x =>
          match p94_ptr x with
          | None => Some (None, T)             (* EVP_DigestFinal_ex has cleared the context: calls are excluded *)
          | Some k =>
              match T k with
              | None => None                   (* the cipher context is gone *)
              | Some y =>
                  let x1 := p94_with (p94_hash x) (p94_cipher y) in
                  match c with
                  | Update94 d =>
                      let x2 := hash_block x1 d in
                      let T := put T i (Some (mk_p94 x2 (p94_cipher x) (Some k))) in
                      match T k with
                      | None => None
                      | Some y => Some (Some (1, nil), put T k (Some (mk_p94 (p94_hash y) (h_cipher x2) (p94_ptr y))))
                      end
                  | Final94 =>                 (* and :112-118, EVP_DigestFinal_ex cleans up; a cipher context elsewhere is left as
                                                  finish_hash leaves it *)
                      let '(x2, out) := finish_hash x1 in
                      let T := put T k (Some (mk_p94 (p94_hash y) (h_cipher x2) (p94_ptr y))) in
                      Some (Some (1, out), put T i (Some (mk_p94 x2 (h_cipher x2) None)))
                  end
              end
          end
      end
  | Copy i j =>  (* :101-110; with a cleared context the pointer would still be set, but no call uses it *)
      if Nat.eqb i j then Some (None, T)
      else match T i with
      | None => Some (None, T)
      | Some x => Some (Some (1, nil), put T j (Some (mk_p94 (p94_hash x) (p94_cipher x) (match p94_ptr x with Some _ => Some j | None => None end))))
      end
  | Free i => match T i with None => Some (None, T) | Some _ => Some (Some (1, nil), put T i None) end
  end.
Fixpoint p94_run (T : nat -> option p94) (l : list (op call94 * gost_ctx)) : option (list (nat * option (Z * list N))) :=
  match l with
  | nil => Some nil
  | (o, mem) :: l => match p94_step T o mem with
              | None => None
              | Some (r, T) => match p94_run T l with Some rs => Some ((target o, r) :: rs) | None => None end
              end
  end.

(** * Contexts without pointers *)
(** gost_md2012.c:86-93 and gost_crypt.c:1638-1645: the whole structure is copied; cleaning up overwrites it.  [call]: the other
    functions of the digest. *)
Definition flat_methods {C Call} (init : C) (call : C -> Call -> option (Z * list N) * C) : methods unit C Call :=
  mk_methods _ _ _ init (fun h c k => let (r, c) := call c k in Some (r, h, c)) (fun h to from => Some (1, h, from)) (fun h c => Some h).

(** * The MGM ciphers *)
(** EVP_CIPHER_CTX_copy copies the structure gost_mgm_ctx as it is (the ciphers do not set EVP_CIPH_CUSTOM_COPY:
    gost_crypt.c:254-267, gost_grasshopper_cipher.c:128-141), with [mgm.key], which points to the key schedule of the context
    gost_mgm128_init was called for.  [pm_ptr]: that context.  (The structure's pointer to
    the EVP context's IV is copied too; this model keeps the IV in the structure.) *)
Record pmgm := mk_pmgm { pm_ctx : mevp; pm_ptr : option nat }.
Section PMgm.
Variable bl : nat.
Variable le : bool.
Variable Ek : list N -> list N -> list N.
Variable mul : list N -> list N -> list N.
Inductive mgm_op :=
  | MNew (i : nat)
  | MInit (i : nat) (key iv : option (list N)) (enc : bool)
  | MDo (i : nat) (c : mgm_call)
  | MGetTag (i : nat) (n : Z)
  | MCopy (from to : nat)
  | MFree (i : nat).
(** The context with the key schedule it points to. *)
Definition pm_view (c : mevp) (k : list N) : mevp := mk_mevp k (x_keyset c) (x_ivset c) (x_mgm c) (x_iv c) (x_taglen c) (x_buf c) (x_enc c).
Definition pm_step (T : nat -> option pmgm) (o : mgm_op) : option (option (Z * list N) * (nat -> option pmgm)) :=
  match o with
  | MNew i => match T i with None => Some (Some (1, nil), put T i (Some (mk_pmgm (mevp0 bl) None))) | Some _ => Some (None, T) end
  | MInit i key iv enc =>
      match T i with
      | None => Some (None, T)
      | Some x => Some (Some (1, nil), put T i (Some (mk_pmgm (mgm_init_evp bl (pm_ctx x) key iv enc)
                    (match key with Some _ => Some i | None => pm_ptr x end))))
      end
  | MDo i c =>
      match T i with
      | None => Some (None, T)
      | Some x =>
          match pm_ptr x with
          | None => let '(r, y, out) := do_mgm bl le Ek mul (pm_ctx x) c in Some (Some (r, out), put T i (Some (mk_pmgm y None)))
          | Some j =>
              match T j with
              | None => None                     (* the key schedule has been freed *)
              | Some z =>
                  let '(r, y, out) := do_mgm bl le Ek mul (pm_view (pm_ctx x) (x_key (pm_ctx z))) c in
                  Some (Some (r, out), put T i (Some (mk_pmgm (pm_view y (x_key (pm_ctx x))) (pm_ptr x))))
              end
          end
      end
  | MGetTag i n => match T i with None => Some (None, T) | Some x => Some (option_map (fun t => (1, t)) (mgm_get_tag bl (pm_ctx x) n), T) end
  | MCopy i j =>
      if Nat.eqb i j then Some (None, T)
      else match T i with None => Some (None, T) | Some x => Some (Some (1, nil), put T j (Some x)) end
  | MFree i => match T i with None => Some (None, T) | Some _ => Some (Some (1, nil), put T i None) end
  end.
Definition mtarget (o : mgm_op) : nat := match o with MNew i | MInit i _ _ _ | MDo i _ | MGetTag i _ | MCopy _ i | MFree i => i end.
Fixpoint pm_run (T : nat -> option pmgm) (l : list mgm_op) : option (list (nat * option (Z * list N))) :=
  match l with
  | nil => Some nil
  | o :: l => match pm_step T o with
              | None => None
              | Some (r, T) => match pm_run T l with Some rs => Some ((mtarget o, r) :: rs) | None => None end
              end
  end.
End PMgm.
