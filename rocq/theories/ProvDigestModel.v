(** Model of the provider's digests: gost_prov_digest.c, with the EVP_MD objects made by gost_md.c and gost_md2012.c.
    Any number of instances of the provider (OSSL_provider_init called once per library context) share the static
    digest descriptors. *)
From Coq Require Import ZArith NArith List Bool Lia.
From Verif Require Import Bytes Gost89Model Hash94Model StreebogModel PmethModel.
Import ListNotations.

Inductive alg := D94 | D256 | D512.

(** gost_lcl.h:371-387 (GOST_digest) with the fields used here; 0 stands for an absent value, as in C. *)
Record descriptor := mk_desc { g_result_size : N; g_input_blocksize : N; g_flags : N; g_template : option (N * N * N) }.
(** gost_md.c:23-33; gost_md2012.c:32-39, 41-48, 50-57 *)
Definition template_2012 : N * N * N := (0, 64, 0)%N.
Definition desc (a : alg) : descriptor :=
  match a with
  | D94 => mk_desc 32 32 0 None
  | D256 => mk_desc 32 0 0 (Some template_2012)
  | D512 => mk_desc 64 0 0 (Some template_2012)
  end.
(** gost_md.c:39-45 TPL *)
Definition tpl (own : N) (tmpl : option N) : N := if (own =? 0)%N then match tmpl with Some t => t | None => 0%N end else own.
(** gost_md.c:47-71 [GOST_init_digest]: what the EVP_MD says *)
Definition md_size (a : alg) : N := tpl (g_result_size (desc a)) (option_map (fun t => fst (fst t)) (g_template (desc a))).
Definition md_block_size (a : alg) : N := tpl (g_input_blocksize (desc a)) (option_map (fun t => snd (fst t)) (g_template (desc a))).
Definition md_flags (a : alg) : N := N.lor (g_flags (desc a)) (match g_template (desc a) with Some t => snd t | None => 0%N end).
Definition EVP_MD_FLAG_XOF : N := 2.

(** md_data of an EVP_MD_CTX *)
Inductive md_data := M94 (x : hash_ctx) | M2012 (x : sctx).

(** gost_prov_digest.c:27-48.  [x_md] is the EVP_MD (objects are numbered in the order they are made); [x_dctx] the
    EVP_MD_CTX: None without a digest, otherwise its EVP_MD and data.  [x_inst]: the provider instance. *)
Record gctx := mk_gctx { x_inst : nat; x_alg : alg; x_md : nat; x_dctx : option (nat * md_data) }.

(** The process: the descriptors' [digest] fields, the EVP_MDs freed, the number of EVP_MDs made, the contexts (None: freed). *)
Record state := mk_state { st_desc : alg -> option nat; st_freed : list nat; st_next : nat; st_ctxs : list (option gctx) }.
Definition start : state := mk_state (fun _ => None) [] 0 [].
Definition alg_eqb (a b : alg) : bool := match a, b with D94, D94 | D256, D256 | D512, D512 => true | _, _ => false end.

(** Results.  [UseAfterFree]: a freed EVP_MD or context is used; [NullCall]: an EVP_MD_CTX without a digest is asked to work;
    [Overrun]: memory beyond the caller's buffer is read. *)
Inductive result := Handle (h : nat) | Done | Returns (r : bool) | Digest (out : list N) (outl : N)
  | Params (blocksize size : N) (xof : bool) | UseAfterFree | NullCall | Overrun.

Section Machine.
Variable bd : build.
Variable ac : bool.
(** The zeroed memory of a new hash context *)
Variable mem0 : gost_ctx.

(** gost_md.c:47-71, the part that makes the object only once *)
Definition init_digest (s : state) (a : alg) : state * nat :=
  match st_desc s a with
  | Some id => (s, id)
  | None => (mk_state (fun b => if alg_eqb a b then Some (st_next s) else st_desc s b) (st_freed s) (S (st_next s)) (st_ctxs s), st_next s)
  end.
Definition freed (s : state) (id : nat) : bool := existsb (Nat.eqb id) (st_freed s).
Definition set_ctx (s : state) (h : nat) (c : option gctx) : state :=
  mk_state (st_desc s) (st_freed s) (st_next s) (firstn h (st_ctxs s) ++ c :: skipn (S h) (st_ctxs s)).
Definition add_ctx (s : state) (c : gctx) : state := mk_state (st_desc s) (st_freed s) (st_next s) (st_ctxs s ++ [Some c]).

(** :63-81 [digest_newctx] and :150-154; allocation succeeds *)
Definition digest_newctx (s : state) (inst : nat) (a : alg) : state * result :=
  let (s, id) := init_digest s a in (add_ctx s (mk_gctx inst a id None), Handle (length (st_ctxs s))).
(** gost_md.c:81-88; gost_md2012.c:59-71.  Data of the same EVP_MD are reused, otherwise allocated. *)
Definition md_init (a : alg) (old : option md_data) : md_data :=
  match a with
  | D94 => M94 (gost_digest_init (match old with Some (M94 x) => h_cipher x | _ => mem0 end))
  | D256 => M2012 (init_gost2012_hash_ctx 256)
  | D512 => M2012 (init_gost2012_hash_ctx 512)
  end.
(** gost_md.c:90-93; gost_md2012.c:73-78 *)
Definition md_update (d : md_data) (data : list N) : md_data :=
  match d with M94 x => M94 (hash_block x data) | M2012 x => M2012 (gost2012_hash_block bd ac x data) end.
(** gost_md.c:95-99; gost_md2012.c:80-84 *)
Definition md_final (d : md_data) : list N :=
  match d with M94 x => snd (finish_hash x) | M2012 x => snd (gost2012_finish_hash bd ac x) end.

(** :83-92 [digest_dupctx]: the result of EVP_MD_CTX_copy is not looked at; a context without a digest is not copied.  The
    copy callbacks (gost_md.c:101-110, gost_md2012.c:86-93) copy the data (PropDup.v: as a value). *)
Definition digest_dupctx (s : state) (c : gctx) : state * result :=
  let (s', id) := init_digest s (x_alg c) in
  match x_dctx c with
  | None => (add_ctx s' (mk_gctx (x_inst c) (x_alg c) id None), Handle (length (st_ctxs s)))
  | Some (i, d) =>
      if freed s i then (s, UseAfterFree)
      else (add_ctx s' (mk_gctx (x_inst c) (x_alg c) id (Some (i, d))), Handle (length (st_ctxs s)))
  end.
(** :50-61 [digest_freectx]; EVP_MD_CTX_free calls the cleanup of the EVP_MD. *)
Definition digest_freectx (s : state) (h : nat) (c : gctx) : state * result :=
  match x_dctx c with
  | Some (i, _) => if freed s i then (s, UseAfterFree) else (set_ctx s h None, Done)
  | None => (set_ctx s h None, Done)
  end.
(** :108-113 [digest_init]: EVP_DigestInit_ex looks at the EVP_MD given and at the one of the context. *)
Definition digest_init (s : state) (h : nat) (c : gctx) : state * result :=
  let set d := (set_ctx s h (Some (mk_gctx (x_inst c) (x_alg c) (x_md c) (Some (x_md c, d)))), Returns true) in
  if freed s (x_md c) then (s, UseAfterFree)
  else match x_dctx c with
       | None => set (md_init (x_alg c) None)
       | Some (i, d) =>
           if freed s i then (s, UseAfterFree)
           else if (i =? x_md c)%nat then set (md_init (x_alg c) (Some d)) else set (md_init (x_alg c) None)
       end.
(** :115-120 [digest_update]: (int)inl, and EVP_DigestUpdate takes it as a size_t.  [data] is the caller's buffer, inl its
    length.  EVP_DigestUpdate returns 1 for no data at all. *)
Definition digest_update (s : state) (h : nat) (c : gctx) (data : list N) : state * result :=
  let n := to_int (Z.of_nat (length data)) in
  if (n =? 0)%Z then (s, Returns true)
  else match x_dctx c with
       | None => (s, NullCall)
       | Some (i, d) =>
           if freed s i then (s, UseAfterFree)
           else if (n <? 0)%Z then (s, Overrun)
           else (set_ctx s h (Some (mk_gctx (x_inst c) (x_alg c) (x_md c) (Some (i, md_update d (firstn (Z.to_nat n) data))))), Returns true)
       end.
(** :122-132 [digest_final]: outsize is not looked at; EVP_DigestFinal resets the EVP_MD_CTX. *)
Definition digest_final (s : state) (h : nat) (c : gctx) (outsize : N) : state * result :=
  match x_dctx c with
  | None => (s, NullCall)
  | Some (i, d) =>
      if freed s i then (s, UseAfterFree)
      else (set_ctx s h (Some (mk_gctx (x_inst c) (x_alg c) (x_md c) None)), Digest (md_final d) (md_size (x_alg c)))
  end.
(** :94-106 [digest_get_params] through :146-149 *)
Definition digest_get_params (s : state) (a : alg) : state * result :=
  (fst (init_digest s a), Params (md_block_size a) (md_size a) (negb (N.land (md_flags a) EVP_MD_FLAG_XOF =? 0)%N)).
(** gost_md.c:73-79 [GOST_deinit_digest]; :189-200; called by gost_prov.c:124-130 [gost_teardown] of any instance *)
Definition deinit_digest (s : state) (a : alg) : state :=
  match st_desc s a with
  | None => s
  | Some id => mk_state (fun b => if alg_eqb a b then None else st_desc s b) (id :: st_freed s) (st_next s) (st_ctxs s)
  end.
Definition gost_teardown (s : state) : state := fold_left deinit_digest [D94; D256; D512] s.

(** Calls of the core *)
Inductive call := New (inst : nat) (a : alg) | Dup (h : nat) | Free (h : nat) | Init (h : nat) | Update (h : nat) (data : list N)
  | Final (h : nat) (outsize : N) | GetParams (a : alg) | Teardown (inst : nat).
Definition on (s : state) (h : nat) (f : gctx -> state * result) : state * result :=
  match nth h (st_ctxs s) None with Some c => f c | None => (s, UseAfterFree) end.
Definition step (s : state) (o : call) : state * result :=
  match o with
  | New i a => digest_newctx s i a
  | Dup h => on s h (digest_dupctx s)
  | Free h => on s h (digest_freectx s h)
  | Init h => on s h (digest_init s h)
  | Update h data => on s h (fun c => digest_update s h c data)
  | Final h n => on s h (fun c => digest_final s h c n)
  | GetParams a => digest_get_params s a
  | Teardown _ => (gost_teardown s, Done)
  end.
Fixpoint run (s : state) (l : list call) : list result :=
  match l with [] => [] | o :: l' => let (s', r) := step s o in r :: run s' l' end.
End Machine.

(** :155-163: the function identifiers of a dispatch table (openssl/core_dispatch.h, OSSL_FUNC_DIGEST_...).  There is no
    terminating entry. *)
Definition digest_functions : list N := [8 (* GET_PARAMS *); 1 (* NEWCTX *); 7 (* DUPCTX *); 6 (* FREECTX *); 2 (* INIT *);
  3 (* UPDATE *); 4 (* FINAL *)]%N.
(** The core reads a table up to the entry with identifier 0 (library model, evp_md_from_algorithm); None: past the end. *)
Fixpoint read_table (t : list N) : option (list N) :=
  match t with
  | [] => None
  | i :: t' => if (i =? 0)%N then Some [] else option_map (cons i) (read_table t')
  end.
(** :170-187 [GOST_prov_digests]: names and functions, up to the NULL entry *)
From Coq Require Import Ascii String.
Definition prov_digests : list (string * alg) := [
  ("id-tc26-gost3411-12-256:md_gost12_256:1.2.643.7.1.1.2.2", D256);
  ("id-tc26-gost3411-12-512:md_gost12_512:1.2.643.7.1.1.2.3", D512);
  ("id-GostR3411-94:md_gost94:1.2.643.2.2.9", D94)]%string.
(** The core splits the names at the colons. *)
Fixpoint split_colon (s acc : string) : list string :=
  match s with
  | EmptyString => [acc]
  | String c s' => if Ascii.eqb c ":"%char then acc :: split_colon s' EmptyString else split_colon s' (String.append acc (String c EmptyString))
  end.
Definition fetch (name : string) : option alg :=
  option_map snd (List.find (fun e => existsb (String.eqb name) (split_colon (fst e) EmptyString)) prov_digests).
