(** Model of gost_ctl.c (engine parameters) and of its readers in gost_crypt.c.

    The strings live in a heap of allocated blocks, so that the pointers handed out by [get_gost_engine_param] and the
    calls of OPENSSL_free can be talked about.  Memory allocation does not fail. *)
From Coq Require Import String ZArith List Bool.
From Verif Require Import CmsParamsModel.
Import ListNotations.
Open Scope Z_scope.

(** Block addresses; a heap maps an address to its content if the block is allocated. *)
Definition addr := nat.
Record mem := mk_mem {
  m_heap : addr -> option string;
  m_next : addr;                  (* allocations so far; the next one gets this address *)
  m_params : nat -> option addr;  (* gost_params[], gost_ctl.c:17: a static array, initially NULL *)
  m_bad : bool                    (* OPENSSL_free was called on a block not allocated *)
}.
Definition mem0 : mem := mk_mem (fun _ => None) 0%nat (fun _ => None) false.
(** OPENSSL_free *)
Definition m_free (m : mem) (p : option addr) : mem :=
  match p with
  | None => m
  | Some a =>
    match m_heap m a with
    | None => mk_mem (m_heap m) (m_next m) (m_params m) true
    | Some _ => mk_mem (fun b => if Nat.eqb b a then None else m_heap m b) (m_next m) (m_params m) (m_bad m)
    end
  end.
(** BUF_strdup *)
Definition m_strdup (m : mem) (s : option string) : mem * option addr :=
  match s with
  | None => (m, None)
  | Some s => (mk_mem (fun b => if Nat.eqb b (m_next m) then Some s else m_heap m b) (S (m_next m)) (m_params m) (m_bad m), Some (m_next m))
  end.
Definition m_assign (m : mem) (i : nat) (p : option addr) : mem :=
  mk_mem (m_heap m) (m_next m) (fun j => if Nat.eqb j i then p else m_params m j) (m_bad m).

Definition GOST_PARAM_MAX : Z := 3. (* gost_lcl.h:27 *)
Definition ENGINE_CMD_BASE : Z := 200. (* openssl/engine.h *)
(** The environment: the value of gost_envnames[i] (gost_ctl.c:18-19: CRYPT_PARAMS, GOST_PBE_HMAC, GOST_PK_FORMAT). *)
Definition environ := nat -> option string.

(** gost_ctl.c:21-30 [gost_param_free]: indices 0 .. GOST_PARAM_MAX. *)
Definition gost_param_free (m : mem) : mem :=
  fold_left (fun m i => m_assign (m_free m (m_params m i)) i None) [0; 1; 2; 3]%nat m.
(** gost_ctl.c:60-77 [gost_set_default_param] *)
Definition gost_set_default_param (env : environ) (m : mem) (param : Z) (value : option string) : Z * mem :=
  if (param <? 0) || (param >=? GOST_PARAM_MAX) then (0, m)
  else
    let i := Z.to_nat param in
    let tmp := match env i with Some s => Some s | None => value end in
    let m := m_free m (m_params m i) in
    let '(m, p) := m_strdup m tmp in
    (1, m_assign m i p).
(** gost_ctl.c:32-41 [gost_control_func] *)
Definition gost_control_func (env : environ) (m : mem) (cmd : Z) (p : option string) : Z * mem :=
  let param := cmd - ENGINE_CMD_BASE in
  if (param <? 0) || (param >? GOST_PARAM_MAX) then (-1, m)
  else gost_set_default_param env m param p.
(** gost_ctl.c:43-58 [get_gost_engine_param]: the pointer returned (None = NULL). *)
Definition get_gost_engine_param (env : environ) (m : mem) (param : Z) : option addr * mem :=
  if (param <? 0) || (param >=? GOST_PARAM_MAX) then (None, m)
  else
    let i := Z.to_nat param in
    match m_params m i with
    | Some a => (Some a, m)
    | None =>
      match env i with
      | Some s =>
        let m := m_free m (m_params m i) in
        let '(m, p) := m_strdup m (Some s) in
        (p, m_assign m i p)
      | None => (None, m)
      end
    end.
(** The string behind a pointer. *)
Definition deref (m : mem) (p : option addr) : option string := match p with Some a => m_heap m a | None => None end.

(** gost_crypt.c:366-398 [get_encryption_params(NULL)]: [txt2nid] is OBJ_txt2nid followed by the search of
    gost_cipher_list ([None]: NID_undef or not in the list; both give NULL). *)
Definition default_params (txt2nid : string -> option param_set) (env : environ) (m : mem) : option param_set * mem :=
  let '(p, m) := get_gost_engine_param env m 0 in
  match deref m p with
  | None => (Some P_Z, m)
  | Some s => if String.eqb s "" then (Some P_Z, m) else (txt2nid s, m)
  end.
Inductive prf := Hmac_94 | Hmac_256 | Hmac_512.
(** gost_crypt.c:1165-1182, EVP_CTRL_PBE_PRF_NID with a non-NULL [ptr]. *)
Definition pbe_prf_nid (env : environ) (m : mem) : prf * mem :=
  let '(p, m) := get_gost_engine_param env m 1 in
  match deref m p with
  | None => (Hmac_512, m)
  | Some s =>
    (if String.eqb "md_gost12_256" s then Hmac_256
     else if String.eqb "md_gost12_512" s then Hmac_512
     else if String.eqb "md_gost94" s then Hmac_94
     else Hmac_512, m)
  end.

(** Histories: what happens to the engine's parameters, each event with the environment at that time. *)
Inductive event :=
| Ev_control (cmd : Z) (value : option string)  (* ENGINE_ctrl *)
| Ev_set (param : Z) (value : option string)
| Ev_get (param : Z)
| Ev_free.                                      (* gost_engine_destroy, gost_eng.c:310 *)
Definition step (m : mem) (e : environ * event) : mem :=
  let '(env, e) := e in
  match e with
  | Ev_control c v => snd (gost_control_func env m c v)
  | Ev_set p v => snd (gost_set_default_param env m p v)
  | Ev_get p => snd (get_gost_engine_param env m p)
  | Ev_free => gost_param_free m
  end.
Definition run (h : list (environ * event)) : mem := fold_left step h mem0.
