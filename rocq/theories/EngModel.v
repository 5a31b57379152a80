(** Model of the engine's registration: gost_eng.c (loading, the four lookup callbacks, destruction), with GOST_init_digest and
    GOST_init_cipher (gost_md.c, gost_crypt.c), register_ameth_gost (gost_ameth.c), register_pmeth_gost (gost_pmeth.c) and the
    provider's loading and teardown (gost_prov.c), as far as they make and free objects.  The library's part (ENGINE_free,
    the table of names, OBJ_new_nid) is modelled after OpenSSL's eng_lib.c, tb_pkmeth.c, tb_asnmth.c, o_names.c and obj_dat.c.
    Not modelled: what the method objects do (other files), parameter strings (CtlModel.v), cached groups (ParamsModel.v), error
    strings. *)
From Coq Require Import ZArith NArith List Bool Lia.
Import ListNotations.
Local Open Scope nat_scope.

(** * Memory *)
(** The objects that are made and freed: EVP_MD, EVP_CIPHER, EVP_PKEY_METHOD, EVP_PKEY_ASN1_METHOD, ASN1_OBJECT *)
Inductive kind := K_md | K_cipher | K_pmeth | K_ameth | K_asn1.
Record obj := mk_obj { o_kind : kind; o_nid : N; o_alive : bool }.
(** The static variables that point to them: the [digest] and [cipher] fields of the descriptors, the variables pmeth_* and
    ameth_*, the [asn1] fields of the NID jobs, each by its position in its array. *)
Inductive field := F_md (i : nat) | F_ci (i : nat) | F_pm (i : nat) | F_am (i : nat) | F_asn1 (i : nat).
Definition field_eqb (a b : field) : bool :=
  match a, b with
  | F_md i, F_md j | F_ci i, F_ci j | F_pm i, F_pm j | F_am i, F_am j | F_asn1 i, F_asn1 j => i =? j
  | _, _ => false
  end.
(** The names under which the library finds ciphers and digests (short and long name of a descriptor), and the digests' aliases *)
Inductive name := Nm_cipher (i : nat) | Nm_digest (i : nat) | Nm_alias (i : nat).

(** The process: objects made ([s_n] of them), the static variables, the [nid] fields of the two MGM descriptors, the next number
    that OBJ_new_nid gives, the table of names, the registered aliases, the engines (true: exists), and whether freed memory was
    freed again or handed out. *)
Record state := mk_state { s_heap : nat -> option obj; s_n : nat; s_ptr : field -> option nat; s_kuz : N; s_magma : N; s_next : N;
  s_ci_names : nat -> option nat; s_md_names : nat -> option nat; s_alias : nat -> bool; s_engines : list bool; s_bad : bool }.
Definition with_heap (s : state) h n := mk_state h n (s_ptr s) (s_kuz s) (s_magma s) (s_next s) (s_ci_names s) (s_md_names s) (s_alias s) (s_engines s) (s_bad s).
Definition with_ptr (s : state) (f : field) (p : option nat) :=
  mk_state (s_heap s) (s_n s) (fun g => if field_eqb f g then p else s_ptr s g) (s_kuz s) (s_magma s) (s_next s) (s_ci_names s) (s_md_names s)
    (s_alias s) (s_engines s) (s_bad s).
Definition with_nids (s : state) k m n := mk_state (s_heap s) (s_n s) (s_ptr s) k m n (s_ci_names s) (s_md_names s) (s_alias s) (s_engines s) (s_bad s).
Definition with_names (s : state) c d a := mk_state (s_heap s) (s_n s) (s_ptr s) (s_kuz s) (s_magma s) (s_next s) c d a (s_engines s) (s_bad s).
Definition with_engines (s : state) e := mk_state (s_heap s) (s_n s) (s_ptr s) (s_kuz s) (s_magma s) (s_next s) (s_ci_names s) (s_md_names s) (s_alias s) e (s_bad s).
Definition with_bad (s : state) := mk_state (s_heap s) (s_n s) (s_ptr s) (s_kuz s) (s_magma s) (s_next s) (s_ci_names s) (s_md_names s) (s_alias s) (s_engines s) true.
Definition set (A : Type) (f : nat -> A) (i : nat) (a : A) : nat -> A := fun j => if i =? j then a else f j.
Arguments set {A}.

(** EVP_MD_meth_new and the like *)
Definition alloc (s : state) (k : kind) (n : N) : state * nat :=
  (with_heap s (set (s_heap s) (s_n s) (Some (mk_obj k n true))) (S (s_n s)), s_n s).
(** EVP_MD_meth_free and the like; NULL is ignored *)
Definition free (s : state) (p : option nat) : state :=
  match p with
  | None => s
  | Some id =>
      match s_heap s id with
      | Some o => if o_alive o then with_heap s (set (s_heap s) id (Some (mk_obj (o_kind o) (o_nid o) false))) (s_n s) else with_bad s
      | None => with_bad s
      end
  end.

(** * The arrays *)
(** gost_eng.c:76-85; the numbers of openssl/obj_mac.h: id-GostR3411-94, id-Gost28147-89-MAC, the two digests of 2012, gost-mac-12,
    magma-mac, grasshopper-mac, id-tc26-cipher-gostr3412-2015-kuznyechik-ctracpkm-omac *)
Definition digest_array : list N := [809; 815; 982; 983; 976; 1192; 1017; 1178]%N.
(** gost_md2012.c:41-57: the descriptors with an alias *)
Definition has_alias (i : nat) : bool := (i =? 2) || (i =? 3).
(** gost_eng.c:87-108: id-Gost28147-89, gost89-cnt, gost89-cnt-12, gost89-cbc, grasshopper-ecb, -cbc, -cfb, -ofb, -ctr, magma-ecb,
    kuznyechik-mgm (number given when loading), magma-cbc, -ctr, -ctr-acpkm, -ctr-acpkm-omac, magma-mgm (given when loading),
    kuznyechik-ctr-acpkm, -ctr-acpkm-omac, magma-kexp15, kuznyechik-kexp15 *)
Inductive cnid := Fixed (n : N) | Kuz_mgm | Magma_mgm.
Definition cipher_array : list cnid := [Fixed 813; Fixed 814; Fixed 975; Fixed 1009; Fixed 1012; Fixed 1015; Fixed 1016; Fixed 1014; Fixed 1013;
  Fixed 1187; Kuz_mgm; Fixed 1190; Fixed 1188; Fixed 1174; Fixed 1175; Magma_mgm; Fixed 1177; Fixed 1178; Fixed 1181; Fixed 1183]%N.
(** gost_eng.c:110-186: id-GostR3410-2001, -2001DH, id-Gost28147-89-MAC, the two algorithms of 2012, gost-mac-12, magma-mac,
    grasshopper-mac, id-tc26-cipher-gostr3412-2015-magma-ctracpkm-omac, ...-kuznyechik-ctracpkm-omac *)
Definition meth_array : list N := [811; 817; 815; 979; 980; 976; 1192; 1017; 1175; 1178]%N.
Definition NID_magma_ctracpkm_omac : N := 1175.
(** The switch of register_pmeth_gost, gost_pmeth.c:1052-1156; register_ameth_gost takes every number (gost_ameth.c:1156-1220). *)
Definition pmeth_known (n : N) : bool := existsb (N.eqb n) [811; 817; 979; 980; 815; 976; 1192; 1017; 1178]%N.
Definition cnid_val (s : state) (c : cnid) : N := match c with Fixed n => n | Kuz_mgm => s_kuz s | Magma_mgm => s_magma s end.
Definition cipher_nids (s : state) : list N := map (cnid_val s) cipher_array.
(** The loops "for (i = 0; ...) if (nid == ...)" *)
Fixpoint position (n : N) (l : list N) (i : nat) : option nat :=
  match l with [] => None | m :: l' => if (n =? m)%N then Some i else position n l' (S i) end.

(** * Digests and ciphers *)
(** gost_md.c:47-71; allocation succeeds here.  [EVP_add_digest_alias]: *)
Definition init_digest (s : state) (i : nat) : state * option nat :=
  match s_ptr s (F_md i) with
  | Some id => (s, Some id)
  | None =>
      let (s, id) := alloc s K_md (nth i digest_array 0%N) in
      let s := if has_alias i then with_names s (s_ci_names s) (s_md_names s) (set (s_alias s) i true) else s in
      (with_ptr s (F_md i) (Some id), Some id)
  end.
(** gost_crypt.c:91-132; allocation succeeds; the assertions hold (C57_descriptors) *)
Definition init_cipher (s : state) (i : nat) : state * option nat :=
  match s_ptr s (F_ci i) with
  | Some id => (s, Some id)
  | None => let (s, id) := alloc s K_cipher (nth i (cipher_nids s) 0%N) in (with_ptr s (F_ci i) (Some id), Some id)
  end.
(** gost_md.c:73-79 *)
Definition deinit_digest (s : state) (i : nat) : state :=
  let s := if has_alias i then with_names s (s_ci_names s) (s_md_names s) (set (s_alias s) i false) else s in
  with_ptr (free s (s_ptr s (F_md i))) (F_md i) None.
(** gost_crypt.c:134-140 *)
Definition deinit_cipher (s : state) (i : nat) : state :=
  match s_ptr s (F_ci i) with None => s | Some id => with_ptr (free s (Some id)) (F_ci i) None end.

(** * The callbacks *)
(** What a lookup answers: the return value and the pointer stored.  A list: the return value and the numbers. *)
Inductive ekind := E_digest | E_cipher | E_pmeth | E_ameth.
(** gost_eng.c:197-264 with no output pointer *)
Definition nids (s : state) (k : ekind) : Z * list N :=
  match k with
  | E_digest => (Z.of_nat (length digest_array), digest_array)
  | E_cipher => (Z.of_nat (length cipher_array), cipher_nids s)
  | E_pmeth | E_ameth => (Z.of_nat (length meth_array), meth_array)
  end.
(** gost_eng.c:197-276 with one *)
Definition lookup (s : state) (k : ekind) (n : N) : state * (Z * option nat) :=
  match k with
  | E_digest => match position n digest_array 0 with
                | Some i => let (s, p) := init_digest s i in (s, (1%Z, p))
                | None => (s, (0%Z, None))
                end
  | E_cipher => match position n (cipher_nids s) 0 with
                | Some i => let (s, p) := init_cipher s i in (s, (1%Z, p))
                | None => (s, (0%Z, None))
                end
  | E_pmeth => match position n meth_array 0 with Some i => (s, (1%Z, s_ptr s (F_pm i))) | None => (s, (0%Z, None)) end
  | E_ameth => match position n meth_array 0 with Some i => (s, (1%Z, s_ptr s (F_am i))) | None => (s, (0%Z, None)) end
  end.

(** * Loading *)
(** Which of the allocations of a load fail: numbers 0-3 for the two NID jobs (ASN1_OBJECT_create, OBJ_add_object), 4+2i and 5+2i
    for the method objects of entry i. *)
Section Loading.
Variable fail : nat -> bool.
(** gost_eng.c:338-353.  The callback of a job sets the number of its descriptor. *)
Definition nid_job (s : state) (new : N) (i : nat) : state * bool :=
  if fail (2 * i) then (with_ptr s (F_asn1 i) None, false)
  else
    let (s, id) := alloc s K_asn1 (new + N.of_nat i) in
    let s := with_ptr s (F_asn1 i) (Some id) in
    if fail (2 * i + 1) then (free s (Some id), false)
    else ((if i =? 0 then with_nids s new (s_magma s) (s_next s) else with_nids s (s_kuz s) (new + N.of_nat i) (s_next s)), true).
Definition create_NIDs (s : state) : state * bool :=
  let new := s_next s in
  let s := with_nids s (s_kuz s) (s_magma s) (new + 2) in
  let (s, ok) := nid_job s new 0 in
  if ok then nid_job s new 1 else (s, false).
(** gost_eng.c:422-436 *)
Fixpoint register_meths (s : state) (l : list N) (i : nat) : state * bool :=
  match l with
  | [] => (s, true)
  | n :: l' =>
      if (n =? NID_magma_ctracpkm_omac)%N then register_meths s l' (S i)
      else if fail (4 + 2 * i) then (with_ptr s (F_am i) None, false)
      else
        let (s, id) := alloc s K_ameth n in
        let s := with_ptr s (F_am i) (Some id) in
        if fail (5 + 2 * i) then (with_ptr s (F_pm i) None, false)
        else
          let (s, id) := alloc s K_pmeth n in
          let s := with_ptr s (F_pm i) (Some id) in
          if pmeth_known n then register_meths s l' (S i) else (s, false)
  end.
(** gost_eng.c:365-441 [populate_gost_engine]: whether the callbacks and the destroy function were set, and the return value *)
Definition populate (s : state) : state * bool * bool :=
  let (s, ok) := create_NIDs s in
  if ok then let (s, ok) := register_meths s meth_array 0 in (s, true, ok) else (s, false, false).
End Loading.

(** gost_eng.c:444-471 [bind_gost_engine]: EVP_add_cipher and EVP_add_digest enter the objects under their names. *)
Definition bind_cipher (s : state) (i : nat) : state :=
  let (s, p) := init_cipher s i in with_names s (set (s_ci_names s) i p) (s_md_names s) (s_alias s).
Definition bind_digest (s : state) (i : nat) : state :=
  let (s, p) := init_digest s i in with_names s (s_ci_names s) (set (s_md_names s) i p) (s_alias s).
Definition bind_engine (s : state) : state :=
  fold_left bind_digest (seq 0 (length digest_array)) (fold_left bind_cipher (seq 0 (length cipher_array)) s).

(** * Freeing *)
(** gost_eng.c:355-360 *)
Definition free_NIDs (s : state) : state := free (free s (s_ptr s (F_asn1 0))) (s_ptr s (F_asn1 1)).
(** gost_eng.c:302-327 *)
Definition null_meth (s : state) (i : nat) : state := with_ptr (with_ptr s (F_pm i) None) (F_am i) None.
Definition gost_engine_destroy (s : state) : state :=
  let s := fold_left deinit_digest (seq 0 (length digest_array)) s in
  let s := fold_left deinit_cipher (seq 0 (length cipher_array)) s in
  let s := fold_left null_meth (seq 0 (length meth_array)) s in
  free_NIDs s.
(** engine_pkey_meths_free and engine_pkey_asn1_meths_free: for every listed number the method that the callback gives *)
Definition free_pmeth (s : state) (n : N) : state := let (s, r) := lookup s E_pmeth n in if (fst r =? 0)%Z then s else free s (snd r).
Definition free_ameth (s : state) (n : N) : state := let (s, r) := lookup s E_ameth n in if (fst r =? 0)%Z then s else free s (snd r).
(** engine_free_util for an engine with callbacks *)
Definition engine_free (s : state) : state :=
  let s := fold_left free_pmeth (snd (nids s E_pmeth)) s in
  let s := fold_left free_ameth (snd (nids s E_ameth)) s in
  gost_engine_destroy s.

(** * The process *)
(** [prov]: the provider (gost_prov.c) instead of the engine.  Each module has its own static variables. *)
Section Process.
Variable prov : bool.
Variable first : N.   (* the first number that OBJ_new_nid gives *)
Definition start : state :=
  mk_state (fun _ => None) 0 (fun _ => None) 0 0 first (fun _ => None) (fun _ => None) (fun _ => false) [] false.

(** gost_eng.c:473-483, 506-516 [check_gost_engine], [make_gost_engine], [ENGINE_load_gost]; gost_prov.c:57-76 [provider_ctx_new],
    which checks nothing.  [idok]: whether the id asked for is "gost" or none.  The answer is the engine, by number. *)
Definition load (s : state) (idok : bool) (fail : nat -> bool) : state * option nat :=
  let refused := negb prov && (negb idok || match s_ptr s (F_am 0) with Some _ => true | None => false end) in
  if refused then (s, None)
  else
    match populate fail s with
    | (s, set_up, ok) =>
        if ok then
          let s := if prov then s else bind_engine s in
          (with_engines s (s_engines s ++ [true]), Some (length (s_engines s)))
        else ((if set_up then engine_free s else s), None)
    end.
(** gost_prov_cipher.c:365-390, gost_prov_digest.c:189-200, gost_prov_mac.c:348-361, by position *)
Definition prov_ciphers : list nat := [0; 1; 2; 3; 4; 5; 6; 7; 8; 11; 12; 13; 14; 15; 16; 17; 10].
Definition prov_digests : list nat := [0; 2; 3].
Definition prov_macs : list nat := [1; 4; 5; 6; 7].
(** The last reference to an engine is dropped; gost_prov.c:124-130 [gost_teardown] *)
Definition unload (s : state) (h : nat) : state :=
  let s := if prov then fold_left deinit_digest prov_macs (fold_left deinit_digest prov_digests (fold_left deinit_cipher prov_ciphers s)) else s in
  let s := engine_free s in
  with_engines s (firstn h (s_engines s) ++ false :: skipn (S h) (s_engines s)).
(** EVP_get_cipherbyname and EVP_get_digestbyname; an alias leads to the digest's name *)
Definition by_name (s : state) (nm : name) : option nat :=
  match nm with
  | Nm_cipher i => s_ci_names s i
  | Nm_digest i => s_md_names s i
  | Nm_alias i => if s_alias s i then s_md_names s i else None
  end.

Inductive call := Load_engine (idok : bool) (fail : nat -> bool) | Unload (h : nat) | Nids (h : nat) (k : ekind) | Lookup (h : nat) (k : ekind) (n : N)
  | ByName (nm : name).
(** Answers: an engine or none; the numbers; return value and object, with what is there when it is given out ([Gone]: the engine
    does not exist any more) *)
Inductive result := Engine (h : option nat) | Numbers (ret : Z) (l : list N) | Answer (ret : Z) (p : option (nat * option obj)) | Done | Gone.
Definition view (s : state) (p : option nat) : option (nat * option obj) := option_map (fun id => (id, s_heap s id)) p.
Definition step (s : state) (c : call) : state * result :=
  match c with
  | Load_engine idok fail => let (s, h) := load s idok fail in (s, Engine h)
  | Unload h => if nth h (s_engines s) false then (unload s h, Done) else (s, Gone)
  | Nids h k => if nth h (s_engines s) false then (s, let (r, l) := nids s k in Numbers r l) else (s, Gone)
  | Lookup h k n =>
      if nth h (s_engines s) false then let (s, r) := lookup s k n in (s, Answer (fst r) (view s (snd r))) else (s, Gone)
  | ByName nm => let p := by_name s nm in (s, Answer (match p with Some _ => 1 | None => 0 end) (view s p))
  end.
Fixpoint run (s : state) (l : list call) : state * list result :=
  match l with
  | [] => (s, [])
  | c :: l' => let (s, r) := step s c in let (s, rs) := run s l' in (s, r :: rs)
  end.
End Process.
