(** What a user of the engine expects of loading it and looking algorithms up in it, without reference to how objects are kept. *)
From Coq Require Import ZArith NArith List Bool.
From Verif Require Import EngModel.
Import ListNotations.

(** The algorithms offered, by their numbers in openssl/obj_mac.h *)
Definition md_gost94 : N := 809.  Definition streebog_256 : N := 982.  Definition streebog_512 : N := 983.
Definition gost_mac : N := 815.  Definition gost_mac_12 : N := 976.  Definition magma_mac : N := 1192.  Definition kuznyechik_mac : N := 1017.
Definition magma_ctr_acpkm_omac : N := 1175.  Definition kuznyechik_ctr_acpkm_omac : N := 1178.
Definition gost2001 : N := 811.  Definition gost2001dh : N := 817.  Definition gost2012_256 : N := 979.  Definition gost2012_512 : N := 980.
Definition gost89 : N := 813.  Definition gost89_cnt : N := 814.  Definition gost89_cnt_12 : N := 975.  Definition gost89_cbc : N := 1009.
Definition kuznyechik_ecb : N := 1012.  Definition kuznyechik_ctr : N := 1013.  Definition kuznyechik_ofb : N := 1014.
Definition kuznyechik_cbc : N := 1015.  Definition kuznyechik_cfb : N := 1016.  Definition kuznyechik_ctr_acpkm : N := 1177.
Definition magma_ecb : N := 1187.  Definition magma_ctr : N := 1188.  Definition magma_cbc : N := 1190.  Definition magma_ctr_acpkm : N := 1174.
Definition magma_kexp15 : N := 1181.  Definition kuznyechik_kexp15 : N := 1183.

Definition digests : list N := [md_gost94; gost_mac; streebog_256; streebog_512; gost_mac_12; magma_mac; kuznyechik_mac; kuznyechik_ctr_acpkm_omac].
(** The two MGM ciphers have no number in the library; [k] and [m] are the numbers they have got. *)
Definition ciphers (k m : N) : list N := [gost89; gost89_cnt; gost89_cnt_12; gost89_cbc; kuznyechik_ecb; kuznyechik_cbc; kuznyechik_cfb; kuznyechik_ofb;
  kuznyechik_ctr; magma_ecb; k; magma_cbc; magma_ctr; magma_ctr_acpkm; magma_ctr_acpkm_omac; m; kuznyechik_ctr_acpkm; kuznyechik_ctr_acpkm_omac;
  magma_kexp15; kuznyechik_kexp15].
Definition key_types : list N := [gost2001; gost2001dh; gost_mac; gost2012_256; gost2012_512; gost_mac_12; magma_mac; kuznyechik_mac;
  magma_ctr_acpkm_omac; kuznyechik_ctr_acpkm_omac].

(** The engine that exists, how often a load was begun in earnest, how many loads succeeded. *)
Record world := mk_world { w_engine : option nat; w_tries : nat; w_loads : nat }.
Definition empty : world := mk_world None 0 0.

Section Spec.
Variable prov : bool.
Variable first : N.
(** The MGM ciphers' numbers: those of the last load begun *)
Definition kuznyechik_mgm (w : world) : N := first + 2 * N.of_nat (pred (w_tries w)).
Definition magma_mgm (w : world) : N := kuznyechik_mgm w + 1.
Definition offered (w : world) (k : ekind) : list N :=
  match k with E_digest => digests | E_cipher => ciphers (kuznyechik_mgm w) (magma_mgm w) | E_pmeth | E_ameth => key_types end.
Definition kind_of (k : ekind) : kind := match k with E_digest => K_md | E_cipher => K_cipher | E_pmeth => K_pmeth | E_ameth => K_ameth end.

(** The load's own allocations: two numbers registered (two steps each), two method objects for each key type but one *)
Definition steps : list nat := [0; 1; 2; 3; 4; 5; 6; 7; 8; 9; 10; 11; 12; 13; 14; 15; 16; 17; 18; 19; 22; 23].
Definition succeeds (fail : nat -> bool) : bool := negb (existsb fail steps).
Definition refuses (w : world) (idok : bool) : bool :=
  negb prov && (negb idok || match w_engine w with Some _ => true | None => false end).

Inductive expectation := X_engine (h : option nat) | X_numbers (l : list N) | X_object (k : kind) (n : N) | X_found_null | X_none | X_done.
Definition expect (w : world) (c : call) : expectation :=
  match c with
  | Load_engine idok fail => X_engine (if refuses w idok then None else if succeeds fail then Some (w_loads w) else None)
  | Unload _ => X_done
  | Nids _ k => X_numbers (offered w k)
  | Lookup _ k n =>
      if existsb (N.eqb n) (offered w k) then
        match k with
        | E_pmeth | E_ameth => if (n =? magma_ctr_acpkm_omac)%N then X_found_null else X_object (kind_of k) n
        | _ => X_object (kind_of k) n
        end
      else X_none
  | ByName nm =>
      if prov then X_none
      else match w_engine w with
           | None => X_none
           | Some _ => match (match nm with
                              | Nm_cipher i => option_map (pair K_cipher) (nth_error (offered w E_cipher) i)
                              | Nm_digest i => option_map (pair K_md) (nth_error (offered w E_digest) i)
                              | Nm_alias i => match i with 2 => Some (K_md, streebog_256) | 3 => Some (K_md, streebog_512) | _ => None end
                              end) with
                       | Some (k, n) => X_object k n
                       | None => X_none
                       end
           end
  end.
Definition next (w : world) (c : call) : world :=
  match c with
  | Load_engine idok fail =>
      if refuses w idok then w
      else if succeeds fail then mk_world (Some (w_loads w)) (S (w_tries w)) (S (w_loads w)) else mk_world (w_engine w) (S (w_tries w)) (w_loads w)
  | Unload _ => mk_world None (w_tries w) (w_loads w)
  | _ => w
  end.
(** One engine at a time, used while it exists; names are not looked up after the engine has gone.  (The engine refuses a
    second load itself, the provider does not.) *)
Definition legal (w : world) (c : call) : Prop :=
  match c with
  | Load_engine _ _ => prov = true -> w_engine w = None
  | Unload h | Nids h _ | Lookup h _ _ => w_engine w = Some h
  | ByName _ => prov = true \/ w_engine w <> None \/ w_loads w = 0
  end.
Fixpoint all_legal (w : world) (l : list call) : Prop := match l with [] => True | c :: l' => legal w c /\ all_legal (next w c) l' end.
Fixpoint expected (w : world) (l : list call) : list expectation := match l with [] => [] | c :: l' => expect w c :: expected (next w c) l' end.
Fixpoint final (w : world) (l : list call) : world := match l with [] => w | c :: l' => final (next w c) l' end.
End Spec.

(** A load that fails when it registers the second number *)
Definition leaky (c : call) : bool := match c with Load_engine _ fail => fail 2 || fail 3 | _ => false end.

(** An answer is as expected: found means a return value of 1 and an existing object of the right kind and number. *)
Definition agrees (r : result) (x : expectation) : Prop :=
  match x with
  | X_engine h => r = Engine h
  | X_numbers l => r = Numbers (Z.of_nat (length l)) l
  | X_object k n => exists id, r = Answer 1 (Some (id, Some (mk_obj k n true)))
  | X_found_null => r = Answer 1 None
  | X_none => r = Answer 0 None
  | X_done => r = Done
  end.
