(** The cipher functions once more, at the level of memory: they read their input through the pointer [in] and
    write through the pointer [out] of one address space, in the order of the C statements, so that what happens
    when the two buffers are the same can be seen.

    A memory maps addresses to bytes; [in] and [out] are addresses.  The context (key, iv, buf, num, ...) is not in
    this address space: a caller never passes a pointer into it.
    Simplification: the block functions [gostcrypt], [magmacrypt], [grasshopper_encrypt_block] and their inverses read
    the whole input block before they write the output block (gost89.c:380-400, 421-441: the two words are loaded first;
    gost_grasshopper_core.c:103-131: the block is first copied to the target). *)
From Verif Require Import Bytes Gost89Model CryptModel KuzModel KuzCipherModel MgmModel.

Definition mem := nat -> N.
(** *p = v *)
Definition upd (m : mem) (a : nat) (v : N) : mem := fun x => if (x =? a)%nat then v else m x.
(** memcpy(p, l, len(l)) from an object outside the memory *)
Fixpoint wr (m : mem) (a : nat) (l : list N) : mem :=
  match l with
  | nil => m
  | x :: t => wr (upd m a x) (S a) t
  end.
(** the [n] bytes at [a] *)
Definition rd (m : mem) (a n : nat) : list N := map m (seq a n).

(** for (j = 0; j < len(ks); j++) out[j] = ks[j] ^ in[j]; *)
Fixpoint xor_loop (ks : list N) (m : mem) (i o : nat) : mem :=
  match ks with
  | nil => m
  | k :: t => xor_loop t (upd m o (N.lxor k (m i))) (S i) (S o)
  end.

(** A loop which runs [step] while [cont] holds of the loop's state and at least [bound] input bytes are left, and
    which moves both pointers on by [bs] after each step; the third result is the number of bytes done. *)
Fixpoint mloop {C} (cont : C -> bool) (step : mem -> C -> nat -> nat -> mem * C) (bs bound fuel : nat)
  (m : mem) (c : C) (i o n : nat) : mem * C * nat :=
  match fuel with
  | O => (m, c, O)
  | S fuel =>
      if (bound <=? n)%nat && cont c then
        let (m, c) := step m c i o in
        let '(m, c, k) := mloop cont step bs bound fuel m c (i + bs) (o + bs) (n - bs) in
        (m, c, (bs + k)%nat)
      else (m, c, O)
  end.
Definition always {C} (_ : C) : bool := true.

(** * gost89.c *)

(** gost89.c:493-501 [gost_enc], 504-512 [gost_dec]: [blocks] rounds; the pointers are all that changes. *)
Definition gost_ecb_body (f : list N -> list N) (m : mem) (c : unit) (i o : nat) : mem * unit :=
  (wr m o (f (rd m i 8)), c).
Definition gost_enc_mem (g : gost_ctx) (m : mem) (i o blocks : nat) : mem :=
  fst (fst (mloop always (gost_ecb_body (gostcrypt g)) 8 8 blocks m tt i o (8 * blocks))).
Definition gost_dec_mem (g : gost_ctx) (m : mem) (i o blocks : nat) : mem :=
  fst (fst (mloop always (gost_ecb_body (gostdecrypt g)) 8 8 blocks m tt i o (8 * blocks))).
(** gost89.c:526-528: for (j = 0; j < 8; j++) cur_iv[j] = out[j] = in[j] ^ gamma[j]; *)
Fixpoint enc_cfb_inner (gamma : list N) (m : mem) (i o : nat) : mem * list N :=
  match gamma with
  | nil => (m, nil)
  | k :: t =>
      let v := N.lxor (m i) k in
      let m := upd m o v in
      let (m, iv) := enc_cfb_inner t m (S i) (S o) in (m, v :: iv)
  end.
(** gost89.c:544-546: for (j = 0; j < 8; j++) out[j] = (cur_iv[j] = in[j]) ^ gamma[j]; *)
Fixpoint dec_cfb_inner (gamma : list N) (m : mem) (i o : nat) : mem * list N :=
  match gamma with
  | nil => (m, nil)
  | k :: t =>
      let v := m i in
      let m := upd m o (N.lxor v k) in
      let (m, iv) := dec_cfb_inner t m (S i) (S o) in (m, v :: iv)
  end.
(** gost89.c:515-530 [gost_enc_cfb] and 533-548 [gost_dec_cfb]: the state of the loop is cur_iv. *)
Definition gost_enc_cfb_mem (g : gost_ctx) (iv : list N) (m : mem) (i o blocks : nat) : mem :=
  fst (fst (mloop always (fun m iv i o => enc_cfb_inner (gostcrypt g iv) m i o) 8 8 blocks m iv i o (8 * blocks))).
Definition gost_dec_cfb_mem (g : gost_ctx) (iv : list N) (m : mem) (i o blocks : nat) : mem :=
  fst (fst (mloop always (fun m iv i o => dec_cfb_inner (gostcrypt g iv) m i o) 8 8 blocks m iv i o (8 * blocks))).

(** * gost_crypt.c *)

(** gost_crypt.c:718-723 *)
Definition gost_cbc_enc_body (m : mem) (c : evp) (i o : nat) : mem * evp :=
  let b := xorl (e_iv c) (rd m i 8) in
  let m := wr m o (gostcrypt (e_g c) b) in
  (m, with_iv c (rd m o 8)).
(** gost_crypt.c:730-736 *)
Definition gost_cbc_dec_body (m : mem) (c : evp) (i o : nat) : mem * evp :=
  let b := gostdecrypt (e_g c) (rd m i 8) in
  let tmpiv := rd m i 8 in
  let m := wr m o (xorl (e_iv c) b) in
  (m, with_iv c tmpiv).
(** gost_crypt.c:706-742 [gost_cipher_do_cbc]; the loops run while inl > 0. *)
Definition gost_cbc_mem (m : mem) (c : evp) (i o n : nat) : mem * evp :=
  fst (mloop always (if e_enc c then gost_cbc_enc_body else gost_cbc_dec_body) 8 1 n m c i o n).

(** gost_crypt.c:745-765 [magma_cipher_do_ecb] *)
Definition magma_ecb_body (m : mem) (c : evp) (i o : nat) : mem * evp :=
  (wr m o ((if e_enc c then magmacrypt else magmadecrypt) (e_g c) (rd m i 8)), c).
Definition magma_ecb_mem (m : mem) (c : evp) (i o n : nat) : mem * evp :=
  fst (mloop always magma_ecb_body 8 1 n m c i o n).

(** gost_crypt.c:781-786: the exclusive-or is left in the output block and encrypted there. *)
Definition magma_cbc_enc_body (m : mem) (c : evp) (i o : nat) : mem * evp :=
  let m := xor_loop (e_iv c) m i o in
  let m := wr m o (magmacrypt (e_g c) (rd m o 8)) in
  (m, with_iv c (rd m o 8)).
(** gost_crypt.c:792-798 *)
Definition magma_cbc_dec_body (m : mem) (c : evp) (i o : nat) : mem * evp :=
  let b := magmadecrypt (e_g c) (rd m i 8) in
  let d := rd m i 8 in
  let m := wr m o (xorl (e_iv c) b) in
  (m, with_iv c d).
(** gost_crypt.c:768-804 [magma_cipher_do_cbc] *)
Definition magma_cbc_mem (m : mem) (c : evp) (i o n : nat) : mem * evp :=
  fst (mloop always (if e_enc c then magma_cbc_enc_body else magma_cbc_dec_body) 8 1 n m c i o n).

(** gost_crypt.c:836-840; num is kept in the context. *)
Definition magma_ctr_byte (m : mem) (c : evp) (i o : nat) : mem * evp :=
  let m := upd m o (N.lxor (m i) (nth (N.to_nat (N.land (e_num c) 7)) (e_buf c) 0)) in
  (m, with_num c (w32 (e_num c + 1))).
(** gost_crypt.c:845-850, 860-866 for [n] bytes of a block: buf := E(iv), the output, the counters. *)
Definition magma_ctr_part (n : nat) (m : mem) (c : evp) (i o : nat) : mem * evp :=
  let c := apply_acpkm_magma c in
  let c := with_buf c (overwrite (e_buf c) 0 (magmacrypt (e_g c) (e_iv c))) in
  let m := xor_loop (firstn n (e_buf c)) m i o in
  let c := with_iv c (inc_counter (e_iv c)) in
  let c := with_count c (w32 (e_count c + 8)) in
  (m, with_num c (w32 (e_num c + N.of_nat n))).
(** gost_crypt.c:824-872 [magma_cipher_do_ctr] *)
Definition magma_ctr_mem (m : mem) (c : evp) (i o n : nat) : mem * evp :=
  let '(m, c, k) := mloop (fun c => negb (N.land (e_num c) 7 =? 0)) magma_ctr_byte 1 1 n m c i o n in
  let '(m, c, l) := mloop always (magma_ctr_part 8) 8 8 n m c (i + k) (o + k) (n - k) in
  let lasted := (n - k - l)%nat in
  if (0 <? lasted)%nat then magma_ctr_part lasted m c (i + k + l) (o + k + l) else (m, c).

(** gost_crypt.c:964-970; the state of the loop is buf and j. *)
Definition cfb_byte (enc : bool) (m : mem) (s : list N * nat) (i o : nat) : mem * (list N * nat) :=
  let '(buf, j) := s in
  let buf := if enc then buf else set buf (j + 8) (m i) in
  let m := upd m o (N.lxor (nth j buf 0) (m i)) in
  let buf := if enc then set buf (j + 8) (m o) else buf in
  (m, (buf, S j)).
(** gost_crypt.c:981-998 *)
Definition cfb_body (m : mem) (c : evp) (i o : nat) : mem * evp :=
  let c := gost_crypt_mesh c in
  let c := if e_enc c then c else with_iv c (rd m i 8) in
  let m := xor_loop (firstn 8 (e_buf c)) m i o in
  let c := if e_enc c then with_iv c (rd m o 8) else c in
  (m, c).
(** gost_crypt.c:1002-1010 *)
Definition cfb_end (n : nat) (m : mem) (c : evp) (i o : nat) : mem * evp :=
  let c := gost_crypt_mesh c in
  let c := if e_enc c then c else with_buf c (overwrite (e_buf c) 8 (rd m i n)) in
  let m := xor_loop (firstn n (e_buf c)) m i o in
  let c := with_num c (N.of_nat n) in
  let c := if e_enc c then with_buf c (overwrite (e_buf c) 8 (rd m o n)) else c in
  (m, c).
(** gost_crypt.c:980-1015 *)
Definition cfb_main_mem (m : mem) (c : evp) (i o n : nat) : mem * evp :=
  let '(m, c, l) := mloop always cfb_body 8 8 n m c i o n in
  if (l <? n)%nat then cfb_end (n - l) m c (i + l) (o + l) else (m, with_num c 0).
(** gost_crypt.c:952-1016 [gost_cipher_do_cfb] *)
Definition gost_cfb_mem (m : mem) (c : evp) (i o n : nat) : mem * evp :=
  if e_num c =? 0 then cfb_main_mem m c i o n
  else
    let '(m, (buf, j), k) :=
      mloop (fun s => (snd s <? 8)%nat) (cfb_byte (e_enc c)) 1 1 n m (e_buf c, N.to_nat (e_num c)) i o n in
    let c := with_buf c buf in
    if (j =? 8)%nat then cfb_main_mem m (with_num (with_iv c (sub 8 8 buf)) 0) (i + k) (o + k) (n - k)
    else (m, with_num c (N.of_nat j)).

(** gost_crypt.c:1029-1032 (and gost_grasshopper_cipher.c:832-835); the state of the loop is j. *)
Definition ks_byte (buf : list N) (m : mem) (j : nat) (i o : nat) : mem * nat :=
  (upd m o (N.lxor (nth j buf 0) (m i)), S j).
(** gost_crypt.c:1046-1055, 1058-1061 for [n] bytes of a block. *)
Definition cnt_part (n : nat) (m : mem) (c : evp) (i o : nat) : mem * evp :=
  let c := gost_cnt_next c in (xor_loop (firstn n (e_buf c)) m i o, c).
(** gost_crypt.c:1041-1066 *)
Definition cnt_main_mem (m : mem) (c : evp) (i o n : nat) : mem * evp :=
  let '(m, c, l) := mloop always (cnt_part 8) 8 8 n m c i o n in
  if (l <? n)%nat then
    let (m, c) := cnt_part (n - l) m c (i + l) (o + l) in (m, with_num c (N.of_nat (n - l)))
  else (m, with_num c 0).
(** gost_crypt.c:1018-1068 [gost_cipher_do_cnt] *)
Definition gost_cnt_mem (m : mem) (c : evp) (i o n : nat) : mem * evp :=
  if e_num c =? 0 then cnt_main_mem m c i o n
  else
    let '(m, j, k) := mloop (fun j => (j <? 8)%nat) (ks_byte (e_buf c)) 1 1 n m (N.to_nat (e_num c)) i o n in
    if (j =? 8)%nat then cnt_main_mem m (with_num c 0) (i + k) (o + k) (n - k)
    else (m, with_num c (N.of_nat j)).

(** * gost_grasshopper_cipher.c *)

(** :524-535 *)
Definition kecb_body (m : mem) (c : kctx) (i o : nat) : mem * kctx :=
  (if k_enc c then wr m o (grasshopper_encrypt_block (k_ek c) (rd m i 16))
   else wr m o (grasshopper_decrypt_block (k_dk c) (rd m i 16)), c).
(** :511-539 [gost_grasshopper_cipher_do_ecb] *)
Definition kuz_ecb_mem (m : mem) (c : kctx) (i o n : nat) : mem * kctx :=
  fst (mloop always kecb_body 16 16 n m c i o n).
(** :561-575; in the decryption the block is decrypted into the output and the old iv is added there. *)
Definition kcbc_body (m : mem) (c : kctx) (i o : nat) : mem * kctx :=
  if k_enc c then
    let c := kw_iv c (append128 (k_iv c) (rd m i 16)) in
    let m := wr m o (grasshopper_encrypt_block (k_ek c) (k_iv c)) in
    (m, kw_iv c (rd m o 16))
  else
    let tmp := rd m i 16 in
    let m := wr m o (grasshopper_decrypt_block (k_dk c) (rd m i 16)) in
    let m := wr m o (append128 (rd m o 16) (k_iv c)) in
    (m, kw_iv c tmp).
(** :541-579 [gost_grasshopper_cipher_do_cbc] *)
Definition kuz_cbc_mem (m : mem) (c : kctx) (i o n : nat) : mem * kctx :=
  fst (mloop always kcbc_body 16 16 n m c i o n).

(** :619-623; the state of the loop is n. *)
Definition kctr_byte (part : list N) (m : mem) (n : nat) (i o : nat) : mem * nat :=
  (upd m o (N.lxor (m i) (nth n part 0)), Nat.modulo (n + 1) 16).
(** :631-637 *)
Definition kctr_body (m : mem) (c : kctx) (i o : nat) : mem * kctx :=
  let c := kw_part c (grasshopper_encrypt_block (k_ek c) (k_iv c)) in
  let tmp := xorl (k_part c) (rd m i 16) in
  let m := wr m o tmp in
  (m, kw_iv c (inc_counter (k_iv c))).
(** :645-653 *)
Definition kctr_end (n : nat) (m : mem) (c : kctx) (i o : nat) : mem * kctx :=
  let c := kw_part c (grasshopper_encrypt_block (k_ek c) (k_iv c)) in
  let m := xor_loop (firstn n (k_part c)) m i o in
  let c := kw_num c (N.of_nat n) in
  (m, kw_iv c (inc_counter (k_iv c))).
(** :602-657 [gost_grasshopper_cipher_do_ctr] *)
Definition kuz_ctr_mem (m : mem) (c : kctx) (i o n : nat) : mem * kctx :=
  let '(m, num, k) := mloop (fun j => negb (j =? 0)%nat) (kctr_byte (k_part c)) 1 1 n m (N.to_nat (k_num c)) i o n in
  let c := kw_num c (N.of_nat num) in
  let '(m, c, l) := mloop always kctr_body 16 16 n m c (i + k) (o + k) (n - k) in
  let lasted := (n - k - l)%nat in
  if (0 <? lasted)%nat then kctr_end lasted m c (i + k + l) (o + k + l) else (m, c).

(** :682-686 *)
Definition kacpkm_byte (m : mem) (c : kctx) (i o : nat) : mem * kctx :=
  let m := upd m o (N.lxor (m i) (nth (N.to_nat (N.land (k_num c) 15)) (k_part c) 0)) in
  (m, kw_num c (w32 (k_num c + 1))).
(** :691-702 *)
Definition kacpkm_body (m : mem) (c : kctx) (i o : nat) : mem * kctx :=
  let c := apply_acpkm_grasshopper c in
  let c := kw_part c (grasshopper_encrypt_block (k_ek c) (k_iv c)) in
  let tmp := xorl (k_part c) (rd m i 16) in
  let m := wr m o tmp in
  let c := kw_iv c (inc_counter (k_iv c)) in
  (m, kw_num c (w32 (k_num c + 16))).
(** :706-715 *)
Definition kacpkm_end (n : nat) (m : mem) (c : kctx) (i o : nat) : mem * kctx :=
  let c := apply_acpkm_grasshopper c in
  let c := kw_part c (grasshopper_encrypt_block (k_ek c) (k_iv c)) in
  let m := xor_loop (firstn n (k_part c)) m i o in
  let c := kw_iv c (inc_counter (k_iv c)) in
  (m, kw_num c (w32 (k_num c + N.of_nat n))).
(** :671-720 [gost_grasshopper_cipher_do_ctracpkm] *)
Definition kuz_ctracpkm_mem (m : mem) (c : kctx) (i o n : nat) : mem * kctx :=
  let '(m, c, k) := mloop (fun c => negb (N.land (k_num c) 15 =? 0)) kacpkm_byte 1 1 n m c i o n in
  let '(m, c, l) := mloop always kacpkm_body 16 16 n m c (i + k) (o + k) (n - k) in
  let lasted := (n - k - l)%nat in
  if (0 <? lasted)%nat then kacpkm_end lasted m c (i + k + l) (o + k + l) else (m, c).

(** :852-863, 868-871 for [n] bytes of a block. *)
Definition ofb_part (n : nat) (m : mem) (c : kctx) (i o : nat) : mem * kctx :=
  let c := cnt_next16 c in (xor_loop (firstn n (k_buf c)) m i o, c).
(** :844-876: the loop runs while more than a block is left. *)
Definition ofb_main_mem (m : mem) (c : kctx) (i o n : nat) : mem * kctx :=
  let '(m, c, l) := mloop always (ofb_part 16) 16 17 n m c i o n in
  if (l <? n)%nat then
    let (m, c) := ofb_part (n - l) m c (i + l) (o + l) in (m, kw_num c (N.of_nat (n - l)))
  else (m, kw_num c 0).
(** :817-879 [gost_grasshopper_cipher_do_ofb] *)
Definition kuz_ofb_mem (m : mem) (c : kctx) (i o n : nat) : mem * kctx :=
  if k_num c =? 0 then ofb_main_mem m c i o n
  else
    let '(m, j, k) := mloop (fun j => (j <? 16)%nat) (ks_byte (k_buf c)) 1 1 n m (N.to_nat (k_num c)) i o n in
    if (j =? 16)%nat then ofb_main_mem m (kw_num c 0) (i + k) (o + k) (n - k)
    else (m, kw_num c (N.of_nat j)).

(** :897-906 *)
Definition kcfb_byte (enc : bool) (m : mem) (s : list N * nat) (i o : nat) : mem * (list N * nat) :=
  let '(buf, j) := s in
  let buf := if enc then buf else set buf (j + 16) (m i) in
  let m := upd m o (N.lxor (nth j buf 0) (m i)) in
  let buf := if enc then set buf (j + 16) (m o) else buf in
  (m, (buf, S j)).
(** :923-942 *)
Definition kcfb_body (m : mem) (c : kctx) (i o : nat) : mem * kctx :=
  let c := kw_buf c (overwrite (k_buf c) 0 (grasshopper_encrypt_block (k_ek c) (k_iv c))) in
  let c := if k_enc c then c else kw_iv c (rd m i 16) in
  let m := xor_loop (firstn 16 (k_buf c)) m i o in
  let c := if k_enc c then kw_iv c (rd m o 16) else c in
  (m, c).
(** :946-958 *)
Definition kcfb_end (n : nat) (m : mem) (c : kctx) (i o : nat) : mem * kctx :=
  let c := kw_buf c (overwrite (k_buf c) 0 (grasshopper_encrypt_block (k_ek c) (k_iv c))) in
  let c := if k_enc c then c else kw_buf c (overwrite (k_buf c) 16 (rd m i n)) in
  let m := xor_loop (firstn n (k_buf c)) m i o in
  let c := kw_num c (N.of_nat n) in
  let c := if k_enc c then kw_buf c (overwrite (k_buf c) 16 (rd m o n)) else c in
  (m, c).
(** :917-962 *)
Definition kcfb_main_mem (m : mem) (c : kctx) (i o n : nat) : mem * kctx :=
  let '(m, c, l) := mloop always kcfb_body 16 17 n m c i o n in
  if (l <? n)%nat then kcfb_end (n - l) m c (i + l) (o + l) else (m, kw_num c 0).
(** :881-965 [gost_grasshopper_cipher_do_cfb] *)
Definition kuz_cfb_mem (m : mem) (c : kctx) (i o n : nat) : mem * kctx :=
  if k_num c =? 0 then kcfb_main_mem m c i o n
  else
    let '(m, (buf, j), k) :=
      mloop (fun s => (snd s <? 16)%nat) (kcfb_byte (k_enc c)) 1 1 n m (k_buf c, N.to_nat (k_num c)) i o n in
    let c := kw_buf c buf in
    if (j =? 16)%nat then kcfb_main_mem m (kw_num (kw_iv c (sub 16 16 buf)) 0) (i + k) (o + k) (n - k)
    else (m, kw_num c (N.of_nat j)).

(** * MGM, gost_gost2015.c *)
Section Mgm.
  Variable bl : nat.
  Variable E : list N -> list N.
  Variable mul : list N -> list N -> list N.
  (** :352-366, ACi[n] = out[i] = in[i] ^ EKi[n] *)
  Definition mgm_enc_byte (m : mem) (c : mgm) (i o : nat) : mem * mgm :=
    let n := Nat.modulo (m_mres c) bl in
    let c := if (n =? 0)%nat then m_w_Yi (m_w_EKi c (E (m_Yi c))) (incr_r bl (m_Yi c)) else c in
    let m := upd m o (N.lxor (m i) (nth n (m_EKi c) 0)) in
    let c := m_w_ACi c (set (m_ACi c) n (m o)) in
    let n := Nat.modulo (n + 1) bl in
    let c := m_w_mres c n in
    (m, if (n =? 0)%nat then absorb bl E mul c (m_ACi c) else c).
  (** :430-445, ACi[n] = c = in[i]; out[i] = c ^ EKi[n] *)
  Definition mgm_dec_byte (m : mem) (c : mgm) (i o : nat) : mem * mgm :=
    let n := Nat.modulo (m_mres c) bl in
    let c := if (n =? 0)%nat then m_w_Yi (m_w_EKi c (E (m_Yi c))) (incr_r bl (m_Yi c)) else c in
    let x := m i in
    let c := m_w_ACi c (set (m_ACi c) n x) in
    let m := upd m o (N.lxor x (nth n (m_EKi c) 0)) in
    let n := Nat.modulo (n + 1) bl in
    let c := m_w_mres c n in
    (m, if (n =? 0)%nat then absorb bl E mul c (m_ACi c) else c).
  (** :326-370 and :402-449 *)
  Definition mgm_crypt_mem (body : mem -> mgm -> nat -> nat -> mem * mgm) (m : mem) (c : mgm) (i o n : nat) : Z * (mem * mgm) :=
    let len := N.of_nat n in
    let mlen := w64 (m_mlen c + len) in
    if (limit bl <? mlen) || (mlen <? len) || (limit bl <? w64 (mlen + m_alen c)) then ((-1)%Z, (m, c))
    else
      let c := flush_aad bl E mul (m_w_mlen c mlen) in
      (0%Z, fst (mloop always body 1 1 n m c i o n)).
  (** :308-371 [gost_mgm128_encrypt] *)
  Definition mgm_encrypt_mem (m : mem) (c : mgm) (i o n : nat) : Z * (mem * mgm) :=
    let c := if m_mlen c =? 0 then init_Y E (if m_alen c =? 0 then init_Z E c else c) else c in
    mgm_crypt_mem mgm_enc_byte m c i o n.
  (** :385-450 [gost_mgm128_decrypt] *)
  Definition mgm_decrypt_mem (m : mem) (c : mgm) (i o n : nat) : Z * (mem * mgm) :=
    let c := if m_mlen c =? 0 then init_Y E c else c in
    mgm_crypt_mem mgm_dec_byte m c i o n.
End Mgm.
