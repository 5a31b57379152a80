(** Properties C12-C16, C26 and C36 (64-bit parts): Magma CTR, re-initialisation, the MAC digest. *)
From Coq Require Import String.
From Verif Require Import Bytes BytesProofs Gost89Model Gost89Sboxes Gost89Spec Gost89Proofs Gost89SpecProofs
  Gost89ModeProofs StreamMode CryptModel CryptSpec CryptProofs MagmaProofs ImitProofs PropGost89 PropCrypt.
From Coq Require Import List Lia NArith.
Open Scope N_scope.

(** ** C12 *)
(** magma-ctr / magma-ctr-acpkm after init and, optionally, a key meshing control call. *)
Definition ctr_start (acpkm : bool) (mesh : option N) g k iv enc : evp :=
  let c := magma_start 4 acpkm g k iv enc in
  match mesh with Some n => snd (ctl_key_mesh c n) | None => c end.
(** The section size in force: 0 (no re-keying) for magma-ctr, 1024 for magma-ctr-acpkm, or the
    one set by the control call. *)
Definition section_size (acpkm : bool) (mesh : option N) : N :=
  match mesh with Some n => n | None => if acpkm then 1024 else 0 end.
Lemma ctr_iv4 iv : length iv = 4%nat -> bytes iv ->
  overwrite (zeros 8) 0 (firstn 4 (overwrite (zeros 8) 0 (firstn 4 iv))) = n2be 8 (be2n (iv ++ zeros 4) + N.of_nat 0).
Proof.
  intros H Hb. change (N.of_nat 0) with 0. rewrite N.add_0_r, n2be_be2n.
  - do 5 (destruct iv as [|? iv]; try discriminate H). reflexivity.
  - apply bytes_app; [auto|apply bytes_zeros].
  - rewrite app_length, H. reflexivity.
Qed.
Lemma ctr_start_rel acpkm mesh g k iv enc : rng_ok (g_rng g) -> bytes k -> length iv = 4%nat -> bytes iv ->
  rel_ctr Gost28147_TC26ParamSetZ (section_size acpkm mesh) k (be2n (iv ++ zeros 4)) (ctr_start acpkm mesh g k iv enc) (0%nat, nil, nil).
Proof.
  intros Hr Hk Hi Hb. pose proof (magma_start_key 4 acpkm g k iv enc Hr Hk) as K.
  assert (I : e_iv (magma_start 4 acpkm g k iv enc) = n2be 8 (be2n (iv ++ zeros 4) + N.of_nat 0)) by exact (ctr_iv4 iv Hi Hb).
  assert (M : e_mesh (magma_start 4 acpkm g k iv enc) = if acpkm then 1024 else 0) by reflexivity.
  assert (C : e_count (magma_start 4 acpkm g k iv enc) = 0) by reflexivity.
  assert (Nm : e_num (magma_start 4 acpkm g k iv enc) = 0) by reflexivity.
  assert (Bf : length (e_buf (magma_start 4 acpkm g k iv enc)) = 32%nat) by reflexivity.
  unfold ctr_start. set (c := magma_start 4 acpkm g k iv enc) in *. clearbody c. cbv zeta.
  assert (E : section_no 8 (section_size acpkm mesh) 0 = 0%nat).
  { unfold section_no. destruct (N.eqb_spec (section_size acpkm mesh) 0); [reflexivity|].
    rewrite N.mul_0_r, N.div_0_l by auto. reflexivity. }
  assert (Q : num_ok (section_size acpkm mesh) 0 8 0) by (split; reflexivity).
  destruct mesh as [n|].
  - unfold ctl_key_mesh. rewrite C. cbn [N.eqb negb snd]. split; [|left; split; [cbn [with_mesh e_num]; rewrite Nm; exact Q|split; reflexivity]].
    constructor; cbn [with_mesh e_g e_mesh e_iv e_buf e_num]; auto.
    + change (0 - 1)%nat with 0%nat. rewrite E. exact K.
    + rewrite Nm. reflexivity.
  - split; [|left; split; [rewrite Nm; exact Q|split; reflexivity]].
    constructor; auto.
    + change (0 - 1)%nat with 0%nat. rewrite E. exact K.
    + rewrite Nm. reflexivity.
Qed.
Theorem C12_magma_ctr_refines_spec_for_every_chunking :
  forall acpkm mesh g k iv enc chunks,
    rng_ok (g_rng g) -> bytes k -> length iv = 4%nat -> bytes iv ->
    section_size acpkm mesh mod 8 = 0 -> section_size acpkm mesh < 2 ^ 32 ->
    out_of magma_cipher_do_ctr (ctr_start acpkm mesh g k iv enc) chunks
    = magma_ctr SZ (section_size acpkm mesh) k iv (concat chunks).
Proof.
  intros acpkm mesh g k iv enc chunks Hr Hk Hi Hb H8 H32.
  pose proof (ctr_start_rel acpkm mesh g k iv enc Hr Hk Hi Hb) as R.
  destruct (run_chunks_bytes _ _ _ _ _ magma_cipher_do_ctr true
    (ctr_sim Gost28147_TC26ParamSetZ (section_size acpkm mesh) k (be2n (iv ++ zeros 4)) H8 H32) chunks _ _ R) as [_ E].
  unfold out_of, run. rewrite E. unfold magma_ctr.
  apply run_bytes_stream with (good := fun _ => True); auto; try lia; intros s _; apply ctr_next_len.
Qed.
Theorem C12_magma_ctr_involution :
  forall acpkm mesh g1 g2 k iv enc1 enc2 chunks1 chunks2,
    rng_ok (g_rng g1) -> rng_ok (g_rng g2) -> bytes k -> length iv = 4%nat -> bytes iv ->
    section_size acpkm mesh mod 8 = 0 -> section_size acpkm mesh < 2 ^ 32 ->
    concat chunks2 = out_of magma_cipher_do_ctr (ctr_start acpkm mesh g1 k iv enc1) chunks1 ->
    out_of magma_cipher_do_ctr (ctr_start acpkm mesh g2 k iv enc2) chunks2 = concat chunks1.
Proof.
  intros acpkm mesh g1 g2 k iv e1 e2 ch1 ch2 H1 H2 Hk Hi Hb H8 H32 E.
  rewrite C12_magma_ctr_refines_spec_for_every_chunking in * by auto. rewrite E. unfold magma_ctr.
  rewrite (stream_enc_irrelevant _ _ 8 true (negb true) _ (stream _ _ _ _ _ _ _)).
  apply stream_roundtrip with (good := fun _ => True); auto; try lia; intros s _; apply ctr_next_len.
Qed.
Print Assumptions C12_magma_ctr_involution.
Example C12_example :
  let c := ctr_start true (Some 16) ctx0 kdemo (hex "12345678") true in
  let m := mdemo 45 in let o := out_of magma_cipher_do_ctr c [m] in
  (eqbl (out_of magma_cipher_do_ctr c [firstn 3 o; sub 3 18 o; skipn 21 o]) m, eqbl o m,
   eqbl (firstn 16 o) (firstn 16 (out_of magma_cipher_do_ctr (ctr_start false None ctx0 kdemo (hex "12345678") true) [m])),
   eqbl (firstn 24 o) (firstn 24 (out_of magma_cipher_do_ctr (ctr_start false None ctx0 kdemo (hex "12345678") true) [m])))
  = (true, false, true, false).
Proof. vm_compute. reflexivity. Qed.
(** RFC 8645 / R 1323565.1.017-2018 test vector for CTR-ACPKM with Magma, A.1 (N = 128 bits),
    checked on the code model. *)
Example C12_rfc_vector :
  out_of magma_cipher_do_ctr
    (ctr_start true (Some 16) ctx0
       (hex "8899AABBCCDDEEFF0011223344556677FEDCBA98765432100123456789ABCDEF") (hex "12345678") true)
    [hex "1122334455667700FFEEDDCCBBAA9988"]
  = hex "2AB81DEEEB1E4CAB68E104C4BD6B94EA".
Proof. vm_compute. reflexivity. Qed.

(** ** C26 (64-bit blocks) *)
(** The counter block that enters the cipher for block number [i]. *)
Theorem C26_magma_counter_value :
  forall acpkm mesh g k iv enc chunks,
    rng_ok (g_rng g) -> bytes k -> length iv = 4%nat -> bytes iv ->
    section_size acpkm mesh mod 8 = 0 -> section_size acpkm mesh < 2 ^ 32 ->
    e_iv (fst (run magma_cipher_do_ctr (ctr_start acpkm mesh g k iv enc) chunks))
    = n2be 8 (be2n (iv ++ zeros 4) + N.of_nat (blocks_started 8 (length (concat chunks)))).
Proof.
  intros acpkm mesh g k iv enc chunks Hr Hk Hi Hb H8 H32.
  pose proof (ctr_start_rel acpkm mesh g k iv enc Hr Hk Hi Hb) as R.
  destruct (run_chunks_bytes _ _ _ _ _ magma_cipher_do_ctr true
    (ctr_sim Gost28147_TC26ParamSetZ (section_size acpkm mesh) k (be2n (iv ++ zeros 4)) H8 H32) chunks _ _ R) as [F _].
  pose proof (run_bytes_started nat (ctr_next (rfc8891_encrypt (sboxes_of Gost28147_TC26ParamSetZ)) 8
    (section_no 8 (section_size acpkm mesh)) k (be2n (iv ++ zeros 4))) (fun s _ => s) 8 (fun s => s) true ltac:(lia)
    (fun s => ctr_next_len _ _ _ _ s) (fun s => eq_refl) (fun s f => eq_refl) (concat chunks) 0%nat) as X.
  unfold run. destruct (run_bytes nat _ _ true (0%nat, nil, nil) (concat chunks)) as [[[i ks] fed] o]. cbn [fst] in *.
  destruct F as [M _]. rewrite (m_iv _ _ _ _ _ _ M). rewrite X. reflexivity.
Qed.
Theorem C26_magma_counters_distinct :
  forall iv1 iv2 i j, length iv1 = 4%nat -> length iv2 = 4%nat -> bytes iv1 -> bytes iv2 -> i < 2 ^ 32 -> j < 2 ^ 32 ->
    n2be 8 (be2n (iv1 ++ zeros 4) + i) = n2be 8 (be2n (iv2 ++ zeros 4) + j) -> iv1 = iv2 /\ i = j.
Proof.
  intros iv1 iv2 i j L1 L2 B1 B2 Hi Hj E. change (2 ^ 32) with 4294967296 in *.
  assert (V : forall iv, length iv = 4%nat -> bytes iv -> be2n (iv ++ zeros 4) = 4294967296 * be2n iv /\ be2n iv < 4294967296).
  { intros iv L B. split.
    - unfold be2n. rewrite rev_app_distr, le2n_app. cbn [zeros repeat rev app]. reflexivity.
    - pose proof (be2n_lt iv B) as X. rewrite L in X. exact X. }
  destruct (V iv1 L1 B1) as [V1 W1]. destruct (V iv2 L2 B2) as [V2 W2]. rewrite V1, V2 in E.
  apply (f_equal be2n) in E. rewrite !be2n_n2be in E. change (256 ^ N.of_nat 8) with (4294967296 * 4294967296) in E.
  rewrite !N.mod_small in E by nia.
  assert (X : be2n iv1 = be2n iv2 /\ i = j) by nia. destruct X as [X1 X2]. split; [|auto].
  apply be2n_inj; auto; lia.
Qed.
Print Assumptions C26_magma_counter_value.
Example C26_example :
  e_iv (fst (run magma_cipher_do_ctr (ctr_start false None ctx0 kdemo (hex "ffffffff") true) [mdemo 3; mdemo 14]))
  = hex "ffffffff00000003".
Proof. vm_compute. reflexivity. Qed.

(** ** C13 *)
(** Re-initialisation with the same or another key and IV, compared with a fresh context. *)
(** CFB and CNT, refuted: after 3 bytes, init leaves the old position inside the key stream block. *)
Theorem C13_reinit_cfb_refuted :
  exists sb g k iv m1 m2,
    subst_ok sb /\ rng_ok (g_rng g) /\ bytes k /\ length iv = 8%nat /\
    let init c := gost_cipher_init_param sb c (Some k) (Some iv) true in
    let used := fst (gost_cipher_do_cfb (init (fresh_evp g)) m1) in
    snd (gost_cipher_do_cfb (init used) m2) <> snd (gost_cipher_do_cfb (init (fresh_evp (e_g used))) m2).
Proof.
  exists Gost28147_CryptoProParamSetA, ctx0, kdemo, ivdemo, (mdemo 3), (mdemo 8).
  split; [|split; [exact ctx0_rng_ok|split; [|split; [reflexivity|]]]].
  - pose proof all_subst_blocks_ok as A. rewrite Forall_forall in A. apply A. unfold all_subst_blocks; cbn [In]; tauto.
  - apply bytes_forallb. reflexivity.
  - vm_compute. discriminate.
Qed.
(** CFB, even when the first message ended at a block boundary: the meshing counter is kept, so
    the key is replaced 8 bytes too early. *)
Theorem C13_reinit_cfb_whole_blocks_refuted :
  exists sb g k iv m1 m2,
    subst_ok sb /\ rng_ok (g_rng g) /\ bytes k /\ length iv = 8%nat /\ length m1 = 8%nat /\
    let init c := gost_cipher_init_param sb c (Some k) (Some iv) true in
    let used := fst (gost_cipher_do_cfb (init (fresh_evp g)) m1) in
    snd (gost_cipher_do_cfb (init used) m2) <> snd (gost_cipher_do_cfb (init (fresh_evp (e_g used))) m2).
Proof.
  exists Gost28147_CryptoProParamSetA, ctx0, kdemo, ivdemo, (mdemo 8), (mdemo 1024).
  split; [|split; [exact ctx0_rng_ok|split; [|split; [reflexivity|split; [reflexivity|]]]]].
  - pose proof all_subst_blocks_ok as A. rewrite Forall_forall in A. apply A. unfold all_subst_blocks; cbn [In]; tauto.
  - apply bytes_forallb. reflexivity.
  - cbv zeta. apply eqbl_neq. vm_compute. reflexivity.
Qed.
Theorem C13_reinit_cnt_refuted :
  exists sb g k iv m1 m2,
    subst_ok sb /\ rng_ok (g_rng g) /\ bytes k /\ length iv = 8%nat /\
    let init c := gost_cipher_init_cnt sb c (Some k) (Some iv) true in
    let used := fst (gost_cipher_do_cnt (init (fresh_evp g)) m1) in
    snd (gost_cipher_do_cnt (init used) m2) <> snd (gost_cipher_do_cnt (init (fresh_evp (e_g used))) m2).
Proof.
  exists Gost28147_CryptoProParamSetA, ctx0, kdemo, ivdemo, (mdemo 3), (mdemo 8).
  split; [|split; [exact ctx0_rng_ok|split; [|split; [reflexivity|]]]].
  - pose proof all_subst_blocks_ok as A. rewrite Forall_forall in A. apply A. unfold all_subst_blocks; cbn [In]; tauto.
  - apply bytes_forallb. reflexivity.
  - vm_compute. discriminate.
Qed.
Theorem C13_reinit_magma_ctr_refuted :
  exists g k iv m1 m2,
    rng_ok (g_rng g) /\ bytes k /\ length iv = 4%nat /\ bytes iv /\ length m1 = 8%nat /\
    let init c := magma_cipher_init 4 false c (Some k) (Some iv) true in
    let used := fst (magma_cipher_do_ctr (init (fresh_evp g)) m1) in
    snd (magma_cipher_do_ctr (init used) m2) <> snd (magma_cipher_do_ctr (init (fresh_evp (e_g used))) m2).
Proof.
  exists ctx0, kdemo, (hex "12345678"), (mdemo 8), (mdemo 8).
  split; [exact ctx0_rng_ok|split; [|split; [reflexivity|split; [|split; [reflexivity|]]]]].
  - apply bytes_forallb. reflexivity.
  - apply bytes_forallb. reflexivity.
  - vm_compute. discriminate.
Qed.

Lemma overwrite_all dst src : length src = length dst -> overwrite dst 0 src = src.
Proof. intros H. unfold overwrite. cbn [firstn app Nat.add]. rewrite skipn_all2 by lia. apply app_nil_r. Qed.
Lemma reinit_iv8 v iv : length v = 8%nat -> length iv = 8%nat -> forall v', length v' = 8%nat ->
  overwrite v' 0 (firstn 8 (overwrite v 0 (firstn 8 iv))) = iv.
Proof.
  intros Lv Li v' Lv'. rewrite (firstn_all2 iv) by lia. rewrite (overwrite_all v iv) by lia.
  rewrite (firstn_all2 iv) by lia. apply overwrite_all. lia.
Qed.
(** Where it does hold.  [c] is any context whatever, with any history. *)
(** Counter mode on a block boundary (no partial key stream block pending). *)
Theorem C13_reinit_cnt_on_boundary :
  forall sb c k iv enc chunks,
    subst_ok sb -> rng_ok (g_rng (e_g c)) -> bytes k -> length iv = 8%nat -> bytes iv ->
    length (e_oiv c) = 8%nat -> length (e_iv c) = 8%nat -> length (e_buf c) = 32%nat -> e_num c = 0 -> e_abort c = false ->
    out_of gost_cipher_do_cnt (gost_cipher_init_cnt sb c (Some k) (Some iv) enc) chunks
    = gost_cnt (sboxes_of sb) true k iv (concat chunks).
Proof.
  intros sb c k iv enc chunks Hs Hr Hk Hi Hy Lo Li Lb Hn Ha.
  assert (R : rel_cnt sb true k enc (gost_cipher_init_cnt sb c (Some k) (Some iv) enc) ((0%nat, iv), nil, nil)).
  { unfold gost_cipher_init_cnt.
    cbn [e_count init_iv with_enc with_iv with_oiv with_g with_app e_app with_count with_mesh e_oiv e_iv e_g].
    split; [|split; [exact Hy|left; auto]].
    constructor; cbn [fst snd e_g e_count e_mesh e_iv e_buf e_enc e_abort]; try reflexivity; auto.
    - apply kst_gost_key; auto. apply tables_of_init.
    - apply reinit_iv8; auto. }
  destruct (run_chunks_bytes _ _ _ _ _ gost_cipher_do_cnt true (cnt_sim sb true k enc) chunks _ _ R) as [_ E].
  unfold out_of, run. rewrite E. unfold gost_cnt.
  apply run_bytes_stream with (good := fun _ => True); auto; try lia; intros s _; apply cnt_next_len.
Qed.
(** CBC and ECB, every history: a re-initialised context encrypts and decrypts like a fresh one.
    [set] says that S-boxes were installed, as every first init does. *)
Definition sbox_installed sb (c : evp) : Prop := e_app c = true -> tables_of (e_g c) sb.
Theorem C13_reinit_gost_cbc :
  forall sb c k iv enc m,
    subst_ok sb -> rng_ok (g_rng (e_g c)) -> bytes k -> length iv = 8%nat -> length (e_oiv c) = 8%nat -> length (e_iv c) = 8%nat ->
    sbox_installed sb c ->
    snd (gost_cipher_do_cbc (gost_cipher_init_param sb c (Some k) (Some iv) enc) m)
    = snd (gost_cipher_do_cbc (gost_cipher_init_param sb (fresh_evp (e_g c)) (Some k) (Some iv) enc) m).
Proof.
  intros sb c k iv enc m Hs Hr Hk Hi Lo Lv Ht.
  assert (T : let c1 := gost_cipher_init_param sb c (Some k) (Some iv) enc in
    kst sb k (e_g c1) /\ e_iv c1 = iv /\ e_enc c1 = enc).
  { unfold gost_cipher_init_param. cbn [with_enc e_app]. destruct (e_app c) eqn:Ap.
    - cbn [init_iv with_enc with_iv with_oiv with_g e_g e_iv e_enc e_oiv]. split; [|split; [apply reinit_iv8; auto|reflexivity]].
      apply kst_gost_key; auto.
    - cbn [init_iv gost_cipher_set_param with_app with_count with_mesh with_enc with_iv with_oiv with_g e_g e_iv e_enc e_oiv].
      split; [|split; [apply reinit_iv8; auto|reflexivity]]. apply kst_gost_key; auto. apply tables_of_init. }
  destruct (cbc_start_base sb (e_g c) k iv enc Hs Hr Hk Hi) as (A1 & A2 & A3). unfold cbc_start in *. cbv zeta in T.
  set (c1 := gost_cipher_init_param sb c (Some k) (Some iv) enc) in *.
  set (c2 := gost_cipher_init_param sb (fresh_evp (e_g c)) (Some k) (Some iv) enc) in *. clearbody c1 c2.
  destruct T as (T1 & T2 & T3). unfold gost_cipher_do_cbc. rewrite A2, A3, T2, T3.
  destruct A1 as (S1 & X1 & K1 & _). destruct T1 as (S2 & X2 & K2 & _).
  assert (Xe : forall bl v, cbc_enc_blocks (gostcrypt (e_g c1)) v bl = cbc_enc_blocks (gostcrypt (e_g c2)) v bl).
  { induction bl as [|b bl IH]; intros v; cbn [cbc_enc_blocks]; [reflexivity|].
    rewrite (gostcrypt_spec _ _ _ _ S2 X2 K2), <- (gostcrypt_spec _ _ _ (xorl v b) S1 X1 K1), IH. reflexivity. }
  assert (Xd : forall bl v, cbc_dec_blocks (gostdecrypt (e_g c1)) v bl = cbc_dec_blocks (gostdecrypt (e_g c2)) v bl).
  { induction bl as [|b bl IH]; intros v; cbn [cbc_dec_blocks]; [reflexivity|].
    rewrite (gostdecrypt_spec _ _ _ _ S2 X2 K2), <- (gostdecrypt_spec _ _ _ b S1 X1 K1), IH. reflexivity. }
  rewrite Xe, Xd. destruct enc; [destruct (cbc_enc_blocks _ _ _)|destruct (cbc_dec_blocks _ _ _)]; reflexivity.
Qed.
Lemma magma_init_state ivlen acpkm c k iv enc : rng_ok (g_rng (e_g c)) -> bytes k ->
  sbox_installed Gost28147_TC26ParamSetZ c ->
  mst Gost28147_TC26ParamSetZ k (e_g (magma_cipher_init ivlen acpkm c (Some k) (Some iv) enc)) /\
  e_enc (magma_cipher_init ivlen acpkm c (Some k) (Some iv) enc) = enc.
Proof.
  intros Hr Hk Ht. unfold magma_cipher_init. cbn [with_enc e_app]. destruct (e_app c) eqn:Ap.
  - cbn [init_iv with_enc with_iv with_oiv with_g with_mesh e_g e_iv e_enc e_oiv]. split; [|reflexivity].
    apply mst_master, mst_magma_key; auto. exact Z_ok.
  - cbn [init_iv gost_cipher_set_param with_app with_count with_mesh with_enc with_iv with_oiv with_g e_g e_iv e_enc e_oiv].
    split; [|reflexivity]. apply mst_master, mst_magma_key; auto. exact Z_ok. apply tables_of_init.
Qed.
Theorem C13_reinit_magma_ecb_cbc :
  forall c k iv enc m,
    rng_ok (g_rng (e_g c)) -> bytes k -> length iv = 8%nat -> length (e_oiv c) = 8%nat -> length (e_iv c) = 8%nat ->
    sbox_installed Gost28147_TC26ParamSetZ c ->
    snd (magma_cipher_do_ecb (magma_cipher_init 0 false c (Some k) None enc) m)
    = snd (magma_cipher_do_ecb (magma_cipher_init 0 false (fresh_evp (e_g c)) (Some k) None enc) m) /\
    snd (magma_cipher_do_cbc (magma_cipher_init 8 false c (Some k) (Some iv) enc) m)
    = snd (magma_cipher_do_cbc (magma_cipher_init 8 false (fresh_evp (e_g c)) (Some k) (Some iv) enc) m).
Proof.
  intros c k iv enc m Hr Hk Hi Lo Lv Ht.
  assert (F : sbox_installed Gost28147_TC26ParamSetZ (fresh_evp (e_g c))) by (intros X; discriminate X).
  assert (G : forall a b ivl1 ivl2 ap1 ap2 iv1 iv2, rng_ok (g_rng (e_g a)) -> rng_ok (g_rng (e_g b)) ->
     sbox_installed Gost28147_TC26ParamSetZ a -> sbox_installed Gost28147_TC26ParamSetZ b ->
     let a' := magma_cipher_init ivl1 ap1 a (Some k) (Some iv1) enc in
     let b' := magma_cipher_init ivl2 ap2 b (Some k) (Some iv2) enc in
     (forall x, magmacrypt (e_g a') x = magmacrypt (e_g b') x) /\ (forall x, magmadecrypt (e_g a') x = magmadecrypt (e_g b') x) /\
     e_enc a' = enc /\ e_enc b' = enc).
  { intros a b ivl1 ivl2 ap1 ap2 iv1 iv2 Ra Rb Ia Ib. cbv zeta.
    destruct (magma_init_state ivl1 ap1 a k iv1 enc Ra Hk Ia) as [(S1 & X1 & K1 & _) E1].
    destruct (magma_init_state ivl2 ap2 b k iv2 enc Rb Hk Ib) as [(S2 & X2 & K2 & _) E2].
    set (a' := magma_cipher_init ivl1 ap1 a (Some k) (Some iv1) enc) in *.
    set (b' := magma_cipher_init ivl2 ap2 b (Some k) (Some iv2) enc) in *. clearbody a' b'.
    split; [|split; [|auto]]; intros x.
    - rewrite (magmacrypt_spec _ _ _ _ S1 X1 K1), (magmacrypt_spec _ _ _ _ S2 X2 K2). reflexivity.
    - rewrite (magmadecrypt_spec _ _ _ _ S1 X1 K1), (magmadecrypt_spec _ _ _ _ S2 X2 K2). reflexivity. }
  split.
  - change (e_g (fresh_evp (e_g c))) with (e_g c) in F.
    specialize (G c (fresh_evp (e_g c)) 0%nat 0%nat false false nil nil Hr Hr Ht F). cbv zeta in G.
    assert (Q : forall x, e_g (magma_cipher_init 0 false x (Some k) None enc) = e_g (magma_cipher_init 0 false x (Some k) (Some nil) enc) /\
       e_enc (magma_cipher_init 0 false x (Some k) None enc) = enc) by (intros x; split; unfold magma_cipher_init; cbn [with_enc e_app]; destruct (e_app x); reflexivity).
    destruct (Q c) as [Q1 Q2]. destruct (Q (fresh_evp (e_g c))) as [Q3 Q4]. rewrite <- Q1, <- Q3 in G.
    set (a := magma_cipher_init 0 false c (Some k) None enc) in *.
    set (b := magma_cipher_init 0 false (fresh_evp (e_g c)) (Some k) None enc) in *. clearbody a b.
    unfold magma_cipher_do_ecb. cbn [snd]. rewrite Q2, Q4. destruct G as (G1 & G2 & _).
    destruct enc; [generalize G1|generalize G2]; generalize (blocks 8 m); induction l as [|x l IH]; cbn [flat_map]; intros Gx; auto;
      rewrite Gx, IH by auto; reflexivity.
  - specialize (G c (fresh_evp (e_g c)) 8%nat 8%nat false false iv iv Hr Hr Ht F). cbv zeta in G.
    assert (I1 : e_iv (magma_cipher_init 8 false c (Some k) (Some iv) enc) = iv).
    { unfold magma_cipher_init. cbn [with_enc e_app]. destruct (e_app c);
        cbn [init_iv gost_cipher_set_param with_app with_count with_mesh with_enc with_iv with_oiv with_g e_g e_iv e_enc e_oiv];
        apply reinit_iv8; auto. }
    pose proof (magma_start_iv8 false (e_g c) k iv enc Hi) as I2. unfold magma_start in I2.
    set (a := magma_cipher_init 8 false c (Some k) (Some iv) enc) in *.
    set (b := magma_cipher_init 8 false (fresh_evp (e_g c)) (Some k) (Some iv) enc) in *. clearbody a b.
    destruct G as (G1 & G2 & E1 & E2). unfold magma_cipher_do_cbc. rewrite E1, E2, I1, I2.
    assert (Xe : forall bl v, cbc_enc_blocks (magmacrypt (e_g a)) v bl = cbc_enc_blocks (magmacrypt (e_g b)) v bl).
    { induction bl as [|x bl IH]; intros v; cbn [cbc_enc_blocks]; [reflexivity|]. rewrite G1, IH. reflexivity. }
    assert (Xd : forall bl v, cbc_dec_blocks (magmadecrypt (e_g a)) v bl = cbc_dec_blocks (magmadecrypt (e_g b)) v bl).
    { induction bl as [|x bl IH]; intros v; cbn [cbc_dec_blocks]; [reflexivity|]. rewrite G2, IH. reflexivity. }
    rewrite Xe, Xd. destruct enc; [destruct (cbc_enc_blocks _ _ _)|destruct (cbc_dec_blocks _ _ _)]; reflexivity.
Qed.
Print Assumptions C13_reinit_magma_ecb_cbc.
(** The hypotheses hold of a context that was used before. *)
Example C13_example :
  let used := fst (magma_cipher_do_cbc (magma_start 8 false ctx0 kdemo ivdemo true) (mdemo 16)) in
  sbox_installed Gost28147_TC26ParamSetZ used /\ length (e_oiv used) = 8%nat /\ length (e_iv used) = 8%nat /\ e_iv used <> ivdemo.
Proof. split; [|vm_compute; repeat split; discriminate]. intros _. repeat split. Qed.
