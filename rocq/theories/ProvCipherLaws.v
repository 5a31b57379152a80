(** The ciphers of the provider, each as a law about whole messages: what its functions return for a message given in pieces of
    whole blocks is what the standard says, and after that the context can take another key. *)
From Coq Require Import ZArith NArith List Bool Lia.
From Verif Require Import Bytes BytesProofs StreamMode Gost89Model Gost89Spec Gost89Sboxes Gost89Proofs Gost89SpecProofs CryptModel CryptSpec CryptProofs MagmaProofs
  KuzSpec KuzCipherModel KuzCipherSpec KuzModel KuzProofs KuzBlockProofs KuzModeProofs PropGost89 PropCrypt PropCrypt2 PropKuzModes ProvCipherModel ProvCipherSpec ProvCipherProofs.
Import ListNotations.
Local Open Scope nat_scope.
Opaque E_ D_ gost_key gost_init magma_key gostcrypt gostdecrypt magmacrypt magmadecrypt grasshopper_encrypt_block grasshopper_decrypt_block.

Section Laws.
Variable sb : subst_block.
Hypothesis sb_ok : subst_ok sb.
Notation cinit := (cinit sb).
Notation standard := (standard sb).

Definition cbc_ready (t : subst_block) (c : evp) : Prop :=
  rng_ok (g_rng (e_g c)) /\ length (e_oiv c) = 8 /\ length (e_iv c) = 8 /\ sbox_installed t c.
Definition stream_ready (a : alg) (c : evp) : Prop :=
  exists g, rng_ok (g_rng g) /\ (c = evp0 g \/ exists e, CE c = cinit a (CE (evp0 g)) None None e).
Definition ready (a : alg) (c : core) : Prop :=
  match a, c with
  | Gost89Cbc, CE c => cbc_ready sb c
  | MagmaCbc, CE c => cbc_ready Gost28147_TC26ParamSetZ c
  | (KuzEcb | KuzCbc), CK c => kctx_ok c
  | (KuzCfb | KuzOfb), CK c => kctx_ok c /\ k_num c = 0%N
  | (KuzCtr | KuzCtrAcpkm), CK c => kctx_ok c /\ skipn 8 (k_iv c) = zeros 8
  | (Gost89Cfb | Gost89Cnt | Gost89Cnt12 | MagmaCtr | MagmaCtrAcpkm), CE c => stream_ready a c
  | _, _ => False
  end.
Lemma ready_fresh mem h a : (forall n, rng_ok (g_rng (mem n))) -> aead a = false -> ready a (fresh mem h a).
Proof.
  intros R A. destruct a; try discriminate A; cbn [fresh ready];
    try (exists (mem h); split; [apply R|left; reflexivity]);
    try (split; [apply R|split; [reflexivity|split; [reflexivity|intros X; discriminate X]]]);
    try (split; [apply kctx0_ok|reflexivity]); apply kctx0_ok.
Qed.
Definition iv8_ok (iv : option (list N)) : Prop := match iv with Some v => length v = 8 | None => True end.
Lemma iv_len8 c iv : length (e_oiv c) = 8 -> length (e_iv c) = 8 -> iv8_ok iv ->
  let c' := init_iv c iv 8 in length (e_oiv c') = 8 /\ length (e_iv c') = 8 /\ (forall v, iv = Some v -> e_iv c' = v).
Proof.
  intros O I V. unfold init_iv. destruct iv as [v|]; cbn [with_iv with_oiv e_oiv e_iv iv8_ok] in *.
  - rewrite (firstn_all2 v) by lia. rewrite (overwrite_all (e_oiv c) v) by lia. rewrite (firstn_all2 v) by lia. rewrite overwrite_all by lia.
    split; [exact V|]. split; [exact V|]. intros w [= <-]. reflexivity.
  - rewrite (firstn_all2 (e_oiv c)) by lia. rewrite overwrite_all by lia. split; [exact O|]. split; [exact O|]. discriminate.
Qed.
Lemma init_iv_keeps c iv n : e_g (init_iv c iv n) = e_g c /\ e_app (init_iv c iv n) = e_app c /\ e_enc (init_iv c iv n) = e_enc c.
Proof. unfold init_iv. destruct iv; auto. Qed.
Lemma gost_init_ready t c key iv e : subst_ok t -> cbc_ready t c -> (forall k, key = Some k -> bytes k) -> iv8_ok iv ->
  let c' := gost_cipher_init_param t c key iv e in
  cbc_ready t c' /\ e_enc c' = e /\ (forall k, key = Some k -> kst t k (e_g c')) /\ (forall v, iv = Some v -> e_iv c' = v).
Proof.
  intros St (R & O & I & T) K V. unfold gost_cipher_init_param. cbn [with_enc e_app].
  set (c1 := if e_app c then with_enc c e else with_app (gost_cipher_set_param (with_enc c e) t) true).
  assert (C1 : g_rng (e_g c1) = g_rng (e_g c) /\ e_oiv c1 = e_oiv c /\ e_iv c1 = e_iv c /\ tables_of (e_g c1) t /\ e_enc c1 = e).
  { unfold c1. destruct (e_app c) eqn:Ap.
    - repeat (split; [reflexivity|]). split; [apply T, Ap|reflexivity].
    - cbn [gost_cipher_set_param with_app with_count with_mesh with_enc with_g e_g e_oiv e_iv e_enc]. split; [reflexivity|]. split; [reflexivity|]. split; [reflexivity|].
      split; [apply tables_of_init|reflexivity]. }
  clearbody c1. destruct C1 as (C1 & C2 & C3 & C4 & C5). rewrite <- C1 in R. rewrite <- C2 in O. rewrite <- C3 in I.
  set (c2 := match key with Some k => with_g c1 (gost_key (e_g c1) k) | None => c1 end).
  assert (D : rng_ok (g_rng (e_g c2)) /\ e_oiv c2 = e_oiv c1 /\ e_iv c2 = e_iv c1 /\ tables_of (e_g c2) t /\ e_enc c2 = e /\ (forall k, key = Some k -> kst t k (e_g c2))).
  { unfold c2. destruct key as [k|].
    - pose proof (kst_gost_key t k (e_g c1) St C4 R (K k eq_refl)) as KS. cbn [with_g e_g e_oiv e_iv e_enc].
      split; [apply KS|]. split; [reflexivity|]. split; [reflexivity|]. split; [apply KS|]. split; [exact C5|]. intros k' [= <-]. exact KS.
    - split; [exact R|]. split; [reflexivity|]. split; [reflexivity|]. split; [exact C4|]. split; [exact C5|]. discriminate. }
  clearbody c2. destruct D as (D1 & D2 & D3 & D4 & D5 & D6). rewrite <- D2 in O. rewrite <- D3 in I.
  destruct (iv_len8 c2 iv O I V) as (L1 & L2 & L3). destruct (init_iv_keeps c2 iv 8) as (G1 & _ & G3). rewrite G1, G3.
  split; [|auto]. unfold cbc_ready, sbox_installed. rewrite G1. auto.
Qed.
Lemma magma_init_ready c key iv e : cbc_ready Gost28147_TC26ParamSetZ c -> (forall k, key = Some k -> bytes k) -> iv8_ok iv ->
  let c' := magma_cipher_init 8 false c key iv e in
  cbc_ready Gost28147_TC26ParamSetZ c' /\ e_enc c' = e /\ (forall k, key = Some k -> mst Gost28147_TC26ParamSetZ k (e_g c')) /\ (forall v, iv = Some v -> e_iv c' = v).
Proof.
  intros (R & O & I & T) K V. unfold magma_cipher_init. cbn [with_enc e_app]. set (t := Gost28147_TC26ParamSetZ) in *.
  set (c1 := if e_app c then with_enc c e else with_app (gost_cipher_set_param (with_enc c e) t) true).
  assert (C1 : g_rng (e_g c1) = g_rng (e_g c) /\ e_oiv c1 = e_oiv c /\ e_iv c1 = e_iv c /\ tables_of (e_g c1) t /\ e_enc c1 = e).
  { unfold c1. destruct (e_app c) eqn:Ap.
    - repeat (split; [reflexivity|]). split; [apply T, Ap|reflexivity].
    - cbn [gost_cipher_set_param with_app with_count with_mesh with_enc with_g e_g e_oiv e_iv e_enc]. split; [reflexivity|]. split; [reflexivity|]. split; [reflexivity|].
      split; [apply tables_of_init|reflexivity]. }
  clearbody c1. destruct C1 as (C1 & C2 & C3 & C4 & C5). rewrite <- C1 in R. rewrite <- C2 in O. rewrite <- C3 in I.
  set (c2 := match key with Some k => with_g c1 (magma_master_key (magma_key (e_g c1) k) k) | None => c1 end).
  assert (D : rng_ok (g_rng (e_g c2)) /\ e_oiv c2 = e_oiv c1 /\ e_iv c2 = e_iv c1 /\ tables_of (e_g c2) t /\ e_enc c2 = e /\ (forall k, key = Some k -> mst t k (e_g c2))).
  { unfold c2. destruct key as [k|].
    - pose proof (mst_master t k _ k (mst_magma_key t k (e_g c1) Z_ok C4 R (K k eq_refl))) as KS. cbn [with_g e_g e_oiv e_iv e_enc].
      split; [apply KS|]. split; [reflexivity|]. split; [reflexivity|]. split; [apply KS|]. split; [exact C5|]. intros k' [= <-]. exact KS.
    - split; [exact R|]. split; [reflexivity|]. split; [reflexivity|]. split; [exact C4|]. split; [exact C5|]. discriminate. }
  clearbody c2. destruct D as (D1 & D2 & D3 & D4 & D5 & D6). rewrite <- D2 in O. rewrite <- D3 in I.
  destruct (iv_len8 c2 iv O I V) as (L1 & L2 & L3). destruct (init_iv_keeps c2 iv 8) as (G1 & _ & G3).
  cbn [with_mesh e_g e_enc e_iv]. rewrite G1, G3.
  split; [|auto]. unfold cbc_ready, sbox_installed. cbn [with_mesh e_g e_oiv e_iv e_app]. rewrite G1. auto.
Qed.

(** Kuznyechik *)
Lemma kuz_keyless n c e : kctx_ok c -> kctx_ok (gost_grasshopper_cipher_init n c None None e).
Proof.
  intros (L1 & L2 & L3 & L4 & L5 & Y & L6). unfold gost_grasshopper_cipher_init, kctx_ok. cbn [kw_enc kw_iv k_ek k_dk k_oiv k_iv k_buf k_part].
  repeat (split; [assumption|]). split; [|auto]. rewrite overwrite_length; rewrite ?firstn_length; lia.
Qed.
Lemma kuz_keyless_tail c e : kctx_ok c -> skipn 8 (k_iv c) = zeros 8 -> skipn 8 (k_iv (gost_grasshopper_cipher_init 8 c None None e)) = zeros 8.
Proof.
  intros (L1 & L2 & L3 & L4 & L5 & Y & L6) Z. unfold gost_grasshopper_cipher_init. cbn [kw_enc kw_iv k_oiv k_iv]. 
  assert (L : length (firstn 8 (k_oiv c)) = 8) by (rewrite firstn_length; lia). set (x := firstn 8 (k_oiv c)) in *. clearbody x.
  unfold overwrite. rewrite firstn_O, L. change (0 + 8) with 8. change ([] ++ x ++ skipn 8 (k_iv c)) with (x ++ skipn 8 (k_iv c)). rewrite skipn_app, skipn_all2, L by lia.
  exact Z.
Qed.
Lemma ready_keyless a c e : ready a c -> ready a (cinit a c None None e).
Proof.
  assert (S : forall a c, (forall g e1 e2, cinit a (cinit a (CE (evp0 g)) None None e1) None None e2 = cinit a (CE (evp0 g)) None None e2) ->
    forall c', stream_ready a c -> CE c' = cinit a (CE c) None None e -> stream_ready a c').
  { intros b d H c' (g & R & X) Q. exists g. split; [exact R|]. right. destruct X as [-> |(e1 & X)]; [exists e; exact Q|]. exists e. rewrite Q, X. apply H. }
  destruct a, c; cbn [ready]; try contradiction; intros R.
  - eapply S; [|exact R|reflexivity]. reflexivity.
  - eapply S; [|exact R|reflexivity]. reflexivity.
  - eapply S; [|exact R|reflexivity]. reflexivity.
  - apply gost_init_ready; [exact sb_ok|exact R|discriminate|exact I].
  - apply kuz_keyless, R.
  - apply kuz_keyless, R.
  - split; [apply kuz_keyless, R|apply R].
  - split; [apply kuz_keyless, R|apply R].
  - destruct R as [R1 R2]. assert (kctx_ok (kw_part (kw_num c 0) (zeros 16))) as R3.
    { destruct R1 as (L1 & L2 & L3 & L4 & L5 & Y & L6). unfold kctx_ok. repeat (split; [assumption|]). reflexivity. }
    split; [apply kuz_keyless, R3|apply kuz_keyless_tail; [exact R3|exact R2]].
  - apply magma_init_ready; [exact R|discriminate|exact I].
  - eapply S; [|exact R|reflexivity]. reflexivity.
  - eapply S; [|exact R|reflexivity]. reflexivity.
  - destruct R as [R1 R2]. assert (kctx_ok (kw_sect (kw_num c 0) 4096)) as R3 by exact R1.
    split; [apply kuz_keyless, R3|apply kuz_keyless_tail; [exact R3|exact R2]].
Qed.

(** From the ciphers' functions to the common ones *)
Lemma run_ce a f : (forall c d, cdo a (CE c) d = ce f c d) -> forall chs c,
  run_chunks core (cdo a) (CE c) chs = (let (c', o) := run_chunks evp f c chs in (CE c', o)).
Proof.
  intros H. induction chs as [|d t IH]; intros c; [reflexivity|]. cbn [run_chunks]. rewrite H. unfold ce. destruct (f c d) as [c1 o1]. rewrite IH.
  destruct (run_chunks evp f c1 t). reflexivity.
Qed.
Lemma run_ck a f : (forall c d, cdo a (CK c) d = ck f c d) -> forall chs c,
  run_chunks core (cdo a) (CK c) chs = (let (c', o) := run_chunks kctx f c chs in (CK c', o)).
Proof.
  intros H. induction chs as [|d t IH]; intros c; [reflexivity|]. cbn [run_chunks]. rewrite H. unfold ck. destruct (f c d) as [c1 o1]. rewrite IH.
  destruct (run_chunks kctx f c1 t). reflexivity.
Qed.
Lemma snd_ce a f chs c : (forall c d, cdo a (CE c) d = ce f c d) -> snd (run_chunks core (cdo a) (CE c) chs) = out_of f c chs.
Proof. intros H. rewrite (run_ce a f H). unfold out_of, PropCrypt.run. destruct (run_chunks evp f c chs). reflexivity. Qed.
Lemma snd_ck a f chs c : (forall c d, cdo a (CK c) d = ck f c d) -> snd (run_chunks core (cdo a) (CK c) chs) = kout f c chs.
Proof. intros H. rewrite (run_ck a f H). unfold kout. destruct (run_chunks kctx f c chs). reflexivity. Qed.

Definition key_ok (k : list N) : Prop := length k = 32 /\ bytes k.
Definition iv_ok (a : alg) (iv : option (list N)) : Prop :=
  iv_bytes a = 0 /\ iv = None \/ exists v, iv = Some v /\ length v = iv_bytes a /\ bytes v.
Lemma cbc_inv_same D bl : forall iv, cbc_inv D iv bl = cbc_decrypt D iv bl.
Proof. induction bl as [|b t IH]; intros iv; [reflexivity|]. cbn [cbc_inv cbc_decrypt]. rewrite IH. reflexivity. Qed.
Lemma cbc_dec_spec D bl : forall iv, snd (cbc_dec_blocks D iv bl) = concat (cbc_inv D iv bl).
Proof.
  induction bl as [|b t IH]; intros iv; [reflexivity|]. cbn [cbc_dec_blocks cbc_inv concat]. rewrite <- IH, xorl_comm. destruct (cbc_dec_blocks D b t). reflexivity.
Qed.
Lemma cbc_inv_ext D1 D2 : (forall b, D1 b = D2 b) -> forall bl iv, cbc_inv D1 iv bl = cbc_inv D2 iv bl.
Proof. intros H. induction bl as [|b bl IH]; intros iv; cbn [cbc_inv]; [reflexivity|]. rewrite H, IH. reflexivity. Qed.
Lemma chunk_whole a chs : bsize a = 8 -> Forall (chunk a) chs -> Forall whole chs.
Proof. intros B. apply Forall_impl. intros d [D _]. rewrite B in D. exact D. Qed.
Lemma chunk_whole16 a chs : bsize a = 16 -> Forall (chunk a) chs -> Forall whole16 chs.
Proof. intros B. apply Forall_impl. intros d [D _]. rewrite B in D. exact D. Qed.
Lemma chunk_bytes a chs : Forall (chunk a) chs -> Forall bytes chs.
Proof. apply Forall_impl. intros d [_ D]. exact D. Qed.
Lemma stream_start a c k iv e : ready a (CE c) -> (forall g e1, cinit a (cinit a (CE (evp0 g)) None None e1) (Some k) iv e = cinit a (CE (evp0 g)) (Some k) iv e) ->
  stream_ready a c -> exists g, rng_ok (g_rng g) /\ cinit a (CE c) (Some k) iv e = cinit a (CE (evp0 g)) (Some k) iv e.
Proof. intros _ H (g & R & [-> |(e1 & X)]); exists g; (split; [exact R|]); [reflexivity|]. rewrite X. apply H. Qed.

Theorem ready_law a c k iv e : ready a c -> key_ok k -> iv_ok a iv -> forall chs, Forall (chunk a) chs ->
  snd (run_chunks core (cdo a) (cinit a c (Some k) iv e) chs) = standard a e k (given iv) (concat chs).
Proof.
  intros R [Lk Bk] V chs CH.
  destruct a, c; cbn [ready] in R; try contradiction; destruct V as [[V ->]|(v & -> & Lv & Bv)]; try discriminate V; cbn [iv_bytes] in *; cbn [given].
  - destruct (stream_start Gost89Cfb c k (Some v) e R ltac:(reflexivity) R) as (g & Rg & ->). cbn [ProvCipherModel.cinit]. rewrite (snd_ce _ gost_cipher_do_cfb) by reflexivity.
    exact (C08_cfb_refines_spec_for_every_chunking sb g k v e 1 chs sb_ok Rg Bk Lv).
  - destruct (stream_start Gost89Cnt c k (Some v) e R ltac:(reflexivity) R) as (g & Rg & ->). cbn [ProvCipherModel.cinit]. rewrite (snd_ce _ gost_cipher_do_cnt) by reflexivity.
    refine (C10_cnt_refines_spec_for_every_chunking Gost28147_CryptoProParamSetA g k v e 1 chs _ Rg Bk Lv Bv).
    pose proof all_subst_blocks_ok as A. rewrite Forall_forall in A. apply A. unfold all_subst_blocks. cbn [In]. tauto.
  - destruct (stream_start Gost89Cnt12 c k (Some v) e R ltac:(reflexivity) R) as (g & Rg & ->). cbn [ProvCipherModel.cinit]. rewrite (snd_ce _ gost_cipher_do_cnt) by reflexivity.
    exact (C10_cnt_refines_spec_for_every_chunking Gost28147_TC26ParamSetZ g k v e 1 chs Z_ok Rg Bk Lv Bv).
  - cbn [ProvCipherModel.cinit]. rewrite (snd_ce _ gost_cipher_do_cbc) by reflexivity.
    destruct (gost_init_ready sb c (Some k) (Some v) e sb_ok R) as (_ & E & K & I); [intros k' [= <-]; exact Bk|exact Lv|]. specialize (K k eq_refl). specialize (I v eq_refl).
    set (c1 := gost_cipher_init_param sb c (Some k) (Some v) e) in *. clearbody c1.
    rewrite gost_cbc_chunks by (apply (chunk_whole Gost89Cbc); [reflexivity|exact CH]). unfold gcbc. rewrite E, I. cbn [ProvCipherSpec.standard]. unfold cbc.
    destruct e; [rewrite cbc_enc_spec; f_equal; apply cbc_encrypt_ext; intros b; apply (kst_crypt sb), K|].
    rewrite cbc_dec_spec. f_equal. apply cbc_inv_ext. intros b. destruct K as (S1 & T1 & K1 & _). apply (gostdecrypt_spec _ _ _ _ S1 T1 K1).
  - cbn [ProvCipherModel.cinit]. rewrite (snd_ck _ do_ecb) by reflexivity. destruct (init0 c k e R (conj Lk Bk)) as [K E].
    set (c1 := init_ecb c (Some k) None e) in *. clearbody c1. unfold kout. rewrite (run_chunks_steps do_ecb ecb_step do_ecb_steps) by (apply (chunk_whole16 KuzEcb); [reflexivity|exact CH]).
    rewrite (ecb_steps_spec k); [|exact K|apply blocks_blk16; [apply concat_whole, (chunk_whole16 KuzEcb); [reflexivity|exact CH]|apply concat_bytes_inv, (chunk_bytes KuzEcb), CH]].
    rewrite E. reflexivity.
  - cbn [ProvCipherModel.cinit]. rewrite (snd_ck _ do_ecb) by reflexivity. destruct v as [|v0 vt]; [|discriminate Lv].
    assert (KE : kkst k (init_ecb c (Some k) (Some []) e) /\ k_enc (init_ecb c (Some k) (Some []) e) = e).
    { destruct (init0 c k e R (conj Lk Bk)) as [K E]. split; [exact K|exact E]. }
    destruct KE as [K E].
    set (c1 := init_ecb c (Some k) (Some []) e) in *. clearbody c1. unfold kout. rewrite (run_chunks_steps do_ecb ecb_step do_ecb_steps) by (apply (chunk_whole16 KuzEcb); [reflexivity|exact CH]).
    rewrite (ecb_steps_spec k); [|exact K|apply blocks_blk16; [apply concat_whole, (chunk_whole16 KuzEcb); [reflexivity|exact CH]|apply concat_bytes_inv, (chunk_bytes KuzEcb), CH]].
    rewrite E. reflexivity.
  - cbn [ProvCipherModel.cinit]. rewrite (snd_ck _ do_cbc) by reflexivity. destruct (init16 c k v e R (conj Lk Bk) (conj Lv Bv)) as (K & I & E & _).
    change (gost_grasshopper_cipher_init 16) with init_cbc in *. set (c1 := init_cbc c (Some k) (Some v) e) in *. clearbody c1. unfold kout.
    rewrite (run_chunks_steps do_cbc cbc_step do_cbc_steps) by (apply (chunk_whole16 KuzCbc); [reflexivity|exact CH]).
    assert (B : Forall blk16 (blocks 16 (concat chs))) by (apply blocks_blk16; [apply concat_whole, (chunk_whole16 KuzCbc); [reflexivity|exact CH]|apply concat_bytes_inv, (chunk_bytes KuzCbc), CH]).
    cbn [ProvCipherSpec.standard]. unfold cbc. destruct e.
    + rewrite (cbc_enc_steps k); [rewrite I; reflexivity|exact K|exact E|rewrite I; split; assumption|exact B].
    + rewrite (cbc_dec_steps k); [rewrite I; reflexivity|exact K|exact E|exact B].
  - destruct R as [R1 R2]. cbn [ProvCipherModel.cinit]. rewrite (snd_ck _ do_cfb) by reflexivity.
    apply C25_cfb_refines_spec; [exact R1|exact R2|split; assumption|split; assumption|apply (chunk_bytes KuzCfb), CH].
  - destruct R as [R1 R2]. cbn [ProvCipherModel.cinit]. rewrite (snd_ck _ do_ofb) by reflexivity.
    apply C25_ofb_refines_spec; [exact R1|left; exact R2|split; assumption|split; assumption|apply (chunk_bytes KuzOfb), CH].
  - destruct R as [R1 R2]. cbn [ProvCipherModel.cinit]. rewrite (snd_ck _ do_ctr) by reflexivity.
    apply C25_ctr_refines_spec; [exact R1|exact R2|split; assumption|split; assumption|apply (chunk_bytes KuzCtr), CH].
  - cbn [ProvCipherModel.cinit]. rewrite (snd_ce _ magma_cipher_do_cbc) by reflexivity.
    destruct (magma_init_ready c (Some k) (Some v) e R) as (_ & E & K & I); [intros k' [= <-]; exact Bk|exact Lv|]. specialize (K k eq_refl). specialize (I v eq_refl).
    set (c1 := magma_cipher_init 8 false c (Some k) (Some v) e) in *. clearbody c1.
    rewrite magma_cbc_chunks by (apply (chunk_whole MagmaCbc); [reflexivity|exact CH]). unfold mcbc. rewrite E, I. cbn [ProvCipherSpec.standard]. unfold cbc.
    destruct e; [rewrite cbc_enc_spec; f_equal; apply cbc_encrypt_ext; intros b; apply (mst_crypt Gost28147_TC26ParamSetZ), K|].
    rewrite cbc_dec_spec. f_equal. apply cbc_inv_ext. intros b. destruct K as (S1 & T1 & K1 & _). apply (magmadecrypt_spec _ _ _ _ S1 T1 K1).
  - destruct (stream_start MagmaCtr c k (Some v) e R ltac:(reflexivity) R) as (g & Rg & ->). cbn [ProvCipherModel.cinit]. rewrite (snd_ce _ magma_cipher_do_ctr) by reflexivity.
    exact (C12_magma_ctr_refines_spec_for_every_chunking false None g k v e chs Rg Bk Lv Bv eq_refl eq_refl).
  - destruct (stream_start MagmaCtrAcpkm c k (Some v) e R ltac:(reflexivity) R) as (g & Rg & ->). cbn [ProvCipherModel.cinit]. rewrite (snd_ce _ magma_cipher_do_ctr) by reflexivity.
    exact (C12_magma_ctr_refines_spec_for_every_chunking true None g k v e chs Rg Bk Lv Bv eq_refl eq_refl).
  - destruct R as [R1 R2]. cbn [ProvCipherModel.cinit]. rewrite (snd_ck _ do_ctracpkm) by reflexivity.
    refine (C25_ctr_acpkm_refines_spec c None k v e chs R1 R2 _ _ I _); [split; assumption|split; assumption|apply (chunk_bytes KuzCtrAcpkm), CH].
Qed.

(** Lengths and bytes *)
Definition blkb (n : nat) (b : list N) : Prop := length b = n /\ bytes b.
Lemma same_concat n (l l' : list (list N)) : Forall (blkb n) l -> Forall (blkb n) l' -> length l = length l' -> length (concat l) = length (concat l').
Proof.
  intros H. revert l'. induction H as [|b t [Hb _] H IH]; intros l' H' L; destruct l' as [|b' t']; try discriminate L; [reflexivity|].
  apply Forall_cons_iff in H' as [[Hb' _] H']. cbn [concat]. rewrite !app_length, Hb, Hb'. f_equal. apply IH; [exact H'|cbn in L; lia].
Qed.
Lemma concat_blkb n l : Forall (blkb n) l -> bytes (concat l).
Proof. induction 1 as [|b t [_ Hb] _ IH]; [constructor|]. cbn [concat]. apply bytes_app; assumption. Qed.
Lemma blocks_blkb n m : 0 < n -> length m mod n = 0 -> bytes m -> Forall (blkb n) (blocks n m).
Proof.
  intros P L B. pose proof (blocks_all_full n m P L) as H1. pose proof (blocks_bytes n m P B) as H2. rewrite Forall_forall in *. intros b I. split; auto.
Qed.
Lemma cbc_encrypt_blkb n E : (forall b, blkb n b -> blkb n (E b)) -> forall bl iv, blkb n iv -> Forall (blkb n) bl ->
  Forall (blkb n) (cbc_encrypt E iv bl) /\ length (cbc_encrypt E iv bl) = length bl.
Proof.
  intros H. induction bl as [|b t IH]; intros iv V F; [split; [constructor|reflexivity]|]. apply Forall_cons_iff in F as [Fb F]. cbn [cbc_encrypt]. cbv zeta.
  assert (X : blkb n (E (xorl b iv))).
  { apply H. destruct Fb, V. split; [rewrite xorl_length_eq; lia|apply xorl_bytes; assumption]. }
  destruct (IH _ X F) as [I1 I2]. split; [constructor; assumption|cbn [length]; rewrite I2; reflexivity].
Qed.
Lemma cbc_inv_blkb n D : (forall b, blkb n b -> blkb n (D b)) -> forall bl iv, blkb n iv -> Forall (blkb n) bl ->
  Forall (blkb n) (cbc_inv D iv bl) /\ length (cbc_inv D iv bl) = length bl.
Proof.
  intros H. induction bl as [|b t IH]; intros iv V F; [split; [constructor|reflexivity]|]. apply Forall_cons_iff in F as [Fb F]. cbn [cbc_inv].
  assert (X : blkb n (xorl (D b) iv)).
  { specialize (H b Fb). destruct H, V. split; [rewrite xorl_length_eq; lia|apply xorl_bytes; assumption]. }
  destruct (IH _ Fb F) as [I1 I2]. split; [constructor; assumption|cbn [length]; rewrite I2; reflexivity].
Qed.
Definition good_out (m o : list N) : Prop := length o = length m /\ bytes o.
Lemma cbc_good n E D e iv m : 0 < n -> (forall b, blkb n b -> blkb n (E b)) -> (forall b, blkb n b -> blkb n (D b)) -> blkb n iv -> length m mod n = 0 -> bytes m ->
  good_out m (cbc E D n e iv m).
Proof.
  intros P HE HD V L B. pose proof (blocks_blkb n m P L B) as F. unfold cbc.
  assert (X : let l := if e then cbc_encrypt E iv (blocks n m) else cbc_inv D iv (blocks n m) in Forall (blkb n) l /\ length l = length (blocks n m))
    by (destruct e; [apply cbc_encrypt_blkb|apply cbc_inv_blkb]; assumption).
  cbv zeta in X. destruct X as [X1 X2]. split; [|apply (concat_blkb n), X1].
  rewrite (same_concat n _ (blocks n m) X1 F X2), concat_blocks by lia. reflexivity.
Qed.
Lemma ecb_good n E D e m : 0 < n -> (forall b, blkb n b -> blkb n (E b)) -> (forall b, blkb n b -> blkb n (D b)) -> length m mod n = 0 -> bytes m ->
  good_out m (ecb E D n e m).
Proof.
  intros P HE HD L B. pose proof (blocks_blkb n m P L B) as F. unfold ecb.
  assert (X : Forall (blkb n) (map (if e then E else D) (blocks n m))).
  { apply Forall_map. revert F. apply Forall_impl. intros b. destruct e; auto. }
  split; [|apply (concat_blkb n), X]. rewrite (same_concat n _ (blocks n m) X F (map_length _ _)), concat_blocks by lia. reflexivity.
Qed.
Lemma stream_good (S : Type) (next : S -> S * list N) absorb bs (good : S -> Prop) : 0 < bs ->
  (forall s, good s -> blkb bs (snd (next s)) /\ forall fed, blkb bs fed -> good (absorb (fst (next s)) fed)) ->
  forall enc data s, good s -> bytes data -> good_out data (stream S next absorb bs enc s data).
Proof.
  intros P H enc data. unfold stream. induction data as [l Hl|a l Ha IH] using (blocks_ind bs P); intros s G B.
  - destruct l as [|x l]; [split; [reflexivity|constructor]|]. rewrite (blocks_short bs (x :: l)) by (auto; discriminate || lia).
    cbn [stream_blocks]. destruct (H s G) as ([L Y] & _). destruct (next s) as [s1 ks]. cbn [fst snd] in *.
    rewrite app_nil_r. split; [rewrite xorl_length; lia|apply xorl_bytes; auto].
  - rewrite (blocks_cons bs a l) by auto. cbn [stream_blocks]. destruct (H s G) as ([L Y] & A).
    destruct (next s) as [s1 ks]. cbn [fst snd] in *. apply bytes_app_inv in B as [Ba Bl].
    assert (X : blkb bs (xorl a ks)) by (split; [rewrite xorl_length; lia|apply xorl_bytes; auto]).
    assert (G' : good (absorb s1 (pick enc a (xorl a ks)))) by (apply A; destruct enc; cbn [pick]; [exact X|split; assumption]).
    destruct (IH _ G' Bl) as [I1 I2]. split; [rewrite !app_length, I1; destruct X as [-> _]; rewrite Ha; reflexivity|].
    apply bytes_app; [apply X|exact I2].
Qed.
Lemma e8 S k b : blkb 8 (rfc5830_encrypt S k b).
Proof. split; [apply rfc5830_encrypt_length|apply rfc5830_encrypt_bytes]. Qed.
Lemma d8 S k b : blkb 8 (rfc5830_decrypt S k b).
Proof. split; [exact (rfc5830_block_length S dec_order k b)|apply rfc5830_decrypt_bytes]. Qed.
Lemma m8 S k b : blkb 8 (rfc8891_encrypt S k b).
Proof. split; [apply rfc8891_encrypt_length|apply rfc8891_encrypt_bytes]. Qed.
Lemma md8 S k b : blkb 8 (rfc8891_decrypt S k b).
Proof. split; [exact (rfc8891_block_length S dec_order k b)|exact (rfc8891_block_bytes S dec_order k b)]. Qed.
Lemma ctr16 k f c0 i : key_ok k -> blkb 16 (snd (ctr_next E_ 16 f k c0 i)).
Proof. intros K. unfold ctr_next. cbn [snd]. destruct (acpkm_key_ok k (f i) K). apply E_blk; auto. apply n2be16_blk. Qed.
Theorem standard_good a e k iv m : aead a = false -> key_ok k -> length iv = iv_bytes a -> bytes iv -> length m mod bsize a = 0 -> bytes m ->
  good_out m (standard a e k iv m).
Proof.
  intros A [Lk Bk] Li Bi L B. destruct a; try discriminate A; cbn [ProvCipherSpec.standard iv_bytes] in *.
  - apply (stream_good _ _ _ 8 (fun _ => True)); [lia| |exact I|exact B]. intros [i v] _. split; [apply e8|auto].
  - apply (stream_good _ _ _ 8 (fun _ => True)); [lia| |exact I|exact B]. intros [i v] _. split; [apply e8|auto].
  - apply (stream_good _ _ _ 8 (fun _ => True)); [lia| |exact I|exact B]. intros [i v] _. split; [apply e8|auto].
  - apply cbc_good; [lia|intros; apply e8|intros; apply d8|split; assumption|exact L|exact B].
  - apply ecb_good; [lia|intros b [? ?]; apply E_blk; auto; split; assumption|intros b [? ?]; apply D_blk; auto; split; assumption|exact L|exact B].
  - apply cbc_good; [lia|intros b [? ?]; apply E_blk; auto; split; assumption|intros b [? ?]; apply D_blk; auto; split; assumption|split; assumption|exact L|exact B].
  - apply (stream_good _ _ _ 16 (blkb 16)); [lia| |split; assumption|exact B]. intros s [? ?]. cbn [fst snd]. split; [apply E_blk; auto; split; assumption|auto].
  - apply (stream_good _ _ _ 16 (blkb 16)); [lia| |split; assumption|exact B]. intros s [? ?]. cbn [fst snd]. assert (blkb 16 (E_ k s)) by (apply E_blk; auto; split; assumption). auto.
  - apply (stream_good _ _ _ 16 (fun _ => True)); [lia| |exact I|exact B]. intros i _. split; [apply ctr16; split; assumption|auto].
  - apply cbc_good; [lia|intros; apply m8|intros; apply md8|split; assumption|exact L|exact B].
  - apply (stream_good _ _ _ 8 (fun _ => True)); [lia| |exact I|exact B]. intros i _. split; [apply m8|auto].
  - apply (stream_good _ _ _ 8 (fun _ => True)); [lia| |exact I|exact B]. intros i _. split; [apply m8|auto].
  - apply (stream_good _ _ _ 16 (fun _ => True)); [lia| |exact I|exact B]. intros i _. split; [apply ctr16; split; assumption|auto].
Qed.

(** Decryption undoes encryption *)
Lemma std_as_run a e k iv m c : ready a c -> key_ok k -> iv_ok a (Some iv) -> length m mod bsize a = 0 -> bytes m ->
  standard a e k iv m = snd (run_chunks core (cdo a) (cinit a c (Some k) (Some iv) e) [m]).
Proof.
  intros R K V L B. rewrite (ready_law a c k (Some iv) e R K V [m]); [|constructor; [split; assumption|constructor]]. cbn [concat given]. rewrite app_nil_r. reflexivity.
Qed.
Theorem standard_inverse a k iv m : aead a = false -> key_ok k -> length iv = iv_bytes a -> bytes iv -> length m mod bsize a = 0 -> bytes m ->
  standard a false k iv (standard a true k iv m) = m.
Proof.
  intros A K Li Bi L B. destruct (ex_intro (fun g => rng_ok (g_rng g)) ctx0 ctx0_rng_ok) as [g Rg].
  assert (V : iv_ok a (Some iv)) by (right; exists iv; auto). destruct (standard_good a true k iv m A K Li Bi L B) as [G1 G2].
  assert (R : ready a (fresh (fun _ => g) 0 a)) by (apply ready_fresh; [intros _; exact Rg|exact A]).
  assert (L' : length (standard a true k iv m) mod bsize a = 0) by (rewrite G1; exact L).
  rewrite (std_as_run a false k iv (standard a true k iv m) _ R K V L' G2).
  pose proof (std_as_run a true k iv m _ R K V L B) as T. set (o := standard a true k iv m) in *. clearbody o.
  assert (O : concat [o] = o) by (cbn [concat]; apply app_nil_r). assert (M : concat [m] = m) by (cbn [concat]; apply app_nil_r).
  assert (SA_ok : subst_ok Gost28147_CryptoProParamSetA) by (pose proof all_subst_blocks_ok as X; rewrite Forall_forall in X; apply X; unfold all_subst_blocks; cbn [In]; tauto).
  assert (F1 : Forall bytes [m]) by (constructor; [exact B|constructor]). assert (F2 : Forall bytes [o]) by (constructor; [exact G2|constructor]).
  destruct K as [Lk Bk]. destruct a; try discriminate A; cbn [fresh ProvCipherModel.cinit iv_bytes] in *.
  - rewrite (snd_ce _ gost_cipher_do_cfb) in * by reflexivity. etransitivity; [|exact M].
    refine (C09_cfb_roundtrip sb g g k iv 1 true [m] [o] sb_ok Rg Rg Bk Li _). rewrite O. exact T.
  - rewrite (snd_ce _ gost_cipher_do_cnt) in * by reflexivity. etransitivity; [|exact M].
    refine (C10_cnt_involution _ g g k iv true false 1 [m] [o] SA_ok Rg Rg Bk Li Bi _). rewrite O. exact T.
  - rewrite (snd_ce _ gost_cipher_do_cnt) in * by reflexivity. etransitivity; [|exact M].
    refine (C10_cnt_involution _ g g k iv true false 1 [m] [o] Z_ok Rg Rg Bk Li Bi _). rewrite O. exact T.
  - rewrite (snd_ce _ gost_cipher_do_cbc) in * by reflexivity. etransitivity; [|exact M].
    refine (C11_gost_cbc_roundtrip sb g g k iv [m] [o] sb_ok Rg Rg Bk Li Bi _ _ _ _); [constructor; [exact L|constructor]|constructor; [exact L'|constructor]|rewrite M; exact B|rewrite O; exact T].
  - rewrite (snd_ck _ do_ecb) in * by reflexivity. etransitivity; [|exact M]. destruct iv; [|discriminate Li].
    refine (C24_ecb_roundtrip kctx0 kctx0 k [m] [o] kctx0_ok kctx0_ok (conj Lk Bk) _ F1 _ _); [constructor; [exact L|constructor]|constructor; [exact L'|constructor]|rewrite O; exact T].
  - rewrite (snd_ck _ do_cbc) in * by reflexivity. etransitivity; [|exact M].
    refine (C24_cbc_roundtrip kctx0 kctx0 k iv [m] [o] kctx0_ok kctx0_ok (conj Lk Bk) (conj Li Bi) _ F1 _ _); [constructor; [exact L|constructor]|constructor; [exact L'|constructor]|rewrite O; exact T].
  - rewrite (snd_ck _ do_cfb) in * by reflexivity. etransitivity; [|exact M].
    destruct (C24_stream_modes_roundtrip kctx0 kctx0 k iv (zeros 8) None true [m] kctx0_ok kctx0_ok eq_refl eq_refl eq_refl eq_refl (conj Lk Bk) (conj Li Bi) (conj eq_refl (bytes_zeros 8)) I F1) as (X & _).
    apply X; [exact F2|rewrite O; exact T].
  - rewrite (snd_ck _ do_ofb) in * by reflexivity. etransitivity; [|exact M].
    destruct (C24_stream_modes_roundtrip kctx0 kctx0 k iv (zeros 8) None true [m] kctx0_ok kctx0_ok eq_refl eq_refl eq_refl eq_refl (conj Lk Bk) (conj Li Bi) (conj eq_refl (bytes_zeros 8)) I F1) as (_ & X & _).
    apply X; [exact F2|rewrite O; exact T].
  - rewrite (snd_ck _ do_ctr) in * by reflexivity. etransitivity; [|exact M].
    destruct (C24_stream_modes_roundtrip kctx0 kctx0 k (zeros 16) iv None true [m] kctx0_ok kctx0_ok eq_refl eq_refl eq_refl eq_refl (conj Lk Bk) (conj eq_refl (bytes_zeros 16)) (conj Li Bi) I F1) as (_ & _ & X & _).
    apply X; [exact F2|rewrite O; exact T].
  - rewrite (snd_ce _ magma_cipher_do_cbc) in * by reflexivity. etransitivity; [|exact M].
    refine (C11_magma_cbc_roundtrip g g k iv [m] [o] Rg Rg Bk Li Bi _ _ _ _); [constructor; [exact L|constructor]|constructor; [exact L'|constructor]|rewrite M; exact B|rewrite O; exact T].
  - rewrite (snd_ce _ magma_cipher_do_ctr) in * by reflexivity. etransitivity; [|exact M].
    refine (C12_magma_ctr_involution false None g g k iv true false [m] [o] Rg Rg Bk Li Bi eq_refl eq_refl _). rewrite O. exact T.
  - rewrite (snd_ce _ magma_cipher_do_ctr) in * by reflexivity. etransitivity; [|exact M].
    refine (C12_magma_ctr_involution true None g g k iv true false [m] [o] Rg Rg Bk Li Bi eq_refl eq_refl _). rewrite O. exact T.
  - rewrite (snd_ck _ do_ctracpkm) in * by reflexivity. etransitivity; [|exact M].
    destruct (C24_stream_modes_roundtrip kctx0 kctx0 k (zeros 16) iv None true [m] kctx0_ok kctx0_ok eq_refl eq_refl eq_refl eq_refl (conj Lk Bk) (conj eq_refl (bytes_zeros 16)) (conj Li Bi) I F1) as (_ & _ & _ & X).
    apply X; [exact F2|rewrite O; exact T].
Qed.

(** A context for a block mode can be used again *)
Lemma cbc_enc_iv E bl : (forall b, length (E b) = 8) -> forall iv, length iv = 8 -> length (fst (cbc_enc_blocks E iv bl)) = 8.
Proof.
  intros H. induction bl as [|b t IH]; intros iv L; [exact L|]. cbn [cbc_enc_blocks]. specialize (IH _ (H (xorl iv b))). destruct (cbc_enc_blocks E (E (xorl iv b)) t). exact IH.
Qed.
Lemma cbc_dec_iv D bl : Forall (fun b => length b = 8) bl -> forall iv, length iv = 8 -> length (fst (cbc_dec_blocks D iv bl)) = 8.
Proof.
  induction 1 as [|b t H F IH]; intros iv L; [exact L|]. cbn [cbc_dec_blocks]. specialize (IH b H). destruct (cbc_dec_blocks D b t). exact IH.
Qed.
Lemma cbc_step_ready t f E D c d : (forall c b, length (E c b) = 8) ->
  (forall c d, f c d = let (iv, out) := if e_enc c then cbc_enc_blocks (E (e_g c)) (e_iv c) (blocks 8 d) else cbc_dec_blocks (D (e_g c)) (e_iv c) (blocks 8 d) in (with_iv c iv, out)) ->
  cbc_ready t c -> length d mod 8 = 0 -> cbc_ready t (fst (f c d)).
Proof.
  intros HE H (R & O & I & T) L. rewrite H.
  assert (X : length (fst (if e_enc c then cbc_enc_blocks (E (e_g c)) (e_iv c) (blocks 8 d) else cbc_dec_blocks (D (e_g c)) (e_iv c) (blocks 8 d))) = 8).
  { destruct (e_enc c); [apply cbc_enc_iv; auto|apply cbc_dec_iv; [apply blocks_all_full; [lia|exact L]|exact I]]. }
  destruct (if e_enc c then _ else _) as [iv out]. cbn [fst] in *. split; [exact R|]. split; [exact O|]. split; [exact X|exact T].
Qed.
Lemma after_snoc a c0 chs d : after a c0 (chs ++ [d]) = fst (cdo a (after a c0 chs) d).
Proof.
  unfold after. rewrite run_chunks_app. destruct (run_chunks core (cdo a) c0 chs) as [c1 o1]. cbn [fst run_chunks]. destruct (cdo a c1 d). reflexivity.
Qed.
Lemma kuz_cbc_iv k bl : forall c, kkst k c -> blk16 (k_iv c) -> Forall blk16 bl ->
  let c' := fst (steps cbc_step c bl) in exists v, c' = kw_iv c v /\ blk16 v.
Proof.
  induction bl as [|b t IH]; intros c K V F; [exists (k_iv c); split; [destruct c; reflexivity|exact V]|]. apply Forall_cons_iff in F as [Hb F]. cbn [steps].
  assert (X : exists v, fst (cbc_step c b) = kw_iv c v /\ blk16 v).
  { unfold cbc_step. destruct (k_enc c); cbv zeta; cbn [fst]; [|exists b; auto]. assert (XB : blk16 (append128 (k_iv c) b)) by (apply xor_blk; auto).
    rewrite (kkst_enc k) by auto. eexists. split; [reflexivity|]. destruct K as ([? ?] & _). apply E_blk; auto. }
  destruct X as (v & X1 & X2). destruct (cbc_step c b) as [c1 o]. cbn [fst] in X1. subst c1. destruct (IH (kw_iv c v) K X2 F) as (w & W1 & W2).
  destruct (steps cbc_step (kw_iv c v) t) as [c2 os]. cbn [fst] in *. subst c2. exists w. split; [reflexivity|exact W2].
Qed.
Theorem ready_again a c k iv e chs : 1 < bsize a -> ready a c -> key_ok k -> iv_ok a iv -> Forall (chunk a) chs ->
  ready a (after a (cinit a c (Some k) iv e) chs).
Proof.
  intros P R [Lk Bk] V CH.
  destruct a, c; cbn [ready] in R; try contradiction; try (cbv in P; lia); destruct V as [[V ->]|(v & -> & Lv & Bv)]; try discriminate V; cbn [iv_bytes] in *.
  - set (c0 := ProvCipherModel.cinit sb Gost89Cbc (CE c) (Some k) (Some v) e).
    assert (X : exists c1, after Gost89Cbc c0 chs = CE c1 /\ cbc_ready sb c1); [|destruct X as (c1 & -> & X); exact X]. unfold c0. cbn [ProvCipherModel.cinit].
    induction chs as [|d t IH] using rev_ind.
    + eexists. split; [reflexivity|]. apply gost_init_ready; [exact sb_ok|exact R|intros k' [= <-]; exact Bk|exact Lv].
    + apply Forall_app in CH as [CH D]. apply Forall_inv in D as [D _]. rewrite after_snoc. destruct (IH CH) as (c1 & -> & X). cbn [cdo]. unfold ce.
      pose proof (cbc_step_ready sb gost_cipher_do_cbc gostcrypt gostdecrypt c1 d gostcrypt_length ltac:(reflexivity) X D) as Y.
      destruct (gost_cipher_do_cbc c1 d) as [c2 o]. exists c2. split; [reflexivity|exact Y].
  - set (c0 := ProvCipherModel.cinit sb KuzEcb (CK c) (Some k) None e). unfold after, c0. cbn [ProvCipherModel.cinit]. rewrite (run_ck _ do_ecb) by reflexivity.
    rewrite (run_chunks_steps do_ecb ecb_step do_ecb_steps) by (apply (chunk_whole16 KuzEcb); [reflexivity|exact CH]).
    assert (X : forall bl c, fst (steps ecb_step c bl) = c).
    { induction bl as [|b t IH]; intros c'; [reflexivity|]. cbn [steps]. unfold ecb_step at 1. specialize (IH c'). destruct (steps ecb_step c' t). exact IH. }
    specialize (X (blocks 16 (concat chs)) (init_ecb c (Some k) None e)). destruct (steps ecb_step _ _) as [c1 o]. cbn [fst] in *. subst c1. cbn [ready].
    destruct (init0 c k e R (conj Lk Bk)) as [K _]. destruct (kkst_len _ _ K) as [K1 K2]. destruct R as (L1 & L2 & L3 & L4 & L5 & Y & L6).
    split; [exact K1|]. split; [exact K2|]. split; [exact L3|]. split; [|split; [exact L5|split; [exact Y|exact L6]]]. exact L4.
  - set (c0 := ProvCipherModel.cinit sb KuzEcb (CK c) (Some k) (Some v) e). unfold after, c0. cbn [ProvCipherModel.cinit]. rewrite (run_ck _ do_ecb) by reflexivity.
    rewrite (run_chunks_steps do_ecb ecb_step do_ecb_steps) by (apply (chunk_whole16 KuzEcb); [reflexivity|exact CH]).
    assert (X : forall bl c, fst (steps ecb_step c bl) = c).
    { induction bl as [|b t IH]; intros c'; [reflexivity|]. cbn [steps]. unfold ecb_step at 1. specialize (IH c'). destruct (steps ecb_step c' t). exact IH. }
    specialize (X (blocks 16 (concat chs)) (init_ecb c (Some k) (Some v) e)). destruct (steps ecb_step _ _) as [c1 o]. cbn [fst] in *. subst c1. cbn [ready].
    destruct v; [|discriminate Lv].
    destruct (init0 c k e R (conj Lk Bk)) as [K _]. destruct (kkst_len _ _ K) as [K1 K2]. destruct R as (L1 & L2 & L3 & L4 & L5 & Y & L6).
    split; [exact K1|]. split; [exact K2|]. split; [exact L3|]. split; [|split; [exact L5|split; [exact Y|exact L6]]]. exact L4.
  - unfold after. cbn [ProvCipherModel.cinit]. rewrite (run_ck _ do_cbc) by reflexivity.
    rewrite (run_chunks_steps do_cbc cbc_step do_cbc_steps) by (apply (chunk_whole16 KuzCbc); [reflexivity|exact CH]).
    destruct (init16 c k v e R (conj Lk Bk) (conj Lv Bv)) as (K & I & E & B & _). destruct (init_keeps 16 c k v e) as (_ & KO & KP).
    change (gost_grasshopper_cipher_init 16) with init_cbc in *. set (c1 := init_cbc c (Some k) (Some v) e) in *. clearbody c1.
    destruct (kuz_cbc_iv k (blocks 16 (concat chs)) c1 K) as (w & W1 & W2); [rewrite I; split; assumption|apply blocks_blk16; [apply concat_whole, (chunk_whole16 KuzCbc); [reflexivity|exact CH]|apply concat_bytes_inv, (chunk_bytes KuzCbc), CH]|].
    destruct (steps cbc_step c1 (blocks 16 (concat chs))) as [c2 o]. cbn [fst] in *. subst c2. cbn [ready].
    destruct (kkst_len _ _ K) as [K1 K2]. destruct R as (L1 & L2 & L3 & L4 & L5 & Y & L6). unfold kctx_ok. cbn [kw_iv k_ek k_dk k_oiv k_iv k_buf k_part].
    rewrite B, KO, KP. split; [exact K1|]. split; [exact K2|]. split; [rewrite overwrite_length; [exact L3|rewrite firstn_length; lia]|]. split; [apply W2|]. auto.
  - set (c0 := ProvCipherModel.cinit sb MagmaCbc (CE c) (Some k) (Some v) e).
    assert (X : exists c1, after MagmaCbc c0 chs = CE c1 /\ cbc_ready Gost28147_TC26ParamSetZ c1); [|destruct X as (c1 & -> & X); exact X]. unfold c0. cbn [ProvCipherModel.cinit].
    induction chs as [|d t IH] using rev_ind.
    + eexists. split; [reflexivity|]. apply magma_init_ready; [exact R|intros k' [= <-]; exact Bk|exact Lv].
    + apply Forall_app in CH as [CH D]. apply Forall_inv in D as [D _]. rewrite after_snoc. destruct (IH CH) as (c1 & -> & X). cbn [cdo]. unfold ce.
      pose proof (cbc_step_ready Gost28147_TC26ParamSetZ magma_cipher_do_cbc magmacrypt magmadecrypt c1 d magmacrypt_length ltac:(reflexivity) X D) as Y.
      destruct (magma_cipher_do_cbc c1 d) as [c2 o]. exists c2. split; [reflexivity|exact Y].
Qed.
End Laws.
