(** Properties C08-C16, C26 and C36 (64-bit parts): the EVP ciphers and the MAC digest of gost_crypt.c. *)
From Coq Require Import String.
From Verif Require Import Bytes BytesProofs Gost89Model Gost89Sboxes Gost89Spec Gost89Proofs Gost89SpecProofs
  Gost89ModeProofs StreamMode CryptModel CryptSpec CryptProofs MagmaProofs ImitProofs PropGost89.
From Coq Require Import List Lia NArith.
Open Scope N_scope.

(** A newly allocated (zeroed) cipher context; [g] only matters for the mask generator. *)
Definition fresh_evp (g : gost_ctx) : evp := mk_evp g 0 0 false (zeros 8) (zeros 8) (zeros 32) 0 false false.
Definition run {C} (doit : C -> list N -> C * list N) := run_chunks C doit.
(** The output of feeding the chunks one after the other. *)
Definition out_of {C} (doit : C -> list N -> C * list N) (c : C) (chunks : list (list N)) : list N :=
  snd (run doit c chunks).

(** * Initial states *)
Definition cfb_start sb g k iv enc mesh : evp :=
  snd (ctl_key_mesh (gost_cipher_init_param sb (fresh_evp g) (Some k) (Some iv) enc) mesh).
Definition cnt_start sb g k iv enc mesh : evp :=
  snd (ctl_key_mesh (gost_cipher_init_cnt sb (fresh_evp g) (Some k) (Some iv) enc) mesh).
Lemma iv8 iv : length iv = 8%nat -> overwrite (zeros 8) 0 (firstn 8 (overwrite (zeros 8) 0 (firstn 8 iv))) = iv.
Proof. intros H. do 9 (destruct iv as [|? iv]; try discriminate H). reflexivity. Qed.
Lemma cfb_start_base sb g k iv enc mesh : subst_ok sb -> rng_ok (g_rng g) -> bytes k -> length iv = 8%nat ->
  base sb (negb (mesh =? 0)) k enc (cfb_start sb g k iv enc mesh) (0%nat, iv) /\ e_num (cfb_start sb g k iv enc mesh) = 0.
Proof.
  intros Hs Hr Hk Hi. split; [|reflexivity]. unfold cfb_start, ctl_key_mesh. cbn [e_count gost_cipher_init_param init_iv
    with_enc with_iv with_oiv with_g with_app e_app fresh_evp gost_cipher_set_param with_count with_mesh N.eqb negb snd].
  constructor; cbn [fst snd e_g e_count e_mesh e_iv e_buf e_enc e_abort with_mesh]; try reflexivity.
  - apply kst_gost_key; auto. apply tables_of_init.
  - apply (iv8 iv Hi).
Qed.
Lemma cnt_start_base sb g k iv enc mesh : subst_ok sb -> rng_ok (g_rng g) -> bytes k -> length iv = 8%nat ->
  base sb (negb (mesh =? 0)) k enc (cnt_start sb g k iv enc mesh) (0%nat, iv) /\ e_num (cnt_start sb g k iv enc mesh) = 0.
Proof.
  intros Hs Hr Hk Hi. split; [|reflexivity]. unfold cnt_start, ctl_key_mesh. cbn [e_count gost_cipher_init_cnt init_iv
    with_enc with_iv with_oiv with_g with_app e_app fresh_evp gost_cipher_set_param with_count with_mesh N.eqb negb snd].
  constructor; cbn [fst snd e_g e_count e_mesh e_iv e_buf e_enc e_abort with_mesh]; try reflexivity.
  - apply kst_gost_key; auto. apply tables_of_init.
  - apply (iv8 iv Hi).
Qed.
Lemma cfb_start_rel sb g k iv enc mesh : subst_ok sb -> rng_ok (g_rng g) -> bytes k -> length iv = 8%nat ->
  rel_cfb sb (negb (mesh =? 0)) k enc (cfb_start sb g k iv enc mesh) ((0%nat, iv), nil, nil).
Proof. intros. destruct (cfb_start_base sb g k iv enc mesh) as [B Z]; auto. split; [exact B|]. left. auto. Qed.
Lemma cnt_start_rel sb g k iv enc mesh : subst_ok sb -> rng_ok (g_rng g) -> bytes k -> length iv = 8%nat -> bytes iv ->
  rel_cnt sb (negb (mesh =? 0)) k enc (cnt_start sb g k iv enc mesh) ((0%nat, iv), nil, nil).
Proof. intros. destruct (cnt_start_base sb g k iv enc mesh) as [B Z]; auto. split; [exact B|]. split; [auto|]. left. auto. Qed.

(** The generators produce 8-byte blocks. *)
Lemma cfb_next_len S mesh k s : length (snd (cfb_next S mesh k s)) = 8%nat.
Proof. destruct s. apply rfc5830_encrypt_length. Qed.
Lemma cnt_next_len S mesh k s : length (snd (cnt_next S mesh k s)) = 8%nat.
Proof. destruct s. apply rfc5830_encrypt_length. Qed.
Lemma ctr_next_len S key_no k c0 i : length (snd (ctr_next (rfc8891_encrypt S) 8 key_no k c0 i)) = 8%nat.
Proof. apply rfc8891_encrypt_length. Qed.

(** ** C08 *)
(** The output of every sequence of updates is the one the standard assigns to the whole
    message: CFB with the key replaced every 1024 bytes ([mesh] <> 0, the default is 1). *)
Theorem C08_cfb_refines_spec_for_every_chunking :
  forall sb g k iv enc mesh chunks,
    subst_ok sb -> rng_ok (g_rng g) -> bytes k -> length iv = 8%nat ->
    out_of gost_cipher_do_cfb (cfb_start sb g k iv enc mesh) chunks
    = gost_cfb (sboxes_of sb) (negb (mesh =? 0)) k iv enc (concat chunks).
Proof.
  intros. pose proof (cfb_start_rel sb g k iv enc mesh H H0 H1 H2) as R.
  destruct (run_chunks_bytes _ _ _ _ _ gost_cipher_do_cfb enc (cfb_sim sb (negb (mesh =? 0)) k enc) chunks _ _ R) as [_ E].
  unfold out_of, run. rewrite E. unfold gost_cfb.
  apply run_bytes_stream with (good := fun _ => True); auto; [|lia]. intros s _. apply cfb_next_len.
Qed.
Theorem C08_cfb_chunking_irrelevant :
  forall sb g k iv enc mesh chunks1 chunks2,
    subst_ok sb -> rng_ok (g_rng g) -> bytes k -> length iv = 8%nat ->
    concat chunks1 = concat chunks2 ->
    out_of gost_cipher_do_cfb (cfb_start sb g k iv enc mesh) chunks1
    = out_of gost_cipher_do_cfb (cfb_start sb g k iv enc mesh) chunks2.
Proof. intros. rewrite !C08_cfb_refines_spec_for_every_chunking by auto. congruence. Qed.
Print Assumptions C08_cfb_refines_spec_for_every_chunking.
Definition mdemo (n : nat) : list N := map (fun i => N.of_nat i mod 251) (seq 0 n).
Definition ivdemo : list N := hex "0102030405060708".
Example C08_example :
  let c := cfb_start Gost28147_CryptoProParamSetA ctx0 kdemo ivdemo true 1 in
  let m := mdemo 1050 in
  let o := out_of gost_cipher_do_cfb c [m] in
  (eqbl (out_of gost_cipher_do_cfb c [firstn 3 m; sub 3 1018 m; skipn 1021 m]) o, eqbl o m,
   (* the key really is replaced *)
   eqbl (firstn 1024 o) (firstn 1024 (out_of gost_cipher_do_cfb (with_mesh c 0) [m])),
   eqbl o (out_of gost_cipher_do_cfb (with_mesh c 0) [m])) = (true, false, true, false).
Proof. vm_compute. reflexivity. Qed.

(** ** C09 *)
(** Encryption and decryption use separate contexts (own mask sequences [g1], [g2]) and
    unrelated chunkings. *)
Theorem C09_cfb_roundtrip :
  forall sb g1 g2 k iv mesh enc chunks1 chunks2,
    subst_ok sb -> rng_ok (g_rng g1) -> rng_ok (g_rng g2) -> bytes k -> length iv = 8%nat ->
    concat chunks2 = out_of gost_cipher_do_cfb (cfb_start sb g1 k iv enc mesh) chunks1 ->
    out_of gost_cipher_do_cfb (cfb_start sb g2 k iv (negb enc) mesh) chunks2 = concat chunks1.
Proof.
  intros sb g1 g2 k iv mesh enc ch1 ch2 Hs H1 H2 Hk Hi E.
  rewrite C08_cfb_refines_spec_for_every_chunking in * by auto. rewrite E. unfold gost_cfb.
  apply stream_roundtrip with (good := fun _ => True); auto; [|lia]. intros s _. apply cfb_next_len.
Qed.
Theorem C09_cfb_length :
  forall sb g k iv mesh enc chunks,
    subst_ok sb -> rng_ok (g_rng g) -> bytes k -> length iv = 8%nat ->
    length (out_of gost_cipher_do_cfb (cfb_start sb g k iv enc mesh) chunks) = length (concat chunks).
Proof.
  intros. rewrite C08_cfb_refines_spec_for_every_chunking by auto. unfold gost_cfb.
  apply stream_length with (good := fun _ => True); auto; [|lia]. intros s _. apply cfb_next_len.
Qed.
Print Assumptions C09_cfb_roundtrip.
Example C09_example :
  let m := mdemo 1050 in
  let o := out_of gost_cipher_do_cfb (cfb_start Gost28147_CryptoProParamSetA ctx0 kdemo ivdemo true 1) [m] in
  out_of gost_cipher_do_cfb (cfb_start Gost28147_CryptoProParamSetA ctx0 kdemo ivdemo false 1)
    [firstn 500 o; sub 500 5 o; skipn 505 o] = m.
Proof. vm_compute. reflexivity. Qed.

(** ** C10 *)
Theorem C10_cnt_refines_spec_for_every_chunking :
  forall sb g k iv enc mesh chunks,
    subst_ok sb -> rng_ok (g_rng g) -> bytes k -> length iv = 8%nat -> bytes iv ->
    out_of gost_cipher_do_cnt (cnt_start sb g k iv enc mesh) chunks
    = gost_cnt (sboxes_of sb) (negb (mesh =? 0)) k iv (concat chunks).
Proof.
  intros sb g k iv enc mesh chunks Hs Hr Hk Hi Hy. pose proof (cnt_start_rel sb g k iv enc mesh Hs Hr Hk Hi Hy) as R.
  destruct (run_chunks_bytes _ _ _ _ _ gost_cipher_do_cnt true (cnt_sim sb (negb (mesh =? 0)) k enc) chunks _ _ R) as [_ E].
  unfold out_of, run. rewrite E. unfold gost_cnt.
  apply run_bytes_stream with (good := fun _ => True); auto; [|lia]. intros s _. apply cnt_next_len.
Qed.
Lemma stream_enc_irrelevant St nx bs e1 e2 s m :
  stream St nx (fun s _ => s) bs e1 s m = stream St nx (fun s _ => s) bs e2 s m.
Proof. unfold stream. revert s. induction (blocks bs m); intros s; cbn [stream_blocks]; auto. destruct (nx s). rewrite IHl. auto. Qed.
Theorem C10_cnt_involution :
  forall sb g1 g2 k iv enc1 enc2 mesh chunks1 chunks2,
    subst_ok sb -> rng_ok (g_rng g1) -> rng_ok (g_rng g2) -> bytes k -> length iv = 8%nat -> bytes iv ->
    concat chunks2 = out_of gost_cipher_do_cnt (cnt_start sb g1 k iv enc1 mesh) chunks1 ->
    out_of gost_cipher_do_cnt (cnt_start sb g2 k iv enc2 mesh) chunks2 = concat chunks1.
Proof.
  intros sb g1 g2 k iv e1 e2 mesh ch1 ch2 Hs H1 H2 Hk Hi Hy E.
  rewrite C10_cnt_refines_spec_for_every_chunking in * by auto. rewrite E. unfold gost_cnt.
  rewrite (stream_enc_irrelevant _ _ 8 true (negb true) _ (stream _ _ _ _ _ _ _)).
  apply stream_roundtrip with (good := fun _ => True); auto; [|lia]. intros s _. apply cnt_next_len.
Qed.
Print Assumptions C10_cnt_involution.
Example C10_example :
  let c := cnt_start Gost28147_TC26ParamSetZ ctx0 kdemo ivdemo true 1 in
  let m := mdemo 1050 in let o := out_of gost_cipher_do_cnt c [m] in
  (eqbl (out_of gost_cipher_do_cnt c [firstn 3 o; sub 3 1018 o; skipn 1021 o]) m, eqbl o m) = (true, false).
Proof. vm_compute. reflexivity. Qed.
(** The upper counter wraps modulo 2^32-1: both cases of the carry occur. *)
Example C10_counter_example :
  cnt_step (hex "ffffffffffffffff") = hex "0001010104010101" /\ cnt_step (zeros 8) = hex "0101010104010101".
Proof. split; reflexivity. Qed.

(** ** C11 *)
Definition whole (m : list N) : Prop := (length m mod 8 = 0)%nat.
Section CBC.
Variables (E D : list N -> list N).
Lemma cbc_enc_spec : forall bl iv, snd (cbc_enc_blocks E iv bl) = concat (cbc_encrypt E iv bl).
Proof.
  induction bl as [|b bl IH]; intros iv; cbn [cbc_enc_blocks cbc_encrypt concat]; auto.
  rewrite (xorl_comm iv b). specialize (IH (E (xorl b iv))).
  destruct (cbc_enc_blocks E (E (xorl b iv)) bl). cbn [snd] in *. congruence.
Qed.
Lemma cbc_enc_app : forall a b iv, cbc_enc_blocks E iv (a ++ b) =
  (let (iv1, o1) := cbc_enc_blocks E iv a in let (iv2, o2) := cbc_enc_blocks E iv1 b in (iv2, o1 ++ o2)).
Proof.
  induction a as [|x a IH]; intros b iv; cbn [app cbc_enc_blocks].
  - destruct (cbc_enc_blocks E iv b); auto.
  - rewrite IH. destruct (cbc_enc_blocks E (E (xorl iv x)) a) as [iv1 o1]. destruct (cbc_enc_blocks E iv1 b) as [iv2 o2].
    rewrite app_assoc. auto.
Qed.
Lemma cbc_dec_app : forall a b iv, cbc_dec_blocks D iv (a ++ b) =
  (let (iv1, o1) := cbc_dec_blocks D iv a in let (iv2, o2) := cbc_dec_blocks D iv1 b in (iv2, o1 ++ o2)).
Proof.
  induction a as [|x a IH]; intros b iv; cbn [app cbc_dec_blocks].
  - destruct (cbc_dec_blocks D iv b); auto.
  - rewrite IH. destruct (cbc_dec_blocks D x a) as [iv1 o1]. destruct (cbc_dec_blocks D iv1 b) as [iv2 o2].
    rewrite app_assoc. auto.
Qed.
Hypothesis DE : forall b, blk8 b -> D (E b) = b.
Hypothesis Elen : forall b, length (E b) = 8%nat.
Hypothesis Ebytes : forall b, bytes (E b).
Lemma cbc_roundtrip_blocks : forall bl iv, Forall (fun b => length b = 8%nat) bl -> Forall bytes bl ->
  length iv = 8%nat -> bytes iv ->
  snd (cbc_dec_blocks D iv (blocks 8 (snd (cbc_enc_blocks E iv bl)))) = concat bl.
Proof.
  induction bl as [|b bl IH]; intros iv Hl Hb Hi Hy; cbn [cbc_enc_blocks concat]; auto.
  inversion Hl; inversion Hb; subst.
  specialize (IH (E (xorl iv b)) H2 H6 (Elen _) (Ebytes _)).
  pose proof (Elen (xorl iv b)) as L.
  destruct (cbc_enc_blocks E (E (xorl iv b)) bl) as [iv1 o1]. cbn [snd] in *.
  rewrite blocks_cons by (auto; lia). cbn [cbc_dec_blocks].
  destruct (cbc_dec_blocks D (E (xorl iv b)) (blocks 8 o1)) as [iv2 o2]. cbn [snd] in *. rewrite IH.
  rewrite DE by (split; [rewrite xorl_length_eq by lia; auto|apply xorl_bytes; auto]).
  rewrite (xorl_comm iv b), xorl_comm, xorl_cancel_r by lia. reflexivity.
Qed.
End CBC.

(** The CBC and CFB init functions are the same; no block of a CBC run looks at the meshing flag. *)
Definition cbc_start sb g k iv enc : evp := gost_cipher_init_param sb (fresh_evp g) (Some k) (Some iv) enc.
Lemma cbc_start_base sb g k iv enc : subst_ok sb -> rng_ok (g_rng g) -> bytes k -> length iv = 8%nat ->
  kst sb k (e_g (cbc_start sb g k iv enc)) /\ e_iv (cbc_start sb g k iv enc) = iv /\ e_enc (cbc_start sb g k iv enc) = enc.
Proof.
  intros Hs Hr Hk Hi. unfold cbc_start. cbn [e_count gost_cipher_init_param init_iv
    with_enc with_iv with_oiv with_g with_app e_app fresh_evp gost_cipher_set_param with_count with_mesh e_g e_iv e_enc].
  split; [|split; [apply (iv8 iv Hi)|reflexivity]]. apply kst_gost_key; auto. apply tables_of_init.
Qed.
Definition magma_start (ivlen : nat) (acpkm : bool) g k iv enc : evp :=
  magma_cipher_init ivlen acpkm (fresh_evp g) (Some k) (Some iv) enc.

(** Both directions, any grouping of whole blocks into calls. *)
Lemma cbc_chunks doit f : (forall c d, doit c d = (with_iv c (fst (f c (e_iv c) (blocks 8 d))), snd (f c (e_iv c) (blocks 8 d)))) ->
  (forall c v, f (with_iv c v) = f c) ->
  (forall c iv a b, f c iv (a ++ b) = (let (iv1, o1) := f c iv a in let (iv2, o2) := f c iv1 b in (iv2, o1 ++ o2))) ->
  (forall c iv, f c iv nil = (iv, nil)) ->
  forall chunks c, Forall whole chunks -> out_of doit c chunks = snd (f c (e_iv c) (blocks 8 (concat chunks))).
Proof.
  intros Hd Hf Ha H0. unfold out_of, run. induction chunks as [|d t IH]; intros c Hw; cbn [run_chunks concat].
  - rewrite H0. reflexivity.
  - inversion Hw; subst. specialize (IH (fst (doit c d)) H3). rewrite blocks_app by (auto; lia). rewrite Ha.
    rewrite Hd in *. cbn [fst] in IH. rewrite Hf in IH. cbn [with_iv e_iv] in IH.
    destruct (f c (e_iv c) (blocks 8 d)) as [iv1 o1]. cbn [fst snd] in *.
    destruct (run_chunks evp doit (with_iv c iv1) t) as [c2 o2]. cbn [snd] in *. subst o2.
    destruct (f c iv1 (blocks 8 (concat t))). reflexivity.
Qed.
Definition gcbc (c : evp) iv bl := if e_enc c then cbc_enc_blocks (gostcrypt (e_g c)) iv bl else cbc_dec_blocks (gostdecrypt (e_g c)) iv bl.
Definition mcbc (c : evp) iv bl := if e_enc c then cbc_enc_blocks (magmacrypt (e_g c)) iv bl else cbc_dec_blocks (magmadecrypt (e_g c)) iv bl.
Lemma gost_cbc_chunks chunks c : Forall whole chunks ->
  out_of gost_cipher_do_cbc c chunks = snd (gcbc c (e_iv c) (blocks 8 (concat chunks))).
Proof.
  apply cbc_chunks.
  - intros c0 d. unfold gost_cipher_do_cbc. fold (gcbc c0 (e_iv c0) (blocks 8 d)). destruct (gcbc c0 (e_iv c0) (blocks 8 d)); reflexivity.
  - reflexivity.
  - intros c0 iv a b. unfold gcbc. destruct (e_enc c0); [apply cbc_enc_app|apply cbc_dec_app].
  - intros c0 iv. unfold gcbc. destruct (e_enc c0); reflexivity.
Qed.
Lemma magma_cbc_chunks chunks c : Forall whole chunks ->
  out_of magma_cipher_do_cbc c chunks = snd (mcbc c (e_iv c) (blocks 8 (concat chunks))).
Proof.
  apply cbc_chunks.
  - intros c0 d. unfold magma_cipher_do_cbc. fold (mcbc c0 (e_iv c0) (blocks 8 d)). destruct (mcbc c0 (e_iv c0) (blocks 8 d)); reflexivity.
  - reflexivity.
  - intros c0 iv a b. unfold mcbc. destruct (e_enc c0); [apply cbc_enc_app|apply cbc_dec_app].
  - intros c0 iv. unfold mcbc. destruct (e_enc c0); reflexivity.
Qed.
Lemma cbc_encrypt_ext E1 E2 : (forall b, E1 b = E2 b) -> forall bl iv, cbc_encrypt E1 iv bl = cbc_encrypt E2 iv bl.
Proof. intros H. induction bl as [|b bl IH]; intros iv; cbn [cbc_encrypt]; auto. rewrite H, IH. reflexivity. Qed.

(** gost89-cbc: encryption is CBC over RFC 5830, for every grouping. *)
Theorem C11_gost_cbc_refines_spec :
  forall sb g k iv chunks,
    subst_ok sb -> rng_ok (g_rng g) -> bytes k -> length iv = 8%nat -> Forall whole chunks ->
    out_of gost_cipher_do_cbc (cbc_start sb g k iv true) chunks
    = concat (cbc_encrypt (rfc5830_encrypt (sboxes_of sb) k) iv (blocks 8 (concat chunks))).
Proof.
  intros sb g k iv ch Hs Hr Hk Hi Hw. destruct (cbc_start_base sb g k iv true Hs Hr Hk Hi) as (B1 & B4 & B6).
  set (c := cbc_start sb g k iv true) in *. clearbody c.
  rewrite gost_cbc_chunks by auto. unfold gcbc. rewrite B6, B4, cbc_enc_spec. f_equal. apply cbc_encrypt_ext.
  intros b. apply (kst_crypt sb). exact B1.
Qed.
Theorem C11_gost_cbc_roundtrip :
  forall sb g1 g2 k iv chunks1 chunks2,
    subst_ok sb -> rng_ok (g_rng g1) -> rng_ok (g_rng g2) -> bytes k -> length iv = 8%nat -> bytes iv ->
    Forall whole chunks1 -> Forall whole chunks2 -> bytes (concat chunks1) ->
    concat chunks2 = out_of gost_cipher_do_cbc (cbc_start sb g1 k iv true) chunks1 ->
    out_of gost_cipher_do_cbc (cbc_start sb g2 k iv false) chunks2 = concat chunks1.
Proof.
  intros sb g1 g2 k iv ch1 ch2 Hs H1 H2 Hk Hi Hy W1 W2 Hb E.
  destruct (cbc_start_base sb g1 k iv true Hs H1 Hk Hi) as (A1 & A4 & A6).
  destruct (cbc_start_base sb g2 k iv false Hs H2 Hk Hi) as (B1 & B4 & B6).
  set (c1 := cbc_start sb g1 k iv true) in *. set (c2 := cbc_start sb g2 k iv false) in *.
  clearbody c1 c2.
  rewrite gost_cbc_chunks in * by auto. unfold gcbc in *. rewrite A6, A4 in E. rewrite B6, B4, E.
  assert (W : whole (concat ch1)).
  { clear - W1. induction W1; [reflexivity|]. cbn [concat]. apply mod8_app; auto. }
  rewrite (cbc_roundtrip_blocks (gostcrypt (e_g c1)) (gostdecrypt (e_g c2))).
  - apply concat_blocks. lia.
  - intros b Hb8. destruct A1 as (S1 & T1 & K1 & _). destruct B1 as (S2 & T2 & K2 & _).
    rewrite (gostdecrypt_spec _ _ _ _ S2 T2 K2), <- (gostdecrypt_spec _ _ _ _ S1 T1 K1). apply gost_dec_enc_block. exact Hb8.
  - intros; apply gostcrypt_length.
  - intros; apply gostcrypt_bytes.
  - apply blocks_all_full; [lia|exact W].
  - apply blocks_bytes; [lia|exact Hb].
  - exact Hi.
  - exact Hy.
Qed.
Print Assumptions C11_gost_cbc_roundtrip.

Lemma mst_master sb k g k' : mst sb k g -> mst sb k (magma_master_key g k').
Proof. intros H. exact H. Qed.
Lemma Z_ok : subst_ok Gost28147_TC26ParamSetZ.
Proof.
  assert (I : In Gost28147_TC26ParamSetZ all_subst_blocks) by (unfold all_subst_blocks; cbn [In]; tauto).
  pose proof all_subst_blocks_ok as A. rewrite Forall_forall in A. exact (A _ I).
Qed.
Lemma magma_start_key ivlen acpkm g k iv enc : rng_ok (g_rng g) -> bytes k ->
  mst Gost28147_TC26ParamSetZ k (e_g (magma_start ivlen acpkm g k iv enc)).
Proof.
  intros Hr Hk. unfold magma_start, magma_cipher_init.
  cbn [init_iv with_enc with_iv with_oiv with_g with_app e_app e_g fresh_evp gost_cipher_set_param with_count with_mesh].
  apply mst_master. apply mst_magma_key; auto. exact Z_ok. apply tables_of_init.
Qed.
Lemma magma_start_iv8 acpkm g k iv enc : length iv = 8%nat -> e_iv (magma_start 8 acpkm g k iv enc) = iv.
Proof. intros H. exact (iv8 iv H). Qed.
Definition SZ := sboxes_of Gost28147_TC26ParamSetZ.
Theorem C11_magma_cbc_refines_spec :
  forall g k iv chunks,
    rng_ok (g_rng g) -> bytes k -> length iv = 8%nat -> Forall whole chunks ->
    out_of magma_cipher_do_cbc (magma_start 8 false g k iv true) chunks
    = concat (cbc_encrypt (rfc8891_encrypt SZ k) iv (blocks 8 (concat chunks))).
Proof.
  intros g k iv ch Hr Hk Hi Hw. pose proof (magma_start_key 8 false g k iv true Hr Hk) as K.
  pose proof (magma_start_iv8 false g k iv true Hi) as I. assert (En : e_enc (magma_start 8 false g k iv true) = true) by reflexivity.
  set (c := magma_start 8 false g k iv true) in *. clearbody c.
  rewrite magma_cbc_chunks by auto. unfold mcbc. rewrite En, I, cbc_enc_spec. f_equal. apply cbc_encrypt_ext.
  intros b. apply (mst_crypt Gost28147_TC26ParamSetZ). exact K.
Qed.
Theorem C11_magma_cbc_roundtrip :
  forall g1 g2 k iv chunks1 chunks2,
    rng_ok (g_rng g1) -> rng_ok (g_rng g2) -> bytes k -> length iv = 8%nat -> bytes iv ->
    Forall whole chunks1 -> Forall whole chunks2 -> bytes (concat chunks1) ->
    concat chunks2 = out_of magma_cipher_do_cbc (magma_start 8 false g1 k iv true) chunks1 ->
    out_of magma_cipher_do_cbc (magma_start 8 false g2 k iv false) chunks2 = concat chunks1.
Proof.
  intros g1 g2 k iv ch1 ch2 H1 H2 Hk Hi Hy W1 W2 Hb E.
  pose proof (magma_start_key 8 false g1 k iv true H1 Hk) as A1. pose proof (magma_start_iv8 false g1 k iv true Hi) as A4.
  pose proof (magma_start_key 8 false g2 k iv false H2 Hk) as B1. pose proof (magma_start_iv8 false g2 k iv false Hi) as B4.
  assert (A6 : e_enc (magma_start 8 false g1 k iv true) = true) by reflexivity.
  assert (B6 : e_enc (magma_start 8 false g2 k iv false) = false) by reflexivity.
  set (c1 := magma_start 8 false g1 k iv true) in *. set (c2 := magma_start 8 false g2 k iv false) in *.
  clearbody c1 c2.
  rewrite magma_cbc_chunks in * by auto. unfold mcbc in *. rewrite A6, A4 in E. rewrite B6, B4, E.
  assert (W : whole (concat ch1)).
  { clear - W1. induction W1; [reflexivity|]. cbn [concat]. apply mod8_app; auto. }
  rewrite (cbc_roundtrip_blocks (magmacrypt (e_g c1)) (magmadecrypt (e_g c2))).
  - apply concat_blocks. lia.
  - intros b Hb8. destruct A1 as (S1 & T1 & K1 & _). destruct B1 as (S2 & T2 & K2 & _).
    rewrite (magmadecrypt_spec _ _ _ _ S2 T2 K2), <- (magmadecrypt_spec _ _ _ _ S1 T1 K1). apply magma_dec_enc_block. exact Hb8.
  - intros; apply magmacrypt_length.
  - intros; apply magmacrypt_bytes.
  - apply blocks_all_full; [lia|exact W].
  - apply blocks_bytes; [lia|exact Hb].
  - exact Hi.
  - exact Hy.
Qed.
Print Assumptions C11_magma_cbc_roundtrip.
Example C11_example :
  let m := mdemo 40 in
  let o := out_of magma_cipher_do_cbc (magma_start 8 false ctx0 kdemo ivdemo true) [firstn 8 m; skipn 8 m] in
  out_of magma_cipher_do_cbc (magma_start 8 false ctx0 kdemo ivdemo false) [firstn 16 o; skipn 16 o] = m /\
  firstn 8 o <> magmacrypt (magma_ready ctx0 Gost28147_TC26ParamSetZ kdemo) (firstn 8 m).
Proof. vm_compute. split; congruence. Qed.
