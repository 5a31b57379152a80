(** Properties C24, C25, and the Kuznyechik parts of C13 and C26. *)
From Coq Require Import String.
From Verif Require Import Bytes BytesProofs StreamMode CryptModel CryptProofs MagmaProofs
  KuzTables KuzSpec KuzModel KuzProofs KuzBlockProofs KuzCipherModel KuzCipherSpec KuzModeProofs.
From Verif Require CryptSpec.
From Coq Require Import List Lia NArith.
Open Scope N_scope.

(** A context object: arrays of the right size, with any content (any history). *)
Definition kctx_ok (c : kctx) : Prop :=
  length (k_ek c) = 10%nat /\ length (k_dk c) = 10%nat /\ length (k_oiv c) = 16%nat /\ length (k_iv c) = 16%nat /\
  length (k_buf c) = 32%nat /\ bytes (k_buf c) /\ length (k_part c) = 16%nat.
Lemma kctx0_ok : kctx_ok kctx0.
Proof. unfold kctx_ok. repeat (split; [reflexivity|]). split; [apply bytes_zeros|reflexivity]. Qed.
Definition kuz_key (k : list N) : Prop := length k = 32%nat /\ bytes k.
Definition kuz_iv (n : nat) (iv : list N) : Prop := length iv = n /\ bytes iv.
(** The output of feeding the chunks one after the other. *)
Definition kout (doit : kctx -> list N -> kctx * list N) (c : kctx) (chunks : list (list N)) : list N :=
  snd (run_chunks kctx doit c chunks).

(** CTR-ACPKM after init and, optionally, the control call setting the section size. *)
Definition acpkm_start (c : kctx) (sect : option Z) k iv enc : kctx :=
  let c := init_ctracpkm c (Some k) (Some iv) enc in
  match sect with Some n => snd (kuz_ctl_key_mesh c n) | None => c end.
(** The section size in force. *)
Definition acpkm_section (sect : option Z) : N := match sect with Some n => Z.to_N n | None => 4096 end.
Definition sect_arg_ok (sect : option Z) : Prop :=
  match sect with Some n => (0 < n < 2 ^ 31 /\ n mod 16 = 0)%Z | None => True end.

Lemma ow_all dst src : length src = length dst -> overwrite dst 0 src = src.
Proof. intros H. unfold overwrite. cbn [firstn app Nat.add]. rewrite skipn_all2 by lia. apply app_nil_r. Qed.
Lemma init16 c k iv enc : kctx_ok c -> kuz_key k -> kuz_iv 16 iv ->
  let c' := gost_grasshopper_cipher_init 16 c (Some k) (Some iv) enc in
  kkst k c' /\ k_iv c' = iv /\ k_enc c' = enc /\ k_buf c' = k_buf c /\ k_num c' = k_num c.
Proof.
  intros (L1 & L2 & L3 & L4 & L5 & Y & L6) K [Li Yi]. cbv zeta. unfold gost_grasshopper_cipher_init.
  set (c1 := gost_grasshopper_cipher_key (kw_enc c enc) k).
  assert (K1 : kkst k c1) by (apply kkst_key; auto).
  assert (E1 : k_iv c1 = k_iv c /\ k_oiv c1 = k_oiv c /\ k_enc c1 = enc /\ k_buf c1 = k_buf c /\ k_num c1 = k_num c) by (repeat split; reflexivity).
  clearbody c1. destruct E1 as (E1 & E2 & E3 & E4 & E5).
  unfold gost_grasshopper_master_key. cbn [kw_master kw_oiv kw_iv k_iv k_oiv k_enc k_buf k_num].
  split; [exact K1|]. rewrite E1, E2. rewrite (firstn_all2 iv) by lia.
  rewrite (ow_all (k_oiv c) iv) by lia. rewrite (firstn_all2 iv) by lia. rewrite ow_all by lia. auto.
Qed.
Lemma init8 c k iv enc : kctx_ok c -> kuz_key k -> kuz_iv 8 iv ->
  let c' := gost_grasshopper_cipher_init 8 c (Some k) (Some iv) enc in
  kkst k c' /\ k_iv c' = iv ++ skipn 8 (k_iv c) /\ k_enc c' = enc /\ k_part c' = k_part c /\ k_num c' = k_num c /\ k_sect c' = k_sect c.
Proof.
  intros (L1 & L2 & L3 & L4 & L5 & Y & L6) K [Li Yi]. cbv zeta. unfold gost_grasshopper_cipher_init.
  set (c1 := gost_grasshopper_cipher_key (kw_enc c enc) k).
  assert (K1 : kkst k c1) by (apply kkst_key; auto).
  assert (E1 : k_iv c1 = k_iv c /\ k_oiv c1 = k_oiv c /\ k_enc c1 = enc /\ k_part c1 = k_part c /\ k_num c1 = k_num c /\ k_sect c1 = k_sect c) by (repeat split; reflexivity).
  clearbody c1. destruct E1 as (E1 & E2 & E3 & E4 & E5 & E6).
  unfold gost_grasshopper_master_key. cbn [kw_master kw_oiv kw_iv k_iv k_oiv k_enc k_part k_num k_sect].
  split; [exact K1|]. rewrite E1, E2. rewrite (firstn_all2 iv) by lia.
  split; [|auto]. unfold overwrite. rewrite !firstn_O. cbn [app Nat.add].
  rewrite (firstn_app_exact 8) by lia. rewrite Li. reflexivity.
Qed.
Lemma init_keeps n c k iv enc : 
  let c' := gost_grasshopper_cipher_init n c (Some k) (Some iv) enc in
  k_buf c' = k_buf c /\ k_oiv c' = overwrite (k_oiv c) 0 (firstn n iv) /\ k_part c' = k_part c.
Proof.
  cbv zeta. unfold gost_grasshopper_cipher_init.
  set (c1 := gost_grasshopper_cipher_key (kw_enc c enc) k).
  assert (E1 : k_buf c1 = k_buf c /\ k_oiv c1 = k_oiv c /\ k_part c1 = k_part c) by (repeat split; reflexivity).
  clearbody c1. destruct E1 as (E1 & E2 & E3).
  unfold gost_grasshopper_master_key. cbn [kw_master kw_oiv kw_iv k_iv k_oiv k_enc k_part k_num k_sect k_buf].
  rewrite E1, E2, E3. auto.
Qed.
Lemma E_length k b : kuz_key k -> length b = 16%nat -> length (E_ k b) = 16%nat.
Proof.
  intros [Lk Bk] Lb. destruct (round_keys_blk k Lk Bk) as [L F]. Transparent E_. unfold E_. Opaque E_.
  assert (G : forall f, (forall k a, length k = 16%nat -> length a = 16%nat -> length (f k a) = 16%nat) ->
     forall ks a, Forall blk16 ks -> length a = 16%nat -> length (rounds f ks a) = 16%nat).
  { intros f Hf. induction ks as [|x ks IH]; intros a Hks La; [exact La|]. apply Forall_cons_iff in Hks as [[Hx _] Hks].
    destruct ks as [|y ks].
    - cbn [rounds]. unfold X_. rewrite xorl_length. lia.
    - rewrite rounds_cons by discriminate. apply IH; auto. }
  apply (G LSX); [|exact F|exact Lb]. intros k0 a Hk0 Ha. reflexivity.
Qed.

(** ** C25 *)
(** Every sequence of updates gives what the standard assigns to the whole message.  The context
    [c] may have been used before ([k_num c = 0]: no key stream pending, see C13). *)
Theorem C25_cfb_refines_spec :
  forall c k iv enc chunks, kctx_ok c -> k_num c = 0 -> kuz_key k -> kuz_iv 16 iv -> Forall bytes chunks ->
    kout do_cfb (init_cfb c (Some k) (Some iv) enc) chunks = kuz_cfb k iv enc (concat chunks).
Proof.
  intros c k iv enc chunks Hc Hn Hk Hi Hy. destruct (init16 c k iv enc Hc Hk Hi) as (K & I & E & B & Nn).
  change (gost_grasshopper_cipher_init 16) with init_cfb in *. set (c1 := init_cfb c (Some k) (Some iv) enc) in *. clearbody c1.
  assert (R : rel_cfb16 k enc c1 (iv, nil, nil)).
  { left. split; [|rewrite Nn; auto]. split; [exact K|]. split; [exact I|]. split; [exact Hi|]. rewrite B.
    destruct Hc as (_ & _ & _ & _ & L5 & Y & _). auto. }
  destruct (run_chunks_bytes_P _ _ _ kctx _ do_cfb bytes enc (cfb_sim16 k enc) chunks _ _ Hy R) as [_ O].
  unfold kout. rewrite O. unfold kuz_cfb.
  apply run_bytes_stream with (good := fun s => length s = 16%nat); auto; try lia.
  - intros s Hs. apply E_length; auto.
  - apply Hi.
Qed.
Theorem C25_ofb_refines_spec :
  forall c k iv enc chunks, kctx_ok c -> k_num c = 0 \/ k_num c = 16 -> kuz_key k -> kuz_iv 16 iv -> Forall bytes chunks ->
    kout do_ofb (init_ofb c (Some k) (Some iv) enc) chunks = kuz_ofb k iv (concat chunks).
Proof.
  intros c k iv enc chunks Hc Hn Hk Hi Hy. destruct (init16 c k iv enc Hc Hk Hi) as (K & I & E & B & Nn).
  change (gost_grasshopper_cipher_init 16) with init_ofb in *. set (c1 := init_ofb c (Some k) (Some iv) enc) in *. clearbody c1.
  assert (R : rel_ofb k c1 (iv, nil, nil)).
  { split; [|left; rewrite Nn; auto]. split; [exact K|]. split; [exact I|]. split; [exact Hi|]. rewrite B.
    destruct Hc as (_ & _ & _ & _ & L5 & Y & _). auto. }
  destruct (run_chunks_bytes_P _ _ _ kctx _ do_ofb bytes true (ofb_sim k) chunks _ _ Hy R) as [_ O].
  unfold kout. rewrite O. unfold kuz_ofb.
  apply run_bytes_stream with (good := fun s => length s = 16%nat); auto; try lia.
  - intros s Hs. apply E_length; auto.
  - intros s Hs. apply E_length; auto.
  - apply Hi.
Qed.
Lemma ctr_iv16 c iv : kuz_iv 8 iv -> skipn 8 (k_iv c) = zeros 8 -> iv ++ skipn 8 (k_iv c) = n2be 16 (be2n (iv ++ zeros 8) + N.of_nat 0).
Proof.
  intros [Li Yi] ->. change (N.of_nat 0) with 0. rewrite N.add_0_r, n2be_be2n; auto.
  - apply bytes_app; [auto|apply bytes_zeros].
  - rewrite app_length, Li. reflexivity.
Qed.
Lemma ctr_len16 k key_no c0 i : kuz_key k -> length (snd (CryptSpec.ctr_next E_ 16 key_no k c0 i)) = 16%nat.
Proof.
  intros H. unfold CryptSpec.ctr_next. cbn [snd]. apply E_length; [|apply n2be_length]. exact (acpkm_key_ok k _ H).
Qed.
Theorem C25_ctr_refines_spec :
  forall c k iv enc chunks, kctx_ok c -> skipn 8 (k_iv c) = zeros 8 -> kuz_key k -> kuz_iv 8 iv -> Forall bytes chunks ->
    kout do_ctr (init_ctr c (Some k) (Some iv) enc) chunks = kuz_ctr 0 k iv (concat chunks).
Proof.
  intros c k iv enc chunks Hc Hz Hk Hi Hy. unfold init_ctr.
  set (c0 := kw_part (kw_num c 0) (zeros 16)).
  assert (Hc0 : kctx_ok c0) by (destruct Hc as (H1 & H2 & H3 & H4 & H5 & H6 & H7); unfold kctx_ok; repeat (split; [assumption|]); reflexivity).
  destruct (init8 c0 k iv enc Hc0 Hk Hi) as (K & I & E & P & Nn & Se).
  set (c1 := gost_grasshopper_cipher_init 8 c0 (Some k) (Some iv) enc) in *. clearbody c1.
  assert (R : rel_ctr16 k (be2n (iv ++ zeros 8)) c1 (0%nat, nil, nil)).
  { split; [|left; rewrite Nn; auto]. split; [exact K|]. split; [rewrite I; exact (ctr_iv16 c iv Hi Hz)|]. rewrite P. reflexivity. }
  destruct (run_chunks_bytes_P _ _ _ kctx _ do_ctr bytes true (ctr_sim16 k (be2n (iv ++ zeros 8))) chunks _ _ Hy R) as [_ O].
  unfold kout. rewrite O. unfold kuz_ctr.
  apply run_bytes_stream with (good := fun s => True); auto; try lia. intros s _. apply ctr_len16; auto.
Qed.
Lemma acpkm_start_rel c sect k iv enc : kctx_ok c -> skipn 8 (k_iv c) = zeros 8 -> kuz_key k -> kuz_iv 8 iv -> sect_arg_ok sect ->
  let s := acpkm_section sect in
  s mod 16 = 0 /\ 0 < s /\ s < 4294967296 /\
  rel_ac s k (be2n (iv ++ zeros 8)) (acpkm_start c sect k iv enc) (0%nat, nil, nil).
Proof.
  intros Hc Hz Hk Hi Hs. cbv zeta. unfold acpkm_start, init_ctracpkm.
  set (c0 := kw_sect (kw_num c 0) 4096).
  assert (Hc0 : kctx_ok c0) by exact Hc.
  destruct (init8 c0 k iv enc Hc0 Hk Hi) as (K & I & E & P & Nn & Se).
  set (c1 := gost_grasshopper_cipher_init 8 c0 (Some k) (Some iv) enc) in *. clearbody c1.
  assert (Q : let s := acpkm_section sect in s mod 16 = 0 /\ 0 < s /\ s < 4294967296 /\
     match sect with Some n => snd (kuz_ctl_key_mesh c1 n) | None => c1 end = kw_sect c1 s).
  { cbv zeta. destruct sect as [n|]; cbn [acpkm_section sect_arg_ok] in *.
    - destruct Hs as [[H1 H2] H3]. split; [|split; [lia|split; [lia|]]].
      + apply N2Z.inj. rewrite N2Z.inj_mod, Z2N.id by lia. exact H3.
      + unfold kuz_ctl_key_mesh. rewrite Z.rem_mod_nonneg by lia. rewrite H3.
        replace (n =? 0)%Z with false by (symmetry; apply Z.eqb_neq; lia). cbn [Z.eqb negb orb snd].
        rewrite Z.mod_small by lia. reflexivity.
    - split; [reflexivity|]. split; [lia|]. split; [lia|]. change (k_sect c0) with 4096 in Se. rewrite <- Se. destruct c1; reflexivity. }
  cbv zeta in Q. destruct Q as (Q1 & Q2 & Q3 & ->). split; [auto|]. split; [auto|]. split; [auto|].
  set (s := acpkm_section sect) in *. split.
  - split; [|split; [reflexivity|split]].
    + unfold CryptSpec.section_no. destruct (N.eqb_spec s 0); [lia|]. change (16 * N.of_nat (0 - 1)) with 0.
      change (N.of_nat (0 - 1)) with 0. rewrite N.mul_0_r, N.div_0_l by auto. exact K.
    + cbn [kw_sect k_iv]. rewrite I. exact (ctr_iv16 c iv Hi Hz).
    + cbn [kw_sect k_part]. rewrite P. apply Hc.
  - left. split; [|auto]. unfold num_ac. cbn [kw_sect k_num]. rewrite Nn. reflexivity.
Qed.
Theorem C25_ctr_acpkm_refines_spec :
  forall c sect k iv enc chunks, kctx_ok c -> skipn 8 (k_iv c) = zeros 8 -> kuz_key k -> kuz_iv 8 iv -> sect_arg_ok sect ->
    Forall bytes chunks ->
    kout do_ctracpkm (acpkm_start c sect k iv enc) chunks = kuz_ctr (acpkm_section sect) k iv (concat chunks).
Proof.
  intros c sect k iv enc chunks Hc Hz Hk Hi Hs Hy.
  destruct (acpkm_start_rel c sect k iv enc Hc Hz Hk Hi Hs) as (S1 & S2 & S3 & R).
  destruct (run_chunks_bytes_P _ _ _ kctx _ do_ctracpkm bytes true
    (acpkm_sim (acpkm_section sect) k (be2n (iv ++ zeros 8)) S1 S2 S3 Hk) chunks _ _ Hy R) as [_ O].
  unfold kout. rewrite O. unfold kuz_ctr.
  apply run_bytes_stream with (good := fun s => True); auto; try lia. intros s _. apply ctr_len16; auto.
Qed.
(** Hence the chunking is irrelevant. *)
Theorem C25_chunking_irrelevant :
  forall k iv16 iv8 sect enc chunks1 chunks2,
    kuz_key k -> kuz_iv 16 iv16 -> kuz_iv 8 iv8 -> sect_arg_ok sect ->
    Forall bytes chunks1 -> Forall bytes chunks2 -> concat chunks1 = concat chunks2 ->
    kout do_cfb (init_cfb kctx0 (Some k) (Some iv16) enc) chunks1 = kout do_cfb (init_cfb kctx0 (Some k) (Some iv16) enc) chunks2 /\
    kout do_ofb (init_ofb kctx0 (Some k) (Some iv16) enc) chunks1 = kout do_ofb (init_ofb kctx0 (Some k) (Some iv16) enc) chunks2 /\
    kout do_ctr (init_ctr kctx0 (Some k) (Some iv8) enc) chunks1 = kout do_ctr (init_ctr kctx0 (Some k) (Some iv8) enc) chunks2 /\
    kout do_ctracpkm (acpkm_start kctx0 sect k iv8 enc) chunks1 = kout do_ctracpkm (acpkm_start kctx0 sect k iv8 enc) chunks2.
Proof.
  intros k iv16 iv8 sect enc ch1 ch2 Hk H16 H8 Hs Y1 Y2 E. pose proof kctx0_ok as O.
  split; [|split; [|split]].
  - rewrite !C25_cfb_refines_spec by (auto; reflexivity). rewrite E. reflexivity.
  - rewrite !C25_ofb_refines_spec by (auto; left; reflexivity). rewrite E. reflexivity.
  - rewrite !C25_ctr_refines_spec by (auto; reflexivity). rewrite E. reflexivity.
  - rewrite !C25_ctr_acpkm_refines_spec by (auto; reflexivity). rewrite E. reflexivity.
Qed.
Print Assumptions C25_chunking_irrelevant.

(** ** C24 *)
(** Separate contexts for the two directions, unrelated chunkings. *)
Theorem C24_stream_modes_roundtrip :
  forall c1 c2 k iv16 iv8 sect enc chunks,
    kctx_ok c1 -> kctx_ok c2 -> k_num c1 = 0 -> k_num c2 = 0 -> skipn 8 (k_iv c1) = zeros 8 -> skipn 8 (k_iv c2) = zeros 8 ->
    kuz_key k -> kuz_iv 16 iv16 -> kuz_iv 8 iv8 -> sect_arg_ok sect -> Forall bytes chunks ->
    (forall chunks2, Forall bytes chunks2 ->
       concat chunks2 = kout do_cfb (init_cfb c1 (Some k) (Some iv16) enc) chunks ->
       kout do_cfb (init_cfb c2 (Some k) (Some iv16) (negb enc)) chunks2 = concat chunks) /\
    (forall chunks2, Forall bytes chunks2 ->
       concat chunks2 = kout do_ofb (init_ofb c1 (Some k) (Some iv16) enc) chunks ->
       kout do_ofb (init_ofb c2 (Some k) (Some iv16) (negb enc)) chunks2 = concat chunks) /\
    (forall chunks2, Forall bytes chunks2 ->
       concat chunks2 = kout do_ctr (init_ctr c1 (Some k) (Some iv8) enc) chunks ->
       kout do_ctr (init_ctr c2 (Some k) (Some iv8) (negb enc)) chunks2 = concat chunks) /\
    (forall chunks2, Forall bytes chunks2 ->
       concat chunks2 = kout do_ctracpkm (acpkm_start c1 sect k iv8 enc) chunks ->
       kout do_ctracpkm (acpkm_start c2 sect k iv8 (negb enc)) chunks2 = concat chunks).
Proof.
  intros c1 c2 k iv16 iv8 sect enc chunks O1 O2 N1 N2 Z1 Z2 Hk H16 H8 Hs Y1.
  split; [|split; [|split]]; intros ch2 Y2 E.
  - rewrite C25_cfb_refines_spec in * by auto. rewrite E. unfold kuz_cfb.
    apply stream_roundtrip with (good := fun s => length s = 16%nat); auto; try lia; [|apply H16]. intros s Hs0. apply E_length; auto.
  - rewrite C25_ofb_refines_spec in * by auto. rewrite E. unfold kuz_ofb.
    assert (G : forall m, stream (list N) (fun s => (E_ k s, E_ k s)) (fun s _ => s) 16 true iv16 m =
        stream (list N) (fun s => (E_ k s, E_ k s)) (fun s _ => s) 16 false iv16 m).
    { intros m. unfold stream. generalize iv16. induction (blocks 16 m) as [|b t IH]; intros v; cbn [stream_blocks]; [reflexivity|].
      f_equal. apply IH. }
    rewrite G. apply (stream_roundtrip (list N) (fun s => (E_ k s, E_ k s)) (fun s _ => s) 16 (fun s => length s = 16%nat)) with (enc := true); auto; try lia; [| |apply H16]; intros s Hs0; apply E_length; auto.
  - rewrite C25_ctr_refines_spec in * by auto. rewrite E. unfold kuz_ctr.
    set (nx := CryptSpec.ctr_next E_ 16 (CryptSpec.section_no 16 0) k (be2n (iv8 ++ zeros 8))).
    assert (Ln : forall s, length (snd (nx s)) = 16%nat) by (intros s; apply ctr_len16; auto). clearbody nx.
    assert (G : forall m i, stream nat nx (fun s _ => s) 16 true i m = stream nat nx (fun s _ => s) 16 false i m).
    { intros m. unfold stream. induction (blocks 16 m) as [|b t IH]; intros v; cbn [stream_blocks]; [reflexivity|].
      destruct (nx v) as [v1 ks]. f_equal. apply IH. }
    rewrite G. apply (stream_roundtrip nat nx (fun s _ => s) 16 (fun s => True)) with (enc := true); auto; lia.
  - rewrite C25_ctr_acpkm_refines_spec in * by auto. rewrite E. unfold kuz_ctr.
    set (nx := CryptSpec.ctr_next E_ 16 _ k (be2n (iv8 ++ zeros 8))).
    assert (Ln : forall s, length (snd (nx s)) = 16%nat) by (intros s; apply ctr_len16; auto). clearbody nx.
    assert (G : forall m i, stream nat nx (fun s _ => s) 16 true i m = stream nat nx (fun s _ => s) 16 false i m).
    { intros m. unfold stream. induction (blocks 16 m) as [|b t IH]; intros v; cbn [stream_blocks]; [reflexivity|].
      destruct (nx v) as [v1 ks]. f_equal. apply IH. }
    rewrite G. apply (stream_roundtrip nat nx (fun s _ => s) 16 (fun s => True)) with (enc := true); auto; lia.
Qed.
(** ECB and CBC: chunks of whole blocks, as the EVP layer passes them. *)
Lemma concat_bytes_inv chunks : Forall bytes chunks -> bytes (concat chunks).
Proof. induction 1; [constructor|]. apply bytes_app; auto. Qed.
Lemma concat_whole chunks : Forall whole16 chunks -> whole16 (concat chunks).
Proof. induction 1; [reflexivity|]. apply whole16_app; auto. Qed.
Lemma init0 c k enc : kctx_ok c -> kuz_key k ->
  let c' := init_ecb c (Some k) None enc in kkst k c' /\ k_enc c' = enc.
Proof.
  intros (L1 & L2 & _) K. cbv zeta. unfold init_ecb, gost_grasshopper_cipher_init.
  set (c1 := gost_grasshopper_cipher_key (kw_enc c enc) k).
  assert (K1 : kkst k c1) by (apply kkst_key; auto). assert (E1 : k_enc c1 = enc) by reflexivity. clearbody c1.
  split; [exact K1|exact E1].
Qed.
Theorem C24_ecb_refines_spec :
  forall c k chunks, kctx_ok c -> kuz_key k -> Forall whole16 chunks -> Forall bytes chunks ->
    kout do_ecb (init_ecb c (Some k) None true) chunks = kuz_ecb k (concat chunks).
Proof.
  intros c k chunks Hc Hk W Y. destruct (init0 c k true Hc Hk) as [K E].
  set (c1 := init_ecb c (Some k) None true) in *. clearbody c1. unfold kout.
  rewrite (run_chunks_steps do_ecb ecb_step do_ecb_steps) by auto.
  rewrite (ecb_steps_spec k); [|exact K|apply blocks_blk16; [apply concat_whole|apply concat_bytes_inv]; auto].
  rewrite E. reflexivity.
Qed.
Theorem C24_ecb_roundtrip :
  forall c1 c2 k chunks1 chunks2, kctx_ok c1 -> kctx_ok c2 -> kuz_key k ->
    Forall whole16 chunks1 -> Forall bytes chunks1 -> Forall whole16 chunks2 ->
    concat chunks2 = kout do_ecb (init_ecb c1 (Some k) None true) chunks1 ->
    kout do_ecb (init_ecb c2 (Some k) None false) chunks2 = concat chunks1.
Proof.
  intros c1 c2 k ch1 ch2 O1 O2 Hk W1 Y1 W2 E. rewrite C24_ecb_refines_spec in E by auto.
  assert (F : Forall blk16 (blocks 16 (concat ch1))) by (apply blocks_blk16; [apply concat_whole|apply concat_bytes_inv]; auto).
  destruct (ecb_inverse k _ Hk F) as [I F2]. destruct (blocks_of_blk16 _ F2) as [Bl _].
  destruct (init0 c2 k false O2 Hk) as [K En]. set (c := init_ecb c2 (Some k) None false) in *. clearbody c. unfold kout.
  rewrite (run_chunks_steps do_ecb ecb_step do_ecb_steps) by auto. rewrite E. unfold kuz_ecb. rewrite Bl.
  rewrite (ecb_steps_spec k) by auto. rewrite En, I. apply concat_blocks. lia.
Qed.
Theorem C24_cbc_refines_spec :
  forall c k iv chunks, kctx_ok c -> kuz_key k -> kuz_iv 16 iv -> Forall whole16 chunks -> Forall bytes chunks ->
    kout do_cbc (init_cbc c (Some k) (Some iv) true) chunks = kuz_cbc k iv (concat chunks).
Proof.
  intros c k iv chunks Hc Hk Hi W Y. destruct (init16 c k iv true Hc Hk Hi) as (K & I & E & _).
  change (gost_grasshopper_cipher_init 16) with init_cbc in *.
  set (c1 := init_cbc c (Some k) (Some iv) true) in *. clearbody c1. unfold kout.
  rewrite (run_chunks_steps do_cbc cbc_step do_cbc_steps) by auto.
  rewrite (cbc_enc_steps k); auto.
  - rewrite I. reflexivity.
  - rewrite I. exact Hi.
  - apply blocks_blk16; [apply concat_whole|apply concat_bytes_inv]; auto.
Qed.
Theorem C24_cbc_roundtrip :
  forall c1 c2 k iv chunks1 chunks2, kctx_ok c1 -> kctx_ok c2 -> kuz_key k -> kuz_iv 16 iv ->
    Forall whole16 chunks1 -> Forall bytes chunks1 -> Forall whole16 chunks2 ->
    concat chunks2 = kout do_cbc (init_cbc c1 (Some k) (Some iv) true) chunks1 ->
    kout do_cbc (init_cbc c2 (Some k) (Some iv) false) chunks2 = concat chunks1.
Proof.
  intros c1 c2 k iv ch1 ch2 O1 O2 Hk Hi W1 Y1 W2 E. rewrite C24_cbc_refines_spec in E by auto.
  assert (F : Forall blk16 (blocks 16 (concat ch1))) by (apply blocks_blk16; [apply concat_whole|apply concat_bytes_inv]; auto).
  destruct (cbc_inverse k Hk _ iv Hi F) as [I F2]. destruct (blocks_of_blk16 _ F2) as [Bl _].
  destruct (init16 c2 k iv false O2 Hk Hi) as (K & Iv & En & _).
  change (gost_grasshopper_cipher_init 16) with init_cbc in *.
  set (c := init_cbc c2 (Some k) (Some iv) false) in *. clearbody c. unfold kout.
  rewrite (run_chunks_steps do_cbc cbc_step do_cbc_steps) by auto. rewrite E. unfold kuz_cbc. rewrite Bl.
  rewrite (cbc_dec_steps k) by auto. rewrite Iv, I. apply concat_blocks. lia.
Qed.
Print Assumptions C24_stream_modes_roundtrip.
Print Assumptions C24_cbc_roundtrip.
(** GOST R 34.13-2015, A.1 (key of A.1): ECB, CTR, OFB (with a 16-byte IV), CBC, CFB first blocks. *)
Definition kkey : list N := hex "8899aabbccddeeff0011223344556677fedcba98765432100123456789abcdef".
Definition kiv8 : list N := hex "1234567890abcef0".
Definition kmsg : list N := hex "1122334455667700ffeeddccbbaa998800112233445566778899aabbcceeff0a112233445566778899aabbcceeff0a002233445566778899aabbcceeff0a0011".
Example C24_example :
  kctx_ok kctx0 /\ kuz_key kkey /\ kuz_iv 8 kiv8 /\ bytes kmsg /\
  eqbl (kout do_ctr (init_ctr kctx0 (Some kkey) (Some kiv8) true) [firstn 5 kmsg; skipn 5 (firstn 20 kmsg)])
   (hex "f195d8bec10ed1dbd57b5fa240bda1b885eee733") = true.
Proof.
  split; [exact kctx0_ok|]. split; [split; [reflexivity|apply bytes_forallb; reflexivity]|].
  split; [split; [reflexivity|apply bytes_forallb; reflexivity]|]. split; [apply bytes_forallb; reflexivity|].
  vm_compute; reflexivity.
Qed.
Example C25_example :
  kuz_iv 16 (firstn 16 kmsg) /\ sect_arg_ok (Some 32%Z) /\ acpkm_section (Some 32%Z) = 32 /\ acpkm_section None = 4096 /\
  Forall bytes [firstn 5 kmsg; sub 5 30 kmsg; skipn 35 kmsg] /\ Forall whole16 [firstn 32 kmsg; skipn 32 kmsg].
Proof.
  split; [split; [reflexivity|apply bytes_forallb; reflexivity]|]. split; [cbn; lia|]. split; [reflexivity|]. split; [reflexivity|].
  split; repeat constructor.
Qed.

(** ** C13, Kuznyechik *)
(** ECB, CBC: every history.  CFB and OFB: if no key stream is pending, by C25. *)
Theorem C13_kuz_reinit_ecb_cbc :
  forall c k iv enc m, kctx_ok c -> kuz_key k -> kuz_iv 16 iv -> whole16 m -> bytes m ->
    snd (do_ecb (init_ecb c (Some k) None enc) m) = snd (do_ecb (init_ecb kctx0 (Some k) None enc) m) /\
    snd (do_cbc (init_cbc c (Some k) (Some iv) enc) m) = snd (do_cbc (init_cbc kctx0 (Some k) (Some iv) enc) m).
Proof.
  intros c k iv enc m Hc Hk Hi W Y. pose proof kctx0_ok as O. pose proof (blocks_blk16 m W Y) as F. split.
  - destruct (init0 c k enc Hc Hk) as [K1 E1]. destruct (init0 kctx0 k enc O Hk) as [K2 E2].
    set (a := init_ecb c _ _ _) in *. set (b := init_ecb kctx0 _ _ _) in *. clearbody a b.
    rewrite !do_ecb_steps by auto. rewrite !(ecb_steps_spec k) by auto. rewrite E1, E2. reflexivity.
  - destruct (init16 c k iv enc Hc Hk Hi) as (K1 & I1 & E1 & _). destruct (init16 kctx0 k iv enc O Hk Hi) as (K2 & I2 & E2 & _).
    change (gost_grasshopper_cipher_init 16) with init_cbc in *.
    set (a := init_cbc c _ _ _) in *. set (b := init_cbc kctx0 _ _ _) in *. clearbody a b.
    rewrite !do_cbc_steps by auto. destruct enc.
    + rewrite !(cbc_enc_steps k); auto; rewrite ?I1, ?I2; auto.
    + rewrite !(cbc_dec_steps k); auto. rewrite I1, I2; auto.
Qed.
Theorem C13_kuz_reinit_cfb_ofb_on_boundary :
  forall c k iv enc chunks, kctx_ok c -> k_num c = 0 -> kuz_key k -> kuz_iv 16 iv -> Forall bytes chunks ->
    kout do_cfb (init_cfb c (Some k) (Some iv) enc) chunks = kout do_cfb (init_cfb kctx0 (Some k) (Some iv) enc) chunks /\
    kout do_ofb (init_ofb c (Some k) (Some iv) enc) chunks = kout do_ofb (init_ofb kctx0 (Some k) (Some iv) enc) chunks.
Proof.
  intros c k iv enc chunks Hc Hn Hk Hi Hy. pose proof kctx0_ok as O. split.
  - rewrite !C25_cfb_refines_spec by (auto; reflexivity). reflexivity.
  - rewrite !C25_ofb_refines_spec by (auto; left; reflexivity). reflexivity.
Qed.
(** Refuted, for every key: a context that processed 3 bytes of OFB or CFB, or one block of CFB, CTR
    or CTR-ACPKM, and was then initialised again with the same key and IV. *)
Lemma E_inj k a b : kuz_key k -> blk16 a -> blk16 b -> E_ k a = E_ k b -> a = b.
Proof. intros [L B] Ha Hb E. rewrite <- (D_E k a L B Ha), <- (D_E k b L B Hb). rewrite E. reflexivity. Qed.
Lemma xorl_inj_l a b m : length a = length m -> length b = length m -> xorl a m = xorl b m -> a = b.
Proof.
  intros La Lb E. rewrite <- (xorl_cancel_r a m), <- (xorl_cancel_r b m) by auto. rewrite E. reflexivity.
Qed.
Lemma list16 (m : list N) : length m = 16%nat -> exists a b c d e f g h a' b' c' d' e' f' g' h', m = [a;b;c;d;e;f;g;h;a';b';c';d';e';f';g';h'].
Proof.
  intros H. do 16 (destruct m as [|? m]; [discriminate H|]). destruct m; [|discriminate H].
  do 16 eexists. reflexivity.
Qed.
Lemma loop_one step (c : kctx) m : length m = 16%nat ->
  block_loop step 16 16 (length m) c m = (fst (step c m), nil, snd (step c m)).
Proof.
  intros H. rewrite (block_loop_steps step m) by (unfold whole16; rewrite ?H; auto).
  rewrite blocks_short by (try lia; intros ->; discriminate H). cbn [steps]. destruct (step c m) as [c1 o]. cbn [fst snd].
  rewrite app_nil_r. reflexivity.
Qed.
Lemma do_ctr_one c m : k_num c = 0 -> length m = 16%nat ->
  do_ctr c m = (ctr_block16 (kw_num c 0), xorl (k_part (ctr_block16 (kw_num c 0))) m).
Proof.
  intros Hn Lm. unfold do_ctr. rewrite Hn. change (N.to_nat 0) with 0%nat.
  assert (P : ctr_partial16 (k_part c) 0 m = (0%nat, m, nil)) by (destruct m; reflexivity). rewrite P.
  cbv zeta. change (N.of_nat 0) with 0. rewrite loop_one by auto. unfold ctr_step. cbv zeta. reflexivity.
Qed.
Lemma do_ctracpkm_one c m : k_num c = 0 -> k_sect c = 4096 -> length m = 16%nat ->
  do_ctracpkm c m = (kw_num (ctr_block16 c) (w32 (k_num (ctr_block16 c) + 16)), xorl (k_part (ctr_block16 c)) m).
Proof.
  intros Hn Hs Lm. unfold do_ctracpkm.
  assert (P : acpkm_partial c m = (c, m, nil)) by (destruct m; cbn [acpkm_partial]; [reflexivity|]; rewrite Hn; reflexivity). rewrite P.
  rewrite loop_one by auto. unfold acpkm_step. cbv zeta.
  assert (A : apply_acpkm_grasshopper c = c) by (unfold apply_acpkm_grasshopper; rewrite Hn, Hs; reflexivity).
  rewrite A. reflexivity.
Qed.
Lemma inc_zeros8 iv : kuz_iv 8 iv -> skipn 8 (inc_counter (iv ++ zeros 8)) = [0;0;0;0;0;0;0;1].
Proof.
  intros [L _]. do 8 (destruct iv as [|? iv]; [discriminate L|]). destruct iv; [|discriminate L]. reflexivity.
Qed.
(** The keystream blocks of a fresh and of a re-initialised counter. *)
Lemma ctr_reinit_differs k iv m : kuz_key k -> kuz_iv 8 iv -> length m = 16%nat ->
  xorl (E_ k (iv ++ [0;0;0;0;0;0;0;1])) m <> xorl (E_ k (iv ++ zeros 8)) m.
Proof.
  intros Hk [Li Yi] Lm E. apply xorl_inj_l in E; try (rewrite E_length; auto; rewrite app_length, Li; reflexivity).
  apply E_inj in E; auto.
  - apply app_inv_head in E. discriminate E.
  - split; [rewrite app_length, Li; reflexivity|]. apply bytes_app; auto. apply bytes_forallb; reflexivity.
  - split; [rewrite app_length, Li; reflexivity|]. apply bytes_app; auto. apply bytes_forallb; reflexivity.
Qed.
Lemma ctr_block_fields k c : kkst k c -> blk16 (k_iv c) ->
  k_part (ctr_block16 c) = E_ k (k_iv c) /\ k_iv (ctr_block16 c) = inc_counter (k_iv c).
Proof.
  intros K B. unfold ctr_block16. cbv zeta. cbn [kw_part kw_iv k_iv k_part]. rewrite (kkst_enc k) by auto. split; reflexivity.
Qed.
Lemma iv_blk iv t : kuz_iv 8 iv -> length t = 8%nat -> bytes t -> blk16 (iv ++ t).
Proof. intros [L B] Lt Bt. split; [rewrite app_length, L, Lt; reflexivity|apply bytes_app; auto]. Qed.
Lemma ctr_block16_keeps c : k_ek (ctr_block16 c) = k_ek c /\ k_dk (ctr_block16 c) = k_dk c /\
  k_oiv (ctr_block16 c) = k_oiv c /\ k_buf (ctr_block16 c) = k_buf c.
Proof. destruct c. repeat split. Qed.
Lemma ctr_init_fresh k iv enc : kuz_key k -> kuz_iv 8 iv -> blk16 (iv ++ zeros 8) -> blk16 (iv ++ [0;0;0;0;0;0;0;1]) ->
  forall c, kctx_ok c -> k_num c = 0 -> skipn 8 (k_iv c) = zeros 8 \/ skipn 8 (k_iv c) = [0;0;0;0;0;0;0;1] ->
     let c1 := gost_grasshopper_cipher_init 8 c (Some k) (Some iv) enc in
     k_part (ctr_block16 c1) = E_ k (iv ++ skipn 8 (k_iv c)) /\ k_iv (ctr_block16 c1) = inc_counter (iv ++ skipn 8 (k_iv c)) /\
     kctx_ok (ctr_block16 c1) /\ k_num c1 = 0 /\ k_sect c1 = k_sect c.
Proof.
  intros Hk Hi Bz B1.
    intros c Hc Hn Hz. cbv zeta. destruct (init8 c k iv enc Hc Hk Hi) as (K & I & E & P & Nn & Se).
    destruct (init_keeps 8 c k iv enc) as (Bs & Ow & _).
    assert (Os : length (k_oiv (gost_grasshopper_cipher_init 8 c (Some k) (Some iv) enc)) = 16%nat).
    { rewrite Ow. destruct Hc as (_ & _ & Lo & _). destruct Hi as [Li _]. rewrite overwrite_length; rewrite ?firstn_length; lia. }
    clear Ow.
    set (c1 := gost_grasshopper_cipher_init 8 c (Some k) (Some iv) enc) in *. clearbody c1.
    assert (Bi : blk16 (k_iv c1)) by (rewrite I; destruct Hz as [->| ->]; auto).
    destruct (ctr_block_fields k c1 K Bi) as [F1 F2]. rewrite I in *. split; [auto|]. split; [auto|].
    split; [|split; [rewrite Nn; exact Hn|exact Se]].
    destruct (kkst_len k c1 K) as [Le Ld]. destruct Hc as (_ & _ & _ & _ & Lb & Yb & _).
    destruct (ctr_block16_keeps c1) as (G1 & G2 & G3 & G4).
    set (c2 := ctr_block16 c1) in *. clearbody c2.
    unfold kctx_ok. rewrite G1, G2, G3, G4, Bs. split; [exact Le|]. split; [exact Ld|]. split; [exact Os|]. split.
    { rewrite F2, inc_counter_spec by apply Bi. rewrite n2be_length. apply Bi. }
    split; [exact Lb|]. split; [exact Yb|].
    rewrite F1. apply E_length; auto. apply Bi. 
Qed.
Lemma kw_part_ok c : kctx_ok c -> kctx_ok (kw_part (kw_num c 0) (zeros 16)).
Proof. intros (H1 & H2 & H3 & H4 & H5 & H6 & H7). destruct c. repeat (split; [assumption|]). reflexivity. Qed.
Lemma kw_sect_ok c n : kctx_ok c -> kctx_ok (kw_sect (kw_num c 0) n).
Proof. intros H. destruct c. exact H. Qed.
Lemma kw_part_iv c x y : k_iv (kw_part (kw_num c x) y) = k_iv c /\ k_num (kw_part (kw_num c x) y) = x.
Proof. destruct c. split; reflexivity. Qed.
Lemma kw_sect_iv c x y : k_iv (kw_sect (kw_num c x) y) = k_iv c /\ k_num (kw_sect (kw_num c x) y) = x.
Proof. destruct c. split; reflexivity. Qed.
Lemma kw_num_id c : k_num c = 0 -> kw_num c 0 = c.
Proof. destruct c. cbn. unfold kw_num. cbn. congruence. Qed.
Lemma kw_num_iv c n : k_iv (kw_num c n) = k_iv c.
Proof. destruct c. reflexivity. Qed.
Lemma kw_num_ok c n : kctx_ok c -> kctx_ok (kw_num c n).
Proof. destruct c. exact (fun H => H). Qed.
Section Reinit.
  Variables (c0 : kctx) (k iv m1 m2 : list N) (enc : bool).
  Hypothesis (Hc0 : kctx_ok c0) (Hz0 : skipn 8 (k_iv c0) = zeros 8) (Hk : kuz_key k) (Hi : kuz_iv 8 iv)
    (L1 : length m1 = 16%nat) (L2 : length m2 = 16%nat).
  Lemma reinit_Bz : blk16 (iv ++ zeros 8).
  Proof. apply iv_blk; auto; apply bytes_zeros. Qed.
  Lemma reinit_B1 : blk16 (iv ++ [0;0;0;0;0;0;0;1]).
  Proof. apply iv_blk; auto; apply bytes_forallb; reflexivity. Qed.
  Let Fresh := ctr_init_fresh k iv enc Hk Hi reinit_Bz reinit_B1.
  Lemma reinit_ctr_differs : let i c := init_ctr c (Some k) (Some iv) enc in
    snd (do_ctr (i (fst (do_ctr (i c0) m1))) m2) <> snd (do_ctr (i c0) m2).
  Proof.
    cbv zeta. unfold init_ctr. pose proof Fresh as F. cbv zeta in F. clear Fresh.
    pose proof (kw_part_ok c0 Hc0) as Hc. destruct (kw_part_iv c0 0 (zeros 16)) as [V1 V2].
    set (a := kw_part (kw_num c0 0) (zeros 16)) in *. clearbody a. rewrite <- V1 in Hz0.
    destruct (F _ Hc V2 (or_introl Hz0)) as (P1 & I1 & O1 & N1 & _). rewrite Hz0 in P1, I1.
    set (c1 := gost_grasshopper_cipher_init 8 a (Some k) (Some iv) enc) in *. clearbody c1.
    rewrite !(do_ctr_one c1) by auto. cbn [fst snd].
    rewrite (kw_num_id c1 N1). set (b := ctr_block16 c1) in *. clearbody b.
    pose proof (kw_part_ok b O1) as Ou. destruct (kw_part_iv b 0 (zeros 16)) as [W1 W2].
    set (u := kw_part (kw_num b 0) (zeros 16)) in *. clearbody u.
    assert (Zu : skipn 8 (k_iv u) = [0;0;0;0;0;0;0;1]) by (rewrite W1, I1; exact (inc_zeros8 iv Hi)).
    destruct (F u Ou W2 (or_intror Zu)) as (P2 & _ & _ & N2 & _).
    set (c2 := gost_grasshopper_cipher_init 8 u (Some k) (Some iv) enc) in *. clearbody c2.
    rewrite (do_ctr_one c2) by auto. cbn [snd]. rewrite (kw_num_id c2 N2).
    rewrite P1, P2, Zu. exact (ctr_reinit_differs k iv m2 Hk Hi L2).
  Qed.
  Lemma reinit_ctracpkm_differs : let i c := init_ctracpkm c (Some k) (Some iv) enc in
    snd (do_ctracpkm (i (fst (do_ctracpkm (i c0) m1))) m2) <> snd (do_ctracpkm (i c0) m2).
  Proof.
    cbv zeta. unfold init_ctracpkm. pose proof Fresh as F. cbv zeta in F. clear Fresh.
    pose proof (kw_sect_ok c0 4096 Hc0) as Hc. destruct (kw_sect_iv c0 0 4096) as [V1 V2].
    assert (Sa : k_sect (kw_sect (kw_num c0 0) 4096) = 4096) by (destruct c0; reflexivity).
    set (a := kw_sect (kw_num c0 0) 4096) in *. clearbody a. rewrite <- V1 in Hz0.
    destruct (F _ Hc V2 (or_introl Hz0)) as (P1 & I1 & O1 & N1 & S1). rewrite Hz0 in P1, I1. rewrite Sa in S1.
    set (c1 := gost_grasshopper_cipher_init 8 a (Some k) (Some iv) enc) in *. clearbody c1.
    rewrite !(do_ctracpkm_one c1) by auto. cbn [fst snd].
    set (b := ctr_block16 c1) in *. clearbody b.
    set (d := kw_num b (w32 (k_num b + 16))).
    assert (Vd : k_iv d = k_iv b) by (apply kw_num_iv). assert (Od : kctx_ok d) by (apply kw_num_ok; exact O1). clearbody d.
    pose proof (kw_sect_ok d 4096 Od) as Ou. destruct (kw_sect_iv d 0 4096) as [W1 W2].
    assert (Su : k_sect (kw_sect (kw_num d 0) 4096) = 4096) by (destruct d; reflexivity).
    set (u := kw_sect (kw_num d 0) 4096) in *. clearbody u.
    assert (Zu : skipn 8 (k_iv u) = [0;0;0;0;0;0;0;1]) by (rewrite W1, Vd, I1; exact (inc_zeros8 iv Hi)).
    destruct (F u Ou W2 (or_intror Zu)) as (P2 & _ & _ & N2 & S2). rewrite Su in S2.
    set (c2 := gost_grasshopper_cipher_init 8 u (Some k) (Some iv) enc) in *. clearbody c2.
    rewrite (do_ctracpkm_one c2) by auto. cbn [snd].
    rewrite P1, P2, Zu. exact (ctr_reinit_differs k iv m2 Hk Hi L2).
  Qed.
End Reinit.
Theorem C13_kuz_reinit_ctr_refuted :
  forall c0 k iv m1 m2 enc, kctx_ok c0 -> skipn 8 (k_iv c0) = zeros 8 ->
    kuz_key k -> kuz_iv 8 iv -> length m1 = 16%nat -> length m2 = 16%nat ->
    let i c := init_ctr c (Some k) (Some iv) enc in
    let j c := init_ctracpkm c (Some k) (Some iv) enc in
    snd (do_ctr (i (fst (do_ctr (i c0) m1))) m2) <> snd (do_ctr (i c0) m2) /\
    snd (do_ctracpkm (j (fst (do_ctracpkm (j c0) m1))) m2) <> snd (do_ctracpkm (j c0) m2).
Proof.
  intros c0 k iv m1 m2 enc Hc0 Hz0 Hk Hi L1 L2.
  exact (conj (reinit_ctr_differs c0 k iv m1 m2 enc Hc0 Hz0 Hk Hi L1 L2)
              (reinit_ctracpkm_differs c0 k iv m1 m2 enc Hc0 Hz0 Hk Hi L1 L2)).
Qed.
(** OFB and CFB: the IV is chosen so that its encryption is 0, 1, ..., 15. *)
Definition ramp : list N := [0;1;2;3;4;5;6;7;8;9;10;11;12;13;14;15].
Lemma ramp_blk : blk16 ramp. Proof. split; [reflexivity|apply bytes_forallb; reflexivity]. Qed.
Lemma init16_ok c k iv enc : kctx_ok c -> kuz_key k -> kuz_iv 16 iv ->
  kctx_ok (gost_grasshopper_cipher_init 16 c (Some k) (Some iv) enc).
Proof.
  intros Hc Hk Hi. destruct (init16 c k iv enc Hc Hk Hi) as (K & I & _ & B & _). destruct (kkst_len _ _ K) as [Le Ld].
  destruct (init_keeps 16 c k iv enc) as (_ & Ow & Pt).
  assert (Os : length (k_oiv (gost_grasshopper_cipher_init 16 c (Some k) (Some iv) enc)) = 16%nat).
  { rewrite Ow. destruct Hc as (_ & _ & Lo & _). destruct Hi as [Li _]. rewrite overwrite_length; rewrite ?firstn_length; lia. }
  clear Ow.
  set (c1 := gost_grasshopper_cipher_init 16 c (Some k) (Some iv) enc) in *. clearbody c1.
  destruct Hc as (_ & _ & _ & _ & Lb & Yb & Lp). unfold kctx_ok.
  split; [exact Le|]. split; [exact Ld|]. split; [exact Os|]. split; [rewrite I; apply Hi|].
  rewrite B, Pt. auto.
Qed.
Lemma ks_partial_ramp : ks_partial (ramp ++ zeros 16) 16 (N.to_nat 3) (zeros 16) = (16%nat, [0;0;0], [3;4;5;6;7;8;9;10;11;12;13;14;15]).
Proof. vm_compute. reflexivity. Qed.
Lemma cfb_partial_ramp : cfb_partial16 true (ramp ++ [0;1;2] ++ zeros 13) (N.to_nat 3) (zeros 16) =
  (ramp ++ ramp, 16%nat, zeros 3, [3;4;5;6;7;8;9;10;11;12;13;14;15]).
Proof. vm_compute. reflexivity. Qed.
Lemma ofb_tail_fields c b v n : kctx_ok c -> length b = 32%nat -> bytes b -> length v = 16%nat ->
  let u := kw_num (kw_iv (kw_buf c b) v) n in kctx_ok u /\ k_buf u = b /\ k_num u = n.
Proof.
  intros (H1 & H2 & H3 & H4 & H5 & H6 & H7) Lb Yb Lv. cbv zeta. destruct c. cbn in *. unfold kctx_ok. cbn.
  repeat split; assumption.
Qed.
Lemma cfb_tail_fields c b b' n : kctx_ok c -> length b' = 32%nat -> bytes b' ->
  let u := kw_buf (kw_num (kw_buf c b) n) b' in kctx_ok u /\ k_buf u = b' /\ k_num u = n.
Proof.
  intros (H1 & H2 & H3 & H4 & H5 & H6 & H7) Lb Yb. cbv zeta. destruct c. cbn in *. unfold kctx_ok. cbn.
  repeat split; assumption.
Qed.
Section ReinitFb.
  Variables (c0 : kctx) (k iv : list N).
  Hypothesis (Hc0 : kctx_ok c0) (Hn : k_num c0 = 0) (Hb : k_buf c0 = zeros 32) (Hk : kuz_key k) (Hi : kuz_iv 16 iv) (Ey : E_ k iv = ramp).
  Lemma reinit_ofb_differs : let i c := init_ofb c (Some k) (Some iv) true in
     snd (do_ofb (i (fst (do_ofb (i c0) [0;0;0]))) (zeros 16)) <> snd (do_ofb (i c0) (zeros 16)).
  Proof.
    cbv zeta. unfold init_ofb.
    destruct (init16 c0 k iv true Hc0 Hk Hi) as (K & I & E & B & Nn). pose proof (init16_ok c0 k iv true Hc0 Hk Hi) as O.
    set (c1 := gost_grasshopper_cipher_init 16 c0 (Some k) (Some iv) true) in *. clearbody c1.
    rewrite Hb in B. rewrite Hn in Nn.
    assert (C1 : cnt_next16 c1 = kw_iv (kw_buf c1 (ramp ++ zeros 16)) ramp).
    { unfold cnt_next16. cbv zeta. rewrite I, (kkst_enc k), Ey, B by (auto; exact Hi). reflexivity. }
    assert (D1 : fst (do_ofb c1 [0;0;0]) = kw_num (kw_iv (kw_buf c1 (ramp ++ zeros 16)) ramp) 3).
    { unfold do_ofb. rewrite Nn. change (0 =? 0) with true. cbn match. unfold ofb_main. cbn [length block_loop Nat.leb].
      rewrite C1. reflexivity. }
    assert (D2 : snd (do_ofb c1 (zeros 16)) = ramp).
    { unfold do_ofb. rewrite Nn. change (0 =? 0) with true. cbn match. unfold ofb_main.
      change (zeros 16) with [0;0;0;0;0;0;0;0;0;0;0;0;0;0;0;0]. cbn [length block_loop Nat.leb].
      rewrite C1. reflexivity. }
    rewrite D1, D2.
    destruct (ofb_tail_fields c1 (ramp ++ zeros 16) ramp 3 O eq_refl ltac:(apply bytes_forallb; reflexivity) eq_refl) as (Ou & Bu & Nu).
    set (u := kw_num (kw_iv (kw_buf c1 (ramp ++ zeros 16)) ramp) 3) in *. clearbody u. clear C1 D1 D2.
    destruct (init16 u k iv true Ou Hk Hi) as (K2 & I2 & E2 & B2 & Nn2).
    set (c2 := gost_grasshopper_cipher_init 16 u (Some k) (Some iv) true) in *. clearbody c2.
    unfold do_ofb. rewrite Nn2, Nu, B2, Bu. change (3 =? 0) with false. cbn match.
    rewrite ks_partial_ramp. cbn [Nat.eqb]. destruct (ofb_main (kw_num c2 0) [0;0;0]) as [c3 o]. cbn [snd app]. discriminate.
  Qed.
  Lemma reinit_cfb_differs : let i c := init_cfb c (Some k) (Some iv) true in
     snd (do_cfb (i (fst (do_cfb (i c0) [0;0;0]))) (zeros 16)) <> snd (do_cfb (i c0) (zeros 16)).
  Proof.
    cbv zeta. unfold init_cfb.
    destruct (init16 c0 k iv true Hc0 Hk Hi) as (K & I & E & B & Nn). pose proof (init16_ok c0 k iv true Hc0 Hk Hi) as O.
    set (c1 := gost_grasshopper_cipher_init 16 c0 (Some k) (Some iv) true) in *. clearbody c1.
    rewrite Hb in B. rewrite Hn in Nn.
    assert (C1 : kw_buf c1 (overwrite (k_buf c1) 0 (grasshopper_encrypt_block (k_ek c1) (k_iv c1))) = kw_buf c1 (ramp ++ zeros 16)).
    { rewrite I, (kkst_enc k), Ey, B by (auto; exact Hi). reflexivity. }
    assert (D1 : fst (do_cfb c1 [0;0;0]) = kw_buf (kw_num (kw_buf c1 (ramp ++ zeros 16)) 3) (ramp ++ [0;1;2] ++ zeros 13)).
    { unfold do_cfb. rewrite Nn. change (0 =? 0) with true. cbn match. unfold cfb_main16. cbn [length block_loop Nat.leb].
      rewrite cfb_last_eq by discriminate. rewrite C1. unfold cfb_fill. cbv zeta. cbn [kw_buf kw_num k_enc]. rewrite E. cbn [kw_buf kw_num k_enc k_buf]. rewrite E. reflexivity. }
    assert (D2 : snd (do_cfb c1 (zeros 16)) = ramp).
    { unfold do_cfb. rewrite Nn. change (0 =? 0) with true. cbn match. unfold cfb_main16.
      change (zeros 16) with [0;0;0;0;0;0;0;0;0;0;0;0;0;0;0;0]. cbn [length block_loop Nat.leb].
      rewrite cfb_last_eq by discriminate. rewrite C1. unfold cfb_fill. cbv zeta. cbn [kw_buf kw_num k_enc]. rewrite E. cbn [kw_buf kw_num k_enc k_buf]. rewrite E. reflexivity. }
    rewrite D1, D2.
    destruct (cfb_tail_fields c1 (ramp ++ zeros 16) (ramp ++ [0;1;2] ++ zeros 13) 3 O eq_refl ltac:(apply bytes_forallb; reflexivity)) as (Ou & Bu & Nu).
    set (u := kw_buf _ (ramp ++ [0;1;2] ++ zeros 13)) in *. clearbody u. clear C1 D1 D2.
    destruct (init16 u k iv true Ou Hk Hi) as (K2 & I2 & E2 & B2 & Nn2).
    set (c2 := gost_grasshopper_cipher_init 16 u (Some k) (Some iv) true) in *. clearbody c2.
    unfold do_cfb. rewrite Nn2, Nu, B2, Bu, E2. change (3 =? 0) with false. cbn match.
    rewrite cfb_partial_ramp. change ((16 =? 16)%nat) with true. cbn match. cbv zeta.
    destruct (cfb_main16 _ (zeros 3)) as [c3 o']. cbn [snd app]. discriminate.
  Qed.
End ReinitFb.
Theorem C13_kuz_reinit_ofb_cfb_refuted :
  forall k, kuz_key k -> exists iv m3 m16, kuz_iv 16 iv /\ length m3 = 3%nat /\ length m16 = 16%nat /\ bytes m16 /\
    (let i c := init_ofb c (Some k) (Some iv) true in
     snd (do_ofb (i (fst (do_ofb (i kctx0) m3))) m16) <> snd (do_ofb (i kctx0) m16)) /\
    (let i c := init_cfb c (Some k) (Some iv) true in
     snd (do_cfb (i (fst (do_cfb (i kctx0) m3))) m16) <> snd (do_cfb (i kctx0) m16)).
Proof.
  intros k Hk. exists (D_ k ramp), [0;0;0], (zeros 16). pose proof Hk as [Lk Bk].
  assert (Hi : kuz_iv 16 (D_ k ramp)) by (apply D_blk; auto; exact ramp_blk).
  assert (Ey : E_ k (D_ k ramp) = ramp) by (apply E_D; auto; exact ramp_blk).
  set (iv := D_ k ramp) in *. clearbody iv.
  split; [exact Hi|]. split; [reflexivity|]. split; [reflexivity|]. split; [apply bytes_zeros|].
  exact (conj (reinit_ofb_differs kctx0 k iv kctx0_ok eq_refl eq_refl Hk Hi Ey) (reinit_cfb_differs kctx0 k iv kctx0_ok eq_refl eq_refl Hk Hi Ey)).
Qed.
Print Assumptions C13_kuz_reinit_cfb_ofb_on_boundary.
Print Assumptions C13_kuz_reinit_ctr_refuted.
Print Assumptions C13_kuz_reinit_ofb_cfb_refuted.

(** ** C26, Kuznyechik *)
(** The counter in the context after any sequence of updates (CTR and CTR-ACPKM). *)
Theorem C26_kuz_counter_value :
  forall c k iv enc chunks, kctx_ok c -> skipn 8 (k_iv c) = zeros 8 -> kuz_key k -> kuz_iv 8 iv -> Forall bytes chunks ->
    k_iv (fst (run_chunks kctx do_ctr (init_ctr c (Some k) (Some iv) enc) chunks))
    = n2be 16 (be2n (iv ++ zeros 8) + N.of_nat (blocks_started 16 (length (concat chunks)))).
Proof.
  intros c k iv enc chunks Hc Hz Hk Hi Hy. unfold init_ctr.
  set (c0 := kw_part (kw_num c 0) (zeros 16)).
  assert (Hc0 : kctx_ok c0) by (destruct Hc as (H1 & H2 & H3 & H4 & H5 & H6 & H7); unfold kctx_ok; repeat (split; [assumption|]); reflexivity).
  destruct (init8 c0 k iv enc Hc0 Hk Hi) as (K & I & E & P & Nn & Se).
  set (c1 := gost_grasshopper_cipher_init 8 c0 (Some k) (Some iv) enc) in *. clearbody c1.
  assert (R : rel_ctr16 k (be2n (iv ++ zeros 8)) c1 (0%nat, nil, nil)).
  { split; [|left; rewrite Nn; auto]. split; [exact K|]. split; [rewrite I; exact (ctr_iv16 c iv Hi Hz)|]. rewrite P. reflexivity. }
  destruct (run_chunks_bytes_P _ _ _ kctx _ do_ctr bytes true (ctr_sim16 k (be2n (iv ++ zeros 8))) chunks _ _ Hy R) as [F _].
  pose proof (run_bytes_started nat (CryptSpec.ctr_next E_ 16 (CryptSpec.section_no 16 0) k (be2n (iv ++ zeros 8))) (fun s _ => s) 16 (fun s => s) true ltac:(lia)
    (fun s => ctr_len16 _ _ _ s Hk) (fun s => eq_refl) (fun s f => eq_refl) (concat chunks) 0%nat) as X.
  destruct (run_bytes nat _ _ true (0%nat, nil, nil) (concat chunks)) as [[[i ks] fed] o]. cbn [fst] in *.
  destruct F as [(_ & M & _) _]. rewrite M, X. reflexivity.
Qed.
Theorem C26_kuz_acpkm_counter_value :
  forall c sect k iv enc chunks, kctx_ok c -> skipn 8 (k_iv c) = zeros 8 -> kuz_key k -> kuz_iv 8 iv -> sect_arg_ok sect ->
    Forall bytes chunks ->
    k_iv (fst (run_chunks kctx do_ctracpkm (acpkm_start c sect k iv enc) chunks))
    = n2be 16 (be2n (iv ++ zeros 8) + N.of_nat (blocks_started 16 (length (concat chunks)))).
Proof.
  intros c sect k iv enc chunks Hc Hz Hk Hi Hs Hy.
  destruct (acpkm_start_rel c sect k iv enc Hc Hz Hk Hi Hs) as (S1 & S2 & S3 & R).
  destruct (run_chunks_bytes_P _ _ _ kctx _ do_ctracpkm bytes true
    (acpkm_sim (acpkm_section sect) k (be2n (iv ++ zeros 8)) S1 S2 S3 Hk) chunks _ _ Hy R) as [F _].
  pose proof (run_bytes_started nat (CryptSpec.ctr_next E_ 16 (CryptSpec.section_no 16 (acpkm_section sect)) k (be2n (iv ++ zeros 8))) (fun s _ => s) 16 (fun s => s) true ltac:(lia)
    (fun s => ctr_len16 _ _ _ s Hk) (fun s => eq_refl) (fun s f => eq_refl) (concat chunks) 0%nat) as X.
  destruct (run_bytes nat _ _ true (0%nat, nil, nil) (concat chunks)) as [[[i ks] fed] o]. cbn [fst] in *.
  destruct F as [(_ & _ & M & _) _]. rewrite M, X. reflexivity.
Qed.
Theorem C26_kuz_counters_distinct :
  forall iv1 iv2 i j, kuz_iv 8 iv1 -> kuz_iv 8 iv2 -> i < 2 ^ 64 -> j < 2 ^ 64 ->
    n2be 16 (be2n (iv1 ++ zeros 8) + i) = n2be 16 (be2n (iv2 ++ zeros 8) + j) -> iv1 = iv2 /\ i = j.
Proof.
  intros iv1 iv2 i j [L1 B1] [L2 B2] Hi Hj E. change (2 ^ 64) with 18446744073709551616 in *.
  assert (V : forall iv, length iv = 8%nat -> bytes iv -> be2n (iv ++ zeros 8) = 18446744073709551616 * be2n iv /\ be2n iv < 18446744073709551616).
  { intros iv L B. split.
    - unfold be2n. rewrite rev_app_distr, le2n_app. cbn [zeros repeat rev app]. reflexivity.
    - pose proof (be2n_lt iv B) as X. rewrite L in X. exact X. }
  destruct (V iv1 L1 B1) as [V1 W1]. destruct (V iv2 L2 B2) as [V2 W2]. rewrite V1, V2 in E.
  apply (f_equal be2n) in E. rewrite !be2n_n2be in E. change (256 ^ N.of_nat 16) with (18446744073709551616 * 18446744073709551616) in E.
  rewrite !N.mod_small in E by nia.
  assert (X : be2n iv1 = be2n iv2 /\ i = j) by nia. destruct X as [X1 X2]. split; [|auto].
  apply be2n_inj; auto; lia.
Qed.
Print Assumptions C26_kuz_acpkm_counter_value.
Example C26_kuz_example :
  blocks_started 16 (length (concat [firstn 5 kmsg; sub 5 30 kmsg])) = 3%nat /\
  n2be 16 (be2n (kiv8 ++ zeros 8) + 3) = hex "1234567890abcef00000000000000003".
Proof. split; vm_compute; reflexivity. Qed.
