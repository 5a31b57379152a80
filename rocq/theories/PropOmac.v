(** Property C31, part 1: the OMAC digests magma-mac and kuznyechik-mac. *)
From Coq Require Import String.
From Verif Require Import Bytes BytesProofs Gost89Model Gost89Sboxes Gost89Spec Gost89Proofs Gost89SpecProofs StreamMode
  CryptModel CryptSpec CryptProofs MagmaProofs PropGost89 PropCrypt
  KuzSpec KuzModel KuzTables KuzProofs KuzBlockProofs KuzCipherModel KuzModeProofs PropKuzModes KdfModel PropKdf OmacModel OmacSpec OmacProofs.
From Verif Require KdfSpec.
From Coq Require Import List Lia NArith.
Open Scope N_scope.
Opaque KdfSpec.tlstree gost_tlstree.

Definition blkn (n : nat) (b : list N) : Prop := length b = n /\ bytes b.
Lemma blkn_zeros n : blkn n (zeros n). Proof. split; [apply zeros_length|apply bytes_zeros]. Qed.
Lemma blkn_xorl n a b : blkn n a -> blkn n b -> blkn n (xorl a b).
Proof. intros [La Ba] [Lb Bb]. split; [rewrite xorl_length; lia|apply xorl_bytes; auto]. Qed.

(** * What the calls must return *)
(** The specification of a keyed digest with re-keying.  The state: the key set last and the key in
    force (TLSTREE changes only the latter), the tag length, and the message so far; after a final the
    message is [None]: what a second final returns is not specified. *)
Record mac_state := mk_ms { ms_key : option (list N); ms_cur : list N; ms_len : nat; ms_msg : option (list N) }.
Definition mac_spec_step {K : cbc_cipher} (mac : list N -> list N -> list N) (derive : list N -> N -> list N) (s : mac_state) (o : omac_call K)
  : Z * option (list N) * mac_state :=
  let n := cc_bl K in
  match o with
  | OSetKey _ arg key =>
      if (arg =? 0)%Z || (arg =? 32)%Z then (1%Z, Some nil, mk_ms (Some key) key n (Some nil))
      else (0%Z, Some nil, mk_ms None nil n (Some nil))
  | OXofLen len =>
      if ((1 <=? len) && (len <=? Z.of_nat n))%Z then (1%Z, Some nil, mk_ms (ms_key s) (ms_cur s) (Z.to_nat len) (ms_msg s))
      else (0%Z, Some nil, s)
  | OTlstree _ seq =>
      match ms_key s with
      | Some k => (1%Z, Some nil, mk_ms (Some k) (derive k (be2n seq)) (ms_len s) (Some nil))
      | None => (0%Z, Some nil, s)
      end
  | OUpdate data =>
      match ms_key s with
      | Some k => (1%Z, Some nil, mk_ms (ms_key s) (ms_cur s) (ms_len s) (option_map (fun m => m ++ data) (ms_msg s)))
      | None => (0%Z, Some nil, s)
      end
  | OFinal =>
      match ms_key s with
      | Some k => (1%Z, option_map (fun m => firstn (ms_len s) (mac (ms_cur s) m)) (ms_msg s), mk_ms (ms_key s) (ms_cur s) (ms_len s) None)
      | None => (0%Z, Some nil, s)
      end
  end.
Fixpoint mac_spec {K : cbc_cipher} mac derive (s : mac_state) (ops : list (omac_call K)) : list (Z * option (list N)) :=
  match ops with
  | nil => nil
  | o :: t => let '(r, out, s) := mac_spec_step mac derive s o in (r, out) :: mac_spec mac derive s t
  end.
(** A result meets the specification: the same return value, and the same output where it is
    specified. *)
Definition meets (r : Z * list N) (e : Z * option (list N)) : Prop :=
  fst r = fst e /\ match snd e with Some o => snd r = o | None => True end.
(** Well-formed arguments: 32-byte keys, 8-byte record numbers, newly allocated cipher contexts. *)
Definition call_ok {K : cbc_cipher} (fresh_ok : cc_ctx K -> Prop) (o : omac_call K) : Prop :=
  match o with
  | OSetKey f _ key => fresh_ok f /\ blkn 32 key
  | OTlstree f seq => fresh_ok f /\ blkn 8 seq
  | OUpdate data => bytes data
  | _ => True
  end.

Section Generic.
Variable K : cbc_cipher.
Variable E : list N -> list N -> list N.
Variable ok : list N -> list N -> cc_ctx K -> Prop.
Variable fresh_ok : cc_ctx K -> Prop.
Let bl := cc_bl K.
Hypothesis P : (0 < bl)%nat.
Hypothesis P32 : (bl <= 32)%nat.
Hypothesis E_ok : forall k b, blkn 32 k -> blkn bl b -> blkn bl (E k b).
Hypothesis H_key : forall c k, fresh_ok c -> blkn 32 k -> ok k (zeros bl) (cc_init K (cc_init K c None None) (Some k) (Some (zeros bl))).
Hypothesis H_iv : forall c k iv, ok k iv c -> ok k (zeros bl) (cc_init K c None (Some (zeros bl))).
Hypothesis H_do : forall c k iv b, blkn 32 k -> ok k iv c -> blkn bl iv -> blkn bl b ->
  snd (cc_do K c b) = E k (xorl iv b) /\ ok k (E k (xorl iv b)) (fst (cc_do K c b)).

Let blk := fun c b => fst (cc_do K c b).
Definition cmac_ok (k m : list N) (x : cmac K) : Prop :=
  cm_k1 x = dbl bl (E k (zeros bl)) /\ cm_k2 x = dbl bl (dbl bl (E k (zeros bl))) /\
  exists s0, ok k (zeros bl) s0 /\ buf_ok bl blk s0 m (cm_st x).
Lemma fold_ok k H : blkn 32 k -> Forall (blkn bl) H -> forall iv s, blkn bl iv -> ok k iv s ->
  let c := fold_left (fun c b => E k (xorl c b)) H iv in blkn bl c /\ ok k c (fold_left blk H s).
Proof.
  intros Hk F. induction F as [|b t Hb F IH]; intros iv s Hi Ho; [split; auto|]. cbn [fold_left].
  destruct (H_do s k iv b Hk Ho Hi Hb) as [_ H2]. apply IH; [apply E_ok; auto; apply blkn_xorl; auto|exact H2].
Qed.
Lemma init_cmac_ok f k : fresh_ok f -> blkn 32 k -> cmac_ok k nil (CMAC_Init K f k).
Proof.
  intros Hf Hk. unfold CMAC_Init. fold bl. pose proof (H_key f k Hf Hk) as H1.
  set (c1 := cc_init K (cc_init K f None None) (Some k) (Some (zeros bl))) in *.
  destruct (H_do c1 k (zeros bl) (zeros bl) Hk H1 (blkn_zeros bl) (blkn_zeros bl)) as [D1 D2].
  destruct (cc_do K c1 (zeros bl)) as [c2 tbl]. cbn [fst snd] in *. rewrite xorl_zeros_r in * by apply zeros_length. subst tbl.
  destruct (E_ok k (zeros bl) Hk (blkn_zeros bl)) as [Le Be]. rewrite (make_kn_dbl bl (E k (zeros bl)) Be Le P).
  rewrite make_kn_dbl by (auto using dbl_bytes, dbl_length). split; [reflexivity|]. split; [reflexivity|].
  exists (cc_init K c2 None (Some (zeros bl))). split; [eapply H_iv; exact D2|]. cbn [cm_st]. apply buf_start; auto.
Qed.
Lemma update_cmac_ok k m x d : cmac_ok k m x -> cmac_ok k (m ++ d) (CMAC_Update K x d).
Proof.
  intros (H1 & H2 & s0 & H3 & H4). split; [exact H1|]. split; [exact H2|]. exists s0. split; [exact H3|].
  unfold CMAC_Update. cbn [cm_st]. fold bl. apply upd_ok; auto.
Qed.
Lemma final_cmac_ok k m x : blkn 32 k -> bytes m -> cmac_ok k m x -> snd (CMAC_Final K x) = omac (E k) bl m.
Proof.
  intros Hk Bm (H1 & H2 & s0 & H3 & H4). unfold CMAC_Final. fold bl. destruct (cm_st x) as [[s last] n]. destruct H4 as (Es & En & Ef & Ll).
  pose proof (cut_exists bl m P) as (Em & Fh & Lr & _). set (H := heads bl m) in *. set (r := last_piece bl m) in *.
  assert (Br : bytes r /\ Forall (blkn bl) H).
  { rewrite Em in Bm. apply bytes_app_inv in Bm as [B1 B2]. split; [exact B2|]. clear -Fh B1.
    induction Fh as [|b t Hb F IH]; constructor. - cbn [concat] in B1. apply bytes_app_inv in B1 as [B1 _]. split; auto.
    - cbn [concat] in B1. apply bytes_app_inv in B1 as [_ B1]. apply IH; auto. }
  destruct Br as [Br FH]. rewrite En in Ef |- *.
  assert (L1 : length (cm_k1 x) = bl) by (rewrite H1; apply dbl_length).
  assert (L2 : length (cm_k2 x) = bl) by (rewrite H2; apply dbl_length).
  pose proof (last_xor_spec bl last r (cm_k1 x) (cm_k2 x) P Lr Ll Ef L1 L2) as X.
  destruct (last_xor bl last (length r) (cm_k1 x) (cm_k2 x)) as [last' x']. cbn [snd] in X. subst x'.
  assert (Bx : blkn bl (last_block bl r (cm_k1 x) (cm_k2 x))).
  { assert (B1 : blkn bl (cm_k1 x)) by (split; [auto|rewrite H1; apply dbl_bytes]).
    assert (B2 : blkn bl (cm_k2 x)) by (split; [auto|rewrite H2; apply dbl_bytes]).
    unfold last_block. destruct (Nat.eqb_spec (length r) bl) as [Q|Q]; apply blkn_xorl; auto; [split; auto|]. unfold pad. split.
    - rewrite !app_length, zeros_length. cbn [length]. lia.
    - apply bytes_app; auto. constructor; [reflexivity|apply bytes_zeros]. }
  destruct (fold_ok k H Hk FH (zeros bl) s0 (blkn_zeros bl) H3) as [G1 G2]. rewrite <- Es in G2.
  destruct (H_do s k _ _ Hk G2 G1 Bx) as [D1 _]. unfold omac. cbv zeta. fold H r.
  destruct (cc_do K s (last_block bl r (cm_k1 x) (cm_k2 x))) as [c' out]. cbn [fst snd] in *. rewrite D1, H1, H2. reflexivity.
Qed.

(** The digest context against the specification. *)
Variable h : host.
Variable C : N * N * N.
Hypothesis Hh : h_le h = true.
Hypothesis HC : suite_masks (cc_nid K) = Some C.
Definition om_rel (s : mac_state) (c : omac_ctx K) : Prop :=
  om_size c = ms_len s /\
  match ms_key s with
  | None => om_set c = false
  | Some k => om_set c = true /\ om_key c = k /\ blkn 32 k /\ blkn 32 (ms_cur s) /\
      exists x, om_cmac c = Some x /\
        match ms_msg s with Some m => bytes m /\ cmac_ok (ms_cur s) m x | None => True end
  end.
Lemma om_step s c o : om_rel s c -> call_ok fresh_ok o ->
  let '(r, out, c') := omac_step K h c o in
  let '(r', out', s') := mac_spec_step (fun k => omac (E k) bl) (KdfSpec.tlstree C) s o in
  meets (r, out) (r', out') /\ om_rel s' c'.
Proof.
  intros [Rs Rk] Ho. destruct o as [f arg ptr|arg|f seq|data|]; cbn [omac_step mac_spec_step call_ok] in *.
  - destruct Ho as [Hf Hp]. unfold omac_set_key. destruct ((arg =? 0)%Z || (arg =? 32)%Z).
    + cbv zeta. split; [split; reflexivity|]. split; [reflexivity|]. cbn [ms_key ms_cur ms_msg om_set om_key om_cmac omac_key].
      rewrite firstn_all2 by (destruct Hp; lia). split; [reflexivity|]. split; [reflexivity|]. split; [exact Hp|]. split; [exact Hp|].
      eexists. split; [reflexivity|]. split; [constructor|apply init_cmac_ok; auto].
    + split; [split; reflexivity|]. split; reflexivity.
  - unfold omac_xof_len. fold bl.
    replace ((1 <=? arg) && (arg <=? Z.of_nat bl))%Z with (negb ((arg <? 1)%Z || (Z.of_nat bl <? arg)%Z))
      by (rewrite negb_orb, <- !Z.leb_antisym; reflexivity).
    destruct ((arg <? 1)%Z || (Z.of_nat bl <? arg)%Z); cbn [negb].
    + split; [split; reflexivity|]. split; auto.
    + split; [split; reflexivity|]. split; [reflexivity|]. exact Rk.
  - destruct Ho as [Hf Hs]. unfold omac_tlstree. destruct (ms_key s) as [k|] eqn:Ek.
    + destruct Rk as (R1 & R2 & R3 & R4 & R5). rewrite R1, R2.
      rewrite firstn_all2 by (destruct Hs; lia).
      assert (T : gost_tlstree h (cc_nid K) k seq = Some (KdfSpec.tlstree C k (be2n seq))).
      { destruct R3, Hs. rewrite C35_tlstree_is_TLSTREE by auto. rewrite HC. reflexivity. }
      assert (To : blkn 32 (KdfSpec.tlstree C k (be2n seq))). { destruct R3 as [_ Bk]. exact (tlstree_ok _ _ _ _ _ Bk T). }
      rewrite T. split; [split; reflexivity|]. split; [exact Rs|]. cbn [ms_key ms_cur ms_msg om_set om_key om_cmac omac_key].
      split; [reflexivity|]. split; [exact R2|]. split; [exact R3|]. split; [exact To|]. eexists. split; [reflexivity|].
      split; [constructor|apply init_cmac_ok; auto].
    + rewrite Rk. split; [split; reflexivity|]. split; [exact Rs|]. rewrite Ek. exact Rk.
  - unfold omac_imit_update. destruct (ms_key s) as [k|] eqn:Ek.
    + destruct Rk as (R1 & R2 & R3 & R4 & x & R5 & R6). rewrite R1, R5. split; [split; reflexivity|]. split; [exact Rs|].
      cbn [ms_key ms_cur ms_msg om_set om_key om_cmac]. split; [reflexivity|]. split; [exact R2|]. split; [exact R3|]. split; [exact R4|].
      eexists. split; [reflexivity|]. destruct (ms_msg s) as [m|]; cbn [option_map]; [|exact I]. destruct R6 as [R6 R7].
      split; [apply bytes_app; auto|apply update_cmac_ok; exact R7].
    + rewrite Rk. split; [split; reflexivity|]. split; [exact Rs|]. rewrite Ek. exact Rk.
  - unfold omac_imit_final. destruct (ms_key s) as [k|] eqn:Ek.
    + destruct Rk as (R1 & R2 & R3 & R4 & x & R5 & R6). rewrite R1, R5.
      assert (V : match ms_msg s with Some m => snd (CMAC_Final K x) = omac (E (ms_cur s)) bl m | None => True end).
      { destruct (ms_msg s) as [m|]; [|exact I]. destruct R6 as [R6 R7]. apply final_cmac_ok; auto. }
      destruct (CMAC_Final K x) as [x' mac]. cbn [snd] in V. split; [split; [reflexivity|]|].
      * cbn [snd]. destruct (ms_msg s) as [m|]; cbn [option_map]; [|exact I]. rewrite V, Rs. reflexivity.
      * split; [exact Rs|]. cbn [ms_key ms_cur ms_msg om_set om_key om_cmac]. split; [reflexivity|]. split; [exact R2|]. split; [exact R3|].
        split; [exact R4|]. eexists. split; [reflexivity|exact I].
    + rewrite Rk. split; [split; reflexivity|]. split; [exact Rs|]. rewrite Ek. exact Rk.
Qed.
Lemma om_run ops : Forall (call_ok fresh_ok) ops -> forall s c, om_rel s c ->
  Forall2 meets (omac_run K h c ops) (mac_spec (fun k => omac (E k) bl) (KdfSpec.tlstree C) s ops).
Proof.
  induction 1 as [|o t Ho F IH]; intros s c R; cbn [omac_run mac_spec]; [constructor|].
  pose proof (om_step s c o R Ho) as S1. destruct (omac_step K h c o) as [[r out] c'].
  destruct (mac_spec_step (fun k => omac (E k) bl) (KdfSpec.tlstree C) s o) as [[r' out'] s']. destruct S1 as [M R']. constructor; auto.
Qed.
Lemma om_init_rel : om_rel (mk_ms None nil bl (Some nil)) (omac_init K).
Proof. split; reflexivity. Qed.
End Generic.

(** * Magma *)
(** A newly allocated EVP_CIPHER_CTX ([g]: the state of the mask generator). *)
Definition magma_fresh (c : evp) : Prop := exists g, c = fresh_evp g /\ rng_ok (g_rng g).
Definition magma_E (k b : list N) : list N := rfc8891_encrypt SZ k b.
Definition magma_ok (k iv : list N) (c : evp) : Prop :=
  mst Gost28147_TC26ParamSetZ k (e_g c) /\ e_iv c = iv /\ e_enc c = true /\ e_app c = true /\
  length (e_oiv c) = 8%nat /\ length (e_iv c) = 8%nat.
Lemma ow8 dst src : length src = 8%nat -> length dst = 8%nat -> overwrite dst 0 (firstn 8 src) = src.
Proof. intros H1 H2. rewrite firstn_all2 by lia. apply ow_all. lia. Qed.
Lemma magma_ivs c z : length z = 8%nat -> length (e_oiv c) = 8%nat -> length (e_iv c) = 8%nat ->
  e_iv (init_iv c (Some z) 8) = z /\ e_oiv (init_iv c (Some z) 8) = z.
Proof.
  intros Lz Lo Li. unfold init_iv. cbn [with_oiv with_iv e_iv e_oiv]. rewrite (ow8 (e_oiv c) z Lz Lo). split; [|reflexivity].
  apply ow8; auto.
Qed.
Lemma init_iv_keeps c v n : e_g (init_iv c v n) = e_g c /\ e_enc (init_iv c v n) = e_enc c /\ e_app (init_iv c v n) = e_app c.
Proof. destruct v; repeat split; reflexivity. Qed.
Lemma magma_init_ok c k z : length z = 8%nat -> length (e_oiv c) = 8%nat -> length (e_iv c) = 8%nat ->
  mst Gost28147_TC26ParamSetZ k (e_g c) -> e_enc c = true -> e_app c = true -> magma_ok k z (with_mesh (init_iv c (Some z) 8) 0).
Proof.
  intros Lz Lo Li M En Ap. destruct (magma_ivs c z Lz Lo Li) as [I1 I2]. destruct (init_iv_keeps c (Some z) 8) as (G & G2 & G3).
  unfold magma_ok. cbn [with_mesh e_g e_iv e_enc e_app e_oiv]. rewrite I1, I2, G, G2, G3.
  split; [exact M|]. split; [reflexivity|]. split; [exact En|]. split; [exact Ap|]. split; exact Lz.
Qed.
Lemma magma_H_key c k : magma_fresh c -> blkn 32 k ->
  magma_ok k (zeros 8) (cc_init magma_cbc_cipher (cc_init magma_cbc_cipher c None None) (Some k) (Some (zeros 8))).
Proof.
  intros (g & -> & Hr) [Lk Bk]. cbn [magma_cbc_cipher cc_init]. unfold magma_cipher_init at 1.
  set (c1 := magma_cipher_init 8 false (fresh_evp g) None None true).
  assert (Q : e_app c1 = true /\ length (e_oiv c1) = 8%nat /\ length (e_iv c1) = 8%nat /\
     tables_of (e_g c1) Gost28147_TC26ParamSetZ /\ rng_ok (g_rng (e_g c1))).
  { split; [reflexivity|]. split; [reflexivity|]. split; [reflexivity|]. split; [apply tables_of_init|exact Hr]. }
  clearbody c1. destruct Q as (Q1 & Q2 & Q3 & Q4 & Q5).
  change (e_app (with_enc c1 true)) with (e_app c1). rewrite Q1. cbv iota.
  apply magma_init_ok; auto. cbn [with_g with_enc e_g]. apply mst_master. apply mst_magma_key; auto. exact Z_ok.
Qed.
Lemma magma_H_iv c k iv : magma_ok k iv c -> magma_ok k (zeros 8) (cc_init magma_cbc_cipher c None (Some (zeros 8))).
Proof.
  intros (M & I & En & Ap & Lo & Li). cbn [magma_cbc_cipher cc_init]. unfold magma_cipher_init.
  change (e_app (with_enc c true)) with (e_app c). rewrite Ap. cbv iota. apply magma_init_ok; auto.
Qed.
Lemma magma_H_do c k iv b : blkn 32 k -> magma_ok k iv c -> blkn 8 iv -> blkn 8 b ->
  snd (cc_do magma_cbc_cipher c b) = magma_E k (xorl iv b) /\ magma_ok k (magma_E k (xorl iv b)) (fst (cc_do magma_cbc_cipher c b)).
Proof.
  intros Hk (M & I & En & Ap & Lo & Li) Hi [Lb Bb]. cbn [magma_cbc_cipher cc_do]. unfold magma_cipher_do_cbc. rewrite En.
  rewrite blocks_short by (try lia; (destruct b; [discriminate Lb|discriminate])). cbn [cbc_enc_blocks].
  rewrite (mst_crypt _ _ _ _ M), I, app_nil_r. cbn [fst snd]. split; [reflexivity|].
  unfold magma_ok. cbn [with_iv e_g e_iv e_enc e_app e_oiv]. repeat (split; [assumption || reflexivity|]). apply rfc8891_encrypt_length.
Qed.
Lemma magma_E_ok k b : blkn 32 k -> blkn 8 b -> blkn 8 (magma_E k b).
Proof. intros _ _. split; [apply rfc8891_encrypt_length|apply rfc8891_encrypt_bytes]. Qed.

(** * Kuznyechik *)
Definition kuz_fresh (c : kctx) : Prop := c = kctx0.
Definition kuz_ok (k iv : list N) (c : kctx) : Prop := kkst k c /\ k_iv c = iv /\ k_enc c = true /\ kctx_ok c.
Lemma kuz_init_none c : kctx_ok c -> kctx_ok (init_cbc c None None true).
Proof.
  intros (H1 & H2 & H3 & H4 & H5). unfold init_cbc, gost_grasshopper_cipher_init, kctx_ok.
  cbn [kw_iv kw_enc k_ek k_dk k_oiv k_iv k_buf k_part]. repeat (split; [assumption|]). split; [|exact H5].
  rewrite overwrite_length; [exact H4|]. rewrite firstn_length. lia.
Qed.
Lemma kuz_key_iv c k z : kctx_ok c -> blkn 32 k -> blkn 16 z -> kuz_ok k z (init_cbc c (Some k) (Some z) true).
Proof.
  intros Hc Hk Hz. destruct (init16 c k z true Hc Hk Hz) as (Q1 & Q2 & Q3 & _). pose proof (init16_ok c k z true Hc Hk Hz) as Q4.
  unfold init_cbc. set (c1 := gost_grasshopper_cipher_init 16 c (Some k) (Some z) true) in *. clearbody c1. split; auto.
Qed.
Lemma kuz_H_key c k : kuz_fresh c -> blkn 32 k ->
  kuz_ok k (zeros 16) (cc_init kuz_cbc_cipher (cc_init kuz_cbc_cipher c None None) (Some k) (Some (zeros 16))).
Proof.
  intros -> Hk. cbn [kuz_cbc_cipher cc_init]. apply kuz_key_iv; auto using blkn_zeros. apply kuz_init_none. exact kctx0_ok.
Qed.
Lemma kuz_H_iv c k iv : kuz_ok k iv c -> kuz_ok k (zeros 16) (cc_init kuz_cbc_cipher c None (Some (zeros 16))).
Proof.
  intros (M & I & En & Hc). pose proof Hc as (H1 & H2 & H3 & H4 & H5). cbn [kuz_cbc_cipher cc_init].
  unfold init_cbc, gost_grasshopper_cipher_init. cbv zeta.
  assert (O1 : overwrite (k_oiv (kw_enc c true)) 0 (firstn 16 (zeros 16)) = zeros 16).
  { rewrite firstn_all2 by (rewrite zeros_length; lia). apply ow_all. rewrite zeros_length. symmetry; exact H3. }
  rewrite O1. cbn [kw_oiv kw_enc k_oiv k_iv kw_iv].
  assert (O2 : overwrite (k_iv c) 0 (firstn 16 (zeros 16)) = zeros 16).
  { rewrite firstn_all2 by (rewrite zeros_length; lia). apply ow_all. rewrite zeros_length. symmetry; exact H4. }
  rewrite O2. split; [exact M|]. split; [reflexivity|]. split; [reflexivity|].
  unfold kctx_ok. cbn [k_ek k_dk k_oiv k_iv k_buf k_part]. repeat (split; [assumption || reflexivity|]). exact H5.
Qed.
Lemma do_cbc_one c k iv b : kuz_ok k iv c -> blk16 iv -> blk16 b -> do_cbc c b = (kw_iv c (E_ k (xorl iv b)), E_ k (xorl iv b)).
Proof.
  intros (M & I & En & Hc) Hi Hb. rewrite do_cbc_steps by (unfold whole16; destruct Hb as [-> _]; reflexivity).
  rewrite blocks_short by (destruct Hb as [Lb _]; try lia; (destruct b; [discriminate Lb|discriminate])).
  cbn [steps]. unfold cbc_step. rewrite En, I. cbv zeta. unfold append128.
  rewrite (kkst_enc k) by (auto; apply xor_blk; auto). rewrite app_nil_r. reflexivity.
Qed.
Lemma kuz_E_ok k b : blkn 32 k -> blkn 16 b -> blkn 16 (E_ k b).
Proof. intros [L B] Hb. exact (E_blk k b L B Hb). Qed.
Lemma kuz_H_do c k iv b : blkn 32 k -> kuz_ok k iv c -> blkn 16 iv -> blkn 16 b ->
  snd (cc_do kuz_cbc_cipher c b) = E_ k (xorl iv b) /\ kuz_ok k (E_ k (xorl iv b)) (fst (cc_do kuz_cbc_cipher c b)).
Proof.
  intros Hk Hc Hi Hb. cbn [kuz_cbc_cipher cc_do]. rewrite (do_cbc_one c k iv b Hc Hi Hb). cbn [fst snd]. split; [reflexivity|].
  assert (O : blkn 16 (E_ k (xorl iv b))) by (apply kuz_E_ok; auto; apply blkn_xorl; auto).
  set (o := E_ k (xorl iv b)) in *. clearbody o. destruct Hc as (M & I & En & (H1 & H2 & H3 & H4 & H5)).
  split; [exact M|]. split; [reflexivity|]. split; [exact En|]. unfold kctx_ok. cbn [kw_iv k_ek k_dk k_oiv k_iv k_buf k_part].
  repeat (split; [assumption|]). split; [apply O|exact H5].
Qed.

(** ** C31: histories *)
(** On a little-endian host, every sequence of calls on a magma-mac context (set key, tag length,
    TLSTREE, updates, finals, in any order and number) returns what the specification says: the tag is the
    truncated OMAC of GOST R 34.13-2015 of everything fed since the key was set or derived, whatever the
    chunks; calls without a key fail; a TLSTREE call derives from the key that was set. *)
Theorem C31_magma_omac_histories :
  forall h (ops : list (omac_call magma_cbc_cipher)), h_le h = true -> Forall (@call_ok magma_cbc_cipher magma_fresh) ops ->
    Forall2 meets (omac_run magma_cbc_cipher h (omac_init magma_cbc_cipher) ops)
      (mac_spec (fun k => omac (rfc8891_encrypt SZ k) 8) (KdfSpec.tlstree KdfSpec.TLS_MAGMA) (mk_ms None nil 8 (Some nil)) ops).
Proof.
  intros h ops Hh F.
  exact (om_run magma_cbc_cipher magma_E magma_ok magma_fresh ltac:(cbn; lia) ltac:(cbn; lia) magma_E_ok magma_H_key magma_H_iv magma_H_do
    h KdfSpec.TLS_MAGMA Hh eq_refl ops F _ _ (om_init_rel magma_cbc_cipher magma_E magma_ok)).
Qed.
Theorem C31_kuznyechik_omac_histories :
  forall h (ops : list (omac_call kuz_cbc_cipher)), h_le h = true -> Forall (@call_ok kuz_cbc_cipher kuz_fresh) ops ->
    Forall2 meets (omac_run kuz_cbc_cipher h (omac_init kuz_cbc_cipher) ops)
      (mac_spec (fun k => omac (E_ k) 16) (KdfSpec.tlstree KdfSpec.TLS_KUZNYECHIK) (mk_ms None nil 16 (Some nil)) ops).
Proof.
  intros h ops Hh F.
  exact (om_run kuz_cbc_cipher E_ kuz_ok kuz_fresh ltac:(cbn; lia) ltac:(cbn; lia) kuz_E_ok kuz_H_key kuz_H_iv kuz_H_do
    h KdfSpec.TLS_KUZNYECHIK Hh eq_refl ops F _ _ (om_init_rel kuz_cbc_cipher E_ kuz_ok)).
Qed.

(** Setting a key, feeding a message in any chunks and finalising gives the OMAC of the message. *)
Definition tag_calls {K : cbc_cipher} (f : cc_ctx K) (k : list N) (chunks : list (list N)) : list (omac_call K) :=
  OSetKey f 32 k :: map OUpdate chunks ++ [OFinal].
Lemma spec_chunks {K : cbc_cipher} mac derive k cur n chunks : forall m,
  mac_spec (K := K) mac derive (mk_ms (Some k) cur n (Some m)) (map OUpdate chunks ++ [OFinal]) =
  map (fun _ => (1%Z, Some nil)) chunks ++ [(1%Z, Some (firstn n (mac cur (m ++ concat chunks))))].
Proof.
  induction chunks as [|d t IH]; intro m; cbn [map app mac_spec mac_spec_step ms_key ms_cur ms_len ms_msg option_map concat].
  - rewrite app_nil_r. reflexivity.
  - rewrite IH, app_assoc. reflexivity.
Qed.
Lemma meets_all_some a b : Forall2 meets a (map (fun x : Z * list N => (fst x, Some (snd x))) b) -> a = b.
Proof.
  revert a; induction b as [|[r o] b IH]; intros a H; inversion H as [|x y l l' [M1 M2] M3]; subst; [reflexivity|].
  cbn [fst snd] in *. destruct x as [r' o']. cbn [fst snd] in *. subst. f_equal. apply IH; auto.
Qed.
Lemma omac_length (E : list N -> list N) bl m : (0 < bl)%nat -> (forall b, length b = bl -> length (E b) = bl) -> length (omac E bl m) = bl.
Proof.
  intros P HE. unfold omac. cbv zeta. apply HE. pose proof (cut_exists bl m P) as (Em & Fh & Lr & _). rewrite xorl_length.
  set (r := last_piece bl m) in *. set (k1 := dbl bl (E (zeros bl))).
  assert (L1 : length (last_block bl r k1 (dbl bl k1)) = bl).
  { unfold last_block, k1. destruct (Nat.eqb_spec (length r) bl); rewrite xorl_length, dbl_length; [lia|]. unfold pad.
    rewrite !app_length, zeros_length. cbn [length]. lia. }
  rewrite L1. clear -Fh HE. assert (G : forall H c, Forall (fun b : list N => length b = bl) H -> length c = bl ->
     length (fold_left (fun c b => E (xorl c b)) H c) = bl).
  { induction H as [|b t IH]; intros c F Hc; [exact Hc|]. apply Forall_cons_iff in F as [Fb F]. cbn [fold_left]. apply IH; auto.
    apply HE. rewrite xorl_length. lia. }
  rewrite G; auto; [lia|apply zeros_length].
Qed.
Lemma tag_calls_result {K : cbc_cipher} (f : cc_ctx K) mac derive k chunks res :
  length (mac k (concat chunks)) = cc_bl K ->
  Forall2 meets res (mac_spec mac derive (mk_ms None nil (cc_bl K) (Some nil)) (tag_calls f k chunks)) ->
  res = (1%Z, nil) :: map (fun _ => (1%Z, nil)) chunks ++ [(1%Z, mac k (concat chunks))].
Proof.
  intros L H. apply meets_all_some. unfold tag_calls in *. cbn [mac_spec mac_spec_step] in H. rewrite Z.eqb_refl, orb_true_r in H.
  rewrite spec_chunks in H. cbn [app] in H. rewrite firstn_all2 in H by lia. cbn [map]. rewrite map_app, map_map. exact H.
Qed.
Lemma tag_calls_ok {K : cbc_cipher} (fr : cc_ctx K -> Prop) f k chunks : fr f -> blkn 32 k -> Forall bytes chunks ->
  Forall (call_ok fr) (tag_calls f k chunks).
Proof.
  intros Hf Hk Hc. constructor; [split; auto|]. apply Forall_app; split; [|constructor; [exact I|constructor]]. apply Forall_map. exact Hc.
Qed.
Theorem C31_magma_omac_of_chunks :
  forall h f k chunks, h_le h = true -> magma_fresh f -> blkn 32 k -> Forall bytes chunks ->
    omac_run magma_cbc_cipher h (omac_init magma_cbc_cipher) (tag_calls (K := magma_cbc_cipher) f k chunks)
    = (1%Z, nil) :: map (fun _ => (1%Z, nil)) chunks ++ [(1%Z, omac (rfc8891_encrypt SZ k) 8 (concat chunks))].
Proof.
  intros h f k chunks Hh Hf Hk Hc.
  exact (tag_calls_result (K := magma_cbc_cipher) f (fun k => omac (rfc8891_encrypt SZ k) 8) _ k chunks _
    (omac_length (rfc8891_encrypt SZ k) 8 (concat chunks) ltac:(lia) (fun b _ => rfc8891_encrypt_length SZ k b))
    (C31_magma_omac_histories h _ Hh (tag_calls_ok (K := magma_cbc_cipher) magma_fresh f k chunks Hf Hk Hc))).
Qed.
Theorem C31_kuznyechik_omac_of_chunks :
  forall h k chunks, h_le h = true -> blkn 32 k -> Forall bytes chunks ->
    omac_run kuz_cbc_cipher h (omac_init kuz_cbc_cipher) (tag_calls (K := kuz_cbc_cipher) kctx0 k chunks)
    = (1%Z, nil) :: map (fun _ => (1%Z, nil)) chunks ++ [(1%Z, omac (E_ k) 16 (concat chunks))].
Proof.
  intros h k chunks Hh Hk Hc.
  exact (tag_calls_result (K := kuz_cbc_cipher) kctx0 (fun k => omac (E_ k) 16) _ k chunks _
    (omac_length (E_ k) 16 (concat chunks) ltac:(lia) (fun b => E_length k b Hk))
    (C31_kuznyechik_omac_histories h _ Hh (tag_calls_ok (K := kuz_cbc_cipher) kuz_fresh kctx0 k chunks eq_refl Hk Hc))).
Qed.

(** Non-vacuity: the Magma test vector of GOST R 34.13-2015 A.2.6 (test_digest.c:109), cut to 4 bytes. *)
Example omac_magma_vector :
  firstn 4 (omac (rfc8891_encrypt SZ (hex "ffeeddccbbaa99887766554433221100f0f1f2f3f4f5f6f7f8f9fafbfcfdfeff")) 8
    (hex "92def06b3c130a59db54c704f8189d204a98fb2e67a8024c8912409b17b57e41")) = hex "154e7210".
Proof. vm_compute. reflexivity. Qed.
Example omac_call_hypotheses : magma_fresh (fresh_evp ctx0) /\ @call_ok magma_cbc_cipher magma_fresh (OTlstree (K := magma_cbc_cipher) (fresh_evp ctx0) (zeros 8)).
Proof.
  assert (F : magma_fresh (fresh_evp ctx0)) by (exists ctx0; split; [reflexivity|exact ctx0_rng_ok]).
  split; [exact F|]. split; [exact F|apply blkn_zeros].
Qed.
