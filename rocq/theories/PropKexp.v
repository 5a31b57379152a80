(** Property C33: KExp15/KImp15 and the kexp15 wrap ciphers. *)
From Coq Require Import String.
From Verif Require Import Bytes BytesProofs StreamMode Gost89Model Gost89Sboxes Gost89Spec Gost89Proofs Gost89SpecProofs CryptModel CryptSpec CryptProofs
  MagmaProofs PropGost89 PropCrypt PropCrypt2 KuzSpec KuzModel KuzProofs KuzCipherModel KuzCipherSpec KuzModeProofs PropKuzModes
  KdfModel KdfSpec OmacModel OmacSpec OmacProofs PropOmac KexpModel KexpSpec.
From Coq Require Import List Lia NArith ZArith.
Import ListNotations.
Open Scope N_scope.

(** * The MAC *)
Definition fresh_ok (f : fresh) : Prop := magma_fresh (f_mac f) /\ magma_fresh (f_ctr f).
Lemma omac_two_calls {K : cbc_cipher} h (f : cc_ctx K) mac derive k n a b :
  (1 <= n)%nat -> (n <= cc_bl K)%nat -> (n <= length (mac k (a ++ b)))%nat ->
  Forall2 meets (omac_run K h (omac_init K) [OSetKey f 32 k; OXofLen (Z.of_nat n); OUpdate a; OUpdate b; OXofLen (Z.of_nat n); OFinal])
    (mac_spec mac derive (mk_ms None nil (cc_bl K) (Some nil)) [OSetKey f 32 k; OXofLen (Z.of_nat n); OUpdate a; OUpdate b; OXofLen (Z.of_nat n); OFinal]) ->
  omac_two h f k n a b = Some (firstn n (mac k (a ++ b))).
Proof.
  intros N1 N2 N3 H. unfold omac_two. cbn [mac_spec mac_spec_step Z.eqb orb Pos.eqb] in H.
  replace (((1 <=? Z.of_nat n) && (Z.of_nat n <=? Z.of_nat (cc_bl K)))%Z) with true in H
    by (symmetry; apply andb_true_iff; split; apply Z.leb_le; lia).
  cbn [ms_key ms_cur ms_len ms_msg option_map app] in H. rewrite Nat2Z.id in H.
  apply (meets_all_some _ [(1%Z, nil); (1%Z, nil); (1%Z, nil); (1%Z, nil); (1%Z, nil); (1%Z, firstn n (mac k (a ++ b)))]) in H.
  cbv zeta. rewrite H. reflexivity.
Qed.
Lemma omac_two_short {K : cbc_cipher} h (f : cc_ctx K) mac derive k n a b :
  (cc_bl K < n)%nat ->
  Forall2 meets (omac_run K h (omac_init K) [OSetKey f 32 k; OXofLen (Z.of_nat n); OUpdate a; OUpdate b; OXofLen (Z.of_nat n); OFinal])
    (mac_spec mac derive (mk_ms None nil (cc_bl K) (Some nil)) [OSetKey f 32 k; OXofLen (Z.of_nat n); OUpdate a; OUpdate b; OXofLen (Z.of_nat n); OFinal]) ->
  omac_two h f k n a b = None.
Proof.
  intros N1 H. unfold omac_two. cbn [mac_spec mac_spec_step Z.eqb orb Pos.eqb] in H.
  replace (((1 <=? Z.of_nat n) && (Z.of_nat n <=? Z.of_nat (cc_bl K)))%Z) with false in H
    by (symmetry; apply andb_false_iff; right; apply Z.leb_gt; lia).
  cbv zeta. set (rs := omac_run K h (omac_init K) _) in *. clearbody rs.
  destruct rs as [|r0 [|r1 t]]; [inversion H|inversion H as [|? ? ? ? ? H2]; inversion H2|].
  inversion H as [|? ? ? ? _ H2]; subst. inversion H2 as [|? ? ? ? M _]; subst. destruct M as [M _]. cbn [fst] in M. cbn [forallb].
  rewrite M. cbn. rewrite andb_false_r. reflexivity.
Qed.
Lemma two_ok {K : cbc_cipher} (fr : cc_ctx K -> Prop) f k n m a b : fr f -> blkn 32 k -> bytes a -> bytes b ->
  Forall (call_ok fr) [OSetKey f 32 k; OXofLen n; OUpdate a; OUpdate b; OXofLen m; OFinal].
Proof. intros. repeat (constructor; [cbn; auto|]). constructor. Qed.

Definition mac_of_cipher (c : kcipher) : mac_nid := match c with MAGMA => NID_magma_mac | KUZNYECHIK => NID_grasshopper_mac end.
Definition ctr_of_cipher (c : kcipher) : ctr_nid := match c with MAGMA => NID_magma_ctr | KUZNYECHIK => NID_grasshopper_ctr end.
Definition mlen (c : kcipher) : nat := match c with MAGMA => 8 | KUZNYECHIK => 16 end.
Lemma omac_mode_length c k m : blkn 32 k -> length (omac_mode c k m) = mlen c.
Proof.
  intros Hk. destruct c; cbn [omac_mode mlen].
  - apply omac_length; [lia|]. intros b _. apply rfc8891_encrypt_length.
  - apply omac_length; [lia|]. intros b. apply E_length. exact Hk.
Qed.
Lemma mac_two_magma h f k n a b : h_le h = true -> fresh_ok f -> blkn 32 k -> bytes a -> bytes b -> (1 <= n <= 8)%nat ->
  mac_two h f NID_magma_mac k n a b = Some (firstn n (omac_mode MAGMA k (a ++ b))).
Proof.
  intros Hh [Hf _] Hk Ha Hb Hn.
  exact (omac_two_calls (K := magma_cbc_cipher) h (f_mac f) (fun k => omac (rfc8891_encrypt SZ k) 8) (KdfSpec.tlstree KdfSpec.TLS_MAGMA) k n a b
    (proj1 Hn) (proj2 Hn) (eq_ind_r (fun x => (n <= x)%nat) (proj2 Hn) (omac_mode_length MAGMA k (a ++ b) Hk))
    (C31_magma_omac_histories h _ Hh (two_ok (K := magma_cbc_cipher) magma_fresh (f_mac f) k (Z.of_nat n) (Z.of_nat n) a b Hf Hk Ha Hb))).
Qed.
Lemma mac_two_kuz h f k n a b : h_le h = true -> blkn 32 k -> bytes a -> bytes b -> (1 <= n <= 16)%nat ->
  mac_two h f NID_grasshopper_mac k n a b = Some (firstn n (omac_mode KUZNYECHIK k (a ++ b))).
Proof.
  intros Hh Hk Ha Hb Hn.
  exact (omac_two_calls (K := kuz_cbc_cipher) h kctx0 (fun k => omac (E_ k) 16) (KdfSpec.tlstree KdfSpec.TLS_KUZNYECHIK) k n a b
    (proj1 Hn) (proj2 Hn) (eq_ind_r (fun x => (n <= x)%nat) (proj2 Hn) (omac_mode_length KUZNYECHIK k (a ++ b) Hk))
    (C31_kuznyechik_omac_histories h _ Hh (two_ok (K := kuz_cbc_cipher) kuz_fresh kctx0 k (Z.of_nat n) (Z.of_nat n) a b eq_refl Hk Ha Hb))).
Qed.
Lemma mac_two_ok h f c k a b : h_le h = true -> fresh_ok f -> blkn 32 k -> bytes a -> bytes b ->
  mac_two h f (mac_of_cipher c) k (mlen c) a b = Some (omac_mode c k (a ++ b)).
Proof.
  intros Hh Hf Hk Ha Hb. pose proof (omac_mode_length c k (a ++ b) Hk) as L. rewrite <- (firstn_all2 (n := mlen c) (omac_mode c k (a ++ b))) by lia.
  clear L. destruct c; [apply mac_two_magma|apply mac_two_kuz]; auto; cbn; lia.
Qed.

(** * The cipher *)
Lemma pad_iv n iv : (n <= 16)%nat -> (length iv <= 16)%nat -> firstn n (overwrite (zeros 16) 0 iv) = firstn n (iv ++ zeros 16).
Proof.
  intros Hn Hl. unfold overwrite. rewrite firstn_O. cbn [app Nat.add]. rewrite !firstn_app. f_equal.
  unfold zeros. rewrite <- (firstn_skipn (length iv) (repeat 0 16)) at 2.
  assert (Q : forall (m k : nat), skipn m (repeat 0 k) = repeat 0 (k - m)).
  { induction m as [|m IH]; intros [|k]; try reflexivity. cbn [repeat skipn Nat.sub]. apply IH. }
  assert (R : forall (m k : nat), firstn m (repeat 0 k) = repeat 0 (Nat.min m k)).
  { induction m as [|m IH]; intros [|k]; try reflexivity. cbn [repeat firstn Nat.min]. rewrite IH. reflexivity. }
  rewrite firstn_skipn, Q, !R. f_equal. lia.
Qed.
Definition cipher_iv (c : kcipher) (iv : list N) : list N := firstn (half c) (iv ++ zeros 16).
Lemma cipher_iv_ok c iv : bytes iv -> length (cipher_iv c iv) = half c /\ bytes (cipher_iv c iv).
Proof.
  intros B. unfold cipher_iv. split.
  - rewrite firstn_length, app_length, zeros_length. unfold half; destruct c; lia.
  - apply bytes_firstn, bytes_app; [exact B|apply bytes_zeros].
Qed.
Lemma ctr_fields k iv c : length iv = 4%nat -> bytes iv ->
  mst Gost28147_TC26ParamSetZ k (e_g c) -> e_iv c = overwrite (zeros 8) 0 (firstn 4 (overwrite (zeros 8) 0 (firstn 4 iv))) ->
  e_mesh c = 0 -> e_num c = 0 -> length (e_buf c) = 32%nat ->
  rel_ctr Gost28147_TC26ParamSetZ 0 k (be2n (iv ++ zeros 4)) c (0%nat, nil, nil).
Proof.
  intros Li Bi K I M Nm Bf. rewrite (ctr_iv4 iv Li Bi) in I.
  split; [|left; split; [rewrite Nm; split; reflexivity|split; reflexivity]].
  constructor; auto. rewrite Nm. reflexivity.
Qed.
Lemma magma_iv_firstn c key (v : list N) enc : magma_cipher_init 4 false c key (Some v) enc = magma_cipher_init 4 false c key (Some (firstn 4 v)) enc.
Proof.
  unfold magma_cipher_init, init_iv. rewrite firstn_firstn. reflexivity.
Qed.
Lemma ctr_crypt_magma f k iv enc chunks : fresh_ok f -> blkn 32 k -> bytes iv -> (length iv <= 16)%nat ->
  ctr_crypt f NID_magma_ctr k (overwrite (zeros 16) 0 iv) enc chunks = ctr_mode MAGMA k (cipher_iv MAGMA iv) (concat chunks).
Proof.
  intros [_ (g & Ef & Hr)] [Lk Bk] Bi Li. unfold ctr_crypt. cbv zeta. rewrite Ef. rewrite magma_iv_firstn, (pad_iv 4 iv) by lia.
  change (firstn 4 (iv ++ zeros 16)) with (cipher_iv MAGMA iv). destruct (cipher_iv_ok MAGMA iv Bi) as [Lc Bc]. set (v := cipher_iv MAGMA iv) in *. clearbody v. cbn [half] in Lc.
  set (c1 := magma_cipher_init 4 false (fresh_evp g) None None enc) in *.
  assert (Q : e_app c1 = true /\ e_oiv c1 = zeros 8 /\ e_iv c1 = zeros 8 /\ e_num c1 = 0 /\ length (e_buf c1) = 32%nat /\
     tables_of (e_g c1) Gost28147_TC26ParamSetZ /\ rng_ok (g_rng (e_g c1))).
  { split; [reflexivity|]. split; [reflexivity|]. split; [reflexivity|]. split; [reflexivity|]. split; [reflexivity|].
    split; [apply tables_of_init|exact Hr]. }
  clearbody c1. destruct Q as (Q1 & Q2 & Q3 & Q4 & Q5 & Q6 & Q7).
  assert (Ib : sbox_installed Gost28147_TC26ParamSetZ c1) by (intros _; exact Q6).
  destruct (magma_init_state 4 false c1 k v enc Q7 Bk Ib) as [M _].
  assert (R : rel_ctr Gost28147_TC26ParamSetZ 0 k (be2n (v ++ zeros 4)) (magma_cipher_init 4 false c1 (Some k) (Some v) enc) (0%nat, nil, nil)).
  { apply ctr_fields; auto; unfold magma_cipher_init; change (e_app (with_enc c1 enc)) with (e_app c1); rewrite Q1; cbv iota.
    - unfold init_iv. cbn [with_oiv with_iv with_mesh with_g with_enc e_iv e_oiv]. rewrite Q2, Q3. reflexivity.
    - exact Q4.
    - exact Q5. }
  set (c2 := magma_cipher_init 4 false c1 (Some k) (Some v) enc) in *. clearbody c2.
  destruct (run_chunks_bytes _ _ _ _ _ magma_cipher_do_ctr true
    (ctr_sim Gost28147_TC26ParamSetZ 0 k (be2n (v ++ zeros 4)) eq_refl ltac:(lia)) chunks _ _ R) as [_ E].
  rewrite E. unfold ctr_mode, magma_ctr.
  apply run_bytes_stream with (good := fun _ => True); auto; try lia; intros s _; apply ctr_next_len.
Qed.
Lemma kuz_iv_firstn c key (v : list N) enc : init_ctr c key (Some v) enc = init_ctr c key (Some (firstn 8 v)) enc.
Proof. unfold init_ctr, gost_grasshopper_cipher_init. rewrite firstn_firstn. reflexivity. Qed.
Lemma kuz_ctr_none enc : kctx_ok (init_ctr kctx0 None None enc) /\ skipn 8 (k_iv (init_ctr kctx0 None None enc)) = zeros 8.
Proof.
  destruct kctx0_ok as (H1 & H2 & H3 & H4 & H5 & H6 & H7). split; [|reflexivity].
  unfold init_ctr, gost_grasshopper_cipher_init, kctx_ok.
  cbn [kw_iv kw_enc kw_part kw_num k_ek k_dk k_oiv k_iv k_buf k_part]. repeat (split; [assumption|]).
  repeat (split; [assumption || reflexivity|]). reflexivity.
Qed.
Lemma ctr_crypt_kuz f k iv enc chunks : blkn 32 k -> bytes iv -> (length iv <= 16)%nat -> Forall bytes chunks ->
  ctr_crypt f NID_grasshopper_ctr k (overwrite (zeros 16) 0 iv) enc chunks = ctr_mode KUZNYECHIK k (cipher_iv KUZNYECHIK iv) (concat chunks).
Proof.
  intros Hk Bi Li Bc. unfold ctr_crypt. cbv zeta. rewrite kuz_iv_firstn, (pad_iv 8 iv) by lia.
  change (firstn 8 (iv ++ zeros 16)) with (cipher_iv KUZNYECHIK iv). pose proof (cipher_iv_ok KUZNYECHIK iv Bi) as Hv. set (v := cipher_iv KUZNYECHIK iv) in *. clearbody v.
  destruct (kuz_ctr_none enc) as [O Z]. set (c1 := init_ctr kctx0 None None enc) in *. clearbody c1.
  exact (C25_ctr_refines_spec c1 k v enc chunks O Z Hk Hv Bc).
Qed.
Lemma ctr_crypt_ok f c k iv enc chunks : fresh_ok f -> blkn 32 k -> bytes iv -> (length iv <= 16)%nat -> Forall bytes chunks ->
  ctr_crypt f (ctr_of_cipher c) k (overwrite (zeros 16) 0 iv) enc chunks = ctr_mode c k (cipher_iv c iv) (concat chunks).
Proof. intros. destruct c; [apply ctr_crypt_magma|apply ctr_crypt_kuz]; auto. Qed.

Lemma ctr_mode_length c k iv m : blkn 32 k -> length (ctr_mode c k iv m) = length m.
Proof.
  intros Hk. destruct c; cbn [ctr_mode]; [unfold magma_ctr|unfold kuz_ctr].
  - apply stream_length with (good := fun _ => True); auto; try lia; intros s _; apply ctr_next_len.
  - apply stream_length with (good := fun _ => True); auto; try lia; intros s _; apply ctr_len16; exact Hk.
Qed.
Lemma ctr_mode_twice c k iv m : blkn 32 k -> ctr_mode c k iv (ctr_mode c k iv m) = m.
Proof.
  intros Hk. destruct c; cbn [ctr_mode]; [unfold magma_ctr|unfold kuz_ctr];
    rewrite (stream_enc_irrelevant _ _ _ true (negb true) _ (stream _ _ _ _ _ _ _)).
  - apply stream_roundtrip with (good := fun _ => True); auto; try lia; intros s _; apply ctr_next_len.
  - apply stream_roundtrip with (good := fun _ => True); auto; try lia; intros s _; apply ctr_len16; exact Hk.
Qed.
Lemma ctr_mode_app c k iv a b : blkn 32 k -> firstn (length a) (ctr_mode c k iv (a ++ b)) = ctr_mode c k iv a.
Proof.
  intros Hk. assert (G : forall nx bs, (forall s : nat, length (snd (nx s)) = bs) -> (0 < bs)%nat ->
     firstn (length a) (stream nat nx (fun s _ => s) bs true 0%nat (a ++ b)) = stream nat nx (fun s _ => s) bs true 0%nat a).
  { intros nx bs Hn Hp. rewrite <- !(run_bytes_stream nat nx (fun s _ => s) bs (fun _ => True)) by auto.
    rewrite run_bytes_app. pose proof (run_bytes_length nat nx (fun s _ => s) true (0%nat, nil, nil) a) as L.
    destruct (run_bytes nat nx _ true (0%nat, nil, nil) a) as [s1 o1]. destruct (run_bytes nat nx _ true s1 b) as [s2 o2]. cbn [snd] in *.
    apply firstn_app_exact. exact L. }
  destruct c; cbn [ctr_mode]; [unfold magma_ctr|unfold kuz_ctr]; apply G; try lia; intros s; [apply ctr_next_len|apply ctr_len16; exact Hk].
Qed.
Lemma stream_blocks_bytes nx : (forall s : nat, bytes (snd (nx s))) -> forall bl s, Forall bytes bl ->
  bytes (stream_blocks nat nx (fun s _ => s) true s bl).
Proof.
  intros Hn. induction bl as [|b t IH]; intros s F; cbn [stream_blocks]; [constructor|].
  apply Forall_cons_iff in F as [Fb F]. pose proof (Hn s) as B. destruct (nx s) as [s1 ks]. cbn [snd] in B.
  apply bytes_app; [|apply IH; exact F]. apply xorl_bytes; auto.
Qed.
Lemma ctr_mode_bytes c k iv m : blkn 32 k -> bytes m -> bytes (ctr_mode c k iv m).
Proof.
  intros Hk Bm. destruct c; cbn [ctr_mode]; [unfold magma_ctr|unfold kuz_ctr]; unfold stream; apply stream_blocks_bytes;
    try (apply blocks_bytes; [lia|exact Bm]); intros s; unfold CryptSpec.ctr_next; cbn [snd].
  - apply rfc8891_encrypt_bytes.
  - apply kuz_E_ok; [exact Hk|]. split; [apply n2be_length|apply n2be_bytes].
Qed.
Lemma omac_blkn (E : list N -> list N) bl m : (0 < bl)%nat -> (forall b, blkn bl b -> blkn bl (E b)) -> bytes m -> blkn bl (omac E bl m).
Proof.
  intros P HE Bm. unfold omac. cbv zeta. apply HE. pose proof (cut_exists bl m P) as (Em & Fh & Lr & _).
  set (H := heads bl m) in *. set (r := last_piece bl m) in *.
  assert (Br : bytes r /\ Forall (blkn bl) H).
  { rewrite Em in Bm. apply bytes_app_inv in Bm as [B1 B2]. split; [exact B2|]. clear -Fh B1.
    induction Fh as [|b t Hb F IH]; constructor. - cbn [concat] in B1. apply bytes_app_inv in B1 as [B1 _]. split; auto.
    - cbn [concat] in B1. apply bytes_app_inv in B1 as [_ B1]. apply IH; auto. }
  destruct Br as [Br FH]. apply blkn_xorl.
  - assert (G : forall l c, Forall (blkn bl) l -> blkn bl c -> blkn bl (fold_left (fun c b => E (xorl c b)) l c)).
    { induction l as [|b t IH]; intros c F Hc; [exact Hc|]. apply Forall_cons_iff in F as [Fb F]. cbn [fold_left]. apply IH; [exact F|].
      apply HE, blkn_xorl; auto. }
    apply G; [exact FH|apply blkn_zeros].
  - assert (B1 : forall b, blkn bl (dbl bl b)) by (intros b; split; [apply dbl_length|apply dbl_bytes]).
    unfold last_block. destruct (Nat.eqb_spec (length r) bl) as [Q|Q]; apply blkn_xorl; auto; [split; auto|]. unfold pad. split.
    + rewrite !app_length, zeros_length. cbn [length]. lia.
    + apply bytes_app; auto. constructor; [reflexivity|apply bytes_zeros].
Qed.
Lemma omac_mode_bytes c k m : blkn 32 k -> bytes m -> bytes (omac_mode c k m).
Proof.
  intros Hk Bm. destruct c; cbn [omac_mode].
  - apply (omac_blkn (rfc8891_encrypt SZ k) 8 m); [lia| |exact Bm]. intros b. apply (magma_E_ok k b Hk).
  - apply (omac_blkn (E_ k) 16 m); [lia| |exact Bm]. intros b. apply (kuz_E_ok k b Hk).
Qed.

(** * Theorems *)
(** The exported representation.  [kexp15] of the standard takes an IV of half a block; the functions
    accept any IV of up to 16 bytes, of which the cipher uses half a block (padded with zero bytes) and the
    MAC all bytes. *)
Definition export_of (c : kcipher) (kmac kenc iv key : list N) : list N :=
  ctr_mode c kenc (cipher_iv c iv) (key ++ omac_mode c kmac (iv ++ key)).
Lemma export_std c kmac kenc iv key : length iv = half c -> export_of c kmac kenc iv key = kexp15 c kmac kenc iv key.
Proof.
  intros L. unfold export_of, kexp15, cipher_iv. rewrite firstn_app_exact by exact L. reflexivity.
Qed.
Lemma export_length c kmac kenc iv key : blkn 32 kmac -> blkn 32 kenc -> length (export_of c kmac kenc iv key) = (length key + mlen c)%nat.
Proof. intros Hm He. unfold export_of. rewrite ctr_mode_length, app_length, omac_mode_length by auto. reflexivity. Qed.
Lemma wrap_mac_len_c c : wrap_mac_len (ctr_of_cipher c) = mlen c. Proof. destruct c; reflexivity. Qed.
Lemma mlen_pos c : (8 <= mlen c <= 16)%nat. Proof. destruct c; cbn; lia. Qed.

Lemma kexp_general h f c kmac kenc iv key cap :
  h_le h = true -> fresh_ok f -> blkn 32 kmac -> blkn 32 kenc -> bytes iv -> bytes key -> (length iv <= 16)%nat ->
  (length key + mlen c <= cap)%nat ->
  gost_kexp15 h f key (ctr_of_cipher c) kenc (mac_of_cipher c) kmac iv cap = KOut (export_of c kmac kenc iv key).
Proof.
  intros Hh Hf Hm He Bi Bk Li Hc. unfold gost_kexp15. rewrite wrap_mac_len_c. pose proof (mlen_pos c).
  replace (mlen c =? 0)%nat with false by (symmetry; apply Nat.eqb_neq; lia).
  replace (cap <? length key + mlen c)%nat with false by (symmetry; apply Nat.ltb_ge; lia).
  replace (16 <? length iv)%nat with false by (symmetry; apply Nat.ltb_ge; lia).
  cbv zeta. rewrite mac_two_ok by auto. rewrite ctr_crypt_ok; auto.
  - cbn [concat]. rewrite app_nil_r. reflexivity.
  - constructor; [exact Bk|]. constructor; [|constructor]. apply omac_mode_bytes; auto. apply bytes_app; auto.
Qed.

(** What import computes when the buffer is filled far enough. *)
Lemma kimp_general h f stack c kmac kenc iv e :
  h_le h = true -> fresh_ok f -> blkn 32 kmac -> blkn 32 kenc -> bytes iv -> bytes e -> bytes stack -> length stack = 48%nat ->
  (length iv <= 16)%nat -> (length e <= 48)%nat ->
  gost_kimp15 h f stack e (ctr_of_cipher c) kenc (mac_of_cipher c) kmac iv =
    (let out := ctr_mode c kenc (cipher_iv c iv) e ++ skipn (length e) stack in
     if eqbl (omac_mode c kmac (iv ++ firstn 32 out)) (firstn (mlen c) (skipn 32 out)) then KOut (firstn 32 out) else KFail).
Proof.
  intros Hh Hf Hm He Bi Be Bs Ls Li Le. unfold gost_kimp15. rewrite wrap_mac_len_c. pose proof (mlen_pos c).
  replace (mlen c =? 0)%nat with false by (symmetry; apply Nat.eqb_neq; lia).
  replace (48 <? length e)%nat with false by (symmetry; apply Nat.ltb_ge; lia).
  replace (16 <? length iv)%nat with false by (symmetry; apply Nat.ltb_ge; lia).
  cbv zeta. rewrite (ctr_crypt_ok f c kenc iv false [e] Hf He Bi Li) by (constructor; [exact Be|constructor]).
  cbn [concat]. rewrite app_nil_r. unfold overwrite. rewrite firstn_O. cbn [app Nat.add]. rewrite ctr_mode_length by auto.
  rewrite mac_two_ok; auto. apply bytes_firstn, bytes_app; [apply ctr_mode_bytes; auto|apply bytes_skipn; auto].
Qed.
Lemma KOut_inj a b : KOut a = KOut b -> a = b. Proof. congruence. Qed.
Lemma kimp_iff h f stack c kmac kenc iv e k :
  h_le h = true -> fresh_ok f -> blkn 32 kmac -> blkn 32 kenc -> bytes iv -> bytes e -> bytes stack -> length stack = 48%nat ->
  (length iv <= 16)%nat -> (32 + mlen c <= length e <= 48)%nat ->
  gost_kimp15 h f stack e (ctr_of_cipher c) kenc (mac_of_cipher c) kmac iv = KOut k <->
  length k = 32%nat /\ firstn (32 + mlen c) e = export_of c kmac kenc iv k.
Proof.
  intros Hh Hf Hm He Bi Be Bs Ls Li Le. rewrite kimp_general by (auto; lia). cbv zeta. pose proof (mlen_pos c) as ML.
  set (p := ctr_mode c kenc (cipher_iv c iv) e). assert (Lp : length p = length e) by (apply ctr_mode_length; auto).
  assert (F32 : firstn 32 (p ++ skipn (length e) stack) = firstn 32 p) by (rewrite firstn_app; replace (32 - length p)%nat with 0%nat by lia; rewrite firstn_O, app_nil_r; reflexivity).
  assert (S32 : firstn (mlen c) (skipn 32 (p ++ skipn (length e) stack)) = firstn (mlen c) (skipn 32 p)).
  { rewrite skipn_app, firstn_app, skipn_length. replace (mlen c - (length p - 32))%nat with 0%nat by lia. rewrite firstn_O, app_nil_r. reflexivity. }
  rewrite F32, S32.
  assert (Pq : firstn (32 + mlen c) p = firstn 32 p ++ firstn (mlen c) (skipn 32 p)).
  { rewrite <- (firstn_skipn 32 p) at 1. rewrite firstn_app, firstn_length_le by lia. f_equal.
    - rewrite firstn_firstn. f_equal. lia.
    - f_equal. lia. }
  assert (Pe : firstn (32 + mlen c) p = ctr_mode c kenc (cipher_iv c iv) (firstn (32 + mlen c) e)).
  { pose proof (ctr_mode_app c kenc (cipher_iv c iv) (firstn (32 + mlen c) e) (skipn (32 + mlen c) e) He) as A.
    rewrite firstn_skipn in A. rewrite firstn_length_le in A by lia. exact A. }
  rewrite Pe in Pq. clear Pe F32 S32. split.
  - intros H. destruct (eqbl _ _) eqn:Q; [|discriminate H]. apply eqbl_eq in Q. apply KOut_inj in H. subst k.
    split; [rewrite firstn_length; lia|]. unfold export_of. rewrite Q, <- Pq, ctr_mode_twice by auto. reflexivity.
  - intros [Lk H]. rewrite H in Pq. unfold export_of in Pq. rewrite ctr_mode_twice in Pq by auto.
    apply (f_equal (firstn 32)) in Pq as P1. rewrite !firstn_app_exact in P1 by (auto; rewrite firstn_length; lia).
    apply (f_equal (skipn 32)) in Pq as P2. rewrite !skipn_app_exact in P2 by (auto; rewrite firstn_length; lia).
    rewrite <- P1, <- P2. replace (eqbl _ _) with true; [reflexivity|]. symmetry. apply eqbl_eq. reflexivity.
Qed.
Definition ok_args (h : host) (f : fresh) (kmac kenc : list N) : Prop :=
  h_le h = true /\ fresh_ok f /\ blkn 32 kmac /\ blkn 32 kenc.
(** Export gives KExp15 of the standard, for keys of any length, if the output buffer is large enough;
    otherwise, or with another cipher, it fails. *)
Theorem C33_export_is_KExp15 :
  forall h f c kmac kenc iv key cap,
    ok_args h f kmac kenc -> bytes iv -> bytes key -> length iv = half c ->
    gost_kexp15 h f key (ctr_of_cipher c) kenc (mac_of_cipher c) kmac iv cap =
      if (length key + mlen c <=? cap)%nat then KOut (kexp15 c kmac kenc iv key) else KFail.
Proof.
  intros h f c kmac kenc iv key cap (Hh & Hf & Hm & He) Bi Bk Li. destruct (Nat.leb_spec (length key + mlen c) cap) as [L|L].
  - rewrite <- export_std by exact Li. apply kexp_general; auto. destruct c; cbn in Li; lia.
  - unfold gost_kexp15. rewrite wrap_mac_len_c. pose proof (mlen_pos c).
    replace (mlen c =? 0)%nat with false by (symmetry; apply Nat.eqb_neq; lia).
    replace (cap <? length key + mlen c)%nat with true by (symmetry; apply Nat.ltb_lt; lia). reflexivity.
Qed.
(** Import returns a key exactly when the input is (starts with) the export of that key: the input of
    32 + MAC length bytes. *)
Theorem C33_import_accepts_exactly_the_exports :
  forall h f stack c kmac kenc iv e k,
    ok_args h f kmac kenc -> bytes iv -> bytes e -> bytes stack -> length stack = 48%nat -> length iv = half c -> length e = (32 + mlen c)%nat ->
    (gost_kimp15 h f stack e (ctr_of_cipher c) kenc (mac_of_cipher c) kmac iv = KOut k <->
     length k = 32%nat /\ e = kexp15 c kmac kenc iv k).
Proof.
  intros h f stack c kmac kenc iv e k (Hh & Hf & Hm & He) Bi Be Bs Ls Li Le. pose proof (mlen_pos c).
  rewrite kimp_iff by (auto; destruct c; cbn in *; lia). rewrite firstn_all2 by lia. rewrite export_std by exact Li. reflexivity.
Qed.
(** Never anything but a failure or a 32-byte key. *)
Theorem C33_import_result :
  forall h f stack c kmac kenc iv e,
    ok_args h f kmac kenc -> bytes iv -> bytes e -> bytes stack -> length stack = 48%nat ->
    gost_kimp15 h f stack e (ctr_of_cipher c) kenc (mac_of_cipher c) kmac iv = KFail \/
    exists k, length k = 32%nat /\ gost_kimp15 h f stack e (ctr_of_cipher c) kenc (mac_of_cipher c) kmac iv = KOut k.
Proof.
  intros h f stack c kmac kenc iv e (Hh & Hf & Hm & He) Bi Be Bs Ls. pose proof (mlen_pos c) as ML.
  destruct (Nat.leb_spec (length iv) 16) as [Li|Li]; [destruct (Nat.leb_spec (length e) 48) as [Le|Le]|].
  - rewrite kimp_general by auto. cbv zeta. destruct (eqbl _ _); [right|left; reflexivity]. eexists. split; [|reflexivity].
    rewrite firstn_length, app_length, ctr_mode_length, skipn_length by auto. lia.
  - left. unfold gost_kimp15. rewrite wrap_mac_len_c. destruct (mlen c =? 0)%nat; [reflexivity|].
    replace (48 <? length e)%nat with true by (symmetry; apply Nat.ltb_lt; lia). reflexivity.
  - left. unfold gost_kimp15. rewrite wrap_mac_len_c. destruct (mlen c =? 0)%nat; [reflexivity|].
    replace (16 <? length iv)%nat with true by (symmetry; apply Nat.ltb_lt; lia). destruct (48 <? length e)%nat; reflexivity.
Qed.
(** Round trip, for all IVs which the functions accept (also of unusual lengths). *)
Theorem C33_roundtrip :
  forall h1 h2 f1 f2 stack c kmac kenc iv key cap e,
    ok_args h1 f1 kmac kenc -> ok_args h2 f2 kmac kenc -> bytes iv -> bytes stack -> length stack = 48%nat -> blkn 32 key ->
    gost_kexp15 h1 f1 key (ctr_of_cipher c) kenc (mac_of_cipher c) kmac iv cap = KOut e ->
    length e = (32 + mlen c)%nat /\
    gost_kimp15 h2 f2 stack e (ctr_of_cipher c) kenc (mac_of_cipher c) kmac iv = KOut key.
Proof.
  intros h1 h2 f1 f2 stack c kmac kenc iv key cap e (Hh1 & Hf1 & Hm & He) (Hh2 & Hf2 & _ & _) Bi Bs Ls [Lk Bk] H. pose proof (mlen_pos c) as ML.
  assert (Q : (length key + mlen c <= cap)%nat /\ (length iv <= 16)%nat).
  { unfold gost_kexp15 in H. rewrite wrap_mac_len_c in H. destruct (mlen c =? 0)%nat; [discriminate H|].
    destruct (Nat.ltb_spec cap (length key + mlen c)); [discriminate H|]. destruct (Nat.ltb_spec 16 (length iv)); [discriminate H|]. lia. }
  destruct Q as [Q1 Q2]. rewrite kexp_general in H by auto. apply KOut_inj in H. subst e.
  assert (Le : length (export_of c kmac kenc iv key) = (32 + mlen c)%nat) by (rewrite export_length, Lk by auto; reflexivity).
  split; [exact Le|]. apply kimp_iff; auto.
  - unfold export_of. apply ctr_mode_bytes; auto. apply bytes_app; [exact Bk|]. apply omac_mode_bytes; auto. apply bytes_app; auto.
  - lia.
  - split; [exact Lk|]. apply firstn_all2. lia.
Qed.
(** The length of the input is not checked against 32 + MAC length.  Longer inputs (up to 48 bytes) are
    accepted and what follows is ignored: a Magma export with up to 8 appended bytes is still imported ... *)
Theorem C33_appended_bytes_ignored_refuted :
  forall h f stack kmac kenc iv key junk,
    ok_args h f kmac kenc -> bytes iv -> bytes stack -> length stack = 48%nat -> length iv = 4%nat -> blkn 32 key ->
    bytes junk -> (length junk <= 8)%nat ->
    gost_kimp15 h f stack (kexp15 MAGMA kmac kenc iv key ++ junk) NID_magma_ctr kenc NID_magma_mac kmac iv = KOut key.
Proof.
  intros h f stack kmac kenc iv key junk (Hh & Hf & Hm & He) Bi Bs Ls Li [Lk Bk] Bj Lj.
  assert (Le : length (kexp15 MAGMA kmac kenc iv key) = 40%nat) by (rewrite <- export_std by exact Li; rewrite export_length, Lk by auto; reflexivity).
  apply (kimp_iff h f stack MAGMA kmac kenc iv); auto.
  - apply bytes_app; [|exact Bj]. rewrite <- export_std by exact Li. unfold export_of. apply ctr_mode_bytes; auto. apply bytes_app; [exact Bk|].
    apply omac_mode_bytes; auto. apply bytes_app; auto.
  - lia.
  - rewrite app_length, Le. cbn [mlen]. lia.
  - split; [exact Lk|]. cbn [mlen Nat.add]. rewrite firstn_app_exact by exact Le. symmetry. apply export_std. exact Li.
Qed.
(** ... and a shorter input is checked against whatever the stack holds: for every truncation of an export
    there are contents of the uninitialised buffer with which it is accepted. *)
Theorem C33_truncated_input_refuted :
  forall h f c kmac kenc iv key n,
    ok_args h f kmac kenc -> bytes iv -> length iv = half c -> blkn 32 key ->
    exists stack, length stack = 48%nat /\ bytes stack /\
      gost_kimp15 h f stack (firstn n (kexp15 c kmac kenc iv key)) (ctr_of_cipher c) kenc (mac_of_cipher c) kmac iv = KOut key.
Proof.
  intros h f c kmac kenc iv key n (Hh & Hf & Hm & He) Bi Li [Lk Bk]. pose proof (mlen_pos c) as ML.
  set (tag := omac_mode c kmac (iv ++ key)).
  assert (Lt : length tag = mlen c) by (apply omac_mode_length; auto).
  assert (Bt : bytes tag) by (apply omac_mode_bytes; auto; apply bytes_app; auto).
  exists ((key ++ tag) ++ zeros (16 - mlen c)).
  assert (Bs : bytes ((key ++ tag) ++ zeros (16 - mlen c))) by (repeat apply bytes_app; auto; apply bytes_zeros).
  assert (Ls : length ((key ++ tag) ++ zeros (16 - mlen c)) = 48%nat) by (rewrite !app_length, zeros_length; lia).
  split; [exact Ls|]. split; [exact Bs|].
  rewrite <- export_std by exact Li. set (e := export_of c kmac kenc iv key).
  assert (Le : length e = (32 + mlen c)%nat) by (unfold e; rewrite export_length, Lk by auto; reflexivity).
  assert (Be : bytes e) by (unfold e, export_of; apply ctr_mode_bytes; auto; apply bytes_app; auto).
  assert (L16 : (length iv <= 16)%nat) by (destruct c; cbn in Li; lia).
  assert (Ln : (length (firstn n e) <= 48)%nat) by (rewrite firstn_length; lia).
  rewrite kimp_general by (auto; apply bytes_firstn; auto). cbv zeta.
  assert (Pr : ctr_mode c kenc (cipher_iv c iv) (firstn n e) = firstn (length (firstn n e)) (key ++ tag)).
  { rewrite <- (ctr_mode_app c kenc (cipher_iv c iv) (firstn n e) (skipn n e) He). rewrite firstn_skipn. unfold e at 2, export_of.
    rewrite ctr_mode_twice by auto. reflexivity. }
  rewrite Pr. set (l := length (firstn n e)) in *.
  assert (Ll : (l <= length (key ++ tag))%nat) by (unfold l; rewrite app_length, firstn_length; lia).
  rewrite skipn_app. replace (l - length (key ++ tag))%nat with 0%nat by lia. rewrite app_assoc, firstn_skipn, skipn_O.
  rewrite <- !app_assoc. rewrite firstn_app_exact, skipn_app_exact by exact Lk. rewrite firstn_app_exact by exact Lt.
  replace (eqbl _ _) with true; [reflexivity|]. symmetry. apply eqbl_eq. reflexivity.
Qed.
(** Kuznyechik needs a 16-byte MAC: with the Magma MAC both functions fail. *)
Theorem C33_mac_of_the_other_cipher :
  forall h f stack kmac kenc iv key cap,
    ok_args h f kmac kenc -> bytes iv -> bytes key -> bytes stack -> (length iv <= 16)%nat ->
    gost_kexp15 h f key NID_grasshopper_ctr kenc NID_magma_mac kmac iv cap = KFail /\
    gost_kimp15 h f stack key NID_grasshopper_ctr kenc NID_magma_mac kmac iv = KFail.
Proof.
  intros h f stack kmac kenc iv key cap (Hh & Hf & Hm & He) Bi Bk Bs Li.
  assert (X : forall b, bytes b -> mac_two h f NID_magma_mac kmac 16 iv b = None).
  { intros b Bb. exact (omac_two_short (K := magma_cbc_cipher) h (f_mac f) (fun k => omac (rfc8891_encrypt SZ k) 8) (KdfSpec.tlstree KdfSpec.TLS_MAGMA)
      kmac 16 iv b ltac:(cbn; lia) (C31_magma_omac_histories h _ Hh (two_ok (K := magma_cbc_cipher) magma_fresh (f_mac f) kmac _ _ iv b (proj1 Hf) Hm Bi Bb))). }
  assert (Y : (16 <? length iv)%nat = false) by (apply Nat.ltb_ge; lia). split.
  - unfold gost_kexp15. cbn [wrap_mac_len Nat.eqb]. destruct (cap <? length key + 16)%nat; [reflexivity|]. rewrite Y. cbv zeta. rewrite X by exact Bk. reflexivity.
  - unfold gost_kimp15. cbn [wrap_mac_len Nat.eqb]. destruct (48 <? length key)%nat; [reflexivity|]. rewrite Y. cbv zeta. rewrite X; [reflexivity|].
    apply bytes_firstn. pose proof (ctr_crypt_ok f KUZNYECHIK kenc iv false [key] Hf He Bi Li ltac:(constructor; [exact Bk|constructor])) as C.
    cbn [ctr_of_cipher] in C. rewrite C. unfold overwrite. rewrite firstn_O. cbn [app Nat.add]. apply bytes_app; [|apply bytes_skipn; exact Bs].
    apply ctr_mode_bytes; auto. cbn [concat]. rewrite app_nil_r. exact Bk.
Qed.

(** * The wrap ciphers *)
Definition wcipher (c : kcipher) : wrap_cipher := match c with MAGMA => WRAP_MAGMA | KUZNYECHIK => WRAP_KUZNYECHIK end.
Lemma wlen c : wrapped_len (wcipher c) = (32 + mlen c)%nat. Proof. destruct c; reflexivity. Qed.
Definition collected (x : wrap_ctx) (m : list N) : Prop := w_count x = length m /\ firstn (length m) (w_wrapped x) = m /\ length (w_wrapped x) = 48%nat.
Definition append (x : wrap_ctx) (d : list N) : wrap_ctx :=
  mk_wrap (w_iv x) (w_key x) (overwrite (w_wrapped x) (w_count x) d) (w_count x + length d) (w_enc x).
Lemma collected_append x m d : collected x m -> (length m + length d <= 48)%nat -> collected (append x d) (m ++ d).
Proof.
  intros (H1 & H2 & H3) L. unfold collected, append. cbn [w_count w_wrapped]. rewrite app_length, H1. split; [reflexivity|]. split.
  - unfold overwrite. rewrite H2. rewrite app_assoc. apply firstn_app_exact. apply app_length.
  - rewrite overwrite_length; [exact H3|]. lia.
Qed.
Lemma wrap_step c h f stack x m d : collected x m -> (length m + length d <= 32 + mlen c)%nat ->
  wrap_do (wcipher c) h f stack x d =
    (if (length m + length d <? 32 + mlen c)%nat then (0%Z, nil, append x d)
     else if w_enc x then ((-1)%Z, nil, append x d)
     else match gost_kimp15 h f stack (m ++ d) (ctr_of_cipher c) (skipn 32 (w_key x)) (mac_of_cipher c) (firstn 32 (w_key x)) (firstn (half c) (w_iv x)) with
          | KOut k => (32%Z, k, append x d)
          | _ => (0%Z, nil, append x d)
          end).
Proof.
  intros H L. pose proof (mlen_pos c) as ML. assert (L48 : (length m + length d <= 48)%nat) by lia. pose proof (collected_append x m d H L48) as (A1 & A2 & _).
  destruct H as (H1 & H2 & H3). unfold wrap_do. rewrite wlen.
  replace (length d <=? 32 + mlen c)%nat with true by (symmetry; apply Nat.leb_le; lia).
  replace (32 + mlen c <? w_count x + length d)%nat with false by (symmetry; apply Nat.ltb_ge; lia). cbn [andb]. cbv zeta iota.
  fold (append x d). rewrite A1, app_length. destruct (Nat.ltb_spec (length m + length d) (32 + mlen c)); [reflexivity|].
  cbn [append w_enc w_wrapped w_key w_iv] in A2 |- *. destruct (w_enc x); [reflexivity|]. rewrite <- app_length, A2.
  destruct c; reflexivity.
Qed.

Lemma wrap_start_collected w x key iv enc : collected (wrap_init w x key iv enc) nil.
Proof. unfold collected, wrap_init. cbn [w_count w_wrapped length]. repeat split; reflexivity. Qed.
Lemma wrap_chunks c h f stack chunks : forall x m d, collected x m ->
  (length m + length (concat chunks) < 32 + mlen c)%nat -> (length m + length (concat (chunks ++ [d])) = 32 + mlen c)%nat ->
  wrap_run (wcipher c) h f stack x (chunks ++ [d]) =
    map (fun _ => (0%Z, nil)) chunks ++
    [if w_enc x then ((-1)%Z, nil)
     else match gost_kimp15 h f stack (m ++ concat (chunks ++ [d])) (ctr_of_cipher c) (skipn 32 (w_key x)) (mac_of_cipher c) (firstn 32 (w_key x)) (firstn (half c) (w_iv x)) with
          | KOut k => (32%Z, k)
          | _ => (0%Z, nil)
          end].
Proof.
  induction chunks as [|a t IH]; intros x m d Hx L1 L2; cbn [app wrap_run map concat] in *.
  - rewrite app_nil_r in L2. rewrite (wrap_step c h f stack x m d Hx) by lia.
    replace (length m + length d <? 32 + mlen c)%nat with false by (symmetry; apply Nat.ltb_ge; lia). rewrite app_nil_r.
    destruct (w_enc x); [reflexivity|]. destruct (gost_kimp15 _ _ _ _ _ _ _ _ _); reflexivity.
  - rewrite app_length in L1, L2. pose proof (mlen_pos c). rewrite (wrap_step c h f stack x m a Hx) by lia.
    replace (length m + length a <? 32 + mlen c)%nat with true by (symmetry; apply Nat.ltb_lt; lia). f_equal.
    pose proof (collected_append x m a Hx ltac:(lia)) as Hx'.
    rewrite (IH (append x a) (m ++ a) d Hx') by (rewrite app_length; lia). rewrite <- app_assoc. reflexivity.
Qed.
Lemma wrap_init_fields w x key iv enc : length (w_key x) = 64%nat -> length key = 64%nat -> length iv = wrap_ivlen w ->
  w_key (wrap_init w x (Some key) (Some iv) enc) = key /\ firstn (wrap_ivlen w) (w_iv (wrap_init w x (Some key) (Some iv) enc)) = iv /\
  w_enc (wrap_init w x (Some key) (Some iv) enc) = enc.
Proof.
  intros Lx Lk Li. unfold wrap_init. cbn [w_key w_iv w_enc]. split; [|split; [|reflexivity]].
  - rewrite (firstn_all2 key) by lia. apply ow_all. lia.
  - rewrite (firstn_all2 iv) by lia. unfold overwrite. rewrite firstn_O. cbn [app]. apply firstn_app_exact. exact Li.
Qed.
Lemma wivlen c : wrap_ivlen (wcipher c) = half c. Proof. destruct c; reflexivity. Qed.

(** A wrap cipher initialised for decryption with K_mac || K_enc and the IV (whatever the context did before)
    collects the wrapped key over any number of calls, which return 0 and write nothing; the call that
    completes it returns 32 and the key if the input is the KExp15 of that key, and otherwise 0 with no
    output. *)
Theorem C33_unwrap_of_chunks :
  forall c h f stack x kmac kenc iv chunks d,
    ok_args h f kmac kenc -> bytes stack -> length stack = 48%nat -> length (w_key x) = 64%nat ->
    bytes iv -> length iv = half c -> Forall bytes (chunks ++ [d]) ->
    (length (concat chunks) < 32 + mlen c)%nat -> length (concat (chunks ++ [d])) = (32 + mlen c)%nat ->
    exists r out,
      wrap_run (wcipher c) h f stack (wrap_init (wcipher c) x (Some (kmac ++ kenc)) (Some iv) false) (chunks ++ [d])
        = map (fun _ => (0%Z, nil)) chunks ++ [(r, out)] /\
      ((r = 32%Z /\ length out = 32%nat /\ concat (chunks ++ [d]) = kexp15 c kmac kenc iv out) \/
       (r = 0%Z /\ out = nil /\ forall k, length k = 32%nat -> concat (chunks ++ [d]) <> kexp15 c kmac kenc iv k)).
Proof.
  intros c h f stack x kmac kenc iv chunks d (Hh & Hf & Hm & He) Bs Ls Lx Bi Li Bc L1 L2.
  destruct (wrap_init_fields (wcipher c) x (kmac ++ kenc) iv false Lx) as (K & I & En).
  { destruct Hm as [Hm _], He as [He _]. rewrite app_length. lia. } { rewrite wivlen. exact Li. }
  rewrite wivlen in I.
  pose proof (wrap_chunks c h f stack chunks (wrap_init (wcipher c) x (Some (kmac ++ kenc)) (Some iv) false) nil d
    (wrap_start_collected _ _ _ _ _) L1 L2) as R.
  rewrite En, K, I in R. cbn [app] in R. rewrite firstn_app_exact, skipn_app_exact in R by apply Hm.
  set (e := concat (chunks ++ [d])) in *. assert (Be : bytes e) by (apply concat_bytes_inv; exact Bc).
  pose proof (fun k => C33_import_accepts_exactly_the_exports h f stack c kmac kenc iv e k (conj Hh (conj Hf (conj Hm He))) Bi Be Bs Ls Li L2) as A.
  destruct (C33_import_result h f stack c kmac kenc iv e (conj Hh (conj Hf (conj Hm He))) Bi Be Bs Ls) as [F|(k & Lk & F)]; rewrite F in R, A.
  - exists 0%Z, nil. split; [exact R|]. right. split; [reflexivity|]. split; [reflexivity|]. intros k Lk E. destruct (A k) as [_ A2].
    discriminate (A2 (conj Lk E)).
  - exists 32%Z, k. split; [exact R|]. left. split; [reflexivity|]. split; [exact Lk|]. apply (A k). reflexivity.
Qed.
(** The wrap ciphers cannot encrypt: no call ever writes anything. *)
Theorem C33_wrap_never_encrypts :
  forall w h f stack x key iv chunks r, In r (wrap_run w h f stack (wrap_init w x key iv true) chunks) -> r = (0%Z, nil) \/ r = ((-1)%Z, nil).
Proof.
  intros w h f stack x key iv chunks. assert (E : w_enc (wrap_init w x key iv true) = true) by reflexivity.
  set (y := wrap_init w x key iv true) in *. clearbody y. revert y E.
  induction chunks as [|a t IH]; intros y E r; cbn [wrap_run]; [intros []|].
  assert (Q : forall r' o' y', wrap_do w h f stack y a = (r', o', y') -> ((r', o') = (0%Z, nil) \/ (r', o') = ((-1)%Z, nil)) /\ w_enc y' = true).
  { intros r' o' y'. unfold wrap_do. destruct (_ && _); [intros H; inversion H; subst; auto|]. cbv zeta.
    set (z := if (length a <=? wrapped_len w)%nat then _ else _). assert (Ez : w_enc z = true) by (unfold z; destruct (_ <=? _)%nat; exact E).
    clearbody z. destruct (_ <? _)%nat; [intros H; inversion H; subst; auto|]. rewrite Ez. intros H; inversion H; subst; auto. }
  destruct (wrap_do w h f stack y a) as [[r' o'] y'] eqn:D. destruct (Q _ _ _ eq_refl) as [Q1 Q2].
  intros [<-|H]; [exact Q1|]. apply (IH y' Q2 r H).
Qed.
(** Once complete, every further empty call - such as the one EVP_DecryptFinal_ex makes - and every
    oversized one imports again and returns the 32-byte key a second time. *)
Theorem C33_final_returns_key_again_refuted :
  forall c h f stack x kmac kenc iv k,
    ok_args h f kmac kenc -> bytes stack -> length stack = 48%nat -> length (w_key x) = 64%nat ->
    bytes iv -> length iv = half c -> blkn 32 k ->
    wrap_run (wcipher c) h f stack (wrap_init (wcipher c) x (Some (kmac ++ kenc)) (Some iv) false) [kexp15 c kmac kenc iv k; nil]
      = [(32%Z, k); (32%Z, k)].
Proof.
  intros c h f stack x kmac kenc iv k (Hh & Hf & Hm & He) Bs Ls Lx Bi Li [Lk Bk]. pose proof (mlen_pos c) as ML.
  destruct (wrap_init_fields (wcipher c) x (kmac ++ kenc) iv false Lx) as (K & I & En).
  { destruct Hm as [Hm _], He as [He _]. rewrite app_length. lia. } { rewrite wivlen. exact Li. }
  rewrite wivlen in I. pose proof (wrap_start_collected (wcipher c) x (Some (kmac ++ kenc)) (Some iv) false) as C0.
  set (y := wrap_init (wcipher c) x (Some (kmac ++ kenc)) (Some iv) false) in *. clearbody y.
  rewrite <- export_std by exact Li. set (e := export_of c kmac kenc iv k).
  assert (Le : length e = (32 + mlen c)%nat) by (unfold e; rewrite export_length, Lk by auto; reflexivity).
  assert (Be : bytes e).
  { unfold e, export_of. apply ctr_mode_bytes; auto. apply bytes_app; [exact Bk|]. apply omac_mode_bytes; auto. apply bytes_app; auto. }
  assert (A : gost_kimp15 h f stack e (ctr_of_cipher c) kenc (mac_of_cipher c) kmac iv = KOut k).
  { apply kimp_iff; auto; [destruct c; cbn in Li; lia|lia|]. split; [exact Lk|]. rewrite firstn_all2 by (rewrite Le; lia). reflexivity. }
  cbn [wrap_run]. rewrite (wrap_step c h f stack y nil e C0) by (cbn [length]; lia).
  replace (length (@nil N) + length e <? 32 + mlen c)%nat with false by (symmetry; apply Nat.ltb_ge; cbn [length]; lia).
  rewrite En, K, I. cbn [app]. rewrite firstn_app_exact, skipn_app_exact by apply Hm. rewrite A. f_equal.
  pose proof (collected_append y nil e C0 ltac:(cbn [length]; lia)) as C1. cbn [app] in C1.
  rewrite (wrap_step c h f stack (append y e) e nil C1) by (cbn [length]; lia).
  replace (length e + length (@nil N) <? 32 + mlen c)%nat with false by (symmetry; apply Nat.ltb_ge; cbn [length]; lia).
  cbn [append w_enc w_key w_iv]. rewrite En, K, I, app_nil_r. rewrite firstn_app_exact, skipn_app_exact by apply Hm. rewrite A. reflexivity.
Qed.

(** Non-vacuity: the Magma vector of R 1323565.1.017-2018 (test_keyexpimp.c) holds of the specification. *)
Example kexp15_magma_vector :
  kexp15 MAGMA (hex "08090A0B0C0D0E0F0001020304050607101112131415161718191A1B1C1D1E1F")
    (hex "202122232425262728292A2B2C2D2E2F38393A3B3C3D3E3F3031323334353637") (hex "67BED654")
    (hex "8899AABBCCDDEEFF0011223344556677FEDCBA98765432100123456789ABCDEF")
  = hex "CFD5A12D5B81B6E1E99C916D07900C6AC12703FB3ABDED55567BF3742C899C755DAFE7B42E3A8BD9".
Proof. vm_compute. reflexivity. Qed.
Example kexp_hypotheses : ok_args (mk_host StreebogModel.RefLE false true) (mk_fresh (fresh_evp ctx0) (fresh_evp ctx0)) (zeros 32) (zeros 32).
Proof.
  assert (F : magma_fresh (fresh_evp ctx0)) by (exists ctx0; split; [reflexivity|exact ctx0_rng_ok]).
  split; [reflexivity|]. split; [split; exact F|]. split; apply blkn_zeros.
Qed.
Print Assumptions C33_unwrap_of_chunks.
Print Assumptions C33_truncated_input_refuted.
