(** C51 (and part of C48): the provider's MACs. *)
From Coq Require Import String ZArith List Bool Lia.
From Verif Require Import Bytes BytesProofs Gost89Model Gost89Sboxes Gost89Spec Gost89Proofs Gost89SpecProofs Gost89ModeProofs CryptModel CryptSpec CryptProofs MagmaProofs ImitProofs PropGost89 PropCrypt PropCrypt2 PropImit
  KuzSpec KuzModel KuzTables KuzProofs KuzBlockProofs KuzCipherModel KuzCipherSpec KuzModeProofs PropKuzModes
  KdfModel OmacModel OmacSpec OmacProofs PropOmac PropOmacAcpkm PmethModel ProvMacModel ProvMacSpec.
Import ListNotations.
Open Scope Z_scope.

Lemma to_int_id z : - 2 ^ 31 <= z < 2 ^ 31 -> to_int z = z.
Proof. intros H. unfold to_int. rewrite Z.mod_small; lia. Qed.

(** * OMAC *)
Section OmacSessions.
Variable K : cbc_cipher.
Variable f : cc_ctx K.
Variable hst : host.
Variable mac : list N -> list N -> list N.
Variable derive : list N -> N -> list N.
Definition prov_calls (k : list N) (chunks : list (list N)) (n : Z) : list (omac_call K) := OSetKey f 32 k :: map OUpdate chunks ++ [OXofLen n; OFinal].
(** What C31 says about these calls. *)
Definition requested (n : Z) : nat := if (1 <=? n) && (n <=? Z.of_nat (cc_bl K)) then Z.to_nat n else cc_bl K.
Lemma spec_prov_chunks k n chunks : forall m,
  mac_spec (K := K) mac derive (mk_ms (Some k) k (cc_bl K) (Some m)) (map OUpdate chunks ++ [OXofLen n; OFinal]) =
  map (fun _ => (1, Some nil)) chunks ++ [((if (1 <=? n) && (n <=? Z.of_nat (cc_bl K)) then 1 else 0), Some nil); (1, Some (firstn (requested n) (mac k (m ++ concat chunks))))].
Proof.
  induction chunks as [|d t IH]; intro m; cbn [map app mac_spec mac_spec_step ms_key ms_cur ms_len ms_msg option_map concat].
  - rewrite app_nil_r. unfold requested. destruct ((1 <=? n) && (n <=? Z.of_nat (cc_bl K))); reflexivity.
  - rewrite IH, app_assoc. reflexivity.
Qed.
Lemma prov_run k chunks n :
  Forall2 meets (omac_run K hst (omac_init K) (prov_calls k chunks n)) (mac_spec (K := K) mac derive (mk_ms None nil (cc_bl K) (Some nil)) (prov_calls k chunks n)) ->
  omac_run K hst (snd (omac_set_key K (omac_init K) f 32 k)) (map OUpdate chunks ++ [OXofLen n; OFinal]) =
  map (fun _ => (1, nil)) chunks ++ [((if (1 <=? n) && (n <=? Z.of_nat (cc_bl K)) then 1 else 0), nil); (1, firstn (requested n) (mac k (concat chunks)))].
Proof.
  intros H. unfold prov_calls in H. cbn [mac_spec mac_spec_step] in H. rewrite Z.eqb_refl, orb_true_r in H. rewrite spec_prov_chunks in H. cbn [app] in H.
  cbn [omac_run omac_step] in H. destruct (omac_set_key K (omac_init K) f 32 k) as [r x]. inversion H as [|? ? ? ? _ H2]; subst. cbn [snd].
  assert (G : (fix all (l : list (Z * option (list N))) := match l with nil => nil | (z, Some o) :: l => (z, o) :: all l | (z, None) :: l => (z, nil) :: all l end)
     (map (fun _ : list N => (1, Some (@nil N))) chunks ++ [((if (1 <=? n) && (n <=? Z.of_nat (cc_bl K)) then 1 else 0), Some nil); (1, Some (firstn (requested n) (mac k (concat chunks))))])
     = map (fun _ => (1, nil)) chunks ++ [((if (1 <=? n) && (n <=? Z.of_nat (cc_bl K)) then 1 else 0), nil); (1, firstn (requested n) (mac k (concat chunks)))]).
  { clear. generalize (firstn (requested n) (mac k (concat chunks))). intros X. induction chunks as [|d t IH]; [reflexivity|]. cbn [map app]. f_equal. exact IH. }
  rewrite <- G. clear - H2.
  remember (map (fun _ : list N => (1, Some (@nil N))) chunks ++ [((if (1 <=? n) && (n <=? Z.of_nat (cc_bl K)) then 1 else 0), Some nil); (1, Some (firstn (requested n) (mac k (concat chunks))))]) as e eqn:Ee.
  assert (S : Forall (fun x => snd x <> None) e).
  { subst e. apply Forall_app. split; [apply Forall_map; rewrite Forall_forall; intros; discriminate|]. repeat (constructor; [discriminate|]). constructor. }
  clear Ee. induction H2 as [|[z o] [z' o'] l l' M H IH]; [reflexivity|]. inversion S as [|? ? S1 S2]; subst. destruct M as [M1 M2]. cbn [fst snd] in *. subst z'.
  destruct o' as [o'|]; [|elim S1; reflexivity]. subst o'. f_equal. apply IH. exact S2.
Qed.
Lemma prov_finish chunks : forall x n rx t,
  omac_run K hst x (map OUpdate chunks ++ [OXofLen (to_int n); OFinal]) = map (fun _ => (1, nil)) chunks ++ [(rx, nil); (1, t)] ->
  exists c c', mac_feed (omac_md K f) (mk_pmac n (true, x)) chunks = Some c /\ mac_final (omac_md K f) c = Some (1, t, n, c').
Proof.
  induction chunks as [|d l IH]; intros x n rx t H.
  - cbn [map app omac_run omac_step] in H. exists (mk_pmac n (true, x)). eexists. split; [reflexivity|]. unfold mac_final. cbn [md_xof omac_md pc_d pc_size fst snd].
    destruct (omac_xof_len K x (to_int n)) as [r y]. cbn [md_final omac_md fst snd]. destruct (omac_imit_final K y) as [[r2 tag] z]. injection H as _ -> ->. reflexivity.
  - cbn [map app omac_run omac_step] in H. cbn [mac_feed]. unfold mac_update. cbn [md_update omac_md pc_d pc_size fst snd].
    destruct (omac_imit_update K x d) as [r y]. injection H as -> H. cbn [Z.gtb Z.compare]. exact (IH y n rx t H).
Qed.
Lemma omac_prov_session k chunks n0 (sz : option Z) :
  let n := match sz with Some n => n | None => n0 end in
  Forall2 meets (omac_run K hst (omac_init K) (prov_calls k chunks (to_int n))) (mac_spec (K := K) mac derive (mk_ms None nil (cc_bl K) (Some nil)) (prov_calls k chunks (to_int n))) ->
  mac_session (omac_md K f) (mac_newctx (omac_md K f) n0) (32, k) (mk_params sz None None) chunks = Some (firstn (requested (to_int n)) (mac k (concat chunks)), n).
Proof.
  intros n H. apply prov_run in H. unfold mac_session, mac_init, mac_set_ctx_params. cbn [mp_size mp_key mp_mesh].
  replace (match sz with Some n => mk_pmac n (pc_d (mac_newctx (omac_md K f) n0)) | None => mac_newctx (omac_md K f) n0 end) with (mk_pmac n (md_new (omac_md K f)))
    by (unfold n; destruct sz; reflexivity).
  cbn [Z.eqb pc_d pc_size]. rewrite to_int_id by lia. cbn [md_set_key omac_md md_new snd Z.eqb].
  unfold omac_set_key in *. cbn [Z.eqb Pos.eqb orb snd] in *. cbn [Z.gtb Z.compare].
  destruct (prov_finish chunks _ n _ _ H) as (c & c' & E1 & E2). rewrite E1, E2. reflexivity.
Qed.
End OmacSessions.

(** * OMAC-ACPKM *)
Definition a_requested (n : Z) : nat := if (1 <=? n) && (n <=? 16) then Z.to_nat n else 16%nat.
Definition a_calls (k : list N) (chunks : list (list N)) (n : Z) : list oac_call := ASetKey 32 k :: map AUpdate chunks ++ [AXofLen n; AFinal].
Lemma a_spec_chunks k n chunks : forall m,
  am_spec (mk_am (Some k) 16 4096 4096 (Some m)) (map AUpdate chunks ++ [AXofLen n; AFinal]) =
  map (fun _ => (ARet 1 nil, true)) chunks ++
    [(ARet (if (1 <=? n) && (n <=? 16) then 1 else 0) nil, true); (ARet 1 (firstn (a_requested n) (omac_acpkm 4096 4096 k (m ++ concat chunks))), true)].
Proof.
  induction chunks as [|d t IH]; intro m; cbn [map app am_spec am_spec_step am_key am_len am_N am_T am_msg option_map concat].
  - rewrite app_nil_r. unfold a_requested. destruct ((1 <=? n) && (n <=? 16)); reflexivity.
  - rewrite IH, app_assoc. reflexivity.
Qed.
Lemma all_meets l e : Forall (fun x => snd x = true) e -> Forall2 am_meets l e -> l = map fst e.
Proof.
  intros S H. induction H as [|r [q b] l e M H IH]; [reflexivity|]. inversion S as [|? ? S1 S2]; subst. cbn [snd] in S1. subst b. cbn [map fst]. f_equal; [|exact (IH S2)]. unfold am_meets in M. destruct q; exact M.
Qed.
Lemma a_run k chunks n : blkn 32 k -> Forall bytes chunks ->
  oac_run (snd (omac_acpkm_set_key 32 k)) (map AUpdate chunks ++ [AXofLen n; AFinal]) =
  map (fun _ => ARet 1 nil) chunks ++ [ARet (if (1 <=? n) && (n <=? 16) then 1 else 0) nil; ARet 1 (firstn (a_requested n) (omac_acpkm 4096 4096 k (concat chunks)))].
Proof.
  intros Hk Hc.
  assert (F : Forall acall_ok (a_calls k chunks n)).
  { constructor; [exact Hk|]. apply Forall_app. split; [apply Forall_map; exact Hc|]. constructor; [exact I|]. constructor; [exact I|constructor]. }
  pose proof (C31_omac_acpkm_histories _ F) as H. unfold a_calls in H.
  cbn [am_spec am_spec_step] in H. rewrite Z.eqb_refl, orb_true_r in H. rewrite a_spec_chunks in H. cbn [app oac_run oac_step] in H.
  destruct (omac_acpkm_set_key 32 k) as [r x]. inversion H as [|? ? ? ? _ H2]; subst. cbn [snd].
  apply all_meets in H2; [rewrite H2; rewrite map_app, map_map; reflexivity|].
  apply Forall_app. split; [apply Forall_map; rewrite Forall_forall; intros; reflexivity|]. repeat (constructor; [reflexivity|]). constructor.
Qed.
Lemma a_finish chunks : forall x n rx t,
  oac_run x (map AUpdate chunks ++ [AXofLen (to_int n); AFinal]) = map (fun _ => ARet 1 nil) chunks ++ [ARet rx nil; ARet 1 t] ->
  exists c c', mac_feed oac_md (mk_pmac n (true, x)) chunks = Some c /\ mac_final oac_md c = Some (1, t, n, c').
Proof.
  induction chunks as [|d l IH]; intros x n rx t H.
  - cbn [map app oac_run] in H. exists (mk_pmac n (true, x)). eexists. split; [reflexivity|]. unfold mac_final. cbn [md_xof oac_md pc_d pc_size fst snd].
    destruct (oac_step x (AXofLen (to_int n))) as [r y]. destruct r as [r o|]; [|discriminate H]. cbn [md_final oac_md fst snd].
    destruct (oac_step y AFinal) as [r2 z]. injection H as _ _ ->. reflexivity.
  - cbn [map app oac_run] in H. cbn [mac_feed]. unfold mac_update. cbn [md_update oac_md pc_d pc_size fst snd].
    destruct (oac_step x (AUpdate d)) as [r y]. injection H as -> H. cbn [Z.gtb Z.compare]. exact (IH y n rx t H).
Qed.
Lemma oac_prov_session k chunks (sz : option Z) : blkn 32 k -> Forall bytes chunks ->
  let n := match sz with Some n => n | None => 16 end in
  mac_session oac_md (mac_newctx oac_md 16) (32, k) (mk_params sz None None) chunks = Some (firstn (a_requested (to_int n)) (omac_acpkm 4096 4096 k (concat chunks)), n).
Proof.
  intros Hk Hc n. pose proof (a_run k chunks (to_int n) Hk Hc) as H. unfold mac_session, mac_init, mac_set_ctx_params. cbn [mp_size mp_key mp_mesh].
  replace (match sz with Some n => mk_pmac n (pc_d (mac_newctx oac_md 16)) | None => mac_newctx oac_md 16 end) with (mk_pmac n (md_new oac_md))
    by (unfold n; destruct sz; reflexivity).
  cbn [Z.eqb pc_d pc_size]. rewrite to_int_id by lia. cbn [md_set_key oac_md md_new snd Z.eqb].
  unfold omac_acpkm_set_key in *. cbn [Z.eqb Pos.eqb orb snd] in *. cbn [Z.gtb Z.compare].
  destruct (a_finish chunks _ n _ _ H) as (c & c' & E1 & E2). rewrite E1, E2. reflexivity.
Qed.

(** * GOST 28147-89 MAC *)
Definition i_requested (n : Z) : nat := if (1 <=? n) && (n <=? 8) then Z.to_nat n else 4%nat.
Lemma iinv_size sb k c m n : iinv sb k c m -> iinv sb k (i_with_size c n) m.
Proof.
  intros (done & pend & E & L & C & Hl & Hf). exists done, pend. split; [exact E|]. split; [exact L|]. split; [|split; [exact Hl|exact Hf]].
  destruct C. constructor; assumption.
Qed.
Lemma imit_feed_prov sb by_nid c0 chunks : forall c n c', imit_feed c chunks = Some c' -> mac_feed (imit_md sb by_nid c0) (mk_pmac n c) chunks = Some (mk_pmac n c').
Proof.
  induction chunks as [|d t IH]; intros c n c'; cbn [imit_feed mac_feed]; [intros H; injection H as <-; reflexivity|].
  unfold mac_update. cbn [md_update imit_md pc_d pc_size]. destruct (gost_imit_update c d) as [c1|]; [|discriminate]. intros H. cbn [Z.gtb Z.compare]. exact (IH c1 n c' H).
Qed.
Lemma imit_prov_session sb by_nid c0 k chunks (sz : option Z) :
  subst_ok sb -> blkn 32 k -> rng_ok (g_rng (i_g c0)) -> i_abort c0 = false -> length (concat chunks) <> 8%nat ->
  let n := match sz with Some n => n | None => 4 end in
  mac_session (imit_md sb by_nid c0) (mac_newctx (imit_md sb by_nid c0) 4) (32, k) (mk_params sz None None) chunks =
    Some (firstn (i_requested (to_int n)) (gost_mac_meshed (sboxes_of sb) true k (concat chunks)), n).
Proof.
  intros Hs [Lk Bk] Hr Ha H8 n. unfold mac_session, mac_init, mac_set_ctx_params. cbn [mp_size mp_key mp_mesh].
  replace (match sz with Some n => mk_pmac n (pc_d (mac_newctx (imit_md sb by_nid c0) 4)) | None => mac_newctx (imit_md sb by_nid c0) 4 end)
    with (mk_pmac n (md_new (imit_md sb by_nid c0))) by (unfold n; destruct sz; reflexivity).
  cbn [Z.eqb pc_d pc_size]. rewrite to_int_id by lia. cbn [md_set_key imit_md md_new]. replace (32 =? 0) with false by reflexivity. rewrite (firstn_all2 k) by lia.
  set (c1 := gost_imit_init c0 sb).
  assert (R1 : rng_ok (g_rng (i_g c1))) by exact Hr. assert (A1 : i_abort c1 = false) by exact Ha.
  destruct (imit_start_core sb c1 k 4 Hs Bk R1 A1) as [C L].
  assert (E4 : gost_imit_set_key sb c1 (RawKey k 32) = (1, imit_start sb c1 k 4)) by reflexivity.
  rewrite E4. cbn [Z.gtb Z.compare]. pose proof (imit_start_size sb c1 k 4 ltac:(lia)) as Sz. set (c := imit_start sb c1 k 4) in *. clearbody c.
  destruct (imit_feed_inv sb k chunks c nil (core_inv sb k c C L)) as (c2 & F & I1 & S1). cbn [app] in I1.
  rewrite (imit_feed_prov sb by_nid c0 chunks c n c2 F). unfold mac_final. cbn [md_xof imit_md pc_d pc_size]. unfold gost_imit_xof_len, i_requested.
  destruct ((to_int n <? 1) || (8 <? to_int n)) eqn:B.
  - replace ((1 <=? to_int n) && (to_int n <=? 8)) with false by (symmetry; apply andb_false_iff; apply orb_true_iff in B as [B|B]; [left|right]; lia).
    destruct (imit_final_spec sb k c2 (concat chunks) I1) as (c3 & F2). { intros; contradiction. }
    cbn [md_final imit_md]. rewrite F2, get_mac_whole, S1, Sz. unfold gost_mac_meshed. reflexivity.
  - replace ((1 <=? to_int n) && (to_int n <=? 8)) with true by (symmetry; apply andb_true_iff; apply orb_false_iff in B as [B1 B2]; split; lia).
    destruct (imit_final_spec sb k (i_with_size c2 (Z.to_N (to_int n))) (concat chunks) (iinv_size _ _ _ _ _ I1)) as (c3 & F2). { intros; contradiction. }
    cbn [md_final imit_md]. rewrite F2, get_mac_whole. cbn [i_with_size i_size]. unfold gost_mac_meshed. do 3 f_equal. lia.
Qed.

(** * C51 *)
(** The provider's MACs (gost_prov_mac.c:330-334), their default and largest tag lengths, and the standards' MACs. *)
Inductive prov_mac := Mac89 | Mac12 | MagmaMac | KuznyechikMac | KuznyechikAcpkmMac.
Definition default_len (m : prov_mac) : Z := match m with Mac89 | Mac12 => 4 | MagmaMac => 8 | KuznyechikMac | KuznyechikAcpkmMac => 16 end.
Definition largest_len (m : prov_mac) : Z := match m with Mac89 | Mac12 | MagmaMac => 8 | KuznyechikMac | KuznyechikAcpkmMac => 16 end.
Definition standard_mac (m : prov_mac) (k msg : list N) : list N :=
  match m with
  | Mac89 => gost_mac_meshed (sboxes_of Gost28147_CryptoProParamSetA) true k msg
  | Mac12 => gost_mac_meshed (sboxes_of Gost28147_TC26ParamSetZ) true k msg
  | MagmaMac => omac (rfc8891_encrypt SZ k) 8 msg
  | KuznyechikMac => omac (E_ k) 16 msg
  | KuznyechikAcpkmMac => omac_acpkm 4096 4096 k msg
  end.
(** What the memory of new contexts holds, and the parameter sets by nid (both only matter to the model). *)
Record env := mk_env { en_magma : evp; en_imit : imit; en_nid : Z -> option subst_block }.
Definition env_ok (e : env) : Prop := magma_fresh (en_magma e) /\ rng_ok (g_rng (i_g (en_imit e))) /\ i_abort (en_imit e) = false.
(** EVP_MAC_CTX_new, EVP_MAC_init with key and parameters, EVP_MAC_update for each chunk, EVP_MAC_final. *)
Definition prov_session (m : prov_mac) (e : env) (key : Z * list N) (p : params) (chunks : list (list N)) : option (list N * Z) :=
  match m with
  | Mac89 => let M := imit_md Gost28147_CryptoProParamSetA (en_nid e) (en_imit e) in mac_session M (mac_newctx M 4) key p chunks
  | Mac12 => let M := imit_md Gost28147_TC26ParamSetZ (en_nid e) (en_imit e) in mac_session M (mac_newctx M 4) key p chunks
  | MagmaMac => let M := omac_md magma_cbc_cipher (en_magma e) in mac_session M (mac_newctx M 8) key p chunks
  | KuznyechikMac => let M := omac_md kuz_cbc_cipher kctx0 in mac_session M (mac_newctx M 16) key p chunks
  | KuznyechikAcpkmMac => mac_session oac_md (mac_newctx oac_md 16) key p chunks
  end.
(** The defect of C14: GOST 28147-89 MACs of 8-byte messages depend on the chunks. *)
Definition not_8 (m : prov_mac) (chunks : list (list N)) : Prop := match m with Mac89 | Mac12 => length (concat chunks) <> 8%nat | _ => True end.
Definition any_host : host := mk_host StreebogModel.RefLE true true.
Lemma prov_calls_ok K (fr : cc_ctx K -> Prop) f k chunks n : fr f -> blkn 32 k -> Forall bytes chunks -> Forall (call_ok fr) (prov_calls K f k chunks n).
Proof.
  intros Hf Hk Hc. constructor; [split; assumption|]. apply Forall_app. split; [apply Forall_map; exact Hc|]. constructor; [exact I|]. constructor; [exact I|constructor].
Qed.
Lemma sb_ok sb : In sb all_subst_blocks -> subst_ok sb.
Proof. intros H. pose proof all_subst_blocks_ok as A. rewrite Forall_forall in A. exact (A sb H). Qed.
Lemma prov_session_result m e k chunks (sz : option Z) : env_ok e -> blkn 32 k -> Forall bytes chunks -> not_8 m chunks ->
  let n := match sz with Some n => n | None => default_len m end in
  prov_session m e (32, k) (mk_params sz None None) chunks =
    Some (firstn (if (1 <=? to_int n) && (to_int n <=? largest_len m) then Z.to_nat (to_int n) else Z.to_nat (default_len m)) (standard_mac m k (concat chunks)), n).
Proof.
  intros (Em & Er & Ea) Hk Hc H8 n. destruct m; cbn [prov_session standard_mac default_len largest_len not_8] in *.
  - apply (imit_prov_session Gost28147_CryptoProParamSetA (en_nid e) (en_imit e) k chunks sz); auto. apply sb_ok. unfold all_subst_blocks; cbn [In]; tauto.
  - apply (imit_prov_session Gost28147_TC26ParamSetZ (en_nid e) (en_imit e) k chunks sz); auto. apply sb_ok. unfold all_subst_blocks; cbn [In]; tauto.
  - apply (omac_prov_session magma_cbc_cipher (en_magma e) any_host (fun k => omac (rfc8891_encrypt SZ k) 8) (KdfSpec.tlstree KdfSpec.TLS_MAGMA) k chunks 8 sz).
    apply (C31_magma_omac_histories any_host); [reflexivity|]. apply (prov_calls_ok magma_cbc_cipher magma_fresh); assumption.
  - apply (omac_prov_session kuz_cbc_cipher kctx0 any_host (fun k => omac (E_ k) 16) (KdfSpec.tlstree KdfSpec.TLS_KUZNYECHIK) k chunks 16 sz).
    apply (C31_kuznyechik_omac_histories any_host); [reflexivity|]. apply (prov_calls_ok kuz_cbc_cipher kuz_fresh); [reflexivity|assumption|assumption].
  - apply (oac_prov_session k chunks sz Hk Hc).
Qed.
(** With a 32-byte key and a tag length the MAC has, the tag is the standard's, cut to that length, whatever the chunks, and the
    length reported is the length of the tag. *)
Theorem C51_tag_of_requested_length : forall m e k chunks (sz : option Z),
  env_ok e -> blkn 32 k -> Forall bytes chunks -> not_8 m chunks ->
  let n := match sz with Some n => n | None => default_len m end in
  1 <= n <= largest_len m ->
  prov_session m e (32, k) (mk_params sz None None) chunks = Some (firstn (Z.to_nat n) (standard_mac m k (concat chunks)), n).
Proof.
  intros m e k chunks sz He Hk Hc H8 n Hn. pose proof (prov_session_result m e k chunks sz He Hk Hc H8) as R. cbv zeta in R. fold n in R.
  assert (largest_len m <= 16) by (destruct m; cbn; lia). rewrite to_int_id in R by lia.
  replace ((1 <=? n) && (n <=? largest_len m)) with true in R by (symmetry; apply andb_true_iff; split; lia). exact R.
Qed.
Print Assumptions C51_tag_of_requested_length.
(** Any other length is accepted as well: the tag then has the default length, but the length reported is the one asked for, so
    that the caller takes whatever is in the buffer after the tag for a part of it. *)
Theorem C51_unchecked_length_refuted : forall m e k chunks n,
  env_ok e -> blkn 32 k -> Forall bytes chunks -> not_8 m chunks -> largest_len m < n < 2 ^ 31 ->
  exists tag, prov_session m e (32, k) (mk_params (Some n) None None) chunks = Some (tag, n) /\
    tag = firstn (Z.to_nat (default_len m)) (standard_mac m k (concat chunks)) /\ Z.of_nat (length tag) < n.
Proof.
  intros m e k chunks n He Hk Hc H8 Hn. pose proof (prov_session_result m e k chunks (Some n) He Hk Hc H8) as R. cbv zeta in R.
  assert (0 < largest_len m) by (destruct m; cbn; lia). assert (default_len m <= largest_len m /\ 0 <= default_len m) by (destruct m; cbn; lia).
  rewrite to_int_id in R by lia. replace ((1 <=? n) && (n <=? largest_len m)) with false in R by (symmetry; apply andb_false_iff; right; lia).
  eexists. split; [exact R|]. split; [reflexivity|]. rewrite firstn_length. lia.
Qed.
(** Length 0 makes the final call write 8 or 16 bytes where 0 bytes were announced: a buffer of the size EVP_MAC reports
    overflows. *)
Theorem C51_length_zero_overflows_refuted : forall m e k chunks,
  m = MagmaMac \/ m = KuznyechikMac -> env_ok e -> blkn 32 k -> Forall bytes chunks ->
  exists tag, prov_session m e (32, k) (mk_params (Some 0) None None) chunks = Some (tag, 0) /\ Z.of_nat (length tag) = default_len m.
Proof.
  intros m e k chunks Hm He Hk Hc. assert (H8 : not_8 m chunks) by (destruct Hm as [->| ->]; exact I).
  pose proof (prov_session_result m e k chunks (Some 0) He Hk Hc H8) as R. cbv zeta in R. rewrite to_int_id in R by lia. cbn [Z.leb Z.compare andb] in R.
  eexists. split; [exact R|]. rewrite firstn_length. destruct Hm as [->| ->]; cbn [standard_mac default_len].
  - rewrite (omac_length (rfc8891_encrypt SZ k) 8 (concat chunks) ltac:(lia) (fun b _ => rfc8891_encrypt_length SZ k b)). reflexivity.
  - rewrite (omac_length (E_ k) 16 (concat chunks) ltac:(lia) (fun b => E_length k b Hk)). reflexivity.
Qed.
(** A key of length 0 is taken for a pointer to a structure: the call succeeds, with the 32 bytes that follow the first 4. *)
Theorem C51_empty_key_accepted_refuted : forall m e mem p chunks,
  m = MagmaMac \/ m = KuznyechikMac \/ m = KuznyechikAcpkmMac ->
  prov_session m e (0, mem) p chunks = prov_session m e (32, skipn 4 mem) p chunks.
Proof.
  intros m e mem p chunks Hm.
  assert (G : forall D (M : md D) c, (forall d, md_set_key M d 0 mem = md_set_key M d 32 (skipn 4 mem)) -> mac_session M c (0, mem) p chunks = mac_session M c (32, skipn 4 mem) p chunks).
  { intros D M c H. unfold mac_session, mac_init. destruct (mac_set_ctx_params M c p) as [[r c1]|]; [|reflexivity]. destruct (r =? 0); [reflexivity|].
    rewrite !to_int_id by lia. rewrite H. reflexivity. }
  destruct Hm as [->|[->| ->]]; cbn [prov_session]; apply G; intros d; reflexivity.
Qed.
(** The parameter "key-mesh" together with a key crashes: the parameters are applied before the key is set. *)
Theorem C51_key_mesh_with_key_crashes_refuted : forall k n t, 0 < n < 2 ^ 31 -> n mod 16 = 0 ->
  mac_init oac_md (mac_newctx oac_md 16) (Some (32, k)) (mk_params None None (Some (n, t))) = None.
Proof.
  intros k n t Hn Hm. unfold mac_init, mac_set_ctx_params. cbn [mp_size mp_key mp_mesh Z.eqb mac_newctx pc_d pc_size md_mesh oac_md md_new snd]. rewrite to_int_id by lia.
  unfold omac_acpkm_key_mesh. replace (n =? 0) with false by (symmetry; apply Z.eqb_neq; lia). rewrite Z.rem_mod_nonneg by lia. rewrite Hm. reflexivity.
Qed.
(** A second final call on an OMAC context follows a NULL pointer. *)
Theorem C51_second_final_crashes_refuted : forall K f c r tag n c',
  mac_final (omac_md K f) c = Some (r, tag, n, c') -> mac_final (omac_md K f) c' = None.
Proof.
  intros K f c r tag n c'. unfold mac_final. cbn [md_xof omac_md md_final]. destruct (fst (pc_d c)); [|discriminate]. destruct (omac_xof_len K (snd (pc_d c)) (to_int (pc_size c))) as [q x].
  cbn [fst snd]. destruct (omac_imit_final K x) as [[r2 tg] z]. intros H. injection H as _ _ _ <-. reflexivity.
Qed.
Print Assumptions C51_second_final_crashes_refuted.
(** Duplicating a context: the copy is the same context if the tag length is the default one... *)
Theorem C48_provider_mac_dup_partial : forall D (M : md D) n0 c, pc_size c = n0 -> mac_dupctx M n0 c = c.
Proof. intros D M n0 [n d] H. cbn in H. subst. reflexivity. Qed.
(** ... otherwise the length is lost. *)
Theorem C48_provider_mac_dup_loses_size_refuted : forall D (M : md D) n0 c n c', n <> n0 ->
  mac_set_ctx_params M c (mk_params (Some n) None None) = Some (1, c') ->
  mac_get_size c' = n /\ mac_get_size (mac_dupctx M n0 c') = n0.
Proof. intros D M n0 c n c' N H. unfold mac_set_ctx_params in H. cbn in H. injection H as <-. split; reflexivity. Qed.
(** The hypotheses are satisfiable, and a concrete session: Magma, 5-byte tag, two chunks. *)
Definition env0 : env := mk_env (fresh_evp ctx0) (mk_imit ctx0 (zeros 8) (zeros 8) 0 0 0 false 0 false) (fun _ => None).
Example C51_example : env_ok env0 /\
  prov_session MagmaMac env0 (32, kdemo) (mk_params (Some 5) None None) [[1; 2; 3]%N; [4]%N] = Some (firstn 5 (omac (rfc8891_encrypt SZ kdemo) 8 [1; 2; 3; 4]%N), 5) /\
  firstn 5 (omac (rfc8891_encrypt SZ kdemo) 8 [1; 2; 3; 4]%N) <> firstn 5 (omac (rfc8891_encrypt SZ kdemo) 8 [1; 2; 3]%N).
Proof.
  assert (E : env_ok env0). { split; [exists ctx0; split; [reflexivity|exact ctx0_rng_ok]|]. split; [exact ctx0_rng_ok|reflexivity]. }
  split; [exact E|]. split.
  - apply (C51_tag_of_requested_length MagmaMac env0 kdemo [[1; 2; 3]%N; [4]%N] (Some 5) E); [split; [reflexivity|apply bytes_forallb; reflexivity]| |exact I|cbn; lia].
    repeat (constructor; [apply bytes_forallb; reflexivity|]). constructor.
  - vm_compute. discriminate.
Qed.

(** A key of a wrong length is refused, as a parameter (nothing after it is done, whatever the other parameters) and as an
    argument (the context is not fed a key; the parameters come first). *)
Definition key_length_ok (len : Z) : bool := (to_int len =? 32) || (to_int len =? 0).
Definition is_prov_md (D : Type) (M : md D) : Prop :=
  (exists sb by_nid mem0, existT md D M = existT md _ (imit_md sb by_nid mem0)) \/
  (exists K f, existT md D M = existT md _ (omac_md K f)) \/ existT md D M = existT md _ oac_md.
Theorem C51_wrong_key_refused : forall D (M : md D) c len k size, is_prov_md D M -> key_length_ok len = false ->
  (forall mesh key, exists d, mac_init M c key (mk_params size (Some (len, k)) mesh) = Some (0, mk_pmac (match size with Some n => n | None => pc_size c end) d) /\
     d = snd (md_set_key M (pc_d c) (to_int len) k)) /\
  (exists c', mac_init M c (Some (len, k)) (mk_params size None None) = Some (0, c')).
Proof.
  intros D M c len k size HM Hlen.
  assert (H0 : fst (md_set_key M (pc_d c) (to_int len) k) = 0).
  { unfold key_length_ok in Hlen. apply orb_false_iff in Hlen as [H32 H0]. destruct HM as [(sb & by_nid & mem0 & E)|[(K & f & E)|E]].
    - revert c. pose (P := fun x : {D : Type & md D} => forall c : pmac (projT1 x), fst (md_set_key (projT2 x) (pc_d c) (to_int len) k) = 0).
      change (P (existT md D M)). rewrite E. unfold P. cbn [projT1 projT2 imit_md md_set_key]. intros c. rewrite H0. unfold gost_imit_set_key. rewrite H32. reflexivity.
    - revert c. pose (P := fun x : {D : Type & md D} => forall c : pmac (projT1 x), fst (md_set_key (projT2 x) (pc_d c) (to_int len) k) = 0).
      change (P (existT md D M)). rewrite E. unfold P. cbn [projT1 projT2 omac_md md_set_key]. intros c. rewrite H0. unfold omac_set_key. rewrite H0, H32. reflexivity.
    - revert c. pose (P := fun x : {D : Type & md D} => forall c : pmac (projT1 x), fst (md_set_key (projT2 x) (pc_d c) (to_int len) k) = 0).
      change (P (existT md D M)). rewrite E. unfold P. cbn [projT1 projT2 oac_md md_set_key]. intros c. rewrite H0. unfold omac_acpkm_set_key. rewrite H0, H32. reflexivity. }
  split.
  - intros mesh key. exists (snd (md_set_key M (pc_d c) (to_int len) k)). split; [|reflexivity]. unfold mac_init, mac_set_ctx_params. cbn [mp_size mp_key mp_mesh].
    destruct size; cbn [pc_d pc_size]; destruct (md_set_key M (pc_d c) (to_int len) k) as [r d]; cbn [fst snd] in *; subst r; reflexivity.
  - unfold mac_init, mac_set_ctx_params. cbn [mp_size mp_key mp_mesh Z.eqb].
    destruct size; cbn [pc_d pc_size]; destruct (md_set_key M (pc_d c) (to_int len) k) as [r d]; cbn [fst snd] in *; subst r; eexists; reflexivity.
Qed.
Example C51_wrong_key_witness : key_length_ok 31 = false /\ key_length_ok 33 = false /\ is_prov_md _ oac_md.
Proof. split; [reflexivity|]. split; [reflexivity|]. right. right. reflexivity. Qed.
Print Assumptions C51_wrong_key_refused.
