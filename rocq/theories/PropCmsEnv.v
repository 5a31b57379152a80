(** C58: what PKCS#7 and CMS messages say about GOST signers and recipients, and what is done with it. *)
From Coq Require Import ZArith List Bool Lia.
From Verif Require Import Bytes BytesProofs Gost89Model PropOmac CryptModel CryptProofs KdfModel KexpModel KexpSpec PropKexp PropKeywrap EcLadderModel EcSpec EcModel EcProofs PropEc PropVko
  Asn1Model AmethModel PropAmeth CmsParamsModel PropCms PmethModel KeyTransAsn1 KeyTransModel KeyTransSpec KeyTransProofs PropKeyTrans PropKeyTrans2
  CmsEnvModel CmsEnvSpec ToyGroup.
Import ListNotations.
Local Open Scope Z_scope.

(** The calls leave the message alone. *)
Definition answer {C : group} (r : Z) : effect C := mk_eff r None None Stored_nothing None.

(** * Signers *)
(** The key of a signer gets, in PKCS#7 and in CMS, its digest and its own algorithm with NULL parameters; the digest is
    the one the library is told to use, and the only one a signing context with that key accepts. *)
Theorem C58_signer_algorithms :
  forall curves c w buf beyond a n rq, a <> A_other -> rq = Rq_pkcs7_sign 0 \/ rq = Rq_cms_sign 0 ->
    pkey_ctrl_gost curves c w buf beyond a n rq =
      Returns (mk_eff 1 (Some (mk_walg (oid (digest_object (signed_digest a))) (Some null)))
                 (Some (mk_walg (oid (key_object a)) (Some null))) Stored_nothing None) /\
    pkey_ctrl_gost curves c w buf beyond a n Rq_default_md = Returns (mk_eff 2 None None (Stored_md (signed_digest a)) None) /\
    forall g data m, (exists data', pkey_gost_ctrl (Some (PmethModel.mk_pkey a true g)) data (R_md (Some m)) = Ret 1 data') <->
      m = match signed_digest a with Md_94 => M_94 | Md_2012_256 => M_256 | Md_2012_512 => M_512 end.
Proof.
  intros curves c w buf beyond a n rq A R. split; [|split].
  - destruct R as [-> | ->]; destruct a; try congruence; reflexivity.
  - destruct a; try congruence; reflexivity.
  - intros g data m. split; [intros [data' H]|intros ->].
    + destruct a; try congruence; destruct m; try reflexivity; discriminate H.
    + destruct a; try congruence; eexists; reflexivity.
Qed.
Print Assumptions C58_signer_algorithms.
(** When a message is verified or opened as PKCS#7 nothing is written. *)
Theorem C58_reading_leaves_the_message :
  forall curves c w buf beyond a n arg, a <> A_other -> arg <> 0 ->
    forall rq, In rq [Rq_pkcs7_sign arg; Rq_cms_sign arg; Rq_pkcs7_encrypt arg] -> pkey_ctrl_gost curves c w buf beyond a n rq = Returns (answer 1).
Proof.
  intros curves c w buf beyond a n arg A N rq H. apply Z.eqb_neq in N. unfold pkey_ctrl_gost.
  destruct (default_digest a) eqn:E; [|destruct a; try congruence; discriminate E].
  destruct H as [<- |[<- |[<- |[]]]]; cbv zeta; rewrite N; reflexivity.
Qed.
Print Assumptions C58_reading_leaves_the_message.

(** * What is written for a recipient *)
Lemma oid_alg a : a <> A_other -> alg_oid a = oid (key_object a).
Proof. destruct a; try congruence; reflexivity. Qed.
Lemma params_octets n h : n <> OtherNid -> i2d_key_params n h = key_parameters n h.
Proof. intros N. destruct n; try congruence; destruct h as [[]|]; reflexivity. Qed.
Lemma params_written a n : a <> A_other -> n <> OtherNid -> exists h, digest_named a n h /\ algor_params a n = Some (key_parameters n h).
Proof.
  intros A N. destruct (encode_algor_ok a n A N) as (h & DN & E). exists h. split; [exact DN|]. unfold algor_params. rewrite E. cbn [al_params].
  rewrite params_octets by exact N. reflexivity.
Qed.
(** KExp15 with the cipher of the content and the key agreement of the key, or the key's own algorithm with its
    parameters; always as a transport recipient. *)
Theorem C58_recipient_algorithm :
  forall curves c w buf beyond a n (x : tctx (cv c)) old, a <> A_other -> n <> OtherNid ->
    (forall kc, a2012 a -> d_cipher (t_data x) = suite_of kc ->
       pkey_ctrl_gost curves c w buf beyond a n (Rq_cms_envelope 0 (Some x) (RI_trans old)) =
         Returns (mk_eff 1 None (Some (mk_walg (oid (wrap_object kc)) (Some (sequence [object (agreement_object a)])))) Stored_nothing None)) /\
    (exists h, digest_named a n h /\
       let written := Returns (mk_eff 1 None (Some (mk_walg (oid (key_object a)) (Some (key_parameters n h)))) Stored_nothing None) in
       pkey_ctrl_gost curves c w buf beyond a n (Rq_pkcs7_encrypt 0) = written /\
       ((forall kc, d_cipher (t_data x) <> suite_of kc) ->
          pkey_ctrl_gost curves c w buf beyond a n (Rq_cms_envelope 0 (Some x) (RI_trans old)) = written)).
Proof.
  intros curves c w buf beyond a n x old A N. split.
  - intros kc A2 S. unfold pkey_ctrl_gost. rewrite S. destruct A2 as [-> | ->]; destruct kc; reflexivity.
  - destruct (params_written a n A N) as (h & DN & E). exists h. split; [exact DN|]. cbv zeta. rewrite <- (oid_alg a A). unfold pkey_ctrl_gost.
    destruct (default_digest a) eqn:DD; [|destruct a; try congruence; discriminate DD]. cbv zeta. rewrite Z.eqb_refl, E. split; [reflexivity|].
    intros S. pose proof (S MAGMA) as S1. pose proof (S KUZNYECHIK) as S2. cbn [suite_of] in S1, S2.
    destruct (d_cipher (t_data x)); try congruence; reflexivity.
Qed.
Print Assumptions C58_recipient_algorithm.
(** Recipients are made as key transport recipients; key agreement ones are also said to be supported; other keys and
    other requests are refused. *)
Theorem C58_other_requests :
  forall curves c w buf beyond a n, 
    (a <> A_other ->
      pkey_ctrl_gost curves c w buf beyond a n Rq_ri_type = Returns (mk_eff 1 None None (Stored_int 0) None) /\
      (forall t, pkey_ctrl_gost curves c w buf beyond a n (Rq_ri_type_supported t) =
         Returns (if (t =? 0) || (t =? 1) then mk_eff 1 None None (Stored_int 1) None else answer 0)) /\
      pkey_ctrl_gost curves c w buf beyond a n Rq_other = Returns (answer (-2))) /\
    (a = A_other -> forall rq, pkey_ctrl_gost curves c w buf beyond a n rq = Returns (answer (-1))).
Proof.
  intros curves c w buf beyond a n. split.
  - intros A. unfold pkey_ctrl_gost. destruct (default_digest a) eqn:DD; [|destruct a; try congruence; discriminate DD]. cbv zeta.
    split; [reflexivity|]. split; [|reflexivity]. intros t. unfold RECIPINFO_AGREE, RECIPINFO_TRANS. rewrite orb_comm.
    destruct ((t =? 0) || (t =? 1)); reflexivity.
  - intros -> rq. reflexivity.
Qed.
Print Assumptions C58_other_requests.

(** * Key transport: whatever cipher was chosen for the content, the recipient finds out how to open the key *)
Definition dh_cipher (n : cipher_nid) : Prop := n = C_undef \/ n = C_other NID_id_Gost28147_89.
(** The ciphers that go with a KExp15 cipher. *)
Definition goes_with (n : cipher_nid) (kc : kcipher) : Prop :=
  match kc with
  | MAGMA => In n [C_magma_ctr; C_magma_ctr_acpkm; C_magma_ctr_acpkm_omac]
  | KUZNYECHIK => In n [C_kuz_ctr; C_kuz_ctr_acpkm; C_kuz_ctr_acpkm_omac]
  end.
Lemma goes_cipher n kc key d : goes_with n kc -> exists d', pkey_gost_ctrl key d (R_cipher n) = Ret 1 d' /\ d_cipher d' = suite_of kc /\ d' = with_cipher d (suite_of kc).
Proof. destruct kc; intros [<- |[<- |[<- |[]]]]; eexists; (split; [reflexivity|split; reflexivity]). Qed.
Lemma ktri_of_alg a : a <> A_other -> ktri_cipher (oid (key_object a)) = Some (C_other NID_id_Gost28147_89).
Proof. destruct a; try congruence; reflexivity. Qed.
Lemma ktri_of_wrap kc : ktri_cipher (oid (wrap_object kc)) = Some (suite_of kc).
Proof. destruct kc; reflexivity. Qed.
Lemma receive curves c w buf beyond a n (x : tctx (cv c)) alg ci : a <> A_other -> ktri_cipher (a_oid alg) = Some ci ->
  pkey_ctrl_gost curves c w buf beyond a n (Rq_cms_envelope 1 (Some x) (RI_trans alg)) =
    Returns (mk_eff 1 None None Stored_nothing (Some (mk_set 1 (t_with_data x (with_cipher (t_data x) ci)) None false false false))).
Proof.
  intros A K. unfold pkey_ctrl_gost. destruct (default_digest a) eqn:DD; [|destruct a; try congruence; discriminate DD].
  unfold gost_cms_set_shared_info, gost_cms_set_ktri_shared_info. rewrite K. reflexivity.
Qed.
Lemma variant_dh n : dh_cipher n -> variant_of n = Some V_cp.
Proof. intros [-> | ->]; reflexivity. Qed.

Theorem C58_envelope_roundtrip_old :
  forall curves c w1 w2 w w' buf beyond buf' beyond' a d peer peer' data1 data2 n rnd draws junk cap1 key kl e ukm o rest cap old,
    let C := cv c in
    usable curves c -> world_ok w1 -> world_ok w2 -> a <> A_other -> dh_cipher n ->
    let x1 := mk_t a (public C d) peer data1 in
    let x2 := mk_t a (pair C d) peer' data2 in
    draws_ok C draws -> sender_key x1 draws e -> cp_ukm rnd data1 = Some ukm -> ukm8 ukm -> key32 key ->
    (peer <> None -> exists k, peer' = Some k /\ k_pub k = Some (smul e (gen C))) ->
    exists data1' alg q,
      pkey_gost_ctrl None data1 (R_cipher n) = Ret 1 data1' /\
      let x1' := t_with_data x1 data1' in
      pkey_ctrl_gost curves c w buf beyond a (gname C) (Rq_cms_envelope 0 (Some x1') (RI_trans old)) = Returns (mk_eff 1 None (Some alg) Stored_nothing None) /\
      pkey_ctrl_gost curves c w' buf' beyond' a (gname C) (Rq_cms_envelope 1 (Some x2) (RI_trans alg)) = Returns (mk_eff 1 None None Stored_nothing (Some q)) /\
      (pkey_gost_encrypt w1 rnd draws junk x1' true cap1 key kl = Returns o -> o_ret o = 1 -> (32 <= cap)%nat ->
       exists x', pkey_gost_decrypt curves c w2 (q_ctx q) (Some cap) (o_out o ++ rest) = Returns (mk_got 1 x' (Some key), 32%nat)).
Proof.
  intros curves c w1 w2 w w' buf beyond buf' beyond' a d peer peer' data1 data2 n rnd draws junk cap1 key kl e ukm o rest cap old C U W1 W2 A DH x1 x2 D SK CU HU HK PK.
  pose proof U as (_ & G & _). set (data1' := with_cipher data1 n).
  assert (CT : pkey_gost_ctrl None data1 (R_cipher n) = Ret 1 data1') by (destruct DH as [-> | ->]; reflexivity).
  destruct (C58_recipient_algorithm curves c w buf beyond a (gname C) (t_with_data x1 data1') old A G) as [_ (h & _ & _ & WR)].
  eexists data1', _, _. split; [exact CT|]. cbv zeta. split; [apply WR; intros kc; cbn; destruct DH as [-> | ->]; destruct kc; discriminate|].
  split; [apply receive; [exact A|apply (ktri_of_alg a A)]|]. intros EN R1 CAP. cbn [q_ctx].
  apply (C53_cp_roundtrip curves c w1 w2 a d peer peer' data1' (with_cipher data2 (C_other NID_id_Gost28147_89)) rnd draws junk cap1 key kl e ukm o rest cap);
    try assumption; [exact (variant_dh n DH)|reflexivity].
Qed.
Print Assumptions C58_envelope_roundtrip_old.

Theorem C58_envelope_roundtrip_new :
  forall curves c w1 w2 w w' buf beyond buf' beyond' a d peer peer' data1 data2 n kc rnd draws junk cap1 key e data o rest cap old,
    let C := cv c in
    usable curves c -> world_ok w1 -> world_ok w2 -> a2012 a -> goes_with n kc ->
    let x1 := mk_t a (public C d) peer data1 in
    let x2 := mk_t a (pair C d) peer' data2 in
    draws_ok C draws -> sender_key x1 draws e -> 0 < e < order C ->
    ps_data rnd data1 = Some data -> ukm_usable (d_ukm data) -> d_ukm_size data = 32 -> blkn 32 key ->
    length (d_ukm data2) = 32%nat -> (d_ukm_size data2 = 0 \/ d_ukm data2 = d_ukm data) ->
    exists data1' alg q,
      pkey_gost_ctrl None data1 (R_cipher n) = Ret 1 data1' /\
      let x1' := t_with_data x1 data1' in
      pkey_ctrl_gost curves c w buf beyond a (gname C) (Rq_cms_envelope 0 (Some x1') (RI_trans old)) = Returns (mk_eff 1 None (Some alg) Stored_nothing None) /\
      pkey_ctrl_gost curves c w' buf' beyond' a (gname C) (Rq_cms_envelope 1 (Some x2) (RI_trans alg)) = Returns (mk_eff 1 None None Stored_nothing (Some q)) /\
      (pkey_gost_encrypt w1 rnd draws junk x1' true cap1 key 32 = Returns o -> o_ret o = 1 -> (32 <= cap)%nat ->
       exists x', pkey_gost_decrypt curves c w2 (q_ctx q) (Some cap) (o_out o ++ rest) = Returns (mk_got 1 x' (Some key), 32%nat)).
Proof.
  intros curves c w1 w2 w w' buf beyond buf' beyond' a d peer peer' data1 data2 n kc rnd draws junk cap1 key e data o rest cap old C U W1 W2 A2 GW x1 x2 D SK EB PD UK SZ HK LD2 HD.
  pose proof U as (_ & G & _). assert (A : a <> A_other) by (destruct A2 as [-> | ->]; discriminate).
  destruct (goes_cipher n kc None data1 GW) as (data1' & CT & S1 & E1).
  destruct (C58_recipient_algorithm curves c w buf beyond a (gname C) (t_with_data x1 data1') old A G) as [WR _].
  eexists data1', _, _. split; [exact CT|]. cbv zeta. split; [apply (WR kc A2 S1)|].
  split; [apply receive; [exact A|apply (ktri_of_wrap kc)]|]. intros EN R1 CAP. cbn [q_ctx].
  assert (PD' : ps_data rnd data1' = Some (with_cipher data (suite_of kc))).
  { rewrite E1. unfold ps_data in *. cbn [d_ukm_size with_cipher]. destruct (d_ukm_size data1 =? 0).
    - destruct rnd as [r|]; [|discriminate PD]. cbn [option_map] in *. injection PD as <-. reflexivity.
    - injection PD as <-. reflexivity. }
  apply (C53_ps_roundtrip curves c w1 w2 a d peer peer' data1' (with_cipher data2 (suite_of kc)) kc rnd draws junk cap1 key e (with_cipher data (suite_of kc)) o rest cap);
    try assumption. reflexivity.
Qed.
Print Assumptions C58_envelope_roundtrip_new.

(** An algorithm that is neither a key's nor KExp15 is refused, and the context stays as it was. *)
Theorem C58_unknown_algorithms_refused :
  forall curves c w buf beyond a n (x : tctx (cv c)) ri,
    a <> A_other ->
    match ri with
    | RI_trans alg => (forall kc, a_oid alg <> oid (wrap_object kc)) /\ (forall a', a' <> A_other -> a_oid alg <> oid (key_object a'))
    | RI_agree m => a_param (m_alg m) <> None /\ forall kc, a_oid (m_alg m) <> oid (wrap_object kc)
    | RI_other => True
    end ->
    exists q, pkey_ctrl_gost curves c w buf beyond a n (Rq_cms_envelope 1 (Some x) ri) = Returns (mk_eff 0 None None Stored_nothing (Some q)) /\
      q_ctx q = x /\ q_wrap q = None /\ q_freed q = false.
Proof.
  intros curves c w buf beyond a n x ri A H. unfold pkey_ctrl_gost. destruct (default_digest a) eqn:DD; [|destruct a; try congruence; discriminate DD]. cbv zeta.
  cbn [Z.eqb]. assert (NE : forall a b, a <> b -> eqbl a b = false).
  { intros a' b' NE'. destruct (eqbl a' b') eqn:E; [|reflexivity]. apply eqbl_eq in E. contradiction. }
  destruct ri as [alg|m|]; unfold gost_cms_set_shared_info.
  - destruct H as [H1 H2]. unfold gost_cms_set_ktri_shared_info, ktri_cipher.
    rewrite (NE (a_oid alg) oid_kuznyechik_kexp15 (H1 KUZNYECHIK)), (NE (a_oid alg) oid_magma_kexp15 (H1 MAGMA)).
    replace (find_alg (a_oid alg)) with A_other; [eexists; split; [reflexivity|split; [reflexivity|split; reflexivity]]|].
    assert (NS : forall a', a' <> A_other -> eqbl (alg_oid a') (a_oid alg) = false).
    { intros a' N'. rewrite (oid_alg a' N'). apply NE. intros E. exact (H2 a' N' (eq_sym E)). }
    unfold find_alg. cbn [find]. rewrite !NS by discriminate. reflexivity.
  - destruct H as [H1 H2]. unfold gost_cms_set_kari_shared_info. destruct (a_param (m_alg m)) as [p|]; [|congruence].
    destruct (negb (hd 0%N p =? TAG_SEQUENCE)%N); [eexists; split; [reflexivity|split; [reflexivity|split; reflexivity]]|].
    unfold kexp_cipher. rewrite (NE (a_oid (m_alg m)) oid_kuznyechik_kexp15 (H2 KUZNYECHIK)), (NE (a_oid (m_alg m)) oid_magma_kexp15 (H2 MAGMA)).
    eexists; split; [reflexivity|split; [reflexivity|split; reflexivity]].
  - eexists; split; [reflexivity|split; [reflexivity|split; reflexivity]].
Qed.
Print Assumptions C58_unknown_algorithms_refused.
(** Without a context for the recipient's key (CMS_add1_recipient_cert and CMS_encrypt make none unless CMS_KEY_PARAM is given)
    no recipient is made. *)
Theorem C58_recipient_needs_key_context :
  forall curves c w buf beyond a n arg ri, a <> A_other ->
    pkey_ctrl_gost curves c w buf beyond a n (Rq_cms_envelope arg None ri) = Returns (answer 0).
Proof.
  intros curves c w buf beyond a n arg ri A. unfold pkey_ctrl_gost. destruct (default_digest a) eqn:DD; [reflexivity|destruct a; try congruence; discriminate DD].
Qed.
Print Assumptions C58_recipient_needs_key_context.
(** Other ciphers of the content: the recipient is written, the key is then not encrypted. *)
Theorem C58_other_ciphers_fail_late_refuted :
  forall curves c w w1 buf beyond a n (x : tctx (cv c)) old id rnd draws junk cap key kl,
    a <> A_other -> n <> OtherNid -> id <> NID_id_Gost28147_89 -> d_cipher (t_data x) = C_other id ->
    exists alg o, pkey_ctrl_gost curves c w buf beyond a n (Rq_cms_envelope 0 (Some x) (RI_trans old)) = Returns (mk_eff 1 None (Some alg) Stored_nothing None) /\
      pkey_gost_encrypt w1 rnd draws junk x true cap key kl = Returns o /\ o_ret o = -1 /\ o_out o = [].
Proof.
  intros curves c w w1 buf beyond a n x old id rnd draws junk cap key kl A N I E.
  destruct (C58_recipient_algorithm curves c w buf beyond a n x old A N) as [_ (h & _ & _ & WR)].
  eexists _, _. split; [apply WR; intros kc; rewrite E; destruct kc; discriminate|].
  unfold pkey_gost_encrypt. rewrite E. cbn [variant_of]. apply Z.eqb_neq in I. rewrite I. split; [reflexivity|split; reflexivity].
Qed.
Print Assumptions C58_other_ciphers_fail_late_refuted.
(** A 2001 key with KExp15: the recipient is written with the agreement of 512-bit keys, and the key is then not encrypted. *)
Theorem C58_2001_keys_fail_late_refuted :
  forall curves c w w1 buf beyond a (x : tctx (cv c)) old kc rnd draws junk cap key kl y data e,
    (a = A2001 \/ a = A2001DH) -> t_alg x = a -> d_cipher (t_data x) = suite_of kc -> usable curves c -> world_ok w1 ->
    k_pub (t_key x) = Some (smul y (gen (cv c))) -> draws_ok (cv c) draws -> sender_key x draws e -> ps_data rnd (t_data x) = Some data -> data_ok (t_data x) ->
    exists o, pkey_ctrl_gost curves c w buf beyond a (gname (cv c)) (Rq_cms_envelope 0 (Some x) (RI_trans old)) =
        Returns (mk_eff 1 None (Some (mk_walg (oid (wrap_object kc)) (Some (sequence [object (agreement_object A2012_512)])))) Stored_nothing None) /\
      pkey_gost_encrypt w1 rnd draws junk x true cap key kl = Returns o /\ o_ret o = 0 /\ o_out o = [].
Proof.
  intros curves c w w1 buf beyond a x old kc rnd draws junk cap key kl y data e A EA S U W KP D SK PD DO.
  set (x' := mk_t (t_alg x) (EcModel.mk_key (Some 1) (k_pub (t_key x))) (t_peer x) (t_data x)).
  destruct (C53_ps_2001_keys_refused curves c w1 rnd draws junk x' cap key kl y kc data e 1 [] 32%nat U W) as [(o & E1 & R & OO & _) _]; try assumption.
  { cbn. rewrite EA. exact A. } { reflexivity. } { apply Forall_nil. } { reflexivity. } { lia. }
  assert (EN : exists o', pkey_gost_encrypt w1 rnd draws junk x true cap key kl = Returns o' /\ o_ret o' = 0 /\ o_out o' = []).
  { unfold pkey_gost_encrypt in E1 |- *. cbn [x' t_data] in E1. rewrite S in E1 |- *. rewrite variant_suite in E1 |- *.
    unfold ps_encrypt in E1 |- *. cbn [x' t_data t_alg t_key t_peer k_pub t_with_data] in E1. rewrite S in E1 |- *. rewrite ps_suite_of in E1 |- *.
    destruct (match t_peer x with Some k => Some (k, 0) | None => option_map (fun k => (k, 1)) (gen_ephemeral (cv c) (t_alg x) draws) end) as [[sec refs]|].
    2:{ eexists. split; [reflexivity|split; reflexivity]. }
    unfold ps_data in PD. rewrite PD. rewrite PD in E1. cbv zeta in E1 |- *. cbn [t_with_data t_key] in E1 |- *.
    replace (keg_with w1 (d_ukm data) (t_alg x) (k_pub (t_key x)) sec) with (Returns (A := option (list N)) None) by (rewrite EA; destruct A as [-> | ->]; reflexivity).
    eexists. split; [reflexivity|split; reflexivity]. }
  destruct EN as (o' & E2 & R2 & O2). exists o'. split; [|split; [exact E2|split; [exact R2|exact O2]]].
  unfold pkey_ctrl_gost. rewrite S. destruct A as [-> | ->]; destruct kc; reflexivity.
Qed.
Print Assumptions C58_2001_keys_fail_late_refuted.
(** A recipient of the key agreement kind, said to be supported, is not written at all, and that is reported as success. *)
Theorem C58_agreement_recipient_not_written_refuted :
  forall curves c w buf beyond a n (x : tctx (cv c)) m, a <> A_other -> n <> OtherNid ->
    pkey_ctrl_gost curves c w buf beyond a n (Rq_cms_envelope 0 (Some x) (RI_agree m)) = Returns (answer 1).
Proof.
  intros curves c w buf beyond a n x m A N. destruct (params_written a n A N) as (h & _ & E). unfold pkey_ctrl_gost.
  destruct (default_digest a) eqn:DD; [|destruct a; try congruence; discriminate DD]. cbv zeta. rewrite Z.eqb_refl, E.
  destruct (d_cipher (t_data x)); reflexivity.
Qed.
Print Assumptions C58_agreement_recipient_not_written_refuted.

(** * Key agreement recipients *)
(** What EVP_PKEY_derive gives on a complete context is what C40 is about. *)
Lemma ctx_derive_ec C : ec_laws C -> forall w (x : tctx C) d peer P, k_priv (t_key x) = Some d -> t_peer x = Some peer -> k_pub peer = Some P ->
  0 <= d_ukm_size (t_data x) -> t_alg x <> A_other ->
  ctx_derive w x = Returns (pkey_gost_ec_derive C (w_host w) (w_gost w)
    (mk_pmeth (d_ukm (t_data x)) (Z.to_nat (d_ukm_size (t_data x))) (vko_md (d_vko (t_data x)))) (t_alg x) d P).
Proof.
  intros L w x d peer P KD TP KP SZ A. unfold ctx_derive, pkey_gost_ec_derive. cbn [p_ukm p_ukm_size p_vko]. rewrite TP, KP.
  set (n := d_ukm_size (t_data x)) in *. assert (NB : forall m, (Z.to_nat n =? m)%nat = (n =? Z.of_nat m)).
  { intros m. destruct (Z.eqb_spec n (Z.of_nat m)) as [E|E]; [rewrite E, Nat2Z.id; apply Nat.eqb_refl|]. apply Nat.eqb_neq. lia. }
  rewrite !NB. cbn [Z.of_nat Pos.of_succ_nat Pos.succ]. destruct (n =? 0); [reflexivity|].
  destruct (vko_md (d_vko (t_data x))) as [md|]; [unfold vko; rewrite KD; reflexivity|].
  destruct (n =? 8).
  - unfold vko. rewrite KD. destruct (shorten (default_digest (t_alg x))) eqn:E; [reflexivity|]. destruct (t_alg x); try congruence; discriminate E.
  - destruct (n =? 32); [|reflexivity]. unfold keg_with. rewrite KD. unfold gost_keg. destruct (t_alg x); reflexivity.
Qed.
Lemma set_iv_ok key d u : (length u <= 32)%nat ->
  pkey_gost_ctrl key d (R_set_iv (Z.of_nat (length u)) (Some u)) = Ret 1 (with_ukm d (overwrite (d_ukm d) 0 u) (Z.of_nat (length u))).
Proof.
  intros L. cbn [pkey_gost_ctrl]. unfold to_size. rewrite Z.mod_small by lia.
  destruct (Z.gtb_spec (Z.of_nat (length u)) 32); [lia|]. rewrite Nat2Z.id, firstn_all. reflexivity.
Qed.
Lemma set_iv_long key d u : (32 < length u)%nat -> Z.of_nat (length u) < 2 ^ 64 -> pkey_gost_ctrl key d (R_set_iv (Z.of_nat (length u)) (Some u)) = Ret 0 d.
Proof.
  intros L B. cbn [pkey_gost_ctrl]. unfold to_size. rewrite Z.mod_small by lia.
  destruct (Z.gtb_spec (Z.of_nat (length u)) 32); [reflexivity|lia].
Qed.
Lemma kexp_known kc : kexp_cipher (oid (wrap_object kc)) = Some (wcipher kc). Proof. destruct kc; reflexivity. Qed.
Lemma kexp_found o wc : kexp_cipher o = Some wc -> exists kc, o = oid (wrap_object kc) /\ wc = wcipher kc.
Proof.
  unfold kexp_cipher. destruct (eqbl o oid_kuznyechik_kexp15) eqn:E1.
  - intros H. injection H as <-. apply eqbl_eq in E1. exists KUZNYECHIK. split; [exact E1|reflexivity].
  - destruct (eqbl o oid_magma_kexp15) eqn:E2; [|discriminate]. intros H. injection H as <-. apply eqbl_eq in E2. exists MAGMA. split; [exact E2|reflexivity].
Qed.
Lemma ow_full (old new : list N) : length new = length old -> overwrite old 0 new = new.
Proof. intros L. unfold overwrite. rewrite firstn_O. cbn [app]. rewrite skipn_all2 by lia. apply app_nil_r. Qed.
(** Setting the key once more without an IV changes nothing. *)
Lemma wrap_init_again kc keys v : length keys = 64%nat ->
  wrap_init (wcipher kc) (wrap_init (wcipher kc) wrap_new (Some keys) (Some v) false) (Some keys) None false =
  wrap_init (wcipher kc) wrap_new (Some keys) (Some (firstn (half kc) v)) false.
Proof.
  intros L. unfold wrap_init. cbn [w_iv w_key w_wrapped w_count w_enc]. rewrite wivlen, firstn_firstn, Nat.min_id.
  rewrite !(firstn_all2 (n := 64) keys) by lia. replace (overwrite (w_key wrap_new) 0 keys) with keys.
  - rewrite (ow_full keys keys) by reflexivity. reflexivity.
  - symmetry. apply ow_full. exact L.
Qed.
Lemma ukm_iv kc u beyond : length u = 32%nat -> firstn (half kc) (skipn 24 (u ++ beyond)) = sub 24 (half kc) u.
Proof.
  intros L. unfold sub. rewrite skipn_app. replace (24 - length u)%nat with 0%nat by lia. rewrite skipn_O, firstn_app.
  rewrite skipn_length. replace (half kc - (length u - 24))%nat with 0%nat by (rewrite L; destruct kc; reflexivity).
  rewrite firstn_O. apply app_nil_r.
Qed.

(** The message of a sender with the key [e], for a recipient with the key [d], either of them of the 2012 kind: KExp15 of the key under the
    KEG keys of the two, with the UKM and the sender's public key.  The recipient is set up, and then the key
    comes out if the encrypted key is the export of one, and an empty one otherwise. *)
Theorem C58_agreement_opens :
  forall curves c w w' buf buf' beyond a n d e peer data kc u xp p,
    usable curves c -> world_ok w -> world_ok w' -> a2012 a -> length buf = 64%nat -> length buf' = 64%nat ->
    d_vko data = Vko_0 -> length (d_ukm data) = 32%nat -> ukm_usable u -> e mod order (cv c) <> 0 ->
    spki a (cv c) (smul e (gen (cv c))) = Some xp ->
    let x := mk_t a (pair (cv c) d) peer data in
    let m := mk_kari (mk_walg (oid (wrap_object kc)) (Some (TAG_SEQUENCE :: p))) (Some u) (Some xp) in
    match keg (cv c) e (smul d (gen (cv c))) u a with
    | Some keys =>
      exists q wx, pkey_ctrl_gost curves c w buf beyond a n (Rq_cms_envelope 1 (Some x) (RI_agree m)) = Returns (mk_eff 1 None None Stored_nothing (Some q)) /\
        q_wrap q = Some (wcipher kc, wx) /\ q_over q = false /\ q_freed q = false /\
        forall enc, bytes enc -> length enc = (32 + mlen kc)%nat ->
          exists k, kek_cipher w' buf' (q_ctx q) (wcipher kc) wx enc = Returns (Some k) /\
            ((length k = 32%nat /\ enc = ps_export kc keys u k) \/
             (k = [] /\ forall k', length k' = 32%nat -> enc <> ps_export kc keys u k'))
    | None => exists q, pkey_ctrl_gost curves c w buf beyond a n (Rq_cms_envelope 1 (Some x) (RI_agree m)) = Returns (mk_eff 0 None None Stored_nothing (Some q))
    end.
Proof.
  intros curves c w w' buf buf' beyond a n d e peer data kc u xp p U W W' A2 LB LB' VK LD UK NE SP x m.
  pose proof U as (_ & _ & L & _). pose proof UK as (LU & BU & _). assert (A : a <> A_other) by (destruct A2 as [-> | ->]; discriminate).
  destruct (spki_xpub curves c U a (smul e (gen (cv c))) A (not_zero _ L e NE)) as (xp' & SP' & _ & XG & _).
  assert (xp' = xp) by congruence. subst xp'.
  destruct (C53_ps_keys_are_KEG_and_shared (cv c) L a e d u UK) as [K1 K2].
  set (x' := t_with_peer (t_with_data x (with_ukm data u 32)) (EcModel.mk_key None (Some (smul e (gen (cv c)))))).
  assert (DE : forall wd, ctx_derive wd x' = Returns (keg (cv c) e (smul d (gen (cv c))) u a)).
  { intros wd. rewrite (ctx_derive_ec (cv c) L wd x' d _ (smul e (gen (cv c))) eq_refl eq_refl eq_refl) by (try exact A; cbn; lia).
    unfold pkey_gost_ec_derive. cbn [p_ukm p_ukm_size p_vko x' t_with_peer t_with_data t_data t_alg x with_ukm d_ukm d_ukm_size d_vko]. rewrite VK.
    change (Z.to_nat 32) with 32%nat. cbn [Nat.eqb vko_md]. rewrite (gost_keg_ps (cv c) L) by exact UK. rewrite <- K1, K2. reflexivity. }
  assert (SH : pkey_ctrl_gost curves c w buf beyond a n (Rq_cms_envelope 1 (Some x) (RI_agree m)) =
    match keg (cv c) e (smul d (gen (cv c))) u a with
    | Some keys => Returns (mk_eff 1 None None Stored_nothing (Some (mk_set 1 x' (Some (wcipher kc, kari_init (wcipher kc) buf keys u beyond)) false false true)))
    | None => Returns (mk_eff 0 None None Stored_nothing (Some (mk_set 0 x' None false true false)))
    end).
  { unfold pkey_ctrl_gost. destruct (default_digest a) eqn:DD; [|destruct a; try congruence; discriminate DD]. cbv zeta. cbn [Z.eqb].
    unfold gost_cms_set_shared_info, gost_cms_set_kari_shared_info. cbn [m m_alg m_ukm m_orig a_param a_oid hd]. rewrite N.eqb_refl. cbn [negb].
    rewrite kexp_known. assert (SI : pkey_gost_ctrl None (t_data x) (R_set_iv (Z.of_nat (length u)) (Some u)) = Ret 1 (with_ukm data u 32))
      by (rewrite set_iv_ok by lia; rewrite ow_full by (cbn [x t_data]; lia); rewrite LU; reflexivity).
    rewrite SI. cbn [Z.leb Z.compare]. rewrite XG.
    assert (AE : alg_eqb a (t_alg (t_with_data x (with_ukm data u 32))) = true) by apply alg_eqb_refl. rewrite AE. fold x'. rewrite DE, LU.
    destruct (keg (cv c) e (smul d (gen (cv c))) u a) as [keys|]; [|reflexivity].
    replace (32 <? 24 + wrap_ivlen (wcipher kc))%nat with false by (destruct kc; reflexivity). reflexivity. }
  rewrite SH. destruct (keg (cv c) e (smul d (gen (cv c))) u a) as [keys|] eqn:EK; [|eexists; reflexivity].
  eexists _, _. split; [reflexivity|]. split; [reflexivity|]. split; [reflexivity|]. split; [reflexivity|]. intros enc BE LE. cbn [q_ctx].
  assert (HK : blkn 64 keys) by (apply (ps_keys_out (cv c) a e (smul d (gen (cv c))) u keys L UK); rewrite K1; reflexivity).
  pose proof HK as [LK BK]. unfold kek_cipher. rewrite DE. unfold kari_init. rewrite (ow_full buf keys), (ow_full buf' keys) by lia. rewrite wrap_init_again by exact LK.
  rewrite ukm_iv by exact LU. destruct (halves keys HK) as (H1 & H2 & HKE).
  pose proof W' as (Hh & _ & Hf & Bs & Ls).
  destruct (C33_unwrap_of_chunks kc (w_host w') (w_fresh w') (w_stack w') wrap_new (firstn 32 keys) (skipn 32 keys) (sub 24 (half kc) u) [] enc) as (r & out & E & R).
  - split; [exact Hh|]. split; [exact Hf|]. split; [exact H1|exact H2].
  - exact Bs.
  - exact Ls.
  - reflexivity.
  - unfold sub. apply bytes_firstn, bytes_skipn, BU.
  - unfold sub. rewrite firstn_length, skipn_length, LU. destruct kc; reflexivity.
  - constructor; [exact BE|constructor].
  - cbn. lia.
  - cbn [app concat]. rewrite app_nil_r. exact LE.
  - rewrite firstn_skipn in E. cbn [app map wrap_run] in E. cbn [app concat] in R. rewrite app_nil_r in R.
    destruct (wrap_do (wcipher kc) (w_host w') (w_fresh w') (w_stack w') _ enc) as [[r' out'] wx']. assert (ER : (r', out') = (r, out)) by congruence.
    injection ER as -> ->. destruct R as [(-> & LO & EX)|(-> & -> & EX)].
    + exists out. split; [reflexivity|]. left. split; [exact LO|exact EX].
    + exists []. split; [reflexivity|]. right. split; [reflexivity|exact EX].
Qed.
Print Assumptions C58_agreement_opens.

(** The message reaches the set-up of a cipher: parameters that are a SEQUENCE, KExp15 as algorithm. *)
Definition kexp15_message (m : kari) : Prop := exists kc p, m_alg m = mk_walg (oid (wrap_object kc)) (Some (TAG_SEQUENCE :: p)).
Lemma hd_seq p : (hd 0%N p =? TAG_SEQUENCE)%N = true -> exists r, p = TAG_SEQUENCE :: r.
Proof. destruct p as [|t r]; [discriminate|]. cbn [hd]. intros H. apply N.eqb_eq in H. subst t. exists r. reflexivity. Qed.
Lemma kexp_dec m : {kc & {p | m_alg m = mk_walg (oid (wrap_object kc)) (Some (TAG_SEQUENCE :: p))}} + {~ kexp15_message m}.
Proof.
  destruct (m_alg m) as [o [p|]] eqn:E.
  2:{ right. intros (kc & p & H). congruence. }
  destruct (kexp_cipher o) as [wc|] eqn:K.
  - assert (X : {kc | o = oid (wrap_object kc)}).
    { unfold kexp_cipher in K. destruct (eqbl o oid_kuznyechik_kexp15) eqn:E1; [exists KUZNYECHIK; apply eqbl_eq in E1; exact E1|].
      destruct (eqbl o oid_magma_kexp15) eqn:E2; [exists MAGMA; apply eqbl_eq in E2; exact E2|discriminate K]. }
    destruct X as [kc ->]. destruct p as [|t r]; [right; intros (kc' & p' & H); congruence|].
    destruct (N.eqb_spec t TAG_SEQUENCE) as [->|N]; [left; exists kc, r; reflexivity|]. right. intros (kc' & p' & H). congruence.
  - right. intros (kc & p' & H). assert (o = oid (wrap_object kc)) by congruence. subst o. rewrite kexp_known in K. discriminate K.
Qed.
(** The originator's key as a key of the recipient's type and curve. *)
Definition originator (curves : curve_nid -> option curve) (c : curve) (a : pkey_alg) (xp : xpub) : option (pt (cv c)) :=
  match x509_pubkey_get curves c xp with K_same a' P => if alg_eqb a' a then Some P else None | _ => None end.

(** All that can happen with a key agreement message, for a recipient with a private key and no VKO mode. *)
Lemma kari_cases curves c w buf beyond (x : tctx (cv c)) m d :
  ec_laws (cv c) -> t_alg x <> A_other -> k_priv (t_key x) = Some d -> peer_public x -> d_vko (t_data x) = Vko_0 ->
  match m_ukm m with Some u => Z.of_nat (length u) < 2 ^ 64 | None => True end ->
  let f := gost_cms_set_kari_shared_info curves c w buf beyond x m in
  (a_param (m_alg m) = None -> f = Dies) /\
  (a_param (m_alg m) <> None -> ~ kexp15_message m -> f = Returns (mk_set 0 x None false false false)) /\
  (forall kc p, m_alg m = mk_walg (oid (wrap_object kc)) (Some (TAG_SEQUENCE :: p)) ->
     match m_ukm m with
     | None => f = Dies
     | Some u =>
       if (32 <? length u)%nat then f = Returns (mk_set 0 x None false false false)
       else
         let x1 := t_with_data x (with_ukm (t_data x) (overwrite (d_ukm (t_data x)) 0 u) (Z.of_nat (length u))) in
         let usable_len := ((length u =? 8) || (length u =? 32))%nat in
         match m_orig m with
         | None =>
             match t_peer x with
             | None => f = if usable_len then Dies else Returns (mk_set 0 x1 None false false false)
             | Some _ => exists q, f = Returns q /\ q_freed q = false /\ (q_ret q = 1 -> q_over q = (length u <? 24 + half kc)%nat)
             end
         | Some xp =>
             match originator curves c (t_alg x) xp with
             | None => f = Returns (mk_set 0 x1 None false true false)
             | Some P => exists q, f = Returns q /\ (q_ret q = 0 \/ q_ret q = 1) /\ q_freed q = (q_ret q =? 0) /\ (q_ret q = 1 -> q_over q = (length u <? 24 + half kc)%nat)
             end
         end
     end).
Proof.
  intros L A KD PP VK BU f. subst f. unfold gost_cms_set_kari_shared_info. split; [|split].
  - intros ->. reflexivity.
  - intros NP NK. destruct (a_param (m_alg m)) as [p|] eqn:EP; [|congruence].
    destruct (hd 0%N p =? TAG_SEQUENCE)%N eqn:ES; [|reflexivity]. destruct (hd_seq p ES) as [r ->]. cbn [negb].
    destruct (kexp_cipher (a_oid (m_alg m))) as [wc|] eqn:K; [|reflexivity]. destruct (kexp_found _ _ K) as (kc & EO & _).
    exfalso. apply NK. exists kc, r. destruct (m_alg m) as [o q]. cbn in EP, EO. congruence.
  - intros kc p EM. rewrite EM. cbn [a_param a_oid hd]. rewrite N.eqb_refl. cbn [negb]. rewrite kexp_known.
    destruct (m_ukm m) as [u|]; [|reflexivity]. destruct (Nat.ltb_spec 32 (length u)) as [LU|LU].
    { rewrite set_iv_long by assumption. destruct x as [xa xk xp xd]. reflexivity. }
    rewrite set_iv_ok by exact LU. cbn [Z.leb Z.compare]. cbv zeta.
    set (x1 := t_with_data x (with_ukm (t_data x) (overwrite (d_ukm (t_data x)) 0 u) (Z.of_nat (length u)))).
    assert (WV : wrap_ivlen (wcipher kc) = half kc) by apply wivlen.
    assert (CD : forall P, exists o, ctx_derive w (t_with_peer x1 (EcModel.mk_key None (Some P))) = Returns o).
    { intros P. eexists. apply (ctx_derive_ec (cv c) L w (t_with_peer x1 (EcModel.mk_key None (Some P))) d (EcModel.mk_key None (Some P)) P); [exact KD|reflexivity|reflexivity|cbn; lia|exact A]. }
    destruct (m_orig m) as [xp|].
    + unfold originator. change (t_alg x1) with (t_alg x). destruct (x509_pubkey_get curves c xp) as [|a'|a' P]; [reflexivity|reflexivity|].
      destruct (alg_eqb a' (t_alg x)); [|reflexivity]. destruct (CD P) as [[keys|] E]; rewrite E.
      * eexists. split; [reflexivity|]. cbn [q_ret q_freed q_over]. split; [right; reflexivity|]. split; [reflexivity|]. intros _. rewrite WV. reflexivity.
      * eexists. split; [reflexivity|]. cbn [q_ret q_freed q_over]. split; [left; reflexivity|]. split; [reflexivity|discriminate].
    + assert (NB : forall n, (Z.of_nat (length u) =? Z.of_nat n) = (length u =? n)%nat).
      { intros n. destruct (Nat.eqb_spec (length u) n) as [->|N]; [apply Z.eqb_refl|apply Z.eqb_neq; lia]. }
      destruct (t_peer x) as [k|] eqn:TP.
      * assert (EX : exists o, ctx_derive w x1 = Returns o).
        { destruct (k_pub k) as [P|] eqn:KP; [|unfold peer_public in PP; rewrite TP in PP; congruence].
          eexists. apply (ctx_derive_ec (cv c) L w x1 d k P); [exact KD|exact TP|exact KP|cbn; lia|exact A]. }
        destruct EX as [[keys|] E]; rewrite E; eexists; (split; [reflexivity|]); cbn [q_ret q_freed q_over]; (split; [reflexivity|]); [intros _; rewrite WV; reflexivity|discriminate].
      * unfold ctx_derive. change (t_peer x1) with (t_peer x). rewrite TP. change (d_vko (t_data x1)) with (d_vko (t_data x)). rewrite VK.
        change (d_ukm_size (t_data x1)) with (Z.of_nat (length u)). cbn [vko_md].
        change 0 with (Z.of_nat 0). change 8 with (Z.of_nat 8). change 32 with (Z.of_nat 32). rewrite !NB.
        destruct (Nat.eqb_spec (length u) 0) as [E0|E0]; [rewrite E0; reflexivity|].
        destruct (length u =? 8)%nat; [reflexivity|]. cbn [orb]. destruct (length u =? 32)%nat; reflexivity.
Qed.
(** A key agreement message kills the process exactly if its algorithm has no parameters, or it is a KExp15 message without a
    UKM, or one with a UKM of 8 or 32 bytes and no key of the originator, unless the application has set one. *)
Theorem C58_agreement_message_kills_refuted :
  forall curves c w buf beyond n (x : tctx (cv c)) m d,
    ec_laws (cv c) -> t_alg x <> A_other -> k_priv (t_key x) = Some d -> peer_public x -> d_vko (t_data x) = Vko_0 ->
    match m_ukm m with Some u => Z.of_nat (length u) < 2 ^ 64 | None => True end ->
    (pkey_ctrl_gost curves c w buf beyond (t_alg x) n (Rq_cms_envelope 1 (Some x) (RI_agree m)) = Dies <->
     a_param (m_alg m) = None \/
     (kexp15_message m /\ (m_ukm m = None \/
        (m_orig m = None /\ t_peer x = None /\ exists u, m_ukm m = Some u /\ (length u = 8%nat \/ length u = 32%nat))))).
Proof.
  intros curves c w buf beyond n x m d L A KD PP VK BU.
  destruct (kari_cases curves c w buf beyond x m d L A KD PP VK BU) as (K1 & K2 & K3).
  unfold pkey_ctrl_gost. destruct (default_digest (t_alg x)) eqn:DD; [|destruct (t_alg x); try congruence; discriminate DD]. cbv zeta. cbn [Z.eqb].
  unfold gost_cms_set_shared_info. set (f := gost_cms_set_kari_shared_info curves c w buf beyond x m) in *. clearbody f.
  assert (FD : (match f with Dies => Dies | Returns q => Returns (mk_eff (q_ret q) None None Stored_nothing (Some q)) end = Dies) <-> f = Dies)
    by (destruct f; split; intros H; try reflexivity; discriminate H).
  rewrite FD. clear FD. destruct (a_param (m_alg m)) as [pp|] eqn:EP; [|split; [intros _; left; reflexivity|intros _; apply K1; reflexivity]].
  destruct (kexp_dec m) as [(kc & p & EM)|NK].
  2:{ rewrite (K2 ltac:(discriminate) NK). split; [discriminate|]. intros [H|[H _]]; [discriminate H|contradiction]. }
  assert (KM : kexp15_message m) by (exists kc, p; exact EM). specialize (K3 kc p EM).
  destruct (m_ukm m) as [u|]; [|rewrite K3; split; [intros _; right; split; [exact KM|left; reflexivity]|reflexivity]].
  destruct (Nat.ltb_spec 32 (length u)) as [LU|LU].
  { rewrite K3. split; [discriminate|]. intros [H|[_ [H|(_ & _ & u' & H & N)]]]; [discriminate H|discriminate H|]. assert (u = u') by congruence. subst u'. lia. }
  cbv zeta in K3. destruct (m_orig m) as [xp|].
  - assert (ND : f <> Dies).
    { destruct (originator curves c (t_alg x) xp); [destruct K3 as (q & -> & _)|rewrite K3]; discriminate. }
    split; [contradiction|]. intros [H|[_ [H|(H & _)]]]; discriminate H.
  - destruct (t_peer x) as [k|].
    + destruct K3 as (q & -> & _). split; [discriminate|]. intros [H|[_ [H|(_ & H & _)]]]; discriminate H.
    + rewrite K3. split.
      * intros H. right. split; [exact KM|]. right. split; [reflexivity|]. split; [reflexivity|]. exists u. split; [reflexivity|].
        destruct (Nat.eqb_spec (length u) 8); [left; assumption|]. destruct (Nat.eqb_spec (length u) 32); [right; assumption|]. discriminate H.
      * intros [H|[_ [H|(_ & _ & u' & H & N)]]]; [discriminate H|discriminate H|]. assert (u = u') by congruence. subst u'. destruct N as [-> | ->]; reflexivity.
Qed.
Print Assumptions C58_agreement_message_kills_refuted.
(** If the key of the originator is refused (no decodable point, another type, another curve), parts of the message are freed: they
    belong to the message, which frees them once more. *)
Theorem C58_refused_originator_freed_refuted :
  forall curves c w buf beyond n (x : tctx (cv c)) m d kc p u xp,
    ec_laws (cv c) -> t_alg x <> A_other -> k_priv (t_key x) = Some d -> peer_public x -> d_vko (t_data x) = Vko_0 ->
    m = mk_kari (mk_walg (oid (wrap_object kc)) (Some (TAG_SEQUENCE :: p))) (Some u) (Some xp) -> (length u <= 32)%nat ->
    originator curves c (t_alg x) xp = None ->
    exists q, pkey_ctrl_gost curves c w buf beyond (t_alg x) n (Rq_cms_envelope 1 (Some x) (RI_agree m)) = Returns (mk_eff 0 None None Stored_nothing (Some q)) /\
      q_freed q = true.
Proof.
  intros curves c w buf beyond n x m d kc p u xp L A KD PP VK EM LU OR.
  destruct (kari_cases curves c w buf beyond x m d L A KD PP VK) as (_ & _ & K3); [rewrite EM; cbn; lia|].
  specialize (K3 kc p ltac:(rewrite EM; reflexivity)). 
  assert (M1 : m_ukm m = Some u) by (rewrite EM; reflexivity). assert (M2 : m_orig m = Some xp) by (rewrite EM; reflexivity). rewrite M1 in K3.
  replace (32 <? length u)%nat with false in K3 by (symmetry; apply Nat.ltb_ge; exact LU). cbv zeta in K3. rewrite M2, OR in K3.
  unfold pkey_ctrl_gost. destruct (default_digest (t_alg x)) eqn:DD; [|destruct (t_alg x); try congruence; discriminate DD]. cbv zeta. cbn [Z.eqb].
  unfold gost_cms_set_shared_info. rewrite K3. eexists. split; reflexivity.
Qed.
Print Assumptions C58_refused_originator_freed_refuted.
(** A UKM of 8 bytes is accepted: the IV is then read from the memory 16 bytes after the UKM, and the second half of the key
    is what the stack held. *)
Theorem C58_short_ukm_reads_beyond_refuted :
  forall curves c w buf beyond a n d e peer data kc u xp p K,
    usable curves c -> a <> A_other -> length buf = 64%nat -> d_vko data = Vko_0 -> length (d_ukm data) = 32%nat -> ukm8 u ->
    spki a (cv c) (smul e (gen (cv c))) = Some xp -> kek (cv c) a d (smul e (gen (cv c))) u = Some K ->
    let x := mk_t a (pair (cv c) d) peer data in
    let m := mk_kari (mk_walg (oid (wrap_object kc)) (Some (TAG_SEQUENCE :: p))) (Some u) (Some xp) in
    exists q wx, pkey_ctrl_gost curves c w buf beyond a n (Rq_cms_envelope 1 (Some x) (RI_agree m)) = Returns (mk_eff 1 None None Stored_nothing (Some q)) /\
      q_wrap q = Some (wcipher kc, wx) /\ q_over q = true /\
      w_key wx = K ++ skipn 32 buf /\ w_iv wx = overwrite (zeros 8) 0 (firstn (half kc) (skipn 16 beyond)).
Proof.
  intros curves c w buf beyond a n d e peer data kc u xp p K U A LB VK LD [LU BU] SP EK x m. pose proof U as (_ & _ & L & _).
  destruct (kek_nonzero _ L _ _ _ _ _ EK) as (_ & NE & _).
  destruct (spki_xpub curves c U a (smul e (gen (cv c))) A (not_zero _ L e NE)) as (xp' & SP' & _ & XG & _).
  assert (xp' = xp) by congruence. subst xp'.
  set (x' := t_with_peer (t_with_data x (with_ukm data (overwrite (d_ukm data) 0 u) 8)) (EcModel.mk_key None (Some (smul e (gen (cv c)))))).
  assert (DE : ctx_derive w x' = Returns (Some K)).
  { rewrite <- EK. unfold ctx_derive. cbn [x' t_with_peer t_with_data t_data t_alg t_key t_peer x with_ukm d_ukm d_ukm_size d_vko k_pub]. rewrite VK. cbn [vko_md Z.eqb Pos.eqb].
    replace (firstn 8 (overwrite (d_ukm data) 0 u)) with u; [apply (vko_kek (cv c) L w a _ _ d u A); reflexivity|].
    unfold overwrite. rewrite firstn_O. cbn [app]. symmetry. apply firstn_app_exact. exact LU. }
  unfold pkey_ctrl_gost. destruct (default_digest a) eqn:DD; [|destruct a; try congruence; discriminate DD]. cbv zeta. cbn [Z.eqb].
  unfold gost_cms_set_shared_info, gost_cms_set_kari_shared_info. cbn [m m_alg m_ukm m_orig a_param a_oid hd]. rewrite N.eqb_refl. cbn [negb].
  rewrite kexp_known. assert (SI : pkey_gost_ctrl None (t_data x) (R_set_iv (Z.of_nat (length u)) (Some u)) = Ret 1 (with_ukm data (overwrite (d_ukm data) 0 u) 8))
    by (rewrite set_iv_ok by lia; rewrite LU; reflexivity).
  rewrite SI. cbn [Z.leb Z.compare]. rewrite XG.
  assert (AE : alg_eqb a (t_alg (t_with_data x (with_ukm data (overwrite (d_ukm data) 0 u) 8))) = true) by apply alg_eqb_refl. rewrite AE. fold x'. rewrite DE, LU.
  eexists _, _. split; [reflexivity|]. split; [reflexivity|]. cbn [q_over]. split; [destruct kc; reflexivity|].
  destruct (kek_key32 _ _ _ _ _ _ EK) as [LK _]. unfold kari_init, wrap_init. cbn [w_key w_iv]. rewrite wivlen. split.
  - unfold overwrite at 2. rewrite firstn_O, LK. cbn [app Nat.add]. rewrite firstn_all2 by (rewrite app_length, skipn_length; lia).
    apply ow_full. rewrite app_length, skipn_length, LK, LB. reflexivity.
  - rewrite skipn_app, LU. rewrite (skipn_all2 u) by lia. reflexivity.
Qed.
Print Assumptions C58_short_ukm_reads_beyond_refuted.

(** * The hypotheses are met *)
(** A content cipher with ACPKM, on a toy curve: the recipient, whose context was set to nothing, opens the key. *)
Example C58_toy_transport :
  let c := toy_curve Tc512_C in
  let curves := fun n => Some (toy_curve n) in
  let x2 := mk_t A2012_512 (pair (cv c) 7) None pdata0 in
  exists data1 alg q o x',
    pkey_gost_ctrl None pdata0 (R_cipher C_kuz_ctr_acpkm) = Ret 1 data1 /\
    let x1 := mk_t A2012_512 (public (cv c) 7) None data1 in
    pkey_ctrl_gost curves c world0 [] [] A2012_512 Tc512_C (Rq_cms_envelope 0 (Some x1) (RI_trans (mk_walg [] None))) = Returns (mk_eff 1 None (Some alg) Stored_nothing None) /\
    pkey_gost_encrypt world0 (Some (zeros 15 ++ 1 :: repeat 7 16))%N [0; 5] (zeros 44) x1 true 600 (repeat 9%N 32) 32 = Returns o /\ o_ret o = 1 /\
    pkey_ctrl_gost curves c world0 [] [] A2012_512 Tc512_C (Rq_cms_envelope 1 (Some x2) (RI_trans alg)) = Returns (mk_eff 1 None None Stored_nothing (Some q)) /\
    pkey_gost_decrypt curves c world0 (q_ctx q) (Some 32%nat) (o_out o) = Returns (mk_got 1 x' (Some (repeat 9%N 32)), 32%nat).
Proof.
  intros c curves x2. pose proof C53_toy_ps as T. cbv zeta in T. destruct T as (o & _ & EN & R1 & _).
  assert (U : usable curves c) by (apply toy_usable; discriminate).
  set (ukm := (zeros 15 ++ 1 :: repeat 7 16)%N) in *. set (key := repeat 9%N 32) in *.
  assert (UK : ukm_usable ukm). { split; [reflexivity|]. split; [apply bytes_forallb; reflexivity|]. vm_compute. discriminate. }
  assert (HK : blkn 32 key) by (split; [reflexivity|apply bytes_forallb; reflexivity]).
  destruct (C58_envelope_roundtrip_new curves c world0 world0 world0 world0 [] [] [] [] A2012_512 7 None None pdata0 pdata0 C_kuz_ctr_acpkm KUZNYECHIK
    (Some ukm) [0; 5] (zeros 44) 600 key 5 (with_ukm pdata0 ukm 32) o [] 32%nat (mk_walg [] None) U world0_ok world0_ok (or_intror eq_refl)) as (data1 & alg & q & CT & EV & RV & DEC).
  { right; left; reflexivity. } { apply toy_draws; lia. } { reflexivity. } { split; reflexivity. } { reflexivity. } { exact UK. } { reflexivity. } { exact HK. } { reflexivity. } { left; reflexivity. }
  assert (ED : data1 = with_cipher pdata0 C_kuz_ctr) by (cbn [pkey_gost_ctrl] in CT; congruence). subst data1.
  cbn [t_with_data t_alg t_key t_peer] in EV, DEC. destruct (DEC EN R1 (Nat.le_refl 32)) as [x' D]. rewrite app_nil_r in D.
  eexists _, alg, q, o, x'. split; [reflexivity|]. cbv zeta. split; [exact EV|]. split; [exact EN|]. split; [exact R1|]. split; [exact RV|exact D].
Qed.
(** A key agreement message: the export of a key under the agreed keys is opened. *)
Example C58_toy_agreement :
  let c := toy_curve Tc512_C in
  let curves := fun n => Some (toy_curve n) in
  let x := mk_t A2012_512 (pair (cv c) 7) None pdata0 in
  let u := (zeros 15 ++ 1 :: repeat 7 16)%N in
  exists xp keys q wx, keg (cv c) 5 (smul 7 (gen (cv c))) u A2012_512 = Some keys /\
    let m := mk_kari (mk_walg (oid (wrap_object MAGMA)) (Some [TAG_SEQUENCE; 0%N])) (Some u) (Some xp) in
    pkey_ctrl_gost curves c world0 (zeros 64) [] A2012_512 Tc512_C (Rq_cms_envelope 1 (Some x) (RI_agree m)) = Returns (mk_eff 1 None None Stored_nothing (Some q)) /\
    q_wrap q = Some (WRAP_MAGMA, wx) /\
    exists k, length k = 32%nat /\ kek_cipher world0 (zeros 64) (q_ctx q) WRAP_MAGMA wx (ps_export MAGMA keys u (repeat 9%N 32)) = Returns (Some k).
Proof.
  intros c curves x u. assert (U : usable curves c) by (apply toy_usable; discriminate). pose proof U as (_ & _ & L & _).
  assert (UK : ukm_usable u). { split; [reflexivity|]. split; [apply bytes_forallb; reflexivity|]. vm_compute. discriminate. }
  assert (NE : 5 mod order (cv c) <> 0) by discriminate.
  destruct (spki_xpub curves c U A2012_512 (smul 5 (gen (cv c))) ltac:(discriminate) (not_zero _ L 5 NE)) as (xp & SP & _).
  destruct (C53_ps_keys_are_KEG_and_shared (cv c) L A2012_512 5 7 u UK) as [K1 _].
  pose proof (C58_agreement_opens curves c world0 world0 (zeros 64) (zeros 64) [] A2012_512 Tc512_C 7 5 None pdata0 MAGMA u xp [0%N] U world0_ok world0_ok
    (or_intror eq_refl) eq_refl eq_refl eq_refl eq_refl UK NE SP) as T. cbv zeta in T. rewrite <- K1 in T |- *.
  destruct (ps_keys (cv c) A2012_512 5 (smul 7 (gen (cv c))) u) as [keys|] eqn:EK.
  - destruct T as (q & wx & E & QW & _ & _ & T). exists xp, keys, q, wx. split; [reflexivity|]. cbv zeta. split; [exact E|]. split; [exact QW|].
    pose proof (ps_keys_out (cv c) _ _ _ _ _ L UK EK) as HK. pose proof UK as (LU & _ & _).
    assert (BK : bytes (repeat 9%N 32)) by (apply bytes_forallb; reflexivity).
    destruct (T (ps_export MAGMA keys u (repeat 9%N 32))) as (k & EC & [[LK EX]|[_ NO]]).
    + destruct (halves keys HK) as (H1 & H2 & _). pose proof UK as (_ & BU & _). unfold ps_export. rewrite <- export_std by reflexivity. unfold export_of.
      assert (BI : bytes (sub 24 (half MAGMA) u)) by apply iv_bytes, BU.
      apply ctr_mode_bytes; [exact H2|]. apply bytes_app; [exact BK|]. apply omac_mode_bytes; [exact H1|]. apply bytes_app; assumption.
    + apply (export_len MAGMA keys u (repeat 9%N 32) HK LU).
    + exists k. split; [exact LK|exact EC].
    + exfalso. exact (NO (repeat 9%N 32) eq_refl eq_refl).
  - exfalso. apply (C53_ps_keys_exist (cv c) L A2012_512 5 7 u (or_intror eq_refl) UK) in EK.
    destruct EK as [EK|[EK|EK]]; revert EK; vm_compute; discriminate.
Qed.
