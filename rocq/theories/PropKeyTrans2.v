(** Property C53, second part: the 2018 variant of key transport (PSKeyTransport). *)
From Coq Require Import ZArith List Bool Lia Znumtheory.
From Verif Require Import Bytes BytesProofs StreebogModel Gost89Model Gost89Sboxes Gost89Spec Gost89Proofs PropGost89 CryptModel KeywrapModel KeywrapSpec PropKeywrap
  KdfModel KdfSpec KexpModel KexpSpec PropKexp PropOmac EcLadderModel EcSpec EcLadderProofs EcModel EcProofs ToyGroup PropEc PropVko Asn1Model
  AmethModel PropAmeth CmsParamsModel PropCms PmethModel KeyTransAsn1 KeyTransAsn1Proofs KeyTransModel KeyTransSpec KeyTransProofs PropKeyTrans PropCrypt.
Import ListNotations.
Local Open Scope Z_scope.

(** The UKM is not the one C40 shows to be treated wrongly. *)
Definition ukm_usable (ukm : list N) : Prop := length ukm = 32%nat /\ bytes ukm /\ be2n (firstn 16 ukm) <> 0%N.
Lemma gost_keg_ps C : ec_laws C -> forall h c ukm a P d, ukm_usable ukm -> gost_keg C h c ukm a P d = ps_keys C a d P ukm.
Proof.
  intros L h c ukm a P d (LU & B & N). rewrite keg_general by assumption. cbv zeta. unfold ps_keys.
  fold (agreed C d (digest_number (real_ukm ukm)) P). rewrite (real_ukm_number ukm) by (auto; lia). reflexivity.
Qed.
(** The keys are those of KEG, and the same on both sides. *)
Theorem C53_ps_keys_are_KEG_and_shared :
  forall C, ec_laws C -> forall a d y ukm, ukm_usable ukm ->
    ps_keys C a d (smul y (gen C)) ukm = keg C d (smul y (gen C)) ukm a /\
    ps_keys C a d (smul y (gen C)) ukm = ps_keys C a y (smul d (gen C)) ukm.
Proof.
  intros C L a d y ukm U. pose proof U as (LU & B & N). set (h := mk_host RefLE false true).
  rewrite <- (gost_keg_ps C L h ctx0 ukm a (smul y (gen C)) d U). split; [apply C40_keg_is_standard; auto; lia|].
  rewrite <- (gost_keg_ps C L h ctx0 ukm a (smul d (gen C)) y U). apply keg_sym; assumption.
Qed.
Print Assumptions C53_ps_keys_are_KEG_and_shared.
Lemma variant_suite kc : variant_of (suite_of kc) = Some V_2018. Proof. destruct kc; reflexivity. Qed.

(** What is sent: PSKeyTransport with the export of the key under the KEG keys, the sender's public key and the
    UKM.  No reference to a key is lost or given back twice, whatever the outcome. *)
Theorem C53_ps_sends_the_standard_message :
  forall curves c w rnd draws junk (x : tctx (cv c)) n key y kc data e,
    usable curves c -> world_ok w -> a2012 (t_alg x) -> k_pub (t_key x) = Some (smul y (gen (cv c))) ->
    d_cipher (t_data x) = suite_of kc -> draws_ok (cv c) draws -> sender_key x draws e -> 0 < e < order (cv c) ->
    ps_data rnd (t_data x) = Some data -> ukm_usable (d_ukm data) -> d_ukm_size data = 32 -> bytes key ->
    exists xp o, spki (t_alg x) (cv c) (smul e (gen (cv c))) = Some xp /\
      pkey_gost_encrypt w rnd draws junk x true n key (length key) = Returns o /\ o_refs o = 0 /\
      match keg (cv c) e (smul y (gen (cv c))) (d_ukm data) (t_alg x) with
      | Some keys =>
          let m := ps_message kc keys (d_ukm data) key xp in
          (o_ret o = 1 <-> (length m <= n)%nat) /\ (o_ret o = 1 -> o_out o = m /\ o_len o = length m) /\
          (o_ret o <> 1 -> o_ret o = 0 /\ o_out o = [] /\ o_len o = n)
      | None => o_ret o = 0 /\ o_out o = []
      end.
Proof.
  intros curves c w rnd draws junk x n key y kc data e U W A KP SC D SK EB PD UK SZ BK. pose proof U as (_ & _ & L & _). pose proof UK as (LU & BU & _).
  assert (AO : t_alg x <> A_other) by (destruct A as [E|E]; rewrite E; discriminate).
  assert (NZ : smul e (gen (cv c)) <> pzero (cv c)) by (apply not_zero; [exact L|rewrite Z.mod_small; lia]).
  destruct (spki_xpub curves c U (t_alg x) (smul e (gen (cv c))) AO NZ) as (xp & SP & _). exists xp.
  unfold pkey_gost_encrypt. rewrite SC, variant_suite.
  rewrite (ps_encrypt_eq curves c w rnd draws x n key (length key) y kc data e U W A KP SC D (conj EB SK) PD LU BU BK).
  rewrite (gost_keg_ps (cv c) L) by exact UK. rewrite (proj1 (C53_ps_keys_are_KEG_and_shared (cv c) L (t_alg x) e y (d_ukm data) UK)).
  rewrite SP, SZ. change (Z.to_nat 32) with 32%nat. rewrite (firstn_all2 (d_ukm data)) by lia. rewrite firstn_all.
  destruct (keg (cv c) e (smul y (gen (cv c))) (d_ukm data) (t_alg x)) as [keys|].
  2:{ eexists. split; [reflexivity|]. split; [reflexivity|]. split; [reflexivity|]. split; reflexivity. }
  fold (ps_message kc keys (d_ukm data) key xp). cbv zeta. set (m := ps_message _ _ _ _ _). clearbody m. destruct (Nat.ltb_spec n (length m)) as [G|G].
  - eexists. split; [reflexivity|]. split; [reflexivity|]. cbn [o_ret o_out o_len o_refs]. split; [reflexivity|].
    split; [split; intros H; [discriminate H|lia]|]. split; [intros H; discriminate H|auto].
  - eexists. split; [reflexivity|]. split; [reflexivity|]. cbn [o_ret o_out o_len o_refs]. split; [reflexivity|].
    split; [split; intros H; [exact G|reflexivity]|]. split; [auto|congruence].
Qed.
Print Assumptions C53_ps_sends_the_standard_message.
Lemma iv_bytes kc (ukm : list N) : bytes ukm -> bytes (firstn (half kc) (skipn 24 ukm)).
Proof. intros B. apply bytes_firstn, bytes_skipn, B. Qed.
Lemma export_len kc keys ukm cek : blkn 64 keys -> length ukm = 32%nat -> length (ps_export kc keys ukm cek) = (length cek + mlen kc)%nat.
Proof.
  intros HK LU. destruct (halves keys HK) as (H1 & H2 & _). unfold ps_export. rewrite <- export_std by (apply iv_len, LU).
  apply export_length; assumption.
Qed.
Lemma ps_keys_out C a d P ukm keys : ec_laws C -> ukm_usable ukm -> ps_keys C a d P ukm = Some keys -> blkn 64 keys.
Proof.
  intros L U H. rewrite <- (gost_keg_ps C L (mk_host RefLE false true) ctx0 ukm a P d U) in H. destruct U as (_ & B & _). exact (keg_out _ _ _ _ _ _ _ _ L B H).
Qed.
Lemma ps_accepts curves c w (x : tctx (cv c)) inp m kc a P d k cap :
    usable curves c -> world_ok w -> a2012 (t_alg x) -> d_cipher (t_data x) = suite_of kc -> k_priv (t_key x) = Some d ->
    bytes (s_psexp m) -> match s_ukm m with Some u => (N.of_nat (length u) < 2 ^ 60)%N | None => True end -> (32 <= cap)%nat ->
    d2i_pst inp = Some m -> x509_pubkey_get curves c (s_ephem m) = K_same a P -> length (s_psexp m) = (32 + mlen kc)%nat ->
    let ukm := d_ukm (ps_open_data (t_data x) (s_ukm m)) in
    ukm_usable ukm ->
    ((exists x', pkey_gost_decrypt curves c w x (Some cap) inp = Returns (mk_got 1 x' (Some k), 32%nat)) <->
     exists keys, ps_keys (cv c) (t_alg x) d P ukm = Some keys /\ length k = 32%nat /\ s_psexp m = ps_export kc keys ukm k).
Proof.
  intros U W A SC KD B LSU CAP DM XK LP ukm UK. pose proof U as (_ & _ & L & _). pose proof UK as (LU & BU & _).
  unfold pkey_gost_decrypt. replace (cap <? 32)%nat with false by (symmetry; apply Nat.ltb_ge; exact CAP). rewrite SC, variant_suite.
  rewrite (ps_decrypt_eq curves c w x inp m kc a P d A SC DM LSU XK KD). fold ukm.
  rewrite (gost_keg_ps (cv c) L) by exact UK. destruct (ps_keys (cv c) (t_alg x) d P ukm) as [keys|] eqn:EK.
  2:{ split; [intros [x' H]; inversion H|intros (keys & H & _); discriminate H]. }
  destruct (halves keys (ps_keys_out _ _ _ _ _ _ L UK EK)) as (H1 & H2 & H3). rewrite H3. destruct W as (HL & R & F & BS & LS).
  pose proof (C33_import_accepts_exactly_the_exports (w_host w) (w_fresh w) (w_stack w) kc (firstn 32 keys) (skipn 32 keys)
    (firstn (half kc) (skipn 24 ukm)) (s_psexp m) k (conj HL (conj F (conj H1 H2))) (iv_bytes kc ukm BU) B BS LS (iv_len kc ukm LU) LP) as IA.
  fold (sub 24 (half kc) ukm) in IA |- *. fold (ps_export kc keys ukm k) in IA.
  set (im := gost_kimp15 _ _ _ _ _ _ _ _ _) in *. clearbody im. split.
  - intros [x' H]. exists keys. split; [reflexivity|]. apply IA. destruct im; inversion H. reflexivity.
  - intros (keys' & E & H). assert (keys' = keys) by congruence. subst keys'. apply IA in H. rewrite H. eexists. reflexivity.
Qed.
(** Opening, for a message whose wrapped key has the length it should have: a key comes back exactly if the
    wrapped key is its export under the keys of KEG. *)
Theorem C53_ps_accepts_exactly_the_exports :
  forall curves c w (x : tctx (cv c)) inp m kc a P d k cap,
    usable curves c -> world_ok w -> a2012 (t_alg x) -> d_cipher (t_data x) = suite_of kc -> k_priv (t_key x) = Some d ->
    bytes inp -> (N.of_nat (length inp) < 2 ^ 60)%N -> (32 <= cap)%nat ->
    d2i_pst inp = Some m -> x509_pubkey_get curves c (s_ephem m) = K_same a P -> length (s_psexp m) = (32 + mlen kc)%nat ->
    let ukm := d_ukm (ps_open_data (t_data x) (s_ukm m)) in
    ukm_usable ukm ->
    ((exists x', pkey_gost_decrypt curves c w x (Some cap) inp = Returns (mk_got 1 x' (Some k), 32%nat)) <->
     exists keys, ps_keys (cv c) (t_alg x) d P ukm = Some keys /\ length k = 32%nat /\ s_psexp m = ps_export kc keys ukm k).
Proof.
  intros curves c w x inp m kc a P d k cap U W A SC KD B LI CAP DM XK LP. pose proof (d2i_pst_within _ _ DM) as [WP WU].
  apply (ps_accepts curves c w x inp m kc a P d k cap); auto; [exact (within_bytes _ _ WP B)|].
  destruct (s_ukm m) as [u|]; [|exact I]. destruct WU as [_ WU]. lia.
Qed.
Print Assumptions C53_ps_accepts_exactly_the_exports.
(** Round trip: what was sent for a 32-byte key is opened. *)
Theorem C53_ps_roundtrip :
  forall curves c w1 w2 a d peer peer' data1 data2 kc rnd draws junk n key e data o rest cap,
    usable curves c -> world_ok w1 -> world_ok w2 -> a2012 a ->
    d_cipher data1 = suite_of kc -> d_cipher data2 = suite_of kc ->
    let x1 := mk_t a (public (cv c) d) peer data1 in
    let x2 := mk_t a (pair (cv c) d) peer' data2 in
    draws_ok (cv c) draws -> sender_key x1 draws e -> 0 < e < order (cv c) ->
    ps_data rnd data1 = Some data -> ukm_usable (d_ukm data) -> d_ukm_size data = 32 -> blkn 32 key ->
    length (d_ukm data2) = 32%nat -> (d_ukm_size data2 = 0 \/ d_ukm data2 = d_ukm data) ->
    pkey_gost_encrypt w1 rnd draws junk x1 true n key 32 = Returns o -> o_ret o = 1 -> (32 <= cap)%nat ->
    exists x', pkey_gost_decrypt curves c w2 x2 (Some cap) (o_out o ++ rest) = Returns (mk_got 1 x' (Some key), 32%nat).
Proof.
  intros curves c w1 w2 a d peer peer' data1 data2 kc rnd draws junk n key e data o rest cap U W1 W2 A S1 S2 x1 x2 D SK EB PD UK SZ [LK BK] LD2 HD EN R1 CAP.
  pose proof U as (_ & _ & L & _). pose proof UK as (LU & BU & _).
  destruct (C53_ps_sends_the_standard_message curves c w1 rnd draws junk x1 n key d kc data e U W1 A eq_refl S1 D SK EB PD UK SZ BK) as (xp & o' & SP & E & _ & S).
  change (t_alg x1) with a in SP, S. rewrite LK in E.
  pose proof (eq_trans (eq_sym EN) E) as EO. assert (EQ : o = o') by congruence. rewrite <- EQ in S. clear E EO EQ EN o'.
  pose proof (C53_ps_keys_are_KEG_and_shared (cv c) L a e d (d_ukm data) UK) as [K1 K2].
  rewrite <- K1 in S. destruct (ps_keys (cv c) a e (smul d (gen (cv c))) (d_ukm data)) as [keys|] eqn:EK; [|destruct S as [S _]; rewrite R1 in S; discriminate S].
  cbv zeta in S. destruct S as (_ & S & _). destruct (S R1) as [SO _]. rewrite SO. clear S SO K1.
  assert (HK : blkn 64 keys) by exact (ps_keys_out _ _ _ _ _ _ L UK EK).
  assert (AO : a <> A_other) by (destruct A as [E|E]; rewrite E; discriminate).
  assert (NZ : smul e (gen (cv c)) <> pzero (cv c)) by (apply not_zero; [exact L|rewrite Z.mod_small; lia]).
  destruct (spki_xpub curves c U a (smul e (gen (cv c))) AO NZ) as (xp' & SP' & XO & XG & _). assert (xp' = xp) by congruence. subst xp'.
  set (m := mk_pst (ps_export kc keys (d_ukm data) key) xp (Some (d_ukm data))).
  assert (LE : length (ps_export kc keys (d_ukm data) key) = (32 + mlen kc)%nat) by (rewrite export_len, LK by assumption; reflexivity).
  assert (MO : pst_ok m). { unfold pst_ok, m. cbn [s_psexp s_ephem s_ukm]. rewrite LE, LU. pose proof (mlen_pos kc). split; [lia|]. split; [exact XO|lia]. }
  unfold ps_message. fold m. pose proof (pst_roundtrip m rest MO) as DM.
  assert (OD : d_ukm (ps_open_data data2 (Some (d_ukm data))) = d_ukm data).
  { unfold ps_open_data. rewrite LU. cbn [Nat.leb]. destruct (Z.eqb_spec (d_ukm_size data2) 0) as [Z0|Z0]; cbn [andb].
    - unfold with_ukm, d_ukm at 1. unfold overwrite. cbn [firstn app Nat.add]. rewrite LU, skipn_all2 by lia. apply app_nil_r.
    - destruct HD as [HD|HD]; [contradiction|exact HD]. }
  assert (BX : bytes (ps_export kc keys (d_ukm data) key)).
  { destruct (halves keys HK) as (H1 & H2 & _). unfold ps_export. rewrite <- export_std by (apply iv_len, LU). unfold export_of.
    assert (BI : bytes (sub 24 (half kc) (d_ukm data))) by apply iv_bytes, BU.
    apply ctr_mode_bytes; [exact H2|]. apply bytes_app; [exact BK|]. apply omac_mode_bytes; [exact H1|]. apply bytes_app; assumption. }
  apply (proj2 (ps_accepts curves c w2 x2 (i2d_pst m ++ rest) m kc a (smul e (gen (cv c))) d key cap U W2 A S2 eq_refl BX
    ltac:(unfold m; cbn [s_ukm]; rewrite LU; reflexivity) CAP DM XG LE ltac:(unfold m; cbn [s_ukm]; change (t_data x2) with data2; rewrite OD; exact UK))).
  unfold m. cbn [s_ukm s_psexp]. change (t_data x2) with data2. rewrite OD. change (t_alg x2) with a. exists keys. split; [symmetry; exact K2|]. auto.
Qed.
Print Assumptions C53_ps_roundtrip.
(** No message kills the process or returns anything but a 32-byte key. *)
Theorem C53_ps_all_outcomes :
  forall curves c w (x : tctx (cv c)) inp kc d cap,
    ec_laws (cv c) -> world_ok w -> d_cipher (t_data x) = suite_of kc -> k_priv (t_key x) = Some d -> data_ok (t_data x) ->
    bytes inp -> (N.of_nat (length inp) < 2 ^ 60)%N -> (32 <= cap)%nat ->
    exists r n, pkey_gost_decrypt curves c w x (Some cap) inp = Returns (r, n) /\
      ((i_ret r = 1 /\ n = 32%nat /\ (exists k, i_key r = Some k /\ length k = 32%nat) /\ a2012 (t_alg x) /\
        exists m a P, d2i_pst inp = Some m /\ x509_pubkey_get curves c (s_ephem m) = K_same a P) \/
       ((i_ret r = 0 \/ i_ret r = -1) /\ n = cap /\ i_key r = None)).
Proof.
  intros curves c w x inp kc d cap L W SC KD (LD & BD & SD) B LI CAP.
  unfold pkey_gost_decrypt. replace (cap <? 32)%nat with false by (symmetry; apply Nat.ltb_ge; exact CAP). rewrite SC, variant_suite.
  unfold ps_decrypt. rewrite SC, ps_suite_of.
  destruct (d2i_pst inp) as [m|] eqn:DM; [|eexists _, _; split; [reflexivity|]; right; cbn [i_ret i_key]; auto].
  pose proof (d2i_pst_within _ _ DM) as [WP WU].
  assert (Q : exists r data, match s_ukm m with
               | Some u => if d_ukm_size (t_data x) =? 0 then pkey_gost_ctrl None (t_data x) (R_set_iv (Z.of_nat (length u)) (Some u)) else Ret 1 (t_data x)
               | None => Ret 1 (t_data x) end = Ret r data /\ bytes (d_ukm data)).
  { destruct (s_ukm m) as [u|]; [|eexists _, _; split; [reflexivity|exact BD]].
    destruct (d_ukm_size (t_data x) =? 0); [|eexists _, _; split; [reflexivity|exact BD]]. cbn [pkey_gost_ctrl].
    destruct WU as [WI WL].
    assert (TS : to_size (Z.of_nat (length u)) = Z.of_nat (length u)).
    { unfold to_size. apply Z.mod_small. change (2 ^ 64) with 18446744073709551616. change (2 ^ 60)%N with 1152921504606846976%N in LI. lia. }
    rewrite TS. destruct (Z.of_nat (length u) >? 32).
    - eexists _, _. split; [reflexivity|exact BD].
    - rewrite Nat2Z.id, firstn_all. eexists _, _. split; [reflexivity|]. unfold with_ukm, d_ukm at 1. unfold overwrite.
      assert (BU : bytes u) by (eapply within_bytes; [split; eassumption|exact B]).
      apply bytes_app; [apply bytes_firstn, BD|]. apply bytes_app; [exact BU|apply bytes_skipn, BD]. }
  destruct Q as (r & data & Q & BU). destruct W as (HL & R & F & BS & LS).
  assert (REF : forall x', exists (r0 : got (cv c)) n, Returns (mk_got 0 x' None, if i_ret (mk_got 0 x' None) =? 1 then 32%nat else cap) = Returns (r0, n) /\
      ((i_ret r0 = 1 /\ n = 32%nat /\ (exists k, i_key r0 = Some k /\ length k = 32%nat) /\ a2012 (t_alg x) /\
        exists m' a P, Some m = Some m' /\ x509_pubkey_get curves c (s_ephem m') = K_same a P) \/
       ((i_ret r0 = 0 \/ i_ret r0 = -1) /\ n = cap /\ i_key r0 = None))).
  { intros x'. eexists _, _. split; [reflexivity|]. right. cbn [i_ret i_key]. auto. }
  destruct (x509_pubkey_get curves c (s_ephem m)) as [|a|a P] eqn:XK; [apply REF| |].
  - rewrite Q. destruct (r <? 0); [apply REF|]. cbn [t_with_data t_alg t_key].
    unfold keg_with. rewrite KD. destruct (t_alg x); apply REF.
  - rewrite Q. destruct (r <? 0); [apply REF|]. cbn [t_with_data t_alg t_key].
    assert (NA : a2012 (t_alg x) \/ keg_with w (d_ukm data) (t_alg x) (Some P) (t_key x) = Returns None).
    { unfold a2012. destruct (t_alg x); auto. }
    destruct NA as [NA| ->]; [|apply REF]. rewrite (keg_with_eq (cv c) w (d_ukm data) (t_alg x) P (t_key x) d NA KD).
    destruct (gost_keg _ _ _ _ _ _ _) as [keys|] eqn:EK; [|apply REF].
    destruct (halves keys (keg_out _ _ _ _ _ _ _ _ L BU EK)) as (H1 & H2 & H3). rewrite H3.
    destruct (C33_import_result (w_host w) (w_fresh w) (w_stack w) kc (firstn 32 keys) (skipn 32 keys) (firstn (half kc) (skipn 24 (d_ukm data))) (s_psexp m)
      (conj HL (conj F (conj H1 H2))) (iv_bytes kc _ BU) (within_bytes _ _ WP B) BS LS) as [-> |(k & LK & ->)]; [apply REF|].
    eexists _, _. split; [reflexivity|]. left. cbn [i_ret i_key]. split; [reflexivity|]. split; [reflexivity|]. split; [exists k; auto|]. split; [exact NA|].
    exists m, a, P. auto.
Qed.
Print Assumptions C53_ps_all_outcomes.
(** So a key of any other length is sent - the call reports success - but never comes back. *)
Theorem C53_ps_other_key_lengths_lost_refuted :
  forall curves c w1 w2 rnd draws junk (x1 x2 : tctx (cv c)) n key y kc data e keys xp d cap inp,
    usable curves c -> world_ok w1 -> world_ok w2 -> a2012 (t_alg x1) -> k_pub (t_key x1) = Some (smul y (gen (cv c))) ->
    d_cipher (t_data x1) = suite_of kc -> draws_ok (cv c) draws -> sender_key x1 draws e -> 0 < e < order (cv c) ->
    ps_data rnd (t_data x1) = Some data -> ukm_usable (d_ukm data) -> d_ukm_size data = 32 -> bytes key -> length key <> 32%nat ->
    keg (cv c) e (smul y (gen (cv c))) (d_ukm data) (t_alg x1) = Some keys ->
    spki (t_alg x1) (cv c) (smul e (gen (cv c))) = Some xp -> (length (ps_message kc keys (d_ukm data) key xp) <= n)%nat ->
    d_cipher (t_data x2) = suite_of kc -> k_priv (t_key x2) = Some d -> data_ok (t_data x2) -> (32 <= cap)%nat ->
    bytes inp -> (N.of_nat (length inp) < 2 ^ 60)%N ->
    (exists o, pkey_gost_encrypt w1 rnd draws junk x1 true n key (length key) = Returns o /\ o_ret o = 1 /\ o_out o = ps_message kc keys (d_ukm data) key xp) /\
    ~ exists r m, pkey_gost_decrypt curves c w2 x2 (Some cap) inp = Returns (r, m) /\ i_ret r = 1 /\ i_key r = Some key.
Proof.
  intros curves c w1 w2 rnd draws junk x1 x2 n key y kc data e keys xp d cap inp U W1 W2 A KP SC D SK EB PD UK SZ BK LK EK SP LN SC2 KD DO CAP B LI.
  pose proof U as (_ & _ & L & _). split.
  - destruct (C53_ps_sends_the_standard_message curves c w1 rnd draws junk x1 n key y kc data e U W1 A KP SC D SK EB PD UK SZ BK) as (xp' & o & SP' & E & _ & S).
    assert (xp' = xp) by congruence. subst xp'. rewrite EK in S. cbv zeta in S. destruct S as (S1 & S2 & _).
    exists o. split; [exact E|]. split; [apply S1, LN|]. apply S2, S1, LN.
  - intros (r & m & E & R1 & K1).
    destruct (C53_ps_all_outcomes curves c w2 x2 inp kc d cap L W2 SC2 KD DO B LI CAP) as (r' & n' & E' & H).
    assert (r' = r) by congruence. subst r'. destruct H as [(_ & _ & (k & IK & L32) & _)|(_ & _ & IK)]; [|congruence].
    assert (k = key) by congruence. subst k. contradiction.
Qed.
Print Assumptions C53_ps_other_key_lengths_lost_refuted.
(** Keys of 2001 cannot be used with this variant at all. *)
Theorem C53_ps_2001_keys_refused :
  forall curves c w rnd draws junk (x : tctx (cv c)) n key kl y kc data e d inp cap,
    usable curves c -> world_ok w -> (t_alg x = A2001 \/ t_alg x = A2001DH) -> d_cipher (t_data x) = suite_of kc ->
    k_pub (t_key x) = Some (smul y (gen (cv c))) -> draws_ok (cv c) draws -> sender_key x draws e -> ps_data rnd (t_data x) = Some data ->
    k_priv (t_key x) = Some d -> data_ok (t_data x) -> bytes inp -> (N.of_nat (length inp) < 2 ^ 60)%N -> (32 <= cap)%nat ->
    (exists o, pkey_gost_encrypt w rnd draws junk x true n key kl = Returns o /\ o_ret o = 0 /\ o_out o = [] /\ o_refs o = 0) /\
    (exists r, pkey_gost_decrypt curves c w x (Some cap) inp = Returns (r, cap) /\ i_ret r <> 1 /\ i_key r = None).
Proof.
  intros curves c w rnd draws junk x n key kl y kc data e d inp cap U W A SC KP D SK PD KD DO B LI CAP. pose proof U as (_ & _ & L & _). split.
  - unfold pkey_gost_encrypt. rewrite SC, variant_suite. unfold ps_encrypt. rewrite SC, ps_suite_of.
    assert (AO : t_alg x <> A_other) by (destruct A as [E|E]; rewrite E; discriminate).
    assert (Q : exists k refs, match t_peer x with Some k => Some (k, 0) | None => option_map (fun k => (k, 1)) (gen_ephemeral (cv c) (t_alg x) draws) end = Some (k, refs)).
    { unfold sender_key in SK. destruct (t_peer x) as [k|]; [eexists _, _; reflexivity|]. rewrite (gen_ephemeral_eq (cv c) L) by assumption. rewrite SK. eexists _, _. reflexivity. }
    destruct Q as (k & refs & Q). rewrite Q. unfold ps_data in PD. rewrite PD. cbv zeta. cbn [t_with_data t_key].
    assert (NK : keg_with w (d_ukm data) (t_alg x) (k_pub (t_key x)) k = Returns None) by (destruct A as [E|E]; rewrite E; reflexivity).
    rewrite NK. eexists. split; [reflexivity|]. cbn [o_ret o_out o_refs]. split; [reflexivity|]. split; [reflexivity|apply Z.sub_diag].
  - destruct (C53_ps_all_outcomes curves c w x inp kc d cap L W SC KD DO B LI CAP) as (r & n' & E & H).
    destruct H as [(_ & _ & _ & A' & _)|(R & -> & IK)]; [exfalso; destruct A as [E1|E1], A' as [E2|E2]; congruence|].
    exists r. split; [exact E|]. split; [|exact IK]. destruct R; congruence.
Qed.
Print Assumptions C53_ps_2001_keys_refused.
(** A UKM of more than 32 bytes in a message is ignored without notice: the message is opened with what the
    context holds. *)
Theorem C53_ps_long_ukm_ignored_refuted :
  forall curves c w (x : tctx (cv c)) inp inp' psexp xp u u' kc a P d cap,
    a2012 (t_alg x) -> d_cipher (t_data x) = suite_of kc -> k_priv (t_key x) = Some d ->
    d2i_pst inp = Some (mk_pst psexp xp (Some u)) -> d2i_pst inp' = Some (mk_pst psexp xp (Some u')) ->
    x509_pubkey_get curves c xp = K_same a P ->
    (32 < length u <= 1000)%nat -> (32 < length u' <= 1000)%nat ->
    pkey_gost_decrypt curves c w x cap inp = pkey_gost_decrypt curves c w x cap inp'.
Proof.
  intros curves c w x inp inp' psexp xp u u' kc a P d cap A SC KD D1 D2 XK L1 L2. unfold pkey_gost_decrypt.
  destruct cap as [n|]; [|reflexivity]. destruct (n <? 32)%nat; [reflexivity|]. rewrite SC, variant_suite.
  assert (S : forall z, (z <= 1000)%nat -> (N.of_nat z < 2 ^ 60)%N).
  { intros z Hn. apply N.le_lt_trans with 1000%N; [|reflexivity]. change 1000%N with (N.of_nat 1000). lia. }
  rewrite (ps_decrypt_eq curves c w x inp _ kc a P d A SC D1 (S _ (proj2 L1)) XK KD).
  rewrite (ps_decrypt_eq curves c w x inp' _ kc a P d A SC D2 (S _ (proj2 L2)) XK KD).
  cbn [s_ukm s_psexp]. unfold ps_open_data.
  replace (length u <=? 32)%nat with false by (symmetry; apply Nat.leb_gt; lia).
  replace (length u' <=? 32)%nat with false by (symmetry; apply Nat.leb_gt; lia). rewrite andb_false_r. reflexivity.
Qed.
Print Assumptions C53_ps_long_ukm_ignored_refuted.
(** The length asked for with a null buffer is that of the message sent afterwards. *)
Lemma ps_sent_len curves c w rnd draws (x : tctx (cv c)) out n key kl y kc data e o :
  usable curves c -> world_ok w -> a2012 (t_alg x) -> k_pub (t_key x) = Some (smul y (gen (cv c))) -> y mod order (cv c) <> 0 ->
  d_cipher (t_data x) = suite_of kc -> draws_ok (cv c) draws -> secret_of x draws e ->
  ps_data rnd (t_data x) = Some data -> length (d_ukm data) = 32%nat -> bytes (d_ukm data) -> bytes key -> length key = kl ->
  ps_encrypt w rnd draws x out n key kl = Returns o -> o_ret o = 1 ->
  exists al, encode_gost_algor_params (t_alg x) (gname (cv c)) = Some al /\ o_ctx o = t_with_data x data /\ o_refs o = 0 /\
    o_len o = length (i2d_pst (mk_pst (zeros (kl + mlen kc)) (al, zeros (spki_len (cv c))) (Some (firstn (Z.to_nat (d_ukm_size data)) (d_ukm data))))).
Proof.
  intros U W A KP NY SC D [EB SE] PD LU BU BK LK. pose proof U as (_ & _ & L & _).
  assert (AO : t_alg x <> A_other) by (destruct A as [E|E]; rewrite E; discriminate).
  unfold ps_encrypt. rewrite SC, ps_suite_of.
  assert (SK : exists refs, match t_peer x with Some k => Some (k, 0) | None => option_map (fun k => (k, 1)) (gen_ephemeral (cv c) (t_alg x) draws) end
    = Some (EcModel.mk_key (Some e) (Some (smul e (gen (cv c)))), refs)).
  { destruct (t_peer x) as [k|]; [subst k; eexists; reflexivity|]. rewrite (gen_ephemeral_eq (cv c) L) by assumption. rewrite SE. eexists. reflexivity. }
  destruct SK as [refs SK]. rewrite SK. unfold ps_data in PD. rewrite PD. cbv zeta. cbn [t_with_data t_key]. rewrite KP.
  rewrite (keg_with_eq (cv c) w (d_ukm data) (t_alg x) (smul y (gen (cv c))) (EcModel.mk_key (Some e) (Some (smul e (gen (cv c))))) e A eq_refl).
  assert (NOT : forall x' r rf, Returns (mk_sent 0 x' [] r rf) = Returns o -> o_ret o = 1 -> False).
  { intros x' r rf H R1. assert (E : o = mk_sent 0 x' [] r rf) by congruence. rewrite E in R1. discriminate R1. }
  destruct (gost_keg _ _ _ _ _ _ _) as [keys|] eqn:EK; [|intros H R1; exfalso; eapply NOT; eassumption].
  pose proof (keg_out _ _ _ _ _ _ _ _ L BU EK) as HK.
  destruct (halves keys HK) as (H1 & H2 & H3). rewrite H3.
  destruct W as (HL & R & F & _). rewrite (firstn_all2 key) by lia.
  rewrite C33_export_is_KExp15; [|split; [exact HL|split; [exact F|split; [exact H1|exact H2]]]|apply bytes_firstn, bytes_skipn, BU|exact BK|apply iv_len, LU].
  replace (length key + mlen kc <=? kl + mlen kc)%nat with true by (symmetry; apply Nat.leb_le; lia).
  fold (sub 24 (half kc) (d_ukm data)). fold (ps_export kc keys (d_ukm data) key).
  pose proof (export_len kc keys (d_ukm data) key HK LU) as LE. set (ex := ps_export kc keys (d_ukm data) key) in *. clearbody ex.
  assert (Q : exists z, pubkey_set (t_alg x) (if out : bool then EcModel.mk_key (Some e) (Some (smul e (gen (cv c)))) else t_key x) = spki (t_alg x) (cv c) (smul z (gen (cv c))) /\ z mod order (cv c) <> 0).
  { destruct out; [exists e; split; [apply spki_priv|rewrite Z.mod_small; lia]|]. exists y. split; [apply pubkey_set_of, KP|exact NY]. }
  destruct Q as (z & PZ & NZ). rewrite PZ.
  destruct (spki_xpub curves c U (t_alg x) (smul z (gen (cv c))) AO (not_zero _ L z NZ)) as ([al b] & SP & _ & _ & LB & EA). cbn [fst snd] in LB, EA.
  rewrite SP. set (u := firstn (Z.to_nat (d_ukm_size data)) (d_ukm data)).
  assert (LL : length (i2d_pst (mk_pst ex (al, b) (Some u))) = length (i2d_pst (mk_pst (zeros (kl + mlen kc)) (al, zeros (spki_len (cv c))) (Some u)))).
  { apply i2d_pst_same; rewrite ?zeros_length; auto; lia. }
  rewrite Z.sub_diag. intros H R1. exists al. split; [exact EA|]. destruct out; cbn [negb] in H.
  - destruct (n <? _)%nat; [exfalso; eapply NOT; eassumption|].
    match type of H with Returns ?t = _ => assert (E : o = t) by congruence end. rewrite E. cbn [o_ctx o_refs o_len]. auto.
  - match type of H with Returns ?t = _ => assert (E : o = t) by congruence end. rewrite E. cbn [o_ctx o_refs o_len]. auto.
Qed.
Theorem C53_ps_announced_length_is_right :
  forall curves c w rnd draws junk rnd0 draws0 junk0 (x : tctx (cv c)) n0 n key kl y kc data0 data e0 e q o,
    usable curves c -> world_ok w -> a2012 (t_alg x) -> k_pub (t_key x) = Some (smul y (gen (cv c))) -> y mod order (cv c) <> 0 ->
    d_cipher (t_data x) = suite_of kc -> bytes key -> length key = kl ->
    draws_ok (cv c) draws0 -> sender_key x draws0 e0 -> 0 < e0 < order (cv c) ->
    ps_data rnd0 (t_data x) = Some data0 -> length (d_ukm data0) = 32%nat -> bytes (d_ukm data0) ->
    draws_ok (cv c) draws -> sender_key x draws e -> 0 < e < order (cv c) -> ps_data rnd data0 = Some data ->
    pkey_gost_encrypt w rnd0 draws0 junk0 x false n0 key kl = Returns q -> o_ret q = 1 ->
    pkey_gost_encrypt w rnd draws junk (o_ctx q) true n key kl = Returns o -> o_ret o = 1 ->
    o_len o = o_len q /\ o_refs q = 0 /\ o_refs o = 0.
Proof.
  intros curves c w rnd draws junk rnd0 draws0 junk0 x n0 n key kl y kc data0 data e0 e q o U W A KP NY SC BK LK D0 SK0 EB0 PD0 LU0 BU0 D SK EB PD EQ RQ EO RO.
  unfold pkey_gost_encrypt in EQ. rewrite SC, variant_suite in EQ.
  destruct (ps_sent_len curves c w rnd0 draws0 x false n0 key kl y kc data0 e0 q U W A KP NY SC D0 (conj EB0 SK0) PD0 LU0 BU0 BK LK EQ RQ) as (al & EA & CQ & RQ0 & LQ).
  rewrite CQ in EO. assert (SC0 : d_cipher (t_data (t_with_data x data0)) = suite_of kc).
  { cbn [t_with_data t_data]. unfold ps_data in PD0. destruct (d_ukm_size (t_data x) =? 0).
    - destruct rnd0 as [r|]; [|discriminate]. unfold option_map in PD0. assert (E : data0 = with_ukm (t_data x) (firstn 32 r) 32) by congruence. rewrite E. exact SC.
    - assert (E : data0 = t_data x) by congruence. rewrite E. exact SC. }
  assert (SZ : data = data0).
  { unfold ps_data in PD, PD0. destruct (Z.eqb_spec (d_ukm_size data0) 0) as [Z0|Z0]; [|congruence]. exfalso.
    destruct (Z.eqb_spec (d_ukm_size (t_data x)) 0) as [Z1|Z1].
    - destruct rnd0 as [r|]; [|discriminate]. unfold option_map in PD0. assert (E : data0 = with_ukm (t_data x) (firstn 32 r) 32) by congruence. rewrite E in Z0. discriminate Z0.
    - assert (E : data0 = t_data x) by congruence. congruence. }
  subst data.
  unfold pkey_gost_encrypt in EO. rewrite SC0, variant_suite in EO.
  destruct (ps_sent_len curves c w rnd draws (t_with_data x data0) true n key kl y kc data0 e o U W A KP NY SC0 D (conj EB SK) PD LU0 BU0 BK LK EO RO) as (al' & EA' & _ & RO0 & LO).
  cbn [t_with_data t_alg] in EA'. assert (al' = al) by congruence. subst al'. split; [congruence|auto].
Qed.
Print Assumptions C53_ps_announced_length_is_right.
(** Both sides get keys exactly if no number involved is zero modulo the order. *)
Theorem C53_ps_keys_exist :
  forall C, ec_laws C -> forall a d y ukm, a2012 a -> ukm_usable ukm ->
    (ps_keys C a d (smul y (gen C)) ukm = None <-> d mod order C = 0 \/ y mod order C = 0 \/ keg_ukm ukm mod order C = 0).
Proof.
  intros C L a d y ukm A UK. pose proof UK as (LU & BU & NU). set (h := mk_host RefLE false true).
  rewrite <- (real_ukm_number ukm) by (auto; lia).
  assert (V : forall md, point_key C (md_std md) (agreed C d (keg_ukm ukm) (smul y (gen C))) = VKO_compute_key C h ctx0 (smul y (gen C)) d (real_ukm ukm) (Some md)).
  { intros md. rewrite (vko_general C) by exact L. rewrite <- (real_ukm_number ukm) by (auto; lia). reflexivity. }
  unfold ps_keys. cbv zeta. destruct A as [-> | ->]; rewrite V.
  - rewrite <- (C40_vko_succeeds_iff C L h ctx0 d y (real_ukm ukm) Md_2012_256). destruct (VKO_compute_key _ _ _ _ _ _ _); split; discriminate || auto.
  - apply (C40_vko_succeeds_iff C L).
Qed.
Print Assumptions C53_ps_keys_exist.

(** * The hypotheses are met: both variants on the toy curves *)
Lemma toy_usable n : n <> OtherNid -> usable (fun n => Some (toy_curve n)) (toy_curve n).
Proof.
  intros N. split; [reflexivity|]. split; [exact N|]. split; [apply toy_laws|]. exists 79. split; [apply toy_lift_ok|].
  split; [|apply Nat.leb_le]; destruct n; try contradiction; try reflexivity; vm_compute; discriminate.
Qed.
Definition world0 : world := mk_world (mk_host RefLE false true) ctx0 (mk_fresh (fresh_evp ctx0) (fresh_evp ctx0)) (zeros 48).
Lemma world0_ok : world_ok world0.
Proof.
  assert (F : magma_fresh (fresh_evp ctx0)) by (exists ctx0; split; [reflexivity|exact ctx0_rng_ok]).
  split; [reflexivity|]. split; [exact ctx0_rng_ok|]. split; [split; exact F|]. split; [apply bytes_zeros|apply zeros_length].
Qed.
Lemma toy_draws n e : 0 <= e < 19 -> draws_ok (cv (toy_curve n)) [0; e].
Proof. intros E. constructor; [cbn; lia|]. constructor; [exact E|constructor]. Qed.
Example C53_toy_cp :
  let c := toy_curve Tc512_C in
  let x1 := mk_t A2012_512 (public (cv c) 7) None pdata0 in
  let x2 := mk_t A2012_512 (pair (cv c) 7) None pdata0 in
  exists o x', pkey_gost_encrypt world0 (Some [1; 2; 3; 4; 5; 6; 7; 8])%N [0; 5] (zeros 44) x1 true 500 (repeat 9%N 32) 32 = Returns o /\ o_ret o = 1 /\
    pkey_gost_decrypt (fun n => Some (toy_curve n)) c world0 x2 (Some 32%nat) (o_out o) = Returns (mk_got 1 x' (Some (repeat 9%N 32)), 32%nat).
Proof.
  intros c x1 x2. set (curves := fun n => Some (toy_curve n)). assert (U : usable curves c) by (apply toy_usable; discriminate).
  pose proof U as (_ & _ & L & _). set (ukm := [1; 2; 3; 4; 5; 6; 7; 8]%N). set (key := repeat 9%N 32).
  assert (HU : ukm8 ukm) by (split; [reflexivity|repeat constructor]).
  assert (HK : key32 key) by (split; [reflexivity|apply bytes_forallb; reflexivity]).
  assert (SK : sender_key x1 [0; 5] 5) by reflexivity.
  assert (DO : draws_ok (cv c) [0; 5]) by (apply toy_draws; lia).
  pose proof (C53_cp_sends_the_standard_message curves c world0 (Some ukm) [0; 5] (zeros 44) x1 500 key 32 7 ukm 5 U world0_ok ltac:(discriminate) eq_refl eq_refl
    DO SK eq_refl HU HK) as S.
  destruct (kek (cv c) (t_alg x1) 5 (smul 7 (gen (cv c))) ukm) as [K|] eqn:EK.
  2:{ apply (proj1 (C53_kek_exists_and_is_shared (cv c) L (t_alg x1) 5 7 ukm)) in EK. exfalso. change (order (cv c)) with 19 in EK.
      destruct EK as [E|[E|E]]; vm_compute in E; discriminate E. }
  cbv zeta in S. destruct S as (o & E & S1 & _ & _).
  assert (R1 : o_ret o = 1).
  { apply S1. set (xp := announced x1 5). assert (XO : match xp with Some xp => xpub_ok xp | None => True end).
    { unfold xp, announced. change (t_peer x1) with (@None (eckey (cv c))). cbv iota.
      destruct (spki_xpub curves c U (t_alg x1) (smul 5 (gen (cv c))) ltac:(discriminate)) as (xp' & SP & XO & _).
      { apply not_zero; [exact L|]. vm_compute. discriminate. }
      rewrite SP. exact XO. }
    unfold cp_message, transport, i2d_gkt. cbn [g_enc g_imit g_cipher g_ephem g_iv].
    destruct (wrap_shape (sbox_of (wrap_param (t_alg x1))) K ukm key (sbox_ok _) (kek_key32 _ _ _ _ _ _ EK) HU HK) as (LW & _). cbv zeta in LW.
    set (W := wrap _ _ _ _) in *. clearbody W.
    assert (LI : (length (der TAG_SEQUENCE (der TAG_OCTET_STRING (sub 8 32 W) ++ der TAG_OCTET_STRING (sub 40 4 W))) <= 48)%nat).
    { apply (der_len_le TAG_SEQUENCE _ 44); [|lia]. rewrite app_length. 
      pose proof (der_len_le TAG_OCTET_STRING (sub 8 32 W) 32 ltac:(rewrite sub_length; lia) ltac:(lia)).
      pose proof (der_len_le TAG_OCTET_STRING (sub 40 4 W) 4 ltac:(rewrite sub_length; lia) ltac:(lia)). lia. }
    assert (LX : (length (match xp with Some x => i2d_xpub TAG_CONTEXT_0 x | None => [] end) <= 356)%nat).
    { destruct xp as [x|]; [apply i2d_xpub_len, XO|cbn [length]; lia]. }
    pose proof (oid_len (wrap_param (t_alg x1))).
    pose proof (der_len_le TAG_OBJECT (oid_of (wrap_param (t_alg x1))) 9 ltac:(lia) ltac:(lia)).
    pose proof (der_len_le TAG_OCTET_STRING (sub 0 8 W) 8 ltac:(rewrite sub_length; lia) ltac:(lia)).
    match goal with |- (length (der _ (?a ++ der _ (?b ++ ?m ++ ?d))) <= _)%nat => 
      assert (LK : (length (der TAG_CONTEXT_0 (b ++ m ++ d)) <= 385)%nat) end.
    { apply (der_len_le TAG_CONTEXT_0 _ 381); [|lia]. rewrite !app_length. lia. }
    pose proof (fun z => der_len_le TAG_SEQUENCE z 433) as DL. eapply Nat.le_trans; [apply DL; [rewrite app_length; lia|lia]|lia]. }
  exists o. pose proof (C53_cp_roundtrip curves c world0 world0 A2012_512 7 None None pdata0 pdata0 (Some ukm) [0; 5] (zeros 44) 500 key 32 5 ukm o [] 32
    U world0_ok world0_ok ltac:(discriminate) eq_refl eq_refl DO SK eq_refl HU HK ltac:(congruence) E R1 ltac:(lia)) as [x' RT].
  rewrite app_nil_r in RT. exists x'. split; [exact E|]. split; [exact R1|exact RT].
Qed.
Example C53_toy_ps :
  let c := toy_curve Tc512_C in
  let x1 := mk_t A2012_512 (public (cv c) 7) None (with_cipher pdata0 C_kuz_ctr) in
  let x2 := mk_t A2012_512 (pair (cv c) 7) None (with_cipher pdata0 C_kuz_ctr) in
  exists o x', pkey_gost_encrypt world0 (Some (zeros 15 ++ 1 :: repeat 7 16))%N [0; 5] (zeros 44) x1 true 600 (repeat 9%N 32) 32 = Returns o /\ o_ret o = 1 /\
    pkey_gost_decrypt (fun n => Some (toy_curve n)) c world0 x2 (Some 32%nat) (o_out o) = Returns (mk_got 1 x' (Some (repeat 9%N 32)), 32%nat).
Proof.
  intros c x1 x2. set (curves := fun n => Some (toy_curve n)). assert (U : usable curves c) by (apply toy_usable; discriminate).
  pose proof U as (_ & _ & L & _). set (ukm := (zeros 15 ++ 1 :: repeat 7 16)%N). set (key := repeat 9%N 32). set (d0 := with_cipher pdata0 C_kuz_ctr) in *.
  assert (UK : ukm_usable ukm). { split; [reflexivity|]. split; [apply bytes_forallb; reflexivity|]. vm_compute. discriminate. }
  assert (HK : blkn 32 key) by (split; [reflexivity|apply bytes_forallb; reflexivity]).
  assert (SK : sender_key x1 [0; 5] 5) by reflexivity. assert (A : a2012 A2012_512) by (right; reflexivity).
  assert (DO : draws_ok (cv c) [0; 5]) by (apply toy_draws; lia). assert (EB : 0 < 5 < order (cv c)) by (split; reflexivity).
  set (data := with_ukm d0 ukm 32). assert (PD : ps_data (Some ukm) d0 = Some data) by reflexivity.
  destruct (C53_ps_sends_the_standard_message curves c world0 (Some ukm) [0; 5] (zeros 44) x1 600 key 7 KUZNYECHIK data 5 U world0_ok A eq_refl eq_refl
    DO SK EB PD UK eq_refl (proj2 HK)) as (xp & o & SP & E & _ & S).
  change (t_alg x1) with A2012_512 in S, SP. change (d_ukm data) with ukm in S.
  pose proof (C53_ps_keys_are_KEG_and_shared (cv c) L A2012_512 5 7 ukm UK) as [K1 _]. rewrite <- K1 in S. clear K1.
  destruct (ps_keys (cv c) A2012_512 5 (smul 7 (gen (cv c))) ukm) as [keys|] eqn:EK.
  2:{ apply (C53_ps_keys_exist (cv c) L A2012_512 5 7 ukm A UK) in EK. exfalso. change (order (cv c)) with 19 in EK.
      destruct EK as [EK|[EK|EK]]; vm_compute in EK; discriminate EK. }
  cbv zeta in S. destruct S as (S1 & _ & _).
  assert (R1 : o_ret o = 1).
  { apply S1. unfold ps_message, i2d_pst. cbn [s_psexp s_ephem s_ukm].
    pose proof (export_len KUZNYECHIK keys ukm key (ps_keys_out _ _ _ _ _ _ L UK EK) eq_refl) as LE. change (length key + mlen KUZNYECHIK)%nat with 48%nat in LE.
    set (ex := ps_export _ _ _ _) in *. clearbody ex.
    destruct (spki_xpub curves c U A2012_512 (smul 5 (gen (cv c))) ltac:(discriminate)) as (xp' & SP' & XO & _).
    { apply not_zero; [exact L|]. vm_compute. discriminate. }
    assert (xp' = xp) by congruence. subst xp'. pose proof (i2d_xpub_len TAG_SEQUENCE xp XO).
    pose proof (der_len_le TAG_OCTET_STRING ex 48 ltac:(lia) ltac:(lia)). pose proof (der_len_le TAG_OCTET_STRING ukm 32 ltac:(apply Nat.eq_le_incl; reflexivity) ltac:(lia)).
    pose proof (fun z => der_len_le TAG_SEQUENCE z 450) as DL. eapply Nat.le_trans; [apply DL; [rewrite !app_length; lia|lia]|lia]. }
  exists o. pose proof (C53_ps_roundtrip curves c world0 world0 A2012_512 7 None None d0 d0 KUZNYECHIK (Some ukm) [0; 5] (zeros 44) 600 key 5 data o [] 32
    U world0_ok world0_ok A eq_refl eq_refl DO SK EB PD UK eq_refl HK eq_refl (or_introl eq_refl) E R1 ltac:(lia)) as [x' RT].
  rewrite app_nil_r in RT. exists x'. split; [exact E|]. split; [exact R1|exact RT].
Qed.
