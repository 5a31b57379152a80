From Coq Require Import ZArith List Bool Lia Znumtheory.
From Verif Require Import StreebogModel Bytes BytesProofs Gost89Model Gost89Sboxes Gost89Spec Gost89Proofs Gost89SpecProofs Gost89ModeProofs PropGost89 CryptModel CryptSpec CryptProofs KeywrapModel KeywrapSpec PropKeywrap
  KdfModel PropKdf KexpModel KexpSpec PropKexp OmacModel PropOmac EcLadderModel EcSpec EcLadderProofs EcModel EcProofs PropEc PropVko Asn1Model
  AmethModel PropAmeth CmsParamsModel PropCms PmethModel KeyTransAsn1 KeyTransAsn1Proofs KeyTransModel KeyTransSpec.
From Verif Require PropAead.
Import ListNotations.
Local Open Scope Z_scope.

Definition world_ok (w : world) : Prop :=
  h_le (w_host w) = true /\ rng_ok (g_rng (w_gost w)) /\ fresh_ok (w_fresh w) /\ bytes (w_stack w) /\ length (w_stack w) = 48%nat.
(** The method's data as its control calls leave it: 32 bytes, and how many of them were set. *)
Definition data_ok (d : pdata) : Prop := length (d_ukm d) = 32%nat /\ bytes (d_ukm d) /\ 0 <= d_ukm_size d <= 32.

Lemma agreed_sym C : ec_laws C -> forall u x y, agreed C x u (smul y (gen C)) = agreed C y u (smul x (gen C)).
Proof.
  intros L u x y. unfold agreed. rewrite <- !(sm_mul C L). apply (gen_inj C L). pose proof (order_pos C L).
  assert (R : forall x y, (cofactor C * ((u * x) mod order C) * y) mod order C = (cofactor C * u * x * y) mod order C).
  { intros x' y'. replace (cofactor C * ((u * x') mod order C) * y') with ((cofactor C * y') * ((u * x') mod order C)) by lia.
    rewrite Z.mul_mod_idemp_r by lia. f_equal. lia. }
  rewrite !R. f_equal. lia.
Qed.
Lemma kek_sym C : ec_laws C -> forall a ukm x y, kek C a x (smul y (gen C)) ukm = kek C a y (smul x (gen C)) ukm.
Proof. intros L a ukm x y. unfold kek. rewrite agreed_sym by exact L. reflexivity. Qed.
Lemma kek_key32 C a d P ukm K : kek C a d P ukm = Some K -> key32 K.
Proof. intros H. apply point_key_bytes in H. destruct H as [B L]. split; [|exact B]. rewrite L. destruct a; reflexivity. Qed.
Lemma vko_kek C : ec_laws C -> forall w a Q key d ukm, a <> A_other -> k_priv key = Some d ->
  vko (C := C) w (Some Q) key ukm (shorten (default_digest a)) = Returns (kek C a d Q ukm).
Proof.
  intros L w a Q key d ukm A E. unfold vko, kek. replace (shorten (default_digest a)) with (Some (kek_digest a)) by (destruct a; try reflexivity; congruence).
  rewrite E. rewrite (vko_general C) by exact L. reflexivity.
Qed.
Lemma sbox_ok p : subst_ok (sbox_of p).
Proof. destruct p; unfold subst_ok; repeat constructor. Qed.
Lemma draws_some C draws e : draws_ok C draws -> keygen_draw draws = Some e -> 0 < e < order C /\ In e draws.
Proof.
  intros D. induction D as [|k draws Hk D IH]; cbn [keygen_draw]; [discriminate|].
  destruct (Z.eqb_spec k 0) as [E|E].
  - intros H. destruct (IH H). split; [lia|right; assumption].
  - intros H. apply (f_equal (fun o => match o with Some x => x | None => 0 end)) in H. subst e. split; [lia|left; reflexivity].
Qed.
Lemma gen_ephemeral_eq C : ec_laws C -> forall a draws, a <> A_other -> draws_ok C draws ->
  gen_ephemeral C a draws = option_map (fun e => EcModel.mk_key (Some e) (Some (smul e (gen C)))) (keygen_draw draws).
Proof.
  intros L a draws A D. pose proof (draws_some C draws) as DS.
  assert (G : forall r k, gost_ec_keygen C (EcModel.mk_key None None) draws = (r, k) ->
    (if r =? 0 then None else Some k) = option_map (fun e => EcModel.mk_key (Some e) (Some (smul e (gen C)))) (keygen_draw draws)).
  { intros r k. unfold gost_ec_keygen. destruct (keygen_draw draws) as [e|].
    - destruct (DS e D eq_refl) as [B _]. unfold gost_ec_compute_public. cbn [k_priv].
      rewrite (pm_g C L) by (try (apply fits_order; [exact L|]); lia). intros H. inversion H; subst. reflexivity.
    - intros H. inversion H; subst. reflexivity. }
  unfold gen_ephemeral. destruct (gost_ec_keygen C (EcModel.mk_key None None) draws) as [r k]. specialize (G r k eq_refl).
  destruct a; try exact G. congruence.
Qed.
Lemma spki_priv a C d P : pubkey_set (C := C) a (EcModel.mk_key d (Some P)) = spki a C P.
Proof. reflexivity. Qed.
Lemma i2d_octet_len s : (length s < 1000)%nat -> (length (i2d_octet s) <= length s + 4)%nat.
Proof. apply der_short. Qed.
Lemma bytes_der tag c : (tag < 256)%N -> (length c < 1000)%nat -> bytes c -> bytes (der tag c).
Proof.
  intros T L B. unfold der. constructor; [exact T|]. apply bytes_app; [|exact B]. unfold der_len.
  destruct (Nat.ltb_spec (length c) 128); [constructor; [unfold isbyte; lia|constructor]|].
  constructor; [|apply n2be_bytes]. pose proof (len_bytes_le _ L). unfold isbyte. lia.
Qed.
Lemma store_bytes bn len : bytes (snd (store_bignum bn (zeros len) len)) /\ length (snd (store_bignum bn (zeros len) len)) = len.
Proof.
  unfold store_bignum. destruct (Nat.ltb_spec len (num_bytes bn)); cbn [snd]; split.
  - apply bytes_zeros.
  - apply zeros_length.
  - apply bytes_app; [apply bytes_zeros|apply n2be_bytes].
  - rewrite app_length, zeros_length, n2be_length. lia.
Qed.
Definition spki_len (C : group) : nat := length (i2d_octet (zeros (2 * num_bytes (order C)))).
Lemma curve_nid_eqb_refl n : curve_nid_eqb n n = true.
Proof. unfold curve_nid_eqb. apply eqbl_eq. reflexivity. Qed.
Lemma pub_decode_same curves c al h buf : curves (gname (cv c)) = Some c -> al_params al = Some (gname (cv c), h) ->
  pub_decode_gost_ec curves al buf = option_map (fun aP => public_of (fst aP) (cv c) (snd aP)) (pub_decode_on c (al_alg al) buf).
Proof.
  intros E P. destruct al as [a prm]. cbn [al_params al_alg] in *. subst prm.
  unfold pub_decode_gost_ec, pub_decode_on. unfold decode_gost_algor_params. cbn [al_params al_alg]. rewrite E.
  destruct a; try reflexivity; (destruct (d2i_octet buf) as [o|]; [|reflexivity]; cbv zeta; destruct (lift c _ _); reflexivity).
Qed.
Lemma spki_ok curves c : usable curves c -> forall a P, a <> A_other -> P <> pzero (cv c) ->
  exists buf, spki a (cv c) P = Some (match encode_gost_algor_params a (gname (cv c)) with Some al => al | None => mk_algor A_other None end, buf) /\
    (exists h, encode_gost_algor_params a (gname (cv c)) = Some (mk_algor a (Some (gname (cv c), h)))) /\
    bytes buf /\ length buf = spki_len (cv c) /\ (length buf <= 300)%nat /\
    forall h, x509_pubkey_get curves c (mk_algor a (Some (gname (cv c), h)), buf) = K_same a P.
Proof.
  intros (E & G & L & p & LO & PB & NB) a P A NZ. set (C := cv c) in *.
  destruct (affine_some C L P NZ) as (x & y & EA). pose proof LO as (P0 & LI & PR).
  destruct (PR P x y EA) as [XP YP]. destruct (l_range C L P x y EA) as [[X0 _] [Y0 _]].
  destruct (encode_algor_ok a (gname C) A G) as [h [_ EN]]. rewrite EN.
  set (k := num_bytes (order C)) in *.
  destruct (C42_encoded_form a C None P x y A G EA ltac:(unfold k in *; lia) ltac:(unfold k in *; lia)) as [h' [_ EF]].
  exists (i2d_octet (le_bytes k x ++ le_bytes k y)). split.
  { unfold spki, public_of. unfold pub_encode_gost_ec in *. cbn [pk_alg pk_curve pk_key k_pub] in *. rewrite EN in *.
    rewrite EA in *. cbv zeta in *.
    apply (f_equal (fun o => match o with Some (_, b) => b | None => [] end)) in EF. cbv beta iota in EF. rewrite EF. reflexivity. }
  split; [exists h; reflexivity|]. assert (LL : length (le_bytes k x ++ le_bytes k y) = (2 * k)%nat) by (rewrite app_length, !le_bytes_length; lia).
  split; [apply bytes_der; [reflexivity|lia|apply bytes_app; apply n2le_bytes]|].
  split; [unfold spki_len, i2d_octet; apply der_same; rewrite LL, zeros_length; reflexivity|].
  split; [pose proof (i2d_octet_len (le_bytes k x ++ le_bytes k y) ltac:(lia)); lia|].
  intros h0. unfold x509_pubkey_get. cbn [fst snd al_params al_alg]. fold C. rewrite curve_nid_eqb_refl.
  unfold pub_decode_on. rewrite <- (app_nil_r (i2d_octet _)). rewrite d2i_octet_i2d by (apply small_1000; lia).
  assert (H : (length (le_bytes k x ++ le_bytes k y) / 2 = k)%nat) by (apply half_app; apply le_bytes_length).
  cbv zeta. rewrite H, rev_app_distr. rewrite firstn_app_exact, skipn_app_exact by (rewrite rev_length; apply le_bytes_length).
  rewrite firstn_all2 by (rewrite rev_length, le_bytes_length; lia). unfold bin2bn, be2n. rewrite !rev_involutive.
  change (Z.of_N (le2n (le_bytes k x))) with (lebin2bn (le_bytes k x)). change (Z.of_N (le2n (le_bytes k y))) with (lebin2bn (le_bytes k y)).
  rewrite !lebin_le by lia.
  assert (LF : lift c x y = Some P) by (apply LI; [lia|lia|]; rewrite !Z.mod_small by lia; exact EA).
  rewrite LF. destruct a; try reflexivity. congruence.
Qed.

Lemma wrap_shape sb K ukm cek : subst_ok sb -> key32 K -> ukm8 ukm -> key32 cek ->
  let W := wrap (sboxes_of sb) K ukm cek in length W = 44%nat /\ sub 0 8 W = ukm /\ W = sub 0 8 W ++ sub 8 32 W ++ sub 40 4 W.
Proof.
  intros HS HK HU HC W. pose proof (C32_wrap_refines_rfc4357 sb ctx0 K ukm cek HS ctx0_rng_ok HK HU HC) as E.
  destruct (C32_unwrap_wrap sb ctx0 ctx0 K ukm cek HS ctx0_rng_ok ctx0_rng_ok HK HU HC) as (L & _).
  rewrite E in L. fold W in L. split; [exact L|]. split.
  - unfold W, wrap, sub. cbn [skipn]. apply firstn_app_exact. apply HU.
  - clearbody W. clear E. unfold sub. change (skipn 0 W) with W. rewrite <- (firstn_skipn 8 W) at 1. f_equal.
    rewrite <- (firstn_skipn 32 (skipn 8 W)) at 1. f_equal. rewrite skipn_skipn. change (32 + 8)%nat with 40%nat.
    symmetry. apply firstn_all2. rewrite skipn_length. lia.
Qed.
(** The wrapped key is what unwrapping accepts. *)
Lemma unwrap_iff sb c K W k : subst_ok sb -> rng_ok (g_rng c) -> key32 K -> length W = 44%nat -> bytes W ->
  (keyUnwrapCryptoPro (gost_init c sb) K W = (1, k) <-> key32 k /\ W = wrap (sboxes_of sb) K (sub 0 8 W) k).
Proof.
  intros HS HR HK LW BW.
  assert (EW : W = sub 0 8 W ++ sub 8 32 W ++ sub 40 4 W).
  { unfold sub. change (skipn 0 W) with W. rewrite <- (firstn_skipn 8 W) at 1. f_equal.
    rewrite <- (firstn_skipn 32 (skipn 8 W)) at 1. f_equal. rewrite skipn_skipn. change (32 + 8)%nat with 40%nat.
    symmetry. apply firstn_all2. rewrite skipn_length. lia. }
  assert (HU : ukm8 (sub 0 8 W)) by (split; [apply sub_length; lia|unfold sub; apply bytes_firstn, BW]).
  split.
  - intros U. pose proof (C32_unwrap_accepts_iff_mac_matches sb c K W HS HR HK LW BW) as X. rewrite U in X. cbv zeta in X.
    destruct X as (X1 & _ & X2). specialize (proj1 X2 eq_refl). clear X2. intros X2.
    destruct (diversified sb c K W HS HR HK ltac:(lia)) as (Ed & Ks & _). cbv zeta in *. rewrite Ed in Ks.
    set (g := fst (keyDiversifyCryptoPro (gost_init c sb) K W)) in *. clearbody g. clear Ed.
    change (firstn 8 W) with (sub 0 8 W) in Ks. set (kk := diversify (sboxes_of sb) K (sub 0 8 W)) in *.
    assert (Le : length (sub 8 32 W) = 32%nat) by (apply sub_length; lia).
    assert (Be : bytes (sub 8 32 W)) by (unfold sub; apply bytes_firstn, bytes_skipn, BW).
    assert (Dd : gost_dec (gost_key g kk) (sub 8 32 W) 4 = k).
    { rewrite gost_dec4 by exact Le. rewrite X1. f_equal. apply map_ext. intros b. destruct Ks as (_ & T & Kl & _). apply gostdecrypt_spec; auto. }
    assert (Hk : key32 k) by (rewrite <- Dd; split; [apply gost_dec_length|apply gost_dec_bytes]).
    split; [exact Hk|]. unfold wrap. fold kk. rewrite EW at 1. f_equal. f_equal; [|exact X2].
    rewrite <- (gost_enc_blocks sb kk (gost_key g kk) 4 Ks) by apply Hk. rewrite <- Dd. symmetry. apply ecb_roundtrip'; [apply gsim_refl|exact Be|exact Le].
  - intros [Hk E]. destruct (C32_unwrap_wrap sb c c K (sub 0 8 W) k HS HR HR HK HU Hk) as (_ & U & _).
    rewrite (C32_wrap_refines_rfc4357 sb c K (sub 0 8 W) k HS HR HK HU Hk) in U. rewrite <- E in U. exact U.
Qed.

(** ** The CryptoPro variant *)
(** The UKM of a message. *)
Definition cp_ukm (rnd : option (list N)) (d : pdata) : option (list N) :=
  if d_ukm_size d =? 0 then option_map (firstn 8) rnd else Some (firstn 8 (d_ukm d)).
Lemma cp_param_spec a : cp_param a = wrap_param a. Proof. destruct a; reflexivity. Qed.
Definition cp_outcome {C : group} (x x' : tctx C) (n : nat) (over : Z) (m : list N) : outcome (sent C) :=
  if (n <? length m)%nat then Returns (mk_sent (-1) x' [] n over) else Returns (mk_sent 1 x' m (length m) 0).
Lemma kek_nonzero C : ec_laws C -> forall a d y ukm K, kek C a d (smul y (gen C)) ukm = Some K ->
  d mod order C <> 0 /\ y mod order C <> 0 /\ digest_number ukm mod order C <> 0.
Proof.
  intros L a d y ukm K H.
  assert (N : VKO_compute_key C (mk_host RefLE false true) ctx0 (smul y (gen C)) d ukm (Some (kek_digest a)) <> None).
  { rewrite (vko_general C) by exact L. unfold kek in H. fold (agreed C d (digest_number ukm) (smul y (gen C))). rewrite H. discriminate. }
  rewrite (C40_vko_succeeds_iff C L) in N. tauto.
Qed.
Lemma cp_encrypt_eph c w rnd draws junk (x : tctx (cv c)) n key kl y ukm curves :
  usable curves c -> world_ok w -> t_alg x <> A_other -> t_peer x = None -> k_pub (t_key x) = Some (smul y (gen (cv c))) ->
  draws_ok (cv c) draws -> cp_ukm rnd (t_data x) = Some ukm -> ukm8 ukm -> key32 (firstn 32 key) ->
  cp_encrypt w rnd draws junk x true n key kl =
  match keygen_draw draws with
  | None => Returns (mk_sent (-1) x [] n 0)
  | Some e =>
    match kek (cv c) (t_alg x) e (smul y (gen (cv c))) ukm with
    | None => Returns (mk_sent (-1) x [] n 0)
    | Some K => cp_outcome x x n (-1) (cp_message (t_alg x) K ukm (firstn 32 key) (spki (t_alg x) (cv c) (smul e (gen (cv c)))))
    end
  end.
Proof.
  intros U W A TP KP D CU HU HC. pose proof U as (_ & _ & L & _). unfold cp_encrypt. unfold cp_ukm in CU. rewrite CU, TP.
  rewrite (gen_ephemeral_eq (cv c) L) by assumption. pose proof (draws_some (cv c) draws) as DS.
  destruct (keygen_draw draws) as [e|]; cbn [option_map]; [|reflexivity].
  destruct (DS e D eq_refl) as [EB _]. rewrite KP. rewrite (vko_kek (cv c) L w (t_alg x) _ _ e) by auto.
  destruct (kek (cv c) (t_alg x) e (smul y (gen (cv c))) ukm) as [K|] eqn:EK; [|reflexivity].
  pose proof (kek_key32 _ _ _ _ _ _ EK) as HK. destruct W as (_ & R & _).
  rewrite C32_wrap_refines_rfc4357 by (auto using sbox_ok).
  rewrite spki_priv. destruct (spki_ok curves c U (t_alg x) (smul e (gen (cv c))) A) as (buf & SP & _).
  { intros Z. apply (gen_zero (cv c) L) in Z. rewrite Z.mod_small in Z; lia. }
  rewrite SP. cbn [option_map]. change (1 <=? 0) with false. cbv iota. cbn [negb].
  rewrite cp_param_spec. destruct (wrap_shape (sbox_of (wrap_param (t_alg x))) K ukm (firstn 32 key) (sbox_ok _) HK HU HC) as (_ & S0 & _).
  cbv zeta in S0. unfold cp_outcome, cp_message, transport. rewrite S0. fold (sub 8 32 (wrap (sboxes_of (sbox_of (wrap_param (t_alg x)))) K ukm (firstn 32 key))).
  fold (sub 40 4 (wrap (sboxes_of (sbox_of (wrap_param (t_alg x)))) K ukm (firstn 32 key))).
  replace (t_with_data x (t_data x)) with x by (destruct x; reflexivity).
  destruct (n <? _)%nat; reflexivity.
Qed.
Lemma cp_encrypt_static c w rnd draws junk (x : tctx (cv c)) n key kl y ukm k e :
  ec_laws (cv c) -> world_ok w -> t_alg x <> A_other -> t_peer x = Some k -> k_priv k = Some e -> k_pub (t_key x) = Some (smul y (gen (cv c))) ->
  cp_ukm rnd (t_data x) = Some ukm -> ukm8 ukm -> key32 (firstn 32 key) ->
  cp_encrypt w rnd draws junk x true n key kl =
  match kek (cv c) (t_alg x) e (smul y (gen (cv c))) ukm with
  | None => Returns (mk_sent (-1) x [] n 0)
  | Some K => cp_outcome x (t_with_data x (with_peer (t_data x) 1)) n 0 (cp_message (t_alg x) K ukm (firstn 32 key) None)
  end.
Proof.
  intros L W A TP KE KP CU HU HC. unfold cp_encrypt. unfold cp_ukm in CU. rewrite CU, TP, KE.
  rewrite KP. rewrite (vko_kek (cv c) L w (t_alg x) _ _ e) by auto.
  destruct (kek (cv c) (t_alg x) e (smul y (gen (cv c))) ukm) as [K|] eqn:EK; [|reflexivity].
  pose proof (kek_key32 _ _ _ _ _ _ EK) as HK. destruct W as (_ & R & _).
  rewrite C32_wrap_refines_rfc4357 by (auto using sbox_ok).
  cbn [pkey_gost_ctrl Z.eqb orb Pos.eqb]. change (1 <=? 0) with false. cbv iota. cbn [negb].
  rewrite cp_param_spec. destruct (wrap_shape (sbox_of (wrap_param (t_alg x))) K ukm (firstn 32 key) (sbox_ok _) HK HU HC) as (_ & S0 & _).
  cbv zeta in S0. unfold cp_outcome, cp_message, transport. rewrite S0. fold (sub 8 32 (wrap (sboxes_of (sbox_of (wrap_param (t_alg x)))) K ukm (firstn 32 key))).
  fold (sub 40 4 (wrap (sboxes_of (sbox_of (wrap_param (t_alg x)))) K ukm (firstn 32 key))).
  destruct (n <? _)%nat; reflexivity.
Qed.
(** The message sent decodes to the transport structure. *)
Lemma spki_xpub curves c : usable curves c -> forall a P, a <> A_other -> P <> pzero (cv c) ->
  exists xp, spki a (cv c) P = Some xp /\ xpub_ok xp /\ x509_pubkey_get curves c xp = K_same a P /\ length (snd xp) = spki_len (cv c) /\
    encode_gost_algor_params a (gname (cv c)) = Some (fst xp).
Proof.
  intros U a P A NZ. pose proof U as (_ & G & _). destruct (spki_ok curves c U a P A NZ) as (buf & S & [h EN] & B & L1 & L2 & X). rewrite EN in S.
  eexists. split; [exact S|]. split; [|split; [apply X|split; [exact L1|exact EN]]]. split; [|split; [exact B|exact L2]].
  cbn [fst]. split; [exact A|exact G].
Qed.
Lemma oid_len p : (length (oid_of p) <= 9)%nat. Proof. destruct p; cbn; lia. Qed.
Lemma transport_ok a W xp : match xp with Some x => xpub_ok x | None => True end -> gkt_ok (transport a W xp).
Proof.
  intros X. unfold gkt_ok, transport. cbn [g_enc g_imit g_cipher g_ephem g_iv]. pose proof (oid_len (wrap_param a)).
  unfold sub. repeat split; try (rewrite firstn_length; lia); try lia; [apply object_ok_oid|exact X].
Qed.
(** The context with which a message is opened: the sender's point and the context afterwards. *)
Definition opens_with (curves : curve_nid -> option curve) (c : curve) (x : tctx (cv c)) (sender : option xpub) (P : pt (cv c)) (x' : tctx (cv c)) : Prop :=
  match sender with
  | Some xp => x509_pubkey_get curves c xp = K_same (t_alg x) P /\ x' = t_with_peer x (EcModel.mk_key None (Some P))
  | None => (exists k, t_peer x = Some k /\ k_pub k = Some P) /\ x' = t_with_data x (with_peer (t_data x) 1)
  end.
Lemma alg_eqb_refl a : alg_eqb a a = true. Proof. destruct a; reflexivity. Qed.
Lemma cp_decrypt_eq curves c w (x x' : tctx (cv c)) inp g P d p :
  ec_laws (cv c) -> t_alg x <> A_other -> d2i_gkt inp = Some g -> opens_with curves c x (g_ephem g) P x' ->
  k_priv (t_key x) = Some d -> find_param (g_cipher g) = Some p ->
  length (g_iv g) = 8%nat -> length (g_enc g) = 32%nat -> length (g_imit g) = 4%nat ->
  cp_decrypt curves c w x inp =
  match kek (cv c) (t_alg x) d P (g_iv g) with
  | None => Returns (mk_got 0 x' None)
  | Some K =>
    let (r, sk) := keyUnwrapCryptoPro (gost_init (w_gost w) (sbox_of p)) K (g_iv g ++ g_enc g ++ g_imit g) in
    Returns (mk_got (if r =? 0 then 0 else 1) x' (Some sk))
  end.
Proof.
  intros L A DG OW KD FP L1 L2 L3. unfold cp_decrypt. rewrite DG.
  assert (T : firstn 8 (g_iv g ++ g_enc g ++ g_imit g) = g_iv g) by (apply firstn_app_exact; exact L1).
  unfold opens_with in OW. destruct (g_ephem g) as [xp|].
  - destruct OW as [X ->]. rewrite X, alg_eqb_refl. change (1 <=? 0) with false. cbv iota. cbn [t_with_peer t_peer t_key t_alg k_pub].
    rewrite FP, L1, L2, L3. cbn [Nat.eqb negb orb]. rewrite T.
    rewrite (vko_kek (cv c) L w (t_alg x) P (t_key x) d) by auto. destruct (kek _ _ _ _ _) as [K|]; reflexivity.
  - destruct OW as [(k & TP & KP) ->]. cbn [pkey_gost_ctrl Z.eqb orb Pos.eqb]. change (1 <=? 0) with false. cbv iota.
    cbn [t_with_data t_peer t_key t_alg]. rewrite TP, FP, L1, L2, L3. cbn [Nat.eqb negb orb]. rewrite T, KP.
    rewrite (vko_kek (cv c) L w (t_alg x) P (t_key x) d) by auto. destruct (kek _ _ _ _ _) as [K|]; reflexivity.
Qed.

(** ** The 2018 variant *)
Definition suite_of (c : kcipher) : cipher_nid := match c with MAGMA => C_magma_ctr | KUZNYECHIK => C_kuz_ctr end.
Definition ps_data (rnd : option (list N)) (d : pdata) : option pdata :=
  if d_ukm_size d =? 0 then option_map (fun r => with_ukm d (firstn 32 r) 32) rnd else Some d.
Lemma ps_suite_of k : ps_suite (suite_of k) = Some (ctr_of_cipher k, mac_of_cipher k, mlen k, half k).
Proof. destruct k; reflexivity. Qed.
Definition a2012 (a : pkey_alg) : Prop := a = A2012_256 \/ a = A2012_512.
Lemma keg_with_eq C w ukm a Q key d : a2012 a -> k_priv key = Some d ->
  keg_with (C := C) w ukm a (Some Q) key = Returns (gost_keg C (w_host w) (w_gost w) ukm a Q d).
Proof. intros [-> | ->] E; unfold keg_with; rewrite E; reflexivity. Qed.
Lemma keg_sym C : ec_laws C -> forall h h' c c' ukm a x y, bytes ukm ->
  gost_keg C h c ukm a (smul y (gen C)) x = gost_keg C h' c' ukm a (smul x (gen C)) y.
Proof.
  intros L h h' c c' ukm a x y B. rewrite !keg_general by assumption. cbv zeta.
  fold (agreed C x (digest_number (real_ukm ukm)) (smul y (gen C))). fold (agreed C y (digest_number (real_ukm ukm)) (smul x (gen C))).
  rewrite (agreed_sym C L). reflexivity.
Qed.
Lemma keg_out C h c ukm a Q d keys : ec_laws C -> bytes ukm -> gost_keg C h c ukm a Q d = Some keys -> blkn 64 keys.
Proof.
  intros L B. rewrite keg_general by assumption. cbv zeta. destruct a; try discriminate.
  - destruct (point_key C _ _) as [k|] eqn:E; [|discriminate]. apply point_key_bytes in E as [E _]. cbn [option_map].
    intros H. apply (f_equal (fun o => match o with Some x => x | None => keys end)) in H. cbv beta iota in H. rewrite <- H.
    split; [apply kdf_tree_length; [exact E|apply bytes_sub_, B]|].
    apply PropAead.kdf_tree_2; [exact E|apply bytes_sub_, B].
  - intros H. apply point_key_bytes in H as [B' L']. split; [exact L'|exact B'].
Qed.

Lemma halves keys : blkn 64 keys -> blkn 32 (firstn 32 keys) /\ blkn 32 (skipn 32 keys) /\ firstn 32 (skipn 32 keys) = skipn 32 keys.
Proof.
  intros [L B]. split; [split; [rewrite firstn_length; lia|apply bytes_firstn, B]|].
  split; [split; [rewrite skipn_length; lia|apply bytes_skipn, B]|]. apply firstn_all2. rewrite skipn_length. lia.
Qed.
Lemma ps_data_ok rnd d d' : data_ok d -> match rnd with Some r => (32 <= length r)%nat /\ bytes r | None => True end ->
  ps_data rnd d = Some d' -> length (d_ukm d') = 32%nat /\ bytes (d_ukm d').
Proof.
  intros (L & B & S) R. unfold ps_data. destruct (d_ukm_size d =? 0).
  - destruct rnd as [r|]; [|discriminate]. destruct R as [R1 R2]. unfold option_map. intros H. assert (E : d' = with_ukm d (firstn 32 r) 32) by congruence. rewrite E. unfold with_ukm, d_ukm.
    split; [rewrite firstn_length; lia|apply bytes_firstn, R2].
  - intros H. assert (E : d' = d) by congruence. rewrite E. auto.
Qed.
Lemma iv_len kc (ukm : list N) : length ukm = 32%nat -> length (firstn (half kc) (skipn 24 ukm)) = half kc.
Proof. intros L. rewrite firstn_length, skipn_length. destruct kc; cbn [half]; lia. Qed.
(** The key used for sending: the peer key if there is one, a new one otherwise. *)
Definition secret_of {C : group} (x : tctx C) (draws : list Z) (e : Z) : Prop :=
  0 < e < order C /\
  match t_peer x with
  | Some k => k = EcModel.mk_key (Some e) (Some (smul e (gen C)))
  | None => keygen_draw draws = Some e
  end.
Lemma ps_encrypt_eq curves c w rnd draws (x : tctx (cv c)) n key kl y kc data e :
  usable curves c -> world_ok w -> a2012 (t_alg x) -> k_pub (t_key x) = Some (smul y (gen (cv c))) ->
  d_cipher (t_data x) = suite_of kc -> draws_ok (cv c) draws -> secret_of x draws e ->
  ps_data rnd (t_data x) = Some data -> length (d_ukm data) = 32%nat -> bytes (d_ukm data) -> bytes key ->
  ps_encrypt w rnd draws x true n key kl =
  match gost_keg (cv c) (w_host w) (w_gost w) (d_ukm data) (t_alg x) (smul y (gen (cv c))) e, spki (t_alg x) (cv c) (smul e (gen (cv c))) with
  | Some keys, Some xp =>
    let m := i2d_pst (mk_pst (ps_export kc keys (d_ukm data) (firstn kl key)) xp (Some (firstn (Z.to_nat (d_ukm_size data)) (d_ukm data)))) in
    if (n <? length m)%nat then Returns (mk_sent 0 (t_with_data x data) [] n 0) else Returns (mk_sent 1 (t_with_data x data) m (length m) 0)
  | _, _ => Returns (mk_sent 0 (t_with_data x data) [] n 0)
  end.
Proof.
  intros U W A KP SC D [EB SE] PD LU BU BK. pose proof U as (_ & _ & L & _).
  assert (AO : t_alg x <> A_other) by (destruct A as [E|E]; rewrite E; discriminate).
  unfold ps_encrypt. rewrite SC, ps_suite_of.
  assert (SK : exists refs, match t_peer x with Some k => Some (k, 0) | None => option_map (fun k => (k, 1)) (gen_ephemeral (cv c) (t_alg x) draws) end
    = Some (EcModel.mk_key (Some e) (Some (smul e (gen (cv c)))), refs)).
  { destruct (t_peer x) as [k|]; [subst k; eexists; reflexivity|]. rewrite (gen_ephemeral_eq (cv c) L) by assumption. rewrite SE. eexists. reflexivity. }
  destruct SK as [refs SK]. rewrite SK. unfold ps_data in PD. rewrite PD. cbv zeta. cbn [t_with_data t_key]. rewrite KP.
  rewrite (keg_with_eq (cv c) w (d_ukm data) (t_alg x) (smul y (gen (cv c))) (EcModel.mk_key (Some e) (Some (smul e (gen (cv c))))) e A eq_refl).
  destruct (gost_keg _ _ _ _ _ _ _) as [keys|] eqn:EK; [|rewrite Z.sub_diag; reflexivity].
  destruct (halves keys (keg_out _ _ _ _ _ _ _ _ L BU EK)) as (H1 & H2 & H3). rewrite H3.
  destruct W as (HL & R & F & _).
  rewrite C33_export_is_KExp15; [|split; [exact HL|split; [exact F|split; [exact H1|exact H2]]]|apply bytes_firstn, bytes_skipn, BU|apply bytes_firstn, BK|apply iv_len, LU].
  replace (length (firstn kl key) + mlen kc <=? kl + mlen kc)%nat with true by (symmetry; apply Nat.leb_le; rewrite firstn_length; lia).
  rewrite spki_priv. destruct (spki_xpub curves c U (t_alg x) (smul e (gen (cv c))) AO) as (xp & SP & _).
  { intros Z. apply (gen_zero (cv c) L) in Z. rewrite Z.mod_small in Z; lia. }
  rewrite SP. rewrite Z.sub_diag. cbn [negb]. fold (ps_export kc keys (d_ukm data) (firstn kl key)). reflexivity.
Qed.
(** The UKM with which a message is opened. *)
Definition ps_open_data (d : pdata) (u : option (list N)) : pdata :=
  match u with
  | Some u => if (d_ukm_size d =? 0) && (length u <=? 32)%nat then with_ukm d (overwrite (d_ukm d) 0 u) (Z.of_nat (length u)) else d
  | None => d
  end.
Lemma ps_decrypt_eq curves c w (x : tctx (cv c)) inp m kc a P d :
  a2012 (t_alg x) -> d_cipher (t_data x) = suite_of kc -> d2i_pst inp = Some m ->
  (match s_ukm m with Some u => (N.of_nat (length u) < 2 ^ 60)%N | None => True end) ->
  x509_pubkey_get curves c (s_ephem m) = K_same a P -> k_priv (t_key x) = Some d ->
  let data := ps_open_data (t_data x) (s_ukm m) in
  ps_decrypt curves c w x inp =
  match gost_keg (cv c) (w_host w) (w_gost w) (d_ukm data) (t_alg x) P d with
  | None => Returns (mk_got 0 (t_with_data x data) None)
  | Some keys =>
    match gost_kimp15 (w_host w) (w_fresh w) (w_stack w) (s_psexp m) (ctr_of_cipher kc) (firstn 32 (skipn 32 keys)) (mac_of_cipher kc) (firstn 32 keys)
            (firstn (half kc) (skipn 24 (d_ukm data))) with
    | KOut k => Returns (mk_got 1 (t_with_data x data) (Some k))
    | KFail => Returns (mk_got 0 (t_with_data x data) None)
    | KOverflow => Dies
    end
  end.
Proof.
  intros A SC DM LU XK KD data. unfold ps_decrypt. rewrite SC, ps_suite_of, DM, XK. cbv zeta.
  assert (Q : exists r, 0 <= r /\ match s_ukm m with
               | Some u => if d_ukm_size (t_data x) =? 0 then pkey_gost_ctrl None (t_data x) (R_set_iv (Z.of_nat (length u)) (Some u)) else Ret 1 (t_data x)
               | None => Ret 1 (t_data x) end = Ret r data).
  { unfold data, ps_open_data. destruct (s_ukm m) as [u|]; [|exists 1; split; [lia|reflexivity]].
    destruct (d_ukm_size (t_data x) =? 0); cbn [andb]; [|exists 1; split; [lia|reflexivity]].
    cbn [pkey_gost_ctrl].
    assert (TS : to_size (Z.of_nat (length u)) = Z.of_nat (length u)).
    { unfold to_size. apply Z.mod_small. change (2 ^ 64) with 18446744073709551616. change (2 ^ 60)%N with 1152921504606846976%N in LU. lia. }
    rewrite TS. rewrite Z.gtb_ltb. destruct (Z.ltb_spec 32 (Z.of_nat (length u))) as [G|G].
    - replace (length u <=? 32)%nat with false by (symmetry; apply Nat.leb_gt; lia). exists 0. split; [lia|reflexivity].
    - replace (length u <=? 32)%nat with true by (symmetry; apply Nat.leb_le; lia). exists 1. split; [lia|].
      rewrite Nat2Z.id, firstn_all. reflexivity. }
  destruct Q as (r & R0 & Q). rewrite Q. replace (r <? 0) with false by (symmetry; apply Z.ltb_ge; exact R0).
  cbn [t_with_data t_alg t_key]. rewrite (keg_with_eq (cv c) w (d_ukm data) (t_alg x) P _ d A KD). reflexivity.
Qed.
