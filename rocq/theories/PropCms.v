(** Property C44: the ASN.1 algorithm parameters of the ciphers, as used by CMS / S-MIME: the sender initialises its
    context with key and IV and then writes the parameters; the receiver initialises without key and IV, reads the
    parameters and then sets the key (crypto/cms/cms_enc.c). *)
From Coq Require Import String.
From Verif Require Import Bytes BytesProofs Gost89Model Gost89Sboxes Gost89Spec Gost89Proofs Gost89SpecProofs
  StreamMode CryptModel CryptSpec CryptProofs MagmaProofs PropGost89 PropCrypt PropCrypt2
  KuzTables KuzSpec KuzModel KuzProofs KuzBlockProofs KuzCipherModel KuzCipherSpec KuzModeProofs PropKuzModes
  Asn1Model EcModel CmsParamsModel PropAmeth.
From Coq Require Import List Lia NArith ZArith.
Import ListNotations.
Open Scope N_scope.

(** * Counter streams with different section sizes *)
Definition cs (E : list N -> list N -> list N) bs key_no k c0 i m :=
  stream nat (ctr_next E bs key_no k c0) (fun s _ => s) bs true i m.
Lemma cs_nil E bs f k c0 i : cs E bs f k c0 i [] = []. Proof. reflexivity. Qed.
Lemma cs_step E bs f k c0 i m : (0 < bs)%nat -> m <> [] ->
  cs E bs f k c0 i m = xorl (firstn bs m) (E (acpkm_key E bs k (f i)) (n2be bs (c0 + N.of_nat i))) ++ cs E bs f k c0 (S i) (skipn bs m).
Proof. intros Hb Hm. unfold cs, stream. rewrite (blocks_step bs m) by auto. reflexivity. Qed.
(** Two section numberings that agree on the blocks of the message give the same result. *)
Lemma cs_agree E bs f g k c0 : (0 < bs)%nat -> forall n i m,
  (length m <= bs * n)%nat -> (forall j, (i <= j < i + n)%nat -> f j = g j) -> cs E bs f k c0 i m = cs E bs g k c0 i m.
Proof.
  intros Hb. induction n as [|n IH]; intros i m L A.
  - destruct m; [reflexivity|cbn in L; lia].
  - destruct m as [|x m0] eqn:Em; [reflexivity|]. rewrite <- Em in *. rewrite (cs_step E bs f), (cs_step E bs g) by (auto; rewrite Em; congruence).
    rewrite (A i) by lia. f_equal. apply IH.
    + rewrite skipn_length. lia.
    + intros j Hj. apply A. lia.
Qed.
(** The last block of a message of [n+1] blocks. *)
Lemma cs_last E bs f k c0 : (0 < bs)%nat -> (forall kn c j, length (E (acpkm_key E bs k (kn j)) (n2be bs (c + N.of_nat j))) = bs) -> forall n i m, length m = (bs * S n)%nat ->
  skipn (bs * n) (cs E bs f k c0 i m) = xorl (skipn (bs * n) m) (E (acpkm_key E bs k (f (i + n)%nat)) (n2be bs (c0 + N.of_nat (i + n)))).
Proof.
  intros Hb LE. induction n as [|n IH]; intros i m L.
  - rewrite Nat.mul_0_r, Nat.add_0_r, !skipn_O. rewrite cs_step by (auto; intros ->; cbn in L; lia).
    rewrite firstn_all2, skipn_all2, cs_nil, app_nil_r by lia. reflexivity.
  - rewrite cs_step by (auto; intros ->; cbn in L; lia).
    replace (bs * S n)%nat with (bs + bs * n)%nat by lia.
    assert (X : length (xorl (firstn bs m) (E (acpkm_key E bs k (f i)) (n2be bs (c0 + N.of_nat i)))) = bs).
    { rewrite xorl_length, firstn_length, LE. lia. }
    rewrite <- (skipn_skipn (bs * n) bs (_ ++ _)), (skipn_app_exact bs) by exact X. rewrite IH by (rewrite skipn_length; lia).
    rewrite skipn_skipn. replace (S i + n)%nat with (i + S n)%nat by lia. reflexivity.
Qed.

Lemma section_no_below bs s i : (bs * i < N.to_nat s)%nat -> section_no bs s i = 0%nat.
Proof.
  intros H. unfold section_no. destruct (N.eqb_spec s 0); [reflexivity|].
  rewrite N.div_small by lia. reflexivity.
Qed.
Lemma ceil_blocks bs l : (0 < bs)%nat -> exists n, (l <= bs * n)%nat /\ forall j, (j < n)%nat -> (bs * j < l)%nat.
Proof.
  intros Hb. induction l as [|l (n & L & M)].
  - exists 0%nat. split; [lia|]. intros j Hj. lia.
  - destruct (Nat.eq_dec l (bs * n)) as [E|E].
    + exists (S n). split; [nia|]. intros j Hj. assert (bs * j <= bs * n)%nat by nia. lia.
    + exists n. split; [lia|]. intros j Hj. pose proof (M j Hj). lia.
Qed.
Lemma cs_sections E bs k c0 s1 s2 m : (0 < bs)%nat ->
  (s1 = 0 \/ N.of_nat (length m) <= s1) -> (s2 = 0 \/ N.of_nat (length m) <= s2) ->
  cs E bs (section_no bs s1) k c0 0 m = cs E bs (section_no bs s2) k c0 0 m.
Proof.
  intros Hb H1 H2. destruct (ceil_blocks bs (length m) Hb) as (n & L & M). apply (cs_agree E bs _ _ k c0 Hb n); [exact L|].
  intros j [_ Hj]. cbn in Hj. pose proof (M j Hj).
  assert (G : forall s, (s = 0 \/ N.of_nat (length m) <= s) -> section_no bs s j = 0%nat).
  { intros s [-> | Hs]; [reflexivity|]. apply section_no_below. lia. }
  rewrite (G s1 H1), (G s2 H2). reflexivity.
Qed.

(** * GOST 28147-89 and magma-cbc *)
(** A new context. *)
Definition new_cctx (g : gost_ctx) : cctx := mk_cctx (fresh_evp g) None (zeros 8).

Lemma find_param_oid p : find_param (oid_of p) = Some p.
Proof. destruct p; reflexivity. Qed.
Lemma object_ok_oid p : object_ok (oid_of p) = true.
Proof. destruct p; reflexivity. Qed.
Lemma find_param_some oid p : find_param oid = Some p -> oid = oid_of p.
Proof. unfold find_param. intros H. apply find_some in H. destruct H as [_ H]. apply eqbl_eq in H. auto. Qed.
Lemma der_length_small tag c : (length c < 128)%nat -> length (der tag c) = (2 + length c)%nat.
Proof. intros H. unfold der, der_len. replace (length c <? 128)%nat with true by (symmetry; apply Nat.ltb_lt; exact H). reflexivity. Qed.
Lemma oid_len p : (length (oid_of p) <= 9)%nat.
Proof. destruct p; cbn; lia. Qed.
Lemma d2i_i2d_cipher_params iv p : (length iv <= 16)%nat -> d2i_cipher_params (i2d_cipher_params iv (Some p)) = Some (iv, oid_of p).
Proof.
  intros L. pose proof (oid_len p) as Lo. unfold d2i_cipher_params, i2d_cipher_params.
  rewrite <- (app_nil_r (der TAG_SEQUENCE _)), get_tlv_der.
  - rewrite get_tlv_der by (apply small_128; lia).
    rewrite <- (app_nil_r (der TAG_OBJECT _)), get_tlv_der by (apply small_128; lia). rewrite object_ok_oid. reflexivity.
  - apply small_128. rewrite app_length, !der_length_small by lia. lia.
Qed.
Lemma d2i_i2d_2015 ukm : (length ukm <= 16)%nat -> d2i_2015_params (i2d_2015_params ukm) = Some ukm.
Proof.
  intros L. unfold d2i_2015_params, i2d_2015_params.
  rewrite <- (app_nil_r (der TAG_SEQUENCE _)), get_tlv_der.
  - rewrite <- (app_nil_r (der TAG_OCTET_STRING _)), get_tlv_der by (apply small_128; lia). reflexivity.
  - apply small_128. rewrite der_length_small by lia. lia.
Qed.

(** What reading the parameters does, for all parameters and all contexts: success exactly for a SEQUENCE of an 8-byte
    OCTET STRING and a known parameter set; then that IV and that set are used.  A failure changes nothing. *)
Theorem C44_gost89_get_exact :
  forall x params,
    (forall r x', gost89_get_asn1_parameters x params = Returns (r, x') ->
       (r = 1%Z /\ exists b iv p, params = Ty_sequence b /\ d2i_cipher_params b = Some (iv, oid_of p) /\ length iv = 8%nat /\
          x_param x' = Some p /\ firstn 8 (e_oiv (x_evp x')) = iv /\ e_g (x_evp x') = gost_init (e_g (x_evp x)) (sbox_of p)) \/
       (r = (-1)%Z /\ x' = x)) /\
    (forall b iv p, params = Ty_sequence b -> d2i_cipher_params b = Some (iv, oid_of p) -> length iv = 8%nat ->
       exists x', gost89_get_asn1_parameters x params = Returns (1%Z, x')).
Proof.
  intros x params. split.
  - intros r x' H. unfold gost89_get_asn1_parameters in H. destruct params as [b|]; [|inversion H; auto].
    destruct (d2i_cipher_params b) as [[iv oid]|] eqn:D; [|discriminate].
    destruct (Nat.eqb_spec (length iv) 8) as [L|L]; cbn [negb] in H; [|inversion H; auto].
    destruct (find_param oid) as [p|] eqn:F; [|inversion H; auto].
    apply find_param_some in F. subst oid. left.
    injection H as <- <-. split; [reflexivity|]. exists b, iv, p.
    split; [reflexivity|]. split; [exact D|]. split; [exact L|]. split; [reflexivity|]. split; [|reflexivity].
    cbn [x_evp with_oiv e_oiv]. unfold overwrite. rewrite firstn_O, app_nil_l. apply firstn_app_exact. exact L.
  - intros b iv p -> D L. unfold gost89_get_asn1_parameters. rewrite D, L. cbn [Nat.eqb negb]. rewrite find_param_oid. eauto.
Qed.
(** Defect: parameters which do not decode kill the process (gost_crypt.c:1431 dereferences NULL); among them the ones
    the engine itself writes for the counter ciphers gost89-cnt and gost89-cnt-12. *)
Theorem C44_gost89_undecodable_refuted :
  (forall x b, d2i_cipher_params b = None -> gost89_get_asn1_parameters x (Ty_sequence b) = Dies) /\
  (forall x, gost89_get_asn1_parameters x (Ty_sequence [48; 0]) = Dies) /\
  (forall sb1 sb2 g1 g2 k iv, length iv = 8%nat ->
     let '(r, a) := gost89_set_asn1_parameters (x_init_cnt sb1 (new_cctx g1) (Some k) (Some iv) true) in
     r = 1%Z /\ gost89_get_asn1_parameters (x_init_cnt sb2 (new_cctx g2) None None false) a = Dies).
Proof.
  split; [|split].
  - intros x b H. unfold gost89_get_asn1_parameters. rewrite H. reflexivity.
  - reflexivity.
  - intros sb1 sb2 g1 g2 k iv L. unfold gost89_set_asn1_parameters. split; [reflexivity|].
    cbn [x_param x_init_cnt new_cctx]. unfold gost89_get_asn1_parameters, d2i_cipher_params, i2d_cipher_params.
    set (v := firstn 8 _). assert (Lv : (length v <= 8)%nat) by (subst v; rewrite firstn_length; lia). clearbody v.
    rewrite <- (app_nil_r (der TAG_SEQUENCE _)), get_tlv_der.
    + rewrite get_tlv_der by (apply small_128; lia). reflexivity.
    + apply small_128. rewrite app_nil_r, der_length_small by lia. lia.
Qed.

Lemma iv8_twice iv : length iv = 8%nat ->
  overwrite (zeros 8) 0 (firstn 8 (overwrite (zeros 8) 0 (firstn 8 iv))) = iv /\ overwrite (zeros 8) 0 iv = iv /\ firstn 8 iv = iv.
Proof. intros H. do 9 (destruct iv as [|? iv]; try discriminate H). split; [|split]; reflexivity. Qed.
Lemma overwrite_zeros8 : overwrite (zeros 8) 0 (firstn 8 (zeros 8)) = zeros 8. Proof. reflexivity. Qed.

(** The receiver's context after the three steps is the one an init with key, IV and the sender's parameter set gives. *)
Lemma gost89_receiver p d g1 g2 k k' iv enc : length iv = 8%nat ->
  exists x, gost89_get_asn1_parameters (x_init d (new_cctx g2) None None enc)
              (snd (gost89_set_asn1_parameters (x_init p (new_cctx g1) (Some k) (Some iv) true))) = Returns (1%Z, x) /\
    x_evp (x_init d x (Some k') None enc) = cbc_start (sbox_of p) (gost_init g2 (sbox_of d)) k' iv enc.
Proof.
  intros L. destruct (iv8_twice iv L) as (I1 & I2 & I3).
  unfold gost89_set_asn1_parameters. cbn [snd].
  assert (V : firstn 8 (e_iv (x_evp (x_init p (new_cctx g1) (Some k) (Some iv) true))) = iv).
  { change (firstn 8 (overwrite (zeros 8) 0 (firstn 8 (overwrite (zeros 8) 0 (firstn 8 iv)))) = iv). rewrite I1. exact I3. }
  rewrite V. change (x_param (x_init p (new_cctx g1) (Some k) (Some iv) true)) with (Some p).
  unfold gost89_get_asn1_parameters. rewrite d2i_i2d_cipher_params by lia. rewrite L. cbn [Nat.eqb negb]. rewrite find_param_oid.
  eexists. split; [reflexivity|].
  unfold cbc_start, x_set_param, x_init, gost_cipher_init_param, init_iv, gost_cipher_set_param, new_cctx, fresh_evp.
  cbn [x_evp x_param x_seed with_enc with_app with_g with_oiv with_iv with_count with_mesh e_app e_g e_oiv e_iv e_count e_mesh e_buf e_num e_enc e_abort].
  change (firstn 8 (zeros 8)) with (zeros 8). change (overwrite (zeros 8) 0 (zeros 8)) with (zeros 8).
  rewrite I3, I2, I3, I2. reflexivity.
Qed.
Lemma magma_cbc_receiver rnd1 rnd2 rnd3 g1 g2 k k' iv : length iv = 8%nat ->
  exists x, gost89_get_asn1_parameters (x_init_magma 8 false rnd2 (new_cctx g2) None None false)
              (snd (gost89_set_asn1_parameters (x_init_magma 8 false rnd1 (new_cctx g1) (Some k) (Some iv) true))) = Returns (1%Z, x) /\
    x_evp (x_init_magma 8 false rnd3 x (Some k') None false) = magma_start 8 false (gost_init g2 Gost28147_TC26ParamSetZ) k' iv false.
Proof.
  intros L. destruct (iv8_twice iv L) as (I1 & I2 & I3).
  unfold gost89_set_asn1_parameters. cbn [snd].
  assert (V : firstn 8 (e_iv (x_evp (x_init_magma 8 false rnd1 (new_cctx g1) (Some k) (Some iv) true))) = iv).
  { change (firstn 8 (overwrite (zeros 8) 0 (firstn 8 (overwrite (zeros 8) 0 (firstn 8 iv)))) = iv). rewrite I1. exact I3. }
  rewrite V. change (x_param (x_init_magma 8 false rnd1 (new_cctx g1) (Some k) (Some iv) true)) with (Some P_Z).
  unfold gost89_get_asn1_parameters. rewrite d2i_i2d_cipher_params by lia. rewrite L. cbn [Nat.eqb negb]. rewrite find_param_oid.
  eexists. split; [reflexivity|].
  unfold magma_start, x_set_param, x_init_magma, magma_cipher_init, init_iv, gost_cipher_set_param, new_cctx, fresh_evp, sbox_of.
  cbn [x_evp x_param x_seed with_enc with_app with_g with_oiv with_iv with_count with_mesh e_app e_g e_oiv e_iv e_count e_mesh e_buf e_num e_enc e_abort].
  change (firstn 8 (zeros 8)) with (zeros 8). change (overwrite (zeros 8) 0 (zeros 8)) with (zeros 8).
  rewrite I3, I2, I3, I2. reflexivity.
Qed.
Lemma sbox_ok p : subst_ok (sbox_of p).
Proof.
  pose proof all_subst_blocks_ok as A. rewrite Forall_forall in A.
  destruct p; apply A; unfold all_subst_blocks; cbn; tauto.
Qed.
Lemma rng_gost_init g sb : rng_ok (g_rng g) -> rng_ok (g_rng (gost_init g sb)).
Proof. intros H. exact H. Qed.
Lemma cfb_cbc_start sb g k iv enc : cfb_start sb g k iv enc 1 = cbc_start sb g k iv enc.
Proof. reflexivity. Qed.

(** The message reaches the receiver: whatever parameter set the sender uses and whatever the receiver's default is. *)
Theorem C44_gost89_message_survives :
  forall p d g1 g2 k iv chunks1 chunks2,
    rng_ok (g_rng g1) -> rng_ok (g_rng g2) -> bytes k -> length iv = 8%nat -> bytes iv ->
    let sender := x_init p (new_cctx g1) (Some k) (Some iv) true in
    exists params x,
      gost89_set_asn1_parameters sender = (1%Z, params) /\
      gost89_get_asn1_parameters (x_init d (new_cctx g2) None None false) params = Returns (1%Z, x) /\
      let receiver := x_init d x (Some k) None false in
      (* gost89 (CFB) *)
      (concat chunks2 = out_of gost_cipher_do_cfb (x_evp sender) chunks1 ->
       out_of gost_cipher_do_cfb (x_evp receiver) chunks2 = concat chunks1) /\
      (* gost89-cbc, whole blocks *)
      (Forall whole chunks1 -> Forall whole chunks2 -> bytes (concat chunks1) ->
       concat chunks2 = out_of gost_cipher_do_cbc (x_evp sender) chunks1 ->
       out_of gost_cipher_do_cbc (x_evp receiver) chunks2 = concat chunks1).
Proof.
  intros p d g1 g2 k iv ch1 ch2 R1 R2 Hk Li Yi. cbv zeta.
  destruct (gost89_receiver p d g1 g2 k k iv false Li) as (x & G & Ev).
  exists (snd (gost89_set_asn1_parameters (x_init p (new_cctx g1) (Some k) (Some iv) true))), x.
  split; [reflexivity|]. split; [exact G|].
  change (x_evp (x_init p (new_cctx g1) (Some k) (Some iv) true)) with (cbc_start (sbox_of p) g1 k iv true).
  rewrite Ev. clear G Ev. pose proof (sbox_ok p) as Sb. set (g2' := gost_init g2 (sbox_of d)).
  assert (R2' : rng_ok (g_rng g2')) by exact R2. clearbody g2'. split.
  - rewrite <- !cfb_cbc_start. intros E. exact (C09_cfb_roundtrip (sbox_of p) g1 g2' k iv 1 true ch1 ch2 Sb R1 R2' Hk Li E).
  - intros W1 W2 Y E. exact (C11_gost_cbc_roundtrip (sbox_of p) g1 g2' k iv ch1 ch2 Sb R1 R2' Hk Li Yi W1 W2 Y E).
Qed.
Theorem C44_magma_cbc_message_survives :
  forall rnd1 rnd2 rnd3 g1 g2 k iv chunks1 chunks2,
    rng_ok (g_rng g1) -> rng_ok (g_rng g2) -> bytes k -> length iv = 8%nat -> bytes iv ->
    let sender := x_init_magma 8 false rnd1 (new_cctx g1) (Some k) (Some iv) true in
    exists params x,
      gost89_set_asn1_parameters sender = (1%Z, params) /\
      gost89_get_asn1_parameters (x_init_magma 8 false rnd2 (new_cctx g2) None None false) params = Returns (1%Z, x) /\
      let receiver := x_init_magma 8 false rnd3 x (Some k) None false in
      (Forall whole chunks1 -> Forall whole chunks2 -> bytes (concat chunks1) ->
       concat chunks2 = out_of magma_cipher_do_cbc (x_evp sender) chunks1 ->
       out_of magma_cipher_do_cbc (x_evp receiver) chunks2 = concat chunks1).
Proof.
  intros rnd1 rnd2 rnd3 g1 g2 k iv ch1 ch2 R1 R2 Hk Li Yi. cbv zeta.
  destruct (magma_cbc_receiver rnd1 rnd2 rnd3 g1 g2 k k iv Li) as (x & G & Ev).
  exists (snd (gost89_set_asn1_parameters (x_init_magma 8 false rnd1 (new_cctx g1) (Some k) (Some iv) true))), x.
  split; [reflexivity|]. split; [exact G|].
  change (x_evp (x_init_magma 8 false rnd1 (new_cctx g1) (Some k) (Some iv) true)) with (magma_start 8 false g1 k iv true).
  rewrite Ev. clear G Ev. set (g2' := gost_init g2 _).
  assert (R2' : rng_ok (g_rng g2')) by exact R2. clearbody g2'.
  intros W1 W2 Y E. exact (C11_magma_cbc_roundtrip g1 g2' k iv ch1 ch2 R1 R2' Hk Li Yi W1 W2 Y E).
Qed.
Print Assumptions C44_magma_cbc_message_survives.
Print Assumptions C44_gost89_message_survives.

(** * magma-ctr and magma-ctr-acpkm *)
Lemma skipn_repeat_N (x : N) n m : skipn n (repeat x m) = repeat x (m - n).
Proof. revert n. induction m as [|m IH]; intros [|n]; try reflexivity. cbn [repeat skipn Nat.sub]. apply IH. Qed.
(** The two-field parameters: decoding gives back what was encoded, and nothing else of that length is accepted. *)
Lemma get_2015_spec params size off seed : (off + 8 = size)%nat -> (size <= 16)%nat ->
  (exists b ukm, params = Ty_sequence b /\ d2i_2015_params b = Some ukm /\ length ukm = size /\
     gost2015_get_asn1_params params size off seed = (1%Z, firstn off ukm ++ zeros (16 - off), skipn off ukm)) \/
  ((forall b ukm, params = Ty_sequence b -> d2i_2015_params b = Some ukm -> length ukm <> size) /\
   gost2015_get_asn1_params params size off seed = (0%Z, zeros 16, seed)).
Proof.
  intros Hs H16. unfold gost2015_get_asn1_params. destruct params as [b|].
  - destruct (d2i_2015_params b) as [ukm|] eqn:D.
    + destruct (Nat.eqb_spec (length ukm) size) as [L|L]; cbn [negb].
      * left. exists b, ukm. split; [reflexivity|]. split; [exact D|]. split; [exact L|]. f_equal; [f_equal|].
        -- unfold overwrite. rewrite firstn_O, app_nil_l, Nat.add_0_l. f_equal. rewrite firstn_length.
           replace (Nat.min off (length ukm)) with off by lia. unfold zeros. apply skipn_repeat_N.
        -- rewrite firstn_all2; [reflexivity|]. rewrite skipn_length. lia.
      * right. split; [|reflexivity]. intros b' ukm' H1 H2. injection H1 as <-. congruence.
    + right. split; [|reflexivity]. intros b' ukm' H1 H2. injection H1 as <-. congruence.
  - right. split; [|reflexivity]. congruence.
Qed.

(** Reading parameters into a magma-ctr context, for all parameters.  Well-formed: the first four bytes become the IV,
    the last eight the seed. *)
Theorem C44_magma_get_well_formed :
  forall x b ukm, d2i_2015_params b = Some ukm -> length ukm = 12%nat ->
    exists x', magma_get_asn1_parameters x (Ty_sequence b) = (1%Z, x') /\
      e_iv (x_evp x') = firstn 4 ukm ++ zeros 4 /\ e_oiv (x_evp x') = firstn 4 ukm ++ zeros 4 /\ x_seed x' = skipn 4 ukm /\
      e_g (x_evp x') = e_g (x_evp x).
Proof.
  intros x b ukm D L. unfold magma_get_asn1_parameters.
  destruct (get_2015_spec (Ty_sequence b) 12 4 (x_seed x) ltac:(lia) ltac:(lia)) as [(b' & u & E1 & E2 & E3 & G)|[B _]].
  2:{ exfalso. exact (B b ukm eq_refl D L). }
  injection E1 as <-. rewrite D in E2. injection E2 as <-. cbv zeta. cbn [x_seed]. rewrite G. cbn [Z.ltb Z.compare].
  eexists. split; [reflexivity|]. cbn [x_evp x_seed with_mesh with_oiv with_iv e_iv e_oiv e_g].
  assert (F : firstn 8 (firstn 4 ukm ++ zeros (16 - 4)) = firstn 4 ukm ++ zeros 4).
  { rewrite firstn_app, firstn_length, firstn_firstn. replace (Nat.min 8 4) with 4%nat by reflexivity.
    replace (8 - Nat.min 4 (length ukm))%nat with 4%nat by lia. reflexivity. }
  rewrite F. auto.
Qed.
(** Defect: anything else is "read" successfully too (gost_crypt.c:1476 tests the result with "< 0", the callee returns
    0): the IV becomes zero and the seed stays what it was. *)
Theorem C44_magma_get_malformed_refuted :
  forall x params,
    (forall b ukm, params = Ty_sequence b -> d2i_2015_params b = Some ukm -> length ukm <> 12%nat) ->
    exists x', magma_get_asn1_parameters x params = (1%Z, x') /\ e_oiv (x_evp x') = zeros 8 /\ e_iv (x_evp x') = zeros 8 /\ x_seed x' = x_seed x.
Proof.
  intros x params B. unfold magma_get_asn1_parameters.
  destruct (get_2015_spec params 12 4 (x_seed x) ltac:(lia) ltac:(lia)) as [(b' & u & E1 & E2 & E3 & G)|[_ G]].
  { exfalso. exact (B b' u E1 E2 E3). }
  cbv zeta. cbn [x_seed]. rewrite G. cbn [Z.ltb Z.compare]. eexists. split; [reflexivity|]. split; [|split]; reflexivity.
Qed.
Example malformed_inputs :
  (forall b ukm, Ty_other = Ty_sequence b -> d2i_2015_params b = Some ukm -> length ukm <> 12%nat) /\
  (forall b ukm, Ty_sequence [48; 3; 4; 1; 7] = Ty_sequence b -> d2i_2015_params b = Some ukm -> length ukm <> 12%nat).
Proof. split; [congruence|]. intros b ukm H D. injection H as <-. cbv in D. injection D as <-. cbn. lia. Qed.

(** Sender and receiver with magma-ctr ([acpkm] = false) or magma-ctr-acpkm. *)
Section MagmaCtr.
Variables (acpkm : bool) (rnd1 rnd2 rnd3 : list N) (g1 g2 : gost_ctx) (k iv : list N).
Definition mc_sent := magma_set_asn1_parameters (x_init_magma 4 acpkm rnd1 (new_cctx g1) (Some k) (Some iv) true).
Definition mc_sender : cctx := snd (fst mc_sent).
Definition mc_read := magma_get_asn1_parameters (x_init_magma 4 acpkm rnd2 (new_cctx g2) None None false) (snd mc_sent).
Definition mc_receiver : cctx := x_init_magma 4 acpkm rnd3 (snd mc_read) (Some k) None false.
End MagmaCtr.

Lemma iv4_shape iv : length iv = 4%nat ->
  overwrite (zeros 8) 0 (firstn 4 iv) = iv ++ zeros 4 /\
  firstn 4 (iv ++ zeros 4) = iv /\ firstn 8 (iv ++ zeros 12) = iv ++ zeros 4 /\
  overwrite (zeros 8) 0 iv = iv ++ zeros 4 /\ overwrite (iv ++ zeros 4) 0 iv = iv ++ zeros 4.
Proof. intros H. do 5 (destruct iv as [|? iv]; try discriminate H). repeat split; reflexivity. Qed.
Lemma mc_facts acpkm rnd1 rnd2 rnd3 g1 g2 k iv : length iv = 4%nat -> length rnd1 = 8%nat ->
  fst (fst (mc_sent acpkm rnd1 g1 k iv)) = 1%Z /\ fst (mc_read acpkm rnd1 rnd2 g1 g2 k iv) = 1%Z /\
  x_seed (mc_receiver acpkm rnd1 rnd2 rnd3 g1 g2 k iv) = x_seed (mc_sender acpkm rnd1 g1 k iv) /\
  x_evp (mc_sender acpkm rnd1 g1 k iv) = ctr_start acpkm (Some 8192) g1 k iv true /\
  x_evp (mc_receiver acpkm rnd1 rnd2 rnd3 g1 g2 k iv) = ctr_start acpkm None g2 k iv false.
Proof.
  intros L Lr. destruct (iv4_shape iv L) as (I1 & I2 & I3 & I4 & I5).
  assert (S1 : snd (mc_sent acpkm rnd1 g1 k iv) = Ty_sequence (i2d_2015_params (iv ++ rnd1))).
  { change (Ty_sequence (i2d_2015_params (firstn 4 (overwrite (zeros 8) 0 (firstn 4 iv)) ++ firstn 8 rnd1)) = Ty_sequence (i2d_2015_params (iv ++ rnd1))).
    rewrite I1, I2, (firstn_all2 rnd1) by lia. reflexivity. }
  assert (D : d2i_2015_params (i2d_2015_params (iv ++ rnd1)) = Some (iv ++ rnd1)) by (apply d2i_i2d_2015; rewrite app_length; lia).
  assert (Lu : length (iv ++ rnd1) = 12%nat) by (rewrite app_length; lia).
  assert (R : mc_read acpkm rnd1 rnd2 g1 g2 k iv =
    (1%Z, mk_cctx (mk_evp (gost_init g2 Gost28147_TC26ParamSetZ) 0 8192 true (iv ++ zeros 4) (iv ++ zeros 4) (zeros 32) 0 false false) (Some P_Z) rnd1)).
  { unfold mc_read. rewrite S1. unfold magma_get_asn1_parameters.
    destruct (get_2015_spec (Ty_sequence (i2d_2015_params (iv ++ rnd1))) 12 4
      (x_seed (mk_cctx (with_mesh (x_evp (x_init_magma 4 acpkm rnd2 (new_cctx g2) None None false)) 8192)
         (x_param (x_init_magma 4 acpkm rnd2 (new_cctx g2) None None false)) (x_seed (x_init_magma 4 acpkm rnd2 (new_cctx g2) None None false))))
      ltac:(lia) ltac:(lia)) as [(b' & u & E1 & E2 & E3 & G)|[B _]].
    2:{ exfalso. exact (B _ _ eq_refl D Lu). }
    injection E1 as <-. rewrite D in E2. injection E2 as <-. cbv zeta. rewrite G.
    rewrite (firstn_app_exact 4 iv), (skipn_app_exact 4 iv) by exact L. change (16 - 4)%nat with 12%nat. rewrite I3. reflexivity. }
  split; [reflexivity|]. split; [rewrite R; reflexivity|].
  unfold mc_receiver. rewrite R. cbn [snd].
  split; [reflexivity|]. split.
  - assert (T : x_evp (mc_sender acpkm rnd1 g1 k iv) = with_mesh (magma_start 4 acpkm g1 k iv true) 8192) by exact eq_refl.
    rewrite T. unfold ctr_start, ctl_key_mesh.
    assert (Cn : e_count (magma_start 4 acpkm g1 k iv true) = 0) by exact eq_refl.
    rewrite Cn. reflexivity.
  - unfold ctr_start, magma_start, x_init_magma, magma_cipher_init, init_iv, gost_cipher_set_param, fresh_evp.
    cbn [x_evp x_param x_seed with_enc with_app with_g with_oiv with_iv with_count with_mesh e_app e_g e_oiv e_iv e_count e_mesh e_buf e_num e_enc e_abort].
    rewrite I2, I5, I1, I2, I4. reflexivity.
Qed.
(** The first bytes of every message arrive: 8192 bytes with magma-ctr, 1024 with magma-ctr-acpkm ... *)
Theorem C44_magma_ctr_message_survives :
  forall acpkm rnd1 rnd2 rnd3 g1 g2 k iv chunks1 chunks2,
    rng_ok (g_rng g1) -> rng_ok (g_rng g2) -> bytes k -> length iv = 4%nat -> bytes iv -> length rnd1 = 8%nat ->
    fst (fst (mc_sent acpkm rnd1 g1 k iv)) = 1%Z /\ fst (mc_read acpkm rnd1 rnd2 g1 g2 k iv) = 1%Z /\
    x_seed (mc_receiver acpkm rnd1 rnd2 rnd3 g1 g2 k iv) = x_seed (mc_sender acpkm rnd1 g1 k iv) /\
    (N.of_nat (length (concat chunks1)) <= (if acpkm then 1024 else 8192) ->
     concat chunks2 = out_of magma_cipher_do_ctr (x_evp (mc_sender acpkm rnd1 g1 k iv)) chunks1 ->
     out_of magma_cipher_do_ctr (x_evp (mc_receiver acpkm rnd1 rnd2 rnd3 g1 g2 k iv)) chunks2 = concat chunks1) /\
    (* ... and longer ones too if the receiver then sets the section size to 8192 with EVP_CTRL_KEY_MESH. *)
    (concat chunks2 = out_of magma_cipher_do_ctr (x_evp (mc_sender acpkm rnd1 g1 k iv)) chunks1 ->
     out_of magma_cipher_do_ctr (snd (ctl_key_mesh (x_evp (mc_receiver acpkm rnd1 rnd2 rnd3 g1 g2 k iv)) 8192)) chunks2 = concat chunks1).
Proof.
  intros acpkm rnd1 rnd2 rnd3 g1 g2 k iv ch1 ch2 R1 R2 Hk Li Yi Lr.
  destruct (mc_facts acpkm rnd1 rnd2 rnd3 g1 g2 k iv Li Lr) as (F1 & F2 & F3 & F4 & F5).
  split; [exact F1|]. split; [exact F2|]. split; [exact F3|]. rewrite F4, F5. clear F1 F2 F3 F4 F5. split.
  - intros B E.
    assert (Q : out_of magma_cipher_do_ctr (ctr_start acpkm (Some 8192) g1 k iv true) ch1 =
                out_of magma_cipher_do_ctr (ctr_start acpkm None g1 k iv true) ch1).
    { rewrite !C12_magma_ctr_refines_spec_for_every_chunking by (auto; destruct acpkm; reflexivity).
      apply (cs_sections (rfc8891_encrypt SZ) 8 k (be2n (iv ++ zeros 4))); [lia| |].
      - right. destruct acpkm; cbn [section_size]; lia.
      - destruct acpkm; cbn [section_size]; [right|left]; lia. }
    rewrite Q in E. refine (C12_magma_ctr_involution acpkm None g1 g2 k iv true false ch1 ch2 R1 R2 Hk Li Yi _ _ E);
      destruct acpkm; reflexivity.
  - intros E. assert (T : forall c n, snd (ctl_key_mesh (ctr_start acpkm None g2 k iv c) n) = ctr_start acpkm (Some n) g2 k iv c) by (intros; unfold ctr_start; reflexivity).
    rewrite T. exact (C12_magma_ctr_involution acpkm (Some 8192) g1 g2 k iv true false ch1 ch2 R1 R2 Hk Li Yi eq_refl eq_refl E).
Qed.
Lemma cs_bytes E bs f k c0 : (0 < bs)%nat -> (forall j, bytes (E (acpkm_key E bs k (f j)) (n2be bs (c0 + N.of_nat j)))) ->
  forall m i, bytes m -> bytes (cs E bs f k c0 i m).
Proof.
  intros Hb HE m. unfold cs, stream. intros i Hm. apply (blocks_bytes bs m Hb) in Hm. revert i Hm.
  induction (blocks bs m) as [|b t IH]; intros i Hm; cbn [stream_blocks].
  - constructor.
  - inversion Hm; subst. unfold ctr_next at 1. apply bytes_app; [|apply IH; auto]. apply xorl_bytes; auto.
Qed.
(** Two streams that use different keys for the last block do not cancel. *)
Lemma cs_differ E bs f g k c0 i m : (0 < bs)%nat -> (forall kn c j, length (E (acpkm_key E bs k (kn j)) (n2be bs (c + N.of_nat j))) = bs) ->
  length m = (bs * S i)%nat ->
  E (acpkm_key E bs k (f i)) (n2be bs (c0 + N.of_nat i)) <> E (acpkm_key E bs k (g i)) (n2be bs (c0 + N.of_nat i)) ->
  cs E bs g k c0 0 (cs E bs f k c0 0 m) <> m.
Proof.
  intros Hb LE L D H.
  assert (L1 : length (cs E bs f k c0 0 m) = (bs * S i)%nat).
  { unfold cs. rewrite (stream_length nat (ctr_next E bs f k c0) (fun s _ => s) bs (fun _ => True)); auto.
    intros s _. apply LE. }
  assert (X := f_equal (skipn (bs * i)) H). rewrite (cs_last E bs g k c0 Hb LE i 0 _ L1), (cs_last E bs f k c0 Hb LE i 0 m L) in X.
  rewrite Nat.add_0_l in X.
  set (a := E (acpkm_key E bs k (f i)) _) in *. set (b := E (acpkm_key E bs k (g i)) _) in *.
  assert (La : length a = bs) by apply LE. assert (Lb : length b = bs) by apply LE.
  assert (Lm : length (skipn (bs * i) m) = bs) by (rewrite skipn_length; nia).
  set (mm := skipn (bs * i) m) in *. clearbody a b mm. apply D. clear - X La Lb Lm.
  revert a b bs La Lb Lm X. induction mm as [|x mm IH]; intros [|p a] [|q b] bs La Lb Lm X; cbn in *; try lia; [reflexivity|].
  destruct bs as [|bs]; [lia|]. injection X as X1 X2. f_equal.
  - rewrite <- (N.lxor_0_l p), <- (N.lxor_nilpotent x). rewrite <- X1 at 2. apply N.bits_inj. intros n.
    rewrite !N.lxor_spec. destruct (N.testbit x n), (N.testbit p n), (N.testbit q n); reflexivity.
  - apply (IH a b bs); try lia. exact X2.
Qed.
(** Defect: the receiver's init, which must follow the reading of the parameters, sets the section size back
    (gost_crypt.c:515-520), while the sender's parameters set it to 8192 after its init: the first byte after the
    receiver's (or, for magma-ctr, the sender's) first section is wrong. *)
Theorem C44_magma_ctr_long_message_refuted :
  forall (acpkm : bool) rnd1 rnd2 rnd3 g1 g2, rng_ok (g_rng g1) -> rng_ok (g_rng g2) -> length rnd1 = 8%nat ->
  exists (k iv m : list N), bytes k /\ length k = 32%nat /\ length iv = 4%nat /\ bytes iv /\ N.of_nat (length m) = (if acpkm then 1024 else 8192) + 8 /\
    out_of magma_cipher_do_ctr (x_evp (mc_receiver acpkm rnd1 rnd2 rnd3 g1 g2 k iv))
      [out_of magma_cipher_do_ctr (x_evp (mc_sender acpkm rnd1 g1 k iv)) [m]] <> m.
Proof.
  intros acpkm rnd1 rnd2 rnd3 g1 g2 R1 R2 Lr.
  assert (Hi : exists i, N.of_nat i = if acpkm then 128 else 1024) by (exists (N.to_nat (if acpkm then 128 else 1024)); apply N2Nat.id).
  destruct Hi as [i Ni].
  assert (Li : N.of_nat (8 * S i) = (if acpkm then 1024 else 8192) + 8).
  { rewrite Nat2N.inj_mul, (Nat2N.inj_succ i), Ni. destruct acpkm; reflexivity. }
  exists kdemo, (zeros 4), (zeros (8 * S i)).
  assert (Hk : bytes kdemo) by (apply bytes_forallb; vm_compute; reflexivity).
  split; [exact Hk|]. split; [reflexivity|]. split; [reflexivity|]. split; [apply bytes_zeros|].
  split; [rewrite zeros_length; exact Li|].
  destruct (mc_facts acpkm rnd1 rnd2 rnd3 g1 g2 kdemo (zeros 4) (eq_refl 4%nat) Lr) as (_ & _ & _ & -> & ->).
  rewrite !C12_magma_ctr_refines_spec_for_every_chunking by (auto; try apply bytes_zeros; destruct acpkm; reflexivity).
  cbn [concat]. rewrite !app_nil_r.
  unfold magma_ctr.
  refine (cs_differ (rfc8891_encrypt SZ) 8 (section_no 8 (section_size acpkm (Some 8192))) (section_no 8 (section_size acpkm None)) kdemo
           (be2n (zeros 4 ++ zeros 4)) i (zeros (8 * S i)) _ _ _ _).
  - lia.
  - intros kn c j. apply rfc8891_encrypt_length.
  - apply zeros_length.
  - assert (Q : eqbl (rfc8891_encrypt SZ kdemo (n2be 8 128)) (rfc8891_encrypt SZ (acpkm_key (rfc8891_encrypt SZ) 8 kdemo 1) (n2be 8 128)) = false /\
                eqbl (rfc8891_encrypt SZ kdemo (n2be 8 1024)) (rfc8891_encrypt SZ (acpkm_key (rfc8891_encrypt SZ) 8 kdemo 1) (n2be 8 1024)) = false)
      by (split; vm_compute; reflexivity).
    destruct Q as [Q1 Q2].
    assert (B : be2n (zeros 4 ++ zeros 4) + N.of_nat i = if acpkm then 128 else 1024).
    { rewrite Ni. destruct acpkm; reflexivity. }
    assert (S1 : section_no 8 8192 i = if acpkm then 0%nat else 1%nat).
    { unfold section_no. rewrite Ni. destruct acpkm; reflexivity. }
    assert (S2 : section_no 8 (section_size acpkm None) i = if acpkm then 1%nat else 0%nat).
    { unfold section_no. rewrite Ni. destruct acpkm; reflexivity. }
    change (section_size acpkm (Some 8192)) with 8192. rewrite B, S1, S2. clear - Q1 Q2. intros H.
    destruct acpkm; [apply eqbl_neq in Q1; apply Q1; exact H|apply eqbl_neq in Q2; apply Q2; symmetry; exact H].
Qed.
Print Assumptions C44_magma_ctr_long_message_refuted.

(** * kuznyechik-ctr and kuznyechik-ctr-acpkm *)
Definition new_kcctx : kcctx := mk_kcctx kctx0 (zeros 8) false.
(** Reading parameters, for all parameters: success exactly for well-formed ones; otherwise 0 and nothing changes. *)
Theorem C44_kuz_get_exact :
  forall y params,
    (exists b ukm, params = Ty_sequence b /\ d2i_2015_params b = Some ukm /\ length ukm = 16%nat /\
       grasshopper_get_asn1_parameters true y params =
         (1%Z, mk_kcctx (kw_sect (kw_oiv (kw_iv (y_k y) (firstn 8 ukm ++ zeros 8)) (firstn 8 ukm ++ zeros 8)) 262144) (skipn 8 ukm) (y_app y))) \/
    ((forall b ukm, params = Ty_sequence b -> d2i_2015_params b = Some ukm -> length ukm <> 16%nat) /\
     grasshopper_get_asn1_parameters true y params = (0%Z, y)).
Proof.
  intros y params. unfold grasshopper_get_asn1_parameters.
  destruct (get_2015_spec params 16 8 (y_seed y) ltac:(lia) ltac:(lia)) as [(b & u & E1 & E2 & E3 & G)|[B G]].
  - left. exists b, u. split; [exact E1|]. split; [exact E2|]. split; [exact E3|]. rewrite G. reflexivity.
  - right. split; [exact B|]. rewrite G. destruct y; reflexivity.
Qed.
(** The other modes refuse both directions and change nothing. *)
Theorem C44_kuz_other_modes_refuse :
  forall y params, grasshopper_set_asn1_parameters false y = (0%Z, y, None) /\ grasshopper_get_asn1_parameters false y params = (0%Z, y).
Proof. split; reflexivity. Qed.

Section KuzCtr.
Variables (acpkm : bool) (rnd1 rnd2 rnd3 : list N) (k iv : list N).
Definition y_init (rnd : list N) := if acpkm then y_init_ctracpkm rnd else y_init_ctr.
Definition kc_sent := grasshopper_set_asn1_parameters true (y_init rnd1 new_kcctx (Some k) (Some iv) true).
Definition kc_sender : kcctx := snd (fst kc_sent).
Definition kc_read := grasshopper_get_asn1_parameters true (y_init rnd2 new_kcctx None None false)
   (match snd kc_sent with Some a => a | None => Ty_other end).
Definition kc_receiver : kcctx := y_init rnd3 (snd kc_read) (Some k) None false.
End KuzCtr.
Lemma iv8_shape iv : length iv = 8%nat ->
  overwrite (zeros 16) 0 (firstn 8 iv) = iv ++ zeros 8 /\
  firstn 8 (iv ++ zeros 8) = iv /\ overwrite (zeros 16) 0 iv = iv ++ zeros 8 /\ overwrite (iv ++ zeros 8) 0 iv = iv ++ zeros 8.
Proof. intros H. do 9 (destruct iv as [|? iv]; try discriminate H). split; [|split; [|split]]; reflexivity. Qed.
Definition kuz_doit (acpkm : bool) := if acpkm then do_ctracpkm else do_ctr.
(** An init without IV, on a context whose original IV is [iv]. *)
Lemma init_no_iv c k iv enc : length iv = 8%nat -> k_oiv c = iv ++ zeros 8 ->
  gost_grasshopper_cipher_init 8 c (Some k) None enc = gost_grasshopper_cipher_init 8 c (Some k) (Some iv) enc.
Proof.
  intros L H. destruct (iv8_shape iv L) as (I1 & I2 & I3 & I4). unfold gost_grasshopper_cipher_init.
  set (c1 := gost_grasshopper_master_key _ k). assert (O : k_oiv c1 = iv ++ zeros 8) by exact H.
  cbv zeta. assert (W : kw_oiv c1 (overwrite (k_oiv c1) 0 (firstn 8 iv)) = c1).
  { rewrite O, (firstn_all2 iv) by lia. rewrite I4, <- O. destruct c1; reflexivity. }
  rewrite W. reflexivity.
Qed.
(** The context the receiver has after reading the parameters. *)
Definition kc_mid (acpkm : bool) (iv : list N) : kctx :=
  kw_sect (kw_oiv (kw_iv (if acpkm then init_ctracpkm kctx0 None None false else init_ctr kctx0 None None false) (iv ++ zeros 8)) (iv ++ zeros 8)) 262144.
Lemma kc_facts acpkm rnd1 rnd2 rnd3 k iv : length iv = 8%nat -> length rnd1 = 8%nat ->
  fst (fst (kc_sent acpkm rnd1 k iv)) = 1%Z /\ fst (kc_read acpkm rnd1 rnd2 k iv) = 1%Z /\
  y_seed (kc_receiver acpkm rnd1 rnd2 rnd3 k iv) = y_seed (kc_sender acpkm rnd1 k iv) /\
  y_k (kc_sender acpkm rnd1 k iv) = (if acpkm then acpkm_start kctx0 (Some 262144%Z) k iv true
                                     else init_ctr (kw_sect kctx0 262144) (Some k) (Some iv) true) /\
  y_k (kc_receiver acpkm rnd1 rnd2 rnd3 k iv) = (if acpkm then acpkm_start (kc_mid true iv) None k iv false
                                                 else init_ctr (kc_mid false iv) (Some k) (Some iv) false).
Proof.
  intros L Lr. destruct (iv8_shape iv L) as (I1 & I2 & I3 & I4).
  set (seed := if acpkm then rnd1 else zeros 8).
  assert (Ls : length seed = 8%nat) by (subst seed; destruct acpkm; [exact Lr|reflexivity]).
  assert (S1 : snd (kc_sent acpkm rnd1 k iv) = Some (Ty_sequence (i2d_2015_params (iv ++ seed)))).
  { assert (X : snd (kc_sent acpkm rnd1 k iv) = Some (Ty_sequence (i2d_2015_params (firstn 8 (overwrite (zeros 16) 0 (firstn 8 iv)) ++ firstn 8 seed))))
      by (subst seed; destruct acpkm; exact eq_refl).
    rewrite X, I1, I2, (firstn_all2 seed) by lia. reflexivity. }
  assert (Sd : y_seed (kc_sender acpkm rnd1 k iv) = seed) by (subst seed; destruct acpkm; exact eq_refl).
  clearbody seed.
  assert (D : d2i_2015_params (i2d_2015_params (iv ++ seed)) = Some (iv ++ seed)) by (apply d2i_i2d_2015; rewrite app_length; lia).
  assert (Lu : length (iv ++ seed) = 16%nat) by (rewrite app_length; lia).
  assert (R : kc_read acpkm rnd1 rnd2 k iv = (1%Z, mk_kcctx (kc_mid acpkm iv) seed true)).
  { unfold kc_read. rewrite S1.
    destruct (C44_kuz_get_exact (y_init acpkm rnd2 new_kcctx None None false) (Ty_sequence (i2d_2015_params (iv ++ seed)))) as [(b & u & E1 & E2 & E3 & G)|[B _]].
    2:{ exfalso. exact (B _ _ eq_refl D Lu). }
    injection E1 as <-. rewrite D in E2. injection E2 as <-. rewrite G.
    rewrite (firstn_app_exact 8 iv), (skipn_app_exact 8 iv) by exact L. unfold kc_mid, y_init. destruct acpkm; reflexivity. }
  split; [unfold kc_sent, grasshopper_set_asn1_parameters; reflexivity|]. split; [rewrite R; reflexivity|].
  rewrite Sd. unfold kc_receiver. rewrite R. cbn [snd].
  split; [unfold y_init; destruct acpkm; reflexivity|]. split.
  - destruct acpkm.
    + assert (T : y_k (kc_sender true rnd1 k iv) = kw_sect (init_ctracpkm kctx0 (Some k) (Some iv) true) 262144) by exact eq_refl.
      rewrite T. reflexivity.
    + exact eq_refl.
  - unfold y_init. destruct acpkm; cbn [y_k y_init_ctracpkm y_init_ctr].
    + unfold acpkm_start, init_ctracpkm. apply init_no_iv; [exact L|reflexivity].
    + unfold init_ctr. apply init_no_iv; [exact L|reflexivity].
Qed.
Lemma kc_mid_ok acpkm iv : length iv = 8%nat -> kctx_ok (kc_mid acpkm iv) /\ skipn 8 (k_iv (kc_mid acpkm iv)) = zeros 8.
Proof.
  intros L.
  assert (K : k_iv (kc_mid acpkm iv) = iv ++ zeros 8) by reflexivity.
  assert (O : k_oiv (kc_mid acpkm iv) = iv ++ zeros 8) by reflexivity.
  split; [|rewrite K; apply skipn_app_exact; exact L].
  unfold kctx_ok. rewrite K, O, app_length, L. destruct acpkm; (split; [reflexivity|]); (split; [reflexivity|]);
   (split; [reflexivity|]); (split; [reflexivity|]); (split; [reflexivity|]); (split; [apply bytes_zeros|reflexivity]).
Qed.
Lemma kuz_ctr_twice s k iv m : kuz_key k -> kuz_ctr s k iv (kuz_ctr s k iv m) = m.
Proof.
  intros Hk. unfold kuz_ctr. set (nx := ctr_next E_ 16 _ k _).
  assert (Ln : forall s, length (snd (nx s)) = 16%nat) by (intros; apply ctr_len16; exact Hk). clearbody nx.
  rewrite (stream_enc_irrelevant _ _ 16 true (negb true) _ (stream _ _ _ _ _ _ _)).
  apply stream_roundtrip with (good := fun _ => True); auto; lia.
Qed.
(** Every kuznyechik-ctr message arrives, and every kuznyechik-ctr-acpkm message of at most 4096 bytes. *)
Theorem C44_kuz_ctr_message_survives :
  forall (acpkm : bool) rnd1 rnd2 rnd3 k iv chunks1 chunks2,
    kuz_key k -> kuz_iv 8 iv -> length rnd1 = 8%nat -> Forall bytes chunks1 -> Forall bytes chunks2 ->
    fst (fst (kc_sent acpkm rnd1 k iv)) = 1%Z /\ fst (kc_read acpkm rnd1 rnd2 k iv) = 1%Z /\
    y_seed (kc_receiver acpkm rnd1 rnd2 rnd3 k iv) = y_seed (kc_sender acpkm rnd1 k iv) /\
    ((acpkm = true -> N.of_nat (length (concat chunks1)) <= 4096) ->
     concat chunks2 = kout (kuz_doit acpkm) (y_k (kc_sender acpkm rnd1 k iv)) chunks1 ->
     kout (kuz_doit acpkm) (y_k (kc_receiver acpkm rnd1 rnd2 rnd3 k iv)) chunks2 = concat chunks1) /\
    (* ... longer ones too if the receiver sets the section size with EVP_CTRL_KEY_MESH. *)
    (acpkm = true ->
     concat chunks2 = kout do_ctracpkm (y_k (kc_sender acpkm rnd1 k iv)) chunks1 ->
     kout do_ctracpkm (snd (kuz_ctl_key_mesh (y_k (kc_receiver acpkm rnd1 rnd2 rnd3 k iv)) 262144)) chunks2 = concat chunks1).
Proof.
  intros acpkm rnd1 rnd2 rnd3 k iv ch1 ch2 Hk Hi Lr Y1 Y2. pose proof Hi as [Li Yi].
  destruct (kc_facts acpkm rnd1 rnd2 rnd3 k iv Li Lr) as (F1 & F2 & F3 & F4 & F5).
  split; [exact F1|]. split; [exact F2|]. split; [exact F3|]. rewrite F4, F5. clear F1 F2 F3 F4 F5.
  destruct acpkm.
  - destruct (kc_mid_ok true iv Li) as [O Zm]. set (c2 := kc_mid true iv) in *. clearbody c2.
    assert (As : sect_arg_ok (Some 262144%Z)) by (cbn; lia). split.
    + intros B. specialize (B eq_refl). unfold kuz_doit.
      rewrite !C25_ctr_acpkm_refines_spec by (auto; try apply kctx0_ok; exact I). intros E. rewrite E.
      assert (Q : kuz_ctr (acpkm_section (Some 262144%Z)) k iv (concat ch1) = kuz_ctr (acpkm_section None) k iv (concat ch1)).
      { apply (cs_sections E_ 16 k (be2n (iv ++ zeros 8))); [lia| |]; right; cbn [acpkm_section]; lia. }
      rewrite Q. apply kuz_ctr_twice. exact Hk.
    + intros _. assert (T : snd (kuz_ctl_key_mesh (acpkm_start c2 None k iv false) 262144) = acpkm_start c2 (Some 262144%Z) k iv false) by (unfold acpkm_start; reflexivity).
      rewrite T. rewrite !C25_ctr_acpkm_refines_spec by (auto; apply kctx0_ok). intros E. rewrite E. apply kuz_ctr_twice. exact Hk.
  - destruct (kc_mid_ok false iv Li) as [O Zm]. set (c2 := kc_mid false iv) in *. clearbody c2. split; [|congruence].
    intros _. unfold kuz_doit. rewrite !C25_ctr_refines_spec by (auto; apply (kw_sect_ok kctx0 262144 kctx0_ok)).
    intros E. rewrite E. apply kuz_ctr_twice. exact Hk.
Qed.
(** Defect, as for magma: the receiver's init sets the section size back to 4096. *)
Theorem C44_kuz_ctr_acpkm_long_message_refuted :
  forall rnd1 rnd2 rnd3, length rnd1 = 8%nat ->
  exists (k iv m : list N), kuz_key k /\ kuz_iv 8 iv /\ N.of_nat (length m) = 4096 + 16 /\ bytes m /\
    kout do_ctracpkm (y_k (kc_receiver true rnd1 rnd2 rnd3 k iv)) [kout do_ctracpkm (y_k (kc_sender true rnd1 k iv)) [m]] <> m.
Proof.
  intros rnd1 rnd2 rnd3 Lr.
  assert (Hi : exists i, N.of_nat i = 256) by (exists (N.to_nat 256); apply N2Nat.id). destruct Hi as [i Ni].
  exists kdemo, (zeros 8), (zeros (16 * S i)).
  assert (Hk : kuz_key kdemo) by (split; [reflexivity|apply bytes_forallb; vm_compute; reflexivity]).
  assert (Hv : kuz_iv 8 (zeros 8)) by (split; [reflexivity|apply bytes_zeros]).
  split; [exact Hk|]. split; [exact Hv|].
  split; [rewrite zeros_length, Nat2N.inj_mul, (Nat2N.inj_succ i), Ni; reflexivity|]. split; [apply bytes_zeros|].
  destruct (kc_facts true rnd1 rnd2 rnd3 kdemo (zeros 8) (eq_refl 8%nat) Lr) as (_ & _ & _ & -> & ->).
  destruct (kc_mid_ok true (zeros 8) (eq_refl 8%nat)) as [O Zm]. set (c2 := kc_mid true (zeros 8)) in *. clearbody c2.
  assert (As : sect_arg_ok (Some 262144%Z)) by (cbn; lia).
  assert (Em : forall b, bytes b -> kout do_ctracpkm (acpkm_start kctx0 (Some 262144%Z) kdemo (zeros 8) true) [b] = kuz_ctr 262144 kdemo (zeros 8) b).
  { intros b Yb. rewrite (C25_ctr_acpkm_refines_spec kctx0 (Some 262144%Z)) by (auto; apply kctx0_ok). cbn [concat]. rewrite app_nil_r. reflexivity. }
  assert (Er : forall b, bytes b -> kout do_ctracpkm (acpkm_start c2 None kdemo (zeros 8) false) [b] = kuz_ctr 4096 kdemo (zeros 8) b).
  { intros b Yb. rewrite (C25_ctr_acpkm_refines_spec c2 None) by (auto; exact I). cbn [concat]. rewrite app_nil_r. reflexivity. }
  rewrite Em by apply bytes_zeros. rewrite Er.
  - unfold kuz_ctr.
    refine (cs_differ E_ 16 (section_no 16 262144) (section_no 16 4096) kdemo (be2n (zeros 8 ++ zeros 8)) i (zeros (16 * S i)) _ _ _ _).
    + lia.
    + intros kn c j. exact (ctr_len16 kdemo kn c j Hk).
    + apply zeros_length.
    + assert (Q : eqbl (E_ kdemo (n2be 16 256)) (E_ (acpkm_key E_ 16 kdemo 1) (n2be 16 256)) = false) by (vm_compute; reflexivity).
      assert (B : be2n (zeros 8 ++ zeros 8) + N.of_nat i = 256) by (rewrite Ni; reflexivity).
      assert (S1 : section_no 16 262144 i = 0%nat) by (unfold section_no; rewrite Ni; reflexivity).
      assert (S2 : section_no 16 4096 i = 1%nat) by (unfold section_no; rewrite Ni; reflexivity).
      rewrite B, S1, S2. apply eqbl_neq. exact Q.
  - apply (cs_bytes E_ 16 (section_no 16 262144) kdemo (be2n (zeros 8 ++ zeros 8))); [lia| |apply bytes_zeros].
    intros j. destruct (acpkm_key_ok kdemo (section_no 16 262144 j) Hk). apply E_blk; auto. apply n2be16_blk.
Qed.
Print Assumptions C44_kuz_ctr_message_survives.
Print Assumptions C44_kuz_ctr_acpkm_long_message_refuted.
