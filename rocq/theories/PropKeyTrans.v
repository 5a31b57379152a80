(** Property C53: key transport (EVP_PKEY_encrypt, EVP_PKEY_decrypt). *)
From Coq Require Import ZArith List Bool Lia Znumtheory.
From Verif Require Import Bytes BytesProofs StreebogModel Gost89Model Gost89Sboxes Gost89Spec Gost89Proofs PropGost89 CryptModel KeywrapModel KeywrapSpec PropKeywrap
  KdfModel KexpModel KexpSpec PropKexp PropOmac EcLadderModel EcSpec EcLadderProofs EcModel EcProofs ToyGroup PropEc PropVko Asn1Model
  AmethModel PropAmeth CmsParamsModel PropCms PmethModel KeyTransAsn1 KeyTransAsn1Proofs KeyTransModel KeyTransSpec KeyTransProofs.
Import ListNotations.
Local Open Scope Z_scope.

(** Keys: the pair of a private number, the public key alone. *)
Definition pair (C : group) (d : Z) : eckey C := EcModel.mk_key (Some d) (Some (smul d (gen C))).
Definition public (C : group) (d : Z) : eckey C := EcModel.mk_key None (Some (smul d (gen C))).
(** The sender's key [e]: one it set as peer key, or a new one. *)
Definition sender_key {C : group} (x : tctx C) (draws : list Z) (e : Z) : Prop :=
  match t_peer x with Some k => k = pair C e | None => keygen_draw draws = Some e end.
(** What the sender says about its key. *)
Definition announced {C : group} (x : tctx C) (e : Z) : option xpub :=
  match t_peer x with Some _ => None | None => spki (t_alg x) C (smul e (gen C)) end.

(** * The CryptoPro variant *)
(** A call with a buffer that is large enough sends exactly the message of RFC 4490/RFC 9215: the key wrapped
    under the VKO key of the sender's and the recipient's keys.  It fails if that key does not exist. *)
Theorem C53_cp_sends_the_standard_message :
  forall curves c w rnd draws junk (x : tctx (cv c)) n key kl y ukm e,
    usable curves c -> world_ok w -> t_alg x <> A_other -> variant_of (d_cipher (t_data x)) = Some V_cp ->
    k_pub (t_key x) = Some (smul y (gen (cv c))) -> draws_ok (cv c) draws -> sender_key x draws e ->
    cp_ukm rnd (t_data x) = Some ukm -> ukm8 ukm -> key32 key ->
    match kek (cv c) (t_alg x) e (smul y (gen (cv c))) ukm with
    | Some K =>
        let m := cp_message (t_alg x) K ukm key (announced x e) in
        exists o, pkey_gost_encrypt w rnd draws junk x true n key kl = Returns o /\
          (o_ret o = 1 <-> (length m <= n)%nat) /\ (o_ret o = 1 -> o_out o = m /\ o_len o = length m) /\
          (o_ret o <> 1 -> o_ret o = -1 /\ o_out o = [] /\ o_len o = n)
    | None => exists o, pkey_gost_encrypt w rnd draws junk x true n key kl = Returns o /\ o_ret o = -1 /\ o_out o = []
    end.
Proof.
  intros curves c w rnd draws junk x n key kl y ukm e U W A V KP D SK CU HU HK. unfold pkey_gost_encrypt. rewrite V.
  pose proof U as (_ & _ & L & _). assert (F : firstn 32 key = key) by (apply firstn_all2; destruct HK; lia).
  assert (EQ : exists x' ov, cp_encrypt w rnd draws junk x true n key kl =
    match kek (cv c) (t_alg x) e (smul y (gen (cv c))) ukm with
    | None => Returns (mk_sent (-1) x [] n 0)
    | Some K => cp_outcome x x' n ov (cp_message (t_alg x) K ukm key (announced x e))
    end).
  { unfold sender_key, announced in *. destruct (t_peer x) as [k|] eqn:TP.
    - subst k. eexists _, _. rewrite (cp_encrypt_static c w rnd draws junk x n key kl y ukm (pair (cv c) e) e) by (auto; rewrite F; auto).
      rewrite F. reflexivity.
    - eexists _, _. rewrite (cp_encrypt_eph c w rnd draws junk x n key kl y ukm curves) by (auto; rewrite F; auto). rewrite SK, F. reflexivity. }
  destruct EQ as (x' & ov & ->). destruct (kek _ _ _ _ _) as [K|]; [|eexists; split; [reflexivity|split; reflexivity]].
  cbv zeta. unfold cp_outcome. set (m := cp_message _ _ _ _ _). clearbody m. destruct (Nat.ltb_spec n (length m)) as [G|G].
  - eexists. split; [reflexivity|]. cbn [o_ret o_out o_len]. split; [split; intros H; [discriminate H|lia]|]. split; [intros H; discriminate H|auto].
  - eexists. split; [reflexivity|]. cbn [o_ret o_out o_len]. split; [split; intros H; [exact G|reflexivity]|]. split; [auto|congruence].
Qed.
Print Assumptions C53_cp_sends_the_standard_message.
(** The VKO key exists exactly if neither private number nor the UKM is zero modulo the order; both sides
    have the same one, that of RFC 7836. *)
Theorem C53_kek_exists_and_is_shared :
  forall C, ec_laws C -> forall a d y ukm,
    (kek C a d (smul y (gen C)) ukm = None <-> d mod order C = 0 \/ y mod order C = 0 \/ digest_number ukm mod order C = 0) /\
    kek C a d (smul y (gen C)) ukm = kek C a y (smul d (gen C)) ukm /\
    kek C a d (smul y (gen C)) ukm = point_key C (md_std (kek_digest a)) (vko_point C d (digest_number ukm) (smul y (gen C))).
Proof.
  intros C L a d y ukm. set (h := mk_host RefLE false true).
  assert (E : VKO_compute_key C h ctx0 (smul y (gen C)) d ukm (Some (kek_digest a)) = kek C a d (smul y (gen C)) ukm)
    by (rewrite (vko_general C) by exact L; reflexivity).
  split; [rewrite <- E; apply (C40_vko_succeeds_iff C L)|]. split; [apply kek_sym, L|]. rewrite <- E. apply (C40_vko_is_rfc7836 C L).
Qed.
Print Assumptions C53_kek_exists_and_is_shared.

Lemma not_zero C : ec_laws C -> forall e, e mod order C <> 0 -> smul e (gen C) <> pzero C.
Proof. intros L e N Z. apply (gen_zero C L) in Z. contradiction. Qed.
(** Whatever a sender's call reports as sent, the recipient opens, whatever follows the message in its buffer
    (and, if the sender used a fixed key, provided that key's public part is the recipient's peer key). *)
Theorem C53_cp_roundtrip :
  forall curves c w1 w2 a d peer peer' data1 data2 rnd draws junk n key kl e ukm o rest cap,
    let C := cv c in
    usable curves c -> world_ok w1 -> world_ok w2 -> a <> A_other ->
    variant_of (d_cipher data1) = Some V_cp -> variant_of (d_cipher data2) = Some V_cp ->
    let x1 := mk_t a (public C d) peer data1 in
    let x2 := mk_t a (pair C d) peer' data2 in
    draws_ok C draws -> sender_key x1 draws e -> cp_ukm rnd data1 = Some ukm -> ukm8 ukm -> key32 key ->
    (peer <> None -> exists k, peer' = Some k /\ k_pub k = Some (smul e (gen C))) ->
    pkey_gost_encrypt w1 rnd draws junk x1 true n key kl = Returns o -> o_ret o = 1 -> (32 <= cap)%nat ->
    exists x', pkey_gost_decrypt curves c w2 x2 (Some cap) (o_out o ++ rest) = Returns (mk_got 1 x' (Some key), 32%nat).
Proof.
  intros curves c w1 w2 a d peer peer' data1 data2 rnd draws junk n key kl e ukm o rest cap C U W1 W2 A V1 V2 x1 x2 D SK CU HU HK PK EN R1 CAP.
  subst C. pose proof U as (_ & _ & L & _).
  pose proof (C53_cp_sends_the_standard_message curves c w1 rnd draws junk x1 n key kl d ukm e U W1 A V1 eq_refl D SK CU HU HK) as S.
  change (t_alg x1) with a in S.
  destruct (kek (cv c) a e (smul d (gen (cv c))) ukm) as [K|] eqn:EK.
  2:{ destruct S as (o' & E & R & _). pose proof (eq_trans (eq_sym EN) E) as EO. assert (o = o') by congruence. subst o'. rewrite R1 in R. discriminate R. }
  destruct S as (o' & E & _ & S & _). pose proof (eq_trans (eq_sym EN) E) as EO. assert (EQ : o = o') by congruence. rewrite <- EQ in S.
  destruct (S R1) as [SO _]. rewrite SO. clear S E EN EO EQ.
  pose proof (kek_key32 _ _ _ _ _ _ EK) as HKk. destruct (kek_nonzero _ L _ _ _ _ _ EK) as (NE & _ & _).
  unfold pkey_gost_decrypt. replace (cap <? 32)%nat with false by (symmetry; apply Nat.ltb_ge; exact CAP).
  change (t_data x2) with data2. rewrite V2. unfold cp_message.
  set (p := wrap_param a). destruct (wrap_shape (sbox_of p) K ukm key (sbox_ok p) HKk HU HK) as (LW & SW & EW).
  destruct W2 as (_ & R & _).
  pose proof (C32_unwrap_wrap (sbox_of p) (w_gost w2) (w_gost w2) K ukm key (sbox_ok p) R R HKk HU HK) as (_ & UW & _).
  rewrite (C32_wrap_refines_rfc4357 (sbox_of p) (w_gost w2) K ukm key (sbox_ok p) R HKk HU HK) in UW.
  set (W := wrap (sboxes_of (sbox_of p)) K ukm key) in *. cbv zeta in LW, SW, EW. clearbody W.
  assert (X : exists x', opens_with curves c x2 (announced x1 e) (smul e (gen (cv c))) x' /\ match announced x1 e with Some xp => xpub_ok xp | None => True end).
  { unfold announced, opens_with. change (t_peer x1) with peer. destruct peer as [k|].
    - eexists. split; [|exact I]. split; [|reflexivity]. apply PK. discriminate.
    - destruct (spki_xpub curves c U a (smul e (gen (cv c))) A (not_zero (cv c) L e NE)) as (xp & SP & XO & XG & _).
      change (t_alg x1) with a. rewrite SP. eexists. split; [|exact XO]. split; [exact XG|reflexivity]. }
  destruct X as (x' & OW & XO). change (t_alg x1) with a.
  assert (DG : d2i_gkt (i2d_gkt (transport a W (announced x1 e)) ++ rest) = Some (transport a W (announced x1 e))) by (apply gkt_roundtrip, transport_ok, XO).
  rewrite (cp_decrypt_eq curves c w2 x2 x' _ _ (smul e (gen (cv c))) d p L A DG OW eq_refl); cbn [transport g_iv g_enc g_imit g_cipher];
    try (apply sub_length; lia); [|apply find_param_oid].
  change (t_alg x2) with a. rewrite <- EW, SW, (kek_sym (cv c) L), EK, UW.
  exists x'. reflexivity.
Qed.
Print Assumptions C53_cp_roundtrip.

(** The point a message is opened with: the one in the message, if it has the recipient's type and curve; the
    peer key set before, if the message has none (or none that can be decoded). *)
Definition sender_point (curves : curve_nid -> option curve) (c : curve) (x : tctx (cv c)) (sender : option xpub) : option (pt (cv c)) :=
  match (match sender with Some xp => x509_pubkey_get curves c xp | None => K_none end) with
  | K_same a P => if alg_eqb a (t_alg x) then Some P else None
  | K_other _ => None
  | K_none => match t_peer x with Some k => k_pub k | None => None end
  end.
Definition fields_ok (g : gkt) : Prop := length (g_iv g) = 8%nat /\ length (g_enc g) = 32%nat /\ length (g_imit g) = 4%nat.
Definition peer_public {C : group} (x : tctx C) : Prop := match t_peer x with Some k => k_pub k <> None | None => True end.
Lemma alg_eqb_eq a b : alg_eqb a b = true -> a = b. Proof. destruct a, b; discriminate || reflexivity. Qed.
Lemma cp_decrypt_cases curves c w (x : tctx (cv c)) inp d :
  ec_laws (cv c) -> t_alg x <> A_other -> k_priv (t_key x) = Some d -> peer_public x ->
  match d2i_gkt inp with
  | None => cp_decrypt curves c w x inp = Returns (mk_got (-1) x None)
  | Some g =>
    match sender_point curves c x (g_ephem g), find_param (g_cipher g) with
    | Some P, Some p =>
      (fields_ok g -> exists x', cp_decrypt curves c w x inp =
        match kek (cv c) (t_alg x) d P (g_iv g) with
        | None => Returns (mk_got 0 x' None)
        | Some K =>
          let (r, sk) := keyUnwrapCryptoPro (gost_init (w_gost w) (sbox_of p)) K (g_iv g ++ g_enc g ++ g_imit g) in
          Returns (mk_got (if r =? 0 then 0 else 1) x' (Some sk))
        end) /\
      (~ fields_ok g -> cp_decrypt curves c w x inp = Dies)
    | _, _ => exists x', cp_decrypt curves c w x inp = Returns (mk_got 0 x' None)
    end
  end.
Proof.
  intros L A KD PP. destruct (d2i_gkt inp) as [g|] eqn:DG; [|unfold cp_decrypt; rewrite DG; reflexivity].
  destruct (sender_point curves c x (g_ephem g)) as [P|] eqn:SP.
  2:{ unfold cp_decrypt. rewrite DG. unfold sender_point in SP. unfold peer_public in PP.
      destruct (match g_ephem g with Some p => x509_pubkey_get curves c p | None => K_none end) as [|a|a P].
      - cbn [pkey_gost_ctrl Z.eqb orb Pos.eqb]. change (1 <=? 0) with false. cbv iota. cbn [t_with_data t_peer].
        destruct (t_peer x) as [k|]; [contradiction|]. eexists. reflexivity.
      - eexists. reflexivity.
      - destruct (alg_eqb a (t_alg x)); [discriminate|]. eexists. reflexivity. }
  assert (Q : exists x' peer, t_peer x' = Some peer /\ k_pub peer = Some P /\ t_alg x' = t_alg x /\ t_key x' = t_key x /\
    (match (match g_ephem g with Some p => x509_pubkey_get curves c p | None => K_none end) with
           | K_same a P => if alg_eqb a (t_alg x) then Ret 1 (t_with_peer x (EcModel.mk_key None (Some P))) else Ret 0 x
           | K_other _ => Ret 0 x
           | K_none => match pkey_gost_ctrl None (t_data x) (R_peer_key 3) with Ret r d => Ret r (t_with_data x d) | Dead => Dead end
           end) = Ret 1 x').
  { unfold sender_point in SP. destruct (match g_ephem g with Some p => x509_pubkey_get curves c p | None => K_none end) as [|a|a P']; [|discriminate|].
    - destruct (t_peer x) as [k|] eqn:TP; [|discriminate]. exists (t_with_data x (with_peer (t_data x) 1)), k. cbn [t_with_data t_peer t_alg t_key]. auto.
    - destruct (alg_eqb a (t_alg x)); [|discriminate]. exists (t_with_peer x (EcModel.mk_key None (Some P'))), (EcModel.mk_key None (Some P')). cbn [t_with_peer t_peer t_alg t_key k_pub]. auto. }
  destruct Q as (x' & peer & TP & KP & TA & TK & Q).
  destruct (find_param (g_cipher g)) as [p|] eqn:FP.
  2:{ unfold cp_decrypt. rewrite DG, Q. change (1 <=? 0) with false. cbv iota. rewrite TP, FP. eexists. reflexivity. }
  split.
  - intros (L1 & L2 & L3). exists x'. unfold cp_decrypt. rewrite DG, Q. change (1 <=? 0) with false. cbv iota.
    rewrite TP, FP, L1, L2, L3. cbn [Nat.eqb negb orb]. rewrite firstn_app_exact by exact L1. rewrite KP, TK, TA.
    rewrite (vko_kek (cv c) L w (t_alg x) P (t_key x) d) by auto. destruct (kek _ _ _ _ _) as [K|]; reflexivity.
  - intros NF. unfold cp_decrypt. rewrite DG, Q. change (1 <=? 0) with false. cbv iota. rewrite TP, FP.
    destruct (negb (length (g_iv g) =? 8)%nat || negb (length (g_enc g) =? 32)%nat || negb (length (g_imit g) =? 4)%nat) eqn:EB; [reflexivity|].
    exfalso. apply NF. rewrite !orb_false_iff, !negb_false_iff, !Nat.eqb_eq in EB. unfold fields_ok. tauto.
Qed.
Lemma unwrap_ret c K W : fst (keyUnwrapCryptoPro c K W) = 0 \/ fst (keyUnwrapCryptoPro c K W) = 1.
Proof. unfold keyUnwrapCryptoPro. destruct (keyDiversifyCryptoPro c K W) as [g k]. cbv zeta. cbn [fst]. destruct (eqbl _ _); auto. Qed.
(** Opening: a key comes back exactly if the message is the wrap of that key, under the VKO key of the
    recipient's key and the point named, with the S-boxes named in the message. *)
Theorem C53_cp_accepts_exactly_the_wrapped_keys :
  forall curves c w (x : tctx (cv c)) inp d k cap,
    ec_laws (cv c) -> world_ok w -> t_alg x <> A_other -> k_priv (t_key x) = Some d -> peer_public x ->
    variant_of (d_cipher (t_data x)) = Some V_cp -> bytes inp -> (32 <= cap)%nat ->
    ((exists x', pkey_gost_decrypt curves c w x (Some cap) inp = Returns (mk_got 1 x' (Some k), 32%nat)) <->
     exists g p P K, d2i_gkt inp = Some g /\ fields_ok g /\ find_param (g_cipher g) = Some p /\
       sender_point curves c x (g_ephem g) = Some P /\ kek (cv c) (t_alg x) d P (g_iv g) = Some K /\
       key32 k /\ g_iv g ++ g_enc g ++ g_imit g = wrap (sboxes_of (sbox_of p)) K (g_iv g) k).
Proof.
  intros curves c w x inp d k cap L W A KD PP V B CAP. unfold pkey_gost_decrypt.
  replace (cap <? 32)%nat with false by (symmetry; apply Nat.ltb_ge; exact CAP). rewrite V.
  pose proof (cp_decrypt_cases curves c w x inp d L A KD PP) as CC. destruct W as (_ & R & _).
  assert (NONE : forall x' n, ~ exists x'' : tctx (cv c), Returns (mk_got n x' None, if n =? 1 then 32%nat else cap) = Returns (mk_got 1 x'' (Some k), 32%nat)).
  { intros x' n [x'' H]. inversion H. }
  destruct (d2i_gkt inp) as [g|] eqn:DG.
  2:{ rewrite CC. cbn [i_ret]. split; [intros H; exfalso; eapply NONE; exact H|intros (g & _ & _ & _ & H & _); discriminate H]. }
  pose proof (d2i_gkt_within _ _ DG) as (W1 & W2 & W3).
  destruct (sender_point curves c x (g_ephem g)) as [P|] eqn:SP.
  2:{ destruct CC as [x' ->]. cbn [i_ret]. split; [intros H; exfalso; eapply NONE; exact H|]. intros (g' & p & P & K & H & _ & _ & H' & _).
      assert (g' = g) by congruence. subst g'. congruence. }
  destruct (find_param (g_cipher g)) as [p|] eqn:FP.
  2:{ destruct CC as [x' ->]. cbn [i_ret]. split; [intros H; exfalso; eapply NONE; exact H|]. intros (g' & p & P' & K & H & _ & H' & _).
      assert (g' = g) by congruence. subst g'. congruence. }
  destruct CC as [C1 C2].
  assert (FO : fields_ok g \/ ~ fields_ok g) by (unfold fields_ok; lia). destruct FO as [FO|FO].
  2:{ rewrite (C2 FO). split; [intros [x' H]; discriminate H|]. intros (g' & p' & P' & K & H & H' & _). assert (g' = g) by congruence. subst g'. contradiction. }
  destruct (C1 FO) as [x' E]. rewrite E. clear C1 C2 E. pose proof FO as (L1 & L2 & L3).
  assert (S0 : sub 0 8 (g_iv g ++ g_enc g ++ g_imit g) = g_iv g) by (unfold sub; cbn [skipn]; apply firstn_app_exact, L1).
  destruct (kek (cv c) (t_alg x) d P (g_iv g)) as [K|] eqn:EK.
  2:{ cbn [i_ret]. split; [intros H; exfalso; eapply NONE; exact H|]. intros (g' & p' & P' & K & H & _ & _ & H1 & H2 & _).
      assert (g' = g) by congruence. subst g'. congruence. }
  pose proof (unwrap_iff (sbox_of p) (w_gost w) K (g_iv g ++ g_enc g ++ g_imit g) k (sbox_ok p) R (kek_key32 _ _ _ _ _ _ EK)
    ltac:(rewrite !app_length; lia) ltac:(repeat apply bytes_app; eapply within_bytes; eassumption)) as UI. rewrite S0 in UI.
  remember (g_iv g ++ g_enc g ++ g_imit g) as Wr eqn:WE.
  pose proof (unwrap_ret (gost_init (w_gost w) (sbox_of p)) K Wr) as UR.
  destruct (keyUnwrapCryptoPro (gost_init (w_gost w) (sbox_of p)) K Wr) as [r sk]. cbn [fst] in UR. cbn [i_ret]. split.
  - intros [x'' H]. exists g, p, P, K. destruct (Z.eqb_spec r 0) as [E|E].
    { exfalso. inversion H. }
    assert (r = 1) by (destruct UR; [contradiction|assumption]). subst r. assert (sk = k) by (inversion H; reflexivity). subst sk.
    repeat (split; [assumption || reflexivity|]). rewrite <- WE. apply UI. reflexivity.
  - intros (g' & p' & P' & K' & H & _ & H1 & H2 & H3 & HK & HW). assert (g' = g) by congruence. subst g'.
    assert (p' = p) by congruence. subst p'. assert (P' = P) by congruence. subst P'. assert (K' = K) by congruence. subst K'.
    rewrite <- WE in HW. assert (E : (r, sk) = (1, k)) by (apply UI; split; assumption). assert (r = 1) by congruence. assert (sk = k) by congruence. subst. exists x'. reflexivity.
Qed.
Print Assumptions C53_cp_accepts_exactly_the_wrapped_keys.
(** Anything else is refused - except that the process ends if a field has the wrong length. *)
Theorem C53_cp_all_outcomes :
  forall curves c w (x : tctx (cv c)) inp d cap,
    ec_laws (cv c) -> t_alg x <> A_other -> k_priv (t_key x) = Some d -> peer_public x ->
    variant_of (d_cipher (t_data x)) = Some V_cp -> (32 <= cap)%nat ->
    (pkey_gost_decrypt curves c w x (Some cap) inp = Dies <->
     exists g p P, d2i_gkt inp = Some g /\ ~ fields_ok g /\ find_param (g_cipher g) = Some p /\ sender_point curves c x (g_ephem g) = Some P) /\
    (forall r n, pkey_gost_decrypt curves c w x (Some cap) inp = Returns (r, n) ->
       (i_ret r = 1 /\ n = 32%nat) \/ ((i_ret r = 0 \/ i_ret r = -1) /\ n = cap)).
Proof.
  intros curves c w x inp d cap L A KD PP V CAP. unfold pkey_gost_decrypt.
  replace (cap <? 32)%nat with false by (symmetry; apply Nat.ltb_ge; exact CAP). rewrite V.
  pose proof (cp_decrypt_cases curves c w x inp d L A KD PP) as CC. 
  assert (PL : forall (r0 : got (cv c)), (i_ret r0 = 1 \/ i_ret r0 = 0 \/ i_ret r0 = -1) ->
    forall r n, Returns (r0, if i_ret r0 =? 1 then 32%nat else cap) = Returns (r, n) ->
       (i_ret r = 1 /\ n = 32%nat) \/ ((i_ret r = 0 \/ i_ret r = -1) /\ n = cap)).
  { intros r0 H r n E. assert (E1 : r0 = r) by congruence. assert (E2 : n = if i_ret r0 =? 1 then 32%nat else cap) by congruence. subst r n.
    destruct H as [H|[H|H]]; rewrite H; cbn [Z.eqb Pos.eqb]; auto. }
  destruct (d2i_gkt inp) as [g|] eqn:DG.
  2:{ rewrite CC. split; [|apply PL; cbn [i_ret]; auto]. split; [intros H; discriminate H|intros (g & p & P & H & _); discriminate H]. }
  assert (NONE : (sender_point curves c x (g_ephem g) = None \/ find_param (g_cipher g) = None) ->
    ~ exists g' p P, Some g = Some g' /\ ~ fields_ok g' /\ find_param (g_cipher g') = Some p /\ sender_point curves c x (g_ephem g') = Some P).
  { intros N (g' & p & P & E & _ & E1 & E2). assert (g' = g) by congruence. subst g'. destruct N; congruence. }
  destruct (sender_point curves c x (g_ephem g)) as [P|] eqn:SP.
  2:{ destruct CC as [x' ->]. split; [|apply PL; cbn [i_ret]; auto]. split; [intros H; discriminate H|intros H; exfalso; exact (NONE (or_introl eq_refl) H)]. }
  destruct (find_param (g_cipher g)) as [p|] eqn:FP.
  2:{ destruct CC as [x' ->]. split; [|apply PL; cbn [i_ret]; auto]. split; [intros H; discriminate H|intros H; exfalso; exact (NONE (or_intror eq_refl) H)]. }
  destruct CC as [C1 C2].
  assert (FO : fields_ok g \/ ~ fields_ok g) by (unfold fields_ok; lia). destruct FO as [FO|FO].
  - destruct (C1 FO) as [x' E]. rewrite E. clear C1 C2 E.
    assert (ND : ~ exists g' p P, Some g = Some g' /\ ~ fields_ok g' /\ find_param (g_cipher g') = Some p /\ sender_point curves c x (g_ephem g') = Some P).
    { intros (g' & _ & _ & E & N & _). assert (g' = g) by congruence. subst g'. contradiction. }
    destruct (kek (cv c) (t_alg x) d P (g_iv g)) as [K|].
    + destruct (keyUnwrapCryptoPro _ _ _) as [r sk]. split; [|apply PL; cbn [i_ret]; destruct (r =? 0); auto].
      split; [intros H; discriminate H|intros H; exfalso; exact (ND H)].
    + split; [|apply PL; cbn [i_ret]; auto]. split; [intros H; discriminate H|intros H; exfalso; exact (ND H)].
  - rewrite (C2 FO). split; [|intros r n H; discriminate H]. split; [intros _|reflexivity]. exists g, p, P. auto.
Qed.
Print Assumptions C53_cp_all_outcomes.
(** Such a message needs no secret: anybody ends the recipient's process with one whose encrypted key has not 32
    bytes. *)
Theorem C53_cp_malformed_message_kills_refuted :
  forall curves c w (x : tctx (cv c)) d e enc imit iv p rest cap,
    usable curves c -> t_alg x <> A_other -> k_priv (t_key x) = Some d -> t_peer x = None ->
    variant_of (d_cipher (t_data x)) = Some V_cp -> (32 <= cap)%nat -> e mod order (cv c) <> 0 ->
    (length enc <= 100)%nat -> (length imit <= 100)%nat -> (length iv <= 100)%nat -> length enc <> 32%nat ->
    exists xp, spki (t_alg x) (cv c) (smul e (gen (cv c))) = Some xp /\
      pkey_gost_decrypt curves c w x (Some cap) (i2d_gkt (mk_gkt enc imit (oid_of p) (Some xp) iv) ++ rest) = Dies.
Proof.
  intros curves c w x d e enc imit iv p rest cap U A KD TP V CAP NE L1 L2 L3 N. pose proof U as (_ & _ & L & _).
  destruct (spki_xpub curves c U (t_alg x) (smul e (gen (cv c))) A (not_zero _ L e NE)) as (xp & SP & XO & XG & _).
  exists xp. split; [exact SP|]. apply (proj1 (C53_cp_all_outcomes curves c w x _ d cap L A KD ltac:(unfold peer_public; rewrite TP; exact I) V CAP)).
  eexists _, p, _. split; [apply gkt_roundtrip|].
  - unfold gkt_ok. cbn [g_enc g_imit g_cipher g_ephem g_iv]. pose proof (oid_len p). repeat (split; [lia || apply object_ok_oid|]). exact XO.
  - cbn [g_enc g_imit g_cipher g_ephem g_iv]. split; [unfold fields_ok; cbn [g_enc g_imit g_iv]; lia|]. split; [apply find_param_oid|].
    unfold sender_point. rewrite XG, alg_eqb_refl. reflexivity.
Qed.
Print Assumptions C53_cp_malformed_message_kills_refuted.
(** With a new key for the message and a buffer that is too small, the call gives up one reference to that key
    more than it has taken: the key is freed twice. *)
Theorem C53_cp_small_buffer_double_free_refuted :
  forall curves c w rnd draws junk (x : tctx (cv c)) n key kl y ukm e K o,
    usable curves c -> world_ok w -> t_alg x <> A_other -> variant_of (d_cipher (t_data x)) = Some V_cp -> t_peer x = None ->
    k_pub (t_key x) = Some (smul y (gen (cv c))) -> draws_ok (cv c) draws -> keygen_draw draws = Some e ->
    cp_ukm rnd (t_data x) = Some ukm -> ukm8 ukm -> key32 key -> kek (cv c) (t_alg x) e (smul y (gen (cv c))) ukm = Some K ->
    pkey_gost_encrypt w rnd draws junk x true n key kl = Returns o -> o_refs o = if o_ret o =? 1 then 0 else -1.
Proof.
  intros curves c w rnd draws junk x n key kl y ukm e K o U W A V TP KP D SE CU HU HK EK. unfold pkey_gost_encrypt. rewrite V.
  assert (F : firstn 32 key = key) by (apply firstn_all2; destruct HK; lia).
  rewrite (cp_encrypt_eph c w rnd draws junk x n key kl y ukm curves) by (auto; rewrite F; auto). rewrite SE, EK, F. unfold cp_outcome.
  destruct (n <? _)%nat; intros H.
  - assert (E : o = mk_sent (-1) x [] n (-1)) by congruence. rewrite E. reflexivity.
  - match type of H with Returns ?z = _ => assert (E : o = z) by congruence end. rewrite E. reflexivity.
Qed.
Print Assumptions C53_cp_small_buffer_double_free_refuted.
(** The length asked for with a null buffer is that of every message the context sends. *)
Lemma pubkey_set_of C a (k : eckey C) P : k_pub k = Some P -> pubkey_set a k = spki a C P.
Proof. destruct k as [d p]. cbn [k_pub]. intros ->. apply spki_priv. Qed.
Theorem C53_cp_announced_length_is_right :
  forall curves c w rnd draws junk rnd0 draws0 junk0 (x : tctx (cv c)) n0 key0 kl0 n key kl y ukm e o,
    usable curves c -> world_ok w -> t_alg x <> A_other -> variant_of (d_cipher (t_data x)) = Some V_cp ->
    k_pub (t_key x) = Some (smul y (gen (cv c))) -> draws_ok (cv c) draws -> sender_key x draws e ->
    cp_ukm rnd (t_data x) = Some ukm -> ukm8 ukm -> key32 key ->
    pkey_gost_encrypt w rnd draws junk x true n key kl = Returns o -> o_ret o = 1 ->
    length junk0 = 44%nat -> match rnd0 with Some r => (8 <= length r)%nat | None => d_ukm_size (t_data x) <> 0 end ->
    exists q, pkey_gost_encrypt w rnd0 draws0 junk0 x false n0 key0 kl0 = Returns q /\ o_ret q = 1 /\ o_out q = [] /\ o_len q = o_len o.
Proof.
  intros curves c w rnd draws junk rnd0 draws0 junk0 x n0 key0 kl0 n key kl y ukm e o U W A V KP D SK CU HU HK EN R1 LJ R0.
  pose proof U as (_ & _ & L & _).
  pose proof (C53_cp_sends_the_standard_message curves c w rnd draws junk x n key kl y ukm e U W A V KP D SK CU HU HK) as S.
  destruct (kek (cv c) (t_alg x) e (smul y (gen (cv c))) ukm) as [K|] eqn:EK.
  2:{ destruct S as (o' & E & R & _). pose proof (eq_trans (eq_sym EN) E) as EO. assert (o = o') by congruence. subst o'. rewrite R1 in R. discriminate R. }
  destruct S as (o' & E & _ & S & _). pose proof (eq_trans (eq_sym EN) E) as EO. assert (EQ : o = o') by congruence. rewrite <- EQ in S.
  destruct (S R1) as [_ SL]. rewrite SL. clear S E EO EQ EN SL.
  destruct (kek_nonzero _ L _ _ _ _ _ EK) as (NE & NY & _). pose proof (kek_key32 _ _ _ _ _ _ EK) as HKk.
  assert (Q0 : exists u0, cp_ukm rnd0 (t_data x) = Some u0 /\ length u0 = 8%nat).
  { unfold cp_ukm in *. destruct (Z.eqb_spec (d_ukm_size (t_data x)) 0) as [Z0|Z0].
    - destruct rnd0 as [r|]; [|contradiction]. cbn [option_map]. eexists. split; [reflexivity|]. rewrite firstn_length. lia.
    - eexists. split; [reflexivity|]. assert (E : ukm = firstn 8 (d_ukm (t_data x))) by congruence. rewrite <- E. apply HU. }
  destruct Q0 as (u0 & CU0 & LU0). unfold pkey_gost_encrypt. rewrite V. unfold cp_encrypt. unfold cp_ukm in CU0. rewrite CU0.
  unfold cp_message, transport. set (p := wrap_param (t_alg x)).
  destruct (wrap_shape (sbox_of p) K ukm key (sbox_ok p) HKk HU HK) as (LW & SW & _). cbv zeta in LW, SW.
  set (Wr := wrap (sboxes_of (sbox_of p)) K ukm key) in *. clearbody Wr.
  rewrite cp_param_spec. fold p. unfold sender_key, announced in *. destruct (t_peer x) as [k|] eqn:TP.
  - subst k. unfold pair at 1. cbn [k_priv]. cbn [pkey_gost_ctrl Z.eqb orb Pos.eqb]. change (1 <=? 0) with false. cbv iota. cbn [negb].
    eexists. split; [reflexivity|]. cbn [o_ret o_out o_len]. split; [reflexivity|]. split; [reflexivity|].
    apply i2d_gkt_same; try exact I; rewrite ?sub_length, ?firstn_length, ?skipn_length by lia; lia.
  - rewrite (pubkey_set_of (cv c) _ _ _ KP).
    destruct (spki_xpub curves c U (t_alg x) (smul y (gen (cv c))) A (not_zero _ L y NY)) as ([al b] & SP & _ & _ & LB & EA).
    destruct (spki_xpub curves c U (t_alg x) (smul e (gen (cv c))) A (not_zero _ L e NE)) as ([al' b'] & SP' & _ & _ & LB' & EA').
    rewrite SP, SP'. cbn [option_map]. change (1 <=? 0) with false. cbv iota. cbn [negb].
    eexists. split; [reflexivity|]. cbn [o_ret o_out o_len]. split; [reflexivity|]. split; [reflexivity|]. cbn [fst snd] in *.
    apply i2d_gkt_same; try (rewrite ?sub_length, ?firstn_length, ?skipn_length by lia; lia). split; [congruence|lia].
Qed.
Print Assumptions C53_cp_announced_length_is_right.
(** The length of the key is ignored: always 32 bytes are read at [key]. *)
Theorem C53_cp_key_length_ignored_refuted :
  forall C w rnd draws junk (x : tctx C) out n key kl kl', variant_of (d_cipher (t_data x)) = Some V_cp ->
    pkey_gost_encrypt w rnd draws junk x out n key kl = pkey_gost_encrypt w rnd draws junk x out n (firstn 32 key) kl'.
Proof.
  intros C w rnd draws junk x out n key kl kl' V. unfold pkey_gost_encrypt. rewrite V. unfold cp_encrypt. rewrite firstn_firstn. reflexivity.
Qed.
Print Assumptions C53_cp_key_length_ignored_refuted.
(** A message whose MAC does not fit is refused, but its key stands in the caller's buffer. *)
Lemma dec_firstn c : forall n m m', firstn (8 * n) m = firstn (8 * n) m' -> gost_dec c m n = gost_dec c m' n.
Proof.
  induction n as [|n IH]; intros m m' F; [reflexivity|]. cbn [gost_dec].
  assert (F1 : firstn 8 m = firstn 8 m') by (replace 8%nat with (Nat.min 8 (8 * S n)) by lia; rewrite <- !firstn_firstn, F; reflexivity).
  rewrite F1. f_equal. apply IH. replace (8 * S n)%nat with (8 + 8 * n)%nat in F by lia. rewrite !firstn_skipn_comm, F. reflexivity.
Qed.
Lemma unwrap_key_other_mac c K W mac : length W = 44%nat -> snd (keyUnwrapCryptoPro c K (firstn 40 W ++ mac)) = snd (keyUnwrapCryptoPro c K W).
Proof.
  intros LW. unfold keyUnwrapCryptoPro, keyDiversifyCryptoPro.
  assert (F : firstn 8 (firstn 40 W ++ mac) = firstn 8 W) by (rewrite firstn_app, !firstn_firstn, firstn_length; replace (8 - Nat.min 40 (length W))%nat with 0%nat by lia; apply app_nil_r).
  rewrite F. destruct (diversify_loop _ _ _) as [g k]. cbn [snd]. apply dec_firstn.
  rewrite !firstn_skipn_comm. f_equal. change (8 + 8 * 4)%nat with 40%nat. rewrite firstn_app, firstn_firstn, firstn_length.
  replace (40 - Nat.min 40 (length W))%nat with 0%nat by lia. apply app_nil_r.
Qed.
Theorem C53_cp_refused_key_left_in_buffer_refuted :
  forall curves c w a d peer data e ukm key K imit cap,
    usable curves c -> world_ok w -> a <> A_other -> variant_of (d_cipher data) = Some V_cp -> ukm8 ukm -> key32 key ->
    kek (cv c) a e (smul d (gen (cv c))) ukm = Some K -> (32 <= cap)%nat ->
    let W := wrap (sboxes_of (sbox_of (wrap_param a))) K ukm key in
    length imit = 4%nat -> bytes imit -> imit <> sub 40 4 W ->
    exists xp x', spki a (cv c) (smul e (gen (cv c))) = Some xp /\
      pkey_gost_decrypt curves c w (mk_t a (pair (cv c) d) peer data) (Some cap) (i2d_gkt (transport a (firstn 40 W ++ imit) (Some xp)))
        = Returns (mk_got 0 x' (Some key), cap).
Proof.
  intros curves c w a d peer data e ukm key K imit cap U W A V HU HK EK CAP Wr LI BI NI. pose proof U as (_ & _ & L & _).
  destruct (kek_nonzero _ L _ _ _ _ _ EK) as (NE & _ & _). pose proof (kek_key32 _ _ _ _ _ _ EK) as HKk.
  destruct (spki_xpub curves c U a (smul e (gen (cv c))) A (not_zero _ L e NE)) as (xp & SP & XO & XG & _).
  set (x := mk_t a (pair (cv c) d) peer data). set (p := wrap_param a) in *. destruct W as (_ & R & _).
  destruct (wrap_shape (sbox_of p) K ukm key (sbox_ok p) HKk HU HK) as (LW & SW & EW).
  pose proof (C32_unwrap_wrap (sbox_of p) (w_gost w) (w_gost w) K ukm key (sbox_ok p) R R HKk HU HK) as (_ & UW & UM).
  rewrite (C32_wrap_refines_rfc4357 (sbox_of p) (w_gost w) K ukm key (sbox_ok p) R HKk HU HK) in UW, UM.
  fold Wr in LW, SW, EW, UW, UM. cbv zeta in LW, SW, EW. clearbody Wr.
  assert (S40 : sub 40 4 Wr = skipn 40 Wr) by (unfold sub; apply firstn_all2; rewrite skipn_length; lia).
  specialize (UM imit LI BI ltac:(congruence)).
  set (m := firstn 40 Wr ++ imit) in *. assert (LM : length m = 44%nat) by (unfold m; rewrite app_length, firstn_length; lia).
  assert (EM : sub 0 8 m ++ sub 8 32 m ++ sub 40 4 m = m).
  { unfold sub. change (skipn 0 m) with m. transitivity (firstn 8 m ++ firstn 32 (skipn 8 m) ++ skipn 32 (skipn 8 m)); [|rewrite !firstn_skipn; reflexivity].
    f_equal. f_equal. rewrite skipn_skipn. change (32 + 8)%nat with 40%nat. apply firstn_all2. rewrite skipn_length. lia. }
  assert (SM : sub 0 8 m = ukm).
  { rewrite <- SW. unfold sub, m. cbn [skipn]. rewrite firstn_app, firstn_firstn, firstn_length. replace (8 - Nat.min 40 (length Wr))%nat with 0%nat by lia. apply app_nil_r. }
  pose proof (unwrap_key_other_mac (gost_init (w_gost w) (sbox_of p)) K Wr imit LW) as UK. fold m in UK. rewrite UW in UK. cbn [snd] in UK.
  clearbody m. exists xp, (t_with_peer x (EcModel.mk_key None (Some (smul e (gen (cv c)))))). split; [exact SP|].
  unfold pkey_gost_decrypt. replace (cap <? 32)%nat with false by (symmetry; apply Nat.ltb_ge; exact CAP). change (t_data x) with data. rewrite V.
  assert (DG : d2i_gkt (i2d_gkt (transport a m (Some xp)) ++ []) = Some (transport a m (Some xp))) by (apply gkt_roundtrip, transport_ok, XO).
  rewrite app_nil_r in DG.
  rewrite (cp_decrypt_eq curves c w x (t_with_peer x (EcModel.mk_key None (Some (smul e (gen (cv c)))))) _ _ (smul e (gen (cv c))) d p L A DG); cbn [transport g_iv g_enc g_imit g_cipher g_ephem];
    try (apply sub_length; lia); [|split; [exact XG|reflexivity]|reflexivity|apply find_param_oid].
  change (t_alg x) with a. rewrite EM, SM, (kek_sym (cv c) L), EK.
  destruct (keyUnwrapCryptoPro (gost_init (w_gost w) (sbox_of p)) K m) as [r sk]. cbn [fst snd] in *. subst r sk. reflexivity.
Qed.
Print Assumptions C53_cp_refused_key_left_in_buffer_refuted.
