(** What is encoded is decoded again; the length of an encoding depends on the lengths of the fields only. *)
From Coq Require Import ZArith List Bool Lia.
From Verif Require Import Bytes BytesProofs EcLadderModel EcModel Asn1Model AmethModel PropAmeth CmsParamsModel PropCms KeyTransAsn1.
Import ListNotations.
Local Open Scope N_scope.

Lemma find_alg_oid a : find_alg (alg_oid a) = a. Proof. destruct a; reflexivity. Qed.
Lemma find_curve_oid n : find_curve (curve_oid n) = n. Proof. destruct n; reflexivity. Qed.
Lemma find_digest_oid d : find_digest (digest_oid d) = Some d. Proof. destruct d; reflexivity. Qed.
Lemma alg_oid_len a : (length (alg_oid a) <= 9)%nat. Proof. destruct a; cbn; lia. Qed.
Lemma curve_oid_len a : (length (curve_oid a) <= 9)%nat. Proof. destruct a; cbn; lia. Qed.
Lemma digest_oid_len a : (length (digest_oid a) <= 9)%nat. Proof. destruct a; cbn; lia. Qed.

Lemma get_tlv_end tag c : der_small (length c) -> get_tlv tag (der tag c) = Some (c, []).
Proof. intros S. rewrite <- (app_nil_r (der tag c)). apply get_tlv_der, S. Qed.
Lemma get_oid_der o r : der_small (length o) -> object_ok o = true -> get_oid (der TAG_OBJECT o ++ r) = Some (o, r).
Proof. intros S O. unfold get_oid. rewrite get_tlv_der, O by exact S. reflexivity. Qed.
Lemma get_oid_end o : der_small (length o) -> object_ok o = true -> get_oid (der TAG_OBJECT o) = Some (o, []).
Proof. intros S O. rewrite <- (app_nil_r (der _ _)). apply get_oid_der; assumption. Qed.
Lemma get_opt_der get tag c r : get (der tag c ++ r) = Some (c, r) -> get_opt get tag (der tag c ++ r) = Some (Some c, r).
Proof. intros G. unfold get_opt. unfold der at 1. cbn [app]. rewrite N.eqb_refl. rewrite G. reflexivity. Qed.
Lemma get_opt_other get tag t c r : t <> tag -> get_opt get tag (der t c ++ r) = Some (None, der t c ++ r).
Proof. intros G. unfold get_opt. unfold der at 1. cbn [app]. apply N.eqb_neq in G. rewrite G. reflexivity. Qed.
Lemma get_opt_nil get tag : get_opt get tag [] = Some (None, []). Proof. reflexivity. Qed.

(** Lengths *)
Lemma der_length tag c : length (der tag c) = S (length (der_len (length c)) + length c).
Proof. unfold der. cbn [length]. rewrite app_length. reflexivity. Qed.
Lemma len_bytes_le n : (n < 1000)%nat -> (len_bytes n <= 2)%nat.
Proof.
  intros L. unfold len_bytes. assert (B : N.size (N.of_nat n) <= 10).
  { destruct (N.eq_dec (N.of_nat n) 0) as [->|E]; [cbn; lia|]. rewrite N.size_log2 by exact E.
    assert (N.log2 (N.of_nat n) < 10); [|lia]. apply N.log2_lt_pow2; [lia|]. change (2 ^ 10) with 1024. lia. }
  assert ((N.size (N.of_nat n) + 7) / 8 < 3); [|lia]. apply N.div_lt_upper_bound; lia.
Qed.
Lemma der_short tag c : (length c < 1000)%nat -> (length (der tag c) <= length c + 4)%nat.
Proof.
  intros L. rewrite der_length. unfold der_len. destruct (length c <? 128)%nat; [cbn; lia|]. cbn [length]. rewrite n2be_length.
  pose proof (len_bytes_le _ L). lia.
Qed.
Lemma small_1000 n : (n < 1000)%nat -> der_small n.
Proof. intros L. unfold der_small. apply N.lt_trans with 1000; [lia|reflexivity]. Qed.

(** Round trips *)
Definition algor_ok (al : algor) : Prop :=
  al_alg al <> A_other /\ match al_params al with Some (n, _) => n <> OtherNid | None => True end.
Lemma alg_object a : a <> A_other -> object_ok (alg_oid a) = true. Proof. destruct a; intros; try reflexivity; congruence. Qed.
Lemma curve_object n : n <> OtherNid -> object_ok (curve_oid n) = true. Proof. destruct n; intros; try reflexivity; congruence. Qed.
Lemma digest_object d : object_ok (digest_oid d) = true. Proof. destruct d; reflexivity. Qed.
Ltac oids := repeat match goal with
  | |- context [length (alg_oid ?a)] => lazymatch goal with H : (length (alg_oid a) <= 9)%nat |- _ => fail | _ => pose proof (alg_oid_len a) end
  | |- context [length (curve_oid ?a)] => lazymatch goal with H : (length (curve_oid a) <= 9)%nat |- _ => fail | _ => pose proof (curve_oid_len a) end
  | |- context [length (digest_oid ?a)] => lazymatch goal with H : (length (digest_oid a) <= 9)%nat |- _ => fail | _ => pose proof (digest_oid_len a) end
  end.
Lemma key_params_content_len n h :
  (length (der TAG_OBJECT (curve_oid n) ++ match h with Some d => der TAG_OBJECT (digest_oid d) | None => [] end) <= 26)%nat.
Proof.
  rewrite app_length. pose proof (curve_oid_len n). pose proof (der_short TAG_OBJECT (curve_oid n) ltac:(lia)).
  destruct h as [d|]; [|cbn [length]; lia]. pose proof (digest_oid_len d). pose proof (der_short TAG_OBJECT (digest_oid d) ltac:(lia)). lia.
Qed.
Lemma key_params_roundtrip n h r : n <> OtherNid -> d2i_key_params (i2d_key_params n h ++ r) = Some (n, h).
Proof.
  intros N. unfold d2i_key_params, i2d_key_params. pose proof (key_params_content_len n h). pose proof (curve_oid_len n).
  rewrite get_tlv_der by (apply small_1000; lia). rewrite get_oid_der by (try apply curve_object; auto; apply small_1000; lia).
  rewrite find_curve_oid. destruct h as [d|].
  - pose proof (digest_oid_len d). rewrite <- (app_nil_r (der _ (digest_oid d))). rewrite get_opt_der.
    + rewrite get_opt_nil, find_digest_oid. reflexivity.
    + apply get_oid_der; [apply small_1000; lia|apply digest_object].
  - rewrite !get_opt_nil. reflexivity.
Qed.
Lemma algor_content_len al :
  (length (der TAG_OBJECT (alg_oid (al_alg al)) ++ match al_params al with Some (n, h) => i2d_key_params n h | None => [] end) <= 43)%nat.
Proof.
  rewrite app_length. pose proof (alg_oid_len (al_alg al)). pose proof (der_short TAG_OBJECT (alg_oid (al_alg al)) ltac:(lia)).
  destruct (al_params al) as [[n h]|]; [|cbn [length]; lia]. unfold i2d_key_params. pose proof (key_params_content_len n h) as K.
  set (k := _ ++ _) in *. clearbody k. pose proof (der_short TAG_SEQUENCE k ltac:(lia)). lia.
Qed.
Lemma algor_roundtrip al r : algor_ok al -> d2i_algor (i2d_algor al ++ r) = Some (al, r).
Proof.
  intros [A P]. unfold d2i_algor, i2d_algor. pose proof (algor_content_len al). rewrite get_tlv_der by (apply small_1000; lia).
  pose proof (alg_oid_len (al_alg al)). rewrite get_oid_der by (try apply alg_object; auto; apply small_1000; lia). rewrite find_alg_oid.
  destruct al as [a [[n h]|]]; cbn [al_alg al_params] in *; [|reflexivity].
  unfold i2d_key_params at 1. unfold der at 1. cbn [app].
  pose proof (key_params_roundtrip n h [] P) as K. rewrite app_nil_r in K.
  assert (G : get_any (i2d_key_params n h) = Some (TAG_SEQUENCE, der TAG_OBJECT (curve_oid n) ++ match h with Some d => der TAG_OBJECT (digest_oid d) | None => [] end, [])).
  { pose proof (key_params_content_len n h) as L. unfold i2d_key_params. set (k := _ ++ _) in *. clearbody k.
    unfold get_any. unfold der at 1. rewrite get_tlv_end by (apply small_1000; lia). reflexivity. }
  rewrite G, K. reflexivity.
Qed.
Lemma bit_string_0 b : bytes b -> bit_string (0 :: b) = Some b.
Proof.
  intros B. unfold bit_string. cbn [N.ltb N.compare]. destruct b as [|x b]; [reflexivity|].
  change (N.land (N.shiftl 255 0) 255) with 255. f_equal.
  assert (NE : x :: b <> []) by discriminate. rewrite (app_removelast_last 0 NE) at 3. f_equal. f_equal.
  assert (isbyte (last (x :: b) 0)).
  { rewrite (app_removelast_last 0 NE) in B. apply bytes_app_inv in B. destruct B as [_ B]. inversion B; assumption. }
  unfold isbyte in *. change 255 with (N.ones 8). rewrite N.land_ones. apply N.mod_small. assumption.
Qed.
Lemma xpub_content_len al (buf : list N) : (length buf < 900)%nat ->
  (length (i2d_algor al ++ der TAG_BIT_STRING (0%N :: buf)) <= length buf + 52)%nat.
Proof.
  intros L. rewrite app_length. unfold i2d_algor. pose proof (algor_content_len al) as K. set (k := _ ++ _) in *. clearbody k.
  pose proof (der_short TAG_SEQUENCE k ltac:(lia)). pose proof (der_short TAG_BIT_STRING (0 :: buf) ltac:(cbn [length]; lia)) as D. cbn [length] in D. lia.
Qed.
Lemma xpub_roundtrip al buf : algor_ok al -> bytes buf -> (length buf < 900)%nat ->
  xpub_content (i2d_algor al ++ der TAG_BIT_STRING (0 :: buf)) = Some (al, buf).
Proof.
  intros A B L. unfold xpub_content. rewrite algor_roundtrip by exact A.
  rewrite get_tlv_end by (apply small_1000; cbn [length]; lia). rewrite bit_string_0 by exact B. reflexivity.
Qed.
Definition xpub_ok (x : xpub) : Prop := algor_ok (fst x) /\ bytes (snd x) /\ (length (snd x) <= 300)%nat.
Definition gkt_ok (g : gkt) : Prop :=
  (length (g_enc g) <= 100)%nat /\ (length (g_imit g) <= 100)%nat /\ (length (g_iv g) <= 100)%nat /\
  (length (g_cipher g) <= 100)%nat /\ object_ok (g_cipher g) = true /\ match g_ephem g with Some x => xpub_ok x | None => True end.
Lemma i2d_xpub_len tag x : xpub_ok x -> (length (i2d_xpub tag x) <= 356)%nat.
Proof.
  intros (A & B & L). destruct x as [al buf]. cbn [fst snd] in *. unfold i2d_xpub. cbn [fst snd].
  pose proof (xpub_content_len al buf ltac:(lia)). set (k := _ ++ _) in *. clearbody k. pose proof (der_short tag k ltac:(lia)). lia.
Qed.
Lemma get_xpub tag x r : xpub_ok x -> exists c, get_tlv tag (i2d_xpub tag x ++ r) = Some (c, r) /\ xpub_content c = Some x.
Proof.
  intros (A & B & L). destruct x as [al buf]. cbn [fst snd] in *. unfold i2d_xpub. cbn [fst snd].
  pose proof (xpub_content_len al buf ltac:(lia)). pose proof (xpub_roundtrip al buf A B ltac:(lia)) as X.
  set (k := _ ++ _) in *. clearbody k. exists k. split; [apply get_tlv_der, small_1000; lia|exact X].
Qed.
Lemma der_len_le tag c n : (length c <= n)%nat -> (n < 1000)%nat -> (length (der tag c) <= n + 4)%nat.
Proof. intros. pose proof (der_short tag c ltac:(lia)). lia. Qed.
Lemma gkt_roundtrip g r : gkt_ok g -> d2i_gkt (i2d_gkt g ++ r) = Some g.
Proof.
  destruct g as [enc imit oid e iv]. unfold gkt_ok. cbn [g_enc g_imit g_cipher g_ephem g_iv]. intros (L1 & L2 & L3 & L4 & O & X).
  unfold d2i_gkt, i2d_gkt. cbn [g_enc g_imit g_cipher g_ephem g_iv].
  set (KA := der TAG_OBJECT oid ++ _). set (KI := der TAG_OCTET_STRING enc ++ der TAG_OCTET_STRING imit).
  assert (LI : (length KI <= 208)%nat).
  { unfold KI. rewrite app_length. pose proof (der_len_le TAG_OCTET_STRING enc 100 L1 ltac:(lia)). pose proof (der_len_le TAG_OCTET_STRING imit 100 L2 ltac:(lia)). lia. }
  assert (LA : (length KA <= 600)%nat).
  { unfold KA. rewrite !app_length. pose proof (der_len_le TAG_OBJECT oid 100 L4 ltac:(lia)). pose proof (der_len_le TAG_OCTET_STRING iv 100 L3 ltac:(lia)).
    destruct e as [x|]; [pose proof (i2d_xpub_len TAG_CONTEXT_0 x X); lia|cbn [length]; lia]. }
  assert (GI : get_tlv TAG_OCTET_STRING KI = Some (enc, der TAG_OCTET_STRING imit)) by (apply get_tlv_der, small_1000; lia).
  assert (GA : get_oid KA = Some (oid, match e with Some x => i2d_xpub TAG_CONTEXT_0 x | None => [] end ++ der TAG_OCTET_STRING iv))
    by (apply get_oid_der; [apply small_1000; lia|exact O]).
  clearbody KA KI.
  rewrite get_tlv_der. 2:{ apply small_1000. rewrite app_length. pose proof (der_len_le TAG_SEQUENCE KI 208 LI ltac:(lia)).
    pose proof (der_len_le TAG_CONTEXT_0 KA 600 LA ltac:(lia)). lia. }
  rewrite get_tlv_der by (apply small_1000; lia). rewrite GI. rewrite get_tlv_end by (apply small_1000; lia).
  rewrite get_tlv_end by (apply small_1000; lia). rewrite GA. destruct e as [x|].
  - destruct (get_xpub TAG_CONTEXT_0 x (der TAG_OCTET_STRING iv) X) as (c & G & XC). unfold i2d_xpub in *.
    set (k := _ ++ der TAG_BIT_STRING _) in *. clearbody k. unfold get_opt. unfold der at 1. cbn [app]. rewrite N.eqb_refl.
    rewrite G. rewrite get_tlv_end by (apply small_1000; lia). rewrite XC. reflexivity.
  - cbn [app]. rewrite <- (app_nil_r (der TAG_OCTET_STRING iv)). rewrite get_opt_other by discriminate.
    rewrite app_nil_r. rewrite get_tlv_end by (apply small_1000; lia). reflexivity.
Qed.
Definition pst_ok (p : pst) : Prop :=
  (length (s_psexp p) <= 100)%nat /\ xpub_ok (s_ephem p) /\ match s_ukm p with Some u => (length u <= 100)%nat | None => True end.
Lemma pst_roundtrip p r : pst_ok p -> d2i_pst (i2d_pst p ++ r) = Some p.
Proof.
  destruct p as [e x u]. unfold pst_ok. cbn [s_psexp s_ephem s_ukm]. intros (L1 & X & L2).
  unfold d2i_pst, i2d_pst. cbn [s_psexp s_ephem s_ukm].
  set (U := match u with Some u => _ | None => _ end). 
  assert (LU : (length U <= 104)%nat).
  { unfold U. destruct u as [u|]; [apply (der_len_le TAG_OCTET_STRING u 100 L2); lia|cbn [length]; lia]. }
  assert (GU : get_opt (get_tlv TAG_OCTET_STRING) TAG_OCTET_STRING U = Some (u, [])).
  { unfold U. destruct u as [u|]; [|reflexivity]. rewrite <- (app_nil_r (der TAG_OCTET_STRING u)). apply get_opt_der, get_tlv_der, small_1000. lia. }
  clearbody U. pose proof (i2d_xpub_len TAG_SEQUENCE x X) as LX. destruct (get_xpub TAG_SEQUENCE x U X) as (c & G & XC).
  set (K := i2d_xpub TAG_SEQUENCE x) in *. clearbody K.
  rewrite get_tlv_der. 2:{ apply small_1000. rewrite !app_length. pose proof (der_len_le TAG_OCTET_STRING e 100 L1 ltac:(lia)). lia. }
  rewrite get_tlv_der by (apply small_1000; lia). rewrite G, XC, GU. reflexivity.
Qed.

(** ** The length of an encoding *)
Definition same_len {A} (a b : list A) : Prop := length a = length b.
Lemma der_same tag a b : length a = length b -> length (der tag a) = length (der tag b).
Proof. intros E. rewrite !der_length, E. reflexivity. Qed.
Lemma i2d_xpub_same tag al b b' : length b = length b' -> length (i2d_xpub tag (al, b)) = length (i2d_xpub tag (al, b')).
Proof.
  intros E. unfold i2d_xpub. cbn [fst snd]. apply der_same. rewrite !app_length. f_equal. apply der_same. cbn [length]. lia.
Qed.
Lemma i2d_gkt_same enc enc' imit imit' oid e e' iv iv' : length enc = length enc' -> length imit = length imit' -> length iv = length iv' ->
  match e, e' with Some (al, b), Some (al', b') => al = al' /\ length b = length b' | None, None => True | _, _ => False end ->
  length (i2d_gkt (mk_gkt enc imit oid e iv)) = length (i2d_gkt (mk_gkt enc' imit' oid e' iv')).
Proof.
  intros E1 E2 E3 E4. unfold i2d_gkt. cbn [g_enc g_imit g_cipher g_ephem g_iv]. apply der_same. rewrite !app_length. f_equal.
  - apply der_same. rewrite !app_length. f_equal; apply der_same; assumption.
  - apply der_same. rewrite !app_length. f_equal. f_equal; [|apply der_same; assumption].
    destruct e as [[al b]|], e' as [[al' b']|]; try tauto. destruct E4 as [-> E4]. apply i2d_xpub_same, E4.
Qed.
Lemma i2d_pst_same e e' al b b' u u' : length e = length e' -> length b = length b' -> length u = length u' ->
  length (i2d_pst (mk_pst e (al, b) (Some u))) = length (i2d_pst (mk_pst e' (al, b') (Some u'))).
Proof.
  intros E1 E2 E3. unfold i2d_pst. cbn [s_psexp s_ephem s_ukm]. apply der_same. rewrite !app_length.
  rewrite (der_same _ e e' E1), (i2d_xpub_same _ al b b' E2), (der_same _ u u' E3). reflexivity.
Qed.

(** What a decoder returns comes from its input. *)
Definition within (c b : list N) : Prop := incl c b /\ (length c <= length b)%nat.
Lemma within_refl b : within b b. Proof. split; [apply incl_refl|lia]. Qed.
Lemma within_trans a b c : within a b -> within b c -> within a c.
Proof. intros [I L] [J M]. split; [eapply incl_tran; eassumption|lia]. Qed.
Lemma within_firstn n b : within (firstn n b) b.
Proof. split; [|rewrite firstn_length; lia]. intros x H. rewrite <- (firstn_skipn n b). apply in_or_app. left. exact H. Qed.
Lemma within_skipn n b : within (skipn n b) b.
Proof. split; [|rewrite skipn_length; lia]. intros x H. rewrite <- (firstn_skipn n b). apply in_or_app. right. exact H. Qed.
Lemma within_cons x b : within b (x :: b).
Proof. split; [intros y H; right; exact H|cbn [length]; lia]. Qed.
Lemma within_bytes c b : within c b -> bytes b -> bytes c.
Proof. intros [I _] B. unfold bytes in *. rewrite Forall_forall in *. intros x H. apply B, I, H. Qed.
Lemma get_tlv_within tag b c r : get_tlv tag b = Some (c, r) -> within c b /\ within r b.
Proof.
  unfold get_tlv. destruct b as [|t b]; [discriminate|]. destruct (t =? tag); [|discriminate].
  destruct (get_len b) as [[n r']|] eqn:E; [|discriminate]. destruct (_ <? n); [discriminate|]. intros H. inversion H; subst. clear H.
  assert (W : within r' b).
  { unfold get_len in E. destruct b as [|l b]; [discriminate|]. destruct (l <? 128); [inversion E; subst; apply within_cons|].
    destruct (l =? 128); [discriminate|]. cbv zeta in E. destruct (_ <? _)%nat; [discriminate|]. inversion E; subst.
    eapply within_trans; [apply within_skipn|apply within_cons]. }
  assert (W' : within r' (t :: b)) by (eapply within_trans; [exact W|apply within_cons]).
  split; eapply within_trans; try exact W'; [apply within_firstn|apply within_skipn].
Qed.
Lemma get_oid_within b c r : get_oid b = Some (c, r) -> within c b /\ within r b.
Proof.
  unfold get_oid. destruct (get_tlv TAG_OBJECT b) as [[o r']|] eqn:E; [|discriminate]. destruct (object_ok o); [|discriminate].
  intros H. inversion H; subst. eapply get_tlv_within, E.
Qed.
Lemma get_opt_within tag b c r : get_opt (get_tlv tag) tag b = Some (c, r) ->
  match c with Some c => within c b | None => True end /\ within r b.
Proof.
  unfold get_opt. destruct b as [|t b]; [intros H; inversion H; split; [exact I|apply within_refl]|].
  destruct (t =? tag); [|intros H; inversion H; split; [exact I|apply within_refl]].
  destruct (get_tlv tag (t :: b)) as [[c' r']|] eqn:E; [|discriminate]. intros H. inversion H; subst. eapply get_tlv_within, E.
Qed.
Ltac tlv := match goal with
  | H : context [match get_tlv ?t ?b with _ => _ end] |- _ =>
      destruct (get_tlv t b) as [[? ?]|] eqn:?; [|discriminate]
  | H : context [match get_oid ?b with _ => _ end] |- _ =>
      destruct (get_oid b) as [[? ?]|] eqn:?; [|discriminate]
  | H : context [match get_opt (get_tlv ?t) ?t ?b with _ => _ end] |- _ =>
      destruct (get_opt (get_tlv t) t b) as [[? ?]|] eqn:?; [|discriminate]
  | H : get_tlv _ _ = Some _ |- _ => apply get_tlv_within in H; destruct H
  | H : get_oid _ = Some _ |- _ => apply get_oid_within in H; destruct H
  | H : get_opt (get_tlv _) _ _ = Some _ |- _ => apply get_opt_within in H; destruct H
  | H : context [match ?l with [] => _ | _ :: _ => _ end] |- _ => is_var l; destruct l; [|discriminate]
  end.
Lemma d2i_gkt_within b g : d2i_gkt b = Some g -> within (g_enc g) b /\ within (g_imit g) b /\ within (g_iv g) b.
Proof.
  intros H. unfold d2i_gkt in H. repeat tlv.
  match goal with H : match o with Some _ => match _ with Some _ => Some (mk_gkt ?a ?b ?c _ ?d) | None => _ end | None => _ end = Some g |- _ =>
    assert (Q : exists e', g = mk_gkt a b c e' d) end.
  { destruct o as [e|]; [destruct (xpub_content e); [|discriminate]|]; inversion H; eexists; reflexivity. }
  destruct Q as [e' ->]. cbn [g_enc g_imit g_iv]. split; [|split]; eauto 8 using within_trans.
Qed.
Lemma d2i_pst_within b p : d2i_pst b = Some p -> within (s_psexp p) b /\ match s_ukm p with Some u => within u b | None => True end.
Proof.
  intros H. unfold d2i_pst in H. tlv. tlv. tlv. destruct (xpub_content _) as [x|]; [|discriminate]. tlv. repeat tlv.
  match goal with H : Some (mk_pst ?a ?b ?c) = Some p |- _ => assert (Q : p = mk_pst a b c) by congruence end.
  rewrite Q. cbn [s_psexp s_ukm]. split; [eauto 8 using within_trans|]. destruct o as [u|]; eauto 8 using within_trans.
Qed.
