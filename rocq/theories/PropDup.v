(** C48: duplicated contexts. *)
From Coq Require Import ZArith List Bool Lia.
From Verif Require Import Bytes Gost89Model CryptModel KdfModel OmacModel Hash94Model MgmModel DupModel DupSpec DupProofs.
Import ListNotations.
Open Scope Z_scope.

(** * Heap lemmas *)
Section Frames.
Context {O : Type}.
Implicit Types (h : heap O) (p : option nat).
Lemma frame_same h p : frame _ h h p p.
Proof. split; [lia|]. split; [auto|]. auto. Qed.
Lemma frame_drop h p : frame _ h h p None.
Proof. split; [lia|]. split; [auto|]. intros a X. discriminate X. Qed.
Lemma frame_alloc h p o : frame _ h (fst (alloc h o)) p (Some (snd (alloc h o))).
Proof.
  unfold alloc. cbn [fst snd]. split; [cbn; lia|]. split; cbn [hp_next hp_cell].
  - intros a L _. apply put_other. lia.
  - intros a E. injection E as <-. right. lia.
Qed.
Lemma frame_write h p o : frame _ h (write h p o) p p.
Proof.
  destruct p as [a|]; [|apply frame_same]. split; [cbn; lia|]. split; [|auto]. cbn. intros b _ N. apply put_other. congruence.
Qed.
Lemma frame_free h p h' : free h p = Some h' -> frame _ h h' p None.
Proof.
  destruct p as [a|]; cbn; [|intros E; injection E as <-; apply frame_same]. destruct (hp_cell h a); [|discriminate].
  intros E. injection E as <-. split; [cbn; lia|]. split; [|intros b X; discriminate X]. cbn. intros b _ N. apply put_other. congruence.
Qed.
Lemma frame_then h h1 h2 p p' : frame _ h h1 p None -> frame _ h1 h2 None p' -> frame _ h h2 p p'.
Proof.
  intros (A1 & A2 & A3) (B1 & B2 & B3). split; [lia|]. split.
  - intros a L N. rewrite B2 by (lia || discriminate). apply A2; assumption.
  - intros a E. destruct (B3 a E) as [X|X]; [discriminate X|]. right. lia.
Qed.
Lemma frame_then_own h h1 h2 p : frame _ h h1 p p -> frame _ h1 h2 p None -> frame _ h h2 p None.
Proof.
  intros (A1 & A2 & A3) (B1 & B2 & B3). split; [lia|]. split; [|intros a E; discriminate E].
  intros a L N. rewrite B2 by (lia || exact N). apply A2; assumption.
Qed.
Lemma read_cell h a o : hp_cell h a = Some o -> read h (Some a) = Some o. Proof. auto. Qed.
Lemma free_some h a o : hp_cell h a = Some o -> free h (Some a) = Some (mk_heap (hp_next h) (put (hp_cell h) a None)).
Proof. intros E. cbn. rewrite E. reflexivity. Qed.
Lemma write_cell h a o : hp_cell (write h (Some a) o) a = Some o. Proof. cbn. apply put_same. Qed.
End Frames.

(** * OMAC *)
Section OmacDup.
Variable K : cbc_cipher.
Variable hst : host.
(** A context as a value: whether it has been initialised, and the state of C31's model. *)
Definition ov : Type := bool * omac_ctx K.
Definition omac_val (c : homac) (o : option (cmac K)) : ov := (ho_named c, mk_omac K o (ho_size c) (ho_set c) (ho_key c)).
Definition omac_wf (c : homac) : Prop := ho_set c = true -> ho_ptr c <> None.
Definition omac_gone : ov := (false, mk_omac K None 0 false (zeros 32)).
Definition omac_vcall (v : ov) (k : omac_call K) : option (Z * list N) * ov :=
  let '(r, out, c) := omac_step K hst (snd v) k in
  match k with
  | OSetKey _ _ _ => (Some (r, out), (true, c))
  | OXofLen _ => if fst v then (Some (r, out), (fst v, c)) else (None, v)
  | OFinal => (Some (r, out), omac_gone)
  | _ => (Some (r, out), (fst v, c))
  end.
Notation means := (means (cmac K) homac ov ho_ptr omac_val omac_wf).
Lemma omac_means_new h c o : ho_ptr c = Some (snd (alloc h o)) -> means (fst (alloc h o)) c (omac_val c (Some o)).
Proof.
  intros E. split; [intros _; congruence|]. right. exists (hp_next h), o. split; [exact E|]. cbn. split; [lia|]. split; [apply put_same|reflexivity].
Qed.
Lemma omac_key_ok h c fresh key : (ho_ptr c = None \/ exists a o, ho_ptr c = Some a /\ hp_cell h a = Some o) ->
  exists h' c', h_omac_key K h c fresh key = Some (h', c') /\ frame _ h h' (ho_ptr c) (ho_ptr c') /\
    (exists a, ho_ptr c' = Some a /\ (a < hp_next h')%nat /\ hp_cell h' a = Some (CMAC_Init K fresh key)) /\
    ho_size c' = ho_size c /\ ho_set c' = true /\ ho_key c' = ho_key c /\ ho_named c' = ho_named c.
Proof.
  intros X. unfold h_omac_key.
  assert (Y : exists h1, free h (ho_ptr c) = Some h1).
  { destruct X as [->|(a & o & -> & E)]; [eexists; reflexivity|]. rewrite (free_some _ _ _ E). eexists; reflexivity. }
  destruct Y as (h1 & Y). rewrite Y. destruct (alloc h1 (CMAC_Init K fresh key)) as [h2 p] eqn:A. eexists; eexists. split; [reflexivity|].
  pose proof (frame_alloc h1 None (CMAC_Init K fresh key)) as F. rewrite A in F. cbn [fst snd] in F. cbn [ho_ptr ho_size ho_set ho_key ho_named].
  split; [exact (frame_then _ _ _ _ _ (frame_free _ _ _ Y) F)|]. split; [|auto].
  exists p. unfold alloc in A. injection A as <- <-. cbn. split; [reflexivity|]. split; [lia|apply put_same].
Qed.
Lemma omac_call_ok h c v k : means h c v -> exists h' c',
  m_call (omac_methods K hst) h c k = Some (fst (omac_vcall v k), h', c') /\ means h' c' (snd (omac_vcall v k)) /\ frame _ h h' (ho_ptr c) (ho_ptr c').
Proof.
  intros Mn. pose proof Mn as [W Mc]. cbn [m_call omac_methods].
  assert (Hp : ho_ptr c = None \/ exists a o, ho_ptr c = Some a /\ hp_cell h a = Some o).
  { destruct Mc as [[P _]|(a & o & P & _ & E & _)]; [left; exact P|right; exists a, o; auto]. }
  assert (Hv : fst v = ho_named c /\ om_size (snd v) = ho_size c /\ om_set (snd v) = ho_set c /\ om_key (snd v) = ho_key c /\
     match ho_ptr c with None => om_cmac (snd v) = None | Some a => hp_cell h a = om_cmac (snd v) /\ om_cmac (snd v) <> None end).
  { destruct Mc as [[P ->]|(a & o & P & _ & E & ->)]; cbn [omac_val fst snd om_size om_set om_key om_cmac]; rewrite P; repeat (split; [auto|]); auto.
    discriminate. }
  destruct v as [nm x]. cbn [fst snd] in Hv. destruct Hv as (V1 & V2 & V3 & V4 & V5). destruct x as [xo xs xset xk]. cbn [om_size om_set om_key om_cmac] in V2, V3, V4, V5.
  destruct k as [fresh arg ptr|arg|fresh sq|data|]; unfold omac_vcall; cbn [h_omac_call omac_step fst snd].
  - (* SET_KEY: the old object is leaked *)
    unfold omac_set_key. destruct ((arg =? 0) || (arg =? 32)).
    + destruct (omac_key_ok h (h_omac_init K) fresh (firstn 32 ptr) (or_introl eq_refl)) as (h' & c' & E & F & (a & P & L & Ce) & S1 & S2 & S3 & S4).
      rewrite E. eexists; eexists. split; [reflexivity|]. cbn [snd]. split.
      * split; [intros _; cbn; congruence|]. right. exists a, (CMAC_Init K fresh (firstn 32 ptr)). cbn [ho_ptr]. split; [exact P|]. split; [exact L|]. split; [exact Ce|].
        unfold omac_val. cbn [ho_named ho_size ho_set ho_key]. rewrite S4, S1, S2. reflexivity.
      * cbn [ho_ptr]. destruct F as (F1 & F2 & F3). split; [exact F1|]. split.
        -- intros b Lb N. apply F2; [exact Lb|discriminate].
        -- intros b Eb. destruct (F3 b Eb) as [X|X]; [discriminate X|right; exact X].
    + eexists; eexists. split; [reflexivity|]. cbn [snd]. split.
      * split; [intros X; discriminate X|]. left. split; reflexivity.
      * cbn. apply frame_drop.
  - subst nm. destruct (ho_named c) eqn:En.
    + unfold omac_xof_len. destruct ((arg <? 1) || (Z.of_nat (cc_bl K) <? arg)).
      * eexists; eexists. split; [reflexivity|]. split; [exact Mn|apply frame_same].
      * eexists; eexists. split; [reflexivity|]. cbn [snd]. split; [|apply frame_same]. split; [exact W|].
        destruct Mc as [[P E]|(a & o & P & L & Ce & E)]; unfold omac_val in E; injection E as E1 E2 E3 E4 E5; subst.
        -- left. split; [exact P|]. unfold omac_val. cbn. reflexivity.
        -- right. exists a, o. cbn [ho_ptr]. repeat (split; [assumption|]). unfold omac_val. cbn. reflexivity.
    + destruct (omac_xof_len K _ arg). eexists; eexists. split; [reflexivity|]. split; [exact Mn|apply frame_same].
  - unfold omac_tlstree. cbn [om_set om_key]. rewrite V3, V4. destruct (ho_set c) eqn:Es.
    + destruct (gost_tlstree hst (cc_nid K) (ho_key c) (firstn 8 sq)) as [kk|].
      * destruct (omac_key_ok h c fresh kk Hp) as (h' & c' & E & F & (a & P & L & Ce) & S1 & S2 & S3 & S4). rewrite E. eexists; eexists. split; [reflexivity|].
        split; [|exact F]. split; [intros _; congruence|]. right. exists a, (CMAC_Init K fresh kk). repeat (split; [assumption|]).
        unfold omac_val, omac_key. cbn [snd om_size om_key]. rewrite S4, S1, S2, S3, V1, V2. reflexivity.
      * eexists; eexists. split; [reflexivity|]. split; [|apply frame_same]. cbn [snd]. rewrite <- V4, <- V3 in *. exact Mn.
    + eexists; eexists. split; [reflexivity|]. split; [|apply frame_same]. cbn [snd]. rewrite <- V4, <- V3 in *. exact Mn.
  - unfold omac_imit_update. cbn [om_set om_cmac om_size om_key]. rewrite V3. destruct (ho_set c) eqn:Es.
    + destruct (ho_ptr c) as [a|] eqn:P; [|elim (W Es P)]. destruct V5 as [V5 V6]. cbn [read]. rewrite V5. destruct xo as [m|]; [|elim V6; reflexivity].
      eexists; eexists. split; [reflexivity|]. cbn [snd]. split; [|rewrite P; apply frame_write]. split; [exact W|].
      right. exists a, (CMAC_Update K m data). split; [exact P|]. split; [|split; [apply write_cell|]].
      * destruct Mc as [[X _]|(b & o & X & L & _)]; [discriminate X|]. injection X as ->. exact L.
      * unfold omac_val. congruence.
    + eexists; eexists. split; [reflexivity|]. split; [|apply frame_same]. cbn [snd]. subst xset. exact Mn.
  - unfold omac_imit_final. cbn [om_set om_cmac om_size om_key]. rewrite V3. destruct (ho_set c) eqn:Es.
    + destruct (ho_ptr c) as [a|] eqn:P; [|elim (W Es P)]. destruct V5 as [V5 V6]. cbn [read]. rewrite V5. destruct xo as [m|]; [|elim V6; reflexivity].
      destruct (CMAC_Final K m) as [m' mac] eqn:Cf. unfold h_omac_cleanup. rewrite P. rewrite (free_some _ _ _ (write_cell h a m')).
      eexists; eexists. split; [rewrite V2; reflexivity|]. cbn [snd]. split.
      * split; [intros X; discriminate X|]. left. split; reflexivity.
      * apply (frame_then_own h (write h (Some a) m') _ (Some a)); [apply frame_write|]. apply frame_free. apply free_some with (o := m'). apply write_cell.
    + unfold h_omac_cleanup. destruct Hp as [P|(a & o & P & Ce)]; rewrite P.
      * cbn [free]. eexists; eexists. split; [reflexivity|]. cbn [snd]. split; [|apply frame_drop]. split; [intros X; discriminate X|]. left. split; reflexivity.
      * rewrite (free_some _ _ _ Ce). eexists; eexists. split; [reflexivity|]. cbn [snd]. split.
        -- split; [intros X; discriminate X|]. left. split; reflexivity.
        -- apply frame_free. apply free_some with (o := o). exact Ce.
Qed.
Lemma omac_cleanup_ok h c v : means h c v -> exists h', m_cleanup (omac_methods K hst) h c = Some h' /\ frame _ h h' (ho_ptr c) None.
Proof.
  intros [_ Mc]. cbn [m_cleanup omac_methods]. unfold h_omac_cleanup. destruct Mc as [[P _]|(a & o & P & _ & E & _)]; rewrite P.
  - exists h. split; [reflexivity|apply frame_drop].
  - eexists. split; [apply (free_some _ _ _ E)|]. apply frame_free. apply (free_some _ _ _ E).
Qed.
Lemma omac_copy_ok h c v : means h c v -> exists h' c', m_copy (omac_methods K hst) h c c = Some (1, h', c') /\ means h' c' v /\ frame _ h h' None (ho_ptr c').
Proof.
  intros [W Mc]. cbn [m_copy omac_methods]. unfold h_omac_copy. cbn [ho_ptr ho_size ho_set ho_key ho_named]. destruct Mc as [[P ->]|(a & o & P & L & E & ->)]; rewrite P.
  - cbn [free]. eexists; eexists. split; [reflexivity|]. split; [|apply frame_same]. split; [intros X; elim (W X P)|]. left. split; reflexivity.
  - rewrite (read_cell _ _ _ E). cbn [ptr_eqb]. rewrite Nat.eqb_refl. destruct (alloc h o) as [h' p] eqn:A. eexists; eexists. split; [reflexivity|].
    pose proof (frame_alloc h None o) as F. pose proof (omac_means_new h (mk_homac (Some p) (ho_size c) (ho_set c) (ho_key c) (ho_named c)) o) as G.
    rewrite A in F, G. cbn [fst snd] in F, G. split; [exact (G eq_refl)|exact F].
Qed.
Theorem omac_refines l : run (omac_methods K hst) start l = Some (vrun (omac_val (h_omac_init K) None) omac_vcall (fun _ => None) l).
Proof.
  apply (refines _ _ _ _ (omac_methods K hst) ho_ptr omac_val omac_vcall omac_wf).
  - split; [reflexivity|]. intros X. discriminate X.
  - exact omac_call_ok.
  - exact omac_cleanup_ok.
  - exact omac_copy_ok.
Qed.
End OmacDup.

(** OMAC contexts (Magma and Kuznyechik, or any other cipher): the copy owns what it uses. *)
Theorem C48_omac_copies_independent : forall (K : cbc_cipher) (hst : host), copies_independent (omac_methods K hst).
Proof. intros K hst. apply (indep _ _ (omac_val K (h_omac_init K) None) (omac_vcall K hst)). apply omac_refines. Qed.
Print Assumptions C48_omac_copies_independent.

(** * OMAC-ACPKM *)
Section OacDup.
Definition av : Type := bool * oac_ctx.
Definition oac_val (c : hoac) (o : option acmac) : av := (ha_named c, mk_oac o (ha_size c) (ha_set c)).
Definition oac_wf (c : hoac) : Prop := ha_set c = true -> ha_ptr c <> None.
Definition oac_ret (r : oac_result) : option (Z * list N) := match r with ARet r out => Some (r, out) | AUndefined => None end.
Definition oac_vcall (v : av) (k : oac_call) : option (Z * list N) * av :=
  let '(r, c) := oac_step (snd v) k in
  match k with
  | ASetKey _ _ => (oac_ret r, (true, c))
  | AXofLen _ => if fst v then (oac_ret r, (fst v, c)) else (None, v)
  | AFinal => (oac_ret r, (false, mk_oac None 0 false))
  | _ => (oac_ret r, (fst v, c))
  end.
Notation means := (means acmac hoac av ha_ptr oac_val oac_wf).
Lemma oac_means_new h c o : ha_ptr c = Some (snd (alloc h o)) -> means (fst (alloc h o)) c (oac_val c (Some o)).
Proof.
  intros E. split; [intros _; congruence|]. right. exists (hp_next h), o. split; [exact E|]. cbn. split; [lia|]. split; [apply put_same|reflexivity].
Qed.
Lemma key_mesh_some m n s arg ptr : ((arg =? 0) || negb (Z.rem arg 16 =? 0)) = false ->
  exists r m', omac_acpkm_key_mesh (mk_oac (Some m) n s) arg ptr = Some (r, mk_oac (Some m') n s).
Proof.
  intros E. unfold omac_acpkm_key_mesh. rewrite E. cbn [oc_cmac oc_size oc_set].
  destruct (match ptr with Some t => _ | None => _ end) as [r a]. eexists; eexists. reflexivity.
Qed.
Lemma oac_call_ok h c v k : means h c v -> exists h' c',
  m_call oac_methods h c k = Some (fst (oac_vcall v k), h', c') /\ means h' c' (snd (oac_vcall v k)) /\ frame _ h h' (ha_ptr c) (ha_ptr c').
Proof.
  intros Mn. pose proof Mn as [W Mc]. cbn [m_call oac_methods].
  assert (Hp : ha_ptr c = None \/ exists a o, ha_ptr c = Some a /\ hp_cell h a = Some o).
  { destruct Mc as [[P _]|(a & o & P & _ & E & _)]; [left; exact P|right; exists a, o; auto]. }
  assert (Hv : fst v = ha_named c /\ oc_size (snd v) = ha_size c /\ oc_set (snd v) = ha_set c /\
     match ha_ptr c with None => oc_cmac (snd v) = None | Some a => (a < hp_next h)%nat /\ hp_cell h a = oc_cmac (snd v) /\ oc_cmac (snd v) <> None end).
  { destruct Mc as [[P ->]|(a & o & P & L & E & ->)]; cbn [oac_val fst snd oc_size oc_set oc_cmac]; rewrite P; repeat (split; [auto|]); auto. discriminate. }
  destruct v as [nm x]. cbn [fst snd] in Hv. destruct Hv as (V1 & V2 & V3 & V5). destruct x as [xo xs xset]. cbn [oc_size oc_set oc_cmac] in V2, V3, V5.
  destruct k as [arg ptr|arg ptr|arg|data|]; unfold oac_vcall; cbn [h_oac_call oac_step fst snd].
  - unfold omac_acpkm_set_key. destruct ((arg =? 0) || (arg =? 32)).
    + destruct (alloc h (CMAC_ACPKM_Init (firstn 32 ptr))) as [h' p] eqn:A. eexists; eexists. split; [reflexivity|].
      pose proof (frame_alloc h (ha_ptr c) (CMAC_ACPKM_Init (firstn 32 ptr))) as F. pose proof (oac_means_new h (mk_hoac (Some p) 16 true true) (CMAC_ACPKM_Init (firstn 32 ptr))) as G.
      rewrite A in F, G. cbn [fst snd] in F, G. split; [exact (G eq_refl)|exact F].
    + eexists; eexists. split; [reflexivity|]. cbn [snd]. split.
      * split; [intros X; discriminate X|]. left. split; reflexivity.
      * cbn. apply frame_drop.
  - destruct ((arg =? 0) || negb (Z.rem arg 16 =? 0)) eqn:Ea.
    + unfold omac_acpkm_key_mesh. rewrite Ea. eexists; eexists. split; [reflexivity|]. split; [exact Mn|apply frame_same].
    + destruct (ha_ptr c) as [a|] eqn:P.
      * destruct V5 as (L & V5 & V6). cbn [read]. rewrite V5. destruct xo as [m|]; [|elim V6; reflexivity].
        rewrite <- V2, <- V3. destruct (key_mesh_some m xs xset arg ptr Ea) as (r & m' & Em). rewrite Em. cbn [oc_cmac fst snd oac_ret].
        eexists; eexists. split; [reflexivity|]. split; [|rewrite P; apply frame_write]. split; [exact W|]. right. exists a, m'. split; [exact P|]. split; [exact L|].
        split; [apply write_cell|]. unfold oac_val. congruence.
      * rewrite V5. unfold omac_acpkm_key_mesh. rewrite Ea. cbn [oc_cmac oac_ret fst snd]. eexists; eexists. split; [reflexivity|]. rewrite V5 in Mn. split; [exact Mn|rewrite P; apply frame_same].
  - subst nm. destruct (ha_named c) eqn:En.
    + destruct ((arg <? 1) || (16 <? arg)).
      * eexists; eexists. split; [reflexivity|]. split; [exact Mn|apply frame_same].
      * eexists; eexists. split; [reflexivity|]. cbn [snd]. split; [|apply frame_same]. split; [exact W|].
        destruct Mc as [[P E]|(a & o & P & L & Ce & E)]; unfold oac_val in E; injection E as E1 E2 E3 E4; subst.
        -- left. split; [exact P|]. reflexivity.
        -- right. exists a, o. cbn [ha_ptr]. repeat (split; [assumption|]). reflexivity.
    + destruct ((arg <? 1) || (16 <? arg)); (eexists; eexists; split; [reflexivity|]; split; [exact Mn|apply frame_same]).
  - cbn [oc_set oc_cmac oc_size]. rewrite V3. destruct (ha_set c) eqn:Es.
    + destruct (ha_ptr c) as [a|] eqn:P; [|elim (W Es P)]. destruct V5 as (L & V5 & V6). cbn [read]. rewrite V5. destruct xo as [m|]; [|elim V6; reflexivity].
      eexists; eexists. split; [reflexivity|]. cbn [snd]. split; [|rewrite P; apply frame_write]. split; [exact W|].
      right. exists a, (CMAC_ACPKM_Update m data). split; [exact P|]. split; [exact L|]. split; [apply write_cell|]. unfold oac_val. congruence.
    + eexists; eexists. split; [reflexivity|]. split; [|apply frame_same]. cbn [snd]. subst xset. exact Mn.
  - cbn [oc_set oc_cmac oc_size]. rewrite V3. destruct (ha_set c) eqn:Es.
    + destruct (ha_ptr c) as [a|] eqn:P; [|elim (W Es P)]. destruct V5 as (L & V5 & V6). cbn [read]. rewrite V5. destruct xo as [m|]; [|elim V6; reflexivity].
      destruct (CMAC_ACPKM_Final m) as [m' mac] eqn:Cf. unfold h_oac_cleanup. rewrite P. rewrite (free_some _ _ _ (write_cell h a m')).
      eexists; eexists. split; [rewrite V2; reflexivity|]. cbn [snd]. split.
      * split; [intros X; discriminate X|]. left. split; reflexivity.
      * apply (frame_then_own h (write h (Some a) m') _ (Some a)); [apply frame_write|]. apply frame_free. apply free_some with (o := m'). apply write_cell.
    + unfold h_oac_cleanup. destruct Hp as [P|(a & o & P & Ce)]; rewrite P.
      * cbn [free]. eexists; eexists. split; [reflexivity|]. cbn [snd]. split; [|apply frame_drop]. split; [intros X; discriminate X|]. left. split; reflexivity.
      * rewrite (free_some _ _ _ Ce). eexists; eexists. split; [reflexivity|]. cbn [snd]. split.
        -- split; [intros X; discriminate X|]. left. split; reflexivity.
        -- apply frame_free. apply free_some with (o := o). exact Ce.
Qed.
Lemma oac_cleanup_ok h c v : means h c v -> exists h', m_cleanup oac_methods h c = Some h' /\ frame _ h h' (ha_ptr c) None.
Proof.
  intros [_ Mc]. cbn [m_cleanup oac_methods]. unfold h_oac_cleanup. destruct Mc as [[P _]|(a & o & P & _ & E & _)]; rewrite P.
  - exists h. split; [reflexivity|apply frame_drop].
  - eexists. split; [apply (free_some _ _ _ E)|]. apply frame_free. apply (free_some _ _ _ E).
Qed.
Lemma oac_copy_ok h c v : means h c v -> exists h' c', m_copy oac_methods h c c = Some (1, h', c') /\ means h' c' v /\ frame _ h h' None (ha_ptr c').
Proof.
  intros [W Mc]. cbn [m_copy oac_methods]. unfold h_oac_copy. cbn [ha_ptr ha_size ha_set ha_named]. destruct Mc as [[P ->]|(a & o & P & L & E & ->)]; rewrite P.
  - cbn [free]. eexists; eexists. split; [reflexivity|]. split; [|apply frame_same]. split; [intros X; elim (W X P)|]. left. split; reflexivity.
  - rewrite (read_cell _ _ _ E). cbn [ptr_eqb]. rewrite Nat.eqb_refl. cbn [orb]. destruct (alloc h o) as [h' p] eqn:A. eexists; eexists. split; [reflexivity|].
    pose proof (frame_alloc h None o) as F. pose proof (oac_means_new h (mk_hoac (Some p) (ha_size c) (ha_set c) (ha_named c)) o) as G.
    rewrite A in F, G. cbn [fst snd] in F, G. split; [exact (G eq_refl)|exact F].
Qed.
Theorem oac_refines l : run oac_methods start l = Some (vrun (oac_val h_oac_init None) oac_vcall (fun _ => None) l).
Proof.
  apply (refines _ _ _ _ oac_methods ha_ptr oac_val oac_vcall oac_wf).
  - split; [reflexivity|]. intros X. discriminate X.
  - exact oac_call_ok.
  - exact oac_cleanup_ok.
  - exact oac_copy_ok.
Qed.
End OacDup.
Theorem C48_omac_acpkm_copies_independent : copies_independent oac_methods.
Proof. apply (indep _ _ (oac_val h_oac_init None) oac_vcall). apply oac_refines. Qed.
Print Assumptions C48_omac_acpkm_copies_independent.

(** * Streebog and the GOST 28147-89 MAC digests *)
Theorem C48_flat_copies_independent : forall (C Call : Type) (init : C) (call : C -> Call -> option (Z * list N) * C),
  copies_independent (flat_methods init call).
Proof.
  intros C Call init call. apply (indep _ _ init call). intros l.
  apply (refines _ _ _ _ (flat_methods init call) (fun _ => None) (fun c _ => c) call (fun _ => True)).
  - split; [reflexivity|exact I].
  - intros h c v k [_ [[_ ->]|(a & o & P & _)]]; [|discriminate P]. cbn [m_call flat_methods]. destruct (call c k) as [r c'] eqn:E. exists h, c'.
    split; [reflexivity|]. split; [split; [exact I|]; left; split; reflexivity|apply frame_same].
  - intros h c v _. exists h. split; [reflexivity|apply frame_same].
  - intros h c v [_ [[_ ->]|(a & o & P & _)]]; [|discriminate P]. exists h, c. split; [reflexivity|].
    split; [split; [exact I|]; left; split; reflexivity|apply frame_same].
Qed.

(** * GOST R 34.11-94 *)
Section Dup94.
Definition v94 : Type := option hash_ctx.
Definition v94_call (v : v94) (c : call94) : option (Z * list N) * v94 :=
  match v, c with
  | None, _ => (None, None)
  | Some x, Update94 d => (Some (1, nil), Some (hash_block x d))
  | Some x, Final94 => (Some (1, snd (finish_hash x)), None)
  end.
Definition v94_step (T : vtable v94) (om : op call94 * gost_ctx) := vstep (Some (gost_digest_init (snd om))) v94_call T (fst om).
Fixpoint v94_run (T : vtable v94) (l : list (op call94 * gost_ctx)) : list (nat * option (Z * list N)) :=
  match l with nil => nil | o :: l => let (r, T) := v94_step T o in (target (fst o), r) :: v94_run T l end.
Fixpoint v94_after (T : vtable v94) (l : list (op call94 * gost_ctx)) : vtable v94 := match l with nil => T | o :: l => v94_after (snd (v94_step T o)) l end.
Definition val94 (x : p94) : v94 := match p94_ptr x with Some _ => Some (p94_with (p94_hash x) (p94_cipher x)) | None => None end.
Definition rel94 (T : nat -> option p94) (V : vtable v94) : Prop :=
  (forall i, option_map val94 (T i) = V i) /\ (forall i x k, T i = Some x -> p94_ptr x = Some k -> k = i).
Lemma with_self (x : hash_ctx) : p94_with x (h_cipher x) = x. Proof. destruct x. reflexivity. Qed.
Lemma rel94_put T V i x : rel94 T V -> (forall y k, x = Some y -> p94_ptr y = Some k -> k = i) -> rel94 (put T i x) (put V i (option_map val94 x)).
Proof.
  intros [A B] C. split.
  - intros j. destruct (Nat.eq_dec j i) as [->|N]; [rewrite !put_same; reflexivity|rewrite !put_other by exact N; apply A].
  - intros j y k E P. destruct (Nat.eq_dec j i) as [->|N]; [rewrite put_same in E; exact (C y k E P)|rewrite put_other in E by exact N; exact (B j y k E P)].
Qed.
Lemma rel94_ext T T' V : rel94 T V -> (forall i, T i = T' i) -> rel94 T' V.
Proof. intros [A B] E. split; intros i; [rewrite <- E; apply A|intros x k X; rewrite <- E in X; exact (B i x k X)]. Qed.
Lemma step94 T V o : rel94 T V -> exists T', p94_step T (fst o) (snd o) = Some (fst (v94_step V o), T') /\ rel94 T' (snd (v94_step V o)).
Proof.
  intros R. pose proof R as [A B]. destruct o as [o mem]. unfold v94_step. cbn [fst snd]. destruct o as [i|i c|i j|i]; cbn [p94_step vstep]; rewrite <- A.
  - destruct (T i) as [x|] eqn:E; cbn [option_map fst snd]; (eexists; split; [reflexivity|]); [exact R|].
    apply (rel94_put T V i (Some (mk_p94 (gost_digest_init mem) (gost_init mem Gost89Sboxes.GostR3411_94_CryptoProParamSet) (Some i))) R).
    intros y k Y P. injection Y as <-. injection P as ->. reflexivity.
  - destruct (T i) as [x|] eqn:E; cbn [option_map]; [|eexists; split; [reflexivity|exact R]].
    unfold val94 at 1 2. destruct (p94_ptr x) as [k|] eqn:P.
    + pose proof (B i x k E P). subst k. rewrite E. destruct c as [d|]; cbn [v94_call fst snd].
      * rewrite put_same. eexists. split; [reflexivity|]. cbn [p94_ptr p94_hash].
        set (x2 := hash_block (p94_with (p94_hash x) (p94_cipher x)) d).
        apply (rel94_ext (put T i (Some (mk_p94 x2 (h_cipher x2) (Some i))))).
        -- replace x2 with (p94_with x2 (h_cipher x2)) at 3 by apply with_self.
           apply (rel94_put T V i (Some (mk_p94 x2 (h_cipher x2) (Some i))) R). intros y k Y Q. injection Y as <-. injection Q as ->. reflexivity.
        -- intros j. unfold put. destruct (Nat.eqb j i); reflexivity.
      * destruct (finish_hash (p94_with (p94_hash x) (p94_cipher x))) as [x2 out]. cbn [fst snd]. eexists. split; [reflexivity|].
        apply (rel94_ext (put T i (Some (mk_p94 x2 (h_cipher x2) None)))).
        -- apply (rel94_put T V i (Some (mk_p94 x2 (h_cipher x2) None)) R). intros y k Y Q. injection Y as <-. discriminate Q.
        -- intros j. unfold put. destruct (Nat.eqb j i); reflexivity.
    + cbn [v94_call fst snd]. eexists. split; [reflexivity|]. destruct R as [A' B']. split; [|exact B'].
      intros j. destruct (Nat.eq_dec j i) as [->|N]; [rewrite put_same, E; cbn; unfold val94; rewrite P; reflexivity|rewrite put_other by exact N; apply A'].
  - destruct (Nat.eqb_spec i j) as [->|N]; [eexists; split; [reflexivity|exact R]|].
    destruct (T i) as [x|] eqn:E; cbn [option_map fst snd]; (eexists; split; [reflexivity|]); [|exact R].
    replace (val94 x) with (val94 (mk_p94 (p94_hash x) (p94_cipher x) (match p94_ptr x with Some _ => Some j | None => None end))).
    + apply (rel94_put T V j (Some (mk_p94 (p94_hash x) (p94_cipher x) (match p94_ptr x with Some _ => Some j | None => None end))) R).
      intros y k Y P. injection Y as <-. cbn [p94_ptr] in P. destruct (p94_ptr x); [congruence|discriminate P].
    + unfold val94. cbn [p94_ptr]. destruct (p94_ptr x); reflexivity.
  - destruct (T i) as [x|] eqn:E; cbn [option_map fst snd]; (eexists; split; [reflexivity|]); [|exact R].
    apply (rel94_put T V i None R). intros y k Y. discriminate Y.
Qed.
Lemma run94 l : forall T V, rel94 T V -> p94_run T l = Some (v94_run V l).
Proof.
  induction l as [|o l IH]; intros T V R; [reflexivity|]. cbn [p94_run v94_run]. destruct (step94 T V o R) as (T' & E & R').
  destruct o as [o mem]. cbn [fst snd] in E. rewrite E. destruct (v94_step V (o, mem)) as [r V']. cbn [fst snd] in *. rewrite (IH T' V' R'). reflexivity.
Qed.
Lemma start94 : rel94 (fun _ => None) (fun _ => None).
Proof. split; [reflexivity|]. intros i x k E. discriminate E. Qed.
Lemma v94_app l1 : forall T l2, v94_run T (l1 ++ l2) = v94_run T l1 ++ v94_run (v94_after T l1) l2.
Proof. induction l1 as [|o l1 IH]; intros T l2; [reflexivity|]. cbn [app v94_run v94_after]. destruct (v94_step T o) as [r T']. cbn [app snd]. rewrite IH. reflexivity. Qed.
Lemma v94_length l : forall T, length (v94_run T l) = length l.
Proof. induction l as [|o l IH]; intros T; [reflexivity|]. cbn [v94_run]. destruct (v94_step T o). cbn [length]. rewrite IH. reflexivity. Qed.
Lemma results94 j l : only_calls j (map fst l) -> forall T v, T j = Some v -> results_on j (v94_run T l) = feed _ _ v94_call v (calls_on j (map fst l)).
Proof.
  induction l as [|[o mem] l IH]; intros Hl T v E; [reflexivity|]. inversion Hl as [|? ? Ho Hr]; subst. cbn [fst] in *. cbn [v94_run map fst]. unfold v94_step. cbn [fst snd].
  destruct (Nat.eq_dec (target o) j) as [Ej|N].
  - destruct (Ho Ej) as [c ->]. cbn [vstep]. rewrite E. destruct (v94_call v c) as [r v'] eqn:Ev. unfold results_on, calls_on in *. cbn [flat_map filter target fst map].
    rewrite Nat.eqb_refl. cbn [map snd app feed]. rewrite Ev. f_equal. apply IH; [exact Hr|]. apply put_same.
  - pose proof (vstep_other _ _ (Some (gost_digest_init mem)) v94_call T o j N) as Ot. destruct (vstep (Some (gost_digest_init mem)) v94_call T o) as [r T'] eqn:Es. cbn [snd] in Ot.
    unfold results_on, calls_on in *. cbn [filter fst flat_map]. destruct (Nat.eqb_spec (target o) j) as [|_]; [contradiction|].
    assert (X : match o with Do i c => if Nat.eqb i j then [c] else [] | _ => [] end = []).
    { destruct o as [i|i c|i k|i]; try reflexivity. cbn [target] in N. destruct (Nat.eqb_spec i j); [contradiction|reflexivity]. }
    rewrite X. cbn [app]. apply IH; [exact Hr|]. rewrite Ot. exact E.
Qed.
Lemma own94 i mem l : forall T v, T i = Some v -> map snd (v94_run T (map (fun c => (Do i c, mem)) l)) = feed _ _ v94_call v l.
Proof.
  induction l as [|c l IH]; intros T v E; [reflexivity|]. cbn [map v94_run]. unfold v94_step. cbn [fst snd vstep]. rewrite E. cbn [feed].
  destruct (v94_call v c) as [r v']. cbn [map snd]. f_equal. apply IH. apply put_same.
Qed.
End Dup94.
(** The same for GOST R 34.11-94, whose structure points into itself: every operation comes with the contents [mem] of the memory
    a new context would get. *)
Theorem C48_hash94_copies_independent :
  (forall l, exists rs, p94_run (fun _ => None) l = Some rs) /\
  (forall pre i j mem ops, i <> j ->
     exists r1 rc r2, p94_run (fun _ => None) (pre ++ (Copy i j, mem) :: ops) = Some (r1 ++ (j, rc) :: r2) /\ length r1 = length pre /\
       (rc = Some (1, nil) ->
          (only_calls j (map fst ops) ->
             exists r3, p94_run (fun _ => None) (pre ++ map (fun c => (Do i c, mem)) (calls_on j (map fst ops))) = Some (r1 ++ r3) /\
               results_on j r2 = map snd r3) /\
          (only_calls i (map fst ops) ->
             exists r3, p94_run (fun _ => None) (pre ++ map (fun c => (Do i c, mem)) (calls_on i (map fst ops))) = Some (r1 ++ r3) /\
               results_on i r2 = map snd r3))).
Proof.
  assert (R : forall l, p94_run (fun _ => None) l = Some (v94_run (fun _ => None) l)) by (intros l; apply run94, start94).
  split; [intros l; eexists; apply R|]. intros pre i j mem ops N.
  set (T := v94_after (fun _ => None) pre). set (T' := snd (v94_step T (Copy i j, mem))).
  exists (v94_run (fun _ => None) pre), (fst (v94_step T (Copy i j, mem))), (v94_run T' ops). split; [|split; [apply v94_length|]].
  - rewrite R, v94_app. fold T. cbn [v94_run target fst]. unfold T'. destruct (v94_step T (Copy i j, mem)). reflexivity.
  - unfold T', v94_step. cbn [fst snd vstep]. destruct (Nat.eqb_spec i j) as [|_]; [contradiction|]. destruct (T i) as [v|] eqn:E; cbn [fst snd]; [|discriminate].
    intros _. split; intros F.
    + exists (v94_run T (map (fun c => (Do i c, mem)) (calls_on j (map fst ops)))). split; [rewrite R, v94_app; reflexivity|].
      rewrite (results94 j ops F _ v) by apply put_same. rewrite (own94 i mem _ T v E). reflexivity.
    + exists (v94_run T (map (fun c => (Do i c, mem)) (calls_on i (map fst ops)))). split; [rewrite R, v94_app; reflexivity|].
      rewrite (results94 i ops F _ v) by (rewrite put_other by exact N; exact E). rewrite (own94 i mem _ T v E). reflexivity.
Qed.
Print Assumptions C48_hash94_copies_independent.

(** * MGM *)
Section MgmDup.
Variable bl : nat.
Variable le : bool.
Variable Ek : list N -> list N -> list N.
Variable mul : list N -> list N -> list N.
Notation step := (pm_step bl le Ek mul).
Notation run := (pm_run bl le Ek mul).
(** Operations which leave all keys where they are. *)
Definition keeps_keys (o : mgm_op) : Prop :=
  match o with MDo _ _ | MGetTag _ _ | MInit _ None _ _ => True | _ => False end.
(** The operations a program does to context [j], done to [i] instead. *)
Definition retarget (i : nat) (o : mgm_op) : mgm_op :=
  match o with
  | MNew _ => MNew i | MInit _ k v e => MInit i k v e | MDo _ c => MDo i c | MGetTag _ n => MGetTag i n | MCopy s _ => MCopy s i | MFree _ => MFree i
  end.
Definition ops_on (i j : nat) (l : list mgm_op) : list mgm_op := map (retarget i) (filter (fun o => Nat.eqb (mtarget o) j) l).
Lemma do_mgm_key c k r d out : do_mgm bl le Ek mul c k = (r, d, out) -> x_key d = x_key c.
Proof.
  unfold do_mgm. destruct (negb (x_keyset c)); [intros E; injection E as _ <- _; reflexivity|]. destruct (negb (x_ivset c)); [intros E; injection E as _ <- _; reflexivity|].
  destruct k as [a|a|].
  - destruct (gost_mgm128_aad _ _ _ _ _) as [r' m]. intros E; injection E as _ <- _; reflexivity.
  - destruct ((if x_enc c then _ else _) bl _ mul _ a) as [[r' m] o]. intros E; injection E as _ <- _; reflexivity.
  - destruct (x_enc c).
    + destruct (gost_mgm128_tag _ _ _ _ _ _) as [m t]. intros E; injection E as _ <- _; reflexivity.
    + destruct (x_taglen c <? 0); [intros E; injection E as _ <- _; reflexivity|]. destruct (gost_mgm128_finish _ _ _ _ _ _) as [m q]. destruct (q =? 0); intros E; injection E as _ <- _; reflexivity.
Qed.
Definition key_at (T : nat -> option pmgm) (k : nat) : option (list N) := option_map (fun x => x_key (pm_ctx x)) (T k).
Lemma key_put T i x y : T i = Some x -> x_key (pm_ctx y) = x_key (pm_ctx x) -> forall k, key_at (put T i (Some y)) k = key_at T k.
Proof. intros E K k. unfold key_at, put. destruct (Nat.eqb_spec k i) as [->|]; [rewrite E; cbn; rewrite K|]; reflexivity. Qed.
Lemma step_keeps T o r T' : keeps_keys o -> step T o = Some (r, T') -> (forall k, key_at T' k = key_at T k) /\ (forall k, k <> mtarget o -> T' k = T k).
Proof.
  destruct o as [i|i key iv e|i c|i n|s t|i]; cbn [keeps_keys pm_step mtarget]; try contradiction.
  - destruct key as [k|]; [contradiction|]. intros _. destruct (T i) as [x|] eqn:E; intros H; injection H as <- <-; [|auto]. split; [|intros k N; apply put_other; exact N].
    apply (key_put T i x _ E). cbn [pm_ctx]. unfold mgm_init_evp. destruct iv as [v|]; [|reflexivity]. cbn. destruct (x_keyset (pm_ctx x)); reflexivity.
  - intros _. destruct (T i) as [x|] eqn:E; [|intros H; injection H as <- <-; auto]. destruct (pm_ptr x) as [j|].
    + destruct (T j) as [z|]; [|discriminate]. destruct (do_mgm bl le Ek mul _ c) as [[q y] out] eqn:D. intros H; injection H as <- <-.
      split; [|intros k N; apply put_other; exact N]. apply (key_put T i x _ E). reflexivity.
    + destruct (do_mgm bl le Ek mul (pm_ctx x) c) as [[q y] out] eqn:D. intros H; injection H as <- <-.
      split; [|intros k N; apply put_other; exact N]. apply (key_put T i x _ E). exact (do_mgm_key _ _ _ _ _ D).
  - intros _. destruct (T i); intros H; injection H as <- <-; auto.
Qed.
(** The same operation on equal contexts in tables with the same keys. *)
Lemma step_same TA TB i j o r TA' : keeps_keys o -> mtarget o = j -> TA j = TB i ->
  (forall x k, TA j = Some x -> pm_ptr x = Some k -> key_at TA k = key_at TB k) ->
  step TA o = Some (r, TA') -> exists TB', step TB (retarget i o) = Some (r, TB') /\ TA' j = TB' i /\ option_map pm_ptr (TA' j) = option_map pm_ptr (TA j).
Proof.
  intros Ko Ej E P. destruct o as [t|t key iv e|t c|t n|s t|t]; cbn [keeps_keys pm_step mtarget retarget] in *; try contradiction; subst t.
  - destruct key; [contradiction|]. rewrite <- E. destruct (TA j) as [x|] eqn:Ex; intros H; injection H as <- <-.
    + eexists. split; [reflexivity|]. rewrite !put_same. auto.
    + exists TB. split; [reflexivity|]. rewrite Ex, <- E. auto.
  - rewrite <- E. destruct (TA j) as [x|] eqn:Ex.
    + destruct (pm_ptr x) as [k|] eqn:Pk.
      * pose proof (P x k eq_refl Pk) as Pk'. unfold key_at in Pk'. destruct (TA k) as [z|]; [|discriminate]. destruct (TB k) as [z'|]; [|discriminate Pk'].
        cbn in Pk'. injection Pk' as Pk'. rewrite <- Pk'. destruct (do_mgm bl le Ek mul _ c) as [[q y] out]. intros H; injection H as <- <-.
        eexists. split; [reflexivity|]. rewrite !put_same. cbn. rewrite Pk. auto.
      * destruct (do_mgm bl le Ek mul _ c) as [[q y] out]. intros H; injection H as <- <-. eexists. split; [reflexivity|]. rewrite !put_same. cbn. rewrite Pk. auto.
    + intros H; injection H as <- <-. exists TB. split; [reflexivity|]. rewrite Ex, <- E. auto.
  - rewrite <- E. destruct (TA j) as [x|] eqn:Ex; intros H; injection H as <- <-; (exists TB; split; [reflexivity|]; rewrite Ex, <- E; auto).
Qed.
Lemma sim_run i j ops : forall TA TB r2, Forall keeps_keys ops -> TA j = TB i ->
  (forall x k, TA j = Some x -> pm_ptr x = Some k -> key_at TA k = key_at TB k) ->
  run TA ops = Some r2 -> exists r3, run TB (ops_on i j ops) = Some r3 /\ results_on j r2 = map snd r3.
Proof.
  induction ops as [|o ops IH]; intros TA TB r2 F E P; cbn [pm_run].
  - intros H; injection H as <-. exists nil. split; reflexivity.
  - inversion F as [|? ? Ko Fr]; subst. destruct (step TA o) as [[r TA']|] eqn:S; [|discriminate]. destruct (run TA' ops) as [rs|] eqn:R; [|discriminate].
    intros H; injection H as <-. destruct (step_keeps TA o r TA' Ko S) as [Kk Ko']. unfold ops_on, results_on. cbn [filter fst]. destruct (Nat.eqb_spec (mtarget o) j) as [Ej|N].
    + destruct (step_same TA TB i j o r TA' Ko Ej E P S) as (TB' & SB & E' & Pp). destruct (step_keeps TB (retarget i o) r TB') as [Kb _]; [|exact SB|].
      { destruct o as [t|t [key|] iv e|t c|t n|s t|t]; try contradiction; exact I. }
      destruct (IH TA' TB' rs Fr E') as (r3 & R3 & M3); [|exact R|].
      * intros x k Ex Pk. rewrite Kk, Kb. destruct (TA j) as [y|] eqn:Ey; [|rewrite Ex in Pp; discriminate Pp]. apply (P y k eq_refl). rewrite Ex in Pp. cbn in Pp. injection Pp as Pp. congruence.
      * exists ((mtarget (retarget i o), r) :: r3). cbn [map pm_run snd]. rewrite SB. unfold ops_on in R3. rewrite R3. split; [reflexivity|]. f_equal. exact M3.
    + assert (E1 : TA' j = TA j) by (apply Ko'; auto). destruct (IH TA' TB rs Fr) as (r3 & R3 & M3); [rewrite E1; exact E| |exact R|].
      * intros x k Ex Pk. rewrite Kk. rewrite E1 in Ex. exact (P x k Ex Pk).
      * exists r3. split; [exact R3|exact M3].
Qed.
Fixpoint mafter (T : nat -> option pmgm) (l : list mgm_op) : option (nat -> option pmgm) :=
  match l with nil => Some T | o :: l => match step T o with Some (_, T) => mafter T l | None => None end end.
Lemma run_app l1 : forall T l2 r, run T (l1 ++ l2) = Some r -> exists r1 T' r2, run T l1 = Some r1 /\ mafter T l1 = Some T' /\ run T' l2 = Some r2 /\ r = r1 ++ r2 /\ length r1 = length l1.
Proof.
  induction l1 as [|o l1 IH]; intros T l2 r; cbn [app pm_run mafter].
  - intros H. exists nil, T, r. auto.
  - destruct (step T o) as [[q T']|]; [|discriminate]. destruct (run T' (l1 ++ l2)) as [rs|] eqn:R; [|discriminate]. intros H; injection H as <-.
    destruct (IH T' l2 rs R) as (r1 & T2 & r2 & R1 & A & R2 & -> & L). exists ((mtarget o, q) :: r1), T2, r2. rewrite R1. repeat (split; [auto|]). cbn. rewrite L. reflexivity.
Qed.
Lemma run_join l1 : forall T l2 r1 T' r2, run T l1 = Some r1 -> mafter T l1 = Some T' -> run T' l2 = Some r2 -> run T (l1 ++ l2) = Some (r1 ++ r2).
Proof.
  induction l1 as [|o l1 IH]; intros T l2 r1 T' r2; cbn [app pm_run mafter].
  - intros H1 H2 H3. injection H1 as <-. injection H2 as <-. exact H3.
  - destruct (step T o) as [[q T2]|]; [|discriminate]. destruct (run T2 l1) as [rs|] eqn:R; [|discriminate]. intros H1 H2 H3. injection H1 as <-.
    rewrite (IH T2 l2 rs T' r2 R H2 H3). reflexivity.
Qed.
Definition unused (j : nat) (T : nat -> option pmgm) : Prop := T j = None /\ forall i x, T i = Some x -> pm_ptr x <> Some j.
Lemma unused_step j T o r T' : unused j T -> mtarget o <> j -> step T o = Some (r, T') -> unused j T'.
Proof.
  intros [A B] N.
  assert (G : forall i x, i <> j -> pm_ptr x <> Some j -> unused j (put T i (Some x))).
  { intros i x Ni P. split; [rewrite put_other by auto; exact A|]. intros k y. destruct (Nat.eq_dec k i) as [->|Nk]; [rewrite put_same; intros E; injection E as <-; exact P|rewrite put_other by exact Nk; apply B]. }
  destruct o as [i|i key iv e|i c|i n|s t|i]; cbn [pm_step mtarget] in *.
  - destruct (T i); intros H; injection H as <- <-; [split; assumption|]. apply G; [exact N|discriminate].
  - destruct (T i) as [x|] eqn:E; intros H; injection H as <- <-; [|split; assumption]. apply G; [exact N|]. cbn. destruct key; [congruence|exact (B i x E)].
  - destruct (T i) as [x|] eqn:E; [|intros H; injection H as <- <-; split; assumption]. destruct (pm_ptr x) as [k|] eqn:P.
    + destruct (T k); [|discriminate]. destruct (do_mgm bl le Ek mul _ c) as [[q y] out]. intros H; injection H as <- <-. apply G; [exact N|]. cbn. rewrite <- P. exact (B i x E).
    + destruct (do_mgm bl le Ek mul _ c) as [[q y] out]. intros H; injection H as <- <-. apply G; [exact N|]. discriminate.
  - destruct (T i); intros H; injection H as <- <-; split; assumption.
  - destruct (Nat.eqb s t); [intros H; injection H as <- <-; split; assumption|]. destruct (T s) as [x|] eqn:E; intros H; injection H as <- <-; [|split; assumption]. apply G; [exact N|exact (B s x E)].
  - destruct (T i) as [x|] eqn:E; intros H; injection H as <- <-; [|split; assumption]. split; [rewrite put_other by auto; exact A|].
    intros k y. destruct (Nat.eq_dec k i) as [->|Nk]; [rewrite put_same; discriminate|rewrite put_other by exact Nk; apply B].
Qed.
Lemma unused_after j l : forall T T', unused j T -> Forall (fun o => mtarget o <> j) l -> mafter T l = Some T' -> unused j T'.
Proof.
  induction l as [|o l IH]; intros T T' U F; cbn [mafter]; [intros H; injection H as <-; exact U|]. inversion F; subst.
  destruct (step T o) as [[q T2]|] eqn:S; [|discriminate]. apply IH; [|assumption]. eapply unused_step; eassumption.
Qed.
End MgmDup.
(** As long as no key is changed and no context freed, the copy of an MGM context (into a new context) answers as the original
    would have. *)
Theorem C48_mgm_copy_partial : forall bl le Ek mul pre i j ops rs,
  i <> j -> Forall (fun o => mtarget o <> j) pre -> Forall keeps_keys ops ->
  pm_run bl le Ek mul (fun _ => None) (pre ++ MCopy i j :: ops) = Some rs ->
  exists r1 rc r2, rs = r1 ++ (j, rc) :: r2 /\ length r1 = length pre /\
    (rc = Some (1, nil) ->
       exists r3, pm_run bl le Ek mul (fun _ => None) (pre ++ ops_on i j ops) = Some (r1 ++ r3) /\ results_on j r2 = map snd r3).
Proof.
  intros bl le Ek mul pre i j ops rs N Fp Fo R. destruct (run_app bl le Ek mul pre _ _ _ R) as (r1 & T & r2 & R1 & A & R2 & -> & L).
  assert (U : unused j T) by (apply (unused_after bl le Ek mul j pre (fun _ => None) T); [split; [reflexivity|intros k x E; discriminate E]|exact Fp|exact A]).
  cbn [pm_run pm_step] in R2. destruct (Nat.eqb_spec i j) as [|_]; [contradiction|]. cbn [mtarget] in R2. destruct (T i) as [x|] eqn:E.
  - destruct (pm_run bl le Ek mul (put T j (Some x)) ops) as [rs|] eqn:R3; [|discriminate]. injection R2 as <-. exists r1, (Some (1, nil)), rs.
    split; [reflexivity|]. split; [exact L|]. intros _.
    destruct (sim_run bl le Ek mul i j ops (put T j (Some x)) T rs Fo) as (r3 & Q & M); [rewrite put_same; auto| |exact R3|].
    + intros y k. rewrite put_same. intros Y P. injection Y as <-. unfold key_at. rewrite put_other; [reflexivity|]. intros ->. exact (proj2 U i x E P).
    + exists r3. split; [|exact M]. exact (run_join bl le Ek mul pre _ _ _ T _ R1 A Q).
  - destruct (pm_run bl le Ek mul T ops) as [rs|]; [|discriminate]. injection R2 as <-. exists r1, None, rs. split; [reflexivity|]. split; [exact L|]. discriminate.
Qed.
Print Assumptions C48_mgm_copy_partial.
(** But the copy works with the key schedule inside the original: changing the original's key changes the copy's (the copy
    encrypts under the new key), and when the original is freed the copy's next call reads freed memory. *)
Theorem C48_mgm_copy_shares_key_refuted : forall bl le Ek mul k1 k2 iv d,
  let make k := [MNew 0; MInit 0 (Some k) (Some iv) true] in
  pm_run bl le Ek mul (fun _ => None) (make k1 ++ [MCopy 0 1; MFree 0; MDo 1 (CallData d)]) = None /\
  exists r, pm_run bl le Ek mul (fun _ => None) (make k2 ++ [MDo 0 (CallData d)]) = Some [(0%nat, Some (1, nil)); (0%nat, Some (1, nil)); (0%nat, Some r)] /\
    pm_run bl le Ek mul (fun _ => None) (make k1 ++ [MCopy 0 1; MInit 0 (Some k2) (Some iv) true; MDo 1 (CallData d)]) =
      Some [(0%nat, Some (1, nil)); (0%nat, Some (1, nil)); (1%nat, Some (1, nil)); (0%nat, Some (1, nil)); (1%nat, Some r)].
Proof.
  intros bl le Ek mul k1 k2 iv d make. split; [reflexivity|]. unfold make. cbn [app pm_run pm_step put Nat.eqb pm_ptr pm_ctx mtarget].
  match goal with |- context [do_mgm bl le Ek mul ?c (CallData d)] => set (c0 := c) end.
  destruct (do_mgm bl le Ek mul c0 (CallData d)) as [[r y] out] eqn:D. exists (r, out). split; [reflexivity|].
  match goal with |- context [do_mgm bl le Ek mul ?c (CallData d)] => assert (c = c0) as -> by reflexivity end. rewrite D. reflexivity.
Qed.
Print Assumptions C48_mgm_copy_shares_key_refuted.

(** The copies of the theorems happen: a keyed context which has been fed is copied over another one, the original is freed and
    the copy finished. *)
Example C48_omac_example : forall (K : cbc_cipher) (hst : host) f k1 k2 d1 d2,
  exists tag : list N, run (omac_methods K hst) start
      ([New 0; Do 0 (OSetKey f 32 k1); Do 0 (OUpdate d1); New 1; Do 1 (OSetKey f 32 k2)] ++ Copy 0 1 :: [Free 0; Do 1 (OUpdate d2); Do 1 OFinal]) =
    Some (map (fun i => (i, Some (1, []))) [0; 0; 0; 1; 1]%nat ++ (1%nat, Some (1, [])) :: [(0%nat, Some (1, [])); (1%nat, Some (1, [])); (1%nat, Some (1, tag))]) /\
    tag = firstn (cc_bl K) (snd (CMAC_Final K (CMAC_Update K (CMAC_Update K (CMAC_Init K f (firstn 32 k1)) d1) d2))).
Proof.
  intros K hst f k1 k2 d1 d2. cbn [app run step omac_methods m_init m_call m_copy m_cleanup put Nat.eqb h_omac_call h_omac_key h_omac_copy h_omac_cleanup h_omac_init
    ho_ptr ho_set ho_size ho_key ho_named free alloc read write hp_next hp_cell ptr_eqb target start Z.eqb Pos.eqb orb].
  destruct (CMAC_Final K (CMAC_Update K (CMAC_Update K (CMAC_Init K f (firstn 32 k1)) d1) d2)) as [m mac].
  exists (firstn (cc_bl K) mac). split; reflexivity.
Qed.
Example C48_only_calls_example : only_calls (Call := call94) 1 [Free 0; Do 1 (Update94 [1%N]); New 2; Do 1 Final94] /\
  calls_on 1 [Free 0; Do 1 (Update94 [1%N]); New 2; Do 1 Final94] = [Update94 [1%N]; Final94].
Proof. split; [|reflexivity]. repeat constructor; cbn; intros H; try discriminate H; eexists; reflexivity. Qed.
