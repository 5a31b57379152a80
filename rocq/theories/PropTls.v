(** Property C36 (complete): the TLSTREE control call of the CTR ciphers. *)
From Coq Require Import String.
From Verif Require Import Bytes BytesProofs Gost89Model Gost89Sboxes Gost89Spec Gost89Proofs Gost89SpecProofs StreamMode
  CryptModel CryptSpec CryptProofs MagmaProofs PropGost89 PropCrypt PropCrypt2 PropImit KdfModel PropKdf.
From Verif Require KdfSpec.
From Coq Require Import List Lia NArith.
Open Scope N_scope.
Opaque KdfSpec.tlstree gost_tlstree.

(** The calls a TLS record layer makes on a cipher context. *)
Inductive tls_op := Update (data : list N) | Tlstree (arg : Z) (seq : list N).
(** An 8-byte record number. *)
Definition seq8 (s : list N) : Prop := length s = 8%nat /\ bytes s.
Definition op_ok (o : tls_op) : Prop := match o with Update d => bytes d | Tlstree a s => seq8 s end.
(** The record number in force: the one given, or its predecessor when [arg] is 1. *)
Definition record_no (arg : Z) (seq : list N) : N := if (arg =? 1)%Z then (be2n seq + (2 ^ 64 - 1)) mod 2 ^ 64 else be2n seq.

Section Magma.
Variables (h : host) (acpkm : bool) (mesh : option N).
(** Running the calls on a Magma CTR context. *)
Fixpoint magma_run (c : evp) (ops : list tls_op) : evp :=
  match ops with
  | nil => c
  | Update d :: t => magma_run (fst (magma_cipher_do_ctr c d)) t
  | Tlstree a s :: t => magma_run (snd (magma_ctl_tlstree h true c a s)) t
  end.
End Magma.

Lemma dec_seq8 arg s : seq8 s -> (arg = 0 \/ arg = 1)%Z ->
  exists s', decrement_sequence s arg = Some s' /\ seq8 s' /\ be2n s' = record_no arg s.
Proof.
  intros [L B] H. destruct (C36_sequence_decrement_is_exact s B) as (E0 & E1 & _). rewrite L in E1.
  destruct H as [-> | ->].
  - exists s. split; [exact E0|]. split; [split; auto|reflexivity].
  - eexists. split; [exact E1|]. split; [split; [apply n2be_length|apply n2be_bytes]|].
    rewrite be2n_n2be. unfold record_no. cbn [Z.eqb]. reflexivity.
Qed.
Lemma be2n_skip4 s : seq8 s -> be2n (skipn 4 s) = be2n s mod 2 ^ 32.
Proof.
  intros [L B]. rewrite <- (firstn_skipn 4 s) at 2. unfold be2n. rewrite rev_app_distr, le2n_app, rev_length, skipn_length, L.
  change (256 ^ N.of_nat (8 - 4)) with (2 ^ 32).
  rewrite N.mul_comm, N.mod_add by discriminate. symmetry. apply N.mod_small.
  pose proof (be2n_lt (skipn 4 s) (bytes_skipn 4 s B)) as U. rewrite skipn_length, L in U. exact U.
Qed.

(** The invariant of a Magma CTR context initialised with key [k] and IV [iv]. *)
Definition magma_tls (sect : N) (k iv : list N) (c : evp) : Prop :=
  g_master (e_g c) = k /\ firstn 4 (e_oiv c) = iv /\
  exists k' ctr0 st, rel_ctr Gost28147_TC26ParamSetZ sect k' ctr0 c st.

Definition same_hdr (c c' : evp) : Prop := g_master (e_g c') = g_master (e_g c) /\ e_oiv c' = e_oiv c.
Lemma hdr_trans a b c : same_hdr a b -> same_hdr b c -> same_hdr a c.
Proof. intros [H1 H2] [H3 H4]. split; congruence. Qed.
Lemma hdr_block c : same_hdr c (magma_ctr_block c).
Proof.
  unfold magma_ctr_block, apply_acpkm_magma. cbv zeta. destruct ((e_mesh c =? 0) || (e_num c <? e_mesh c)); split; reflexivity.
Qed.
Lemma hdr_partial inp : forall c, same_hdr c (fst (fst (magma_ctr_partial c inp))).
Proof.
  induction inp as [|x t IH]; intro c; cbn [magma_ctr_partial]; [split; reflexivity|].
  destruct (N.land (e_num c) 7 =? 0); [split; reflexivity|].
  specialize (IH (with_num c (w32 (e_num c + 1)))). destruct (magma_ctr_partial _ t) as [[c1 r1] o1]. cbn [fst] in *.
  eapply hdr_trans; [|exact IH]. split; reflexivity.
Qed.
Lemma hdr_blocks f : forall c inp, same_hdr c (fst (fst (magma_ctr_blocks f c inp))).
Proof.
  induction f as [|f IH]; intros c inp; cbn [magma_ctr_blocks]; [split; reflexivity|].
  destruct (8 <=? length inp)%nat; [|split; reflexivity]. pose proof (hdr_block c) as Hb.
  set (c1 := magma_ctr_block c) in *. clearbody c1. cbv zeta.
  specialize (IH (with_num c1 (w32 (e_num c1 + 8))) (skipn 8 inp)). destruct (magma_ctr_blocks f _ _) as [[c2 r2] o2]. cbn [fst] in *.
  eapply hdr_trans; [exact Hb|]. eapply hdr_trans; [|exact IH]. split; reflexivity.
Qed.
Lemma hdr_ctr c d : same_hdr c (fst (magma_cipher_do_ctr c d)).
Proof.
  unfold magma_cipher_do_ctr. pose proof (hdr_partial d c) as H1. destruct (magma_ctr_partial c d) as [[c1 r1] o1]. cbn [fst] in H1.
  pose proof (hdr_blocks (length r1) c1 r1) as H2. destruct (magma_ctr_blocks (length r1) c1 r1) as [[c2 r2] o2]. cbn [fst] in H2.
  destruct r2; cbn [fst]; [eapply hdr_trans; eauto|]. cbv zeta. cbn [fst].
  eapply hdr_trans; [exact H1|]. eapply hdr_trans; [exact H2|]. eapply hdr_trans; [apply hdr_block|]. split; reflexivity.
Qed.

(** One TLSTREE call on a context with the invariant. *)
Lemma magma_tlstree_step h sect k iv c arg s : h_le h = true -> sect mod 8 = 0 -> sect < 2 ^ 32 ->
  length k = 32%nat -> bytes k -> length iv = 4%nat -> bytes iv -> seq8 s -> (arg = 0 \/ arg = 1)%Z ->
  magma_tls sect k iv c ->
  let r := magma_ctl_tlstree h true c arg s in
  let i := record_no arg s in
  fst r = 1%Z /\ magma_tls sect k iv (snd r) /\
  rel_ctr Gost28147_TC26ParamSetZ sect (KdfSpec.tlstree KdfSpec.TLS_MAGMA k i)
    (be2n (n2be 4 (be2n iv + i) ++ zeros 4)) (snd r) (0%nat, nil, nil).
Proof.
  intros Hh S8 S32 Lk Bk Li Bi Hs Ha (M & O & k' & ctr0 & [[j ks] fed] & [MB NM]). cbv zeta.
  destruct (dec_seq8 arg s Hs Ha) as (s' & Ed & [Ls' Bs'] & Ei).
  unfold magma_ctl_tlstree. cbn [negb]. rewrite firstn_all2 by (destruct Hs; lia). rewrite Ed.
  rewrite M, (C35_tlstree_is_TLSTREE h NID_magma_cbc k s') by auto. cbn [option_map suite_masks]. rewrite Ei.
  set (i := record_no arg s) in *. set (nk := KdfSpec.tlstree KdfSpec.TLS_MAGMA k i).
  assert (Bn : bytes nk).
  { pose proof (C35_tlstree_is_TLSTREE h NID_magma_cbc k s' Hh Lk Bk Ls' Bs') as T. cbn [option_map suite_masks] in T. rewrite Ei in T. fold nk in T.
    exact (proj2 (tlstree_ok _ _ _ _ _ Bk T)). }
  clearbody nk. cbv zeta. cbn [fst snd]. split; [reflexivity|].
  assert (Eiv : overwrite (e_iv c) 0 (adjust_iv (firstn 4 (e_oiv c)) (skipn 4 s') ++ zeros 4) = n2be 4 (be2n iv + i) ++ zeros 4).
  { assert (Lv : length (e_iv c) = 8%nat) by (rewrite (m_iv _ _ _ _ _ _ MB); apply n2be_length).
    rewrite O, C36_iv_adjustment_is_addition; auto; [|rewrite skipn_length; lia|apply bytes_skipn; auto].
    rewrite Li, be2n_skip4, Ei by (split; auto).
    assert (Em : n2be 4 (be2n iv + i mod 2 ^ 32) = n2be 4 (be2n iv + i)).
    { unfold n2be. f_equal. rewrite <- n2le_mod. rewrite <- (n2le_mod 4 (be2n iv + i)). f_equal.
      change (256 ^ N.of_nat 4) with (2 ^ 32). rewrite N.add_mod_idemp_r by discriminate. reflexivity. }
    rewrite Em. unfold overwrite. rewrite firstn_O. cbn [app Nat.add].
    rewrite skipn_all2; [apply app_nil_r|]. rewrite app_length, n2be_length, zeros_length. lia. }
  rewrite Eiv. set (v := n2be 4 (be2n iv + i) ++ zeros 4) in *.
  assert (Lv : length v = 8%nat) by (unfold v; rewrite app_length, n2be_length; reflexivity).
  assert (Bv : bytes v) by (apply bytes_app; [apply n2be_bytes|apply bytes_zeros]). clearbody v.
  destruct (m_key _ _ _ _ _ _ MB) as (Hsb & Ht & _ & Hr).
  pose proof (mst_magma_key _ nk (e_g c) Hsb Ht Hr Bn) as Hk.
  assert (Hm : g_master (magma_key (e_g c) nk) = k) by exact M.
  pose proof (m_mesh _ _ _ _ _ _ MB) as Mm. pose proof (m_buf _ _ _ _ _ _ MB) as Mb.
  change (magma_key (e_g (with_iv (with_num c 0) v)) nk) with (magma_key (e_g c) nk).
  set (g' := magma_key (e_g c) nk) in *. clearbody g'.
  assert (R : rel_ctr Gost28147_TC26ParamSetZ sect nk (be2n v) (with_g (with_iv (with_num c 0) v) g') (0%nat, nil, nil)).
  { assert (E : section_no 8 sect 0 = 0%nat).
    { unfold section_no. destruct (N.eqb_spec sect 0); [reflexivity|]. rewrite N.mul_0_r, N.div_0_l by auto. reflexivity. }
    split; [|left; split; [split; reflexivity|split; reflexivity]].
    constructor; cbn [with_g with_iv with_num e_g e_mesh e_iv e_buf e_num]; auto; [|symmetry|reflexivity].
    - change (0 - 1)%nat with 0%nat. rewrite E. exact Hk.
    - change (N.of_nat 0) with 0. rewrite N.add_0_r. apply n2be_be2n; auto. }
  split; [|exact R]. split; [exact Hm|]. split; [exact O|]. exists nk, (be2n v), (0%nat, nil, nil). exact R.
Qed.
Lemma magma_tlstree_bad h c arg s : (arg < 0 \/ 1 < arg)%Z -> bytes s -> magma_ctl_tlstree h true c arg s = ((-1)%Z, c).
Proof.
  intros H B. unfold magma_ctl_tlstree. cbn [negb].
  destruct (C36_sequence_decrement_is_exact (firstn 8 s) (bytes_firstn 8 s B)) as (_ & _ & E). rewrite E by exact H. reflexivity.
Qed.
Lemma magma_run_inv h sect k iv ops : h_le h = true -> sect mod 8 = 0 -> sect < 2 ^ 32 ->
  length k = 32%nat -> bytes k -> length iv = 4%nat -> bytes iv -> Forall op_ok ops ->
  forall c, magma_tls sect k iv c -> magma_tls sect k iv (magma_run h c ops).
Proof.
  intros Hh S8 S32 Lk Bk Li Bi F. induction F as [|o ops Ho F IH]; intros c Hc; [exact Hc|].
  destruct o as [d|a s]; cbn [magma_run]; apply IH.
  - destruct Hc as (M & O & k' & ctr0 & st & R). destruct (hdr_ctr c d) as [H1 H2].
    split; [congruence|]. split; [rewrite H2; exact O|].
    destruct (ctr_sim Gost28147_TC26ParamSetZ sect k' ctr0 S8 S32 c st d R) as [R' _]. eauto.
  - cbn [op_ok] in Ho. destruct (Z.eq_dec a 0) as [H0|H0]; [|destruct (Z.eq_dec a 1) as [H1|H1]].
    + apply (magma_tlstree_step h sect k iv c a s); auto.
    + apply (magma_tlstree_step h sect k iv c a s); auto.
    + destruct Ho as [_ Ho]. rewrite magma_tlstree_bad by (auto; lia). exact Hc.
Qed.

(** ** C36: Magma *)
(** After any history of updates and TLSTREE calls on a context initialised with key [k] and IV
    [iv], a TLSTREE call with the record number [i] succeeds, and what is then encrypted, in any chunks, is
    the CTR encryption under TLSTREE([k], [i]) with the IV [iv] + [i] (32-bit big-endian addition). *)
Theorem C36_magma_tlstree :
  forall h acpkm mesh g k iv enc ops arg s chunks,
    h_le h = true -> rng_ok (g_rng g) -> length k = 32%nat -> bytes k -> length iv = 4%nat -> bytes iv ->
    section_size acpkm mesh mod 8 = 0 -> section_size acpkm mesh < 2 ^ 32 ->
    Forall op_ok ops -> seq8 s -> (arg = 0 \/ arg = 1)%Z ->
    let c := magma_run h (ctr_start acpkm mesh g k iv enc) ops in
    let r := magma_ctl_tlstree h true c arg s in
    let i := record_no arg s in
    fst r = 1%Z /\
    out_of magma_cipher_do_ctr (snd r) chunks =
      magma_ctr SZ (section_size acpkm mesh) (KdfSpec.tlstree KdfSpec.TLS_MAGMA k i) (n2be 4 (be2n iv + i)) (concat chunks).
Proof.
  intros h acpkm mesh g k iv enc ops arg s chunks Hh Hr Lk Bk Li Bi S8 S32 F Hs Ha. cbv zeta.
  assert (I0 : magma_tls (section_size acpkm mesh) k iv (ctr_start acpkm mesh g k iv enc)).
  { pose proof (ctr_start_rel acpkm mesh g k iv enc Hr Bk Li Bi) as R.
    split; [|split; [|eauto]].
    - clear R. destruct mesh; cbn [ctr_start]; cbv zeta; apply firstn_all2; lia.
    - clear R. destruct mesh; do 5 (destruct iv as [|? iv]; try discriminate Li); reflexivity. }
  pose proof (magma_run_inv h _ k iv ops Hh S8 S32 Lk Bk Li Bi F _ I0) as I1.
  destruct (magma_tlstree_step h _ k iv _ arg s Hh S8 S32 Lk Bk Li Bi Hs Ha I1) as (E1 & _ & R). cbv zeta in E1, R.
  split; [exact E1|].
  destruct (run_chunks_bytes _ _ _ _ _ magma_cipher_do_ctr true
    (ctr_sim Gost28147_TC26ParamSetZ (section_size acpkm mesh) _ _ S8 S32) chunks _ _ R) as [_ E].
  unfold out_of, PropCrypt.run. rewrite E. unfold magma_ctr.
  apply run_bytes_stream with (good := fun _ => True); auto; try lia; intros s0 _; apply ctr_next_len.
Qed.
(** Other values of [arg] and other modes are refused, without effect. *)
Theorem C36_magma_tlstree_refuses :
  forall h c arg s, bytes s ->
    magma_ctl_tlstree h false c arg s = ((-1)%Z, c) /\
    ((arg < 0 \/ 1 < arg)%Z -> magma_ctl_tlstree h true c arg s = ((-1)%Z, c)).
Proof. intros h c arg s B. split; [reflexivity|]. intro H. apply magma_tlstree_bad; auto. Qed.
(** The hypotheses hold of a two-record history; the IV addition drops the carry out of 32 bits. *)
Example C36_magma_tlstree_example :
  rng_ok (g_rng ctx0) /\ section_size false None mod 8 = 0 /\ section_size true None < 2 ^ 32 /\
  Forall op_ok [Update (hex "0102030405"); Tlstree 1 (hex "0000000000000000"); Update (repeat 7 40)] /\
  seq8 (hex "0000000000001000") /\ record_no 1 (hex "0000000000000000") = 2 ^ 64 - 1 /\
  n2be 4 (be2n (hex "ffffffff") + 4096) = hex "00000fff".
Proof.
  split; [apply ctx0_rng_ok|]. repeat split; try (apply bytes_forallb; reflexivity); try reflexivity.
  repeat (constructor; [first [apply bytes_forallb; reflexivity|split; [reflexivity|apply bytes_forallb; reflexivity]]|]). constructor.
Qed.
Print Assumptions C36_magma_tlstree.
