(** Property C36, Kuznyechik: the TLSTREE control call of kuznyechik-ctr and -ctr-acpkm. *)
From Coq Require Import String.
From Verif Require Import Bytes BytesProofs StreamMode CryptModel CryptProofs MagmaProofs KuzTables KuzSpec KuzModel KuzProofs
  KuzBlockProofs KuzCipherModel KuzCipherSpec KuzModeProofs PropKuzModes PropImit KdfModel PropKdf PropTls.
From Verif Require CryptSpec KdfSpec.
From Coq Require Import List Lia NArith.
Open Scope N_scope.
Opaque KdfSpec.tlstree gost_tlstree grasshopper_set_encrypt_key grasshopper_set_decrypt_key.

(** Running the calls of a record layer on a Kuznyechik context. *)
Fixpoint kuz_run (h : host) (doit : kctx -> list N -> kctx * list N) (c : kctx) (ops : list tls_op) : kctx :=
  match ops with
  | nil => c
  | Update d :: t => kuz_run h doit (fst (doit c d)) t
  | Tlstree a s :: t => kuz_run h doit (snd (kuz_ctl_tlstree h true c a s)) t
  end.

Definition khdr (c c' : kctx) : Prop := k_master c' = k_master c /\ k_oiv c' = k_oiv c.
Lemma khdr_trans a b c : khdr a b -> khdr b c -> khdr a c.
Proof. intros [H1 H2] [H3 H4]. split; congruence. Qed.
Lemma khdr_loop step bs bound : (forall c b, khdr c (fst (step c b))) ->
  forall f c inp, khdr c (fst (fst (block_loop step bs bound f c inp))).
Proof.
  intros Hs. induction f as [|f IH]; intros c inp; cbn [block_loop]; [split; reflexivity|].
  destruct (bound <=? length inp)%nat; [|split; reflexivity].
  pose proof (Hs c (firstn bs inp)) as H1. destruct (step c (firstn bs inp)) as [c1 o1]. cbn [fst] in H1.
  specialize (IH c1 (skipn bs inp)). destruct (block_loop step bs bound f c1 (skipn bs inp)) as [[c2 r2] o2]. cbn [fst] in *.
  eapply khdr_trans; eauto.
Qed.
Lemma khdr_apply c : khdr c (apply_acpkm_grasshopper c).
Proof. unfold apply_acpkm_grasshopper. destruct ((k_sect c =? 0) || (k_num c <? k_sect c)); split; reflexivity. Qed.
Lemma khdr_ctr c d : khdr c (fst (do_ctr c d)).
Proof.
  unfold do_ctr. destruct (ctr_partial16 _ _ d) as [[n r1] o1]. cbv zeta.
  pose proof (khdr_loop ctr_step 16 16 (fun c b => conj eq_refl eq_refl) (length r1) (kw_num c (N.of_nat n)) r1) as H.
  destruct (block_loop ctr_step 16 16 (length r1) (kw_num c (N.of_nat n)) r1) as [[c2 r2] o2]. cbn [fst] in H.
  destruct r2; cbn [fst]; [exact H|]. destruct H as [H1 H2]. split; [exact H1|exact H2].
Qed.
Lemma khdr_partial inp : forall c, khdr c (fst (fst (acpkm_partial c inp))).
Proof.
  induction inp as [|x t IH]; intro c; cbn [acpkm_partial]; [split; reflexivity|].
  destruct (N.land (k_num c) 15 =? 0); [split; reflexivity|].
  specialize (IH (kw_num c (w32 (k_num c + 1)))). destruct (acpkm_partial _ t) as [[c1 r1] o1]. cbn [fst] in *. exact IH.
Qed.
Lemma khdr_acpkm c d : khdr c (fst (do_ctracpkm c d)).
Proof.
  unfold do_ctracpkm. pose proof (khdr_partial d c) as H1. destruct (acpkm_partial c d) as [[c1 r1] o1]. cbn [fst] in H1.
  assert (HS : forall c b, khdr c (fst (acpkm_step c b))).
  { intros c0 b. unfold acpkm_step. cbv zeta. cbn [fst]. pose proof (khdr_apply c0) as [A B].
    set (c3 := apply_acpkm_grasshopper c0) in *. clearbody c3. split; [exact A|exact B]. }
  pose proof (khdr_loop acpkm_step 16 16 HS (length r1) c1 r1) as H2.
  destruct (block_loop acpkm_step 16 16 (length r1) c1 r1) as [[c2 r2] o2]. cbn [fst] in H2.
  pose proof (khdr_trans _ _ _ H1 H2) as H3.
  destruct r2 as [|x t]; cbn [fst]; [exact H3|]. cbv zeta. cbn [fst].
  pose proof (khdr_apply c2) as [A B]. set (c4 := apply_acpkm_grasshopper c2) in *. clearbody c4.
  destruct H3 as [H3 H4]. split; [exact (eq_trans A H3)|exact (eq_trans B H4)].
Qed.

Section Generic.
Variables (h : host) (doit : kctx -> list N -> kctx * list N) (rel : list N -> N -> kctx -> bst nat -> Prop)
  (nx : list N -> N -> nat -> nat * list N) (Psect : kctx -> Prop).
Hypothesis Hh : h_le h = true.
Hypothesis Hsim : forall k c0 c st d, kok k -> bytes d -> rel k c0 c st ->
  rel k c0 (fst (doit c d)) (fst (run_bytes nat (nx k c0) (fun s _ => s) true st d)) /\
  snd (doit c d) = snd (run_bytes nat (nx k c0) (fun s _ => s) true st d).
Hypothesis Hlen : forall k c0 c st, kok k -> rel k c0 c st ->
  length (k_ek c) = 10%nat /\ length (k_dk c) = 10%nat /\ length (k_iv c) = 16%nat /\ length (k_part c) = 16%nat /\ Psect c.
Hypothesis Hstart : forall c nk v, kok nk -> length v = 16%nat -> bytes v ->
  kkst nk c -> length (k_part c) = 16%nat -> Psect c -> k_num c = 0 -> k_iv c = v -> rel nk (be2n v) c (0%nat, nil, nil).
Hypothesis Hpkey : forall c v k, Psect c -> Psect (gost_grasshopper_cipher_key (kw_iv (kw_num c 0) v) k).
Hypothesis Hhdr : forall c d, khdr c (fst (doit c d)).
Hypothesis Hnx : forall k c0 i, kok k -> length (snd (nx k c0 i)) = 16%nat.

Definition kuz_tls (k iv : list N) (c : kctx) : Prop :=
  k_master c = k /\ firstn 8 (k_oiv c) = iv /\ exists k' ctr0 st, kok k' /\ rel k' ctr0 c st.

Lemma kuz_tlstree_step k iv c arg s : kok k -> length iv = 8%nat -> bytes iv -> seq8 s -> (arg = 0 \/ arg = 1)%Z ->
  kuz_tls k iv c ->
  let r := kuz_ctl_tlstree h true c arg s in
  let i := record_no arg s in
  let nk := KdfSpec.tlstree KdfSpec.TLS_KUZNYECHIK k i in
  fst r = 1%Z /\ kuz_tls k iv (snd r) /\ kok nk /\
  rel nk (be2n (n2be 8 (be2n iv + i) ++ zeros 8)) (snd r) (0%nat, nil, nil).
Proof.
  intros Hk Li Bi Hs Ha (M & O & k' & ctr0 & st & Kk' & R). cbv zeta. destruct Hk as [Lk Bk].
  destruct (dec_seq8 arg s Hs Ha) as (s' & Ed & [Ls' Bs'] & Ei).
  unfold kuz_ctl_tlstree. cbn [negb]. rewrite firstn_all2 by (destruct Hs; lia). rewrite Ed.
  rewrite M, (C35_tlstree_is_TLSTREE h NID_grasshopper_cbc k s') by auto. cbn [option_map suite_masks]. rewrite Ei.
  set (i := record_no arg s) in *. set (nk := KdfSpec.tlstree KdfSpec.TLS_KUZNYECHIK k i).
  assert (Kn : kok nk).
  { pose proof (C35_tlstree_is_TLSTREE h NID_grasshopper_cbc k s' Hh Lk Bk Ls' Bs') as T. cbn [option_map suite_masks] in T. rewrite Ei in T. fold nk in T.
    exact (tlstree_ok _ _ _ _ _ Bk T). }
  clearbody nk. cbv zeta. cbn [fst snd]. split; [reflexivity|].
  destruct (Hlen k' ctr0 c st Kk' R) as (L1 & L2 & L3 & L4 & PS).
  assert (Eiv : overwrite (k_iv c) 0 (adjust_iv (firstn 8 (k_oiv c)) s' ++ zeros 8) = n2be 8 (be2n iv + i) ++ zeros 8).
  { rewrite O, C36_iv_adjustment_is_addition by (auto; lia). rewrite Li, Ei. apply ow_all. rewrite app_length, n2be_length, zeros_length. lia. }
  rewrite Eiv. set (v := n2be 8 (be2n iv + i) ++ zeros 8) in *.
  assert (Lv : length v = 16%nat) by (unfold v; rewrite app_length, n2be_length; reflexivity).
  assert (Bv : bytes v) by (apply bytes_app; [apply n2be_bytes|apply bytes_zeros]). clearbody v.
  pose proof (kkst_key (kw_iv (kw_num c 0) v) nk L1 L2 Kn) as Kc.
  pose proof (Hpkey c v nk PS) as PS2.
  assert (E : let c' := gost_grasshopper_cipher_key (kw_iv (kw_num c 0) v) nk in
     k_part c' = k_part c /\ k_num c' = 0 /\ k_iv c' = v /\ k_master c' = k_master c /\ k_oiv c' = k_oiv c) by (cbv zeta; repeat split; reflexivity).
  set (c' := gost_grasshopper_cipher_key (kw_iv (kw_num c 0) v) nk) in *. clearbody c'. cbv zeta in E. destruct E as (E1 & E2 & E3 & E4 & E5).
  assert (R' : rel nk (be2n v) c' (0%nat, nil, nil)) by (apply Hstart; auto; rewrite E1; exact L4).
  split; [|split; [exact Kn|exact R']]. split; [congruence|]. split; [rewrite E5; exact O|]. exists nk, (be2n v), (0%nat, nil, nil). auto.
Qed.
Lemma kuz_tlstree_bad c arg s : (arg < 0 \/ 1 < arg)%Z -> bytes s -> kuz_ctl_tlstree h true c arg s = ((-1)%Z, c).
Proof.
  intros H B. unfold kuz_ctl_tlstree. cbn [negb].
  destruct (C36_sequence_decrement_is_exact (firstn 8 s) (bytes_firstn 8 s B)) as (_ & _ & E). rewrite E by exact H. reflexivity.
Qed.
Lemma kuz_run_inv k iv ops : kok k -> length iv = 8%nat -> bytes iv -> Forall op_ok ops ->
  forall c, kuz_tls k iv c -> kuz_tls k iv (kuz_run h doit c ops).
Proof.
  intros Hk Li Bi F. induction F as [|o ops Ho F IH]; intros c Hc; [exact Hc|].
  destruct o as [d|a s]; cbn [kuz_run]; apply IH.
  - destruct Hc as (M & O & k' & ctr0 & st & Kk' & R). destruct (Hhdr c d) as [H1 H2].
    split; [congruence|]. split; [rewrite H2; exact O|].
    destruct (Hsim k' ctr0 c st d Kk' Ho R) as [R' _]. eauto.
  - cbn [op_ok] in Ho. destruct (Z.eq_dec a 0) as [H0|H0]; [|destruct (Z.eq_dec a 1) as [H1|H1]].
    + apply (kuz_tlstree_step k iv c a s); auto.
    + apply (kuz_tlstree_step k iv c a s); auto.
    + destruct Ho as [_ Ho]. rewrite kuz_tlstree_bad by (auto; lia). exact Hc.
Qed.
Lemma kuz_after k iv c ops arg s chunks : kok k -> length iv = 8%nat -> bytes iv -> Forall op_ok ops -> Forall bytes chunks ->
  seq8 s -> (arg = 0 \/ arg = 1)%Z -> kuz_tls k iv c ->
  let r := kuz_ctl_tlstree h true (kuz_run h doit c ops) arg s in
  let i := record_no arg s in
  let nk := KdfSpec.tlstree KdfSpec.TLS_KUZNYECHIK k i in
  fst r = 1%Z /\
  kout doit (snd r) chunks = stream nat (nx nk (be2n (n2be 8 (be2n iv + i) ++ zeros 8))) (fun s _ => s) 16 true 0%nat (concat chunks).
Proof.
  intros Hk Li Bi F Hy Hs Ha I0. cbv zeta.
  pose proof (kuz_run_inv k iv ops Hk Li Bi F c I0) as I1.
  destruct (kuz_tlstree_step k iv _ arg s Hk Li Bi Hs Ha I1) as (E1 & _ & Kn & R). cbv zeta in E1, Kn, R.
  split; [exact E1|]. set (nk := KdfSpec.tlstree KdfSpec.TLS_KUZNYECHIK k (record_no arg s)) in *.
  destruct (run_chunks_bytes_P _ _ _ kctx _ doit bytes true (fun c st d Hd Hr => Hsim nk _ c st d Kn Hd Hr) chunks _ _ Hy R) as [_ O].
  unfold kout. rewrite O. apply run_bytes_stream with (good := fun s => True); auto; lia.
Qed.
End Generic.

(** ** C36: Kuznyechik *)
(** As for Magma: after any history of updates and TLSTREE calls the next record is encrypted under
    TLSTREE([k], [i]) with the IV [iv] + [i] (64-bit big-endian addition). *)
Theorem C36_kuznyechik_ctr_tlstree :
  forall h c k iv enc ops arg s chunks,
    h_le h = true -> kctx_ok c -> skipn 8 (k_iv c) = zeros 8 -> kuz_key k -> kuz_iv 8 iv ->
    Forall op_ok ops -> Forall bytes chunks -> seq8 s -> (arg = 0 \/ arg = 1)%Z ->
    let r := kuz_ctl_tlstree h true (kuz_run h do_ctr (init_ctr c (Some k) (Some iv) enc) ops) arg s in
    let i := record_no arg s in
    fst r = 1%Z /\
    kout do_ctr (snd r) chunks = kuz_ctr 0 (KdfSpec.tlstree KdfSpec.TLS_KUZNYECHIK k i) (n2be 8 (be2n iv + i)) (concat chunks).
Proof.
  intros h c k iv enc ops arg s chunks Hh Hc Hz Hk Hi F Hy Hs Ha. cbv zeta. unfold kuz_ctr.
  apply (kuz_after h do_ctr rel_ctr16 (fun k c0 => CryptSpec.ctr_next E_ 16 (CryptSpec.section_no 16 0) k c0) (fun _ => True)); auto; try apply Hi.
  - intros k1 c1 c2 st d _ Hd Hr. exact (ctr_sim16 k1 c1 c2 st d Hd Hr).
  - intros k1 c1 c2 [[i ks] fed] _ [[K [V P]] _]. destruct (kkst_len _ _ K) as [L1 L2].
    split; [exact L1|]. split; [exact L2|]. split; [rewrite V; apply n2be_length|]. auto.
  - intros c1 nk v Kn Lv Bv K P _ N0 V. split; [|left; auto]. split; [exact K|]. split; [|exact P].
    change (N.of_nat 0) with 0. rewrite N.add_0_r, n2be_be2n; auto.
  - intros c1 d. apply khdr_ctr.
  - intros k1 c1 i Hk1. apply ctr_len16. exact Hk1.
  - unfold init_ctr. set (c0 := kw_part (kw_num c 0) (zeros 16)).
    assert (Hc0 : kctx_ok c0) by (destruct Hc as (H1 & H2 & H3 & H4 & H5 & H6 & H7); unfold kctx_ok; repeat (split; [assumption|]); reflexivity).
    destruct (init8 c0 k iv enc Hc0 Hk Hi) as (K & I & E & P & Nn & Se).
    pose proof (init_keeps 8 c0 k iv enc) as (_ & KO & _).
    assert (KM : k_master (gost_grasshopper_cipher_init 8 c0 (Some k) (Some iv) enc) = sub 0 32 k) by reflexivity.
    set (c1 := gost_grasshopper_cipher_init 8 c0 (Some k) (Some iv) enc) in *. clearbody c1.
    destruct Hk as [Lk Bk]. destruct Hi as [Li Bi].
    split; [rewrite KM; unfold sub; cbn [skipn]; apply firstn_all2; lia|].
    split; [rewrite KO, (firstn_all2 iv) by lia; unfold overwrite; rewrite firstn_O; cbn [app]; apply firstn_app_exact; exact Li|].
    exists k, (be2n (iv ++ zeros 8)), (0%nat, nil, nil). split; [split; auto|].
    split; [|left; rewrite Nn; auto]. split; [exact K|]. split; [rewrite I; exact (ctr_iv16 c iv (conj Li Bi) Hz)|]. rewrite P. reflexivity.
Qed.
Theorem C36_kuznyechik_ctr_acpkm_tlstree :
  forall h c sect k iv enc ops arg s chunks,
    h_le h = true -> kctx_ok c -> skipn 8 (k_iv c) = zeros 8 -> kuz_key k -> kuz_iv 8 iv -> sect_arg_ok sect ->
    Forall op_ok ops -> Forall bytes chunks -> seq8 s -> (arg = 0 \/ arg = 1)%Z ->
    let r := kuz_ctl_tlstree h true (kuz_run h do_ctracpkm (acpkm_start c sect k iv enc) ops) arg s in
    let i := record_no arg s in
    fst r = 1%Z /\
    kout do_ctracpkm (snd r) chunks =
      kuz_ctr (acpkm_section sect) (KdfSpec.tlstree KdfSpec.TLS_KUZNYECHIK k i) (n2be 8 (be2n iv + i)) (concat chunks).
Proof.
  intros h c sect k iv enc ops arg s chunks Hh Hc Hz Hk Hi Hse F Hy Hs Ha. cbv zeta. unfold kuz_ctr.
  destruct (acpkm_start_rel c sect k iv enc Hc Hz Hk Hi Hse) as (S1 & S2 & S3 & R0).
  set (sz := acpkm_section sect) in *.
  assert (Hkey0 : forall k0, CryptSpec.acpkm_key E_ 16 k0 (CryptSpec.section_no 16 sz (0 - 1)) = k0).
  { intro k0. unfold CryptSpec.section_no. destruct (N.eqb_spec sz 0); [reflexivity|]. change (N.of_nat (0 - 1)) with 0.
    rewrite N.mul_0_r, N.div_0_l by auto. reflexivity. }
  apply (kuz_after h do_ctracpkm (rel_ac sz) (fun k c0 => CryptSpec.ctr_next E_ 16 (CryptSpec.section_no 16 sz) k c0) (fun c => k_sect c = sz)); auto; try apply Hi.
  - intros k1 c1 c2 st d Hk1 Hd Hr. exact (acpkm_sim sz k1 c1 S1 S2 S3 Hk1 c2 st d Hd Hr).
  - intros k1 c1 c2 [[i ks] fed] _ [[K [Sz [V P]]] _]. destruct (kkst_len _ _ K) as [L1 L2].
    split; [exact L1|]. split; [exact L2|]. split; [rewrite V; apply n2be_length|]. auto.
  - intros c1 nk v Kn Lv Bv K P Sz N0 V. split; [|left; split; [exact N0|auto]]. split; [rewrite Hkey0; exact K|]. split; [exact Sz|]. split; [|exact P].
    change (N.of_nat 0) with 0. rewrite N.add_0_r, n2be_be2n; auto.
  - intros c1 d. apply khdr_acpkm.
  - intros k1 c1 i Hk1. apply ctr_len16. exact Hk1.
  - assert (KM : k_master (acpkm_start c sect k iv enc) = sub 0 32 k /\ k_oiv (acpkm_start c sect k iv enc) = overwrite (k_oiv c) 0 (firstn 8 iv)).
    { clear R0. unfold acpkm_start, init_ctracpkm.
      pose proof (init_keeps 8 (kw_sect (kw_num c 0) 4096) k iv enc) as (_ & KO & _).
      assert (KM : k_master (gost_grasshopper_cipher_init 8 (kw_sect (kw_num c 0) 4096) (Some k) (Some iv) enc) = sub 0 32 k) by reflexivity.
      set (c1 := gost_grasshopper_cipher_init 8 (kw_sect (kw_num c 0) 4096) (Some k) (Some iv) enc) in *. clearbody c1. cbv zeta.
      destruct sect as [n|]; [|split; auto]. unfold kuz_ctl_key_mesh. destruct ((n =? 0)%Z || negb (Z.rem n 16 =? 0)%Z); split; auto. }
    destruct KM as [KM KO]. destruct Hk as [Lk Bk]. destruct Hi as [Li Bi].
    split; [rewrite KM; unfold sub; cbn [skipn]; apply firstn_all2; lia|].
    split; [rewrite KO, (firstn_all2 iv) by lia; unfold overwrite; rewrite firstn_O; cbn [app]; apply firstn_app_exact; exact Li|].
    exists k, (be2n (iv ++ zeros 8)), (0%nat, nil, nil). split; [split; auto|exact R0].
Qed.
Theorem C36_kuznyechik_tlstree_refuses :
  forall h c arg s, bytes s ->
    kuz_ctl_tlstree h false c arg s = ((-1)%Z, c) /\
    ((arg < 0 \/ 1 < arg)%Z -> kuz_ctl_tlstree h true c arg s = ((-1)%Z, c)).
Proof. intros h c arg s B. split; [reflexivity|]. intro H. apply kuz_tlstree_bad; auto. Qed.
(** The hypotheses hold of the context just allocated and a two-record history with a carry into the IV. *)
Example C36_tlstree_example :
  kctx_ok kctx0 /\ skipn 8 (k_iv kctx0) = zeros 8 /\ kuz_key (hex "ffeeddccbbaa99887766554433221100f0f1f2f3f4f5f6f7f8f9fafbfcfdfeff") /\
  kuz_iv 8 (hex "00000000ffffffff") /\
  Forall op_ok [Update (hex "0102030405"); Tlstree 1 (hex "0000000000000000"); Update (repeat 7 40)] /\
  seq8 (hex "0000000000000040") /\ record_no 1 (hex "0000000000000040") = 63 /\
  n2be 8 (be2n (hex "00000000ffffffff") + 63) = hex "000000010000003e".
Proof.
  split; [apply kctx0_ok|]. repeat split; try (apply bytes_forallb; reflexivity); try reflexivity.
  repeat (constructor; [first [apply bytes_forallb; reflexivity|split; [reflexivity|apply bytes_forallb; reflexivity]]|]). constructor.
Qed.
Print Assumptions C36_kuznyechik_ctr_acpkm_tlstree.
