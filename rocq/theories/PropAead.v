(** Property C52: the authenticated ciphers magma-ctr-acpkm-omac and kuznyechik-ctr-acpkm-omac. *)
From Coq Require Import String.
From Verif Require Import Bytes BytesProofs Gost89Model Gost89Sboxes Gost89Spec Gost89Proofs Gost89SpecProofs
  Gost89ModeProofs StreamMode CryptModel CryptSpec CryptProofs MagmaProofs PropGost89 PropCrypt PropCrypt2
  KuzTables KuzSpec KuzModel KuzProofs KuzBlockProofs KuzCipherModel KuzCipherSpec KuzModeProofs PropKuzModes
  KdfModel KdfSpec KdfProofs OmacModel OmacSpec OmacProofs EcModel CmsParamsModel KeywrapSpec PropOmac PropKdf PropCms
  AeadModel AeadSpec AeadProofs.
From Coq Require Import List Lia NArith ZArith Bool.
Import ListNotations.
Open Scope N_scope.

(** * The derived keys *)
Lemma kdf_tree_2 k s : bytes k -> bytes s -> length (kdf_tree 2 k (ascii_bytes "kdf tree") s 1) = 64%nat /\ bytes (kdf_tree 2 k (ascii_bytes "kdf tree") s 1).
Proof.
  intros Bk Bs. unfold kdf_tree. cbn [seq map concat].
  assert (Bm : forall x, bytes (n2be 1 x ++ ascii_bytes "kdf tree" ++ [0] ++ s ++ min_be (256 * N.of_nat 2))).
  { intro x. apply bytes_app; [apply n2be_bytes|]. apply bytes_app; [apply bytes_forallb; reflexivity|].
    apply bytes_app; [apply bytes_forallb; reflexivity|]. apply bytes_app; [exact Bs|apply n2be_bytes]. }
  pose proof (hmac256_ok k _ Bk (Bm (N.of_nat 1))) as A. pose proof (hmac256_ok k _ Bk (Bm (N.of_nat 2))) as B.
  set (a := hmac256 k _) in *. set (b := hmac256 k (n2be 1 (N.of_nat 2) ++ _)) in *.
  clearbody a b. destruct A, B. rewrite app_nil_r, app_length. split; [lia|apply bytes_app; auto].
Qed.
Lemma keys_ok k s : bytes k -> bytes s -> blkn 32 (key_enc k s) /\ blkn 32 (key_mac k s).
Proof.
  intros Bk Bs. unfold key_enc, key_mac. pose proof (kdf_tree_2 k s Bk Bs) as A. set (t := kdf_tree 2 k _ s 1) in *.
  clearbody t. destruct A as [L B]. split; split.
  - rewrite firstn_length. lia.
  - apply bytes_firstn; auto.
  - rewrite skipn_length. lia.
  - apply bytes_skipn; auto.
Qed.

Lemma t3_inj {A B C} (a a' : A) (b b' : B) (c c' : C) : (a, b, c) = (a', b', c') -> a' = a.
Proof. congruence. Qed.
(** * magma-ctr-acpkm-omac *)
(** The optional EVP_CTRL_KEY_MESH call after the init (gost_crypt.c:1267-1282, reached from 1364). *)
Definition magma_mesh (mesh : option N) (a : aead magma_suite) : aead magma_suite :=
  match mesh with
  | None => a
  | Some n => mk_aead (S := magma_suite) (mk_cctx (snd (ctl_key_mesh (x_evp (ae_x a)) n)) (x_param (ae_x a)) (x_seed (ae_x a))) (ae_omac a) (ae_tag a)
  end.
(** A new context after the init without a key that selects the cipher; the seed is [seed0] (zero unless parameters have been
    read, see below), the tag buffer [tag]. *)
Definition magma_new h fresh rnd0 g seed0 tag enc : aead magma_suite :=
  snd (ae_init magma_suite h fresh None rnd0 (mk_aead (S := magma_suite) (mk_cctx (fresh_evp g) None seed0) None tag) None None enc).
Lemma magma_run_evp chunks : forall x, snd (run_chunks cctx (su_do magma_suite) x chunks) = snd (run_chunks evp magma_cipher_do_ctr (x_evp x) chunks).
Proof.
  induction chunks as [|d t IH]; intro x; [reflexivity|]. cbn [run_chunks]. cbn [magma_suite su_do].
  destruct (magma_cipher_do_ctr (x_evp x) d) as [c o]. specialize (IH (mk_cctx c (x_param x) (x_seed x))). cbn [x_evp] in IH.
  destruct (run_chunks evp magma_cipher_do_ctr c t) as [c2 o2]. cbn [snd] in *. rewrite <- IH.
  change (fun x d => let (c, o) := magma_cipher_do_ctr (x_evp x) d in (mk_cctx c (x_param x) (x_seed x), o)) with (su_do magma_suite).
  destruct (run_chunks cctx (su_do magma_suite) (mk_cctx c (x_param x) (x_seed x)) t). reflexivity.
Qed.
Lemma magma_block_enc c : e_enc (magma_ctr_block c) = e_enc c.
Proof. unfold magma_ctr_block, apply_acpkm_magma. destruct ((e_mesh c =? 0) || (e_num c <? e_mesh c)); reflexivity. Qed.
Lemma magma_partial_enc inp : forall c c' r o, magma_ctr_partial c inp = (c', r, o) -> e_enc c' = e_enc c.
Proof.
  induction inp as [|x t IH]; intros c c' r o H; cbn [magma_ctr_partial] in H.
  - apply t3_inj in H; subst. reflexivity.
  - destruct (N.land (e_num c) 7 =? 0); [apply t3_inj in H; subst; reflexivity|].
    destruct (magma_ctr_partial (with_num c (w32 (e_num c + 1))) t) as [[c1 r1] o1] eqn:Q. apply t3_inj in H; subst.
    rewrite (IH _ _ _ _ Q). reflexivity.
Qed.
Lemma magma_blocks_enc fuel : forall inp c c' r o, magma_ctr_blocks fuel c inp = (c', r, o) -> e_enc c' = e_enc c.
Proof.
  induction fuel as [|f IH]; intros inp c c' r o H; cbn [magma_ctr_blocks] in H.
  - apply t3_inj in H; subst. reflexivity.
  - destruct (8 <=? length inp)%nat; [|apply t3_inj in H; subst; reflexivity]. cbv zeta in H.
    set (c0 := with_num (magma_ctr_block c) (w32 (e_num (magma_ctr_block c) + 8))) in *.
    assert (E0 : e_enc c0 = e_enc c) by (unfold c0; exact (magma_block_enc c)). clearbody c0.
    destruct (magma_ctr_blocks f c0 (skipn 8 inp)) as [[c1 r1] o1] eqn:Q. apply t3_inj in H; subst. rewrite (IH _ _ _ _ _ Q). exact E0.
Qed.
Lemma magma_do_enc c d : e_enc (fst (magma_cipher_do_ctr c d)) = e_enc c.
Proof.
  unfold magma_cipher_do_ctr. destruct (magma_ctr_partial c d) as [[c1 r1] o1] eqn:Q1.
  destruct (magma_ctr_blocks (length r1) c1 r1) as [[c2 r2] o2] eqn:Q2. apply magma_partial_enc in Q1. apply magma_blocks_enc in Q2.
  destruct r2; cbn [fst]; [congruence|]. cbv zeta. cbn [fst].
  change (e_enc (magma_ctr_block c2) = e_enc c). rewrite magma_block_enc. congruence.
Qed.
Lemma magma_ctr_len sect k iv m : length (magma_ctr SZ sect k iv m) = length m.
Proof. unfold magma_ctr. apply stream_length with (good := fun _ => True); auto; try lia; intros s _; apply ctr_next_len. Qed.
Lemma magma_ctr_twice sect k iv m : magma_ctr SZ sect k iv (magma_ctr SZ sect k iv m) = m.
Proof.
  unfold magma_ctr. set (nx := ctr_next _ 8 _ k _).
  assert (Ln : forall s, length (snd (nx s)) = 8%nat) by (intros; apply ctr_next_len). clearbody nx.
  rewrite (stream_enc_irrelevant _ _ 8 true (negb true) _ (stream _ _ _ _ _ _ _)).
  apply stream_roundtrip with (good := fun _ => True); auto; lia.
Qed.
Lemma magma_ctr_bytes sect k iv m : bytes m -> bytes (magma_ctr SZ sect k iv m).
Proof.
  intros. unfold magma_ctr. apply (cs_bytes (rfc8891_encrypt SZ) 8 (section_no 8 sect) k (be2n (iv ++ zeros 4))); auto; [lia|].
  intro. apply rfc8891_encrypt_bytes.
Qed.
Lemma omac_bytes_gen (E : list N -> list N) bl m : (forall b, bytes (E b)) -> bytes (omac E bl m).
Proof. intros H. unfold omac. cbv zeta. apply H. Qed.
Lemma magma_mac_len k m : blkn 32 k -> length (omac (magma_E k) 8 m) = 8%nat.
Proof. intros _. apply omac_length; [lia|]. intros. apply rfc8891_encrypt_length. Qed.
Lemma magma_mac_bytes k m : blkn 32 k -> bytes m -> bytes (omac (magma_E k) 8 m).
Proof. intros _ _. apply omac_bytes_gen. intro. apply rfc8891_encrypt_bytes. Qed.
(** The state after the keyed init. *)
Lemma magma_keyed h g fresh rnd0 rnd rnd2 seed0 tag mesh k iv (enc : bool) :
  magma_fresh fresh -> blkn 32 k -> blkn 8 rnd -> blkn 8 seed0 ->
  let (r, a) := ae_init magma_suite h fresh (Some rnd) rnd2 (magma_new h fresh rnd0 g seed0 tag enc) (Some k) (Some iv) enc in
  let seed := if enc then rnd else seed0 in
  r = 1%Z /\ x_seed (ae_x a) = seed /\ ae_tag a = tag /\
  x_evp (ae_x (magma_mesh mesh a)) = ctr_start true mesh g (key_enc k seed) iv enc /\ ae_tag (magma_mesh mesh a) = tag /\
  exists o, ae_omac (magma_mesh mesh a) = Some o /\ om_for magma_suite magma_E magma_ok (key_mac k seed) nil o.
Proof.
  intros Hf Hk Hr Hs. set (seed := if enc then rnd else seed0).
  assert (Hsd : blkn 8 seed) by (unfold seed; destruct enc; auto).
  unfold ae_init at 1. unfold gost2015_acpkm_omac_init.
  assert (Q : (if enc then Some rnd else Some (su_seed magma_suite (ae_x (magma_new h fresh rnd0 g seed0 tag enc)))) = Some seed).
  { unfold seed. destruct enc; reflexivity. }
  rewrite Q. clear Q. rewrite (firstn_all2 k), (firstn_all2 seed) by (destruct Hk, Hsd; lia).
  rewrite kdf_64 by auto. fold (key_mac k seed). fold (key_enc k seed).
  pose proof (keys_ok k seed (proj2 Hk) (proj2 Hsd)) as [Ke Km].
  destruct (omac_set_key magma_cbc_cipher (omac_init magma_cbc_cipher) fresh 0 (key_mac k seed)) as [r o] eqn:Es.
  pose proof (om_set_key magma_suite magma_E magma_ok magma_fresh ltac:(cbn; lia) ltac:(cbn; lia) magma_E_ok magma_H_key magma_H_iv magma_H_do magma_mac_len magma_mac_bytes
     fresh (key_mac k seed) r o Hf Km Es) as [-> Om].
  change (omac_set_key (su_mac magma_suite) (omac_init (su_mac magma_suite)) fresh 0 (key_mac k seed)) with
         (omac_set_key magma_cbc_cipher (omac_init magma_cbc_cipher) fresh 0 (key_mac k seed)). rewrite Es.
  cbn [Z.ltb Z.compare]. cbv iota. clear Es. set (ke := key_enc k seed) in *. clearbody ke.
  split; [reflexivity|]. split; [reflexivity|]. split; [reflexivity|].
  split; [destruct mesh; reflexivity|]. split; [destruct mesh; reflexivity|].
  exists o. split; [destruct mesh; reflexivity|exact Om].
Qed.

Definition sections_ok (mesh : option N) : Prop := section_size true mesh mod 8 = 0 /\ section_size true mesh < 2 ^ 32.
(** A context with these parts behaves like the specification. *)
Lemma magma_started_run g nd tag mesh ke km iv (enc : bool) ops (a' : aead magma_suite) o :
  rng_ok (g_rng g) -> blkn 4 iv -> bytes tag -> sections_ok mesh -> Forall ae_call_ok ops -> blkn 32 ke -> blkn 32 km ->
  x_evp (ae_x a') = ctr_start true mesh g ke iv enc -> ae_tag a' = tag ->
  ae_omac a' = Some o -> om_for magma_suite magma_E magma_ok km nil o ->
  ae_run magma_suite nd a' ops =
    spec_run (if enc then enc_step (magma_ctr SZ (section_size true mesh) ke iv) (omac (rfc8891_encrypt SZ km) 8) 8
                     else dec_step (magma_ctr SZ (section_size true mesh) ke iv) (omac (rfc8891_encrypt SZ km) 8) 8) (spec_start tag) ops.
Proof.
  intros Hg Hi Ht [S1 S2] Ho Ke Km Q4 Q5 Q6 Q7.
  refine (ae_run_spec magma_suite magma_E magma_ok magma_fresh ltac:(cbn; lia) ltac:(cbn; lia) magma_E_ok magma_H_key magma_H_iv magma_H_do
    magma_mac_len magma_mac_bytes (ae_x a') (magma_ctr SZ (section_size true mesh) ke iv) _ (magma_ctr_len _ _ _) (magma_ctr_bytes _ _ _) _ km Km nd enc ops Ho
    (spec_start tag) a' _).
  - intros chunks _. change (su_ctx magma_suite) with cctx. rewrite magma_run_evp, Q4. destruct Hi as [Li Bi].
    exact (C12_magma_ctr_refines_spec_for_every_chunking true mesh g ke iv enc chunks Hg (proj2 Ke) Li Bi S1 S2).
  - intros x d. cbn [magma_suite su_do su_encrypting]. pose proof (magma_do_enc (x_evp x) d) as X.
    destruct (magma_cipher_do_ctr (x_evp x) d). exact X.
  - unfold ae_rel. cbn [spec_start s_fed s_text s_tag]. split; [exists nil; split; [constructor|]; split; reflexivity|].
    split. { cbn [magma_suite su_encrypting]. rewrite Q4. destruct mesh; reflexivity. }
    split; [exists o; auto|]. split; [exact Q5|]. split; [constructor|exact Ht].
Qed.
(** Every sequence of calls after the keyed init - updates, finals, reading and adding the tag, in any order and number, for
    every text cut in any way - returns what the specification says, with the keys derived from [k] and the seed. *)
Theorem C52_magma_histories :
  forall h g fresh nd rnd0 rnd rnd2 seed0 tag mesh k iv (enc : bool) ops,
    rng_ok (g_rng g) -> magma_fresh fresh -> blkn 32 k -> blkn 4 iv -> blkn 8 rnd -> blkn 8 seed0 -> bytes tag ->
    sections_ok mesh -> Forall ae_call_ok ops ->
    let (r, a) := ae_init magma_suite h fresh (Some rnd) rnd2 (magma_new h fresh rnd0 g seed0 tag enc) (Some k) (Some iv) enc in
    let seed := if enc then rnd else seed0 in
    let F := magma_ctr SZ (section_size true mesh) (key_enc k seed) iv in
    let mac := omac (rfc8891_encrypt SZ (key_mac k seed)) 8 in
    r = 1%Z /\ x_seed (ae_x a) = seed /\
    ae_run magma_suite nd (magma_mesh mesh a) ops = spec_run (if enc then enc_step F mac 8 else dec_step F mac 8) (spec_start tag) ops.
Proof.
  intros h g fresh nd rnd0 rnd rnd2 seed0 tag mesh k iv enc ops Hg Hf Hk Hi Hr Hs Ht S1 Ho.
  pose proof (magma_keyed h g fresh rnd0 rnd rnd2 seed0 tag mesh k iv enc Hf Hk Hr Hs) as Q.
  destruct (ae_init magma_suite h fresh (Some rnd) rnd2 (magma_new h fresh rnd0 g seed0 tag enc) (Some k) (Some iv) enc) as [r a].
  cbv zeta in *. assert (Hsd : blkn 8 (if enc then rnd else seed0)) by (destruct enc; auto).
  set (seed := if enc then rnd else seed0) in *. destruct Q as (Q1 & Q2 & Q3 & Q4 & Q5 & o & Q6 & Q7).
  split; [exact Q1|]. split; [exact Q2|].
  pose proof (keys_ok k seed (proj2 Hk) (proj2 Hsd)) as [Ke Km].
  exact (magma_started_run g nd tag mesh _ _ iv enc ops _ o Hg Hi Ht S1 Ho Ke Km Q4 Q5 Q6 Q7).
Qed.
Lemma magma_pre sect k iv : blkn 32 k -> blkn 4 iv -> sect mod 8 = 0 -> sect < 2 ^ 32 -> forall a b, bytes a -> bytes b ->
  magma_ctr SZ sect k iv (a ++ b) = magma_ctr SZ sect k iv a ++ next_piece (magma_ctr SZ sect k iv) a b.
Proof.
  intros Hk [Li Bi] S1 S2 a b Ha Hb.
  refine (F_prefix magma_suite (mk_cctx (ctr_start true (Some sect) ctx0 k iv true) None nil) (magma_ctr SZ sect k iv) _ (magma_ctr_len _ _ _) a b Ha Hb).
  intros chunks _. change (su_ctx magma_suite) with cctx. rewrite magma_run_evp. cbn [x_evp].
  exact (C12_magma_ctr_refines_spec_for_every_chunking true (Some sect) ctx0 k iv true chunks ctx0_rng_ok (proj2 Hk) Li Bi S1 S2).
Qed.

(** ** Messages: sender and receiver with the same key, seed and IV *)
Section MagmaPair.
Variables (h1 h2 : host) (g1 g2 : gost_ctx) (f1 f2 : evp) (rnd0 rnd1 rnd2 rnd3 rnd4 rnd5 tag1 tag2 : list N) (mesh : option N) (k iv : list N).
Definition magma_sender_init := ae_init magma_suite h1 f1 (Some rnd1) rnd2 (magma_new h1 f1 rnd0 g1 (zeros 8) tag1 true) (Some k) (Some iv) true.
Definition magma_sender := magma_mesh mesh (snd magma_sender_init).
(** The receiver's seed is the sender's (it travels in the algorithm parameters, below). *)
Definition magma_receiver_init :=
  ae_init magma_suite h2 f2 (Some rnd4) rnd5 (magma_new h2 f2 rnd3 g2 (x_seed (ae_x (snd magma_sender_init))) tag2 false) (Some k) (Some iv) false.
Definition magma_receiver := magma_mesh mesh (snd magma_receiver_init).
Definition magma_pair_ok : Prop :=
  rng_ok (g_rng g1) /\ rng_ok (g_rng g2) /\ magma_fresh f1 /\ magma_fresh f2 /\ blkn 32 k /\ blkn 4 iv /\ blkn 8 rnd1 /\ blkn 8 rnd4 /\
  bytes tag1 /\ bytes tag2 /\ sections_ok mesh.
Let F := magma_ctr SZ (section_size true mesh) (key_enc k rnd1) iv.
Let mac := omac (rfc8891_encrypt SZ (key_mac k rnd1)) 8.
Lemma magma_pair_spec nd : magma_pair_ok ->
  fst magma_sender_init = 1%Z /\ fst magma_receiver_init = 1%Z /\
  (forall m, length (F m) = length m) /\ (forall m, bytes m -> bytes (F m)) /\
  (forall a b, bytes a -> bytes b -> F (a ++ b) = F a ++ next_piece F a b) /\ (forall m, F (F m) = m) /\
  (forall m, bytes m -> length (mac m) = 8%nat) /\ (forall m, bytes m -> bytes (mac m)) /\
  (forall ops, Forall ae_call_ok ops -> ae_run magma_suite nd magma_sender ops = spec_run (enc_step F mac 8) (spec_start tag1) ops) /\
  (forall ops, Forall ae_call_ok ops -> ae_run magma_suite nd magma_receiver ops = spec_run (dec_step F mac 8) (spec_start tag2) ops).
Proof.
  intros (G1 & G2 & F1 & F2 & Hk & Hi & Hr & Hr4 & T1 & T2 & Sm).
  pose proof (keys_ok k rnd1 (proj2 Hk) (proj2 Hr)) as [Ke Km].
  pose proof (fun ops => C52_magma_histories h1 g1 f1 nd rnd0 rnd1 rnd2 (zeros 8) tag1 mesh k iv true ops G1 F1 Hk Hi Hr (blkn_zeros 8) T1 Sm) as Q.
  fold magma_sender_init in Q. cbv zeta in Q.
  assert (Sd : x_seed (ae_x (snd magma_sender_init)) = rnd1) by (specialize (Q nil (Forall_nil _)); destruct magma_sender_init; apply Q).
  pose proof (fun ops => C52_magma_histories h2 g2 f2 nd rnd3 rnd4 rnd5 rnd1 tag2 mesh k iv false ops G2 F2 Hk Hi Hr4 Hr T2 Sm) as R.
  unfold magma_receiver, magma_receiver_init. rewrite Sd. cbv zeta in R. unfold magma_sender.
  destruct magma_sender_init as [r s]. cbn [fst snd].
  destruct (ae_init magma_suite h2 f2 (Some rnd4) rnd5 (magma_new h2 f2 rnd3 g2 rnd1 tag2 false) (Some k) (Some iv) false) as [r' rv]. cbn [fst snd].
  split; [apply (Q nil (Forall_nil _))|]. split; [apply (R nil (Forall_nil _))|].
  split; [intro; apply magma_ctr_len|]. split; [intro; apply magma_ctr_bytes|].
  split; [apply magma_pre; destruct Sm; auto|]. split; [intro; apply magma_ctr_twice|].
  split; [intros; apply (magma_mac_len (key_mac k rnd1)); auto|]. split; [intros; apply (magma_mac_bytes (key_mac k rnd1)); auto|].
  split; intros ops Ho; [apply (Q ops Ho)|apply (R ops Ho)].
Qed.
End MagmaPair.
(** What is encrypted with magma-ctr-acpkm-omac, in any chunks, is what is decrypted, in any other chunks, with the same key,
    seed and IV, and the tag is accepted. *)
Theorem C52_magma_roundtrip :
  forall h1 h2 g1 g2 f1 f2 nd rnd0 rnd1 rnd2 rnd3 rnd4 rnd5 tag1 tag2 mesh k iv chunks1 chunks2 attrs0,
    magma_pair_ok g1 g2 f1 f2 rnd1 rnd4 tag1 tag2 mesh k iv -> Forall bytes chunks1 -> Forall bytes chunks2 -> no_mac attrs0 ->
    let sender := magma_sender h1 g1 f1 rnd0 rnd1 rnd2 tag1 mesh k iv in
    let receiver := magma_receiver h1 h2 g1 g2 f1 f2 rnd0 rnd1 rnd2 rnd3 rnd4 rnd5 tag1 tag2 mesh k iv in
    exists r1 attrs,
      ae_run magma_suite nd sender (map AUpdate chunks1 ++ [AFinal; AAttrs 1 (Some attrs0)]) = r1 ++ [RBytes 0 []; RAttrs 1 (Some attrs)] /\
      (concat chunks2 = out_bytes r1 ->
       exists r2, ae_run magma_suite nd receiver (AAttrs 0 (Some attrs) :: map AUpdate chunks2 ++ [AFinal])
                    = RAttrs 1 (Some attrs) :: r2 ++ [RBytes 0 []] /\ out_bytes r2 = concat chunks1).
Proof.
  intros h1 h2 g1 g2 f1 f2 nd rnd0 rnd1 rnd2 rnd3 rnd4 rnd5 tag1 tag2 mesh k iv chunks1 chunks2 attrs0 Hp C1 C2 Na. cbv zeta.
  destruct (magma_pair_spec h1 h2 g1 g2 f1 f2 rnd0 rnd1 rnd2 rnd3 rnd4 rnd5 tag1 tag2 mesh k iv nd Hp) as (_ & _ & P1 & P2 & P3 & P4 & P5 & P6 & P7 & P8).
  exact (roundtrip _ nd _ _ 8 tag1 tag2 _ _ P1 P2 P3 P4 P5 P6 P7 P8 chunks1 chunks2 attrs0 C1 C2 Na).
Qed.
(** The receiver accepts a ciphertext and a tag exactly when a sender with the same key, seed and IV, given the decrypted text,
    produces this ciphertext and this tag. *)
Theorem C52_magma_accepts_exactly_genuine :
  forall h1 h2 g1 g2 f1 f2 nd rnd0 rnd1 rnd2 rnd3 rnd4 rnd5 tag1 tag2 mesh k iv chunks attrs t attrs0,
    magma_pair_ok g1 g2 f1 f2 rnd1 rnd4 tag1 tag2 mesh k iv -> Forall bytes chunks ->
    get0_mac attrs = Some t -> bytes t -> length t = 8%nat -> no_mac attrs0 ->
    let sender := magma_sender h1 g1 f1 rnd0 rnd1 rnd2 tag1 mesh k iv in
    let receiver := magma_receiver h1 h2 g1 g2 f1 f2 rnd0 rnd1 rnd2 rnd3 rnd4 rnd5 tag1 tag2 mesh k iv in
    exists r2 r, ae_run magma_suite nd receiver (AAttrs 0 attrs :: map AUpdate chunks ++ [AFinal]) = RAttrs 1 attrs :: r2 ++ [RBytes r []] /\
    (r = 0%Z \/ r = (-1)%Z) /\
    (r = 0%Z <-> exists r1, ae_run magma_suite nd sender [AUpdate (out_bytes r2); AFinal; AAttrs 1 (Some attrs0)] =
                   r1 ++ [RBytes 0 []; RAttrs 1 (Some (attrs0 ++ [mk_attr true [Octets t]]))] /\ out_bytes r1 = concat chunks).
Proof.
  intros h1 h2 g1 g2 f1 f2 nd rnd0 rnd1 rnd2 rnd3 rnd4 rnd5 tag1 tag2 mesh k iv chunks attrs t attrs0 Hp C G Bt Lt Na. cbv zeta.
  destruct (magma_pair_spec h1 h2 g1 g2 f1 f2 rnd0 rnd1 rnd2 rnd3 rnd4 rnd5 tag1 tag2 mesh k iv nd Hp) as (_ & _ & P1 & P2 & P3 & P4 & P5 & P6 & P7 & P8).
  exact (accepts_genuine _ nd _ _ 8 tag1 tag2 _ _ P1 P2 P3 P4 P5 P6 P7 P8 chunks attrs t attrs0 C G Bt Lt Na).
Qed.

(** * kuznyechik-ctr-acpkm-omac *)
(** The optional EVP_CTRL_KEY_MESH call after the init (gost_grasshopper_cipher.c:1104-1114). *)
Definition kuz_mesh (sect : option Z) (a : aead kuz_suite) : aead kuz_suite :=
  match sect with
  | None => a
  | Some n => mk_aead (S := kuz_suite) (mk_kcctx (snd (kuz_ctl_key_mesh (y_k (ae_x a)) n)) (y_seed (ae_x a)) (y_app (ae_x a))) (ae_omac a) (ae_tag a)
  end.
Definition kuz_new h rnd0 seed0 tag enc : aead kuz_suite :=
  snd (ae_init kuz_suite h kctx0 None rnd0 (mk_aead (S := kuz_suite) (mk_kcctx kctx0 seed0 false) None tag) None None enc).
Lemma kuz_run_k chunks : forall y, snd (run_chunks kcctx (su_do kuz_suite) y chunks) = kout do_ctracpkm (y_k y) chunks.
Proof.
  unfold kout. induction chunks as [|d t IH]; intro y; [reflexivity|]. cbn [run_chunks]. cbn [kuz_suite su_do].
  destruct (do_ctracpkm (y_k y) d) as [c o]. specialize (IH (mk_kcctx c (y_seed y) (y_app y))). cbn [y_k] in IH.
  destruct (run_chunks kctx do_ctracpkm c t) as [c2 o2]. cbn [snd] in *. rewrite <- IH.
  change (fun y d => let (c, o) := do_ctracpkm (y_k y) d in (mk_kcctx c (y_seed y) (y_app y), o)) with (su_do kuz_suite).
  destruct (run_chunks kcctx (su_do kuz_suite) (mk_kcctx c (y_seed y) (y_app y)) t). reflexivity.
Qed.
Lemma kuz_block_enc c : k_enc (ctr_block16 (apply_acpkm_grasshopper c)) = k_enc c.
Proof. unfold apply_acpkm_grasshopper. destruct ((k_sect c =? 0) || (k_num c <? k_sect c)); reflexivity. Qed.
Lemma kuz_partial_enc inp : forall c c' r o, acpkm_partial c inp = (c', r, o) -> k_enc c' = k_enc c.
Proof.
  induction inp as [|x t IH]; intros c c' r o H; cbn [acpkm_partial] in H.
  - apply t3_inj in H; subst. reflexivity.
  - destruct (N.land (k_num c) 15 =? 0); [apply t3_inj in H; subst; reflexivity|].
    destruct (acpkm_partial (kw_num c (w32 (k_num c + 1))) t) as [[c1 r1] o1] eqn:Q. apply t3_inj in H; subst.
    rewrite (IH _ _ _ _ Q). reflexivity.
Qed.
Lemma block_loop_inv {C} (step : C -> list N -> C * list N) (f : C -> bool) bs bound : (forall c b, f (fst (step c b)) = f c) ->
  forall fuel inp c c' r o, block_loop step bs bound fuel c inp = (c', r, o) -> f c' = f c.
Proof.
  intros Hs. induction fuel as [|n IH]; intros inp c c' r o H; cbn [block_loop] in H.
  - apply t3_inj in H; subst. reflexivity.
  - destruct (bound <=? length inp)%nat; [|apply t3_inj in H; subst; reflexivity].
    specialize (Hs c (firstn bs inp)). destruct (step c (firstn bs inp)) as [c0 o0]. cbn [fst] in Hs.
    destruct (block_loop step bs bound n c0 (skipn bs inp)) as [[c1 r1] o1] eqn:Q. apply t3_inj in H; subst.
    rewrite (IH _ _ _ _ _ Q). exact Hs.
Qed.
Lemma kuz_do_enc c d : k_enc (fst (do_ctracpkm c d)) = k_enc c.
Proof.
  unfold do_ctracpkm. destruct (acpkm_partial c d) as [[c1 r1] o1] eqn:Q1.
  destruct (block_loop acpkm_step 16 16 (length r1) c1 r1) as [[c2 r2] o2] eqn:Q2. apply kuz_partial_enc in Q1.
  apply (block_loop_inv acpkm_step k_enc 16 16) in Q2; [|intros x b; exact (kuz_block_enc x)].
  destruct r2; cbn [fst]; [congruence|]. cbv zeta. cbn [fst].
  change (k_enc (ctr_block16 (apply_acpkm_grasshopper c2)) = k_enc c). rewrite kuz_block_enc. congruence.
Qed.
Lemma kuz_ctr_len sect k iv : kuz_key k -> forall m, length (kuz_ctr sect k iv m) = length m.
Proof. intros Hk m. unfold kuz_ctr. apply stream_length with (good := fun _ => True); auto; try lia; intros s _; apply ctr_len16; exact Hk. Qed.
Lemma kuz_ctr_bytes sect k iv : kuz_key k -> forall m, bytes m -> bytes (kuz_ctr sect k iv m).
Proof.
  intros Hk m Hm. unfold kuz_ctr. apply (cs_bytes E_ 16 (section_no 16 sect) k (be2n (iv ++ zeros 8))); auto; [lia|].
  intro j. apply kuz_E_ok; [exact (acpkm_key_ok k (section_no 16 sect j) Hk)|]. split; [apply n2be_length|apply n2be_bytes].
Qed.
Lemma kuz_mac_len k m : blkn 32 k -> length (omac (E_ k) 16 m) = 16%nat.
Proof. intros Hk. apply omac_length; [lia|]. intros b. apply E_length. exact Hk. Qed.
Lemma omac_blkn (E : list N -> list N) bl m : (0 < bl)%nat -> (forall b, blkn bl b -> blkn bl (E b)) -> bytes m -> blkn bl (omac E bl m).
Proof.
  intros P HE Bm. unfold omac. cbv zeta. apply HE. pose proof (cut_exists bl m P) as (Em & Fh & Lr & _).
  set (r := last_piece bl m) in *. set (k1 := dbl bl (E (zeros bl))).
  assert (B1 : blkn bl k1) by (split; [apply dbl_length|apply dbl_bytes]).
  assert (B2 : blkn bl (dbl bl k1)) by (split; [apply dbl_length|apply dbl_bytes]).
  assert (Br : bytes r /\ Forall (blkn bl) (heads bl m)).
  { rewrite Em in Bm. apply bytes_app_inv in Bm as [X1 X2]. split; [exact X2|]. clear -Fh X1.
    induction Fh as [|b t Hb F IH]; constructor. - cbn [concat] in X1. apply bytes_app_inv in X1 as [X1 _]. split; auto.
    - cbn [concat] in X1. apply bytes_app_inv in X1 as [_ X1]. apply IH; auto. }
  destruct Br as [Br FH]. apply blkn_xorl.
  - set (H := heads bl m) in *. clearbody H. assert (G : forall H c, Forall (blkn bl) H -> blkn bl c -> blkn bl (fold_left (fun c b => E (xorl c b)) H c)).
    { clear -HE. induction H as [|b t IH]; intros c F Hc; [exact Hc|]. inversion F; subst. cbn [fold_left]. apply IH; auto. apply HE, blkn_xorl; auto. }
    apply G; auto using blkn_zeros.
  - unfold last_block. destruct (Nat.eqb_spec (length r) bl) as [Q|Q]; apply blkn_xorl; auto; [split; auto|]. unfold pad. split.
    + rewrite !app_length, zeros_length. cbn [length]. lia.
    + apply bytes_app; auto. constructor; [reflexivity|apply bytes_zeros].
Qed.
Lemma kuz_mac_bytes k m : blkn 32 k -> bytes m -> bytes (omac (E_ k) 16 m).
Proof. intros Hk Bm. apply (omac_blkn (E_ k) 16 m); auto; [lia|]. intros b. apply kuz_E_ok. exact Hk. Qed.
Lemma kuz_keyed h rnd0 rnd rnd2 seed0 tag sect k iv (enc : bool) :
  blkn 32 k -> blkn 8 rnd -> blkn 8 seed0 ->
  let (r, a) := ae_init kuz_suite h kctx0 (Some rnd) rnd2 (kuz_new h rnd0 seed0 tag enc) (Some k) (Some iv) enc in
  let seed := if enc then rnd else seed0 in
  r = 1%Z /\ y_seed (ae_x a) = seed /\ ae_tag a = tag /\
  y_k (ae_x (kuz_mesh sect a)) = acpkm_start (init_ctracpkm kctx0 None None enc) sect (key_enc k seed) iv enc /\ ae_tag (kuz_mesh sect a) = tag /\
  exists o, ae_omac (kuz_mesh sect a) = Some o /\ om_for kuz_suite E_ kuz_ok (key_mac k seed) nil o.
Proof.
  intros Hk Hr Hs. set (seed := if enc then rnd else seed0).
  assert (Hsd : blkn 8 seed) by (unfold seed; destruct enc; auto).
  unfold ae_init at 1. unfold gost2015_acpkm_omac_init.
  assert (Q : (if enc then Some rnd else Some (su_seed kuz_suite (ae_x (kuz_new h rnd0 seed0 tag enc)))) = Some seed).
  { unfold seed. destruct enc; reflexivity. }
  rewrite Q. clear Q. rewrite (firstn_all2 k), (firstn_all2 seed) by (destruct Hk, Hsd; lia).
  rewrite kdf_64 by auto. fold (key_mac k seed). fold (key_enc k seed).
  pose proof (keys_ok k seed (proj2 Hk) (proj2 Hsd)) as [Ke Km].
  destruct (omac_set_key kuz_cbc_cipher (omac_init kuz_cbc_cipher) kctx0 0 (key_mac k seed)) as [r o] eqn:Es.
  pose proof (om_set_key kuz_suite E_ kuz_ok kuz_fresh ltac:(cbn; lia) ltac:(cbn; lia) kuz_E_ok kuz_H_key kuz_H_iv kuz_H_do kuz_mac_len kuz_mac_bytes
     kctx0 (key_mac k seed) r o eq_refl Km Es) as [-> Om].
  change (omac_set_key (su_mac kuz_suite) (omac_init (su_mac kuz_suite)) kctx0 0 (key_mac k seed)) with
         (omac_set_key kuz_cbc_cipher (omac_init kuz_cbc_cipher) kctx0 0 (key_mac k seed)). rewrite Es.
  cbn [Z.ltb Z.compare]. cbv iota. clear Es. set (ke := key_enc k seed) in *. clearbody ke.
  split; [reflexivity|]. split; [reflexivity|]. split; [reflexivity|].
  split; [destruct sect; reflexivity|]. split; [destruct sect; reflexivity|].
  exists o. split; [destruct sect; reflexivity|exact Om].
Qed.
Lemma kuz_c1_ok enc : kctx_ok (init_ctracpkm kctx0 None None enc) /\ skipn 8 (k_iv (init_ctracpkm kctx0 None None enc)) = zeros 8.
Proof.
  split; [|reflexivity]. unfold kctx_ok. split; [reflexivity|]. split; [reflexivity|]. split; [reflexivity|]. split; [reflexivity|].
  split; [reflexivity|]. split; [apply bytes_zeros|reflexivity].
Qed.
Lemma kuz_start_enc c sect k iv enc : k_enc (acpkm_start c sect k iv enc) = enc.
Proof.
  unfold acpkm_start. set (c1 := init_ctracpkm c (Some k) (Some iv) enc). assert (Q : k_enc c1 = enc) by reflexivity. clearbody c1.
  destruct sect as [n|]; [|exact Q]. unfold kuz_ctl_key_mesh. repeat match goal with |- context [if ?b then _ else _] => destruct b end; exact Q.
Qed.
Lemma kuz_started_run nd tag sect c0 ke km iv (enc : bool) ops (a' : aead kuz_suite) o :
  kctx_ok c0 -> skipn 8 (k_iv c0) = zeros 8 -> blkn 8 iv -> bytes tag -> sect_arg_ok sect -> Forall ae_call_ok ops -> blkn 32 ke -> blkn 32 km ->
  y_k (ae_x a') = acpkm_start c0 sect ke iv enc -> ae_tag a' = tag ->
  ae_omac a' = Some o -> om_for kuz_suite E_ kuz_ok km nil o ->
  ae_run kuz_suite nd a' ops =
    spec_run (if enc then enc_step (kuz_ctr (acpkm_section sect) ke iv) (omac (E_ km) 16) 16
                     else dec_step (kuz_ctr (acpkm_section sect) ke iv) (omac (E_ km) 16) 16) (spec_start tag) ops.
Proof.
  intros O Zv Hi Ht Sm Ho Ke Km Q4 Q5 Q6 Q7.
  refine (ae_run_spec kuz_suite E_ kuz_ok kuz_fresh ltac:(cbn; lia) ltac:(cbn; lia) kuz_E_ok kuz_H_key kuz_H_iv kuz_H_do
    kuz_mac_len kuz_mac_bytes (ae_x a') (kuz_ctr (acpkm_section sect) ke iv) _ (kuz_ctr_len _ _ _ Ke) (kuz_ctr_bytes _ _ _ Ke) _ km Km nd enc ops Ho
    (spec_start tag) a' _).
  - intros chunks Hc. change (su_ctx kuz_suite) with kcctx. rewrite kuz_run_k, Q4.
    exact (C25_ctr_acpkm_refines_spec _ sect ke iv enc chunks O Zv Ke Hi Sm Hc).
  - intros x d. cbn [kuz_suite su_do su_encrypting]. pose proof (kuz_do_enc (y_k x) d) as X.
    destruct (do_ctracpkm (y_k x) d). exact X.
  - unfold ae_rel. cbn [spec_start s_fed s_text s_tag]. split; [exists nil; split; [constructor|]; split; reflexivity|].
    split. { cbn [kuz_suite su_encrypting]. rewrite Q4. apply kuz_start_enc. }
    split; [exists o; auto|]. split; [exact Q5|]. split; [constructor|exact Ht].
Qed.
Theorem C52_kuznyechik_histories :
  forall h nd rnd0 rnd rnd2 seed0 tag sect k iv (enc : bool) ops,
    blkn 32 k -> blkn 8 iv -> blkn 8 rnd -> blkn 8 seed0 -> bytes tag -> sect_arg_ok sect -> Forall ae_call_ok ops ->
    let (r, a) := ae_init kuz_suite h kctx0 (Some rnd) rnd2 (kuz_new h rnd0 seed0 tag enc) (Some k) (Some iv) enc in
    let seed := if enc then rnd else seed0 in
    let F := kuz_ctr (acpkm_section sect) (key_enc k seed) iv in
    let mac := omac (E_ (key_mac k seed)) 16 in
    r = 1%Z /\ y_seed (ae_x a) = seed /\
    ae_run kuz_suite nd (kuz_mesh sect a) ops = spec_run (if enc then enc_step F mac 16 else dec_step F mac 16) (spec_start tag) ops.
Proof.
  intros h nd rnd0 rnd rnd2 seed0 tag sect k iv enc ops Hk Hi Hr Hs Ht Sm Ho.
  pose proof (kuz_keyed h rnd0 rnd rnd2 seed0 tag sect k iv enc Hk Hr Hs) as Q.
  destruct (ae_init kuz_suite h kctx0 (Some rnd) rnd2 (kuz_new h rnd0 seed0 tag enc) (Some k) (Some iv) enc) as [r a].
  cbv zeta in *. assert (Hsd : blkn 8 (if enc then rnd else seed0)) by (destruct enc; auto).
  set (seed := if enc then rnd else seed0) in *. destruct Q as (Q1 & Q2 & Q3 & Q4 & Q5 & o & Q6 & Q7).
  split; [exact Q1|]. split; [exact Q2|].
  pose proof (keys_ok k seed (proj2 Hk) (proj2 Hsd)) as [Ke Km]. destruct (kuz_c1_ok enc) as [O Zv].
  exact (kuz_started_run nd tag sect _ _ _ iv enc ops _ o O Zv Hi Ht Sm Ho Ke Km Q4 Q5 Q6 Q7).
Qed.
Lemma kuz_pre sect k iv : blkn 32 k -> blkn 8 iv -> sect_arg_ok sect -> forall a b, bytes a -> bytes b ->
  kuz_ctr (acpkm_section sect) k iv (a ++ b) = kuz_ctr (acpkm_section sect) k iv a ++ next_piece (kuz_ctr (acpkm_section sect) k iv) a b.
Proof.
  intros Hk Hi Hs a b Ha Hb.
  refine (F_prefix kuz_suite (mk_kcctx (acpkm_start kctx0 sect k iv true) nil true) (kuz_ctr (acpkm_section sect) k iv) _ (kuz_ctr_len _ _ _ Hk) a b Ha Hb).
  intros chunks Hc. change (su_ctx kuz_suite) with kcctx. rewrite kuz_run_k. cbn [y_k].
  exact (C25_ctr_acpkm_refines_spec _ sect k iv true chunks kctx0_ok eq_refl Hk Hi Hs Hc).
Qed.
Section KuzPair.
Variables (h1 h2 : host) (rnd0 rnd1 rnd2 rnd3 rnd4 rnd5 tag1 tag2 : list N) (sect : option Z) (k iv : list N).
Definition kuz_sender_init := ae_init kuz_suite h1 kctx0 (Some rnd1) rnd2 (kuz_new h1 rnd0 (zeros 8) tag1 true) (Some k) (Some iv) true.
Definition kuz_sender := kuz_mesh sect (snd kuz_sender_init).
Definition kuz_receiver_init :=
  ae_init kuz_suite h2 kctx0 (Some rnd4) rnd5 (kuz_new h2 rnd3 (y_seed (ae_x (snd kuz_sender_init))) tag2 false) (Some k) (Some iv) false.
Definition kuz_receiver := kuz_mesh sect (snd kuz_receiver_init).
Definition kuz_pair_ok : Prop :=
  blkn 32 k /\ blkn 8 iv /\ blkn 8 rnd1 /\ blkn 8 rnd4 /\ bytes tag1 /\ bytes tag2 /\ sect_arg_ok sect.
Let F := kuz_ctr (acpkm_section sect) (key_enc k rnd1) iv.
Let mac := omac (E_ (key_mac k rnd1)) 16.
Lemma kuz_pair_spec nd : kuz_pair_ok ->
  fst kuz_sender_init = 1%Z /\ fst kuz_receiver_init = 1%Z /\
  (forall m, length (F m) = length m) /\ (forall m, bytes m -> bytes (F m)) /\
  (forall a b, bytes a -> bytes b -> F (a ++ b) = F a ++ next_piece F a b) /\ (forall m, F (F m) = m) /\
  (forall m, bytes m -> length (mac m) = 16%nat) /\ (forall m, bytes m -> bytes (mac m)) /\
  (forall ops, Forall ae_call_ok ops -> ae_run kuz_suite nd kuz_sender ops = spec_run (enc_step F mac 16) (spec_start tag1) ops) /\
  (forall ops, Forall ae_call_ok ops -> ae_run kuz_suite nd kuz_receiver ops = spec_run (dec_step F mac 16) (spec_start tag2) ops).
Proof.
  intros (Hk & Hi & Hr & Hr4 & T1 & T2 & Sm).
  pose proof (keys_ok k rnd1 (proj2 Hk) (proj2 Hr)) as [Ke Km].
  pose proof (fun ops => C52_kuznyechik_histories h1 nd rnd0 rnd1 rnd2 (zeros 8) tag1 sect k iv true ops Hk Hi Hr (blkn_zeros 8) T1 Sm) as Q.
  fold kuz_sender_init in Q. cbv zeta in Q.
  assert (Sd : y_seed (ae_x (snd kuz_sender_init)) = rnd1) by (specialize (Q nil (Forall_nil _)); destruct kuz_sender_init; apply Q).
  pose proof (fun ops => C52_kuznyechik_histories h2 nd rnd3 rnd4 rnd5 rnd1 tag2 sect k iv false ops Hk Hi Hr4 Hr T2 Sm) as R.
  unfold kuz_receiver, kuz_receiver_init. rewrite Sd. cbv zeta in R. unfold kuz_sender.
  destruct kuz_sender_init as [r s]. cbn [fst snd].
  destruct (ae_init kuz_suite h2 kctx0 (Some rnd4) rnd5 (kuz_new h2 rnd3 rnd1 tag2 false) (Some k) (Some iv) false) as [r' rv]. cbn [fst snd].
  split; [apply (Q nil (Forall_nil _))|]. split; [apply (R nil (Forall_nil _))|].
  split; [intro; apply kuz_ctr_len; exact Ke|]. split; [intro; apply kuz_ctr_bytes; exact Ke|].
  split; [apply kuz_pre; auto|]. split; [intro; apply kuz_ctr_twice; exact Ke|].
  split; [intros; apply (kuz_mac_len (key_mac k rnd1)); auto|]. split; [intros; apply (kuz_mac_bytes (key_mac k rnd1)); auto|].
  split; intros ops Ho; [apply (Q ops Ho)|apply (R ops Ho)].
Qed.
End KuzPair.
Theorem C52_kuznyechik_roundtrip :
  forall h1 h2 nd rnd0 rnd1 rnd2 rnd3 rnd4 rnd5 tag1 tag2 sect k iv chunks1 chunks2 attrs0,
    kuz_pair_ok rnd1 rnd4 tag1 tag2 sect k iv -> Forall bytes chunks1 -> Forall bytes chunks2 -> no_mac attrs0 ->
    let sender := kuz_sender h1 rnd0 rnd1 rnd2 tag1 sect k iv in
    let receiver := kuz_receiver h1 h2 rnd0 rnd1 rnd2 rnd3 rnd4 rnd5 tag1 tag2 sect k iv in
    exists r1 attrs,
      ae_run kuz_suite nd sender (map AUpdate chunks1 ++ [AFinal; AAttrs 1 (Some attrs0)]) = r1 ++ [RBytes 0 []; RAttrs 1 (Some attrs)] /\
      (concat chunks2 = out_bytes r1 ->
       exists r2, ae_run kuz_suite nd receiver (AAttrs 0 (Some attrs) :: map AUpdate chunks2 ++ [AFinal])
                    = RAttrs 1 (Some attrs) :: r2 ++ [RBytes 0 []] /\ out_bytes r2 = concat chunks1).
Proof.
  intros h1 h2 nd rnd0 rnd1 rnd2 rnd3 rnd4 rnd5 tag1 tag2 sect k iv chunks1 chunks2 attrs0 Hp C1 C2 Na. cbv zeta.
  destruct (kuz_pair_spec h1 h2 rnd0 rnd1 rnd2 rnd3 rnd4 rnd5 tag1 tag2 sect k iv nd Hp) as (_ & _ & P1 & P2 & P3 & P4 & P5 & P6 & P7 & P8).
  exact (roundtrip _ nd _ _ 16 tag1 tag2 _ _ P1 P2 P3 P4 P5 P6 P7 P8 chunks1 chunks2 attrs0 C1 C2 Na).
Qed.
Theorem C52_kuznyechik_accepts_exactly_genuine :
  forall h1 h2 nd rnd0 rnd1 rnd2 rnd3 rnd4 rnd5 tag1 tag2 sect k iv chunks attrs t attrs0,
    kuz_pair_ok rnd1 rnd4 tag1 tag2 sect k iv -> Forall bytes chunks ->
    get0_mac attrs = Some t -> bytes t -> length t = 16%nat -> no_mac attrs0 ->
    let sender := kuz_sender h1 rnd0 rnd1 rnd2 tag1 sect k iv in
    let receiver := kuz_receiver h1 h2 rnd0 rnd1 rnd2 rnd3 rnd4 rnd5 tag1 tag2 sect k iv in
    exists r2 r, ae_run kuz_suite nd receiver (AAttrs 0 attrs :: map AUpdate chunks ++ [AFinal]) = RAttrs 1 attrs :: r2 ++ [RBytes r []] /\
    (r = 0%Z \/ r = (-1)%Z) /\
    (r = 0%Z <-> exists r1, ae_run kuz_suite nd sender [AUpdate (out_bytes r2); AFinal; AAttrs 1 (Some attrs0)] =
                   r1 ++ [RBytes 0 []; RAttrs 1 (Some (attrs0 ++ [mk_attr true [Octets t]]))] /\ out_bytes r1 = concat chunks).
Proof.
  intros h1 h2 nd rnd0 rnd1 rnd2 rnd3 rnd4 rnd5 tag1 tag2 sect k iv chunks attrs t attrs0 Hp C G Bt Lt Na. cbv zeta.
  destruct (kuz_pair_spec h1 h2 rnd0 rnd1 rnd2 rnd3 rnd4 rnd5 tag1 tag2 sect k iv nd Hp) as (_ & _ & P1 & P2 & P3 & P4 & P5 & P6 & P7 & P8).
  exact (accepts_genuine _ nd _ _ 16 tag1 tag2 _ _ P1 P2 P3 P4 P5 P6 P7 P8 chunks attrs t attrs0 C G Bt Lt Na).
Qed.

(** * The hypotheses can be met *)
Example magma_pair_example : magma_pair_ok ctx0 ctx0 (fresh_evp ctx0) (fresh_evp ctx0) [1; 2; 3; 4; 5; 6; 7; 8] (zeros 8) (zeros 8) (zeros 8) (Some 16) kdemo [9; 8; 7; 6].
Proof.
  assert (F : magma_fresh (fresh_evp ctx0)) by (exists ctx0; split; [reflexivity|exact ctx0_rng_ok]).
  unfold magma_pair_ok. split; [exact ctx0_rng_ok|]. split; [exact ctx0_rng_ok|]. split; [exact F|]. split; [exact F|].
  split; [split; [reflexivity|apply bytes_forallb; vm_compute; reflexivity]|]. split; [split; [reflexivity|apply bytes_forallb; reflexivity]|].
  split; [split; [reflexivity|apply bytes_forallb; reflexivity]|]. split; [apply blkn_zeros|]. split; [apply bytes_zeros|]. split; [apply bytes_zeros|].
  split; reflexivity.
Qed.
Example kuz_pair_example : kuz_pair_ok [1; 2; 3; 4; 5; 6; 7; 8] (zeros 8) (zeros 16) (zeros 16) (Some 32%Z) kdemo [9; 8; 7; 6; 5; 4; 3; 2].
Proof.
  unfold kuz_pair_ok.
  split; [split; [reflexivity|apply bytes_forallb; vm_compute; reflexivity]|]. split; [split; [reflexivity|apply bytes_forallb; reflexivity]|].
  split; [split; [reflexivity|apply bytes_forallb; reflexivity]|]. split; [apply blkn_zeros|]. split; [apply bytes_zeros|]. split; [apply bytes_zeros|].
  unfold sect_arg_ok. split; [lia|reflexivity].
Qed.
Example attributes_example : no_mac [mk_attr false [Other_value]; mk_attr false []] /\
  get0_mac (Some [mk_attr false []; mk_attr true [Octets (zeros 8)]]) = Some (zeros 8).
Proof. split; [|reflexivity]. intros a [<-|[<-|[]]]; reflexivity. Qed.
Print Assumptions C52_magma_roundtrip.
Print Assumptions C52_magma_accepts_exactly_genuine.
Print Assumptions C52_kuznyechik_roundtrip.
Print Assumptions C52_kuznyechik_accepts_exactly_genuine.
