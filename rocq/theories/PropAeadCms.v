(** Property C52, continued: the authenticated ciphers as CMS uses them.  The sender initialises without key, then with key
    and IV, writes the algorithm parameters, and encrypts; the receiver initialises without key, reads the parameters, then
    sets the key, reads the tag and decrypts (crypto/cms/cms_enc.c). *)
From Coq Require Import String.
From Verif Require Import Bytes BytesProofs Gost89Model Gost89Sboxes Gost89Spec Gost89Proofs Gost89SpecProofs
  Gost89ModeProofs StreamMode CryptModel CryptSpec CryptProofs MagmaProofs PropGost89 PropCrypt PropCrypt2
  KuzTables KuzSpec KuzModel KuzProofs KuzBlockProofs KuzCipherModel KuzCipherSpec KuzModeProofs PropKuzModes
  KdfModel KdfSpec KdfProofs OmacModel OmacSpec OmacProofs EcModel Asn1Model CmsParamsModel KeywrapSpec PropOmac PropKdf PropCms
  AeadModel AeadSpec AeadProofs PropAead.
From Coq Require Import List Lia NArith ZArith Bool.
Import ListNotations.
Open Scope N_scope.

(** * magma-ctr-acpkm-omac *)
Section MagmaCms.
Variables (h1 h2 : host) (g1 g2 : gost_ctx) (f1 f2 : evp) (rnd0 rnd1 rnd2 rnd3 rnd4 rnd5 tag1 tag2 k iv : list N).
Definition mo_keyed := snd (magma_sender_init h1 g1 f1 rnd0 rnd1 rnd2 tag1 k iv).
Definition mo_sent := magma_set_asn1_parameters (ae_x mo_keyed).
Definition mo_sender : aead magma_suite := mk_aead (S := magma_suite) (snd (fst mo_sent)) (ae_omac mo_keyed) (ae_tag mo_keyed).
Definition mo_new := magma_new h2 f2 rnd3 g2 (zeros 8) tag2 false.
Definition mo_read := magma_get_asn1_parameters (ae_x mo_new) (snd mo_sent).
Definition mo_receiver_init := ae_init magma_suite h2 f2 (Some rnd4) rnd5 (mk_aead (S := magma_suite) (snd mo_read) (ae_omac mo_new) (ae_tag mo_new)) (Some k) None false.
Definition mo_receiver := snd mo_receiver_init.
Definition mo_ok : Prop :=
  rng_ok (g_rng g1) /\ rng_ok (g_rng g2) /\ magma_fresh f1 /\ magma_fresh f2 /\ blkn 32 k /\ blkn 4 iv /\ blkn 8 rnd1 /\
  bytes tag1 /\ bytes tag2.
Let ke := key_enc k rnd1.
Let km := key_mac k rnd1.
Lemma mo_facts : mo_ok ->
  fst (magma_sender_init h1 g1 f1 rnd0 rnd1 rnd2 tag1 k iv) = 1%Z /\ fst (fst mo_sent) = 1%Z /\ fst mo_read = 1%Z /\ fst mo_receiver_init = 1%Z /\
  x_evp (ae_x mo_sender) = ctr_start true (Some 8192) g1 ke iv true /\ ae_tag mo_sender = tag1 /\
  (exists o, ae_omac mo_sender = Some o /\ om_for magma_suite magma_E magma_ok km nil o) /\
  x_evp (ae_x mo_receiver) = ctr_start true None g2 ke iv false /\ ae_tag mo_receiver = tag2 /\
  (exists o, ae_omac mo_receiver = Some o /\ om_for magma_suite magma_E magma_ok km nil o).
Proof.
  intros (G1 & G2 & F1 & F2 & Hk & Hi & Hr & T1 & T2). destruct (iv4_shape iv (proj1 Hi)) as (I1 & I2 & I3 & I4 & I5).
  pose proof (keys_ok k rnd1 (proj2 Hk) (proj2 Hr)) as [Ke Km]. fold ke in Ke. fold km in Km.
  pose proof (magma_keyed h1 g1 f1 rnd0 rnd1 rnd2 (zeros 8) tag1 None k iv true F1 Hk Hr (blkn_zeros 8)) as Q.
  unfold mo_receiver, mo_receiver_init, mo_read, mo_sender, mo_sent, mo_keyed. unfold magma_sender_init.
  destruct (ae_init magma_suite h1 f1 (Some rnd1) rnd2 (magma_new h1 f1 rnd0 g1 (zeros 8) tag1 true) (Some k) (Some iv) true) as [r a].
  cbv zeta in Q. cbn [magma_mesh] in Q. fold ke km in Q. destruct Q as (-> & Q2 & Q3 & Q4 & Q5 & o & Q6 & Q7). cbn [fst snd].
  split; [reflexivity|]. split; [reflexivity|].
  assert (S1 : snd (magma_set_asn1_parameters (ae_x a)) = Ty_sequence (i2d_2015_params (iv ++ rnd1))).
  { unfold magma_set_asn1_parameters, gost2015_set_asn1_params. cbn [x_evp x_seed with_mesh e_oiv snd].
    rewrite Q2, Q4. assert (T : e_oiv (ctr_start true None g1 ke iv true) = overwrite (zeros 8) 0 (firstn 4 iv)) by exact eq_refl.
    rewrite T, I1, I2, (firstn_all2 rnd1) by (destruct Hr; lia). reflexivity. }
  rewrite S1.
  assert (D : d2i_2015_params (i2d_2015_params (iv ++ rnd1)) = Some (iv ++ rnd1)).
  { apply d2i_i2d_2015. rewrite app_length. destruct Hi, Hr. lia. }
  assert (Lu : length (iv ++ rnd1) = 12%nat) by (rewrite app_length; destruct Hi, Hr; lia).
  assert (R : magma_get_asn1_parameters (ae_x mo_new) (Ty_sequence (i2d_2015_params (iv ++ rnd1))) =
    (1%Z, mk_cctx (mk_evp (gost_init g2 Gost28147_TC26ParamSetZ) 0 8192 true (iv ++ zeros 4) (iv ++ zeros 4) (zeros 32) 0 false false) (Some P_Z) rnd1)).
  { unfold magma_get_asn1_parameters.
    destruct (get_2015_spec (Ty_sequence (i2d_2015_params (iv ++ rnd1))) 12 4
      (x_seed (mk_cctx (with_mesh (x_evp (ae_x mo_new)) 8192) (x_param (ae_x mo_new)) (x_seed (ae_x mo_new))))
      ltac:(lia) ltac:(lia)) as [(b' & u & E1 & E2 & E3 & G)|[B _]].
    2:{ exfalso. exact (B _ _ eq_refl D Lu). }
    injection E1 as <-. rewrite D in E2. injection E2 as <-. cbv zeta. rewrite G.
    rewrite (firstn_app_exact 4 iv), (skipn_app_exact 4 iv) by exact (proj1 Hi). change (16 - 4)%nat with 12%nat. rewrite I3. reflexivity. }
  rewrite R. cbn [fst snd]. split; [reflexivity|].
  unfold ae_init, gost2015_acpkm_omac_init. cbn [ae_x su_seed magma_suite x_seed].
  rewrite (firstn_all2 k), (firstn_all2 rnd1) by (destruct Hk, Hr; lia). rewrite kdf_64 by auto. fold (key_mac k rnd1). fold (key_enc k rnd1). fold ke km.
  destruct (omac_set_key magma_cbc_cipher (omac_init magma_cbc_cipher) f2 0 km) as [r2 o2] eqn:Es.
  pose proof (om_set_key magma_suite magma_E magma_ok magma_fresh ltac:(cbn; lia) ltac:(cbn; lia) magma_E_ok magma_H_key magma_H_iv magma_H_do magma_mac_len magma_mac_bytes
     f2 km r2 o2 F2 Km Es) as [-> Om].
  cbn [su_mac magma_suite]. rewrite Es. cbn [Z.ltb Z.compare fst snd ae_x ae_omac ae_tag]. clear Es. clearbody ke km.
  split; [reflexivity|]. split.
  { unfold magma_set_asn1_parameters. cbn [fst snd x_evp]. rewrite Q4.
    unfold ctr_start, ctl_key_mesh. assert (Cn : e_count (magma_start 4 true g1 ke iv true) = 0) by exact eq_refl. rewrite Cn. reflexivity. }
  split; [exact Q3|]. split; [exists o; auto|]. split; [|split; [reflexivity|exists o2; auto]].
  cbn [magma_suite su_init su_with_seed x_evp]. unfold ctr_start, magma_start, x_init_magma, magma_cipher_init, init_iv, gost_cipher_set_param, fresh_evp.
  cbn [x_evp x_param x_seed with_enc with_app with_g with_oiv with_iv with_count with_mesh e_app e_g e_oiv e_iv e_count e_mesh e_buf e_num e_enc e_abort].
  rewrite I2, I5, I1, I2, I4. reflexivity.
Qed.
End MagmaCms.
Lemma magma_ctr_agree s1 s2 k iv m : (s1 = 0 \/ N.of_nat (length m) <= s1) -> (s2 = 0 \/ N.of_nat (length m) <= s2) ->
  magma_ctr SZ s1 k iv m = magma_ctr SZ s2 k iv m.
Proof. intros A B. unfold magma_ctr. apply (cs_sections (rfc8891_encrypt SZ) 8 k (be2n (iv ++ zeros 4))); [lia|exact A|exact B]. Qed.
Lemma sec8192 : sections_ok (Some 8192). Proof. split; reflexivity. Qed.
Lemma sec_none : sections_ok None. Proof. split; reflexivity. Qed.
(** The sender's message and what the receiver makes of it. *)
Lemma mo_messages h1 h2 g1 g2 f1 f2 nd rnd0 rnd1 rnd2 rnd3 rnd4 rnd5 tag1 tag2 k iv chunks1 chunks2 attrs0 :
  mo_ok g1 g2 f1 f2 rnd1 tag1 tag2 k iv -> Forall bytes chunks1 -> Forall bytes chunks2 -> no_mac attrs0 ->
  N.of_nat (length (concat chunks1)) <= 1024 ->
  let sender := mo_sender h1 g1 f1 rnd0 rnd1 rnd2 tag1 k iv in
  let receiver := mo_receiver h1 h2 g1 g2 f1 f2 rnd0 rnd1 rnd2 rnd3 rnd4 rnd5 tag1 tag2 k iv in
  let mac := omac (rfc8891_encrypt SZ (key_mac k rnd1)) 8 in
  exists r1 attrs,
    ae_run magma_suite nd sender (map AUpdate chunks1 ++ [AFinal; AAttrs 1 (Some attrs0)]) = r1 ++ [RBytes 0 []; RAttrs 1 (Some attrs)] /\
    (concat chunks2 = out_bytes r1 ->
     exists r2 r, ae_run magma_suite nd receiver (AAttrs 0 (Some attrs) :: map AUpdate chunks2 ++ [AFinal]) = RAttrs 1 (Some attrs) :: r2 ++ [RBytes r []] /\
       out_bytes r2 = concat chunks1 /\ (r = 0%Z \/ r = (-1)%Z) /\
       (r = 0%Z <-> tag_of (magma_ctr SZ 8192 (key_enc k rnd1) iv) mac (concat chunks1) = tag_of (magma_ctr SZ 1024 (key_enc k rnd1) iv) mac (concat chunks1))).
Proof.
  intros Ok C1 C2 Na Lb. cbv zeta.
  pose proof (mo_facts h1 h2 g1 g2 f1 f2 rnd0 rnd1 rnd2 rnd3 rnd4 rnd5 tag1 tag2 k iv Ok) as (_ & _ & _ & _ & E1 & E2 & (o1 & E3 & E4) & D1 & D2 & (o2 & D3 & D4)).
  destruct Ok as (G1 & G2 & F1 & F2 & Hk & Hi & Hr & T1 & T2). pose proof (keys_ok k rnd1 (proj2 Hk) (proj2 Hr)) as [Ke Km].
  set (sender := mo_sender h1 g1 f1 rnd0 rnd1 rnd2 tag1 k iv) in *. set (receiver := mo_receiver h1 h2 g1 g2 f1 f2 rnd0 rnd1 rnd2 rnd3 rnd4 rnd5 tag1 tag2 k iv) in *.
  set (ke := key_enc k rnd1) in *. set (km := key_mac k rnd1) in *. clearbody sender receiver ke km.
  refine (differing magma_suite nd (magma_ctr SZ 8192 ke iv) (magma_ctr SZ 1024 ke iv) (omac (rfc8891_encrypt SZ km) 8) 8 (N.to_nat 1024) tag1 tag2 sender receiver
    (magma_ctr_len _ _ _) (magma_ctr_bytes _ _ _) _ (magma_ctr_twice _ _ _) (magma_ctr_len _ _ _) (magma_ctr_bytes _ _ _) _ (magma_ctr_twice _ _ _) _ _ _ _ _ chunks1 chunks2 attrs0 C1 C2 Na _).
  - apply magma_pre; auto; reflexivity.
  - apply magma_pre; auto; reflexivity.
  - intros m _. apply magma_mac_len. exact Km.
  - intros m Bm. apply magma_mac_bytes; auto.
  - intros ops Ho. exact (magma_started_run g1 nd tag1 (Some 8192) ke km iv true ops sender o1 G1 Hi T1 sec8192 Ho Ke Km E1 E2 E3 E4).
  - intros ops Ho. exact (magma_started_run g2 nd tag2 None ke km iv false ops receiver o2 G2 Hi T2 sec_none Ho Ke Km D1 D2 D3 D4).
  - intros m L. apply magma_ctr_agree; right; lia.
  - lia.
Qed.
(** Messages of at most 1016 bytes arrive and are accepted, in any chunks on both sides. *)
Theorem C52_magma_cms_message_survives :
  forall h1 h2 g1 g2 f1 f2 nd rnd0 rnd1 rnd2 rnd3 rnd4 rnd5 tag1 tag2 k iv chunks1 chunks2 attrs0,
    mo_ok g1 g2 f1 f2 rnd1 tag1 tag2 k iv -> Forall bytes chunks1 -> Forall bytes chunks2 -> no_mac attrs0 ->
    let sender := mo_sender h1 g1 f1 rnd0 rnd1 rnd2 tag1 k iv in
    let receiver := mo_receiver h1 h2 g1 g2 f1 f2 rnd0 rnd1 rnd2 rnd3 rnd4 rnd5 tag1 tag2 k iv in
    fst (magma_sender_init h1 g1 f1 rnd0 rnd1 rnd2 tag1 k iv) = 1%Z /\ fst (fst (mo_sent h1 g1 f1 rnd0 rnd1 rnd2 tag1 k iv)) = 1%Z /\
    fst (mo_read h1 h2 g1 g2 f1 f2 rnd0 rnd1 rnd2 rnd3 tag1 tag2 k iv) = 1%Z /\
    fst (mo_receiver_init h1 h2 g1 g2 f1 f2 rnd0 rnd1 rnd2 rnd3 rnd4 rnd5 tag1 tag2 k iv) = 1%Z /\
    (N.of_nat (length (concat chunks1)) + 8 <= 1024 ->
     exists r1 attrs,
      ae_run magma_suite nd sender (map AUpdate chunks1 ++ [AFinal; AAttrs 1 (Some attrs0)]) = r1 ++ [RBytes 0 []; RAttrs 1 (Some attrs)] /\
      (concat chunks2 = out_bytes r1 ->
       exists r2, ae_run magma_suite nd receiver (AAttrs 0 (Some attrs) :: map AUpdate chunks2 ++ [AFinal])
                    = RAttrs 1 (Some attrs) :: r2 ++ [RBytes 0 []] /\ out_bytes r2 = concat chunks1)) /\
    (* ... longer ones too if the receiver then sets the section size to 8192 with EVP_CTRL_KEY_MESH. *)
    exists r1 attrs,
      ae_run magma_suite nd sender (map AUpdate chunks1 ++ [AFinal; AAttrs 1 (Some attrs0)]) = r1 ++ [RBytes 0 []; RAttrs 1 (Some attrs)] /\
      (concat chunks2 = out_bytes r1 ->
       exists r2, ae_run magma_suite nd (magma_mesh (Some 8192) receiver) (AAttrs 0 (Some attrs) :: map AUpdate chunks2 ++ [AFinal])
                    = RAttrs 1 (Some attrs) :: r2 ++ [RBytes 0 []] /\ out_bytes r2 = concat chunks1).
Proof.
  intros h1 h2 g1 g2 f1 f2 nd rnd0 rnd1 rnd2 rnd3 rnd4 rnd5 tag1 tag2 k iv chunks1 chunks2 attrs0 Ok C1 C2 Na. cbv zeta.
  pose proof (mo_facts h1 h2 g1 g2 f1 f2 rnd0 rnd1 rnd2 rnd3 rnd4 rnd5 tag1 tag2 k iv Ok) as (R1 & R2 & R3 & R4 & E1 & E2 & (o1 & E3 & E4) & D1 & D2 & (o2 & D3 & D4)).
  split; [exact R1|]. split; [exact R2|]. split; [exact R3|]. split; [exact R4|].
  destruct Ok as (G1 & G2 & F1 & F2 & Hk & Hi & Hr & T1 & T2) eqn:Eo. pose proof (keys_ok k rnd1 (proj2 Hk) (proj2 Hr)) as [Ke Km]. split.
  - intros Lb. destruct (mo_messages h1 h2 g1 g2 f1 f2 nd rnd0 rnd1 rnd2 rnd3 rnd4 rnd5 tag1 tag2 k iv chunks1 chunks2 attrs0 Ok C1 C2 Na ltac:(lia)) as (r1 & attrs & S & R).
    exists r1, attrs. split; [exact S|]. intros E. destruct (R E) as (r2 & r & X1 & X2 & X3 & X4). exists r2.
    assert (X : r = 0%Z).
    { apply X4. apply (same_tag (magma_ctr SZ 8192 (key_enc k rnd1) iv) _ _ 8 (N.to_nat 1024)).
      - intros m _. apply magma_mac_len. exact Km.
      - intros m L. apply magma_ctr_agree; right; lia.
      - apply cb; auto.
      - lia. }
    rewrite X in X1. split; [exact X1|exact X2].
  - clear Eo.
    set (sender := mo_sender h1 g1 f1 rnd0 rnd1 rnd2 tag1 k iv) in *. set (receiver := mo_receiver h1 h2 g1 g2 f1 f2 rnd0 rnd1 rnd2 rnd3 rnd4 rnd5 tag1 tag2 k iv) in *.
    set (ke := key_enc k rnd1) in *. set (km := key_mac k rnd1) in *. clearbody sender receiver ke km.
    assert (D1' : x_evp (ae_x (magma_mesh (Some 8192) receiver)) = ctr_start true (Some 8192) g2 ke iv false).
    { cbn [magma_mesh ae_x x_evp]. rewrite D1. unfold ctr_start. reflexivity. }
    refine (roundtrip magma_suite nd (magma_ctr SZ 8192 ke iv) (omac (rfc8891_encrypt SZ km) 8) 8 tag1 tag2 sender (magma_mesh (Some 8192) receiver)
      (magma_ctr_len _ _ _) (magma_ctr_bytes _ _ _) _ (magma_ctr_twice _ _ _) _ _ _ _ chunks1 chunks2 attrs0 C1 C2 Na).
    + apply magma_pre; auto; reflexivity.
    + intros m _. apply magma_mac_len. exact Km.
    + intros m Bm. apply magma_mac_bytes; auto.
    + intros ops Ho. exact (magma_started_run g1 nd tag1 (Some 8192) ke km iv true ops sender o1 G1 Hi T1 sec8192 Ho Ke Km E1 E2 E3 E4).
    + intros ops Ho. exact (magma_started_run g2 nd tag2 (Some 8192) ke km iv false ops (magma_mesh (Some 8192) receiver) o2 G2 Hi T2 sec8192 Ho Ke Km D1' D2 D3 D4).
Qed.
(** The tag after a text of whole blocks, in the section of that block. *)
Lemma magma_tag_last sect ke iv (mac : list N -> list N) n m : length m = (8 * n)%nat -> length (mac m) = 8%nat ->
  tag_of (magma_ctr SZ sect ke iv) mac m =
  xorl (mac m) (rfc8891_encrypt SZ (acpkm_key (rfc8891_encrypt SZ) 8 ke (section_no 8 sect n)) (n2be 8 (be2n (iv ++ zeros 4) + N.of_nat n))).
Proof.
  intros L Lm. unfold tag_of, next_piece, magma_ctr. rewrite L.
  pose proof (cs_last (rfc8891_encrypt SZ) 8 (section_no 8 sect) ke (be2n (iv ++ zeros 4)) ltac:(lia)
    (fun kn c j => rfc8891_encrypt_length SZ _ _) n 0 (m ++ mac m) ltac:(rewrite app_length; lia)) as Q.
  rewrite Nat.add_0_l, (skipn_app_exact (8 * n) m) in Q by exact L. exact Q.
Qed.
Lemma xorl_inj : forall n x a b, length a = n -> length b = n -> length x = n -> xorl x a = xorl x b -> a = b.
Proof.
  induction n as [|n IH]; intros [|x xs] [|a aa] [|b bb] La Lb Lx H; cbn in *; try lia; [reflexivity|].
  injection H as H1 H2. f_equal; [|apply (IH xs); auto; lia].
  rewrite <- (N.lxor_0_l a), <- (N.lxor_0_l b), <- (N.lxor_nilpotent x), !N.lxor_assoc, H1. reflexivity.
Qed.
Definition seed_demo : list N := [1; 2; 3; 4; 5; 6; 7; 8].
(** The cipher key derived from [kdemo] and [seed_demo]: only the first half of the key material is needed. *)
Definition ke_demo : list N :=
  [70; 199; 73; 177; 160; 234; 79; 196; 67; 160; 116; 133; 83; 151; 22; 189; 237; 180; 97; 130; 186; 132; 69; 62; 138; 73; 114; 89; 177; 90; 213; 202].
Lemma key_enc_first k s : bytes k -> bytes s ->
  key_enc k s = hmac256 k (n2be 1 1 ++ ascii_bytes "kdf tree" ++ [0] ++ s ++ min_be 512).
Proof.
  intros Bk Bs. unfold key_enc, kdf_tree. cbn [seq map concat]. apply firstn_app_exact.
  refine (proj1 (hmac256_ok k _ Bk _)). apply bytes_app; [apply n2be_bytes|]. apply bytes_app; [apply bytes_forallb; reflexivity|].
  apply bytes_app; [apply bytes_forallb; reflexivity|]. apply bytes_app; [exact Bs|apply n2be_bytes].
Qed.
Lemma ke_demo_ok : key_enc kdemo seed_demo = ke_demo.
Proof.
  rewrite key_enc_first by (apply bytes_forallb; vm_compute; reflexivity). vm_compute. reflexivity.
Qed.
(** Defect: the receiver's init, which follows the reading of the parameters, sets the section size back to 1024, while the
    sender has set it to 8192 after its init: every text of 1024 bytes is decrypted, but its genuine tag is rejected. *)
Theorem C52_magma_cms_1024_bytes_refuted :
  forall h1 h2 g1 g2 f1 f2 nd rnd0 rnd2 rnd3 rnd4 rnd5 tag1 tag2 m attrs0,
    let k := kdemo in let iv := zeros 4 in
    rng_ok (g_rng g1) -> rng_ok (g_rng g2) -> magma_fresh f1 -> magma_fresh f2 -> bytes tag1 -> bytes tag2 ->
    bytes m -> N.of_nat (length m) = 1024 -> no_mac attrs0 ->
    let sender := mo_sender h1 g1 f1 rnd0 seed_demo rnd2 tag1 k iv in
    let receiver := mo_receiver h1 h2 g1 g2 f1 f2 rnd0 seed_demo rnd2 rnd3 rnd4 rnd5 tag1 tag2 k iv in
    exists c attrs,
      ae_run magma_suite nd sender [AUpdate m; AFinal; AAttrs 1 (Some attrs0)] = [RBytes 1024 c; RBytes 0 []; RAttrs 1 (Some attrs)] /\
      ae_run magma_suite nd receiver [AAttrs 0 (Some attrs); AUpdate c; AFinal] = [RAttrs 1 (Some attrs); RBytes 1024 m; RBytes (-1) []].
Proof.
  intros h1 h2 g1 g2 f1 f2 nd rnd0 rnd2 rnd3 rnd4 rnd5 tag1 tag2 m attrs0. cbv zeta. intros G1 G2 F1 F2 T1 T2 Bm Lm Na.
  assert (Ok : mo_ok g1 g2 f1 f2 seed_demo tag1 tag2 kdemo (zeros 4)).
  { unfold mo_ok. split; [exact G1|]. split; [exact G2|]. split; [exact F1|]. split; [exact F2|].
    split; [split; [reflexivity|apply bytes_forallb; vm_compute; reflexivity]|]. split; [apply blkn_zeros|].
    split; [split; [reflexivity|apply bytes_forallb; reflexivity]|]. split; [exact T1|exact T2]. }
  pose proof (mo_facts h1 h2 g1 g2 f1 f2 rnd0 seed_demo rnd2 rnd3 rnd4 rnd5 tag1 tag2 kdemo (zeros 4) Ok) as (_ & _ & _ & _ & E1 & E2 & (o1 & E3 & E4) & D1 & D2 & (o2 & D3 & D4)).
  pose proof (keys_ok kdemo seed_demo ltac:(apply bytes_forallb; vm_compute; reflexivity) ltac:(apply bytes_forallb; reflexivity)) as [Ke Km].
  set (sender := mo_sender h1 g1 f1 rnd0 seed_demo rnd2 tag1 kdemo (zeros 4)) in *.
  set (receiver := mo_receiver h1 h2 g1 g2 f1 f2 rnd0 seed_demo rnd2 rnd3 rnd4 rnd5 tag1 tag2 kdemo (zeros 4)) in *.
  rewrite ke_demo_ok in *. set (km := key_mac kdemo seed_demo) in *. clearbody sender receiver km.
  pose proof (fun ops Ho => magma_started_run g1 nd tag1 (Some 8192) ke_demo km (zeros 4) true ops sender o1 G1 (blkn_zeros 4) T1 sec8192 Ho Ke Km E1 E2 E3 E4) as HE.
  pose proof (fun ops Ho => magma_started_run g2 nd tag2 None ke_demo km (zeros 4) false ops receiver o2 G2 (blkn_zeros 4) T2 sec_none Ho Ke Km D1 D2 D3 D4) as HD.
  cbv iota in HE, HD. cbn [section_size] in HE, HD. clear E1 E2 E3 E4 D1 D2 D3 D4 o1 o2.
  assert (Hn : exists n, N.of_nat n = 128 /\ length m = (8 * n)%nat) by (exists (N.to_nat 128); split; lia). destruct Hn as (n & Nn & Ln).
  set (mac := omac (rfc8891_encrypt SZ km) 8) in *.
  assert (Lmac : forall x, length (mac x) = 8%nat) by (intro x; apply (magma_mac_len km); exact Km).
  assert (Bmac : forall x, bytes x -> bytes (mac x)) by (intros x Bx; apply (magma_mac_bytes km); auto).
  assert (Dt : tag_of (magma_ctr SZ 8192 ke_demo (zeros 4)) mac m <> tag_of (magma_ctr SZ 1024 ke_demo (zeros 4)) mac m).
  { rewrite !(magma_tag_last _ _ _ _ n) by auto. intro X.
    apply (xorl_inj 8) in X; [|apply rfc8891_encrypt_length|apply rfc8891_encrypt_length|apply Lmac].
    assert (S1 : section_no 8 8192 n = 0%nat) by (unfold section_no; rewrite Nn; reflexivity).
    assert (S2 : section_no 8 1024 n = 1%nat) by (unfold section_no; rewrite Nn; reflexivity).
    rewrite S1, S2, Nn in X.
    assert (Q : eqbl (rfc8891_encrypt SZ ke_demo (n2be 8 128)) (rfc8891_encrypt SZ (acpkm_key (rfc8891_encrypt SZ) 8 ke_demo 1) (n2be 8 128)) = false)
      by (vm_compute; reflexivity).
    apply eqbl_neq in Q. apply Q. exact X. }
  clearbody mac. set (F1' := magma_ctr SZ 8192 ke_demo (zeros 4)) in *. set (F2' := magma_ctr SZ 1024 ke_demo (zeros 4)) in *.
  assert (A : F1' m = F2' m) by (apply magma_ctr_agree; right; lia).
  assert (I2 : forall x, F2' (F2' x) = x) by (intro; apply magma_ctr_twice).
  assert (B1 : bytes (F1' m)) by (apply magma_ctr_bytes; exact Bm).
  assert (L1 : forall x, length (F1' x) = length x) by (intro; apply magma_ctr_len).
  assert (By1 : forall x, bytes x -> bytes (F1' x)) by (intro; apply magma_ctr_bytes).
  assert (L2 : forall x, length (F2' x) = length x) by (intro; apply magma_ctr_len).
  assert (By2 : forall x, bytes x -> bytes (F2' x)) by (intro; apply magma_ctr_bytes).
  assert (P1 : forall a b, bytes a -> bytes b -> F1' (a ++ b) = F1' a ++ next_piece F1' a b) by (apply magma_pre; auto using blkn_zeros; reflexivity).
  assert (P2 : forall a b, bytes a -> bytes b -> F2' (a ++ b) = F2' a ++ next_piece F2' a b) by (apply magma_pre; auto using blkn_zeros; reflexivity).
  assert (I1 : forall x, F1' (F1' x) = x) by (intro; apply magma_ctr_twice).
  clearbody F1' F2'.
  exists (F1' m). eexists. 
  assert (X1 : Forall bytes [m]) by (constructor; [exact Bm|constructor]).
  assert (X2 : Forall bytes [F1' m]) by (constructor; [exact B1|constructor]).
  pose proof (piece_bytes F1' By1 m (mac m) Bm (Bmac m Bm)) as Bt.
  pose proof (piece_len F1' mac 8 L1 By1 P1 I1 (fun x _ => Lmac x) Bmac m (mac m)) as Lt. rewrite Lmac in Lt. fold (tag_of F1' mac m) in Bt, Lt.
  split.
  - rewrite HE. 2:{ constructor; [exact Bm|]. constructor; [exact I|]. constructor; [|constructor].
      intros v Hv. unfold get0_mac in Hv. rewrite (no_mac_filter attrs0 Na) in Hv. congruence. }
    cbn [spec_run enc_step spec_attrs Z.eqb spec_start s_fed s_text s_tag app]. fold (tag_of F1' mac m).
    rewrite firstn_all2 by (rewrite Lt; auto). rewrite <- nat_N_Z, Lm. reflexivity.
  - rewrite HD. 2:{ constructor; [intros v Hv; rewrite (no_mac_get attrs0 _ Na) in Hv; congruence|]. constructor; [exact B1|]. constructor; [exact I|constructor]. }
    cbn [spec_run dec_step spec_attrs Z.eqb]. rewrite (no_mac_get attrs0 _ Na).
    destruct (Nat.eq_dec (length (tag_of F1' mac m)) 8) as [_|Y]; [|contradiction].
    cbn [s_fed s_text s_tag spec_start app]. rewrite piece_nil, A, I2, L2, <- nat_N_Z, Lm, firstn_all2 by (rewrite Lt; auto).
    destruct (list_eq_dec N.eq_dec (next_piece F2' (F2' m) (tag_of F1' mac m)) (mac m)) as [Y|Y]; [|reflexivity].
    exfalso. apply Dt. unfold tag_of at 2. rewrite <- Y.
    pose proof (P2 (F2' m) (tag_of F1' mac m) ltac:(auto) Bt) as W. apply (f_equal F2') in W. rewrite !I2 in W.
    rewrite (P2 m) in W by (auto; rewrite Y; auto). apply app_inv_head in W. exact W.
Qed.

(** * kuznyechik-ctr-acpkm-omac *)
Section KuzCms.
Variables (h1 h2 : host) (rnd0 rnd1 rnd2 rnd3 rnd4 rnd5 tag1 tag2 k iv : list N).
Definition ko_keyed := snd (kuz_sender_init h1 rnd0 rnd1 rnd2 tag1 k iv).
Definition ko_sent := grasshopper_set_asn1_parameters true (ae_x ko_keyed).
Definition ko_sender : aead kuz_suite := mk_aead (S := kuz_suite) (snd (fst ko_sent)) (ae_omac ko_keyed) (ae_tag ko_keyed).
Definition ko_new := kuz_new h2 rnd3 (zeros 8) tag2 false.
Definition ko_read := grasshopper_get_asn1_parameters true (ae_x ko_new) (match snd ko_sent with Some a => a | None => Ty_other end).
Definition ko_receiver_init := ae_init kuz_suite h2 kctx0 (Some rnd4) rnd5 (mk_aead (S := kuz_suite) (snd ko_read) (ae_omac ko_new) (ae_tag ko_new)) (Some k) None false.
Definition ko_receiver := snd ko_receiver_init.
Definition ko_ok : Prop := blkn 32 k /\ blkn 8 iv /\ blkn 8 rnd1 /\ bytes tag1 /\ bytes tag2.
Let ke := key_enc k rnd1.
Let km := key_mac k rnd1.
Lemma ko_facts : ko_ok ->
  fst (kuz_sender_init h1 rnd0 rnd1 rnd2 tag1 k iv) = 1%Z /\ fst (fst ko_sent) = 1%Z /\ fst ko_read = 1%Z /\ fst ko_receiver_init = 1%Z /\
  y_k (ae_x ko_sender) = acpkm_start (init_ctracpkm kctx0 None None true) (Some 262144%Z) ke iv true /\ ae_tag ko_sender = tag1 /\
  (exists o, ae_omac ko_sender = Some o /\ om_for kuz_suite E_ kuz_ok km nil o) /\
  y_k (ae_x ko_receiver) = acpkm_start (kc_mid true iv) None ke iv false /\ ae_tag ko_receiver = tag2 /\
  (exists o, ae_omac ko_receiver = Some o /\ om_for kuz_suite E_ kuz_ok km nil o).
Proof.
  intros (Hk & Hi & Hr & T1 & T2). destruct (iv8_shape iv (proj1 Hi)) as (I1 & I2 & I3 & I4).
  pose proof (keys_ok k rnd1 (proj2 Hk) (proj2 Hr)) as [Ke Km]. fold ke in Ke. fold km in Km.
  pose proof (kuz_keyed h1 rnd0 rnd1 rnd2 (zeros 8) tag1 None k iv true Hk Hr (blkn_zeros 8)) as Q.
  unfold ko_receiver, ko_receiver_init, ko_read, ko_sender, ko_sent, ko_keyed. unfold kuz_sender_init.
  destruct (ae_init kuz_suite h1 kctx0 (Some rnd1) rnd2 (kuz_new h1 rnd0 (zeros 8) tag1 true) (Some k) (Some iv) true) as [r a].
  cbv zeta in Q. cbn [kuz_mesh] in Q. fold ke km in Q. destruct Q as (-> & Q2 & Q3 & Q4 & Q5 & o & Q6 & Q7). cbn [fst snd].
  split; [reflexivity|]. split; [reflexivity|].
  assert (S1 : snd (grasshopper_set_asn1_parameters true (ae_x a)) = Some (Ty_sequence (i2d_2015_params (iv ++ rnd1)))).
  { unfold grasshopper_set_asn1_parameters, gost2015_set_asn1_params. cbn [y_k y_seed snd].
    rewrite Q2, Q4. assert (T : k_oiv (kw_sect (acpkm_start (init_ctracpkm kctx0 None None true) None ke iv true) 262144) = overwrite (zeros 16) 0 (firstn 8 iv)) by exact eq_refl.
    rewrite T, I1, I2, (firstn_all2 rnd1) by (destruct Hr; lia). reflexivity. }
  rewrite S1.
  assert (D : d2i_2015_params (i2d_2015_params (iv ++ rnd1)) = Some (iv ++ rnd1)).
  { apply d2i_i2d_2015. rewrite app_length. destruct Hi, Hr. lia. }
  assert (Lu : length (iv ++ rnd1) = 16%nat) by (rewrite app_length; destruct Hi, Hr; lia).
  assert (R : grasshopper_get_asn1_parameters true (ae_x ko_new) (Ty_sequence (i2d_2015_params (iv ++ rnd1))) = (1%Z, mk_kcctx (kc_mid true iv) rnd1 true)).
  { destruct (C44_kuz_get_exact (ae_x ko_new) (Ty_sequence (i2d_2015_params (iv ++ rnd1)))) as [(b & u & E1 & E2 & E3 & G)|[B _]].
    2:{ exfalso. exact (B _ _ eq_refl D Lu). }
    injection E1 as <-. rewrite D in E2. injection E2 as <-. rewrite G.
    rewrite (firstn_app_exact 8 iv), (skipn_app_exact 8 iv) by exact (proj1 Hi). unfold kc_mid. reflexivity. }
  rewrite R. cbn [fst snd]. split; [reflexivity|].
  unfold ae_init, gost2015_acpkm_omac_init. cbn [ae_x su_seed kuz_suite y_seed].
  rewrite (firstn_all2 k), (firstn_all2 rnd1) by (destruct Hk, Hr; lia). rewrite kdf_64 by auto. fold (key_mac k rnd1). fold (key_enc k rnd1). fold ke km.
  destruct (omac_set_key kuz_cbc_cipher (omac_init kuz_cbc_cipher) kctx0 0 km) as [r2 o2] eqn:Es.
  pose proof (om_set_key kuz_suite E_ kuz_ok kuz_fresh ltac:(cbn; lia) ltac:(cbn; lia) kuz_E_ok kuz_H_key kuz_H_iv kuz_H_do kuz_mac_len kuz_mac_bytes
     kctx0 km r2 o2 eq_refl Km Es) as [-> Om].
  cbn [su_mac kuz_suite]. rewrite Es. cbn [Z.ltb Z.compare fst snd ae_x ae_omac ae_tag]. clear Es. clearbody ke km.
  split; [reflexivity|]. split.
  { unfold grasshopper_set_asn1_parameters. cbn [fst snd y_k]. rewrite Q4. reflexivity. }
  split; [exact Q3|]. split; [exists o; auto|]. split; [|split; [reflexivity|exists o2; auto]].
  cbn [kuz_suite su_init su_with_seed y_k]. unfold acpkm_start, init_ctracpkm. apply init_no_iv; [exact (proj1 Hi)|reflexivity].
Qed.
End KuzCms.
Lemma kuz_ctr_agree s1 s2 k iv m : (s1 = 0 \/ N.of_nat (length m) <= s1) -> (s2 = 0 \/ N.of_nat (length m) <= s2) ->
  kuz_ctr s1 k iv m = kuz_ctr s2 k iv m.
Proof. intros A B. unfold kuz_ctr. apply (cs_sections E_ 16 k (be2n (iv ++ zeros 8))); [lia|exact A|exact B]. Qed.
Lemma sec262144 : sect_arg_ok (Some 262144%Z). Proof. split; [lia|reflexivity]. Qed.
(** Messages of at most 4080 bytes arrive and are accepted, in any chunks on both sides. *)
Theorem C52_kuznyechik_cms_message_survives :
  forall h1 h2 nd rnd0 rnd1 rnd2 rnd3 rnd4 rnd5 tag1 tag2 k iv chunks1 chunks2 attrs0,
    ko_ok rnd1 tag1 tag2 k iv -> Forall bytes chunks1 -> Forall bytes chunks2 -> no_mac attrs0 ->
    let sender := ko_sender h1 rnd0 rnd1 rnd2 tag1 k iv in
    let receiver := ko_receiver h1 h2 rnd0 rnd1 rnd2 rnd3 rnd4 rnd5 tag1 tag2 k iv in
    fst (kuz_sender_init h1 rnd0 rnd1 rnd2 tag1 k iv) = 1%Z /\ fst (fst (ko_sent h1 rnd0 rnd1 rnd2 tag1 k iv)) = 1%Z /\
    fst (ko_read h1 h2 rnd0 rnd1 rnd2 rnd3 tag1 tag2 k iv) = 1%Z /\
    fst (ko_receiver_init h1 h2 rnd0 rnd1 rnd2 rnd3 rnd4 rnd5 tag1 tag2 k iv) = 1%Z /\
    (N.of_nat (length (concat chunks1)) + 16 <= 4096 ->
     exists r1 attrs,
      ae_run kuz_suite nd sender (map AUpdate chunks1 ++ [AFinal; AAttrs 1 (Some attrs0)]) = r1 ++ [RBytes 0 []; RAttrs 1 (Some attrs)] /\
      (concat chunks2 = out_bytes r1 ->
       exists r2, ae_run kuz_suite nd receiver (AAttrs 0 (Some attrs) :: map AUpdate chunks2 ++ [AFinal])
                    = RAttrs 1 (Some attrs) :: r2 ++ [RBytes 0 []] /\ out_bytes r2 = concat chunks1)) /\
    (* ... longer ones too if the receiver then sets the section size with EVP_CTRL_KEY_MESH. *)
    exists r1 attrs,
      ae_run kuz_suite nd sender (map AUpdate chunks1 ++ [AFinal; AAttrs 1 (Some attrs0)]) = r1 ++ [RBytes 0 []; RAttrs 1 (Some attrs)] /\
      (concat chunks2 = out_bytes r1 ->
       exists r2, ae_run kuz_suite nd (kuz_mesh (Some 262144%Z) receiver) (AAttrs 0 (Some attrs) :: map AUpdate chunks2 ++ [AFinal])
                    = RAttrs 1 (Some attrs) :: r2 ++ [RBytes 0 []] /\ out_bytes r2 = concat chunks1).
Proof.
  intros h1 h2 nd rnd0 rnd1 rnd2 rnd3 rnd4 rnd5 tag1 tag2 k iv chunks1 chunks2 attrs0 Ok C1 C2 Na. cbv zeta.
  pose proof (ko_facts h1 h2 rnd0 rnd1 rnd2 rnd3 rnd4 rnd5 tag1 tag2 k iv Ok) as (R1 & R2 & R3 & R4 & E1 & E2 & (o1 & E3 & E4) & D1 & D2 & (o2 & D3 & D4)).
  split; [exact R1|]. split; [exact R2|]. split; [exact R3|]. split; [exact R4|].
  destruct Ok as (Hk & Hi & Hr & T1 & T2). pose proof (keys_ok k rnd1 (proj2 Hk) (proj2 Hr)) as [Ke Km].
  destruct (kuz_c1_ok true) as [O1 Z1]. destruct (kc_mid_ok true iv (proj1 Hi)) as [O2 Z2].
  set (sender := ko_sender h1 rnd0 rnd1 rnd2 tag1 k iv) in *. set (receiver := ko_receiver h1 h2 rnd0 rnd1 rnd2 rnd3 rnd4 rnd5 tag1 tag2 k iv) in *.
  set (ke := key_enc k rnd1) in *. set (km := key_mac k rnd1) in *. clearbody sender receiver ke km.
  pose proof (fun ops Ho => kuz_started_run nd tag1 (Some 262144%Z) _ ke km iv true ops sender o1 O1 Z1 Hi T1 sec262144 Ho Ke Km E1 E2 E3 E4) as HE.
  pose proof (fun ops Ho => kuz_started_run nd tag2 None _ ke km iv false ops receiver o2 O2 Z2 Hi T2 I Ho Ke Km D1 D2 D3 D4) as HD.
  cbv iota in HE, HD. change (acpkm_section (Some 262144%Z)) with 262144 in HE. change (acpkm_section None) with 4096 in HD.
  assert (Ml : forall m, bytes m -> length (omac (E_ km) 16 m) = 16%nat) by (intros m _; apply kuz_mac_len; exact Km).
  assert (Mb : forall m, bytes m -> bytes (omac (E_ km) 16 m)) by (intros m Bm; apply kuz_mac_bytes; auto).
  pose proof (kuz_pre (Some 262144%Z) ke iv Ke Hi sec262144) as P1. change (acpkm_section (Some 262144%Z)) with 262144 in P1.
  pose proof (kuz_pre None ke iv Ke Hi I) as P2. change (acpkm_section None) with 4096 in P2.
  split.
  - intros Lb.
    assert (Ag : forall m, (length m <= N.to_nat 4096)%nat -> kuz_ctr 262144 ke iv m = kuz_ctr 4096 ke iv m) by (intros m L; apply kuz_ctr_agree; right; lia).
    destruct (differing kuz_suite nd (kuz_ctr 262144 ke iv) (kuz_ctr 4096 ke iv) (omac (E_ km) 16) 16 (N.to_nat 4096) tag1 tag2 sender receiver
      (kuz_ctr_len _ _ _ Ke) (kuz_ctr_bytes _ _ _ Ke) P1 (fun m => kuz_ctr_twice _ _ _ m Ke) (kuz_ctr_len _ _ _ Ke) (kuz_ctr_bytes _ _ _ Ke) P2 (fun m => kuz_ctr_twice _ _ _ m Ke)
      Ml Mb HE HD Ag chunks1 chunks2 attrs0 C1 C2 Na ltac:(lia)) as (r1 & attrs & S & R).
    exists r1, attrs. split; [exact S|]. intros E. destruct (R E) as (r2 & r & X1 & X2 & X3 & X4). exists r2.
    assert (X : r = 0%Z).
    { apply X4. apply (same_tag (kuz_ctr 262144 ke iv) _ _ 16 (N.to_nat 4096) Ml Ag); [apply cb; auto|lia]. }
    rewrite X in X1. split; [exact X1|exact X2].
  - assert (D1' : y_k (ae_x (kuz_mesh (Some 262144%Z) receiver)) = acpkm_start (kc_mid true iv) (Some 262144%Z) ke iv false).
    { cbn [kuz_mesh ae_x y_k]. rewrite D1. unfold acpkm_start. reflexivity. }
    pose proof (fun ops Ho => kuz_started_run nd tag2 (Some 262144%Z) _ ke km iv false ops (kuz_mesh (Some 262144%Z) receiver) o2 O2 Z2 Hi T2 sec262144 Ho Ke Km D1' D2 D3 D4) as HD'.
    cbv iota in HD'. change (acpkm_section (Some 262144%Z)) with 262144 in HD'.
    exact (roundtrip kuz_suite nd (kuz_ctr 262144 ke iv) (omac (E_ km) 16) 16 tag1 tag2 sender (kuz_mesh (Some 262144%Z) receiver)
      (kuz_ctr_len _ _ _ Ke) (kuz_ctr_bytes _ _ _ Ke) P1 (fun m => kuz_ctr_twice _ _ _ m Ke) Ml Mb HE HD' chunks1 chunks2 attrs0 C1 C2 Na).
Qed.

(** * Without a key *)
(** Defect: the first data or final call on a context that has been initialised without a key (or whose keyed init failed,
    because the random generator did) dereferences a null pointer. *)
Theorem C52_unkeyed_context_dies_refuted :
  forall (S : suite) h fresh rnd0 (a : aead S) iv enc nd rest d,
    (ae_omac a = None ->
     let b := snd (ae_init S h fresh None rnd0 a None iv enc) in
     ae_run S nd b (AFinal :: rest) = [RDies] /\ ae_run S nd b (AUpdate d :: rest) = [RDies]) /\
    (forall k rnd2, let (r, b) := ae_init S h fresh None rnd2 a (Some k) iv true in
     r = 0%Z /\ ae_run S nd b (AFinal :: rest) = [RDies] /\ ae_run S nd b (AUpdate d :: rest) = [RDies]).
Proof.
  assert (G : forall (S : suite) (b : aead S) nd rest d, ae_omac b = None ->
    ae_run S nd b (AFinal :: rest) = [RDies] /\ ae_run S nd b (AUpdate d :: rest) = [RDies]).
  { intros S b nd rest d H. split; cbn [ae_run ae_cipher].
    - cbn [Nat.eqb]. unfold gost2015_final_call. rewrite H. reflexivity.
    - rewrite H. destruct (su_encrypting S (ae_x b)); [reflexivity|]. destruct (su_do S (ae_x b) d). reflexivity. }
  intros S h fresh rnd0 a iv enc nd rest d. split.
  - intros H. apply G. exact H.
  - intros k rnd2. cbn [ae_init gost2015_acpkm_omac_init]. split; [reflexivity|]. apply G. reflexivity.
Qed.
Example cms_hypotheses : mo_ok ctx0 ctx0 (fresh_evp ctx0) (fresh_evp ctx0) seed_demo (zeros 8) (zeros 8) kdemo (zeros 4) /\
  ko_ok seed_demo (zeros 16) (zeros 16) kdemo (zeros 8).
Proof.
  assert (F : magma_fresh (fresh_evp ctx0)) by (exists ctx0; split; [reflexivity|exact ctx0_rng_ok]).
  assert (K : blkn 32 kdemo) by (split; [reflexivity|apply bytes_forallb; vm_compute; reflexivity]).
  assert (S : blkn 8 seed_demo) by (split; [reflexivity|apply bytes_forallb; reflexivity]).
  split.
  - split; [exact ctx0_rng_ok|]. split; [exact ctx0_rng_ok|]. split; [exact F|]. split; [exact F|]. split; [exact K|]. split; [apply blkn_zeros|].
    split; [exact S|]. split; apply bytes_zeros.
  - split; [exact K|]. split; [apply blkn_zeros|]. split; [exact S|]. split; apply bytes_zeros.
Qed.
Print Assumptions C52_magma_cms_message_survives.
Print Assumptions C52_magma_cms_1024_bytes_refuted.
Print Assumptions C52_kuznyechik_cms_message_survives.
Print Assumptions C52_unkeyed_context_dies_refuted.

(** The MAC of a received message is taken exactly from attributes with one MAC attribute that has one value, an octet string. *)
Theorem C52_mac_attribute : forall l v,
  get0_mac (Some l) = Some v <-> exists l1 l2, l = l1 ++ mk_attr true [Octets v] :: l2 /\ no_mac l1 /\ no_mac l2.
Proof.
  intros l v. split.
  - cbn [get0_mac]. induction l as [|a l IH]; [discriminate|]. cbn [filter]. destruct (at_mac a) eqn:Ha.
    + destruct (filter at_mac l) as [|b l'] eqn:F; [|discriminate]. destruct a as [b vs]. cbn [at_mac at_values] in *. subst b.
      destruct vs as [|[o|] [|? ?]]; try discriminate. intros H. injection H as ->. exists [], l. split; [reflexivity|]. split; [intros b []|].
      intros b Hb. destruct (at_mac b) eqn:E; [|reflexivity]. exfalso. assert (In b (filter at_mac l)) as Hf by (apply filter_In; split; assumption). rewrite F in Hf. destruct Hf.
    + intros H. destruct (IH H) as (l1 & l2 & -> & N1 & N2). exists (a :: l1), l2. split; [reflexivity|]. split; [|exact N2].
      intros b [ <- |Hb]; [exact Ha|exact (N1 b Hb)].
  - intros (l1 & l2 & -> & N1 & N2). cbn [get0_mac]. rewrite filter_app, (no_mac_filter l1 N1). cbn [filter at_mac app]. rewrite (no_mac_filter l2 N2). reflexivity.
Qed.
Print Assumptions C52_mac_attribute.
