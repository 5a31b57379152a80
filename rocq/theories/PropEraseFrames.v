(** Property C61, continued: what is left on the stack and in freed blocks. *)
From Verif Require Import Bytes BytesProofs Gost89Model Gost89Sboxes Gost89Spec Gost89Proofs Gost89SpecProofs Gost89ModeProofs CryptSpec CryptProofs PropGost89 CryptModel
  KuzTables KuzModel KuzBlockProofs KuzCipherModel KdfModel MgmModel OmacModel KeywrapModel KeywrapSpec PropKeywrap KexpModel KexpSpec PropOmac PropKexp PmethModel
  EraseModel EraseSpec EraseProofs PropErase MemModel MemKuz.
From Coq Require Import List Lia NArith ZArith.
Import ListNotations.
Local Open Scope list_scope.
Local Open Scope N_scope.

(** * The key wrap of RFC 4357 *)
Lemma dec_kst sb k g1 g2 : kst sb k g1 -> kst sb k g2 -> forall n m, gost_dec g1 m n = gost_dec g2 m n.
Proof.
  intros (S1 & T1 & K1 & _) (_ & T2 & K2 & _). induction n as [|n IH]; intros m; [reflexivity|]. cbn [gost_dec]. rewrite IH. f_equal.
  rewrite (gostdecrypt_spec g1 sb k), (gostdecrypt_spec g2 sb k) by auto. reflexivity.
Qed.
(** What keyWrapCryptoPro leaves on its stack opens the message it has just produced: a block cipher with these 32 bytes as its key,
    in any context, decrypts the wrapped key. *)
Theorem C61_wrap_leaves_the_wrapping_key_refuted :
  forall sb c c2 kek ukm cek,
    subst_ok sb -> rng_ok (g_rng c) -> rng_ok (g_rng c2) -> key32 kek -> ukm8 ukm -> key32 cek ->
    let left := keyWrap_frame (gost_init c sb) kek ukm in
    let w := snd (keyWrapCryptoPro (gost_init c sb) kek ukm cek) in
    left = diversify (sboxes_of sb) kek ukm /\ gost_dec (gost_key (gost_init c2 sb) left) (skipn 8 w) 4 = cek.
Proof.
  intros sb c c2 kek ukm cek S R R2 Hk Hu Hc. cbv zeta.
  pose proof Hu as [Lu Bu]. pose proof Hc as [Lc Bc].
  pose proof (diversified sb c kek ukm S R Hk ltac:(lia)) as D. cbv zeta in D. destruct D as (E & K & L). rewrite (firstn_all2 ukm) in E by lia.
  assert (Bd : bytes (keyWrap_frame (gost_init c sb) kek ukm)).
  { unfold keyWrap_frame, keyDiversifyCryptoPro. destruct Hk as [Lk Bk]. rewrite (firstn_all2 kek) by lia.
    apply (diversify_loop_spec sb (firstn 8 ukm) (gost_init c sb) kek (gtab_init sb c S R) Bk Lk). }
  split; [exact E|].
  pose proof (C32_unwrap_wrap sb c c2 kek ukm cek S R R2 Hk Hu Hc) as W. cbv zeta in W. destruct W as (Lw & U & _).
  set (w := snd (keyWrapCryptoPro (gost_init c sb) kek ukm cek)) in *.
  assert (F8 : firstn 8 w = ukm).
  { subst w. rewrite (C32_wrap_refines_rfc4357 sb c kek ukm cek S R Hk Hu Hc). unfold wrap. apply firstn_app_exact. exact Lu. }
  clearbody w. unfold keyUnwrapCryptoPro in U.
  pose proof (diversified sb c2 kek w S R2 Hk ltac:(lia)) as D2. cbv zeta in D2. destruct D2 as (E2 & K2 & _). rewrite F8 in E2.
  destruct (keyDiversifyCryptoPro (gost_init c2 sb) kek w) as [g k]. cbn [fst snd] in *.
  assert (U2 : gost_dec (gost_key g k) (skipn 8 w) 4 = cek) by (destruct (eqbl _ _); congruence).
  assert (Ek : keyWrap_frame (gost_init c sb) kek ukm = k) by (unfold keyWrap_frame; congruence).
  rewrite Ek. rewrite <- U2. apply (dec_kst sb k); [|exact K2]. apply gtab_key; [apply gtab_init; auto|]. rewrite <- Ek. exact Bd.
Qed.
Print Assumptions C61_wrap_leaves_the_wrapping_key_refuted.

(** * KExp15 and KImp15 (RFC 9189) *)
(** Export leaves zeros in the array of the MAC, whatever was there, also when it fails. *)
Theorem C61_kexp15_frame_erased :
  forall h f mstack key c kmac kenc iv cap,
    ok_args h f kmac kenc -> bytes iv -> bytes key -> length mstack = 16%nat ->
    kexp15_frame h f mstack key (ctr_of_cipher c) (mac_of_cipher c) kmac iv cap = zeros (mlen c) ++ skipn (mlen c) mstack.
Proof.
  intros h f mstack key c kmac kenc iv cap (Hh & Hf & Hm & He) Bi Bk L. unfold kexp15_frame. rewrite wrap_mac_len_c. pose proof (mlen_pos c) as M.
  replace (mlen c =? 0)%nat with false by (symmetry; apply Nat.eqb_neq; lia). cbv zeta. rewrite mac_two_ok by auto.
  destruct (_ <? _)%nat.
  - unfold overwrite. rewrite firstn_O. unfold zeros at 2. rewrite repeat_length. reflexivity.
  - pose proof (omac_mode_length c kmac (iv ++ key) Hm) as Lo. unfold overwrite. rewrite !firstn_O. unfold zeros at 2. rewrite repeat_length. cbn [app Nat.add].
    rewrite skipn_app_exact by exact Lo. rewrite Lo. reflexivity.
Qed.
Print Assumptions C61_kexp15_frame_erased.
(** Import erases the decrypted message on every path, also when it refuses. *)
Theorem C61_kimp15_message_erased :
  forall h f stack mstack e c kmac kenc iv,
    ok_args h f kmac kenc -> bytes iv -> bytes e -> bytes stack -> length stack = 48%nat ->
    fst (kimp15_frame h f stack mstack e (ctr_of_cipher c) kenc (mac_of_cipher c) kmac iv) = zeros 48.
Proof.
  intros h f stack mstack e c kmac kenc iv (Hh & Hf & Hm & He) Bi Be Bs L. unfold kimp15_frame. rewrite wrap_mac_len_c. pose proof (mlen_pos c) as M.
  assert (Z : forall o, length o = 48%nat -> overwrite o 0 (zeros 48) = zeros 48).
  { intros o Lo. unfold overwrite. rewrite firstn_O. unfold zeros at 2. rewrite repeat_length. cbn [app Nat.add]. rewrite skipn_all2 by lia. apply app_nil_r. }
  replace (mlen c =? 0)%nat with false by (symmetry; apply Nat.eqb_neq; lia). cbv zeta.
  destruct (Nat.ltb_spec 48 (length e)) as [H48|H48]; [exact (Z stack L)|]. destruct (Nat.ltb_spec 16 (length iv)) as [H16|H16]; [exact (Z stack L)|].
  rewrite (ctr_crypt_ok f c kenc iv false [e] Hf He Bi H16) by (constructor; [exact Be|constructor]).
  set (o := overwrite stack 0 _).
  assert (Lo : length o = 48%nat).
  { unfold o, overwrite. rewrite firstn_O. cbn [concat app Nat.add]. rewrite app_nil_r, app_length, ctr_mode_length, skipn_length by auto. lia. }
  clearbody o. destruct (mac_two _ _ _ _ _ _ _); exact (Z o Lo).
Qed.
Print Assumptions C61_kimp15_message_erased.
(** But not the MAC it has computed: after a refusal the stack holds the MAC which would have been accepted for the key the
    message decrypts to. *)
Theorem C61_kimp15_leaves_the_expected_mac_refuted :
  forall h f stack mstack e c kmac kenc iv,
    ok_args h f kmac kenc -> bytes iv -> bytes e -> bytes stack -> length stack = 48%nat -> length mstack = 16%nat ->
    length iv = half c -> length e = (32 + mlen c)%nat ->
    let left := snd (kimp15_frame h f stack mstack e (ctr_of_cipher c) kenc (mac_of_cipher c) kmac iv) in
    exists key, length key = 32%nat /\ firstn 32 e = firstn 32 (kexp15 c kmac kenc iv key) /\
      kexp15 c kmac kenc iv key = ctr_mode c kenc (cipher_iv c iv) (key ++ firstn (mlen c) left).
Proof.
  intros h f stack mstack e c kmac kenc iv (Hh & Hf & Hm & He) Bi Be Bs L Lm Li Le. cbv zeta. unfold kimp15_frame. rewrite wrap_mac_len_c. pose proof (mlen_pos c) as M.
  replace (mlen c =? 0)%nat with false by (symmetry; apply Nat.eqb_neq; lia). cbv zeta.
  replace (48 <? length e)%nat with false by (symmetry; apply Nat.ltb_ge; lia).
  assert (Li16 : (length iv <= 16)%nat) by (destruct c; cbn in Li; lia).
  replace (16 <? length iv)%nat with false by (symmetry; apply Nat.ltb_ge; lia).
  rewrite (ctr_crypt_ok f c kenc iv false [e] Hf He Bi Li16) by (constructor; [exact Be|constructor]).
  cbn [concat]. rewrite app_nil_r. set (p := ctr_mode c kenc (cipher_iv c iv) e).
  assert (Lp : length p = length e) by (apply ctr_mode_length; auto). assert (Bp : bytes p) by (apply ctr_mode_bytes; auto).
  assert (F : firstn 32 (overwrite stack 0 p) = firstn 32 p).
  { unfold overwrite. rewrite firstn_O. cbn [app Nat.add]. rewrite firstn_app. replace (32 - length p)%nat with 0%nat by lia. rewrite firstn_O. apply app_nil_r. }
  rewrite F. rewrite mac_two_ok by (auto using bytes_firstn). cbn [snd].
  pose proof (omac_mode_length c kmac (iv ++ firstn 32 p) Hm) as Lo. set (t := omac_mode c kmac (iv ++ firstn 32 p)) in *.
  assert (Et : firstn (mlen c) (overwrite mstack 0 t) = t).
  { unfold overwrite. rewrite firstn_O. cbn [app]. apply firstn_app_exact. exact Lo. }
  exists (firstn 32 p). rewrite Et. split; [rewrite firstn_length; lia|].
  assert (Ex : kexp15 c kmac kenc iv (firstn 32 p) = ctr_mode c kenc (cipher_iv c iv) (firstn 32 p ++ t)).
  { rewrite <- export_std by exact Li. reflexivity. }
  split; [|exact Ex]. rewrite Ex.
  assert (L32 : length (firstn 32 p) = 32%nat) by (rewrite firstn_length; lia).
  pose proof (ctr_mode_app c kenc (cipher_iv c iv) (firstn 32 p) t He) as A1. rewrite L32 in A1. rewrite A1.
  pose proof (ctr_mode_app c kenc (cipher_iv c iv) (firstn 32 p) (skipn 32 p) He) as A2. rewrite L32, firstn_skipn in A2. rewrite <- A2.
  unfold p. rewrite ctr_mode_twice by exact He. reflexivity.
Qed.
Print Assumptions C61_kimp15_leaves_the_expected_mac_refuted.

(** * The re-keying of ACPKM *)
(** Kuznyechik: the new key is left on the stack; Magma: it is erased. *)
Theorem C61_acpkm_next_leaves_the_new_key_refuted :
  forall c, keys16 (k_ek c) -> acpkm_next_frame c = k_key (acpkm_next c) /\ length (acpkm_next_frame c) = 32%nat.
Proof.
  intros c K. assert (L : length (acpkm_next_frame c) = 32%nat) by (unfold acpkm_next_frame; rewrite app_length, !kenc_len by exact K; reflexivity).
  split; [|exact L]. change (acpkm_next c) with (gost_grasshopper_cipher_key c (acpkm_next_frame c)). change (k_key (gost_grasshopper_cipher_key c (acpkm_next_frame c))) with (sub 0 32 (acpkm_next_frame c)).
  generalize dependent (acpkm_next_frame c). intros f Lf. unfold sub. cbn [skipn]. symmetry. apply firstn_all2. lia.
Qed.
Print Assumptions C61_acpkm_next_leaves_the_new_key_refuted.
Theorem C61_acpkm_magma_erased : forall c, acpkm_magma_frame c = zeros 32.
Proof.
  intros c. unfold acpkm_magma_frame. cbv zeta. unfold overwrite. rewrite firstn_O. unfold zeros at 2. rewrite repeat_length. cbn [app Nat.add].
  rewrite skipn_all2 by (rewrite !app_length, !magmacrypt_length; lia). apply app_nil_r.
Qed.
Print Assumptions C61_acpkm_magma_erased.

(** * MAC keys *)
(** A key set in the context of a MAC's key method is handed back to the allocator with its bytes, whatever is asked of the context
    after it was set; and so is the key of a key object generated from such a context. *)
Definition keeps_key (q : mac_req) : Prop := match q with Q_set_key _ _ => False | _ => True end.
Definition after_requests (max : option Z) (d : mdata) (l : list mac_req) : mdata :=
  fold_left (fun d q => snd (match max with None => pkey_gost_mac_ctrl d q | Some m => pkey_gost_omac_ctrl m d q end)) l d.
Theorem C61_mac_keys_are_freed_unerased_refuted :
  forall max d key l, length key = 32%nat -> Forall keeps_key l ->
    let d1 := after_requests max d (Q_set_key 32 key :: l) in
    pkey_gost_mac_cleanup d1 = key /\ exists k, mac_keygen d1 = Some k /\ mackey_free_gost k = key.
Proof.
  intros max d key l L F. cbv zeta. unfold after_requests. cbn [fold_left].
  set (d0 := snd _). assert (H : a_key_set d0 = true /\ a_key d0 = key).
  { unfold d0. destruct max; cbn [pkey_gost_mac_ctrl pkey_gost_omac_ctrl]; change (negb (32 =? 32)%Z) with false; cbn [snd a_with_key a_key_set a_key]; split; auto; apply firstn_all2; lia. }
  clearbody d0. revert d0 H. induction F as [|q l Hq _ IH]; intros d0 [H1 H2].
  - cbn [fold_left]. split; [exact H2|]. unfold mac_keygen. rewrite H1. eexists. split; [reflexivity|]. unfold mackey_free_gost. cbn [mk_key]. rewrite H2. apply firstn_all2. lia.
  - cbn [fold_left]. apply IH. destruct q; try (destruct Hq); destruct max; cbn [pkey_gost_mac_ctrl pkey_gost_omac_ctrl];
      repeat match goal with |- context [match ?x with _ => _ end] => destruct x end; cbn; auto.
Qed.
Print Assumptions C61_mac_keys_are_freed_unerased_refuted.
Example C61_demo_mac_key :
  let l := [Q_md M_mac_89; Q_mac_len 4; Q_get_md] in Forall keeps_key l.
Proof. repeat constructor. Qed.
(** The hypotheses are met: the wrap under RFC 4357 and the export/import with real keys. *)
Example C61_demo_wrap :
  let kek := demo_key 3 in let cek := demo_key 77 in let ukm := firstn 8 (demo_key 9) in
  key32 kek /\ key32 cek /\ ukm8 ukm /\
  keyWrap_frame (gost_init (zero_gost demo_rng) Gost28147_CryptoProParamSetA) kek ukm <> kek.
Proof.
  cbv zeta. split; [|split; [|split]]; try (split; [reflexivity|apply Forall_forall; intros x H; vm_compute in H; repeat (destruct H as [<-|H]; [reflexivity|]); destruct H]).
  vm_compute. discriminate.
Qed.
Example C61_demo_acpkm : acpkm_next_frame (gost_grasshopper_cipher_key kctx0 (demo_key 5)) <> zeros 32.
Proof. vm_compute. discriminate. Qed.
