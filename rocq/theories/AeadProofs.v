(** Proofs for the CTR-ACPKM-OMAC ciphers: the generic refinement. *)
From Coq Require Import String.
From Verif Require Import Bytes BytesProofs Gost89Model CryptModel KuzModel KuzCipherModel StreamMode KdfModel KdfSpec OmacModel OmacSpec OmacProofs EcModel
  CmsParamsModel KeywrapSpec PropOmac PropKdf AeadModel AeadSpec.
From Coq Require Import List Lia NArith ZArith Bool.
Import ListNotations.
Open Scope N_scope.

(** What the caller passes is bytes. *)
Definition attrs_ok (attrs : option (list attribute)) : Prop := forall v, get0_mac attrs = Some v -> bytes v.
Definition ae_call_ok (o : ae_call) : Prop :=
  match o with AUpdate d => bytes d | AFinal => True | AAttrs _ attrs => attrs_ok attrs end.

(** Keyed init. *)
Lemma kdf_64 h k seed : blkn 32 k -> blkn 8 seed ->
  gost_kdftree2012_256 h 64 k (ascii_bytes "kdf tree") seed 1 = Kdf_ok (kdf_tree 2 k (ascii_bytes "kdf tree") seed 1).
Proof.
  intros [_ Bk] [_ Bs]. rewrite C34_kdftree_is_KDF_TREE; auto.
  - split; [lia|]. change (2 ^ 29) with 536870912. lia.
  - apply bytes_forallb. reflexivity.
Qed.

Section Generic.
Variable S : suite.
Notation K := (su_mac S).
Variable E : list N -> list N -> list N.
Variable ok : list N -> list N -> cc_ctx K -> Prop.
Variable fresh_ok : cc_ctx K -> Prop.
Let bl := cc_bl K.
Hypothesis P : (0 < bl)%nat.
Hypothesis P32 : (bl <= 32)%nat.
Hypothesis E_ok : forall k b, blkn 32 k -> blkn bl b -> blkn bl (E k b).
Hypothesis H_key : forall c k, fresh_ok c -> blkn 32 k -> ok k (zeros bl) (cc_init K (cc_init K c None None) (Some k) (Some (zeros bl))).
Hypothesis H_iv : forall c k iv, ok k iv c -> ok k (zeros bl) (cc_init K c None (Some (zeros bl))).
Hypothesis H_do : forall c k iv b, blkn 32 k -> ok k iv c -> blkn bl iv -> blkn bl b ->
  snd (cc_do K c b) = E k (xorl iv b) /\ ok k (E k (xorl iv b)) (fst (cc_do K c b)).
Hypothesis E_bytes_len : forall k m, blkn 32 k -> length (omac (E k) bl m) = bl.
Hypothesis E_bytes : forall k m, blkn 32 k -> bytes m -> bytes (omac (E k) bl m).

(** The MAC context holds the MAC computation of the text [m] under the key [k]. *)
Definition om_for (k m : list N) (o : omac_ctx K) : Prop :=
  om_set o = true /\ om_size o = bl /\ exists x, om_cmac o = Some x /\ cmac_ok K E ok k m x.
Lemma om_set_key f k r o : fresh_ok f -> blkn 32 k -> omac_set_key K (omac_init K) f 0 k = (r, o) -> r = 1%Z /\ om_for k nil o.
Proof.
  intros Hf Hk H. unfold omac_set_key in H. cbn [Z.eqb orb] in H. rewrite firstn_all2 in H by (destruct Hk; lia).
  injection H as <- <-. split; [reflexivity|]. split; [reflexivity|]. split; [reflexivity|]. eexists. split; [reflexivity|].
  exact (init_cmac_ok K E ok fresh_ok P P32 E_ok H_key H_iv H_do f k Hf Hk).
Qed.
Lemma om_update k m o d : om_for k m o -> om_for k (m ++ d) (snd (omac_imit_update K o d)).
Proof.
  intros (H1 & H2 & x & H3 & H4). unfold omac_imit_update. rewrite H1, H3. cbn [snd].
  split; [reflexivity|]. split; [exact H2|]. eexists. split; [reflexivity|]. apply update_cmac_ok; auto.
Qed.
Lemma om_final k m o : blkn 32 k -> bytes m -> om_for k m o -> mac_sign_final S (Some o) = Returns (omac (E k) bl m).
Proof.
  intros Hk Bm (H1 & H2 & x & H3 & H4). unfold mac_sign_final, omac_xof_len. fold bl.
  replace (Z.of_nat bl <? 1)%Z with false by (symmetry; apply Z.ltb_ge; lia).
  rewrite Z.ltb_irrefl. cbn [orb snd]. rewrite Nat2Z.id. unfold omac_imit_final. cbn [om_set om_cmac om_size om_key].
  rewrite H1, H3. pose proof (final_cmac_ok K E ok fresh_ok P P32 E_ok H_key H_iv H_do k m x Hk Bm H4) as F.
  destruct (CMAC_Final K x) as [x' mac]. cbn [snd] in F. subst mac. cbn [Z.ltb Z.compare]. fold bl. f_equal.
  rewrite firstn_all2; [reflexivity|]. rewrite E_bytes_len; auto.
Qed.

(** The stream cipher, from the state [x0]. *)
Variable x0 : su_ctx S.
Variable F : list N -> list N.
Hypothesis F_out : forall chunks, Forall bytes chunks -> snd (run_chunks (su_ctx S) (su_do S) x0 chunks) = F (concat chunks).
Hypothesis F_len : forall m, length (F m) = length m.
Hypothesis F_bytes : forall m, bytes m -> bytes (F m).
Hypothesis F_enc : forall x d, su_encrypting S (fst (su_do S x d)) = su_encrypting S x.
Variable kmac : list N.
Hypothesis Hkm : blkn 32 kmac.

Definition ae_rel (enc : bool) (s : aspec) (a : aead S) : Prop :=
  (exists chunks, Forall bytes chunks /\ concat chunks = s_fed s /\ ae_x a = fst (run_chunks (su_ctx S) (su_do S) x0 chunks)) /\
  su_encrypting S (ae_x a) = enc /\ (exists o, ae_omac a = Some o /\ om_for kmac (s_text s) o) /\
  ae_tag a = s_tag s /\ bytes (s_text s) /\ bytes (s_tag s).
Lemma run_chunks_snoc x l d : let r := run_chunks (su_ctx S) (su_do S) x l in
  run_chunks (su_ctx S) (su_do S) x (l ++ [d]) = (fst (su_do S (fst r) d), snd r ++ snd (su_do S (fst r) d)).
Proof.
  revert x; induction l as [|b t IH]; intro x; cbn [app run_chunks fst snd].
  - destruct (su_do S x d) as [c o]. cbn [fst snd]. rewrite app_nil_r. reflexivity.
  - destruct (su_do S x b) as [c1 o1]. rewrite (IH c1). cbv zeta.
    destruct (run_chunks (su_ctx S) (su_do S) c1 t) as [c2 o2]. cbn [fst snd].
    rewrite app_assoc. reflexivity.
Qed.
Lemma do_piece chunks d x : Forall bytes chunks -> bytes d -> x = fst (run_chunks (su_ctx S) (su_do S) x0 chunks) ->
  snd (su_do S x d) = next_piece F (concat chunks) d /\
  (exists ch', Forall bytes ch' /\ concat ch' = concat chunks ++ d /\ fst (su_do S x d) = fst (run_chunks (su_ctx S) (su_do S) x0 ch')).
Proof.
  intros Hc Hd ->. pose proof (run_chunks_snoc x0 chunks d) as R. cbv zeta in R.
  assert (Hc' : Forall bytes (chunks ++ [d])) by (apply Forall_app; auto).
  assert (Q : concat (chunks ++ [d]) = concat chunks ++ d) by (rewrite concat_app; cbn [concat]; rewrite app_nil_r; reflexivity).
  split.
  - pose proof (F_out _ Hc') as O. rewrite R, Q in O. cbn [snd] in O. rewrite (F_out _ Hc) in O. unfold next_piece. rewrite <- O.
    rewrite <- (F_len (concat chunks)), skipn_app, skipn_all, Nat.sub_diag. reflexivity.
  - exists (chunks ++ [d]). split; [exact Hc'|]. split; [exact Q|]. rewrite R. reflexivity.
Qed.
Lemma next_piece_bytes m d : bytes m -> bytes d -> bytes (next_piece F m d).
Proof. intros Hm Hd. unfold next_piece. apply bytes_skipn. apply F_bytes. apply bytes_app; auto. Qed.
Lemma concat_bytes_all chunks : Forall bytes chunks -> bytes (concat chunks).
Proof. induction 1; cbn [concat]; [constructor|apply bytes_app; auto]. Qed.
Lemma rel_attrs enc s a arg attrs : ae_rel enc s a -> attrs_ok attrs ->
  let '(r, at_, a') := process_unprotected S a arg attrs in
  RAttrs r at_ = fst (spec_attrs bl s arg attrs) /\ ae_rel enc (snd (spec_attrs bl s arg attrs)) a'.
Proof.
  intros (R1 & R2 & R3 & R4 & R5 & R6) Ha. unfold process_unprotected, spec_attrs. fold bl.
  destruct (arg =? 0)%Z.
  - destruct (get0_mac attrs) as [v|] eqn:G.
    + destruct (Nat.eqb_spec (length v) bl) as [L|L]; destruct (Nat.eq_dec (length v) bl) as [L'|L']; try contradiction;
        (split; [reflexivity|]); unfold ae_rel; cbn [fst snd ae_x ae_omac ae_tag s_fed s_text s_tag].
      * split; [exact R1|]. split; [exact R2|]. split; [exact R3|]. split; [reflexivity|]. split; [exact R5|]. apply Ha. exact G.
      * split; [exact R1|]. split; [exact R2|]. split; [exact R3|]. auto.
    + split; [reflexivity|]. cbn [snd]. split; [exact R1|]. split; [exact R2|]. split; [exact R3|]. auto.
  - destruct attrs as [l|]; (split; [cbn [fst]; rewrite ?R4; reflexivity|]); cbn [snd]; (split; [exact R1|]); (split; [exact R2|]); (split; [exact R3|]); auto.
Qed.
(** Every sequence of calls meets the specification. *)
Lemma ae_run_spec nd enc ops : Forall ae_call_ok ops -> forall s a, ae_rel enc s a ->
  ae_run S nd a ops = spec_run (if enc then enc_step F (omac (E kmac) bl) bl else dec_step F (omac (E kmac) bl) bl) s ops.
Proof.
  induction 1 as [|o ops Ho _ IH]; intros s a R; [reflexivity|].
  destruct o as [d| |arg attrs]; cbn [ae_run].
  - pose proof R as ((chunks & Hc & Ef & Ex) & R2 & (o & Eo & Om) & R4 & R5 & R6). cbn [ae_call_ok] in Ho.
    destruct (do_piece chunks d (ae_x a) Hc Ho Ex) as [Po (ch' & Hc' & Q' & X')]. rewrite Ef in Po, Q'.
    unfold ae_cipher. rewrite R2. pose proof (F_enc (ae_x a) d) as En. rewrite R2 in En. rewrite Eo. cbn [mac_update].
    assert (Bf : bytes (s_fed s)) by (rewrite <- Ef; apply concat_bytes_all; exact Hc).
    destruct (su_do S (ae_x a) d) as [x out]. cbn [fst snd] in *. subst out.
    destruct enc; cbn [spec_run enc_step dec_step]; f_equal; apply IH; unfold ae_rel; cbn [ae_x ae_omac ae_tag s_fed s_text s_tag];
      (split; [exists ch'; auto|]); (split; [exact En|]);
      (split; [eexists; split; [reflexivity|]; apply om_update; exact Om|]); (split; [exact R4|]); (split; [|exact R6]); apply bytes_app; auto using next_piece_bytes.
  - pose proof R as ((chunks & Hc & Ef & Ex) & R2 & (o & Eo & Om) & R4 & R5 & R6).
    unfold ae_cipher, gost2015_final_call. cbn [Nat.eqb]. rewrite Eo, (om_final kmac (s_text s) o Hkm R5 Om), R2.
    assert (Bf : bytes (s_fed s)) by (rewrite <- Ef; apply concat_bytes_all; exact Hc).
    destruct enc.
    + assert (Bm : bytes (omac (E kmac) bl (s_text s))) by (apply E_bytes; auto).
      set (t := omac (E kmac) bl (s_text s)) in *. cbn [spec_run enc_step]. fold t.
      destruct (do_piece chunks t (ae_x a) Hc Bm Ex) as [Po (ch' & Hc' & Q' & X')]. rewrite Ef in Po, Q'.
      pose proof (F_enc (ae_x a) t) as En. rewrite R2 in En.
      destruct (su_do S (ae_x a) t) as [x out]. cbn [fst snd] in *. subst out. f_equal. apply IH.
      unfold ae_rel; cbn [ae_x ae_omac ae_tag s_fed s_text s_tag]. split; [exists ch'; auto|]. split; [exact En|].
      split; [eexists; split; [reflexivity|exact Om]|]. split; [reflexivity|]. split; [exact R5|apply next_piece_bytes; auto].
    + fold bl. rewrite R4. assert (Bm : bytes (firstn bl (s_tag s))) by (apply bytes_firstn; auto).
      cbn [spec_run dec_step]. set (t := firstn bl (s_tag s)) in *.
      destruct (do_piece chunks t (ae_x a) Hc Bm Ex) as [Po (ch' & Hc' & Q' & X')]. rewrite Ef in Po, Q'.
      pose proof (F_enc (ae_x a) t) as En. rewrite R2 in En.
      destruct (su_do S (ae_x a) t) as [x out]. cbn [fst snd] in *. subst out. f_equal.
      * set (p := next_piece F (s_fed s) t). set (m := omac (E kmac) bl (s_text s)). clearbody p m.
        destruct (list_eq_dec N.eq_dec p m) as [->|D].
        -- rewrite (proj2 (eqbl_eq m m) eq_refl). reflexivity.
        -- rewrite (proj2 (eqbl_neq p m) D). reflexivity.
      * apply IH. unfold ae_rel; cbn [ae_x ae_omac ae_tag s_fed s_text s_tag]. split; [exists ch'; auto|]. split; [exact En|].
        split; [eexists; split; [reflexivity|exact Om]|]. split; [reflexivity|]. split; auto.
  - cbn [ae_call_ok] in Ho. pose proof (rel_attrs enc s a arg attrs R Ho) as Q.
    destruct (process_unprotected S a arg attrs) as [[r at_] a']. destruct Q as [Q1 Q2].
    destruct enc; cbn [spec_run enc_step dec_step]; destruct (spec_attrs bl s arg attrs) as [r' s']; cbn [fst snd] in *; subst r'; f_equal; apply IH; exact Q2.
Qed.

Lemma F_prefix a b : bytes a -> bytes b -> F (a ++ b) = F a ++ next_piece F a b.
Proof.
  intros Ha Hb. assert (H1 : Forall bytes [a]) by auto.
  destruct (do_piece [a] b _ H1 Hb eq_refl) as [Po _]. cbn [concat] in Po. rewrite app_nil_r in Po. rewrite <- Po.
  assert (H2 : Forall bytes ([a] ++ [b])) by (apply Forall_app; auto).
  pose proof (F_out _ H2) as O. cbn [app concat] in O. rewrite app_nil_r in O. rewrite <- O.
  pose proof (F_out _ H1) as O1. cbn [app concat] in O1. rewrite app_nil_r in O1. rewrite <- O1.
  change [a; b] with ([a] ++ [b]). rewrite (run_chunks_snoc x0 [a] b). reflexivity.
Qed.

End Generic.

(** * Whole messages, at the level of the specification *)
(** The bytes a sequence of calls returned. *)
Definition out_bytes (l : list ae_res) : list N := concat (map (fun r => match r with RBytes _ o => o | _ => [] end) l).
Section Session.
Variables (F mac : list N -> list N) (n : nat).
Hypothesis F_len : forall m, length (F m) = length m.
Hypothesis F_bytes : forall m, bytes m -> bytes (F m).
Hypothesis F_pre : forall a b, bytes a -> bytes b -> F (a ++ b) = F a ++ next_piece F a b.
Hypothesis F_inv : forall m, F (F m) = m.
Hypothesis mac_len : forall m, bytes m -> length (mac m) = n.
Hypothesis mac_bytes : forall m, bytes m -> bytes (mac m).

Lemma piece_nil m : next_piece F [] m = F m. Proof. reflexivity. Qed.
Lemma piece_len a b : length (next_piece F a b) = length b.
Proof. unfold next_piece. rewrite skipn_length, F_len, app_length. lia. Qed.
Lemma piece_bytes a b : bytes a -> bytes b -> bytes (next_piece F a b).
Proof. intros. unfold next_piece. apply bytes_skipn, F_bytes, bytes_app; auto. Qed.
Lemma piece_app m a b : bytes m -> bytes a -> bytes b -> next_piece F m (a ++ b) = next_piece F m a ++ next_piece F (m ++ a) b.
Proof.
  intros Hm Ha Hb. assert (Q : F (m ++ a ++ b) = F m ++ next_piece F m a ++ next_piece F (m ++ a) b).
  { rewrite app_assoc, (F_pre (m ++ a) b), (F_pre m a), app_assoc by (auto; apply bytes_app; auto). reflexivity. }
  rewrite (F_pre m (a ++ b)) in Q by (auto; apply bytes_app; auto). apply app_inv_head in Q. exact Q.
Qed.
Lemma cb chunks : Forall bytes chunks -> bytes (concat chunks).
Proof. induction 1; cbn [concat]; [constructor|apply bytes_app; auto]. Qed.
Lemma enc_updates chunks rest : Forall bytes chunks -> forall s, bytes (s_fed s) -> exists r1,
  length r1 = length chunks /\
  spec_run (enc_step F mac n) s (map AUpdate chunks ++ rest) =
  r1 ++ spec_run (enc_step F mac n) (mk_aspec (s_fed s ++ concat chunks) (s_text s ++ concat chunks) (s_tag s)) rest /\
  out_bytes r1 = next_piece F (s_fed s) (concat chunks).
Proof.
  induction 1 as [|d t Hd Ht IH]; intros s Hs.
  - exists []. split; [reflexivity|]. split.
    + cbn [concat map app]. rewrite !app_nil_r. destruct s; reflexivity.
    + unfold next_piece. cbn [concat]. rewrite app_nil_r, <- (F_len (s_fed s)), skipn_all. reflexivity.
  - cbn [map app spec_run enc_step].
    destruct (IH (mk_aspec (s_fed s ++ d) (s_text s ++ d) (s_tag s)) ltac:(cbn [s_fed]; apply bytes_app; auto)) as (r1 & L & Q & O).
    eexists (_ :: r1). split; [cbn [length]; rewrite L; reflexivity|]. cbn [s_fed s_text s_tag] in *. rewrite Q. cbn [concat]. rewrite !app_assoc.
    split; [reflexivity|]. unfold out_bytes in *. cbn [map concat]. rewrite O. rewrite piece_app by (auto; apply cb; auto). reflexivity.
Qed.
Lemma dec_updates chunks rest : Forall bytes chunks -> forall s, bytes (s_fed s) -> exists r1,
  length r1 = length chunks /\
  spec_run (dec_step F mac n) s (map AUpdate chunks ++ rest) =
  r1 ++ spec_run (dec_step F mac n) (mk_aspec (s_fed s ++ concat chunks) (s_text s ++ next_piece F (s_fed s) (concat chunks)) (s_tag s)) rest /\
  out_bytes r1 = next_piece F (s_fed s) (concat chunks).
Proof.
  assert (P0 : forall s, next_piece F s [] = []).
  { intro s. unfold next_piece. rewrite app_nil_r, <- (F_len s), skipn_all. reflexivity. }
  induction 1 as [|d t Hd Ht IH]; intros s Hs.
  - exists []. split; [reflexivity|]. split.
    + cbn [concat map app]. rewrite P0, !app_nil_r. destruct s; reflexivity.
    + cbn [concat]. rewrite P0. reflexivity.
  - cbn [map app spec_run dec_step].
    destruct (IH (mk_aspec (s_fed s ++ d) (s_text s ++ next_piece F (s_fed s) d) (s_tag s)) ltac:(cbn [s_fed]; apply bytes_app; auto)) as (r1 & L & Q & O).
    eexists (_ :: r1). split; [cbn [length]; rewrite L; reflexivity|]. cbn [s_fed s_text s_tag] in *. rewrite Q. cbn [concat].
    rewrite (piece_app _ d) by (auto; apply cb; auto). rewrite !app_assoc.
    split; [reflexivity|]. unfold out_bytes in *. cbn [map concat]. rewrite O. reflexivity.
Qed.
(** The tag a sender of [m] puts into the message. *)
Definition tag_of (m : list N) : list N := next_piece F m (mac m).
Lemma enc_message chunks l tag : Forall bytes chunks -> exists r1, length r1 = length chunks /\
  spec_run (enc_step F mac n) (spec_start tag) (map AUpdate chunks ++ [AFinal; AAttrs 1 (Some l)]) =
    r1 ++ [RBytes 0 []; RAttrs 1 (Some (l ++ [mk_attr true [Octets (tag_of (concat chunks))]]))] /\
  out_bytes r1 = F (concat chunks).
Proof.
  intros H. destruct (enc_updates chunks [AFinal; AAttrs 1 (Some l)] H (spec_start tag) ltac:(constructor)) as (r1 & L & Q & O).
  exists r1. split; [exact L|]. cbn [spec_start s_fed s_text s_tag app] in Q, O. rewrite Q. split; [|exact O].
  cbn [spec_run enc_step spec_attrs Z.eqb s_fed s_text s_tag]. unfold tag_of.
  rewrite firstn_all2 by (rewrite piece_len, mac_len by (apply cb; auto); lia). reflexivity.
Qed.
Lemma dec_message chunks attrs t tag : Forall bytes chunks -> get0_mac attrs = Some t -> bytes t -> length t = n ->
  exists r2 r, length r2 = length chunks /\
  spec_run (dec_step F mac n) (spec_start tag) (AAttrs 0 attrs :: map AUpdate chunks ++ [AFinal]) =
    RAttrs 1 attrs :: r2 ++ [RBytes r []] /\ out_bytes r2 = F (concat chunks) /\
  ((r = 0%Z /\ t = tag_of (F (concat chunks))) \/ (r = (-1)%Z /\ t <> tag_of (F (concat chunks)))).
Proof.
  intros H G Bt Lt. cbn [spec_run dec_step spec_attrs Z.eqb]. rewrite G. destruct (Nat.eq_dec (length t) n) as [_|D]; [|contradiction].
  destruct (dec_updates chunks [AFinal] H (mk_aspec [] [] t) ltac:(constructor)) as (r2 & L & Q & O).
  cbn [spec_start s_fed s_text s_tag app] in *. rewrite Q, piece_nil in *. exists r2. eexists. split; [exact L|].
  cbn [spec_run dec_step s_fed s_text s_tag]. rewrite firstn_all2 by lia. split; [reflexivity|]. split; [exact O|].
  assert (Bc : bytes (concat chunks)) by (apply cb; auto). set (c := concat chunks) in *. clearbody c.
  assert (I : next_piece F c t = mac (F c) <-> t = tag_of (F c)).
  { unfold tag_of. split; intro X.
    - rewrite <- X. pose proof (F_pre c t Bc Bt) as P1. apply (f_equal F) in P1. rewrite F_inv in P1.
      rewrite (F_pre (F c)), F_inv in P1 by (auto using piece_bytes). apply app_inv_head in P1. exact P1.
    - rewrite X. pose proof (F_pre (F c) (mac (F c)) ltac:(auto) ltac:(auto)) as P1. apply (f_equal F) in P1. rewrite !F_inv in P1.
      rewrite (F_pre c), <- X in P1 by (auto; rewrite <- X; auto). rewrite <- X. apply app_inv_head in P1. congruence. }
  destruct (list_eq_dec N.eq_dec (next_piece F c t) (mac (F c))) as [X|X].
  - left. split; [reflexivity|]. apply I. exact X.
  - right. split; [reflexivity|]. intro Y. apply X. apply I. exact Y.
Qed.
End Session.

Lemma app_inj_len {A} (a b c d : list A) : a ++ b = c ++ d -> length a = length c -> a = c /\ b = d.
Proof.
  revert c; induction a as [|x a IH]; intros [|y c] H L; cbn in *; try discriminate; [auto|].
  injection H as -> H. destruct (IH c H ltac:(lia)) as [-> ->]. auto.
Qed.
Definition no_mac (l : list attribute) : Prop := forall a, In a l -> at_mac a = false.
Lemma no_mac_filter l : no_mac l -> filter at_mac l = [].
Proof. induction l as [|a l IH]; intro H; [reflexivity|]. cbn [filter]. rewrite (H a (or_introl eq_refl)). apply IH. intros b Hb. apply H. right. exact Hb. Qed.
Lemma no_mac_get l t : no_mac l -> get0_mac (Some (l ++ [mk_attr true [Octets t]])) = Some t.
Proof. intros H. unfold get0_mac. rewrite filter_app, (no_mac_filter l H). reflexivity. Qed.
Lemma upd_ok_calls chunks : Forall bytes chunks -> Forall ae_call_ok (map AUpdate chunks).
Proof. intro H. apply Forall_map. exact H. Qed.
(** A sender and a receiver that meet the specification with the same keys. *)
Section Messages.
Variables (S : suite) (nd : bool) (F mac : list N -> list N) (n : nat) (tag1 tag2 : list N) (sender receiver : aead S).
Hypothesis F_len : forall m, length (F m) = length m.
Hypothesis F_bytes : forall m, bytes m -> bytes (F m).
Hypothesis F_pre : forall a b, bytes a -> bytes b -> F (a ++ b) = F a ++ next_piece F a b.
Hypothesis F_inv : forall m, F (F m) = m.
Hypothesis mac_len : forall m, bytes m -> length (mac m) = n.
Hypothesis mac_bytes : forall m, bytes m -> bytes (mac m).
Hypothesis HE : forall ops, Forall ae_call_ok ops -> ae_run S nd sender ops = spec_run (enc_step F mac n) (spec_start tag1) ops.
Hypothesis HD : forall ops, Forall ae_call_ok ops -> ae_run S nd receiver ops = spec_run (dec_step F mac n) (spec_start tag2) ops.
Lemma sent chunks l : Forall bytes chunks -> no_mac l -> exists r1, length r1 = length chunks /\
  ae_run S nd sender (map AUpdate chunks ++ [AFinal; AAttrs 1 (Some l)]) =
    r1 ++ [RBytes 0 []; RAttrs 1 (Some (l ++ [mk_attr true [Octets (tag_of F mac (concat chunks))]]))] /\ out_bytes r1 = F (concat chunks).
Proof.
  intros C Na. rewrite HE.
  - exact (enc_message F mac n F_len F_bytes F_pre F_inv mac_len mac_bytes chunks l tag1 C).
  - apply Forall_app. split; [apply upd_ok_calls; auto|]. constructor; [exact I|]. constructor; [|constructor].
    intros v Hv. unfold get0_mac in Hv. rewrite (no_mac_filter l Na) in Hv. congruence.
Qed.
Lemma received chunks attrs t : Forall bytes chunks -> get0_mac attrs = Some t -> bytes t -> length t = n ->
  exists r2 r, length r2 = length chunks /\
  ae_run S nd receiver (AAttrs 0 attrs :: map AUpdate chunks ++ [AFinal]) = RAttrs 1 attrs :: r2 ++ [RBytes r []] /\
  out_bytes r2 = F (concat chunks) /\
  ((r = 0%Z /\ t = tag_of F mac (F (concat chunks))) \/ (r = (-1)%Z /\ t <> tag_of F mac (F (concat chunks)))).
Proof.
  intros C G Bt Lt. rewrite HD.
  - exact (dec_message F mac n F_len F_bytes F_pre F_inv mac_len mac_bytes chunks attrs t tag2 C G Bt Lt).
  - constructor; [intros v Hv; rewrite G in Hv; congruence|]. apply Forall_app. split; [apply upd_ok_calls; auto|]. constructor; [exact I|constructor].
Qed.
Lemma tag_ok m : bytes m -> bytes (tag_of F mac m) /\ length (tag_of F mac m) = n.
Proof.
  intro B. unfold tag_of. split; [apply piece_bytes; auto|].
  rewrite (piece_len F mac n); auto.
Qed.
Lemma roundtrip chunks1 chunks2 l : Forall bytes chunks1 -> Forall bytes chunks2 -> no_mac l ->
  exists r1 attrs, ae_run S nd sender (map AUpdate chunks1 ++ [AFinal; AAttrs 1 (Some l)]) = r1 ++ [RBytes 0 []; RAttrs 1 (Some attrs)] /\
   (concat chunks2 = out_bytes r1 ->
    exists r2, ae_run S nd receiver (AAttrs 0 (Some attrs) :: map AUpdate chunks2 ++ [AFinal]) = RAttrs 1 (Some attrs) :: r2 ++ [RBytes 0 []] /\
               out_bytes r2 = concat chunks1).
Proof.
  intros C1 C2 Na. destruct (sent chunks1 l C1 Na) as (r1 & _ & E1 & E2). exists r1. eexists. split; [exact E1|].
  intros E. rewrite E2 in E. destruct (tag_ok (concat chunks1) (cb _ C1)) as [Bt Lt].
  destruct (received chunks2 _ _ C2 (no_mac_get l _ Na) Bt Lt) as (r2 & r & _ & D1 & D2 & D3).
  exists r2. rewrite D1, D2, E, F_inv. destruct D3 as [[-> _]|[_ D]]; [split; reflexivity|].
  exfalso. apply D. rewrite E, F_inv. reflexivity.
Qed.
(** The receiver accepts exactly what the sender produces. *)
Lemma accepts_genuine chunks attrs t l : Forall bytes chunks -> get0_mac attrs = Some t -> bytes t -> length t = n -> no_mac l ->
  exists r2 r, ae_run S nd receiver (AAttrs 0 attrs :: map AUpdate chunks ++ [AFinal]) = RAttrs 1 attrs :: r2 ++ [RBytes r []] /\
  (r = 0%Z \/ r = (-1)%Z) /\
  (r = 0%Z <-> exists r1, ae_run S nd sender [AUpdate (out_bytes r2); AFinal; AAttrs 1 (Some l)] =
                 r1 ++ [RBytes 0 []; RAttrs 1 (Some (l ++ [mk_attr true [Octets t]]))] /\ out_bytes r1 = concat chunks).
Proof.
  intros C G Bt Lt Na. destruct (received chunks attrs t C G Bt Lt) as (r2 & r & _ & D1 & D2 & D3).
  exists r2, r. split; [exact D1|]. split; [destruct D3 as [[-> _]|[-> _]]; auto|].
  assert (B2 : Forall bytes [out_bytes r2]) by (constructor; [rewrite D2; apply F_bytes, cb; auto|constructor]).
  destruct (sent [out_bytes r2] l B2 Na) as (r1 & L1 & E1 & E2). cbn [map app concat length] in *. rewrite app_nil_r in *. rewrite D2, F_inv in E2.
  split.
  - intros ->. exists r1. destruct D3 as [[_ Dt]|[X _]]; [|congruence]. rewrite E1, D2, <- Dt. auto.
  - intros (r1' & X1 & X2). rewrite E1 in X1.
    assert (Z : r1 = r1' /\ [RBytes 0 []; RAttrs 1 (Some (l ++ [mk_attr true [Octets (tag_of F mac (out_bytes r2))]]))] =
                [RBytes 0 []; RAttrs 1 (Some (l ++ [mk_attr true [Octets t]]))]).
    { assert (Ll : length r1 = length r1').
      { apply (f_equal (@length ae_res)) in X1. rewrite !app_length in X1. cbn [length] in X1. lia. }
      apply app_inj_len; auto. }
    destruct Z as [_ Z]. injection Z as Z. apply app_inj_tail in Z as [_ Z]. injection Z as Z.
    destruct D3 as [[-> _]|[_ D]]; [reflexivity|]. exfalso. apply D. rewrite <- D2. auto.
Qed.
End Messages.

(** A sender and a receiver whose stream ciphers agree on texts of at most [bound] bytes. *)
Section Differing.
Variables (S : suite) (nd : bool) (F1 F2 mac : list N -> list N) (n bound : nat) (tag1 tag2 : list N) (sender receiver : aead S).
Hypothesis F1_len : forall m, length (F1 m) = length m.
Hypothesis F1_bytes : forall m, bytes m -> bytes (F1 m).
Hypothesis F1_pre : forall a b, bytes a -> bytes b -> F1 (a ++ b) = F1 a ++ next_piece F1 a b.
Hypothesis F1_inv : forall m, F1 (F1 m) = m.
Hypothesis F2_len : forall m, length (F2 m) = length m.
Hypothesis F2_bytes : forall m, bytes m -> bytes (F2 m).
Hypothesis F2_pre : forall a b, bytes a -> bytes b -> F2 (a ++ b) = F2 a ++ next_piece F2 a b.
Hypothesis F2_inv : forall m, F2 (F2 m) = m.
Hypothesis mac_len : forall m, bytes m -> length (mac m) = n.
Hypothesis mac_bytes : forall m, bytes m -> bytes (mac m).
Hypothesis HE : forall ops, Forall ae_call_ok ops -> ae_run S nd sender ops = spec_run (enc_step F1 mac n) (spec_start tag1) ops.
Hypothesis HD : forall ops, Forall ae_call_ok ops -> ae_run S nd receiver ops = spec_run (dec_step F2 mac n) (spec_start tag2) ops.
Hypothesis agree : forall m, (length m <= bound)%nat -> F1 m = F2 m.
(** A text of at most [bound] bytes arrives; its tag is accepted exactly when the two stream ciphers give the same tag. *)
Lemma differing chunks1 chunks2 l : Forall bytes chunks1 -> Forall bytes chunks2 -> no_mac l -> (length (concat chunks1) <= bound)%nat ->
  exists r1 attrs, ae_run S nd sender (map AUpdate chunks1 ++ [AFinal; AAttrs 1 (Some l)]) = r1 ++ [RBytes 0 []; RAttrs 1 (Some attrs)] /\
   (concat chunks2 = out_bytes r1 ->
    exists r2 r, ae_run S nd receiver (AAttrs 0 (Some attrs) :: map AUpdate chunks2 ++ [AFinal]) = RAttrs 1 (Some attrs) :: r2 ++ [RBytes r []] /\
               out_bytes r2 = concat chunks1 /\ (r = 0%Z \/ r = (-1)%Z) /\
               (r = 0%Z <-> tag_of F1 mac (concat chunks1) = tag_of F2 mac (concat chunks1))).
Proof.
  intros C1 C2 Na Lb. destruct (sent S nd F1 mac n tag1 sender F1_len F1_bytes F1_pre F1_inv mac_len mac_bytes HE chunks1 l C1 Na) as (r1 & _ & E1 & E2).
  exists r1. eexists. split; [exact E1|]. intros E. rewrite E2 in E.
  destruct (tag_ok F1 mac n F1_len F1_bytes F1_pre F1_inv mac_len mac_bytes (concat chunks1) (cb _ C1)) as [Bt Lt].
  destruct (received S nd F2 mac n tag2 receiver F2_len F2_bytes F2_pre F2_inv mac_len mac_bytes HD chunks2 _ _ C2 (no_mac_get l _ Na) Bt Lt) as (r2 & r & _ & D1 & D2 & D3).
  assert (I : F2 (concat chunks2) = concat chunks1) by (rewrite E, agree, F2_inv; auto).
  exists r2, r. rewrite I in D2, D3. split; [exact D1|]. split; [exact D2|].
  destruct D3 as [[-> D]|[-> D]]; (split; [auto|]); split; auto; try congruence; contradiction.
Qed.
Lemma same_tag m : bytes m -> (length m + n <= bound)%nat -> tag_of F1 mac m = tag_of F2 mac m.
Proof. intros B L. unfold tag_of, next_piece. rewrite agree; [reflexivity|]. rewrite app_length, mac_len; auto. Qed.
End Differing.
