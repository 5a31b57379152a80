(** Property C57: the provider's ciphers (gost_prov_cipher.c), over whole histories of calls on any number of contexts of any
    number of provider instances. *)
From Coq Require Import String ZArith NArith List Bool Lia.
From Verif Require Import Bytes BytesProofs StreamMode Gost89Model Gost89Sboxes Gost89Spec Gost89SpecProofs CryptModel KuzCipherModel PmethModel
  PropGost89 PropCrypt PropCrypt2 PropKuzModes ProvCipherModel ProvCipherSpec ProvCipherProofs ProvCipherLaws.
Import ListNotations.
Local Open Scope nat_scope.
Opaque gost_cipher_init_param gost_cipher_init_cpa gost_cipher_init_cp_12 magma_cipher_init init_ecb init_cbc init_cfb init_ofb init_ctr init_ctracpkm
  gost_cipher_do_cfb gost_cipher_do_cbc gost_cipher_do_cnt magma_cipher_do_cbc magma_cipher_do_ctr do_ecb do_cbc do_cfb do_ofb do_ctr do_ctracpkm.

Section Proof.
Variable sb : subst_block.
Variable mem : nat -> gost_ctx.
Hypothesis sb_ok : subst_ok sb.
Hypothesis mem_ok : forall h, rng_ok (g_rng (mem h)).
Notation step := (step sb mem).
Notation run := (run sb mem).
Notation ready := (ready sb).
Notation cinit := (cinit sb).

Lemma bs_same a : aead a = false -> block_bytes a = bsize a.
Proof. destruct a; try discriminate; reflexivity. Qed.
Lemma bs_pos a : 0 < bsize a < 256.
Proof. destruct a; cbv; lia. Qed.
Definition is_obj (s : state) (id : nat) (a : alg) : Prop :=
  freed s id = false /\ exists n, nth_error (st_objs s) id = Some (a, n) /\ (aead a = false -> n = nid 0 a).
Definition active (s : state) (a : alg) (v : ectx) (pad : bool) : Prop :=
  v_alg v = a /\ is_obj s (v_cipher v) a /\ aead a = false /\ v_nopad v = negb pad.
Definition phase_ok (s : state) (a : alg) (x : option ectx) (pad : bool) (p : phase) : Prop :=
  match p with
  | Blank => x = None /\ pad = true
  | Keyless => exists v, x = Some v /\ active s a v pad /\ ready a (v_core v)
  | Message enc k iv m =>
      exists v c0 ivo, x = Some v /\ active s a v pad /\ v_enc v = enc /\ key_ok k /\ iv_ok a ivo /\ given ivo = iv /\ ready a c0 /\
        full a (cinit a c0 (Some k) ivo enc) (standard sb a enc k iv) v m
  | Finished => exists v, x = Some v /\ active s a v pad /\ (1 < bsize a -> ready a (v_core v))
  end.
Definition cinv (s : state) (c : option gctx) (d : option sctx) : Prop :=
  match c, d with
  | Some c, Some d => x_inst c = s_inst d /\ x_alg c = s_alg d /\ is_obj s (x_cipher c) (s_alg d) /\ phase_ok s (s_alg d) (x_cctx c) (s_pad d) (s_phase d)
  | None, None => True
  | _, _ => False
  end.
Definition sinv (s : state) (w : world) : Prop :=
  length (st_ctxs s) = length w /\ (forall h, cinv s (nth h (st_ctxs s) None) (get w h)) /\
  (forall a id, st_desc s a = Some id -> is_obj s id a) /\ (forall id, In id (st_freed s) -> id < length (st_objs s)).

Lemma alg_beq_ok a b : alg_beq a b = true -> a = b.
Proof. apply internal_alg_dec_bl. Qed.
Lemma alg_beq_refl a : alg_beq a a = true.
Proof. destruct a; reflexivity. Qed.
Definition grows (s s' : state) : Prop := forall id a, is_obj s id a -> is_obj s' id a.
Lemma phase_mono s s' a x pad p : grows s s' -> phase_ok s a x pad p -> phase_ok s' a x pad p.
Proof.
  intros M. assert (A : forall v, active s a v pad -> active s' a v pad) by (intros v (H1 & H2 & H3 & H4); split; [exact H1|]; split; [apply M, H2|auto]).
  destruct p as [| |enc k iv m|]; cbn [phase_ok]; auto.
  - intros (v & H1 & H2 & H3). exists v. auto.
  - intros (v & c0 & ivo & H1 & H2 & H3). exists v, c0, ivo. auto.
  - intros (v & H1 & H2 & H3). exists v. auto.
Qed.
Lemma cinv_mono s s' c d : grows s s' -> cinv s c d -> cinv s' c d.
Proof.
  intros M. unfold cinv. destruct c as [c|], d as [d|]; auto. intros (I & A & L & D). split; [exact I|]. split; [exact A|]. split; [apply M, L|].
  eapply phase_mono; eauto.
Qed.
Lemma nth_put {A} (l : list (option A)) h c k : h < length l ->
  nth k (firstn h l ++ c :: skipn (S h) l) None = if k =? h then c else nth k l None.
Proof.
  revert h k. induction l as [|x l IH]; intros h k H; [cbn in H; lia|].
  destruct h as [|h], k as [|k]; cbn [firstn skipn app nth Nat.eqb]; try reflexivity.
  apply IH. cbn [length] in H. lia.
Qed.
Lemma put_length {A} (l : list (option A)) h c : h < length l -> length (firstn h l ++ c :: skipn (S h) l) = length l.
Proof. intros H. rewrite app_length, firstn_length. cbn [length]. rewrite skipn_length. lia. Qed.
Lemma put_twice {A} (l : list (option A)) h b c : h < length l ->
  let l' := firstn h l ++ b :: skipn (S h) l in firstn h l' ++ c :: skipn (S h) l' = firstn h l ++ c :: skipn (S h) l.
Proof.
  intros H. cbv zeta. revert h H. induction l as [|x l IH]; intros h H; [cbn in H; lia|]. destruct h as [|h]; [reflexivity|].
  cbn [firstn skipn app length] in *. f_equal. apply IH. lia.
Qed.
Lemma sinv_put s w h c d : sinv s w -> h < length w -> cinv s c d -> sinv (set_ctx s h c) (put w h d).
Proof.
  intros (L & C & D & F) H I. unfold sinv, set_ctx, put, get. cbn [st_ctxs st_desc st_freed st_objs]. split; [|split; [|split]].
  - rewrite !put_length by lia. exact L.
  - intros k. rewrite !nth_put by lia. destruct (k =? h); [exact I|apply C].
  - exact D.
  - exact F.
Qed.
Lemma sinv_add s w c d : sinv s w -> cinv s (Some c) d -> sinv (add_ctx s c) (w ++ [d]).
Proof.
  intros (L & C & D & F) I. unfold sinv, add_ctx. cbn [st_ctxs st_desc st_freed st_objs]. split; [|split; [|split]].
  - rewrite !app_length, L. reflexivity.
  - intros k. unfold get. destruct (Nat.lt_ge_cases k (length w)) as [K|K].
    + rewrite !app_nth1 by lia. apply C.
    + rewrite !app_nth2 by lia. rewrite L. destruct (k - length w) as [|n]; cbn [nth]; [exact I|destruct n; exact Logic.I].
  - exact D.
  - exact F.
Qed.
Lemma sinv_init_cipher s w a : sinv s w -> let (s', id) := init_cipher s a in
  sinv s' w /\ is_obj s' id a /\ grows s s' /\ st_ctxs s' = st_ctxs s.
Proof.
  intros (L & C & D & F). unfold init_cipher. destruct (st_desc s a) as [id|] eqn:E.
  - split; [split; [exact L|split; [exact C|split; [exact D|exact F]]]|]. split; [apply D, E|]. split; [|reflexivity]. intros i b H. exact H.
  - set (s' := mk_state _ _ _ _ _).
    assert (NF : freed s (length (st_objs s)) = false).
    { unfold freed. destruct (existsb (Nat.eqb (length (st_objs s))) (st_freed s)) eqn:X; [|reflexivity].
      apply existsb_exists in X as (x & Ix & Q). apply Nat.eqb_eq in Q. subst x. apply F in Ix. lia. }
    assert (M : grows s s').
    { intros i b (H1 & n & H2 & H3). split; [exact H1|]. exists n. split; [|exact H3]. unfold s'. cbn [st_objs]. rewrite nth_error_app1; [exact H2|].
      apply nth_error_Some. rewrite H2. discriminate. }
    assert (LN : is_obj s' (length (st_objs s)) a).
    { split; [exact NF|]. exists (nid (st_loaded s) a). unfold s'. cbn [st_objs]. split; [rewrite nth_error_app2, Nat.sub_diag by lia; reflexivity|].
      destruct a; intros Q; try discriminate Q; reflexivity. }
    split; [|split; [exact LN|split; [exact M|reflexivity]]].
    split; [exact L|]. split; [|split].
    + intros h. eapply cinv_mono; [exact M|apply C].
    + intros b id. unfold s' at 1. cbn [st_desc]. destruct (alg_beq a b) eqn:Q; intros H.
      * injection H as <-. apply alg_beq_ok in Q. subst b. exact LN.
      * apply M, D, H.
    + intros id H. unfold s' in *. cbn [st_freed st_objs] in *. apply F in H. rewrite app_length. cbn [length]. lia.
Qed.
Lemma get_lt w h c : get w h = Some c -> h < length w.
Proof. intros H. destruct (Nat.lt_ge_cases h (length w)); [assumption|]. unfold get in H. rewrite nth_overflow in H by lia. discriminate. Qed.
Lemma sinv_ctx s w h d : sinv s w -> get w h = Some d -> exists c, nth h (st_ctxs s) None = Some c /\ cinv s (Some c) (Some d).
Proof.
  intros (_ & C & _) G. specialize (C h). rewrite G in C. destruct (nth h (st_ctxs s) None) as [c|]; [exists c; auto|contradiction].
Qed.
Lemma sinv_deinit s w a : sinv s w -> (forall h, get w h = None) -> sinv (deinit_cipher s a) w.
Proof.
  intros (L & C & D & F) N. unfold deinit_cipher. destruct (st_desc s a) as [id|] eqn:E; [|split; [exact L|split; [exact C|split; [exact D|exact F]]]].
  pose proof (D a id E) as (_ & n & On & _). split; [exact L|]. split; [|split].
  - intros h. specialize (C h). rewrite N in *. cbn [st_ctxs]. destruct (nth h (st_ctxs s) None); [contradiction|exact I].
  - intros b i. cbn [st_desc]. destruct (alg_beq a b) eqn:Q; [discriminate|]. intros H. destruct (D b i H) as (H1 & n' & H2 & H3).
    split; [|exists n'; auto]. unfold freed. cbn [st_freed existsb]. fold (freed s i). rewrite H1, orb_false_r.
    apply Nat.eqb_neq. intros ->. rewrite On in H2. injection H2 as -> _. rewrite alg_beq_refl in Q. discriminate.
  - intros i [<-|H]; cbn [st_objs]; [apply nth_error_Some; rewrite On; discriminate|apply F, H].
Qed.
Lemma sinv_teardown l : forall s w, sinv s w -> (forall h, get w h = None) -> sinv (fold_left deinit_cipher l s) w.
Proof. induction l as [|a l IH]; intros s w SI N; [exact SI|]. cbn [fold_left]. apply IH; [apply sinv_deinit; assumption|exact N]. Qed.

(** The engine finds the cipher *)
Lemma engine_finds s a : aead a = false -> engine_get_cipher s (nid 0 a) = Some a.
Proof using.
  clear mem_ok mem sb_ok sb. intros A. unfold engine_get_cipher.
  assert (K : forall n, (n <> 0 -> n < 1248 -> n =? nid (st_loaded s) KuzMgm = false)%N)
    by (intros n H1 H2; apply N.eqb_neq; unfold nid, NUM_NID; destruct (st_loaded s); lia).
  assert (M : forall n, (n <> 0 -> n < 1248 -> n =? nid (st_loaded s) MagmaMgm = false)%N)
    by (intros n H1 H2; apply N.eqb_neq; unfold nid, NUM_NID; destruct (st_loaded s); lia).
  unfold cipher_array. cbn [find]. destruct a; try discriminate A;
    rewrite ?(K (nid 0 MagmaCbc)), ?(K (nid 0 MagmaCtr)), ?(K (nid 0 MagmaCtrAcpkm)), ?(K (nid 0 KuzCtrAcpkm)), ?(M (nid 0 KuzCtrAcpkm)) by (cbn; lia); reflexivity.
Qed.
Lemma is_obj_nid s id a : is_obj s id a -> aead a = false -> obj_nid s id = nid 0 a.
Proof. intros (_ & n & H & N) A. unfold obj_nid. rewrite (nth_error_nth _ _ _ H). apply N, A. Qed.

Lemma ready_law' a c0 k ivo enc : ready a c0 -> key_ok k -> iv_ok a ivo ->
  forall chs, Forall (chunk a) chs -> snd (run_chunks core (cdo a) (cinit a c0 (Some k) ivo enc) chs) = standard sb a enc k (given ivo) (concat chs).
Proof. apply ready_law. exact sb_ok. Qed.
Lemma given_ok a ivo : iv_ok a ivo -> length (given ivo) = iv_bytes a /\ bytes (given ivo).
Proof. intros [[Z ->]|(v & -> & L & B)]; cbn [given]; [split; [symmetry; exact Z|constructor]|auto]. Qed.
Lemma standard_len a enc k ivo m : aead a = false -> key_ok k -> iv_ok a ivo -> chunk a m -> length (standard sb a enc k (given ivo) m) = length m.
Proof. intros A K V [C1 C2]. destruct (given_ok a ivo V). apply standard_good; assumption. Qed.
(** A context that was just initialised *)
Lemma started s id a c0 key iv enc nopad : is_obj s id a -> aead a = false -> ready a c0 ->
  (key = None /\ iv = None \/ exists k, key = Some k /\ key_ok k /\ iv_ok a iv) ->
  phase_ok s a (Some (mk_ectx id a (cinit a c0 key iv enc) enc [] None nopad)) (negb nopad)
    match key with Some k => Message enc k (given iv) [] | None => Keyless end.
Proof.
  intros O A R K. assert (AC : active s a (mk_ectx id a (cinit a c0 key iv enc) enc [] None nopad) (negb nopad)).
  { split; [reflexivity|]. split; [exact O|]. split; [exact A|]. cbn [v_nopad]. symmetry. apply negb_involutive. }
  destruct K as [[-> ->]|(k & -> & K & V)].
  - exists (mk_ectx id a (cinit a c0 None None enc) enc [] None nopad). split; [reflexivity|]. split; [exact AC|]. apply ready_keyless; [exact sb_ok|exact R].
  - eexists _, c0, iv. split; [reflexivity|]. split; [exact AC|]. split; [reflexivity|]. split; [exact K|]. split; [exact V|]. split; [reflexivity|]. split; [exact R|].
    split.
    + split; [reflexivity|]. split; [constructor|]. split; [cbn [v_buf length]; apply bs_pos|]. exists []. repeat split. constructor.
    + unfold kept_ok. cbn [v_final length Nat.eqb negb]. rewrite andb_false_r. reflexivity.
Qed.
Lemma set_ctx_twice s h b c : h < length (st_ctxs s) -> set_ctx (set_ctx s h b) h c = set_ctx s h c.
Proof. intros H. unfold set_ctx. cbn [st_ctxs st_desc st_objs st_freed st_loaded]. f_equal. apply put_twice. exact H. Qed.
Lemma with_same c v : x_cctx c = Some v -> with_cctx c (Some v) = c.
Proof. destruct c as [i a n x]. cbn. intros ->. reflexivity. Qed.
Lemma freed_set s h c id : freed (set_ctx s h c) id = freed s id.
Proof. reflexivity. Qed.
Lemma obj_nid_set s h c id : obj_nid (set_ctx s h c) id = obj_nid s id.
Proof. reflexivity. Qed.
Lemma engine_set s h c n : engine_get_cipher (set_ctx s h c) n = engine_get_cipher s n.
Proof. reflexivity. Qed.
Lemma init_set_ctx s h x a : init_cipher (set_ctx s h x) a = (let (s', id) := init_cipher s a in (set_ctx s' h x, id)).
Proof. unfold init_cipher. cbn [set_ctx st_desc]. destruct (st_desc s a); reflexivity. Qed.
(** The cipher data can take a key *)
Lemma reusable s a x pad p : phase_ok s a x pad p -> (p = Blank \/ p = Keyless \/ 1 < bsize a) ->
  p = Blank /\ x = None /\ pad = true \/ exists v, x = Some v /\ active s a v pad /\ ready a (v_core v).
Proof.
  intros P [-> |[-> |B]]; cbn [phase_ok] in P; [left; split; [reflexivity|exact P]|right; exact P|].
  destruct p as [| |enc k iv m|]; cbn [phase_ok] in P.
  - left. split; [reflexivity|exact P].
  - right. exact P.
  - right. destruct P as (v & c0 & ivo & X & AC & E & K & V & G & R & (HH & _)). exists v. split; [exact X|]. split; [exact AC|].
    destruct HH as (_ & _ & _ & chs & CH & _ & ->). apply ready_again; assumption.
  - right. destruct P as (v & X & AC & R). exists v. auto.
Qed.
Lemma nid_lengths a : N.to_nat (key_length a) = 32 /\ N.to_nat (iv_length a) = iv_bytes a.
Proof. destruct a; split; reflexivity. Qed.
Lemma init_ok s w h d c enc key iv pad : sinv s w -> get w h = Some d -> nth h (st_ctxs s) None = Some c -> legal w (Init h enc key iv pad) ->
  let (s', r) := cipher_init sb mem s h c enc key iv pad in let (w', r') := expected sb w (Init h enc key iv pad) in r = r' /\ sinv s' w'.
Proof.
  intros SI G Nc LG. cbn [legal] in LG. destruct LG as (d' & G' & A & PB & LG). rewrite G in G'. injection G' as <-.
  destruct (sinv_ctx s w h d SI G) as (c' & Nc' & CI). rewrite Nc in Nc'. injection Nc' as <-. destruct CI as (I & XA & OB & PH).
  cbn [expected]. rewrite G. pose proof (get_lt w h d G) as HL. pose proof SI as (SL & _).
  assert (KV : key = None /\ iv = None \/ exists k, key = Some k /\ key_ok k /\ iv_ok (s_alg d) iv).
  { destruct LG as [(-> & -> & _)|((k & -> & Lk & Bk) & V & _)]; [left; auto|right]. exists k. split; [reflexivity|]. split; [split; assumption|exact V]. }
  assert (RU : s_phase d = Blank \/ s_phase d = Keyless \/ 1 < bsize (s_alg d)).
  { destruct LG as [(_ & _ & Q)|(_ & _ & Q)]; [tauto|]. rewrite (bs_same _ A) in Q. exact Q. }
  set (ph := match key with Some k => Message enc k (given iv) [] | None => Keyless end).
  set (pad' := match pad with Some p => p | None => s_pad d end).
  assert (EW : with_phase (match pad with Some p => with_pad d p | None => d end) ph = mk_sctx (s_inst d) (s_alg d) pad' ph) by (unfold pad'; destruct pad; reflexivity).
  rewrite EW.
  assert (LN : forall c, x_alg c = s_alg d -> ((N.to_nat (key_length (x_alg c)) <? opt_len key) || (N.to_nat (iv_length (x_alg c)) <? opt_len iv)) = false /\
     (short key (N.to_nat (key_length (x_alg c))) || short iv (N.to_nat (iv_length (x_alg c)))) = false).
  { intros x ->. destruct (nid_lengths (s_alg d)) as [-> ->]. destruct KV as [[-> ->]|(k & -> & [Lk _] & V)]; [split; reflexivity|]. cbn [opt_len short]. rewrite Lk.
    destruct V as [[_ ->]|(v & -> & Lv & _)]; cbn [opt_len short]; [split; reflexivity|]. rewrite Lv, !Nat.ltb_irrefl. split; reflexivity. }
  destruct (reusable s (s_alg d) (x_cctx c) (s_pad d) (s_phase d) PH RU) as [(B & X & P)|(v & X & AC & R)].
  - (* the first initialisation *)
    assert (EP : pad' = s_pad d) by (unfold pad'; rewrite (PB B); reflexivity). rewrite (PB B). unfold cipher_init. cbv zeta. destruct (LN c XA) as [L1 L2]. rewrite freed_set.
    destruct OB as (Fr & OB). rewrite Fr, L1, L2. unfold evp_cipher_init. rewrite X.
    rewrite obj_nid_set, (is_obj_nid s _ _ (conj Fr OB) A).
    rewrite engine_set, (engine_finds s _ A). rewrite init_set_ctx.
    pose proof (sinv_init_cipher s w (s_alg d) SI) as IC. destruct (init_cipher s (s_alg d)) as [s' id]. destruct IC as (SI' & O' & M & EC).
    split; [reflexivity|]. rewrite set_ctx_twice by (rewrite EC, SL; exact HL). apply sinv_put; [exact SI'|exact HL|].
    split; [exact I|]. split; [exact XA|]. split; [apply M; split; assumption|]. cbn [with_cctx x_cctx s_pad s_phase s_alg].
    rewrite EP, P. apply (started s' id (s_alg d) _ key iv enc false); [exact O'|exact A|apply ready_fresh; [exact mem_ok|exact A]|exact KV].
  - (* again *)
    assert (EC : exists v', match pad with Some p => set_padding c p | None => Some c end = Some (with_cctx c (Some v')) /\
      active s (s_alg d) v' pad' /\ v_core v' = v_core v).
    { destruct pad as [p|].
      - unfold set_padding. rewrite X. eexists. split; [reflexivity|]. split; [|reflexivity]. destruct AC as (A1 & A2 & A3 & A4). split; [exact A1|]. auto.
      - exists v. split; [f_equal; symmetry; apply with_same, X|]. auto. }
    destruct EC as (v' & EP & AC' & EV). unfold cipher_init. rewrite EP. cbv zeta. destruct (LN (with_cctx c (Some v')) XA) as [L1 L2].
    rewrite freed_set. destruct OB as (Fr & OB). cbn [x_cipher with_cctx] in *. rewrite Fr, L1, L2.
    unfold evp_cipher_init. cbn [x_cctx with_cctx x_cipher]. destruct AC' as (A1 & (F2 & O2) & _ & A4).
    rewrite freed_set, F2, !obj_nid_set, (is_obj_nid s _ _ (conj Fr OB) A), (is_obj_nid s _ _ (conj F2 O2) A), N.eqb_refl.
    split; [reflexivity|]. rewrite set_ctx_twice by (rewrite SL; exact HL). apply sinv_put; [exact SI|exact HL|].
    split; [exact I|]. split; [exact XA|]. split; [split; assumption|]. cbn [with_cctx x_cctx s_pad s_phase s_alg]. rewrite A1, EV.
    replace pad' with (negb (v_nopad v')) by (rewrite A4; apply negb_involutive).
    apply started; [split; assumption|exact A|exact R|exact KV].
Qed.

Lemma returned_shown d enc k iv m : aead (s_alg d) = false ->
  returned sb d enc k iv m = shown (s_alg d) (standard sb (s_alg d) enc k iv) enc (s_pad d) m.
Proof. intros A. unfold returned, shown. rewrite (bs_same _ A). reflexivity. Qed.
Lemma ending_end_of d enc k iv m : aead (s_alg d) = false ->
  ending sb d enc k iv m = end_of (s_alg d) (standard sb (s_alg d) enc k iv) enc (s_pad d) m.
Proof. intros A. unfold ending, end_of. rewrite (returned_shown d enc k iv m A), (bs_same _ A). destruct enc; reflexivity. Qed.
Lemma active_negb s a v pad : active s a v pad -> negb (v_nopad v) = pad.
Proof. intros (_ & _ & _ & ->). apply negb_involutive. Qed.
Lemma to_int_small n : (Z.of_nat n < 2 ^ 31 - 32)%Z -> to_int (Z.of_nat n) = Z.of_nat n.
Proof. intros H. unfold to_int. rewrite Z.mod_small by lia. destruct (Z.ltb_spec (Z.of_nat n) (2 ^ 31)); lia. Qed.
Lemma update_step_ok s w h d c data enc k iv m : sinv s w -> get w h = Some d -> nth h (st_ctxs s) None = Some c ->
  s_phase d = Message enc k iv m -> bytes data -> (Z.of_nat (length data) < 2 ^ 31 - 32)%Z ->
  let (s', r) := cipher_update s h c data in let (w', r') := expected sb w (Update h data) in r = r' /\ sinv s' w'.
Proof.
  intros SI G Nc P Bd Ln. destruct (sinv_ctx s w h d SI G) as (c' & Nc' & CI). rewrite Nc in Nc'. injection Nc' as <-. destruct CI as (I & XA & OB & PH).
  cbn [expected]. rewrite G, P. rewrite P in PH. destruct PH as (v & c0 & ivo & X & AC & E & K & V & Gi & R & FU). subst iv.
  pose proof AC as (A1 & (F2 & O2) & A3 & A4).
  unfold cipher_update. cbv zeta. rewrite X, F2, A1, A3, (to_int_small _ Ln). destruct (Z.ltb_spec (Z.of_nat (length data)) 0); [lia|].
  destruct (Z.ltb_spec (2 ^ 31 - 32) (Z.of_nat (length data))); [lia|]. rewrite Nat2Z.id, firstn_all.
  pose proof (update_ok (s_alg d) (cinit (s_alg d) c0 (Some k) ivo enc) (standard sb (s_alg d) enc k (given ivo)) (proj1 (bs_pos _))
    (ready_law' _ _ _ _ _ R K V) (fun m => standard_len _ enc k ivo m A3 K V) v m data FU Bd) as U.
  destruct (evp_update v data) as [v' o]. destruct U as (FU' & U1 & U2 & U3 & SH). rewrite (active_negb _ _ _ _ AC), E in SH.
  split.
  - rewrite !(returned_shown _ _ _ _ _ A3), SH, skipn_app, skipn_all, Nat.sub_diag. reflexivity.
  - apply sinv_put; [exact SI|apply (get_lt w h d G)|]. split; [exact I|]. split; [exact XA|]. split; [exact OB|].
    cbn [with_cctx x_cctx with_phase s_pad s_phase s_alg]. exists v', c0, ivo. split; [reflexivity|]. split.
    + pose proof FU' as [(A1' & _) _]. split; [exact A1'|]. rewrite U1, U3. split; [split; assumption|]. split; [exact A3|exact A4].
    + rewrite U2. auto 10.
Qed.
Lemma final_step_ok s w h d c enc k iv m : sinv s w -> get w h = Some d -> nth h (st_ctxs s) None = Some c ->
  s_phase d = Message enc k iv m ->
  let (s', r) := cipher_final s h c in let (w', r') := expected sb w (Final h) in r = r' /\ sinv s' w'.
Proof.
  intros SI G Nc P. destruct (sinv_ctx s w h d SI G) as (c' & Nc' & CI). rewrite Nc in Nc'. injection Nc' as <-. destruct CI as (I & XA & OB & PH).
  cbn [expected]. rewrite G, P. rewrite P in PH. destruct PH as (v & c0 & ivo & X & AC & E & K & V & Gi & R & FU). subst iv.
  pose proof AC as (A1 & (F2 & O2) & A3 & A4).
  unfold cipher_final. rewrite X, F2, A1, A3.
  pose proof (final_ok (s_alg d) (cinit (s_alg d) c0 (Some k) ivo enc) (standard sb (s_alg d) enc k (given ivo)) (proj1 (bs_pos _))
    (ready_law' _ _ _ _ _ R K V) (fun m => standard_len _ enc k ivo m A3 K V) (proj2 (bs_pos _)) v m FU) as U.
  destruct (evp_final v) as [v' o]. destruct U as (U0 & U1 & U2 & U3 & (chs & CH & UC) & EO). rewrite (active_negb _ _ _ _ AC), E in EO.
  rewrite (ending_end_of _ _ _ _ _ A3), <- EO.
  split; [reflexivity|]. apply sinv_put; [exact SI|apply (get_lt w h d G)|]. split; [exact I|]. split; [exact XA|]. split; [exact OB|].
  cbn [with_cctx x_cctx with_phase s_pad s_phase s_alg]. exists v'. split; [reflexivity|]. split.
  - split; [exact U0|]. rewrite U1, U3. split; [split; assumption|]. split; [exact A3|exact A4].
  - intros B. rewrite UC. apply ready_again; assumption.
Qed.
Lemma padding_step_ok s w h d c pad : sinv s w -> get w h = Some d -> nth h (st_ctxs s) None = Some c ->
  (s_phase d = Keyless \/ exists enc k iv, s_phase d = Message enc k iv []) ->
  let (s', r) := cipher_set_ctx_params s h c pad in let (w', r') := expected sb w (SetPadding h pad) in r = r' /\ sinv s' w'.
Proof.
  intros SI G Nc P. destruct (sinv_ctx s w h d SI G) as (c' & Nc' & CI). rewrite Nc in Nc'. injection Nc' as <-. destruct CI as (I & XA & OB & PH).
  cbn [expected]. rewrite G. unfold cipher_set_ctx_params, set_padding.
  assert (Q : exists v, x_cctx c = Some v /\ phase_ok s (s_alg d)
     (Some (mk_ectx (v_cipher v) (v_alg v) (v_core v) (v_enc v) (v_buf v) (v_final v) (negb pad))) pad (s_phase d)).
  { destruct P as [P|(enc & k & iv & P)]; rewrite P in *; cbn [phase_ok] in *.
    - destruct PH as (v & X & (A1 & A2 & A3 & A4) & R). exists v. split; [exact X|]. eexists. split; [reflexivity|]. split; [|exact R].
      split; [exact A1|]. split; [exact A2|]. auto.
    - destruct PH as (v & c0 & ivo & X & (A1 & A2 & A3 & A4) & E & K & V & Gi & R & HH & KK). exists v. split; [exact X|]. eexists _, c0, ivo.
      split; [reflexivity|]. split; [split; [exact A1|split; [exact A2|auto]]|]. split; [exact E|]. split; [exact K|]. split; [exact V|]. split; [exact Gi|]. split; [exact R|].
      split; [exact HH|]. unfold kept_ok in *. cbn [v_final length Nat.eqb negb] in *. rewrite !andb_false_r in *. exact KK. }
  destruct Q as (v & X & Q). rewrite X. split; [reflexivity|]. apply sinv_put; [exact SI|apply (get_lt w h d G)|].
  split; [exact I|]. split; [exact XA|]. split; [exact OB|exact Q].
Qed.
Lemma sinv_load s w : sinv s w -> sinv (load s) w.
Proof.
  intros (L & C & D & F). assert (M : grows s (load s)) by (intros i b H; exact H). split; [exact L|]. split; [|split; [exact D|exact F]].
  intros h. exact (cinv_mono s (load s) _ _ M (C h)).
Qed.
Lemma lengths_ok a : aead a = aead a -> Params (block_size a) (iv_length a) (key_length a) (all_flags a) = Params (N.of_nat (block_bytes a)) (N.of_nat (iv_bytes a)) 32 (all_flags a).
Proof. intros _. destruct a; reflexivity. Qed.
Lemma step_ok s w o : sinv s w -> legal w o -> let (s', r) := step s o in let (w', r') := expected sb w o in r = r' /\ sinv s' w'.
Proof.
  intros SI LG. destruct o as [|i a|h|h|h enc key iv pad|h pad|h data|h|a|i]; cbn [ProvCipherModel.step].
  - split; [reflexivity|apply sinv_load, SI].
  - unfold cipher_newctx. pose proof SI as (SL & _). pose proof (sinv_init_cipher s w a SI) as IC. destruct (init_cipher s a) as [s' id]. destruct IC as (SI' & O & M & EC).
    cbn [expected]. rewrite EC, SL. split; [reflexivity|]. apply sinv_add; [exact SI'|]. split; [reflexivity|]. split; [reflexivity|]. split; [exact O|]. split; reflexivity.
  - destruct LG as (d & G). destruct (sinv_ctx s w h d SI G) as (c & Nc & CI). unfold on. rewrite Nc. cbn [expected]. rewrite G. destruct CI as (I & XA & OB & PH).
    unfold cipher_dupctx. pose proof SI as (SL & _). rewrite XA. pose proof (sinv_init_cipher s w (s_alg d) SI) as IC. destruct (init_cipher s (s_alg d)) as [s' id].
    destruct IC as (SI' & O & M & EC). cbv zeta. rewrite SL.
    assert (Q : forall v, x_cctx c = v -> sinv (add_ctx s' (mk_gctx (x_inst c) (s_alg d) id v)) (w ++ [Some d])).
    { intros v <-. apply sinv_add; [exact SI'|]. split; [exact I|]. split; [reflexivity|]. split; [exact O|]. apply (phase_mono s s'); assumption. }
    destruct (x_cctx c) as [v|] eqn:X; [|split; [reflexivity|apply Q; reflexivity]].
    assert (AC : active s (s_alg d) v (s_pad d)).
    { destruct (s_phase d) as [| |enc k iv m|]; cbn [phase_ok] in PH.
      - destruct PH as [PH _]. discriminate PH.
      - destruct PH as (v' & X' & PH & _). injection X' as <-. exact PH.
      - destruct PH as (v' & c0 & ivo & X' & PH & _). injection X' as <-. exact PH.
      - destruct PH as (v' & X' & PH & _). injection X' as <-. exact PH. }
    destruct AC as (A1 & (F2 & O2) & A3 & A4). rewrite F2, A1, A3. split; [reflexivity|apply Q; reflexivity].
  - destruct LG as (d & G). destruct (sinv_ctx s w h d SI G) as (c & Nc & CI). unfold on. rewrite Nc. cbn [expected]. destruct CI as (I & XA & OB & PH). unfold cipher_freectx.
    assert (Q : sinv (set_ctx s h None) (put w h None)) by (apply sinv_put; [exact SI|apply (get_lt w h d G)|exact Logic.I]).
    destruct (x_cctx c) as [v|] eqn:X; [|split; [reflexivity|exact Q]].
    assert (F2 : freed s (v_cipher v) = false).
    { destruct (s_phase d) as [| |enc k iv m|]; cbn [phase_ok] in PH.
      - destruct PH as [PH _]. discriminate PH.
      - destruct PH as (v' & X' & (_ & (F2 & _) & _) & _). injection X' as <-. exact F2.
      - destruct PH as (v' & c0 & ivo & X' & (_ & (F2 & _) & _) & _). injection X' as <-. exact F2.
      - destruct PH as (v' & X' & (_ & (F2 & _) & _) & _). injection X' as <-. exact F2. }
    rewrite F2. split; [reflexivity|exact Q].
  - pose proof LG as (d & G & _). destruct (sinv_ctx s w h d SI G) as (c & Nc & _). unfold on. rewrite Nc. apply (init_ok s w h d c); assumption.
  - destruct LG as (d & G & P). destruct (sinv_ctx s w h d SI G) as (c & Nc & _). unfold on. rewrite Nc. apply (padding_step_ok s w h d c); assumption.
  - destruct LG as (d & enc & k & iv & m & G & P & Bd & Ln). destruct (sinv_ctx s w h d SI G) as (c & Nc & _). unfold on. rewrite Nc. apply (update_step_ok s w h d c data enc k iv m); assumption.
  - destruct LG as (d & enc & k & iv & m & G & P). destruct (sinv_ctx s w h d SI G) as (c & Nc & _). unfold on. rewrite Nc. apply (final_step_ok s w h d c enc k iv m); assumption.
  - unfold cipher_get_params. cbn [expected]. pose proof (sinv_init_cipher s w a SI) as IC. destruct (init_cipher s a) as [s' id]. destruct IC as (SI' & _).
    split; [apply lengths_ok; reflexivity|exact SI'].
  - cbn [expected legal] in *. split; [reflexivity|]. unfold gost_teardown. apply sinv_teardown; assumption.
Qed.
Lemma run_ok l : forall s w, sinv s w -> all_legal sb w l -> run s l = expected_results sb w l.
Proof.
  induction l as [|o l IH]; intros s w SI LG; [reflexivity|]. cbn [all_legal] in LG. destruct LG as [L1 L2]. cbn [ProvCipherModel.run expected_results].
  pose proof (step_ok s w o SI L1) as ST. destruct (step s o) as [s' r]. destruct (expected sb w o) as [w' r']. cbn [fst] in L2. destruct ST as [-> SI'].
  f_equal. apply IH; assumption.
Qed.
Lemma start_ok : sinv start [].
Proof.
  split; [reflexivity|]. split; [|split].
  - intros h. unfold get. destruct h; exact I.
  - intros a id H. discriminate H.
  - intros id [].
Qed.
End Proof.

(** Every history of calls in the order the API allows returns what the standards say: any number of instances and contexts, calls
    interleaved in any way, messages cut into any pieces, copies and teardowns at any moment. *)
Theorem C57_histories : forall sb mem l, subst_ok sb -> (forall h, rng_ok (g_rng (mem h))) -> all_legal sb [] l ->
  run sb mem start l = expected_results sb [] l.
Proof. intros sb mem l S M. apply (run_ok sb mem S M l start []). apply start_ok. Qed.

Print Assumptions C57_histories.

(** * Whole messages *)
Lemma unpadded_iff bs x p : 0 < bs -> bs < 256 -> length x mod bs = 0 -> (unpadded bs x = Some p <-> x = padded bs p).
Proof.
  intros B0 B1 M. unfold unpadded, padded. set (n := N.to_nat (last x 0%N)). split.
  - intros H. destruct ((1 <=? n) && (n <=? bs) && (n <=? length x) && forallb (N.eqb (N.of_nat n)) (skipn (length x - n) x)) eqn:E; [|discriminate].
    injection H as <-. apply andb_prop in E as [E FA]. apply andb_prop in E as [E L3]. apply andb_prop in E as [L1 L2].
    apply Nat.leb_le in L1, L2, L3. rewrite firstn_length, Nat.min_l by lia.
    assert (R : bs - (length x - n) mod bs = n).
    { pose proof (Nat.div_mod_eq (length x) bs) as D. rewrite M in D. assert (Q : 1 <= length x / bs) by (destruct (length x / bs); lia).
      destruct (Nat.eq_dec n bs) as [-> |NE].
      - replace (length x - bs) with ((length x / bs - 1) * bs) by nia. rewrite Nat.mod_mul by lia. lia.
      - replace (length x - n) with ((bs - n) + (length x / bs - 1) * bs) by nia. rewrite Nat.mod_add, Nat.mod_small by lia. lia. }
    rewrite R. rewrite <- (firstn_skipn (length x - n) x) at 1. f_equal.
    rewrite forallb_forall in FA. assert (LS : length (skipn (length x - n) x) = n) by (rewrite skipn_length; lia).
    assert (R2 : forall l, (forall y, In y l -> (N.of_nat n =? y)%N = true) -> l = repeat (N.of_nat n) (length l)).
    { clear. induction l as [|y l IH]; intros FA; [reflexivity|]. cbn [repeat length]. f_equal.
      + symmetry. apply N.eqb_eq, FA. left. reflexivity.
      + apply IH. intros z Z. apply FA. right. exact Z. }
    rewrite (R2 _ FA) at 1. rewrite LS. reflexivity.
  - intros E. set (r := bs - length p mod bs) in *. assert (Hr : 1 <= r <= bs) by (pose proof (Nat.mod_upper_bound (length p) bs); lia).
    assert (La : last x 0%N = N.of_nat r).
    { rewrite E. destruct r as [|r']; [lia|]. replace (repeat (N.of_nat (S r')) (S r')) with (repeat (N.of_nat (S r')) r' ++ [N.of_nat (S r')]).
      - rewrite app_assoc. apply last_last.
      - symmetry. cbn [repeat]. apply repeat_cons. }
    assert (Hn : n = r) by (unfold n; rewrite La; apply Nat2N.id). clearbody n. subst n. rewrite E, app_length, repeat_length.
    replace (1 <=? r) with true by (symmetry; apply Nat.leb_le; lia). replace (r <=? bs) with true by (symmetry; apply Nat.leb_le; lia).
    replace (r <=? length p + r) with true by (symmetry; apply Nat.leb_le; lia). cbn [andb]. replace (length p + r - r) with (length p) by lia.
    rewrite skipn_app, skipn_all, Nat.sub_diag. cbn [app skipn]. rewrite firstn_app, firstn_all, Nat.sub_diag. cbn [firstn]. rewrite app_nil_r.
    replace (forallb (N.eqb (N.of_nat r)) (repeat (N.of_nat r) r)) with true; [reflexivity|]. symmetry. apply forallb_forall. intros z Z. apply repeat_spec in Z. subst z. apply N.eqb_refl.
Qed.
(** Removing the padding gives back the message, and is refused for anything that is not a padded message. *)
Theorem C57_padding : forall bs x p, 0 < bs < 256 -> length x mod bs = 0 -> (unpadded bs x = Some p <-> x = padded bs p).
Proof. intros bs x p [B0 B1]. apply unpadded_iff; assumption. Qed.
Print Assumptions C57_padding.

Section Whole.
Variable sb : subst_block.
Variable mem : nat -> gost_ctx.
Hypothesis sb_ok : subst_ok sb.
Hypothesis mem_ok : forall h, rng_ok (g_rng (mem h)).
Variables (a : alg) (k : list N) (iv : list N).
Hypothesis A : aead a = false.
Hypothesis K : key_ok k.
Hypothesis Liv : length iv = iv_bytes a.
Hypothesis Biv : bytes iv.
Notation F e := (standard sb a e k iv).
Notation bs := (bsize a).
Notation c1 e := (cinit sb a (fresh mem 0 a) (Some k) (Some iv) e).
Lemma law1 e : forall chs, Forall (chunk a) chs -> snd (run_chunks core (cdo a) (c1 e) chs) = F e (concat chs).
Proof.
  apply (ready_law' sb sb_ok a (fresh mem 0 a) k (Some iv) e); [apply ready_fresh; assumption|exact K|]. right. exists iv. auto.
Qed.
Lemma len1 e m : chunk a m -> length (F e m) = length m.
Proof. intros [C1 C2]. apply standard_good; assumption. Qed.
Lemma wholes_chunk m : bytes m -> chunk a (wholes bs m) /\ m = wholes bs m ++ skipn (length (wholes bs m)) m /\ length (skipn (length (wholes bs m)) m) < bs.
Proof.
  intros B. pose proof (cut a (fun m => m) (proj1 (bs_pos a)) (fun m _ => eq_refl) m) as (C1 & C2 & C3). unfold wholes in *. split; [split; [exact C1|apply bytes_firstn, B]|].
  rewrite firstn_length, Nat.min_l by lia. rewrite firstn_skipn. split; [reflexivity|lia].
Qed.
Lemma some_ctx e pad m : bytes m -> exists v, full a (c1 e) (F e) v m /\ v_enc v = e /\ v_nopad v = negb pad.
Proof.
  intros B. destruct (wholes_chunk m B) as (C & E & L).
  exists (mk_ectx 0 a (after a (c1 e) [wholes bs m]) e (skipn (length (wholes bs m)) m)
    (if (1 <? bs) && negb e && negb (negb pad) && complete bs m && negb (length m =? 0) then Some (skipn (length (F e m) - bs) (F e m)) else None) (negb pad)).
  split; [|split; reflexivity]. split; [|reflexivity]. split; [reflexivity|]. split; [exact B|]. split; [exact L|].
  exists [wholes bs m]. split; [constructor; [exact C|constructor]|]. cbn [concat v_buf v_core]. rewrite app_nil_r. split; [exact E|reflexivity].
Qed.
Lemma shown_grows e pad m d : bytes m -> bytes d -> exists o, shown a (F e) e pad (m ++ d) = shown a (F e) e pad m ++ o.
Proof.
  intros Bm Bd. destruct (some_ctx e pad m Bm) as (v & FU & Ev & Np).
  pose proof (update_ok a (c1 e) (F e) (proj1 (bs_pos a)) (law1 e) (len1 e) v m d FU Bd) as U. destruct (evp_update v d) as [v' o]. destruct U as (_ & _ & _ & _ & U).
  rewrite Ev, Np, negb_involutive in U. exists o. exact U.
Qed.
Lemma grows_chunks e x y : chunk a x -> chunk a y -> exists o, F e (x ++ y) = F e x ++ o.
Proof.
  intros X Y. pose proof (extend a (c1 e) (F e) (law1 e) [x] y (Forall_cons x X (Forall_nil _)) Y) as E. destruct (cdo a _ y) as [c o]. destruct E as [_ E].
  cbn [concat] in E. rewrite app_nil_r in E. exists o. exact E.
Qed.
(** The pieces of a message *)
Definition data_of (l : list result) : list N := concat (map (fun r => match r with Output o => o | _ => [] end) l).
Definition rest_of (pieces : list (list N)) : list call := map (Update 0) pieces ++ [Final 0].
Definition session (i : nat) (e : bool) (pieces : list (list N)) : list call := New i a :: Init 0 e (Some k) (Some iv) None :: rest_of pieces.
Definition piece_ok (p : list N) : Prop := bytes p /\ (Z.of_nat (length p) < 2 ^ 31 - 32)%Z.
Definition whole_ending (d : sctx) (e : bool) (m : list N) : list N := match ending sb d e k iv m with Some o => o | None => [] end.
Lemma rest_ok i e ps : forall m, bytes m -> Forall piece_ok ps ->
  let d := mk_sctx i a true (Message e k iv m) in let d' := mk_sctx i a true (Message e k iv (m ++ concat ps)) in
  all_legal sb [Some d] (rest_of ps) /\
  shown a (F e) e true m ++ data_of (expected_results sb [Some d] (rest_of ps)) =
  shown a (F e) e true (m ++ concat ps) ++ match end_of a (F e) e true (m ++ concat ps) with Some o => o | None => [] end /\
  last (expected_results sb [Some d] (rest_of ps)) Done = match end_of a (F e) e true (m ++ concat ps) with Some o => Output o | None => Returns false end.
Proof.
  induction ps as [|p ps IH]; intros m Bm P.
  - cbv zeta. cbn [rest_of map app all_legal expected_results expected get nth concat s_phase]. rewrite app_nil_r.
    rewrite (ending_end_of sb (mk_sctx i a true (Message e k iv m)) e k iv m A). cbn [s_alg s_pad last].
    split; [|split; [|reflexivity]].
    + split; [|exact I]. exists (mk_sctx i a true (Message e k iv m)), e, k, iv, m. auto.
    + unfold data_of. cbn [map concat]. rewrite app_nil_r. destruct (end_of a (F e) e true m); reflexivity.
  - inversion P as [|? ? [Bp Lp] P']; subst. cbv zeta. unfold rest_of. cbn [map app all_legal expected_results expected get nth s_phase concat].
    fold (rest_of ps). cbn [put firstn skipn app fst with_phase s_inst s_alg s_pad].
    destruct (IH (m ++ p) (bytes_app _ _ Bm Bp) P') as (I1 & I2 & I3). cbv zeta in I1, I2, I3.
    destruct (shown_grows e true m p Bm Bp) as (o & EO).
    rewrite !(returned_shown sb (mk_sctx i a true (Message e k iv m)) e k iv _ A). cbn [s_alg s_pad].
    rewrite EO, skipn_app, skipn_all, Nat.sub_diag. cbn [app skipn]. rewrite app_assoc. split; [|split].
    + split; [|exact I1]. exists (mk_sctx i a true (Message e k iv m)), e, k, iv, m. auto.
    + unfold data_of in *. cbn [map concat]. rewrite <- I2, EO, !app_assoc. reflexivity.
    + rewrite <- I3. destruct (expected_results sb _ (rest_of ps)) eqn:Q; [|reflexivity].
      destruct ps; discriminate Q.
Qed.
Lemma session_ok i e ps : Forall piece_ok ps ->
  data_of (run sb mem start (session i e ps)) = shown a (F e) e true (concat ps) ++ match end_of a (F e) e true (concat ps) with Some o => o | None => [] end /\
  last (run sb mem start (session i e ps)) Done = match end_of a (F e) e true (concat ps) with Some o => Output o | None => Returns false end.
Proof.
  intros P. destruct (rest_ok i e ps [] (Forall_nil _) P) as (L & D & La). cbv zeta in L, D, La. cbn [app] in D, La.
  assert (LG : all_legal sb [] (session i e ps)).
  { unfold session. cbn [all_legal legal expected fst app get nth put firstn skipn with_phase s_inst s_alg s_pad given]. split; [exact I|]. split; [|exact L].
    eexists. split; [reflexivity|]. cbn [s_alg s_phase]. split; [exact A|]. split; [reflexivity|]. right. split; [exists k; destruct K; auto|]. split; [right; exists iv; auto|]. left. reflexivity. }
  assert (E0 : shown a (F e) e true [] = []).
  { pose proof (len1 e [] (conj (Nat.mod_0_l bs ltac:(pose proof (bs_pos a); lia)) (Forall_nil _))) as L0. unfold shown.
    change (wholes bs []) with (firstn (0 - 0 mod bs) (@nil N)). rewrite firstn_nil. destruct (F e []); [|discriminate L0]. rewrite firstn_nil. destruct (_ && _); reflexivity. }
  rewrite E0 in D. cbn [app] in D.
  rewrite (C57_histories sb mem _ sb_ok mem_ok LG). unfold session. cbn [expected_results expected app get nth put firstn skipn with_phase s_inst s_alg s_pad given].
  split; [exact D|]. rewrite <- La. destruct (expected_results sb _ (rest_of ps)) eqn:Q; [|reflexivity]. destruct ps; discriminate Q.
Qed.
Definition to_encrypt (m : list N) : list N := if (1 <? block_bytes a) then padded (block_bytes a) m else m.
Lemma padded_chunk m : bytes m -> chunk a (padded bs m) /\ exists r, padded bs m = wholes bs m ++ r /\ chunk a r.
Proof.
  intros B. destruct (wholes_chunk m B) as (C & E & L). set (r := skipn (length (wholes bs m)) m) in *. pose proof (bs_pos a) as BP.
  assert (M : length m mod bs = length r) by (rewrite E, mod_app, Nat.mod_small by (try apply C; lia); reflexivity).
  assert (CR : chunk a (r ++ repeat (N.of_nat (bs - length r)) (bs - length r))).
  { split; [rewrite app_length, repeat_length; replace (length r + (bs - length r)) with bs by lia; apply Nat.mod_same; lia|].
    apply bytes_app; [rewrite E in B; apply bytes_app_inv in B; apply B|]. unfold bytes. apply Forall_forall. intros x X. apply repeat_spec in X. subst x. unfold isbyte. lia. }
  assert (EP : padded bs m = wholes bs m ++ r ++ repeat (N.of_nat (bs - length r)) (bs - length r)) by (unfold padded; rewrite M, app_assoc, <- E; reflexivity).
  split; [|exists (r ++ repeat (N.of_nat (bs - length r)) (bs - length r)); auto].
  rewrite EP. destruct C as [C1 C2], CR as [R1 R2]. split; [rewrite mod_app by (try exact C1; lia); exact R1|apply bytes_app; assumption].
Qed.
Lemma encrypted m : bytes m -> shown a (F true) true true m ++ match end_of a (F true) true true m with Some o => o | None => [] end = F true (to_encrypt m) /\ chunk a (to_encrypt m).
Proof.
  intros B. unfold to_encrypt. rewrite (bs_same a A). unfold end_of, shown. cbn [negb andb]. rewrite andb_false_r. cbn [andb]. pose proof (bs_pos a) as BP.
  destruct (Nat.eqb_spec bs 1) as [Q|Q].
  - rewrite Q. cbn [Nat.ltb Nat.leb]. rewrite app_nil_r. assert (W : wholes 1 m = m) by (unfold wholes; rewrite Nat.mod_1_r, Nat.sub_0_r; apply firstn_all). rewrite W.
    split; [reflexivity|]. split; [rewrite Q; apply Nat.mod_1_r|exact B].
  - destruct (Nat.ltb_spec 1 bs); [|lia]. destruct (padded_chunk m B) as (PC & r & -> & RC). destruct (wholes_chunk m B) as (WC & _).
    destruct (grows_chunks true (wholes bs m) r WC RC) as (o & ->). rewrite skipn_app, skipn_all, Nat.sub_diag. cbn [app skipn]. split; [reflexivity|].
    destruct WC as [W1 W2], RC as [R1 R2]. split; [rewrite mod_app by (try exact W1; lia); exact R1|apply bytes_app; assumption].
Qed.
Lemma decrypted m x : bytes m -> bytes x -> chunk a x -> F false x = to_encrypt m ->
  shown a (F false) false true x ++ match end_of a (F false) false true x with Some o => o | None => [] end = m /\ exists o, end_of a (F false) false true x = Some o.
Proof.
  intros B Bx [X1 X2]. unfold to_encrypt. rewrite (bs_same a A). intros E. pose proof (bs_pos a) as BP. unfold end_of, shown.
  assert (W : wholes bs x = x) by (unfold wholes; rewrite X1, Nat.sub_0_r; apply firstn_all). rewrite W.
  assert (Cx : complete bs x = true) by (unfold complete; rewrite X1; reflexivity). rewrite Cx. destruct (Nat.eqb_spec bs 1) as [Q|Q].
  - rewrite Q in E |- *. cbn [Nat.ltb Nat.leb andb] in *. rewrite E. rewrite app_nil_r. split; [reflexivity|]. eauto.
  - destruct (Nat.ltb_spec 1 bs); [|lia]. cbn [andb negb]. rewrite E.
    destruct (padded_chunk m B) as ([P1 _] & _). rewrite (proj2 (unpadded_iff bs (padded bs m) m (proj1 BP) (proj2 BP) P1) eq_refl). cbn [option_map].
    split; [|eauto]. assert (LP : length (padded bs m) - bs <= length m).
    { unfold padded. rewrite app_length, repeat_length. lia. }
    assert (FP : firstn (length (padded bs m) - bs) (padded bs m) = firstn (length (padded bs m) - bs) m).
    { unfold padded at 2. rewrite firstn_app. replace (length (padded bs m) - bs - length m) with 0 by lia. cbn [firstn]. apply app_nil_r. }
    rewrite FP, firstn_length, Nat.min_l by lia. apply firstn_skipn.
Qed.
End Whole.

(** A message, in any pieces, is encrypted as the standard says, and any pieces of the result decrypt to it. *)
Theorem C57_whole_messages : forall sb mem a k iv i j xs ys, subst_ok sb -> (forall h, rng_ok (g_rng (mem h))) -> aead a = false ->
  length k = 32 -> bytes k -> length iv = iv_bytes a -> bytes iv -> Forall piece_ok xs -> Forall piece_ok ys ->
  let c := data_of (run sb mem start (session a k iv i true xs)) in
  c = standard sb a true k iv (if (1 <? block_bytes a) then padded (block_bytes a) (concat xs) else concat xs) /\
  (concat ys = c ->
   data_of (run sb mem start (session a k iv j false ys)) = concat xs /\
   exists o, last (run sb mem start (session a k iv j false ys)) Done = Output o).
Proof.
  intros sb mem a k iv i j xs ys S M A Lk Bk Lv Bv X Y. cbv zeta. assert (K : key_ok k) by (split; assumption).
  assert (BX : forall l, Forall piece_ok l -> bytes (concat l)).
  { induction 1 as [|p l [P _] _ IH]; [constructor|]. cbn [concat]. apply bytes_app; assumption. }
  destruct (session_ok sb mem S M a k iv A K Lv Bv i true xs X) as [SX _]. destruct (session_ok sb mem S M a k iv A K Lv Bv j false ys Y) as [SY LY].
  destruct (encrypted sb mem S M a k iv A K Lv Bv (concat xs) (BX xs X)) as [EX CX]. rewrite EX in SX. rewrite SX. split; [reflexivity|]. intros E.
  destruct CX as [C1 C2]. pose proof (standard_good sb a true k iv (to_encrypt a (concat xs)) A K Lv Bv C1 C2) as [G1 G2].
  destruct (decrypted sb a k iv A Lv (concat xs) (concat ys) (BX xs X) (BX ys Y)) as [D1 (o & D2)].
  - split; [rewrite E, G1; exact C1|apply BX, Y].
  - rewrite E. apply standard_inverse; assumption.
  - rewrite SY, D1. split; [reflexivity|]. exists o. rewrite LY, D2. reflexivity.
Qed.
Print Assumptions C57_whole_messages.

(** * Sizes *)
Fixpoint world_after (sb : subst_block) (w : world) (l : list call) : world :=
  match l with [] => w | o :: l' => world_after sb (fst (expected sb w o)) l' end.
Lemma legal_app sb l o : forall w, all_legal sb w (l ++ [o]) -> all_legal sb w l /\ legal (world_after sb w l) o.
Proof.
  induction l as [|x l IH]; intros w; cbn [app all_legal world_after]; [intros [H _]; auto|]. intros [H1 H2]. apply IH in H2. tauto.
Qed.
Fixpoint state_after sb mem s (l : list call) : state := match l with [] => s | o :: l' => state_after sb mem (fst (step sb mem s o)) l' end.
Lemma sinv_after sb mem l : subst_ok sb -> (forall h, rng_ok (g_rng (mem h))) -> forall s w, sinv sb s w -> all_legal sb w l ->
  sinv sb (state_after sb mem s l) (world_after sb w l).
Proof.
  intros S M. induction l as [|o l IH]; intros s w SI LG; [exact SI|]. destruct LG as [L1 L2]. cbn [state_after world_after].
  pose proof (step_ok sb mem S M s w o SI L1) as ST. destruct (step sb mem s o) as [s' r]. destruct (expected sb w o) as [w' r']. cbn [fst] in *. apply IH; [apply ST|exact L2].
Qed.
Lemma run_last sb mem l o : forall s, last (run sb mem s (l ++ [o])) Done = snd (step sb mem (state_after sb mem s l) o).
Proof.
  induction l as [|x l IH]; intros s; cbn [app ProvCipherModel.run state_after].
  - destruct (step sb mem s o); reflexivity.
  - destruct (step sb mem s x) as [s' r]. cbn [fst]. rewrite <- IH. destruct (run sb mem s' (l ++ [o])) eqn:E; [|reflexivity].
    destruct l; cbn [app ProvCipherModel.run] in E; [destruct (step sb mem s' o)|destruct (step sb mem s' c)]; discriminate E.
Qed.
(** An update returns fewer bytes than it was given plus a block; the end of a message returns at most a block.  (This is what
    callers allow for; the size of the output buffer itself is not looked at.) *)
Theorem C57_output_fits : forall sb mem l h, subst_ok sb -> (forall h, rng_ok (g_rng (mem h))) ->
  (forall data, all_legal sb [] (l ++ [Update h data]) -> exists o c, get (world_after sb [] l) h = Some c /\
     last (run sb mem start (l ++ [Update h data])) Done = Output o /\ length o < length data + block_bytes (s_alg c)) /\
  (all_legal sb [] (l ++ [Final h]) -> forall o, last (run sb mem start (l ++ [Final h])) Done = Output o ->
     exists c, get (world_after sb [] l) h = Some c /\ length o <= block_bytes (s_alg c) /\ (block_bytes (s_alg c) = 1 -> o = [])).
Proof.
  intros sb mem l h S M.
  assert (SH : forall a enc k ivo pad m, aead a = false -> key_ok k -> iv_ok a ivo -> bytes m ->
    length (shown a (standard sb a enc k (given ivo)) enc pad m) = length m - length m mod bsize a - (if (1 <? bsize a) && negb enc && pad && complete (bsize a) m then bsize a else 0)).
  { intros a enc k ivo pad m A K V B. pose proof (cut a (fun m => m) (proj1 (bs_pos a)) (fun m _ => eq_refl) m) as (C1 & C2 & C3).
    assert (L : length (standard sb a enc k (given ivo) (wholes (bsize a) m)) = length m - length m mod bsize a).
    { rewrite (standard_len sb) by first [assumption | split; [exact C1|apply bytes_firstn, B]]. unfold wholes. rewrite firstn_length. pose proof (Nat.mod_le (length m) (bsize a)). lia. }
    unfold shown. destruct (_ && _); [rewrite firstn_length, L|rewrite L]; lia. }
  split.
  - intros data LG. apply legal_app in LG as [L1 L2]. pose proof (sinv_after sb mem l S M start [] (start_ok sb) L1) as SI. rewrite run_last.
    pose proof (step_ok sb mem S M _ _ (Update h data) SI L2) as ST. destruct (step sb mem (state_after sb mem start l) (Update h data)) as [s' r]. cbn [snd].
    destruct L2 as (c & enc & k & iv & m & G & P & Bd & Ln). cbn [expected] in ST. rewrite G, P in ST. destruct ST as [-> _]. eexists _, c. split; [exact G|]. split; [reflexivity|].
    destruct (sinv_ctx sb _ _ h c SI G) as (x & _ & (_ & _ & _ & PH)). rewrite P in PH. destruct PH as (v & c0 & ivo & _ & AC & _ & K & V & <- & _ & ((_ & Bm & _) & _)).
    destruct AC as (_ & _ & A & _). rewrite skipn_length, !(returned_shown sb c _ _ _ _ A), !SH by first [assumption | apply bytes_app; assumption].
    rewrite (bs_same _ A), app_length. unfold complete. rewrite app_length. pose proof (bs_pos (s_alg c)) as BP. set (b := bsize (s_alg c)) in *.
    pose proof (Nat.mod_upper_bound (length m) b ltac:(lia)) as U1. pose proof (Nat.mod_upper_bound (length m + length data) b ltac:(lia)) as U2.
    pose proof (Nat.mod_le (length m) b ltac:(lia)). pose proof (Nat.mod_le (length m + length data) b ltac:(lia)).
    destruct ((1 <? b) && negb enc && s_pad c); cbn [andb]; [|lia].
    destruct (Nat.eqb_spec (length m mod b) 0) as [Z1|Z1], (Nat.eqb_spec ((length m + length data) mod b) 0) as [Z2|Z2]; lia.
  - intros LG o. apply legal_app in LG as [L1 L2]. pose proof (sinv_after sb mem l S M start [] (start_ok sb) L1) as SI. rewrite run_last.
    pose proof (step_ok sb mem S M _ _ (Final h) SI L2) as ST. destruct (step sb mem (state_after sb mem start l) (Final h)) as [s' r]. cbn [snd].
    destruct L2 as (c & enc & k & iv & m & G & P). cbn [expected] in ST. rewrite G, P in ST. destruct ST as [-> _].
    destruct (sinv_ctx sb _ _ h c SI G) as (x & _ & (_ & _ & _ & PH)). rewrite P in PH. destruct PH as (v & c0 & ivo & _ & AC & _ & K & V & <- & _ & ((_ & Bm & _) & _)).
    destruct AC as (_ & _ & A & _). rewrite (ending_end_of sb c enc k _ m A). intros E. exists c. split; [exact G|]. rewrite (bs_same _ A).
    pose proof (SH (s_alg c) enc k ivo (s_pad c) m A K V Bm) as SL. unfold end_of in E. pose proof (bs_pos (s_alg c)) as BP. set (b := bsize (s_alg c)) in *.
    destruct (Nat.eqb_spec b 1) as [B1|B1]; [injection E as <-; split; [cbn [length]; lia|reflexivity]|]. split; [|intros; lia].
    pose proof (cut (s_alg c) (fun m => m) (proj1 (bs_pos _)) (fun m _ => eq_refl) m) as (C1 & C2 & C3). fold b in C1, C2, C3.
    pose proof (Nat.mod_le (length m) b ltac:(lia)) as ML.
    destruct (s_pad c).
    + destruct enc.
      * injection E as <-. rewrite skipn_length, SL. cbn [negb]. rewrite andb_false_r. cbn [andb].
        rewrite (standard_len sb); [|assumption..|]; unfold padded.
        -- rewrite app_length, repeat_length. lia.
        -- split; [fold b; rewrite app_length, repeat_length|].
           ++ replace (length m + (b - length m mod b)) with ((length m / b + 1) * b) by (pose proof (Nat.div_mod_eq (length m) b); nia). apply Nat.mod_mul. lia.
           ++ apply bytes_app; [exact Bm|]. unfold bytes. apply Forall_forall. intros y Y. apply repeat_spec in Y. subst y. unfold isbyte. lia.
      * unfold complete in *. destruct (Nat.eqb_spec (length m mod b) 0) as [Z|Z]; [|discriminate E]. destruct (unpadded b _) as [p|] eqn:U; [|discriminate E]. injection E as <-.
        rewrite skipn_length, SL. replace (1 <? b) with true by (symmetry; apply Nat.ltb_lt; lia). cbn [negb andb].
        assert (LF : length (standard sb (s_alg c) false k (given ivo) m) = length m) by (apply (standard_len sb); try assumption; split; assumption).
        unfold unpadded in U. destruct (_ && _); [|discriminate U]. injection U as <-. rewrite firstn_length, LF. lia.
    + destruct (complete b m); [injection E as <-; cbn [length]; lia|discriminate E].
Qed.
Print Assumptions C57_output_fits.

(** * Descriptors and names *)
(** The assertions of GOST_init_cipher hold for every descriptor, whichever fields come from the template; the block, key and IV
    sizes are those of the standards. *)
Theorem C57_descriptors : forall a, assertions a = true /\ bsize a = (if aead a then 1 else block_bytes a) /\ N.to_nat (key_length a) = 32 /\ N.to_nat (iv_length a) = iv_bytes a /\
  (In (mode a) [CIPH_CBC; CIPH_ECB] <-> block_bytes a <> 1).
Proof.
  intros a. destruct a; (split; [reflexivity|]; split; [reflexivity|]; split; [reflexivity|]; split; [reflexivity|]; cbn; split; intros H;
    first [discriminate | (exfalso; apply H; reflexivity) | tauto | (exfalso; destruct H as [H|[H|[]]]; discriminate H)]).
Qed.
(** The numbers are different, so the engine finds for each the cipher it belongs to, after any number of loads. *)
Theorem C57_engine_finds : forall s a, 0 < st_loaded s -> engine_get_cipher s (nid (st_loaded s) a) = Some a.
Proof.
  intros s a L. destruct (aead a) eqn:A; [|rewrite <- (engine_finds s a A); f_equal; destruct a; try discriminate A; reflexivity].
  unfold engine_get_cipher. destruct (st_loaded s) as [|n]; [lia|].
  assert (X : forall b, b <> a -> (nid (S n) a =? nid (S n) b)%N = false).
  { intros b Hb. apply N.eqb_neq. destruct a; try discriminate A; destruct b; try contradiction; cbn [nid]; unfold NUM_NID; lia. }
  unfold cipher_array. cbn [find]. destruct a; try discriminate A; rewrite !X by discriminate; rewrite N.eqb_refl; reflexivity.
Qed.
Definition name_of (a : alg) : list string :=
  match a with
  | Gost89Cfb => ["gost89"; "GOST 28147-89"; "1.2.643.2.2.21"] | Gost89Cnt => ["gost89-cnt"] | Gost89Cnt12 => ["gost89-cnt-12"]
  | Gost89Cbc => ["gost89-cbc"] | KuzEcb => ["kuznyechik-ecb"] | KuzCbc => ["kuznyechik-cbc"] | KuzCfb => ["kuznyechik-cfb"]
  | KuzOfb => ["kuznyechik-ofb"] | KuzCtr => ["kuznyechik-ctr"] | MagmaCbc => ["magma-cbc"] | MagmaCtr => ["magma-ctr"]
  | MagmaCtrAcpkm => ["magma-ctr-acpkm"; "1.2.643.7.1.1.5.1.1"] | MagmaCtrAcpkmOmac => ["magma-ctr-acpkm-omac"; "1.2.643.7.1.1.5.1.2"]
  | MagmaMgm => ["magma-mgm"]
  | KuzCtrAcpkm => ["kuznyechik-ctr-acpkm"; "1.2.643.7.1.1.5.2.1"] | KuzCtrAcpkmOmac => ["kuznyechik-ctr-acpkm-omac"; "1.2.643.7.1.1.5.2.2"]
  | KuzMgm => ["kuznyechik-mgm"]
  end%string.
(** OpenSSL's short names and the object identifiers of RFC 4357 and RFC 9337; nothing else is found. *)
Theorem C57_names : forall name a, fetch name = Some a <-> In name (name_of a).
Proof.
  intros name a. split.
  - unfold fetch. intros H. destruct (List.find _ prov_ciphers) as [[x b]|] eqn:Fd; [|discriminate]. injection H as <-.
    apply find_some in Fd. destruct Fd as [I X]. apply existsb_exists in X as (y & Iy & Q). apply String.eqb_eq in Q. subst y. cbn [fst snd] in *.
    assert (T : forall n, In n (ProvDigestModel.split_colon x ""%string) -> In n (name_of b)).
    { unfold prov_ciphers in I. cbn [In] in I.
      repeat (destruct I as [I|I]; [injection I as <- <-; cbn; tauto|]). destruct I. }
    apply T, Iy.
  - intros H. destruct a; cbn [name_of In] in H; repeat (destruct H as [<-|H]; [reflexivity|]); destruct H.
Qed.
Print Assumptions C57_names.

(** * Defects outside the allowed histories *)
(** A context for a stream mode cannot be used again: the second message is not what the standard says, for every key, IV and
    message of one block. *)
Lemma stream_enc i c f np d : d <> [] -> evp_update (mk_ectx i KuzCtr c true [] f np) d =
  let (c', o) := cdo KuzCtr c d in (mk_ectx i KuzCtr c' true [] f np, o).
Proof.
  intros ND. destruct d as [|x d]; [congruence|]. unfold evp_update. cbn [v_enc]. unfold enc_update. cbn [v_buf v_alg v_core v_cipher v_enc v_final v_nopad].
  change (bsize KuzCtr) with 1. rewrite Nat.mod_1_r. cbn [Nat.eqb]. reflexivity.
Qed.
Theorem C57_second_message_refuted : forall sb mem k iv m1 m2, subst_ok sb -> (forall h, rng_ok (g_rng (mem h))) ->
  length k = 32 -> bytes k -> length iv = 8 -> bytes iv -> length m1 = 16 -> bytes m1 -> length m2 = 16 -> bytes m2 ->
  let i := Init 0 true (Some k) (Some iv) None in
  exists o, nth 5 (run sb mem start [New 0 KuzCtr; i; Update 0 m1; Final 0; i; Update 0 m2]) Done = Output o /\ o <> standard sb KuzCtr true k iv m2.
Proof.
  intros sb mem k iv m1 m2 S M Lk Bk Lv Bv L1 B1 L2 B2. cbv zeta.
  pose proof (C13_kuz_reinit_ctr_refuted kctx0 k iv m1 m2 true kctx0_ok eq_refl (conj Lk Bk) (conj Lv Bv) L1 L2) as [R _]. cbv zeta in R.
  assert (ST : standard sb KuzCtr true k iv m2 = snd (do_ctr (init_ctr kctx0 (Some k) (Some iv) true) m2)).
  { pose proof (law1 sb mem S M KuzCtr k iv eq_refl (conj Lk Bk) Lv Bv true [m2]) as L. cbn [concat] in L. rewrite app_nil_r in L. rewrite <- L.
    - cbn [run_chunks cdo fresh ProvCipherModel.cinit]. unfold ck. destruct (do_ctr (init_ctr kctx0 (Some k) (Some iv) true) m2). cbn [snd]. apply app_nil_r.
    - constructor; [|constructor]. split; [apply Nat.mod_1_r|exact B2]. }
  rewrite ST. exists (snd (do_ctr (init_ctr (fst (do_ctr (init_ctr kctx0 (Some k) (Some iv) true) m1)) (Some k) (Some iv) true) m2)). split; [|exact R].
  set (ii := fun s0 => ProvCipherModel.step sb mem s0 (Init 0 true (Some k) (Some iv) None)).
  pose (st n v := mk_state (fun b => if alg_beq KuzCtr b then Some 0 else None) [(KuzCtr, nid 0 KuzCtr)] [] 0 [Some (mk_gctx n KuzCtr 0 v)]).
  pose (ve c := mk_ectx 0 KuzCtr (CK c) true [] None false).
  assert (I1 : step sb mem (st 0 None) (Init 0 true (Some k) (Some iv) None) = (st 0 (Some (ve (init_ctr kctx0 (Some k) (Some iv) true))), Returns true)).
  { cbn [ProvCipherModel.step on nth st st_ctxs]. unfold cipher_init. cbv zeta. cbn [x_alg opt_len short]. rewrite Lk, Lv. reflexivity. }
  assert (I2 : forall c, step sb mem (st 0 (Some (ve c))) (Init 0 true (Some k) (Some iv) None) = (st 0 (Some (ve (init_ctr c (Some k) (Some iv) true))), Returns true)).
  { intros c. cbn [ProvCipherModel.step on nth st st_ctxs]. unfold cipher_init. cbv zeta. cbn [x_alg opt_len short]. rewrite Lk, Lv. reflexivity. }
  assert (U : forall c m, length m = 16 -> step sb mem (st 0 (Some (ve c))) (Update 0 m) = (st 0 (Some (ve (fst (do_ctr c m)))), Output (snd (do_ctr c m)))).
  { intros c m L. assert (X : evp_update (ve c) m = (ve (fst (do_ctr c m)), snd (do_ctr c m))).
    { unfold ve. rewrite stream_enc by (destruct m; discriminate). cbn [cdo]. unfold ck. destruct (do_ctr c m). reflexivity. }
    cbn [ProvCipherModel.step on nth st st_ctxs]. unfold cipher_update. cbv zeta. rewrite L. cbn [x_cctx v_alg v_cipher ve aead].
    change (to_int (Z.of_nat 16)) with 16%Z. cbn [freed st_freed existsb]. change (16 <? 0)%Z with false. change (2 ^ 31 - 32 <? 16)%Z with false. cbv iota.
    change (Z.to_nat 16) with 16. rewrite firstn_all2 by lia. fold (ve c). rewrite X. reflexivity. }
  cbn [ProvCipherModel.run]. change (step sb mem start (New 0 KuzCtr)) with (st 0 None, Handle 0). cbv iota. rewrite I1. cbv iota. rewrite (U _ m1 L1). cbv iota.
  match goal with |- context [step sb mem (st 0 (Some (ve ?c))) (Final 0)] => change (step sb mem (st 0 (Some (ve c))) (Final 0)) with (st 0 (Some (ve c)), Output []) end.
  cbv iota. rewrite I2. cbv iota. rewrite (U _ m2 L2). cbv iota. reflexivity.
Qed.
Print Assumptions C57_second_message_refuted.
(** Parameters passed with the first initialisation are refused: there is no cipher yet to set them in. *)
Theorem C57_parameters_at_first_init_refuted : forall sb mem i a enc key iv pad,
  run sb mem start [New i a; Init 0 enc key iv (Some pad); SetPadding 0 pad] = [Handle 0; Returns false; Returns false].
Proof. reflexivity. Qed.
(** A piece of 2^32 bytes or more loses its length's upper bits: the first (length mod 2^32) bytes are processed, with success. *)
Theorem C57_long_piece_refuted : forall s h c v data n, x_cctx c = Some v -> freed s (v_cipher v) = false -> aead (v_alg v) = false ->
  Z.of_nat (List.length data) = (2 ^ 32 + Z.of_nat n)%Z -> (Z.of_nat n < 2 ^ 31 - 32)%Z ->
  cipher_update s h c data = cipher_update s h c (firstn n data).
Proof.
  intros s h c v data n X Fr A L Ln. unfold cipher_update. rewrite X, Fr, A. cbv zeta.
  assert (LF : List.length (firstn n data) = n) by (rewrite firstn_length; lia). rewrite LF, L.
  assert (T : to_int (2 ^ 32 + Z.of_nat n) = Z.of_nat n).
  { unfold to_int. replace ((2 ^ 32 + Z.of_nat n + 2 ^ 31) mod 2 ^ 32)%Z with (Z.of_nat n + 2 ^ 31)%Z; [lia|].
    replace (2 ^ 32 + Z.of_nat n + 2 ^ 31)%Z with (Z.of_nat n + 2 ^ 31 + 1 * 2 ^ 32)%Z by lia. rewrite Z_mod_plus_full. symmetry. apply Z.mod_small. lia. }
  assert (T' : to_int (Z.of_nat n) = Z.of_nat n) by (unfold to_int; rewrite Z.mod_small by lia; lia).
  rewrite T, T'. rewrite Nat2Z.id, firstn_firstn, Nat.min_id. reflexivity.
Qed.
(** A key that is too short is read beyond its end. *)
Theorem C57_short_key_refuted : forall sb mem i a enc k, List.length k < 32 ->
  run sb mem start [New i a; Init 0 enc (Some k) None None] = [Handle 0; Overrun].
Proof.
  intros sb mem i a enc k L. cbn [ProvCipherModel.run ProvCipherModel.step cipher_newctx init_cipher start st_desc on nth st_ctxs add_ctx app List.length].
  unfold cipher_init. cbv zeta. cbn [set_ctx firstn skipn app st_ctxs x_cipher x_alg freed st_freed existsb opt_len short]. destruct (nid_lengths a) as [-> _].
  destruct (Nat.ltb_spec 32 (List.length k)); [lia|]. destruct (Nat.ltb_spec (List.length k) 32); [|lia]. cbn [orb]. destruct (N.to_nat (iv_length a) <? 0) eqn:E; [apply Nat.ltb_lt in E; lia|].
  reflexivity.
Qed.
(** The descriptors are shared by all instances: when one instance goes, the contexts of another use freed memory. *)
Theorem C57_teardown_of_another_instance_refuted : forall sb mem a enc pad key, aead a = false ->
  run sb mem start [New 1 a; Init 0 enc None None None; Teardown 2; Update 0 []] = [Handle 0; Returns true; Done; UseAfterFree] /\
  run sb mem start [New 1 a; Teardown 2; Init 0 enc key None pad] = [Handle 0; Done; if pad then Returns false else UseAfterFree].
Proof.
  intros sb mem a enc pad key A. split.
  - destruct a; try discriminate A; lazy beta iota zeta delta [ProvCipherModel.run ProvCipherModel.step cipher_newctx init_cipher start st_desc on nth st_ctxs add_ctx app List.length]; reflexivity.
  - destruct pad; destruct a; try discriminate A; reflexivity.
Qed.
(** Loading another instance gives the MGM ciphers new numbers; ciphers made before cannot be initialised any more. *)
Theorem C57_second_load_refuted : forall sb mem a enc k, In a [MagmaMgm; KuzMgm] -> List.length k = 32 ->
  run sb mem start [LoadProvider; New 0 a; Init 0 enc (Some k) None None] = [Done; Handle 0; Returns true] /\
  run sb mem start [LoadProvider; New 0 a; LoadProvider; Init 0 enc (Some k) None None] = [Done; Handle 0; Done; Returns false] /\
  run sb mem start [LoadProvider; New 0 a; Free 0; LoadProvider; New 1 a; Init 1 enc (Some k) None None] = [Done; Handle 0; Done; Done; Handle 1; Returns false].
Proof.
  intros sb mem a enc k Ia L.
  assert (O : opt_len (Some k) = 32) by exact L. assert (Sh : short (Some k) 32 = false) by (cbn [short]; rewrite L; reflexivity).
  destruct Ia as [<-|[<-|[]]]; (split; [|split]); cbn [ProvCipherModel.run ProvCipherModel.step cipher_newctx init_cipher start load st_desc on nth st_ctxs add_ctx app List.length alg_beq cipher_freectx x_cctx set_ctx firstn skipn st_loaded st_objs st_freed];
    unfold cipher_init; cbv zeta; cbn [x_alg]; rewrite O; cbn [N.to_nat]; try change (N.to_nat (key_length MagmaMgm)) with 32; try change (N.to_nat (key_length KuzMgm)) with 32; rewrite Sh; reflexivity.
Qed.
(** "mode" reports the flags; they are never just the mode. *)
Theorem C57_mode_refuted : forall s a, exists b i k f, snd (cipher_get_params s a) = Params b i k f /\ f <> mode a.
Proof. intros s a. exists (block_size a), (iv_length a), (key_length a), (all_flags a). split; [reflexivity|]. destruct a; discriminate. Qed.
(** "alg_id_param" returns the pointer and what follows it in memory, whatever the encoding. *)
Theorem C57_alg_id_param_refuted : forall stack der der', List.length der = List.length der' -> get_alg_id_param stack der = get_alg_id_param stack der'.
Proof. intros stack der der' L. unfold get_alg_id_param. rewrite L. reflexivity. Qed.

(** A concrete allowed history: a block mode used twice, with padding switched off in between, a stream mode, a copy *)
Example C57_allowed : forall sb,
  let k := repeat 7%N 32 in let iv16 := repeat 1%N 16 in
  let l := [LoadProvider; New 0 KuzCbc; New 1 MagmaCtr; Init 0 true (Some k) (Some iv16) None; Init 1 true (Some k) (Some (repeat 2%N 4)) None; Update 0 [1; 2; 3]%N; Dup 0; Update 1 [4]%N;
            Update 0 (repeat 5%N 20); Final 0; LoadProvider; Final 2; Init 0 false (Some k) (Some iv16) (Some false); Update 0 (repeat 9%N 16); Final 0; Final 1; Free 0; Free 1; Free 2; Teardown 0] in
  all_legal sb [] l /\
  nth 8 (expected_results sb [] l) Done = Output (standard sb KuzCbc true k iv16 ([1; 2; 3] ++ repeat 5 13)%N).
Proof.
  intros sb. cbv zeta. split.
  - cbn [all_legal expected fst app get nth put firstn skipn s_inst s_alg s_pad s_phase legal List.length with_phase with_pad given].
    assert (B : forall x n, (x < 256)%N -> bytes (repeat x n)) by (intros x n H; unfold bytes; apply Forall_forall; intros y Y; apply repeat_spec in Y; subst y; exact H).
    assert (K : exists k, Some (repeat 7%N 32) = Some k /\ List.length k = 32 /\ bytes k) by (eexists; split; [reflexivity|]; split; [reflexivity|apply B; reflexivity]).
    split; [exact I|]. split; [exact I|]. split; [exact I|].
    split; [eexists; split; [reflexivity|]; split; [reflexivity|]; split; [reflexivity|]; right; split; [exact K|]; split; [right; eexists; split; [reflexivity|]; split; [reflexivity|apply B; reflexivity]|left; reflexivity]|].
    split; [eexists; split; [reflexivity|]; split; [reflexivity|]; split; [reflexivity|]; right; split; [exact K|]; split; [right; eexists; split; [reflexivity|]; split; [reflexivity|apply B; reflexivity]|left; reflexivity]|].
    split; [eexists _, _, _, _, _; split; [reflexivity|]; split; [reflexivity|]; split; [apply bytes_forallb; reflexivity|reflexivity]|].
    split; [eexists; reflexivity|].
    split; [eexists _, _, _, _, _; split; [reflexivity|]; split; [reflexivity|]; split; [apply bytes_forallb; reflexivity|reflexivity]|].
    split; [eexists _, _, _, _, _; split; [reflexivity|]; split; [reflexivity|]; split; [apply B; reflexivity|reflexivity]|].
    split; [eexists _, _, _, _, _; split; [reflexivity|reflexivity]|].
    split; [exact I|].
    split; [eexists _, _, _, _, _; split; [reflexivity|reflexivity]|].
    split; [eexists; split; [reflexivity|]; split; [reflexivity|]; split; [discriminate|]; right; split; [exact K|]; split; [right; eexists; split; [reflexivity|]; split; [reflexivity|apply B; reflexivity]|right; right; cbn; lia]|].
    split; [eexists _, _, _, _, _; split; [reflexivity|]; split; [reflexivity|]; split; [apply B; reflexivity|reflexivity]|].
    split; [eexists _, _, _, _, _; split; [reflexivity|reflexivity]|].
    split; [eexists _, _, _, _, _; split; [reflexivity|reflexivity]|].
    split; [eexists; reflexivity|]. split; [eexists; reflexivity|]. split; [eexists; reflexivity|].
    split; [intros [|[|[|[|h]]]]; reflexivity|exact I].
  - cbn [expected_results expected app get nth put firstn skipn s_inst s_alg s_pad s_phase List.length with_phase with_pad given]. f_equal.
Qed.
