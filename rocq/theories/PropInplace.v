(** Property C49: operating in place ([out = in]) gives the same bytes as operating between separate buffers. *)
From Verif Require Import Bytes BytesProofs Gost89Model Gost89Sboxes Gost89Spec Gost89Proofs Gost89SpecProofs Gost89ModeProofs
  StreamMode CryptModel CryptSpec CryptProofs MagmaProofs PropGost89 PropCrypt PropCrypt2
  KuzTables KuzSpec KuzModel KuzProofs KuzBlockProofs KuzCipherModel KuzCipherSpec KuzModeProofs PropKuzModes
  MgmModel KdfModel OmacModel EcModel CmsParamsModel AeadModel KeywrapSpec PropKexp PropAead
  MemModel MemProofs MemCrypt MemKuz MemAuthModel MemAuth.
From Coq Require Import List Lia NArith ZArith Bool.
Import ListNotations.
Local Open Scope nat_scope.

(** * The specification *)
(** The two buffers of [n] bytes at [i] and [o] are one buffer, or they do not overlap. *)
Definition same_or_apart (i o n : nat) : Prop := i = o \/ i + n <= o \/ o + n <= i.
(** [F m c i o n] works on the memory [m]: it reads [n] bytes at [i] and writes [n] bytes at [o].  [f c d] says which bytes
    come out for the input [d].  Whichever buffers are used: the output is what [f] says of the input as it was before
    the call, the new context is the one [f] says, and nothing but the output buffer is written.  [ready] is what the
    contexts that occur meet. *)
Definition in_place_safe {C} (ready : C -> Prop) (whole : nat -> Prop) (f : C -> list N -> C * list N)
  (F : mem -> C -> nat -> nat -> nat -> mem * C) : Prop :=
  forall m c i o n, ready c -> whole n -> same_or_apart i o n ->
    let (m', c') := F m c i o n in
    f c (rd m i n) = (c', rd m' o n) /\
    (forall a, a < o \/ o + n <= a -> m' a = m a) /\
    ready c'.
Definition any (n : nat) : Prop := True.
Definition blocks_of (bs n : nat) : Prop := n mod bs = 0.

Lemma apart_ok i o n : same_or_apart i o n -> ok i o n.
Proof. unfold same_or_apart, ok. lia. Qed.
Lemma safe_of_sim {C} (ready : C -> Prop) (whole : nat -> Prop) f F :
  (forall m c i o n, ready c -> whole n -> ok i o n -> op_sim ready m o n (F m c i o n) (f c (rd m i n))) ->
  in_place_safe ready whole f F.
Proof.
  intros S m c i o n R W A. specialize (S m c i o n R W (apart_ok _ _ _ A)).
  destruct (F m c i o n) as [m' c']. destruct (f c (rd m i n)) as [c1 out]. destruct S as (E & O & Fr & I). cbn [fst snd] in *.
  subst. auto.
Qed.
Lemma mult bs n : bs <> 0 -> blocks_of bs n -> n = n / bs * bs.
Proof. intros P H. unfold blocks_of in H. pose proof (Nat.div_mod n bs P). lia. Qed.

(** * In place, call after call *)
(** The buffer at [a] is processed in place, [lens] giving the lengths of the consecutive calls. *)
Fixpoint run_in_place {C} (F : mem -> C -> nat -> nat -> nat -> mem * C) (m : mem) (c : C) (a : nat) (lens : list nat) : mem * C :=
  match lens with
  | [] => (m, c)
  | n :: t => let (m, c) := F m c a a n in run_in_place F m c (a + n) t
  end.
Definition total (lens : list nat) : nat := fold_right Nat.add 0 lens.
Fixpoint pieces (m : mem) (a : nat) (lens : list nat) : list (list N) :=
  match lens with
  | [] => []
  | n :: t => rd m a n :: pieces m (a + n) t
  end.
Lemma pieces_concat m : forall lens a, concat (pieces m a lens) = rd m a (total lens).
Proof. induction lens as [|n t IH]; intros a; [reflexivity|]. cbn [pieces concat total fold_right]. rewrite IH. symmetry. apply rd_app. Qed.
Lemma pieces_ext m m' : forall lens a, (forall x, a <= x < a + total lens -> m' x = m x) -> pieces m' a lens = pieces m a lens.
Proof.
  induction lens as [|n t IH]; intros a H; [reflexivity|]. cbn [pieces]. cbn [total fold_right] in H. fold (total t) in H.
  f_equal; [apply rd_ext; intros x Hx; apply H; lia|apply IH; intros x Hx; apply H; lia].
Qed.
Lemma pieces_P (P : list N -> Prop) (Q : nat -> Prop) m : (forall a n, Q n -> P (rd m a n)) ->
  forall lens a, Forall Q lens -> Forall P (pieces m a lens).
Proof. intros H. induction lens as [|n t IH]; intros a W; cbn [pieces]; [constructor|]. inversion W; subst. constructor; auto. Qed.
Lemma run_in_place_ok {C} (ready : C -> Prop) (whole : nat -> Prop) f F : in_place_safe ready whole f F ->
  forall lens m c a, ready c -> Forall whole lens ->
    run f c (pieces m a lens) = (snd (run_in_place F m c a lens), rd (fst (run_in_place F m c a lens)) a (total lens)) /\
    frame m (fst (run_in_place F m c a lens)) a (total lens) /\
    ready (snd (run_in_place F m c a lens)).
Proof.
  intros S. induction lens as [|n t IH]; intros m c a R W.
  - cbn. auto using frame_refl.
  - inversion W as [|? ? Wn Wt]; subst. cbn [run_in_place pieces total fold_right]. fold (total t).
    specialize (S m c a a n R Wn (or_introl eq_refl)). unfold run. cbn [run_chunks].
    destruct (F m c a a n) as [m1 c1]. destruct S as (E & Fr & R1). rewrite E.
    specialize (IH m1 c1 (a + n) R1 Wt). unfold run in IH. rewrite (pieces_ext m m1) in IH by (intros x Hx; apply Fr; lia).
    destruct IH as (E2 & Fr2 & R2). rewrite E2. set (r := run_in_place F m1 c1 (a + n) t) in *. clearbody r.
    split; [|split; [|exact R2]].
    + f_equal. rewrite rd_app. f_equal. symmetry. eapply frame_behind. exact Fr2.
    + apply (frame_seq m m1 (fst r) a (n + total t) n); [lia|exact Fr|]. replace (n + total t - n) with (total t) by lia. exact Fr2.
Qed.
(** The two consequences a caller relies on. *)
Theorem C49_in_place_equals_separate :
  forall (C : Type) (ready : C -> Prop) (whole : nat -> Prop) f F, in_place_safe ready whole f F ->
    forall m1 m2 c a i o n, ready c -> whole n -> i + n <= o \/ o + n <= i -> rd m1 a n = rd m2 i n ->
      rd (fst (F m1 c a a n)) a n = rd (fst (F m2 c i o n)) o n /\
      snd (F m1 c a a n) = snd (F m2 c i o n) /\
      rd (fst (F m2 c i o n)) i n = rd m2 i n.
Proof.
  intros C ready whole f F S m1 m2 c a i o n R W A E.
  pose proof (S m1 c a a n R W (or_introl eq_refl)) as S1. pose proof (S m2 c i o n R W (or_intror A)) as S2.
  destruct (F m1 c a a n) as [m1' c1]. destruct (F m2 c i o n) as [m2' c2]. cbn [fst snd].
  destruct S1 as (E1 & _). destruct S2 as (E2 & Fr & _). rewrite E, E2 in E1. injection E1 as -> E1. rewrite E1.
  split; [reflexivity|]. split; [reflexivity|]. apply rd_ext. intros x Hx. apply Fr. lia.
Qed.
Theorem C49_in_place_calls :
  forall (C : Type) (ready : C -> Prop) (whole : nat -> Prop) f F, in_place_safe ready whole f F ->
    forall m c a lens, ready c -> Forall whole lens ->
      rd (fst (run_in_place F m c a lens)) a (total lens) = out_of f c (pieces m a lens) /\
      (forall x, x < a \/ a + total lens <= x -> fst (run_in_place F m c a lens) x = m x).
Proof.
  intros C ready whole f F S m c a lens R W. destruct (run_in_place_ok ready whole f F S lens m c a R W) as (E & Fr & _).
  unfold out_of. rewrite E. auto.
Qed.

(** * The ciphers *)
Theorem C49_gost_cfb : in_place_safe stream8 any gost_cipher_do_cfb gost_cfb_mem.
Proof. apply safe_of_sim. intros. apply gost_cfb_sim; auto. Qed.
Theorem C49_gost_cnt : in_place_safe stream8 any gost_cipher_do_cnt gost_cnt_mem.
Proof. apply safe_of_sim. intros. apply gost_cnt_sim; auto. Qed.
Theorem C49_gost_cbc : in_place_safe evp_shape (blocks_of 8) gost_cipher_do_cbc gost_cbc_mem.
Proof. apply safe_of_sim. intros m c i o n R W O. rewrite (mult 8 n ltac:(lia) W) in *. apply gost_cbc_sim; auto. Qed.
Theorem C49_magma_ecb : in_place_safe (fun _ => True) (blocks_of 8) magma_cipher_do_ecb magma_ecb_mem.
Proof.
  apply safe_of_sim. intros m c i o n _ W O. rewrite (mult 8 n ltac:(lia) W) in *.
  destruct (magma_ecb_sim m c i o (n / 8) O) as (A & B & D & _). repeat split; auto.
Qed.
Theorem C49_magma_cbc : in_place_safe evp_shape (blocks_of 8) magma_cipher_do_cbc magma_cbc_mem.
Proof. apply safe_of_sim. intros m c i o n R W O. rewrite (mult 8 n ltac:(lia) W) in *. apply magma_cbc_sim; auto. Qed.
Theorem C49_magma_ctr : in_place_safe evp_shape any magma_cipher_do_ctr magma_ctr_mem.
Proof. apply safe_of_sim. intros. apply magma_ctr_sim; auto. Qed.
Theorem C49_kuznyechik_ecb : in_place_safe kuz_shape (blocks_of 16) do_ecb kuz_ecb_mem.
Proof. apply safe_of_sim. intros m c i o n R W O. rewrite (mult 16 n ltac:(lia) W) in *. apply kuz_ecb_sim; auto. Qed.
Theorem C49_kuznyechik_cbc : in_place_safe kuz_shape (blocks_of 16) do_cbc kuz_cbc_mem.
Proof. apply safe_of_sim. intros m c i o n R W O. rewrite (mult 16 n ltac:(lia) W) in *. apply kuz_cbc_sim; auto. Qed.
Theorem C49_kuznyechik_ofb : in_place_safe kstream any do_ofb kuz_ofb_mem.
Proof. apply safe_of_sim. intros. apply kuz_ofb_sim; auto. Qed.
Theorem C49_kuznyechik_cfb : in_place_safe kstream any do_cfb kuz_cfb_mem.
Proof. apply safe_of_sim. intros. apply kuz_cfb_sim; auto. Qed.
Theorem C49_kuznyechik_ctr : in_place_safe kuz_shape any do_ctr kuz_ctr_mem.
Proof. apply safe_of_sim. intros. apply kuz_ctr_sim; auto. Qed.
Theorem C49_kuznyechik_ctr_acpkm : in_place_safe kuz_shape any do_ctracpkm kuz_ctracpkm_mem.
Proof. apply safe_of_sim. intros. apply kuz_ctracpkm_sim; auto. Qed.
(** The block functions of gost89.h. *)
Theorem C49_raw_ecb_and_cfb :
  forall g iv m i o b, same_or_apart i o (8 * b) ->
    rd (gost_enc_mem g m i o b) o (8 * b) = gost_enc g (rd m i (8 * b)) b /\
    rd (gost_dec_mem g m i o b) o (8 * b) = gost_dec g (rd m i (8 * b)) b /\
    rd (gost_enc_cfb_mem g iv m i o b) o (8 * b) = gost_enc_cfb g iv (rd m i (8 * b)) b /\
    rd (gost_dec_cfb_mem g iv m i o b) o (8 * b) = gost_dec_cfb g iv (rd m i (8 * b)) b /\
    (forall a, a < o \/ o + 8 * b <= a ->
       gost_enc_mem g m i o b a = m a /\ gost_dec_mem g m i o b a = m a /\
       gost_enc_cfb_mem g iv m i o b a = m a /\ gost_dec_cfb_mem g iv m i o b a = m a).
Proof.
  intros g iv m i o b A. apply apart_ok in A.
  assert (L : length (rd m i (8 * b)) = b * 8) by (rewrite rd_length; lia).
  destruct (gost_ecb_mem_ok (gostcrypt g) m i o b (gostcrypt_length g) A) as [E1 F1].
  destruct (gost_ecb_mem_ok (gostdecrypt g) m i o b (gostdecrypt_length g) A) as [E2 F2].
  destruct (gost_enc_cfb_mem_ok g iv m i o b A) as [E3 F3]. destruct (gost_dec_cfb_mem_ok g iv m i o b A) as [E4 F4].
  rewrite (gost_enc_flat g b _ L), (gost_dec_flat g b _ L). unfold gost_enc_mem, gost_dec_mem.
  split; [exact E1|]. split; [exact E2|]. split; [exact E3|]. split; [exact E4|].
  intros a Ha. rewrite (F1 a Ha), (F2 a Ha), (F3 a Ha), (F4 a Ha). auto.
Qed.
(** MGM: a call that succeeds wrote the output of [gost_mgm128_encrypt] (decrypt) of the input as it was; a call that fails
    wrote nothing. *)
Theorem C49_mgm :
  forall bl E mul (dec : bool) m c i o n, same_or_apart i o n ->
    let r := (if dec then mgm_decrypt_mem else mgm_encrypt_mem) bl E mul m c i o n in
    let p := (if dec then gost_mgm128_decrypt else gost_mgm128_encrypt) bl E mul c (rd m i n) in
    fst r = fst (fst p) /\ snd (snd r) = snd (fst p) /\
    (fst r = 0%Z -> rd (fst (snd r)) o n = snd p) /\ (fst r <> 0%Z -> fst (snd r) = m) /\
    (forall a, a < o \/ o + n <= a -> fst (snd r) a = m a).
Proof.
  intros bl E mul dec m c i o n A. apply apart_ok in A. cbv zeta. destruct dec.
  - destruct (mgm_decrypt_sim bl E mul m c i o n A) as (E1 & E2 & Fr & S & X). repeat split; auto. intros H. apply X, H.
  - destruct (mgm_encrypt_sim bl E mul m c i o n A) as (E1 & E2 & Fr & S & X). repeat split; auto. intros H. apply X, H.
Qed.
(** The ctr-acpkm-omac ciphers: the same output and the same MAC state. *)
Theorem C49_ctr_acpkm_omac_magma :
  forall nd m (a : aead magma_suite) i o n, evp_shape (x_evp (ae_x a)) -> same_or_apart i o n ->
    match ae_update_mem magma_suite magma_suite_mem m a i o n with
    | Dies => ae_cipher magma_suite nd a (Some (rd m i n)) n = Dies
    | Returns (r, (m', a')) =>
        ae_cipher magma_suite nd a (Some (rd m i n)) n = Returns (r, rd m' o n, a') /\
        (forall x, x < o \/ o + n <= x -> m' x = m x) /\ evp_shape (x_evp (ae_x a'))
    end.
Proof. intros nd m a i o n R A. exact (ae_update_sim magma_suite magma_suite_mem magma_inv nd m a i o n magma_suite_sim R (apart_ok _ _ _ A)). Qed.
Theorem C49_ctr_acpkm_omac_kuznyechik :
  forall nd m (a : aead kuz_suite) i o n, kuz_shape (y_k (ae_x a)) -> same_or_apart i o n ->
    match ae_update_mem kuz_suite kuz_suite_mem m a i o n with
    | Dies => ae_cipher kuz_suite nd a (Some (rd m i n)) n = Dies
    | Returns (r, (m', a')) =>
        ae_cipher kuz_suite nd a (Some (rd m i n)) n = Returns (r, rd m' o n, a') /\
        (forall x, x < o \/ o + n <= x -> m' x = m x) /\ kuz_shape (y_k (ae_x a'))
    end.
Proof. intros nd m a i o n R A. exact (ae_update_sim kuz_suite kuz_suite_mem kuz_inv nd m a i o n kuz_suite_sim R (apart_ok _ _ _ A)). Qed.

(** * Initialised contexts are ready *)
Lemma ow8 iv n : n <= 8 -> length (overwrite (zeros 8) 0 (firstn n iv)) = 8.
Proof. intros H. rewrite overwrite_length; rewrite zeros_length; [reflexivity|]. rewrite firstn_length. lia. Qed.
Lemma ow88 v iv n : n <= 8 -> length v = 8 -> length (overwrite v 0 (firstn n iv)) = 8.
Proof. intros H L. rewrite overwrite_length; rewrite L; [reflexivity|]. rewrite firstn_length. lia. Qed.
Theorem C49_gost_starts_ready :
  forall sb g k iv enc mesh acpkm (mesh' : option N),
    stream8 (cfb_start sb g k iv enc mesh) /\ stream8 (cnt_start sb g k iv enc mesh) /\
    evp_shape (cbc_start sb g k iv enc) /\ evp_shape (magma_start 8 false g k iv enc) /\
    evp_shape (ctr_start acpkm mesh' g k iv enc).
Proof.
  intros sb g k iv enc mesh acpkm mesh'.
  assert (X : forall c n, evp_shape c -> evp_shape (snd (ctl_key_mesh c n))).
  { intros c n [A B]. unfold ctl_key_mesh. destruct (negb _); split; assumption. }
  assert (Y : forall c n, e_num (snd (ctl_key_mesh c n)) = e_num c).
  { intros c n. unfold ctl_key_mesh. destruct (negb _); reflexivity. }
  assert (P : evp_shape (gost_cipher_init_param sb (fresh_evp g) (Some k) (Some iv) enc)).
  { split; [reflexivity|]. apply (ow8 _ 8). lia. }
  assert (Q : evp_shape (gost_cipher_init_cnt sb (fresh_evp g) (Some k) (Some iv) enc)).
  { split; [reflexivity|]. apply (ow8 _ 8). lia. }
  assert (Z8 : evp_shape (magma_start 8 false g k iv enc)).
  { split; [reflexivity|]. apply (ow8 _ 8). lia. }
  assert (Z4 : evp_shape (magma_start 4 acpkm g k iv enc)).
  { split; [reflexivity|]. apply (ow8 _ 4). lia. }
  split; [|split; [|split; [|split]]].
  - split; [apply X, P|]. unfold num8, cfb_start. rewrite Y. reflexivity.
  - split; [apply X, Q|]. unfold num8, cnt_start. rewrite Y. reflexivity.
  - exact P.
  - exact Z8.
  - unfold ctr_start. cbv zeta. destruct mesh'; [apply X|]; exact Z4.
Qed.
Lemma kctx0_shape : kuz_shape kctx0.
Proof.
  assert (K : keys16 (repeat (zeros 16) 10)).
  { split; [reflexivity|]. apply Forall_forall. intros x H. apply repeat_spec in H. subst. reflexivity. }
  split; [exact K|]. split; [exact K|]. repeat split.
Qed.
Lemma kinit_shape n c k iv enc : n <= 16 -> kuz_shape c -> length (k_oiv c) = 16 -> length k = 32 ->
  kuz_shape (gost_grasshopper_cipher_init n c (Some k) iv enc) /\
  k_num (gost_grasshopper_cipher_init n c (Some k) iv enc) = k_num c.
Proof.
  intros Hn S Lo Lk. unfold gost_grasshopper_cipher_init.
  assert (S1 : kuz_shape (gost_grasshopper_cipher_key (kw_enc c enc) k)) by (apply shape_key; [exact S|exact Lk]).
  assert (O1 : k_oiv (gost_grasshopper_cipher_key (kw_enc c enc) k) = k_oiv c) by reflexivity.
  assert (N1 : k_num (gost_grasshopper_cipher_key (kw_enc c enc) k) = k_num c) by reflexivity.
  set (c1 := gost_grasshopper_cipher_key (kw_enc c enc) k) in *. clearbody c1. cbv zeta.
  unfold gost_grasshopper_master_key.
  split; [|destruct iv; exact N1]. destruct S1 as (A & B & D & E & G).
  destruct iv; split; [exact A| |exact A|]; (split; [exact B|]); (split; [|split; [exact E|exact G]]);
    cbn [k_iv kw_iv kw_oiv kw_master k_oiv]; rewrite overwrite_length; rewrite ?D; auto; rewrite firstn_length; lia.
Qed.
Theorem C49_kuznyechik_starts_ready :
  forall k iv sect enc, length k = 32 ->
    kuz_shape (init_ecb kctx0 (Some k) None enc) /\ kuz_shape (init_cbc kctx0 (Some k) (Some iv) enc) /\
    kstream (init_ofb kctx0 (Some k) (Some iv) enc) /\ kstream (init_cfb kctx0 (Some k) (Some iv) enc) /\
    kuz_shape (init_ctr kctx0 (Some k) (Some iv) enc) /\ kuz_shape (acpkm_start kctx0 sect k iv enc).
Proof.
  intros k iv sect enc Lk. pose proof kctx0_shape as S0. assert (L0 : length (k_oiv kctx0) = 16) by reflexivity.
  destruct (kinit_shape 0 kctx0 k None enc ltac:(lia) S0 L0 Lk) as [A0 _].
  destruct (kinit_shape 16 kctx0 k (Some iv) enc ltac:(lia) S0 L0 Lk) as [A1 N1].
  assert (S1 : kuz_shape (kw_part (kw_num kctx0 0) (zeros 16))) by (apply shape_kw_part; [apply shape_kw_num, S0|reflexivity]).
  destruct (kinit_shape 8 _ k (Some iv) enc ltac:(lia) S1 L0 Lk) as [A2 _].
  assert (S2 : kuz_shape (kw_sect (kw_num kctx0 0) 4096)) by exact S0.
  destruct (kinit_shape 8 _ k (Some iv) enc ltac:(lia) S2 L0 Lk) as [A3 _].
  split; [exact A0|]. split; [exact A1|].
  assert (K : kstream (gost_grasshopper_cipher_init 16 kctx0 (Some k) (Some iv) enc)).
  { split; [exact A1|]. unfold knum16. rewrite N1. cbn. lia. }
  split; [exact K|]. split; [exact K|]. split; [exact A2|].
  unfold acpkm_start. fold (init_ctracpkm kctx0 (Some k) (Some iv) enc) in A3. cbv zeta.
  set (c := init_ctracpkm kctx0 (Some k) (Some iv) enc) in *. clearbody c.
  destruct sect as [z|]; [|exact A3]. unfold kuz_ctl_key_mesh. destruct (_ || _)%bool; exact A3.
Qed.

(** * Encrypting a buffer in place and decrypting it in place restores the memory *)
Lemma rd_inj (m1 m2 : mem) : forall n a, rd m1 a n = rd m2 a n -> forall x, a <= x < a + n -> m1 x = m2 x.
Proof.
  induction n as [|n IH]; intros a E x Hx; [lia|]. rewrite !rd_S in E. injection E as E0 E.
  destruct (Nat.eq_dec x a) as [->|D]; [exact E0|]. apply (IH (S a) E). lia.
Qed.
Lemma restore {C} (ready : C -> Prop) (whole : nat -> Prop) f F (c1 c2 : C) : in_place_safe ready whole f F ->
  ready c1 -> ready c2 -> forall m a lens1 lens2, Forall whole lens1 -> Forall whole lens2 -> total lens1 = total lens2 ->
  (forall ch2, (exists m', ch2 = pieces m' a lens2 /\ rd m' a (total lens2) = out_of f c1 (pieces m a lens1)) ->
     concat ch2 = out_of f c1 (pieces m a lens1) -> out_of f c2 ch2 = concat (pieces m a lens1)) ->
  forall x, fst (run_in_place F (fst (run_in_place F m c1 a lens1)) c2 a lens2) x = m x.
Proof.
  intros S R1 R2 m a l1 l2 W1 W2 T H.
  destruct (run_in_place_ok ready whole f F S l1 m c1 a R1 W1) as (E1 & F1 & _).
  set (m1 := fst (run_in_place F m c1 a l1)) in *. clearbody m1.
  destruct (run_in_place_ok ready whole f F S l2 m1 c2 a R2 W2) as (E2 & F2 & _).
  set (m2 := fst (run_in_place F m1 c2 a l2)) in *. clearbody m2.
  assert (O1 : rd m1 a (total l1) = out_of f c1 (pieces m a l1)) by (unfold out_of; rewrite E1; reflexivity).
  assert (O2 : rd m2 a (total l2) = out_of f c2 (pieces m1 a l2)) by (unfold out_of; rewrite E2; reflexivity).
  rewrite (H (pieces m1 a l2)) in O2; [|exists m1; split; [reflexivity|rewrite <- T; exact O1]|rewrite pieces_concat, <- T; exact O1].
  rewrite pieces_concat, <- T in O2. intros x. destruct (Nat.lt_ge_cases x a) as [G|G].
  - rewrite (F2 x), (F1 x) by lia. reflexivity.
  - destruct (Nat.lt_ge_cases x (a + total l1)) as [G2|G2]; [|rewrite (F2 x), (F1 x) by lia; reflexivity].
    apply (rd_inj m2 m (total l1) a); [exact O2|lia].
Qed.
(** What memory holds. *)
Definition memory (m : mem) : Prop := forall a, isbyte (m a).
Lemma memory_rd m a n : memory m -> bytes (rd m a n).
Proof. intros M. apply Forall_forall. intros x H. unfold rd in H. apply in_map_iff in H as (y & <- & _). apply M. Qed.
Lemma memory_pieces m a lens : memory m -> Forall bytes (pieces m a lens).
Proof. intros M. apply (pieces_P bytes (fun _ => True)); [intros; apply memory_rd, M|]. apply Forall_forall. auto. Qed.
Lemma any_all lens : Forall any lens.
Proof. apply Forall_forall. intros; exact I. Qed.
Lemma whole_pieces m a lens : Forall (blocks_of 8) lens -> Forall PropCrypt.whole (pieces m a lens).
Proof. apply pieces_P. intros b n H. unfold whole. rewrite rd_length. exact H. Qed.
Lemma whole16_pieces m a lens : Forall (blocks_of 16) lens -> Forall whole16 (pieces m a lens).
Proof. apply pieces_P. intros b n H. unfold whole16. rewrite rd_length. exact H. Qed.

Theorem C49_restore_gost :
  forall sb g1 g2 k iv mesh (enc enc' : bool) m a lens1 lens2,
    subst_ok sb -> rng_ok (g_rng g1) -> rng_ok (g_rng g2) -> bytes k -> length iv = 8 -> bytes iv -> memory m ->
    total lens1 = total lens2 ->
    (forall x, fst (run_in_place gost_cfb_mem (fst (run_in_place gost_cfb_mem m (cfb_start sb g1 k iv enc mesh) a lens1))
       (cfb_start sb g2 k iv (negb enc) mesh) a lens2) x = m x) /\
    (forall x, fst (run_in_place gost_cnt_mem (fst (run_in_place gost_cnt_mem m (cnt_start sb g1 k iv enc mesh) a lens1))
       (cnt_start sb g2 k iv enc' mesh) a lens2) x = m x) /\
    (Forall (blocks_of 8) lens1 -> Forall (blocks_of 8) lens2 ->
     forall x, fst (run_in_place gost_cbc_mem (fst (run_in_place gost_cbc_mem m (cbc_start sb g1 k iv true) a lens1))
       (cbc_start sb g2 k iv false) a lens2) x = m x).
Proof.
  intros sb g1 g2 k iv mesh enc enc' m a l1 l2 Hs H1 H2 Hk Hi Hb M T. split; [|split].
  - apply (restore stream8 any gost_cipher_do_cfb); auto using any_all.
    + exact C49_gost_cfb.
    + apply (C49_gost_starts_ready sb g1 k iv enc mesh false None).
    + apply (C49_gost_starts_ready sb g2 k iv (negb enc) mesh false None).
    + intros ch2 _ E. exact (C09_cfb_roundtrip sb g1 g2 k iv mesh enc _ ch2 Hs H1 H2 Hk Hi E).
  - apply (restore stream8 any gost_cipher_do_cnt); auto using any_all.
    + exact C49_gost_cnt.
    + apply (C49_gost_starts_ready sb g1 k iv enc mesh false None).
    + apply (C49_gost_starts_ready sb g2 k iv enc' mesh false None).
    + intros ch2 _ E. exact (C10_cnt_involution sb g1 g2 k iv enc enc' mesh _ ch2 Hs H1 H2 Hk Hi Hb E).
  - intros W1 W2. apply (restore evp_shape (blocks_of 8) gost_cipher_do_cbc); auto.
    + exact C49_gost_cbc.
    + apply (C49_gost_starts_ready sb g1 k iv true mesh false None).
    + apply (C49_gost_starts_ready sb g2 k iv false mesh false None).
    + intros ch2 (m' & -> & _) E. apply (C11_gost_cbc_roundtrip sb g1 g2 k iv); auto using whole_pieces.
      rewrite pieces_concat. apply memory_rd, M.
Qed.
(** magma-ecb, which has no round trip of its own elsewhere. *)
Lemma ecb_chunks c : forall ch, Forall PropCrypt.whole ch ->
  out_of magma_cipher_do_ecb c ch = flat_map ((if e_enc c then magmacrypt else magmadecrypt) (e_g c)) (blocks 8 (concat ch)) .
Proof.
  unfold out_of, run. induction ch as [|d t IH]; intros W; [reflexivity|]. inversion W as [|? ? Wd Wt]; subst.
  cbn [run_chunks concat]. unfold magma_cipher_do_ecb at 1. specialize (IH Wt). destruct (run_chunks evp magma_cipher_do_ecb c t) as [c2 o2].
  cbn [snd] in *. subst o2. unfold PropCrypt.whole in Wd. rewrite blocks_app by (auto; lia). rewrite flat_map_app. reflexivity.
Qed.
Lemma ecb_mod8 (x l : list N) : PropCrypt.whole x -> PropCrypt.whole l -> PropCrypt.whole (x ++ l).
Proof.
  unfold PropCrypt.whole. intros A B. rewrite app_length. rewrite Nat.add_mod by lia. rewrite A, B. reflexivity.
Qed.
Lemma flat_map_inv (f g : list N -> list N) bs : 0 < bs ->
  (forall b, length b = bs -> bytes b -> g (f b) = b) -> (forall b, length (f b) = bs) ->
  forall l, Forall (fun b => length b = bs) l -> Forall bytes l ->
  flat_map g (blocks bs (flat_map f l)) = concat l.
Proof.
  intros P G L. induction l as [|b l IH]; intros F B; [destruct bs; reflexivity|].
  inversion F; inversion B; subst. cbn [flat_map concat].
  rewrite blocks_cons by (auto; rewrite L; reflexivity). cbn [flat_map]. rewrite IH, G by auto. reflexivity.
Qed.
Lemma magma_ecb_roundtrip g1 g2 k ch1 ch2 : rng_ok (g_rng g1) -> rng_ok (g_rng g2) -> bytes k ->
  Forall PropCrypt.whole ch1 -> Forall PropCrypt.whole ch2 -> bytes (concat ch1) ->
  concat ch2 = out_of magma_cipher_do_ecb (magma_cipher_init 0 false (fresh_evp g1) (Some k) None true) ch1 ->
  out_of magma_cipher_do_ecb (magma_cipher_init 0 false (fresh_evp g2) (Some k) None false) ch2 = concat ch1.
Proof.
  intros H1 H2 Hk W1 W2 Hb E. rewrite ecb_chunks in * by auto.
  pose proof (magma_start_key 8 false g1 k (zeros 8) true H1 Hk) as A1.
  pose proof (magma_start_key 8 false g2 k (zeros 8) false H2 Hk) as B1.
  change (e_g (magma_start 8 false g1 k (zeros 8) true)) with (e_g (magma_cipher_init 0 false (fresh_evp g1) (Some k) None true)) in A1.
  change (e_g (magma_start 8 false g2 k (zeros 8) false)) with (e_g (magma_cipher_init 0 false (fresh_evp g2) (Some k) None false)) in B1.
  assert (X1 : e_enc (magma_cipher_init 0 false (fresh_evp g1) (Some k) None true) = true) by reflexivity.
  assert (X2 : e_enc (magma_cipher_init 0 false (fresh_evp g2) (Some k) None false) = false) by reflexivity.
  set (c1 := magma_cipher_init 0 false (fresh_evp g1) (Some k) None true) in *.
  set (c2 := magma_cipher_init 0 false (fresh_evp g2) (Some k) None false) in *. clearbody c1 c2.
  rewrite X1 in E. rewrite X2, E.
  assert (W : PropCrypt.whole (concat ch1)) by (clear - W1; induction W1; [reflexivity|]; cbn [concat]; apply ecb_mod8; auto).
  rewrite (flat_map_inv (magmacrypt (e_g c1)) (magmadecrypt (e_g c2)) 8); [apply concat_blocks; lia|lia| | | |].
  - intros b L B. destruct A1 as (S1 & T1 & K1 & _). destruct B1 as (S2 & T2 & K2 & _).
    rewrite (magmadecrypt_spec _ _ _ _ S2 T2 K2), <- (magmadecrypt_spec _ _ _ _ S1 T1 K1). apply magma_dec_enc_block. split; assumption.
  - apply magmacrypt_length.
  - apply blocks_all_full; [lia|exact W].
  - apply blocks_bytes; [lia|exact Hb].
Qed.
Theorem C49_restore_magma :
  forall g1 g2 k iv8 iv4 (acpkm : bool) mesh (enc enc' : bool) m a lens1 lens2,
    rng_ok (g_rng g1) -> rng_ok (g_rng g2) -> bytes k -> length iv8 = 8 -> bytes iv8 -> length iv4 = 4 -> bytes iv4 -> memory m ->
    (section_size acpkm mesh mod 8 = 0)%N -> (section_size acpkm mesh < 2 ^ 32)%N ->
    total lens1 = total lens2 ->
    (forall x, fst (run_in_place magma_ctr_mem (fst (run_in_place magma_ctr_mem m (ctr_start acpkm mesh g1 k iv4 enc) a lens1))
       (ctr_start acpkm mesh g2 k iv4 enc') a lens2) x = m x) /\
    (Forall (blocks_of 8) lens1 -> Forall (blocks_of 8) lens2 ->
     forall x, fst (run_in_place magma_cbc_mem (fst (run_in_place magma_cbc_mem m (magma_start 8 false g1 k iv8 true) a lens1))
       (magma_start 8 false g2 k iv8 false) a lens2) x = m x) /\
    (Forall (blocks_of 8) lens1 -> Forall (blocks_of 8) lens2 ->
     forall x, fst (run_in_place magma_ecb_mem (fst (run_in_place magma_ecb_mem m
       (magma_cipher_init 0 false (fresh_evp g1) (Some k) None true) a lens1))
       (magma_cipher_init 0 false (fresh_evp g2) (Some k) None false) a lens2) x = m x).
Proof.
  intros g1 g2 k iv8 iv4 acpkm mesh enc enc' m a l1 l2 H1 H2 Hk Hi Hb Hi4 Hb4 M S8 S32 T. split; [|split].
  - apply (restore evp_shape any magma_cipher_do_ctr); auto using any_all.
    + exact C49_magma_ctr.
    + apply (C49_gost_starts_ready Gost28147_TC26ParamSetZ g1 k iv4 enc 0%N acpkm mesh).
    + apply (C49_gost_starts_ready Gost28147_TC26ParamSetZ g2 k iv4 enc' 0%N acpkm mesh).
    + intros ch2 _ E. exact (C12_magma_ctr_involution acpkm mesh g1 g2 k iv4 enc enc' _ ch2 H1 H2 Hk Hi4 Hb4 S8 S32 E).
  - intros W1 W2. apply (restore evp_shape (blocks_of 8) magma_cipher_do_cbc); auto.
    + exact C49_magma_cbc.
    + apply (C49_gost_starts_ready Gost28147_TC26ParamSetZ g1 k iv8 true 0%N acpkm mesh).
    + apply (C49_gost_starts_ready Gost28147_TC26ParamSetZ g2 k iv8 false 0%N acpkm mesh).
    + intros ch2 (m' & -> & _) E. apply (C11_magma_cbc_roundtrip g1 g2 k iv8); auto using whole_pieces.
      rewrite pieces_concat. apply memory_rd, M.
  - intros W1 W2. apply (restore (fun _ : evp => True) (blocks_of 8) magma_cipher_do_ecb); auto.
    + exact C49_magma_ecb.
    + intros ch2 (m' & -> & _) E. apply (magma_ecb_roundtrip g1 g2 k); auto using whole_pieces.
      rewrite pieces_concat. apply memory_rd, M.
Qed.
(** The Kuznyechik stream modes yield bytes. *)
Lemma stream_bytes (S : Type) (next : S -> S * list N) absorb bs (good : S -> Prop) : 0 < bs ->
  (forall s, good s -> length (snd (next s)) = bs /\ bytes (snd (next s)) /\ forall fed, length fed = bs -> bytes fed -> good (absorb (fst (next s)) fed)) ->
  forall enc data s, good s -> bytes data -> bytes (stream S next absorb bs enc s data).
Proof.
  intros P H enc data. unfold stream. induction data as [l Hl|a l Ha IH] using (blocks_ind bs P); intros s G B.
  - destruct l as [|x l]; [constructor|]. rewrite (blocks_short bs (x :: l)) by (auto; discriminate || lia).
    cbn [stream_blocks]. destruct (H s G) as (L & Y & _). destruct (next s) as [s1 ks]. cbn [fst snd] in *.
    rewrite app_nil_r. apply xorl_bytes; auto.
  - rewrite (blocks_cons bs a l) by auto. cbn [stream_blocks]. destruct (H s G) as (L & Y & A).
    destruct (next s) as [s1 ks]. cbn [fst snd] in *. apply bytes_app_inv in B as [Ba Bl].
    assert (X : bytes (xorl a ks)) by (apply xorl_bytes; auto).
    apply bytes_app; [exact X|]. apply IH; [|exact Bl]. apply A.
    + destruct enc; cbn [pick]; [rewrite xorl_length; lia|exact Ha].
    + destruct enc; cbn [pick]; assumption.
Qed.
Lemma kuz_cfb_bytes k iv enc m : kuz_key k -> kuz_iv 16 iv -> bytes m -> bytes (kuz_cfb k iv enc m).
Proof.
  intros [Lk Yk] [Li Yi] M. unfold kuz_cfb. apply (stream_bytes (list N) _ _ 16 blk16); auto; [lia| |split; assumption].
  intros s G. cbn [fst snd]. destruct (E_blk k s Lk Yk G) as [A B]. repeat split; auto.
Qed.
Lemma kuz_ofb_bytes k iv m : kuz_key k -> kuz_iv 16 iv -> bytes m -> bytes (kuz_ofb k iv m).
Proof.
  intros [Lk Yk] [Li Yi] M. unfold kuz_ofb. apply (stream_bytes (list N) _ _ 16 blk16); auto; [lia| |split; assumption].
  intros s G. cbn [fst snd]. destruct (E_blk k s Lk Yk G) as [A B]. repeat split; auto.
Qed.
Lemma forall_bytes_concat ch : bytes (concat ch) -> Forall bytes ch.
Proof. induction ch as [|d t IH]; intros H; [constructor|]. cbn [concat] in H. apply bytes_app_inv in H as [A B]. constructor; auto. Qed.
Theorem C49_restore_kuznyechik :
  forall k iv16 iv8 sect (enc : bool) m a lens1 lens2,
    kuz_key k -> kuz_iv 16 iv16 -> kuz_iv 8 iv8 -> sect_arg_ok sect -> memory m -> total lens1 = total lens2 ->
    (forall x, fst (run_in_place kuz_cfb_mem (fst (run_in_place kuz_cfb_mem m (init_cfb kctx0 (Some k) (Some iv16) enc) a lens1))
       (init_cfb kctx0 (Some k) (Some iv16) (negb enc)) a lens2) x = m x) /\
    (forall x, fst (run_in_place kuz_ofb_mem (fst (run_in_place kuz_ofb_mem m (init_ofb kctx0 (Some k) (Some iv16) enc) a lens1))
       (init_ofb kctx0 (Some k) (Some iv16) (negb enc)) a lens2) x = m x) /\
    (forall x, fst (run_in_place kuz_ctr_mem (fst (run_in_place kuz_ctr_mem m (init_ctr kctx0 (Some k) (Some iv8) enc) a lens1))
       (init_ctr kctx0 (Some k) (Some iv8) (negb enc)) a lens2) x = m x) /\
    (forall x, fst (run_in_place kuz_ctracpkm_mem (fst (run_in_place kuz_ctracpkm_mem m (acpkm_start kctx0 sect k iv8 enc) a lens1))
       (acpkm_start kctx0 sect k iv8 (negb enc)) a lens2) x = m x) /\
    (Forall (blocks_of 16) lens1 -> Forall (blocks_of 16) lens2 ->
     (forall x, fst (run_in_place kuz_ecb_mem (fst (run_in_place kuz_ecb_mem m (init_ecb kctx0 (Some k) None true) a lens1))
       (init_ecb kctx0 (Some k) None false) a lens2) x = m x) /\
     (forall x, fst (run_in_place kuz_cbc_mem (fst (run_in_place kuz_cbc_mem m (init_cbc kctx0 (Some k) (Some iv16) true) a lens1))
       (init_cbc kctx0 (Some k) (Some iv16) false) a lens2) x = m x)).
Proof.
  intros k iv16 iv8 sect enc m a l1 l2 Hk H16 H8 Hs M T. pose proof kctx0_ok as O.
  assert (Z : skipn 8 (k_iv kctx0) = zeros 8) by reflexivity. assert (N0 : k_num kctx0 = 0%N) by reflexivity.
  pose proof (memory_pieces m a l1 M) as Y1.
  pose proof (C49_kuznyechik_starts_ready k iv16 sect enc (proj1 Hk)) as (_ & _ & Ro & Rc & _ & _).
  pose proof (C49_kuznyechik_starts_ready k iv16 sect (negb enc) (proj1 Hk)) as (_ & _ & Ro' & Rc' & _ & _).
  pose proof (C49_kuznyechik_starts_ready k iv8 sect enc (proj1 Hk)) as (_ & _ & _ & _ & Rt & Ra).
  pose proof (C49_kuznyechik_starts_ready k iv8 sect (negb enc) (proj1 Hk)) as (_ & _ & _ & _ & Rt' & Ra').
  destruct (C24_stream_modes_roundtrip kctx0 kctx0 k iv16 iv8 sect enc (pieces m a l1) O O N0 N0 Z Z Hk H16 H8 Hs Y1) as (Q1 & Q2 & Q3 & Q4).
  pose proof (concat_bytes_inv _ Y1) as Yc.
  split; [|split; [|split; [|split]]].
  - apply (restore kstream any do_cfb); auto using any_all; [exact C49_kuznyechik_cfb|]. intros ch2 _ E. apply Q1; [|exact E].
    apply forall_bytes_concat. rewrite E. unfold out_of, run. fold (kout do_cfb (init_cfb kctx0 (Some k) (Some iv16) enc) (pieces m a l1)).
    rewrite C25_cfb_refines_spec by auto. apply kuz_cfb_bytes; auto.
  - apply (restore kstream any do_ofb); auto using any_all; [exact C49_kuznyechik_ofb|]. intros ch2 _ E. apply Q2; [|exact E].
    apply forall_bytes_concat. rewrite E. unfold out_of, run. fold (kout do_ofb (init_ofb kctx0 (Some k) (Some iv16) enc) (pieces m a l1)).
    rewrite C25_ofb_refines_spec by auto. apply kuz_ofb_bytes; auto.
  - apply (restore kuz_shape any do_ctr); auto using any_all; [exact C49_kuznyechik_ctr|]. intros ch2 _ E. apply Q3; [|exact E].
    apply forall_bytes_concat. rewrite E. unfold out_of, run. fold (kout do_ctr (init_ctr kctx0 (Some k) (Some iv8) enc) (pieces m a l1)).
    rewrite C25_ctr_refines_spec by auto. apply kuz_ctr_bytes; auto.
  - apply (restore kuz_shape any do_ctracpkm); auto using any_all; [exact C49_kuznyechik_ctr_acpkm|]. intros ch2 _ E. apply Q4; [|exact E].
    apply forall_bytes_concat. rewrite E. unfold out_of, run. fold (kout do_ctracpkm (acpkm_start kctx0 sect k iv8 enc) (pieces m a l1)).
    rewrite C25_ctr_acpkm_refines_spec by auto. apply kuz_ctr_bytes; auto.
  - intros W1 W2.
    pose proof (C49_kuznyechik_starts_ready k iv16 sect true (proj1 Hk)) as (Re & Rb & _).
    pose proof (C49_kuznyechik_starts_ready k iv16 sect false (proj1 Hk)) as (Re' & Rb' & _). split.
    + apply (restore kuz_shape (blocks_of 16) do_ecb); auto; [exact C49_kuznyechik_ecb|]. intros ch2 (m' & -> & _) E.
      apply (C24_ecb_roundtrip kctx0 kctx0 k (pieces m a l1) (pieces m' a l2)); auto using whole16_pieces.
    + apply (restore kuz_shape (blocks_of 16) do_cbc); auto; [exact C49_kuznyechik_cbc|]. intros ch2 (m' & -> & _) E.
      apply (C24_cbc_roundtrip kctx0 kctx0 k iv16 (pieces m a l1) (pieces m' a l2)); auto using whole16_pieces.
Qed.
Print Assumptions C49_restore_kuznyechik.
Print Assumptions C49_restore_magma.
Print Assumptions C49_restore_gost.

(** * Examples *)
(** A memory that holds a message, a context that is ready, and calls that split blocks. *)
Definition mem0 : mem := fun a => (N.of_nat a mod 251)%N.
Lemma mem0_memory : memory mem0.
Proof. intros a. unfold isbyte, mem0. pose proof (N.mod_upper_bound (N.of_nat a) 251). lia. Qed.
Example C49_example :
  memory mem0 /\ same_or_apart 5 5 21 /\ total [3; 11; 7] = total [21] /\ Forall (blocks_of 8) [8; 16] /\ Forall (blocks_of 16) [32; 16] /\
  let c := cnt_start Gost28147_CryptoProParamSetA ctx0 kdemo ivdemo true 1 in
  let m' := fst (run_in_place gost_cnt_mem mem0 c 5 [3; 11; 7]) in
  (eqbl (rd m' 5 21) (rd mem0 5 21), eqbl (rd m' 0 5) (rd mem0 0 5),
   eqbl (rd (fst (run_in_place gost_cnt_mem m' c 5 [21])) 0 30) (rd mem0 0 30)) = (false, true, true).
Proof.
  split; [exact mem0_memory|]. split; [left; reflexivity|]. split; [reflexivity|]. split; [repeat constructor|]. split; [repeat constructor|].
  vm_compute. reflexivity.
Qed.
(** Buffers that overlap in part are not allowed: with [out = in + 1] the CBC output differs from the one between
    separate buffers. *)
Example C49_partial_overlap_is_excluded :
  let c := cbc_start Gost28147_CryptoProParamSetA ctx0 kdemo ivdemo true in
  ~ same_or_apart 0 1 16 /\
  eqbl (rd (fst (gost_cbc_mem mem0 c 0 1 16)) 1 16) (snd (gost_cipher_do_cbc c (rd mem0 0 16))) = false.
Proof. split; [unfold same_or_apart; lia|]. vm_compute. reflexivity. Qed.
