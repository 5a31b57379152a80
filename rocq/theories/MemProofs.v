(** Reading and writing memory; loops over two buffers refine loops over a list. *)
From Verif Require Import Bytes BytesProofs Gost89Model Gost89Proofs CryptModel CryptProofs KuzModel KuzCipherModel MgmModel MemModel.
Local Open Scope nat_scope.

(** Nothing outside [o, o+n) changes. *)
Definition frame (m m' : mem) (o n : nat) : Prop := forall a, (a < o \/ o + n <= a) -> m' a = m a.
(** Reading ahead at [i] while writing behind at [o]. *)
Definition ok (i o n : nat) : Prop := o <= i \/ i + n <= o.

Lemma rd_length m a n : length (rd m a n) = n.
Proof. unfold rd. rewrite map_length, seq_length. reflexivity. Qed.
Lemma rd_S m a n : rd m a (S n) = m a :: rd m (S a) n.
Proof. reflexivity. Qed.
Lemma rd_app m a n k : rd m a (n + k) = rd m a n ++ rd m (a + n) k.
Proof. unfold rd. rewrite seq_app, map_app. reflexivity. Qed.
Lemma rd_split m a n k : k <= n -> rd m a n = rd m a k ++ rd m (a + k) (n - k).
Proof. intros H. replace n with (k + (n - k)) at 1 by lia. apply rd_app. Qed.
Lemma rd_firstn m a n k : k <= n -> firstn k (rd m a n) = rd m a k.
Proof. intros H. rewrite (rd_split m a n k H). rewrite <- (rd_length m a k) at 1. rewrite firstn_app, Nat.sub_diag, firstn_all, firstn_O, app_nil_r. reflexivity. Qed.
Lemma rd_skipn m a n k : k <= n -> skipn k (rd m a n) = rd m (a + k) (n - k).
Proof. intros H. rewrite (rd_split m a n k H). rewrite <- (rd_length m a k) at 1. rewrite skipn_app, Nat.sub_diag, skipn_all, skipn_O. reflexivity. Qed.
Lemma rd_ext m m' a n : (forall x, a <= x < a + n -> m' x = m x) -> rd m' a n = rd m a n.
Proof.
  revert a. induction n as [|n IH]; intros a H; [reflexivity|].
  rewrite !rd_S. rewrite (H a) by lia. f_equal. apply IH. intros x Hx. apply H. lia.
Qed.
Lemma upd_same m a v : upd m a v a = v.
Proof. unfold upd. rewrite Nat.eqb_refl. reflexivity. Qed.
Lemma upd_other m a v x : x <> a -> upd m a v x = m x.
Proof. intros H. unfold upd. destruct (Nat.eqb_spec x a); congruence. Qed.

Lemma frame_refl m o n : frame m m o n.
Proof. intros a _. reflexivity. Qed.
Lemma frame_trans m m' m'' o n : frame m m' o n -> frame m' m'' o n -> frame m m'' o n.
Proof. intros A B a Ha. rewrite (B a Ha). apply A, Ha. Qed.
Lemma frame_seq m m' m'' o n k : k <= n -> frame m m' o k -> frame m' m'' (o + k) (n - k) -> frame m m'' o n.
Proof. intros L A B a Ha. rewrite (B a) by lia. apply A. lia. Qed.
Lemma frame_upd m o v : frame m (upd m o v) o 1.
Proof. intros a Ha. apply upd_other. lia. Qed.
Lemma ok_shift i o n k : k <= n -> ok i o n -> ok (i + k) (o + k) (n - k).
Proof. unfold ok. lia. Qed.
Lemma ok_le i o n k : k <= n -> ok i o n -> ok i o k.
Proof. unfold ok. lia. Qed.

Lemma wr_frame l : forall m o, frame m (wr m o l) o (length l).
Proof.
  induction l as [|x l IH]; intros m o a Ha; [reflexivity|]. cbn [wr length] in *.
  rewrite (IH (upd m o x) (S o) a) by lia. apply upd_other. lia.
Qed.
Lemma wr_rd l : forall m o, rd (wr m o l) o (length l) = l.
Proof.
  induction l as [|x l IH]; intros m o; [reflexivity|]. cbn [wr length].
  rewrite rd_S. rewrite (wr_frame l (upd m o x) (S o) o) by lia. rewrite upd_same. rewrite IH. reflexivity.
Qed.
Lemma wr_rd' l m o n : length l = n -> rd (wr m o l) o n = l.
Proof. intros <-. apply wr_rd. Qed.
Lemma wr_frame' l m o n : length l = n -> frame m (wr m o l) o n.
Proof. intros <-. apply wr_frame. Qed.

(** What remains to be read is untouched by what has been written. *)
Lemma frame_ahead m m' i o k r : ok i o (k + r) -> frame m m' o k -> rd m' (i + k) r = rd m (i + k) r.
Proof. intros O F. apply rd_ext. intros x Hx. apply F. unfold ok in O. lia. Qed.
(** What has been written is untouched by what is written behind it. *)
Lemma frame_behind m' m'' o k n : frame m' m'' (o + k) n -> rd m'' o k = rd m' o k.
Proof. intros F. apply rd_ext. intros x Hx. apply F. lia. Qed.

Lemma xor_loop_ok ks : forall m i o, ok i o (length ks) ->
  rd (xor_loop ks m i o) o (length ks) = xorl ks (rd m i (length ks)) /\ frame m (xor_loop ks m i o) o (length ks).
Proof.
  induction ks as [|k ks IH]; intros m i o O; [split; [reflexivity|apply frame_refl]|].
  cbn [xor_loop length] in *. set (m1 := upd m o (N.lxor k (m i))).
  destruct (IH m1 (S i) (S o)) as [R F]; [unfold ok in *; lia|].
  rewrite !rd_S. cbn [xorl]. split.
  - rewrite (F o) by lia. unfold m1 at 1. rewrite upd_same. f_equal. rewrite R. f_equal.
    apply rd_ext. intros x Hx. apply upd_other. unfold ok in O. lia.
  - intros a Ha. rewrite (F a) by lia. apply upd_other. lia.
Qed.
Lemma xor_loop_rd ks m i o n : length ks = n -> ok i o n -> rd (xor_loop ks m i o) o n = xorl ks (rd m i n).
Proof. intros <- O. apply xor_loop_ok, O. Qed.
Lemma xor_loop_frame ks m i o n : length ks = n -> ok i o n -> frame m (xor_loop ks m i o) o n.
Proof. intros <- O. apply xor_loop_ok, O. Qed.

(** * Loops *)
(** The same loop over a list. *)
Fixpoint ploop {C} (cont : C -> bool) (step : C -> list N -> C * list N) (bs bound fuel : nat) (c : C) (inp : list N)
  : C * list N * list N :=
  match fuel with
  | O => (c, inp, nil)
  | S fuel =>
      if (bound <=? length inp) && cont c then
        let (c, o) := step c (firstn bs inp) in
        let '(c, rest, out) := ploop cont step bs bound fuel c (skipn bs inp) in
        (c, rest, o ++ out)
      else (c, inp, nil)
  end.
Lemma ploop_block_loop {C} (step : C -> list N -> C * list N) bs bound fuel : forall c inp,
  ploop always step bs bound fuel c inp = block_loop step bs bound fuel c inp.
Proof.
  induction fuel as [|f IH]; intros c inp; [reflexivity|]. cbn [ploop block_loop].
  unfold always at 1. rewrite andb_true_r. destruct (bound <=? length inp); [|reflexivity].
  destruct (step c (firstn bs inp)) as [c1 o1]. rewrite IH. reflexivity.
Qed.

Definition step_sim {C} (Inv : C -> Prop) (bs : nat) (pstep : C -> list N -> C * list N)
  (mstep : mem -> C -> nat -> nat -> mem * C) : Prop :=
  forall m c i o, Inv c -> ok i o bs ->
    snd (mstep m c i o) = fst (pstep c (rd m i bs)) /\
    rd (fst (mstep m c i o)) o bs = snd (pstep c (rd m i bs)) /\
    frame m (fst (mstep m c i o)) o bs /\
    Inv (snd (mstep m c i o)).
Definition seg_sim {C} (Inv : C -> Prop) (m : mem) (i o n : nat) (r : mem * C * nat) (p : C * list N * list N) : Prop :=
  snd r <= n /\
  snd (fst r) = fst (fst p) /\
  rd m (i + snd r) (n - snd r) = snd (fst p) /\
  rd (fst (fst r)) o (snd r) = snd p /\
  frame m (fst (fst r)) o (snd r) /\
  Inv (snd (fst r)).

Lemma mloop_sim {C} (Inv : C -> Prop) cont pstep mstep bs bound : bs <= bound -> step_sim Inv bs pstep mstep ->
  forall fuel m c i o n, Inv c -> ok i o n ->
  seg_sim Inv m i o n (mloop cont mstep bs bound fuel m c i o n) (ploop cont pstep bs bound fuel c (rd m i n)).
Proof.
  intros Lb S. induction fuel as [|f IH]; intros m c i o n I O.
  - cbn [mloop ploop]. unfold seg_sim. cbn [fst snd]. rewrite Nat.add_0_r, Nat.sub_0_r. repeat split; auto using frame_refl; lia.
  - cbn [mloop ploop]. rewrite rd_length. destruct ((bound <=? n) && cont c) eqn:G.
    2:{ unfold seg_sim. cbn [fst snd]. rewrite Nat.add_0_r, Nat.sub_0_r. repeat split; auto using frame_refl; lia. }
    apply andb_prop in G as [G _]. apply Nat.leb_le in G. assert (L : bs <= n) by lia.
    rewrite rd_firstn, rd_skipn by exact L.
    specialize (S m c i o I (ok_le _ _ _ _ L O)).
    destruct (mstep m c i o) as [m1 c1], (pstep c (rd m i bs)) as [c1' o1]. cbn [fst snd] in S.
    destruct S as (-> & R1 & F1 & I1).
    assert (O' : ok i o (bs + (n - bs))) by (replace (bs + (n - bs)) with n by lia; exact O).
    rewrite <- (frame_ahead m m1 i o bs (n - bs) O' F1).
    specialize (IH m1 c1' (i + bs) (o + bs) (n - bs) I1 (ok_shift _ _ _ _ L O)).
    destruct (mloop cont mstep bs bound f m1 c1' (i + bs) (o + bs) (n - bs)) as [[m2 c2] k].
    destruct (ploop cont pstep bs bound f c1' (rd m1 (i + bs) (n - bs))) as [[c2' rest] out].
    unfold seg_sim in *. cbn [fst snd] in *. destruct IH as (Lk & -> & R2 & R3 & F2 & I2).
    split; [lia|]. split; [reflexivity|]. split; [|split; [|split; [|exact I2]]].
    + rewrite <- R2. replace (i + (bs + k)) with (i + bs + k) by lia. replace (n - (bs + k)) with (n - bs - k) by lia.
      symmetry. apply rd_ext. intros x Hx. apply F1. unfold ok in O. lia.
    + rewrite rd_app. rewrite R3. f_equal. rewrite <- R1. eapply frame_behind. exact F2.
    + eapply (frame_seq m m1 m2 o (bs + k) bs); [lia|exact F1|]. replace (bs + k - bs) with k by lia. exact F2.
Qed.

(** A whole operation on [n] bytes. *)
Definition op_sim {C} (Inv : C -> Prop) (m : mem) (o n : nat) (r : mem * C) (p : C * list N) : Prop :=
  snd r = fst p /\ rd (fst r) o n = snd p /\ frame m (fst r) o n /\ Inv (snd r).

(** A segment followed by an operation on what is left. *)
Lemma seg_op {C} (I1 : C -> Prop) m i o n m1 c1 k c1' rest out :
  ok i o n -> seg_sim I1 m i o n (m1, c1, k) (c1', rest, out) ->
  k <= n /\ c1 = c1' /\ rest = rd m1 (i + k) (n - k) /\ rd m1 o k = out /\ frame m m1 o k /\ I1 c1 /\
  ok (i + k) (o + k) (n - k).
Proof.
  intros O (Lk & E & R & R1 & F & I). cbn [fst snd] in *. repeat split; auto.
  - rewrite <- R. symmetry. apply (frame_ahead m m1 i o k (n - k)); [|exact F]. replace (k + (n - k)) with n by lia. exact O.
  - apply ok_shift; auto.
Qed.
Lemma op_seq {C} (I : C -> Prop) m o n m1 k out r p :
  k <= n -> rd m1 o k = out -> frame m m1 o k -> op_sim I m1 (o + k) (n - k) r p ->
  op_sim I m o n r (fst p, out ++ snd p).
Proof.
  intros L R F (E & R2 & F2 & H). unfold op_sim. cbn [fst snd]. split; [exact E|]. split; [|split; [|exact H]].
  - rewrite (rd_split _ o n k L). rewrite R2. f_equal. rewrite <- R. eapply frame_behind. exact F2.
  - eapply frame_seq; eauto.
Qed.
Lemma step_op {C} (I : C -> Prop) n pstep mstep m c i o : step_sim I n pstep mstep -> I c -> ok i o n ->
  op_sim I m o n (mstep m c i o) (pstep c (rd m i n)).
Proof. intros S Ic O. destruct (S m c i o Ic O) as (A & B & D & G). repeat split; assumption. Qed.

(** Whole blocks: the loop [while (n > 0) n -= bs] on a multiple of [bs]. *)
Lemma mloop_bound1 {C} (step : mem -> C -> nat -> nat -> mem * C) bs : 0 < bs -> forall fuel q m c i o,
  mloop always step bs 1 fuel m c i o (q * bs) = mloop always step bs bs fuel m c i o (q * bs).
Proof.
  intros P. induction fuel as [|f IH]; intros q m c i o; [reflexivity|].
  cbn [mloop]. destruct q as [|q].
  - cbn [Nat.mul]. destruct bs; [lia|]. reflexivity.
  - replace (1 <=? S q * bs) with true by (symmetry; apply Nat.leb_le; nia).
    replace (bs <=? S q * bs) with true by (symmetry; apply Nat.leb_le; nia).
    replace (S q * bs - bs) with (q * bs) by nia.
    destruct ((true && always c)%bool); [|reflexivity].
    destruct (step m c i o) as [m1 c1]. rewrite IH. reflexivity.
Qed.
Lemma ploop_all {C} (step : C -> list N -> C * list N) bs : 0 < bs -> forall fuel q c inp,
  length inp = q * bs -> q <= fuel -> snd (fst (ploop always step bs bs fuel c inp)) = nil.
Proof.
  intros P. induction fuel as [|f IH]; intros q c inp L Hq.
  - assert (q = 0) by lia. subst q. destruct inp; [reflexivity|discriminate L].
  - cbn [ploop]. unfold always at 1. rewrite andb_true_r. destruct (Nat.leb_spec bs (length inp)) as [G|G].
    + destruct q as [|q]; [cbn in L; lia|].
      destruct (step c (firstn bs inp)) as [c1 o1]. specialize (IH q c1 (skipn bs inp)).
      destruct (ploop always step bs bs f c1 (skipn bs inp)) as [[c2 rest] out]. cbn [fst snd] in *.
      apply IH; [rewrite skipn_length, L; nia|lia].
    + destruct q as [|q]; [|nia]. destruct inp; [reflexivity|discriminate L].
Qed.
Lemma block_loop_rest {C} (step : C -> list N -> C * list N) bs bound : 0 < bs -> 0 < bound -> forall fuel c inp,
  length inp <= fuel -> length (snd (fst (block_loop step bs bound fuel c inp))) < bound.
Proof.
  intros P Q. induction fuel as [|f IH]; intros c inp L.
  - destruct inp; [cbn; lia|cbn in L; lia].
  - cbn [block_loop]. destruct (Nat.leb_spec bound (length inp)) as [G|G]; [|exact G].
    destruct (step c (firstn bs inp)) as [c1 o1]. specialize (IH c1 (skipn bs inp)).
    destruct (block_loop step bs bound f c1 (skipn bs inp)) as [[c2 rest] out]. cbn [fst snd] in *.
    apply IH. rewrite skipn_length. lia.
Qed.

(** Two loops with equal step functions on the states that occur. *)
Lemma block_loop_fuel {C} (step : C -> list N -> C * list N) bs bound : 0 < bs -> bs <= bound -> forall fuel fuel' c inp,
  length inp <= fuel -> length inp <= fuel' ->
  block_loop step bs bound fuel c inp = block_loop step bs bound fuel' c inp.
Proof.
  intros P Q. induction fuel as [|f IH]; intros fuel' c inp L L'.
  - destruct inp; [|cbn in L; lia]. destruct fuel'; [reflexivity|]. cbn [block_loop length]. destruct bound; [lia|reflexivity].
  - destruct fuel' as [|f'].
    + destruct inp; [|cbn in L'; lia]. cbn [block_loop length]. destruct bound; [lia|reflexivity].
    + cbn [block_loop]. destruct (Nat.leb_spec bound (length inp)); [|reflexivity].
      destruct (step c (firstn bs inp)) as [c1 o1]. rewrite (IH f'); [reflexivity| |]; rewrite skipn_length; lia.
Qed.
