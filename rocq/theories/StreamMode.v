(** Specification of a byte-oriented stream mode over a block-oriented keystream generator,
    and its basic theory.  This file is independent of the code: it says what "the same as
    processing the whole message at once, block by block" means, for any block length.

    [next s] produces the next keystream block and the new state; [absorb s fed] tells the
    generator the whole feedback block (the ciphertext block in CFB, ignored in counter modes). *)
From Verif Require Import Bytes BytesProofs.
From Coq Require Import List Lia NArith.
Open Scope N_scope.

Section Stream.
Variable S : Type.
Variable next : S -> S * list N.
Variable absorb : S -> list N -> S.
Variable bs : nat.

(** What is fed back: the output when encrypting, the input when decrypting. *)
Definition pick {A} (enc : bool) (i o : A) : A := if enc then o else i.

(** The specification: the message is cut into blocks of [bs] bytes (the last one may be
    shorter) and each is xored with a keystream block. *)
Fixpoint stream_blocks (enc : bool) (s : S) (bl : list (list N)) : list N :=
  match bl with
  | nil => nil
  | b :: t =>
      let (s1, ks) := next s in
      let o := xorl b ks in
      o ++ stream_blocks enc (absorb s1 (pick enc b o)) t
  end.
Definition stream (enc : bool) (s : S) (data : list N) : list N :=
  stream_blocks enc s (blocks bs data).

(** Byte-at-a-time machine: generator state, unused keystream, feedback collected so far. *)
Definition bst : Type := (S * list N * list N)%type.
Definition byte_step (enc : bool) (st : bst) (b : N) : bst * N :=
  let '(s, ks, fed) := st in
  let '(s, ks) := match ks with nil => next s | _ => (s, ks) end in
  let o := N.lxor b (hd 0 ks) in
  let fed := fed ++ [pick enc b o] in
  match tl ks with
  | nil => ((absorb s fed, nil, nil), o)
  | ks' => ((s, ks', fed), o)
  end.
Fixpoint run_bytes (enc : bool) (st : bst) (data : list N) : bst * list N :=
  match data with
  | nil => (st, nil)
  | b :: t =>
      let (st, o) := byte_step enc st b in
      let (st, os) := run_bytes enc st t in
      (st, o :: os)
  end.

Lemma run_bytes_app enc st a b :
  run_bytes enc st (a ++ b) =
  (let (st1, o1) := run_bytes enc st a in
   let (st2, o2) := run_bytes enc st1 b in (st2, o1 ++ o2)).
Proof.
  revert st; induction a as [|x a IH]; intros st; cbn [app run_bytes].
  - destruct (run_bytes enc st b); auto.
  - destruct (byte_step enc st x) as [st1 o]. rewrite IH.
    destruct (run_bytes enc st1 a) as [st2 oa]. destruct (run_bytes enc st2 b); auto.
Qed.
Lemma run_bytes_length enc st a : length (snd (run_bytes enc st a)) = length a.
Proof.
  revert st; induction a as [|x a IH]; intros st; cbn [run_bytes]; auto.
  destruct (byte_step enc st x) as [st1 o]. specialize (IH st1).
  destruct (run_bytes enc st1 a); cbn [snd length] in *. lia.
Qed.

(** Inside a block: a piece not longer than the remaining keystream. *)
Lemma run_bytes_within enc s ks fed data :
  ks <> nil -> (length data <= length ks)%nat ->
  run_bytes enc (s, ks, fed) data =
    ((if (length data =? length ks)%nat
      then (absorb s (fed ++ pick enc data (xorl data ks)), nil, nil)
      else (s, skipn (length data) ks, fed ++ pick enc data (xorl data ks))),
     xorl data ks).
Proof.
  revert ks fed; induction data as [|b data IH]; intros ks fed Hk Hl; cbn [run_bytes].
  - destruct ks; [contradiction|]. cbn [length Nat.eqb skipn xorl]. destruct enc; cbn [pick]; rewrite app_nil_r; auto.
  - destruct ks as [|k ks]; [contradiction|]. cbn [length] in Hl.
    unfold byte_step. cbn [hd tl]. destruct ks as [|k' ks].
    + assert (data = nil) by (destruct data; cbn in *; [auto|lia]). subst. cbn. destruct enc; auto.
    + rewrite IH; [|discriminate|lia]. cbn [xorl length skipn]. cbn [Nat.eqb].
      destruct (length data =? Datatypes.S (length ks))%nat; f_equal; destruct enc; cbn [pick];
        rewrite <- app_assoc; auto.
Qed.
(** At a block boundary: a non-empty piece not longer than a block. *)
Lemma run_bytes_fresh enc s data s1 ks :
  next s = (s1, ks) -> ks <> nil -> data <> nil -> (length data <= length ks)%nat ->
  run_bytes enc (s, nil, nil) data =
    ((if (length data =? length ks)%nat
      then (absorb s1 (pick enc data (xorl data ks)), nil, nil)
      else (s1, skipn (length data) ks, pick enc data (xorl data ks))),
     xorl data ks).
Proof.
  intros Hn Hk Hd Hl. rewrite <- (app_nil_l (pick enc data _)). rewrite <- run_bytes_within; auto.
  destruct data; [contradiction|]. cbn [run_bytes]. unfold byte_step. rewrite Hn.
  destruct ks; [contradiction|]. auto.
Qed.

Variable good : S -> Prop.
Hypothesis next_len : forall s, good s -> length (snd (next s)) = bs.
Hypothesis next_good : forall s, good s -> good (fst (next s)).
Hypothesis absorb_good : forall s f, good s -> length f = bs -> good (absorb s f).
Hypothesis bs_pos : (0 < bs)%nat.

Lemma run_bytes_stream enc s data : good s -> snd (run_bytes enc (s, nil, nil) data) = stream enc s data.
Proof.
  revert s. induction data as [l Hl|a l Ha IH] using (blocks_ind bs bs_pos); intros s Hg.
  - unfold stream. destruct l as [|x l]; [reflexivity|].
    rewrite blocks_short by (auto; discriminate || lia). cbn [stream_blocks].
    pose proof (next_len s Hg). destruct (next s) as [s1 ks] eqn:En. cbn [snd] in *.
    rewrite (run_bytes_fresh enc s (x :: l) s1 ks) ;
      [|auto|destruct ks; [cbn in *; lia|discriminate]|discriminate|lia].
    rewrite app_nil_r; auto.
  - unfold stream in *. rewrite blocks_cons by auto. cbn [stream_blocks].
    rewrite run_bytes_app. pose proof (next_len s Hg). pose proof (next_good s Hg).
    destruct (next s) as [s1 ks] eqn:En. cbn [fst snd] in *.
    rewrite (run_bytes_fresh enc s a s1 ks);
      [|auto|destruct ks; [cbn in *; lia|discriminate]|destruct a; [cbn in *; lia|discriminate]|lia].
    rewrite Ha, H, Nat.eqb_refl.
    assert (Hg' : good (absorb s1 (pick enc a (xorl a ks)))).
    { apply absorb_good; auto. destruct enc; cbn [pick]; auto. rewrite xorl_length_eq; lia. }
    specialize (IH _ Hg'). destruct (run_bytes enc _ l); cbn [snd] in *. congruence.
Qed.

Lemma stream_length enc s data : good s -> length (stream enc s data) = length data.
Proof. intros. rewrite <- run_bytes_stream by auto. apply run_bytes_length. Qed.

(** Decryption undoes encryption and vice versa. *)
Lemma stream_roundtrip enc s data : good s -> stream (negb enc) s (stream enc s data) = data.
Proof.
  intros Hg. unfold stream. revert s Hg.
  induction data as [l Hl|a l Ha IH] using (blocks_ind bs bs_pos); intros s Hg.
  - destruct l as [|x l]; [reflexivity|]. rewrite (blocks_short bs (x :: l)) by (auto; discriminate || lia).
    cbn [stream_blocks]. pose proof (next_len s Hg) as L. destruct (next s) as [s1 ks] eqn:En. cbn [snd] in *.
    rewrite app_nil_r.
    assert (Lx : length (xorl (x :: l) ks) = length (x :: l)) by (rewrite xorl_length; lia).
    rewrite blocks_short; [|auto|destruct (xorl (x :: l) ks); [discriminate|discriminate]|lia].
    cbn [stream_blocks]. rewrite En, app_nil_r. apply xorl_cancel_r_le. lia.
  - rewrite (blocks_cons bs a l) by auto. cbn [stream_blocks].
    pose proof (next_len s Hg) as L. pose proof (next_good s Hg) as G. destruct (next s) as [s1 ks] eqn:En.
    cbn [fst snd] in *.
    assert (Lx : length (xorl a ks) = bs) by (rewrite xorl_length_eq; lia).
    rewrite blocks_cons by auto. cbn [stream_blocks]. rewrite En.
    rewrite xorl_cancel_r by lia.
    replace (pick (negb enc) (xorl a ks) a) with (pick enc a (xorl a ks)) by (destruct enc; auto).
    f_equal. apply IH. apply absorb_good; auto. destruct enc; cbn [pick]; auto.
Qed.

(** A stateful implementation that simulates the byte machine. *)
Variable C : Type.
Variable rel : C -> bst -> Prop.
Variable doit : C -> list N -> C * list N.
Fixpoint run_chunks (c : C) (chunks : list (list N)) : C * list N :=
  match chunks with
  | nil => (c, nil)
  | d :: t => let (c1, o1) := doit c d in let (c2, o2) := run_chunks c1 t in (c2, o1 ++ o2)
  end.
Variable enc : bool.
Hypothesis sim : forall c st d, rel c st -> rel (fst (doit c d)) (fst (run_bytes enc st d)) /\
  snd (doit c d) = snd (run_bytes enc st d).
Lemma run_chunks_bytes chunks : forall c st, rel c st ->
  rel (fst (run_chunks c chunks)) (fst (run_bytes enc st (concat chunks))) /\
  snd (run_chunks c chunks) = snd (run_bytes enc st (concat chunks)).
Proof.
  induction chunks as [|d t IH]; intros c st H; cbn [run_chunks concat].
  - cbn; auto.
  - rewrite run_bytes_app. destruct (sim c st d H) as [R E].
    destruct (doit c d) as [c1 o1]. destruct (run_bytes enc st d) as [st1 o1']. cbn [fst snd] in *. subst o1'.
    destruct (IH c1 st1 R) as [R2 E2]. destruct (run_chunks c1 t). destruct (run_bytes enc st1 (concat t)).
    cbn [fst snd] in *. subst; auto.
Qed.
End Stream.

(** How many keystream blocks were generated. *)
Lemma run_bytes_index S next absorb bs (idx : S -> nat) enc :
  (0 < bs)%nat ->
  (forall s, length (snd (next s)) = bs) -> (forall s, idx (fst (next s)) = Datatypes.S (idx s)) ->
  (forall s f, idx (absorb s f) = idx s) ->
  forall data s ks fed, (length ks < bs)%nat ->
  let '(s', ks', _) := fst (run_bytes S next absorb enc (s, ks, fed) data) in
  (length ks' < bs /\ bs * idx s' + length ks = bs * idx s + length data + length ks')%nat.
Proof.
  intros Hb Hl Hn Ha. induction data as [|x data IH]; intros s ks fed Hk; cbn [run_bytes].
  - cbn [fst length]. lia.
  - unfold byte_step. destruct ks as [|y ks].
    + pose proof (Hl s) as L. pose proof (Hn s) as Hi. destruct (next s) as [s1 ks1]. cbn [fst snd] in *.
      destruct ks1 as [|z ks1]; [cbn in L; lia|]. cbn [hd tl length] in *.
      destruct ks1 as [|z2 ks1].
      * specialize (IH (absorb s1 (fed ++ [pick enc x (N.lxor x z)])) nil nil Hb).
        destruct (run_bytes S next absorb enc (absorb s1 (fed ++ [pick enc x (N.lxor x z)]), nil, nil) data) as [[[s' ks'] f'] o].
        cbn [fst length] in *. rewrite Ha in IH. nia.
      * specialize (IH s1 (z2 :: ks1) (fed ++ [pick enc x (N.lxor x z)]) ltac:(lia)).
        destruct (run_bytes S next absorb enc (s1, z2 :: ks1, fed ++ [pick enc x (N.lxor x z)]) data) as [[[s' ks'] f'] o].
        cbn [fst length] in *. nia.
    + cbn [hd tl]. destruct ks as [|z2 ks1].
      * specialize (IH (absorb s (fed ++ [pick enc x (N.lxor x y)])) nil nil Hb).
        destruct (run_bytes S next absorb enc (absorb s (fed ++ [pick enc x (N.lxor x y)]), nil, nil) data) as [[[s' ks'] f'] o].
        cbn [fst length] in *. rewrite Ha in IH. nia.
      * cbn [length] in Hk. specialize (IH s (z2 :: ks1) (fed ++ [pick enc x (N.lxor x y)]) ltac:(cbn [length]; lia)).
        destruct (run_bytes S next absorb enc (s, z2 :: ks1, fed ++ [pick enc x (N.lxor x y)]) data) as [[[s' ks'] f'] o].
        cbn [fst length] in *. nia.
Qed.
(** Starting at a block boundary: the number of blocks is the length divided by the block
    size, rounded up. *)
Definition blocks_started (bs n : nat) : nat := ((n + (bs - 1)) / bs)%nat.
Lemma run_bytes_started S next absorb bs (idx : S -> nat) enc :
  (0 < bs)%nat ->
  (forall s, length (snd (next s)) = bs) -> (forall s, idx (fst (next s)) = Datatypes.S (idx s)) ->
  (forall s f, idx (absorb s f) = idx s) ->
  forall data s,
  let '(s', ks', _) := fst (run_bytes S next absorb enc (s, nil, nil) data) in
  idx s' = (idx s + blocks_started bs (length data))%nat.
Proof.
  intros Hb Hl Hn Ha data s. pose proof (run_bytes_index S next absorb bs idx enc Hb Hl Hn Ha data s nil nil Hb) as H.
  destruct (run_bytes S next absorb enc (s, nil, nil) data) as [[[s' ks'] f'] o]. cbn [fst length] in *.
  destruct H as [L E]. unfold blocks_started.
  assert (X : (length data + (bs - 1) = (idx s' - idx s) * bs + (bs - 1 - length ks'))%nat) by nia.
  rewrite X, (Nat.add_comm (_ * bs)%nat), Nat.div_add, Nat.div_small by lia. nia.
Qed.
