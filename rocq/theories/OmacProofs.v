(** Proofs about the building blocks of the OMAC model. *)
From Verif Require Import Bytes BytesProofs CryptModel CryptProofs MagmaProofs KdfProofs OmacModel OmacSpec.
From Coq Require Import List Lia NArith.
Open Scope N_scope.

(** * make_kn is doubling *)
Fixpoint shl (l : list N) : list N :=
  match l with
  | nil => nil
  | a :: t => (if msb (hd 0 t) then N.lor (w8 (N.shiftl a 1)) 1 else w8 (N.shiftl a 1)) :: shl t
  end.
Lemma byte_all (P : N -> bool) : forallb P (map N.of_nat (seq 0 256)) = true -> forall x, x < 256 -> P x = true.
Proof.
  intros H x Hx. rewrite forallb_forall in H. apply H. apply in_map_iff. exists (N.to_nat x). split; [apply N2Nat.id|].
  apply in_seq. lia.
Qed.
Lemma byte_shl x : x < 256 -> w8 (N.shiftl x 1) + 256 * (if msb x then 1 else 0) = 2 * x /\ N.lor (w8 (N.shiftl x 1)) 1 = w8 (N.shiftl x 1) + 1
  /\ msb x = (128 <=? x).
Proof.
  intros H. apply (byte_all (fun x => (w8 (N.shiftl x 1) + 256 * (if msb x then 1 else 0) =? 2 * x) &&
    ((N.lor (w8 (N.shiftl x 1)) 1 =? w8 (N.shiftl x 1) + 1) && Bool.eqb (msb x) (128 <=? x)))) in H; [|vm_compute; reflexivity].
  apply andb_prop in H as [H1 H]. apply andb_prop in H as [H2 H3].
  apply N.eqb_eq in H1, H2. apply Bool.eqb_prop in H3. auto.
Qed.
Lemma be2n_cons a t : be2n (a :: t) = a * 256 ^ N.of_nat (length t) + be2n t.
Proof. unfold be2n. cbn [rev]. rewrite le2n_app, rev_length. cbn [le2n]. lia. Qed.
Lemma shl_value l : bytes l -> be2n (shl l) + 256 ^ N.of_nat (length l) * (if msb (hd 0 l) then 1 else 0) = 2 * be2n l
  /\ length (shl l) = length l /\ bytes (shl l).
Proof.
  induction 1 as [|a t Ha Ht (IH & IL & IB)]; [split; [reflexivity|split; [reflexivity|constructor]]|].
  destruct (byte_shl a Ha) as (E1 & E2 & _). cbn [shl length hd]. rewrite be2n_cons, be2n_cons, IL.
  rewrite Nat2N.inj_succ, N.pow_succ_r'. set (p := 256 ^ N.of_nat (length t)) in *.
  split; [|split; [reflexivity|constructor; [|exact IB]]].
  - destruct (msb (hd 0 t)); destruct (msb a); rewrite ?E2; nia.
  - unfold isbyte. pose proof (w8_lt (N.shiftl a 1)). destruct (msb a) eqn:Em; destruct (msb (hd 0 t)); rewrite ?E2; lia.
Qed.
Lemma shl_map bl l : length l = bl ->
  map (fun i => let b := w8 (N.shiftl (nth i l 0) 1) in
    if (i <? bl - 1)%nat && msb (nth (i + 1) l 0) then N.lor b 1 else b) (seq 0 bl) = shl l.
Proof.
  intros <-. assert (G : forall l n, map (fun i => let b := w8 (N.shiftl (nth (i - n) l 0) 1) in
    if msb (nth (i - n + 1) l 0) then N.lor b 1 else b) (seq n (length l)) = shl l).
  { clear l. induction l as [|a t IH]; intro n; [reflexivity|]. cbn [length seq map shl]. f_equal.
    - rewrite Nat.sub_diag. cbn [nth Nat.add]. destruct t; reflexivity.
    - rewrite <- (IH (S n)). apply map_ext_in. intros i Hi. apply in_seq in Hi. cbv zeta.
      replace (i - n)%nat with (S (i - S n)) by lia. replace (S (i - S n) + 1)%nat with (S (i - S n + 1)) by lia. reflexivity. }
  rewrite <- (G l 0%nat). apply map_ext_in. intros i Hi. apply in_seq in Hi. cbv zeta. rewrite Nat.sub_0_r.
  destruct (Nat.ltb_spec i (length l - 1)) as [H|H]; [reflexivity|]. cbn [andb].
  rewrite (nth_overflow l 0 (n := i + 1)) by lia. reflexivity.
Qed.
Lemma n2be_last n x : n2be (S n) x = n2be n (x / 256) ++ [x mod 256].
Proof. unfold n2be. cbn [n2le rev]. rewrite w8_mod, shiftr8. reflexivity. Qed.
Lemma set_last (l : list N) a v : set (l ++ [a]) (length l) v = l ++ [v].
Proof. induction l; cbn [app length set]; [reflexivity|]. rewrite IHl. reflexivity. Qed.
Lemma lxor_byte_split x r : r < 256 -> N.lxor x r / 256 = x / 256 /\ N.lxor x r mod 256 = N.lxor (x mod 256) r.
Proof.
  intros H. change 256 with (2 ^ 8). rewrite <- !N.shiftr_div_pow2, <- !N.land_ones. split.
  - rewrite N.shiftr_lxor. replace (N.shiftr r 8) with 0; [apply N.lxor_0_r|]. rewrite N.shiftr_div_pow2. symmetry. apply N.div_small. exact H.
  - apply N.bits_inj. intro i. rewrite N.land_spec, !N.lxor_spec, N.land_spec. destruct (N.ltb_spec i 8) as [Hi|Hi].
    + rewrite N.ones_spec_low by auto. rewrite !andb_true_r. reflexivity.
    + rewrite N.ones_spec_high by auto. rewrite !andb_false_r. rewrite xorb_false_l. symmetry.
      rewrite <- (N.mod_small r (2 ^ 8)) by exact H. apply N.mod_pow2_bits_high. exact Hi.
Qed.
Lemma hd_msb l : bytes l -> l <> nil -> msb (hd 0 l) = (256 ^ N.of_nat (length l) <=? 2 * be2n l).
Proof.
  intros B H. destruct l as [|a t]; [contradiction|]. apply Forall_cons_iff in B as [Ha Bt]. cbn [hd length].
  destruct (byte_shl a Ha) as (_ & _ & ->). rewrite be2n_cons, Nat2N.inj_succ, N.pow_succ_r'.
  pose proof (be2n_lt t Bt) as U. set (p := 256 ^ N.of_nat (length t)) in *. unfold isbyte in Ha.
  destruct (N.leb_spec 128 a); symmetry; [apply N.leb_le|apply N.leb_gt]; nia.
Qed.
Lemma dbl_length bl b : length (dbl bl b) = bl. Proof. apply n2be_length. Qed.
Lemma dbl_bytes bl b : bytes (dbl bl b). Proof. apply n2be_bytes. Qed.
Lemma make_kn_dbl bl l : bytes l -> length l = bl -> (0 < bl)%nat -> make_kn bl l = dbl bl l.
Proof.
  intros B L P. unfold make_kn. cbv zeta. pose proof (shl_map bl l L) as Sm. cbv zeta in Sm. rewrite Sm. clear Sm.
  destruct (shl_value l B) as (V & Ls & Bs). rewrite L in *. unfold dbl. cbv zeta.
  assert (Hn : l <> nil) by (intros ->; cbn in L; lia). pose proof (hd_msb l B Hn) as M. rewrite L in M. rewrite <- M.
  replace (nth 0 l 0) with (hd 0 l) by (destruct l; reflexivity).
  set (p := 256 ^ N.of_nat bl) in *. pose proof (be2n_lt (shl l) Bs) as U. rewrite Ls in U. fold p in U.
  assert (E : (2 * be2n l) mod p = be2n (shl l)).
  { rewrite <- V. destruct (msb (hd 0 l)).
    - rewrite N.mul_1_r. replace (be2n (shl l) + p) with (be2n (shl l) + 1 * p) by lia. rewrite N.mod_add by (unfold p; apply N.pow_nonzero; discriminate).
      apply N.mod_small; exact U.
    - rewrite N.mul_0_r, N.add_0_r. apply N.mod_small; exact U. }
  rewrite E. destruct (msb (hd 0 l)).
  - fold (reduction bl). assert (R : reduction bl < 256) by (unfold reduction; destruct (bl =? 16)%nat; reflexivity).
    set (r := reduction bl) in *. clearbody r. destruct bl as [|n]; [lia|]. rewrite n2be_last.
    destruct (lxor_byte_split (be2n (shl l)) r R) as [-> ->].
    pose proof (n2be_be2n (shl l) (S n) Bs Ls) as W. rewrite n2be_last in W.
    set (h := n2be n (be2n (shl l) / 256)) in *. set (x := be2n (shl l) mod 256) in *.
    assert (Lh : length h = n) by apply n2be_length. rewrite <- W. replace (S n - 1)%nat with (length h) by lia.
    rewrite set_last. rewrite app_nth2 by lia. rewrite Nat.sub_diag. reflexivity.
  - rewrite N.lxor_0_r. symmetry. apply n2be_be2n; auto.
Qed.

(** * Buffering *)
(** m = H || r with full blocks H and a non-empty r, or m empty. *)
Definition cut (bl : nat) (m : list N) (H : list (list N)) (r : list N) : Prop :=
  m = concat H ++ r /\ Forall (fun b => length b = bl) H /\ (length r <= bl)%nat /\ ((0 < length r)%nat \/ m = nil).
Lemma concat_len bl H : Forall (fun b : list N => length b = bl) H -> length (concat H) = (length H * bl)%nat.
Proof. induction 1 as [|b t Hb F IH]; [reflexivity|]. cbn [concat length]. rewrite app_length, IH, Hb. lia. Qed.
Lemma blocks_concat bl H : (0 < bl)%nat -> Forall (fun b => length b = bl) H -> blocks bl (concat H) = H.
Proof. intros P. induction 1 as [|b t Hb F IH]; [reflexivity|]. cbn [concat]. rewrite blocks_cons by auto. rewrite IH. reflexivity. Qed.
Lemma cut_heads bl m H r : (0 < bl)%nat -> cut bl m H r -> heads bl m = H /\ last_piece bl m = r.
Proof.
  intros P (Em & F & Lr & Hr). pose proof (concat_len bl H F) as LH.
  assert (Q : ((length m - 1) / bl = length H)%nat).
  { destruct Hr as [Hr| -> ].
    - rewrite Em, app_length, LH. symmetry. apply Nat.div_unique with (length r - 1)%nat; nia.
    - symmetry in Em. apply app_eq_nil in Em as [Em _]. rewrite Em in LH. cbn [length] in *.
      rewrite Nat.div_small by lia. destruct (length H); [reflexivity|nia]. }
  unfold heads, last_piece. rewrite Q, Em. rewrite firstn_app_exact, skipn_app_exact by auto. split; [apply blocks_concat; auto|reflexivity].
Qed.
Lemma cut_unique bl m H r H' r' : (0 < bl)%nat -> cut bl m H r -> cut bl m H' r' -> H = H' /\ r = r'.
Proof. intros P C1 C2. destruct (cut_heads bl m H r P C1) as [<- <-], (cut_heads bl m H' r' P C2) as [<- <-]. auto. Qed.
Lemma cut_exists bl m : (0 < bl)%nat -> cut bl m (heads bl m) (last_piece bl m).
Proof.
  intros P. assert (G : exists H r, cut bl m H r).
  { induction m as [l Hl|a l Ha IH] using (blocks_ind bl P).
    - exists nil, l. repeat split; auto; [lia|]. destruct l; [right; reflexivity|left; cbn; lia].
    - destruct l as [|x t].
      + exists nil, a. rewrite app_nil_r. repeat split; auto; lia.
      + destruct IH as (H & r & E & F & L1 & L2). exists (a :: H), r. repeat split; auto.
        * cbn [concat]. rewrite E at 1. apply app_assoc.
        * destruct L2 as [L2|L2]; [left; exact L2|discriminate L2]. }
  destruct G as (H & r & C). destruct (cut_heads bl m H r P C) as [-> ->]. exact C.
Qed.

Section Buf.
Context {St : Type} (bl : nat) (blk : St -> list N -> St).
Hypothesis P : (0 < bl)%nat.
Definition buf_ok (s0 : St) (m : list N) (st : St * list N * nat) : Prop :=
  let '(s, last, n) := st in
  s = fold_left blk (heads bl m) s0 /\ n = length (last_piece bl m) /\ firstn n last = last_piece bl m /\ (bl <= length last)%nat.
Lemma upd_loop_spec : forall fuel data s, (length data <= fuel)%nat -> data <> nil ->
  exists H r, cut bl data H r /\ upd_loop bl blk fuel s data = (fold_left blk H s, r).
Proof.
  induction fuel as [|f IH]; intros data s Hf Hd; cbn [upd_loop].
  - destruct data; [contradiction|cbn in Hf; lia].
  - destruct (Nat.ltb_spec bl (length data)) as [Hl|Hl].
    + destruct (IH (skipn bl data) (blk s (firstn bl data))) as (H & r & (E & F & L1 & L2) & U).
      { rewrite skipn_length. lia. } { intro Z. apply (f_equal (@length N)) in Z. rewrite skipn_length in Z. cbn in Z. lia. }
      exists (firstn bl data :: H), r. split; [|exact U]. repeat split; auto.
      * cbn [concat]. rewrite <- app_assoc, <- E. symmetry. apply firstn_skipn.
      * constructor; auto. apply firstn_length_le. lia.
      * destruct L2 as [L2|L2]; [left; exact L2|]. apply (f_equal (@length N)) in L2. rewrite skipn_length in L2. cbn in L2. lia.
    + exists nil, data. split; [|reflexivity]. repeat split; auto. left. destruct data; [contradiction|cbn; lia].
Qed.
Lemma overwrite_0 (last rest : list N) : (length rest <= length last)%nat ->
  firstn (length rest) (overwrite last 0 rest) = rest /\ length (overwrite last 0 rest) = length last.
Proof.
  intros H. unfold overwrite. rewrite firstn_O. cbn [app Nat.add]. split; [apply firstn_app_exact; reflexivity|].
  rewrite app_length, skipn_length. lia.
Qed.
Lemma upd_rest_spec s last data : data <> nil -> (bl <= length last)%nat ->
  exists H r last', cut bl data H r /\ upd_rest bl blk s last data = (fold_left blk H s, last', length r) /\
    firstn (length r) last' = r /\ length last' = length last.
Proof.
  intros Hd Hl. unfold upd_rest. destruct (upd_loop_spec (length data) data s (le_n _) Hd) as (H & r & C & U). rewrite U.
  exists H, r, (overwrite last 0 r). assert (Lr : (length r <= length last)%nat) by (destruct C as (_ & _ & ? & _); lia).
  destruct (overwrite_0 last r Lr). auto.
Qed.
Lemma fold_heads H1 b H2 s : fold_left blk (H1 ++ [b] ++ H2) s = fold_left blk H2 (blk (fold_left blk H1 s) b).
Proof. rewrite !fold_left_app. reflexivity. Qed.
Lemma upd_ok s0 m st data : buf_ok s0 m st -> buf_ok s0 (m ++ data) (upd bl blk st data).
Proof.
  destruct st as [[s last] n]. intros (Es & En & Ef & Ll). unfold upd.
  destruct data as [|d0 dt] eqn:Ed. { rewrite app_nil_r. split; auto. } rewrite <- Ed. assert (Hd : data <> nil) by (subst; discriminate). clear d0 dt Ed.
  pose proof (cut_exists bl m P) as C. set (H1 := heads bl m) in *. set (r1 := last_piece bl m) in *. destruct C as (Em & F1 & L1 & L2).
  assert (F1l : length (firstn n last) = n) by (rewrite Ef, En; reflexivity).
  destruct (Nat.ltb_spec 0 n) as [Hn|Hn].
  - set (nleft := Nat.min (length data) (bl - n)). set (last1 := overwrite last n (firstn nleft data)).
    assert (Lf : length (firstn nleft data) = nleft) by (apply firstn_length_le; unfold nleft; lia).
    assert (Nb : (n <= bl)%nat) by lia.
    assert (O1 : firstn (n + nleft) last1 = r1 ++ firstn nleft data).
    { unfold last1, overwrite. rewrite app_assoc. rewrite Ef. apply firstn_app_exact. rewrite app_length. lia. }
    assert (O2 : length last1 = length last).
    { unfold last1, overwrite. rewrite !app_length, skipn_length, Lf, F1l. unfold nleft. lia. }
    destruct (Nat.eqb_spec (length data) nleft) as [Hq|Hq].
    + assert (Ea : firstn nleft data = data) by (apply firstn_all2; lia). rewrite Ea in *.
      assert (C' : cut bl (m ++ data) H1 (r1 ++ data)).
      { repeat split; auto. - rewrite Em at 1. symmetry; apply app_assoc. - rewrite app_length. lia. - left. rewrite app_length. lia. }
      destruct (cut_heads bl _ _ _ P C') as [Eh Et]. unfold buf_ok. rewrite Eh, Et. split; [exact Es|]. split; [rewrite app_length; lia|].
      split; [exact O1|lia].
    + assert (Nl : nleft = (bl - n)%nat) by (unfold nleft in *; lia).
      assert (Hs : skipn nleft data <> nil). { intro Z. apply (f_equal (@length N)) in Z. rewrite skipn_length in Z. cbn in Z. lia. }
      set (b := firstn bl last1).
      assert (Eb : b = r1 ++ firstn nleft data) by (unfold b; rewrite <- O1; f_equal; lia).
      destruct (upd_rest_spec (blk s b) last1 (skipn nleft data) Hs) as (H & r & last' & C' & U & O3 & O4); [lia|]. rewrite U.
      destruct C' as (E' & F' & L1' & L2').
      assert (Lb : length b = bl) by (unfold b; apply firstn_length_le; lia).
      assert (C2 : cut bl (m ++ data) (H1 ++ [b] ++ H) r).
      { split; [|split; [|split]]; auto.
        - rewrite Em at 1. rewrite !concat_app. cbn [concat]. rewrite Eb, app_nil_r. rewrite <- !app_assoc, <- E'. do 2 f_equal. symmetry; apply firstn_skipn.
        - apply Forall_app; split; auto. apply Forall_app; split; auto.
        - destruct L2' as [L2'|L2']; [left; exact L2'|contradiction]. }
      destruct (cut_heads bl _ _ _ P C2) as [Eh Et]. unfold buf_ok. rewrite Eh, Et, fold_heads, <- Es. split; [reflexivity|]. split; [reflexivity|].
      split; [exact O3|lia].
  - assert (Er : r1 = nil) by (destruct r1; [reflexivity|cbn in *; lia]).
    assert (Mn : m = nil) by (destruct L2 as [L2|L2]; [rewrite Er in L2; cbn in L2; lia|exact L2]).
    assert (H0 : H1 = nil). { destruct H1; [reflexivity|]. apply Forall_cons_iff in F1 as [Fb _]. rewrite Mn in Em. symmetry in Em. apply app_eq_nil in Em as [Em _].
      cbn [concat] in Em. apply app_eq_nil in Em as [Em _]. rewrite Em in Fb. cbn in Fb. lia. }
    rewrite Mn. cbn [app]. destruct (upd_rest_spec s last data Hd Ll) as (H & r & last' & C' & U & O3 & O4). rewrite U.
    destruct (cut_heads bl _ _ _ P C') as [Eh Et]. unfold buf_ok. rewrite Eh, Et. rewrite Es, H0. cbn [fold_left]. split; [reflexivity|].
    split; [reflexivity|]. split; [exact O3|lia].
Qed.
Lemma buf_start s0 last : (bl <= length last)%nat -> buf_ok s0 nil (s0, last, 0%nat).
Proof.
  intros H. destruct (cut_heads bl nil nil nil P) as [E1 E2]. { repeat split; auto. cbn. lia. }
  unfold buf_ok. rewrite E1, E2. auto.
Qed.
End Buf.

Lemma last_xor_spec bl last r k1 k2 : (0 < bl)%nat -> (length r <= bl)%nat -> (bl <= length last)%nat -> firstn (length r) last = r ->
  length k1 = bl -> length k2 = bl ->
  snd (last_xor bl last (length r) k1 k2) = last_block bl r k1 k2.
Proof.
  intros P Lr Ll Ef L1 L2. unfold last_xor, last_block. destruct (Nat.eqb_spec (length r) bl) as [E|E]; cbn [snd].
  - rewrite <- E at 1. rewrite Ef. rewrite (firstn_all2 k1) by lia. reflexivity.
  - rewrite (firstn_all2 k2) by lia. f_equal. unfold pad.
    assert (S1 : firstn (length r + 1) (set last (length r) 0x80) = r ++ [0x80]).
    { rewrite <- (firstn_skipn (length r) last) at 1. rewrite Ef. destruct (skipn (length r) last) as [|x t] eqn:Es.
      { apply (f_equal (@length N)) in Es. rewrite skipn_length in Es. cbn in Es. lia. }
      clear. induction r as [|a r IH]; [reflexivity|]. cbn [app length set Nat.add firstn]. f_equal. exact IH. }
    assert (Ls : length (set last (length r) 0x80) = length last) by apply set_length.
    set (l1 := set last (length r) 0x80) in *. clearbody l1. unfold overwrite. rewrite S1.
    rewrite (app_assoc (r ++ [128])). rewrite firstn_app_exact. { rewrite <- app_assoc. reflexivity. }
    rewrite !app_length, zeros_length. cbn [length]. lia.
Qed.
